(** Model of topologies/splitters.py (pure part): [split_range], [split_list] and the
    choice of the parts by the splitter classes. *)
From Verif Require Import PyBase.

(** splitters.py:30-53, [split_range(start0, stop0, step0, num_parts)].
    [range] raises ValueError for a zero step, [//] ZeroDivisionError for
    [num_parts = 0].  The two [assert] are kept. *)
Definition split_range (start0 stop0 step0 num_parts : Z) : result (list (Z * Z * Z)) :=
  if step0 =? 0 then Err ValueError else
  let num_elems := range_len start0 stop0 step0 in
  if num_parts =? 0 then Err ZeroDivisionError else
  let num_elems_per_parts_approx := num_elems / num_parts in
  let remainder := num_elems mod num_parts in
  if negb (num_elems =? num_elems_per_parts_approx * num_parts + remainder)
  then Err AssertionError else
  do num_elems_vs_ipart <-
    py_for (fun l ipart => py_update l ipart (fun n => n + 1))
           (range0 remainder)
           (py_repeat num_elems_per_parts_approx num_parts) ;
  if negb (zsum num_elems_vs_ipart =? num_elems) then Err AssertionError else
  let '(_, ranges) :=
    fold_left (fun '(start, ranges) num_elems_ipart =>
                 let stop := start + num_elems_ipart * step0 in
                 (stop, ranges ++ [(start, stop, step0)]))
              num_elems_vs_ipart (start0, []) in
  Ok ranges.

(** splitters.py:56-65, [split_list(sequence, num_parts)]. *)
Definition split_list {A} (sequence : list A) (num_parts : Z) : result (list (list A)) :=
  match sequence with
  | [] => Ok (map (fun _ => []) (range0 num_parts))
  | _ =>
    let num_parts := Z.min num_parts (zlen sequence) in
    if num_parts =? 0 then Err ZeroDivisionError else
    let k := zlen sequence / num_parts in
    let m := zlen sequence mod num_parts in
    Ok (map (fun i => py_slice sequence (i * k + Z.min i m)
                                        ((i + 1) * k + Z.min (i + 1) m))
            (range0 num_parts))
  end.

(** [range( *sss)] of a part. *)
Definition part_elems (p : Z * Z * Z) : list Z :=
  let '(start, stop, step) := p in range_list start stop step.

(** splitters.py:202-209 and 269-278: the parts which are empty ranges are skipped
    ([if len(range( *sss)) == 0: continue]); the remaining ones give the parameters of the
    successive worker processes. *)
Definition yielded_ranges (ranges : list (Z * Z * Z)) : list (Z * Z * Z) :=
  filter (fun '(a, b, c) => negb (range_len a b c =? 0)) ranges.

(** splitters.py:100-106, 119-125: empty lists are skipped but keep their number. *)
Definition numbered_lists {A} (lists : list (list A)) : list (nat * list A) :=
  filter (fun '(_, l) => match l with [] => false | _ => true end)
         (combine (seq 0 (List.length lists)) lists).

(** SplitterFromSeries.__init__ (splitters.py:170-194) and SplitterFromImages.__init__
    (splitters.py:239-261): what is split.  [complete] stands for
    [topology is not None and topology.how_saving == "complete" and hasattr(topology,
    "compute_indices_to_be_computed")]; [indices] is the list of the indices to be
    computed in this case.  The attributes [ranges] / [indices_lists] (one of them is
    None) are the sum type below. *)
Inductive split_result (A : Type) : Type :=
| Ranges (r : list (Z * Z * Z))
| IndicesLists (l : list (list A)).
Arguments Ranges {A} r.
Arguments IndicesLists {A} l.

Definition splitter_init {A} (complete : bool) (indices : list A)
           (ind_start ind_stop ind_step num_processes : Z) : result (split_result A) :=
  if complete then
    do lists <- split_list indices num_processes ; Ok (IndicesLists lists)
  else
    do ranges <- split_range ind_start ind_stop ind_step num_processes ; Ok (Ranges ranges).

(** Indices of the images of a serie with slicing tuples [s0 :: post]
    (fluiddyn's [SerieOfArraysFromFiles.iter_indices]: nested loops, first index
    slowest).  [post_indices] is the list of the index tuples of the remaining
    dimensions, the same in every process (splitters.py:256-261). *)
Definition images_indices (s0 : Z * Z * Z) (post_indices : list (list Z)) : list (list Z) :=
  flat_map (fun i => map (fun js => i :: js) post_indices) (part_elems s0).

(** Work done by the successive worker processes (splitters.py:202-209, 269-278 and
    108-125). *)
Definition series_processes (sr : split_result Z) : list (list Z) :=
  match sr with
  | Ranges r => map part_elems (yielded_ranges r)
  | IndicesLists l => map snd (numbered_lists l)
  end.

Definition images_processes (sr : split_result (list Z)) (post_indices : list (list Z))
  : list (list (list Z)) :=
  match sr with
  | Ranges r => map (fun p => images_indices p post_indices) (yielded_ranges r)
  | IndicesLists l => map snd (numbered_lists l)
  end.

(** multi_exec_async.py:142-158: the processes started by [_start_multiprocess_series].
    The worker process receives as [index_process] (the number in the names of its
    progress files, base.py:382-390) the number of its part in the whole list; empty
    parts are skipped.  The parent (base.py:510-521, 548) reads for the k-th element of
    [self.processes] the progress file number k. *)
Definition started_ranges (ranges : list (Z * Z * Z)) : list (nat * (Z * Z * Z)) :=
  filter (fun '(_, (a, b, c)) => negb (range_len a b c =? 0))
         (combine (seq 0 (List.length ranges)) ranges).

(** multi_exec_async.py:71, 80-112: [_start_multiprocess_first_queue] starts one process
    per part of the list of keys of the first queue (no test of emptiness; it is only
    called when there is at least one key, base.py:487). *)
Definition started_first_queue {A} (keys : list A) (nb_processes : Z)
  : result (list (nat * list A)) :=
  do parts <- split_list keys nb_processes ;
  Ok (combine (seq 0 (List.length parts)) parts).

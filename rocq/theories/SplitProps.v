(** Property theorems about the splitters: C01, C02, C03, C05. *)
From Verif Require Import PyBase SplitModel SplitProofs.

(** [range(start, stop, step)] of Python is the increasing (or decreasing) enumeration,
    without repetition, of the numbers [start + k*step], [k >= 0], before [stop].
    (independent characterisation of the [range_list] used in the statements) *)
Theorem range_list_meaning : forall start stop step, step <> 0 ->
  NoDup (range_list start stop step) /\
  (forall i x, nth_error (range_list start stop step) i = Some x -> x = start + Z.of_nat i * step) /\
  (forall x, In x (range_list start stop step) <->
     exists k, 0 <= k /\ x = start + k * step /\ (if 0 <? step then x < stop else stop < x)).
Proof. exact range_list_meaning_lemma. Qed.
Print Assumptions range_list_meaning.

(** C01. *)
Theorem C01_split_range : forall start stop step n, step <> 0 -> 1 <= n ->
  exists ranges,
    split_range start stop step n = Ok ranges /\
    zlen ranges = n /\
    Forall (fun '(_, _, s) => s = step) ranges /\
    List.concat (map part_elems ranges) = range_list start stop step /\
    (forall i j pi pj, (i <= j)%nat ->
       nth_error ranges i = Some pi -> nth_error ranges j = Some pj ->
       zlen (part_elems pj) <= zlen (part_elems pi) <= zlen (part_elems pj) + 1).
Proof. exact split_range_spec. Qed.
Print Assumptions C01_split_range.

Example C01_case :
  split_range 10 (-5) (-2) 3 = Ok [(10, 4, -2); (4, -2, -2); (-2, -6, -2)] /\
  map part_elems [(10, 4, -2); (4, -2, -2); (-2, -6, -2)] = [[10; 8; 6]; [4; 2; 0]; [-2; -4]] /\
  range_list 10 (-5) (-2) = [10; 8; 6; 4; 2; 0; -2; -4].
Proof. vm_compute. auto. Qed.

(** The rejected inputs. *)
Theorem C01_split_range_errors : forall start stop step n,
  (step = 0 -> split_range start stop step n = Err ValueError) /\
  (step <> 0 -> n = 0 -> split_range start stop step n = Err ZeroDivisionError) /\
  (step <> 0 -> n < 0 -> range_list start stop step <> [] ->
     split_range start stop step n = Err AssertionError).
Proof. exact split_range_errors. Qed.
Print Assumptions C01_split_range_errors.

(** C02. *)
Theorem C02_split_list : forall (A : Type) (l : list A) n, 1 <= n ->
  exists parts,
    split_list l n = Ok parts /\
    List.concat parts = l /\
    zlen parts = (match l with [] => n | _ => Z.min n (zlen l) end) /\
    (l <> [] -> Forall (fun p => p <> []) parts) /\
    (forall i j p q, (i <= j)%nat ->
       nth_error parts i = Some p -> nth_error parts j = Some q ->
       zlen q <= zlen p <= zlen q + 1).
Proof. exact @split_list_spec. Qed.
Print Assumptions C02_split_list.

Example C02_case :
  split_list [1; 2; 3; 4; 5; 6; 7] 3 = Ok [[1; 2; 3]; [4; 5]; [6; 7]] /\
  split_list [1; 2] 5 = Ok [[1]; [2]] /\ @split_list Z [] 2 = Ok [[]; []].
Proof. vm_compute. auto. Qed.

(** C03: the k-th started process has number k (ranges, index lists, keys of a queue),
    and it works on the k-th part. *)
Theorem C03_process_numbers_ranges : forall start stop step n ranges,
  step <> 0 -> 1 <= n -> split_range start stop step n = Ok ranges ->
  exists k, map fst (started_ranges ranges) = seq 0 k /\
            map snd (started_ranges ranges) = firstn k ranges /\
            Forall (fun p => part_elems p = []) (skipn k ranges).
Proof. exact started_ranges_prefix. Qed.
Print Assumptions C03_process_numbers_ranges.

Theorem C03_process_numbers_lists : forall (A : Type) (indices : list A) n lists,
  1 <= n -> split_list indices n = Ok lists ->
  exists k, map fst (numbered_lists lists) = seq 0 k /\
            map snd (numbered_lists lists) = firstn k lists /\
            Forall (fun p => p = []) (skipn k lists).
Proof. exact @numbered_lists_prefix. Qed.
Print Assumptions C03_process_numbers_lists.

Theorem C03_process_numbers_first_queue : forall (A : Type) (keys : list A) n,
  keys <> [] -> 1 <= n ->
  exists started, started_first_queue keys n = Ok started /\
    map fst started = seq 0 (List.length started) /\
    Forall (fun p => snd p <> []) started /\
    List.concat (map snd started) = keys.
Proof. exact @started_first_queue_spec. Qed.
Print Assumptions C03_process_numbers_first_queue.

Example C03_case :
  exists ranges, split_range 0 3 1 5 = Ok ranges /\
    started_ranges ranges = [(0%nat, (0, 1, 1)); (1%nat, (1, 2, 1)); (2%nat, (2, 3, 1))].
Proof. eexists. split; vm_compute; reflexivity. Qed.

(** C05: the processes started for a series.  [indices] is the list of the indices to be
    computed in "complete" mode (see C23); it has no repetition. *)
Theorem C05_series_parts_cover : forall complete indices a b s n sr,
  s <> 0 -> 1 <= n -> NoDup indices -> splitter_init complete indices a b s n = Ok sr ->
  (forall x, (exists p, In p (series_processes sr) /\ In x p) <->
             (if complete then In x indices else
                exists k, 0 <= k /\ x = a + k * s /\ (if 0 <? s then x < b else b < x))) /\
  (forall i j p q x, nth_error (series_processes sr) i = Some p ->
     nth_error (series_processes sr) j = Some q -> In x p -> In x q -> i = j) /\
  Forall (fun p => p <> [] /\ NoDup p) (series_processes sr) /\
  zlen (series_processes sr) <= n.
Proof. exact series_processes_cover. Qed.
Print Assumptions C05_series_parts_cover.

(** Same for series of images with several indices (the first one is split). *)
Theorem C05_images_parts_cover : forall complete indices post a b s n sr,
  s <> 0 -> 1 <= n -> splitter_init complete indices a b s n = Ok sr ->
  List.concat (images_processes sr post) =
    (if complete then indices else
       flat_map (fun i => map (fun js => i :: js) post) (range_list a b s)).
Proof. exact images_processes_concat. Qed.
Print Assumptions C05_images_parts_cover.

Theorem C05_splitter_total : forall (A : Type) complete (indices : list A) a b s n,
  s <> 0 -> 1 <= n -> exists sr, splitter_init complete indices a b s n = Ok sr.
Proof. exact @splitter_init_ok. Qed.
Print Assumptions C05_splitter_total.

Example C05_case :
  exists sr, splitter_init false [] 1 12 3 3 = Ok sr /\ series_processes sr = [[1; 4]; [7]; [10]].
Proof. eexists. split; vm_compute; reflexivity. Qed.
Example C05_case_complete :
  exists sr, splitter_init true [0; 3; 4; 8; 9] 0 12 1 2 = Ok sr /\ series_processes sr = [[0; 3; 4]; [8; 9]].
Proof. eexists. split; vm_compute; reflexivity. Qed.

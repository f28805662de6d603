(** Several calls of [compute] for one topology object: what the executors leave in [topology.series] and in [topology.works].

    Modelled: the part of [TopologyBaseFromSeries.init_series] (topologies/base.py:552-583) and of the executors which reads and writes
    [topology.series] (executors/base.py:345-363; multi_exec_async.py:63-158; multi_exec_subproc.py:27-121), with the splitters of SplitModel.
    The executor object is new at each call (topologies/base.py:388-397) and the topology object is the same.

    [series] is a [SeriesOfArrays] (package fluiddyn): the indices are [range(ind_start, ind_stop, ind_step)], or, after
    [set_index_series(l)], those of the list [l]; [items()] and [len] follow them.  The results are identified with the index of their
    serie.  Simplification: two calls are more than one second apart (see C20 for the names of the job directories). *)
From Verif Require Import PyBase SplitModel.
Open Scope Z_scope.

Record series := mk_series { s_start : Z; s_stop : Z; s_step : Z; s_index : option (list Z) }.

(** the indices given by [series.items()] *)
Definition items (s : series) : list Z :=
  match s_index s with Some l => l | None => range_list (s_start s) (s_stop s) (s_step s) end.

(** [series.set_index_series(l)] *)
Definition set_index_series (s : series) (l : list Z) : series := mk_series (s_start s) (s_stop s) (s_step s) (Some l).
(** [series.ind_start, series.ind_stop, series.ind_step = sss] *)
Definition set_range (s : series) (sss : Z * Z * Z) : series := let '(a, b, c) := sss in mk_series a b c (s_index s).

Definition result_exists (done : list Z) (i : Z) : bool := existsb (Z.eqb i) done.

(** compute_indices_to_be_computed (piv.py:166-174, preproc.py:267-281) *)
Definition compute_indices_to_be_computed (s : series) (done : list Z) : list Z :=
  filter (fun i => negb (result_exists done i)) (items s).

(** The executors: those which fill the queues in the main process (exec_sequential, exec_async, exec_async_multi, exec_async_servers...),
    multi_exec_async (or multi_exec_sync) and multi_exec_subproc (or multi_exec_subproc_sync), with their number of processes. *)
Inductive executor := InProcess | MultiAsync (n : Z) | Subproc (n : Z).

(** topologies/base.py:552-583, [init_series], with [complete] for [how_saving == "complete"] (the other case: neither "complete" nor
    "from_path_indices") *)
Definition init_series (complete : bool) (s : series) (done : list Z) : series :=
  match items s with
  | [] => s
  | _ => if complete then set_index_series s (compute_indices_to_be_computed s done) else s
  end.

(** multi_exec_async.py:142-147: [copy.copy(self.topology)] has the same object [series] *)
Definition launch_lists (s : series) (lists : list (list Z)) : series * list (list Z) :=
  fold_left (fun '(s, launched) index_series =>
    match index_series with
    | [] => (s, launched)
    | _ => let s' := set_index_series s index_series in (s', launched ++ [items s'])
    end) lists (s, []).
(** multi_exec_async.py:150-158 *)
Definition launch_ranges (s : series) (ranges : list (Z * Z * Z)) : series * list (list Z) :=
  fold_left (fun '(s, launched) start_stop_step =>
    let '(a, b, c) := start_stop_step in
    if range_len a b c =? 0 then (s, launched) else let s' := set_range s start_stop_step in (s', launched ++ [items s'])) ranges (s, []).

(** [compute]: the series after it, and the indices treated by each process. *)
Definition compute (complete : bool) (e : executor) (s : series) (done : list Z) : result (series * list (list Z)) :=
  match e with
  | InProcess => let s' := init_series complete s done in Ok (s', [items s'])
  | MultiAsync n =>
      if complete then
        let indices := compute_indices_to_be_computed s done in                (* executors/base.py:355-358 *)
        if zlen indices =? 0 then Ok (s, []) else                               (* executors/base.py:487-489 *)
        do lists <- split_list indices n ; Ok (launch_lists s lists)
      else
        if range_len (s_start s) (s_stop s) (s_step s) =? 0 then Ok (s, []) else
        do ranges <- split_range (s_start s) (s_stop s) (s_step s) n ; Ok (launch_ranges s ranges)
  | Subproc n =>
      do sr <- splitter_init complete (compute_indices_to_be_computed s done) (s_start s) (s_stop s) (s_step s) n ;
      Ok (s, series_processes sr)
  end.

(** ** What happens to a topology: computations, in which some items fail, and results removed from the directory *)
Inductive event := Compute (e : executor) (fails : Z -> bool) | Remove (i : Z).

(** the state: the series of the topology and the results in the directory *)
Definition after (complete : bool) (st : series * list Z) (ev : event) : result (series * list Z) :=
  let '(s, done) := st in
  match ev with
  | Compute e fails => do (s', treated) <- compute complete e s done ; Ok (s', filter (fun i => negb (fails i)) (List.concat treated) ++ done)
  | Remove i => Ok (s, filter (fun j => negb (j =? i)) done)
  end.

Fixpoint history (complete : bool) (st : series * list Z) (evs : list event) : result (series * list Z) :=
  match evs with [] => Ok st | ev :: r => do st' <- after complete st ev ; history complete st' r end.

(** ** Topologies without series (those working on images): the works; [true]: the work has an input queue *)

(** executors/base.py:365-378, [_init_num_expected_results_first_queue] *)
Definition init_first_queue (works : list bool) : result unit :=
  match works with
  | [] => Err IndexError
  | has_input :: _ => if has_input then Err NotImplementedError else Ok tt
  end.
(** multi_exec_async.py:68-112: [del topology.works[0]], the list being that of the topology *)
Definition compute_first_queue (has_splitter : bool) (e : executor) (works : list bool) : result (list bool) :=
  match e with
  | Subproc _ => if has_splitter then Ok works else Err ValueError      (* multi_exec_subproc.py:29-35 *)
  | InProcess => do _ <- init_first_queue works ; Ok works
  | MultiAsync _ => do _ <- init_first_queue works ; Ok (skipn 1 works)
  end.

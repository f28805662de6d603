(** Model of the life cycle of an execution: executors/base.py (class [ExecutorBase]),
    executors/exec_sequential.py:18-25 and 78-86, executors/exec_async.py:85-97.

    The works themselves (queues, schedules) are modelled in ExecModel.v; here the
    execution of the works is a list of batches of results appended to
    [topology.results] (one batch per turn of the loop of the sequential executor) and
    possibly an exception which escapes.  Printing, logging and the replacement of
    [sys.stdout] are not modelled. *)
From Verif Require Import PyBase StrModel FsModel.

(** An element of [topology.results]: a str, an object with an attribute [name] (a Path)
    or another object, of which only [str(...)] matters. *)
Inductive rval := RStr (s : chars) | RNamed (name : chars) | ROther (s : chars).

(** [work.output_queue]: None, one queue, or a tuple of queues. *)
Inductive outq := ONone | OOne | OTuple.

(** topologies/base.py:107-149, what the life cycle uses of a [Work].  [tw_call] is the
    exception raised by a call of the function on its queues, if any. *)
Record twork := mk_twork {
  tw_one_shot : bool;              (* "one shot" in work.kind *)
  tw_has_input : bool;             (* work.input_queue is not None *)
  tw_out : outq;
  tw_call : option exn
}.

(** What the life cycle uses of a topology. *)
Record topo := mk_topo {
  t_series : bool;                 (* hasattr(topology, "series") *)
  t_nb_series : nat;               (* number of series to be computed (base.py:351-363) *)
  t_nb_first : nat;                (* len of the first queue after the call of the first work *)
  t_works : list twork;
  t_batches : list (list rval);    (* results appended by the works *)
  t_escape : option exn;           (* exception escaping from the works (stop_if_error) *)
  t_results : bool;                (* hasattr(topology, "results") *)
  t_final : option (option exn);   (* final_seq_work: absent, or the exception it raises *)
  t_final_results : list rval      (* results appended by final_seq_work *)
}.

Inductive levent :=
| EvCall (i : nat)                 (* the function of the one shot work number i is called *)
| EvWorks                          (* the other works have been run *)
| EvFinal.                         (* topology.final_seq_work() is called *)

Record world := mk_world {
  w_fs : fs;
  w_trace : list levent;
  w_results : list rval
}.

(** The attributes of the executor. *)
Record exec := mk_exec {
  x_dir : path;                    (* path_dir_result *)
  x_postfix : chars;               (* _unique_postfix *)
  x_job : path;                    (* path_job_data *)
  x_lock : path;                   (* _path_lockfile *)
  x_final_run : option bool;       (* _final_seq_work_run (None: not yet an attribute) *)
  x_saved : option nat             (* _len_saved_results (None: not yet an attribute) *)
}.

(** Computations which read and modify the executor and the world and may raise. *)
Definition st : Type := (exec * world)%type.
Definition M (A : Type) : Type := st -> st * result A.
Definition ret {A} (a : A) : M A := fun s => (s, Ok a).
Definition raise_ {A} (e : exn) : M A := fun s => (s, Err e).
Definition mbind {A B} (m : M A) (k : A -> M B) : M B :=
  fun s => match m s with
           | (s', Ok a) => k a s'
           | (s', Err e) => (s', Err e)
           end.
Notation "'let!' x := m 'in' k" := (mbind m (fun x => k))
  (at level 200, x pattern, m at level 100, k at level 200, right associativity).
Definition get : M st := fun s => (s, Ok s).
Definition set_x (f : exec -> exec) : M unit := fun '(x, w) => ((f x, w), Ok tt).
Definition on_fs (f : fs -> result fs) : M unit :=
  fun '(x, w) => match f (w_fs w) with
                 | Ok g => ((x, mk_world g (w_trace w) (w_results w)), Ok tt)
                 | Err e => ((x, w), Err e)
                 end.
Definition emit (e : levent) : M unit :=
  fun '(x, w) => ((x, mk_world (w_fs w) (w_trace w ++ [e]) (w_results w)), Ok tt).
Definition add_results (l : list rval) : M unit :=
  fun '(x, w) => ((x, mk_world (w_fs w) (w_trace w) (w_results w ++ l)), Ok tt).
Definition raise_opt (o : option exn) : M unit :=
  match o with None => ret tt | Some e => raise_ e end.

(** base.py:85-102, [_init_log_path].  [time_pid] is [f"{time_as_str()}_{os.getpid()}"].
    The fuel (number of entries of the file system) is always enough. *)
Definition job_name (postfix : chars) : chars := of_string "job_" ++ postfix.
Definition log_name (postfix : chars) : chars := of_string "log_" ++ postfix.
Definition lock_name : chars := of_string "is_running.lock".
Definition time_end_name : chars := of_string "time_end.txt".

Fixpoint log_path_loop (fuel : nat) (f : fs) (dir : path) (postfix0 : chars) (index : Z)
  : result chars :=
  let index' := index + 1 in
  let postfix := postfix0 ++ py_str index' in
  if fs_exists f (log_name postfix :: dir) then
    match fuel with
    | O => Err OutOfFuel
    | S fuel' => log_path_loop fuel' f dir postfix0 index'
    end
  else Ok postfix.

Definition init_log_path (f : fs) (dir : path) (time_pid : chars) : result exec :=
  if fs_exists f (job_name time_pid :: dir) then
    do postfix <- log_path_loop (List.length f) f dir time_pid 0 ;
    let job := log_name postfix :: dir in
    Ok (mk_exec dir postfix job (lock_name :: job) None None)
  else
    let job := job_name time_pid :: dir in
    Ok (mk_exec dir time_pid job (lock_name :: job) None None).

(** base.py:244-262, [_save_lock_file] ([now]: the text written). *)
Definition save_lock_file (now : chars) : M unit :=
  let! (x, w) := get in
  if fs_exists (w_fs w) (x_lock x) then raise_ RuntimeError
  else on_fs (fun f => fs_write f (x_lock x) now).

(** base.py:260-265, [_release_lock]. *)
Definition release_lock (now : chars) : M unit :=
  let! (x, w) := get in
  if fs_exists (w_fs w) (x_lock x) then
    let! _ := on_fs (fun f => Ok (fs_unlink f (x_lock x))) in
    on_fs (fun f => fs_write f (time_end_name :: parent (x_lock x)) now)
  else ret tt.

(** base.py:267-278, [_save_job_data]; [params] and [info] are the texts of the two xml
    files. *)
Definition save_job_data (now params info : chars) : M unit :=
  let! (x, _) := get in
  let job := job_name (x_postfix x) :: x_dir x in
  let! _ := set_x (fun x => mk_exec (x_dir x) (x_postfix x) job (x_lock x) (x_final_run x) (x_saved x)) in
  let! _ := on_fs (fun f => fs_mkdir f job false) in
  let! _ := save_lock_file now in
  let! _ := on_fs (fun f => fs_write f (of_string "params.xml" :: job) params) in
  on_fs (fun f => fs_write f (of_string "info.xml" :: job) info).

(** base.py:345-378, [_init_num_expected_results]: the number of expected results; a
    topology without series has its first work called. *)
Definition init_num_expected_results (t : topo) : M nat :=
  if t_series t then ret (t_nb_series t)
  else match t_works t with
       | [] => raise_ IndexError
       | w0 :: _ =>
         if tw_has_input w0 then raise_ NotImplementedError
         else match tw_out w0 with
              | OTuple => raise_ NotImplementedError
              | ONone =>                            (* copy of None has no keys *)
                let! _ := emit (EvCall 0) in
                let! _ := raise_opt (tw_call w0) in
                raise_ AttributeError
              | OOne =>
                let! _ := emit (EvCall 0) in
                let! _ := raise_opt (tw_call w0) in
                ret (t_nb_first t)
              end
       end.

(** base.py:380-391 [_init_results_log], with exec_sequential.py:82-86. *)
Definition init_results_log : M unit :=
  set_x (fun x => mk_exec (x_dir x) (x_postfix x) (x_job x) (x_lock x) (x_final_run x) (Some O)).

(** base.py:210-217, [_init_compute]; [sequential] tells whether the executor is the
    sequential one, whose [_save_job_data] also initialises the log of the results. *)
Definition init_compute (sequential : bool) (now params info : chars) (t : topo) : M nat :=
  let! _ := set_x (fun x => mk_exec (x_dir x) (x_postfix x) (x_job x) (x_lock x) (Some false) (x_saved x)) in
  let! n := init_num_expected_results t in
  if Nat.eqb n 0 then ret n
  else
    let! _ := save_job_data now params info in
    let! _ := if sequential && t_results t then init_results_log else ret tt in
    ret n.

(** base.py:309-318, [exec_one_shot_works]. *)
Fixpoint one_shot_loop (i : nat) (l : list twork) : M unit :=
  match l with
  | [] => ret tt
  | w :: l' =>
    let! _ := if tw_one_shot w then
                let! _ := emit (EvCall i) in raise_opt (tw_call w)
              else ret tt in
    one_shot_loop (S i) l'
  end.
Definition exec_one_shot_works (t : topo) : M unit := one_shot_loop 0 (t_works t).

(** base.py:393-414, [_save_results_names], run without interruption: the names of the new
    results (the branch is chosen with the type of the first one).  [path_name] is
    [Path(s).name]. *)
Section Names.
Variable path_name : chars -> chars.

Definition new_names (l : list rval) : result (list chars) :=
  match l with
  | [] => Ok []
  | RStr _ :: _ =>
    map_result (fun r => match r with
                         | RStr s => Ok (path_name s)
                         | RNamed n => Ok n              (* Path(path).name *)
                         | ROther _ => Err TypeError
                         end) l
  | RNamed _ :: _ =>
    map_result (fun r => match r with
                         | RNamed n => Ok n
                         | RStr _ | ROther _ => Err AttributeError
                         end) l
  | ROther _ :: _ =>
    Ok (map (fun r => match r with RStr s | ROther s | RNamed s => s end) l)
  end.

Definition results_path (job : path) : path := of_string "results.txt" :: job.
Definition len_results_path (job : path) : path := of_string "len_results.txt" :: job.

Definition save_results_names : M unit :=
  let! (x, w) := get in
  match x_saved x with
  | None => raise_ AttributeError
  | Some n =>
    let new_results := skipn n (w_results w) in
    let n' := List.length (w_results w) in
    let! _ := set_x (fun x => mk_exec (x_dir x) (x_postfix x) (x_job x) (x_lock x) (x_final_run x) (Some n')) in
    let! _ := on_fs (fun f => fs_write f (len_results_path (x_job x)) (py_str (Z.of_nat n') ++ [newline])) in
    match new_results with
    | [] => ret tt
    | _ =>
      match new_names new_results with
      | Err e => raise_ e
      | Ok names =>
        on_fs (fun f => fs_append f (results_path (x_job x)) (join [newline] names ++ [newline]))
      end
    end
  end.

(** exec_sequential.py:27-76, [_run_works], seen as batches of results: each turn of the
    loop ends with [_save_results_names] when the topology has results; an exception which
    escapes prevents the last one. *)
Fixpoint seq_batches (has_results : bool) (l : list (list rval)) (escape : option exn) : M unit :=
  match l with
  | [] => ret tt
  | b :: l' =>
    let! _ := add_results b in
    match l', escape with
    | [], Some e => raise_ e
    | _, _ =>
      let! _ := if has_results then save_results_names else ret tt in
      seq_batches has_results l' escape
    end
  end.

(** base.py:286-292, [_run_final_seq_work]. *)
Definition run_final_seq_work (t : topo) : M unit :=
  match t_final t with
  | None => ret tt
  | Some escape =>
    let! (x, _) := get in
    match x_final_run x with
    | None => raise_ AttributeError
    | Some true => ret tt
    | Some false =>
      let! _ := emit EvFinal in
      let! _ := raise_opt escape in
      let! _ := add_results (t_final_results t) in
      set_x (fun x => mk_exec (x_dir x) (x_postfix x) (x_job x) (x_lock x) (Some true) (x_saved x))
    end
  end.

(** base.py:294-299, [_finalize_compute]. *)
Definition finalize_compute (now : chars) (t : topo) : M unit :=
  let! _ := run_final_seq_work t in
  release_lock now.

(** exec_sequential.py:18-25, [ExecutorSequential.compute]. *)
Definition compute_sequential (now params info now' : chars) (t : topo) : M unit :=
  let! _ := init_compute true now params info t in
  let! _ := exec_one_shot_works t in
  let! _ := seq_batches (t_results t) (t_batches t) (t_escape t) in
  let! _ := emit EvWorks in
  let! _ := finalize_compute now' t in
  if t_results t then save_results_names else ret tt.

(** exec_async.py:85-97, [ExecutorAsync.compute] (no log of the results). *)
Definition compute_async (now params info now' : chars) (t : topo) : M unit :=
  let! _ := init_compute false now params info t in
  let! _ := exec_one_shot_works t in
  let! _ := add_results (List.concat (t_batches t)) in
  let! _ := raise_opt (t_escape t) in
  let! _ := emit EvWorks in
  finalize_compute now' t.

End Names.

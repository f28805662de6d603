(** gui/monitor.py: [MonitorApp] (what is read from the directory of the job and what is displayed) and the files of the job
    which it reads (executors/base.py, executors/exec_sequential.py, executors/exec_async_seq_for_multi.py).

    The job and the monitor are different processes.  Each access of the monitor to the file system is one atomic step and
    any number of steps of the job can happen between two accesses: the n-th access sees the n-th state of a history
    [h : nat -> job] in which each state is reached from the previous one ([history]).

    Not modelled: the widgets of Textual, info.xml and params.xml (taken as read: [time_start], [nb_cpus_allowed]), the text
    of the durations (C44). *)
From Coq Require Import QArith Qround.
From Verif Require Import PyBase StrModel.
Open Scope Z_scope.

(** ** The job *)

(** A small text file written with [open(path, "w")] then one [write] flushed by the end of the [with]: absent, empty (opened
    for writing, the value not yet written) or with its value. *)
Inductive file (A : Type) := Absent | Empty (next : A) | Has (a : A).
Arguments Absent {A}. Arguments Empty {A} _. Arguments Has {A} _.

(** The directory job_...: the lock, time_end.txt (the time in seconds) and, for each process, its len_results*.txt.  The
    list is in the order of the names. *)
Record job := mk_job { j_lock : bool; j_end : file Z; j_len : list (file Z) }.

Definition set_len (j : job) (i : nat) (f : file Z) : job := mk_job (j_lock j) (j_end j) (update_nth i (fun _ => f) (j_len j)).

(** number of results whose names the process has counted in its file *)
Definition counted (f : file Z) : Z := match f with Absent => 0 | Empty n => n | Has n => n end.

(** One step of a job whose process [i] computes [nth i total 0] results.
    - base.py:393-399, [_save_results_names] and exec_async_seq_for_multi.py:74-79, [_init_compute]: opening then writing;
    - base.py:260-265, [_release_lock], by the main process when the processes are finished
      (base.py:586-600): the lock is removed, then time_end.txt is opened, then written.
    - exec_sequential.py:18-25, [compute] of the sequential executor: the last [_save_results_names] comes after
      [_finalize_compute], thus after the lock is removed ([sequential]). *)
Inductive jstep (sequential : bool) (total : list Z) : job -> job -> Prop :=
| JCreate i j m : nth_error (j_len j) i = Some Absent -> j_lock j = true ->
    0 <= m <= nth i total 0 -> (sequential = false -> m = 0) -> jstep sequential total j (set_len j i (Empty m))
| JOpen i j n m : nth_error (j_len j) i = Some (Has n) -> n <= m <= nth i total 0 ->
    (j_lock j = true \/ sequential = true) -> jstep sequential total j (set_len j i (Empty m))
| JWrite i j n : nth_error (j_len j) i = Some (Empty n) -> jstep sequential total j (set_len j i (Has n))
| JUnlock j : j_lock j = true -> (forall i f, nth_error (j_len j) i = Some f -> f = Has (nth i total 0)) ->
    jstep sequential total j (mk_job false (j_end j) (j_len j))
| JEndOpen j t : j_lock j = false -> j_end j = Absent -> jstep sequential total j (mk_job false (Empty t) (j_len j))
| JEndWrite j t : j_end j = Empty t -> jstep sequential total j (mk_job (j_lock j) (Has t) (j_len j)).

Inductive jsteps (sequential : bool) (total : list Z) : job -> job -> Prop :=
| jrefl j : jsteps sequential total j j
| jtrans j k l : jstep sequential total j k -> jsteps sequential total k l -> jsteps sequential total j l.

(** Start of the job: base.py:267-271, [_save_job_data]. *)
Definition job_start (nb : nat) : job := mk_job true Absent (repeat Absent nb).

Definition history (sequential : bool) (total : list Z) (h : nat -> job) : Prop :=
  jsteps sequential total (job_start (List.length total)) (h O) /\ forall n, jsteps sequential total (h n) (h (S n)).

(** ** The monitor *)

(** [Started since] or [Total duration], the duration and the cost per result (lines 279-295) *)
Record label := mk_label { l_running : bool; l_duration : Z; l_cost : option Q }.

Record app := mk_app {
  a_paths : list nat;           (* self.paths_len_results: indices of the files found by glob *)
  a_num_results : Z;
  a_running : bool;
  a_time_end : option Z;
  a_shown_results : Z;          (* widgets: the digits and the progress bar *)
  a_shown_running : bool;       (* label_is_running *)
  a_times : label;              (* label_times *)
  a_paused : bool               (* the timer *)
}.

Section Monitor.
Variable time_start : Z.
Variable nb_cpus_allowed : Z.
Variable h : nat -> job.
(** the clock at the n-th access *)
Variable clock : nat -> Z.

Fixpoint glob_from (i : nat) (l : list (file Z)) : list nat :=
  match l with
  | [] => []
  | Absent :: l' => glob_from (S i) l'
  | _ :: l' => i :: glob_from (S i) l'
  end.

(** lines 158-166, [detect_results]: one access per file, from the access number [n]; the result is the number and the
    next access.  Files are never removed. *)
Fixpoint detect_results (n : nat) (paths : list nat) : result (Z * nat) :=
  match paths with
  | [] => Ok (0, n)
  | i :: paths' =>
    match nth_error (j_len (h n)) i with
    | Some (Has r) => do (s, n') <- detect_results (S n) paths' ; Ok (r + s, n')
    | Some (Empty _) => do (s, n') <- detect_results (S n) paths' ; Ok (0 + s, n')
    | _ => Err FileNotFoundError
    end
  end.

(** lines 262-277, [load_time_max]: the time, the attribute [time_end] and the next access.  [exists] and [read_text] are two
    accesses.  [strptime] of an empty text raises ValueError. *)
Definition load_time_max (n : nat) (time_end : option Z) : result (Z * option Z * nat) :=
  match time_end with
  | Some t => Ok (t, time_end, n)
  | None =>
    match j_end (h n) with
    | Absent => Ok (clock n, None, S n)
    | _ => match j_end (h (S n)) with
           | Has t => Ok (t, Some t, S (S n))
           | Empty _ => Err ValueError
           | Absent => Err FileNotFoundError
           end
    end
  end.

(** lines 279-295, [compute_times_str] *)
Definition compute_times_str (n : nat) (running : bool) (num_results : Z) (time_end : option Z)
    : result (label * option Z * nat) :=
  do (t, time_end', n') <- load_time_max n time_end ;
  let duration := t - time_start in
  let cost := if num_results =? 0 then None
              else Some (inject_Z (duration * nb_cpus_allowed) / inject_Z num_results)%Q in
  Ok (mk_label running duration cost, time_end', n').

(** lines 113-156, [__init__]: the lock (access [n]), the glob (access [n+1]) and the results; then lines 173-196, [compose],
    and 222-239, [on_mount]. *)
Definition start (n : nat) : result (app * nat) :=
  let running := j_lock (h n) in
  let paths := glob_from 0 (j_len (h (S n))) in
  match paths with
  | [] => Err AssertionError                                   (* assert self.paths_len_results *)
  | _ =>
    do (num, n1) <- detect_results (S (S n)) paths ;
    do (lab, te, n2) <- compute_times_str n1 running num None ;
    Ok (mk_app paths num running te num running lab (negb running), n2)
  end.

(** lines 251-260, [update_info] *)
Definition update_info (n : nat) (a : app) : result (app * nat) :=
  do (num, n1) <- detect_results n (a_paths a) ;
  do (lab, te, n2) <- compute_times_str n1 (a_running a) num (a_time_end a) ;
  let running := j_lock (h n2) in
  let n3 := S n2 in
  Ok (mk_app (a_paths a) num running te num (if running then a_shown_running a else running) lab (negb running), n3).

(** The timer calls [update_info] until it is paused (lines 236-239): [k] ticks at most. *)
Fixpoint ticks (k : nat) (n : nat) (a : app) : result (app * nat) :=
  match k with
  | O => Ok (a, n)
  | S k' => if a_paused a then Ok (a, n)
            else do (a', n') <- update_info n a ; ticks k' n' a'
  end.

(** A session with [k] ticks. *)
Definition session (k : nat) (n : nat) : result (app * nat) :=
  do (a, n1) <- start n ; ticks k n1 a.
End Monitor.

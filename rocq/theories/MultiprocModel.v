(** executors/exec_async_multiproc.py: one item handled by [ExecutorAsyncMultiproc.async_run_work_cpu] (lines 38-136): the
    processes started for the item, the pipe and the event which they share, the parent.

    The children and the parent run concurrently: a run is any sequence of steps.  Simplifications: the operating system may
    delay a child for any time (so the wait of one second, line 88, may end without the event being set whatever the
    progress of the child); [terminate] stops a child at any point except after its end; the pipe is large enough for the
    messages; the input queue, the log and the counters are those of ExecutorAsync (C08, C11). *)
From Verif Require Import PyBase.
Open Scope Z_scope.

Section Multiproc.
Variable V : Type.
(** What the function of the work gives on the item: a value or an exception (both are sent, lines 25-32), something which
    cannot be pickled (then [send] raises and the process dies) or the death of the process (signal, out of memory). *)
Inductive outcome := OValue (v : V) | OExc (e : exn) | OUnpicklable | ODies.
Variable out : outcome.

Inductive message := MValue (v : V) | MExc (e : exn).

(** A child (lines 22-32): not yet at [event.set()], before or in the function, done (result sent or dead), terminated. *)
Inductive child := CBoot | CRun | CSent | CDead | CKilled.

(** The parent, in the thread of [run_process] (lines 73-120). *)
Inductive parent :=
| PStart (attempt : nat)          (* before the start of the process of this attempt *)
| PWait (attempt : nat)           (* event.wait(1) *)
| PTerm (attempt : nat)           (* the event was not set: process.terminate() *)
| PRecv (attempt : nat)           (* parent_conn.recv() *)
| PJoin (attempt : nat) (m : message)  (* process.join(10 * sleep_time) *)
| PDone (m : message)
| PFail.                          (* RuntimeError *)

Record mp := mk_mp { m_event : bool; m_pipe : list message; m_children : list child; m_parent : parent; m_calls : nat }.
Definition mp_init : mp := mk_mp false [] [] (PStart 0) 0.

Definition set_child (s : mp) (i : nat) (c : child) : list child := update_nth i (fun _ => c) (m_children s).
Definition set_parent (s : mp) (p : parent) : mp := mk_mp (m_event s) (m_pipe s) (m_children s) p (m_calls s).

(** lines 100-105: [for index_attempt in range(10)] *)
Definition next_attempt (attempt : nat) : parent := if (S attempt <? 10)%nat then PStart (S attempt) else PFail.

(** the message sent, if any *)
Definition sent : option message := match out with OValue v => Some (MValue v) | OExc e => Some (MExc e) | _ => None end.

Inductive mstep : mp -> mp -> Prop :=
(** line 24: the child sets the event and calls the function (line 27) *)
| MBoot s i : nth_error (m_children s) i = Some CBoot ->
    mstep s (mk_mp true (m_pipe s) (set_child s i CRun) (m_parent s) (S (m_calls s)))
(** lines 27-32 *)
| MSend s i m : nth_error (m_children s) i = Some CRun -> sent = Some m ->
    mstep s (mk_mp (m_event s) (m_pipe s ++ [m]) (set_child s i CSent) (m_parent s) (m_calls s))
| MDie s i : nth_error (m_children s) i = Some CRun -> sent = None ->
    mstep s (mk_mp (m_event s) (m_pipe s) (set_child s i CDead) (m_parent s) (m_calls s))
(** lines 79-85 *)
| MStart s a : m_parent s = PStart a ->
    mstep s (mk_mp (m_event s) (m_pipe s) (m_children s ++ [CBoot]) (PWait a) (m_calls s))
(** line 87 *)
| MWaitOk s a : m_parent s = PWait a -> m_event s = true -> mstep s (set_parent s (PRecv a))
| MWaitNo s a : m_parent s = PWait a -> m_event s = false -> mstep s (set_parent s (PTerm a))
(** lines 92-93: the child is stopped, except if it is finished *)
| MTerm s a c : m_parent s = PTerm a -> nth_error (m_children s) a = Some c ->
    mstep s (mk_mp (m_event s) (m_pipe s)
              (match c with CBoot | CRun => set_child s a CKilled | _ => m_children s end) (next_attempt a) (m_calls s))
(** line 115: the first message of the pipe; blocks while the pipe is empty (the parent keeps child_conn open: no EOFError) *)
| MRecv s a m rest : m_parent s = PRecv a -> m_pipe s = m :: rest ->
    mstep s (mk_mp (m_event s) rest (m_children s) (PJoin a m) (m_calls s))
(** lines 118-121: the child is ended, or it is terminated after the delay *)
| MJoin s a m c : m_parent s = PJoin a m -> nth_error (m_children s) a = Some c ->
    mstep s (mk_mp (m_event s) (m_pipe s)
              (match c with CBoot | CRun => set_child s a CKilled | _ => m_children s end) (PDone m) (m_calls s)).

Inductive msteps : mp -> mp -> Prop :=
| mrefl s : msteps s s
| mtrans s t u : msteps s t -> mstep t u -> msteps s u.
Definition reachable (s : mp) : Prop := msteps mp_init s.
End Multiproc.
Arguments OValue {V}. Arguments OExc {V}. Arguments OUnpicklable {V}. Arguments ODies {V}.
Arguments MValue {V}. Arguments MExc {V}.
Arguments PStart {V}. Arguments PWait {V}. Arguments PTerm {V}. Arguments PRecv {V}. Arguments PJoin {V}. Arguments PDone {V}. Arguments PFail {V}.
Arguments mk_mp {V}. Arguments m_event {V}. Arguments m_pipe {V}. Arguments m_children {V}. Arguments m_parent {V}. Arguments m_calls {V}.
Arguments mp_init {V}. Arguments mstep {V}. Arguments msteps {V}. Arguments reachable {V}. Arguments sent {V}.

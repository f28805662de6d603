(** The outputs of the processes of multi_exec_subproc: executors/multi_exec_subproc.py:103-113 (Popen with stdout and
    stderr in pipes), executors/base.py:136-148 and 280-284 (sys.stdout and sys.stderr of an executor),
    executors/exec_async_seq_for_multi.py:55-67 (sys.stdout of the executor of a process), executors/base.py:528-573 (the
    parent waits for the ends of the processes).

    Simplifications.  A process is the list of what it writes, item after item; a write in a pipe is done byte after byte,
    as the system does it when the pipe is full, and blocks while the pipe is full; the buffers of python are not modelled
    (they are emptied at the latest at the end of the process, so that the totals are the same).  The parent reads nothing
    in the pipes before the end of the process (base.py:542, process.stderr.read(), only after it has ended). *)
From Verif Require Import PyBase.
Local Open Scope nat_scope.

(** [Print n]: n bytes on sys.stdout; [PrintErr n]: on sys.stderr; [NewExecutor r]: ExecutorAsyncSeqForMulti(topology), [r]:
    hasattr(topology, "results"); [EndCompute]: _reset_std_as_default *)
Inductive action := Print (n : nat) | PrintErr (n : nat) | NewExecutor (has_results : bool) | EndCompute.

(** [c_stdout]: sys.stdout writes in the pipe; [c_old]: the same for _old_stdout; [c_out], [c_err]: bytes in the pipes *)
Record child := mk_child { c_todo : list action; c_stdout : bool; c_old : bool; c_out : nat; c_err : nat }.
(** [s_returned]: compute has gone out of its loop *)
Record system := mk_system { s_children : list child; s_returned : bool }.

Section Pipe.
(** the capacity of a pipe *)
Variable cap : nat.

(** one step of a process; [None]: it is blocked, or it has ended *)
Definition cstep (c : child) : option child :=
  match c_todo c with
  | [] => None
  | Print n :: l =>
    if c_stdout c then
      match n with
      | O => Some (mk_child l (c_stdout c) (c_old c) (c_out c) (c_err c))
      | S n' => if c_out c <? cap then Some (mk_child (Print n' :: l) (c_stdout c) (c_old c) (S (c_out c)) (c_err c)) else None
      end
    else Some (mk_child l (c_stdout c) (c_old c) (c_out c) (c_err c))
  | PrintErr n :: l =>
    (* base.py:148: MultiFile([stderr, log]) *)
    match n with
    | O => Some (mk_child l (c_stdout c) (c_old c) (c_out c) (c_err c))
    | S n' => if c_err c <? cap then Some (mk_child (PrintErr n' :: l) (c_stdout c) (c_old c) (c_out c) (S (c_err c))) else None
    end
  | NewExecutor r :: l =>
    (* base.py:136-147: MultiFile([stdout, log]); exec_async_seq_for_multi.py:57-67: the log file alone with results *)
    Some (mk_child l (if r then false else c_stdout c) (c_stdout c) (c_out c) (c_err c))
  | EndCompute :: l => Some (mk_child l (c_old c) (c_old c) (c_out c) (c_err c))
  end.

(** process.poll() is not None *)
Definition ended (c : child) : bool := match c_todo c with [] => true | _ => false end.

Inductive step : system -> system -> Prop :=
| SChild cs k c c' : nth_error cs k = Some c -> cstep c = Some c' -> step (mk_system cs false) (mk_system (firstn k cs ++ c' :: skipn (S k) cs) false)
(* base.py:535: while running_processes *)
| SParent cs : forallb ended cs = true -> step (mk_system cs false) (mk_system cs true).

Inductive reach : system -> system -> Prop :=
| r_refl s : reach s s
| r_step s s' s2 : reach s s' -> step s' s2 -> reach s s2.

(** the processes just started by Popen *)
Definition start (programs : list (list action)) : system :=
  mk_system (map (fun p => mk_child p true true 0 0) programs) false.
End Pipe.

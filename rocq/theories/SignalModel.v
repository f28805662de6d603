(** Model of the request to stop: signal 12 received by an executor.

    executors/base.py:183-195 (handler of every executor), exec_async.py:110-206 and 314-342
    (where the flag is read, in [ExecModel]), executors/base.py:493-560 and
    multi_exec_async.py:150-175 (executor with several processes). *)
From Verif Require Import PyBase QueueModel ExecModel.

Section Signal.
Context {V : Type}.

(** A step of the program, or the reception of the signal (at any time: the handler is run
    by the interpreter between two instructions of the main thread). *)
Inductive slabel := Prog (l : label) | Signal.

(** [handler_signals] (executors/base.py:186-193): [self._has_to_stop = True].  The message
    which is printed is not modelled. *)
Definition receive (s : ast V) : ast V :=
  mk_ast (a_qs s) (a_tasks s) (a_next s) (a_cpu s) (a_io s) true
         (a_exited s) (a_poll_done s) (a_tr s) (a_raised s).

Definition sstep (p : params V) (s : ast V) (l : slabel) : option (ast V) :=
  match l with
  | Prog l => step p s l
  | Signal => Some (receive s)
  end.

(** Executions during which signals can be received (possibly several). *)
Inductive sreachable (p : params V) (s0 : ast V) : ast V -> Prop :=
| sreach_init : sreachable p s0 s0
| sreach_step s l s' : sreachable p s0 s -> sstep p s l = Some s' -> sreachable p s0 s'.

End Signal.

(** ** Several processes *)

(** A child process: running, ended, ended and waited for ([waitpid] done by [exitcode] /
    [poll], its pid does not exist any more). *)
Inductive pstate := PRuns | PEnded | PReaped.

(** [os.kill(process.pid, signal_number)]: [ProcessLookupError] if there is no such process
    (UserError 64; the reuse of the pid by another process is not modelled).  The result tells
    if the process has received the signal. *)
Definition os_kill (p : pstate) : result bool :=
  match p with
  | PRuns => Ok true
  | PEnded => Ok false
  | PReaped => Err (UserError 64)
  end.

(** [for process in self.processes: os.kill(process.pid, signal_number)] (base.py:502-503):
    for each process, has it received the signal?, and the exception raised by the handler *)
Fixpoint kill_all (l : list pstate) : list bool * option exn :=
  match l with
  | [] => ([], None)
  | p :: l =>
    match os_kill p with
    | Ok b => let '(bs, e) := kill_all l in (b :: bs, e)
    | Err e => (false :: map (fun _ => false) l, Some e)
    end
  end.

Record mstate := mk_mstate {
  m_procs : list pstate;
  m_asked : list bool;         (* has process i received the signal? *)
  m_raised : option exn        (* exception which leaves [compute] *)
}.

(** What happens during the loop [while running_processes] (base.py:530-560). *)
Inductive mevent :=
| Ends (i : nat)               (* process i ends *)
| Turn                         (* one turn of the loop: return codes of all processes *)
| Sig.                         (* the parent receives the signal *)

Definition ends (i : nat) (l : list pstate) : list pstate :=
  match nth_error l i with
  | Some PRuns => firstn i l ++ PEnded :: skipn (S i) l
  | _ => l
  end.

(** [_poll_return_code(process)] for all running processes (base.py:533-543) *)
Definition reap (p : pstate) : pstate := match p with PEnded => PReaped | _ => p end.

(** After an exception raised in the handler, [compute] has been left: nothing changes any
    more but the processes. *)
Definition mstep (s : mstate) (e : mevent) : mstate :=
  match e with
  | Ends i => mk_mstate (ends i (m_procs s)) (m_asked s) (m_raised s)
  | Turn => match m_raised s with
            | Some _ => s
            | None => mk_mstate (map reap (m_procs s)) (m_asked s) None
            end
  | Sig => match m_raised s with
           | Some _ => s
           | None => let '(bs, e) := kill_all (m_procs s) in
                     mk_mstate (m_procs s)
                       (map (fun '(a, b) => orb a b) (combine (m_asked s) bs)) e
           end
  end.

(** [compute] with [n] processes just started *)
Definition mrun (n : nat) (h : list mevent) : mstate :=
  fold_left mstep h (mk_mstate (List.repeat PRuns n) (List.repeat false n) None).

(** Model of the interruption with Ctrl+C (SIGINT).

    executors/exec_async.py:72-83 (handler installed by the executors exec_async and the
    derived ones; exec_async_servers.py:92-104 installs a handler which does the same thing
    after the request to the servers to stop), exec_async.py:85-105 ([compute]),
    exec_sequential.py:19-72 (no handler: the one which is already installed, or the default
    one of Python), executors/base.py:210-318 (lock, one shot works, [_finalize_compute]).

    Trusted description of trio: when the scope of the nursery is cancelled, a task gets
    [Cancelled] at its next checkpoint; [trio.sleep] is a checkpoint; [to_thread.run_sync] first
    does a checkpoint and, once the thread is started, waits for the end of the function (the
    threads are not abandoned) and returns its result.  A signal received while the code of trio
    itself (and not the one of a task) is being executed is not modelled. *)
From Verif Require Import PyBase QueueModel ExecModel SignalModel.

Section Async.
Context {V : Type}.

(** The handler (exec_async.py:72-78) run while the main thread executes one of the tasks:
    [_has_to_stop] is set ([receive]), the scope is cancelled and [KeyboardInterrupt] is
    raised in this task, which disappears: before or after the effects of its present step, and
    for the function of a global work, with any partial effect on the queues. *)
Inductive interrupt (p : params V) (s : ast V) : ast V -> Prop :=
| i_loop i s1 : a_exited s i = false -> (i < List.length (p_works p))%nat ->
    (s1 = s \/ check p i s = Some s1) -> interrupt p s (exit_work i (receive s1))
| i_global i w ready g qs : a_exited s i = false -> nth_error (p_works p) i = Some w ->
    w_body w = GlobalWork ready g -> ready (a_qs s) = true ->
    interrupt p s (exit_work i (receive (set_qs qs s)))
| i_start id i s1 : find_task id s = Some (mk_task id i Spawned) ->
    (s1 = s \/ start p id s = Some s1) -> interrupt p s (remove_task id (receive s1))
| i_finish id i k v w inq f s1 : find_task id s = Some (mk_task id i (Running k v)) ->
    nth_error (p_works p) i = Some w -> w_body w = ItemWork inq f ->
    (s1 = add_tr (ECall i k v (f k v)) s \/ finish p id s = Some s1) ->
    interrupt p s (remove_task id (receive s1))
| i_poll : a_poll_done s = false -> interrupt p s (set_poll true true s).

(** The steps of the tasks when the scope is cancelled.  A loop (exec_async.py:110-206) is in
    [trio.sleep]: it gets [Cancelled].  A task which has not begun (exec_async.py:222-244,
    275-297) takes its item and gets [Cancelled] in [run_sync].  The end of a function
    (exec_async.py:244-259, 297-312) is treated as usual; with [stop_if_error] the exception
    joins the others. *)
Definition cstep (p : params V) (s : ast V) (l : label) : option (ast V) :=
  match l with
  | LCheck i => if a_exited s i then None
                else if (i <? List.length (p_works p))%nat then Some (exit_work i s) else None
  | LStart id => match start p id s with Some s' => Some (remove_task id s') | None => None end
  | LFinish id => match finish p id s with Some s' => Some (remove_task id s') | None => None end
  | LPoll => if a_poll_done s then None else Some (set_poll (a_stop s) true s)
  end.

(** [cexec p s n s']: from [s] to [s'] in [n] steps after the cancellation *)
Inductive cexec (p : params V) (s : ast V) : nat -> ast V -> Prop :=
| c_refl : cexec p s 0 s
| c_step n s1 l s2 : cexec p s n s1 -> cstep p s1 l = Some s2 -> cexec p s (S n) s2.

End Async.

(** ** A session: several computations in one process *)

Definition KeyboardInterrupt : exn := UserError 66.

(** What [signal.signal(SIGINT, ...)] has installed: the default handler, or the one of the last
    created asynchronous executor; [opened]: has its attribute [nursery] been set by
    [start_async_works] (exec_async.py:101)?  It is None before (exec_async.py:83). *)
Inductive handler := HDefault | HExec (opened : bool).

(** The directories with a lock file of this process (base.py:244-265), removed by
    [_finalize_compute] or at the end of the process. *)
Record session := mk_session { se_handler : handler; se_locks : list nat }.
Definition new_session : session := mk_session HDefault [].

(** What is raised in the main thread by the signal: [self.nursery.cancel_scope] with
    [self.nursery = None] is an AttributeError (exec_async.py:76). *)
Definition sigint (h : handler) : exn :=
  match h with
  | HDefault | HExec true => KeyboardInterrupt
  | HExec false => AttributeError
  end.

(** A call made in the main thread by exec_sequential: the function of an item work on an item,
    or a global work. *)
Inductive call := CItem (key : nat) | CGlobal (w : nat).

(** A computation: the directory; for each one shot work, is a signal received while it is
    executed?; then, sequentially, the calls, with the same information (exec_sequential), or
    the asynchronous part (see [interrupt]), interrupted or not.  Simplification: the functions
    neither fail by themselves nor catch exceptions, and the signal is received inside one of
    them. *)
Inductive computation :=
| Sequential (dir : nat) (stop_if_error : bool) (one_shots : list bool) (calls : list (call * bool))
| Asynchronous (dir : nat) (one_shots : list bool) (interrupted : bool).

Record outcome := mk_outcome {
  o_calls : list call;          (* calls which have begun *)
  o_failed : list nat;          (* keys of the items replaced by an exception *)
  o_raised : option exn;        (* what the call of compute raises *)
}.

(** [exec_one_shot_works] (base.py:309-318): nothing is caught *)
Fixpoint one_shot_works (h : handler) (l : list bool) : option exn :=
  match l with
  | [] => None
  | true :: _ => Some (sigint h)
  | false :: l => one_shot_works h l
  end.

(** [isinstance(error, Exception)]: not the case of KeyboardInterrupt *)
Definition is_exception (e : exn) : bool :=
  match e with UserError 66 => false | _ => true end.

(** [_run_works] (exec_sequential.py:28-72): the calls; [except Exception] (line 58) around the
    functions of the item works only *)
Fixpoint run_works (h : handler) (sie : bool) (l : list (call * bool)) : outcome :=
  match l with
  | [] => mk_outcome [] [] None
  | (c, false) :: l => let o := run_works h sie l in
                       mk_outcome (c :: o_calls o) (o_failed o) (o_raised o)
  | (c, true) :: l =>
    let e := sigint h in
    match c with
    | CItem k =>
      if is_exception e && negb sie then
        let o := run_works h sie l in
        mk_outcome (c :: o_calls o) (k :: o_failed o) (o_raised o)
      else mk_outcome [c] [] (Some e)
    | CGlobal _ => mk_outcome [c] [] (Some e)
    end
  end.

Definition dir_of (c : computation) : nat :=
  match c with Sequential d _ _ _ => d | Asynchronous d _ _ => d end.

(** [topology.compute(...)]: creation of the executor (an asynchronous one installs its
    handler), [_init_compute] (RuntimeError if there is a lock file, base.py:244-254), one shot
    works, works, [_finalize_compute] (the lock is removed, base.py:294-299). *)
Definition compute (s : session) (c : computation) : session * outcome :=
  let h := match c with Asynchronous _ _ _ => HExec false | _ => se_handler s end in
  if existsb (Nat.eqb (dir_of c)) (se_locks s) then
    (mk_session h (se_locks s), mk_outcome [] [] (Some RuntimeError))
  else
    let locked := dir_of c :: se_locks s in
    match c with
    | Sequential d sie os calls =>
      match one_shot_works h os with
      | Some e => (mk_session h locked, mk_outcome [] [] (Some e))
      | None =>
        let o := run_works h sie calls in
        (mk_session h (match o_raised o with Some _ => locked | None => se_locks s end), o)
      end
    | Asynchronous d os intr =>
      match one_shot_works h os with
      | Some e => (mk_session h locked, mk_outcome [] [] (Some e))
      | None =>
        let h' := HExec true in
        if intr then (mk_session h' locked, mk_outcome [] [] (Some (sigint h')))
        else (mk_session h' (se_locks s), mk_outcome [] [] None)
      end
    end.

(** the session after a history (the exceptions are caught by the user or by the interactive
    interpreter) *)
Fixpoint after (s : session) (l : list computation) : session :=
  match l with
  | [] => s
  | c :: l => after (fst (compute s c)) l
  end.

(** Model of the executors exec_sequential and exec_async (and of exec_async_sequential)
    for an arbitrary topology.

    A value travelling in the queues is [V] or an exception.  Works of kind "one shot" are
    executed before (executors/base.py:309-318) and give the initial content of the
    queues.  The executor's [works] are the other ones (executors/base.py:196-200). *)
From Verif Require Import PyBase QueueModel.

Section Exec.
Context {V : Type}.

(** object stored in a queue: a value or an instance of [Exception] *)
Definition item : Type := (V + exn)%type.
Definition queues : Type := nat -> queue item.

Definition upd {A} (f : nat -> A) (i : nat) (x : A) : nat -> A :=
  fun j => if Nat.eqb j i then x else f j.

(** topologies/base.py:107-149, class [Work].  An [ItemWork] acts on one item of its input
    queue (the function receives the key and the value; works which are not of kind
    "eat key value" ignore the key); a [GlobalWork] acts on its input and output queues,
    [ready] is the test made before calling it by exec_async (exec_async.py:129-132: input
    queue, or at least one of the input queues, non empty). *)
Inductive body :=
| ItemWork (inq : nat) (f : nat -> V -> item)
| GlobalWork (ready : queues -> bool) (g : queues -> result queues).
Record work := mk_work { w_body : body; w_out : option nat; w_io : bool }.

(** What can be observed: calls of works on items, items lost at the end because of a
    previous exception (logged, base.py:158-168), calls of global works. *)
Inductive event :=
| ECall (i k : nat) (v : V) (r : item)
| ELost (i k : nat) (e : exn)
| EGlobal (i : nat).

(** [work.output_queue[key] = ret] if there is an output queue. *)
Definition put (out : option nat) (k : nat) (it : item) (qs : queues) : queues :=
  match out with
  | None => qs
  | Some o => upd qs o (q_set k it (qs o))
  end.

Definition all_empty (nq : nat) (qs : queues) : bool :=
  forallb (fun i => match qs i with [] => true | _ => false end) (seq 0 nq).

(** ** exec_sequential.py *)
Record sst := mk_sst { s_qs : queues; s_tr : list event }.

(** body of the loop [for work in self.works] (exec_sequential.py:29-73).  Result: new
    state and the exception which escapes, if any. *)
Definition seq_work (stop_if_error : bool) (nb_items_queue_max : Z) (i : nat) (w : work)
           (st : sst) : sst * option exn :=
  let qs := s_qs st in
  match w_body w with
  | GlobalWork _ g =>
    if match w_out w with
       | Some o => nb_items_queue_max <? zlen (qs o)
       | None => false
       end
    then (st, None)
    else match g qs with
         | Ok qs' => (mk_sst qs' (s_tr st ++ [EGlobal i]), None)
         | Err e => (st, Some e)
         end
  | ItemWork inq f =>
    match q_pop_first (qs inq) with
    | Err _ => (st, None)                       (* if not work.input_queue: continue *)
    | Ok ((k, obj), q') =>
      let qs1 := upd qs inq q' in
      match obj with
      | inr e =>                                (* work.check_exception(key, obj) *)
        match w_out w with
        | Some _ => (mk_sst (put (w_out w) k (inr e) qs1) (s_tr st), None)
        | None => (mk_sst qs1 (s_tr st ++ [ELost i k e]), None)
        end
      | inl v =>
        let r := f k v in
        let tr := s_tr st ++ [ECall i k v r] in
        match r with
        | inr e => if stop_if_error then (mk_sst qs1 tr, Some e)
                   else (mk_sst (put (w_out w) k r qs1) tr, None)
        | inl _ => (mk_sst (put (w_out w) k r qs1) tr, None)
        end
      end
    end
  end.

Fixpoint seq_sweep (sie : bool) (nmax : Z) (l : list (nat * work)) (st : sst)
  : sst * option exn :=
  match l with
  | [] => (st, None)
  | (i, w) :: l' =>
    match seq_work sie nmax i w st with
    | (st', None) => seq_sweep sie nmax l' st'
    | (st', Some e) => (st', Some e)
    end
  end.

(** exec_sequential.py:27-76, [_run_works].  [None]: the loop is not finished after [fuel]
    sweeps. *)
Fixpoint seq_run (fuel : nat) (sie : bool) (nmax : Z) (nq : nat) (ws : list work) (st : sst)
  : option (sst * option exn) :=
  if all_empty nq (s_qs st) then Some (st, None)
  else match fuel with
       | O => None
       | S fuel' =>
         match seq_sweep sie nmax (combine (seq 0 (List.length ws)) ws) st with
         | (st', None) => seq_run fuel' sie nmax nq ws st'
         | (st', Some e) => Some (st', Some e)
         end
       end.

(** ** exec_async.py *)

(** A task started with [nursery.start_soon(self.async_run_work_..., work)]: not yet run
    ([Spawned]) or waiting for its thread ([Running]). *)
Inductive tstatus := Spawned | Running (k : nat) (v : V).
Record task := mk_task { t_id : nat; t_work : nat; t_st : tstatus }.

Record ast := mk_ast {
  a_qs : queues;
  a_tasks : list task;
  a_next : nat;                 (* next task identifier (model only) *)
  a_cpu : Z;                    (* nb_working_workers_cpu *)
  a_io : Z;                     (* nb_working_workers_io *)
  a_stop : bool;                (* _has_to_stop *)
  a_exited : nat -> bool;       (* has the function of work i returned? *)
  a_poll_done : bool;           (* has update_has_to_stop returned? *)
  a_tr : list event;
  a_raised : option exn         (* exception which escaped to the nursery *)
}.

Inductive label := LCheck (i : nat) | LStart (id : nat) | LFinish (id : nat) | LPoll.

Definition counter (io : bool) (s : ast) : Z := if io then a_io s else a_cpu s.
Definition add_counter (io : bool) (d : Z) (s : ast) : ast :=
  if io then mk_ast (a_qs s) (a_tasks s) (a_next s) (a_cpu s) (a_io s + d) (a_stop s)
                    (a_exited s) (a_poll_done s) (a_tr s) (a_raised s)
  else mk_ast (a_qs s) (a_tasks s) (a_next s) (a_cpu s + d) (a_io s) (a_stop s)
              (a_exited s) (a_poll_done s) (a_tr s) (a_raised s).
Definition set_qs (qs : queues) (s : ast) : ast :=
  mk_ast qs (a_tasks s) (a_next s) (a_cpu s) (a_io s) (a_stop s)
         (a_exited s) (a_poll_done s) (a_tr s) (a_raised s).
Definition set_tasks (ts : list task) (s : ast) : ast :=
  mk_ast (a_qs s) ts (a_next s) (a_cpu s) (a_io s) (a_stop s)
         (a_exited s) (a_poll_done s) (a_tr s) (a_raised s).
Definition spawn (i : nat) (s : ast) : ast :=
  mk_ast (a_qs s) (a_tasks s ++ [mk_task (a_next s) i Spawned]) (S (a_next s)) (a_cpu s)
         (a_io s) (a_stop s) (a_exited s) (a_poll_done s) (a_tr s) (a_raised s).
Definition exit_work (i : nat) (s : ast) : ast :=
  mk_ast (a_qs s) (a_tasks s) (a_next s) (a_cpu s) (a_io s) (a_stop s)
         (upd (a_exited s) i true) (a_poll_done s) (a_tr s) (a_raised s).
Definition add_tr (e : event) (s : ast) : ast :=
  mk_ast (a_qs s) (a_tasks s) (a_next s) (a_cpu s) (a_io s) (a_stop s)
         (a_exited s) (a_poll_done s) (a_tr s ++ [e]) (a_raised s).
Definition raise (e : exn) (s : ast) : ast :=
  mk_ast (a_qs s) (a_tasks s) (a_next s) (a_cpu s) (a_io s) (a_stop s)
         (a_exited s) (a_poll_done s) (a_tr s) (Some e).
Definition set_poll (stop done : bool) (s : ast) : ast :=
  mk_ast (a_qs s) (a_tasks s) (a_next s) (a_cpu s) (a_io s) stop
         (a_exited s) done (a_tr s) (a_raised s).

Definition find_task (id : nat) (s : ast) : option task :=
  find (fun t => Nat.eqb (t_id t) id) (a_tasks s).
Definition remove_task (id : nat) (s : ast) : ast :=
  set_tasks (filter (fun t => negb (Nat.eqb (t_id t) id)) (a_tasks s)) s.
Definition set_running (id k : nat) (v : V) (s : ast) : ast :=
  set_tasks (map (fun t => if Nat.eqb (t_id t) id then mk_task id (t_work t) (Running k v) else t)
                 (a_tasks s)) s.

Record params := mk_params {
  p_nb_max_workers : Z;
  p_nb_items_queue_max : Z;
  p_stop_if_error : bool;
  p_nq : nat;                   (* number of queues of the topology *)
  p_works : list work
}.

Definition full (p : params) (out : option nat) (qs : queues) : bool :=
  match out with
  | Some o => p_nb_items_queue_max p <=? zlen (qs o)
  | None => false
  end.

(** One evaluation of the conditions of the loop of a work (exec_async.py:110-206):
    [def_async_func_work_io], [def_async_func_work_cpu] and the function of a global work.
    Simplification for global works: the loop evaluates the flag [_has_to_stop] after the
    sleep that follows a negative test, the model evaluates it with the test. *)
Definition check (p : params) (i : nat) (s : ast) : option ast :=
  if a_exited s i then None else
  match nth_error (p_works p) i with
  | None => None
  | Some w =>
    match w_body w with
    | GlobalWork ready g =>
      if ready (a_qs s) then
        match g (a_qs s) with
        | Ok qs' => let s' := add_tr (EGlobal i) (set_qs qs' s) in
                    Some (if a_stop s then exit_work i s' else s')
        | Err e => Some (raise e s)
        end
      else Some (if a_stop s then exit_work i s else s)
    | ItemWork inq _ =>
      if match a_qs s inq with [] => true | _ => false end
         || (p_nb_max_workers p <=? counter (w_io w) s)
         || full p (w_out w) (a_qs s)
      then Some (if a_stop s then exit_work i s else s)
      else Some (spawn i s)
    end
  end.

(** First part of [async_run_work_io] / [async_run_work_cpu] (exec_async.py:222-241,
    275-294): until the function is started in a thread. *)
Definition start (p : params) (id : nat) (s : ast) : option ast :=
  match find_task id s with
  | Some (mk_task _ i Spawned) =>
    match nth_error (p_works p) i with
    | Some w =>
      match w_body w with
      | ItemWork inq _ =>
        let s1 := add_counter (w_io w) 1 s in
        match q_pop_first (a_qs s1 inq) with
        | Err _ => Some (remove_task id (add_counter (w_io w) (-1) s1))
        | Ok ((k, obj), q') =>
          let s2 := set_qs (upd (a_qs s1) inq q') s1 in
          match obj with
          | inr e =>
            let s3 := match w_out w with
                      | Some _ => set_qs (put (w_out w) k (inr e) (a_qs s2)) s2
                      | None => add_tr (ELost i k e) s2
                      end in
            Some (remove_task id (add_counter (w_io w) (-1) s3))
          | inl v => Some (set_running id k v s2)
          end
        end
      | GlobalWork _ _ => None
      end
    | None => None
    end
  | _ => None
  end.

(** Second part (exec_async.py:244-259, 297-312): the thread has finished. *)
Definition finish (p : params) (id : nat) (s : ast) : option ast :=
  match find_task id s with
  | Some (mk_task _ i (Running k v)) =>
    match nth_error (p_works p) i with
    | Some w =>
      match w_body w with
      | ItemWork _ f =>
        let r := f k v in
        let s1 := add_tr (ECall i k v r) s in
        match r with
        | inr e => if p_stop_if_error p then Some (raise e s1)
                   else Some (remove_task id (add_counter (w_io w) (-1)
                               (set_qs (put (w_out w) k r (a_qs s1)) s1)))
        | inl _ => Some (remove_task id (add_counter (w_io w) (-1)
                               (set_qs (put (w_out w) k r (a_qs s1)) s1)))
        end
      | GlobalWork _ _ => None
      end
    | None => None
    end
  | _ => None
  end.

(** One turn of [update_has_to_stop] (exec_async.py:314-342). *)
Definition poll (p : params) (s : ast) : option ast :=
  if a_poll_done s then None
  else if a_stop s then Some (set_poll true true s)
  else Some (set_poll (all_empty (p_nq p) (a_qs s) && (a_cpu s =? 0) && (a_io s =? 0)) false s).

(** A step of the program.  After an exception has reached the nursery everything is
    cancelled: no step. *)
Definition step (p : params) (s : ast) (l : label) : option ast :=
  match a_raised s with
  | Some _ => None
  | None =>
    match l with
    | LCheck i => check p i s
    | LStart id => start p id s
    | LFinish id => finish p id s
    | LPoll => poll p s
    end
  end.

(** [start_async_works] (exec_async.py:99-105) on the queues filled by the one shot works. *)
Definition init (qs : queues) : ast :=
  mk_ast qs [] 0 0 0 false (fun _ => false) false [] None.

Inductive reachable (p : params) (s0 : ast) : ast -> Prop :=
| reach_init : reachable p s0 s0
| reach_step s l s' : reachable p s0 s -> step p s l = Some s' -> reachable p s0 s'.

(** The nursery is left (trio.run returns) when all its tasks are finished. *)
Definition ended (p : params) (s : ast) : Prop :=
  (forall i, (i < List.length (p_works p))%nat -> a_exited s i = true) /\
  a_tasks s = [] /\ a_poll_done s = true.

End Exec.
Arguments body V : clear implicits.
Arguments work V : clear implicits.
Arguments item V : clear implicits.
Arguments event V : clear implicits.
Arguments sst V : clear implicits.
Arguments ast V : clear implicits.
Arguments params V : clear implicits.
Arguments queues V : clear implicits.
Arguments task V : clear implicits.
Arguments tstatus V : clear implicits.

(** ** Chains of works: queue i is the input of work i, the last work has no output queue *)
Section Chain.
Context {V : Type}.

Definition chain_work (n i : nat) (io : bool) (f : nat -> V -> item V) : work V :=
  mk_work (ItemWork i f) (if Nat.eqb (S i) n then None else Some (S i)) io.

Definition chain_works (fs : list (bool * (nat -> V -> item V))) : list (work V) :=
  map (fun '(i, (io, f)) => chain_work (List.length fs) i io f)
      (combine (seq 0 (List.length fs)) fs).

(** queue 0 filled, the other ones empty *)
Definition chain_queues (inputs : queue (item V)) : queues V :=
  fun i => match i with O => inputs | S _ => [] end.

End Chain.

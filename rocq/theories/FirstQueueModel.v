(** executors/multi_exec_async.py:66-112, [_start_multiprocess_first_queue]: the topologies given to the processes when the
    topology has no series.  The queues are objects: a reference is a number, the heap gives the contents.  [copy.copy] of the
    topology (lines 73 and 79) shares the list of the works, the works and the list of the queues, so the loop modifies the same
    objects for all processes; a process works on the copy of the memory made by the fork at its launch (line 112).

    Simplification: only the queues, the works (input and output queues) and the values are modelled. *)
From Verif Require Import PyBase QueueModel SplitModel.

(** input_queue or output_queue of a work *)
Inductive qref := QNone | QOne (q : nat) | QTuple (l : list nat) | QList (l : list nat).
Record fwork := mk_fwork { fw_name : nat; fw_in : qref; fw_out : qref }.

Section FirstQueue.
Context {V : Type}.
Record mem := mk_mem { mem_heap : list (queue V); mem_works : list fwork; mem_queues : list nat }.

Definition heap_get (m : mem) (q : nat) : queue V := nth q (mem_heap m) [].

(** lines 83-85: [if queue is old_queue: queues[iq] = new_queue] *)
Definition subst_id (old new q : nat) : nat := if Nat.eqb q old then new else q.
(** lines 87-105, for the input queue or the output queue *)
Definition subst_ref (old new : nat) (r : qref) : qref :=
  match r with
  | QNone => QNone
  | QOne q => QOne (subst_id old new q)
  | QTuple l => QList (map (subst_id old new) l)           (* list(work.input_queue) *)
  | QList l => QList (map (subst_id old new) l)
  end.
Definition subst_work (old new : nat) (w : fwork) : fwork :=
  mk_fwork (fw_name w) (subst_ref old new (fw_in w)) (subst_ref old new (fw_out w)).

(** lines 107-108: [new_queue[key] = self._first_queue[key]] *)
Fixpoint fill (first_queue : queue V) (keys : list nat) (q : queue V) : result (queue V) :=
  match keys with
  | [] => Ok q
  | k :: keys' => do v <- q_get k first_queue ; fill first_queue keys' (q_set k v q)
  end.

(** lines 78-112: [first] is the reference of the first queue (topology.first_queue, emptied), [old] the current one.  The
    result is the list of the memories at the launches. *)
Fixpoint launch (first_queue : queue V) (first : nat) (parts : list (list nat)) (old : nat) (m : mem) : result (list mem) :=
  match parts with
  | [] => Ok []
  | keys :: parts' =>
    let new := List.length (mem_heap m) in
    do contents <- fill first_queue keys (q_copy (heap_get m first)) ;
    let m' := mk_mem (mem_heap m ++ [contents]) (map (subst_work old new) (mem_works m))
                     (map (subst_id old new) (mem_queues m)) in
    do rest <- launch first_queue first parts' new m' ;
    Ok (m' :: rest)
  end.

(** executors/base.py:366-379 then lines 66-76: checks, the first work has filled its output queue ([m] is the memory after
    that), the queue is copied, its keys are split, the queue is emptied and the first work removed.  [copy.copy] of None or of a
    list has no keys: AttributeError. *)
Definition start_first_queue (nb_processes : Z) (m : mem) : result (list mem) :=
  match mem_works m with
  | [] => Err IndexError
  | w :: works =>
    match fw_in w, fw_out w with
    | QNone, QOne first =>
      let first_queue := q_copy (heap_get m first) in
      do parts <- split_list (map fst first_queue) nb_processes ;
      launch first_queue first parts first
        (mk_mem (update_nth first (fun _ => []) (mem_heap m)) works (mem_queues m))
    | QNone, QTuple _ => Err NotImplementedError
    | QNone, _ => Err AttributeError
    | _, _ => Err NotImplementedError
    end
  end.

(** executors/exec_async.py:128-133: a "global" work waits ([not work.input_queue]: None, an empty queue or an empty tuple) *)
Definition is_empty (m : mem) (q : nat) : bool := match heap_get m q with [] => true | _ => false end.
Definition global_waits (m : mem) (r : qref) : bool :=
  (match r with QTuple l => forallb (is_empty m) l | _ => false end)
  || (match r with QNone => true | QOne q => is_empty m q | QTuple l | QList l => match l with [] => true | _ => false end end).
End FirstQueue.
Arguments mem V : clear implicits.

(** Property theorems about the waiting queues: C06. *)
From Verif Require Import PyBase QueueModel QueueSpec QueueProofs.

(** C06: every history of operations on a queue is a history of the specification
    (QueueSpec.v) with the same outputs, and the final content is the same, listed by
    date of insertion. *)
Theorem C06_queue_is_fifo_map : forall (V : Type) (ops : list (op V)),
  exists s, s_run s_empty ops (snd (q_run q_empty ops)) s /\
    let q := fst (q_run q_empty ops) in
    NoDup (map fst q) /\
    (forall k v, In (k, v) q <-> exists t, content s k = Some (v, t)) /\
    (forall k, q_get k q = match content s k with Some (v, _) => Ok v | None => Err KeyError end) /\
    (forall i j k v k' v' t t', (i < j)%nat -> nth_error q i = Some (k, v) -> nth_error q j = Some (k', v') ->
       content s k = Some (v, t) -> content s k' = Some (v', t') -> (t < t')%nat).
Proof. exact @q_run_spec. Qed.
Print Assumptions C06_queue_is_fifo_map.

Example C06_case :
  q_run q_empty [OpSet 3 30; OpSet 1 10; OpSet 3 31; OpSet 2 20; OpDel 1; OpPop; OpDel 7; OpPop; OpPop] =
  ([], [OutNone; OutNone; OutNone; OutNone; OutNone; OutItem 3 31; OutKeyError; OutItem 2 20; OutKeyError]).
Proof. reflexivity. Qed.

(** C06: a copy of a (reachable) queue has the same items in the same order. *)
Theorem C06_queue_copy : forall (V : Type) (ops : list (op V)),
  let q := fst (q_run q_empty ops) in q_copy q = q.
Proof. exact @q_copy_reachable. Qed.
Print Assumptions C06_queue_copy.

Example C06_case_copy :
  q_copy (fst (q_run q_empty [OpSet 3 30; OpSet 1 10; OpPop; OpSet 5 50])) = [(1%nat, 10); (5%nat, 50)].
Proof. reflexivity. Qed.

(** Search of a name in the values. *)
Theorem C06_is_name_in_values : forall name q,
  is_name_in_values name q = true <-> exists k names, In (k, names) q /\ In name names.
Proof. exact is_name_in_values_spec. Qed.
Print Assumptions C06_is_name_in_values.

Example C06_case_names : is_name_in_values 4 [(0%nat, [1; 2]%nat); (1%nat, [3; 4]%nat)] = true.
Proof. reflexivity. Qed.

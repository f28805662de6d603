(** Specification of what a chain of works computes (independent of the executors). *)
From Verif Require Import PyBase QueueModel ExecModel.

Section Spec.
Context {V : Type}.

(** The first failing work replaces the value by its exception; later works are skipped. *)
Fixpoint pipe (fs : list (nat -> V -> item V)) (k : nat) (x : item V) : item V :=
  match fs with
  | [] => x
  | f :: fs' => match x with
                | inl v => pipe fs' k (f k v)
                | inr e => inr e
                end
  end.

Definition expected (fs : list (nat -> V -> item V)) (inputs : list (nat * item V))
  : list (nat * item V) :=
  map (fun '(k, x) => (k, pipe fs k x)) inputs.

(** calls of the j-th work: one for each item which did not fail before *)
Definition expected_calls (fs : list (nat -> V -> item V)) (j : nat)
           (inputs : list (nat * item V)) : list (nat * V) :=
  flat_map (fun '(k, x) => match pipe (firstn j fs) k x with
                           | inl v => [(k, v)]
                           | inr _ => []
                           end) inputs.

(** what is observed in a trace: outcome delivered by the last work [n-1] for each key *)
Definition finals (n : nat) (tr : list (event V)) : list (nat * item V) :=
  flat_map (fun e => match e with
                     | ECall i k _ r => if Nat.eqb (S i) n then [(k, r)] else []
                     | ELost _ k e => [(k, inr e)]
                     | EGlobal _ => []
                     end) tr.

(** calls of work j, in order *)
Definition calls (j : nat) (tr : list (event V)) : list (nat * V) :=
  flat_map (fun e => match e with
                     | ECall i k v _ => if Nat.eqb i j then [(k, v)] else []
                     | _ => []
                     end) tr.

End Spec.

(** ** Vocabulary for asynchronous executions *)
Section AsyncSpec.
Context {V : Type}.

(** Where a key can be: waiting in the input queue of work i, being treated by work i, or
    delivered (treated by the last work, or lost there because of a previous exception). *)
Inductive place := Waiting (i : nat) | InFlight (i : nat) | Delivered.

(** number of works already applied to an item which is at this place (n works) *)
Definition passed (n : nat) (pl : place) : nat :=
  match pl with Waiting i => i | InFlight i => i | Delivered => n end.

(** all the places of a key, with the object found there *)
Definition places (n : nat) (s : ast V) (k : nat) : list (place * item V) :=
  flat_map (fun i => flat_map (fun '(k', it) => if Nat.eqb k' k then [(Waiting i, it)] else [])
                              (a_qs s i)) (seq 0 n)
  ++ flat_map (fun t => match t_st t with
                        | Running k' v => if Nat.eqb k' k then [(InFlight (t_work t), inl v)] else []
                        | Spawned => []
                        end) (a_tasks s)
  ++ flat_map (fun '(k', r) => if Nat.eqb k' k then [(Delivered, r)] else [])
              (finals n (a_tr s)).

(** An infinite execution: at each instant one step of the program, or nothing. *)
Definition is_execution (p : params V) (s0 : ast V) (st : nat -> ast V)
           (lab : nat -> option label) : Prop :=
  st 0%nat = s0 /\
  forall t, match lab t with
            | Some l => step p (st t) l = Some (st (S t))
            | None => st (S t) = st t
            end.

(** Fairness: every loop which has not returned is run again and again, every task which
    has been spawned is eventually started, every thread eventually finishes. *)
Definition fair (p : params V) (st : nat -> ast V) (lab : nat -> option label) : Prop :=
  (forall t i, (i < List.length (p_works p))%nat ->
     exists t', (t <= t')%nat /\ (lab t' = Some (LCheck i) \/ a_exited (st t') i = true)) /\
  (forall t, exists t', (t <= t')%nat /\ (lab t' = Some LPoll \/ a_poll_done (st t') = true)) /\
  (forall t tk, In tk (a_tasks (st t)) -> t_st tk = Spawned ->
     exists t', (t <= t')%nat /\ lab t' = Some (LStart (t_id tk))) /\
  (forall t tk k v, In tk (a_tasks (st t)) -> t_st tk = Running k v ->
     exists t', (t <= t')%nat /\ lab t' = Some (LFinish (t_id tk))).

(** number of functions of io (resp. cpu) works being executed in threads *)
Definition running (p : params V) (io : bool) (s : ast V) : Z :=
  zlen (filter (fun t => match t_st t, nth_error (p_works p) (t_work t) with
                         | Running _ _, Some w => Bool.eqb (w_io w) io
                         | _, _ => false
                         end) (a_tasks s)).

(** Schedules for which a task spawned by the loop of a work starts before the next turn
    of this loop (in between, the loop sleeps [sleep_time]). *)
Inductive reachable_prompt (p : params V) (s0 : ast V) : ast V -> Prop :=
| rp_init : reachable_prompt p s0 s0
| rp_step s l s' : reachable_prompt p s0 s -> step p s l = Some s' ->
    (forall i, l = LCheck i -> forall t, In t (a_tasks s) -> t_work t = i -> t_st t <> Spawned) ->
    reachable_prompt p s0 s'.

(** failed call *)
Definition failed (e : event V) : bool :=
  match e with ECall _ _ _ (inr _) => true | _ => false end.

Definition only_item_works (ws : list (work V)) : Prop :=
  forall w, In w ws -> exists inq f, w_body w = ItemWork inq f.

End AsyncSpec.

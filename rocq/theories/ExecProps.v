(** C07-C13: the executors.  Chains of works: work i reads queue i and fills queue i+1; the
    last one has no output queue.  Parameters of the executors: the executor is [mk_params
    nb_max_workers nb_items_queue_max stop_if_error (number of queues) works]. *)
From Coq Require Import Permutation.
From Verif Require Import PyBase QueueModel ExecModel ExecSpec ExecProofs ExecAsyncProofs
     ExecGenProofs ExecBoundProofs ExecLiveProofs.

(** ** C07 *)
Theorem C07_sequential_chain :
  forall (V : Type) (fs : list (bool * (nat -> V -> item V))) (inputs : list (nat * item V))
         (nmax : Z) (fuel : nat),
  fs <> [] -> NoDup (map fst inputs) -> (List.length fs * List.length inputs <= fuel)%nat ->
  exists st',
    seq_run fuel false nmax (List.length fs) (chain_works fs) (mk_sst (chain_queues inputs) [])
      = Some (st', None) /\
    (forall i, (i < List.length fs)%nat -> s_qs st' i = []) /\
    finals (List.length fs) (s_tr st') = expected (map snd fs) inputs /\
    forall j, (j < List.length fs)%nat -> calls j (s_tr st') = expected_calls (map snd fs) j inputs.
Proof. exact @seq_chain_correct. Qed.
Print Assumptions C07_sequential_chain.

(** a chain of three works, the second fails on the value 3 *)
Definition ex_fs : list (bool * (nat -> Z -> item Z)) :=
  [(true, fun _ v => inl (v + 1)); (false, fun _ v => if v =? 3 then inr ValueError else inl (v * 10));
   (true, fun k v => inl (v + Z.of_nat k))].
Definition ex_inputs : list (nat * item Z) := [(0%nat, inl 1); (1%nat, inl 2); (2%nat, inl 5)].
Example C07_example :
  NoDup (map fst ex_inputs) /\
  exists st, seq_run 9 false 8 3 (chain_works ex_fs) (mk_sst (chain_queues ex_inputs) []) = Some (st, None) /\
    finals 3 (s_tr st) = [(0%nat, inl 20); (1%nat, inr ValueError); (2%nat, inl 62)] /\
    calls 2 (s_tr st) = [(0%nat, 20); (2%nat, 60)].
Proof.
  split; [repeat constructor; cbn; intuition discriminate|].
  eexists. split; [vm_compute; reflexivity|]. split; vm_compute; reflexivity.
Qed.

(** ** C08 *)
Theorem C08_one_place :
  forall (V : Type) (fs : list (bool * (nat -> V -> item V))) (nb lim : Z) (sie : bool)
         (inputs : list (nat * item V)) (s : ast V),
  let p := mk_params nb lim sie (List.length fs) (chain_works fs) in
  fs <> [] -> NoDup (map fst inputs) ->
  reachable p (init (chain_queues inputs)) s -> a_raised s = None ->
  (forall k x, In (k, x) inputs ->
     exists pl, places (List.length fs) s k
                = [(pl, pipe (firstn (passed (List.length fs) pl) (map snd fs)) k x)]) /\
  (forall k, ~ In k (map fst inputs) -> places (List.length fs) s k = []).
Proof.
  intros V fs nb lim sie inputs s p Hne. apply (one_place fs p eq_refl eq_refl).
  destruct fs; [congruence|cbn; lia].
Qed.
Print Assumptions C08_one_place.

(** ** C09 *)
Theorem C09_stops_only_when_done :
  forall (V : Type) (fs : list (bool * (nat -> V -> item V))) (nb lim : Z) (sie : bool)
         (inputs : list (nat * item V)) (s : ast V),
  let p := mk_params nb lim sie (List.length fs) (chain_works fs) in
  fs <> [] -> NoDup (map fst inputs) ->
  reachable p (init (chain_queues inputs)) s -> a_raised s = None ->
  (a_stop s = true \/ ended p s) ->
  (forall i, (i < List.length fs)%nat -> a_qs s i = []) /\
  (forall t, In t (a_tasks s) -> t_st t = Spawned) /\
  Permutation (finals (List.length fs) (a_tr s)) (expected (map snd fs) inputs) /\
  forall j, (j < List.length fs)%nat ->
    Permutation (calls j (a_tr s)) (expected_calls (map snd fs) j inputs).
Proof.
  intros V fs nb lim sie inputs s p Hne Hk HR Hr Hs.
  assert (Hn : (1 <= List.length fs)%nat) by (destruct fs; [congruence|cbn; lia]).
  pose proof (reachable_inv fs p eq_refl eq_refl inputs s Hn Hk HR Hr) as H.
  apply (stopped_all_done fs p eq_refl inputs s H).
  destruct Hs as [Hs|(_ & _ & Hp)]; [exact Hs|apply (inv_poll _ _ _ H), Hp].
Qed.
Print Assumptions C09_stops_only_when_done.

Theorem C09_same_as_sequential :
  forall (V : Type) (fs : list (bool * (nat -> V -> item V))) (nb lim nmax : Z)
         (inputs : list (nat * item V)) (s : ast V) fuel st r,
  let p := mk_params nb lim false (List.length fs) (chain_works fs) in
  fs <> [] -> NoDup (map fst inputs) ->
  reachable p (init (chain_queues inputs)) s -> ended p s ->
  seq_run fuel false nmax (List.length fs) (chain_works fs) (mk_sst (chain_queues inputs) [])
    = Some (st, r) ->
  (List.length fs * List.length inputs <= fuel)%nat ->
  Permutation (finals (List.length fs) (a_tr s)) (finals (List.length fs) (s_tr st)) /\
  forall j, (j < List.length fs)%nat -> Permutation (calls j (a_tr s)) (calls j (s_tr st)).
Proof.
  intros V fs nb lim nmax inputs s fuel st r p Hne Hk HR He Hseq Hfuel.
  assert (Hr : a_raised s = None).
  { apply (async_errors p _ s (chain_only_item fs p eq_refl) HR). reflexivity. }
  destruct (C09_stops_only_when_done V fs nb lim false inputs s Hne Hk HR Hr (or_intror He)) as (_ & _ & H1 & H2).
  destruct (C07_sequential_chain V fs inputs nmax fuel Hne Hk Hfuel) as (st' & HS & _ & H3 & H4).
  rewrite Hseq in HS. injection HS as -> ->. rewrite H3. split; [exact H1|].
  intros j Hj. rewrite H4 by exact Hj. apply H2, Hj.
Qed.
Print Assumptions C09_same_as_sequential.

(** ** C10 *)
Theorem C10_can_always_finish :
  forall (V : Type) (fs : list (bool * (nat -> V -> item V))) (nb lim : Z)
         (inputs : list (nat * item V)) (s : ast V),
  let p := mk_params nb lim false (List.length fs) (chain_works fs) in
  fs <> [] -> NoDup (map fst inputs) -> 1 <= nb -> 1 <= lim ->
  reachable p (init (chain_queues inputs)) s ->
  exists s', reachable p s s' /\ ended p s'.
Proof.
  intros V fs nb lim inputs s p Hne Hk Hnb Hlim HR.
  apply (can_finish fs p eq_refl eq_refl inputs); try assumption; try reflexivity.
  destruct fs; [congruence|cbn; lia].
Qed.
Print Assumptions C10_can_always_finish.

Theorem C10_fair_executions_end :
  forall (V : Type) (fs : list (bool * (nat -> V -> item V))) (nb lim : Z)
         (inputs : list (nat * item V)) (st : nat -> ast V) (lab : nat -> option label),
  let p := mk_params nb lim false (List.length fs) (chain_works fs) in
  fs <> [] -> NoDup (map fst inputs) -> 1 <= nb -> 1 <= lim ->
  is_execution p (init (chain_queues inputs)) st lab -> fair p st lab ->
  exists t, ended p (st t).
Proof.
  intros V fs nb lim inputs st lab p Hne Hk Hnb Hlim Hex Hf.
  apply (fair_ends fs p eq_refl eq_refl inputs) with (lab := lab); try assumption; try reflexivity.
  destruct fs; [congruence|cbn; lia].
Qed.
Print Assumptions C10_fair_executions_end.

(** an execution with two works and an error, with the place of the key at each instant,
    is fair and ends *)
Definition ex_fs2 : list (bool * (nat -> Z -> item Z)) :=
  [(true, fun _ v => inl (v + 1)); (false, fun _ v => if v =? 3 then inr ValueError else inl (v * 10))].
Definition ex_p2 := mk_params 1 1 false 2 (chain_works ex_fs2).
Definition ex_labels : list label :=
  [LCheck 0; LStart 0; LFinish 0; LCheck 1; LStart 1; LPoll; LCheck 1; LFinish 1; LPoll; LCheck 0; LPoll; LCheck 1].
Definition ex_states : list (option (ast Z)) :=
  fold_left (fun acc l => acc ++ [match last acc None with Some s => step ex_p2 s l | None => None end])
            ex_labels [Some (init (chain_queues [(7%nat, inl 2)]))].
Definition ex_st (t : nat) : ast Z :=
  match nth (Nat.min t 12) ex_states None with Some s => s | None => init (chain_queues []) end.
Definition ex_lab (t : nat) : option label := nth_error ex_labels t.

Example C10_example : is_execution ex_p2 (init (chain_queues [(7%nat, inl 2)])) ex_st ex_lab /\
  fair ex_p2 ex_st ex_lab /\
  map (fun t => map fst (places 2 (ex_st t) 7)) (seq 0 13)
  = [[Waiting 0]; [Waiting 0]; [InFlight 0]; [Waiting 1]; [Waiting 1]; [InFlight 1]; [InFlight 1]; [InFlight 1];
     [Delivered]; [Delivered]; [Delivered]; [Delivered]; [Delivered]]%nat /\
  ended ex_p2 (ex_st 12).
Proof.
  assert (Hlast : forall t, (12 <= t)%nat -> ex_st t = ex_st 12).
  { intros t Ht. unfold ex_st. rewrite Nat.min_r by exact Ht. reflexivity. }
  assert (Htk : forall t tk, In tk (a_tasks (ex_st t)) -> (t < 12)%nat).
  { intros t tk HI. destruct (Nat.lt_ge_cases t 12) as [H|H]; [exact H|]. rewrite Hlast in HI by exact H.
    vm_compute in HI. destruct HI. }
  split; [|split; [|split]].
  - split; [reflexivity|]. intros t. do 12 (destruct t as [|t]; [vm_compute; reflexivity|]).
    change (ex_lab (S (S (S (S (S (S (S (S (S (S (S (S t))))))))))))) with (nth_error (@nil label) t).
    replace (nth_error (@nil label) t) with (@None label) by (destruct t; reflexivity).
    rewrite Hlast by lia. symmetry. apply Hlast. lia.
  - split; [|split; [|split]].
    + intros t i Hi. exists (Nat.max t 12). split; [lia|]. right. rewrite Hlast by lia.
      destruct i as [|[|i]]; [vm_compute; reflexivity|vm_compute; reflexivity|cbn in Hi; lia].
    + intros t. exists (Nat.max t 12). split; [lia|]. right. rewrite Hlast by lia. vm_compute. reflexivity.
    + intros t tk HI Hs. pose proof (Htk t tk HI) as Ht.
      do 12 (destruct t as [|t]; [vm_compute in HI; repeat (destruct HI as [<-|HI]; [try discriminate Hs|]); try (destruct HI; fail);
        match goal with |- exists t', (?a <= t')%nat /\ _ => (exists 1%nat; split; [lia|reflexivity]) || (exists 4%nat; split; [lia|reflexivity]) end|]).
      lia.
    + intros t tk k v HI Hs. pose proof (Htk t tk HI) as Ht.
      do 12 (destruct t as [|t]; [vm_compute in HI; repeat (destruct HI as [<-|HI]; [try discriminate Hs|]); try (destruct HI; fail);
        match goal with |- exists t', (?a <= t')%nat /\ _ => (exists 2%nat; split; [lia|reflexivity]) || (exists 7%nat; split; [lia|reflexivity]) end|]).
      lia.
  - vm_compute. reflexivity.
  - split; [|split; vm_compute; reflexivity]. intros i Hi.
    destruct i as [|[|i]]; [vm_compute; reflexivity|vm_compute; reflexivity|cbn in Hi; lia].
Qed.

(** ** C11 *)

(** The claim is false: with nb_max_workers = 1, two cpu works can run simultaneously,
    although every spawned task is started before the next turn of its loop. *)
Definition ex_fs3 : list (bool * (nat -> Z -> item Z)) :=
  [(false, fun _ v => inl (v + 1)); (false, fun _ v => inl (v * 10))].
Theorem C11_at_most_nb_max_workers_refuted :
  exists (inputs : list (nat * item Z)) (s : ast Z),
    let p := mk_params 1 4 false 2 (chain_works ex_fs3) in
    reachable_prompt p (init (chain_queues inputs)) s /\ running p false s = 2.
Proof.
  exists [(0%nat, inl 1); (1%nat, inl 2)]. eexists. split.
  - apply (run_prompt_sound _ [LCheck 0; LStart 0; LFinish 0; LCheck 0; LCheck 1; LStart 1; LStart 2]).
    vm_compute. reflexivity.
  - vm_compute. reflexivity.
Qed.
Print Assumptions C11_at_most_nb_max_workers_refuted.

(** What holds, for all topologies: the excess is at most the number of works of the same
    kind (cpu or io) minus one. *)
Theorem C11_running_bound_partial :
  forall (V : Type) (p : params V) (qs : queues V) (s : ast V) (io : bool),
  1 <= p_nb_max_workers p -> reachable_prompt p (init qs) s ->
  running p io s <= p_nb_max_workers p + zlen (filter (fun w => Bool.eqb (w_io w) io) (p_works p)) - 1.
Proof. exact @prompt_running. Qed.
Print Assumptions C11_running_bound_partial.

(** In particular the claim holds when there is one work of each kind. *)
Corollary C11_one_work_of_each_kind :
  forall (V : Type) (p : params V) (qs : queues V) (s : ast V) (io : bool),
  1 <= p_nb_max_workers p -> zlen (filter (fun w => Bool.eqb (w_io w) io) (p_works p)) <= 1 ->
  reachable_prompt p (init qs) s -> running p io s <= p_nb_max_workers p.
Proof.
  intros V p qs s io Hnb Hw HR. pose proof (C11_running_bound_partial V p qs s io Hnb HR). lia.
Qed.
Print Assumptions C11_one_work_of_each_kind.

(** ** C12 *)
Theorem C12_queue_bound :
  forall (V : Type) (p : params V) (o i : nat) (w : work V) (qs : queues V) (s : ast V),
  nth_error (p_works p) i = Some w -> w_out w = Some o ->
  (* no other work fills the queue *)
  (forall j w', nth_error (p_works p) j = Some w' -> w_out w' = Some o -> j = i) ->
  (forall w' ready g qs1 qs2, In w' (p_works p) -> w_body w' = GlobalWork ready g ->
     g qs1 = Ok qs2 -> zlen (qs2 o) <= zlen (qs1 o)) ->
  reachable_prompt p (init qs) s ->
  zlen (a_qs s o) <= Z.max (zlen (qs o)) (p_nb_items_queue_max p + p_nb_max_workers p - 1).
Proof. intros V p o i w qs s H1 H2 H3 H4. exact (prompt_qlen p o i w H1 H2 H3 H4 qs s). Qed.
Print Assumptions C12_queue_bound.

Lemma chain_out V (fs : list (bool * (nat -> V -> item V))) j w o :
  nth_error (chain_works fs) j = Some w -> w_out w = Some o -> o = S j.
Proof.
  rewrite chain_works_nth. destruct (nth_error fs j) as [[io f]|]; [|discriminate].
  intros H. injection H as <-. cbn [chain_work w_out]. destruct (Nat.eqb (S j) (List.length fs)); congruence.
Qed.

Theorem C12_chain_queue_bound :
  forall (V : Type) (fs : list (bool * (nat -> V -> item V))) (nb lim : Z) (sie : bool)
         (inputs : list (nat * item V)) (s : ast V) (i : nat),
  let p := mk_params nb lim sie (List.length fs) (chain_works fs) in
  1 <= nb -> 0 <= lim -> (S i < List.length fs)%nat ->
  reachable_prompt p (init (chain_queues inputs)) s ->
  zlen (a_qs s (S i)) <= lim + nb - 1.
Proof.
  intros V fs nb lim sie inputs s i p Hnb Hlim Hi HR.
  destruct (nth_error fs i) as [[io f]|] eqn:Ef; [|apply nth_error_None in Ef; lia].
  assert (Hw : nth_error (p_works p) i = Some (chain_work (List.length fs) i io f)).
  { unfold p. cbn [p_works]. rewrite chain_works_nth, Ef. reflexivity. }
  assert (Ho : w_out (chain_work (List.length fs) i io f) = Some (S i)).
  { cbn [chain_work w_out]. destruct (Nat.eqb_spec (S i) (List.length fs)); [lia|reflexivity]. }
  pose proof (C12_queue_bound V p (S i) i _ (chain_queues inputs) s Hw Ho) as H.
  cbn [chain_queues] in H. unfold zlen at 3 in H. cbn [List.length] in H. cbn [p p_nb_items_queue_max p_nb_max_workers] in H.
  specialize (H (fun j w' Hj Hw' => eq_add_S _ _ (eq_sym (chain_out V fs j w' (S i) Hj Hw')))).
  rewrite Z.max_r in H by (cbn; lia). apply H; [|exact HR].
  intros w' ready g qs1 qs2 HI Hb. exfalso. destruct (chain_only_item fs p eq_refl w' HI) as (inq & f' & Hf'). congruence.
Qed.
Print Assumptions C12_chain_queue_bound.

(** ** C13 *)

(** All topologies made of works on items, all initial contents of the queues: *)
Theorem C13_sequential_stops_at_first_error :
  forall (V : Type) (ws : list (work V)) (qs : queues V) (nmax : Z) (nq fuel : nat) st r,
  only_item_works ws ->
  seq_run fuel true nmax nq ws (mk_sst qs []) = Some (st, r) ->
  match r with
  | None => forallb (fun e => negb (failed e)) (s_tr st) = true
  | Some e => exists tr i k v, s_tr st = tr ++ [ECall i k v (inr e)] /\
                               forallb (fun e => negb (failed e)) tr = true
  end.
Proof.
  intros V ws qs nmax nq fuel st r Hws. exact (seq_run_true fuel nmax nq ws (mk_sst qs []) st r Hws eq_refl).
Qed.
Print Assumptions C13_sequential_stops_at_first_error.

(** ... and what is executed before is what is executed without stop_if_error. *)
Theorem C13_sequential_prefix :
  forall (V : Type) (ws : list (work V)) (qs : queues V) (nmax : Z) (nq fuel : nat) st1,
  seq_run fuel false nmax nq ws (mk_sst qs []) = Some (st1, None) ->
  exists st2 r rest, seq_run fuel true nmax nq ws (mk_sst qs []) = Some (st2, r) /\
    s_tr st1 = s_tr st2 ++ rest /\ (r = None -> st2 = st1).
Proof. intros V ws qs nmax nq fuel st1. exact (seq_run_prefix fuel nmax nq ws (mk_sst qs []) st1). Qed.
Print Assumptions C13_sequential_prefix.

Theorem C13_sequential_no_escape :
  forall (V : Type) (ws : list (work V)) (qs : queues V) (nmax : Z) (nq fuel : nat) st r,
  only_item_works ws ->
  seq_run fuel false nmax nq ws (mk_sst qs []) = Some (st, r) -> r = None.
Proof. intros V ws qs nmax nq fuel st r. exact (seq_run_false fuel nmax nq ws (mk_sst qs []) st r). Qed.
Print Assumptions C13_sequential_no_escape.

Theorem C13_async_errors :
  forall (V : Type) (p : params V) (qs : queues V) (s : ast V),
  only_item_works (p_works p) -> reachable p (init qs) s ->
  (p_stop_if_error p = true ->
     match a_raised s with
     | None => forallb (fun e => negb (failed e)) (a_tr s) = true
     | Some e => (exists tr i k v, a_tr s = tr ++ [ECall i k v (inr e)] /\
                   forallb (fun e => negb (failed e)) tr = true) /\
                 forall l, step p s l = None
     end) /\
  (p_stop_if_error p = false -> a_raised s = None).
Proof.
  intros V p qs s Hit HR. destruct (async_errors p qs s Hit HR) as [H1 H2]. split; [|exact H2].
  intros Hsie. specialize (H1 Hsie). destruct (a_raised s) as [e|] eqn:Er; [|exact H1].
  split; [exact H1|]. intros l. unfold step. rewrite Er. reflexivity.
Qed.
Print Assumptions C13_async_errors.

Example C13_example :
  only_item_works (chain_works ex_fs) /\
  exists st, seq_run 9 true 8 3 (chain_works ex_fs) (mk_sst (chain_queues [(0%nat, inl 2); (1%nat, inl 5)]) [])
    = Some (st, Some ValueError) /\
  s_tr st = [ECall 0 0 2 (inl 3)] ++ [ECall 1 0 3 (inr ValueError)].
Proof.
  split.
  - intros w [<-|[<-|[<-|[]]]]; do 2 eexists; reflexivity.
  - eexists. split; vm_compute; reflexivity.
Qed.

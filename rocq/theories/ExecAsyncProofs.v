(** Proofs about chains of works: asynchronous executor. *)
From Coq Require Import Permutation.
From Verif Require Import PyBase QueueModel QueueProofs ExecModel ExecSpec SplitProofs ExecProofs.

Section AsyncChain.
Context {V : Type}.
Variable fs : list (bool * (nat -> V -> item V)).
Let n := List.length fs.
Let gs := map snd fs.
Variable p : params V.
Hypothesis Hworks : p_works p = chain_works fs.
Hypothesis Hnq : p_nq p = n.

Definition tio (i : nat) : bool := match nth_error fs i with Some (io, _) => io | None => false end.

(** ** tasks *)
Definition others (id : nat) (ts : list (task V)) : list (task V) :=
  filter (fun t => negb (Nat.eqb (t_id t) id)) ts.

Lemma others_cons id t ts : others id (t :: ts) = if Nat.eqb (t_id t) id then others id ts else t :: others id ts.
Proof. unfold others. cbn [filter]. destruct (Nat.eqb (t_id t) id); reflexivity. Qed.

Lemma NoDup_app_conv {A} (l1 l2 : list A) : NoDup l1 -> NoDup l2 -> (forall x, In x l1 -> ~ In x l2) -> NoDup (l1 ++ l2).
Proof.
  intros H1 H2 H. induction l1 as [|a l1 IH]; [exact H2|]. cbn. inversion H1; subst. constructor.
  - rewrite in_app_iff. intros [HI|HI]; [tauto|]. apply (H a); [left; reflexivity|exact HI].
  - apply IH; [assumption|]. intros x Hx. apply H. right. exact Hx.
Qed.

Lemma others_notin id ts : ~ In id (map (@t_id V) ts) -> others id ts = ts.
Proof.
  induction ts as [|t ts IH]; intros H; [reflexivity|]. rewrite others_cons. cbn in H.
  destruct (Nat.eqb_spec (t_id t) id) as [E|E]; [exfalso; apply H; left; exact E|]. rewrite IH; tauto.
Qed.

Lemma find_perm id ts t : NoDup (map (@t_id V) ts) ->
  find (fun t => Nat.eqb (t_id t) id) ts = Some t ->
  t_id t = id /\ Permutation ts (t :: others id ts).
Proof.
  intros Hnd. induction ts as [|t0 ts IH]; [discriminate|]. rewrite others_cons. cbn. inversion Hnd as [|? ? Hni Hnd']; subst.
  destruct (Nat.eqb_spec (t_id t0) id) as [E|E].
  - intros H. injection H as ->. split; [exact E|]. rewrite others_notin by (rewrite <- E; exact Hni). reflexivity.
  - intros H. destruct (IH Hnd' H) as [H1 H2]. split; [exact H1|].
    rewrite perm_swap. constructor. exact H2.
Qed.

Lemma set_running_perm id k v ts t : NoDup (map (@t_id V) ts) ->
  find (fun t => Nat.eqb (t_id t) id) ts = Some t ->
  Permutation (map (fun t => if Nat.eqb (t_id t) id then mk_task id (t_work t) (Running k v) else t) ts)
              (mk_task id (t_work t) (Running k v) :: others id ts).
Proof.
  intros Hnd. induction ts as [|t0 ts IH]; [discriminate|]. rewrite others_cons. cbn. inversion Hnd as [|? ? Hni Hnd']; subst.
  destruct (Nat.eqb_spec (t_id t0) id) as [E|E].
  - intros H. injection H as ->. constructor.
    rewrite others_notin by (rewrite <- E; exact Hni).
    erewrite map_ext_in; [rewrite map_id; reflexivity|]. intros t' Ht'. cbn.
    destruct (Nat.eqb_spec (t_id t') id) as [E'|E']; [|reflexivity].
    exfalso. apply Hni. rewrite E, <- E'. apply in_map, Ht'.
  - intros H. rewrite (IH Hnd' H). apply perm_swap.
Qed.

Lemma set_running_ids id k v ts :
  map (@t_id V) (map (fun t => if Nat.eqb (t_id t) id then mk_task id (t_work t) (Running k v) else t) ts)
  = map (@t_id V) ts.
Proof.
  rewrite map_map. apply map_ext. intros t. destruct (Nat.eqb_spec (t_id t) id) as [E|E]; [symmetry; exact E|reflexivity].
Qed.

(** ** observations of tasks *)
Definition tk {X} (obs : nat -> nat * item V -> list X) (t : task V) : list X :=
  match t_st t with
  | Spawned => []
  | Running k v => obs (t_work t) (k, inl v)
  end.
Definition tks {X} (obs : nat -> nat * item V -> list X) (ts : list (task V)) : list X := flat_map (tk obs) ts.

Lemma tks_app {X} (obs : nat -> nat * item V -> list X) t1 t2 : tks obs (t1 ++ t2) = tks obs t1 ++ tks obs t2.
Proof. apply flat_map_app. Qed.

Lemma tks_perm {X} (obs : nat -> nat * item V -> list X) t1 t2 :
  Permutation t1 t2 -> Permutation (tks obs t1) (tks obs t2).
Proof. apply Permutation_flat_map. Qed.

Definition nrun (io : bool) (ts : list (task V)) : Z :=
  Z.of_nat (List.length (tks (fun i _ => if Bool.eqb (tio i) io then [tt] else []) ts)).

Lemma nrun_perm io t1 t2 : Permutation t1 t2 -> nrun io t1 = nrun io t2.
Proof. intros H. unfold nrun. f_equal. apply Permutation_length, tks_perm, H. Qed.

(** ** effect of a treatment on a conserved observation *)
Lemma treat_perm {X} (obs : nat -> nat * item V -> list X) tobs qs i io f k it :
  conserved fs obs tobs -> nth_error fs i = Some (io, f) ->
  ((S i < n)%nat -> ~ In k (keys (qs (S i)))) ->
  Permutation (Tobs tobs (ev fs i f k it) ++ down obs n (put (next_q fs i) k (apply1 f k it) qs))
              (obs i (k, it) ++ down obs n qs).
Proof.
  intros HC Hf Hfresh. pose proof (HC i io f k it Hf) as Hc. fold n in Hc.
  assert (Hi : (i < n)%nat). { apply nth_error_Some. congruence. }
  unfold put, next_q. fold n. destruct (Nat.eqb_spec (S i) n) as [Hn|Hn].
  - rewrite app_nil_r in Hc. rewrite Hc. reflexivity.
  - rewrite q_set_new by (apply Hfresh; lia). rewrite (down_push_perm fs obs n qs (S i) _ ltac:(lia)).
    rewrite app_assoc, Hc. reflexivity.
Qed.

(** ** invariant *)
Definition total {X} (obs : nat -> nat * item V -> list X) tobs (s : ast V) : list X :=
  Tobs tobs (a_tr s) ++ tks obs (a_tasks s) ++ down obs n (a_qs s).

Record AInv (inputs : list (nat * item V)) (s : ast V) : Prop := mk_AInv {
  inv_fin : Permutation (total (obs_fin fs) (tobs_fin fs) s) (expected gs inputs);
  inv_call : forall j, (j < n)%nat ->
      Permutation (total (obs_call fs j) (tobs_call j) s) (expected_calls gs j inputs);
  inv_ids : NoDup (map (@t_id V) (a_tasks s));
  inv_next : forall t, In t (a_tasks s) -> (t_id t < a_next s)%nat;
  inv_twork : forall t, In t (a_tasks s) -> (t_work t < n)%nat;
  inv_cpu : a_cpu s = nrun false (a_tasks s);
  inv_io : a_io s = nrun true (a_tasks s);
  inv_stop : a_stop s = true -> all_empty n (a_qs s) = true /\ a_cpu s = 0 /\ a_io s = 0;
  inv_exit : forall i, a_exited s i = true -> a_stop s = true;
  inv_poll : a_poll_done s = true -> a_stop s = true;
  inv_qval : forall i k it, (i < n)%nat -> In (k, it) (a_qs s i) ->
      exists x, In (k, x) inputs /\ it = pipe (firstn i gs) k x;
  inv_tval : forall t k v, In t (a_tasks s) -> t_st t = Running k v ->
      exists x, In (k, x) inputs /\ inl v = pipe (firstn (t_work t) gs) k x
}.

Lemma total_keys inputs s : AInv inputs s -> NoDup (map fst inputs) ->
  NoDup (map fst (total (obs_fin fs) (tobs_fin fs) s)).
Proof.
  intros H Hnd. eapply Permutation_NoDup; [|exact Hnd].
  rewrite <- (expected_keys fs inputs). apply Permutation_map. symmetry. apply H.
Qed.

Lemma fresh_down qs i k : (i < n)%nat -> ~ In k (map fst (down (obs_fin fs) n qs)) -> ~ In k (keys (qs i)).
Proof.
  intros Hi Hni HI. apply Hni. unfold keys in HI. apply in_map_iff in HI. destruct HI as ([k' it] & Hk & HI).
  cbn in Hk. subst k'. apply (keys_down fs n qs i (k, it)); [exact Hi|exact HI].
Qed.

Lemma pipe_firstn_S i io f k x it : nth_error fs i = Some (io, f) -> it = pipe (firstn i gs) k x ->
  apply1 f k it = pipe (firstn (S i) gs) k x.
Proof.
  intros Hf ->. unfold gs. revert Hf x. generalize fs as l. intros l. revert i.
  induction l as [|[a g] l IH]; intros [|i] H; cbn in H; try discriminate.
  - injection H as -> ->. intros [v|e]; cbn; [destruct (f k v)|]; reflexivity.
  - intros x. cbn [map snd firstn pipe]. destruct x as [v|e]; [apply (IH i H)|reflexivity].
Qed.

Lemma nth_work i w : nth_error (p_works p) i = Some w ->
  exists io f, nth_error fs i = Some (io, f) /\ w = chain_work n i io f.
Proof.
  rewrite Hworks, chain_works_nth. destruct (nth_error fs i) as [[io f]|]; [|discriminate].
  intros H. injection H as <-. eauto.
Qed.

Lemma counter_inv inputs s io : AInv inputs s -> counter io s = nrun io (a_tasks s).
Proof. intros H. destruct io; [apply H|apply H]. Qed.

Lemma In_put k it i (f : nat -> V -> item V) (qs : queues V) m x :
  ((S i < n)%nat -> ~ In k (keys (qs (S i)))) -> (i < n)%nat ->
  In x (put (next_q fs i) k it qs m) -> In x (qs m) \/ (m = S i /\ x = (k, it)).
Proof.
  intros Hfresh Hi. unfold put, next_q. fold n. destruct (Nat.eqb_spec (S i) n) as [Hn|Hn]; [tauto|].
  unfold upd. destruct (Nat.eqb_spec m (S i)) as [->|Hm]; [|tauto].
  rewrite q_set_new by (apply Hfresh; lia). rewrite in_app_iff. intros [H|[H|[]]]; [left; exact H|right].
  auto.
Qed.

Lemma AInv_init inputs : (1 <= n)%nat -> AInv inputs (init (chain_queues inputs)).
Proof.
  intros Hn. constructor; cbn [init a_tr a_tasks a_qs a_cpu a_io a_stop a_exited a_poll_done map].
  - unfold total. cbn [init a_tr a_tasks a_qs Tobs tks flat_map app].
    unfold n. rewrite down_fin_init by exact Hn. reflexivity.
  - intros j Hj. unfold total. cbn [init a_tr a_tasks a_qs Tobs tks flat_map app].
    unfold n. rewrite down_call_init by exact Hn. reflexivity.
  - constructor.
  - intros t [].
  - intros t [].
  - reflexivity.
  - reflexivity.
  - discriminate.
  - discriminate.
  - discriminate.
  - intros i k it Hi HI. destruct i; [|destruct HI]. cbn in HI. exists it. split; [exact HI|reflexivity].
  - intros t k v [].
Qed.

Lemma check_inv inputs i s s' : AInv inputs s -> check p i s = Some s' -> AInv inputs s'.
Proof.
  intros H. unfold check. destruct (a_exited s i) eqn:Ee; [discriminate|].
  destruct (nth_error (p_works p) i) as [w|] eqn:Ew; [|discriminate].
  destruct (nth_work i w Ew) as (io & f & Hf & ->). cbn [chain_work w_body w_io w_out].
  assert (Hi : (i < n)%nat). { apply nth_error_Some. congruence. }
  match goal with |- context [if ?c then _ else _] => destruct c eqn:Ec end; intros HS; injection HS as <-.
  - destruct (a_stop s) eqn:Es; [|exact H].
    destruct H. constructor; cbn [exit_work a_tr a_tasks a_qs a_cpu a_io a_stop a_exited a_poll_done a_next]; try assumption.
    intros i' _. exact Es.
  - assert (Hns : a_stop s = false).
    { destruct (a_stop s) eqn:Es; [|reflexivity]. exfalso.
      destruct (inv_stop _ _ H Es) as (HE & _). rewrite (proj1 (all_empty_spec n (a_qs s)) HE i Hi) in Ec. discriminate. }
    destruct H. constructor; cbn [spawn a_tr a_tasks a_qs a_cpu a_io a_stop a_exited a_poll_done a_next]; try assumption.
    + unfold total. cbn [spawn a_tr a_tasks a_qs]. rewrite tks_app. cbn [tks flat_map tk t_st app]. rewrite app_nil_r. assumption.
    + intros j Hj. unfold total. cbn [spawn a_tr a_tasks a_qs]. rewrite tks_app. cbn [tks flat_map tk t_st app]. rewrite app_nil_r. apply inv_call0, Hj.
    + rewrite map_app. cbn [map t_id]. apply NoDup_app_conv.
      * assumption.
      * repeat constructor; intros [].
      * intros x Hx [<-|[]]. apply in_map_iff in Hx. destruct Hx as (t & Ht1 & Ht2). specialize (inv_next0 t Ht2). lia.
    + intros t Ht. apply in_app_iff in Ht. destruct Ht as [Ht|[<-|[]]]; [specialize (inv_next0 t Ht); lia|cbn; lia].
    + intros t Ht. apply in_app_iff in Ht. destruct Ht as [Ht|[<-|[]]]; [apply inv_twork0, Ht|exact Hi].
    + rewrite inv_cpu0. unfold nrun. rewrite tks_app. cbn [tks flat_map tk t_st app]. rewrite app_nil_r. reflexivity.
    + rewrite inv_io0. unfold nrun. rewrite tks_app. cbn [tks flat_map tk t_st app]. rewrite app_nil_r. reflexivity.
    + intros t k v Ht. apply in_app_iff in Ht. destruct Ht as [Ht|[<-|[]]]; [apply inv_tval0, Ht|discriminate].
Qed.

Lemma poll_inv inputs s s' : AInv inputs s -> poll p s = Some s' -> AInv inputs s'.
Proof.
  intros H. unfold poll. destruct (a_poll_done s); [discriminate|].
  destruct (a_stop s) eqn:Es; intros HS; injection HS as <-.
  - destruct H. constructor; cbn [set_poll a_tr a_tasks a_qs a_cpu a_io a_stop a_exited a_poll_done a_next]; try assumption.
    + intros _. apply inv_stop0, Es.
    + intros. reflexivity.
    + reflexivity.
  - rewrite Hnq. destruct H. constructor; cbn [set_poll a_tr a_tasks a_qs a_cpu a_io a_stop a_exited a_poll_done a_next]; try assumption.
    + intros HC. rewrite !andb_true_iff, !Z.eqb_eq in HC. tauto.
    + intros i Hi. specialize (inv_exit0 i Hi). congruence.
    + discriminate.
Qed.

(** common part of [start] on an exception and of [finish] *)
Definition rest (id : nat) (io : bool) (qs : queues V) (evs : list (event V)) (d : Z) (s : ast V) : ast V :=
  mk_ast qs (others id (a_tasks s)) (a_next s)
         (if io then a_cpu s else a_cpu s + d) (if io then a_io s + d else a_io s) (a_stop s)
         (a_exited s) (a_poll_done s) (a_tr s ++ evs) (a_raised s).


Lemma In_others id ts t : In t (others id ts) -> In t ts.
Proof. unfold others. rewrite filter_In. tauto. Qed.

Lemma others_ids id ts : NoDup (map (@t_id V) ts) -> NoDup (map (@t_id V) (others id ts)).
Proof.
  induction ts as [|t ts IH]; intros H; [constructor|]. rewrite others_cons. cbn [map] in H. inversion H as [|? ? H1 H2]; subst.
  destruct (Nat.eqb_spec (t_id t) id); [apply IH, H2|]. cbn. constructor; [|apply IH, H2].
  intros HI. apply H1. apply in_map_iff in HI. destruct HI as (t' & Ht1 & Ht2). rewrite <- Ht1. apply in_map, (In_others id), Ht2.
Qed.

Lemma stop_run inputs s : AInv inputs s -> a_stop s = true ->
  forall t k v, In t (a_tasks s) -> t_st t = Running k v -> False.
Proof.
  intros H Hs t k v Ht Hst. destruct (inv_stop _ _ H Hs) as (_ & Hc & Hi).
  assert (HR : nrun (tio (t_work t)) (a_tasks s) = 0).
  { destruct (tio (t_work t)); [rewrite <- (inv_io _ _ H); exact Hi|rewrite <- (inv_cpu _ _ H); exact Hc]. }
  unfold nrun in HR. assert (HL : tks (fun i _ => if Bool.eqb (tio i) (tio (t_work t)) then [tt] else []) (a_tasks s) = []).
  { destruct (tks _ _); [reflexivity|cbn in HR; lia]. }
  assert (HI : In tt (tks (fun i _ => if Bool.eqb (tio i) (tio (t_work t)) then [tt] else []) (a_tasks s))).
  { apply in_flat_map. exists t. split; [exact Ht|]. unfold tk. rewrite Hst, Bool.eqb_reflx. left. reflexivity. }
  rewrite HL in HI. exact HI.
Qed.

Lemma start_inv inputs id s s' : NoDup (map fst inputs) -> AInv inputs s -> start p id s = Some s' -> AInv inputs s'.
Proof.
  intros Hkeys H. unfold start. destruct (find_task id s) as [[id0 i st]|] eqn:Et; [|discriminate].
  destruct st; [|discriminate].
  destruct (nth_error (p_works p) i) as [w|] eqn:Ew; [|discriminate].
  destruct (nth_work i w Ew) as (io & f & Hf & ->). cbn [chain_work w_body w_io w_out].
  assert (Hi : (i < n)%nat). { apply nth_error_Some. congruence. }
  assert (Htio : tio i = io). { unfold tio. rewrite Hf. reflexivity. }
  unfold find_task in Et. destruct (find_perm id (a_tasks s) _ (inv_ids _ _ H) Et) as [Hid HP].
  cbn [t_id] in Hid. subst id0.
  assert (Hq : a_qs (add_counter io 1 s) = a_qs s) by (destruct io; reflexivity). rewrite Hq.
  unfold q_pop_first. destruct (a_qs s i) as [|[k obj] q'] eqn:Eq.
  - (* queue empty *)
    intros HS. injection HS as <-.
    replace (remove_task id (add_counter io (-1) (add_counter io 1 s))) with (rest id io (a_qs s) [] 0 s).
    2:{ unfold rest, remove_task, set_tasks, add_counter. rewrite app_nil_r.
        destruct io; cbn [a_qs a_tasks a_next a_cpu a_io a_stop a_exited a_poll_done a_tr a_raised]; f_equal; lia. }
    assert (HT : forall X (obs : nat -> nat * item V -> list X), Permutation (tks obs (others id (a_tasks s))) (tks obs (a_tasks s))).
    { intros X obs. rewrite (tks_perm obs _ _ HP). reflexivity. }
    destruct H. constructor; cbn [rest a_tr a_tasks a_qs a_cpu a_io a_stop a_exited a_poll_done a_next]; try assumption.
    + unfold total in *. cbn [rest a_tr a_tasks a_qs]. rewrite app_nil_r, HT. assumption.
    + intros j Hj. unfold total in *. cbn [rest a_tr a_tasks a_qs]. rewrite app_nil_r, HT. apply inv_call0, Hj.
    + apply others_ids. assumption.
    + intros t Ht. apply inv_next0, (In_others id), Ht.
    + intros t Ht. apply inv_twork0, (In_others id), Ht.
    + rewrite Z.add_0_r. replace (if io then a_cpu s else a_cpu s) with (a_cpu s) by (destruct io; reflexivity).
      rewrite inv_cpu0. unfold nrun. f_equal. symmetry. apply Permutation_length, HT.
    + rewrite Z.add_0_r. replace (if io then a_io s else a_io s) with (a_io s) by (destruct io; reflexivity).
      rewrite inv_io0. unfold nrun. f_equal. symmetry. apply Permutation_length, HT.
    + intros Hs. specialize (inv_stop0 Hs). rewrite !Z.add_0_r. destruct io; exact inv_stop0.
    + intros t k v Ht. apply inv_tval0, (In_others id), Ht.
  - assert (Hns : a_stop s = false).
    { destruct (a_stop s) eqn:Es; [|reflexivity]. exfalso.
      destruct (inv_stop _ _ H Es) as (HE & _). rewrite all_empty_spec in HE. rewrite (HE i Hi) in Eq. discriminate. }
    pose proof (total_keys _ _ H Hkeys) as HND. unfold total in HND.
    assert (Hfresh : (S i < n)%nat -> ~ In k (keys (upd (a_qs s) i q' (S i)))).
    { intros HSi. rewrite upd_other by lia. eapply (fresh_next fs n); [exact HSi| |exact Eq].
      rewrite !map_app in HND. apply NoDup_app_disjoint in HND. destruct HND as (_ & HND & _).
      apply NoDup_app_disjoint in HND. apply HND. }
    destruct obj as [v|e].
    + (* the item is taken *)
      intros HS. injection HS as <-.
      set (s' := set_running id k v _).
      assert (HTP : Permutation (a_tasks s') (mk_task id i (Running k v) :: others id (a_tasks s))).
      { unfold s', set_running, set_tasks, set_qs. cbn [a_tasks]. 
        replace (a_tasks (add_counter io 1 s)) with (a_tasks s) by (destruct io; reflexivity).
        apply (set_running_perm id k v (a_tasks s) _ (inv_ids _ _ H) Et). }
      assert (HT : forall X (obs : nat -> nat * item V -> list X),
                 Permutation (tks obs (a_tasks s')) (obs i (k, inl v) ++ tks obs (a_tasks s))).
      { intros X obs. rewrite (tks_perm obs _ _ HTP), (tks_perm obs _ _ HP). reflexivity. }
      assert (Hqs' : a_qs s' = upd (a_qs s) i q').
      { unfold s', set_running, set_tasks, set_qs. cbn [a_qs]. destruct io; reflexivity. }
      assert (Htr : a_tr s' = a_tr s). { unfold s'. destruct io; reflexivity. }
      assert (Hstop' : a_stop s' = a_stop s). { unfold s'. destruct io; reflexivity. }
      assert (Hex' : a_exited s' = a_exited s). { unfold s'. destruct io; reflexivity. }
      assert (Hpd' : a_poll_done s' = a_poll_done s). { unfold s'. destruct io; reflexivity. }
      assert (Hnx' : a_next s' = a_next s). { unfold s'. destruct io; reflexivity. }
      assert (Hcpu' : a_cpu s' = if io then a_cpu s else a_cpu s + 1). { unfold s'. destruct io; reflexivity. }
      assert (Hio' : a_io s' = if io then a_io s + 1 else a_io s). { unfold s'. destruct io; reflexivity. }
      assert (HTot : forall X (obs : nat -> nat * item V -> list X) tobs, Permutation (total obs tobs s') (total obs tobs s)).
      { intros X obs tobs. unfold total. rewrite Htr, HT, Hqs', <- app_assoc. apply Permutation_app_head.
        rewrite Permutation_app_swap_app. apply Permutation_app_head. apply (down_pop_perm fs); [exact Hi|exact Eq]. }
      destruct H. constructor.
      * rewrite HTot. assumption.
      * intros j Hj. rewrite HTot. apply inv_call0, Hj.
      * unfold s', set_running, set_tasks, set_qs. cbn [a_tasks]. rewrite set_running_ids. destruct io; assumption.
      * intros t Ht. rewrite Hnx'. apply (Permutation_in _ HTP) in Ht. destruct Ht as [<-|Ht].
        -- cbn [t_id]. apply (inv_next0 (mk_task id i Spawned)). apply (Permutation_in _ (Permutation_sym HP)). left. reflexivity.
        -- apply inv_next0, (In_others id), Ht.
      * intros t Ht. apply (Permutation_in _ HTP) in Ht. destruct Ht as [<-|Ht]; [exact Hi|apply inv_twork0, (In_others id), Ht].
      * rewrite Hcpu', inv_cpu0. unfold nrun. rewrite (Permutation_length (HT _ _)), app_length, Htio.
        destruct io; cbn [Bool.eqb List.length]; lia.
      * rewrite Hio', inv_io0. unfold nrun. rewrite (Permutation_length (HT _ _)), app_length, Htio.
        destruct io; cbn [Bool.eqb List.length]; lia.
      * rewrite Hstop', Hns. discriminate.
      * rewrite Hstop', Hex'. assumption.
      * rewrite Hstop', Hpd'. assumption.
      * intros i' k' it' Hi' HI. rewrite Hqs' in HI. apply inv_qval0; [exact Hi'|].
        unfold upd in HI. destruct (Nat.eqb_spec i' i) as [->|]; [|exact HI]. rewrite Eq. right. exact HI.
      * intros t k' v' Ht Hst. apply (Permutation_in _ HTP) in Ht. destruct Ht as [<-|Ht].
        -- cbn in Hst. injection Hst as <- <-. apply (inv_qval0 i k (inl v) Hi). rewrite Eq. left. reflexivity.
        -- eapply inv_tval0; [apply (In_others id), Ht|exact Hst].
    + (* exception *)
      change (if Nat.eqb (S i) n then None else Some (S i)) with (next_q fs i).
      intros HS. injection HS as <-.
      match goal with |- AInv _ ?x => replace x with (rest id io (put (next_q fs i) k (inr e) (upd (a_qs s) i q')) (ev fs i f k (inr e)) 0 s) end.
      2:{ unfold rest, remove_task, set_tasks, set_qs, add_tr, add_counter, next_q, put, ev. fold n.
          destruct (Nat.eqb (S i) n); destruct io;
            cbn [a_qs a_tasks a_next a_cpu a_io a_stop a_exited a_poll_done a_tr a_raised]; rewrite ?app_nil_r; f_equal; (reflexivity || lia). }
      assert (HT : forall X (obs : nat -> nat * item V -> list X), Permutation (tks obs (others id (a_tasks s))) (tks obs (a_tasks s))).
      { intros X obs. rewrite (tks_perm obs _ _ HP). reflexivity. }
      assert (HTot : forall X (obs : nat -> nat * item V -> list X) tobs, conserved fs obs tobs ->
         Permutation (total obs tobs (rest id io (put (next_q fs i) k (inr e) (upd (a_qs s) i q')) (ev fs i f k (inr e)) 0 s)) (total obs tobs s)).
      { intros X obs tobs HC. unfold total, rest. cbn [a_tr a_tasks a_qs]. rewrite Tobs_app, <- app_assoc, HT.
        apply Permutation_app_head. rewrite Permutation_app_swap_app. apply Permutation_app_head.
        rewrite (treat_perm obs tobs (upd (a_qs s) i q') i io f k (inr e) HC Hf Hfresh).
        apply (down_pop_perm fs); [exact Hi|exact Eq]. }
      assert (Hcpu : forall z : Z, (if io then z else z + 0) = z) by (intros; destruct io; lia).
      assert (Hio : forall z : Z, (if io then z + 0 else z) = z) by (intros; destruct io; lia).
      destruct H. constructor; cbn [rest a_tr a_tasks a_qs a_cpu a_io a_stop a_exited a_poll_done a_next]; try assumption.
      * rewrite HTot by apply conserved_fin. assumption.
      * intros j Hj. rewrite HTot by (apply conserved_call, Hj). apply inv_call0, Hj.
      * apply others_ids. assumption.
      * intros t Ht. apply inv_next0, (In_others id), Ht.
      * intros t Ht. apply inv_twork0, (In_others id), Ht.
      * rewrite Hcpu, inv_cpu0. unfold nrun. f_equal. symmetry. apply Permutation_length, HT.
      * rewrite Hio, inv_io0. unfold nrun. f_equal. symmetry. apply Permutation_length, HT.
      * rewrite Hns. discriminate.
      * intros i' k' it' Hi' HI. apply (In_put k (inr e) i f) in HI; [|exact Hfresh|exact Hi].
        destruct HI as [HI|[-> HI]].
        -- apply inv_qval0; [exact Hi'|]. unfold upd in HI. destruct (Nat.eqb_spec i' i) as [->|]; [|exact HI]. rewrite Eq. right. exact HI.
        -- injection HI as -> ->. destruct (inv_qval0 i k (inr e) Hi) as (x & Hx1 & Hx2); [rewrite Eq; left; reflexivity|].
           exists x. split; [exact Hx1|]. rewrite <- (pipe_firstn_S i io f k x (inr e) Hf Hx2). reflexivity.
      * intros t k' v' Ht. apply inv_tval0, (In_others id), Ht.
Qed.

Lemma finish_inv inputs id s s' : NoDup (map fst inputs) -> AInv inputs s -> finish p id s = Some s' ->
  a_raised s = None -> a_raised s' = None -> AInv inputs s'.
Proof.
  intros Hkeys H. unfold finish. destruct (find_task id s) as [[id0 i st]|] eqn:Et; [|discriminate].
  destruct st as [|k v]; [discriminate|].
  destruct (nth_error (p_works p) i) as [w|] eqn:Ew; [|discriminate].
  destruct (nth_work i w Ew) as (io & f & Hf & ->). cbn [chain_work w_body w_io w_out].
  assert (Hi : (i < n)%nat). { apply nth_error_Some. congruence. }
  assert (Htio : tio i = io). { unfold tio. rewrite Hf. reflexivity. }
  unfold find_task in Et. destruct (find_perm id (a_tasks s) _ (inv_ids _ _ H) Et) as [Hid HP].
  cbn [t_id] in Hid. subst id0.
  assert (HIn : In (mk_task id i (Running k v)) (a_tasks s)).
  { apply (Permutation_in _ (Permutation_sym HP)). left. reflexivity. }
  assert (Hns : a_stop s = false).
  { destruct (a_stop s) eqn:Es; [|reflexivity]. exfalso. eapply (stop_run _ _ H Es); [exact HIn|reflexivity]. }
  set (s1 := rest id io (put (next_q fs i) k (f k v) (a_qs s)) [ECall i k v (f k v)] (-1) s).
  intros HS Hr0 Hr. assert (s' = s1).
  { destruct (f k v) as [v'|e] eqn:Efv.
    - injection HS as <-. unfold s1, rest, remove_task, set_tasks, set_qs, add_tr, add_counter, next_q. fold n.
      destruct io; reflexivity.
    - destruct (p_stop_if_error p).
      + injection HS as <-. discriminate.
      + injection HS as <-. unfold s1, rest, remove_task, set_tasks, set_qs, add_tr, add_counter, next_q. fold n.
      destruct io; reflexivity. }
  subst s'. clear HS Hr.
  pose proof (total_keys _ _ H Hkeys) as HND. unfold total in HND.
  assert (Hfresh : (S i < n)%nat -> ~ In k (keys (a_qs s (S i)))).
  { intros HSi. apply fresh_down; [exact HSi|].
    rewrite !map_app in HND. apply NoDup_app_disjoint in HND. destruct HND as (_ & HND & _).
    apply NoDup_app_disjoint in HND. destruct HND as (_ & _ & HND). intros HC. apply (HND k); [|exact HC].
    apply in_map_iff. exists (k, pipe (skipn i gs) k (inl v)). split; [reflexivity|].
    apply in_flat_map. exists (mk_task id i (Running k v)). split; [exact HIn|]. left. reflexivity. }
  assert (HT : forall X (obs : nat -> nat * item V -> list X),
     Permutation (tks obs (a_tasks s)) (obs i (k, inl v) ++ tks obs (others id (a_tasks s)))).
  { intros X obs. rewrite (tks_perm obs _ _ HP). reflexivity. }
  assert (HTot : forall X (obs : nat -> nat * item V -> list X) tobs, conserved fs obs tobs ->
         Permutation (total obs tobs s1) (total obs tobs s)).
  { intros X obs tobs HC. unfold total, s1, rest. cbn [a_tr a_tasks a_qs]. rewrite Tobs_app, <- app_assoc, HT.
    apply Permutation_app_head. rewrite Permutation_app_swap_app, <- app_assoc. rewrite (Permutation_app_swap_app (obs i (k, inl v))).
    apply Permutation_app_head.
    apply (treat_perm obs tobs (a_qs s) i io f k (inl v) HC Hf Hfresh). }
  destruct H. constructor; try (unfold s1; cbn [rest a_tr a_tasks a_qs a_cpu a_io a_stop a_exited a_poll_done a_next]); try assumption.
  * etransitivity; [apply HTot, conserved_fin|assumption].
  * intros j Hj. etransitivity; [apply HTot, conserved_call, Hj|apply inv_call0, Hj].
  * apply others_ids. assumption.
  * intros t Ht. apply inv_next0, (In_others id), Ht.
  * intros t Ht. apply inv_twork0, (In_others id), Ht.
  * rewrite inv_cpu0. unfold nrun. rewrite (Permutation_length (HT _ _)), app_length, Htio.
        destruct io; cbn [Bool.eqb List.length]; lia.
  * rewrite inv_io0. unfold nrun. rewrite (Permutation_length (HT _ _)), app_length, Htio.
        destruct io; cbn [Bool.eqb List.length]; lia.
  * rewrite Hns. discriminate.
  * intros i' k' it' Hi' HI. apply (In_put k (f k v) i f) in HI; [|exact Hfresh|exact Hi].
    destruct HI as [HI|[-> HI]].
    -- apply inv_qval0; [exact Hi'|exact HI].
    -- injection HI as -> ->. destruct (inv_tval0 _ k v HIn eq_refl) as (x & Hx1 & Hx2). cbn [t_work] in Hx2.
           exists x. split; [exact Hx1|]. rewrite <- (pipe_firstn_S i io f k x (inl v) Hf Hx2). reflexivity.
  * intros t k' v' Ht. apply inv_tval0, (In_others id), Ht.
Qed.

Lemma step_raised s l s' : step p s l = Some s' -> a_raised s = None.
Proof. unfold step. destruct (a_raised s); [discriminate|reflexivity]. Qed.

Lemma step_inv inputs s l s' : NoDup (map fst inputs) -> AInv inputs s -> step p s l = Some s' ->
  a_raised s' = None -> AInv inputs s'.
Proof.
  intros Hk H HS Hr. pose proof (step_raised _ _ _ HS) as Hr0. unfold step in HS. rewrite Hr0 in HS.
  destruct l as [i|id|id|].
  - eapply check_inv; eassumption.
  - eapply start_inv; eassumption.
  - eapply finish_inv; eassumption.
  - eapply poll_inv; eassumption.
Qed.

Lemma reachable_inv inputs s : (1 <= n)%nat -> NoDup (map fst inputs) ->
  reachable p (init (chain_queues inputs)) s -> a_raised s = None -> AInv inputs s.
Proof.
  intros Hn Hk HR. induction HR as [|s l s' HR IH HS]; intros Hr.
  - apply AInv_init, Hn.
  - eapply step_inv; [exact Hk|apply IH, (step_raised _ _ _ HS)|exact HS|exact Hr].
Qed.

End AsyncChain.

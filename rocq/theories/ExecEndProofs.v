(** Asynchronous executor, arbitrary topology: which steps are possible, and how an execution
    can end once nothing is left to do. *)
From Coq Require Import Permutation.
From Verif Require Import PyBase QueueModel QueueProofs ExecModel ExecSpec SplitProofs ExecProofs ExecAsyncProofs ExecBoundProofs ExecAbsProofs.

Section End.
Context {V : Type}.
Variable p : params V.

Definition TW (s : ast V) : Prop := forall t, In t (a_tasks s) ->
  exists w inq f, nth_error (p_works p) (t_work t) = Some w /\ w_body w = ItemWork inq f.

Lemma TW_step s l s' : G p s -> TW s -> step p s l = Some s' -> TW s'.
Proof.
  intros HG HT HS. destruct (step_change p s l s' (g_ids _ _ HG) HS) as
    [HP Hid Hn Hc Hq|i w Hw Ht Hn Hc _ _ _ Hl|id i w k v Hw HP HP' Hid Hn Hc Hq|id i w Hw HP Ht Hn Hc Hq|id i w k v Hw HP Ht Hn Hc Hq]; intros t HI.
  - apply HT, (Permutation_in _ HP HI).
  - rewrite Ht, in_app_iff in HI. destruct HI as [HI|[<-|[]]]; [apply HT, HI|]. cbn [t_work]. exists w.
    subst l. unfold step in HS. destruct (a_raised s); [discriminate|]. unfold check in HS. destruct (a_exited s i); [discriminate|].
    rewrite Hw in HS. destruct (w_body w) as [inq f|rd g]; [eauto|]. exfalso.
    assert (E : a_tasks s' = a_tasks s). { destruct (rd (a_qs s)); [destruct (g (a_qs s)); [destruct (a_stop s)|]|destruct (a_stop s)]; injection HS as <-; reflexivity. }
    rewrite E in Ht. apply (f_equal (@List.length _)) in Ht. rewrite app_length in Ht. cbn in Ht. lia.
  - apply (Permutation_in _ HP') in HI. destruct HI as [<-|HI]; [|apply HT, (In_others id), HI].
    apply (HT (mk_task id i Spawned)). apply (Permutation_in _ (Permutation_sym HP)). left. reflexivity.
  - rewrite Ht in HI. apply HT, (In_others id), HI.
  - rewrite Ht in HI. apply HT, (In_others id), HI.
Qed.

Lemma reachable_TW qs s : reachable p (init qs) s -> TW s.
Proof. intros HR. induction HR; [intros t []|]. eapply TW_step; try eassumption. eapply reachable_G, HR. Qed.

Lemma find_In s t : G p s -> In t (a_tasks s) -> find_task (t_id t) s = Some t.
Proof.
  intros H. unfold find_task. pose proof (g_ids _ _ H) as Hnd. revert Hnd. generalize (a_tasks s). intros l.
  induction l as [|t0 l IH]; intros Hnd HI; [destruct HI|]. cbn in Hnd |- *. inversion Hnd as [|? ? H1 H2]; subst.
  destruct HI as [->|HI]; [rewrite Nat.eqb_refl; reflexivity|].
  destruct (Nat.eqb_spec (t_id t0) (t_id t)) as [E|E]; [|apply IH; assumption].
  exfalso. apply H1. rewrite E. apply in_map, HI.
Qed.

Lemma others_len id ts : In id (map (@t_id V) ts) -> (List.length (others id ts) < List.length ts)%nat.
Proof.
  induction ts as [|t ts IH]; intros H; [destruct H|]. rewrite others_cons. cbn in H.
  pose proof (filter_length_le (fun t => negb (Nat.eqb (t_id (V:=V) t) id)) ts) as HL. fold (others id ts) in HL.
  destruct (Nat.eqb_spec (t_id t) id); cbn [List.length]; [lia|]. specialize (IH ltac:(tauto)). lia.
Qed.

Lemma reach_tr s0 s1 s2 : reachable p s0 s1 -> reachable p s1 s2 -> reachable p s0 s2.
Proof. intros H1 H2. induction H2; [exact H1|econstructor; eassumption]. Qed.
Lemma reach_1 s l s' : step p s l = Some s' -> reachable p s s'.
Proof. intros H. econstructor; [constructor|exact H]. Qed.

(** a spawned task can start *)
Lemma start_gen s t : G p s -> TW s -> In t (a_tasks s) -> t_st t = Spawned -> a_raised s = None ->
  exists s', step p s (LStart (t_id t)) = Some s' /\ a_raised s' = None /\
   ((same_abs s s' /\ (List.length (a_tasks s') < List.length (a_tasks s))%nat) \/
    ((exists k, item_trans (p_works p) (t_work t) k (abs s) (abs s')) /\ (List.length (a_tasks s') <= List.length (a_tasks s))%nat)) /\
   (forall w inq f, nth_error (p_works p) (t_work t) = Some w -> w_body w = ItemWork inq f -> a_qs s inq <> [] ->
      (exists k, item_trans (p_works p) (t_work t) k (abs s) (abs s')) /\ (List.length (a_tasks s') <= List.length (a_tasks s))%nat).
Proof.
  intros HG HT HI Hst Hr. pose proof (find_In s t HG HI) as Hf.
  assert (HIid : In (t_id t) (map (@t_id V) (a_tasks s))) by (apply in_map, HI).
  destruct (HT t HI) as (w & inq & f & Hw & Hb). destruct t as [id i st]. cbn [t_id t_work t_st] in *. subst st.
  assert (HS : exists s', start p id s = Some s').
  { unfold start. rewrite Hf, Hw, Hb. cbv zeta. destruct (q_pop_first _) as [[[k [v|e]] q']|]; eauto. }
  destruct HS as (s' & HS). exists s'. split; [unfold step; rewrite Hr; exact HS|].
  destruct (start_abs p s id i w inq f s' (g_ids _ _ HG) Hf Hw Hb HS) as [Hr' HC]. split; [congruence|]. split.
  - destruct HC as [(_ & H1 & H2)|(_ & H1)]; [left|right; exact H1]. split; [exact H1|]. rewrite H2. apply others_len, HIid.
  - intros w' inq' f' Hw' Hb' Hne. rewrite Hw in Hw'. injection Hw' as <-. rewrite Hb in Hb'. injection Hb' as <- <-.
    destruct HC as [(H1 & _)|(_ & H1)]; [congruence|exact H1].
Qed.

(** a running task can finish *)
Lemma finish_gen s t k v : p_stop_if_error p = false -> G p s -> TW s -> In t (a_tasks s) -> t_st t = Running k v -> a_raised s = None ->
  exists s', step p s (LFinish (t_id t)) = Some s' /\ a_raised s' = None /\
    item_trans (p_works p) (t_work t) k (abs s) (abs s') /\ (List.length (a_tasks s') < List.length (a_tasks s))%nat.
Proof.
  intros Hsie HG HT HI Hst Hr. pose proof (find_In s t HG HI) as Hf.
  assert (HIid : In (t_id t) (map (@t_id V) (a_tasks s))) by (apply in_map, HI).
  destruct (HT t HI) as (w & inq & f & Hw & Hb). destruct t as [id i st]. cbn [t_id t_work t_st] in *. subst st.
  assert (HS : exists s', finish p id s = Some s' /\ a_raised s' = None).
  { unfold finish. rewrite Hf, Hw, Hb. cbv zeta. rewrite Hsie. destruct (f k v); eexists; (split; [reflexivity|]);
      cbn [remove_task set_tasks a_raised]; rewrite a_raised_ac; exact Hr. }
  destruct HS as (s' & HS & Hr'). exists s'. split; [unfold step; rewrite Hr; exact HS|]. split; [exact Hr'|].
  destruct (finish_abs p s id i k v w inq f s' (g_ids _ _ HG) Hf Hw Hb HS Hr') as [H1 H2]. split; [exact H1|].
  rewrite H2. apply others_len, HIid.
Qed.

(** spawn *)
Lemma check_spawn_gen s i w inq f : nth_error (p_works p) i = Some w -> w_body w = ItemWork inq f ->
  1 <= p_nb_max_workers p -> G p s -> a_tasks s = [] -> a_raised s = None -> a_exited s i = false ->
  a_qs s inq <> [] -> full p (w_out w) (a_qs s) = false -> step p s (LCheck i) = Some (spawn i s).
Proof.
  intros Hw Hb Hnb HG Ht Hr He Hq Hf. unfold step. rewrite Hr. unfold check. rewrite He, Hw, Hb, Hf.
  destruct (a_qs s inq); [congruence|]. rewrite (g_cnt _ _ HG), Ht. change (cnt (isrun p (w_io w)) []) with 0.
  destruct (Z.leb_spec (p_nb_max_workers p) 0); [lia|]. reflexivity.
Qed.

(** the item at the head of a queue can be taken *)
Lemma take_gen s i w inq f : nth_error (p_works p) i = Some w -> w_body w = ItemWork inq f ->
  1 <= p_nb_max_workers p -> G p s -> TW s -> a_tasks s = [] -> a_raised s = None -> a_exited s i = false ->
  a_qs s inq <> [] -> full p (w_out w) (a_qs s) = false ->
  exists s', reachable p s s' /\ a_raised s' = None /\ (exists k, item_trans (p_works p) i k (abs s) (abs s')) /\ (List.length (a_tasks s') <= 1)%nat.
Proof.
  intros Hw Hb Hnb HG HT Ht Hr He Hq Hf.
  pose proof (check_spawn_gen s i w inq f Hw Hb Hnb HG Ht Hr He Hq Hf) as HS1.
  pose proof (G_step p _ _ _ HG HS1) as HG1. pose proof (TW_step _ _ _ HG HT HS1) as HT1.
  assert (HI1 : In (mk_task (a_next s) i Spawned) (a_tasks (spawn i s))) by (cbn [spawn a_tasks]; apply in_or_app; right; left; reflexivity).
  destruct (start_gen _ _ HG1 HT1 HI1 eq_refl Hr) as (s2 & HS2 & Hr2 & _ & HC). cbn [t_work t_id] in *.
  destruct (HC w inq f Hw Hb Hq) as [(k & HK) HL]. exists s2. split; [eapply reach_tr; eapply reach_1; eassumption|]. split; [exact Hr2|]. split.
  - exists k.
    assert (E : abs (spawn i s) = abs s). { unfold abs. cbn [spawn a_qs a_tasks a_tr]. rewrite running_list_app. cbn. rewrite app_nil_r. reflexivity. }
    rewrite E in HK. exact HK.
  - cbn [spawn a_tasks] in HL. rewrite Ht in HL. exact HL.
Qed.

(** ** the end *)
(** an item goes through a work, alone *)
Lemma through s i w inq f o k it q' : nth_error (p_works p) i = Some w -> w_body w = ItemWork inq f -> w_out w = Some o ->
  p_stop_if_error p = false -> 1 <= p_nb_max_workers p -> G p s -> a_tasks s = [] -> a_raised s = None -> a_exited s i = false ->
  a_qs s inq = (k, it) :: q' -> full p (w_out w) (a_qs s) = false ->
  exists s', reachable p s s' /\ a_tasks s' = [] /\
    a_qs s' = put (Some o) k (match it with inl v => f k v | inr e => inr e end) (upd (a_qs s) inq q').
Proof.
  intros Hw Hb Ho Hsie Hnb HG Ht Hr He Hq Hf.
  assert (Hne : a_qs s inq <> []) by (rewrite Hq; discriminate).
  pose proof (check_spawn_gen s i w inq f Hw Hb Hnb HG Ht Hr He Hne Hf) as HS1.
  assert (Hft : find_task (a_next s) (spawn i s) = Some (mk_task (a_next s) i Spawned)).
  { unfold find_task, spawn. cbn [a_tasks]. rewrite Ht. cbn. rewrite Nat.eqb_refl. reflexivity. }
  destruct it as [v|e].
  - set (s2 := set_running (a_next s) k v (set_qs (upd (a_qs (add_counter (w_io w) 1 (spawn i s))) inq q') (add_counter (w_io w) 1 (spawn i s)))).
    assert (HS2 : step p (spawn i s) (LStart (a_next s)) = Some s2).
    { unfold step. cbn [spawn a_raised]. rewrite Hr. unfold start. rewrite Hft, Hw, Hb. cbv zeta. rewrite a_qs_ac. cbn [spawn a_qs]. rewrite Hq. cbn [q_pop_first].
      unfold s2. rewrite a_qs_ac. reflexivity. }
    assert (Hts : a_tasks s2 = [mk_task (a_next s) i (Running k v)]).
    { unfold s2. cbn [set_running set_tasks set_qs a_tasks]. rewrite a_tasks_ac. cbn [spawn a_tasks]. rewrite Ht. cbn. rewrite Nat.eqb_refl. reflexivity. }
    assert (Hq2 : a_qs s2 = upd (a_qs s) inq q'). { unfold s2. cbn [set_running set_tasks set_qs a_qs]. rewrite a_qs_ac. reflexivity. }
    assert (Hr2 : a_raised s2 = None). { unfold s2. cbn [set_running set_tasks set_qs a_raised]. rewrite a_raised_ac. exact Hr. }
    clearbody s2.
    assert (HS3 : exists s3, step p s2 (LFinish (a_next s)) = Some s3 /\ a_tasks s3 = [] /\ a_qs s3 = put (Some o) k (f k v) (a_qs s2)).
    { unfold step. rewrite Hr2. unfold finish, find_task. rewrite Hts. cbn [find t_id]. rewrite Nat.eqb_refl, Hw, Hb. cbv zeta. rewrite Hsie, Ho.
      destruct (f k v); eexists; (split; [reflexivity|]); cbn [remove_task set_tasks a_tasks a_qs]; rewrite a_tasks_ac, a_qs_ac;
        cbn [set_qs add_tr a_tasks a_qs]; rewrite Hts; cbn; rewrite Nat.eqb_refl; split; reflexivity. }
    destruct HS3 as (s3 & HS3 & H1 & H2). exists s3. split; [|split; [exact H1|rewrite H2, Hq2; reflexivity]].
    eapply reach_tr; [eapply reach_tr; [apply (reach_1 _ _ _ HS1)|apply (reach_1 _ _ _ HS2)]|apply (reach_1 _ _ _ HS3)].
  - assert (HS2 : exists s2, step p (spawn i s) (LStart (a_next s)) = Some s2 /\ a_tasks s2 = [] /\ a_qs s2 = put (Some o) k (inr e) (upd (a_qs s) inq q')).
    { unfold step. cbn [spawn a_raised]. rewrite Hr. unfold start. rewrite Hft, Hw, Hb. cbv zeta. rewrite a_qs_ac. cbn [spawn a_qs]. rewrite Hq. cbn [q_pop_first].
      rewrite Ho. eexists. split; [reflexivity|]. cbn [remove_task set_tasks a_tasks a_qs]. rewrite a_tasks_ac, a_qs_ac.
      cbn [set_qs a_tasks a_qs]. rewrite a_tasks_ac. cbn [spawn a_tasks]. rewrite Ht. cbn. rewrite Nat.eqb_refl. split; reflexivity. }
    destruct HS2 as (s2 & HS2 & H1 & H2). exists s2. split; [|split; [exact H1|exact H2]].
    eapply reach_tr; [apply (reach_1 _ _ _ HS1)|apply (reach_1 _ _ _ HS2)].
Qed.

Section Exit.
Hypothesis HW : well_formed p.

Lemma exit_gen s i : a_raised s = None -> a_stop s = true -> all_empty (p_nq p) (a_qs s) = true -> (i < List.length (p_works p))%nat ->
  a_exited s i = false -> step p s (LCheck i) = Some (exit_work i s).
Proof.
  intros Hr Hs HE Hi He. unfold step. rewrite Hr. unfold check. rewrite He.
  destruct (nth_error (p_works p) i) as [w|] eqn:Ew; [|apply nth_error_None in Ew; lia].
  pose proof (HW i w Ew) as HWi. destruct (w_body w) as [inq f|rd g].
  - rewrite (proj1 (all_empty_spec _ _) HE inq HWi), Hs. reflexivity.
  - rewrite (HWi _ HE), Hs. reflexivity.
Qed.

Lemma exit_all m s : (m <= List.length (p_works p))%nat -> a_raised s = None -> a_stop s = true -> all_empty (p_nq p) (a_qs s) = true ->
  exists s', reachable p s s' /\ a_raised s' = None /\ a_stop s' = true /\ a_tasks s' = a_tasks s /\
    a_poll_done s' = a_poll_done s /\ a_qs s' = a_qs s /\ (forall i, (i < m)%nat -> a_exited s' i = true).
Proof.
  intros Hm Hr Hs Hq. induction m as [|m IH].
  - exists s. split; [constructor|]. repeat split; try assumption; try reflexivity. intros; lia.
  - destruct (IH ltac:(lia)) as (s1 & HR1 & Hr1 & Hs1 & Ht1 & Hp1 & Hq1 & He1).
    destruct (a_exited s1 m) eqn:Ee.
    + exists s1. repeat split; try assumption. intros i Hi. destruct (Nat.eq_dec i m) as [->|]; [exact Ee|apply He1; lia].
    + exists (exit_work m s1). split.
      { eapply reach_tr; [exact HR1|]. apply (reach_1 _ (LCheck m)), exit_gen; try assumption; try lia. rewrite Hq1. exact Hq. }
      cbn [exit_work a_raised a_stop a_tasks a_poll_done a_qs a_exited]. repeat split; try assumption.
      intros i Hi. unfold upd. destruct (Nat.eqb_spec i m) as [->|]; [reflexivity|apply He1; lia].
Qed.

Lemma end_gen s : G p s -> Flags p s -> a_raised s = None -> a_tasks s = [] -> all_empty (p_nq p) (a_qs s) = true ->
  exists s', reachable p s s' /\ ended p s'.
Proof.
  intros HG HF Hr Ht HE.
  assert (Hc : forall io, counter io s = 0) by (intros io; rewrite (g_cnt _ _ HG), Ht; reflexivity).
  assert (HS : exists s2, reachable p s s2 /\ a_raised s2 = None /\ a_stop s2 = true /\ a_tasks s2 = [] /\
                 a_poll_done s2 = true /\ a_qs s2 = a_qs s).
  { destruct (a_stop s) eqn:Es.
    - destruct (a_poll_done s) eqn:Ep.
      + exists s. split; [constructor|]. auto.
      + exists (set_poll true true s). split; [|cbn; auto]. apply (reach_1 _ LPoll). unfold step. rewrite Hr. unfold poll.
        rewrite Ep, Es. reflexivity.
    - assert (Ep : a_poll_done s = false).
      { destruct (a_poll_done s) eqn:Ep; [|reflexivity]. apply (f_poll _ _ HF) in Ep. congruence. }
      exists (set_poll true true (set_poll true false s)). split; [|cbn; auto].
      eapply reach_tr; [apply (reach_1 _ LPoll (set_poll true false s))|apply (reach_1 _ LPoll)].
      + unfold step. rewrite Hr. unfold poll. rewrite Ep, Es, HE.
        pose proof (Hc true) as Hc1. pose proof (Hc false) as Hc2. cbn in Hc1, Hc2. rewrite Hc1, Hc2. reflexivity.
      + unfold step. cbn [set_poll a_raised]. rewrite Hr. unfold poll. cbn [set_poll a_poll_done a_stop]. reflexivity. }
  destruct HS as (s2 & HR2 & Hr2 & Hs2 & Ht2 & Hp2 & Hq2).
  assert (HE2 : all_empty (p_nq p) (a_qs s2) = true) by (rewrite Hq2; exact HE).
  destruct (exit_all _ s2 (Nat.le_refl _) Hr2 Hs2 HE2) as (s3 & HR3 & Hr3 & Hs3 & Ht3 & Hp3 & Hq3 & He3).
  exists s3. split; [eapply reach_tr; eassumption|].
  split; [exact He3|split; congruence].
Qed.
End Exit.
End End.

From Coq Require Import Permutation.
From Verif Require Import PyBase QueueModel QueueProofs ExecModel ExecSpec SplitProofs ExecProofs
     ExecAsyncProofs ExecGenProofs ExecBoundProofs ExecLiveProofs SignalModel.

Section SigProofs.
Context {V : Type}.
Variable fs : list (bool * (nat -> V -> item V)).
Let n := List.length fs.
Let gs := map snd fs.
Variable p : params V.
Hypothesis Hworks : p_works p = chain_works fs.
Hypothesis Hnq : p_nq p = n.

(** without what the signal changes *)
Definition erase (s : ast V) : ast V :=
  mk_ast (a_qs s) (a_tasks s) (a_next s) (a_cpu s) (a_io s) false
         (fun _ => false) false (a_tr s) (a_raised s).

Lemma erase_ac io d s : erase (add_counter io d s) = add_counter io d (erase s).
Proof. destruct io; reflexivity. Qed.

Lemma sim s l s' : sstep p s l = Some s' ->
  erase s' = erase s \/ exists l', l = Prog l' /\ step p (erase s) l' = Some (erase s').
Proof.
  destruct l as [l|]; [|intros H; injection H as <-; left; reflexivity].
  unfold sstep, step. cbn [erase a_raised]. destruct (a_raised s) eqn:Er; [discriminate|].
  destruct l as [i|id|id|]; intros HS.
  - unfold check in *. destruct (a_exited s i); [discriminate|].
    destruct (nth_error (p_works p) i) as [w|] eqn:Ew; [|discriminate].
    destruct (nth_work fs p Hworks i w Ew) as (io & f & Hfi & ->). cbn [chain_work w_body w_io w_out] in HS.
    match type of HS with context [if ?c then _ else _] => destruct c eqn:Ec end.
    + left. injection HS as <-. destruct (a_stop s); reflexivity.
    + right. exists (LCheck i). split; [reflexivity|]. injection HS as <-. cbn [erase a_exited a_qs].
      try rewrite Ew. cbn [chain_work w_body w_io w_out].
      match goal with |- context [counter io ?x] => change (counter io x) with (counter io s) end. rewrite Ec. reflexivity.
  - right. exists (LStart id). split; [reflexivity|]. unfold start in *. unfold find_task in *. cbn [erase a_tasks].
    destruct (find _ (a_tasks s)) as [[id0 i [|]]|]; try discriminate.
    destruct (nth_error (p_works p) i) as [w|] eqn:Ew; [|discriminate].
    destruct (w_body w) as [inq f|]; [|discriminate]. cbv zeta in *.
    rewrite qs_add_counter in *. cbn [erase a_qs].
    destruct (q_pop_first (a_qs s inq)) as [[[k [v|e]] q']|].
    + injection HS as <-. destruct (w_io w); reflexivity.
    + injection HS as <-. destruct (w_io w), (w_out w); reflexivity.
    + injection HS as <-. destruct (w_io w); reflexivity.
  - right. exists (LFinish id). split; [reflexivity|]. unfold finish in *. unfold find_task in *. cbn [erase a_tasks].
    destruct (find _ (a_tasks s)) as [[id0 i [|k v]]|]; try discriminate.
    destruct (nth_error (p_works p) i) as [w|] eqn:Ew; [|discriminate].
    destruct (w_body w) as [inq f|]; [|discriminate]. cbv zeta in *.
    destruct (f k v); [|destruct (p_stop_if_error p)]; injection HS as <-; destruct (w_io w); reflexivity.
  - left. unfold poll in HS. destruct (a_poll_done s); [discriminate|].
    destruct (a_stop s); injection HS as <-; reflexivity.
Qed.

Lemma sreach_erase qs s : sreachable p (init qs) s -> reachable p (init qs) (erase s).
Proof.
  intros H. induction H as [|s l s' H IH HS].
  - change (erase (init qs)) with (@init V qs). constructor.
  - destruct (sim _ _ _ HS) as [->|(l' & _ & HS')]; [exact IH|]. econstructor; eassumption.
Qed.

Lemma sreach_trans s0 s1 s2 : sreachable p s0 s1 -> sreachable p s1 s2 -> sreachable p s0 s2.
Proof. intros H1 H2. induction H2; [exact H1|econstructor; eassumption]. Qed.

Lemma reach_sreach s0 s : reachable p s0 s -> sreachable p s0 s.
Proof. intros H. induction H as [|s l s' H IH HS]; [constructor|]. apply (sreach_step p s0 s (Prog l) s' IH HS). Qed.

(** ** a run without signal can also take place after the signal *)
Definition flag (s : ast V) : ast V :=
  mk_ast (a_qs s) (a_tasks s) (a_next s) (a_cpu s) (a_io s) true
         (fun _ => false) false (a_tr s) (a_raised s).

Lemma sim_flag s l s' : step p s l = Some s' -> flag s' = flag s \/ step p (flag s) l = Some (flag s').
Proof.
  unfold step. cbn [flag a_raised]. destruct (a_raised s) eqn:Er; [discriminate|].
  destruct l as [i|id|id|]; intros HS.
  - unfold check in *. destruct (a_exited s i); [discriminate|].
    destruct (nth_error (p_works p) i) as [w|] eqn:Ew; [|discriminate].
    destruct (nth_work fs p Hworks i w Ew) as (io & f & Hfi & ->). cbn [chain_work w_body w_io w_out] in HS.
    match type of HS with context [if ?c then _ else _] => destruct c eqn:Ec end.
    + left. injection HS as <-. destruct (a_stop s); reflexivity.
    + right. injection HS as <-. cbn [flag a_exited a_qs].
      cbn [chain_work w_body w_io w_out].
      match goal with |- context [counter io ?x] => change (counter io x) with (counter io s) end. rewrite Ec. reflexivity.
  - right. unfold start in *. unfold find_task in *. cbn [flag a_tasks].
    destruct (find _ (a_tasks s)) as [[id0 i [|]]|]; try discriminate.
    destruct (nth_error (p_works p) i) as [w|] eqn:Ew; [|discriminate].
    destruct (w_body w) as [inq f|]; [|discriminate]. cbv zeta in *.
    rewrite qs_add_counter in *. cbn [flag a_qs].
    destruct (q_pop_first (a_qs s inq)) as [[[k [v|e]] q']|].
    + injection HS as <-. destruct (w_io w); reflexivity.
    + injection HS as <-. destruct (w_io w), (w_out w); reflexivity.
    + injection HS as <-. destruct (w_io w); reflexivity.
  - right. unfold finish in *. unfold find_task in *. cbn [flag a_tasks].
    destruct (find _ (a_tasks s)) as [[id0 i [|k v]]|]; try discriminate.
    destruct (nth_error (p_works p) i) as [w|] eqn:Ew; [|discriminate].
    destruct (w_body w) as [inq f|]; [|discriminate]. cbv zeta in *.
    destruct (f k v); [|destruct (p_stop_if_error p)]; injection HS as <-; destruct (w_io w); reflexivity.
  - left. unfold poll in HS. destruct (a_poll_done s); [discriminate|].
    destruct (a_stop s); injection HS as <-; reflexivity.
Qed.

Lemma reach_flag s0 s : reachable p s0 s -> reachable p (flag s0) (flag s).
Proof.
  intros H. induction H as [|s l s' H IH HS]; [constructor|].
  destruct (sim_flag _ _ _ HS) as [->|HS']; [exact IH|]. econstructor; eassumption.
Qed.

(** ** fair executions *)
Variable inputs : list (nat * item V).
Hypothesis Hsie : p_stop_if_error p = false.
Hypothesis Hn : (1 <= n)%nat.
Hypothesis Hk : NoDup (map fst inputs).
Variables (st : nat -> ast V) (lab : nat -> option slabel).
Hypothesis Hst0 : st 0%nat = init (chain_queues inputs).
Hypothesis Hstep : forall t, match lab t with
  | Some l => sstep p (st t) l = Some (st (S t)) | None => st (S t) = st t end.
Hypothesis Fc : forall t i, (i < n)%nat ->
  exists t', (t <= t')%nat /\ (lab t' = Some (Prog (LCheck i)) \/ a_exited (st t') i = true).
Hypothesis Fp : forall t, exists t', (t <= t')%nat /\ (lab t' = Some (Prog LPoll) \/ a_poll_done (st t') = true).
Hypothesis Fs : forall t tk, In tk (a_tasks (st t)) -> t_st tk = Spawned ->
  exists t', (t <= t')%nat /\ lab t' = Some (Prog (LStart (t_id tk))).
Hypothesis Ff : forall t tk k v, In tk (a_tasks (st t)) -> t_st tk = Running k v ->
  exists t', (t <= t')%nat /\ lab t' = Some (Prog (LFinish (t_id tk))).

Notation mu := (mu fs).

Lemma sx_inv t : AInv fs inputs (erase (st t)) /\ a_raised (st t) = None.
Proof.
  induction t as [|t [H Hr]].
  - rewrite Hst0. split; [|reflexivity]. apply (AInv_init fs inputs Hn).
  - pose proof (Hstep t) as HS. destruct (lab t) as [l|].
    + destruct (sim _ _ _ HS) as [HE|(l' & _ & HS')].
      * split; [rewrite HE; exact H|]. apply (f_equal (@a_raised V)) in HE. cbn in HE. congruence.
      * destruct (AInv_step fs p Hworks Hnq inputs (erase (st t)) l' _ Hk Hsie Hr H HS') as [H1 H2]. split; [exact H1|exact H2].
    + rewrite HS. auto.
Qed.

Lemma sx_step t : (a_qs (st (S t)) = a_qs (st t) /\ mu (st (S t)) = mu (st t)) \/ (mu (st (S t)) < mu (st t))%nat.
Proof.
  destruct (sx_inv t) as [H Hr]. destruct (sx_inv (S t)) as [_ Hr']. pose proof (Hstep t) as HS. destruct (lab t) as [l|].
  - destruct (sim _ _ _ HS) as [HE|(l' & _ & HS')].
    + left. split; [apply (f_equal (@a_qs V)) in HE; exact HE|]. apply (f_equal mu) in HE. exact HE.
    + destruct (step_progress fs p Hworks Hnq inputs (erase (st t)) l' _ H Hk HS' Hr') as [(HQ & _ & HM)|HM].
      * left. split; [exact HQ|exact HM].
      * right. exact HM.
  - left. rewrite HS. auto.
Qed.

Lemma sx_le t t' : (t <= t')%nat -> (a_qs (st t') = a_qs (st t) /\ mu (st t') = mu (st t)) \/ (mu (st t') < mu (st t))%nat.
Proof.
  intros Hle. induction Hle as [|t' Hle IH]; [left; auto|].
  destruct (sx_step t') as [[H1 H2]|H1], IH as [[I1 I2]|I1]; [left; split; congruence|right; lia|right; lia|right; lia].
Qed.

Lemma sflags_step t : (a_stop (st t) = true -> a_stop (st (S t)) = true) /\
  (a_poll_done (st t) = true -> a_poll_done (st (S t)) = true) /\
  (forall i, a_exited (st t) i = true -> a_exited (st (S t)) i = true).
Proof.
  pose proof (Hstep t) as HS. destruct (lab t) as [[l|]|]; [|injection HS as <-; cbn; auto|rewrite HS; auto].
  destruct (sx_inv t) as [_ Hr]. cbn [sstep] in HS. unfold step in HS. rewrite Hr in HS. destruct l as [i|id|id|].
  - unfold check in HS. destruct (a_exited (st t) i) eqn:Ee; [discriminate|].
    destruct (nth_error (p_works p) i) as [w|] eqn:Ew; [|discriminate].
    destruct (nth_work fs p Hworks i w Ew) as (io & f & Hfi & ->). cbn [chain_work w_body w_io w_out] in HS.
    match type of HS with context [if ?c then _ else _] => destruct c end; [destruct (a_stop (st t)) eqn:Es|]; injection HS as <-; cbn; auto.
    all: split; [congruence || auto|]; split; [auto|]; intros i' Hi'; unfold upd; try destruct (Nat.eqb i' i); auto.
  - unfold start in HS. destruct (find_task id (st t)) as [[id0 i s0]|]; [|discriminate]. destruct s0; [|discriminate].
    destruct (nth_error (p_works p) i) as [w|] eqn:Ew; [|discriminate].
    destruct (w_body w) as [inq f|]; [|discriminate]. cbv zeta in HS.
    destruct (q_pop_first _) as [[[k [v|e]] q']|]; injection HS as <-; [|destruct (w_out w)|]; destruct (w_io w); cbn; auto.
  - unfold finish in HS. destruct (find_task id (st t)) as [[id0 i s0]|]; [|discriminate]. destruct s0 as [|k v]; [discriminate|].
    destruct (nth_error (p_works p) i) as [w|] eqn:Ew; [|discriminate].
    destruct (w_body w) as [inq f|]; [|discriminate]. cbv zeta in HS. rewrite Hsie in HS.
    destruct (f k v); injection HS as <-; destruct (w_io w); cbn; auto.
  - unfold poll in HS. destruct (a_poll_done (st t)) eqn:Ep; [discriminate|].
    destruct (a_stop (st t)) eqn:Es; injection HS as <-; cbn; repeat split; auto; discriminate.
Qed.

Lemma sflags_le t t' : (t <= t')%nat -> (a_stop (st t) = true -> a_stop (st t') = true) /\
  (a_poll_done (st t) = true -> a_poll_done (st t') = true) /\
  (forall i, a_exited (st t) i = true -> a_exited (st t') i = true).
Proof.
  intros Hle. induction Hle as [|t' Hle (I1 & I2 & I3)]; [auto|].
  destruct (sflags_step t') as (F1 & F2 & F3). auto.
Qed.

Lemma keep_task s l s' tk : AInv fs inputs (erase s) -> sstep p s l = Some s' -> In tk (a_tasks s) -> t_st tk = Spawned ->
  l <> Prog (LStart (t_id tk)) -> a_raised s' = None -> In tk (a_tasks s').
Proof.
  intros H HS HI Hsp Hl Hr'. destruct l as [l|]; [|injection HS as <-; exact HI].
  cbn [sstep] in HS. unfold step in HS. destruct (a_raised s); [discriminate|].
  pose proof (find_task_In fs inputs (erase s) tk H HI) as HF. unfold find_task in HF. cbn [erase a_tasks] in HF.
  destruct l as [i|id|id|].
  - unfold check in HS. destruct (a_exited s i) eqn:Ee; [discriminate|].
    destruct (nth_error (p_works p) i) as [w|] eqn:Ew; [|discriminate].
    destruct (nth_work fs p Hworks i w Ew) as (io & f & Hfi & ->). cbn [chain_work w_body w_io w_out] in HS.
    match type of HS with context [if ?c then _ else _] => destruct c end; [destruct (a_stop s)|]; injection HS as <-; cbn; auto.
    apply in_or_app. left. exact HI.
  - assert (Hid : t_id tk <> id) by (intros <-; apply Hl; reflexivity).
    unfold start in HS. destruct (find_task id s) as [[id0 i s0]|]; [|discriminate]. destruct s0; [|discriminate].
    destruct (nth_error (p_works p) i) as [w|] eqn:Ew; [|discriminate].
    destruct (w_body w) as [inq f|]; [|discriminate]. cbv zeta in HS.
    assert (HFI : In tk (filter (fun t => negb (Nat.eqb (t_id t) id)) (a_tasks s))).
    { apply filter_In. split; [exact HI|]. destruct (Nat.eqb_spec (t_id tk) id); [contradiction|reflexivity]. }
    assert (HMI : forall k v, In tk (map (fun t => if Nat.eqb (t_id t) id then mk_task id (t_work t) (Running k v) else t) (a_tasks s))).
    { intros k v. apply in_map_iff. exists tk. split; [|exact HI]. destruct (Nat.eqb_spec (t_id tk) id); [contradiction|reflexivity]. }
    destruct (q_pop_first _) as [[[k [v|e]] q']|]; injection HS as <-; [|destruct (w_out w)|]; destruct (w_io w); cbn; first [apply HMI|exact HFI].
  - unfold finish in HS. destruct (find_task id s) as [[id0 i s0]|] eqn:Ef; [|discriminate]. destruct s0 as [|k v]; [discriminate|].
    assert (Hid : t_id tk <> id).
    { intros Hid. rewrite Hid in HF. unfold find_task in Ef. rewrite HF in Ef. injection Ef as ->. cbn in Hsp. discriminate. }
    assert (HFI : In tk (filter (fun t => negb (Nat.eqb (t_id t) id)) (a_tasks s))).
    { apply filter_In. split; [exact HI|]. destruct (Nat.eqb_spec (t_id tk) id); [contradiction|reflexivity]. }
    destruct (nth_error (p_works p) i) as [w|] eqn:Ew; [|discriminate].
    destruct (w_body w) as [inq f|]; [|discriminate]. cbv zeta in HS. rewrite Hsie in HS.
    destruct (f k v); injection HS as <-; destruct (w_io w); cbn; exact HFI.
  - unfold poll in HS. destruct (a_poll_done s); [discriminate|].
    destruct (a_stop s); injection HS as <-; exact HI.
Qed.

Lemma starts t tk : In tk (a_tasks (st t)) -> t_st tk = Spawned ->
  exists t', (t <= t')%nat /\ In tk (a_tasks (st t')) /\ lab t' = Some (Prog (LStart (t_id tk))).
Proof.
  intros HI Hsp. destruct (Fs t tk HI Hsp) as (t2 & Hle & Hl).
  assert (HG : forall d, (exists t', (t <= t')%nat /\ In tk (a_tasks (st t')) /\ lab t' = Some (Prog (LStart (t_id tk)))) \/
                         In tk (a_tasks (st (t + d)%nat))).
  { induction d as [|d [IH|IH]]; [right; rewrite Nat.add_0_r; exact HI|left; exact IH|].
    assert (HD : lab (t + d)%nat = Some (Prog (LStart (t_id tk))) \/ lab (t + d)%nat <> Some (Prog (LStart (t_id tk)))).
    { destruct (lab (t + d)%nat) as [[[i|id|id|]|]|]; try (right; discriminate).
      destruct (Nat.eq_dec id (t_id tk)) as [->|Hne]; [left; reflexivity|right; congruence]. }
    destruct HD as [HD|HD]; [left; exists (t + d)%nat; split; [lia|]; auto|].
    right. rewrite Nat.add_succ_r. destruct (sx_inv (t + d)%nat) as [H Hr]. destruct (sx_inv (S (t + d))) as [_ Hr'].
    pose proof (Hstep (t + d)%nat) as HS. destruct (lab (t + d)%nat) as [l|]; [|rewrite HS; exact IH].
    apply (keep_task (st (t + d)%nat) l); try assumption. congruence. }
  destruct (HG (t2 - t)%nat) as [HX|HX]; [exact HX|]. replace (t + (t2 - t))%nat with t2 in HX by lia. exists t2. auto.
Qed.

(** the tasks which are spawned disappear without effect or treat an item *)
Lemma spawned_starts t tk : In tk (a_tasks (st t)) -> t_st tk = Spawned ->
  exists t', (t <= t')%nat /\ ((mu (st (S t')) < mu (st t))%nat \/
     (a_qs (st t) (t_work tk) = [] /\ mu (st (S t')) = mu (st t) /\ In (t_id tk) (map (@t_id V) (a_tasks (st t'))) /\
      lab t' = Some (Prog (LStart (t_id tk))) /\ a_tasks (st (S t')) = others (t_id tk) (a_tasks (st t')))).
Proof.
  intros HI Hsp. destruct (starts t tk HI Hsp) as (t2 & Hle & HI2 & Hl). exists t2. split; [exact Hle|].
  destruct (sx_le t t2 Hle) as [[Hq Hm]|Hm].
  2:{ left. destruct (sx_step t2) as [[_ ->]|HX]; lia. }
  destruct (sx_inv t2) as [H Hr]. pose proof (Hstep t2) as HS. rewrite Hl in HS.
  destruct (sim _ _ _ HS) as [HE|(l' & Hl' & HS')].
  - (* the number of tasks or the queues change: impossible *)
    exfalso. cbn [sstep] in HS. unfold step in HS. rewrite Hr in HS.
    destruct (start_enabled fs p Hworks Hnq inputs (erase (st t2)) tk H HI2 Hsp Hr) as (s' & HS' & _).
    unfold step in HS'. cbn [erase a_raised] in HS'. rewrite Hr in HS'.
    assert (HT : a_tasks (st (S t2)) = a_tasks (st t2)) by (apply (f_equal (@a_tasks V)) in HE; exact HE).
    assert (HF : find_task (t_id tk) (st t2) = Some tk) by (apply (find_task_In fs inputs (erase (st t2)) tk H HI2)).
    unfold start in HS. rewrite HF in HS. destruct tk as [id i s0]. cbn [t_id t_st] in *. subst s0.
    destruct (nth_error (p_works p) i) as [w|] eqn:Ew; [|discriminate].
    destruct (w_body w) as [inq f|]; [|discriminate]. cbv zeta in HS.
    assert (HFI : ~ In (mk_task id i Spawned) (filter (fun t => negb (Nat.eqb (t_id t) id)) (a_tasks (st t2)))).
    { intros HC. apply filter_In in HC. cbn in HC. rewrite Nat.eqb_refl in HC. destruct HC; discriminate. }
    assert (HMI : forall k v, ~ In (mk_task id i Spawned) (map (fun t => if Nat.eqb (t_id t) id then mk_task id (t_work t) (Running k v) else t) (a_tasks (st t2)))).
    { intros k v HC. apply in_map_iff in HC. destruct HC as (t0 & HC & _). destruct (Nat.eqb_spec (t_id t0) id); [discriminate|]. subst t0. cbn in *. congruence. }
    destruct (q_pop_first _) as [[[k [v|e]] q']|]; injection HS as HS; [|destruct (w_out w)|];
      (apply (f_equal (@a_tasks V)) in HS; rewrite HT in HS; destruct (w_io w); cbn in HS;
       first [apply (HMI k v); rewrite HS; exact HI2|apply HFI; rewrite HS; exact HI2]).
  - injection Hl' as <-. unfold step in HS'. cbn [erase a_raised] in HS'. rewrite Hr in HS'.
    pose proof (find_task_In fs inputs (erase (st t2)) tk H HI2) as HF.
    destruct tk as [id i s0]. cbn [t_id t_st t_work] in *. subst s0.
    pose proof (start_productive fs p Hworks Hnq inputs id i (erase (st t2)) _ H Hk HF HS') as HP.
    cbn [erase a_qs] in HP. rewrite Hq in HP.
    destruct (start_enabled fs p Hworks Hnq inputs (erase (st t2)) _ H HI2 eq_refl Hr) as (s' & HS2 & HT).
    cbn [t_id t_work erase a_qs] in HS2, HT. unfold step in HS2. cbn [erase a_raised] in HS2. rewrite Hr, HS' in HS2. injection HS2 as <-.
    rewrite Hq in HT. destruct (a_qs (st t) i) eqn:Eq.
    + right. destruct HP as (_ & _ & HP). change (mu (st (S t2)) = mu (st t2)) in HP.
      split; [reflexivity|]. split; [congruence|]. split; [apply in_map_iff; exists (mk_task id i Spawned); auto|]. split; [exact Hl|exact HT].
    + left. change (mu (st (S t2)) < mu (st t2))%nat in HP. lia.
Qed.

Lemma running_finishes t tk k v : In tk (a_tasks (st t)) -> t_st tk = Running k v ->
  exists t', (t <= t')%nat /\ (mu (st t') < mu (st t))%nat.
Proof.
  intros HI HE. destruct (Ff t tk k v HI HE) as (t' & Hle & Hl). exists (S t'). split; [lia|].
  destruct (sx_inv t') as [H Hr]. destruct (sx_inv (S t')) as [_ Hr']. pose proof (Hstep t') as HS. rewrite Hl in HS.
  assert (Hlt : (mu (st (S t')) < mu (st t'))%nat).
  { cbn [sstep] in HS. unfold step in HS. rewrite Hr in HS. pose proof HS as HS0. unfold finish in HS.
    destruct (find_task (t_id tk) (st t')) as [[id0 i s0]|] eqn:Et; [|discriminate].
    assert (id0 = t_id tk). { unfold find_task in Et. apply find_some in Et. cbn in Et. apply Nat.eqb_eq. tauto. } subst id0.
    destruct s0 as [|k' v']; [discriminate|].
    destruct (sim (st t') (Prog (LFinish (t_id tk))) (st (S t'))) as [HX|(l' & Hl' & HS')].
    { cbn [sstep]. unfold step. rewrite Hr. exact HS0. }
    - exfalso. destruct (nth_error (p_works p) i) as [w|] eqn:Ew; [|discriminate].
      destruct (w_body w) as [inq f|]; [|discriminate]. cbv zeta in HS. rewrite Hsie in HS.
      assert (HT : a_tr (st (S t')) = a_tr (st t')) by (apply (f_equal (@a_tr V)) in HX; exact HX).
      destruct (f k' v'); injection HS as HS; apply (f_equal (@a_tr V)) in HS; destruct (w_io w); cbn in HS;
        rewrite HT in HS; apply (f_equal (@List.length _)) in HS; rewrite app_length in HS; cbn in HS; lia.
    - injection Hl' as <-. unfold step in HS'. cbn [erase a_raised] in HS'. rewrite Hr in HS'.
      apply (finish_productive fs p Hworks Hnq inputs (t_id tk) i k' v' (erase (st t')) (erase (st (S t'))) H Hk Hr' Hr Et HS'). }
  destruct (sx_le t t' Hle) as [[_ HM]|HM]; lia.
Qed.

Lemma check_result t i : (i < n)%nat -> lab t = Some (Prog (LCheck i)) -> a_stop (st t) = true ->
  a_exited (st (S t)) i = true \/
  (st (S t) = spawn i (st t) /\ a_qs (st t) i <> []).
Proof.
  intros Hi Hl Hs. pose proof (Hstep t) as HS. rewrite Hl in HS. destruct (sx_inv t) as [_ Hr].
  cbn [sstep] in HS. unfold step in HS. rewrite Hr in HS. unfold check in HS. destruct (a_exited (st t) i) eqn:Ee; [discriminate|].
  destruct (nth_error (p_works p) i) as [w|] eqn:Ew; [|discriminate].
  destruct (nth_work fs p Hworks i w Ew) as (io & f & Hfi & ->). cbn [chain_work w_body w_io w_out] in HS.
  match type of HS with context [if ?c then _ else _] => destruct c eqn:Ec end.
  - rewrite Hs in HS. injection HS as <-. left. cbn [exit_work a_exited]. unfold upd. rewrite Nat.eqb_refl. reflexivity.
  - injection HS as <-. right. split; [reflexivity|]. intros HE. rewrite HE in Ec. discriminate.
Qed.

Lemma one_exits t i : (i < n)%nat -> a_stop (st t) = true ->
  exists t', (t <= t')%nat /\ ((mu (st t') < mu (st t))%nat \/ a_exited (st t') i = true).
Proof.
  intros Hi Hs. destruct (Fc t i Hi) as (t1 & Hle & [Hl|He]); [|exists t1; auto].
  destruct (sflags_le t t1 Hle) as (F1 & _ & _).
  destruct (check_result t1 i Hi Hl (F1 Hs)) as [He|[HS Hq]]; [exists (S t1); split; [lia|auto]|].
  destruct (sx_le t (S t1) ltac:(lia)) as [[_ Hm]|Hm]; [|exists (S t1); split; [lia|auto]].
  assert (HI : In (mk_task (a_next (st t1)) i Spawned) (a_tasks (st (S t1)))).
  { rewrite HS. cbn [spawn a_tasks]. apply in_or_app. right. left. reflexivity. }
  destruct (spawned_starts (S t1) _ HI eq_refl) as (t2 & Hle2 & [HX|(HX & _)]).
  - exists (S t2). split; [lia|]. left. lia.
  - exfalso. apply Hq. rewrite HS in HX. exact HX.
Qed.

Lemma all_exit t m : (m <= n)%nat -> a_stop (st t) = true ->
  exists t', (t <= t')%nat /\ ((mu (st t') < mu (st t))%nat \/ forall i, (i < m)%nat -> a_exited (st t') i = true).
Proof.
  intros Hm Hs. induction m as [|m IH]; [exists t; split; [lia|]; right; intros; lia|].
  destruct (IH ltac:(lia)) as (t1 & Hle1 & [HX|HX]); [exists t1; auto|].
  destruct (sflags_le t t1 Hle1) as (F1 & _ & _).
  destruct (one_exits t1 m ltac:(lia) (F1 Hs)) as (t2 & Hle2 & [HY|HY]).
  - exists t2. split; [lia|]. left. destruct (sx_le t t1 Hle1) as [[_ HM]|HM]; lia.
  - exists t2. split; [lia|]. right. intros i Hi. destruct (Nat.eq_dec i m) as [->|]; [exact HY|].
    destruct (sflags_le t1 t2 Hle2) as (_ & _ & F3). apply F3, HX. lia.
Qed.

Lemma poll_ends t : a_stop (st t) = true -> exists t', (t <= t')%nat /\ a_poll_done (st t') = true.
Proof.
  intros Hs. destruct (Fp t) as (t1 & Hle & [Hl|He]); [|exists t1; auto].
  destruct (sflags_le t t1 Hle) as (F1 & _ & _). pose proof (Hstep t1) as HS. rewrite Hl in HS.
  destruct (sx_inv t1) as [_ Hr]. cbn [sstep] in HS. unfold step in HS. rewrite Hr in HS. unfold poll in HS.
  destruct (a_poll_done (st t1)) eqn:Ep; [discriminate|]. rewrite (F1 Hs) in HS. injection HS as HS.
  exists (S t1). split; [lia|]. rewrite <- HS. reflexivity.
Qed.

(** once the loops have returned no task appears *)
Lemma tasks_le t t' : (t <= t')%nat -> (forall i, (i < n)%nat -> a_exited (st t) i = true) ->
  (List.length (a_tasks (st t')) <= List.length (a_tasks (st t)))%nat.
Proof.
  intros Hle He. induction Hle as [|t' Hle IH]; [lia|].
  destruct (sflags_le t t' Hle) as (_ & _ & F3). pose proof (Hstep t') as HS.
  destruct (sx_inv t') as [H Hr]. destruct (lab t') as [l|]; [|rewrite HS; exact IH].
  destruct (sim _ _ _ HS) as [HE|(l' & -> & HS')].
  - apply (f_equal (@a_tasks V)) in HE. change (a_tasks (st (S t')) = a_tasks (st t')) in HE. rewrite HE. exact IH.
  - destruct (step_change p (erase (st t')) l' _ (inv_ids _ _ _ H) HS') as
      [HP Hid Hnx Hcx Hqx|j w' Hwx Ht Hnx Hcx Hlt Hfull Hqs Hlx|id j w' k v Hwx HP HP' Hid Hnx Hcx Hqx|id j w' Hwx HP Ht Hnx Hcx Hqx|id j w' k v Hwx HP Ht Hnx Hcx Hqx];
      cbn [erase a_tasks] in *.
    + apply Permutation_length in HP. lia.
    + exfalso. subst l'. cbn [sstep] in HS. unfold step in HS. rewrite Hr in HS. unfold check in HS.
      rewrite F3 in HS; [discriminate|]. apply He. unfold n. rewrite <- chain_works_length, <- Hworks. apply nth_error_Some. congruence.
    + apply (f_equal (@List.length _)) in Hid. rewrite !map_length in Hid. lia.
    + rewrite Ht. pose proof (filter_length_le (fun t => negb (Nat.eqb (t_id (V:=V) t) id)) (a_tasks (st t'))) as HL. fold (others id (a_tasks (st t'))) in HL. lia.
    + rewrite Ht. pose proof (filter_length_le (fun t => negb (Nat.eqb (t_id (V:=V) t) id)) (a_tasks (st t'))) as HL. fold (others id (a_tasks (st t'))) in HL. lia.
Qed.

Lemma all_tasks_end t : (forall i, (i < n)%nat -> a_exited (st t) i = true) ->
  exists t', (t <= t')%nat /\ ((mu (st t') < mu (st t))%nat \/ a_tasks (st t') = []).
Proof.
  intros He. remember (List.length (a_tasks (st t))) as m eqn:HL. revert t He HL.
  induction m as [m IH] using (well_founded_induction lt_wf). intros t He HL.
  destruct (a_tasks (st t)) as [|tk ts] eqn:Et; [exists t; auto|].
  assert (HI : In tk (a_tasks (st t))) by (rewrite Et; left; reflexivity).
  destruct (t_st tk) as [|k v] eqn:Es.
  2:{ destruct (running_finishes t tk k v HI Es) as (t' & Hle & Hlt). exists t'. auto. }
  destruct (spawned_starts t tk HI Es) as (t1 & Hle & [HX|(_ & Hm & HI1 & _ & HT)]).
  { exists (S t1). split; [lia|auto]. }
  pose proof (tasks_le t t1 Hle He) as HL1. pose proof (others_length fs p Hnq _ _ HI1) as HL2. rewrite <- HT in HL2.
  destruct (sflags_le t (S t1) ltac:(lia)) as (_ & _ & F3).
  destruct (IH (List.length (a_tasks (st (S t1)))) ltac:(rewrite Et in HL1; cbn [List.length] in *; lia) (S t1) (fun i Hi => F3 i (He i Hi)) eq_refl) as (t2 & Hle2 & HX).
  exists t2. split; [lia|]. destruct HX as [HX|HX]; [left; lia|right; exact HX].
Qed.

Lemma signal_ends t : a_stop (st t) = true -> exists t', (t <= t')%nat /\ ended p (st t').
Proof.
  remember (mu (st t)) as m eqn:Hm. revert t Hm. induction m as [m IH] using (well_founded_induction lt_wf). intros t Hm Hs.
  assert (HR : forall t', (t <= t')%nat -> (mu (st t') < mu (st t))%nat -> exists t2, (t <= t2)%nat /\ ended p (st t2)).
  { intros t' Hle Hlt. destruct (sflags_le t t' Hle) as (F1 & _ & _).
    destruct (IH (mu (st t')) ltac:(lia) t' eq_refl (F1 Hs)) as (t2 & H2 & H3). exists t2. split; [lia|exact H3]. }
  destruct (poll_ends t Hs) as (t0 & Hle0 & Hp).
  destruct (sx_le t t0 Hle0) as [[_ M0]|M0]; [|apply (HR t0 Hle0 M0)].
  destruct (sflags_le t t0 Hle0) as (F1 & _ & _).
  destruct (all_exit t0 n (Nat.le_refl _) (F1 Hs)) as (t1 & Hle1 & [HX|He]); [apply (HR t1); [lia|lia]|].
  destruct (sx_le t0 t1 Hle1) as [[_ M1]|M1]; [|apply (HR t1); lia].
  destruct (all_tasks_end t1 He) as (t2 & Hle2 & [HX|HT]); [apply (HR t2); lia|].
  exists t2. split; [lia|]. split; [|split; [exact HT|]].
  - intros i Hi. destruct (sflags_le t1 t2 Hle2) as (_ & _ & F3). apply F3, He. rewrite Hworks, chain_works_length in Hi. exact Hi.
  - assert (Hle : (t0 <= t2)%nat) by lia. destruct (sflags_le t0 t2 Hle) as (_ & F2 & _). apply F2, Hp.
Qed.

End SigProofs.

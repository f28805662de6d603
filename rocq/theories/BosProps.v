(** C26: BOS with a function im2im. *)
From Coq Require Import Permutation.
From Verif Require Import PyBase QueueModel QueueProofs ExecModel ExecSpec ExecProofs ExecAsyncProofs ExecBoundProofs ExecAbsProofs
     ExecEndProofs ExecProps BosModel.

Section Bos.
Context {V : Type}.
Variables (read im2im calcul save : nat -> V -> item V).
Let ws := bos_works read im2im calcul save true.
Let wks_none := bos_works read im2im calcul save false.

Lemma q_set_nonempty {A} k (v : A) q : q_set k v q <> [].
Proof. destruct q as [|[k' v'] q]; cbn; [discriminate|]. destruct (Nat.eqb k k'); discriminate. Qed.

(** *** Asynchronous executors *)

(** Nobody takes the images of the queue "arrays1". *)
Definition stuck_inv (c : cfg V) : Prop :=
  (exists k v r, In (ECall 1 k v r) (c_tr c)) -> c_qs c 3%nat <> [].

Lemma ws_cases i w : nth_error ws i = Some w ->
  (i = 0%nat /\ w = w_read read) \/ (i = 1%nat /\ w = w_im2im im2im) \/
  (i = 2%nat /\ w = w_calcul calcul) \/ (i = 3%nat /\ w = w_save save).
Proof.
  unfold ws. cbn. destruct i as [|[|[|[|i]]]]; cbn; intros E; try (injection E as <-; tauto). destruct i; discriminate.
Qed.

Lemma q3_trans c c' : atrans ws c c' -> c_qs c 3%nat <> [] -> c_qs c' 3%nat <> [].
Proof.
  intros [(i & k & H)|(i & H)] Hq.
  - destruct H as [w inq f v q' Hw Hb Hc Hq' _ _|w inq f e q' Hw Hb Hc Hq' _ _|w inq f v Hw Hb _ Hq' _].
    + rewrite Hq'. apply ws_cases in Hw. unfold upd.
      destruct Hw as [[_ ->]|[[_ ->]|[[_ ->]|[_ ->]]]]; cbn in Hb; injection Hb as <- <-; exact Hq.
    + rewrite Hq'. apply ws_cases in Hw. unfold upd, put.
      destruct Hw as [[_ ->]|[[_ ->]|[[_ ->]|[_ ->]]]]; cbn in Hb; injection Hb as <- <-; cbn; try exact Hq.
      apply q_set_nonempty.
    + rewrite Hq'. apply ws_cases in Hw. unfold upd, put.
      destruct Hw as [[_ ->]|[[_ ->]|[[_ ->]|[_ ->]]]]; cbn; try exact Hq. apply q_set_nonempty.
  - destruct H as [w ready g Hw Hb _ _ _]. apply ws_cases in Hw.
    destruct Hw as [[_ ->]|[[_ ->]|[[_ ->]|[_ ->]]]]; discriminate Hb.
Qed.

Lemma stuck_trans c c' : stuck_inv c -> atrans ws c c' -> stuck_inv c'.
Proof.
  intros HI HT (k & v & r & H). pose proof (q3_trans c c' HT) as H3. destruct HT as [(i & k' & HT)|(i & HT)].
  - destruct HT as [w inq f v' q' Hw Hb Hc Hq' _ Ht|w inq f e q' Hw Hb Hc Hq' _ Ht|w inq f v' Hw Hb _ Hq' Ht].
    + rewrite Ht in H. apply H3, HI. eauto.
    + rewrite Ht in H. apply in_app_or in H. destruct H as [H|H]; [apply H3, HI; eauto|].
      destruct (w_out w); [destruct H|destruct H as [H|[]]; discriminate].
    + rewrite Ht in H. apply in_app_or in H. destruct H as [H|[H|[]]]; [apply H3, HI; eauto|].
      injection H as -> -> -> _. rewrite Hq'. apply ws_cases in Hw.
      destruct Hw as [[E ->]|[[_ ->]|[[E ->]|[E ->]]]]; try discriminate E. cbn. unfold upd. cbn. apply q_set_nonempty.
  - destruct HT as [w ready g Hw Hb _ _ _]. apply ws_cases in Hw.
    destruct Hw as [[_ ->]|[[_ ->]|[[_ ->]|[_ ->]]]]; discriminate Hb.
Qed.

Lemma bos_wf nb lim sie : well_formed (mk_params nb lim sie 4 ws).
Proof.
  intros i w Hw. apply ws_cases in Hw. destruct Hw as [[_ ->]|[[_ ->]|[[_ ->]|[_ ->]]]]; cbn; lia.
Qed.

(** If the execution ends, no image has been given to im2im: every field has been computed with
    an image which has not been preprocessed. *)
Theorem C26_async_refuted : forall nb lim inputs s,
  let p := mk_params nb lim false 4 ws in
  reachable p (init (bos_queues inputs)) s -> a_raised s = None -> ended p s ->
  forall k v r, ~ In (ECall 1 k v r) (a_tr s).
Proof.
  intros nb lim inputs s p HR Hr HE k v r HI.
  assert (H : stuck_inv (abs s)).
  { apply (async_invariant p stuck_inv (bos_queues inputs)); auto.
    - intros c c' H1 H2 _ H3. unfold stuck_inv in *. rewrite H2, H3. exact H1.
    - exact stuck_trans.
    - intros (k' & v' & r' & []). }
  pose proof (reachable_flags p _ s (bos_wf nb lim false) HR) as HF.
  destruct HE as (_ & _ & HP). destruct (f_stop _ _ HF (f_poll _ _ HF HP)) as [HE _].
  rewrite all_empty_spec in HE. apply H; [exists k, v, r; exact HI|]. apply HE. cbn. lia.
Qed.

(** With at least one image there is an execution which never ends. *)
Theorem C26_async_never_ends_refuted : forall nb lim inputs,
  let p := mk_params nb lim false 4 ws in
  1 <= nb -> 1 <= lim -> inputs <> [] ->
  exists s, reachable p (init (bos_queues inputs)) s /\ forall s', reachable p s s' -> ~ ended p s'.
Proof.
  intros nb lim inputs p Hnb Hlim Hne. destruct inputs as [|[k it] inputs]; [congruence|]. clear Hne.
  assert (Hp : p_works p = ws) by reflexivity.
  set (s0 := init (bos_queues ((k, it) :: inputs))).
  assert (R0 : reachable p s0 s0) by constructor.
  destruct (through p s0 0 (w_read read) 0 read 1 k it inputs) as (s1 & R1 & T1 & Q1); try reflexivity.
  { exact Hnb. } { apply (reachable_G p (bos_queues ((k, it) :: inputs)) s0 R0). }
  { unfold full. cbn. apply Z.leb_gt. lia. }
  assert (HF1 : Flags p s1) by (apply (reachable_flags p (bos_queues ((k, it) :: inputs))); [apply bos_wf|exact R1]).
  assert (HG1 : G p s1) by (apply (reachable_G p (bos_queues ((k, it) :: inputs)) s1 R1)).
  assert (Hns : a_stop s1 = false).
  { destruct (a_stop s1) eqn:E; [|reflexivity]. destruct (f_stop _ _ HF1 E) as [HE _]. rewrite all_empty_spec in HE.
    specialize (HE 1%nat ltac:(cbn; lia)). rewrite Q1 in HE. cbn in HE. discriminate. }
  assert (Hr1 : a_raised s1 = None).
  { destruct (a_raised s1) eqn:E; [|reflexivity]. exfalso. clear - R1 E.
    assert (H : forall s, reachable p s0 s -> a_raised s = None).
    { intros s HR. induction HR as [|s l s' HR IH HS]; [reflexivity|]. unfold step in HS. rewrite IH in HS.
      destruct l as [i|id|id|].
      - unfold check in HS. destruct (a_exited s i); [discriminate|]. destruct (nth_error (p_works p) i) as [w|] eqn:Ew; [|discriminate].
        apply ws_cases in Ew. destruct Ew as [[_ ->]|[[_ ->]|[[_ ->]|[_ ->]]]]; cbn [w_body w_read w_im2im w_calcul w_save] in HS;
          match type of HS with context [if ?c then _ else _] => destruct c end; injection HS as <-; destruct (a_stop s); exact IH.
      - unfold start in HS. destruct (find_task id s) as [[id0 i [|]]|]; try discriminate. destruct (nth_error (p_works p) i) as [w|]; [|discriminate].
        destruct (w_body w); [|discriminate]. cbv zeta in HS. rewrite a_qs_ac in HS.
        destruct (q_pop_first _) as [[[k' [v|e']] q']|]; injection HS as <-; cbn [remove_task set_running set_tasks set_qs a_raised]; rewrite ?a_raised_ac; cbn [set_qs a_raised];
          try (destruct (w_out w); cbn [set_qs add_tr a_raised]); rewrite ?a_raised_ac; exact IH.
      - unfold finish in HS. destruct (find_task id s) as [[id0 i [|k' v']]|]; try discriminate. destruct (nth_error (p_works p) i) as [w|]; [|discriminate].
        destruct (w_body w) as [inq f|]; [|discriminate]. cbv zeta in HS. cbn [p_stop_if_error p] in HS.
        destruct (f k' v'); injection HS as <-; cbn [remove_task set_tasks a_raised]; rewrite a_raised_ac; exact IH.
      - unfold poll in HS. destruct (a_poll_done s); [discriminate|]. destruct (a_stop s); injection HS as <-; exact IH. }
    rewrite (H _ R1) in E. discriminate. }
  assert (Hx1 : a_exited s1 1 = false).
  { destruct (a_exited s1 1) eqn:E; [|reflexivity]. rewrite (f_exit _ _ HF1 _ E) in Hns. discriminate. }
  set (it1 := match it with inl v => read k v | inr e => inr e end) in *.
  destruct (through p s1 1 (w_im2im im2im) 1 im2im 3 k it1 []) as (s2 & R2 & T2 & Q2); try reflexivity; try assumption.
  { rewrite Q1. reflexivity. }
  { unfold full. cbn. rewrite Q1. cbn. apply Z.leb_gt. lia. }
  exists s2. split; [eapply reach_tr; eassumption|].
  intros s' HR HE.
  assert (HR0 : reachable p s0 s') by (eapply reach_tr; [exact R1|eapply reach_tr; eassumption]).
  pose proof (reachable_flags p _ s' (bos_wf nb lim false) HR0) as HF'.
  destruct HE as (_ & _ & HP). destruct (f_stop _ _ HF' (f_poll _ _ HF' HP)) as [HE _].
  rewrite all_empty_spec in HE. specialize (HE 3%nat ltac:(cbn; lia)). revert HE.
  change (a_qs s' 3%nat) with (c_qs (abs s') 3%nat).
  assert (HQ : c_qs (abs s2) 3%nat <> []).
  { unfold abs. cbn [c_qs]. rewrite Q2. unfold put, upd. cbn. apply q_set_nonempty. }
  clear - HR R1 R2 HQ. assert (R2' : reachable p s0 s2) by (eapply reach_tr; eassumption). clear R1 R2.
  assert (H : c_qs (abs s') 3%nat <> [] /\ reachable p s0 s').
  { induction HR as [|s l s' HR IH HS]; [split; assumption|]. destruct IH as [IH1 IH2]. split; [|econstructor; eassumption].
    destruct (a_raised s') eqn:Er.
    - assert (Q : a_qs s' = a_qs s).
      { unfold step in HS. destruct (a_raised s) eqn:Ers; [discriminate|].
        destruct l as [i|id|id|].
        - unfold check in HS. destruct (a_exited s i); [discriminate|]. destruct (nth_error (p_works p) i) as [w|] eqn:Ew; [|discriminate].
          destruct (w_body w) eqn:Eb.
          + match type of HS with context [if ?c then _ else _] => destruct c end; injection HS as <-; destruct (a_stop s); reflexivity.
          + exfalso. apply ws_cases in Ew. destruct Ew as [[_ ->]|[[_ ->]|[[_ ->]|[_ ->]]]]; discriminate Eb.
        - exfalso. unfold start in HS. destruct (find_task id s) as [[id0 i [|]]|]; try discriminate. destruct (nth_error (p_works p) i) as [w|]; [|discriminate].
          destruct (w_body w); [|discriminate]. cbv zeta in HS. rewrite a_qs_ac in HS.
          destruct (q_pop_first _) as [[[k' [v|e']] q']|]; injection HS as <-; cbn [remove_task set_running set_tasks set_qs a_raised] in Er; rewrite ?a_raised_ac in Er; cbn [set_qs a_raised] in Er;
            try (destruct (w_out w); cbn [set_qs add_tr a_raised] in Er); rewrite ?a_raised_ac in Er; congruence.
        - exfalso. unfold finish in HS. destruct (find_task id s) as [[id0 i [|k' v']]|]; try discriminate. destruct (nth_error (p_works p) i) as [w|]; [|discriminate].
          destruct (w_body w) as [inq f|]; [|discriminate]. cbv zeta in HS. cbn [p_stop_if_error p] in HS.
          destruct (f k' v'); injection HS as <-; cbn [remove_task set_tasks a_raised] in Er; rewrite a_raised_ac in Er; cbn in Er; congruence.
        - unfold poll in HS. destruct (a_poll_done s); [discriminate|]. destruct (a_stop s); injection HS as <-; reflexivity. }
      unfold abs in *. cbn [c_qs] in *. rewrite Q. exact IH1.
    - destruct (step_abs p s l s' (g_ids _ _ (reachable_G p _ s IH2)) HS Er) as [(H1 & _ & _)|H].
      + unfold abs in *. cbn [c_qs] in *. rewrite H1. exact IH1.
      + eapply q3_trans; eassumption. }
  exact (proj1 H).
Qed.

(** *** Sequential executor *)

(** at the beginning of each sweep: nothing in "arrays" and in "bos" *)
Definition seq_inv (st : sst V) : Prop :=
  s_qs st 1%nat = [] /\ s_qs st 2%nat = [] /\
  forall e, In e (s_tr st) -> match e with ECall i _ _ _ => (i < 2)%nat | ELost _ _ _ | EGlobal _ => False end.

Let sweep nmax (st : sst V) := seq_sweep false nmax (combine (seq 0 4) ws) st.

Lemma sweep_ok nmax st : seq_inv st ->
  exists st', sweep nmax st = (st', None) /\ seq_inv st' /\
    (s_qs st 0%nat <> [] -> s_qs st' 3%nat <> []) /\ (s_qs st 3%nat <> [] -> s_qs st' 3%nat <> []).
Proof.
  intros (H1 & H2 & H3). destruct st as [qs tr]. cbn [s_qs s_tr] in *.
  unfold sweep. cbn [combine seq seq_sweep ws bos_works].
  destruct (qs 0%nat) as [|[k it] q'] eqn:E0.
  - exists (mk_sst qs tr). unfold seq_work at 1. cbn [w_body w_read s_qs]. rewrite E0. cbn [q_pop_first].
    unfold seq_work at 1. cbn [w_body w_im2im s_qs]. rewrite H1. cbn [q_pop_first].
    unfold seq_work at 1. cbn [w_body w_calcul s_qs]. rewrite H1. cbn [q_pop_first].
    unfold seq_work at 1. cbn [w_body w_save s_qs]. rewrite H2. cbn [q_pop_first].
    split; [reflexivity|]. split; [split; [exact H1|split; [exact H2|exact H3]]|]. cbn [s_qs]. split; [congruence|auto].
  - assert (E1 : exists it1 tr1, seq_work false nmax 0 (w_read read) (mk_sst qs tr)
        = (mk_sst (put (Some 1%nat) k it1 (upd qs 0 q')) tr1, None) /\
        (forall e, In e tr1 -> match e with ECall i _ _ _ => (i < 2)%nat | ELost _ _ _ | EGlobal _ => False end)).
    { unfold seq_work. cbn [w_body w_read s_qs s_tr w_out]. rewrite E0. cbn [q_pop_first]. destruct it as [v|e].
      - exists (read k v), (tr ++ [ECall 0 k v (read k v)]). split; [destruct (read k v); reflexivity|].
        intros e He. apply in_app_or in He. destruct He as [He|[<-|[]]]; [apply H3, He|lia].
      - exists (inr e), tr. split; [reflexivity|exact H3]. }
    destruct E1 as (it1 & tr1 & E1 & T1). rewrite E1.
    assert (Q1 : put (Some 1%nat) k it1 (upd qs 0 q') 1%nat = [(k, it1)]).
    { unfold put, upd. cbn. rewrite H1. reflexivity. }
    set (qs1 := put (Some 1%nat) k it1 (upd qs 0 q')) in *.
    assert (E2 : exists it2 tr2, seq_work false nmax 1 (w_im2im im2im) (mk_sst qs1 tr1)
        = (mk_sst (put (Some 3%nat) k it2 (upd qs1 1 [])) tr2, None) /\
        (forall e, In e tr2 -> match e with ECall i _ _ _ => (i < 2)%nat | ELost _ _ _ | EGlobal _ => False end)).
    { unfold seq_work. cbn [w_body w_im2im s_qs s_tr w_out]. rewrite Q1. cbn [q_pop_first]. destruct it1 as [v|e].
      - exists (im2im k v), (tr1 ++ [ECall 1 k v (im2im k v)]). split; [destruct (im2im k v); reflexivity|].
        intros e He. apply in_app_or in He. destruct He as [He|[<-|[]]]; [apply T1, He|lia].
      - exists (inr e), tr1. split; [reflexivity|exact T1]. }
    destruct E2 as (it2 & tr2 & E2 & T2). rewrite E2.
    set (qs2 := put (Some 3%nat) k it2 (upd qs1 1 [])) in *.
    assert (Q21 : qs2 1%nat = []) by reflexivity.
    assert (Q22 : qs2 2%nat = []) by exact H2.
    assert (Q23 : qs2 3%nat <> []) by (unfold qs2, put, upd; cbn; apply q_set_nonempty).
    clearbody qs2.
    unfold seq_work at 1. cbn [w_body w_calcul s_qs]. rewrite Q21. cbn [q_pop_first].
    unfold seq_work at 1. cbn [w_body w_save s_qs]. rewrite Q22. cbn [q_pop_first].
    eexists. split; [reflexivity|]. split; [split; [exact Q21|split; [exact Q22|exact T2]]|]. cbn [s_qs]. auto.
Qed.

(** state after n sweeps *)
Fixpoint sweeps (n : nat) nmax (st : sst V) : sst V :=
  match n with O => st | S n' => sweeps n' nmax (fst (sweep nmax st)) end.

(** The sequential executor never ends and never computes nor saves any field. *)
Theorem C26_sequential_refuted : forall nmax inputs,
  inputs <> [] ->
  let st0 := mk_sst (bos_queues inputs) [] in
  (forall fuel, seq_run fuel false nmax 4 ws st0 = None) /\
  forall n i k v r, In (ECall i k v r) (s_tr (sweeps n nmax st0)) -> (i < 2)%nat.
Proof.
  intros nmax inputs Hne st0.
  assert (I0 : seq_inv st0) by (split; [reflexivity|split; [reflexivity|intros e []]]).
  split.
  - assert (H : forall fuel st, seq_inv st -> (s_qs st 0%nat <> [] \/ s_qs st 3%nat <> []) -> seq_run fuel false nmax 4 ws st = None).
    { induction fuel as [|fuel IH]; intros st I Hq.
      - cbn [seq_run]. destruct (all_empty 4 (s_qs st)) eqn:E; [|reflexivity]. rewrite all_empty_spec in E.
        destruct Hq as [Hq|Hq]; exfalso; apply Hq, E; lia.
      - cbn [seq_run]. destruct (all_empty 4 (s_qs st)) eqn:E.
        + rewrite all_empty_spec in E. destruct Hq as [Hq|Hq]; exfalso; apply Hq, E; lia.
        + destruct (sweep_ok nmax st I) as (st' & Es & I' & H1 & H2). unfold sweep in Es.
          change (List.length ws) with 4%nat. rewrite Es. apply IH; [exact I'|]. right. destruct Hq; auto. }
    intros fuel. apply H; [exact I0|]. left. exact Hne.
  - intros n. generalize dependent st0. induction n as [|n IH]; intros st I i k v r HI.
    + apply (proj2 (proj2 I)) in HI. exact HI.
    + cbn [sweeps] in HI. destruct (sweep_ok nmax st I) as (st' & Es & I' & _). rewrite Es in HI. cbn [fst] in HI. eapply IH; eassumption.
Qed.

(** *** Without im2im: a chain of three works, C07-C12 apply. *)
Theorem C26_without_im2im_partial : forall inputs nmax fuel,
  NoDup (map fst inputs) -> (3 * List.length inputs <= fuel)%nat ->
  exists st, seq_run fuel false nmax 3 wks_none (mk_sst (bos_queues inputs) []) = Some (st, None) /\
    (forall i, (i < 3)%nat -> s_qs st i = []) /\
    finals 3 (s_tr st) = expected [read; calcul; save] inputs.
Proof.
  intros inputs nmax fuel ND Hf.
  destruct (C07_sequential_chain V [(true, read); (false, calcul); (true, save)] inputs nmax fuel) as (st & E & H1 & H2 & _);
    [discriminate|exact ND|exact Hf|].
  exists st. split; [exact E|]. split; [exact H1|exact H2].
Qed.
Theorem C26_without_im2im_async_partial : forall nb lim inputs s,
  let p := mk_params nb lim false 3 wks_none in
  NoDup (map fst inputs) -> 1 <= nb -> 1 <= lim ->
  reachable p (init (bos_queues inputs)) s ->
  (exists s', reachable p s s' /\ ended p s') /\
  (a_raised s = None -> ended p s -> Permutation (finals 3 (a_tr s)) (expected [read; calcul; save] inputs)).
Proof.
  intros nb lim inputs s p ND Hnb Hlim HR.
  set (fs := [(true, read); (false, calcul); (true, save)]).
  split.
  - exact (C10_can_always_finish V fs nb lim inputs s ltac:(discriminate) ND Hnb Hlim HR).
  - intros Hr HE. exact (proj1 (proj2 (proj2 (C09_stops_only_when_done V fs nb lim false inputs s ltac:(discriminate) ND HR Hr (or_intror HE))))).
Qed.
End Bos.
Print Assumptions C26_async_refuted.
Print Assumptions C26_async_never_ends_refuted.
Print Assumptions C26_sequential_refuted.
Print Assumptions C26_without_im2im_partial.
Print Assumptions C26_without_im2im_async_partial.

(** *** Example: two images; after five sweeps the two images are in "arrays1". *)
Example C26_example :
  let f := fun (_ : nat) (v : Z) => (inl (v + 1) : item Z) in
  let ws := bos_works f f f f in
  let st0 := mk_sst (bos_queues [(0%nat, inl 5); (1%nat, inl 7)]) [] in
  seq_run 10 false 8 4 (ws true) st0 = None /\
  (exists st, seq_run 6 false 8 3 (ws false) st0 = Some (st, None) /\
     finals 3 (s_tr st) = [(0%nat, inl 8); (1%nat, inl 10)]).
Proof. split; [reflexivity|]. eexists. split; [vm_compute; reflexivity|]. reflexivity. Qed.

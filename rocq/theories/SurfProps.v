(** C27: surface tracking with how = "complete". *)
From Coq Require Import Permutation.
From Verif Require Import PyBase QueueModel QueueProofs ExecModel ExecSpec ExecProofs ExecAsyncProofs ExecBoundProofs ExecAbsProofs
     ExecEndProofs ExecProps SurfModel.

(** *** queues *)
Section Q.
Context {A : Type}.
Lemma sq_del_In k (q q' : queue A) x : q_del k q = Ok q' -> In x q' -> In x q.
Proof.
  revert q'. induction q as [|[k' v'] q IH]; intros q' H; cbn in H; [discriminate|].
  destruct (Nat.eqb k k'); [injection H as <-; intros Hx; right; exact Hx|].
  destruct (q_del k q) as [r|] eqn:E; [|discriminate]. cbn in H. injection H as <-. intros [->|Hx]; [left; reflexivity|right; eauto].
Qed.
Lemma sq_del_keys k (q q' : queue A) x : q_del k q = Ok q' -> In x (keys q') -> In x (keys q).
Proof.
  intros H Hx. unfold keys in *. apply in_map_iff in Hx. destruct Hx as (y & <- & Hy). apply in_map. eapply sq_del_In; eassumption.
Qed.
Lemma sq_del_other k (q q' : queue A) x : q_del k q = Ok q' -> fst x <> k -> In x q -> In x q'.
Proof.
  revert q'. induction q as [|[k' v'] q IH]; intros q' H Hne; cbn in H; [discriminate|].
  destruct (Nat.eqb_spec k k') as [->|Hk].
  - injection H as <-. intros [<-|Hx]; [cbn in Hne; congruence|exact Hx].
  - destruct (q_del k q) as [r|] eqn:E; [|discriminate]. cbn in H. injection H as <-. intros [<-|Hx]; [left; reflexivity|right; eauto].
Qed.
Lemma sq_del_nodup k (q q' : queue A) : q_del k q = Ok q' -> NoDup (keys q) -> NoDup (keys q').
Proof.
  revert q'. induction q as [|[k' v'] q IH]; intros q' H Hn; cbn in H; [discriminate|]. inversion Hn as [|? ? H1 H2]; subst.
  destruct (Nat.eqb k k'); [injection H as <-; exact H2|].
  destruct (q_del k q) as [r|] eqn:E; [|discriminate]. cbn in H. injection H as <-. cbn. constructor; [|eauto].
  intros Hx. apply H1. eapply sq_del_keys; eassumption.
Qed.
Lemma sq_set_keys k v (q : queue A) x : In x (keys (q_set k v q)) <-> x = k \/ In x (keys q).
Proof.
  induction q as [|[k' v'] q IH]; cbn; [intuition|]. destruct (Nat.eqb_spec k k') as [->|]; cbn; [intuition|]. rewrite IH. intuition.
Qed.
Lemma sq_set_nodup k v (q : queue A) : NoDup (keys q) -> NoDup (keys (q_set k v q)).
Proof.
  induction q as [|[k' v'] q IH]; cbn; intros H; [repeat constructor; intros []|]. inversion H as [|? ? H1 H2]; subst.
  destruct (Nat.eqb_spec k k') as [->|]; cbn; [exact H|]. constructor; [|auto]. fold (keys (q_set k v q)). rewrite sq_set_keys. intros [->|Hx]; [congruence|exact (H1 Hx)].
Qed.
Lemma sq_set_In k v (q : queue A) : In (k, v) (q_set k v q).
Proof. induction q as [|[k' v'] q IH]; cbn; [tauto|]. destruct (Nat.eqb_spec k k') as [->|]; cbn; tauto. Qed.
Lemma sq_set_In_other k v (q : queue A) x : fst x <> k -> In x q -> In x (q_set k v q).
Proof.
  intros Hne. induction q as [|[k' v'] q IH]; cbn; [tauto|]. destruct (Nat.eqb_spec k k') as [->|]; cbn; [|tauto].
  intros [<-|Hx]; [cbn in Hne; congruence|tauto].
Qed.
End Q.

(** A couple whose second name never arrives in the angles is never removed. *)
Section Stuck.
Context {V : Type}.
Variables (names_of : V -> list nat) (mk_pair : item V -> item V -> V).

Definition waits (x : nat) (kx : nat) (q : queue (item V)) : Prop :=
  NoDup (keys q) /\ exists it y l, In (kx, it) q /\ names_in names_of it = y :: x :: l.

Lemma move_all_keeps (s s' : st5 V) : move_all s = Ok s' -> q_angles s' = q_angles s /\ q_names s' = q_names s.
Proof.
  unfold move_all. generalize (map fst (q_mod0 s)). intros l. revert s. induction l as [|k l IH]; intros s H; cbn [py_for] in H.
  - injection H as <-. auto.
  - destruct (q_get k (q_mod0 s)); cbn [bind] in H; [|discriminate]. destruct (q_del k (q_mod0 s)); cbn [bind] in H; [|discriminate].
    apply IH in H. exact H.
Qed.

Lemma loop_keeps x kx : forall l s s',
  py_for (make_couple1 names_of mk_pair) l s = Ok s' ->
  (forall it y r, In (kx, it) (q_names s) -> names_in names_of it = y :: x :: r -> forall it', In (kx, it') l -> it' = it) ->
  ~ In x (keys (q_angles s)) -> waits x kx (q_names s) ->
  ~ In x (keys (q_angles s')) /\ waits x kx (q_names s').
Proof.
  induction l as [|[k it] l IH]; intros s s' H Hf Hx Hw; cbn [py_for] in H; [injection H as <-; auto|].
  destruct (make_couple1 names_of mk_pair s (k, it)) as [s1|] eqn:E; [|discriminate].
  assert (H1 : ~ In x (keys (q_angles s1)) /\ waits x kx (q_names s1) /\ (forall z, In z (q_names s1) -> In z (q_names s))).
  { unfold make_couple1 in E. destruct (names_in names_of it) as [|a [|b r]] eqn:En; [discriminate|discriminate|].
    assert (Hgo : forall qa qn, q_del b (q_angles s) = Ok qa -> q_del k (q_names s) = Ok qn -> In b (keys (q_angles s)) ->
              ~ In x (keys qa) /\ waits x kx qn /\ (forall z, In z qn -> In z (q_names s))).
    { intros qa qn Ha Hn Hb. split; [|split].
      - intros C. apply Hx. eapply sq_del_keys; eassumption.
      - destruct Hw as (Hnd & it0 & y & r0 & Hin & Hn0). split; [eapply sq_del_nodup; eassumption|].
        exists it0, y, r0. split; [|exact Hn0]. apply (sq_del_other k (q_names s)); [exact Hn| |exact Hin].
        cbn. intros ->. assert (it = it0) by (apply (Hf it0 y r0 Hin Hn0); left; reflexivity). subst it0.
        rewrite En in Hn0. injection Hn0 as _ -> _. contradiction.
      - intros z. eapply sq_del_In; eassumption. }
    destruct (Nat.eqb_spec a b) as [->|Hab].
    - destruct (q_mem b (q_angles s)) eqn:Em; [|injection E as <-; auto].
      apply q_mem_In in Em. destruct (q_get b (q_angles s)); cbn [bind] in E; [|discriminate].
      destruct (q_del b (q_angles s)) as [qa|] eqn:Ea; cbn [bind] in E; [|discriminate].
      destruct (q_del k (q_names s)) as [qn|] eqn:Eq; cbn [bind] in E; [|discriminate]. injection E as <-. apply Hgo; auto.
    - destruct (q_mem a (q_mod0 s) && q_mem b (q_angles s)) eqn:Em; [|injection E as <-; auto].
      apply andb_true_iff in Em. destruct Em as [_ Em]. apply q_mem_In in Em.
      destruct (q_get a (q_mod0 s)); cbn [bind] in E; [|discriminate].
      destruct (q_get b (q_angles s)); cbn [bind] in E; [|discriminate].
      destruct (q_del b (q_angles s)) as [qa|] eqn:Ea; cbn [bind] in E; [|discriminate].
      destruct (q_del k (q_names s)) as [qn|] eqn:Eq; cbn [bind] in E; [|discriminate].
      destruct (q_del a (q_mod0 s)); cbn [bind] in E; [|discriminate]. injection E as <-. apply Hgo; auto. }
  destruct H1 as (H1 & H2 & H3). apply (IH s1 s' H); auto. intros it0 y r Hin Hn it' Hl. apply (Hf it0 y r); auto. right. exact Hl.
Qed.

Lemma make_couples_keeps x kx s s' : make_couples names_of mk_pair s = Ok s' ->
  ~ In x (keys (q_angles s)) -> waits x kx (q_names s) ->
  ~ In x (keys (q_angles s')) /\ waits x kx (q_names s').
Proof.
  unfold make_couples. intros H Hx Hw.
  assert (Hne : q_names s <> []) by (destruct Hw as (_ & it & y & l & Hin & _); intros C; rewrite C in Hin; exact Hin).
  destruct (q_names s) as [|e qn] eqn:En; [congruence|]. cbn [bind] in H. destruct (q_angles s) as [|b qa] eqn:Ea.
  - injection H as <-. rewrite Ea, En. auto.
  - rewrite <- En in *. rewrite <- Ea in *. apply (loop_keeps x kx (q_names s) s s' H); auto.
    intros it y r Hin _ it' Hin'. destruct Hw as [Hnd _]. pose proof (q_get_In _ _ _ Hnd Hin) as G1. pose proof (q_get_In _ _ _ Hnd Hin') as G2. congruence.
Qed.

Variables (pre post : list (bool * (nat -> V -> item V))) (correct : nat -> V -> item V).
Let ws := surf_works names_of mk_pair pre correct post.
Let nq := surf_nq pre post.
Let a := List.length pre.

Lemma ws_cases_surf i w : nth_error ws i = Some w ->
  ((i < a)%nat /\ exists io f, w = mk_work (ItemWork i f) (Some (S i)) io) \/
  (i = a /\ w = mk_work (GlobalWork (surf_ready a) (surf_glob names_of mk_pair a)) None false) \/
  (i = S a /\ w = mk_work (ItemWork (a + 3) correct) (Some (a + 2)%nat) false) \/
  (exists j io f, (j < List.length post)%nat /\ i = (a + 2 + j)%nat /\
     w = mk_work (ItemWork (a + 4 + j) f) (if Nat.eqb (S j) (List.length post) then None else Some (a + 5 + j)%nat) io).
Proof.
  intros H. unfold ws, surf_works in H. fold a in H. destruct (Nat.lt_ge_cases i a) as [Hi|Hi].
  - left. split; [exact Hi|]. rewrite nth_error_app1 in H by (rewrite map_length, combine_length, seq_length; unfold a in *; lia).
    rewrite nth_error_map in H. destruct (nth_error (combine (seq 0 a) pre) i) as [[i' [io f]]|] eqn:E; [|discriminate].
    cbn in H. injection H as <-. exists io, f.
    assert (i' = i). { apply (f_equal (option_map fst)) in E. rewrite <- nth_error_map in E. cbn in E.
      assert (M : map fst (combine (seq 0 a) pre) = seq 0 a) by (unfold a; clear; generalize 0%nat; induction pre as [|z p IH]; intros n; cbn; [reflexivity|rewrite IH; reflexivity]).
      rewrite M in E. rewrite (nth_error_nth' (seq 0 a) 0%nat) in E by (rewrite seq_length; exact Hi). rewrite seq_nth in E by exact Hi. injection E as <-. reflexivity. }
    subst i'. reflexivity.
  - right. rewrite nth_error_app2 in H by (rewrite map_length, combine_length, seq_length; unfold a in *; lia).
    rewrite map_length, combine_length, seq_length in H. replace (i - Nat.min a (List.length pre))%nat with (i - a)%nat in H by (unfold a; lia).
    destruct (i - a)%nat as [|[|j]] eqn:Ej; cbn [app nth_error] in H.
    + left. injection H as <-. split; [lia|reflexivity].
    + right. left. injection H as <-. split; [lia|reflexivity].
    + right. right. rewrite nth_error_map in H.
      destruct (nth_error (combine (seq 0 (List.length post)) post) j) as [[j' [io f]]|] eqn:E; [|discriminate].
      cbn [option_map] in H. injection H as <-. exists j, io, f.
      assert (Hj : (j < List.length post)%nat).
      { assert (N : nth_error (combine (seq 0 (List.length post)) post) j <> None) by congruence. apply nth_error_Some in N.
        rewrite combine_length, seq_length in N. lia. }
      assert (j' = j). { apply (f_equal (option_map fst)) in E. rewrite <- nth_error_map in E. cbn [option_map fst] in E.
        assert (M : map fst (combine (seq 0 (List.length post)) post) = seq 0 (List.length post)) by (clear; generalize 0%nat; induction post as [|z p IH]; intros n; cbn; [reflexivity|rewrite IH; reflexivity]).
        rewrite M in E. rewrite (nth_error_nth' (seq 0 (List.length post)) 0%nat) in E by (rewrite seq_length; exact Hj). rewrite seq_nth in E by exact Hj. injection E as <-. reflexivity. }
      subst j'. split; [exact Hj|]. split; [lia|reflexivity].
Qed.

(** the image [x] is not among the images to be read, and its couple waits *)
Definition surf_stuck (x kx : nat) (c : cfg V) : Prop :=
  (forall i, (i <= a)%nat -> ~ In x (keys (c_qs c i))) /\
  (forall i k v, In (i, k, v) (c_fl c) -> (i < a)%nat -> k <> x) /\
  waits x kx (c_qs c (a + 1)%nat).

Lemma surf_stuck_trans x kx c c' : surf_stuck x kx c -> atrans ws c c' -> surf_stuck x kx c'.
Proof.
  intros (H1 & H2 & H3) [(i & k & H)|(i & H)].
  - destruct H as [w inq f v q' Hw Hb Hc Hq' Hf _|w inq f e q' Hw Hb Hc Hq' Hf _|w inq f v Hw Hb Hf Hq' _].
    + assert (Hn : inq <> (a + 1)%nat /\ ((i < a)%nat -> inq = i)).
      { apply ws_cases_surf in Hw. destruct Hw as [(Hi & io & g & ->)|[(_ & ->)|[(-> & ->)|(j & io & g & Hj & -> & ->)]]];
          cbn [w_body] in Hb; try discriminate; injection Hb as <- <-; lia. }
      split; [|split].
      * intros m Hm. rewrite Hq'. unfold upd. destruct (Nat.eqb_spec m inq) as [->|]; [|auto].
        intros C. apply (H1 inq Hm). rewrite Hc. right. exact C.
      * intros i' k' v' Hin Hi'. apply (Permutation_in _ Hf) in Hin. destruct Hin as [E|Hin]; [|eauto].
        injection E as -> -> ->. destruct Hn as [_ Hn]. rewrite (Hn Hi') in Hc. intros ->. apply (H1 i' ltac:(lia)). rewrite Hc. left. reflexivity.
      * rewrite Hq'. unfold upd. destruct (Nat.eqb_spec (a + 1) inq) as [E|]; [destruct Hn; congruence|exact H3].
    + apply ws_cases_surf in Hw.
      assert (Hn : inq <> (a + 1)%nat /\ (match w_out w with Some o => o <> (a + 1)%nat /\ ((o <= a)%nat -> (inq <= a)%nat) | None => True end)).
      { destruct Hw as [(Hi & io & g & ->)|[(_ & ->)|[(-> & ->)|(j & io & g & Hj & -> & ->)]]];
          cbn [w_body w_out] in *; try discriminate; injection Hb as <- <-; try lia.
        destruct (Nat.eqb (S j) (List.length post)); lia. }
      destruct Hn as [Hn1 Hn2]. split; [|split].
      * intros m Hm. rewrite Hq'. unfold put. destruct (w_out w) as [o|].
        -- unfold upd at 1. destruct (Nat.eqb_spec m o) as [->|Hmo].
           ++ intros C. rewrite sq_set_keys in C. destruct C as [->|C].
              ** destruct Hn2 as [_ Hn2]. apply (H1 inq (Hn2 Hm)). rewrite Hc. left. reflexivity.
              ** revert C. unfold upd. destruct (Nat.eqb_spec o inq) as [->|]; [|exact (H1 o Hm)]. intros C. apply (H1 inq Hm). rewrite Hc. right. exact C.
           ++ unfold upd. destruct (Nat.eqb_spec m inq) as [->|]; [|auto]. intros C. apply (H1 inq Hm). rewrite Hc. right. exact C.
        -- unfold upd. destruct (Nat.eqb_spec m inq) as [->|]; [|auto]. intros C. apply (H1 inq Hm). rewrite Hc. right. exact C.
      * intros i' k' v' Hin Hi'. apply (Permutation_in _ Hf) in Hin. eauto.
      * rewrite Hq'. unfold put. destruct (w_out w) as [o|]; unfold upd.
        -- destruct (Nat.eqb_spec (a + 1) o) as [E|]; [destruct Hn2; congruence|]. destruct (Nat.eqb_spec (a + 1) inq); [congruence|exact H3].
        -- destruct (Nat.eqb_spec (a + 1) inq); [congruence|exact H3].
    + apply ws_cases_surf in Hw.
      assert (Hn2 : (match w_out w with Some o => o <> (a + 1)%nat /\ ((o <= a)%nat -> (i < a)%nat) | None => True end)).
      { destruct Hw as [(Hi & io & g & ->)|[(_ & ->)|[(-> & ->)|(j & io & g & Hj & -> & ->)]]];
          cbn [w_body w_out] in *; try discriminate; injection Hb as <- <-; try lia.
        destruct (Nat.eqb (S j) (List.length post)); lia. }
      split; [|split].
      * intros m Hm. rewrite Hq'. unfold put. destruct (w_out w) as [o|]; [|auto]. unfold upd. destruct (Nat.eqb_spec m o) as [->|]; [|auto].
        intros C. rewrite sq_set_keys in C. destruct C as [<-|C]; [|exact (H1 o Hm C)].
        destruct Hn2 as [_ Hn2]. apply (H2 i x v); auto. apply (Permutation_in _ (Permutation_sym Hf)). left. reflexivity.
      * intros i' k' v' Hin Hi'. apply (H2 i' k' v'); auto. apply (Permutation_in _ (Permutation_sym Hf)). right. exact Hin.
      * rewrite Hq'. unfold put. destruct (w_out w) as [o|]; [|exact H3]. unfold upd. destruct (Nat.eqb_spec (a + 1) o) as [E|]; [destruct Hn2; congruence|exact H3].
  - destruct H as [w ready g Hw Hb Hg Hf _]. apply ws_cases_surf in Hw.
    destruct Hw as [(Hi & io & g' & ->)|[(_ & ->)|[(-> & ->)|(j & io & g' & Hj & -> & ->)]]]; cbn [w_body] in Hb; try discriminate.
    injection Hb as <- <-. unfold surf_glob in Hg.
    destruct (make_couples names_of mk_pair _) as [s|] eqn:E; cbn [bind] in Hg; [|discriminate]. injection Hg as Hq.
    apply (make_couples_keeps x kx) in E; cbn [q_angles q_names]; [|apply H1; lia|exact H3]. destruct E as [E1 E2].
    assert (Q : forall m, c_qs c' m = if Nat.eqb m (a + 3) then q_couples s else if Nat.eqb m (a + 4) then q_mod s
                          else if Nat.eqb m (a + 1) then q_names s else if Nat.eqb m a then q_angles s
                          else if Nat.eqb m (a + 2) then q_mod0 s else c_qs c m) by (intros m; rewrite <- Hq; reflexivity).
    split; [|split].
    + intros m Hm. rewrite Q. destruct (Nat.eqb_spec m (a + 3)); [lia|]. destruct (Nat.eqb_spec m (a + 4)); [lia|].
      destruct (Nat.eqb_spec m (a + 1)); [lia|]. destruct (Nat.eqb_spec m a); [exact E1|]. destruct (Nat.eqb_spec m (a + 2)); [lia|]. auto.
    + intros i' k' v' Hin Hi'. apply (Permutation_in _ Hf) in Hin. eauto.
    + rewrite Q. destruct (Nat.eqb_spec (a + 1) (a + 3)); [lia|]. destruct (Nat.eqb_spec (a + 1) (a + 4)); [lia|].
      rewrite Nat.eqb_refl. exact E2.
Qed.

Lemma surf_stuck_not_empty x kx c : surf_stuck x kx c -> all_empty nq (c_qs c) = false.
Proof.
  intros (_ & _ & _ & it & y & l & Hin & _). destruct (all_empty nq (c_qs c)) eqn:E; [|reflexivity].
  rewrite all_empty_spec in E. rewrite (E (a + 1)%nat) in Hin by (unfold nq, surf_nq; fold a; lia). destruct Hin.
Qed.

Lemma surf_wf nb lim sie : well_formed (mk_params nb lim sie nq ws).
Proof.
  intros i w Hw. cbn [p_works p_nq] in *. apply ws_cases_surf in Hw. unfold nq, surf_nq. fold a.
  destruct Hw as [(Hi & io & g' & ->)|[(_ & ->)|[(-> & ->)|(j & io & g' & Hj & -> & ->)]]]; cbn [w_body]; try lia.
  intros qs HE. rewrite all_empty_spec in HE. unfold surf_ready. rewrite !HE by lia. reflexivity.
Qed.

(** general form: an image absent from the images to read, whose couple waits *)
Lemma surf_stuck_async nb lim sie qs x kx : surf_stuck x kx (mk_cfg qs [] []) ->
  forall s, reachable (mk_params nb lim sie nq ws) (init qs) s -> a_raised s = None -> ~ ended (mk_params nb lim sie nq ws) s.
Proof.
  intros H0 s HR Hr HE. set (p := mk_params nb lim sie nq ws) in *.
  assert (H : surf_stuck x kx (abs s)).
  { apply (async_invariant p (surf_stuck x kx) qs); auto.
    - intros c c' (H1 & H2 & H3) Hq Hf _. split; [|split].
      + intros i Hi. rewrite Hq. auto.
      + intros i k v Hin. apply (Permutation_in _ Hf) in Hin. eauto.
      + rewrite Hq. exact H3.
    - intros c c'. apply surf_stuck_trans. }
  apply surf_stuck_not_empty in H. pose proof (reachable_flags p _ s (surf_wf nb lim sie) HR) as HF.
  destruct HE as (_ & _ & HP). destruct (f_stop _ _ HF (f_poll _ _ HF HP)) as [HE _]. cbn [abs c_qs p p_nq] in *. congruence.
Qed.

Lemma steps_stuck x kx c c' : steps ws c c' -> surf_stuck x kx c -> surf_stuck x kx c'.
Proof. intros H H0. induction H; [exact H0|]. eapply surf_stuck_trans; eauto. Qed.

Lemma seq_sweep_steps nmax l : (forall i w, In (i, w) l -> nth_error ws i = Some w) ->
  forall st st', seq_sweep false nmax l st = (st', None) -> steps ws (cfg_of st) (cfg_of st').
Proof.
  induction l as [|[i w] l IH]; intros Hl st st' H; cbn [seq_sweep] in H; [injection H as <-; apply steps_refl|].
  destruct (seq_work false nmax i w st) as [st1 [e|]] eqn:E; [discriminate|].
  eapply steps_trans; [eapply seq_work_abs; [|exact E]; apply Hl; left; reflexivity|].
  apply IH; [|exact H]. intros i' w' Hin. apply Hl. right. exact Hin.
Qed.

Lemma surf_stuck_seq nmax x kx fuel : forall st, surf_stuck x kx (cfg_of st) ->
  forall st', seq_run fuel false nmax nq ws st <> Some (st', None).
Proof.
  induction fuel as [|fuel IH]; intros st H st'; cbn [seq_run];
    pose proof (surf_stuck_not_empty _ _ _ H) as HE; cbn [cfg_of c_qs] in HE; rewrite HE; [discriminate|].
  destruct (seq_sweep _ _ _ st) as [st1 [e|]] eqn:E; [discriminate|].
  apply IH. eapply steps_stuck; [|exact H]. eapply (seq_sweep_steps nmax (combine (seq 0 (List.length ws)) ws)); [|exact E].
  intros i w Hin. clear -Hin. revert Hin. generalize ws as l. intros l.
  assert (G : forall n, In (i, w) (combine (seq n (List.length l)) l) -> nth_error l (i - n) = Some w /\ (n <= i)%nat).
  { induction l as [|z l IHl]; intros n H; [destruct H|]. cbn in H. destruct H as [E|H].
    - injection E as -> ->. rewrite Nat.sub_diag. split; [reflexivity|lia].
    - apply IHl in H. destruct H as [H Hle]. split; [|lia]. replace (i - n)%nat with (S (i - S n)) by lia. exact H. }
  intros Hin. apply G in Hin. rewrite Nat.sub_0_r in Hin. tauto.
Qed.

(** an image which is alone: its angle is never taken *)
Definition surf_alone (x : nat) (c : cfg V) : Prop :=
  c_qs c (a + 1)%nat = [] /\
  ((exists i, (i <= a)%nat /\ In x (keys (c_qs c i))) \/ (exists i v, (i < a)%nat /\ In (i, x, v) (c_fl c))).

Lemma surf_alone_trans x c c' : surf_alone x c -> atrans ws c c' -> surf_alone x c'.
Proof.
  intros (H1 & H2) [(i & k & H)|(i & H)].
  - destruct H as [w inq f v q' Hw Hb Hc Hq' Hf _|w inq f e q' Hw Hb Hc Hq' Hf _|w inq f v Hw Hb Hf Hq' _].
    + assert (Hn : inq <> (a + 1)%nat /\ ((i < a)%nat \/ (a < inq)%nat)).
      { apply ws_cases_surf in Hw. destruct Hw as [(Hi & io & g & ->)|[(_ & ->)|[(-> & ->)|(j & io & g & Hj & -> & ->)]]];
          cbn [w_body] in Hb; try discriminate; injection Hb as <- <-; lia. }
      destruct Hn as [Hn1 Hn2]. split.
      * rewrite Hq'. unfold upd. destruct (Nat.eqb_spec (a + 1) inq); [congruence|exact H1].
      * destruct H2 as [(m & Hm & Hin)|(m & v' & Hm & Hin)].
        -- destruct (Nat.eq_dec m inq) as [->|Hne].
           ++ rewrite Hc in Hin. destruct Hin as [<-|Hin].
              ** right. exists i, v. split; [destruct Hn2; [assumption|lia]|]. apply (Permutation_in _ (Permutation_sym Hf)). left. reflexivity.
              ** left. exists inq. split; [exact Hm|]. rewrite Hq'. unfold upd. rewrite Nat.eqb_refl. exact Hin.
           ++ left. exists m. split; [exact Hm|]. rewrite Hq'. unfold upd. destruct (Nat.eqb_spec m inq); [congruence|exact Hin].
        -- right. exists m, v'. split; [exact Hm|]. apply (Permutation_in _ (Permutation_sym Hf)). right. exact Hin.
    + apply ws_cases_surf in Hw.
      assert (Hn : inq <> (a + 1)%nat /\ ((inq <= a)%nat -> exists o, w_out w = Some o /\ (o <= a)%nat) /\ w_out w <> Some (a + 1)%nat).
      { destruct Hw as [(Hi & io & g & ->)|[(_ & ->)|[(-> & ->)|(j & io & g & Hj & -> & ->)]]];
          cbn [w_body w_out] in *; try discriminate; injection Hb as <- <-.
        - split; [lia|]. split; [intros _; exists (S i); split; [reflexivity|lia]|intros C; injection C; lia].
        - split; [lia|]. split; [lia|intros C; injection C; lia].
        - split; [lia|]. split; [lia|]. destruct (Nat.eqb (S j) (List.length post)); [discriminate|intros C; injection C; lia]. }
      destruct Hn as (Hn1 & Hn2 & Hn3). split.
      * rewrite Hq'. unfold put. destruct (w_out w) as [o|]; unfold upd.
        -- destruct (Nat.eqb_spec (a + 1) o) as [E|]; [congruence|]. destruct (Nat.eqb_spec (a + 1) inq); [congruence|exact H1].
        -- destruct (Nat.eqb_spec (a + 1) inq); [congruence|exact H1].
      * destruct H2 as [(m & Hm & Hin)|(m & v' & Hm & Hin)].
        -- left. assert (Hp : forall z, In x (keys (upd (c_qs c) inq q' z)) -> In x (keys (c_qs c' z))).
           { intros z Hz. rewrite Hq'. unfold put. destruct (w_out w) as [o|]; [|exact Hz]. unfold upd at 1.
             destruct (Nat.eqb_spec z o) as [->|]; [|exact Hz]. rewrite sq_set_keys. right. exact Hz. }
           destruct (Nat.eq_dec m inq) as [->|Hne].
           ++ rewrite Hc in Hin. destruct Hin as [<-|Hin].
              ** destruct (Hn2 Hm) as (o & Ho & Hoa). exists o. split; [exact Hoa|]. rewrite Hq', Ho. unfold put. unfold upd at 1. rewrite Nat.eqb_refl.
                 rewrite sq_set_keys. left. reflexivity.
              ** exists inq. split; [exact Hm|]. apply Hp. unfold upd. rewrite Nat.eqb_refl. exact Hin.
           ++ exists m. split; [exact Hm|]. apply Hp. unfold upd. destruct (Nat.eqb_spec m inq); [congruence|exact Hin].
        -- right. exists m, v'. split; [exact Hm|]. apply (Permutation_in _ (Permutation_sym Hf)). exact Hin.
    + apply ws_cases_surf in Hw.
      assert (Hn : ((i < a)%nat -> exists o, w_out w = Some o /\ (o <= a)%nat) /\ w_out w <> Some (a + 1)%nat).
      { destruct Hw as [(Hi & io & g & ->)|[(_ & ->)|[(-> & ->)|(j & io & g & Hj & -> & ->)]]];
          cbn [w_body w_out] in *; try discriminate; injection Hb as <- <-.
        - split; [intros _; exists (S i); split; [reflexivity|lia]|intros C; injection C; lia].
        - split; [lia|intros C; injection C; lia].
        - split; [lia|]. destruct (Nat.eqb (S j) (List.length post)); [discriminate|intros C; injection C; lia]. }
      destruct Hn as (Hn2 & Hn3). split.
      * rewrite Hq'. unfold put. destruct (w_out w) as [o|]; [|exact H1]. unfold upd. destruct (Nat.eqb_spec (a + 1) o) as [E|]; [congruence|exact H1].
      * destruct H2 as [(m & Hm & Hin)|(m & v' & Hm & Hin)].
        -- left. exists m. split; [exact Hm|]. rewrite Hq'. unfold put. destruct (w_out w) as [o|]; [|exact Hin]. unfold upd.
           destruct (Nat.eqb_spec m o) as [->|]; [|exact Hin]. rewrite sq_set_keys. right. exact Hin.
        -- apply (Permutation_in _ Hf) in Hin. destruct Hin as [E|Hin].
           ++ injection E as -> -> ->. destruct (Hn2 Hm) as (o & Ho & Hoa). left. exists o. split; [exact Hoa|]. rewrite Hq', Ho. unfold put, upd.
              rewrite Nat.eqb_refl, sq_set_keys. left. reflexivity.
           ++ right. exists m, v'. auto.
  - destruct H as [w ready g Hw Hb Hg Hf _]. apply ws_cases_surf in Hw.
    destruct Hw as [(Hi & io & g' & ->)|[(_ & ->)|[(-> & ->)|(j & io & g' & Hj & -> & ->)]]]; cbn [w_body] in Hb; try discriminate.
    injection Hb as <- <-. unfold surf_glob in Hg.
    destruct (make_couples names_of mk_pair _) as [s|] eqn:E; cbn [bind] in Hg; [|discriminate]. injection Hg as Hq.
    assert (E2 : q_angles s = c_qs c a /\ q_names s = []).
    { unfold make_couples in E. cbn [q_names] in E. rewrite H1 in E.
      destruct (move_all _) as [s1|] eqn:Em; cbn [bind] in E; [|discriminate]. apply move_all_keeps in Em. cbn [q_angles q_names] in Em. destruct Em as [Em1 Em2].
      rewrite Em2 in E. cbn [py_for] in E. assert (Es : s = s1) by (destruct (q_angles s1); congruence). rewrite Es. split; assumption. }
    destruct E2 as [E1 E2].
    assert (Q : forall m, c_qs c' m = if Nat.eqb m (a + 3) then q_couples s else if Nat.eqb m (a + 4) then q_mod s
                          else if Nat.eqb m (a + 1) then q_names s else if Nat.eqb m a then q_angles s
                          else if Nat.eqb m (a + 2) then q_mod0 s else c_qs c m) by (intros m; rewrite <- Hq; reflexivity).
    split.
    + rewrite Q. destruct (Nat.eqb_spec (a + 1) (a + 3)); [lia|]. destruct (Nat.eqb_spec (a + 1) (a + 4)); [lia|].
      rewrite Nat.eqb_refl. exact E2.
    + destruct H2 as [(m & Hm & Hin)|(m & v' & Hm & Hin)].
      * left. exists m. split; [exact Hm|]. rewrite Q. destruct (Nat.eqb_spec m (a + 3)); [lia|]. destruct (Nat.eqb_spec m (a + 4)); [lia|].
        destruct (Nat.eqb_spec m (a + 1)); [lia|]. destruct (Nat.eqb_spec m a) as [->|]; [rewrite E1; exact Hin|]. destruct (Nat.eqb_spec m (a + 2)); [lia|]. exact Hin.
      * right. exists m, v'. split; [exact Hm|]. apply (Permutation_in _ (Permutation_sym Hf)). exact Hin.
Qed.

Lemma surf_alone_not_done x c : surf_alone x c -> c_fl c = [] -> all_empty nq (c_qs c) = false.
Proof.
  intros (_ & [(i & Hi & Hin)|(i & v & _ & Hin)]) Hf; [|rewrite Hf in Hin; destruct Hin].
  destruct (all_empty nq (c_qs c)) eqn:E; [|reflexivity].
  rewrite all_empty_spec in E. rewrite (E i) in Hin by (unfold nq, surf_nq; fold a; lia). destruct Hin.
Qed.

Lemma surf_alone_async nb lim sie qs x : surf_alone x (mk_cfg qs [] []) ->
  forall s, reachable (mk_params nb lim sie nq ws) (init qs) s -> a_raised s = None -> ~ ended (mk_params nb lim sie nq ws) s.
Proof.
  intros H0 s HR Hr HE. set (p := mk_params nb lim sie nq ws) in *.
  assert (H : surf_alone x (abs s)).
  { apply (async_invariant p (surf_alone x) qs); auto.
    - intros c c' (H1 & H2) Hq Hf _. split; [rewrite Hq; exact H1|]. destruct H2 as [(i & Hi & Hin)|(i & v & Hi & Hin)].
      + left. exists i. rewrite Hq. auto.
      + right. exists i, v. split; [exact Hi|]. apply (Permutation_in _ (Permutation_sym Hf)). exact Hin.
    - intros c c'. apply surf_alone_trans. }
  pose proof (reachable_flags p _ s (surf_wf nb lim sie) HR) as HF.
  destruct HE as (_ & _ & HP). destruct (f_stop _ _ HF (f_poll _ _ HF HP)) as [HE Hrun].
  apply surf_alone_not_done in H; [|exact Hrun]. cbn [abs c_qs p p_nq] in *. congruence.
Qed.

Lemma ws_in i w : In (i, w) (combine (seq 0 (List.length ws)) ws) -> nth_error ws i = Some w.
Proof.
  generalize ws as l. intros l.
  assert (G : forall n, In (i, w) (combine (seq n (List.length l)) l) -> nth_error l (i - n) = Some w /\ (n <= i)%nat).
  { induction l as [|z l IHl]; intros n H; [destruct H|]. cbn in H. destruct H as [E|H].
    - injection E as -> ->. rewrite Nat.sub_diag. split; [reflexivity|lia].
    - apply IHl in H. destruct H as [H Hle]. split; [|lia]. replace (i - n)%nat with (S (i - S n)) by lia. exact H. }
  intros Hin. apply G in Hin. rewrite Nat.sub_0_r in Hin. tauto.
Qed.

Lemma steps_alone x c c' : steps ws c c' -> surf_alone x c -> surf_alone x c'.
Proof. intros H H0. induction H; [exact H0|]. eapply surf_alone_trans; eauto. Qed.

Lemma surf_alone_seq nmax x fuel : forall st, surf_alone x (cfg_of st) ->
  forall st', seq_run fuel false nmax nq ws st <> Some (st', None).
Proof.
  induction fuel as [|fuel IH]; intros st H st'; cbn [seq_run];
    pose proof (surf_alone_not_done _ _ H eq_refl) as HE; cbn [cfg_of c_qs] in HE; rewrite HE; [discriminate|].
  destruct (seq_sweep _ _ _ st) as [st1 [e|]] eqn:E; [discriminate|].
  apply IH. assert (S1 : steps ws (cfg_of st) (cfg_of st1)) by (eapply (seq_sweep_steps nmax); [exact ws_in|exact E]).
  eapply steps_alone; eassumption.
Qed.
End Stuck.

(** ** Statement for the topology as it is filled *)

(** indices and names of the couples of successive images of the serie (SeriesOfArrays built at
    lines 117-125) *)
Definition surf_series (start step : nat) (names : list nat) : list (nat * (nat * nat)) :=
  map (fun '(j, xy) => ((start + j * step)%nat, xy)) (combine (seq 0 (List.length names)) (combine names (tl names))).

Section Fill.
Context {V : Type}.
Variables (names_of : V -> list nat) (mk_pair : item V -> item V -> V) (mk_names : nat -> nat -> V) (path_of : nat -> V).
Hypothesis Hnames : forall x y, names_of (mk_names x y) = [x; y].

Lemma fill_paths_keys complete names saved x : In x (keys (fill_paths path_of complete names saved)) ->
  In x names /\ (complete = true -> ~ In x saved).
Proof.
  unfold fill_paths.
  assert (G : forall q : queue (item V), In x (keys (fold_left (fun q name => if complete && existsb (Nat.eqb name) saved then q else q_set name (inl (path_of name)) q) names q)) ->
     In x (keys q) \/ (In x names /\ (complete = true -> ~ In x saved))).
  { induction names as [|n names IH]; intros q H; [left; exact H|]. cbn [fold_left] in H. apply IH in H. destruct H as [H|[H1 H2]]; [|right; split; [right|]; assumption].
    destruct (complete && existsb (Nat.eqb n) saved) eqn:E; [left; exact H|]. rewrite sq_set_keys in H. destruct H as [->|H]; [|left; exact H].
    right. split; [left; reflexivity|]. intros -> Hs. cbn [andb] in E. rewrite <- not_true_iff_false in E. apply E. apply existsb_exists. exists n. split; [exact Hs|apply Nat.eqb_refl]. }
  intros H. apply G in H. destruct H as [[]|H]. exact H.
Qed.

Lemma fill_paths_In complete names saved x : In x names -> (complete = true -> ~ In x saved) ->
  In x (keys (fill_paths path_of complete names saved)).
Proof.
  unfold fill_paths. intros Hx Hs.
  assert (G : forall q : queue (item V), In x names \/ In x (keys q) -> In x (keys (fold_left (fun q name => if complete && existsb (Nat.eqb name) saved then q else q_set name (inl (path_of name)) q) names q))).
  { clear Hx. induction names as [|n names IH]; intros q H; [destruct H as [[]|H]; exact H|]. cbn [fold_left]. apply IH.
    destruct H as [[->|H]|H]; [|left; exact H|].
    - right. destruct complete; cbn [andb].
      + destruct (existsb (Nat.eqb x) saved) eqn:E; [|rewrite sq_set_keys; left; reflexivity].
        apply existsb_exists in E. destruct E as (z & Hz & E). apply Nat.eqb_eq in E. subst z. destruct (Hs eq_refl Hz).
      + rewrite sq_set_keys. left. reflexivity.
    - right. destruct (complete && _); [exact H|]. rewrite sq_set_keys. right. exact H. }
  apply G. left. exact Hx.
Qed.

Lemma fill_fold_nodup l (q : queue (item V)) : NoDup (keys q) ->
  NoDup (keys (fold_left (fun q '(i, (a, b)) => q_set (S i) (inl (mk_names a b)) q) l q)).
Proof.
  revert q. induction l as [|[i [a b]] l IH]; intros q H; [exact H|]. cbn [fold_left]. apply IH. apply sq_set_nodup. exact H.
Qed.
Lemma fill_fold_keep l kv (q : queue (item V)) : In kv q -> (forall i xy, In (i, xy) l -> fst kv <> S i) ->
  In kv (fold_left (fun q '(i, (a, b)) => q_set (S i) (inl (mk_names a b)) q) l q).
Proof.
  revert q. induction l as [|[i [a b]] l IH]; intros q H Hl; [exact H|]. cbn [fold_left]. apply IH; [|intros j xy Hj; apply (Hl j xy); right; exact Hj].
  apply sq_set_In_other; [|exact H]. apply (Hl i (a, b)). left. reflexivity.
Qed.
Lemma fill_fold_In l i x y (q : queue (item V)) : NoDup (map fst l) -> In (i, (x, y)) l ->
  In (S i, inl (mk_names x y)) (fold_left (fun q '(i, (a, b)) => q_set (S i) (inl (mk_names a b)) q) l q).
Proof.
  revert q. induction l as [|[j [a b]] l IH]; intros q Hn Hin; [destruct Hin|]. cbn [fold_left]. cbn [map fst] in Hn. inversion Hn as [|? ? N1 N2]; subst.
  destruct Hin as [E|Hin]; [|apply IH; assumption]. injection E as -> -> ->. apply fill_fold_keep; [apply sq_set_In|].
  intros j xy Hj E. cbn [fst] in E. injection E as <-. apply N1. apply (in_map fst) in Hj. exact Hj.
Qed.

Lemma combine_fst_len {A B} (l : list A) (l' : list B) : (List.length l' <= List.length l)%nat -> map fst (combine l l') = firstn (List.length l') l.
Proof. revert l'. induction l as [|z l IH]; intros [|z' l'] H; cbn in *; try reflexivity. rewrite IH by lia. reflexivity. Qed.

Lemma NoDup_firstn {A} n (l : list A) : NoDup l -> NoDup (firstn n l).
Proof.
  revert n. induction l as [|z l IH]; intros [|n] H; cbn; try constructor.
  - inversion H; subst. intros C. apply H2. rewrite <- (firstn_skipn n l). apply in_or_app. left. exact C.
  - inversion H; subst. auto.
Qed.

Lemma surf_series_keys start step names : (1 <= step)%nat -> NoDup (map fst (surf_series start step names)).
Proof.
  intros Hs. unfold surf_series. rewrite map_map.
  replace (map (fun x => fst (let '(j, xy) := x in ((start + j * step)%nat, xy))) (combine (seq 0 (List.length names)) (combine names (tl names))))
    with (map (fun j => start + j * step)%nat (map fst (combine (seq 0 (List.length names)) (combine names (tl names))))).
  2: { rewrite map_map. apply map_ext. intros [j xy]. reflexivity. }
  rewrite combine_fst_len by (rewrite combine_length, seq_length; lia).
  apply FinFun.Injective_map_NoDup; [intros x y E; nia|].
  apply NoDup_firstn, seq_NoDup.
Qed.

Lemma combine_In_nth {A B} (l : list A) (l' : list B) j x y : nth_error l j = Some x -> nth_error l' j = Some y -> nth_error (combine l l') j = Some (x, y).
Proof. revert l l'. induction j as [|j IH]; intros [|z l] [|z' l'] H1 H2; cbn in *; try discriminate; [congruence|auto]. Qed.

(** every image of the serie is the second image of a couple *)
Lemma fill_names_waits start step names x : (1 <= step)%nat -> (2 <= List.length names)%nat -> In x names ->
  exists kx, waits names_of x kx (fill_names mk_names (surf_series start step names)).
Proof.
  intros Hs Hlen Hx. destruct names as [|n0 [|n1 names]]; [cbn in Hlen; lia|cbn in Hlen; lia|].
  set (l := n0 :: n1 :: names) in *. pose proof (surf_series_keys start step l Hs) as Hnd.
  assert (E : exists r, surf_series start step l = (start, (n0, n1)) :: r).
  { unfold surf_series, l. cbn [List.length seq tl combine map]. rewrite Nat.mul_0_l, Nat.add_0_r. eexists. reflexivity. }
  destruct E as [r E].
  assert (HF : fill_names mk_names (surf_series start step l) =
     fold_left (fun q '(i, (a, b)) => q_set (S i) (inl (mk_names a b)) q) (surf_series start step l) (q_set start (inl (mk_names n0 n0)) [])).
  { rewrite E. reflexivity. }
  assert (HN : NoDup (keys (fill_names mk_names (surf_series start step l)))).
  { rewrite HF. apply fill_fold_nodup. apply sq_set_nodup. constructor. }
  apply In_nth_error in Hx. destruct Hx as [j Hj]. destruct j as [|j].
  - cbn in Hj. injection Hj as <-. exists start. split; [exact HN|]. exists (inl (mk_names n0 n0)), n0, []. split; [|cbn; apply Hnames].
    rewrite HF. apply fill_fold_keep; [apply sq_set_In|]. intros i xy Hin Ei. cbn [fst] in Ei. unfold surf_series in Hin. apply in_map_iff in Hin.
    destruct Hin as ([j xy'] & Ej & _). injection Ej as <- <-. lia.
  - assert (Hlt : (j < List.length l)%nat). { assert (N : nth_error l (S j) <> None) by congruence. apply nth_error_Some in N. lia. }
    destruct (nth_error l j) as [y|] eqn:Ey; [|apply nth_error_None in Ey; lia].
    exists (S (start + j * step)). split; [exact HN|]. exists (inl (mk_names y x)), y, []. split; [|cbn; apply Hnames].
    rewrite HF. apply fill_fold_In; [exact Hnd|]. unfold surf_series. apply in_map_iff. exists (j, (y, x)). split; [reflexivity|].
    apply nth_error_In with (n := j). apply combine_In_nth; [|apply combine_In_nth; [exact Ey|exact Hj]].
    rewrite (nth_error_nth' (seq 0 (List.length l)) 0%nat) by (rewrite seq_length; exact Hlt). rewrite seq_nth by exact Hlt. reflexivity.
Qed.

Variables (pre post : list (bool * (nat -> V -> item V))) (correct : nat -> V -> item V).

(** C27 is refuted: whatever the non empty set of results already saved, neither executor ends.
    ([names]: at least two images.) *)
Theorem C27_refuted : forall names saved start step,
  (1 <= step)%nat -> (2 <= List.length names)%nat -> (exists x, In x names /\ In x saved) ->
  let ws := surf_works names_of mk_pair pre correct post in
  let nq := surf_nq pre post in
  let qs := surf_queues mk_names path_of (List.length pre) true names saved (surf_series start step names) in
  (forall nb lim sie s, let p := mk_params nb lim sie nq ws in
     reachable p (init qs) s -> a_raised s = None -> ~ ended p s) /\
  (forall fuel nmax st, seq_run fuel false nmax nq ws (mk_sst qs []) <> Some (st, None)).
Proof.
  intros names saved start step Hs Hlen (x & Hx & Hsv) ws nq qs.
  destruct (fill_names_waits start step names x Hs Hlen Hx) as [kx Hw].
  assert (H : surf_stuck names_of pre x kx (mk_cfg qs [] [])).
  { assert (Hne : names <> []) by (intros ->; destruct Hx). unfold surf_stuck. cbn [c_qs c_fl]. split; [|split].
    - intros i Hi. unfold qs, surf_queues. destruct names as [|n names]; [congruence|]. destruct (Nat.eqb_spec i 0) as [->|].
      + intros C. apply fill_paths_keys in C. destruct C as [_ C]. exact (C eq_refl Hsv).
      + destruct (Nat.eqb_spec i (List.length pre + 1)); [lia|]. intros [].
    - intros i k v [].
    - unfold qs, surf_queues. destruct names as [|n names]; [congruence|]. destruct (Nat.eqb_spec (List.length pre + 1) 0); [lia|].
      rewrite Nat.eqb_refl. exact Hw. }
  split.
  - intros nb lim sie s p. apply (surf_stuck_async names_of mk_pair pre post correct nb lim sie qs x kx H).
  - intros fuel nmax st. apply (surf_stuck_seq names_of mk_pair pre post correct nmax x kx fuel (mk_sst qs []) H).
Qed.

(** With one image the computation never ends, in any mode (nothing takes its angle). *)
Theorem C27_one_image_refuted : forall x complete saved start step, (complete = true -> ~ In x saved) ->
  let ws := surf_works names_of mk_pair pre correct post in
  let nq := surf_nq pre post in
  let qs := surf_queues mk_names path_of (List.length pre) complete [x] saved (surf_series start step [x]) in
  (forall nb lim sie s, let p := mk_params nb lim sie nq ws in
     reachable p (init qs) s -> a_raised s = None -> ~ ended p s) /\
  (forall fuel nmax st, seq_run fuel false nmax nq ws (mk_sst qs []) <> Some (st, None)).
Proof.
  intros x complete saved start step Hx ws nq qs.
  assert (H : surf_alone pre x (mk_cfg qs [] [])).
  { split; cbn [c_qs c_fl].
    - unfold qs, surf_queues. destruct (Nat.eqb_spec (List.length pre + 1) 0); [lia|]. rewrite Nat.eqb_refl. reflexivity.
    - left. exists 0%nat. split; [lia|]. apply fill_paths_In; [left; reflexivity|exact Hx]. }
  split.
  - intros nb lim sie s p. apply (surf_alone_async names_of mk_pair pre post correct nb lim sie qs x H).
  - intros fuel nmax st. apply (surf_alone_seq names_of mk_pair pre post correct nmax x fuel (mk_sst qs []) H).
Qed.
End Fill.

Print Assumptions C27_refuted.
Print Assumptions C27_one_image_refuted.

(** Three images, works which return the list of the names used: with nothing saved the sequential
    executor ends and saves the three images, with one image saved it is still running after 100
    sweeps. *)
Definition sx_pre : list (bool * (nat -> list nat -> item (list nat))) := [(true, fun k v => inl v); (false, fun k v => inl v)].
Definition sx_post : list (bool * (nat -> list nat -> item (list nat))) := [(false, fun k v => inl v); (true, fun k v => inl v)].
Definition sx_pair (x y : item (list nat)) : list nat := match x, y with inl u, inl v => u ++ v | _, _ => [] end.
Example C27_example :
  let ws := surf_works (fun v => v) sx_pair sx_pre (fun k v => inl v) sx_post in
  let qs saved := surf_queues (fun x y => [x; y]) (fun x => [x]) 2 true [10; 11; 12]%nat saved (surf_series 0 1 [10; 11; 12]%nat) in
  (exists st, seq_run 20 false 8 (surf_nq sx_pre sx_post) ws (mk_sst (qs []) []) = Some (st, None) /\
     flat_map (fun e => match e with ECall 5 k v _ => [(k, v)] | _ => [] end) (s_tr st) =
       [(10, [10; 10]); (11, [10; 10; 11]); (12, [10; 10; 11; 12])]%nat) /\
  seq_run 100 false 8 (surf_nq sx_pre sx_post) ws (mk_sst (qs [11%nat]) []) = None.
Proof.
  cbv zeta. split; [|vm_compute; reflexivity].
  eexists. split; [vm_compute; reflexivity|vm_compute; reflexivity].
Qed.

(** Proofs about histories of [make_couples] / [make_subsets]. *)
From Coq Require Import Permutation.
From Verif Require Import PyBase QueueModel QueueProofs ExecModel SplitProofs JoinModel JoinProofs JoinSpec ExecAsyncProofs.

Lemma keys_app {W} (q1 q2 : queue W) : keys (q1 ++ q2) = keys q1 ++ keys q2.
Proof. apply map_app. Qed.
Lemma In_keys {W} k (w : W) q : In (k, w) q -> In k (keys q).
Proof. intros H. unfold keys. change k with (fst (k, w)). apply in_map, H. Qed.
Lemma keys_In {W} k (q : queue W) : In k (keys q) -> exists w, In (k, w) q.
Proof. unfold keys. intros H. apply in_map_iff in H. destruct H as ([k' w] & E & H). cbn in E. subst. eauto. Qed.
Lemma NoDup_keys_eq {W} k (w w' : W) q : NoDup (keys q) -> In (k, w) q -> In (k, w') q -> w = w'.
Proof. intros Hn H1 H2. apply (q_get_In k w q Hn) in H1. apply (q_get_In k w' q Hn) in H2. congruence. Qed.

Lemma filter_partition {A} (f : A -> bool) l : Permutation (filter (fun x => negb (f x)) l ++ filter f l) l.
Proof.
  induction l as [|a l IH]; [reflexivity|]. cbn. destruct (f a); cbn [negb].
  - rewrite <- Permutation_middle. constructor. exact IH.
  - cbn. constructor. exact IH.
Qed.

Lemma NoDup_app_l {A} (l1 l2 : list A) : NoDup (l1 ++ l2) -> NoDup l1.
Proof.
  induction l1 as [|a l1 IH]; intros H; [constructor|]. cbn in H. inversion H; subst. constructor; [|auto].
  intros HI. apply H2. rewrite in_app_iff. auto.
Qed.
Lemma NoDup_app_r {A} (l1 l2 : list A) : NoDup (l1 ++ l2) -> NoDup l2.
Proof. induction l1 as [|a l1 IH]; intros H; [exact H|]. cbn in H. inversion H; subst. auto. Qed.

Section Hist.
Context {V : Type}.
Variable names_of : V -> list nat.
Notation names_in := (names_in names_of).
Notation in_values := (in_values names_of).
Variable wf : item V -> Prop.
Variable grp : nat -> V -> list (item V) -> item V.
Variable make : queue (item V) -> queue (item V) -> queue (item V) -> result (st3 V).
Hypothesis Hmake : make_ok names_of wf grp make.
Variable img : nat -> item V.
Variable K : queue (item V).
Hypothesis HK : NoDup (keys K).
Hypothesis Hwf : forall k it, In (k, it) K -> wf it.

Definition good_group (arr : list nat) (kv : nat * item V) : Prop :=
  exists it, In (fst kv, it) K /\ (forall x, In x (names_in it) -> In x arr) /\
             snd kv = grp_of grp (fst kv) it (map img (names_in it)).

Record HInv (arr : list nat) (s : hst (V:=V)) : Prop := {
  h_part : let '(q0, qa, qo, tk) := s in Permutation (keys q0 ++ map fst (tk ++ qo)) (keys K);
  h_q0 : let '(q0, qa, qo, tk) := s in forall kv, In kv q0 -> In kv K;
  h_form : let '(q0, qa, qo, tk) := s in forall kv, In kv (tk ++ qo) -> good_group arr kv;
  h_qa : let '(q0, qa, qo, tk) := s in forall x it, In (x, it) qa -> it = img x /\ In x arr /\ in_values x q0 = true;
  h_need : let '(q0, qa, qo, tk) := s in forall x, In x arr -> in_values x q0 = true -> In (x, img x) qa;
  h_nd : let '(q0, qa, qo, tk) := s in NoDup (keys qa)
}.

Lemma HInv_init : HInv [] (K, [], [], []).
Proof.
  constructor; cbn.
  - rewrite app_nil_r. reflexivity.
  - auto.
  - tauto.
  - tauto.
  - tauto.
  - constructor.
Qed.

Lemma q0_nodup arr q0 qa qo tk : HInv arr (q0, qa, qo, tk) -> NoDup (keys q0).
Proof.
  intros H. pose proof (h_part _ _ H) as HP. cbn in HP. symmetry in HP. apply (NoDup_app_l _ _ (Permutation_NoDup HP HK)).
Qed.

Lemma qo_fresh arr q0 qa qo tk k : HInv arr (q0, qa, qo, tk) -> In k (keys q0) -> ~ In k (keys qo).
Proof.
  intros H. pose proof (h_part _ _ H) as HP. cbn in HP. symmetry in HP. pose proof (Permutation_NoDup HP HK) as Hn.
  intros H1 H2. rewrite map_app in Hn.
  apply (proj2 (proj2 (NoDup_app_disjoint _ _ Hn)) k H1). rewrite in_app_iff. right. exact H2.
Qed.

Lemma make_HInv arr s : HInv arr s -> exists s', hstep make img s HMake = Ok s' /\ HInv arr s' /\
  let '(q0, _, _, _) := s' in forall k it, In (k, it) K -> In (k, it) q0 <-> In k (keys (let '(q, _, _, _) := s in q)) /\ exists x, In x (names_in it) /\ ~ In x arr.
Proof.
  intros H. destruct s as [[[q0 qa] qo] tk]. cbn [hstep].
  pose proof (q0_nodup _ _ _ _ _ H) as Hn0. pose proof (h_nd _ _ H) as Hna. cbn in Hna.
  rewrite Hmake; [|exact Hn0|exact Hna| | |].
  2: intros k it HI; apply (Hwf k), (h_q0 _ _ H), HI.
  2: { intros x Hx. apply keys_In in Hx. destruct Hx as (it & Hx). apply (h_qa _ _ H x it Hx). }
  2: intros k; apply (qo_fresh _ _ _ _ _ _ H).
  cbn [bind]. eexists. split; [reflexivity|].
  assert (Hr : forall k it, In (k, it) q0 -> ready names_of qa (k, it) = true <-> forall x, In x (names_in it) -> In x arr).
  { intros k it HI. unfold ready. rewrite forallb_forall. cbn [snd]. split; intros HH x Hx.
    - specialize (HH x Hx). apply q_mem_In, keys_In in HH. destruct HH as (w & HH). apply (h_qa _ _ H x w HH).
    - apply q_mem_In, (In_keys x (img x)). apply (h_need _ _ H x (HH x Hx)). apply in_values_spec. eauto. }
  assert (Hl : forall k it, In (k, it) q0 -> ready names_of qa (k, it) = true -> map (lookup qa) (names_in it) = map img (names_in it)).
  { intros k it HI HR. apply map_ext_in. intros x Hx. unfold lookup. rewrite (q_get_In x (img x)); [reflexivity|exact Hna|].
    apply (h_need _ _ H x); [apply (proj1 (Hr k it HI) HR), Hx|]. apply in_values_spec. eauto. }
  split; [constructor|].
  - pose proof (h_part _ _ H) as HP. cbn in HP. etransitivity; [|exact HP].
    rewrite !map_app. rewrite (app_assoc (map fst tk) (map fst qo) (map fst (formed _ _ _ _))).
    rewrite (Permutation_app_comm (map fst tk ++ map fst qo)). rewrite app_assoc. apply Permutation_app_tail.
    unfold formed. rewrite map_map.
    assert (E : map (fun x => fst (let '(k, it) := x in (k, grp_of grp k it (map (lookup qa) (names_in it))))) (filter (ready names_of qa) q0)
            = map fst (filter (ready names_of qa) q0)) by (apply map_ext; intros [? ?]; reflexivity).
    rewrite E. unfold keys. rewrite <- map_app. apply Permutation_map, filter_partition.
  - intros kv HI. apply (h_q0 _ _ H). unfold rem in HI. apply filter_In in HI. tauto.
  - intros kv HI. rewrite app_assoc in HI. apply in_app_iff in HI. destruct HI as [HI|HI]; [apply (h_form _ _ H), HI|].
    unfold formed in HI. apply in_map_iff in HI. destruct HI as ([k it] & <- & HI). apply filter_In in HI. destruct HI as [HI HR].
    exists it. cbn [fst snd]. split; [apply (h_q0 _ _ H), HI|]. split; [apply (proj1 (Hr k it HI) HR)|].
    rewrite (Hl k it HI HR). reflexivity.
  - intros x it HI. unfold keep in HI. apply filter_In in HI. destruct HI as [HI HU].
    destruct (h_qa _ _ H x it HI) as (H1 & H2 & _). auto.
  - intros x Hx HU. unfold keep. apply filter_In. split; [|exact HU]. apply (h_need _ _ H x Hx).
    apply in_values_spec in HU. destruct HU as (k & it & HI & HN). apply in_values_spec. exists k, it. split; [|exact HN].
    unfold rem in HI. apply filter_In in HI. tauto.
  - apply keys_filter_NoDup, Hna.
  - intros k it HI. unfold rem. rewrite filter_In. rewrite negb_true_iff. split.
    + intros [H1 H2]. split; [apply (In_keys k it), H1|].
      destruct (existsb (fun x => negb (existsb (Nat.eqb x) arr)) (names_in it)) eqn:EE.
      * apply existsb_exists in EE. destruct EE as (x & E1 & E2). exists x. split; [exact E1|]. intros HA.
        apply negb_true_iff in E2. assert (existsb (Nat.eqb x) arr = true) by (apply existsb_exists; exists x; split; [exact HA|apply Nat.eqb_refl]). congruence.
      * exfalso. assert (HR : ready names_of qa (k, it) = true); [|congruence]. apply (Hr k it H1). intros x Hx.
        destruct (existsb (Nat.eqb x) arr) eqn:EX; [apply existsb_exists in EX; destruct EX as (y & E1 & E2); apply Nat.eqb_eq in E2; subst; exact E1|].
        assert (existsb (fun x => negb (existsb (Nat.eqb x) arr)) (names_in it) = true) by (apply existsb_exists; exists x; rewrite EX; auto). congruence.
    + intros [H1 (x & H2 & H3)]. apply keys_In in H1. destruct H1 as (it' & H1).
      assert (it' = it) by (apply (NoDup_keys_eq k it' it K HK); [apply (h_q0 _ _ H), H1|exact HI]). subst it'.
      split; [exact H1|]. destruct (ready names_of qa (k, it)) eqn:ER; [|reflexivity]. exfalso. apply H3, (proj1 (Hr k it H1) ER), H2.
Qed.

Lemma step_HInv arr s e : HInv arr s -> (forall x, e = HArrive x -> ~ In x arr /\ in_values x K = true) ->
  exists s', hstep make img s e = Ok s' /\ HInv (arr ++ arrived [e]) s'.
Proof.
  intros H He. destruct e as [x| |].
  - destruct s as [[[q0 qa] qo] tk]. destruct (He x eq_refl) as [Hx HxK]. cbn [hstep arrived]. eexists. split; [reflexivity|].
    assert (Hxa : ~ In x (keys qa)). { intros HI. apply keys_In in HI. destruct HI as (w & HI). apply Hx, (h_qa _ _ H x w HI). }
    assert (Hx0 : in_values x q0 = true).
    { apply in_values_spec in HxK. destruct HxK as (k & it & H1 & H2).
      pose proof (h_part _ _ H) as HP. cbn in HP.
      assert (HI : In k (keys q0 ++ map fst (tk ++ qo))) by (apply (Permutation_in k (Permutation_sym HP)), (In_keys k it), H1).
      apply in_app_iff in HI. destruct HI as [HI|HI].
      - apply keys_In in HI. destruct HI as (it' & HI). assert (it' = it) by (apply (NoDup_keys_eq k it' it K HK); [apply (h_q0 _ _ H), HI|exact H1]).
        subst. apply in_values_spec. eauto.
      - exfalso. apply in_map_iff in HI. destruct HI as ([k' g] & E & HI). cbn in E. subst k'.
        destruct (h_form _ _ H _ HI) as (it' & G1 & G2 & _). cbn [fst] in G1.
        assert (it' = it) by (apply (NoDup_keys_eq k it' it K HK); assumption). subst it'. apply Hx, G2, H2. }
    rewrite q_set_new by exact Hxa.
    constructor.
    + exact (h_part _ _ H).
    + exact (h_q0 _ _ H).
    + intros kv HI. destruct (h_form _ _ H kv HI) as (it & G1 & G2 & G3). exists it. split; [exact G1|]. split; [|exact G3].
      intros y Hy. apply in_app_iff. left. apply G2, Hy.
    + intros y it HI. apply in_app_iff in HI. destruct HI as [HI|[HI|[]]].
      * destruct (h_qa _ _ H y it HI) as (G1 & G2 & G3). rewrite in_app_iff. auto.
      * injection HI as <- <-. rewrite in_app_iff. split; [reflexivity|]. split; [right; left; reflexivity|exact Hx0].
    + intros y Hy HU. apply in_app_iff. apply in_app_iff in Hy. destruct Hy as [Hy|[<-|[]]]; [left; apply (h_need _ _ H y Hy HU)|right; left; reflexivity].
    + rewrite keys_app. apply NoDup_app_conv; [exact (h_nd _ _ H)|repeat constructor; intros []|].
      intros y Hy [<-|[]]. exact (Hxa Hy).
  - destruct (make_HInv arr s H) as (s' & H1 & H2 & _). exists s'. cbn [arrived]. rewrite app_nil_r. auto.
  - destruct s as [[[q0 qa] qo] tk]. cbn [hstep arrived]. rewrite app_nil_r. destruct qo as [|kv qo]; cbn [q_pop_first].
    + eexists. split; [reflexivity|exact H].
    + eexists. split; [reflexivity|]. constructor.
      * pose proof (h_part _ _ H) as HP. cbn in HP. rewrite <- app_assoc. exact HP.
      * exact (h_q0 _ _ H).
      * intros kv' HI. rewrite <- app_assoc in HI. apply (h_form _ _ H), HI.
      * exact (h_qa _ _ H).
      * exact (h_need _ _ H).
      * exact (h_nd _ _ H).
Qed.

Lemma arrived_app h1 h2 : arrived (h1 ++ h2) = arrived h1 ++ arrived h2.
Proof. induction h1 as [|[x| |] h1 IH]; cbn; rewrite ?IH; reflexivity. Qed.

Lemma hrun_HInv h : NoDup (arrived h) -> (forall x, In x (arrived h) -> in_values x K = true) ->
  exists s, hrun make img K h = Ok s /\ HInv (arrived h) s.
Proof.
  induction h as [|e h IH] using rev_ind; intros Hn Hv; [eexists; split; [reflexivity|apply HInv_init]|].
  rewrite arrived_app in Hn, Hv |- *.
  destruct IH as (s & H1 & H2).
  - apply (NoDup_app_l _ _ Hn).
  - intros x Hx. apply Hv, in_app_iff. left. exact Hx.
  - destruct (step_HInv _ s e H2) as (s' & H3 & H4).
    + intros x ->. split; [|apply Hv, in_app_iff; right; left; reflexivity].
      intros HI. apply (proj2 (proj2 (NoDup_app_disjoint _ _ Hn)) x HI). left. reflexivity.
    + exists s'. split; [|exact H4]. unfold hrun in *. rewrite py_for_app, H1. cbn. rewrite H3. reflexivity.
Qed.

Lemma hrun_make h : NoDup (arrived h) -> (forall x, In x (arrived h) -> in_values x K = true) ->
  exists q0 qa qo tk, hrun make img K (h ++ [HMake]) = Ok (q0, qa, qo, tk) /\
  forall k it, In (k, it) K -> In (k, it) q0 <-> exists x, In x (names_in it) /\ ~ In x (arrived h).
Proof.
  intros Hn Hv. destruct (hrun_HInv h Hn Hv) as (s & H1 & H2).
  destruct (make_HInv _ s H2) as (s' & H3 & H4 & H5). destruct s' as [[[q0 qa] qo] tk]. exists q0, qa, qo, tk. split.
  - unfold hrun in *. rewrite py_for_app, H1. cbn [py_for bind]. rewrite H3. reflexivity.
  - intros k it HI. rewrite (H5 k it HI). split; [tauto|]. intros (x & E1 & E2). split; [|eauto].
    destruct s as [[[q0' qa'] qo'] tk']. pose proof (h_part _ _ H2) as HP. cbn in HP.
    assert (Hk : In k (keys q0' ++ map fst (tk' ++ qo'))) by (apply (Permutation_in k (Permutation_sym HP)), (In_keys k it), HI).
    apply in_app_iff in Hk. destruct Hk as [Hk|Hk]; [exact Hk|]. exfalso.
    apply in_map_iff in Hk. destruct Hk as ([k' g] & E & Hk). cbn in E. subst k'.
    destruct (h_form _ _ H2 _ Hk) as (it' & G1 & G2 & _). cbn [fst] in G1.
    assert (it' = it) by (apply (NoDup_keys_eq k it' it K HK); assumption). subst it'. apply E2, G2, E1.
Qed.
End Hist.

(** Proofs about [make_couples] and [make_subsets]. *)
From Coq Require Import Permutation.
From Verif Require Import PyBase QueueModel QueueProofs ExecModel SplitProofs JoinModel.

Lemma filter_ext_in' {A} (f g : A -> bool) l : (forall a, In a l -> f a = g a) -> filter f l = filter g l.
Proof. apply filter_ext_in. Qed.

Lemma filter_all_in {A} (f : A -> bool) l : (forall a, In a l -> f a = true) -> filter f l = l.
Proof. intros H. apply filter_all, Forall_forall, H. Qed.

Lemma filter_filter {A} (f g : A -> bool) l : filter f (filter g l) = filter (fun x => g x && f x) l.
Proof.
  induction l as [|a l IH]; [reflexivity|]. cbn. destruct (g a) eqn:Eg; cbn; [destruct (f a)|]; rewrite IH; reflexivity.
Qed.

Section Queues.
Context {W : Type}.

Lemma keys_filter_In (f : nat * W -> bool) q x : In x (keys (filter f q)) -> In x (keys q).
Proof. unfold keys. rewrite !in_map_iff. intros (kv & H1 & H2). apply filter_In in H2. exists kv. tauto. Qed.

Lemma keys_filter_NoDup (f : nat * W -> bool) q : NoDup (keys q) -> NoDup (keys (filter f q)).
Proof.
  induction q as [|[k v] q IH]; intros H; [constructor|]. unfold keys in H. cbn in H. inversion H as [|? ? H1 H2]; subst.
  cbn [filter]. destruct (f (k, v)); [|apply IH, H2]. unfold keys. cbn. constructor; [|apply IH, H2].
  intros HI. apply H1. apply (keys_filter_In f), HI.
Qed.

Lemma NoDup_filter_app (f : nat * W -> bool) q L : NoDup (keys q ++ L) -> NoDup (keys (filter f q) ++ L).
Proof.
  unfold keys. intros Hk. induction q as [|d q IHd]; [exact Hk|]. cbn in Hk |- *. inversion Hk as [|? ? H1 H2]; subst.
  destruct (f d); [|apply IHd, H2]. cbn. constructor; [|apply IHd, H2].
  intros HI. apply H1. rewrite in_app_iff in HI |- *. destruct HI as [HI|HI]; [left|right; exact HI].
  apply (keys_filter_In f), HI.
Qed.

Lemma q_del_filter k (q : queue W) : NoDup (keys q) -> In k (keys q) ->
  q_del k q = Ok (filter (fun '(k', _) => negb (Nat.eqb k k')) q).
Proof.
  induction q as [|[k' v] q IH]; intros Hnd HI; [destruct HI|]. unfold keys in Hnd, HI. cbn in Hnd, HI. inversion Hnd as [|? ? H1 H2]; subst.
  cbn [q_del filter]. destruct (Nat.eqb_spec k k') as [->|Hne]; cbn [negb].
  - f_equal. symmetry. rewrite filter_all_in; [reflexivity|]. intros [x w] Hx. destruct (Nat.eqb_spec k' x) as [->|]; [|reflexivity].
    exfalso. apply H1. unfold keys. change x with (fst (x, w)). apply in_map, Hx.
  - destruct HI as [HI|HI]; [congruence|]. rewrite IH by assumption. reflexivity.
Qed.

Lemma q_mem_filter x (f : nat * W -> bool) q : (forall w, In (x, w) q -> f (x, w) = true) -> q_mem x (filter f q) = q_mem x q.
Proof.
  intros H. destruct (q_mem x q) eqn:E.
  - apply q_mem_In. apply q_mem_In in E. unfold keys in E |- *. rewrite in_map_iff in E |- *. destruct E as ([x' w] & E1 & E2).
    cbn in E1. subst x'. exists (x, w). split; [reflexivity|]. apply filter_In. split; [exact E2|apply H, E2].
  - destruct (q_mem x (filter f q)) eqn:E2; [|reflexivity]. apply q_mem_In, keys_filter_In, q_mem_In in E2. congruence.
Qed.

Lemma q_get_filter x (f : nat * W -> bool) q : NoDup (keys q) -> (forall w, In (x, w) q -> f (x, w) = true) ->
  q_get x (filter f q) = q_get x q.
Proof.
  intros Hnd H. destruct (q_mem x q) eqn:E.
  - apply q_mem_In in E. unfold keys in E. rewrite in_map_iff in E. destruct E as ([x' w] & E1 & E2). cbn in E1. subst x'.
    rewrite (q_get_In x w q Hnd E2). apply q_get_In; [apply keys_filter_NoDup, Hnd|]. apply filter_In. split; [exact E2|apply H, E2].
  - rewrite !q_get_None; [reflexivity| |]; rewrite <- q_mem_In; [congruence|]. rewrite q_mem_filter by exact H. congruence.
Qed.
End Queues.

Section Make.
Context {V : Type}.
Variable names_of : V -> list nat.
Notation names_in := (names_in names_of).
Notation in_values := (in_values names_of).

Lemma in_values_spec x q0 : in_values x q0 = true <-> exists k it, In (k, it) q0 /\ In x (names_in it).
Proof.
  unfold JoinModel.in_values, is_name_in_values. rewrite existsb_exists. split.
  - intros ([k l] & H1 & H2). apply in_map_iff in H1. destruct H1 as ([k' it] & E & H1). injection E as -> <-.
    apply existsb_exists in H2. destruct H2 as (y & H2 & H3). apply Nat.eqb_eq in H3. subst y. eauto.
  - intros (k & it & H1 & H2). exists (k, names_in it). split.
    + apply in_map_iff. exists (k, it). auto.
    + apply existsb_exists. exists x. split; [exact H2|apply Nat.eqb_refl].
Qed.

Lemma in_values_app x q1 q2 : in_values x (q1 ++ q2) = in_values x q1 || in_values x q2.
Proof. unfold JoinModel.in_values, is_name_in_values. rewrite map_app, existsb_app. reflexivity. Qed.
Lemma in_values_cons x k it q : in_values x ((k, it) :: q) = existsb (Nat.eqb x) (names_in it) || in_values x q.
Proof. reflexivity. Qed.

Definition ready (qa : queue (item V)) (kv : nat * item V) : bool :=
  forallb (fun x => q_mem x qa) (names_in (snd kv)).
Definition lookup (qa : queue (item V)) (x : nat) : item V :=
  match q_get x qa with Ok it => it | Err e => inr e end.

(** what a group is made of *)
Definition grp_of (grp : nat -> V -> list (item V) -> item V) (k : nat) (it : item V) (its : list (item V)) : item V :=
  match it with inl v => grp k v its | inr e => inr e end.

Definition rem (qa q0 : queue (item V)) := filter (fun kv => negb (ready qa kv)) q0.
Definition keep (q0 qa : queue (item V)) := filter (fun '(x, _) => in_values x q0) qa.
Definition formed grp (qa q0 : queue (item V)) : queue (item V) :=
  map (fun '(k, it) => (k, grp_of grp k it (map (lookup qa) (names_in it)))) (filter (ready qa) q0).

(** specification shared by [make_couples] and [make_subsets] *)
Definition make_ok (wf : item V -> Prop) (grp : nat -> V -> list (item V) -> item V)
           (make : queue (item V) -> queue (item V) -> queue (item V) -> result (st3 V)) : Prop :=
  forall q0 qa qo, NoDup (keys q0) -> NoDup (keys qa) ->
    (forall k it, In (k, it) q0 -> wf it) ->
    (forall x, In x (keys qa) -> in_values x q0 = true) ->
    (forall k, In k (keys q0) -> ~ In k (keys qo)) ->
    make q0 qa qo = Ok (rem qa q0, keep (rem qa q0) qa, qo ++ formed grp qa q0).

Section Loop.
Variable wf : item V -> Prop.
Variable grp : nat -> V -> list (item V) -> item V.
Variable make1 : st3 V -> nat * item V -> result (st3 V).

(** one turn of the loop *)
Definition turn_ok : Prop :=
  forall done key it todo qa qo,
    let q0 := done ++ (key, it) :: todo in
    NoDup (keys q0) -> NoDup (keys qa) -> wf it ->
    (forall x, In x (keys qa) -> in_values x q0 = true) -> ~ In key (keys qo) ->
    make1 (q0, qa, qo) (key, it) =
      if ready qa (key, it)
      then Ok (done ++ todo, keep (done ++ todo) qa,
               qo ++ [(key, grp_of grp key it (map (lookup qa) (names_in it)))])
      else Ok (q0, qa, qo).

Lemma keep_all q0 qa : (forall x, In x (keys qa) -> in_values x q0 = true) -> keep q0 qa = qa.
Proof.
  intros H. unfold keep. apply filter_all_in. intros [x it] Hx. apply H. unfold keys. change x with (fst (x, it)).
  apply in_map, Hx.
Qed.

Lemma keep_keep q0 q0' qa : (forall x, in_values x q0' = true -> in_values x q0 = true) -> keep q0' (keep q0 qa) = keep q0' qa.
Proof.
  intros H. unfold keep. rewrite filter_filter. apply filter_ext_in'. intros [x it] _.
  specialize (H x). destruct (in_values x q0'), (in_values x q0); try reflexivity. exfalso. intuition discriminate.
Qed.

Lemma keep_mem q0 qa x : in_values x q0 = true -> q_mem x (keep q0 qa) = q_mem x qa.
Proof. intros H. apply q_mem_filter. intros w _. exact H. Qed.

Lemma keep_get q0 qa x : NoDup (keys qa) -> in_values x q0 = true -> q_get x (keep q0 qa) = q_get x qa.
Proof. intros Hnd H. apply q_get_filter; [exact Hnd|]. intros w _. exact H. Qed.

Lemma ready_keep q0 qa k it : In (k, it) q0 -> ready (keep q0 qa) (k, it) = ready qa (k, it).
Proof.
  intros HI. unfold ready. cbn [snd].
  assert (H : forall x, In x (names_in it) -> in_values x q0 = true) by (intros x Hx; apply in_values_spec; eauto).
  induction (names_in it) as [|x l IH]; [reflexivity|]. cbn. rewrite keep_mem by (apply H; left; reflexivity).
  rewrite IH; [reflexivity|]. intros y Hy. apply H. right. exact Hy.
Qed.

Lemma lookup_keep q0 qa k it : NoDup (keys qa) -> In (k, it) q0 ->
  map (lookup (keep q0 qa)) (names_in it) = map (lookup qa) (names_in it).
Proof.
  intros Hnd HI. apply map_ext_in. intros x Hx. unfold lookup. rewrite keep_get; [reflexivity|exact Hnd|].
  apply in_values_spec. eauto.
Qed.

Lemma loop_ok (HT : turn_ok) todo : forall done qa0 qo0,
  let q0 := done ++ todo in
  let cur := rem qa0 done ++ todo in
  NoDup (keys q0) -> NoDup (keys qa0) -> (forall k it, In (k, it) q0 -> wf it) ->
  (forall x, In x (keys qa0) -> in_values x q0 = true) ->
  (forall k, In k (keys q0) -> ~ In k (keys qo0)) ->
  py_for make1 todo (cur, keep cur qa0, qo0 ++ formed grp qa0 done)
  = Ok (rem qa0 q0, keep (rem qa0 q0) qa0, qo0 ++ formed grp qa0 q0).
Proof.
  induction todo as [|[key it] todo IH]; intros done qa0 qo0; cbv zeta; intros Hk Ha Hwf Hu Hf.
  - rewrite !app_nil_r. reflexivity.
  - assert (Hcur : NoDup (keys (rem qa0 done ++ (key, it) :: todo))).
    { unfold keys in Hk |- *. rewrite map_app in Hk |- *. apply (NoDup_filter_app (fun kv => negb (ready qa0 kv))), Hk. }
    cbn [py_for].
    rewrite (HT (rem qa0 done) key it todo); try assumption.
    2: apply keys_filter_NoDup; exact Ha.
    2: apply (Hwf key); apply in_or_app; right; left; reflexivity.
    2: { intros x Hx. unfold keys, keep in Hx. apply in_map_iff in Hx. destruct Hx as ([x' w] & <- & Hx).
         apply filter_In in Hx. apply Hx. }
    2: { unfold keys. rewrite map_app, in_app_iff. intros [HI|HI].
         - apply (Hf key); [|exact HI]. unfold keys. rewrite map_app, in_app_iff. right. left. reflexivity.
         - unfold formed in HI. rewrite map_map in HI.
           apply in_map_iff in HI. destruct HI as ([k' it'] & E & HI). cbn in E. subst k'. apply filter_In in HI.
           unfold keys in Hk. rewrite map_app in Hk. cbn [map fst] in Hk. apply NoDup_remove_2 in Hk. apply Hk, in_or_app. left.
           change key with (fst (key, it')). apply in_map, HI. }
    rewrite (ready_keep _ qa0 key it) by (apply in_or_app; right; left; reflexivity).
    specialize (IH (done ++ [(key, it)]) qa0 qo0). rewrite <- app_assoc in IH. cbn [app] in IH.
    specialize (IH Hk Ha Hwf Hu Hf). rewrite <- IH. clear IH.
    unfold rem, formed. rewrite !filter_app. cbn [filter]. destruct (ready qa0 (key, it)) eqn:ER; cbn [negb].
    + rewrite app_nil_r. rewrite keep_keep.
      2: { intros x. rewrite !in_values_app, in_values_cons. intros H. apply orb_true_iff in H. destruct H as [->| ->]; rewrite ?orb_true_r; reflexivity. }
      rewrite (lookup_keep _ qa0 key it Ha) by (apply in_or_app; right; left; reflexivity).
      rewrite map_app, app_assoc. reflexivity.
    + rewrite app_nil_r, <- !app_assoc. reflexivity.
Qed.

Lemma make_ok_of_turn : turn_ok -> make_ok wf grp (fun q0 qa qo => py_for make1 q0 (q0, qa, qo)).
Proof.
  intros HT q0 qa qo Hk Ha Hwf Hu Hf. pose proof (loop_ok HT q0 [] qa qo) as H. cbv zeta in H. cbn [app] in H.
  cbn [rem formed filter map app] in H. rewrite (keep_all q0 qa Hu), app_nil_r in H. apply H; assumption.
Qed.
End Loop.

Lemma NoDup_keys_mid (done : queue (item V)) key it todo : NoDup (keys (done ++ (key, it) :: todo)) ->
  q_del key (done ++ (key, it) :: todo) = Ok (done ++ todo).
Proof.
  intros Hk. induction done as [|[k' it'] done IH]; cbn [app q_del].
  - rewrite Nat.eqb_refl. reflexivity.
  - unfold keys in Hk. cbn [app map fst] in Hk. inversion Hk as [|? ? H1 H2]; subst.
    destruct (Nat.eqb_spec key k') as [->|Hne].
    + exfalso. apply H1. rewrite map_app, in_app_iff. right. left. reflexivity.
    + rewrite IH by exact H2. reflexivity.
Qed.

(** ** make_couples *)
Section Couples.
Variable mk_couple : nat -> nat -> nat -> V -> V -> V.

Definition wf_couple (it : item V) : Prop := exists a b, names_in it = [a; b] /\ a <> b.
Definition grp_couple (k : nat) (v : V) (its : list (item V)) : item V :=
  match names_of v, its with
  | a :: b :: _, x1 :: x2 :: _ => array_couple mk_couple k a b x1 x2
  | _, _ => inr IndexError
  end.

Lemma wf_couple_inl it : wf_couple it -> exists v, it = inl v.
Proof. intros (a & b & H & _). destruct it; [eauto|discriminate]. Qed.

Lemma drop_filter q0 x qa : NoDup (keys qa) -> In x (keys qa) ->
  drop_if_unused names_of q0 x qa = Ok (filter (fun '(y, _) => negb (Nat.eqb x y) || in_values y q0) qa).
Proof.
  intros Hnd HI. unfold drop_if_unused. destruct (in_values x q0) eqn:E.
  - f_equal. symmetry. apply filter_all_in. intros [y w] _. destruct (Nat.eqb_spec x y) as [->|]; cbn; [exact E|reflexivity].
  - rewrite q_del_filter by assumption. f_equal. apply filter_ext. intros [y w].
    destruct (Nat.eqb_spec x y) as [->|]; cbn; [symmetry; exact E|reflexivity].
Qed.

Lemma couple_turn : turn_ok wf_couple grp_couple (make_couple1 names_of mk_couple).
Proof.
  intros done key it todo qa qo. cbv zeta. intros Hk Ha Hwf Hu Hko.
  destruct (wf_couple_inl it Hwf) as (v & ->). destruct Hwf as (a & b & En & Hab).
  unfold make_couple1. unfold ready. cbn [snd]. rewrite En. cbn [forallb map].
  destruct (q_mem a qa) eqn:Ea; cbn [negb andb]; [|reflexivity].
  destruct (q_mem b qa) eqn:Eb; cbn [negb andb]; [|reflexivity].
  apply q_mem_In in Ea, Eb.
  assert (HG : forall x, In x (keys qa) -> exists w, q_get x qa = Ok w).
  { intros x Hx. unfold keys in Hx. apply in_map_iff in Hx. destruct Hx as ([x' w] & E & Hx). cbn in E. subst x'.
    exists w. apply q_get_In; assumption. }
  destruct (HG a Ea) as (x1 & E1). destruct (HG b Eb) as (x2 & E2). unfold lookup. rewrite E1, E2. cbn [bind].
  cbn [grp_of grp_couple]. unfold grp_couple. cbn [JoinModel.names_in] in En. rewrite En.
  rewrite NoDup_keys_mid by exact Hk. cbn [bind].
  rewrite drop_filter by assumption. cbn [bind].
  rewrite drop_filter.
  2: apply keys_filter_NoDup; exact Ha.
  2: { unfold keys in Eb |- *. apply in_map_iff in Eb. destruct Eb as ([b' w] & E & Eb). cbn in E. subst b'.
       apply in_map_iff. exists (b, w). split; [reflexivity|]. apply filter_In. split; [exact Eb|].
       destruct (Nat.eqb_spec a b); [congruence|reflexivity]. }
  cbn [bind]. rewrite q_set_new by exact Hko. f_equal. f_equal. f_equal.
  rewrite filter_filter. unfold keep. apply filter_ext_in'. intros [y w] Hy.
  assert (HU : in_values y (done ++ (key, inl v) :: todo) = true).
  { apply Hu. unfold keys. change y with (fst (y, w)). apply in_map, Hy. }
  rewrite !in_values_app, in_values_cons in HU. cbn [JoinModel.names_in] in HU. rewrite En in HU. cbn [existsb] in HU.
  rewrite in_values_app. destruct (Nat.eqb_spec a y) as [->|Hay].
  - destruct (in_values y done || in_values y todo) eqn:EE; cbn; rewrite ?orb_true_r; reflexivity.
  - cbn. destruct (Nat.eqb_spec b y) as [->|Hby]; cbn; [reflexivity|].
    destruct (Nat.eqb_spec y a); [congruence|]. destruct (Nat.eqb_spec y b); [congruence|]. cbn in HU. symmetry. exact HU.
Qed.

Lemma make_couples_ok : make_ok wf_couple grp_couple (make_couples names_of mk_couple).
Proof. apply (make_ok_of_turn _ _ _ couple_turn). Qed.
End Couples.

(** ** make_subsets *)
Section Subsets.
Variable mk_subset : nat -> list nat -> list (item V) -> V.
Definition wf_subset (it : item V) : Prop := exists v, it = inl v.
Definition grp_subset (k : nat) (v : V) (its : list (item V)) : item V := inl (mk_subset k (names_of v) its).

Lemma drop_unused_keep q0 qa : NoDup (keys qa) -> drop_unused names_of q0 qa = Ok (keep q0 qa).
Proof.
  intros Hnd. unfold drop_unused.
  assert (H : forall done todo, qa = done ++ todo ->
    py_for (fun qa key_array => drop_if_unused names_of q0 key_array qa) (map fst todo) (keep q0 done ++ todo) = Ok (keep q0 qa)).
  { intros done todo. revert done. induction todo as [|[x w] todo IH]; intros done E; cbn [map fst py_for].
    - rewrite app_nil_r in E |- *. subst. reflexivity.
    - unfold drop_if_unused. specialize (IH (done ++ [(x, w)])). rewrite <- app_assoc in IH. specialize (IH E).
      unfold keep in IH at 1. rewrite filter_app in IH. cbn [filter] in IH. destruct (in_values x q0).
      + rewrite <- app_assoc in IH. exact IH.
      + rewrite app_nil_r in IH. fold (keep q0 done) in IH. rewrite NoDup_keys_mid; [exact IH|].
        rewrite E in Hnd. unfold keys in Hnd |- *. rewrite map_app in Hnd |- *.
        apply (NoDup_filter_app (fun '(x, _) => in_values x q0)), Hnd. }
  apply (H [] qa eq_refl).
Qed.

Lemma q_gets_ok names qa : (forall x, In x names -> In x (keys qa)) -> NoDup (keys qa) ->
  q_gets names qa = Ok (map (lookup qa) names).
Proof.
  intros H Hnd. induction names as [|x names IH]; [reflexivity|]. cbn [q_gets map].
  assert (Hx : In x (keys qa)) by (apply H; left; reflexivity).
  unfold keys in Hx. apply in_map_iff in Hx. destruct Hx as ([x' w] & E & Hx). cbn in E. subst x'.
  unfold lookup at 1. rewrite (q_get_In x w qa Hnd Hx). cbn [bind]. rewrite IH; [reflexivity|].
  intros y Hy. apply H. right. exact Hy.
Qed.

Lemma subset_turn : turn_ok wf_subset grp_subset (make_subset1 names_of mk_subset).
Proof.
  intros done key it todo qa qo. cbv zeta. intros Hk Ha (v & ->) Hu Hko.
  unfold make_subset1, ready. cbn [snd]. destruct (forallb _ _) eqn:ER; [|reflexivity].
  rewrite forallb_forall in ER. rewrite q_gets_ok; [|intros x Hx; apply q_mem_In, ER, Hx|exact Ha].
  cbn [bind]. rewrite NoDup_keys_mid by exact Hk. cbn [bind]. rewrite drop_unused_keep by exact Ha. cbn [bind].
  rewrite q_set_new by exact Hko. reflexivity.
Qed.

Lemma make_subsets_ok : make_ok wf_subset grp_subset (make_subsets names_of mk_subset).
Proof. apply (make_ok_of_turn _ _ _ subset_turn). Qed.
End Subsets.
End Make.

(** C113: the figures made from the log files. *)
From Coq Require Import QArith Permutation Sorting.Sorted Lqa.
From Verif Require Import PyBase StrModel NameModel LogModel LogPlotModel.
From Verif Require FixProofs FieldObjProps NameProps LogProps.
Open Scope Z_scope.

(** ** Specification *)

(** What numpy documents of [np.argsort]: the indices, in an order for which the values do not decrease, the nan
    being at the end; nothing is said about the order of equal values. *)
Definition not_after (a b : option Q) : Prop :=
  match a, b with
  | Some x, Some y => (x <= y)%Q
  | None, Some _ => False
  | _, None => True
  end.
Definition sorts (argsort : list (option Q) -> list nat) : Prop :=
  forall l,
    Permutation (argsort l) (seq 0 (List.length l)) /\
    (forall i j p q a b, (i < j)%nat -> nth_error (argsort l) i = Some p -> nth_error (argsort l) j = Some q ->
       nth_error l p = Some a -> nth_error l q = Some b -> not_after a b).

(** An execution which began at [start] is going on at [t]; None: the end of the execution is not in the log *)
Definition going_on (t : Q) (e : Q * option Q) : bool :=
  Qle_bool (fst e) t &&
  match snd e with Some d => negb (Qle_bool (fst e + d) t) | None => true end.
(** The number of executions which are going on at [t] *)
Definition running (times : list Q) (durations : list (option Q)) (t : Q) : Z :=
  zlen (filter (going_on t) (combine times durations)).

(** Two successive points of a line *)
Definition consecutive {A} (c : list A) (p q : A) : Prop := exists l m, c = l ++ p :: q :: m.

(** Height of the line [c] at [t]: [t] is between two points, which are drawn at this height *)
Definition height_at (c : list (option Q * Z)) (t : Q) (h : Z) : Prop :=
  exists x y, consecutive c (Some x, h) (Some y, h) /\ (x <= t)%Q /\ (t < y)%Q.

(** ** Lemmas about lists *)

Lemma take_ok {A} (l : list A) d order :
  (forall i, In i order -> (i < List.length l)%nat) -> take l order = Ok (map (fun i => nth i l d) order).
Proof.
  unfold take. induction order as [|i order IH]; intros H; cbn [map_result map]; [reflexivity|].
  rewrite (FixProofs.py_get_at l (Z.of_nat i) d).
  - cbn [bind]. rewrite IH by (intros j Hj; apply H; right; exact Hj). cbn [bind]. rewrite Nat2Z.id. reflexivity.
  - specialize (H i (or_introl eq_refl)). unfold zlen. lia.
Qed.

Lemma map_nth_seq {A} (l : list A) d : map (fun i => nth i l d) (seq 0 (List.length l)) = l.
Proof.
  induction l as [|a l IH]; [reflexivity|]. cbn [List.length seq map nth]. f_equal.
  rewrite <- seq_shift, map_map. exact IH.
Qed.

Lemma cumsum_from_length l : forall s, List.length (cumsum_from s l) = List.length l.
Proof. induction l as [|x l IH]; intros s; cbn; [reflexivity|]. rewrite IH. reflexivity. Qed.
Lemma cumsum_from_nth l : forall s i, (i < List.length l)%nat ->
  nth i (cumsum_from s l) 0 = s + fold_right Z.add 0 (firstn (S i) l).
Proof.
  induction l as [|x l IH]; intros s i H; cbn [List.length] in H; [lia|].
  cbn [cumsum_from]. destruct i as [|i]; [cbn; lia|].
  cbn [nth]. rewrite IH by lia. cbn [firstn fold_right]. lia.
Qed.

Lemma map_result_ok {A B} (f : A -> result B) (g : A -> B) l :
  (forall a, In a l -> f a = Ok (g a)) -> map_result f l = Ok (map g l).
Proof.
  induction l as [|a l IH]; intros H; cbn [map_result map]; [reflexivity|].
  rewrite (H a (or_introl eq_refl)). cbn [bind]. rewrite IH by (intros b Hb; apply H; right; exact Hb). reflexivity.
Qed.
Lemma map_result_inv {A B} (f : A -> result B) l m : map_result f l = Ok m -> Forall2 (fun a b => f a = Ok b) l m.
Proof.
  revert m. induction l as [|a l IH]; intros m H; cbn [map_result] in H; [injection H as <-; constructor|].
  destruct (f a) as [b|e] eqn:E; cbn [bind] in H; [|discriminate].
  destruct (map_result f l) as [bs|e] eqn:El; cbn [bind] in H; [|discriminate].
  injection H as <-. constructor; [exact E|]. apply IH. reflexivity.
Qed.

Lemma enumerate_in {A} (l : list A) d i a : In (i, a) (enumerate l) -> (i < List.length l)%nat /\ a = nth i l d.
Proof.
  unfold enumerate. intros H.
  assert (G : forall (m : list A) k, In (i, a) (combine (seq k (List.length m)) m) ->
     (k <= i < k + List.length m)%nat /\ a = nth (i - k) m d).
  { clear l H. induction m as [|b m IH]; intros k H; cbn [List.length seq combine] in H; [destruct H|].
    destruct H as [E|H].
    - injection E as <- <-. cbn [List.length]. split; [lia|]. rewrite Nat.sub_diag. reflexivity.
    - destruct (IH _ H) as (H1 & H2). cbn [List.length]. split; [lia|]. rewrite H2.
      replace (i - k)%nat with (S (i - S k)) by lia. reflexivity. }
  destruct (G l 0%nat H) as (H1 & H2). rewrite Nat.sub_0_r in H2. split; [lia|exact H2].
Qed.
Lemma enumerate_map {A B} (l : list A) d (g : nat -> B) :
  map (fun p => g (fst p)) (enumerate l) = map g (seq 0 (List.length l)) /\
  (forall h : nat * A -> B, (forall i, (i < List.length l)%nat -> h (i, nth i l d) = g i) ->
     map h (enumerate l) = map g (seq 0 (List.length l))).
Proof.
  assert (F : map fst (enumerate l) = seq 0 (List.length l)).
  { unfold enumerate. generalize (seq 0 (List.length l)), (seq_length (List.length l) 0). intros s. revert l.
    induction s as [|x s IH]; intros [|a l] Hs; cbn in *; try discriminate; [reflexivity|]. f_equal. apply IH.
    lia. }
  split.
  - rewrite <- F, map_map. reflexivity.
  - intros h Hh. rewrite <- F, map_map. apply map_ext_in. intros (i, a) Hi.
    destruct (enumerate_in _ d _ _ Hi) as (H1 & ->). cbn [fst]. apply Hh. exact H1.
Qed.
Lemma nth_removelast {A} (l : list A) d i : (i < List.length l - 1)%nat -> nth i (removelast l) d = nth i l d.
Proof.
  revert i. induction l as [|a l IH]; intros i H; cbn [List.length] in H; [lia|].
  destruct l as [|b l]; [cbn in H; lia|]. cbn [removelast]. destruct i as [|i]; [reflexivity|].
  cbn [nth]. rewrite IH by (cbn [List.length] in *; lia). reflexivity.
Qed.
Lemma removelast_length {A} (l : list A) : List.length (removelast l) = (List.length l - 1)%nat.
Proof.
  induction l as [|a l IH]; [reflexivity|]. destruct l as [|b l]; [reflexivity|].
  change (removelast (a :: b :: l)) with (a :: removelast (b :: l)). cbn [List.length] in *. lia.
Qed.

Lemma consecutive_cons {A} (a : A) c p q :
  consecutive (a :: c) p q <-> consecutive c p q \/ (a = p /\ exists m, c = q :: m).
Proof.
  split.
  - intros (l & m & E). destruct l as [|b l]; cbn in E; injection E as E1 E2.
    + right. split; [exact E1|]. exists m. exact E2.
    + left. exists l, m. exact E2.
  - intros [(l & m & ->)|(-> & m & ->)].
    + exists (a :: l), m. reflexivity.
    + exists [], m. reflexivity.
Qed.

(** the line made of the pairs of points [a i], [b i] *)
Lemma consecutive_pairs {A} (a b : nat -> A) n : forall k p q,
  consecutive (List.concat (map (fun i => [a i; b i]) (seq k n))) p q <->
  exists i, (k <= i < k + n)%nat /\ ((p = a i /\ q = b i) \/ ((S i < k + n)%nat /\ p = b i /\ q = a (S i))).
Proof.
  induction n as [|n IH]; intros k p q; cbn [seq map List.concat].
  - split.
    + intros (l & m & E). destruct l; discriminate.
    + intros (i & H & _). lia.
  - cbn [app]. rewrite !consecutive_cons, IH. split.
    + intros [[(i & Hi & H)|(E & m & Em)]|(E & m & Em)].
      * exists i. split; [lia|]. destruct H as [H|(H1 & H2)]; [left; exact H|right; split; [lia|exact H2]].
      * destruct n as [|n]; [discriminate|]. cbn in Em. injection Em as Eq _. exists k. split; [lia|]. right.
        split; [lia|]. split; symmetry; assumption.
      * injection Em as Eq _. exists k. split; [lia|]. left. split; symmetry; assumption.
    + intros (i & Hi & H). destruct (Nat.eq_dec i k) as [->|N].
      * destruct H as [(-> & ->)|(H1 & -> & ->)].
        -- right. split; [reflexivity|]. eexists. reflexivity.
        -- left. right. split; [reflexivity|]. destruct n as [|n]; [lia|]. cbn. eexists. reflexivity.
      * left. left. exists i. split; [lia|]. destruct H as [H|(H1 & H2)]; [left; exact H|right; split; [lia|exact H2]].
Qed.

(** ** The curve as a function of the sorted events *)

(** what the code does with the sorted events (time, +1 or -1) *)
Definition step_points (ev : list (option Q * Z)) : list (option Q * Z) :=
  List.concat (map (fun i =>
    [(nth i (map fst ev) None, fold_right Z.add 0 (firstn (S i) (map snd ev)));
     (nth (S i) (map fst ev) None, fold_right Z.add 0 (firstn (S i) (map snd ev)))])
    (seq 0 (List.length ev - 1))).

Definition stops (times : list Q) (durations : list (option Q)) : list (option Q) :=
  map (fun p => add_nan (fst p) (snd p)) (combine times durations).
Definition events (times : list Q) (durations : list (option Q)) : list (option Q * Z) :=
  map (fun t => (Some t, 1)) times ++ map (fun t => (t, -1)) (stops times durations).

Lemma curve_events argsort times durations :
  sorts argsort -> List.length times = List.length durations ->
  exists ev, Permutation ev (events times durations) /\
    (forall i j a b, (i < j)%nat -> nth_error (map fst ev) i = Some a -> nth_error (map fst ev) j = Some b ->
       not_after a b) /\
    nb_workers_curve argsort times durations = Ok (step_points ev).
Proof.
  intros Hs HL. unfold nb_workers_curve, np_add. rewrite (proj2 (Nat.eqb_eq _ _) HL). cbn [bind].
  fold (stops times durations).
  set (tu := map (fun t => Some t) times ++ stops times durations).
  set (de := map (fun _ => 1) (map (fun t => Some t) times) ++ map (fun _ => -1) (stops times durations)).
  assert (Lde : List.length de = List.length tu).
  { unfold de, tu. rewrite !app_length, !map_length. reflexivity. }
  destruct (Hs tu) as (HP & Hord). set (order := argsort tu) in *.
  assert (Hin : forall i, In i order -> (i < List.length tu)%nat).
  { intros i Hi. apply (Permutation_in _ HP) in Hi. apply in_seq in Hi. lia. }
  rewrite (take_ok tu None order Hin). cbn [bind].
  rewrite (take_ok de 0 order) by (intros i Hi; rewrite Lde; auto). cbn [bind].
  set (ev := map (fun i => (nth i tu None, nth i de 0)) order).
  assert (E1 : map (fun i => nth i tu None) order = map fst ev) by (unfold ev; rewrite map_map; reflexivity).
  assert (E2 : map (fun i => nth i de 0) order = map snd ev) by (unfold ev; rewrite map_map; reflexivity).
  assert (Lev : List.length ev = List.length order) by (unfold ev; apply map_length).
  exists ev. split; [|split].
  - assert (G : events times durations = map (fun i => (nth i tu None, nth i de 0)) (seq 0 (List.length tu))).
    { rewrite <- (map_nth_seq (events times durations) (None, 0)).
      assert (Lt : List.length (events times durations) = List.length tu).
      { unfold events, tu. rewrite !app_length, !map_length. reflexivity. }
      rewrite Lt. apply map_ext. intros i.
      assert (Ef : tu = map fst (events times durations)).
      { unfold tu, events. rewrite map_app, !map_map. cbn [fst]. rewrite map_id. reflexivity. }
      assert (Es : de = map snd (events times durations)).
      { unfold de, events. rewrite map_app, !map_map. reflexivity. }
      rewrite Ef, Es. change (@None Q) with (fst (@None Q, 0)) at 2. change 0 with (snd (@None Q, 0)) at 3.
      rewrite !map_nth. destruct (nth i (events times durations) (None, 0)). reflexivity. }
    rewrite G. unfold ev. apply Permutation_map. exact HP.
  - rewrite <- E1. intros i j a b Hij Ha Hb.
    rewrite nth_error_map in Ha, Hb.
    destruct (nth_error order i) as [p|] eqn:Ep; [|discriminate].
    destruct (nth_error order j) as [q|] eqn:Eq; [|discriminate].
    cbn in Ha, Hb. injection Ha as <-. injection Hb as <-.
    apply (Hord i j p q); [exact Hij|exact Ep|exact Eq| |].
    + apply nth_error_nth'. apply Hin. apply (nth_error_In _ _ Ep).
    + apply nth_error_nth'. apply Hin. apply (nth_error_In _ _ Eq).
  - rewrite E1, E2, FieldObjProps.slice_last.
    rewrite (map_result_ok _ (fun p => let '(i, t) := p in
       [(t, fold_right Z.add 0 (firstn (S i) (map snd ev))); (nth (S i) (map fst ev) None, fold_right Z.add 0 (firstn (S i) (map snd ev)))])).
    + cbn [bind]. unfold step_points. f_equal. f_equal.
      assert (Lr : List.length (removelast (map fst ev)) = (List.length ev - 1)%nat) by (rewrite removelast_length, map_length; reflexivity).
      rewrite <- Lr. apply (enumerate_map _ None). intros i Hi. rewrite nth_removelast by (rewrite map_length; lia).
      reflexivity.
    + intros (i, t) Hi. destruct (enumerate_in _ None _ _ Hi) as (H1 & _).
      rewrite removelast_length, map_length in H1.
      rewrite (FixProofs.py_get_at _ _ 0).
      2:{ unfold zlen, cumsum. rewrite cumsum_from_length, map_length. lia. }
      cbn [bind]. unfold cumsum. rewrite Nat2Z.id, cumsum_from_nth by (rewrite map_length; lia).
      rewrite (FixProofs.py_get_at _ _ None).
      2:{ unfold zlen. rewrite map_length. lia. }
      cbn [bind]. replace (Z.to_nat (Z.of_nat i + 1)) with (S i) by lia. reflexivity.
Qed.

(** ** Counting *)

Definition upto (t : Q) (o : option Q) : bool := match o with Some x => Qle_bool x t | None => false end.
Definition weight (t : Q) (ev : list (option Q * Z)) : Z :=
  fold_right Z.add 0 (map snd (filter (fun e => upto t (fst e)) ev)).

Lemma sum_perm (l m : list Z) : Permutation l m -> fold_right Z.add 0 l = fold_right Z.add 0 m.
Proof. induction 1; cbn; lia. Qed.
Lemma filter_perm {A} (f : A -> bool) l m : Permutation l m -> Permutation (filter f l) (filter f m).
Proof.
  induction 1 as [|x l m H IH|x y l|l m n H1 IH1 H2 IH2]; cbn.
  - constructor.
  - destruct (f x); [constructor; exact IH|exact IH].
  - destruct (f x), (f y); try reflexivity. constructor.
  - rewrite IH1. exact IH2.
Qed.
Lemma weight_perm t l m : Permutation l m -> weight t l = weight t m.
Proof. intros H. unfold weight. apply sum_perm, Permutation_map, filter_perm, H. Qed.
Lemma sum_app l m : fold_right Z.add 0 (l ++ m) = fold_right Z.add 0 l + fold_right Z.add 0 m.
Proof. induction l as [|x l IH]; cbn [app fold_right]; lia. Qed.

Lemma weight_events times durations t :
  List.length times = List.length durations ->
  (forall d, In (Some d) durations -> (0 <= d)%Q) ->
  weight t (events times durations) = running times durations t.
Proof.
  intros HL Hd. unfold weight, events, running, stops. rewrite filter_app, map_app, sum_app.
  revert durations HL Hd. induction times as [|x times IH]; intros [|d durations] HL Hd; try discriminate; [reflexivity|].
  injection HL as HL. assert (Hd' : forall y, In (Some y) durations -> (0 <= y)%Q) by (intros y Hy; apply Hd; right; exact Hy).
  specialize (IH _ HL Hd'). unfold zlen in *. cbn [map combine filter fst snd]. unfold going_on at 1.
  cbn [fst snd upto].
  destruct (Qle_bool x t) eqn:Ex; cbn [andb map fst snd fold_right].
  - destruct d as [d|]; cbn [add_nan upto].
    + destruct (Qle_bool (x + d) t) eqn:Ed; cbn [negb map snd fold_right List.length].
      * lia.
      * rewrite Nat2Z.inj_succ. lia.
    + cbn [List.length]. rewrite Nat2Z.inj_succ. lia.
  - assert (E : upto t (add_nan x d) = false).
    { destruct d as [d|]; cbn [add_nan upto]; [|reflexivity].
      destruct (Qle_bool (x + d) t) eqn:Ed; [|reflexivity]. exfalso.
      apply Qle_bool_iff in Ed. specialize (Hd d (or_introl eq_refl)).
      assert (x <= t)%Q by lra. apply Qle_bool_iff in H. congruence. }
    rewrite E. exact IH.
Qed.

Lemma filter_split {A} (f : A -> bool) l k :
  (forall i a, (i < k)%nat -> nth_error l i = Some a -> f a = true) ->
  (forall i a, (k <= i)%nat -> nth_error l i = Some a -> f a = false) ->
  filter f l = firstn k l.
Proof.
  revert k. induction l as [|x l IH]; intros k H1 H2; [rewrite firstn_nil; reflexivity|]. cbn [filter].
  destruct k as [|k].
  - rewrite (H2 0%nat x) by (auto; lia). cbn [firstn].
    rewrite (IH 0%nat); [reflexivity| |]; intros i a Hi Ha; [lia|]. apply (H2 (S i) a); [lia|exact Ha].
  - rewrite (H1 0%nat x) by (auto; lia). cbn [firstn]. f_equal.
    apply IH; intros i a Hi Ha; [apply (H1 (S i) a)|apply (H2 (S i) a)]; try lia; exact Ha.
Qed.

Lemma Qnot_le_bool x y : (y < x)%Q -> Qle_bool x y = false.
Proof. intros H. destruct (Qle_bool x y) eqn:E; [|reflexivity]. apply Qle_bool_iff in E. lra. Qed.

(** the sum of the first events of a sorted list is the weight at any time before the next one *)
Lemma weight_prefix ev i x y t :
  (forall i j a b, (i < j)%nat -> nth_error (map fst ev) i = Some a -> nth_error (map fst ev) j = Some b -> not_after a b) ->
  nth_error (map fst ev) i = Some (Some x) -> nth_error (map fst ev) (S i) = Some (Some y) ->
  (x <= t)%Q -> (t < y)%Q ->
  fold_right Z.add 0 (firstn (S i) (map snd ev)) = weight t ev.
Proof.
  intros Hs Hx Hy Hxt Hty. unfold weight. rewrite (filter_split _ ev (S i)).
  - rewrite firstn_map. reflexivity.
  - intros j a Hj Ha. assert (Ha' : nth_error (map fst ev) j = Some (fst a)) by (rewrite nth_error_map, Ha; reflexivity).
    assert (G : not_after (fst a) (Some x)).
    { destruct (Nat.eq_dec j i) as [->|N].
      - rewrite Hx in Ha'. injection Ha' as <-. cbn. lra.
      - apply (Hs j i); [lia|exact Ha'|exact Hx]. }
    destruct (fst a) as [z|]; cbn in G |- *; [|destruct G]. apply Qle_bool_iff. lra.
  - intros j a Hj Ha. assert (Ha' : nth_error (map fst ev) j = Some (fst a)) by (rewrite nth_error_map, Ha; reflexivity).
    assert (G : not_after (Some y) (fst a)).
    { destruct (Nat.eq_dec j (S i)) as [->|N].
      - rewrite Hy in Ha'. injection Ha' as <-. cbn. lra.
      - apply (Hs (S i) j); [lia|exact Hy|exact Ha']. }
    destruct (fst a) as [z|]; cbn in G |- *; [|reflexivity]. apply Qnot_le_bool. lra.
Qed.

(** ** The curve *)

Lemma nth_error_of_nth {A} (l : list A) i d : (i < List.length l)%nat -> nth_error l i = Some (nth i l d).
Proof. intros H. apply nth_error_nth'. exact H. Qed.

Lemma curve_height argsort times durations c x y h h' t :
  sorts argsort -> List.length times = List.length durations ->
  (forall d, In (Some d) durations -> (0 <= d)%Q) ->
  nb_workers_curve argsort times durations = Ok c ->
  consecutive c (Some x, h) (Some y, h') -> (x <= t)%Q -> (t < y)%Q ->
  h = running times durations t /\ h' = running times durations t.
Proof.
  intros Hs HL Hd Hc Hcons Hxt Hty.
  destruct (curve_events _ _ _ Hs HL) as (ev & HP & Hord & E). rewrite E in Hc. injection Hc as <-.
  unfold step_points in Hcons.
  apply (consecutive_pairs
    (fun i => (nth i (map fst ev) None, fold_right Z.add 0 (firstn (S i) (map snd ev))))
    (fun i => (nth (S i) (map fst ev) None, fold_right Z.add 0 (firstn (S i) (map snd ev))))) in Hcons.
  destruct Hcons as (i & Hi & [(E1 & E2)|(_ & E1 & E2)]); injection E1 as E1 F1; injection E2 as E2 F2.
  - assert (W : fold_right Z.add 0 (firstn (S i) (map snd ev)) = running times durations t).
    { rewrite (weight_prefix ev i x y t Hord); [| | |exact Hxt|exact Hty].
      - rewrite (weight_perm _ _ _ HP). apply weight_events; assumption.
      - rewrite E1. apply nth_error_of_nth. rewrite map_length. lia.
      - rewrite E2. apply nth_error_of_nth. rewrite map_length. lia. }
    rewrite F1, F2. split; exact W.
  - exfalso. rewrite <- E2 in E1. injection E1 as ->. lra.
Qed.

(** the curve covers every time from the first beginning to the last known event *)
Lemma last_true (f : nat -> bool) p q : (p < q)%nat -> f p = true -> f q = false ->
  exists i, (p <= i < q)%nat /\ f i = true /\ f (S i) = false.
Proof.
  intros H Hp Hq. induction q as [|q IH]; [lia|]. destruct (f q) eqn:E.
  - exists q. split; [lia|]. split; assumption.
  - destruct (Nat.eq_dec p q) as [->|N]; [congruence|]. destruct IH as (i & Hi & H1 & H2); [lia|reflexivity|].
    exists i. split; [lia|]. split; assumption.
Qed.

Lemma curve_cover argsort times durations c s z t :
  sorts argsort -> List.length times = List.length durations ->
  nb_workers_curve argsort times durations = Ok c ->
  In s times -> (s <= t)%Q -> (t < z)%Q -> (In z times \/ In (Some z) (stops times durations)) ->
  exists x y h, consecutive c (Some x, h) (Some y, h) /\ (x <= t)%Q /\ (t < y)%Q.
Proof.
  intros Hs HL Hc Hin Hst Htz Hz.
  destruct (curve_events _ _ _ Hs HL) as (ev & HP & Hord & E). rewrite E in Hc. injection Hc as <-.
  assert (Hs' : In (Some s) (map fst ev)).
  { apply (Permutation_in _ (Permutation_sym (Permutation_map fst HP))). unfold events. rewrite map_app, !map_map.
    apply in_or_app. left. apply in_map_iff. exists s. split; [reflexivity|exact Hin]. }
  assert (Hz' : In (Some z) (map fst ev)).
  { apply (Permutation_in _ (Permutation_sym (Permutation_map fst HP))). unfold events. rewrite map_app, !map_map.
    cbn [fst]. rewrite map_id. apply in_or_app. destruct Hz as [Hz|Hz]; [left|right; exact Hz].
    apply in_map_iff. exists z. split; [reflexivity|exact Hz]. }
  apply In_nth_error in Hs' as (p & Hp). apply In_nth_error in Hz' as (q & Hq).
  assert (Lp := proj1 (nth_error_Some (map fst ev) p) ltac:(congruence)).
  assert (Lq := proj1 (nth_error_Some (map fst ev) q) ltac:(congruence)).
  rewrite map_length in Lp, Lq.
  assert (Hpq : (p < q)%nat).
  { destruct (Nat.lt_trichotomy p q) as [H|[->|H]]; [exact H| |].
    - rewrite Hp in Hq. injection Hq as ->. lra.
    - assert (G := Hord q p _ _ H Hq Hp). cbn in G. lra. }
  destruct (last_true (fun i => upto t (nth i (map fst ev) None)) p q Hpq) as (i & Hi & H1 & H2).
  - rewrite (nth_error_nth _ _ None Hp). cbn. apply Qle_bool_iff. exact Hst.
  - rewrite (nth_error_nth _ _ None Hq). cbn. apply Qnot_le_bool. exact Htz.
  - destruct (nth i (map fst ev) None) as [x|] eqn:Ex; cbn in H1; [|discriminate]. apply Qle_bool_iff in H1.
    destruct (nth (S i) (map fst ev) None) as [y|] eqn:Ey.
    + cbn in H2. assert (Hy : (t < y)%Q).
      { apply Qnot_le_lt. intros G. apply Qle_bool_iff in G. congruence. }
      exists x, y, (fold_right Z.add 0 (firstn (S i) (map snd ev))). split; [|split; assumption].
      unfold step_points. apply (consecutive_pairs
        (fun i => (nth i (map fst ev) None, fold_right Z.add 0 (firstn (S i) (map snd ev))))
        (fun i => (nth (S i) (map fst ev) None, fold_right Z.add 0 (firstn (S i) (map snd ev))))).
      exists i. split; [lia|]. left. rewrite Ex, Ey. split; reflexivity.
    + exfalso. assert (G : not_after None (Some z)); [|exact G].
      destruct (Nat.eq_dec (S i) q) as [<-|N].
      * rewrite (nth_error_nth _ _ None Hq) in Ey. discriminate.
      * apply (Hord (S i) q None (Some z)); [lia| |exact Hq]. rewrite <- Ey. apply nth_error_of_nth.
        rewrite map_length. lia.
Qed.

(** ** Bounds *)

Definition cnt {A} (f : A -> bool) (l : list A) : Z := zlen (filter f l).
Lemma cnt_app {A} (f : A -> bool) l m : cnt f (l ++ m) = cnt f l + cnt f m.
Proof. unfold cnt, zlen. rewrite filter_app, app_length. lia. Qed.
Lemma cnt_perm {A} (f : A -> bool) l m : Permutation l m -> cnt f l = cnt f m.
Proof. intros H. unfold cnt, zlen. rewrite (Permutation_length (filter_perm f _ _ H)). reflexivity. Qed.
Lemma cnt_le {A} (f g : A -> bool) l : (forall a, In a l -> f a = true -> g a = true) -> cnt f l <= cnt g l.
Proof.
  unfold cnt, zlen. induction l as [|a l IH]; intros H; cbn [filter]; [lia|].
  assert (IH' := IH (fun b Hb => H b (or_intror Hb))). destruct (f a) eqn:E.
  - rewrite (H a (or_introl eq_refl) E). cbn [List.length]. lia.
  - destruct (g a); cbn [List.length]; lia.
Qed.
Lemma cnt_pos {A} (f : A -> bool) l : 0 <= cnt f l.
Proof. unfold cnt, zlen. lia. Qed.
Lemma cnt_0 {A} (f : A -> bool) l : (forall a, In a l -> f a = false) -> cnt f l = 0.
Proof.
  unfold cnt, zlen. induction l as [|a l IH]; intros H; cbn [filter]; [reflexivity|].
  rewrite (H a (or_introl eq_refl)). apply IH. intros b Hb. apply H. right. exact Hb.
Qed.
Lemma cnt_map {A B} (f : B -> bool) (g : A -> B) l : cnt f (map g l) = cnt (fun a => f (g a)) l.
Proof.
  unfold cnt, zlen. induction l as [|a l IH]; [reflexivity|]. cbn [map filter]. destruct (f (g a)); cbn [List.length]; lia.
Qed.

Definition is_start (e : option Q * Z) : bool := snd e =? 1.
Definition is_stop (e : option Q * Z) : bool := snd e =? -1.
Lemma sum_counts l : (forall e, In e l -> snd e = 1 \/ snd e = -1) ->
  fold_right Z.add 0 (map snd l) = cnt is_start l - cnt is_stop l.
Proof.
  unfold cnt, zlen, is_start, is_stop. induction l as [|e l IH]; intros H; [reflexivity|].
  assert (IH' := IH (fun b Hb => H b (or_intror Hb))). cbn [map fold_right filter].
  destruct (H e (or_introl eq_refl)) as [E|E]; rewrite E; cbn [Z.eqb Pos.eqb List.length]; lia.
Qed.
Lemma events_signs times durations e : In e (events times durations) -> snd e = 1 \/ snd e = -1.
Proof.
  unfold events. intros H. apply in_app_or in H as [H|H]; apply in_map_iff in H as (t & <- & _); cbn; auto.
Qed.
Lemma cnt_true {A} (l : list A) : cnt (fun _ => true) l = zlen l.
Proof. unfold cnt, zlen. induction l as [|a l IH]; cbn; lia. Qed.
Lemma starts_count times durations : cnt is_start (events times durations) = zlen times.
Proof.
  unfold events. rewrite cnt_app, !cnt_map. unfold is_start; cbn [snd]. rewrite (cnt_0 (fun _ => -1 =? 1)) by reflexivity.
  change (1 =? 1) with true. rewrite cnt_true. lia.
Qed.
Lemma stops_count times durations : List.length times = List.length durations ->
  cnt is_stop (events times durations) = zlen times.
Proof.
  intros HL. unfold events, stops. rewrite cnt_app, !cnt_map. unfold is_stop; cbn [snd].
  rewrite (cnt_0 (fun _ => 1 =? -1)) by reflexivity.
  change (-1 =? -1) with true. rewrite cnt_true. unfold zlen. rewrite combine_length. lia.
Qed.

Definition before_t (t : Q) (o : option Q) : bool := match o with Some x => negb (Qle_bool t x) | None => false end.
(** an execution of positive duration which ended at [t] or before began before [t] *)
Lemma ended_began times durations t : List.length times = List.length durations ->
  (forall d, In (Some d) durations -> (0 < d)%Q) ->
  cnt (fun e => is_stop e && upto t (fst e)) (events times durations) <=
  cnt (fun e => is_start e && before_t t (fst e)) (events times durations).
Proof.
  intros HL Hd. unfold events, stops. rewrite !cnt_app, !cnt_map. unfold is_stop, is_start; cbn [fst snd].
  change (1 =? 1) with true. change (-1 =? -1) with true. change (1 =? -1) with false. change (-1 =? 1) with false.
  cbn [andb]. rewrite (cnt_0 (A := Q) (fun _ => false)), (cnt_0 (A := Q * option Q) (fun _ => false)) by reflexivity.
  rewrite Z.add_0_l, Z.add_0_r.
  assert (E : cnt (fun a => before_t t (Some a)) times = cnt (fun p => before_t t (Some (fst p))) (combine times durations)).
  { rewrite <- (cnt_map (fun a => before_t t (Some a)) fst). f_equal.
    clear Hd. revert durations HL. induction times as [|x times IH]; intros [|d durations] HL; try discriminate; [reflexivity|].
    cbn. f_equal. apply IH. injection HL as HL. exact HL. }
  rewrite E. apply cnt_le. intros (s, d) Hin. cbn [fst snd]. destruct d as [d|]; cbn [add_nan upto before_t]; [|discriminate].
  intros H. apply Qle_bool_iff in H. apply in_combine_r in Hin. specialize (Hd d Hin).
  rewrite Qnot_le_bool by lra. reflexivity.
Qed.

(** no point of the curve is outside [0, number of executions] when the durations are positive *)
Lemma prefix_bounds ev times durations i :
  List.length times = List.length durations ->
  (forall d, In (Some d) durations -> (0 < d)%Q) ->
  Permutation ev (events times durations) ->
  (forall i j a b, (i < j)%nat -> nth_error (map fst ev) i = Some a -> nth_error (map fst ev) j = Some b -> not_after a b) ->
  (i < List.length ev)%nat ->
  0 <= fold_right Z.add 0 (firstn (S i) (map snd ev)) <= zlen times.
Proof.
  intros HL Hd HP Hord Hi. rewrite firstn_map.
  assert (Hsgn : forall e, In e ev -> snd e = 1 \/ snd e = -1).
  { intros e He. apply (events_signs times durations). apply (Permutation_in _ HP He). }
  set (P := firstn (S i) ev). set (R := skipn (S i) ev).
  assert (EV : ev = P ++ R) by (symmetry; apply firstn_skipn).
  assert (HinP : forall e, In e P -> In e ev) by (intros e He; rewrite EV; apply in_or_app; left; exact He).
  rewrite (sum_counts P) by (intros e He; apply Hsgn, HinP, He).
  assert (S1 : cnt is_start P + cnt is_start R = zlen times).
  { rewrite <- cnt_app, <- EV, (cnt_perm _ _ _ HP). apply starts_count. }
  assert (S2 : cnt is_stop P + cnt is_stop R = zlen times).
  { rewrite <- cnt_app, <- EV, (cnt_perm _ _ _ HP). apply stops_count, HL. }
  assert (P1 := cnt_pos is_start R). assert (P2 := cnt_pos is_stop R). assert (P3 := cnt_pos is_stop P).
  split; [|lia].
  assert (NP : forall j e, nth_error P j = Some e -> (j <= i)%nat /\ nth_error ev j = Some e).
  { intros j e Hj. assert (Lj : (j < List.length P)%nat) by (apply nth_error_Some; congruence).
    unfold P in Lj. rewrite firstn_length in Lj. split; [lia|]. rewrite EV. rewrite nth_error_app1; [exact Hj|].
    apply nth_error_Some. congruence. }
  assert (NR : forall e, In e R -> exists j, (i < j)%nat /\ nth_error ev j = Some e).
  { intros e He. apply In_nth_error in He as (j & Hj). exists (S i + j)%nat. split; [lia|].
    rewrite EV, nth_error_app2; unfold P; rewrite firstn_length; [|lia].
    replace (S i + j - Nat.min (S i) (List.length ev))%nat with j by lia. exact Hj. }
  assert (Hlast : nth_error (map fst ev) i = Some (nth i (map fst ev) None)) by (apply nth_error_of_nth; rewrite map_length; exact Hi).
  destruct (nth i (map fst ev) None) as [x|].
  - assert (A1 : cnt is_stop P <= cnt (fun e => is_stop e && upto x (fst e)) P).
    { apply cnt_le. intros e He Hst. rewrite Hst. cbn [andb]. apply In_nth_error in He as (j & Hj).
      destruct (NP j e Hj) as (Lj & Ej).
      assert (Ha : nth_error (map fst ev) j = Some (fst e)) by (rewrite nth_error_map, Ej; reflexivity).
      destruct (Nat.eq_dec j i) as [->|N].
      - rewrite Hlast in Ha. injection Ha as <-. cbn. apply Qle_bool_iff. lra.
      - assert (G := Hord j i _ _ ltac:(lia) Ha Hlast). destruct (fst e) as [z|]; cbn in G |- *; [|destruct G].
        apply Qle_bool_iff. exact G. }
    assert (A2 : cnt (fun e => is_start e && before_t x (fst e)) R = 0).
    { apply cnt_0. intros e He. destruct (NR e He) as (j & Lj & Ej).
      assert (Ha : nth_error (map fst ev) j = Some (fst e)) by (rewrite nth_error_map, Ej; reflexivity).
      assert (G := Hord i j _ _ Lj Hlast Ha). destruct (fst e) as [z|]; cbn in G |- *; [|apply Bool.andb_false_r].
      apply Qle_bool_iff in G. rewrite G. apply Bool.andb_false_r. }
    assert (A3 := ended_began times durations x HL Hd).
    rewrite <- !(cnt_perm _ _ _ HP), EV, !cnt_app in A3.
    assert (A4 := cnt_pos (fun e => is_stop e && upto x (fst e)) R).
    assert (A5 : cnt (fun e => is_start e && before_t x (fst e)) P <= cnt is_start P).
    { apply cnt_le. intros e _ He. apply Bool.andb_true_iff in He. apply He. }
    lia.
  - assert (A2 : cnt is_start R = 0).
    { apply cnt_0. intros e He. destruct (NR e He) as (j & Lj & Ej).
      assert (Ha : nth_error (map fst ev) j = Some (fst e)) by (rewrite nth_error_map, Ej; reflexivity).
      assert (G := Hord i j _ _ Lj Hlast Ha).
      assert (Hev : In e (events times durations)) by (apply (Permutation_in _ HP), (nth_error_In _ _ Ej)).
      unfold events in Hev. apply in_app_or in Hev as [Hev|Hev]; apply in_map_iff in Hev as (y & <- & _).
      - destruct G.
      - reflexivity. }
    lia.
Qed.

Lemma curve_range argsort times durations c x h :
  sorts argsort -> List.length times = List.length durations ->
  (forall d, In (Some d) durations -> (0 < d)%Q) ->
  nb_workers_curve argsort times durations = Ok c -> In (x, h) c -> 0 <= h <= zlen times.
Proof.
  intros Hs HL Hd Hc Hin.
  destruct (curve_events _ _ _ Hs HL) as (ev & HP & Hord & E). rewrite E in Hc. injection Hc as <-.
  unfold step_points in Hin. apply in_concat in Hin as (l & Hl & Hin). apply in_map_iff in Hl as (i & <- & Hi).
  apply in_seq in Hi.
  assert (h = fold_right Z.add 0 (firstn (S i) (map snd ev))) as ->.
  { destruct Hin as [F|[F|[]]]; injection F as _ F; symmetry; exact F. }
  apply (prefix_bounds ev times durations); try assumption. lia.
Qed.

(** ** The table made from the log files *)

(** what the executions of the works called [name] are, for the works and the works ended found in the logs *)
Definition entry_ok (ws : list work) (es : list ended) (e : chars * (list Q * list chars * list (option Q))) : Prop :=
  let '(name, (times, keys, durations)) := e in
  times = times_of ws name /\ List.length times = List.length durations /\
  forall d, In (Some d) durations -> exists f, In f es /\ e_name f = name /\ e_duration f = d.

Lemma Forall2_len {A B} (R : A -> B -> Prop) l m : Forall2 R l m -> List.length l = List.length m.
Proof. induction 1; cbn; congruence. Qed.

Lemma durations_of_spec ws es name du : durations_of ws es name = Ok du ->
  List.length du = List.length (times_of ws name) /\
  forall d, In (Some d) du -> exists f, In f es /\ e_name f = name /\ e_duration f = d.
Proof.
  unfold durations_of. intros H. apply map_result_inv in H. split.
  - rewrite <- (Forall2_len _ _ _ H). unfold keys_of, times_of. rewrite !map_length. reflexivity.
  - intros d Hd. induction H as [|k o ks du Hk Hks IH]; [destruct Hd|]. destruct Hd as [->|Hd]; [|apply IH; exact Hd].
    destruct (last_assoc k _) as [i|]; [|discriminate].
    destruct (py_get _ (Z.of_nat i)) as [f|e] eqn:E; cbn [bind] in Hk; [|discriminate]. injection Hk as Hk.
    exists f. assert (Hf : In f (filter (fun e => chars_eqb (e_name e) name) es)).
    { unfold py_get in E. destruct ((0 <=? _) && (_ <? _)); [|discriminate].
      destruct (nth_error _ _) as [a|] eqn:En in E; [|discriminate]. injection E as ->. apply (nth_error_In _ _ En). }
    apply filter_In in Hf as (Hf & Hn). apply NameProps.chars_eqb_spec in Hn. repeat split; assumption.
Qed.

Lemma table_ok parse_date main procs ws es tab :
  log_topology parse_date main procs = Ok (ws, es, tab) ->
  map fst tab = names_of ws /\ NoDup (map fst tab) /\ Forall (entry_ok ws es) tab.
Proof.
  unfold log_topology. intros H.
  destruct (data_log_file parse_date main) as [d|]; cbn [bind] in H; [|discriminate].
  destruct (mem_start d); cbn [bind] in H; [|discriminate].
  destruct (map_result (data_log_file parse_date) procs) as [ds|]; cbn [bind] in H; [|discriminate].
  match type of H with (do tab <- ?m ; _) = _ => destruct m as [tab'|] eqn:E; cbn [bind] in H; [|discriminate] end.
  injection H as <- <- <-. apply map_result_inv in E.
  assert (M : map fst tab' = names_of (works d ++ List.concat (map works ds))).
  { induction E as [|n e ns t He Hes IH]; [reflexivity|].
    destruct (durations_of _ _ n) as [du|]; cbn [bind] in He; [|discriminate]. injection He as <-. cbn [map fst].
    f_equal. exact IH. }
  split; [exact M|]. split; [rewrite M; apply LogProps.names_spec|].
  clear M. induction E as [|n e ns t He Hes IH]; constructor; [|exact IH].
  destruct (durations_of _ _ n) as [du|] eqn:Ed; cbn [bind] in He; [|discriminate]. injection He as <-.
  cbn [entry_ok]. destruct (durations_of_spec _ _ _ _ Ed) as (H1 & H2). split; [reflexivity|]. split; [symmetry; exact H1|exact H2].
Qed.

Lemma dict_get_in {A} name (d : list (chars * A)) a : NoDup (map fst d) -> (dict_get name d = Ok a <-> In (name, a) d).
Proof.
  induction d as [|(n, b) d IH]; cbn [map fst dict_get]; intros HN; [split; [discriminate|intros []]|].
  inversion HN as [|x l Hx HN']; subst. destruct (chars_eqb n name) eqn:E.
  - apply NameProps.chars_eqb_spec in E as ->. split.
    + intros H. injection H as <-. left. reflexivity.
    + intros [H|H]; [injection H as <-; reflexivity|]. exfalso. apply Hx. apply in_map_iff. exists (name, a). split; [reflexivity|exact H].
  - split; [intros H; right; apply (IH HN'); exact H|]. intros [H|H]; [|apply (IH HN'); exact H]. injection H as -> _.
    rewrite (proj2 (NameProps.chars_eqb_spec name name) eq_refl) in E. discriminate.
Qed.
Lemma dict_get_none {A} name (d : list (chars * A)) : ~ In name (map fst d) -> dict_get name d = Err KeyError.
Proof.
  induction d as [|(n, b) d IH]; cbn [map fst dict_get]; intros H; [reflexivity|].
  destruct (chars_eqb n name) eqn:E; [|apply IH; intros G; apply H; right; exact G].
  apply NameProps.chars_eqb_spec in E. exfalso. apply H. left. exact E.
Qed.

(** the curves of a list of names of the table *)
Lemma curves_ok argsort ws es tab names :
  sorts argsort -> NoDup (map fst tab) -> Forall (entry_ok ws es) tab ->
  NoDup names -> (forall n, In n names -> In n (map fst tab)) ->
  exists curves,
    map_result (fun name => do e <- dict_get name tab ; let '(times, _, durations) := e in
       do c <- nb_workers_curve argsort times durations ; Ok (name, c)) names = Ok curves /\
    map fst curves = names /\
    (forall name c, In (name, c) curves -> exists times keys durations,
       In (name, (times, keys, durations)) tab /\ nb_workers_curve argsort times durations = Ok c).
Proof.
  intros Hs HN HF. induction names as [|n names IH]; intros HNn Hin.
  - exists []. split; [reflexivity|]. split; [reflexivity|]. intros ? ? [].
  - inversion HNn as [|x l Hx HNn']; subst. destruct IH as (curves & E & M & P); [exact HNn'|intros m Hm; apply Hin; right; exact Hm|].
    assert (Hn : exists e, In (n, e) tab).
    { assert (G := Hin n (or_introl eq_refl)). apply in_map_iff in G as ((n', e) & G1 & G2). cbn in G1. subst n'. exists e. exact G2. }
    destruct Hn as (((times, keys), durations) & He).
    assert (HE := proj1 (Forall_forall _ _) HF _ He). cbn [entry_ok] in HE. destruct HE as (_ & HL & _).
    destruct (curve_events argsort times durations Hs HL) as (ev & _ & _ & Ec).
    exists ((n, step_points ev) :: curves). cbn [map_result]. rewrite (proj2 (dict_get_in n tab _ HN) He). cbn [bind].
    rewrite Ec. cbn [bind]. rewrite E. cbn [bind map fst]. split; [reflexivity|]. split; [f_equal; exact M|].
    intros name c [H|H]; [|apply P; exact H]. injection H as <- <-. exists times, keys, durations. split; assumption.
Qed.

Lemma reread {A} (d : list (chars * A)) names : NoDup (map fst d) -> (forall n, In n names -> In n (map fst d)) ->
  exists l, map_result (fun name => do c <- dict_get name d ; Ok (name, c)) names = Ok l /\ map fst l = names /\
    (forall x, In x l -> In x d).
Proof.
  intros HN. induction names as [|n names IH]; intros Hin; [exists []; split; [reflexivity|split; [reflexivity|intros ? []]]|].
  destruct IH as (l & E & M & P); [intros m Hm; apply Hin; right; exact Hm|].
  assert (G := Hin n (or_introl eq_refl)). apply in_map_iff in G as ((n', c) & G1 & G2). cbn in G1. subst n'.
  exists ((n, c) :: l). cbn [map_result]. rewrite (proj2 (dict_get_in n d _ HN) G2). cbn [bind]. rewrite E. cbn [bind map fst].
  split; [reflexivity|]. split; [f_equal; exact M|]. intros x [<-|Hx]; [exact G2|apply P; exact Hx].
Qed.
Lemma reread_missing {A} (d : list (chars * A)) names n : In n names -> ~ In n (map fst d) ->
  map_result (fun name => do c <- dict_get name d ; Ok (name, c)) names = Err KeyError.
Proof.
  intros Hin Hn. induction names as [|m names IH]; [destruct Hin|]. cbn [map_result].
  assert (G : dict_get m d = Err KeyError \/ exists c, dict_get m d = Ok c).
  { clear. induction d as [|(k, b) d IH]; cbn [dict_get]; [left; reflexivity|]. destruct (chars_eqb k m); [right; exists b; reflexivity|exact IH]. }
  destruct G as [->|(c & Ec)]; [reflexivity|]. rewrite Ec. cbn [bind].
  destruct Hin as [->|Hin]; [rewrite (dict_get_none n d Hn) in Ec; discriminate|]. rewrite (IH Hin). reflexivity.
Qed.

(** ** Theorems *)

(** The figure of the number of workers has one curve for each work launched, and the height of the curve of a
    work at a time [t], whenever [t] is between its first beginning and its last event known from the log, is the
    number of executions of this work which are going on at [t]; two successive points of the curve around [t]
    always have this height.  The executions the end of which is not in the log go on for ever. *)
Theorem C113_workers parse_date argsort main procs ws es tab :
  sorts argsort -> log_topology parse_date main procs = Ok (ws, es, tab) ->
  (forall e, In e es -> (0 <= e_duration e)%Q) ->
  exists curves, plot_nb_workers argsort tab None = Ok curves /\ map fst curves = names_of ws /\
    forall name c, In (name, c) curves ->
    exists keys durations, In (name, (times_of ws name, keys, durations)) tab /\
      (forall x y h h' t, consecutive c (Some x, h) (Some y, h') -> (x <= t)%Q -> (t < y)%Q ->
         h = running (times_of ws name) durations t /\ h' = running (times_of ws name) durations t) /\
      (forall s z t, In s (times_of ws name) -> (s <= t)%Q -> (t < z)%Q ->
         (In z (times_of ws name) \/
          exists i st d, nth_error (times_of ws name) i = Some st /\ nth_error durations i = Some (Some d) /\ z = (st + d)%Q) ->
         height_at c t (running (times_of ws name) durations t)).
Proof.
  intros Hs Hlog Hd. destruct (table_ok _ _ _ _ _ _ Hlog) as (M & HN & HF).
  destruct (curves_ok argsort ws es tab (map fst tab) Hs HN HF HN (fun n H => H)) as (curves & E & Mc & P).
  assert (HNc : NoDup (map fst curves)) by (rewrite Mc; exact HN).
  destruct (reread curves (map fst tab) HNc) as (l & El & Ml & Pl); [intros n Hn; rewrite Mc; exact Hn|].
  exists l. unfold plot_nb_workers. rewrite E. cbn [bind]. split; [exact El|]. split; [rewrite Ml; exact M|].
  intros name c Hc. destruct (P _ _ (Pl _ Hc)) as (times & keys & durations & Ht & Hcur).
  assert (HE := proj1 (Forall_forall _ _) HF _ Ht). cbn [entry_ok] in HE. destruct HE as (-> & HL & Hdur).
  assert (Hd' : forall d, In (Some d) durations -> (0 <= d)%Q).
  { intros d Hin. destruct (Hdur d Hin) as (f & Hf & _ & <-). apply Hd. exact Hf. }
  exists keys, durations. split; [exact Ht|].
  assert (HH : forall x y h h' t, consecutive c (Some x, h) (Some y, h') -> (x <= t)%Q -> (t < y)%Q ->
         h = running (times_of ws name) durations t /\ h' = running (times_of ws name) durations t).
  { intros x y h h' t. apply (curve_height argsort); assumption. }
  split; [exact HH|].
  intros s z t Hst H1 H2 Hz.
  destruct (curve_cover argsort _ _ c s z t Hs HL Hcur Hst H1 H2) as (x & y & h & Hcons & Hx & Hy).
  - destruct Hz as [Hz|(i & st & d & H3 & H4 & ->)]; [left; exact Hz|right].
    unfold stops. apply in_map_iff. exists (st, Some d). split; [reflexivity|].
    clear - H3 H4. revert i durations H3 H4. induction (times_of ws name) as [|a l IH]; intros [|i] [|b du] H3 H4; try discriminate.
    + cbn in H3, H4. injection H3 as ->. injection H4 as ->. left. reflexivity.
    + right. apply (IH i); assumption.
  - exists x, y. destruct (HH x y h h t Hcons Hx Hy) as (-> & _). split; [exact Hcons|]. split; assumption.
Qed.

(** If no execution has a duration written as zero, no point of the curves is below zero or above the number of
    executions of the work, whatever the order [np.argsort] gives to equal times. *)
Theorem C113_range parse_date argsort main procs ws es tab curves name c x h :
  sorts argsort -> log_topology parse_date main procs = Ok (ws, es, tab) ->
  (forall e, In e es -> (0 < e_duration e)%Q) ->
  plot_nb_workers argsort tab None = Ok curves -> In (name, c) curves -> In (x, h) c ->
  0 <= h <= zlen (times_of ws name).
Proof.
  intros Hs Hlog Hd Hcur Hc Hx. destruct (table_ok _ _ _ _ _ _ Hlog) as (M & HN & HF).
  destruct (curves_ok argsort ws es tab (map fst tab) Hs HN HF HN (fun n H => H)) as (curves' & E & Mc & P).
  assert (HNc : NoDup (map fst curves')) by (rewrite Mc; exact HN).
  destruct (reread curves' (map fst tab) HNc) as (l & El & Ml & Pl); [intros n Hn; rewrite Mc; exact Hn|].
  unfold plot_nb_workers in Hcur. rewrite E in Hcur. cbn [bind] in Hcur. rewrite El in Hcur. injection Hcur as ->.
  destruct (P _ _ (Pl _ Hc)) as (times & keys & durations & Ht & Hcv).
  assert (HE := proj1 (Forall_forall _ _) HF _ Ht). cbn [entry_ok] in HE. destruct HE as (-> & HL & Hdur).
  apply (curve_range argsort _ durations c x); try assumption.
  intros d Hin. destruct (Hdur d Hin) as (f & Hf & _ & <-). apply Hd. exact Hf.
Qed.

(** With the argument str_names, the figure is not restricted to the works the names of which contain it: it is the
    whole figure if all the names contain it, and otherwise the call fails with KeyError. *)
Theorem C113_filter_iff parse_date argsort main procs ws es tab str_names :
  sorts argsort -> log_topology parse_date main procs = Ok (ws, es, tab) ->
  ((forall w, In w ws -> contains str_names (w_name w) = true) /\
     plot_nb_workers argsort tab (Some str_names) = plot_nb_workers argsort tab None)
  \/ ((exists w, In w ws /\ contains str_names (w_name w) = false) /\
     plot_nb_workers argsort tab (Some str_names) = Err KeyError).
Proof.
  intros Hs Hlog. destruct (table_ok _ _ _ _ _ _ Hlog) as (M & HN & HF).
  destruct (LogProps.names_spec ws) as (_ & HW).
  assert (D : (forall n, In n (map fst tab) -> contains str_names n = true) \/
              (exists n, In n (map fst tab) /\ contains str_names n = false)).
  { generalize (map fst tab). intros l. induction l as [|n l IH]; [left; intros ? []|].
    destruct (contains str_names n) eqn:E; [|right; exists n; split; [left; reflexivity|exact E]].
    destruct IH as [IH|(m & Hm & Em)]; [left; intros k [<-|Hk]; [exact E|apply IH; exact Hk]|right; exists m; split; [right; exact Hm|exact Em]]. }
  destruct D as [D|(n & Hn & En)].
  - left. split.
    + intros w Hw. apply D. rewrite M. apply HW. exists w. split; [exact Hw|reflexivity].
    + unfold plot_nb_workers.
      assert (F : filter (fun name => contains str_names name) (map fst tab) = map fst tab).
      { revert D. generalize (map fst tab). intros l. induction l as [|k l IH]; intros D; [reflexivity|]. cbn [filter].
        rewrite (D k (or_introl eq_refl)). f_equal. apply IH. intros j Hj. apply D. right. exact Hj. }
      rewrite F. reflexivity.
  - right. split.
    + rewrite M in Hn. apply HW in Hn as (w & Hw & <-). exists w. split; assumption.
    + unfold plot_nb_workers.
      destruct (curves_ok argsort ws es tab (filter (fun name => contains str_names name) (map fst tab)) Hs HN HF) as (curves & E & Mc & _).
      * apply NoDup_filter. exact HN.
      * intros k Hk. apply filter_In in Hk. apply Hk.
      * rewrite E. cbn [bind]. apply (reread_missing curves _ n Hn). rewrite Mc. intros G. apply filter_In in G as (_ & G). congruence.
Qed.

(** The figure of the durations: for each work, the executions in the order of the log, each drawn as an horizontal
    line from its beginning to its end at the height of its duration, and a line at the mean of the known durations
    which goes from the first to the last beginning. *)
Lemma fold_min l : forall x, let m := fold_left (fun m y => if Qle_bool m y then m else y) l x in
  In m (x :: l) /\ (forall y, In y (x :: l) -> (m <= y)%Q).
Proof.
  induction l as [|y l IH]; intros x; cbn [fold_left].
  - split; [left; reflexivity|]. intros z [<-|[]]. lra.
  - destruct (Qle_bool x y) eqn:E.
    + destruct (IH x) as (H1 & H2). apply Qle_bool_iff in E. split.
      * destruct H1 as [H1|H1]; [left; exact H1|right; right; exact H1].
      * intros z [<-|[<-|Hz]]; [apply H2; left; reflexivity| |apply H2; right; exact Hz].
        specialize (H2 x (or_introl eq_refl)). lra.
    + destruct (IH y) as (H1 & H2). assert (F : (y < x)%Q) by (apply Qnot_le_lt; intros G; apply Qle_bool_iff in G; congruence). split.
      * right. exact H1.
      * intros z [<-|Hz]; [|apply H2; exact Hz]. specialize (H2 y (or_introl eq_refl)). lra.
Qed.
Lemma fold_max l : forall x, let m := fold_left (fun m y => if Qle_bool y m then m else y) l x in
  In m (x :: l) /\ (forall y, In y (x :: l) -> (y <= m)%Q).
Proof.
  induction l as [|y l IH]; intros x; cbn [fold_left].
  - split; [left; reflexivity|]. intros z [<-|[]]. lra.
  - destruct (Qle_bool y x) eqn:E.
    + destruct (IH x) as (H1 & H2). apply Qle_bool_iff in E. split.
      * destruct H1 as [H1|H1]; [left; exact H1|right; right; exact H1].
      * intros z [<-|[<-|Hz]]; [apply H2; left; reflexivity| |apply H2; right; exact Hz].
        specialize (H2 x (or_introl eq_refl)). lra.
    + destruct (IH y) as (H1 & H2). assert (F : (x < y)%Q) by (apply Qnot_le_lt; intros G; apply Qle_bool_iff in G; congruence). split.
      * right. exact H1.
      * intros z [<-|Hz]; [|apply H2; exact Hz]. specialize (H2 y (or_introl eq_refl)). lra.
Qed.

Lemma pieces_ok times durations : List.length times = List.length durations ->
  map_result (fun p => let '(it, t) := p in
         do d <- py_get durations (Z.of_nat it) ; Ok ((t, d), (add_nan t d, d))) (enumerate times)
  = Ok (map (fun p => ((fst p, snd p), (add_nan (fst p) (snd p), snd p))) (combine times durations)).
Proof.
  intros HL.
  rewrite (map_result_ok _ (fun p => let '(it, t) := p in ((t, nth it durations None), (add_nan t (nth it durations None), nth it durations None)))).
  - f_equal. rewrite (proj2 (enumerate_map times 0%Q (fun i => ((nth i times 0%Q, nth i durations None), (add_nan (nth i times 0%Q) (nth i durations None), nth i durations None))))).
    + assert (HLc : List.length (combine times durations) = List.length times) by (rewrite combine_length; lia).
      rewrite <- (map_nth_seq (combine times durations) (0%Q, None)) at 1. rewrite HLc, map_map.
      apply map_ext. intros i. rewrite combine_nth by exact HL. reflexivity.
    + reflexivity.
  - intros (i, t) Hi. apply (enumerate_in _ 0%Q) in Hi as (Hi & _).
    rewrite (FixProofs.py_get_at _ _ None) by (unfold zlen; lia). rewrite Nat2Z.id. reflexivity.
Qed.

(** the mean of the known durations *)
Definition is_mean (durations : list (option Q)) (m : option Q) : Prop :=
  let total := fold_right (fun o s => match o with Some d => (d + s)%Q | None => s end) 0%Q durations in
  let number := List.length (filter (fun o => match o with Some _ => true | None => false end) durations) in
  match m with
  | Some x => (0 < number)%nat /\ (inject_Z (Z.of_nat number) * x == total)%Q
  | None => number = 0%nat
  end.
Lemma nanmean_is_mean durations : is_mean durations (nanmean durations).
Proof.
  assert (L : List.length (finite_values durations) =
              List.length (filter (fun o => match o with Some _ => true | None => false end) durations)).
  { unfold finite_values. induction durations as [|[d|] l IH]; cbn; [reflexivity| |]; congruence. }
  assert (F : fold_right Qplus 0%Q (finite_values durations) =
              fold_right (fun o s => match o with Some d => (d + s)%Q | None => s end) 0%Q durations).
  { unfold finite_values. clear L. induction durations as [|[d|] l IH]; cbn; [reflexivity|f_equal; exact IH|exact IH]. }
  unfold is_mean, nanmean. rewrite <- F, <- L. clear F L. destruct (finite_values durations) as [|x xs]; [reflexivity|].
  split; [cbn; lia|]. unfold zlen. rewrite Qmult_div_r; [reflexivity|]. unfold Qeq. cbn [inject_Z Qnum Qden List.length]. lia.
Qed.

Theorem C113_durations parse_date main procs ws es tab :
  log_topology parse_date main procs = Ok (ws, es, tab) ->
  exists figs, plot_durations tab = Ok figs /\ map fst figs = names_of ws /\
    forall name marks pieces m0 m1, In (name, (marks, pieces, (m0, m1))) figs ->
    exists keys durations, In (name, (times_of ws name, keys, durations)) tab /\
      marks = combine (times_of ws name) durations /\
      pieces = map (fun p => match snd p with
                     | Some d => ((fst p, Some d), (Some (fst p + d)%Q, Some d))
                     | None => ((fst p, None), (None, None))
                     end) marks /\
      snd m1 = snd m0 /\ is_mean durations (snd m0) /\
      In (fst m0) (times_of ws name) /\ In (fst m1) (times_of ws name) /\
      (forall t, In t (times_of ws name) -> (fst m0 <= t)%Q /\ (t <= fst m1)%Q).
Proof.
  intros Hlog. destruct (table_ok _ _ _ _ _ _ Hlog) as (M & HN & HF). destruct (LogProps.names_spec ws) as (_ & HW).
  unfold plot_durations. rewrite <- M.
  assert (Hsub : forall n, In n (map fst tab) -> In n (map fst tab)) by auto.
  revert Hsub. generalize (map fst tab) at 1 3 4. intros names Hsub.
  induction names as [|n names IH]; [exists []; split; [reflexivity|split; [reflexivity|intros ? ? ? ? ? []]]|].
  destruct IH as (figs & E & Mf & P); [intros k Hk; apply Hsub; right; exact Hk|].
  assert (Hn := Hsub n (or_introl eq_refl)). assert (Hn0 := Hn).
  apply in_map_iff in Hn as ((n', ((times, keys), durations)) & G1 & He). cbn in G1. subst n'.
  assert (HE := proj1 (Forall_forall _ _) HF _ He). cbn [entry_ok] in HE. destruct HE as (Et & HL & _).
  assert (Hne : times <> []).
  { rewrite M in Hn0. apply HW in Hn0 as (w & Hw & Ew). intros E0.
    assert (G : In (w_time w) times); [|rewrite E0 in G; destruct G].
    rewrite Et. unfold times_of. apply in_map. apply filter_In. split; [exact Hw|]. apply NameProps.chars_eqb_spec. exact Ew. }
  cbn [map_result]. rewrite (proj2 (dict_get_in n tab _ HN) He). cbn [bind]. unfold durations_curves at 1.
  rewrite (proj2 (Nat.eqb_eq _ _) HL). cbn [negb]. rewrite (pieces_ok _ _ HL). cbn [bind].
  destruct times as [|x l]; [congruence|]. cbn [qmin qmax bind]. rewrite E. cbn [bind].
  eexists. split; [reflexivity|]. cbn [map fst]. split; [f_equal; exact Mf|].
  intros name marks pieces m0 m1 [H|H]; [|apply (P _ _ _ _ _ H)].
  set (mn := fold_left (fun m y => if Qle_bool m y then m else y) l x) in *.
  set (mx := fold_left (fun m y => if Qle_bool y m then m else y) l x) in *.
  set (cmb := combine (x :: l) durations) in *. set (nm := nanmean durations) in *.
  injection H as <- <- <- <- <-. exists keys, durations. rewrite <- Et. split; [exact He|].
  destruct (fold_min l x) as (A1 & A2). destruct (fold_max l x) as (B1 & B2). fold mn in A1, A2. fold mx in B1, B2.
  cbn [fst snd]. split; [reflexivity|]. split; [apply map_ext; intros (a, [b|]); reflexivity|]. split; [reflexivity|].
  split; [apply nanmean_is_mean|]. repeat split; try assumption; [apply A2|apply B2]; assumption.
Qed.

(** ** Two ways to sort allowed by the documentation of numpy *)
Section Sorting.
Variable le : option Q -> option Q -> bool.
Hypothesis le_true : forall a b, le a b = true -> not_after a b.
Hypothesis le_false : forall a b, le a b = false -> not_after b a.
Fixpoint insert (l : list (option Q)) (i : nat) (s : list nat) : list nat :=
  match s with
  | [] => [i]
  | j :: s' => if le (nth i l None) (nth j l None) then i :: j :: s' else j :: insert l i s'
  end.
Definition insertion_sort (l : list (option Q)) : list nat := fold_right (insert l) [] (seq 0 (List.length l)).

Lemma not_after_trans a b c : not_after a b -> not_after b c -> not_after a c.
Proof.
  destruct a as [a|], b as [b|], c as [c|]; cbn; try tauto; try (intros []; fail). intros. lra.
Qed.
Lemma insert_perm l i s : Permutation (insert l i s) (i :: s).
Proof.
  induction s as [|j s IH]; cbn [insert]; [reflexivity|]. destruct (le _ _); [reflexivity|].
  rewrite IH. constructor.
Qed.
Lemma insert_sorted l i s : StronglySorted (fun p q => not_after (nth p l None) (nth q l None)) s ->
  StronglySorted (fun p q => not_after (nth p l None) (nth q l None)) (insert l i s).
Proof.
  induction s as [|j s IH]; intros H; cbn [insert]; [repeat constructor|].
  apply StronglySorted_inv in H as (H1 & H2). destruct (le (nth i l None) (nth j l None)) eqn:E.
  - constructor; [constructor; assumption|]. constructor; [apply le_true; exact E|].
    apply Forall_forall. intros k Hk. apply (not_after_trans _ (nth j l None)); [apply le_true; exact E|].
    rewrite Forall_forall in H2. apply H2. exact Hk.
  - constructor; [apply IH; exact H1|]. apply Forall_forall. intros k Hk.
    apply (Permutation_in _ (insert_perm l i s)) in Hk. destruct Hk as [<-|Hk]; [apply le_false; exact E|].
    rewrite Forall_forall in H2. apply H2. exact Hk.
Qed.
Lemma sorted_nth {A} (R : A -> A -> Prop) l : StronglySorted R l ->
  forall i j p q, (i < j)%nat -> nth_error l i = Some p -> nth_error l j = Some q -> R p q.
Proof.
  induction 1 as [|a l H IH HF]; intros i j p q Hij Hp Hq; [destruct i; discriminate|].
  destruct j as [|j]; [lia|]. cbn in Hq. destruct i as [|i].
  - cbn in Hp. injection Hp as <-. rewrite Forall_forall in HF. apply HF. apply (nth_error_In _ _ Hq).
  - apply (IH i j); [lia|exact Hp|exact Hq].
Qed.
Lemma insertion_sorts : sorts insertion_sort.
Proof.
  intros l. split.
  - unfold insertion_sort. induction (seq 0 (List.length l)) as [|i s IH]; cbn [fold_right]; [constructor|].
    rewrite insert_perm. constructor. exact IH.
  - intros i j p q a b Hij Hp Hq Ha Hb.
    assert (HS : StronglySorted (fun p q => not_after (nth p l None) (nth q l None)) (insertion_sort l)).
    { unfold insertion_sort. induction (seq 0 (List.length l)) as [|k s IH]; cbn [fold_right]; [constructor|].
      apply insert_sorted. exact IH. }
    assert (G := sorted_nth _ _ HS i j p q Hij Hp Hq). cbn in G.
    rewrite (nth_error_nth _ _ None Ha), (nth_error_nth _ _ None Hb) in G. exact G.
Qed.
End Sorting.

(** equal times stay in the order of the list *)
Definition le_stable (a b : option Q) : bool :=
  match a, b with Some x, Some y => Qle_bool x y | Some _, None => true | None, Some _ => false | None, None => true end.
(** equal times are put in the reverse order *)
Definition le_reverse (a b : option Q) : bool :=
  match a, b with Some x, Some y => negb (Qle_bool y x) | Some _, None => true | None, _ => false end.
Lemma stable_sorts : sorts (insertion_sort le_stable).
Proof.
  apply insertion_sorts; intros [a|] [b|]; cbn; try tauto; try discriminate; intros H.
  - apply Qle_bool_iff in H. exact H.
  - apply Qlt_le_weak, Qnot_le_lt. intros G. apply Qle_bool_iff in G. congruence.
Qed.
Lemma reverse_sorts : sorts (insertion_sort le_reverse).
Proof.
  apply insertion_sorts; intros [a|] [b|]; cbn; try tauto; try discriminate; intros H.
  - apply Qlt_le_weak, Qnot_le_lt. intros G. apply Qle_bool_iff in G. rewrite G in H. discriminate.
  - apply Bool.negb_false_iff in H. apply Qle_bool_iff in H. exact H.
Qed.

(** The log of two executions of a work [name] by one worker: the second one begins at the time the first one ends. *)
Definition two_in_a_row : list event :=
  [Start (of_string "2024-01-01_10-00-00.") 100000;
   Launch 0 (of_string "work") (of_string "a") 100000; End (of_string "work") (of_string "a") 2000;
   Launch 200 (of_string "work") (of_string "b") 100000; End (of_string "work") (of_string "b") 1000].
(** The log of one execution the duration of which is written 0.000 *)
Definition instantaneous : list event :=
  [Start (of_string "2024-01-01_10-00-00.") 100000;
   Launch 100 (of_string "work") (of_string "a") 100000; End (of_string "work") (of_string "a") 0].

(** The curve of the number of workers of a work never exceeds the number of executions which are going on at some
    time.  Refuted: when an execution begins at the time (written in the log with two decimals) another one
    ends, the curve has a vertical line up to two for a worker which is alone. *)
Theorem C113_spike_refuted :
  exists main argsort ws es tab c x,
    sorts argsort /\ log_topology (fun _ => Ok 0%Q) (log_text main) [] = Ok (ws, es, tab) /\
    (forall e, In e es -> (0 < e_duration e)%Q) /\
    plot_nb_workers argsort tab None = Ok [(of_string "work", c)] /\ In (x, 2) c /\
    forall keys times durations t, In (of_string "work", (times, keys, durations)) tab -> running times durations t <= 1.
Proof.
  exists two_in_a_row, (insertion_sort le_stable).
  do 5 eexists. split; [exact stable_sorts|]. split; [vm_compute; reflexivity|]. split.
  { cbn. intros e [<-|[<-|[]]]; reflexivity. }
  split; [vm_compute; reflexivity|]. split; [right; right; left; reflexivity|].
  intros keys times durations t [H|[]]. injection H as <- <- <-. unfold running, going_on, zlen. cbn [combine filter fst snd].
  destruct (Qlt_le_dec t 2) as [Ht|Ht].
  - rewrite (Qnot_le_bool (200 # 100) t) by (eapply Qlt_le_trans; [exact Ht|]; unfold Qle; cbn; lia).
    cbn [andb]. destruct (Qle_bool _ t && negb (Qle_bool _ t)); cbn [List.length]; lia.
  - assert (E : Qle_bool ((0 # 100) + (2000 # 1000)) t = true).
    { apply Qle_bool_iff. eapply Qle_trans; [|exact Ht]. unfold Qle; cbn; lia. }
    rewrite E. cbn [negb]. rewrite Bool.andb_false_r. destruct (Qle_bool _ t && negb (Qle_bool _ t)); cbn [List.length]; lia.
Qed.

(** The curve is never negative.  Refuted for the durations written 0.000: [np.argsort] is allowed to put the end
    before the beginning. *)
Theorem C113_negative_refuted :
  exists main argsort ws es tab c x,
    sorts argsort /\ log_topology (fun _ => Ok 0%Q) (log_text main) [] = Ok (ws, es, tab) /\
    (forall e, In e es -> (0 <= e_duration e)%Q) /\
    plot_nb_workers argsort tab None = Ok [(of_string "work", c)] /\ In (x, -1) c.
Proof.
  exists instantaneous, (insertion_sort le_reverse).
  do 5 eexists. split; [exact reverse_sorts|]. split; [vm_compute; reflexivity|]. split.
  { cbn. intros e [<-|[]]. cbn. lra. }
  split; [vm_compute; reflexivity|]. left. reflexivity.
Qed.

(** plot_nb_workers(str_names) draws the works the names of which contain str_names.  Refuted. *)
Theorem C113_filter_refuted :
  exists main ws es tab w,
    log_topology (fun _ => Ok 0%Q) (log_text main) [] = Ok (ws, es, tab) /\
    In w ws /\ contains (of_string "read") (w_name w) = true /\
    forall argsort, sorts argsort -> plot_nb_workers argsort tab (Some (of_string "read")) = Err KeyError.
Proof.
  assert (G : exists ws es tab w w', log_topology (fun _ => Ok 0%Q) (log_text LogProps.ex_main) [] = Ok (ws, es, tab) /\
    In w ws /\ contains (of_string "read") (w_name w) = true /\ In w' ws /\ contains (of_string "read") (w_name w') = false).
  { do 5 eexists. split; [vm_compute; reflexivity|]. split; [left; reflexivity|]. split; [reflexivity|].
    split; [right; left; reflexivity|]. reflexivity. }
  destruct G as (ws & es & tab & w & w' & E & H1 & H2 & H3 & H4).
  exists LogProps.ex_main, ws, es, tab, w. split; [exact E|]. split; [exact H1|]. split; [exact H2|].
  intros argsort Hs. destruct (C113_filter_iff _ argsort _ _ _ _ _ (of_string "read") Hs E) as [(H & _)|(_ & H)]; [|exact H].
  rewrite (H _ H3) in H4. discriminate.
Qed.

(** The line of the memory goes forward in time.  The points are in the order of the files: refuted with several
    processes, the files of which are read one after the other. *)
Definition forward (pts : list (Q * Q)) : Prop := forall p q, consecutive pts p q -> (fst p <= fst q)%Q.
Theorem C113_memory parse_date main procs ws es tab :
  log_topology parse_date main procs = Ok (ws, es, tab) ->
  exists d ds, data_log_file parse_date main = Ok d /\ map_result (data_log_file parse_date) procs = Ok ds /\
    plot_memory ws = plot_memory (works d) ++ List.concat (map (fun e => plot_memory (works e)) ds) /\
    map fst (plot_memory ws) = map w_time ws /\ map snd (plot_memory ws) = map w_mem ws.
Proof.
  unfold log_topology. intros H.
  destruct (data_log_file parse_date main) as [d|]; cbn [bind] in H; [|discriminate].
  destruct (mem_start d); cbn [bind] in H; [|discriminate].
  destruct (map_result (data_log_file parse_date) procs) as [ds|]; cbn [bind] in H; [|discriminate].
  match type of H with (do tab <- ?m ; _) = _ => destruct m as [tab'|]; cbn [bind] in H; [|discriminate] end.
  injection H as <- _ _. exists d, ds. split; [reflexivity|]. split; [reflexivity|].
  unfold plot_memory. rewrite !map_map. split; [rewrite map_app, concat_map, map_map; reflexivity|]. split; reflexivity.
Qed.
Theorem C113_memory_refuted :
  exists main procs ws es tab,
    log_topology (fun _ => Ok 0%Q) (log_text main) (map log_text procs) = Ok (ws, es, tab) /\
    (forall p d, In p procs -> data_log_file (fun _ => Ok 0%Q) (log_text p) = Ok d -> forward (plot_memory (works d))) /\
    ~ forward (plot_memory ws).
Proof.
  exists [Start (of_string "2024-01-01_10-00-00.") 100000],
    [[Launch 100 (of_string "work") (of_string "a") 100000]; [Launch 50 (of_string "work") (of_string "b") 100000]].
  do 3 eexists. split; [vm_compute; reflexivity|]. split.
  - intros p d [<-|[<-|[]]] H; vm_compute in H; injection H as <-; intros x y (l & m & E); cbn in E;
      destruct l as [|? [|? ?]]; discriminate.
  - intros H. specialize (H _ _ (ex_intro _ [] (ex_intro _ [] eq_refl))). cbn in H. revert H. unfold Qle. cbn. lia.
Qed.

(** The hypotheses are met, and the curve of a log with executions which overlap and one the end of which is missing *)
Definition ex_log : list event :=
  [Start (of_string "2024-01-01_10-00-00.") 100000;
   Launch 0 (of_string "work") (of_string "a") 100000; Launch 100 (of_string "work") (of_string "b") 100000;
   End (of_string "work") (of_string "a") 1500; Launch 300 (of_string "work") (of_string "c") 100000;
   End (of_string "work") (of_string "b") 3000].
Example C113_example :
  exists ws es tab, log_topology (fun _ => Ok 0%Q) (log_text ex_log) [] = Ok (ws, es, tab) /\
    (forall e, In e es -> (0 < e_duration e)%Q) /\
    match plot_nb_workers (insertion_sort le_stable) tab None with
    | Ok [(name, c)] => name = of_string "work" /\ map snd c = [1; 1; 2; 2; 1; 1; 2; 2; 1; 1]
    | _ => False
    end.
Proof.
  do 3 eexists. split; [vm_compute; reflexivity|]. split.
  { cbn. intros e [<-|[<-|[]]]; reflexivity. }
  vm_compute. split; reflexivity.
Qed.

Print Assumptions C113_workers.
Print Assumptions C113_range.
Print Assumptions C113_filter_iff.
Print Assumptions C113_filter_refuted.
Print Assumptions C113_durations.
Print Assumptions C113_spike_refuted.
Print Assumptions C113_negative_refuted.
Print Assumptions C113_memory.
Print Assumptions C113_memory_refuted.

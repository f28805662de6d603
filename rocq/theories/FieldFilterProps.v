(** C103: the filters of a vector field. *)
From Verif Require Import PyBase StrModel VecFieldModel VecFieldProps GridProps FieldFilterModel.
Local Open Scope Z_scope.
Ltac Zify.zify_post_hook ::= Z.div_mod_to_equations.

(** *** Specification *)
(** The physical field: a value at each point of the plane, of which an array gives the values on
    [0, n0) x [0, n1). *)
Definition samples {V} (v : Z -> Z -> V) (n0 n1 : Z) (a : array2 V) : Prop :=
  shape a (Z.to_nat n0) (Z.to_nat n1) /\
  forall i j, 0 <= i < n0 -> 0 <= j < n1 -> get2 a (Z.to_nat i) (Z.to_nat j) = Some (v i j).
(** the filtered physical field: no border *)
Definition filtered {V} (F : array2 V -> V) (s0 s1 : Z) (v : Z -> Z -> V) : Z -> Z -> V :=
  fun i j => F (map (fun di => map (fun dj => v (i + di) (j + dj)) (window s1)) (window s0)).
Fixpoint filtered_n {V} (F : array2 V -> V) (s0 s1 : Z) (k : nat) (v : Z -> Z -> V) : Z -> Z -> V :=
  match k with O => v | S k' => filtered_n F s0 s1 k' (filtered F s0 s1 v) end.

Lemma reflect_in n i : 0 <= i < n -> reflect n i = i.
Proof. intros H. unfold reflect. rewrite Z.mod_small by lia. destruct (i <? n) eqn:E; lia. Qed.
Lemma range0_in n i : In i (range0 n) <-> 0 <= i < n.
Proof.
  unfold range0. rewrite in_map_iff. split.
  - intros (k & <- & Hk). apply in_seq in Hk. lia.
  - intros H. exists (Z.to_nat i). split; [lia|]. apply in_seq. lia.
Qed.
Lemma range0_nth n i : 0 <= i < n -> nth_error (range0 n) (Z.to_nat i) = Some i.
Proof.
  intros H. unfold range0. rewrite nth_error_map.
  rewrite (nth_error_nth' _ 0%nat) by (rewrite seq_length; lia). rewrite seq_nth by lia. cbn. f_equal. lia.
Qed.
Lemma range0_len n : List.length (range0 n) = Z.to_nat n.
Proof. unfold range0. rewrite map_length, seq_length. reflexivity. Qed.
Lemma window_in s k : 1 <= s -> In k (window s) -> - (s / 2) <= k <= s / 2.
Proof. intros Hs H. unfold window in H. apply in_map_iff in H. destruct H as (x & <- & Hx). apply range0_in in Hx. lia. Qed.

(** Outside the domain the values are reflected at both borders; the index is always inside. *)
Theorem C103_reflect : forall n, 1 <= n -> forall i, 0 <= reflect n i < n /\ (0 <= i < n -> reflect n i = i) /\
  reflect n (-1 - i) = reflect n i /\ reflect n (2 * n - 1 - i) = reflect n i.
Proof.
  intros n Hn i. unfold reflect. cbv zeta.
  pose proof (Z.mod_pos_bound i (2 * n) ltac:(lia)) as Hb.
  assert (E1 : (-1 - i) mod (2 * n) = 2 * n - 1 - i mod (2 * n)).
  { symmetry. apply Z.mod_unique_pos with (q := - (i / (2 * n)) - 1); [lia|]. pose proof (Z.div_mod i (2 * n) ltac:(lia)). clear Hb. nia. }
  assert (E2 : (2 * n - 1 - i) mod (2 * n) = 2 * n - 1 - i mod (2 * n)).
  { symmetry. apply Z.mod_unique_pos with (q := - (i / (2 * n))); [lia|]. pose proof (Z.div_mod i (2 * n) ltac:(lia)). clear Hb E1. nia. }
  rewrite E1, E2. set (m := i mod (2 * n)) in *.
  split; [destruct (m <? n) eqn:E; lia|]. split; [intros Hi; unfold m; rewrite Z.mod_small by lia; destruct (i <? n) eqn:E; lia|].
  split; destruct (m <? n) eqn:E; destruct (2 * n - 1 - m <? n) eqn:E'; lia.
Qed.
Print Assumptions C103_reflect.

(** the window of an odd size: as many points on both sides, in their order *)
Theorem C103_window : forall h, 0 <= h -> window (2 * h + 1) = map (fun i => Z.of_nat i - h) (seq 0 (Z.to_nat (2 * h + 1))).
Proof. intros h Hh. unfold window, range0. rewrite map_map. apply map_ext. intros i. lia. Qed.
Print Assumptions C103_window.

Section Filter.
Context {V : Type}.
Variable F : array2 V -> V.
Variable d : V.
Notation value := (value d).

Lemma value_get a i j x : get2 a (Z.to_nat i) (Z.to_nat j) = Some x -> value a i j = x.
Proof.
  unfold get2, FieldFilterModel.value. destruct (nth_error a (Z.to_nat i)) as [row|] eqn:E; [|discriminate]. intros H.
  rewrite (nth_error_nth _ _ _ E). apply nth_error_nth, H.
Qed.
Lemma filter_shape s0 s1 n0 n1 a : shape (local_filter F d s0 s1 n0 n1 a) (Z.to_nat n0) (Z.to_nat n1).
Proof.
  split; unfold local_filter; [rewrite map_length; apply range0_len|].
  apply Forall_forall. intros row H. apply in_map_iff in H. destruct H as (i & <- & _). rewrite map_length. apply range0_len.
Qed.
Lemma filter_get s0 s1 n0 n1 a i j : 0 <= i < n0 -> 0 <= j < n1 ->
  get2 (local_filter F d s0 s1 n0 n1 a) (Z.to_nat i) (Z.to_nat j) =
  Some (F (map (fun di => map (fun dj => value a (reflect n0 (i + di)) (reflect n1 (j + dj))) (window s1)) (window s0))).
Proof. intros Hi Hj. unfold get2, local_filter. rewrite nth_error_map, range0_nth by lia. cbn. rewrite nth_error_map, range0_nth by lia. reflexivity. Qed.

(** what is known at a distance [m0, m1] of the borders *)
Definition known (v : Z -> Z -> V) (n0 n1 m0 m1 : Z) (a : array2 V) : Prop :=
  forall i j, m0 <= i < n0 - m0 -> m1 <= j < n1 - m1 -> get2 a (Z.to_nat i) (Z.to_nat j) = Some (v i j).
Lemma known_filter s0 s1 n0 n1 m0 m1 v a : 1 <= s0 -> 1 <= s1 -> 0 <= m0 -> 0 <= m1 ->
  known v n0 n1 m0 m1 a -> known (filtered F s0 s1 v) n0 n1 (m0 + s0 / 2) (m1 + s1 / 2) (local_filter F d s0 s1 n0 n1 a).
Proof.
  intros H0 H1 M0 M1 H i j Hi Hj. rewrite filter_get by lia. f_equal. unfold filtered. f_equal.
  apply map_ext_in. intros di Hdi. apply map_ext_in. intros dj Hdj. apply window_in in Hdi; [|lia]. apply window_in in Hdj; [|lia].
  rewrite !reflect_in by lia. apply value_get, H; lia.
Qed.
Lemma iterate_shape s0 s1 n0 n1 : forall k a, shape a (Z.to_nat n0) (Z.to_nat n1) -> shape (iterate F d k s0 s1 n0 n1 a) (Z.to_nat n0) (Z.to_nat n1).
Proof. induction k as [|k IH]; intros a Ha; [exact Ha|]. cbn. apply IH, filter_shape. Qed.
Lemma known_iterate s0 s1 n0 n1 : 1 <= s0 -> 1 <= s1 -> forall k m0 m1 v a, 0 <= m0 -> 0 <= m1 ->
  known v n0 n1 m0 m1 a ->
  known (filtered_n F s0 s1 k v) n0 n1 (m0 + Z.of_nat k * (s0 / 2)) (m1 + Z.of_nat k * (s1 / 2)) (iterate F d k s0 s1 n0 n1 a).
Proof.
  intros H0 H1. induction k as [|k IH]; intros m0 m1 v a M0 M1 H; cbn [iterate filtered_n].
  - rewrite !Z.mul_0_l, !Z.add_0_r. exact H.
  - replace (m0 + Z.of_nat (S k) * (s0 / 2)) with (m0 + s0 / 2 + Z.of_nat k * (s0 / 2)) by (clear; rewrite Nat2Z.inj_succ; ring).
    replace (m1 + Z.of_nat (S k) * (s1 / 2)) with (m1 + s1 / 2 + Z.of_nat k * (s1 / 2)) by (clear; rewrite Nat2Z.inj_succ; ring).
    apply IH; [lia|lia|]. apply known_filter; assumption.
Qed.

(** After [k] iterations the values at [k] half windows of the borders are those of the filtered physical
    field, whatever this field is outside of the measured domain. *)
Theorem C103_interior : forall v a n0 n1 s0 s1 k, 1 <= s0 -> 1 <= s1 -> samples v n0 n1 a ->
  forall i j, Z.of_nat k * (s0 / 2) <= i < n0 - Z.of_nat k * (s0 / 2) -> Z.of_nat k * (s1 / 2) <= j < n1 - Z.of_nat k * (s1 / 2) ->
  get2 (iterate F d k s0 s1 n0 n1 a) (Z.to_nat i) (Z.to_nat j) = Some (filtered_n F s0 s1 k v i j).
Proof.
  intros v a n0 n1 s0 s1 k H0 H1 (Hsh & H) i j Hi Hj.
  apply (known_iterate s0 s1 n0 n1 H0 H1 k 0 0 v a); [lia|lia| |lia|lia].
  intros i' j' Hi' Hj'. apply H; lia.
Qed.

(** A filter that gives the value of a constant window does not change a constant field, even at the borders. *)
Theorem C103_constant : forall s0 s1 n0 n1 c k, (forall l : array2 V, (forall row x, In row l -> In x row -> x = c) -> F l = c) -> 1 <= n0 -> 1 <= n1 ->
  iterate F d k s0 s1 n0 n1 (repeat (repeat c (Z.to_nat n1)) (Z.to_nat n0)) = repeat (repeat c (Z.to_nat n1)) (Z.to_nat n0).
Proof.
  intros s0 s1 n0 n1 c k HF H0 H1. set (a := repeat (repeat c (Z.to_nat n1)) (Z.to_nat n0)).
  assert (One : local_filter F d s0 s1 n0 n1 a = a).
  { unfold local_filter. subst a.
    assert (G : forall {A} (h : Z -> A) n y, (forall i, 0 <= i < n -> h i = y) -> map h (range0 n) = repeat y (Z.to_nat n)).
    { clear. intros A h n y H. unfold range0. rewrite map_map. assert (K : forall m b, (forall i, (b <= i < b + m)%nat -> h (Z.of_nat i) = y) -> map (fun x => h (Z.of_nat x)) (seq b m) = repeat y m).
      { induction m as [|m IH]; intros b Hb; [reflexivity|]. cbn [seq map repeat]. rewrite Hb by lia. f_equal. apply IH. intros i Hi. apply Hb. lia. }
      apply K. intros i Hi. apply H. lia. }
    apply G. intros i Hi. apply G. intros j Hj. apply HF. intros row x Hr Hx. apply in_map_iff in Hr. destruct Hr as (di & <- & _).
    apply in_map_iff in Hx. destruct Hx as (dj & <- & _). unfold FieldFilterModel.value.
    pose proof (proj1 (C103_reflect n0 H0 (i + di))) as R0. pose proof (proj1 (C103_reflect n1 H1 (j + dj))) as R1.
    assert (K : forall {A} (y z : A) m k, (k < m)%nat -> nth k (repeat y m) z = y) by (clear; induction m as [|m IH]; intros [|k] Hk; cbn; try lia; [reflexivity|apply IH; lia]).
    rewrite K by lia. apply K. lia. }
  clearbody a. induction k as [|k IH]; [reflexivity|]. cbn [iterate]. rewrite One. exact IH.
Qed.

Definition vwell (f : vfield V) : Prop :=
  shape (g_vx f) (List.length (g_y f)) (List.length (g_x f)) /\ shape (g_vy f) (List.length (g_y f)) (List.length (g_x f)) /\
  match g_vz f with CArray a => shape a (List.length (g_y f)) (List.length (g_x f)) | _ => True end.

(** the field [g] is the field [f] without [mf] points along each border, its components being [vx] and [vy] *)
Definition cropped (mf : Z) (f g : vfield V) (vx vy : Z -> Z -> V) : Prop :=
  zlen (g_y g) = shape0 f - 2 * mf /\ zlen (g_x g) = shape1 f - 2 * mf /\
  (forall i, 0 <= i < shape0 f - 2 * mf -> nth_error (g_y g) (Z.to_nat i) = nth_error (g_y f) (Z.to_nat (mf + i))) /\
  (forall j, 0 <= j < shape1 f - 2 * mf -> nth_error (g_x g) (Z.to_nat j) = nth_error (g_x f) (Z.to_nat (mf + j))) /\
  (forall i j, 0 <= i < shape0 f - 2 * mf -> 0 <= j < shape1 f - 2 * mf ->
     get2 (g_vx g) (Z.to_nat i) (Z.to_nat j) = Some (vx (mf + i) (mf + j)) /\
     get2 (g_vy g) (Z.to_nat i) (Z.to_nat j) = Some (vy (mf + i) (mf + j))).

Lemma vextract_cropped mf (f : vfield V) A B C vx vy : 0 <= mf -> 2 * mf <= shape0 f -> 2 * mf <= shape1 f ->
  shape A (List.length (g_y f)) (List.length (g_x f)) -> shape B (List.length (g_y f)) (List.length (g_x f)) ->
  (forall i j, mf <= i < shape0 f - mf -> mf <= j < shape1 f - mf ->
     get2 A (Z.to_nat i) (Z.to_nat j) = Some (vx i j) /\ get2 B (Z.to_nat i) (Z.to_nat j) = Some (vy i j)) ->
  cropped mf f (vextract (mk_vfield (g_x f) (g_y f) A B C) mf (shape0 f - mf) mf (shape1 f - mf)) vx vy.
Proof.
  intros Hm H0 H1 HA HB H. unfold cropped, vextract, shape0, shape1 in *. cbn [g_x g_y g_vx g_vy].
  split; [|split; [|split; [|split]]].
  - rewrite GridProps.slice_len by lia. lia.
  - rewrite GridProps.slice_len by lia. lia.
  - intros i Hi. rewrite GridProps.slice_nth by lia. reflexivity.
  - intros i Hi. rewrite GridProps.slice_nth by lia. reflexivity.
  - intros i j Hi Hj. unfold zlen in *.
    rewrite (get2_extract A _ _ _ _ _ _ _ _ HA) by lia. rewrite (get2_extract B _ _ _ _ _ _ _ _ HB) by lia.
    apply H; lia.
Qed.

Lemma samples_iterate v n0 n1 a k s0 s1 : samples v n0 n1 a -> 
  shape (iterate F d k s0 s1 n0 n1 a) (Z.to_nat n0) (Z.to_nat n1).
Proof. intros [H _]. apply iterate_shape, H. Qed.

Lemma size_shape (a : array2 V) n0 n1 : shape a n0 n1 -> zsum (map zlen a) = Z.of_nat n0 * Z.of_nat n1.
Proof.
  clear F d. intros [<- H]. induction H as [|row a Hr Ha IH]; [reflexivity|].
  change (zsum (map zlen (row :: a))) with (zlen row + zsum (map zlen a)). cbn [List.length].
  rewrite IH, Nat2Z.inj_succ. unfold zlen. rewrite Hr. ring.
Qed.

(** One iteration of the median filter with [valid]: the values returned are those of the filtered physical
    field, whatever this field is outside of the measured domain, at the coordinates returned; the third
    component is filtered like the others. *)
Theorem C103_median_valid : forall s0 s1 f vx vy, 1 <= s0 -> 1 <= s1 ->
  let mf := Z.max s0 s1 / 2 in
  2 * mf <= shape0 f -> 2 * mf <= shape1 f -> g_vz f <> CZeroDim ->
  samples vx (shape0 f) (shape1 f) (g_vx f) -> samples vy (shape0 f) (shape1 f) (g_vy f) ->
  exists g, median_filter F d s0 s1 1 true f = Ok g /\
    cropped mf f g (filtered F s0 s1 vx) (filtered F s0 s1 vy) /\
    (g_vz f = CNumber -> g_vz g = CNumber) /\
    (forall a vz, 1 < shape0 f * shape1 f -> g_vz f = CArray a -> samples vz (shape0 f) (shape1 f) a -> exists b, g_vz g = CArray b /\
       forall i j, 0 <= i < shape0 f - 2 * mf -> 0 <= j < shape1 f - 2 * mf ->
         get2 b (Z.to_nat i) (Z.to_nat j) = Some (filtered F s0 s1 vz (mf + i) (mf + j))).
Proof.
  intros s0 s1 f vx vy H0 H1 mf Hm0 Hm1 Hz Hx Hy.
  assert (Hmf : 0 <= mf /\ s0 / 2 <= mf /\ s1 / 2 <= mf) by (subst mf; clear - H0 H1; lia).
  unfold median_filter. fold mf. clearbody mf.
  assert (K : forall v a, samples v (shape0 f) (shape1 f) a -> forall i j, mf <= i < shape0 f - mf -> mf <= j < shape1 f - mf ->
     get2 (iterate F d 1 s0 s1 (shape0 f) (shape1 f) a) (Z.to_nat i) (Z.to_nat j) = Some (filtered F s0 s1 v i j)).
  { intros v a Ha i j Hi Hj. apply (C103_interior v a _ _ s0 s1 1 H0 H1 Ha); lia. }
  assert (SH : forall v a, samples v (shape0 f) (shape1 f) a -> shape (iterate F d 1 s0 s1 (shape0 f) (shape1 f) a) (List.length (g_y f)) (List.length (g_x f))).
  { intros v a Ha. pose proof (samples_iterate v _ _ a 1 s0 s1 Ha) as P. unfold shape0, shape1, zlen in P |- *. rewrite !Nat2Z.id in P. exact P. }
  assert (C : forall C, cropped mf f (vextract (mk_vfield (g_x f) (g_y f) (iterate F d 1 s0 s1 (shape0 f) (shape1 f) (g_vx f)) (iterate F d 1 s0 s1 (shape0 f) (shape1 f) (g_vy f)) C) mf (shape0 f - mf) mf (shape1 f - mf))
     (filtered F s0 s1 vx) (filtered F s0 s1 vy)).
  { intros C. apply vextract_cropped; [apply Hmf|exact Hm0|exact Hm1|eapply SH, Hx|eapply SH, Hy|].
    intros i j Hi Hj. split; [apply K with (v := vx)|apply K with (v := vy)]; assumption. }
  destruct (g_vz f) as [| |a] eqn:Ez; [|congruence|]; cbn [bind]; eexists; split; try reflexivity; (split; [apply C|]).
  - split; [reflexivity|discriminate].
  - split; [discriminate|]. intros a' vz Hsz Ea Hv. injection Ea as <-. cbn [vextract g_vz].
    pose proof (SH vz a Hv) as S. rewrite (size_shape _ _ _ S). change (Z.of_nat (List.length (g_y f))) with (shape0 f). change (Z.of_nat (List.length (g_x f))) with (shape1 f).
    rewrite (proj2 (Z.ltb_lt _ _) Hsz). eexists. split; [reflexivity|]. intros i j Hi Hj.
    rewrite (get2_extract _ _ _ _ _ _ _ _ _ S) by (unfold shape0, shape1, zlen in *; lia). apply K with (v := vz); [exact Hv|lia|lia].
Qed.

(** The same for the gaussian filter, except that the third component is only cropped. *)
Theorem C103_gaussian_valid : forall lw0 lw1 f vx vy, 0 <= lw0 -> 0 <= lw1 ->
  let mf := Z.max lw0 lw1 in
  2 * mf <= shape0 f -> 2 * mf <= shape1 f ->
  samples vx (shape0 f) (shape1 f) (g_vx f) -> samples vy (shape0 f) (shape1 f) (g_vy f) ->
  exists g, gaussian_filter F d lw0 lw1 1 true f = Ok g /\
    cropped mf f g (filtered F (2 * lw0 + 1) (2 * lw1 + 1) vx) (filtered F (2 * lw0 + 1) (2 * lw1 + 1) vy) /\
    (forall a vz, 1 < shape0 f * shape1 f -> g_vz f = CArray a -> samples vz (shape0 f) (shape1 f) a -> exists b, g_vz g = CArray b /\
       forall i j, 0 <= i < shape0 f - 2 * mf -> 0 <= j < shape1 f - 2 * mf ->
         get2 b (Z.to_nat i) (Z.to_nat j) = Some (vz (mf + i) (mf + j))).
Proof.
  intros lw0 lw1 f vx vy H0 H1 mf Hm0 Hm1 Hx Hy. unfold gaussian_filter.
  assert (Emf : (2 * Z.max lw0 lw1 + 1) / 2 = mf) by (subst mf; clear; lia). rewrite Emf. clear Emf.
  assert (Hmf : 0 <= mf /\ (2 * lw0 + 1) / 2 <= mf /\ (2 * lw1 + 1) / 2 <= mf) by (subst mf; clear - H0 H1; lia). clearbody mf.
  assert (K : forall v a, samples v (shape0 f) (shape1 f) a -> forall i j, mf <= i < shape0 f - mf -> mf <= j < shape1 f - mf ->
     get2 (iterate F d 1 (2 * lw0 + 1) (2 * lw1 + 1) (shape0 f) (shape1 f) a) (Z.to_nat i) (Z.to_nat j) = Some (filtered F (2 * lw0 + 1) (2 * lw1 + 1) v i j)).
  { intros v a Ha i j Hi Hj. apply (C103_interior v a _ _ (2 * lw0 + 1) (2 * lw1 + 1) 1); try exact Ha; clear - H0 H1 Hmf Hi Hj; lia. }
  assert (SH : forall v a, samples v (shape0 f) (shape1 f) a -> shape (iterate F d 1 (2 * lw0 + 1) (2 * lw1 + 1) (shape0 f) (shape1 f) a) (List.length (g_y f)) (List.length (g_x f))).
  { intros v a Ha. pose proof (samples_iterate v _ _ a 1 (2 * lw0 + 1) (2 * lw1 + 1) Ha) as P. unfold shape0, shape1, zlen in P |- *. rewrite !Nat2Z.id in P. exact P. }
  eexists. split; [reflexivity|]. split.
  - apply vextract_cropped; [apply Hmf|exact Hm0|exact Hm1|eapply SH, Hx|eapply SH, Hy|].
    intros i j Hi Hj. split; [apply K with (v := vx)|apply K with (v := vy)]; assumption.
  - intros a vz Hsz Ea [Hs Hv]. cbn [vextract g_vz]. rewrite Ea.
    assert (S : shape a (List.length (g_y f)) (List.length (g_x f))) by (unfold shape0, shape1, zlen in Hs; rewrite !Nat2Z.id in Hs; exact Hs).
    rewrite (size_shape _ _ _ S). change (Z.of_nat (List.length (g_y f))) with (shape0 f). change (Z.of_nat (List.length (g_x f))) with (shape1 f).
    rewrite (proj2 (Z.ltb_lt _ _) Hsz). eexists. split; [reflexivity|]. intros i j Hi Hj.
    rewrite (get2_extract _ _ _ _ _ _ _ _ _ S) by (unfold shape0, shape1, zlen in *; lia). apply Hv; lia.
Qed.

(** Without [valid]: the grid is unchanged, and so are the sizes. *)
Theorem C103_not_valid : forall s0 s1 lw0 lw1 niter f g, vwell f ->
  (median_filter F d s0 s1 niter false f = Ok g \/ gaussian_filter F d lw0 lw1 niter false f = Ok g) ->
  g_x g = g_x f /\ g_y g = g_y f /\ vwell g.
Proof.
  assert (SH : forall (f : vfield V) k s0 s1 a, shape a (List.length (g_y f)) (List.length (g_x f)) -> shape (iterate F d k s0 s1 (shape0 f) (shape1 f) a) (List.length (g_y f)) (List.length (g_x f))).
  { intros f k s0 s1 a Ha. pose proof (iterate_shape s0 s1 (shape0 f) (shape1 f) k a) as P. unfold shape0, shape1, zlen in P |- *. rewrite !Nat2Z.id in P. apply P, Ha. }
  intros s0 s1 lw0 lw1 niter f g (Hx & Hy & Hz) H. destruct H as [H | H].
  - unfold median_filter in H.
    destruct (g_vz f) as [| |a] eqn:Ez; [|destruct niter; [|discriminate]|]; cbn [bind] in H; injection H as <-; cbn [g_x g_y];
      (split; [reflexivity|split; [reflexivity|]]); split; cbn [g_x g_y g_vx g_vy g_vz]; repeat split; try apply SH; try assumption; try apply Hx; try apply Hy;
      apply SH; assumption.
  - unfold gaussian_filter in H. injection H as <-. cbn [g_x g_y]. split; [reflexivity|split; [reflexivity|]].
    split; [|split]; cbn [g_x g_y g_vx g_vy g_vz]; [apply SH, Hx|apply SH, Hy|exact Hz].
Qed.

(** A field read from a file has a third component of dimension zero: the median filter raises. *)
Theorem C103_loaded_refuted : forall s0 s1 niter valid f, g_vz f = CZeroDim -> (1 <= niter)%nat ->
  median_filter F d s0 s1 niter valid f = Err RuntimeError.
Proof. intros s0 s1 niter valid f Hz Hn. unfold median_filter. rewrite Hz. destruct niter; [lia|reflexivity]. Qed.
End Filter.
Print Assumptions C103_interior.
Print Assumptions C103_constant.
Print Assumptions C103_median_valid.
Print Assumptions C103_gaussian_valid.
Print Assumptions C103_not_valid.
Print Assumptions C103_loaded_refuted.

(** *** Examples *)
Fixpoint insert_z (x : Z) (l : list Z) : list Z := match l with [] => [x] | y :: l' => if x <=? y then x :: l else y :: insert_z x l' end.
(** [scipy.ndimage.median_filter]: the value of rank [size // 2] *)
Definition median (w : array2 Z) : Z := let l := fold_right insert_z [] (List.concat w) in nth (List.length l / 2) l 0.

Definition wave (i j : Z) : Z := if j =? -1 then 5 else if j mod 2 =? 0 then 0 else 10.
Definition wave0 (i j : Z) : Z := if j =? -1 then 0 else if j mod 2 =? 0 then 0 else 10.
Definition ex_array : array2 Z := repeat [0; 10; 0; 10; 0] 3.
Definition ex_field : vfield Z := mk_vfield [0; 1; 2; 3; 4] [0; 1; 2] ex_array ex_array CNumber.
Lemma wave_samples v : (forall i j, 0 <= j -> v i j = if j mod 2 =? 0 then 0 else 10) -> samples v 3 5 ex_array.
Proof.
  intros Hv. split; [split; [reflexivity|repeat constructor]|]. intros i j Hi Hj. rewrite (Hv i j) by lia.
  assert (i = 0 \/ i = 1 \/ i = 2) as Ci by lia. assert (j = 0 \/ j = 1 \/ j = 2 \/ j = 3 \/ j = 4) as Cj by lia.
  destruct Ci as [-> | [-> | ->]]; destruct Cj as [-> | [-> | [-> | [-> | ->]]]]; reflexivity.
Qed.
Lemma wave_ok : samples wave 3 5 ex_array.
Proof. apply wave_samples. intros i j Hj. unfold wave. destruct (j =? -1) eqn:E; [lia|reflexivity]. Qed.
Lemma wave0_ok : samples wave0 3 5 ex_array.
Proof. apply wave_samples. intros i j Hj. unfold wave0. destruct (j =? -1) eqn:E; [lia|reflexivity]. Qed.

(** With more than one iteration, points that depend on the values outside of the domain are returned: two
    physical fields with the same measured values have different filtered values at the first point returned, so
    that the value returned cannot be right for both. *)
Theorem C103_iterations_refuted : exists f v v' s0 s1 g w,
  samples v (shape0 f) (shape1 f) (g_vx f) /\ samples v' (shape0 f) (shape1 f) (g_vx f) /\
  median_filter median 0 s0 s1 2 true f = Ok g /\ get2 (g_vx g) 0 0 = Some w /\
  w = filtered_n median s0 s1 2 v' 1 1 /\ w <> filtered_n median s0 s1 2 v 1 1 /\
  nth_error (g_x g) 0 = nth_error (g_x f) 1 /\ nth_error (g_y g) 0 = nth_error (g_y f) 1.
Proof.
  exists ex_field, wave, wave0, 1, 3. eexists. exists 0. split; [exact wave_ok|]. split; [exact wave0_ok|].
  split; [reflexivity|]. repeat split; try reflexivity. intros H. vm_compute in H. discriminate.
Qed.
Print Assumptions C103_iterations_refuted.

(** The gaussian filter does not filter the third component: two equal components become different. *)
Theorem C103_gaussian_vz_refuted : exists F f g, g_vz f = CArray (g_vx f) /\ gaussian_filter F 0 0 1 1 true f = Ok g /\
  g_vz g <> CArray (g_vx g).
Proof.
  exists median, (mk_vfield [0; 1; 2; 3; 4] [0; 1; 2] ex_array ex_array (CArray ex_array)). eexists.
  split; [reflexivity|]. split; [reflexivity|]. intros H. vm_compute in H. discriminate.
Qed.
Print Assumptions C103_gaussian_vz_refuted.

(** the hypotheses of the theorems are met *)
Example C103_ex : exists g, median_filter median 0 1 3 1 true ex_field = Ok g /\ g_vx g = [[0; 10; 0]] /\ g_x g = [1; 2; 3] /\ g_y g = [1].
Proof. eexists. repeat split; reflexivity. Qed.
Example C103_ex_hyps : 2 * (Z.max 1 3 / 2) <= shape0 ex_field /\ 2 * (Z.max 1 3 / 2) <= shape1 ex_field /\ samples wave (shape0 ex_field) (shape1 ex_field) (g_vx ex_field) /\ vwell ex_field.
Proof. split; [cbn; lia|]. split; [cbn; lia|]. split; [exact wave_ok|]. repeat split; repeat constructor. Qed.

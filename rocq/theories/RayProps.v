(** Property C98: the optical paths of the direct calibration. *)
From Coq Require Import Reals Lra Lia Permutation.
From Verif Require Import PyBase StrModel MonitorJobModel CalibModel RayModel.
Local Open Scope R_scope.

(** *** Specification *)

(** the point [q + t d] *)
Definition point_at (q d : vec3) (t : R) : vec3 := (v0 q + t * v0 d, v1 q + t * v1 d, v2 q + t * v2 d).
Definition on_line (q d p : vec3) : Prop := exists t, p = point_at q d t.

(** what numpy says of the third result of [svd]: orthonormal lines, and the matrix is U S v with decreasing singular values;
    here in terms of the product of the transposed matrix and the matrix (squares of the singular values) *)
Definition gram (rows : list vec3) (w : vec3) : vec3 :=
  fold_right (fun p acc => (dot3 p w * v0 p + v0 acc, dot3 p w * v1 p + v1 acc, dot3 p w * v2 p + v2 acc)) (0, 0, 0) rows.
Definition orthonormal (a b c : vec3) : Prop :=
  dot3 a a = 1 /\ dot3 b b = 1 /\ dot3 c c = 1 /\ dot3 a b = 0 /\ dot3 a c = 0 /\ dot3 b c = 0.
Definition is_svd (rows : list vec3) (v : vec3 * vec3 * vec3) : Prop :=
  let '(a, b, c) := v in
  orthonormal a b c /\
  exists s0 s1 s2, s0 >= s1 /\ s1 >= s2 /\ s2 >= 0 /\
  forall w, gram rows w = (s0 * dot3 a w * v0 a + s1 * dot3 b w * v0 b + s2 * dot3 c w * v0 c,
                           s0 * dot3 a w * v1 a + s1 * dot3 b w * v1 b + s2 * dot3 c w * v1 c,
                           s0 * dot3 a w * v2 a + s1 * dot3 b w * v2 b + s2 * dot3 c w * v2 c).

(** the matrix given to [svd] has, in any order, the differences between the points and the point of the result *)
Definition good_svd (svd : list vec3 -> vec3 * vec3 * vec3) (levels : list level) : Prop :=
  let p := (mean (map v0 (valid_points levels)), mean (map v1 (valid_points levels)), mean (map snd levels)) in
  forall rows, Permutation rows (map (fun x => sub3 x p) (valid_points levels)) -> is_svd rows (svd rows).

(** *** Lemmas *)
Lemma vec3_ext (a b : vec3) : v0 a = v0 b -> v1 a = v1 b -> v2 a = v2 b -> a = b.
Proof. destruct a as [[a0 a1] a2], b as [[b0 b1] b2]. cbn. intros -> -> ->. reflexivity. Qed.
Lemma vec3_inv (a b : vec3) : a = b -> v0 a = v0 b /\ v1 a = v1 b /\ v2 a = v2 b.
Proof. intros ->. auto. Qed.

Lemma insert_row_perm p l : Permutation (insert_row p l) (p :: l).
Proof. induction l as [|q l IH]; cbn; [reflexivity|]. destruct (Rle_dec _ _); [reflexivity|]. rewrite IH. apply perm_swap. Qed.
Lemma sort_rows_perm l : Permutation (sort_rows l) l.
Proof. induction l as [|p l IH]; cbn; [reflexivity|]. rewrite insert_row_perm, IH. reflexivity. Qed.

Lemma gram_perm l l' w : Permutation l l' -> gram l w = gram l' w.
Proof.
  induction 1 as [|p l l' _ IH|p q l|l1 l2 l3 _ IH1 _ IH2]; [reflexivity| | |congruence].
  - cbn [gram fold_right]. change (fold_right _ (0, 0, 0) l) with (gram l w). change (fold_right _ (0, 0, 0) l') with (gram l' w). rewrite IH. reflexivity.
  - cbn [gram fold_right]. apply vec3_ext; cbn [v0 v1 v2 fst snd]; ring.
Qed.

Lemma gram_line d ts w : gram (map (fun t => (t * v0 d, t * v1 d, t * v2 d)) ts) w =
  let T := fold_right Rplus 0 (map (fun t => t * t) ts) in (T * dot3 d w * v0 d, T * dot3 d w * v1 d, T * dot3 d w * v2 d).
Proof.
  cbv zeta. induction ts as [|t ts IH]; cbn [map gram fold_right].
  - apply vec3_ext; cbn; ring.
  - change (fold_right _ (0, 0, 0) ?l) with (gram l w). rewrite IH. apply vec3_ext; unfold dot3; cbn [v0 v1 v2 fst snd]; ring.
Qed.

Lemma squares_pos ts : (exists t, In t ts /\ t <> 0) -> 0 < fold_right Rplus 0 (map (fun t => t * t) ts).
Proof.
  assert (N : forall l, 0 <= fold_right Rplus 0 (map (fun t => t * t) l)) by (induction l as [|x l IH]; cbn; [lra|nra]).
  intros (t & Hin & Ht). induction ts as [|x ts IH]; [destruct Hin|]. cbn [map fold_right]. specialize (N ts). destruct Hin as [->|Hin].
  - assert (0 < t * t) by nra. lra.
  - specialize (IH Hin). nra.
Qed.

(** the vector product of the two last lines, for points on a line through the origin *)
Lemma svd_line d ts a b c : (exists t, In t ts /\ t <> 0) -> 0 < v2 d ->
  is_svd (map (fun t => (t * v0 d, t * v1 d, t * v2 d)) ts) (a, b, c) ->
  let e := cross c b in
  (v2 e < 0 -> neg3 e = scale (/ norm3 d) d) /\ (~ v2 e < 0 -> e = scale (/ norm3 d) d).
Proof.
  intros HT Hd (O & s0 & s1 & s2 & H01 & H12 & H2 & G) e.
  apply squares_pos in HT. set (T := fold_right Rplus 0 (map (fun t => t * t) ts)) in *.
  destruct O as (Oa & Ob & Oc & Oab & Oac & Obc).
  assert (Q : forall w, T * dot3 d w * v0 d = s0 * dot3 a w * v0 a + s1 * dot3 b w * v0 b + s2 * dot3 c w * v0 c /\
                        T * dot3 d w * v1 d = s0 * dot3 a w * v1 a + s1 * dot3 b w * v1 b + s2 * dot3 c w * v1 c /\
                        T * dot3 d w * v2 d = s0 * dot3 a w * v2 a + s1 * dot3 b w * v2 b + s2 * dot3 c w * v2 c).
  { intros w. specialize (G w). rewrite gram_line in G. cbv zeta in G. fold T in G. apply vec3_inv in G. cbn [v0 v1 v2 fst snd] in G. exact G. }
  clear G.
  (* products with a vector u *)
  assert (P : forall w u, T * dot3 d w * dot3 d u = s0 * dot3 a w * dot3 a u + s1 * dot3 b w * dot3 b u + s2 * dot3 c w * dot3 c u).
  { intros w u. destruct (Q w) as (Q0 & Q1 & Q2). unfold dot3 at 2 4 6 8.
    transitivity (T * dot3 d w * v0 d * v0 u + T * dot3 d w * v1 d * v1 u + T * dot3 d w * v2 d * v2 u); [ring|]. rewrite Q0, Q1, Q2. ring. }
  assert (Oba : dot3 b a = 0) by (rewrite <- Oab; unfold dot3; ring).
  assert (Oca : dot3 c a = 0) by (rewrite <- Oac; unfold dot3; ring).
  assert (Ocb : dot3 c b = 0) by (rewrite <- Obc; unfold dot3; ring).
  assert (Paa := P a a). assert (Pbb := P b b). assert (Pcc := P c c). assert (Pab := P a b).
  rewrite Oa, Oba, Oca in Paa. rewrite Ob, Oab, Ocb in Pbb. rewrite Oc, Oac, Obc in Pcc. rewrite Oa, Oab, Oba, Oca, Ob, Ocb in Pab.
  assert (E1 : s1 = 0).
  { destruct (Req_dec s1 0) as [->|N]; [reflexivity|exfalso]. assert (0 < s1) by lra. assert (0 < s0) by lra.
    assert (Z1 : dot3 d b <> 0) by (intros Z; rewrite Z in Pbb; nra). assert (Z0 : dot3 d a <> 0) by (intros Z; rewrite Z in Paa; nra).
    assert (HH : T * dot3 d a * dot3 d b = 0) by (rewrite Pab; ring). apply Rmult_integral in HH. destruct HH as [HH|HH]; [|contradiction].
    apply Rmult_integral in HH. destruct HH; [lra|contradiction]. }
  assert (E2 : s2 = 0) by lra.
  assert (SQ : forall x, T * x * x = 0 -> x = 0) by (intros x Hx; apply Rmult_integral in Hx; destruct Hx as [Hx|Hx]; [apply Rmult_integral in Hx; destruct Hx; [lra|assumption]|assumption]).
  assert (Db : dot3 d b = 0) by (apply SQ; rewrite Pbb, E1, E2; ring). assert (Dc : dot3 d c = 0) by (apply SQ; rewrite Pcc, E1, E2; ring).
  clear Q P Paa Pbb Pcc Pab.
  (* d is parallel to e *)
  assert (Ne : dot3 e e = 1).
  { transitivity (dot3 c c * dot3 b b - dot3 c b * dot3 c b); [unfold e, cross, dot3; cbn [v0 v1 v2 fst snd]; ring|]. rewrite Oc, Ob, Ocb. ring. }
  set (k := dot3 d e).
  assert (K : forall i, (i = v0 \/ i = v1 \/ i = v2) -> i d = k * i e).
  { assert (C : cross d e = (0, 0, 0)).
    { transitivity (v0 c * dot3 d b - v0 b * dot3 d c, v1 c * dot3 d b - v1 b * dot3 d c, v2 c * dot3 d b - v2 b * dot3 d c).
      - apply vec3_ext; unfold e, cross, dot3; cbn [v0 v1 v2 fst snd]; ring.
      - rewrite Db, Dc. apply vec3_ext; cbn [v0 v1 v2 fst snd]; ring. }
    apply vec3_inv in C. destruct C as (C0 & C1 & C2). change (v0 (0, 0, 0)) with 0 in C0. change (v1 (0, 0, 0)) with 0 in C1. change (v2 (0, 0, 0)) with 0 in C2.
    intros i [-> | [-> | ->]]; unfold k; apply Rminus_diag_uniq.
    - transitivity (v0 d * (1 - dot3 e e) + (v1 e * v2 (cross d e) - v2 e * v1 (cross d e))); [unfold cross, dot3; cbn [v0 v1 v2 fst snd]; ring|]. rewrite C1, C2, Ne. ring.
    - transitivity (v1 d * (1 - dot3 e e) + (v2 e * v0 (cross d e) - v0 e * v2 (cross d e))); [unfold cross, dot3; cbn [v0 v1 v2 fst snd]; ring|]. rewrite C0, C2, Ne. ring.
    - transitivity (v2 d * (1 - dot3 e e) + (v0 e * v1 (cross d e) - v1 e * v0 (cross d e))); [unfold cross, dot3; cbn [v0 v1 v2 fst snd]; ring|]. rewrite C0, C1, Ne. ring. }
  assert (Kd0 := K v0 (or_introl eq_refl)). assert (Kd1 := K v1 (or_intror (or_introl eq_refl))). assert (Kd2 := K v2 (or_intror (or_intror eq_refl))). clear K.
  assert (Nd : norm3 d = Rabs k).
  { unfold norm3. replace (dot3 d d) with (Rsqr k); [apply sqrt_Rsqr_abs|]. unfold dot3. rewrite Kd0, Kd1, Kd2. unfold Rsqr. rewrite <- (Rmult_1_r (k * k)), <- Ne. unfold dot3. ring. }
  rewrite Nd. split; intros Hs.
  - assert (k < 0) by nra. rewrite Rabs_left by assumption. apply vec3_ext; cbn [neg3 scale v0 v1 v2 fst snd]; fold (v0 d) (v1 d) (v2 d) (v0 e) (v1 e) (v2 e); rewrite ?Kd0, ?Kd1, ?Kd2; field; lra.
  - assert (0 < k) by nra. rewrite Rabs_right by lra. apply vec3_ext; cbn [scale v0 v1 v2 fst snd]; fold (v0 d) (v1 d) (v2 d) (v0 e) (v1 e) (v2 e); rewrite ?Kd0, ?Kd1, ?Kd2; field; lra.
Qed.

Lemma mean_affine {A} (f g : A -> R) (a b : R) (l : list A) : l <> [] -> (forall x, In x l -> f x = a + b * g x) -> mean (map f l) = a + b * mean (map g l).
Proof.
  intros N H. unfold mean. rewrite !map_length.
  assert (E : fold_right Rplus 0 (map f l) = INR (List.length l) * a + b * fold_right Rplus 0 (map g l)).
  { clear N. induction l as [|x l IH]; [cbn; ring|]. cbn [map fold_right List.length]. rewrite IH by (intros; apply H; right; assumption). rewrite (H x (or_introl eq_refl)), S_INR. ring. }
  rewrite E. assert (INR (List.length l) <> 0) by (apply not_0_INR; destruct l; [congruence|discriminate]). field. assumption.
Qed.

Section Theorems.
Variable svd : list vec3 -> vec3 * vec3 * vec3.
Variables (q d : vec3) (levels : list level).
(** the points given by the levels for this pixel are on one line, which is not horizontal *)
Hypothesis H_line : Forall (on_line q d) (valid_points levels).
Hypothesis H_up : 0 < v2 d.
(** at least two levels give a point, at different heights *)
Hypothesis H_two : exists p p', In p (valid_points levels) /\ In p' (valid_points levels) /\ v2 p <> v2 p'.

Notation all_heights := (mean (map snd levels)).
Notation valid_heights := (mean (map v2 (valid_points levels))).

Lemma valid_nonempty : valid_points levels <> [].
Proof. destruct H_two as (p & _ & H & _). intros E. rewrite E in H. destruct H. Qed.

Lemma two_rows : (1 <? List.length (valid_points levels))%nat = true.
Proof.
  destruct H_two as (p & p' & H & H' & N). destruct (valid_points levels) as [|a [|b l]]; [destruct H| |reflexivity].
  exfalso. destruct H as [<-|[]], H' as [<-|[]]. congruence.
Qed.

Lemma slope p : In p (valid_points levels) -> v0 p = (v0 q - v2 q * (v0 d / v2 d)) + (v0 d / v2 d) * v2 p /\ v1 p = (v1 q - v2 q * (v1 d / v2 d)) + (v1 d / v2 d) * v2 p.
Proof.
  intros H. rewrite Forall_forall in H_line. destruct (H_line p H) as (t & ->). unfold point_at. cbn [v0 v1 v2 fst snd]. fold (v0 q) (v1 q) (v2 q) (v0 d) (v1 d) (v2 d). split; field; lra.
Qed.

Lemma mean_x : mean (map v0 (valid_points levels)) = (v0 q - v2 q * (v0 d / v2 d)) + (v0 d / v2 d) * valid_heights.
Proof. apply mean_affine; [exact valid_nonempty|]. intros p H. apply slope, H. Qed.
Lemma mean_y : mean (map v1 (valid_points levels)) = (v1 q - v2 q * (v1 d / v2 d)) + (v1 d / v2 d) * valid_heights.
Proof. apply mean_affine; [exact valid_nonempty|]. intros p H. apply slope, H. Qed.

(** ** Theorems *)

(** The point given for the pixel is on its optical path if and only if the levels which do not see the pixel do not change the
    mean height, or the path is vertical. *)
Theorem C98_point_iff : exists p e, pixel2line svd levels = Some (p, e) /\
  (on_line q d p <-> (all_heights = valid_heights \/ (v0 d = 0 /\ v1 d = 0))).
Proof.
  unfold pixel2line. rewrite map_length, two_rows. destruct (svd _) as [[a b] c]. eexists. eexists. split; [reflexivity|].
  rewrite mean_x, mean_y. split.
  - intros (t & E). apply vec3_inv in E. unfold point_at in E. cbn [v0 v1 v2 fst snd] in E. fold (v0 q) (v1 q) (v2 q) (v0 d) (v1 d) (v2 d) in E.
    destruct E as (E0 & E1 & E2). destruct (Req_dec all_heights valid_heights) as [E|N]; [left; exact E|right].
    assert (forall x s, (x - v2 q * (s / v2 d)) + (s / v2 d) * valid_heights = x + t * s -> s = 0).
    { intros x s Hs. assert (s / v2 d * (valid_heights - all_heights) = 0) by (rewrite E2; replace (s / v2 d * (valid_heights - (v2 q + t * v2 d))) with ((x - v2 q * (s / v2 d)) + (s / v2 d) * valid_heights - (x + t * s)) by (field; lra); lra).
      apply Rmult_integral in H. destruct H as [H|H]; [|exfalso; lra]. unfold Rdiv in H. apply Rmult_integral in H. destruct H as [H|H]; [exact H|].
      exfalso. assert (/ v2 d > 0) by (apply Rinv_0_lt_compat; lra). lra. }
    split; [exact (H _ _ E0)|exact (H _ _ E1)].
  - intros H. exists ((all_heights - v2 q) / v2 d). unfold point_at. apply vec3_ext; cbn [v0 v1 v2 fst snd]; fold (v0 q) (v1 q) (v2 q) (v0 d) (v1 d) (v2 d).
    + destruct H as [<-|(-> & _)]; field; lra.
    + destruct H as [<-|(_ & ->)]; field; lra.
    + field. lra.
Qed.

(** In these cases the direction is that of the optical path, of norm one and upwards. *)
Theorem C98_direction_partial : all_heights = valid_heights \/ (v0 d = 0 /\ v1 d = 0) ->
  good_svd svd levels ->
  exists p, pixel2line svd levels = Some (p, scale (/ norm3 d) d) /\ on_line q d p.
Proof.
  intros H Hsvd. destruct C98_point_iff as (p & e & E & I). assert (O := proj2 I H). clear I.
  exists p. split; [|exact O]. rewrite E. f_equal. f_equal.
  unfold pixel2line in E. rewrite map_length, two_rows in E.
  set (rows := map (fun p0 => sub3 p0 _) (valid_points levels)) in E.
  assert (R : rows = map (fun t => (t * v0 d, t * v1 d, t * v2 d)) (map (fun p0 => (v2 p0 - all_heights) / v2 d) (valid_points levels))).
  { unfold rows. rewrite map_map. apply map_ext_in. intros p0 Hp. destruct (slope p0 Hp) as (S0 & S1). rewrite mean_x, mean_y.
    apply vec3_ext; unfold sub3; cbn [v0 v1 v2 fst snd]; fold (v0 p0) (v1 p0) (v2 p0) (v0 d) (v1 d) (v2 d).
    - rewrite S0. destruct H as [->|(-> & _)]; field; lra.
    - rewrite S1. destruct H as [->|(_ & ->)]; field; lra.
    - field. lra. }
  specialize (Hsvd (sort_rows rows) (sort_rows_perm rows)). destruct (svd (sort_rows rows)) as [[a b] c] eqn:V.
  assert (SV : is_svd rows (a, b, c)).
  { destruct Hsvd as (On & s0 & s1 & s2 & A & B & C & G). split; [exact On|]. exists s0, s1, s2. repeat split; try assumption. intros w. rewrite <- (gram_perm _ _ w (sort_rows_perm rows)). apply G. }
  rewrite R in SV. apply svd_line in SV; [|destruct H_two as (p1 & p2 & I1 & I2 & N)|exact H_up].
  - destruct SV as (S1 & S2). destruct (Rlt_dec (v2 (cross c b)) 0) as [L|L]; injection E as _ <-; [apply S1, L|apply S2, L].
  - assert (Z : forall x, x - all_heights <> 0 -> (x - all_heights) / v2 d <> 0).
    { intros x Hx Q. unfold Rdiv in Q. apply Rmult_integral in Q. destruct Q as [Q|Q]; [contradiction|]. assert (/ v2 d > 0) by (apply Rinv_0_lt_compat; lra). lra. }
    destruct (Req_dec (v2 p1) all_heights) as [Q|Q].
    + exists ((v2 p2 - all_heights) / v2 d). split; [apply in_map_iff; exists p2; auto|]. apply Z. rewrite <- Q. lra.
    + exists ((v2 p1 - all_heights) / v2 d). split; [apply in_map_iff; exists p1; auto|]. apply Z. lra.
Qed.

(** In particular when all levels see the pixel. *)
Theorem C98_all_levels : Forall (fun l => fst l <> None) levels -> good_svd svd levels ->
  exists p, pixel2line svd levels = Some (p, scale (/ norm3 d) d) /\ on_line q d p.
Proof.
  intros A S. apply C98_direction_partial; [|exact S]. left. f_equal. clear - A. induction A as [|[[[x y]|] z] l H _ IH]; [reflexivity| |cbn in H; congruence].
  cbn. f_equal. exact IH.
Qed.
End Theorems.
Print Assumptions C98_point_iff.
Print Assumptions C98_direction_partial.
Print Assumptions C98_all_levels.

(** There is no line if and only if less than two levels see the pixel. *)
Theorem C98_undefined_iff : forall svd levels, pixel2line svd levels = None <-> (List.length (filter (fun l : level => match fst l with Some _ => true | None => false end) levels) < 2)%nat.
Proof.
  intros svd levels. unfold pixel2line. rewrite map_length.
  assert (List.length (valid_points levels) = List.length (filter (fun l : level => match fst l with Some _ => true | None => false end) levels)) as ->.
  { induction levels as [|[[[x y]|] z] l IH]; cbn; [reflexivity|f_equal; exact IH|exact IH]. }
  destruct (1 <? _)%nat eqn:E; [destruct (svd _) as [[a b] c]|].
  - apply Nat.ltb_lt in E. split; [discriminate|lia].
  - apply Nat.ltb_ge in E. split; [lia|reflexivity].
Qed.
Print Assumptions C98_undefined_iff.

(** Three levels, the highest one does not see the pixel: the two points are on the line x = 3 z, y = 0, but neither the point
    nor the direction of the result is right, whatever the singular vectors computed. *)
Definition levels_missing : list level := [(Some (-3, 0), -1); (Some (3, 0), 1); (None, 12)].
Lemma centre_missing : mean (map v0 (valid_points levels_missing)) = 0 /\ mean (map v1 (valid_points levels_missing)) = 0 /\ mean (map snd levels_missing) = 4.
Proof. unfold mean, levels_missing. cbn. repeat split; field. Qed.
Lemma gram_missing rows w : Permutation rows (map (fun x => sub3 x (0, 0, 4)) (valid_points levels_missing)) -> gram rows w = (18 * v0 w + 6 * v2 w, 0, 6 * v0 w + 34 * v2 w).
Proof. intros P. rewrite (gram_perm _ _ w P). apply vec3_ext; unfold levels_missing; cbn; unfold dot3, sub3; cbn; ring. Qed.

Theorem C98_missing_level_refuted :
  Forall (on_line (0, 0, 0) (3, 0, 1)) (valid_points levels_missing) /\
  forall svd, good_svd svd levels_missing ->
  exists p e, pixel2line svd levels_missing = Some (p, e) /\ ~ on_line (0, 0, 0) (3, 0, 1) p /\ ~ exists k, e = scale k (3, 0, 1).
Proof.
  split.
  { repeat constructor; [exists (-1)|exists 1]; unfold point_at; apply vec3_ext; cbn; ring. }
  intros svd Hsvd. unfold good_svd in Hsvd. destruct centre_missing as (M0 & M1 & M2). cbv zeta in Hsvd. rewrite M0, M1, M2 in Hsvd.
  unfold pixel2line. rewrite M0, M1, M2. cbn [List.length map valid_points levels_missing flat_map app Nat.ltb Nat.leb].
  change [sub3 (-3, 0, -1) (0, 0, 4); sub3 (3, 0, 1) (0, 0, 4)] with (map (fun x => sub3 x (0, 0, 4)) (valid_points levels_missing)).
  set (l := map _ _) in *. specialize (Hsvd (sort_rows l) (sort_rows_perm l)).
  assert (Gv := gram_missing (sort_rows l) (3, 0, 1) (sort_rows_perm l)). set (rows := sort_rows l) in *. destruct (svd rows) as [[a b] c]. eexists. eexists. split; [reflexivity|]. split.
  - intros (t & E). apply vec3_inv in E. cbn in E. lra.
  - intros (k & E).
    assert (EE : exists k', cross c b = (3 * k', 0, k')).
    { destruct (Rlt_dec (v2 (cross c b)) 0); apply vec3_inv in E; unfold neg3, scale in E; cbn [v0 v1 v2 fst snd] in E; fold (v0 (cross c b)) (v1 (cross c b)) (v2 (cross c b)) in E;
        [exists (- k)|exists k]; apply vec3_ext; cbn [v0 v1 v2 fst snd]; fold (v0 (cross c b)) (v1 (cross c b)) (v2 (cross c b)); lra. }
    clear E. destruct EE as (k' & E). destruct Hsvd as ((Oa & Ob & Oc & Oab & Oac & Obc) & s0 & s1 & s2 & _ & _ & _ & G).
    assert (Nk : k' <> 0).
    { intros ->. assert (dot3 (cross c b) (cross c b) = 1).
      { transitivity (dot3 c c * dot3 b b - dot3 b c * dot3 b c); [unfold cross, dot3; cbn [v0 v1 v2 fst snd]; ring|]. rewrite Oc, Ob, Obc. ring. }
      rewrite E in H. unfold dot3 in H. cbn in H. lra. }
    assert (Or : forall x, dot3 (cross c b) x = 0 -> 3 * v0 x + v2 x = 0).
    { intros x H. rewrite E in H. unfold dot3 in H. cbn [v0 v1 v2 fst snd] in H. fold (v0 x) (v1 x) (v2 x) in H.
      assert (H0 : k' * (3 * v0 x + v2 x) = 0) by lra. apply Rmult_integral in H0. destruct H0; [contradiction|assumption]. }
    assert (Eb : 3 * v0 b + v2 b = 0) by (apply Or; unfold cross, dot3; cbn [v0 v1 v2 fst snd]; ring).
    assert (Ec : 3 * v0 c + v2 c = 0) by (apply Or; unfold cross, dot3; cbn [v0 v1 v2 fst snd]; ring).
    specialize (G (3, 0, 1)). rewrite Gv in G. apply vec3_inv in G. cbn [v0 v1 v2 fst snd] in G. fold (v0 a) (v1 a) (v2 a) (v0 b) (v1 b) (v2 b) (v0 c) (v1 c) (v2 c) in G.
    assert (Db : dot3 b (3, 0, 1) = 0) by (unfold dot3; cbn [v0 v1 v2 fst snd]; fold (v0 b) (v1 b) (v2 b); lra).
    assert (Dc : dot3 c (3, 0, 1) = 0) by (unfold dot3; cbn [v0 v1 v2 fst snd]; fold (v0 c) (v1 c) (v2 c); lra).
    rewrite Db, Dc in G. destruct G as (G0 & G1 & G2). set (K := s0 * dot3 a (3, 0, 1)) in *.
    assert (K0 : K * v0 a = 60) by lra. assert (K1 : K * v1 a = 0) by lra. assert (K2 : K * v2 a = 52) by lra.
    assert (Pb : 60 * v0 b + 52 * v2 b = 0) by (rewrite <- K0, <- K2; transitivity (K * dot3 a b - K * v1 a * v1 b); [unfold dot3; ring|rewrite Oab, K1; ring]).
    assert (Pc : 60 * v0 c + 52 * v2 c = 0) by (rewrite <- K0, <- K2; transitivity (K * dot3 a c - K * v1 a * v1 c); [unfold dot3; ring|rewrite Oac, K1; ring]).
    assert (B2 : v2 b = 0) by lra. assert (B0 : v0 b = 0) by lra. assert (C2 : v2 c = 0) by lra. assert (C0 : v0 c = 0) by lra.
    unfold dot3 in Ob, Oc, Obc. rewrite B0, B2 in Ob. rewrite C0, C2 in Oc. rewrite B0, B2, C0, C2 in Obc.
    assert (v1 b * v1 c = 0) by lra. apply Rmult_integral in H. destruct H as [H|H]; rewrite H in *; lra.
Qed.
Print Assumptions C98_missing_level_refuted.

(** there are such singular vectors *)
Example C98_missing_svd : exists svd, good_svd svd levels_missing.
Proof.
  assert (S10 : / sqrt 10 * / sqrt 10 = / 10).
  { rewrite <- Rinv_mult by (apply Rgt_not_eq, sqrt_lt_R0; lra). rewrite sqrt_sqrt by lra. reflexivity. }
  exists (fun _ => ((1 * / sqrt 10, 0, 3 * / sqrt 10), (3 * / sqrt 10, 0, - / sqrt 10), (0, 1, 0))).
  unfold good_svd. cbv zeta. destruct centre_missing as (-> & -> & ->). intros rows P. set (r := / sqrt 10) in *. split.
  - unfold orthonormal, dot3. cbn [v0 v1 v2 fst snd]. repeat split; ring_simplify; try (replace (r ^ 2) with (/ 10) by (rewrite <- S10; ring)); try lra.
  - exists 36, 16, 0. split; [lra|]. split; [lra|]. split; [lra|]. intros w. rewrite (gram_missing rows w P). unfold dot3.
    apply vec3_ext; cbn [v0 v1 v2 fst snd]; fold (v0 w) (v1 w) (v2 w); ring_simplify; try (replace (r ^ 2) with (/ 10) by (rewrite <- S10; ring)); lra.
Qed.

Lemma insert_entry_perm e l : Permutation (insert_entry e l) (e :: l).
Proof. induction l as [|q l IH]; cbn; [reflexivity|]. destruct (str_le _ _); [reflexivity|]. rewrite IH. apply perm_swap. Qed.
Lemma sort_entries_perm l : Permutation (sort_entries l) l.
Proof. induction l as [|p l IH]; cbn; [reflexivity|]. rewrite insert_entry_perm, IH. reflexivity. Qed.

Lemma contains_iff w s : contains w s = true <-> exists a b, s = a ++ w ++ b.
Proof.
  assert (St : forall p t, starts p t = true <-> exists rest, t = p ++ rest).
  { intros p t. split.
    - revert t. induction p as [|a p IH]; intros t; [exists t; reflexivity|]. destruct t as [|b t]; cbn; [discriminate|].
      intros H. apply andb_prop in H. destruct H as (A & B). apply Ascii.eqb_eq in A. subst b. destruct (IH _ B) as (r & ->). exists r. reflexivity.
    - intros (r & ->). induction p as [|a p IH]; [reflexivity|]. cbn. rewrite Ascii.eqb_refl. exact IH. }
  split.
  - induction s as [|c s IH]; cbn; intros H; apply orb_prop in H; destruct H as [H|H].
    + apply St in H. destruct H as (r & E). exists [], r. exact E.
    + discriminate.
    + apply St in H. destruct H as (r & E). exists [], r. exact E.
    + destruct (IH H) as (a & b & ->). exists (c :: a), b. reflexivity.
  - intros (a & b & ->). induction a as [|c a IH]; cbn [app].
    + assert (H : starts w (w ++ b) = true) by (apply St; exists b; reflexivity). destruct (w ++ b); cbn; rewrite H; reflexivity.
    + cbn. rewrite IH, orb_true_r. reflexivity.
Qed.

(** The points read in a file: exactly those of the attributes whose names contain "point_" or "Point", each with its own
    coordinates (in metres) and pixel, and the height of one of them. *)
Theorem C98_points : forall numbers_of entries,
  (forall points Z, get_points numbers_of entries = Ok (points, Z) ->
     exists rows, Permutation (map (fun r => Ok (fst r ++ snd r) : result (list R)) rows)
         (map (fun e => numbers_of (snd e)) (filter (fun e => contains (of_string "point_") (fst e) || contains (of_string "Point") (fst e)) entries)) /\
       Forall (fun r => List.length (fst r) = 5%nat) rows /\
       points = map (fun r => (nth 0 (fst r) 0 / 100, nth 1 (fst r) 0 / 100, (nth 3 (fst r) 0, nth 4 (fst r) 0))) rows /\
       exists r, In r rows /\ Z = nth 2 (fst r) 0 / 100).
Proof.
  intros numbers_of entries points Z E. unfold get_points in E.
  set (pts := filter _ entries) in *.
  destruct (read_points numbers_of (sort_entries pts)) as [l|x] eqn:HR; [|discriminate]. cbn [bind] in E.
  assert (L : exists rows, map (fun r => Ok (fst r ++ snd r) : result (list R)) rows = map (fun e => numbers_of (snd e)) (sort_entries pts) /\
    Forall (fun r => List.length (fst r) = 5%nat) rows /\ l = map (fun r => (nth 0 (fst r) 0, nth 1 (fst r) 0, nth 2 (fst r) 0, nth 3 (fst r) 0, nth 4 (fst r) 0)) rows).
  { clear E. revert l HR. induction (sort_entries pts) as [|[n t] s IH]; intros l HR.
    - injection HR as <-. exists []. repeat split. constructor.
    - cbn [read_points] in HR. destruct (numbers_of t) as [v|x] eqn:V; [|discriminate]. cbn [bind] in HR.
      destruct v as [|X [|Y [|Z0 [|x [|y v]]]]]; try discriminate. destruct (read_points numbers_of s) as [l'|x'] eqn:Q; [|discriminate]. injection HR as <-.
      destruct (IH l' eq_refl) as (rows & E1 & E2 & E3). exists (([X; Y; Z0; x; y], v) :: rows). cbn [map fst snd app]. rewrite V, E1, E3. split; [reflexivity|]. split; [constructor; [reflexivity|exact E2]|reflexivity]. }
  destruct L as (rows & E1 & E2 & E3). exists rows. split.
  { rewrite E1. apply Permutation_map, sort_entries_perm. }
  split; [exact E2|]. destruct rows as [|r rows]; [subst l; discriminate|]. subst l. cbn [map] in E. injection E as <- <-. split.
  - cbn [map]. rewrite map_map. reflexivity.
  - exists r. split; [left; reflexivity|reflexivity].
Qed.
Print Assumptions C98_points.

(** The arrays of the optical paths: at each node with a line its own six numbers; at the other nodes the interpolation (done
    node by node) of the same number from all the nodes with a line. *)
Theorem C98_grid : forall line_of griddata interp nodes, (forall p v x, griddata p v x = map (interp p v) x) ->
  (exists n l, In n nodes /\ line_of n = Some l) ->
  let known := filter (fun n => match line_of n with Some _ => true | None => false end) nodes in
  exists arrays, grid_lines line_of griddata nodes = Ok arrays /\ List.length arrays = 6%nat /\
  forall j, (j < 6)%nat -> exists numbers, map (fun n => Some n) numbers = map (fun n => option_map (fun l => nth j (six l) 0) (line_of n)) known /\
    nth j arrays [] = map (fun n => match line_of n with Some l => Some (nth j (six l) 0) | None => interp known numbers n end) nodes.
Proof.
  intros line_of griddata interp nodes Hg Hex known.
  set (number j n := match line_of n with Some l => nth j (six l) 0 | None => 0 end).
  assert (Kt : map fst (trues line_of nodes) = known).
  { unfold known, trues. clear. induction nodes as [|n l IH]; [reflexivity|]. cbn. destruct (line_of n); cbn; rewrite IH; reflexivity. }
  assert (Kv : forall j, map (fun l => nth j l 0) (map snd (trues line_of nodes)) = map (number j) known).
  { intros j. unfold known, trues. clear. induction nodes as [|n l IH]; [reflexivity|]. cbn. unfold number at 1. destruct (line_of n) as [x|] eqn:E; cbn; rewrite IH; [|reflexivity]. rewrite E. reflexivity. }
  assert (Fl : forall j f l, fill line_of j l (map f (falses line_of l)) = map (fun n => match line_of n with Some x => Some (nth j (six x) 0) | None => f n end) l).
  { clear. intros j f l. induction l as [|n l IH]; [reflexivity|]. unfold falses. cbn [filter fill map]. destruct (line_of n) as [x|] eqn:E; cbn [map fill]; rewrite ?E; f_equal; exact IH. }
  assert (C : forall j, grid_component line_of griddata nodes j = Ok (map (fun n => match line_of n with Some l => Some (nth j (six l) 0) | None => interp known (map (number j) known) n end) nodes)).
  { intros j. unfold grid_component, column. destruct (map snd (trues line_of nodes)) as [|r rs] eqn:E.
    - exfalso. destruct Hex as (n & l & Hn & El). assert (In n known) by (apply filter_In; rewrite El; auto). rewrite <- Kt in H. apply in_map_iff in H. destruct H as (y & _ & Hy). apply (in_map snd) in Hy. rewrite E in Hy. destruct Hy.
    - cbn [bind]. rewrite Kt, Kv. cbn [bind]. rewrite Hg, Fl. reflexivity. }
  exists (map (fun j => map (fun n => match line_of n with Some l => Some (nth j (six l) 0) | None => interp known (map (number j) known) n end) nodes) (seq 0 6)).
  split; [unfold grid_lines; cbn [seq map_result map]; rewrite !C; reflexivity|]. split; [reflexivity|].
  intros j Hj. exists (map (number j) known). split.
  - rewrite map_map. apply map_ext_in. intros n Hn. apply filter_In in Hn. destruct Hn as (_ & Hn). unfold number. destruct (line_of n); [reflexivity|discriminate].
  - do 6 (destruct j as [|j]; [reflexivity|]). lia.
Qed.
Print Assumptions C98_grid.

(** Without any line at the nodes there is an exception. *)
Theorem C98_no_line_refuted : forall line_of griddata nodes, (forall n, In n nodes -> line_of n = None) -> grid_lines line_of griddata nodes = Err IndexError.
Proof.
  intros line_of griddata nodes H. unfold grid_lines. cbn [seq map_result]. unfold grid_component at 1.
  assert (trues line_of nodes = []) as ->; [|reflexivity]. unfold trues. induction nodes as [|n l IH]; [reflexivity|]. cbn. rewrite (H n (or_introl eq_refl)). apply IH. intros; apply H; right; assumption.
Qed.
Print Assumptions C98_no_line_refuted.

(** two levels which both see the pixel, on the line x = 3 z + 1, y = 2 *)
Example C98_example : let levels := [(Some (-2, 2), -1); (Some (4, 2), 1)] in
  Forall (on_line (1, 2, 0) (3, 0, 1)) (valid_points levels) /\ Forall (fun l : level => fst l <> None) levels /\
  (exists p p', In p (valid_points levels) /\ In p' (valid_points levels) /\ v2 p <> v2 p') /\
  exists svd, good_svd svd levels.
Proof.
  cbv zeta. split; [repeat constructor; [exists (-1)|exists 1]; unfold point_at; apply vec3_ext; cbn; ring|]. split; [repeat constructor; discriminate|].
  split; [exists (-2, 2, -1), (4, 2, 1); cbn; repeat split; auto; lra|].
  assert (S10 : / sqrt 10 * / sqrt 10 = / 10).
  { rewrite <- Rinv_mult by (apply Rgt_not_eq, sqrt_lt_R0; lra). rewrite sqrt_sqrt by lra. reflexivity. }
  exists (fun _ => ((3 * / sqrt 10, 0, 1 * / sqrt 10), (1 * / sqrt 10, 0, -3 * / sqrt 10), (0, 1, 0))).
  unfold good_svd. set (p := (mean _, mean _, mean _)). assert (p = (1, 2, 0)) as -> by (unfold p, mean; apply vec3_ext; cbn; field).
  intros rows P. set (r := / sqrt 10) in *. split.
  - unfold orthonormal, dot3. cbn [v0 v1 v2 fst snd]. repeat split; ring_simplify; try (replace (r ^ 2) with (/ 10) by (rewrite <- S10; ring)); try lra.
  - exists 20, 0, 0. split; [lra|]. split; [lra|]. split; [lra|]. intros w. rewrite (gram_perm _ _ w P).
    apply vec3_ext; cbn; unfold dot3, sub3; cbn; fold (v0 w) (v1 w) (v2 w); ring_simplify; try (replace (r ^ 2) with (/ 10) by (rewrite <- S10; ring)); lra.
Qed.

(** C36: subpixel position of the peaks. *)
From Coq Require Import Reals Lra.
From Verif Require Import PyBase FloatBase SubpixModel CorrelProofs.
Local Open Scope Z_scope.

Section C36.
Variables ny nx n : Z.
Variable Minv : nat -> Z * Z -> R.

(** the square of side 2n + 1 centred on the peak is inside the correlation *)
Definition inside_map (ix iy : Z) : Prop := n <= iy /\ iy + n < ny /\ n <= ix /\ ix + n < nx.

(** close to the integer peak: at a distance of at most sqrt(2) * (n + 1/2) *)
Definition close (ix iy : Z) (p : fl * fl) : Prop :=
  exists x y, p = (Fin x, Fin y) /\
    ((x - IZR ix) * (x - IZR ix) + (y - IZR iy) * (y - IZR iy) <= 2 * ((/ 2 + IZR n) * (/ 2 + IZR n)))%R.
Definition has_nan (p : fl * fl) : Prop := fst p = NaN \/ snd p = NaN.

Lemma finish_ok d ix iy p : finish n d ix iy = Ok p -> has_nan p \/ close ix iy p.
Proof.
  unfold finish, too_far. destruct d as [a b]. cbn [fst snd]. destruct (fltb _ _) eqn:E; [discriminate|]. intros H.
  assert (p = (fadd a (Z2F ix), fadd b (Z2F iy))) as -> by congruence. clear H. unfold has_nan. cbn [fst snd].
  destruct a as [| | |x]; [left; left; reflexivity| | |]; destruct b as [| | |y]; try (left; right; reflexivity); cbn in E; try discriminate.
  right. exists (x + IZR ix)%R, (y + IZR iy)%R. split; [reflexivity|].
  destruct (Rlt_dec _ _); [discriminate|]. apply Rnot_lt_le in n0.
  replace (x + IZR ix - IZR ix)%R with x by lra. replace (y + IZR iy - IZR iy)%R with y by lra. exact n0.
Qed.
Lemma finish_err d ix iy e : finish n d ix iy = Err e -> e = PIVError.
Proof. unfold finish. destruct (too_far n d); congruence. Qed.

Lemma compute_cases m correl ix iy r : compute_subpix ny nx n Minv m correl ix iy = r ->
  r = Err PIVError \/ m = OtherMethod /\ r = Err ValueError \/ exists d, r = finish n d ix iy.
Proof.
  unfold compute_subpix. intros <-. destruct m; try (right; left; split; reflexivity);
    (destruct ((_ <? 0) || _ || _ || _); [left; reflexivity|]); right; right.
  - destruct (_ || _); [eauto|]. destruct (_ || _); eauto.
  - destruct (too_far _ _); eauto.
  - eauto.
  - eauto.
Qed.

(** A position which is returned is close to the peak, unless one of the coordinates is NaN. *)
Theorem C36_close_partial m correl ix iy p :
  compute_subpix ny nx n Minv m correl ix iy = Ok p -> has_nan p \/ close ix iy p.
Proof.
  intros H. destruct (compute_cases _ _ _ _ _ H) as [E|[[_ E]|(d & E)]]; try discriminate. symmetry in E. exact (finish_ok _ _ _ _ E).
Qed.
(** The only exception is PIVError. *)
Theorem C36_error m correl ix iy e :
  m <> OtherMethod -> compute_subpix ny nx n Minv m correl ix iy = Err e -> e = PIVError.
Proof.
  intros Hm H. destruct (compute_cases _ _ _ _ _ H) as [E|[[E _]|(d & E)]]; [congruence|contradiction|]. symmetry in E. exact (finish_err _ _ _ _ E).
Qed.
(** Peaks too close to a side are refused. *)
Theorem C36_boundary m correl ix iy :
  m <> OtherMethod -> ~ inside_map ix iy -> compute_subpix ny nx n Minv m correl ix iy = Err PIVError.
Proof.
  intros Hm Hi. unfold inside_map in Hi. unfold compute_subpix.
  destruct m; try contradiction;
    (replace ((iy - n <? 0) || (ny <? iy + n + 1) || (ix - n <? 0) || (nx <? ix + n + 1)) with true by lia); reflexivity.
Qed.

Lemma compute_inside ix iy : inside_map ix iy ->
  (iy - n <? 0) || (ny <? iy + n + 1) || (ix - n <? 0) || (nx <? ix + n + 1) = false.
Proof. unfold inside_map. lia. Qed.

Lemma offsets_In o : In o (offsets n) <-> - n <= fst o <= n /\ - n <= snd o <= n.
Proof.
  unfold offsets. rewrite in_flat_map. destruct o as [y x]. cbn [fst snd]. split.
  - intros (y' & Hy & Hx). apply in_map_iff in Hx. destruct Hx as (x' & E & Hx). apply pair_equal_spec in E. destruct E as [-> ->].
    apply range1_In in Hy. apply range1_In in Hx. lia.
  - intros [Hy Hx]. exists y. split; [apply range1_In; lia|]. apply in_map_iff. exists x. split; [reflexivity|apply range1_In; lia].
Qed.

(** Nothing is refused and NaN are returned where the correlation is zero around the peak. *)
Theorem C36_refuted ix iy : inside_map ix iy ->
  compute_subpix ny nx n Minv Centroid (fun _ _ => Fin 0) ix iy = Ok (NaN, NaN).
Proof.
  intros Hi. unfold compute_subpix. rewrite compute_inside by assumption. unfold centroid.
  assert (S : forall f : Z * Z -> R, fsum (map (fun o => fmul (Fin (f o)) (Fin 0)) (offsets n)) = Fin 0).
  { intros f. cbn [fmul]. rewrite (fsum_fin (fun o => (f o * 0)%R)). f_equal.
    rewrite (rsuml_ext _ (fun o => (0 * f o)%R)) by (intros; lra). rewrite rsuml_scal. lra. }
  rewrite (fsum_fin (fun _ => 0%R)). unfold Z2F. rewrite !S.
  assert (Z0 : rsuml (map (fun _ : Z * Z => 0%R) (offsets n)) = 0%R).
  { rewrite (rsuml_ext _ (fun o => (0 * 0)%R)) by (intros; lra). rewrite rsuml_scal. lra. }
  rewrite Z0. unfold fdiv, inf_times. destruct (Req_EM_T 0 0); [|lra]. reflexivity.
Qed.

(** *** Correlations which are finite and not negative around the peak *)
Section Finite.
Variable correl : Z -> Z -> fl.
Variable c : Z -> Z -> R.
Variables ix iy : Z.
Hypothesis Hn : 0 <= n.
Hypothesis Hin : inside_map ix iy.
Hypothesis Hfin : forall y x, iy - n <= y <= iy + n -> ix - n <= x <= ix + n -> correl y x = Fin (c y x) /\ (0 <= c y x)%R.
(** the correlation at the integer peak is positive *)
Hypothesis Hpeak : (0 < c iy ix)%R.

Lemma weighted_bound {A} (wt v : A -> R) (M : R) (l : list A) :
  (forall a, In a l -> 0 <= v a)%R -> (forall a, In a l -> - M <= wt a <= M)%R ->
  (- M * rsuml (map v l) <= rsuml (map (fun a => wt a * v a) l) <= M * rsuml (map v l))%R.
Proof.
  intros Hv Hw. rewrite <- !rsuml_scal. split; apply rsuml_le; intros a Ha; specialize (Hv a Ha); specialize (Hw a Ha); nra.
Qed.

Lemma sum_pos (v : Z * Z -> R) : (forall o, In o (offsets n) -> 0 <= v o)%R -> (0 < v (0, 0)%Z)%R -> (0 < rsuml (map v (offsets n)))%R.
Proof.
  intros Hv H0. assert (Hin0 : In (0, 0) (offsets n)) by (apply offsets_In; cbn; lia).
  revert Hv Hin0. generalize (offsets n). induction l as [|a l IH]; intros Hv Hin0; [destruct Hin0|]. cbn.
  assert (Hl : (0 <= rsuml (map v l))%R).
  { replace 0%R with (rsuml (map (fun _ => 0 * 0)%R l)) by (rewrite rsuml_scal; lra). apply rsuml_le. intros b Hb.
    specialize (Hv b (or_intror Hb)). lra. }
  specialize (IH (fun b Hb => Hv b (or_intror Hb))). pose proof (Hv a (or_introl eq_refl)) as Ha. unfold rsuml in *.
  destruct Hin0 as [->|Hin0]; [lra|]. specialize (IH Hin0). lra.
Qed.

Lemma centroid_gen (corr : Z -> Z -> fl) (v : Z * Z -> R) :
  (forall o, In o (offsets n) -> corr (iy + fst o) (ix + snd o) = Fin (v o) /\ (0 <= v o)%R) -> (0 < v (0, 0)%Z)%R ->
  exists dx dy, centroid n corr ix iy = (Fin dx, Fin dy) /\ (- IZR n <= dx <= IZR n)%R /\ (- IZR n <= dy <= IZR n)%R.
Proof.
  intros Hv H0. unfold centroid.
  assert (Hv' : forall o, In o (offsets n) -> (0 <= v o)%R) by (intros; apply Hv; assumption).
  pose proof (sum_pos v Hv' H0) as Sp. set (S := rsuml (map v (offsets n))) in *.
  assert (E0 : map (fun o => corr (iy + fst o) (ix + snd o)) (offsets n) = map (fun o => Fin (v o)) (offsets n)).
  { apply map_ext_in. intros o Ho. apply (Hv o Ho). }
  assert (E : forall wt : Z * Z -> Z, map (fun o => fmul (Z2F (wt o)) (corr (iy + fst o) (ix + snd o))) (offsets n) =
                        map (fun o => Fin (IZR (wt o) * v o)) (offsets n)).
  { intros wt. apply map_ext_in. intros o Ho. destruct (Hv o Ho) as [-> _]. reflexivity. }
  rewrite E0, (E (fun o => snd o)), (E (fun o => fst o)). rewrite (fsum_fin v). rewrite !fsum_fin. fold S.
  unfold fdiv. destruct (Req_EM_T S 0); [lra|].
  eexists _, _. split; [reflexivity|].
  assert (B : forall wt : Z * Z -> Z, (forall o, In o (offsets n) -> - n <= wt o <= n) ->
      (- IZR n <= rsuml (map (fun o => IZR (wt o) * v o) (offsets n)) / S <= IZR n)%R).
  { intros wt Hw. destruct (weighted_bound (fun o => IZR (wt o)) v (IZR n) (offsets n) Hv') as [B1 B2].
    { intros o Ho. specialize (Hw o Ho). rewrite <- opp_IZR. split; apply IZR_le; lia. }
    fold S in B1, B2. split; [apply Rmult_le_reg_r with S|apply Rmult_le_reg_r with S]; try exact Sp;
      unfold Rdiv; rewrite Rmult_assoc, Rinv_l by lra; lra. }
  split; apply B; intros o Ho; apply offsets_In in Ho; tauto.
Qed.

Lemma not_too_far dx dy : (- IZR n <= dx <= IZR n)%R -> (- IZR n <= dy <= IZR n)%R -> too_far n (Fin dx, Fin dy) = false.
Proof.
  intros Hx Hy. unfold too_far, fsq. cbn [fst snd fmul fadd fltb]. destruct (Rlt_dec _ _) as [H|H]; [|reflexivity]. exfalso.
  assert (0 <= IZR n)%R by (apply IZR_le; exact Hn). nra.
Qed.

Lemma crop_values o : In o (offsets n) -> correl (iy + fst o) (ix + snd o) = Fin (c (iy + fst o) (ix + snd o)) /\ (0 <= c (iy + fst o) (ix + snd o))%R.
Proof. intros Ho. apply offsets_In in Ho. apply Hfin; lia. Qed.

(** The centroid is then always given, at less than n pixels in each direction. *)
Theorem C36_centroid :
  exists x y, compute_subpix ny nx n Minv Centroid correl ix iy = Ok (Fin x, Fin y) /\
    (IZR ix - IZR n <= x <= IZR ix + IZR n)%R /\ (IZR iy - IZR n <= y <= IZR iy + IZR n)%R.
Proof.
  unfold compute_subpix. rewrite compute_inside by exact Hin.
  destruct (centroid_gen correl (fun o => c (iy + fst o) (ix + snd o)) crop_values) as (dx & dy & E & Bx & By).
  { cbn [fst snd]. rewrite !Z.add_0_r. exact Hpeak. }
  rewrite E. unfold finish. rewrite not_too_far by assumption. eexists _, _. split; [reflexivity|]. cbn [fst snd]. lra.
Qed.

(** With the method 2d_gaussian, PIVError or a close position, and never NaN. *)
Theorem C36_gaussian p :
  compute_subpix ny nx n Minv Gaussian correl ix iy = Ok p -> close ix iy p.
Proof.
  unfold compute_subpix. rewrite compute_inside by exact Hin.
  assert (F : forall p, finish n (centroid n (clipped nx n correl ix iy) ix iy) ix iy = Ok p -> close ix iy p).
  { intros q Hq. set (v := fun o => rval (clipped nx n correl ix iy (iy + fst o) (ix + snd o))).
    destruct (centroid_gen (clipped nx n correl ix iy) v) as (dx & dy & E & Bx & By).
    - intros o Ho. destruct (crop_values o Ho) as [E0 P0]. unfold v, clipped.
      destruct (nx =? 2 * n + 1); [|rewrite E0; cbn [rval]; split; [reflexivity|exact P0]].
      destruct (_ && _); [|rewrite E0; cbn [rval]; split; [reflexivity|exact P0]].
      rewrite E0. unfold clip. destruct (fleb _ _); cbn [rval]; (split; [reflexivity|]); [lra|exact P0].
    - unfold v, clipped. cbn [fst snd]. rewrite !Z.add_0_r. destruct (Hfin iy ix) as [E0 _]; [lia|lia|].
      destruct (nx =? 2 * n + 1); [|rewrite E0; exact Hpeak]. destruct (_ && _); [|rewrite E0; exact Hpeak].
      rewrite E0. unfold clip. destruct (fleb _ _); cbn [rval]; [lra|exact Hpeak].
    - rewrite E in Hq. destruct (finish_ok _ _ _ _ Hq) as [[Hq'|Hq']|Hq']; [exfalso|exfalso|exact Hq'];
        unfold finish in Hq; destruct (too_far n (Fin dx, Fin dy)); try discriminate;
        assert (q = (fadd (fst (Fin dx, Fin dy)) (Z2F ix), fadd (snd (Fin dx, Fin dy)) (Z2F iy))) as -> by congruence; cbn in Hq'; discriminate. }
  destruct (fltb (Fin 0) _ || fltb (Fin 0) _); [apply F|].
  set (deplx := fmul _ _). set (deply := fmul (coef n Minv correl ix iy 3%nat) _).
  destruct (fisnan deplx || fisnan deply) eqn:En; [apply F|]. intros Hq.
  destruct (finish_ok _ _ _ _ Hq) as [Hq'|Hq']; [exfalso|exact Hq'].
  unfold finish in Hq. destruct (too_far n (deplx, deply)); [discriminate|]. cbn [fst snd] in Hq.
  assert (p = (fadd deplx (Z2F ix), fadd deply (Z2F iy))) as -> by congruence. unfold has_nan in Hq'. cbn [fst snd] in Hq'.
  destruct deplx, deply; cbn in En; try discriminate; destruct Hq' as [Hq'|Hq']; cbn in Hq'; discriminate.
Qed.
End Finite.

(** The method 2d_gaussian2 gives NaN where the correlation is constant around the peak. *)
Theorem C36_flat_refuted ix iy v : n = 1 -> inside_map ix iy ->
  compute_subpix ny nx n Minv Gaussian2 (fun _ _ => Fin v) ix iy = Ok (NaN, NaN).
Proof.
  intros Hn Hi. unfold compute_subpix. rewrite compute_inside by assumption.
  assert (E : gaussian2 (fun _ _ => Fin v) ix iy = (NaN, NaN)).
  { assert (E : offsets 1 = [(-1, -1); (-1, 0); (-1, 1); (0, -1); (0, 0); (0, 1); (1, -1); (1, 0); (1, 1)]) by reflexivity.
    assert (M1 : forall a, fmin2 (Fin a) (Fin a) = Fin a) by (intros; unfold fmin2, fltb; destruct (Rlt_dec a a); reflexivity).
    assert (M2 : forall a, fmax2 (Fin a) (Fin a) = Fin a) by (intros; unfold fmax2, fltb; destruct (Rlt_dec a a); reflexivity).
    unfold gaussian2. rewrite E.
    replace (fmin _) with (Fin v).
    2:{ cbn [map fmin fmax fold_left]. rewrite ?M1, ?M2. reflexivity. }
    replace (fsub (Fin v) (Fin v)) with (Fin 0) by (cbn; f_equal; lra).
    replace (fmax _) with (Fin 0).
    2:{ cbn [map fmin fmax fold_left]. rewrite ?M1, ?M2. reflexivity. }
    replace (fdiv (Fin 0) (Fin 0)) with NaN.
    2:{ unfold fdiv, inf_times. destruct (Req_EM_T 0 0); [reflexivity|lra]. }
    reflexivity. }
  rewrite E. reflexivity.
Qed.

(** *** Exactness *)
(** [self.Minv_subpix] is a left inverse of the matrix of line 102 (pseudo inverse of a matrix with independent columns) *)
Definition basis (j : nat) (o : Z * Z) : R :=
  let x := IZR (snd o) in let y := IZR (fst o) in
  match j with 0%nat => x * x | 1%nat => y * y | 2%nat => x | 3%nat => y | _ => 1 end%R.
Definition left_inverse : Prop :=
  forall k j, (k < 5)%nat -> (j < 5)%nat ->
    rsuml (map (fun o => Minv k o * basis j o)%R (offsets n)) = (if Nat.eqb k j then 1 else 0)%R.

(** Peak of gaussian shape, with its maximum at (x0, y0) from the integer peak *)
Definition gaussian_peak (A x0 y0 sx sy x y : R) : R :=
  (A * exp (- ((x - x0) * (x - x0) / (2 * (sx * sx))) - (y - y0) * (y - y0) / (2 * (sy * sy))))%R.

Theorem C36_gaussian_exact correl ix iy A x0 y0 sx sy :
  inside_map ix iy -> left_inverse -> (0 < A)%R -> (0 < sx)%R -> (0 < sy)%R ->
  (x0 * x0 + y0 * y0 <= 2 * ((/ 2 + IZR n) * (/ 2 + IZR n)))%R ->
  (forall o, In o (offsets n) -> correl (iy + fst o) (ix + snd o) = Fin (gaussian_peak A x0 y0 sx sy (IZR (snd o)) (IZR (fst o)))) ->
  compute_subpix ny nx n Minv Gaussian correl ix iy = Ok (Fin (x0 + IZR ix), Fin (y0 + IZR iy)).
Proof.
  intros Hi HL HA Hsx Hsy Hd Hg. unfold compute_subpix. rewrite compute_inside by assumption.
  set (cf := fun k : nat => match k with
     | 0%nat => (- / (2 * (sx * sx)))%R | 1%nat => (- / (2 * (sy * sy)))%R
     | 2%nat => (x0 / (sx * sx))%R | 3%nat => (y0 / (sy * sy))%R
     | _ => (ln A - x0 * x0 / (2 * (sx * sx)) - y0 * y0 / (2 * (sy * sy)))%R end).
  assert (Psx : (0 < sx * sx)%R) by nra. assert (Psy : (0 < sy * sy)%R) by nra.
  assert (Hc : forall k, (k < 5)%nat -> coef n Minv correl ix iy k = Fin (cf k)).
  { intros k Hk. unfold coef.
    rewrite (map_ext_in _ (fun o => Fin (Minv k o * (cf 0%nat * basis 0 o + cf 1%nat * basis 1 o + cf 2%nat * basis 2 o + cf 3%nat * basis 3 o + cf 4%nat * basis 4 o)))).
    - rewrite fsum_fin. f_equal.
      rewrite (rsuml_ext _ (fun o => (cf 0%nat * (Minv k o * basis 0 o) + cf 1%nat * (Minv k o * basis 1 o)) + (cf 2%nat * (Minv k o * basis 2 o) + cf 3%nat * (Minv k o * basis 3 o)) + cf 4%nat * (Minv k o * basis 4 o))%R)
        by (intros; ring).
      rewrite !rsuml_plus, !rsuml_scal. rewrite !HL by lia.
      do 5 (destruct k as [|k]; [cbn [Nat.eqb]; ring|]). lia.
    - intros o Ho. rewrite (Hg o Ho). unfold clip.
      assert (Gp : (0 < gaussian_peak A x0 y0 sx sy (IZR (snd o)) (IZR (fst o)))%R).
      { unfold gaussian_peak. apply Rmult_lt_0_compat; [exact HA|apply exp_pos]. }
      unfold fleb. destruct (Rle_dec _ 0); [lra|]. unfold flog. destruct (Rlt_dec 0 _); [|lra]. cbn [fmul]. f_equal. f_equal.
      unfold gaussian_peak. rewrite ln_mult, ln_exp by (try exact HA; apply exp_pos). unfold cf, basis. field. split; nra. }
  rewrite !Hc by lia.
  assert (C0 : (0 < / (2 * (sx * sx)))%R) by (apply Rinv_0_lt_compat; lra).
  assert (C1 : (0 < / (2 * (sy * sy)))%R) by (apply Rinv_0_lt_compat; lra).
  assert (L : forall a, (0 < a)%R -> fltb (Fin 0) (Fin (- a)) = false) by (intros a Ha; cbn; destruct (Rlt_dec 0 (- a)); [lra|reflexivity]).
  unfold cf at 1 2. rewrite !L by assumption. cbn [orb].
  assert (Sg : forall s, (0 < s)%R -> fdiv (Fin 1) (fsqrt (fmul (Fin (-2)) (Fin (- / (2 * (s * s)))))) = Fin s).
  { intros s Hs. assert (Ps : (0 < s * s)%R) by nra. cbn [fmul]. replace (-2 * - / (2 * (s * s)))%R with (/ s * / s)%R by (field; lra).
    assert (Is : (0 < / s)%R) by (apply Rinv_0_lt_compat; exact Hs).
    unfold fsqrt. destruct (Rlt_dec (/ s * / s) 0) as [Hlt|_]; [exfalso; nra|]. rewrite sqrt_square by lra.
    unfold fdiv. destruct (Req_EM_T (/ s) 0); [lra|]. f_equal. field. lra. }
  unfold cf. rewrite !Sg by assumption. unfold fsq. cbn [fmul fisnan orb].
  replace (x0 / (sx * sx) * (sx * sx))%R with x0 by (field; lra). replace (y0 / (sy * sy) * (sy * sy))%R with y0 by (field; lra).
  unfold finish, too_far, fsq. cbn [fst snd fmul fadd fltb]. destruct (Rlt_dec _ _); [lra|]. reflexivity.
Qed.
End C36.

(** For n = 1 (the default), the pseudo inverse. *)
Definition pinv1 (k : nat) (o : Z * Z) : R :=
  let x := IZR (snd o) in let y := IZR (fst o) in
  match k with
  | 0%nat => (3 * (x * x) - 2) / 6 | 1%nat => (3 * (y * y) - 2) / 6 | 2%nat => x / 6 | 3%nat => y / 6
  | _ => (5 - 3 * (x * x) - 3 * (y * y)) / 9 end%R.
Example C36_left_inverse : left_inverse 1 pinv1.
Proof.
  intros k j Hk Hj.
  assert (E : offsets 1 = [(-1, -1); (-1, 0); (-1, 1); (0, -1); (0, 0); (0, 1); (1, -1); (1, 0); (1, 1)]) by reflexivity.
  rewrite E. unfold rsuml. do 5 (destruct k as [|k]; [do 5 (destruct j as [|j]; [cbn -[IZR Rmult Rplus Rdiv Rminus]; unfold pinv1, basis; cbn [fst snd]; lra|]); lia|]). lia.
Qed.
(** a peak at 0.3 and -0.2 pixels of the integer position (10, 20) *)
Example C36_gaussian_example :
  compute_subpix 32 32 1 pinv1 Gaussian (fun y x => Fin (gaussian_peak 2 0.3 (-0.2) 1.5 1.2 (IZR (x - 10)) (IZR (y - 20)))) 10 20 =
  Ok (Fin (0.3 + 10), Fin (-0.2 + 20)).
Proof.
  apply C36_gaussian_exact with (A := 2%R) (sx := 1.5%R) (sy := 1.2%R).
  - unfold inside_map. lia.
  - exact C36_left_inverse.
  - lra.
  - lra.
  - lra.
  - lra.
  - intros o _. replace (10 + snd o - 10) with (snd o) by lia. replace (20 + fst o - 20) with (fst o) by lia. reflexivity.
Qed.
Example C36_centroid_example : exists x y,
  compute_subpix 32 32 1 pinv1 Centroid (fun y x => Fin 1) 10 20 = Ok (Fin x, Fin y) /\
    (IZR 10 - IZR 1 <= x <= IZR 10 + IZR 1)%R /\ (IZR 20 - IZR 1 <= y <= IZR 20 + IZR 1)%R.
Proof. apply C36_centroid with (c := fun _ _ => 1%R); [lia|unfold inside_map; lia| |lra]. intros. split; [reflexivity|lra]. Qed.

Print Assumptions C36_close_partial.
Print Assumptions C36_error.
Print Assumptions C36_boundary.
Print Assumptions C36_refuted.
Print Assumptions C36_centroid.
Print Assumptions C36_gaussian.
Print Assumptions C36_flat_refuted.
Print Assumptions C36_gaussian_exact.

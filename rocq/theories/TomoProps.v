(** C57, C70, C71, C72: tomography and calibration target. *)
From Coq Require Import ZArith List Bool String Lia ZifyBool Permutation Sorted Reals Lra.
From Verif Require Import PyBase StrModel TomoModel SplitProofs GridProps CorrelProofs CalibModel.
Import ListNotations.
Local Open Scope Z_scope.

Section Grid.
Context {T : Type}.
Definition plane_of (xs ys : list T) (z : T) : list (T * T * T) := flat_map (fun y => map (fun x => (x, y, z)) xs) ys.

Lemma plane_len xs ys z : List.length (plane_of xs ys z) = (List.length ys * List.length xs)%nat.
Proof. unfold plane_of. induction ys as [|y ys IH]; cbn; [reflexivity|]. rewrite app_length, map_length, IH. reflexivity. Qed.

Lemma plane_z xs ys z g : In g (plane_of xs ys z) -> snd g = z.
Proof.
  unfold plane_of. intros H. apply in_flat_map in H. destruct H as (y & _ & H). apply in_map_iff in H.
  destruct H as (x & <- & _). reflexivity.
Qed.

(** Line (iz * ny + iy) * nx + ix of the grid is the voxel (xs[ix], ys[iy], zs[iz]), and
    there is no other line. *)
Theorem C57_grid : forall (xs ys zs : list T) ix iy iz x y z,
  nth_error xs ix = Some x -> nth_error ys iy = Some y -> nth_error zs iz = Some z ->
  nth_error (tomo_grid T xs ys zs) ((iz * List.length ys + iy) * List.length xs + ix) = Some (x, y, z).
Proof.
  intros xs ys zs ix iy iz x y z Hx Hy Hz. unfold tomo_grid.
  assert (Lx : (ix < List.length xs)%nat) by (apply nth_error_Some; congruence).
  assert (Ly : (iy < List.length ys)%nat) by (apply nth_error_Some; congruence).
  replace ((iz * List.length ys + iy) * List.length xs + ix)%nat
    with (iz * (List.length ys * List.length xs) + (iy * List.length xs + ix))%nat by ring.
  rewrite (nth_error_flat_map _ zs (List.length ys * List.length xs)) with (a := z); [ | intros; apply plane_len | exact Hz | nia ].
  rewrite (nth_error_flat_map _ ys (List.length xs)) with (a := y); [ | intros; apply map_length | exact Hy | exact Lx ].
  rewrite nth_error_map, Hx. reflexivity.
Qed.

Theorem C57_grid_size : forall (xs ys zs : list T),
  List.length (tomo_grid T xs ys zs) = (List.length xs * List.length ys * List.length zs)%nat.
Proof.
  intros xs ys zs. unfold tomo_grid. induction zs as [|z zs IH]; cbn [flat_map List.length]; [lia|]. rewrite app_length, IH.
  fold (plane_of xs ys z). rewrite plane_len. lia.
Qed.

Variable eqb : T -> T -> bool.
Hypothesis eqb_spec : forall a b, eqb a b = true <-> a = b.

Lemma filter_none {A} (f : A -> bool) l : (forall a, In a l -> f a = false) -> filter f l = [].
Proof.
  induction l as [|a l IH]; intros H; [reflexivity|]. cbn. rewrite (H a) by (left; reflexivity). apply IH. intros; apply H; right; assumption.
Qed.
Lemma filter_all {A} (f : A -> bool) l : (forall a, In a l -> f a = true) -> filter f l = l.
Proof.
  induction l as [|a l IH]; intros H; [reflexivity|]. cbn. rewrite (H a) by (left; reflexivity). f_equal. apply IH. intros; apply H; right; assumption.
Qed.

Lemma filter_grid_none xs ys zs z : ~ In z zs -> filter (fun g => eqb (snd g) z) (tomo_grid T xs ys zs) = [].
Proof.
  intros H. apply filter_none. intros g Hg. unfold tomo_grid in Hg. apply in_flat_map in Hg. destruct Hg as (z' & Hz' & Hg).
  apply plane_z in Hg. rewrite Hg. destruct (eqb z' z) eqn:E; [|reflexivity]. apply eqb_spec in E. subst. contradiction.
Qed.

Lemma filter_grid xs ys z1 z z2 : NoDup (z1 ++ z :: z2) ->
  filter (fun g => eqb (snd g) z) (tomo_grid T xs ys (z1 ++ z :: z2)) = plane_of xs ys z.
Proof.
  intros H. apply NoDup_remove_2 in H. unfold tomo_grid. rewrite flat_map_app. cbn [flat_map]. rewrite !filter_app.
  fold (tomo_grid T xs ys z1). fold (tomo_grid T xs ys z2).
  rewrite (filter_grid_none xs ys z1), (filter_grid_none xs ys z2) by (intros K; apply H; apply in_or_app; auto).
  rewrite app_nil_r. cbn [app]. apply filter_all. intros g Hg. apply plane_z in Hg. apply eqb_spec. exact Hg.
Qed.

Context {P : Type}.
Variable project : T -> T * T * T -> P.

Lemma assign_slice_exact (done : list (option P)) (mid rest : list (option P)) vs :
  zlen mid = zlen vs ->
  assign_slice P (done ++ mid ++ rest) (zlen done) (zlen done + zlen vs) vs = Ok (done ++ map Some vs ++ rest).
Proof.
  intros H. unfold assign_slice.
  assert (E : py_slice (done ++ mid ++ rest) (zlen done) (zlen done + zlen vs) = mid).
  { rewrite slice_in by (unfold zlen in *; rewrite ?app_length; lia).
    unfold zlen in *. rewrite Nat2Z.id, skipn_app, skipn_all, Nat.sub_diag. cbn [skipn app].
    replace (Z.to_nat _) with (List.length mid + 0)%nat by lia. rewrite firstn_app_2. cbn. apply app_nil_r. }
  rewrite E, H, Z.eqb_refl. cbn [orb]. f_equal. f_equal.
  - unfold zlen. rewrite Nat2Z.id, firstn_app, firstn_all, Nat.sub_diag. cbn. apply app_nil_r.
  - f_equal. unfold zlen. rewrite Nat2Z.id.
    rewrite app_assoc, skipn_app, app_length. rewrite Nat.sub_diag. rewrite skipn_all2 by (rewrite app_length; lia). reflexivity.
Qed.

Definition slice_step (grid : list (T * T * T)) (pix : list (option P)) (iz : Z * T) : result (list (option P)) :=
  let '(i, z) := iz in
  let grid_zslice := filter (fun g => eqb (snd g) z) grid in
  let n := zlen grid_zslice in
  let istart := i * n in
  let iend := (i + 1) * n in
  if n =? 0 then Err CvError else assign_slice P pix istart iend (map (project z) grid_zslice).

Lemma phys2pix_loop xs ys : xs <> [] -> ys <> [] -> forall z2 z1, NoDup (z1 ++ z2) ->
  py_for (slice_step (tomo_grid T xs ys (z1 ++ z2))) (combine (map Z.of_nat (seq (List.length z1) (List.length z2))) z2)
    (map (fun g => Some (project (snd g) g)) (tomo_grid T xs ys z1) ++ map (fun _ => None) (tomo_grid T xs ys z2)) =
  Ok (map (fun g => Some (project (snd g) g)) (tomo_grid T xs ys (z1 ++ z2))).
Proof.
  intros Hx Hy. induction z2 as [|z z2 IH]; intros z1 Hn.
  - cbn [py_for combine seq map List.length]. unfold tomo_grid at 2. cbn [flat_map map]. rewrite !app_nil_r. reflexivity.
  - cbn [List.length seq map combine py_for].
    assert (Hstep : slice_step (tomo_grid T xs ys (z1 ++ z :: z2))
        (map (fun g => Some (project (snd g) g)) (tomo_grid T xs ys z1) ++ map (fun _ => None) (tomo_grid T xs ys (z :: z2)))
        (Z.of_nat (List.length z1), z) =
      Ok (map (fun g => Some (project (snd g) g)) (tomo_grid T xs ys (z1 ++ [z])) ++ map (fun _ => None) (tomo_grid T xs ys z2))).
    { unfold slice_step. rewrite (filter_grid xs ys z1 z z2 Hn).
      set (n := zlen (plane_of xs ys z)).
      assert (Hn0 : 0 < n).
      { unfold n, zlen. rewrite plane_len. destruct xs, ys; try contradiction. cbn. lia. }
      replace (n =? 0) with false by lia.
      change (tomo_grid T xs ys (z :: z2)) with (plane_of xs ys z ++ tomo_grid T xs ys z2).
      rewrite map_app.
      assert (L : zlen (map (fun g => Some (project (snd g) g)) (tomo_grid T xs ys z1)) = Z.of_nat (List.length z1) * n).
      { unfold n, zlen. rewrite map_length, C57_grid_size, plane_len. lia. }
      replace (Z.of_nat (List.length z1) * n) with (zlen (map (fun g => Some (project (snd g) g)) (tomo_grid T xs ys z1))) by exact L.
      replace ((Z.of_nat (List.length z1) + 1) * n)
        with (zlen (map (fun g => Some (project (snd g) g)) (tomo_grid T xs ys z1)) + zlen (map (project z) (plane_of xs ys z)))
        by (rewrite L; unfold zlen at 1; rewrite map_length; fold (zlen (plane_of xs ys z)); fold n; ring).
      rewrite assign_slice_exact by (unfold zlen; rewrite !map_length; reflexivity).
      f_equal. unfold tomo_grid at 3. rewrite flat_map_app. cbn [flat_map]. rewrite app_nil_r.
      fold (tomo_grid T xs ys z1). fold (plane_of xs ys z). rewrite map_app, <- app_assoc. f_equal. f_equal.
      rewrite map_map. apply map_ext_in. intros g Hg. apply plane_z in Hg. rewrite Hg. reflexivity. }
    unfold bind. rewrite Hstep.
    replace (z1 ++ z :: z2) with ((z1 ++ [z]) ++ z2) by (rewrite <- app_assoc; reflexivity).
    specialize (IH (z1 ++ [z])). rewrite app_length in IH. cbn [List.length] in IH.
    replace (List.length z1 + 1)%nat with (S (List.length z1)) in IH by lia.
    apply IH. rewrite <- app_assoc. exact Hn.
Qed.

(** Line i of the pixels is the projection of line i of the grid, with the parameters of the
    camera for its z. *)
Theorem C57_alignment : forall xs ys zs, xs <> [] -> ys <> [] -> NoDup zs ->
  phys2pix T eqb P project (tomo_grid T xs ys zs) zs =
  Ok (map (fun g => Some (project (snd g) g)) (tomo_grid T xs ys zs)).
Proof.
  intros xs ys zs Hx Hy Hn. pose proof (phys2pix_loop xs ys Hx Hy zs [] Hn) as H.
  cbn [app List.length] in H. unfold tomo_grid at 2 in H. cbn [flat_map map app] in H.
  unfold phys2pix, range0, zlen. rewrite Nat2Z.id. exact H.
Qed.

(** with several slices at the same z, it fails *)
Theorem C57_same_z : forall xs ys z k, xs <> [] -> ys <> [] ->
  phys2pix T eqb P project (tomo_grid T xs ys (repeat z (S (S k)))) (repeat z (S (S k))) = Err ValueError.
Proof.
  intros xs ys z k Hx Hy. unfold phys2pix.
  set (grid := tomo_grid T xs ys (repeat z (S (S k)))).
  assert (F : filter (fun g => eqb (snd g) z) grid = grid).
  { apply filter_all. intros g Hg. apply eqb_spec. unfold grid, tomo_grid in Hg. apply in_flat_map in Hg.
    destruct Hg as (z' & Hz' & Hg). apply repeat_spec in Hz'. subst z'. apply plane_z in Hg. exact Hg. }
  assert (L : 2 <= zlen grid).
  { unfold grid, zlen. rewrite C57_grid_size, repeat_length. destruct xs, ys; try contradiction. cbn [List.length]. nia. }
  replace (zlen (repeat z (S (S k)))) with (Z.of_nat (S (S k))) by (unfold zlen; rewrite repeat_length; reflexivity).
  unfold range0. rewrite Nat2Z.id. cbn [seq map repeat combine py_for].
  rewrite F. replace (zlen grid =? 0) with false by lia. cbn [Z.of_nat].
  pose proof (assign_slice_exact [] (map (fun _ => None) grid) [] (map (project z) grid)) as A.
  cbn [app zlen List.length Z.of_nat] in A. rewrite !app_nil_r in A.
  replace (zlen (map (project z) grid)) with (zlen grid) in A by (unfold zlen; rewrite map_length; reflexivity).
  replace (0 * zlen grid) with 0 by ring. replace ((0 + 1) * zlen grid) with (0 + zlen grid) by ring.
  unfold bind. change (zlen []) with 0 in A. rewrite A by (unfold zlen; rewrite map_length; reflexivity).
  unfold assign_slice at 1.
  set (t := py_slice (map Some (map (project z) grid)) (Z.pos (Pos.of_succ_nat 0) * zlen grid) ((Z.pos (Pos.of_succ_nat 0) + 1) * zlen grid)).
  assert (E : t = []).
  { unfold t. change (Z.pos (Pos.of_succ_nat 0)) with 1. unfold py_slice, norm_bound.
    replace (1 * zlen grid <? 0) with false by lia. replace ((1 + 1) * zlen grid <? 0) with false by lia.
    replace (zlen (map Some (map (project z) grid))) with (zlen grid) by (unfold zlen; rewrite !map_length; reflexivity).
    rewrite !Z.min_r by lia. rewrite Z.sub_diag. reflexivity. }
  rewrite E.
  replace (zlen (map (project z) grid)) with (zlen grid) by (unfold zlen; rewrite map_length; reflexivity).
  replace (zlen [] =? zlen grid) with false by (symmetry; apply Z.eqb_neq; change (@zlen (option P) []) with 0; lia).
  replace (zlen grid =? 1) with false by lia. reflexivity.
Qed.

(** The limits recorded as attributes: ymin is the lower limit of z, and zmin does not exist. *)
Theorem C57_limits_refuted : forall xlims ylims zlims : T * T,
  get_attr T "ymin" (tomo_limits T xlims ylims zlims) = Ok (fst zlims) /\
  get_attr T "zmin" (tomo_limits T xlims ylims zlims) = Err AttributeError.
Proof. intros; split; reflexivity. Qed.
Theorem C57_limits_partial : forall xlims ylims zlims : T * T,
  let a := tomo_limits T xlims ylims zlims in
  get_attr T "xmin" a = Ok (fst xlims) /\ get_attr T "xmax" a = Ok (snd xlims) /\
  get_attr T "ymax" a = Ok (snd ylims) /\ get_attr T "zmax" a = Ok (snd zlims).
Proof. intros; repeat split; reflexivity. Qed.
End Grid.
Print Assumptions C57_grid.
Print Assumptions C57_grid_size.
Print Assumptions C57_alignment.
Print Assumptions C57_same_z.
Print Assumptions C57_limits_refuted.
Print Assumptions C57_limits_partial.

Example C57_case : phys2pix Z Z.eqb (Z * Z) (fun z g => (fst (fst g) + z, snd (fst g))) (tomo_grid Z [0; 1] [5; 6; 7] [10; 20]) [10; 20] =
  Ok [Some (10, 5); Some (11, 5); Some (10, 6); Some (11, 6); Some (10, 7); Some (11, 7);
      Some (20, 5); Some (21, 5); Some (20, 6); Some (21, 6); Some (20, 7); Some (21, 7)].
Proof. vm_compute. reflexivity. Qed.

(** the values of z of an array (linspace, tomo.py:79-85) are distinct if the limits are *)
Theorem C57_linspace : forall zmin zmax nz zs, linspace zmin zmax nz = Ok zs -> zmin <> zmax -> NoDup zs.
Proof.
  intros zmin zmax nz zs H Hne. unfold linspace in H.
  destruct (nz <? 0) eqn:E0; [discriminate|]. destruct (nz =? 1) eqn:E1.
  - injection H as <-. constructor; [intros []|constructor].
  - injection H as <-.
    assert (K : forall l, NoDup l -> NoDup (map (fun k => (zmin + IZR k * ((zmax - zmin) / IZR (nz - 1)))%R) l) \/ nz = 0).
    { intros l Hl. destruct (Z.eq_dec nz 0) as [?|Hz]; [right; assumption|left].
      apply FinFun.Injective_map_NoDup; [|exact Hl]. intros a b Hab.
      apply eq_IZR. apply Rplus_eq_reg_l in Hab. apply Rmult_eq_reg_r in Hab; [exact Hab|].
      apply Rmult_integral_contrapositive. split; [lra|]. apply Rinv_neq_0_compat. apply not_0_IZR. lia. }
    assert (N : NoDup (range0 nz)).
    { unfold range0. apply FinFun.Injective_map_NoDup; [intros a b; lia|apply seq_NoDup]. }
    destruct (K _ N) as [ ? | E ]; [assumption|]. rewrite E. cbn. constructor.
Qed.
Print Assumptions C57_linspace.

(** ** C70 *)

(** The image of slice k has, in line a and column b, the intensity of number
    (a * ny + b) * nz + k, whereas the voxels of height zs[k] are the ones of numbers
    k * nx * ny, ..., (k + 1) * nx * ny - 1. *)
Theorem C70_plot_slices_iff : forall nx ny nz, (0 < nx)%nat -> (0 < ny)%nat -> (0 < nz)%nat ->
  let heights := map (fun p => (p / (nx * ny))%nat) (seq 0 (nx * ny * nz)) in   (* iz of each voxel of the grid *)
  (forall k, (k < nz)%nat -> Forall (Forall (fun v => v = Some k)) (plot_slice nx ny nz heights k)) <->
  (nz = 1 \/ nx * ny = 1)%nat.
Proof.
  intros nx ny nz Hx Hy Hz heights.
  assert (G : forall a b k, (a < nx)%nat -> (b < ny)%nat -> (k < nz)%nat ->
    nth_error (firstn nz (skipn ((a * ny + b) * nz) heights)) k = Some (((a * ny + b) * nz + k) / (nx * ny))%nat).
  { intros a b k Ha Hb Hk. rewrite nth_error_firstn_lt by exact Hk. rewrite nth_error_skipn. unfold heights.
    rewrite nth_error_map.
    assert (L0 : (a * ny + b < nx * ny)%nat) by nia.
    assert (L : ((a * ny + b) * nz + k < nx * ny * nz)%nat) by (generalize dependent (a * ny + b)%nat; generalize (nx * ny)%nat; intros; nia).
    rewrite (nth_error_nth' _ 0%nat) by (rewrite seq_length; exact L). rewrite seq_nth by exact L. reflexivity. }
  unfold plot_slice, reshape3. split.
  - intros H. destruct (Nat.eq_dec nz 1) as [?|Hz1]; [left; assumption|right].
    specialize (H 1%nat ltac:(lia)). rewrite Forall_forall in H.
    assert (I1 : In (map (fun line => nth_error line 1) (map (fun b => firstn nz (skipn ((0 * ny + b) * nz) heights)) (seq 0 ny)))
      (map (map (fun line => nth_error line 1)) (map (fun a => map (fun b => firstn nz (skipn ((a * ny + b) * nz) heights)) (seq 0 ny)) (seq 0 nx)))).
    { apply in_map. apply in_map_iff. exists 0%nat. split; [reflexivity|]. apply in_seq. lia. }
    specialize (H _ I1). rewrite Forall_forall in H.
    specialize (H (nth_error (firstn nz (skipn ((0 * ny + 0) * nz) heights)) 1)).
    rewrite G in H by lia.
    assert (V : Some (((0 * ny + 0) * nz + 1) / (nx * ny))%nat = Some 1%nat).
    { apply H. rewrite map_map. apply in_map_iff. exists 0%nat. split; [apply G; lia|apply in_seq; lia]. }
    injection V as V. replace ((0 * ny + 0) * nz + 1)%nat with 1%nat in V by lia.
    destruct (Nat.le_gt_cases (nx * ny) 1) as [?|Hgt]; [nia|]. rewrite Nat.div_small in V by exact Hgt. discriminate.
  - intros H k Hk. rewrite Forall_forall. intros l Hl. rewrite map_map in Hl. apply in_map_iff in Hl. destruct Hl as (a & <- & Ha).
    apply in_seq in Ha. rewrite Forall_forall. intros v Hv. rewrite map_map in Hv. apply in_map_iff in Hv. destruct Hv as (b & <- & Hb).
    apply in_seq in Hb. rewrite G by lia. f_equal.
    destruct H as [->|H1].
    + assert (k = 0)%nat by lia. subst k. apply Nat.div_small. nia.
    + rewrite H1, Nat.div_1_r. assert (nx = 1 /\ ny = 1)%nat by nia. assert (a = 0 /\ b = 0)%nat by lia. nia.
Qed.
Print Assumptions C70_plot_slices_iff.

(** the values which are compared above are the indices of the heights of the voxels *)
Theorem C70_heights : forall (xs ys zs : list Z) p g, nth_error (tomo_grid Z xs ys zs) p = Some g ->
  nth_error zs (p / (List.length xs * List.length ys)) = Some (snd g).
Proof.
  intros xs ys zs p g H.
  assert (L : (p < List.length xs * List.length ys * List.length zs)%nat) by (rewrite <- C57_grid_size; apply nth_error_Some; congruence).
  set (nx := List.length xs) in *. set (ny := List.length ys) in *.
  assert (Hxy : (0 < nx * ny)%nat) by nia.
  assert (Hq : (p / (nx * ny) < List.length zs)%nat) by (apply Nat.div_lt_upper_bound; lia).
  destruct (nth_error zs (p / (nx * ny))) as [z|] eqn:E; [|apply nth_error_None in E; lia]. f_equal.
  assert (Hr : (p mod (nx * ny) < ny * nx)%nat) by (pose proof (Nat.mod_upper_bound p (nx * ny)); lia).
  unfold tomo_grid in H.
  replace p with (p / (nx * ny) * (ny * nx) + p mod (nx * ny))%nat in H
    by (pose proof (Nat.div_mod p (nx * ny)); lia).
  rewrite (nth_error_flat_map _ zs (ny * nx)) with (a := z) in H; [|intros; apply plane_len|exact E|exact Hr].
  apply nth_error_In in H. apply plane_z in H. auto.
Qed.
Print Assumptions C70_heights.

(** ** C71 *)
Section Mlos.
Context {V : Type}.
Variables (mul : V -> V -> V) (one : V) (root : V -> V).
Hypothesis mul_assoc : forall a b c, mul a (mul b c) = mul (mul a b) c.
Hypothesis mul_comm : forall a b, mul a b = mul b a.
Hypothesis mul_1 : forall a, mul one a = a.

(** the product over the cameras of the roots of the intensities of voxel j *)
Definition line_of_sight (cams : list (list V)) (d : V) (j : nat) : V :=
  fold_right mul one (map (fun c => root (nth j c d)) cams).

Lemma times_ok a b : List.length a = List.length b -> times V mul a b = Ok (map (fun ab => mul (fst ab) (snd ab)) (combine a b)).
Proof. intros H. unfold times, zlen. rewrite H, Z.eqb_refl. reflexivity. Qed.

Lemma nth_times a b j d : List.length a = List.length b -> (j < List.length a)%nat ->
  nth j (map (fun ab => mul (fst ab) (snd ab)) (combine a b)) d = mul (nth j a d) (nth j b d).
Proof.
  intros L H. rewrite (nth_indep _ d (mul (fst (d, d)) (snd (d, d)))) by (rewrite map_length, combine_length; lia).
  rewrite map_nth with (f := fun ab => mul (fst ab) (snd ab)), combine_nth by exact L. reflexivity.
Qed.

Lemma mlos_loop (save : bool) (n : nat) (d : V) : forall (cams : list (list V)) (s : mlos V), Forall (fun c => List.length c = n) cams ->
  List.length (if save then match file s with Some w => w | None => repeat one n end else mem s) = n ->
  exists s', reconstruct_all V mul root save s cams = Ok s' /\
    (forall j, (j < n)%nat ->
      let start := if save then match file s with Some w => nth j w d | None => one end else nth j (mem s) d in
      nth j (if save then match file s' with Some w => w | None => repeat one n end else mem s') d = mul (line_of_sight cams d j) start) /\
    (save = false -> file s' = file s) /\ (save = true -> cams <> [] -> file s' <> None) /\
    List.length (if save then match file s' with Some w => w | None => repeat one n end else mem s') = n.
Proof.
  unfold reconstruct_all. induction cams as [|c cams IH]; intros s Hc Hl.
  - exists s. split; [reflexivity|]. split.
    + intros j Hj. cbn [line_of_sight map fold_right]. unfold line_of_sight. cbn. rewrite mul_1. destruct save; [|reflexivity].
      destruct (file s); [reflexivity|]. rewrite nth_indep with (d' := one) by (rewrite repeat_length; exact Hj). apply nth_repeat.
    + repeat split; auto.
  - inversion Hc as [|? ? Hc1 Hc2]; subst. cbn [py_for].
    set (n := List.length c) in *.
    assert (Hs : exists s1, reconstruct V mul root save s c = Ok s1 /\
      (forall j, (j < n)%nat ->
        let start := if save then match file s with Some w => nth j w d | None => one end else nth j (mem s) d in
        (if save then match file s1 with Some w => nth j w d | None => one end else nth j (mem s1) d) = mul (root (nth j c d)) start) /\
      (save = false -> file s1 = file s) /\ (save = true -> file s1 <> None) /\
      List.length (if save then match file s1 with Some w => w | None => repeat one n end else mem s1) = n).
    { unfold reconstruct. destruct save.
      - destruct (file s) as [dset|].
        + rewrite times_ok by (rewrite map_length; exact Hl). cbn [bind]. eexists. split; [reflexivity|]. cbn [file mem]. repeat split; try discriminate.
          * intros j Hj. cbv zeta. rewrite nth_times by (rewrite ?map_length; fold n; lia). rewrite mul_comm. f_equal.
            rewrite (nth_indep _ d (root d)) by (rewrite map_length; exact Hj). apply map_nth.
          * rewrite map_length, combine_length, map_length. lia.
        + eexists. split; [reflexivity|]. cbn [file mem]. repeat split; try discriminate.
          * intros j Hj. cbv zeta. rewrite (nth_indep _ d (root d)) by (rewrite map_length; exact Hj). rewrite map_nth, mul_comm, mul_1. reflexivity.
          * apply map_length.
      - rewrite times_ok by (rewrite map_length; exact Hl). cbn [bind]. eexists. split; [reflexivity|]. cbn [file mem]. repeat split; try discriminate.
        + intros j Hj. cbv zeta. rewrite nth_times by (rewrite ?map_length; fold n; lia). rewrite mul_comm. f_equal.
          rewrite (nth_indep _ d (root d)) by (rewrite map_length; exact Hj). apply map_nth.
        + rewrite map_length, combine_length, map_length. lia. }
    destruct Hs as (s1 & E1 & V1 & F1 & G1 & L1). unfold bind; rewrite E1.
    destruct (IH s1 Hc2 L1) as (s' & E' & V' & F' & G' & L'). exists s'. split; [exact E'|]. split; [|split; [|split]].
    + intros j Hj. cbv zeta. rewrite (V' j Hj). cbv zeta. rewrite (V1 j Hj). cbv zeta. unfold line_of_sight. cbn [map fold_right].
      rewrite mul_assoc. f_equal. apply mul_comm.
    + intros Hsv. rewrite F', F1; auto.
    + intros Hsv _. destruct cams as [|c' cams']; [|apply G'; [exact Hsv|discriminate]].
      cbn [py_for] in E'. injection E' as <-. apply G1. exact Hsv.
    + exact L'.
Qed.

(** In memory (save=False), after one call for each camera, the intensity of each voxel is the
    product of the roots of the intensities seen by the cameras. *)
Theorem C71_memory : forall n d cams f, Forall (fun c => List.length c = n) cams ->
  exists s', reconstruct_all V mul root false {| mem := new_array V one n; file := f |} cams = Ok s' /\
    file s' = f /\ List.length (mem s') = n /\
    forall j, (j < n)%nat -> nth j (mem s') d = line_of_sight cams d j.
Proof.
  intros n d cams f Hc.
  destruct (mlos_loop false n d cams {| mem := new_array V one n; file := f |} Hc) as (s' & E & W & F & _ & L); [apply repeat_length|].
  exists s'. split; [exact E|]. split; [apply F; reflexivity|]. split; [exact L|].
  intros j Hj. rewrite (W j Hj). cbn [mem]. unfold new_array. rewrite nth_indep with (d' := one) by (rewrite repeat_length; exact Hj).
  rewrite nth_repeat, mul_comm. apply mul_1.
Qed.

(** With files (save=True) and no file at the beginning, the same values are in the file. *)
Theorem C71_file : forall n d cams m, cams <> [] -> Forall (fun c => List.length c = n) cams ->
  exists s' vox, reconstruct_all V mul root true {| mem := m; file := None |} cams = Ok s' /\
    file s' = Some vox /\ List.length vox = n /\
    forall j, (j < n)%nat -> nth j vox d = line_of_sight cams d j.
Proof.
  intros n d cams m Hne Hc.
  destruct (mlos_loop true n d cams {| mem := m; file := None |} Hc) as (s' & E & W & _ & G & L); [apply repeat_length|].
  destruct (file s') as [vox|] eqn:Ef; [|exfalso; exact (G eq_refl Hne eq_refl)].
  exists s', vox. split; [exact E|]. split; [exact Ef|]. split; [exact L|].
  intros j Hj. specialize (W j Hj). cbv zeta in W. cbn [file] in W. rewrite W, mul_comm. apply mul_1.
Qed.

(** But a file left by a previous run is multiplied by the new values. *)
Theorem C71_old_file_refuted : forall n d cams m old, cams <> [] -> Forall (fun c => List.length c = n) cams -> List.length old = n ->
  exists s' vox, reconstruct_all V mul root true {| mem := m; file := Some old |} cams = Ok s' /\
    file s' = Some vox /\ forall j, (j < n)%nat -> nth j vox d = mul (line_of_sight cams d j) (nth j old d).
Proof.
  intros n d cams m old Hne Hc Ho.
  destruct (mlos_loop true n d cams {| mem := m; file := Some old |} Hc) as (s' & E & W & _ & G & L); [exact Ho|].
  destruct (file s') as [vox|] eqn:Ef; [|exfalso; exact (G eq_refl Hne eq_refl)].
  exists s', vox. split; [exact E|]. split; [exact Ef|].
  intros j Hj. specialize (W j Hj). cbv zeta in W. cbn [file] in W. exact W.
Qed.

(** the order of the cameras does not matter *)
Theorem C71_order : forall cams cams' d j, Permutation cams cams' -> line_of_sight cams d j = line_of_sight cams' d j.
Proof.
  intros cams cams' d j H. unfold line_of_sight. induction H as [| c l l' _ IH | a b l | l1 l2 l3 _ IH1 _ IH2]; cbn [map fold_right].
  - reflexivity.
  - f_equal. exact IH.
  - rewrite !mul_assoc. f_equal. apply mul_comm.
  - congruence.
Qed.
End Mlos.
Print Assumptions C71_memory.
Print Assumptions C71_file.
Print Assumptions C71_old_file_refuted.
Print Assumptions C71_order.

Example C71_case : reconstruct_all Z Z.mul (fun v => v) true {| mem := []; file := None |} [[2; 3]; [5; 7]] = Ok {| mem := [10; 21]; file := Some [10; 21] |}.
Proof. reflexivity. Qed.

(** ** C72 *)

(** the circles of the target, line by line: x varies the fastest *)
Definition target (nx ny : Z) : list (Z * Z) :=
  flat_map (fun y => map (fun x => (x, y)) (range_list (- ((nx - 1) / 2)) ((nx - 1) / 2 + 1) 1))
    (range_list (- ((ny - 1) / 2)) ((ny - 1) / 2 + 1) 1).

Definition lex_lt (a b : Z * Z) : Prop := snd a < snd b \/ (snd a = snd b /\ fst a < fst b).

Lemma lex_insert_perm a l : Permutation (a :: l) (lex_insert a l).
Proof.
  induction l as [|b l IH]; cbn [lex_insert]; [reflexivity|]. destruct (lex_le a b); [reflexivity|].
  rewrite perm_swap. constructor. exact IH.
Qed.
Lemma lex_sort_perm l : Permutation l (lex_sort l).
Proof. induction l as [|a l IH]; [reflexivity|]. cbn. rewrite <- lex_insert_perm. constructor. exact IH. Qed.

Lemma lex_insert_sorted a l : StronglySorted (fun x y => lex_le x y = true) l -> StronglySorted (fun x y => lex_le x y = true) (lex_insert a l).
Proof.
  induction l as [|b l IH]; intros H; cbn [lex_insert]; [repeat constructor|].
  inversion H as [|? ? H1 H2]; subst. destruct (lex_le a b) eqn:E.
  - constructor; [exact H|]. constructor; [exact E|]. eapply Forall_impl; [|exact H2]. intros c Hc. cbn in Hc. unfold lex_le in *. lia.
  - constructor; [apply IH; exact H1|]. apply (Permutation_Forall (lex_insert_perm a l)). constructor; [unfold lex_le in *; lia|exact H2].
Qed.
Lemma lex_sort_sorted l : StronglySorted (fun x y => lex_le x y = true) (lex_sort l).
Proof. induction l as [|a l IH]; [constructor|]. cbn. apply lex_insert_sorted. exact IH. Qed.

Lemma lex_sorted_unique l : StronglySorted (fun x y => lex_le x y = true) l ->
  forall l', StronglySorted (fun x y => lex_le x y = true) l' -> Permutation l l' -> l = l'.
Proof.
  intros H. induction H as [|a l Hs IH Hf]; intros l' H' Hp.
  - symmetry. apply Permutation_nil. exact Hp.
  - destruct H' as [|b l' Hs' Hf']; [apply Permutation_sym, Permutation_nil in Hp; discriminate|].
    assert (E : a = b).
    { assert (A1 : In a (b :: l')) by (eapply Permutation_in; [exact Hp|left; reflexivity]).
      assert (A2 : In b (a :: l)) by (eapply Permutation_in; [apply Permutation_sym; exact Hp|left; reflexivity]).
      destruct A1 as [->|A1]; [reflexivity|]. destruct A2 as [->|A2]; [reflexivity|].
      rewrite Forall_forall in Hf, Hf'. specialize (Hf _ A2). specialize (Hf' _ A1). unfold lex_le in *.
      destruct a as [a1 a2], b as [b1 b2]. cbn in *. f_equal; lia. }
    subst b. f_equal. apply IH; [exact Hs'|]. eapply Permutation_cons_inv. exact Hp.
Qed.

Lemma sorted_app {A} (R : A -> A -> Prop) l1 l2 : StronglySorted R l1 -> StronglySorted R l2 -> (forall a b, In a l1 -> In b l2 -> R a b) -> StronglySorted R (l1 ++ l2).
Proof.
  intros H1 H2 H. induction H1 as [|a l H1 IH Hf]; [exact H2|]. cbn. constructor.
  - apply IH. intros; apply H; [right|]; assumption.
  - apply Forall_app. split; [exact Hf|]. apply Forall_forall. intros b Hb. apply H; [left; reflexivity|exact Hb].
Qed.

Lemma target_sorted nx ny : StronglySorted (fun x y => lex_le x y = true) (target nx ny).
Proof.
  unfold target. generalize (range1_sorted (- ((ny - 1) / 2)) ((ny - 1) / 2 + 1)).
  generalize (range_list (- ((ny - 1) / 2)) ((ny - 1) / 2 + 1) 1). intros ys Hy.
  pose proof (range1_sorted (- ((nx - 1) / 2)) ((nx - 1) / 2 + 1)) as Hx.
  set (xs := range_list (- ((nx - 1) / 2)) ((nx - 1) / 2 + 1) 1) in *. clearbody xs.
  induction Hy as [|y ys Hy IH Hf]; cbn [flat_map]; [constructor|]. apply sorted_app; [|exact IH|].
  - clear - Hx. induction Hx as [|x xs Hx IH Hf]; cbn [map]; constructor; [exact IH|].
    apply Forall_forall. intros p Hp. apply in_map_iff in Hp. destruct Hp as (x' & <- & Hx'). rewrite Forall_forall in Hf.
    specialize (Hf _ Hx'). unfold lex_le. cbn. lia.
  - intros a b Ha Hb. apply in_map_iff in Ha. destruct Ha as (x & <- & _). apply in_flat_map in Hb. destruct Hb as (y' & Hy' & Hb).
    apply in_map_iff in Hb. destruct Hb as (x' & <- & _). rewrite Forall_forall in Hf. specialize (Hf _ Hy'). unfold lex_le. cbn. lia.
Qed.

Lemma target_In nx ny x y : In (x, y) (target nx ny) <-> - ((nx - 1) / 2) <= x <= (nx - 1) / 2 /\ - ((ny - 1) / 2) <= y <= (ny - 1) / 2.
Proof.
  unfold target. rewrite in_flat_map. split.
  - intros (y' & Hy & H). apply in_map_iff in H. destruct H as (x' & E & Hx). injection E as <- <-.
    apply range1_In in Hy, Hx. lia.
  - intros [Hx Hy]. exists y. split; [apply range1_In; lia|]. apply in_map_iff. exists x. split; [reflexivity|apply range1_In; lia].
Qed.

Lemma range1_len h : 0 <= h -> zlen (range_list (- h) (h + 1) 1) = 2 * h + 1.
Proof.
  intros H. rewrite zlen_range_list by lia. unfold range_len.
  replace ((0 <? 1) && (- h <? h + 1)) with true by lia. rewrite Z.div_1_r. lia.
Qed.

Lemma target_len nx ny : 0 < nx -> 0 < ny -> nx mod 2 = 1 -> ny mod 2 = 1 -> zlen (target nx ny) = nx * ny.
Proof.
  intros Hx Hy Mx My. unfold target.
  assert (G : forall (f : Z -> list (Z * Z)) l n, (forall y, zlen (f y) = n) -> zlen (flat_map f l) = zlen l * n).
  { intros f l n Hf. induction l as [|a l IH]; [reflexivity|]. cbn [flat_map]. unfold zlen in *. rewrite app_length. cbn [List.length]. rewrite Nat2Z.inj_add, IH, Hf. lia. }
  rewrite G with (n := nx).
  - rewrite range1_len by (apply Z.div_pos; lia).
    assert (ny = 2 * ((ny - 1) / 2) + 1) by (Z.div_mod_to_equations; lia). lia.
  - intros y. unfold zlen. rewrite map_length. fold (zlen (range_list (- ((nx - 1) / 2)) ((nx - 1) / 2 + 1) 1)).
    rewrite range1_len by (apply Z.div_pos; lia).
    assert (nx = 2 * ((nx - 1) / 2) + 1) by (Z.div_mod_to_equations; lia). lia.
Qed.

(** The image points of all the circles of the target, detected in any order, are returned line
    by line. *)
Theorem C72_image_points : forall nx ny centers, 0 < nx -> 0 < ny -> nx mod 2 = 1 -> ny mod 2 = 1 ->
  Permutation centers (target nx ny) -> order_image_points nx ny centers = Ok (target nx ny).
Proof.
  intros nx ny centers Hx Hy Mx My H. unfold order_image_points.
  assert (L : zlen centers = nx * ny) by (rewrite <- (target_len nx ny) by assumption; unfold zlen; rewrite (Permutation_length H); reflexivity).
  rewrite L, Z.eqb_refl. f_equal. apply lex_sorted_unique; [apply lex_sort_sorted|apply target_sorted|].
  rewrite <- lex_sort_perm. exact H.
Qed.
Print Assumptions C72_image_points.

(** The object points are the points of the target in the same order exactly if the target is
    square. *)
Theorem C72_object_points_iff : forall nx ny, 0 < nx -> 0 < ny -> nx mod 2 = 1 -> ny mod 2 = 1 ->
  (construct_object_points nx ny = Ok (target nx ny) <-> nx = ny).
Proof.
  intros nx ny Hx Hy Mx My. unfold construct_object_points. rewrite Mx, My. cbn [Z.eqb Pos.eqb negb].
  split.
  - intros H. injection H as H.
    assert (G : forall x y, In (x, y) (target nx ny) <-> In (x, y) (target ny nx)).
    { intros x y. rewrite <- H. unfold target. reflexivity. }
    assert (Ex : nx = 2 * ((nx - 1) / 2) + 1) by (Z.div_mod_to_equations; lia).
    assert (Ey : ny = 2 * ((ny - 1) / 2) + 1) by (Z.div_mod_to_equations; lia).
    pose proof (proj1 (G ((nx - 1) / 2) 0)) as G1. pose proof (proj2 (G ((ny - 1) / 2) 0)) as G2. rewrite !target_In in G1, G2. lia.
  - intros <-. reflexivity.
Qed.
Print Assumptions C72_object_points_iff.

(** they are always the points of the target with nx and ny exchanged *)
Theorem C72_object_points : forall nx ny, nx mod 2 = 1 -> ny mod 2 = 1 ->
  construct_object_points nx ny = Ok (target ny nx).
Proof. intros nx ny Mx My. unfold construct_object_points. rewrite Mx, My. reflexivity. Qed.
Print Assumptions C72_object_points.

Example C72_case : construct_object_points 3 5 = Ok (target 5 3) /\ target 5 3 <> target 3 5.
Proof. split; [reflexivity|vm_compute; discriminate]. Qed.

(** C60: direct correlation. *)
From Verif Require Import PyBase CorrelModel CorrelProofs DirectModel PeakProps.
From Coq Require Import Sorted.
Local Open Scope Z_scope.

Ltac Zify.zify_post_hook ::= Z.div_mod_to_equations.

(** *** Specification *)
Definition rectangle (im : image) (ny nx : Z) : Prop := zlen im = ny /\ forall row, In row im -> zlen row = nx.
Definition px (im : image) (y x : Z) : Z := nth (Z.to_nat x) (nth (Z.to_nat y) im []) 0.

(** coordinates of im1 which are over im0 when im1, put on the centre of im0, is translated by [s] *)
Definition overlap (n0 n1 s : Z) : list Z := filter (fun j => (0 <=? j + s) && (j + s <? n0)) (range0 n1).

(** mean on the common region of the product of im1 by im0: sum and number of points *)
Definition direct (im0 im1 : image) (ny0 nx0 ny1 nx1 sy sx : Z) : Z * Z :=
  (zsum (map (fun y => zsum (map (fun x => px im1 y x * px im0 (y + sy) (x + sx)) (overlap nx0 nx1 sx)))
             (overlap ny0 ny1 sy)),
   zlen (overlap ny0 ny1 sy) * zlen (overlap nx0 nx1 sx)).

(** *** Proofs *)
Lemma sorted_eq l l' : StronglySorted Z.lt l -> StronglySorted Z.lt l' -> (forall x, In x l <-> In x l') -> l = l'.
Proof.
  intros H. revert l'. induction H as [|a l Hs IH Hf]; intros l' H' E.
  - destruct l' as [|b l']; [reflexivity|]. exfalso. apply (E b). left; reflexivity.
  - destruct l' as [|b l']; [exfalso; apply (E a); left; reflexivity|].
    apply StronglySorted_inv in H'. destruct H' as [Hs' H3]. rewrite Forall_forall in *.
    assert (a = b).
    { destruct (proj1 (E a) (or_introl eq_refl)) as [X|X]; [congruence|].
      destruct (proj2 (E b) (or_introl eq_refl)) as [Y|Y]; [congruence|].
      specialize (Hf _ Y). specialize (H3 _ X). lia. }
    subst b. f_equal. apply IH; [assumption|]. intros x. split; intros Hx.
    + destruct (proj1 (E x) (or_intror Hx)) as [->|X]; [|exact X]. specialize (Hf _ Hx). lia.
    + destruct (proj2 (E x) (or_intror Hx)) as [->|X]; [|exact X]. specialize (H3 _ Hx). lia.
Qed.

Lemma range0_sorted n : StronglySorted Z.lt (range0 n).
Proof.
  unfold range0. generalize (Z.to_nat n) 0%nat. induction n0 as [|m IH]; intros k; cbn [seq map]; constructor; [apply IH|].
  apply Forall_forall. intros x Hx. apply in_map_iff in Hx. destruct Hx as (j & <- & Hj). apply in_seq in Hj. lia.
Qed.

Lemma sorted_filter f l : StronglySorted Z.lt l -> StronglySorted Z.lt (filter f l).
Proof.
  induction 1 as [|a l Hs IH Hf]; cbn; [constructor|]. destruct (f a); [|exact IH]. constructor; [exact IH|].
  rewrite Forall_forall in *. intros x Hx. apply filter_In in Hx. apply Hf; tauto.
Qed.

Lemma sorted_map_add d l : StronglySorted Z.lt l -> StronglySorted Z.lt (map (fun i => i + d) l).
Proof.
  induction 1 as [|a l Hs IH Hf]; cbn; constructor; [exact IH|].
  rewrite Forall_forall in *. intros x Hx. apply in_map_iff in Hx. destruct Hx as (y & <- & Hy). specialize (Hf _ Hy). lia.
Qed.

(** one axis *)
Lemma axis n0 n1 disp_max xi nmax dep1 dep0 :
  0 < n1 <= n0 -> 0 <= xi <= 2 * disp_max -> n1 mod 2 = 0 \/ n0 / 2 + n1 / 2 + disp_max < n0 ->
  dims n0 n1 disp_max xi = (nmax, dep1, dep0) -> 0 <= nmax ->
  let s := n0 / 2 - n1 / 2 + (xi - disp_max) in
  map (fun i => i + dep1) (range0 nmax) = overlap n0 n1 s /\ zlen (overlap n0 n1 s) = nmax /\
  (forall i, 0 <= i < nmax -> 0 <= i + dep1 < n1 /\ dep0 + i = i + dep1 + s /\ 0 <= dep0 + i < n0).
Proof.
  intros Hn Hx Hc E Hm s.
  assert (B : forall i, 0 <= i < nmax -> 0 <= i + dep1 < n1 /\ dep0 + i = i + dep1 + s /\ 0 <= dep0 + i < n0).
  { intros i Hi. revert E. unfold dims, dims_low, dims_high, s. destruct (Z.leb_spec xi disp_max); intros E;
      apply pair_equal_spec in E; destruct E as [E E3]; apply pair_equal_spec in E; destruct E as [E1 E2]; lia. }
  assert (M : map (fun i => i + dep1) (range0 nmax) = overlap n0 n1 s).
  { apply sorted_eq; [apply sorted_map_add, range0_sorted|apply sorted_filter, range0_sorted|].
    intros x. unfold overlap. rewrite filter_In, in_map_iff, range0_In. split.
    - intros (i & <- & Hi). apply range0_In in Hi. destruct (B i Hi) as (B1 & B2 & B3). lia.
    - intros [Hx1 Hx2]. exists (x - dep1). split; [lia|]. apply range0_In.
      revert E. unfold dims, dims_low, dims_high, s in *. destruct (Z.leb_spec xi disp_max); intros E;
      apply pair_equal_spec in E; destruct E as [E E3]; apply pair_equal_spec in E; destruct E as [E1 E2]; lia. }
  split; [exact M|]. split; [|exact B].
  rewrite <- M. unfold zlen, range0. rewrite !map_length, seq_length. lia.
Qed.

Lemma pix_ok im ny nx y x : rectangle im ny nx -> 0 <= y < ny -> 0 <= x < nx -> pix im y x = Ok (px im y x).
Proof.
  intros [Hy Hx] By Bx. unfold pix, py_get, px.
  replace (y <? 0) with false by lia. cbv zeta. replace ((0 <=? y) && (y <? zlen im)) with true by lia.
  destruct (nth_error im (Z.to_nat y)) as [row|] eqn:E.
  2:{ apply nth_error_None in E. unfold zlen in Hy. lia. }
  rewrite (nth_error_nth _ _ [] E). cbn [bind].
  assert (Hr : zlen row = nx) by (apply Hx; apply nth_error_In in E; exact E).
  replace (x <? 0) with false by lia. replace ((0 <=? x) && (x <? zlen row)) with true by lia.
  destruct (nth_error row (Z.to_nat x)) as [v|] eqn:E'.
  2:{ apply nth_error_None in E'. unfold zlen in Hr. lia. }
  rewrite (nth_error_nth _ _ 0 E'). reflexivity.
Qed.

Lemma pix_out im ny nx y x : rectangle im ny nx -> 0 <= y < ny -> 0 <= nx <= x -> pix im y x = Err IndexError.
Proof.
  intros [Hy Hx] By Bx. unfold pix, py_get.
  replace (y <? 0) with false by lia. cbv zeta. replace ((0 <=? y) && (y <? zlen im)) with true by lia.
  destruct (nth_error im (Z.to_nat y)) as [row|] eqn:E; [|reflexivity]. cbn [bind].
  assert (Hr : zlen row = nx) by (apply Hx; apply nth_error_In in E; exact E).
  replace (x <? 0) with false by lia. replace ((0 <=? x) && (x <? zlen row)) with false by lia. reflexivity.
Qed.

Lemma for_sum (f : Z -> result Z) (g : Z -> Z) l tmp :
  (forall i, In i l -> f i = Ok (g i)) ->
  py_for (fun t i => do a <- f i ; Ok (t + a)) l tmp = Ok (tmp + zsum (map g l)).
Proof.
  revert tmp. induction l as [|a l IH]; intros tmp H; cbn [py_for map zsum fold_right].
  - rewrite Z.add_0_r. reflexivity.
  - rewrite (H a (or_introl eq_refl)). cbn [bind]. rewrite IH by (intros; apply H; right; assumption).
    unfold zsum. f_equal. cbn [fold_right]. lia.
Qed.

Lemma py_for_ext {A S} (f g : S -> A -> result S) l s :
  (forall s a, In a l -> f s a = g s a) -> py_for f l s = py_for g l s.
Proof.
  revert s. induction l as [|a l IH]; intros s H; [reflexivity|]. cbn [py_for]. rewrite H by (left; reflexivity).
  destruct (g s a); [|reflexivity]. apply IH. intros; apply H; right; assumption.
Qed.

(** Each value of the correlation is the mean of the products over the region where the two images overlap, with the
    translation which corresponds to its indices: the displacement of the value is (ix0 - ix, iy0 - iy) with
    ix0 = iy0 = disp_max, and the pixel (y, x) of im1 is multiplied by the pixel of im0 which is at
    (y - dy, x - dx) with respect to the centres.  No pixel out of the images is read.  Hypotheses: im1 is not larger
    than im0, there is an overlap, and along each axis the size of im1 is even or the translated im1 stays in im0. *)
Theorem C60_direct_partial im0 im1 ny0 nx0 ny1 nx1 disp_max xiy xix :
  rectangle im0 ny0 nx0 -> rectangle im1 ny1 nx1 -> 0 < ny1 <= ny0 -> 0 < nx1 <= nx0 ->
  ny1 mod 2 = 0 \/ ny0 / 2 + ny1 / 2 + disp_max < ny0 -> nx1 mod 2 = 0 \/ nx0 / 2 + nx1 / 2 + disp_max < nx0 ->
  disp_max <= ny1 -> disp_max <= nx1 ->
  0 <= xiy <= 2 * disp_max -> 0 <= xix <= 2 * disp_max ->
  let '(dx, dy) := displacement_from_indices disp_max disp_max xix xiy in
  correl_at im0 im1 ny0 nx0 ny1 nx1 disp_max xiy xix =
  Ok (let '(s, n) := direct im0 im1 ny0 nx0 ny1 nx1 (ny0 / 2 - ny1 / 2 - dy) (nx0 / 2 - nx1 / 2 - dx) in (s, n)).
Proof.
  intros R0 R1 Ny Nx Cy Cx Dy Dx Hy Hx. unfold displacement_from_indices, correl_at.
  destruct (dims ny0 ny1 disp_max xiy) as [[nymax ny1dep] ny0dep] eqn:Ey.
  destruct (dims nx0 nx1 disp_max xix) as [[nxmax nx1dep] nx0dep] eqn:Ex.
  assert (Py : 0 <= nymax).
  { revert Ey. unfold dims, dims_low, dims_high. destruct (Z.leb_spec xiy disp_max); intros E;
      apply pair_equal_spec in E; destruct E as [E E3]; apply pair_equal_spec in E; destruct E as [E1 E2]; lia. }
  assert (Px : 0 <= nxmax).
  { revert Ex. unfold dims, dims_low, dims_high. destruct (Z.leb_spec xix disp_max); intros E;
      apply pair_equal_spec in E; destruct E as [E E3]; apply pair_equal_spec in E; destruct E as [E1 E2]; lia. }
  destruct (axis ny0 ny1 disp_max xiy _ _ _ Ny Hy Cy Ey Py) as (My & Ly & By).
  destruct (axis nx0 nx1 disp_max xix _ _ _ Nx Hx Cx Ex Px) as (Mx & Lx & Bx).
  replace (ny0 / 2 - ny1 / 2 - (disp_max - xiy)) with (ny0 / 2 - ny1 / 2 + (xiy - disp_max)) by ring.
  replace (nx0 / 2 - nx1 / 2 - (disp_max - xix)) with (nx0 / 2 - nx1 / 2 + (xix - disp_max)) by ring.
  set (sy := ny0 / 2 - ny1 / 2 + (xiy - disp_max)) in *. set (sx := nx0 / 2 - nx1 / 2 + (xix - disp_max)) in *.
  unfold direct. rewrite Ly, Lx. cbn [fst snd]. unfold sum_loop.
  set (g := fun iy ix => px im1 (iy + ny1dep) (ix + nx1dep) * px im0 (iy + ny1dep + sy) (ix + nx1dep + sx)).
  rewrite (py_for_ext _ (fun tmp iy => do a <- Ok (zsum (map (g iy) (range0 nxmax))) ; Ok (tmp + a))).
  - rewrite (for_sum _ (fun iy => zsum (map (g iy) (range0 nxmax)))) by reflexivity. cbn [bind].
    rewrite <- My, map_map. rewrite (Z.mul_comm nxmax nymax). do 2 f_equal. rewrite Z.add_0_l. f_equal.
    apply map_ext. intros iy. rewrite <- Mx, map_map. reflexivity.
  - intros tmp iy Hiy. apply range0_In in Hiy. destruct (By iy Hiy) as (By1 & By2 & By3).
    rewrite (py_for_ext _ (fun t ix => do a <- Ok (g iy ix) ; Ok (t + a))).
    + rewrite (for_sum _ (g iy)) by reflexivity. reflexivity.
    + intros t ix Hix. apply range0_In in Hix. destruct (Bx ix Hix) as (Bx1 & Bx2 & Bx3).
      rewrite (pix_ok im1 ny1 nx1 _ _ R1 By1 Bx1). cbn [bind].
      rewrite (pix_ok im0 ny0 nx0 _ _ R0) by lia. cbn [bind]. unfold g. rewrite By2, Bx2. reflexivity.
Qed.

(** Images of equal odd sizes: the maximal displacement chosen by default makes the computation read out of the first
    image (IndexError in Python, a read out of bounds in the compiled code). *)
Theorem C60_refuted im0 im1 n :
  n mod 2 = 1 -> 5 <= n -> rectangle im0 n n -> rectangle im1 n n ->
  exists disp_max, pythran_displacement_max n n n n = Ok disp_max /\
    correl_at im0 im1 n n n n disp_max 0 (disp_max + 1) = Err IndexError.
Proof.
  intros Ho Hn R0 R1. exists (n / 2 - 1). split.
  - unfold pythran_displacement_max. rewrite Z.eqb_refl, Z.min_id. cbn [andb].
    destruct (Z.leb_spec (n / 2 - 1) 0); [lia|reflexivity].
  - unfold correl_at, dims.
    replace (0 <=? n / 2 - 1) with true by lia. replace (n / 2 - 1 + 1 <=? n / 2 - 1) with false by lia.
    unfold dims_low, dims_high, sum_loop.
    replace (n / 2 - n / 2) with 0 by lia.
    replace (Z.min (0 + (- (n / 2 - 1) + 0)) 0) with (- (n / 2 - 1)) by lia.
    replace (Z.max 0 (0 + (- (n / 2 - 1) + 0))) with 0 by lia.
    replace (n / 2 - 1 + 1 - (n / 2 - 1) - 1 + 1) with 1 by lia.
    replace (n - Z.max (n / 2 + n / 2 + 1 - n) 0) with n by lia.
    replace (n + - (n / 2 - 1)) with (Z.of_nat (S (Z.to_nat (n - n / 2)))) by lia.
    unfold range0 at 2. rewrite Nat2Z.id. cbn [seq map py_for].
    assert (G : forall tmp, py_for (fun tmp ix =>
       do a <- pix im1 (Z.of_nat 0 + - - (n / 2 - 1)) (ix + 0) ;
       do b <- pix im0 (0 + Z.of_nat 0) (0 + 1 + ix) ; Ok (tmp + a * b)) (range0 n) tmp = Err IndexError).
    { assert (Er : range0 n = range0 (n - 1) ++ [n - 1]).
      { unfold range0. replace (Z.to_nat n) with (Z.to_nat (n - 1) + 1)%nat by lia. rewrite seq_app, map_app.
        cbn [seq map]. do 2 f_equal. lia. }
      intros tmp. rewrite Er.
      assert (Hall : forall ix, In ix (range0 (n - 1)) -> 0 <= ix < n - 1) by (intros; apply range0_In; assumption).
      revert tmp Hall. generalize (range0 (n - 1)). induction l as [|ix l IH]; intros tmp Hall.
      - cbn [app py_for]. rewrite (pix_ok im1 n n _ _ R1) by lia. cbn [bind].
        assert (E : pix im0 (0 + Z.of_nat 0) (0 + 1 + (n - 1)) = Err IndexError) by (apply (pix_out im0 n n); [exact R0|lia|lia]).
        rewrite E. reflexivity.
      - cbn [app py_for]. assert (Hix := Hall ix (or_introl eq_refl)).
        rewrite (pix_ok im1 n n _ _ R1) by lia. cbn [bind]. rewrite (pix_ok im0 n n _ _ R0) by lia. cbn [bind].
        apply IH. intros; apply Hall; right; assumption. }
    rewrite G. reflexivity.
Qed.

(** with the maximal displacement chosen by default, images of different sizes are correctly treated *)
Theorem C60_default_partial ny0 nx0 ny1 nx1 d :
  0 < ny1 < ny0 -> 0 < nx1 < nx0 -> pythran_displacement_max ny0 nx0 ny1 nx1 = Ok d ->
  0 < d /\ (ny0 / 2 + ny1 / 2 + d < ny0) /\ (nx0 / 2 + nx1 / 2 + d < nx0).
Proof.
  intros Hy Hx. unfold pythran_displacement_max. replace (ny0 =? ny1) with false by lia. cbn [andb]. cbv zeta.
  destruct (Z.leb_spec (Z.min (ny0 - ny1) (nx0 - nx1) / 2 - 1) 0); [discriminate|]. intros E.
  assert (Ed : d = Z.min (ny0 - ny1) (nx0 - nx1) / 2 - 1) by congruence. lia.
Qed.

Definition im_a : image := [[1; 2; 3; 4; 5; 6]; [2; 0; 1; 1; 0; 2]; [3; 1; 7; 7; 1; 3]; [4; 1; 0; 7; 1; 4]; [5; 0; 1; 1; 0; 5]; [6; 5; 4; 3; 2; 1]].
Definition im_b : image := [[1; 7]; [0; 7]].
Example C60_example :
  correl_at im_a im_b 6 6 2 2 1 1 1 = Ok (1 * 7 + 7 * 7 + 0 * 0 + 7 * 7, 4) /\
  pythran_displacement_max 6 6 2 2 = Ok 1 /\
  correl_at im_a im_a 6 6 6 6 2 0 4 = Ok (199, 16) /\ pythran_displacement_max 6 6 6 6 = Ok 2.
Proof. repeat split; vm_compute; reflexivity. Qed.

Print Assumptions C60_direct_partial.
Print Assumptions C60_refuted.
Print Assumptions C60_default_partial.

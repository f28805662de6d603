(** C101: the grid recomputed from a PIV result is the grid of its vectors. *)
From Verif Require Import PyBase StrModel StrProofs GridModel GridProps MaskModel MaskProps GridPixelModel.
Local Open Scope Z_scope.
Ltac Zify.zify_post_hook ::= Z.div_mod_to_equations.

(** *** Specification *)
(** the points of the grid of two 1d arrays, line by line *)
Definition grid_points (xs ys : list Z) : list (Z * Z) := flat_map (fun y => map (fun x => (x, y)) xs) ys.
(** a couple of two images of shape [sh], not yet masked *)
Definition fresh_couple {A} (sh : Z * Z) (c : couple A) : Prop :=
  exists a b, make_couple None a b = Ok c /\ shape a = sh.

Lemma combine_grid xs ys : combine (flat_map (fun _ : Z => xs) ys) (flat_map (fun y => map (fun _ : Z => y) xs) ys) = grid_points xs ys.
Proof.
  unfold grid_points. induction ys as [|y ys IH]; [reflexivity|]. cbn [flat_map].
  assert (H : forall l (u v : list Z), combine (l ++ u) (map (fun _ : Z => y) l ++ v) = map (fun x => (x, y)) l ++ combine u v).
  { clear. induction l as [|x l IHl]; intros; [reflexivity|]. cbn. rewrite IHl. reflexivity. }
  rewrite H, IH. reflexivity.
Qed.

Lemma prepare_grid sh scim rnd xs ys gx gy : prepare_with_image sh scim rnd = Ok (xs, ys, gx, gy) -> combine gx gy = grid_points xs ys.
Proof.
  unfold prepare_with_image. destruct sh as [ly lx].
  destruct (1 <=? _); cbn [negb]; [|discriminate]. destruct (1 <=? snd scim - _); cbn [negb]; [|discriminate].
  destruct (axis_vecs lx _ _) as [vx|e]; cbn [bind]; [|discriminate].
  destruct (axis_vecs ly _ _) as [vy|e]; cbn [bind]; [|discriminate].
  intros [= <- <- <- <-]. apply combine_grid.
Qed.

Lemma map_result_id {A} (f : A -> result A) l : (forall x, f x = Ok x) -> map_result f l = Ok l.
Proof. intros H. induction l as [|x l IH]; [reflexivity|]. cbn. rewrite H, IH. reflexivity. Qed.
Lemma map_result_map {A B} (f : A -> result B) g l : (forall x, f x = Ok (g x)) -> map_result f l = Ok (map g l).
Proof. intros H. induction l as [|x l IH]; [reflexivity|]. cbn. rewrite H, IH. reflexivity. Qed.
Lemma map_result_nth {A B} (f : A -> result B) l : forall l' k, map_result f l = Ok l' ->
  match nth_error l k with Some x => exists y, f x = Ok y /\ nth_error l' k = Some y | None => nth_error l' k = None end.
Proof.
  induction l as [|x l IH]; intros l' k H.
  - injection H as <-. destruct k; reflexivity.
  - cbn in H. destruct (f x) as [y|] eqn:E; [|discriminate]. cbn in H.
    destruct (map_result f l) as [l1|] eqn:E1; [|discriminate]. injection H as <-.
    destruct k; cbn; [exists y; auto|apply IH; reflexivity].
Qed.
Lemma map_result_len {A B} (f : A -> result B) l : forall l', map_result f l = Ok l' -> List.length l' = List.length l.
Proof.
  induction l as [|x l IH]; intros l' H; cbn in H; [injection H as <-; reflexivity|].
  destruct (f x) as [y|]; [|discriminate]. cbn in H. destruct (map_result f l) as [l1|]; [|discriminate].
  injection H as <-. cbn. rewrite (IH l1); reflexivity.
Qed.

Lemma apply_fresh_none {A} sh (c : couple A) m : fresh_couple sh c -> strcrop m = None ->
  exists im0 im1, apply_mask c (Some m) = (Ok tt, mk_couple (Some m) sh [im0; im1]) /\ shape im0 = sh /\ shape_images c = sh.
Proof.
  intros (a & b & Hc & Hs) Hm. unfold make_couple in Hc. cbn in Hc. injection Hc as <-.
  exists a, b. unfold apply_mask. cbn [params_mask arrays map_result shape_images mask_array]. rewrite Hm. cbn [bind].
  rewrite Hs. repeat split; auto.
Qed.

Lemma grid_pixel_first p rest sh xs ys : get_grid_pixel (p :: rest) sh 0 = Ok (xs, ys) ->
  exists gx gy, prepare_with_image sh (fst p) (snd p) = Ok (xs, ys, gx, gy).
Proof.
  unfold get_grid_pixel, prepare_all. cbn [map_result].
  destruct (prepare_with_image _ _ _) as [[[[x y] gx] gy]|]; cbn [bind]; [|discriminate].
  destruct (map_result (fun q => prepare_with_image sh (fst q) (snd q)) rest) as [l|]; cbn [bind]; [|discriminate].
  unfold py_get, zlen. cbn [List.length Z.ltb]. replace ((0 <=? 0) && (0 <? Z.of_nat (S (List.length l)))) with true by lia.
  cbn. intros [= <- <-]. exists gx, gy. reflexivity.
Qed.

(** *** Without a crop, for all the couples that a work has treated *)
Lemma run_no_crop {A} m p rest sh : strcrop m = None -> forall (cs : list (couple A)) st,
  (st = None \/ exists g, st = Some g /\ prepare_with_image sh (fst p) (snd p) = Ok g) ->
  Forall (fresh_couple sh) cs ->
  Forall (fun r => match r with
    | Ok r => shape_images (r_couple r) = sh /\
              forall xs ys, get_grid_pixel (p :: rest) sh 0 = Ok (xs, ys) -> r_xys r = grid_points xs ys
    | Err e => prepare_with_image sh (fst p) (snd p) = Err e
    end) (run m p st cs).
Proof.
  intros Hm. induction cs as [|c cs IH]; intros st Hst Hcs; [constructor|].
  inversion Hcs as [|? ? Hc Hcs']; subst. cbn [run]. unfold first_pass.
  destruct (apply_fresh_none sh c m Hc Hm) as (im0 & im1 & E & Hs & _). rewrite E. cbn [arrays].
  assert (Hid : forall x, original_from_masked m x = Ok x).
  { intros [x y]. unfold original_from_masked, starts. rewrite Hm. reflexivity. }
  assert (Hg : (match st return result grid with Some g => Ok g | None => prepare_with_image (shape im0) (fst p) (snd p) end)
               = prepare_with_image sh (fst p) (snd p)).
  { destruct Hst as [-> | (g & -> & H)]; [rewrite Hs; reflexivity|symmetry; exact H]. }
  rewrite Hg. destruct (prepare_with_image sh (fst p) (snd p)) as [[[[xs ys] gx] gy]|e] eqn:Ep.
  - rewrite (map_result_id _ _ Hid). constructor.
    + cbn [r_couple shape_images r_xys]. split; [reflexivity|]. intros xs' ys' Hgp.
      destruct (grid_pixel_first _ _ _ _ _ Hgp) as (gx' & gy' & Ep'). rewrite Ep in Ep'. injection Ep' as <- <- <- <-.
      exact (prepare_grid _ _ _ _ _ _ _ Ep).
    + apply IH; [right; eexists; split; [reflexivity|reflexivity]|assumption].
  - constructor; [reflexivity|]. apply IH; [exact Hst|assumption].
Qed.

(** Without a crop, and when all the images of the series have the same shape: the grid recomputed from any
    result of the first pass is made of the positions of its vectors. *)
Theorem C101_no_crop : forall A m p rest sh (cs : list (couple A)) k r xs ys,
  strcrop m = None -> Forall (fresh_couple sh) cs ->
  nth_error (run m p None cs) k = Some (Ok r) ->
  result_grid_pixel (p :: rest) r 0 = Ok (xs, ys) ->
  r_xys r = grid_points xs ys.
Proof.
  intros A m p rest sh cs k r xs ys Hm Hcs Hk Hg.
  pose proof (run_no_crop m p rest sh Hm cs None (or_introl eq_refl) Hcs) as H.
  rewrite Forall_forall in H. specialize (H _ (nth_error_In _ _ Hk)). cbn in H. destruct H as (Hs & H).
  apply H. unfold result_grid_pixel in Hg. rewrite Hs in Hg. exact Hg.
Qed.

(** ... and it can be recomputed as soon as each pass accepts images of this shape. *)
Theorem C101_defined : forall A m p rest sh (cs : list (couple A)) k r,
  strcrop m = None -> Forall (fresh_couple sh) cs ->
  nth_error (run m p None cs) k = Some (Ok r) ->
  Forall (fun q => exists g, prepare_with_image sh (fst q) (snd q) = Ok g) (p :: rest) ->
  forall i, - zlen (p :: rest) <= i < zlen (p :: rest) ->
  exists xs ys, result_grid_pixel (p :: rest) r i = Ok (xs, ys).
Proof.
  intros A m p rest sh cs k r Hm Hcs Hk Hq i Hi.
  pose proof (run_no_crop m p rest sh Hm cs None (or_introl eq_refl) Hcs) as H.
  rewrite Forall_forall in H. specialize (H _ (nth_error_In _ _ Hk)). cbn in H. destruct H as (Hs & _).
  unfold result_grid_pixel, get_grid_pixel. rewrite Hs.
  assert (exists l, prepare_all sh (p :: rest) = Ok l) as (l & El).
  { clear - Hq. unfold prepare_all. induction Hq as [|q l (g & E) _ (l' & IH)]; [eexists; reflexivity|].
    cbn [map_result]. rewrite E. cbn [bind]. rewrite IH. eexists; reflexivity. }
  rewrite El. cbn [bind]. pose proof (map_result_len _ _ _ El) as Hl.
  unfold py_get. unfold zlen in *. rewrite Hl.
  destruct (i <? 0) eqn:E0.
  - replace ((0 <=? i + Z.of_nat (List.length (p :: rest))) && _) with true by lia.
    destruct (nth_error l (Z.to_nat (i + Z.of_nat (List.length (p :: rest))))) as [[[[x y] gx] gy]|] eqn:En.
    + exists x, y; reflexivity.
    + apply nth_error_None in En. cbn [List.length] in *. lia.
  - replace ((0 <=? i) && _) with true by lia.
    destruct (nth_error l (Z.to_nat i)) as [[[[x y] gx] gy]|] eqn:En.
    + exists x, y; reflexivity.
    + apply nth_error_None in En. cbn [List.length] in *. lia.
Qed.

(** The grid of the pass [i], counted from the first pass or, when negative, from the last one. *)
Theorem C101_index : forall passes sh k p i,
  nth_error passes k = Some p -> (i = Z.of_nat k \/ i = Z.of_nat k - zlen passes) ->
  forall xs ys, get_grid_pixel passes sh i = Ok (xs, ys) ->
  exists gx gy, prepare_with_image sh (fst p) (snd p) = Ok (xs, ys, gx, gy).
Proof.
  intros passes sh k p i Hk Hi xs ys. unfold get_grid_pixel.
  destruct (prepare_all sh passes) as [l|] eqn:El; cbn [bind]; [|discriminate].
  pose proof (map_result_len _ _ _ El) as Hl. pose proof (map_result_nth _ _ _ k El) as Hn. rewrite Hk in Hn.
  destruct Hn as (g & Eg & Eg').
  assert (Hkl : (k < List.length l)%nat) by (apply nth_error_Some; congruence).
  assert (py_get l i = Ok g) as ->.
  { unfold py_get, zlen in *. destruct Hi as [-> | ->].
    - replace (Z.of_nat k <? 0) with false by lia. replace ((0 <=? Z.of_nat k) && _) with true by lia.
      rewrite Nat2Z.id, Eg'. reflexivity.
    - replace (Z.of_nat k - Z.of_nat (List.length passes) <? 0) with true by lia.
      replace ((0 <=? Z.of_nat k - Z.of_nat (List.length passes) + Z.of_nat (List.length l)) && _) with true by lia.
      replace (Z.to_nat (Z.of_nat k - Z.of_nat (List.length passes) + Z.of_nat (List.length l))) with k by lia.
      rewrite Eg'. reflexivity. }
  destruct g as [[[x y] gx] gy]. cbn. intros [= <- <-]. eauto.
Qed.

(** For the multipass result, an index selects the same pass whether the result or the parameters are asked. *)
Theorem C101_multipass : forall A passes (rs : list (piv_result A)) sh i,
  List.length rs = List.length passes -> Forall (fun r => shape_images (r_couple r) = sh) rs ->
  (- zlen passes <= i < zlen passes /\ multipass_grid_pixel passes rs i = get_grid_pixel passes sh i) \/
  (~ (- zlen passes <= i < zlen passes) /\ multipass_grid_pixel passes rs i = Err IndexError).
Proof.
  intros A passes rs sh i Hl Hs. unfold multipass_grid_pixel, result_grid_pixel.
  assert (Hz : zlen rs = zlen passes) by (unfold zlen; rewrite Hl; reflexivity).
  destruct (Z_le_dec (- zlen passes) i) as [H1|H1]; [destruct (Z_lt_dec i (zlen passes)) as [H2|H2]|].
  - left. split; [lia|]. unfold py_get. rewrite Hz.
    assert (Hn : forall j, 0 <= j < zlen passes -> exists r, nth_error rs (Z.to_nat j) = Some r /\ shape_images (r_couple r) = sh).
    { intros j Hj. destruct (nth_error rs (Z.to_nat j)) as [r|] eqn:E.
      - exists r. split; [reflexivity|]. rewrite Forall_forall in Hs. apply Hs, (nth_error_In _ _ E).
      - apply nth_error_None in E. unfold zlen in *. lia. }
    destruct (i <? 0) eqn:E0.
    + replace ((0 <=? i + zlen passes) && (i + zlen passes <? zlen passes)) with true by lia.
      destruct (Hn (i + zlen passes) ltac:(lia)) as (r & -> & <-). reflexivity.
    + replace ((0 <=? i) && (i <? zlen passes)) with true by lia.
      destruct (Hn i ltac:(lia)) as (r & -> & <-). reflexivity.
  - right. split; [lia|]. unfold py_get. rewrite Hz. assert (0 <= zlen passes) by (unfold zlen; lia).
    destruct (i <? 0) eqn:E0; [lia|]. replace ((0 <=? i) && (i <? zlen passes)) with false by lia. reflexivity.
  - right. split; [lia|]. unfold py_get. rewrite Hz. assert (0 <= zlen passes) by (unfold zlen; lia).
    destruct (i <? 0) eqn:E0; [|lia]. replace ((0 <=? i + zlen passes) && (i + zlen passes <? zlen passes)) with false by lia. reflexivity.
Qed.

(** *** In the displaced passes the positions stay close to the grid *)
Theorem C101_approximate : forall imshape gx gy dx dy x2 y2,
  middle2 imshape gx gy dx dy = (x2, y2) ->
  Z.abs (x2 - 2 * gx) <= Z.abs dx /\ Z.abs (y2 - 2 * gy) <= Z.abs dy /\
  (* exactly on the grid, up to the parity of the displacement, when the two windows stay in the image *)
  (outside imshape (gx - dx / 2) (gy - dy / 2) = false ->
   outside imshape (gx - dx / 2 + dx) (gy - dy / 2 + dy) = false ->
   x2 = 2 * gx + dx mod 2 /\ y2 = 2 * gy + dy mod 2).
Proof.
  intros imshape gx gy dx dy x2 y2. unfold middle2, positions_displaced, displaced.
  destruct (outside imshape (gx - dx / 2 + dx) (gy - dy / 2 + dy)).
  - cbn [snd]. intros [= <- <-]. repeat split; try lia; discriminate.
  - destruct (outside imshape (gx - dx / 2) (gy - dy / 2)).
    + cbn [snd]. intros [= <- <-]. repeat split; try lia; discriminate.
    + cbn [snd]. intros [= <- <-]. repeat split; lia.
Qed.

(** *** With a crop *)
Definition shift (s : option Z) : Z := match s with Some a => a | None => 0 end.

Lemma apply_fresh {A} sh (c : couple A) m c' : fresh_couple sh c -> apply_mask c (Some m) = (Ok tt, c') -> shape_images c' = sh.
Proof.
  intros (a & b & Hc & Hs). unfold make_couple in Hc. cbn in Hc. injection Hc as <-.
  unfold apply_mask. cbn [params_mask arrays shape_images]. destruct (map_result _ _); intros [= <-]. exact Hs.
Qed.

(** the positions of the vectors are the grid of the cropped image, moved to the corner of the crop *)
Theorem C101_crop : forall A m p sh (c : couple A) sx sy r,
  fresh_couple sh c -> starts m = Ok (Some (sx, sy)) -> fst (first_pass m p None c) = Ok r ->
  exists im0 xs ys, nth_error (arrays (r_couple r)) 0 = Some im0 /\
    get_grid_pixel [p] (shape im0) 0 = Ok (xs, ys) /\
    r_xys r = map (fun q => (fst q + shift sx, snd q + shift sy)) (grid_points xs ys) /\
    shape_images (r_couple r) = sh.
Proof.
  intros A m p sh c sx sy r Hc Hst. unfold first_pass.
  destruct (apply_mask c (Some m)) as [[[]|e] c'] eqn:Ea; [|discriminate].
  destruct (arrays c') as [|im0 l] eqn:Ear; [discriminate|].
  destruct (prepare_with_image (shape im0) (fst p) (snd p)) as [[[[xs ys] gx] gy]|e] eqn:Ep; [|discriminate].
  rewrite (map_result_map (original_from_masked m) (fun q => (fst q + shift sx, snd q + shift sy))).
  - cbn [fst]. intros [= <-]. cbn [r_couple r_xys]. exists im0, xs, ys. rewrite Ear. split; [reflexivity|].
    split; [|split].
    + unfold get_grid_pixel, prepare_all. cbn [map_result]. rewrite Ep. cbn [bind]. reflexivity.
    + rewrite (prepare_grid _ _ _ _ _ _ _ Ep). reflexivity.
    + apply (apply_fresh _ _ _ _ Hc Ea).
  - intros [x y]. unfold original_from_masked. rewrite Hst. cbn [bind fst snd shift].
    destruct sx, sy; cbn [shift]; rewrite ?Z.add_0_r; reflexivity.
Qed.

Lemma axis_first len scim step vs : 1 <= step -> axis_vecs len scim step = Ok vs -> exists t, vs = start_for_crop scim :: t /\ ~ In (start_for_crop scim) t.
Proof.
  intros Hs H. pose proof (axis_form len scim step Hs) as F. rewrite H in F. destruct F as (_ & m & Hg & ->).
  cbv zeta in Hg. set (a := start_for_crop scim) in *.
  unfold regular. cbn [seq map]. rewrite Z.mul_0_l, Z.add_0_r. cbn [app]. eexists. split; [reflexivity|].
  rewrite in_app_iff, in_map_iff. intros [(k & E & Hk) | Hin].
  - apply in_seq in Hk. assert (1 * 1 <= Z.of_nat k * step) by (apply Z.mul_le_mono_nonneg; lia). lia.
  - destruct (2 * step / 5 <? _); [|contradiction]. destruct Hin as [E | []].
    assert (0 <= Z.of_nat m * step) by (apply Z.mul_nonneg_nonneg; lia). lia.
Qed.
Lemma prepare_first sh scim rnd xs ys gx gy : prepare_with_image sh scim rnd = Ok (xs, ys, gx, gy) ->
  exists tx ty, xs = start_for_crop (snd scim) :: tx /\ ys = start_for_crop (fst scim) :: ty /\
    ~ In (start_for_crop (snd scim)) tx /\ ~ In (start_for_crop (fst scim)) ty.
Proof.
  unfold prepare_with_image. destruct sh as [ly lx].
  destruct (1 <=? _) eqn:E1; cbn [negb]; [|discriminate]. destruct (1 <=? snd scim - _) eqn:E2; cbn [negb]; [|discriminate].
  destruct (axis_vecs lx _ _) as [vx|e] eqn:Ex; cbn [bind]; [|discriminate].
  destruct (axis_vecs ly _ _) as [vy|e] eqn:Ey; cbn [bind]; [|discriminate].
  intros [= <- <- _ _]. apply axis_first in Ex; [|lia]. apply axis_first in Ey; [|lia].
  destruct Ex as (tx & -> & Hx), Ey as (ty & -> & Hy). exists tx, ty. auto.
Qed.

Lemma filter_none {A} (f : A -> bool) l : (forall x, In x l -> f x = false) -> filter f l = [].
Proof. intros H. induction l as [|x l IH]; [reflexivity|]. cbn. rewrite (H x) by (left; reflexivity). apply IH. intros y Hy. apply H. right. exact Hy. Qed.
Lemma filter_all {A} (f : A -> bool) l : (forall x, In x l -> f x = true) -> filter f l = l.
Proof. intros H. induction l as [|x l IH]; [reflexivity|]. cbn. rewrite (H x) by (left; reflexivity). rewrite IH; [reflexivity|]. intros y Hy. apply H. right. exact Hy. Qed.

Lemma grid_first_line a tx b ty : ~ In b ty ->
  map fst (filter (fun q => snd q =? b) (grid_points (a :: tx) (b :: ty))) = a :: tx.
Proof.
  intros Hb. unfold grid_points. cbn [flat_map]. rewrite filter_app, filter_all, filter_none, app_nil_r.
  - rewrite map_map. cbn [fst]. apply map_id.
  - intros [x y] Hin. apply in_flat_map in Hin. destruct Hin as (y' & Hy & Hin). apply in_map_iff in Hin.
    destruct Hin as (x' & [= _ <-] & _). cbn. destruct (y' =? b) eqn:E; [|reflexivity]. exfalso. apply Hb. replace b with y' by lia. exact Hy.
  - intros [x y] Hin. apply in_map_iff in Hin. destruct Hin as (x' & [= _ <-] & _). cbn. lia.
Qed.
Lemma grid_first_column a tx ys : ~ In a tx ->
  map snd (filter (fun q => fst q =? a) (grid_points (a :: tx) ys)) = ys.
Proof.
  intros Ha. unfold grid_points. induction ys as [|y ys IH]; [reflexivity|]. cbn [flat_map map]. cbn [app filter fst].
  rewrite Z.eqb_refl. cbn [map snd]. f_equal. rewrite filter_app, filter_none; [exact IH|].
  intros [x z] Hin. apply in_map_iff in Hin. destruct Hin as (x' & [= <- _] & Hx). cbn.
  destruct (x' =? a) eqn:E; [|reflexivity]. exfalso. apply Ha. replace a with x' by lia. exact Hx.
Qed.

(** With a crop that does not start at the corner of the image, the recomputed grid is never the one of the
    vectors: already the first vector is at a distance [(sx, sy)] from the first recomputed point. *)
Theorem C101_crop_refuted : forall A m p rest sh (c : couple A) sx sy r xs ys,
  fresh_couple sh c -> starts m = Ok (Some (sx, sy)) -> fst (first_pass m p None c) = Ok r ->
  result_grid_pixel (p :: rest) r 0 = Ok (xs, ys) ->
  (exists x y tr tg, grid_points xs ys = (x, y) :: tg /\ r_xys r = (x + shift sx, y + shift sy) :: tr) /\
  (shift sx <> 0 \/ shift sy <> 0 -> r_xys r <> grid_points xs ys).
Proof.
  intros A m p rest sh c sx sy r xs ys Hc Hst Hr Hg.
  destruct (C101_crop _ _ _ _ _ _ _ _ Hc Hst Hr) as (im0 & xs' & ys' & _ & Hg' & Hxy & Hs).
  unfold result_grid_pixel in Hg. apply grid_pixel_first in Hg. destruct Hg as (gx & gy & Hp).
  apply grid_pixel_first in Hg'. destruct Hg' as (gx' & gy' & Hp').
  destruct (prepare_first _ _ _ _ _ _ _ Hp) as (tx & ty & -> & -> & Hnx & Hny).
  destruct (prepare_first _ _ _ _ _ _ _ Hp') as (tx' & ty' & -> & -> & Hnx' & Hny').
  unfold grid_points in *. cbn [flat_map map app fst snd] in *.
  split.
  - do 4 eexists. split; [reflexivity|exact Hxy].
  - rewrite Hxy. intros Hne [= Hx Hy _]. lia.
Qed.

(** The two agree exactly when the crop starts at the corner and the cropped image has the same grid as the
    whole one. *)
Theorem C101_crop_iff : forall A m p rest sh (c : couple A) sx sy r xs ys im0 xs' ys',
  fresh_couple sh c -> starts m = Ok (Some (sx, sy)) -> fst (first_pass m p None c) = Ok r ->
  result_grid_pixel (p :: rest) r 0 = Ok (xs, ys) ->
  nth_error (arrays (r_couple r)) 0 = Some im0 -> get_grid_pixel [p] (shape im0) 0 = Ok (xs', ys') ->
  (r_xys r = grid_points xs ys <-> shift sx = 0 /\ shift sy = 0 /\ xs' = xs /\ ys' = ys).
Proof.
  intros A m p rest sh c sx sy r xs ys im0 xs' ys' Hc Hst Hr Hg Him Hg'.
  pose proof (C101_crop_refuted _ _ _ rest _ _ _ _ _ _ _ Hc Hst Hr Hg) as (_ & Hne).
  destruct (C101_crop _ _ _ _ _ _ _ _ Hc Hst Hr) as (im0' & x1 & y1 & Him' & Hg1 & Hxy & Hs).
  rewrite Him in Him'. injection Him' as <-. rewrite Hg' in Hg1. injection Hg1 as <- <-.
  assert (Hid : shift sx = 0 -> shift sy = 0 -> r_xys r = grid_points xs' ys').
  { intros E1 E2. rewrite Hxy, E1, E2. erewrite map_ext; [apply map_id|]. intros [x y]. cbn. rewrite !Z.add_0_r. reflexivity. }
  split.
  - intros E. destruct (Z.eq_dec (shift sx) 0) as [E1|E1]; [|exfalso; apply Hne; auto].
    destruct (Z.eq_dec (shift sy) 0) as [E2|E2]; [|exfalso; apply Hne; auto].
    rewrite (Hid E1 E2) in E.
    apply grid_pixel_first in Hg'. destruct Hg' as (gx' & gy' & Hp').
    unfold result_grid_pixel in Hg. apply grid_pixel_first in Hg. destruct Hg as (gx & gy & Hp).
    destruct (prepare_first _ _ _ _ _ _ _ Hp) as (tx & ty & -> & -> & Hnx & Hny).
    destruct (prepare_first _ _ _ _ _ _ _ Hp') as (tx' & ty' & -> & -> & Hnx' & Hny').
    split; [exact E1|]. split; [exact E2|]. split.
    + rewrite <- (grid_first_line _ tx' _ ty' Hny'), E. apply grid_first_line, Hny.
    + rewrite <- (grid_first_column _ tx' (start_for_crop (fst (fst p)) :: ty') Hnx'), E. apply grid_first_column, Hnx.
  - intros (E1 & E2 & -> & ->). apply Hid; assumption.
Qed.

(** *** Images of different shapes *)
(** The grid is computed once, for the first couple: with a second couple of another shape, the grid recomputed
    from its result is not the one of its vectors. *)
Definition const_image (h w : nat) : image Z := repeat (repeat 0 w) h.
Definition couple_of (h w : nat) : couple Z := mk_couple None (Z.of_nat h, Z.of_nat w) [const_image h w; const_image h w].
Theorem C101_shapes_refuted : exists m p (cs : list (couple Z)) r1 r2 xs1 ys1 xs2 ys2,
  strcrop m = None /\ Forall (fun c => exists sh, fresh_couple sh c) cs /\
  run m p None cs = [Ok r1; Ok r2] /\
  result_grid_pixel [p] r1 0 = Ok (xs1, ys1) /\ r_xys r1 = grid_points xs1 ys1 /\
  result_grid_pixel [p] r2 0 = Ok (xs2, ys2) /\ r_xys r2 <> grid_points xs2 ys2.
Proof.
  exists (mk_mask None), ((4, 4), (2, 2)), [couple_of 8 8; couple_of 8 12].
  do 6 eexists. split; [reflexivity|]. split.
  { repeat constructor.
    - exists (8, 8), (const_image 8 8), (const_image 8 8). split; reflexivity.
    - exists (8, 12), (const_image 8 12), (const_image 8 12). split; reflexivity. }
  split; [reflexivity|]. split; [reflexivity|]. split; [reflexivity|]. split; [reflexivity|]. discriminate.
Qed.

(** *** Concrete cases *)
Example C101_case : exists r xs ys, nth_error (run (mk_mask None) ((4, 4), (2, 2)) None [couple_of 8 9; couple_of 8 9]) 1 = Some (Ok r) /\
  result_grid_pixel [((4, 4), (2, 2)); ((2, 2), (1, 1))] r 0 = Ok (xs, ys) /\ xs = [2; 4; 6; 7] /\ ys = [2; 4; 6].
Proof. do 3 eexists. repeat split. Qed.
Example C101_crop_case : exists r xs ys, let m := mk_mask (Some (of_string "1:, 3:11")) in
  starts m = Ok (Some (Some 3, Some 1)) /\
  fst (first_pass m ((4, 4), (2, 2)) None (couple_of 9 12)) = Ok r /\
  result_grid_pixel [((4, 4), (2, 2))] r 0 = Ok (xs, ys) /\ hd_error (r_xys r) = Some (5, 3) /\
  xs = [2; 4; 6; 8; 10] /\ map fst (firstn 3 (r_xys r)) = [5; 7; 9].
Proof. do 3 eexists. repeat split. Qed.
Example C101_shape_ok : fresh_couple (8, 9) (couple_of 8 9).
Proof. exists (const_image 8 9), (const_image 8 9). split; reflexivity. Qed.

Print Assumptions C101_no_crop.
Print Assumptions C101_defined.
Print Assumptions C101_index.
Print Assumptions C101_multipass.
Print Assumptions C101_approximate.
Print Assumptions C101_crop.
Print Assumptions C101_crop_refuted.
Print Assumptions C101_crop_iff.
Print Assumptions C101_shapes_refuted.

(** C49, C50, C51, C68, C69: calibrations. *)
From Coq Require Import Reals ZArith List Bool Lia Lra Psatz R_sqrt Nsatz.
From Verif Require Import PyBase StrModel CalibModel.
Import ListNotations.
Local Open Scope R_scope.

Lemma is_zero_true : forall x, is_zero x = true <-> x = 0.
Proof. intros x. unfold is_zero. destruct (Req_EM_T x 0); split; intros; auto; discriminate. Qed.
Lemma is_zero_false : forall x, is_zero x = false <-> x <> 0.
Proof. intros x. unfold is_zero. destruct (Req_EM_T x 0); split; intros; auto; try discriminate. contradiction. Qed.
Lemma gt_true : forall x y, gt x y = true <-> x > y.
Proof. intros x y. unfold gt. destruct (Rlt_dec y x); split; intros; auto; try discriminate; lra. Qed.
Lemma gt_false : forall x y, gt x y = false <-> x <= y.
Proof. intros x y. unfold gt. destruct (Rlt_dec y x); split; intros; auto; try discriminate; lra. Qed.

(** ** C49 *)

(** the distance between two points of the plane *)
Definition distance2 (p q : R * R) : R := sqrt ((fst p - fst q) * (fst p - fst q) + (snd p - snd q) * (snd p - snd q)).

(** The physical distance between the two calibration points (given as (y, x)) is the distance
    given by the user exactly for square pixels or for two points on a diagonal of the image. *)
Theorem C49_distance_iff : forall y0 x0 y1 x1 D aspect po oph,
  0 < D -> (y1 - y0) * (y1 - y0) + (aspect * (x1 - x0)) * (aspect * (x1 - x0)) <> 0 ->
  let c := simple_init (y0, x0) (y1, x1) D aspect po oph in
  distance2 (simple_pix2phys c x1 y1) (simple_pix2phys c x0 y0) = D <->
  (aspect * aspect = 1 \/ (x1 - x0) * (x1 - x0) = (y1 - y0) * (y1 - y0)).
Proof.
  intros y0 x0 y1 x1 D a po oph HD Hne c.
  unfold distance2, simple_pix2phys, c, simple_init. cbn [fst snd xphys1pixel yphys1pixel ix_origin iy_origin xphys_origin yphys_origin].
  set (dx := x1 - x0) in *. set (dy := y1 - y0) in *.
  set (N := dy * dy + a * dx * (a * dx)) in *.
  assert (HN : 0 < N).
  { assert (0 <= N) by (unfold N; pose proof (Rle_0_sqr dy); pose proof (Rle_0_sqr (a * dx)); unfold Rsqr in *; lra). lra. }
  assert (Hs : 0 < sqrt N) by (apply sqrt_lt_R0; exact HN).
  assert (Hss : sqrt N * sqrt N = N) by (apply sqrt_sqrt; lra).
  match goal with |- sqrt ?e = D <-> _ => set (E := e) end.
  assert (HE : E * N = D * D * (dx * dx + a * dy * (a * dy))).
  { replace (E * N) with (E * (sqrt N * sqrt N)) by (rewrite Hss; reflexivity).
    unfold E. set (sN := sqrt N) in *. unfold dx, dy. field. lra. }
  assert (HE0 : 0 <= E).
  { unfold E. match goal with |- 0 <= ?u * ?u + ?v * ?v => pose proof (Rle_0_sqr u); pose proof (Rle_0_sqr v) end.
    unfold Rsqr in *. lra. }
  split.
  - intros HD'.
    assert (HDD : E = D * D) by (rewrite <- HD'; symmetry; apply sqrt_sqrt; exact HE0).
    rewrite HDD in HE.
    assert (HK : N = dx * dx + a * dy * (a * dy)).
    { apply (Rmult_eq_reg_l (D * D)); [ exact HE | ]. apply Rmult_integral_contrapositive; split; lra. }
    unfold N in HK.
    assert (HF : (a * a - 1) * (dx * dx - dy * dy) = 0) by nra.
    destruct (Rmult_integral _ _ HF); [ left | right ]; lra.
  - intros HF.
    assert (HK : N = dx * dx + a * dy * (a * dy)).
    { unfold N. destruct HF as [ HF | HF ].
      - replace (a * dx * (a * dx)) with (a * a * (dx * dx)) by ring.
        replace (a * dy * (a * dy)) with (a * a * (dy * dy)) by ring. rewrite HF. ring.
      - replace (a * dx * (a * dx)) with (a * a * (dx * dx)) by ring.
        replace (a * dy * (a * dy)) with (a * a * (dy * dy)) by ring. rewrite HF. ring. }
    rewrite <- HK in HE.
    assert (HDD : E = D * D) by (apply (Rmult_eq_reg_r N); [ exact HE | lra ]).
    rewrite HDD. apply sqrt_square. lra.
Qed.
Print Assumptions C49_distance_iff.

(** with pixels twice higher than wide, a user who gives the distance 1 between two points of
    the same line gets the distance 1/2 *)
Theorem C49_distance_refuted : exists p0 p1 D aspect,
  0 < D /\ 0 < aspect /\ p0 <> p1 /\
  let c := simple_init p0 p1 D aspect (0, 0) (0, 0) in
  distance2 (simple_pix2phys c (snd p1) (fst p1)) (simple_pix2phys c (snd p0) (fst p0)) = D / 2.
Proof.
  exists (0, 0), (0, 1), 1, 2. repeat split; try lra. intros E; injection E; lra.
  cbn. unfold distance2, simple_pix2phys, simple_init. cbn [fst snd xphys1pixel yphys1pixel ix_origin iy_origin xphys_origin yphys_origin].
  replace ((0 - 0) * (0 - 0) + 2 * (1 - 0) * (2 * (1 - 0))) with (2 * 2) by ring.
  rewrite sqrt_square by lra.
  match goal with |- sqrt ?e = _ => replace e with ((1 / 2) * (1 / 2)) by field end.
  apply sqrt_square. lra.
Qed.
Print Assumptions C49_distance_refuted.

(** the reference point is mapped to the given origin, and the displacements are differences
    of positions *)
Theorem C49_origin : forall p0 p1 D aspect po oph,
  let c := simple_init p0 p1 D aspect po oph in
  simple_pix2phys c (snd po) (fst po) = (snd oph, fst oph).
Proof. intros. unfold simple_pix2phys, c, simple_init. cbn. apply pair_equal_spec; split; ring. Qed.
Print Assumptions C49_origin.

Theorem C49_displacement : forall c ix iy dix diy x y dx dy,
  simple_displ2phys c ix iy dix diy = (x, y, dx, dy) ->
  (x, y) = simple_pix2phys c ix iy /\
  (x + dx, y + dy) = simple_pix2phys c (ix + dix) (iy + diy).
Proof.
  intros c ix iy dix diy x y dx dy H. unfold simple_displ2phys, simple_pix2phys in *.
  injection H; intros; subst. split; [ reflexivity | apply pair_equal_spec; split; ring ].
Qed.
Print Assumptions C49_displacement.

(** the physical size of a pixel has the given aspect ratio *)
Theorem C49_aspect : forall p0 p1 D aspect po oph ix iy,
  let c := simple_init p0 p1 D aspect po oph in
  snd (simple_pix2phys c ix (iy + 1)) - snd (simple_pix2phys c ix iy) =
  aspect * (fst (simple_pix2phys c (ix + 1) iy) - fst (simple_pix2phys c ix iy)).
Proof. intros. unfold simple_pix2phys, c, simple_init. cbn. ring. Qed.
Print Assumptions C49_aspect.

(** the default aspect ratio is 1 *)
Example C49_case : let c := simple_init (10, 20) (13, 24) 1 1 (0, 0) (5, 7) in
  distance2 (simple_pix2phys c 24 13) (simple_pix2phys c 20 10) = 1.
Proof. apply C49_distance_iff; lra. Qed.

(** ** C50 *)

(** The pinhole camera: the sensor coordinates of the point (x, y, z), in cm. *)
Definition sees (M : mat3) (T : vec3) (x y z Xu Yu : R) : Prop :=
  let zc := m6 M * x + m7 M * y + m8 M * z + v2 T in
  zc <> 0 /\ (m0 M * x + m1 M * y + m2 M * z + v0 T) = Xu * zc /\ (m3 M * x + m4 M * y + m5 M * z + v1 T) = Yu * zc.

(** the plane z = Z (cm) does not contain the optical centre of the camera *)
Definition centre_out_of_plane (M : mat3) (T : vec3) (Z : R) : Prop :=
  let tx := m2 M * Z + v0 T in let ty := m5 M * Z + v1 T in let tz := m8 M * Z + v2 T in
  m0 M * (m4 M * tz - m7 M * ty) - m1 M * (m3 M * tz - m6 M * ty) + tx * (m3 M * m7 M - m4 M * m6 M) <> 0.

(** the optical path is not parallel to the plane *)
Definition path_crosses_plane (M : mat3) (Xu Yu : R) : Prop :=
  (m4 M * m6 M - m3 M * m7 M) * Xu + (m0 M * m7 M - m1 M * m6 M) * Yu + (m1 M * m3 M - m0 M * m4 M) <> 0.

Lemma inverse_projection_sees : forall M T Z Xu Yu x y,
  path_crosses_plane M Xu Yu -> centre_out_of_plane M T Z ->
  inverse_projection M T Z Xu Yu = (x, y) -> sees M T x y Z Xu Yu.
Proof.
  intros M [[Tx Ty] Tz] Z Xu Yu x y Hp Hc H. unfold inverse_projection in H.
  apply pair_equal_spec in H. destruct H as [ Hx Hy ].
  unfold path_crosses_plane, centre_out_of_plane, sees, v0, v1, v2 in *. cbn [fst snd] in *.
  destruct M as [r0 r1 r2 r3 r4 r5 r6 r7 r8]. cbn [m0 m1 m2 m3 m4 m5 m6 m7 m8] in *.
  set (den := (r4 * r6 - r3 * r7) * Xu + (r0 * r7 - r1 * r6) * Yu + (r1 * r3 - r0 * r4)) in *.
  set (K := r0 * (r4 * (r8 * Z + Tz) - r7 * (r5 * Z + Ty)) - r1 * (r3 * (r8 * Z + Tz) - r6 * (r5 * Z + Ty)) +
     (r2 * Z + Tx) * (r3 * r7 - r4 * r6)) in *.
  assert (Hz : r6 * x + r7 * y + r8 * Z + Tz = - K / den).
  { rewrite <- Hx, <- Hy. unfold K. unfold den. field. exact Hp. }
  split; [ | split ].
  - rewrite Hz. intros E. apply Hc. apply (Rmult_eq_compat_r den) in E.
    unfold Rdiv in E. rewrite Rmult_assoc, Rinv_l, Rmult_1_r, Rmult_0_l in E by exact Hp. lra.
  - rewrite Hz. rewrite <- Hx, <- Hy. unfold K, den. field. exact Hp.
  - rewrite Hz. rewrite <- Hx, <- Hy. unfold K, den. field. exact Hp.
Qed.

(** what pix2phys returns for a slice which is not tilted (or with angle=False) *)
Definition level (p : tsai) (index_level : Z) (angle : bool) (Z0 : R) : Prop :=
  exists zs an coord t, slices p = Some (zs, an) /\ angle_not_zero an index_level = Ok t /\
    (angle = false \/ t = None) /\ py_get zs index_level = Ok coord /\ v2 coord = Z0.

(** the apparent height of a point at height z (cm), seen through an interface *)
Definition apparent (p : tsai) (z : R) : R :=
  match interface_z p, refraction_index p with
  | Some H, Some n => if Rlt_dec z H then H - (H - z) / n else z
  | _, _ => z
  end.

Lemma pix2phys_flat : forall p X Y i nby angle Z0 M,
  level p i angle Z0 -> get_matrix (rot p) = Ok M ->
  tsai_pix2phys p X Y i nby angle =
  Ok (let '(Xu, Yu) := undistort p X (nby - Y) in
      let '(x, y) := inverse_projection M (tra p) (apparent p Z0) Xu Yu in (x / 100, y / 100, Z0 / 100)).
Proof.
  intros p X Y i nby angle Z0 M (zs & an & coord & t & Hs & Ha & Hf & Hg & HZ) HM.
  unfold tsai_pix2phys. cbv zeta. rewrite Hs, Ha. cbn [bind]. rewrite Hg. cbn [bind].
  replace (if angle then t else None) with (@None vec3) by (destruct Hf; subst; [ reflexivity | destruct angle; reflexivity ]).
  rewrite HZ, HM. unfold apparent, gt. cbn [bind].
  destruct (interface_z p) as [ H | ]; [ destruct (refraction_index p) as [ n | ] | ]; try (destruct (Rlt_dec Z0 H));
    destruct (undistort p X (nby - Y)); destruct (inverse_projection _ _ _ _ _); reflexivity.
Qed.

(** The pixel of phys2pix (pix2phys X Y), without distortion, is (X, nbypix - Y). *)
Theorem C50_roundtrip_flipped : forall p X Y i nby angle Z0 M x y z,
  level p i angle Z0 -> get_matrix (rot p) = Ok M -> kc p = 0 -> fst (foc p) <> 0 -> snd (foc p) <> 0 ->
  path_crosses_plane M ((X - fst (cen p)) / fst (foc p)) ((nby - Y - snd (cen p)) / snd (foc p)) ->
  centre_out_of_plane M (tra p) (apparent p Z0) ->
  tsai_pix2phys p X Y i nby angle = Ok (x, y, z) ->
  z = Z0 / 100 /\ tsai_phys2pix p x y z = Ok (X, nby - Y).
Proof.
  intros p X Y i nby angle Z0 M x y z Hl HM Hk Hf0 Hf1 Hp Hc H.
  rewrite (pix2phys_flat _ _ _ _ _ _ _ _ Hl HM) in H.
  unfold undistort in H. rewrite Hk in H.
  set (Xu := (X - fst (cen p)) / fst (foc p)) in *. set (Yu := (nby - Y - snd (cen p)) / snd (foc p)) in *.
  replace (1 + 0 * (Xu * Xu + Yu * Yu)) with 1 in H by ring.
  replace (Xu / 1) with Xu in H by field. replace (Yu / 1) with Yu in H by field.
  destruct (inverse_projection M (tra p) (apparent p Z0) Xu Yu) as [ x' y' ] eqn:E.
  pose proof (inverse_projection_sees _ _ _ _ _ _ _ Hp Hc E) as (S1 & S2 & S3).
  injection H as <- <- <-. split; [ reflexivity | ].
  unfold tsai_phys2pix. rewrite HM. cbn [bind].
  replace (x' / 100 * 100) with x' by field. replace (y' / 100 * 100) with y' by field. replace (Z0 / 100 * 100) with Z0 by field.
  assert (Ha : (match interface_z p with
     | Some H => match refraction_index p with Some n => if gt H Z0 then H - (H - Z0) / n else Z0 | None => Z0 end
     | None => Z0 end) = apparent p Z0).
  { unfold apparent, gt. destruct (interface_z p); [ | reflexivity ]. destruct (refraction_index p); [ | reflexivity ].
    destruct (Rlt_dec Z0 r); reflexivity. }
  rewrite Ha, S2, S3, Hk.
  match goal with |- Ok (?a * (?b * ?c / ?c) * ?d + ?e, ?a' * (?b' * ?c / ?c) * ?d' + ?e') = _ =>
    replace (b * c / c) with b by (field; exact S1); replace (b' * c / c) with b' by (field; exact S1) end.
  unfold Xu, Yu. f_equal. apply pair_equal_spec. split; field; auto.
Qed.
Print Assumptions C50_roundtrip_flipped.

(** hence the property: the pixel comes back only on the central line of the image *)
Theorem C50_roundtrip_partial : forall p X Y i nby angle Z0 M x y z,
  level p i angle Z0 -> get_matrix (rot p) = Ok M -> kc p = 0 -> fst (foc p) <> 0 -> snd (foc p) <> 0 ->
  path_crosses_plane M ((X - fst (cen p)) / fst (foc p)) ((nby - Y - snd (cen p)) / snd (foc p)) ->
  centre_out_of_plane M (tra p) (apparent p Z0) ->
  tsai_pix2phys p X Y i nby angle = Ok (x, y, z) ->
  (tsai_phys2pix p x y z = Ok (X, Y) <-> Y = nby / 2).
Proof.
  intros p X Y i nby angle Z0 M x y z Hl HM Hk Hf0 Hf1 Hp Hc H.
  destruct (C50_roundtrip_flipped _ _ _ _ _ _ _ _ _ _ _ Hl HM Hk Hf0 Hf1 Hp Hc H) as [ _ E ]. rewrite E.
  split.
  - intros F. injection F. lra.
  - intros ->. do 2 f_equal. field.
Qed.
Print Assumptions C50_roundtrip_partial.

(** The other way: the point of the slice seen at the flipped pixel comes back. *)
Theorem C50_physical_roundtrip : forall p x y i nby angle Z0 M,
  level p i angle Z0 -> get_matrix (rot p) = Ok M -> kc p = 0 -> fst (foc p) <> 0 -> snd (foc p) <> 0 ->
  centre_out_of_plane M (tra p) (apparent p Z0) ->
  m6 M * (x * 100) + m7 M * (y * 100) + m8 M * apparent p Z0 + v2 (tra p) <> 0 ->
  exists X Y, tsai_phys2pix p x y (Z0 / 100) = Ok (X, Y) /\
    (path_crosses_plane M ((X - fst (cen p)) / fst (foc p)) ((Y - snd (cen p)) / snd (foc p)) ->
     tsai_pix2phys p X (nby - Y) i nby angle = Ok (x, y, Z0 / 100)).
Proof.
  intros p x y i nby angle Z0 M Hl HM Hk Hf0 Hf1 Hc Hz.
  unfold tsai_phys2pix. rewrite HM. cbn [bind]. replace (Z0 / 100 * 100) with Z0 by field.
  assert (Ha : (match interface_z p with
     | Some H => match refraction_index p with Some n => if gt H Z0 then H - (H - Z0) / n else Z0 | None => Z0 end
     | None => Z0 end) = apparent p Z0).
  { unfold apparent, gt. destruct (interface_z p); [ | reflexivity ]. destruct (refraction_index p); [ | reflexivity ].
    destruct (Rlt_dec Z0 r); reflexivity. }
  rewrite Ha, Hk.
  set (x' := x * 100) in *. set (y' := y * 100) in *. set (Z := apparent p Z0) in *.
  set (zc := m6 M * x' + m7 M * y' + m8 M * Z + v2 (tra p)) in *.
  set (xc := m0 M * x' + m1 M * y' + m2 M * Z + v0 (tra p)).
  set (yc := m3 M * x' + m4 M * y' + m5 M * Z + v1 (tra p)).
  eexists. eexists. split; [ reflexivity | ]. intros Hp.
  rewrite (pix2phys_flat _ _ _ _ _ _ _ _ Hl HM). unfold undistort. rewrite Hk.
  match type of Hp with path_crosses_plane _ ?a ?b =>
    assert (EX : a = xc / zc) by (field; auto); assert (EY : b = yc / zc) by (field; auto) end.
  rewrite EX, EY in Hp.
  match goal with |- context [ (?a - (?a - ?b) - ?c) / ?d ] => replace ((a - (a - b) - c) / d) with ((b - c) / d) by (f_equal; ring) end.
  rewrite EX, EY.
  set (Xu := xc / zc) in *. set (Yu := yc / zc) in *.
  replace (1 + 0 * (Xu * Xu + Yu * Yu)) with 1 by ring.
  replace (Xu / 1) with Xu by field. replace (Yu / 1) with Yu by field. fold Z.
  destruct (inverse_projection M (tra p) Z Xu Yu) as [ x2 y2 ] eqn:E.
  assert (HX : Xu * zc = xc) by (unfold Xu; field; exact Hz).
  assert (HY : Yu * zc = yc) by (unfold Yu; field; exact Hz).
  assert (E2 : x2 = x' /\ y2 = y').
  { unfold inverse_projection in E. destruct (tra p) as [[Tx Ty] Tz].
    apply pair_equal_spec in E. destruct E as [ E1 E2 ].
    clearbody Xu Yu x' y' Z.
    unfold xc, yc, zc, path_crosses_plane, v0, v1, v2 in *. cbn [fst snd] in *. clear xc yc zc.
    destruct M as [r0 r1 r2 r3 r4 r5 r6 r7 r8]. cbn [m0 m1 m2 m3 m4 m5 m6 m7 m8] in *.
    set (den := (r4 * r6 - r3 * r7) * Xu + (r0 * r7 - r1 * r6) * Yu + (r1 * r3 - r0 * r4)) in *.
    split.
    - rewrite <- E1. apply (Rmult_eq_reg_r den); [ | exact Hp ].
      unfold Rdiv at 1. rewrite Rmult_assoc, Rinv_l, Rmult_1_r by exact Hp.
      unfold den. nsatz.
    - rewrite <- E2. apply (Rmult_eq_reg_r den); [ | exact Hp ].
      unfold Rdiv at 1. rewrite Rmult_assoc, Rinv_l, Rmult_1_r by exact Hp.
      unfold den. nsatz. }
  destruct E2 as [ -> -> ]. unfold x', y'. f_equal. apply pair_equal_spec; split; [ apply pair_equal_spec; split | ]; field.
Qed.
Print Assumptions C50_physical_roundtrip.

(** With a radial distortion (kc <> 0), even the flipped pixel is not recovered: the factor of
    phys2pix is not the inverse of the factor of pix2phys. *)
Theorem C50_distortion_iff : forall p X Y i nby angle Z0 M x y z,
  level p i angle Z0 -> get_matrix (rot p) = Ok M -> fst (foc p) <> 0 -> snd (foc p) <> 0 ->
  let Xd := (X - fst (cen p)) / fst (foc p) in
  let Yd := (nby - Y - snd (cen p)) / snd (foc p) in
  let kr := kc p * (Xd * Xd + Yd * Yd) in
  1 + kr <> 0 ->
  path_crosses_plane M (Xd / (1 + kr)) (Yd / (1 + kr)) ->
  centre_out_of_plane M (tra p) (apparent p Z0) ->
  tsai_pix2phys p X Y i nby angle = Ok (x, y, z) ->
  (tsai_phys2pix p x y z = Ok (X, nby - Y) <-> (kr = 0 \/ kr = -2)).
Proof.
  intros p X Y i nby angle Z0 M x y z Hl HM Hf0 Hf1 Xd Yd kr Hd Hp Hc H.
  rewrite (pix2phys_flat _ _ _ _ _ _ _ _ Hl HM) in H.
  unfold undistort in H. fold Xd Yd kr in H.
  set (Xu := Xd / (1 + kr)) in *. set (Yu := Yd / (1 + kr)) in *.
  destruct (inverse_projection M (tra p) (apparent p Z0) Xu Yu) as [ x' y' ] eqn:E.
  pose proof (inverse_projection_sees _ _ _ _ _ _ _ Hp Hc E) as (S1 & S2 & S3).
  injection H as <- <- <-.
  unfold tsai_phys2pix. rewrite HM. cbn [bind].
  replace (x' / 100 * 100) with x' by field. replace (y' / 100 * 100) with y' by field. replace (Z0 / 100 * 100) with Z0 by field.
  assert (Ha : (match interface_z p with
     | Some H => match refraction_index p with Some n => if gt H Z0 then H - (H - Z0) / n else Z0 | None => Z0 end
     | None => Z0 end) = apparent p Z0).
  { unfold apparent, gt. destruct (interface_z p); [ | reflexivity ]. destruct (refraction_index p); [ | reflexivity ].
    destruct (Rlt_dec Z0 r); reflexivity. }
  rewrite Ha, S2, S3.
  set (zc := m6 M * x' + m7 M * y' + m8 M * apparent p Z0 + v2 (tra p)) in *.
  replace (Xu * zc / zc) with Xu by (field; exact S1). replace (Yu * zc / zc) with Yu by (field; exact S1).
  assert (Hk : kc p * (Xu * Xu + Yu * Yu) = kr / ((1 + kr) * (1 + kr))).
  { unfold Xu, Yu. transitivity (kc p * (Xd * Xd + Yd * Yd) / ((1 + kr) * (1 + kr))); [ field; auto | reflexivity ]. }
  rewrite Hk.
  assert (HX : X = fst (foc p) * Xd + fst (cen p)) by (unfold Xd; field; auto).
  assert (HY : nby - Y = snd (foc p) * Yd + snd (cen p)) by (unfold Yd; field; auto).
  rewrite HX at 1. rewrite HY at 1.
  assert (HG : forall c, c * (1 + kr / ((1 + kr) * (1 + kr))) / (1 + kr) = c <-> c = 0 \/ kr = 0 \/ kr = -2).
  { intros c. split.
    - intros G.
      assert (G2 : c * ((1 + kr) * (1 + kr) + kr) = c * ((1 + kr) * (1 + kr) * (1 + kr))).
      { rewrite <- G at 2. field. auto. }
      assert (G3 : c * (kr * (kr * (kr + 2))) = 0) by lra.
      destruct (Rmult_integral _ _ G3) as [ ? | G4 ]; [ auto | ].
      destruct (Rmult_integral _ _ G4) as [ ? | G5 ]; [ auto | ].
      destruct (Rmult_integral _ _ G5) as [ ? | G6 ]; [ auto | right; right; lra ].
    - intros [ -> | [ G | G ] ]; [ field; auto | | ]; rewrite G; field; lra. }
  split.
  - intros F. injection F as F1 F2.
    assert (G1 : Xd * (1 + kr / ((1 + kr) * (1 + kr))) / (1 + kr) = Xd).
    { apply (Rmult_eq_reg_l (fst (foc p))); [ | exact Hf0 ].
      transitivity (fst (foc p) * Xu * (1 + kr / ((1 + kr) * (1 + kr)))); [ unfold Xu; field; auto | lra ]. }
    assert (G2 : Yd * (1 + kr / ((1 + kr) * (1 + kr))) / (1 + kr) = Yd).
    { apply (Rmult_eq_reg_l (snd (foc p))); [ | exact Hf1 ].
      transitivity (snd (foc p) * Yu * (1 + kr / ((1 + kr) * (1 + kr)))); [ unfold Yu; field; auto | lra ]. }
    apply HG in G1. apply HG in G2.
    destruct G1 as [ G1 | G1 ]; [ | exact G1 ]. destruct G2 as [ G2 | G2 ]; [ | exact G2 ].
    left. unfold kr. rewrite G1, G2. ring.
  - intros G.
    assert (G1 : Xd * (1 + kr / ((1 + kr) * (1 + kr))) / (1 + kr) = Xd) by (apply HG; auto).
    assert (G2 : Yd * (1 + kr / ((1 + kr) * (1 + kr))) / (1 + kr) = Yd) by (apply HG; auto).
    f_equal. apply pair_equal_spec. split.
    + f_equal. transitivity (fst (foc p) * (Xd * (1 + kr / ((1 + kr) * (1 + kr))) / (1 + kr))); [ unfold Xu; field; auto | rewrite G1; reflexivity ].
    + f_equal. transitivity (snd (foc p) * (Yd * (1 + kr / ((1 + kr) * (1 + kr))) / (1 + kr))); [ unfold Yu; field; auto | rewrite G2; reflexivity ].
Qed.
Print Assumptions C50_distortion_iff.

(** a tilted slice: pix2phys fails for all pixels if there is no refraction in the file *)
Theorem C50_tilted_refuted : forall p X Y i nby zs l a coord M,
  slices p = Some (zs, Angles l) -> py_get l i = Ok a -> a <> (0, 0, 0) -> py_get zs i = Ok coord ->
  get_matrix (rot p) = Ok M -> (interface_z p = None \/ refraction_index p = None) ->
  tsai_pix2phys p X Y i nby true = Err UnboundLocalError.
Proof.
  intros p X Y i nby zs l a coord M Hs Hl Ha Hg HM Hr. unfold tsai_pix2phys. cbv zeta.
  rewrite Hs. unfold angle_not_zero. rewrite Hl. cbn [bind]. rewrite Hg. cbn [bind].
  assert (Hz : is_zero (v0 a) && is_zero (v1 a) && is_zero (v2 a) = false).
  { destruct (is_zero (v0 a) && is_zero (v1 a) && is_zero (v2 a)) eqn:E; [ | reflexivity ].
    exfalso. apply Ha. apply andb_prop in E. destruct E as [ E E3 ]. apply andb_prop in E. destruct E as [ E1 E2 ].
    apply is_zero_true in E1, E2, E3. destruct a as [[a1 a2] a3]. unfold v0, v1, v2 in *. cbn in *. subst. reflexivity. }
  rewrite Hz, HM. cbn [bind].
  destruct Hr as [ -> | -> ]; [ reflexivity | destruct (interface_z p); reflexivity ].
Qed.
Print Assumptions C50_tilted_refuted.

(** with a refraction, the point which is returned for a tilted slice is in this slice only if
    the refraction index is 1 or if the point is on the axis of rotation *)
Theorem C50_tilted_point : forall p X Y i nby zs l a coord M H n x y z,
  slices p = Some (zs, Angles l) -> py_get l i = Ok a -> a <> (0, 0, 0) -> py_get zs i = Ok coord ->
  get_matrix (rot p) = Ok M -> interface_z p = Some H -> refraction_index p = Some n -> n <> 0 ->
  v2 (plane_normal a) <> 0 ->
  tsai_pix2phys p X Y i nby true = Ok (x, y, z) ->
  (dot3 (plane_normal a) (100 * x - v0 coord, 100 * y - v1 coord, 100 * z - v2 coord) = 0 <->
   (n = 1 \/ v0 (plane_normal a) * x + v1 (plane_normal a) * y = 0)).
Proof.
  intros p X Y i nby zs l a coord M H n x y z Hs Hl Ha Hg HM Hi Hr Hn Hv HP. unfold tsai_pix2phys in HP. cbv zeta in HP.
  rewrite Hs in HP. unfold angle_not_zero in HP. rewrite Hl in HP. cbn [bind] in HP. rewrite Hg in HP. cbn [bind] in HP.
  assert (Hz : is_zero (v0 a) && is_zero (v1 a) && is_zero (v2 a) = false).
  { destruct (is_zero (v0 a) && is_zero (v1 a) && is_zero (v2 a)) eqn:E; [ | reflexivity ].
    exfalso. apply Ha. apply andb_prop in E. destruct E as [ E E3 ]. apply andb_prop in E. destruct E as [ E1 E2 ].
    apply is_zero_true in E1, E2, E3. destruct a as [[a1 a2] a3]. unfold v0, v1, v2 in *. cbn in *. subst. reflexivity. }
  rewrite Hz, HM, Hi, Hr in HP. cbn [bind] in HP.
  set (N := plane_normal a) in *. clearbody N.
  destruct (gt H (dot3 N coord / v2 N)); [ | discriminate HP ].
  destruct (undistort p X (nby - Y)) as [ Xu Yu ].
  destruct (inverse_projection _ _ _ _ _) as [ x' y' ].
  injection HP as <- <- <-.
  destruct N as [[N0 N1] N2]. destruct coord as [[c0 c1] c2]. unfold dot3, v0, v1, v2 in *. cbn [fst snd] in *.
  match goal with |- ?e = 0 <-> _ => assert (HE : e * n = (n - 1) * (N0 * x' + N1 * y')) by (field; auto) end.
  assert (Hx : N0 * (x' / 100) + N1 * (y' / 100) = (N0 * x' + N1 * y') / 100) by field.
  rewrite Hx. split.
  - intros E. rewrite E, Rmult_0_l in HE. symmetry in HE. destruct (Rmult_integral _ _ HE); [ left | right ]; lra.
  - intros [ G | G ].
    + apply (Rmult_eq_reg_r n); [ | exact Hn ]. rewrite HE, G. ring.
    + apply (Rmult_eq_reg_r n); [ | exact Hn ]. rewrite HE. assert (G2 : N0 * x' + N1 * y' = 0) by lra. rewrite G2. ring.
Qed.
Print Assumptions C50_tilted_point.

(** a file without angles: the slices after the third one cannot be used *)
Theorem C50_fourth_slice_refuted : forall p X Y i nby angle zs,
  slices p = Some (zs, NoAngle) -> (3 <= i)%Z -> tsai_pix2phys p X Y i nby angle = Err IndexError.
Proof.
  intros p X Y i nby angle zs Hs Hi. unfold tsai_pix2phys. cbv zeta. rewrite Hs.
  assert (E : angle_not_zero NoAngle i = Err IndexError).
  { unfold angle_not_zero, py_get. change (zlen [0; 0; 0]) with 3%Z. cbv zeta.
    replace (i <? 0)%Z with false by (symmetry; apply Z.ltb_ge; lia).
    replace (i <? 3)%Z with false by (symmetry; apply Z.ltb_ge; lia). rewrite andb_false_r. reflexivity. }
  rewrite E. reflexivity.
Qed.
Print Assumptions C50_fourth_slice_refuted.

(** a camera at 1 m above the slice z = 0, with f = 1000, C = (500, 500): the pixel (600, 300)
    comes back as (600, 700) *)
Definition cam_example : tsai :=
  {| foc := (1000, 1000); cen := (500, 500); kc := 0; tra := (0, 0, 100);
     rot := [1; 0; 0; 0; 1; 0; 0; 0; 1]; slices := Some ([(0, 0, 0)], NoAngle); interface_z := None; refraction_index := None |}.
Definition id3 : mat3 := {| m0 := 1; m1 := 0; m2 := 0; m3 := 0; m4 := 1; m5 := 0; m6 := 0; m7 := 0; m8 := 1 |}.
Example C50_case : exists x y z, tsai_pix2phys cam_example 600 300 0 1000 true = Ok (x, y, z) /\ tsai_phys2pix cam_example x y z = Ok (600, 700).
Proof.
  assert (Hl : level cam_example 0 true 0).
  { exists [(0, 0, 0)], NoAngle, (0, 0, 0), None. repeat split; try reflexivity. right; reflexivity. }
  assert (HM : get_matrix (rot cam_example) = Ok id3) by reflexivity.
  pose proof (pix2phys_flat cam_example 600 300 0 1000 true 0 id3 Hl HM) as H.
  destruct (undistort cam_example 600 (1000 - 300)) as [Xu Yu]. destruct (inverse_projection id3 (tra cam_example) (apparent cam_example 0) Xu Yu) as [x y].
  exists (x / 100), (y / 100), (0 / 100). split; [ exact H | ].
  replace 700 with (1000 - 300) by ring.
  refine (proj2 (C50_roundtrip_flipped cam_example 600 300 0 1000 true 0 id3 _ _ _ Hl HM eq_refl _ _ _ _ H)); cbn; try lra.
  - unfold path_crosses_plane. cbn. lra.
  - unfold centre_out_of_plane, apparent, v0, v1, v2. cbn. lra.
Qed.

(** ** C51 *)

Definition on_plane (a b c d : R) (p : vec3) : Prop := a * v0 p + b * v1 p + c * v2 p + d = 0.
(** the point is on the line given by one of its points and its direction *)
Definition on_line (line : vec3 * vec3) (p : vec3) : Prop :=
  exists t, p = (v0 (fst line) + t * v0 (snd line), v1 (fst line) + t * v1 (snd line), v2 (fst line) + t * v2 (snd line)).

Theorem C51_intersection : forall lines ix iy a b c d,
  a * v0 (snd (lines ix iy)) + b * v1 (snd (lines ix iy)) + c * v2 (snd (lines ix iy)) <> 0 ->
  on_plane a b c d (intersect_with_plane lines ix iy a b c d) /\ on_line (lines ix iy) (intersect_with_plane lines ix iy a b c d).
Proof.
  intros lines ix iy a b c d H. unfold intersect_with_plane, on_plane, on_line.
  destruct (lines ix iy) as [[[x0 y0] z0] [[dx dy] dz]]. unfold v0, v1, v2 in *. cbn [fst snd] in *.
  split; [ field; exact H | eexists; reflexivity ].
Qed.
Print Assumptions C51_intersection.

(** it is the only one *)
Theorem C51_unique : forall lines ix iy a b c d p,
  a * v0 (snd (lines ix iy)) + b * v1 (snd (lines ix iy)) + c * v2 (snd (lines ix iy)) <> 0 ->
  on_plane a b c d p -> on_line (lines ix iy) p -> p = intersect_with_plane lines ix iy a b c d.
Proof.
  intros lines ix iy a b c d p H Hp [t Ht]. unfold intersect_with_plane.
  destruct (lines ix iy) as [[[x0 y0] z0] [[dx dy] dz]]. unfold on_plane, v0, v1, v2 in *. cbn [fst snd] in *. subst p. cbn [fst snd] in *.
  replace (- (a * x0 + b * y0 + c * z0 + d) / (a * dx + b * dy + c * dz)) with t; [ reflexivity | ].
  apply (Rmult_eq_reg_r (a * dx + b * dy + c * dz)); [ | exact H ].
  unfold Rdiv. rewrite Rmult_assoc, Rinv_l, Rmult_1_r by exact H. lra.
Qed.
Print Assumptions C51_unique.

(** the displacement of a pixel is a vector of the plane: the difference of the points of the
    plane seen half a displacement after and before *)
Theorem C51_displacement : forall lines ix iy dx dy a b c d,
  let after := lines (ix + dx / 2) (iy + dy / 2) in
  let before := lines (ix - dx / 2) (iy - dy / 2) in
  a * v0 (snd after) + b * v1 (snd after) + c * v2 (snd after) <> 0 ->
  a * v0 (snd before) + b * v1 (snd before) + c * v2 (snd before) <> 0 ->
  exists p q, on_plane a b c d p /\ on_plane a b c d q /\ on_line after p /\ on_line before q /\
    apply_calib lines ix iy dx dy a b c d = (v0 p - v0 q, v1 p - v1 q, v2 p - v2 q) /\
    dot3 (a, b, c) (apply_calib lines ix iy dx dy a b c d) = 0.
Proof.
  intros lines ix iy dx dy a b c d after before H1 H2.
  destruct (C51_intersection lines _ _ a b c d H1) as [ A1 A2 ].
  destruct (C51_intersection lines _ _ a b c d H2) as [ B1 B2 ].
  eexists. eexists. split; [ exact A1 | ]. split; [ exact B1 | ]. split; [ exact A2 | ]. split; [ exact B2 | ].
  split; [ reflexivity | ]. unfold apply_calib, dot3, on_plane, v0, v1, v2 in *. cbn [fst snd] in *. lra.
Qed.
Print Assumptions C51_displacement.

(** the planes of get_plane_equation contain (0, 0, z0) and have a unit normal *)
Theorem C51_plane : forall z0 alpha beta a b c d,
  get_plane_equation z0 alpha beta = Ok (a, b, c, d) ->
  (alpha = 0 \/ beta = 0) /\ on_plane a b c d (0, 0, z0) /\ a * a + b * b + c * c = 1 /\
  (* a rotation of alpha around x or of beta around y of the normal (0, 0, 1) *)
  (beta = 0 -> (a, b, c) = (0, - sin alpha, cos alpha)) /\ (alpha = 0 -> (a, b, c) = (sin beta, 0, cos beta)).
Proof.
  intros z0 alpha beta a b c d H. unfold get_plane_equation in H.
  destruct (negb (is_zero alpha) && negb (is_zero beta)) eqn:E; [ discriminate | ].
  injection H as <- <- <- <-.
  split; [ | split; [ | split; [ | split ] ] ].
  - apply andb_false_iff in E. rewrite !negb_false_iff, !is_zero_true in E. exact E.
  - unfold on_plane, v0, v1, v2. cbn [fst snd]. ring.
  - pose proof (sin2_cos2 alpha) as A. pose proof (sin2_cos2 beta) as B. unfold Rsqr in *.
    replace (sin beta * sin beta + - sin alpha * cos beta * (- sin alpha * cos beta) + cos alpha * cos beta * (cos alpha * cos beta))
      with (sin beta * sin beta + cos beta * cos beta * (sin alpha * sin alpha + cos alpha * cos alpha)) by ring.
    rewrite A. lra.
  - intros ->. rewrite sin_0, cos_0. repeat (apply pair_equal_spec; split); ring.
  - intros ->. rewrite sin_0, cos_0. repeat (apply pair_equal_spec; split); ring.
Qed.
Print Assumptions C51_plane.

(** and the function refuses two angles *)
Theorem C51_plane_error : forall z0 alpha beta,
  get_plane_equation z0 alpha beta = Err ValueError <-> (alpha <> 0 /\ beta <> 0).
Proof.
  intros z0 alpha beta. unfold get_plane_equation.
  destruct (negb (is_zero alpha) && negb (is_zero beta)) eqn:E.
  - apply andb_prop in E. rewrite !negb_true_iff, !is_zero_false in E. split; auto.
  - apply andb_false_iff in E. rewrite !negb_false_iff, !is_zero_true in E. split; [ discriminate | ]. intros [ ? ? ]. destruct E; contradiction.
Qed.
Print Assumptions C51_plane_error.

Example C51_case : intersect_with_plane (fun ix iy => ((ix, iy, 0), (1, 0, 1))) 3 4 0 0 1 (-2) = (5, 4, 2).
Proof. unfold intersect_with_plane. repeat (apply pair_equal_spec; split); field. Qed.

(** ** C68 *)

(** v is between the smallest and the largest elements of l *)
Definition in_range (v : R) (l : list R) : Prop := (exists a, In a l /\ a <= v) /\ (exists b, In b l /\ v <= b).

Lemma fold_min : forall l a, (fold_left Rmin l a = a \/ In (fold_left Rmin l a) l) /\ fold_left Rmin l a <= a /\ (forall x, In x l -> fold_left Rmin l a <= x).
Proof.
  induction l as [ | b l IH ]; intros a; cbn [fold_left In].
  - split; [ left; reflexivity | split; [ lra | intros x [] ] ].
  - destruct (IH (Rmin a b)) as (H1 & H2 & H3). pose proof (Rmin_l a b). pose proof (Rmin_r a b).
    split; [ | split ].
    + destruct H1 as [ H1 | H1 ]; [ | right; right; exact H1 ]. rewrite H1. unfold Rmin. destruct (Rle_dec a b); auto.
    + lra.
    + intros x [ <- | Hx ]; [ lra | apply H3; exact Hx ].
Qed.
Lemma fold_max : forall l a, (fold_left Rmax l a = a \/ In (fold_left Rmax l a) l) /\ a <= fold_left Rmax l a /\ (forall x, In x l -> x <= fold_left Rmax l a).
Proof.
  induction l as [ | b l IH ]; intros a; cbn [fold_left In].
  - split; [ left; reflexivity | split; [ lra | intros x [] ] ].
  - destruct (IH (Rmax a b)) as (H1 & H2 & H3). pose proof (Rmax_l a b). pose proof (Rmax_r a b).
    split; [ | split ].
    + destruct H1 as [ H1 | H1 ]; [ | right; right; exact H1 ]. rewrite H1. unfold Rmax. destruct (Rle_dec a b); auto.
    + lra.
    + intros x [ <- | Hx ]; [ lra | apply H3; exact Hx ].
Qed.
Lemma np_min_spec : forall l m, np_min l = Ok m -> In m l /\ forall x, In x l -> m <= x.
Proof.
  intros [ | a l ] m H; [ discriminate | ]. injection H as <-. destruct (fold_min l a) as (H1 & H2 & H3). split.
  - destruct H1 as [ -> | H1 ]; [ left; reflexivity | right; exact H1 ].
  - intros x [ <- | Hx ]; [ lra | auto ].
Qed.
Lemma np_max_spec : forall l m, np_max l = Ok m -> In m l /\ forall x, In x l -> x <= m.
Proof.
  intros [ | a l ] m H; [ discriminate | ]. injection H as <-. destruct (fold_max l a) as (H1 & H2 & H3). split.
  - destruct H1 as [ -> | H1 ]; [ left; reflexivity | right; exact H1 ].
  - intros x [ <- | Hx ]; [ lra | auto ].
Qed.

Lemma np_min_is : forall l m, In m l -> (forall x, In x l -> m <= x) -> np_min l = Ok m.
Proof.
  intros l m H1 H2. destruct (np_min l) as [ n | ] eqn:E; [ | destruct l; [ destruct H1 | discriminate ] ].
  apply np_min_spec in E. destruct E as [ E1 E2 ]. f_equal. apply Rle_antisym; auto.
Qed.
Lemma np_max_is : forall l m, In m l -> (forall x, In x l -> x <= m) -> np_max l = Ok m.
Proof.
  intros l m H1 H2. destruct (np_max l) as [ n | ] eqn:E; [ | destruct l; [ destruct H1 | discriminate ] ].
  apply np_max_spec in E. destruct E as [ E1 E2 ]. f_equal. apply Rle_antisym; auto.
Qed.

Lemma linspace_between : forall a b n l v, linspace a b n = Ok l -> a <= b -> In v l -> a <= v <= b.
Proof.
  intros a b n l v H Hab Hv. unfold linspace in H.
  destruct (n <? 0)%Z eqn:E0; [ discriminate | ].
  destruct (n =? 1)%Z eqn:E1.
  - injection H as <-. destruct Hv as [ <- | [] ]. lra.
  - injection H as <-. apply in_map_iff in Hv. destruct Hv as (k & <- & Hk).
    unfold range0 in Hk. apply in_map_iff in Hk. destruct Hk as (j & <- & Hj). apply in_seq in Hj.
    apply Z.ltb_ge in E0. apply Z.eqb_neq in E1.
    assert (Hn : (Z.of_nat j <= n - 1)%Z) by lia. assert (Hn1 : (1 <= n - 1)%Z) by lia.
    apply IZR_le in Hn, Hn1. assert (H0 : 0 <= IZR (Z.of_nat j)) by (apply IZR_le; lia).
    set (k := IZR (Z.of_nat j)) in *. set (m := IZR (n - 1)) in *.
    assert (Hq : 0 <= k / m <= 1).
    { split; [ apply Rmult_le_pos; [ exact H0 | apply Rlt_le, Rinv_0_lt_compat; lra ] | ].
      apply (Rmult_le_reg_r m); [ lra | ]. unfold Rdiv. rewrite Rmult_assoc, Rinv_l by lra. lra. }
    replace (k * ((b - a) / m)) with (k / m * (b - a)) by (field; lra). nra.
Qed.

(** the intermediate values of find_common_grid *)
Lemma common_grid_inv : forall X0 X1 xs ys, find_common_grid X0 X1 = Ok (xs, ys) ->
  exists xmin0 xmax0 ymin0 xmin1 xmax1 ymin1 ymax1 nx ny,
    np_min (map fst X0) = Ok xmin0 /\ np_max (map fst X0) = Ok xmax0 /\ np_min (map snd X0) = Ok ymin0 /\
    np_min (map fst X1) = Ok xmin1 /\ np_max (map fst X1) = Ok xmax1 /\ np_min (map snd X1) = Ok ymin1 /\ np_max (map snd X1) = Ok ymax1 /\
    linspace (Rmax xmin0 xmin1) (Rmin xmax0 xmax1) nx = Ok xs /\ linspace (Rmax ymin0 ymin1) (Rmin ymax1 ymax1) ny = Ok ys.
Proof.
  intros X0 X1 xs ys H. unfold find_common_grid in H.
  destruct (np_min (map fst X0)) as [ xmin0 | ]; [ cbn [bind] in H | discriminate ].
  destruct (np_max (map fst X0)) as [ xmax0 | ]; [ cbn [bind] in H | discriminate ].
  destruct (np_min (map snd X0)) as [ ymin0 | ]; [ cbn [bind] in H | discriminate ].
  destruct (np_max (map snd X0)) as [ ymax0 | ]; [ cbn [bind] in H | discriminate ].
  destruct (np_min (map fst X1)) as [ xmin1 | ]; [ cbn [bind] in H | discriminate ].
  destruct (np_max (map fst X1)) as [ xmax1 | ]; [ cbn [bind] in H | discriminate ].
  destruct (np_min (map snd X1)) as [ ymin1 | ]; [ cbn [bind] in H | discriminate ].
  destruct (np_max (map snd X1)) as [ ymax1 | ]; [ cbn [bind] in H | discriminate ].
  cbv zeta in H.
  match type of H with bind (linspace _ _ ?a) _ = _ => set (nx := a) in H end.
  destruct (linspace _ _ nx) as [ xs' | ] eqn:E1; [ cbn [bind] in H | discriminate ].
  match type of H with bind (linspace _ _ ?a) _ = _ => set (ny := a) in H end.
  destruct (linspace _ _ ny) as [ ys' | ] eqn:E2; [ cbn [bind] in H | discriminate ].
  injection H as <- <-.
  exists xmin0, xmax0, ymin0, xmin1, xmax1, ymin1, ymax1, nx, ny. repeat split; assumption.
Qed.

(** If the fields of view overlap, each x of the common grid is seen by both cameras. *)
Theorem C68_common_x : forall X0 X1 xs ys v,
  find_common_grid X0 X1 = Ok (xs, ys) ->
  (exists w, in_range w (map fst X0) /\ in_range w (map fst X1)) ->
  In v xs -> in_range v (map fst X0) /\ in_range v (map fst X1).
Proof.
  intros X0 X1 xs ys v H (w & ((a & Ha & Ha') & (b & Hb & Hb')) & ((a2 & Ha2 & Ha2') & (b2 & Hb2 & Hb2'))) Hv.
  apply common_grid_inv in H.
  destruct H as (xmin0 & xmax0 & ymin0 & xmin1 & xmax1 & ymin1 & ymax1 & nx & ny & A1 & A2 & A3 & A4 & A5 & A6 & A7 & L1 & L2).
  apply np_min_spec in A1, A4. apply np_max_spec in A2, A5.
  destruct A1 as [ I1 A1 ], A2 as [ I2 A2 ], A4 as [ I4 A4 ], A5 as [ I5 A5 ].
  pose proof (A1 _ Ha). pose proof (A2 _ Hb). pose proof (A4 _ Ha2). pose proof (A5 _ Hb2).
  assert (HM : Rmax xmin0 xmin1 <= Rmin xmax0 xmax1).
  { apply Rmax_lub; apply Rmin_glb; lra. }
  destruct (linspace_between _ _ _ _ _ L1 HM Hv) as [ P Q ].
  pose proof (Rmax_l xmin0 xmin1). pose proof (Rmax_r xmin0 xmin1). pose proof (Rmin_l xmax0 xmax1). pose proof (Rmin_r xmax0 xmax1).
  repeat split; [ exists xmin0 | exists xmax0 | exists xmin1 | exists xmax1 ]; split; auto; lra.
Qed.
Print Assumptions C68_common_x.

(** Each y of the common grid is seen by camera 1, and is not below what camera 0 sees; it
    is seen by camera 0 too provided that the top of its field is not below the one of camera 1. *)
Theorem C68_common_y_partial : forall X0 X1 xs ys v,
  find_common_grid X0 X1 = Ok (xs, ys) ->
  (exists w, in_range w (map snd X0) /\ in_range w (map snd X1)) ->
  In v ys ->
  in_range v (map snd X1) /\ (exists a, In a (map snd X0) /\ a <= v) /\
  ((exists top, In top (map snd X0) /\ forall y, In y (map snd X1) -> y <= top) -> in_range v (map snd X0)).
Proof.
  intros X0 X1 xs ys v H (w & ((a & Ha & Ha') & (b & Hb & Hb')) & ((a2 & Ha2 & Ha2') & (b2 & Hb2 & Hb2'))) Hv.
  apply common_grid_inv in H.
  destruct H as (xmin0 & xmax0 & ymin0 & xmin1 & xmax1 & ymin1 & ymax1 & nx & ny & A1 & A2 & A3 & A4 & A5 & A6 & A7 & L1 & L2).
  apply np_min_spec in A3, A6. apply np_max_spec in A7.
  destruct A3 as [ I3 A3 ], A6 as [ I6 A6 ], A7 as [ I7 A7 ].
  pose proof (A3 _ Ha). pose proof (A6 _ Ha2). pose proof (A7 _ Hb2).
  assert (HR : Rmin ymax1 ymax1 = ymax1) by (unfold Rmin; destruct (Rle_dec ymax1 ymax1); reflexivity).
  rewrite HR in L2.
  assert (HM : Rmax ymin0 ymin1 <= ymax1) by (apply Rmax_lub; lra).
  destruct (linspace_between _ _ _ _ _ L2 HM Hv) as [ P Q ].
  pose proof (Rmax_l ymin0 ymin1). pose proof (Rmax_r ymin0 ymin1).
  split; [ | split ].
  - split; [ exists ymin1 | exists ymax1 ]; split; auto; lra.
  - exists ymin0; split; auto; lra.
  - intros (top & It & Ht). split; [ exists ymin0 | exists top ]; split; auto; [ lra | ]. pose proof (Ht _ I7). lra.
Qed.
Print Assumptions C68_common_y_partial.

Definition square (a b : R) : list (R * R) := [(0, a); (1, a); (2, a); (0, a + 1); (1, a + 1); (2, a + 1); (0, b); (1, b); (2, b)].

Lemma to_int_3 : to_int 3 = 3%Z.
Proof.
  unfold to_int. destruct (Rlt_dec 3 0); [ lra | ]. unfold Int_part.
  assert (E : (4 = up 3)%Z) by (apply tech_up; lra). rewrite <- E. reflexivity.
Qed.

(** camera 0 sees y in [0, 2] and camera 1 sees y in [1, 3]: the common grid goes to y = 3 *)
Theorem C68_outside_refuted : exists X0 X1 xs ys v,
  find_common_grid X0 X1 = Ok (xs, ys) /\ (exists w, in_range w (map snd X0) /\ in_range w (map snd X1)) /\
  In v ys /\ (forall y, In y (map snd X0) -> y < v).
Proof.
  exists (square 0 2), (square 1 3). exists [0; 1; 2], [1; 2; 3], 3.
  assert (Hmin : forall a b, a <= b -> Rmin a b = a) by (intros; apply Rmin_left; assumption).
  assert (Hmin2 : forall a b, b <= a -> Rmin a b = b) by (intros; apply Rmin_right; assumption).
  assert (Hmax : forall a b, a <= b -> Rmax a b = b) by (intros; apply Rmax_right; assumption).
  assert (Hmax2 : forall a b, b <= a -> Rmax a b = a) by (intros; apply Rmax_left; assumption).
  assert (H3 : forall e, e = 3 -> to_int e = 3%Z) by (intros e ->; apply to_int_3).
  split; [ | split; [ | split ] ].
  - unfold find_common_grid.
    assert (E1 : forall a b, np_min (map fst (square a b)) = Ok 0).
    { intros a b. unfold square. apply np_min_is; cbn [map fst In]; [ tauto | ].
      intros x Hx. repeat (destruct Hx as [ <- | Hx ]; [ lra | ]). destruct Hx. }
    assert (E2 : forall a b, np_max (map fst (square a b)) = Ok 2).
    { intros a b. unfold square. apply np_max_is; cbn [map fst In]; [ tauto | ].
      intros x Hx. repeat (destruct Hx as [ <- | Hx ]; [ lra | ]). destruct Hx. }
    assert (E3 : forall a b, a + 1 <= b -> np_min (map snd (square a b)) = Ok a).
    { intros a b Hab. unfold square. apply np_min_is; cbn [map snd In]; [ tauto | ].
      intros x Hx. repeat (destruct Hx as [ <- | Hx ]; [ lra | ]). destruct Hx. }
    assert (E4 : forall a b, a + 1 <= b -> np_max (map snd (square a b)) = Ok b).
    { intros a b Hab. unfold square. apply np_max_is; cbn [map snd In]; [ tauto | ].
      intros x Hx. repeat (destruct Hx as [ <- | Hx ]; [ lra | ]). destruct Hx. }
    rewrite !E1, !E2, !E3, !E4 by lra. cbn [bind].
    rewrite (Hmax 0 0) by lra. rewrite (Hmin 2 2) by lra. rewrite (Hmax 0 1) by lra. rewrite (Hmin 3 3) by lra.
    cbv zeta.
    replace (INR (List.length (square 0 2))) with 9 by (cbn; ring).
    replace (INR (List.length (square 1 3))) with 9 by (cbn; ring).
    assert (Hs : sqrt 9 = 3) by (replace 9 with (3 * 3) by ring; apply sqrt_square; lra). rewrite Hs.
    replace ((2 - 0) / (2 - 0)) with 1 by field. 
    replace ((2 - 0) / (3 - 1)) with 1 by field. rewrite sqrt_1.
    repeat first [ rewrite Hmax by lra | rewrite Hmax2 by lra ].
    rewrite (H3 ((2 - 0) / _)) by field. 
    unfold linspace at 1. cbn [Z.ltb Z.eqb Z.compare Pos.eqb]. change (range0 3) with [0%Z; 1%Z; 2%Z]. cbn [map bind].
    rewrite (H3 ((3 - 1) / _)) by field. 
    unfold linspace. cbn [Z.ltb Z.eqb Z.compare Pos.eqb]. change (range0 3) with [0%Z; 1%Z; 2%Z]. cbn [map bind].
    change (3 - 1)%Z with 2%Z.
    f_equal. apply pair_equal_spec. split; repeat (f_equal; try field).
  - exists (3/2). unfold square, in_range. cbn [map snd In].
    split; split; [ exists 0 | exists 2 | exists 1 | exists 3 ]; split; try lra; tauto.
  - cbn. tauto.
  - intros y. unfold square. cbn [map snd In]. intros Hy. repeat (destruct Hy as [ <- | Hy ]; [ lra | ]). destruct Hy.
Qed.
Print Assumptions C68_outside_refuted.

(** the points of the grid are in the plane *)
Theorem C68_grid_on_plane : forall a b c d x y, c <> 0 -> on_plane a b c d (x, y, grid_z a b c d x y).
Proof. intros. unfold on_plane, grid_z, v0, v1, v2. cbn [fst snd]. field. assumption. Qed.
Print Assumptions C68_grid_on_plane.

(** Calibrations (src/fluidimage/calibration): Calibration2DSimple, the Tsai calibration, the
    direct calibration and the stereo reconstruction.

    Real arithmetic instead of floats, for one point (the arrays of points are treated
    element by element by the code).  A division by zero gives inf or nan in the code; here
    its result is not specified, and the theorems exclude it. *)
From Coq Require Import Reals ZArith List Bool.
From Verif Require Import PyBase StrModel.
Import ListNotations.
Local Open Scope R_scope.

(** ** calib2d_simple.py *)

(** points are (y, x), as in the code *)
Record simple := {
  xphys1pixel : R; yphys1pixel : R;
  ix_origin : R; iy_origin : R;
  xphys_origin : R; yphys_origin : R }.

(** calib2d_simple.py:55-88; the shape of the image is only stored *)
Definition simple_init (point0 point1 : R * R) (distance aspect_ratio_pixel : R) (point_origin orig_phys : R * R) : simple :=
  let delta0 := fst point1 - fst point0 in
  let delta1 := snd point1 - snd point0 in
  let xpp := distance / sqrt (delta0 * delta0 + (aspect_ratio_pixel * delta1) * (aspect_ratio_pixel * delta1)) in
  {| xphys1pixel := xpp; yphys1pixel := aspect_ratio_pixel * xpp;
     ix_origin := snd point_origin; iy_origin := fst point_origin;
     xphys_origin := snd orig_phys; yphys_origin := fst orig_phys |}.

(** calib2d_simple.py:90-106 *)
Definition simple_pix2phys (c : simple) (ixs iys : R) : R * R :=
  (xphys_origin c + xphys1pixel c * (ixs - ix_origin c), yphys_origin c + yphys1pixel c * (iys - iy_origin c)).

(** calib2d_simple.py:108-131 *)
Definition simple_displ2phys (c : simple) (ixs iys displxs displys : R) : R * R * R * R :=
  let '(xphys, yphys) := simple_pix2phys c ixs iys in
  (xphys, yphys, xphys1pixel c * displxs, yphys1pixel c * displys).

(** ** calib_tsai.py *)

Definition vec3 : Type := R * R * R.
Definition v0 (v : vec3) : R := fst (fst v).
Definition v1 (v : vec3) : R := snd (fst v).
Definition v2 (v : vec3) : R := snd v.

(** the parameter slice_angle: a list of angles, or the list [0, 0, 0] when the file has no
    angle (util.py:113 and 130) *)
Inductive slice_angle := Angles (l : list vec3) | NoAngle.

(** The parameters made by make_params_calibration (util.py:68-150).  f, C, kc, T and R are
    always set by this function (lines 77-96), so that the default values of calib_tsai.py
    (lines 81-88, 173-176, 199-206) and the case without R are not modelled. *)
Record tsai := {
  foc : R * R; cen : R * R; kc : R; tra : vec3;  (* f, C, kc, T *)
  rot : list R;                                     (* the 9 coefficients of the matrix *)
  slices : option (list vec3 * slice_angle);       (* zslice_coord, slice_angle *)
  interface_z : option R;                          (* interface_coord[2] *)
  refraction_index : option R }.

Definition at_ (l : list R) (i : nat) : result R := match nth_error l i with Some v => Ok v | None => Err IndexError end.

Definition is_zero (x : R) : bool := if Req_EM_T x 0 then true else false.
Definition gt (x y : R) : bool := if Rlt_dec y x then true else false.

(** calib_tsai.py:45-49, the condition of the first test (without [angle]):
    [slice_angle[index_level]], compared with [0, 0, 0] *)
Definition angle_not_zero (a : slice_angle) (index_level : Z) : result (option vec3) :=
  match a with
  | Angles l =>
      do v <- py_get l index_level ;
      Ok (if is_zero (v0 v) && is_zero (v1 v) && is_zero (v2 v) then None else Some v)
  | NoAngle => do _ <- py_get [0; 0; 0] index_level ; Ok None
  end.

(** calib_tsai.py:53-63 *)
Definition plane_normal (angle : vec3) : vec3 :=
  let om := sqrt (v0 angle * v0 angle + v1 angle * v1 angle + v2 angle * v2 angle) in
  let axis := (v0 angle / om, v1 angle / om, v2 angle / om) in
  let cos_om := cos (PI * om / 180) in
  let sin_om := sin (PI * om / 180) in
  let coeff := v2 axis * (1 - cos_om) in
  (v0 axis * coeff + v1 axis * sin_om, v1 axis * coeff - v0 axis * sin_om, v2 axis * coeff + cos_om).

Definition dot3 (a b : vec3) : R := v0 a * v0 b + v1 a * v1 b + v2 a * v2 b.

(** a matrix 3 x 3, line by line *)
Record mat3 := { m0 : R; m1 : R; m2 : R; m3 : R; m4 : R; m5 : R; m6 : R; m7 : R; m8 : R }.

Definition get_matrix (l : list R) : result mat3 :=
  do r0 <- at_ l 0 ; do r1 <- at_ l 1 ; do r2 <- at_ l 2 ; do r3 <- at_ l 3 ; do r4 <- at_ l 4 ;
  do r5 <- at_ l 5 ; do r6 <- at_ l 6 ; do r7 <- at_ l 7 ; do r8 <- at_ l 8 ;
  Ok {| m0 := r0; m1 := r1; m2 := r2; m3 := r3; m4 := r4; m5 := r5; m6 := r6; m7 := r7; m8 := r8 |}.

(** calib_tsai.py:117-122 *)
Definition tilt (a b : R) (M : mat3) : mat3 :=
  {| m0 := m0 M + a * m2 M; m1 := m1 M + b * m2 M; m2 := m2 M;
     m3 := m3 M + a * m5 M; m4 := m4 M + b * m5 M; m5 := m5 M;
     m6 := m6 M + a * m8 M; m7 := m7 M + b * m8 M; m8 := m8 M |}.

(** calib_tsai.py:124-143, 150-152: the inverse of the projection, for the plane z = Z0virt *)
Definition inverse_projection (M : mat3) (T : vec3) (Z0virt Xu Yu : R) : R * R :=
  let '(Tx, Ty, Tz) := T in
  let Dx := m4 M * m6 M - m3 M * m7 M in
  let Dy := m0 M * m7 M - m1 M * m6 M in
  let D0 := m1 M * m3 M - m0 M * m4 M in
  let Z11 := m5 M * m7 M - m4 M * m8 M in
  let Z12 := m1 M * m8 M - m2 M * m7 M in
  let Z21 := m3 M * m8 M - m5 M * m6 M in
  let Z22 := m2 M * m6 M - m0 M * m8 M in
  let Zx0 := m2 M * m4 M - m1 M * m5 M in
  let Zy0 := m0 M * m5 M - m2 M * m3 M in
  let A11 := m7 M * Ty - m4 M * Tz + Z11 * Z0virt in
  let A12 := m1 M * Tz - m7 M * Tx + Z12 * Z0virt in
  let A21 := - m6 M * Ty + m3 M * Tz + Z21 * Z0virt in
  let A22 := - m0 M * Tz + m6 M * Tx + Z22 * Z0virt in
  let X0 := m4 M * Tx - m1 M * Ty + Zx0 * Z0virt in
  let Y0 := - m3 M * Tx + m0 M * Ty + Zy0 * Z0virt in
  let denom := Dx * Xu + Dy * Yu + D0 in
  ((A11 * Xu + A12 * Yu + X0) / denom, (A21 * Xu + A22 * Yu + Y0) / denom).

(** calib_tsai.py:145-149 *)
Definition undistort (p : tsai) (X Y : R) : R * R :=
  let Xd := (X - fst (cen p)) / fst (foc p) in
  let Yd := (Y - snd (cen p)) / snd (foc p) in
  let dist_fact := 1 + kc p * (Xd * Xd + Yd * Yd) in
  (Xd / dist_fact, Yd / dist_fact).

(** calib_tsai.py:39-165 *)
Definition tsai_pix2phys (p : tsai) (X Y : R) (index_level : Z) (nbypix : R) (angle : bool) : result vec3 :=
  let Y := nbypix - Y in
  match slices p with
  | None => Err AttributeError
  | Some (zslice_coord, angles) =>
      do t <- angle_not_zero angles index_level ;
      let t := if angle then t else None in
      do coord <- py_get zslice_coord index_level ;
      let Z0 := match t with
                | Some a => let n := plane_normal a in dot3 n coord / v2 n
                | None => v2 coord
                end in
      (* Z0virt, and test_refraction if it is bound *)
      let '(Z0virt, test_refraction) :=
        match interface_z p, refraction_index p with
        | Some H, Some n => if gt H Z0 then (H - (H - Z0) / n, Some n) else (Z0, None)
        | _, _ => (Z0, None)
        end in
      do M <- get_matrix (rot p) ;
      match t with
      | Some an =>
          let n := plane_normal an in
          let a := - v0 n / v2 n in
          let b := - v1 n / v2 n in
          match test_refraction with
          | None => Err UnboundLocalError
          | Some index =>
              let a := a / index in
              let b := b / index in
              let '(Xu, Yu) := undistort p X Y in
              let '(Xphys, Yphys) := inverse_projection (tilt a b M) (tra p) Z0virt Xu Yu in
              Ok (Xphys / 100, Yphys / 100, (Z0 + a * Xphys + b * Yphys) / 100)
          end
      | None =>
          let '(Xu, Yu) := undistort p X Y in
          let '(Xphys, Yphys) := inverse_projection M (tra p) Z0virt Xu Yu in
          Ok (Xphys / 100, Yphys / 100, Z0 / 100)
      end
  end.

(** calib_tsai.py:167-216 *)
Definition tsai_phys2pix (p : tsai) (Xphys Yphys Zphys : R) : result (R * R) :=
  let Xphys := Xphys * 100 in
  let Yphys := Yphys * 100 in
  let Zphys := Zphys * 100 in
  do M <- get_matrix (rot p) ;
  let Zphys := match interface_z p, refraction_index p with
               | Some H, Some n => if gt H Zphys then H - (H - Zphys) / n else Zphys
               | _, _ => Zphys
               end in
  let xc := m0 M * Xphys + m1 M * Yphys + m2 M * Zphys + v0 (tra p) in
  let yc := m3 M * Xphys + m4 M * Yphys + m5 M * Zphys + v1 (tra p) in
  let zc := m6 M * Xphys + m7 M * Yphys + m8 M * Zphys + v2 (tra p) in
  let Xu := xc / zc in
  let Yu := yc / zc in
  let r2 := 1 + kc p * (Xu * Xu + Yu * Yu) in
  Ok (fst (foc p) * Xu * r2 + fst (cen p), snd (foc p) * Yu * r2 + snd (cen p)).

(** ** calibration/util.py *)

(** util.py:17-47 *)
Definition get_plane_equation (z0 alpha beta : R) : result (R * R * R * R) :=
  if negb (is_zero alpha) && negb (is_zero beta) then Err ValueError else
  let a := sin beta in
  let b := - sin alpha * cos beta in
  let c := cos alpha * cos beta in
  let d := - c * z0 in
  Ok (a, b, c, d).

Definition cross (a b : vec3) : vec3 :=
  (v1 a * v2 b - v2 a * v1 b, v2 a * v0 b - v0 a * v2 b, v0 a * v1 b - v1 a * v0 b).
Definition norm3 (a : vec3) : R := sqrt (dot3 a a).
Definition scale (k : R) (a : vec3) : vec3 := (k * v0 a, k * v1 a, k * v2 a).

(** util.py:50-65, the vectors ex, ey, ez (columns of the first matrix; the second matrix is
    its inverse, computed by numpy) *)
Definition base_vectors (nx ny nz : R) : vec3 * vec3 * vec3 :=
  let ez := (nx, ny, nz) in
  let ez := scale (/ norm3 ez) ez in
  let ex1 := 1 in
  let ex2 := 0 in
  let ex3 := - (ex1 * nx + ex2 * ny) / nz in
  let ex := (ex1, ex2, ex3) in
  let ex := scale (/ norm3 ex) ex in
  let ey := cross ez ex in
  (ex, ey, ez).

(** ** calib_direct.py *)
Section Direct.
(** [self.interp_lines]: the six interpolators (scipy), as functions of the pixel *)
Variable interp_lines : R -> R -> vec3 * vec3.

(** calib_direct.py:272-286 *)
Definition intersect_with_plane (indx indy a b c d : R) : vec3 :=
  let '((x0, y0, z0), (dx, dy, dz)) := interp_lines indx indy in
  let t := - (a * x0 + b * y0 + c * z0 + d) / (a * dx + b * dy + c * dz) in
  (x0 + t * dx, y0 + t * dy, z0 + t * dz).

(** calib_direct.py:288-297 *)
Definition apply_calib (indx indy dx dy a b c d : R) : vec3 :=
  let p := intersect_with_plane (indx + dx / 2) (indy + dy / 2) a b c d in
  let q := intersect_with_plane (indx - dx / 2) (indy - dy / 2) a b c d in
  (v0 p - v0 q, v1 p - v1 q, v2 p - v2 q).
End Direct.

(** *** find_common_grid, calib_direct.py:497-537 *)

(** [np.nanmin] and [np.nanmax]; the arrays have no NaN here; ValueError for no point *)
Definition np_min (l : list R) : result R := match l with [] => Err ValueError | a :: l' => Ok (fold_left Rmin l' a) end.
Definition np_max (l : list R) : result R := match l with [] => Err ValueError | a :: l' => Ok (fold_left Rmax l' a) end.

(** [int(x)]: truncation towards zero *)
Definition to_int (x : R) : Z := if Rlt_dec x 0 then (- Int_part (- x))%Z else Int_part x.

(** [np.linspace(start, stop, num)] *)
Definition linspace (start stop : R) (num : Z) : result (list R) :=
  if (num <? 0)%Z then Err ValueError
  else if (num =? 1)%Z then Ok [start]
  else Ok (map (fun k => start + IZR k * ((stop - start) / IZR (num - 1))) (range0 num)).

(** the 1D coordinates of the grid (the code then makes the 2D arrays); the points are given
    by their coordinates x and y *)
Definition find_common_grid (X0 X1 : list (R * R)) : result (list R * list R) :=
  do xmin0 <- np_min (map fst X0) ; do xmax0 <- np_max (map fst X0) ;
  do ymin0 <- np_min (map snd X0) ; do ymax0 <- np_max (map snd X0) ;
  do xmin1 <- np_min (map fst X1) ; do xmax1 <- np_max (map fst X1) ;
  do ymin1 <- np_min (map snd X1) ; do ymax1 <- np_max (map snd X1) ;
  let xmin := Rmax xmin0 xmin1 in
  let xmax := Rmin xmax0 xmax1 in
  let ymin := Rmax ymin0 ymin1 in
  let ymax := Rmin ymax1 ymax1 in
  let Lx0 := xmax0 - xmin0 in
  let Ly0 := ymax0 - ymin0 in
  let Lx1 := xmax1 - xmin1 in
  let Ly1 := ymax1 - ymin1 in
  let Nx0 := sqrt (INR (List.length X0)) * sqrt (Lx0 / Ly0) in
  let Ny0 := INR (List.length X0) / Nx0 in
  let Nx1 := sqrt (INR (List.length X1)) * sqrt (Lx1 / Ly1) in
  let Ny1 := INR (List.length X1) / Nx1 in
  let dx := Rmax (Lx0 / Nx0) (Lx1 / Nx1) in
  let dy := Rmax (Ly0 / Ny0) (Ly1 / Ny1) in
  do x <- linspace xmin xmax (to_int ((xmax - xmin) / dx)) ;
  do y <- linspace ymin ymax (to_int ((ymax - ymin) / dy)) ;
  Ok (x, y).
(** calib_direct.py:536 *)
Definition grid_z (a b c d x y : R) : R := - (a * x + b * y + d) / c.

(** *** DirectStereoReconstruction *)

(** a matrix as its three lines *)
Definition lines3 : Type := vec3 * vec3 * vec3.
Definition line0 (M : lines3) : vec3 := fst (fst M).
Definition line1 (M : lines3) : vec3 := snd (fst M).
Definition line2 (M : lines3) : vec3 := snd M.
(** [np.dot(M, v)] *)
Definition mulv (M : lines3) (v : vec3) : vec3 := (dot3 (line0 M) v, dot3 (line1 M) v, dot3 (line2 M) v).
Definition transpose3 (M : lines3) : lines3 :=
  ((v0 (line0 M), v0 (line1 M), v0 (line2 M)), (v1 (line0 M), v1 (line1 M), v1 (line2 M)), (v2 (line0 M), v2 (line1 M), v2 (line2 M))).
(** the determinant *)
Definition det3 (M : lines3) : R := dot3 (line0 M) (cross (line1 M) (line2 M)).
(** numpy's LinAlgError *)
Definition LinAlgError : exn := UserError 60.
(** [np.linalg.inv(M)] *)
Definition inv3 (M : lines3) : result lines3 :=
  if is_zero (det3 M) then Err LinAlgError else
  Ok (transpose3 (scale (/ det3 M) (cross (line1 M) (line2 M)), scale (/ det3 M) (cross (line2 M) (line0 M)),
                  scale (/ det3 M) (cross (line0 M) (line1 M)))).

(** util.py:50-65 *)
Definition get_base_from_normal_vector (n : vec3) : result (lines3 * lines3) :=
  let '(ex, ey, ez) := base_vectors (v0 n) (v1 n) (v2 n) in
  let A := transpose3 (ex, ey, ez) in
  do B <- inv3 A ;
  Ok (A, B).

Record stereo := { A0 : lines3; B0 : lines3; A1 : lines3; B1 : lines3; invM0 : lines3; invM1 : lines3; invM2 : lines3; invM3 : lines3 }.

(** calib_direct.py:419-433; [n0] and [n1] are the mean directions of the optical paths of the
    cameras (lines 305-307); [allclose] is the function of numpy *)
Definition stereo_init (allclose : lines3 -> lines3 -> bool) (n0 n1 : vec3) : result stereo :=
  do ab0 <- get_base_from_normal_vector n0 ;
  do ab1 <- get_base_from_normal_vector n1 ;
  let '(a0, b0) := ab0 in
  let '(a1, b1) := ab1 in
  if allclose a0 a1 then Err ValueError else
  do i0 <- inv3 (line0 b0, line1 b0, line0 b1) ;
  do i1 <- inv3 (line0 b0, line0 b1, line1 b1) ;
  do i2 <- inv3 (line0 b0, line1 b0, line1 b1) ;
  do i3 <- inv3 (line1 b0, line0 b1, line1 b1) ;
  Ok {| A0 := a0; B0 := b0; A1 := a1; B1 := b1; invM0 := i0; invM1 := i1; invM2 := i2; invM3 := i3 |}.

(** calib_direct.py:461-466, for one vector *)
Definition project2cam (B : lines3) (dX : vec3) : R * R := (v0 (mulv B dX), v1 (mulv B dX)).

(** [np.nanmean(tmp, 0)] and [np.nanstd(tmp, 0)] for one component *)
Definition mean (l : list R) : R := fold_right Rplus 0 l / INR (List.length l).
Definition std (l : list R) : R := sqrt (mean (map (fun x => (x - mean l) * (x - mean l)) l)).

(** calib_direct.py:589-594 *)
Definition threshold : R := cos (5 * 2 * PI / 180).

(** calib_direct.py:589-625, for one point of the grid, where the interpolated displacements
    are [d0] and [d1] (numbers); with no selected triple the mean is a scalar and cannot be
    unpacked *)
Definition reconstruction (s : stereo) (d0 d1 : R * R) : result (vec3 * vec3) :=
  let n1 := Rabs (dot3 (line0 (A0 s)) (line0 (A1 s))) in
  let n2 := Rabs (dot3 (line1 (A0 s)) (line1 (A1 s))) in
  let n3 := Rabs (dot3 (line1 (A0 s)) (line0 (A1 s))) in
  let n4 := Rabs (dot3 (line0 (A0 s)) (line1 (A1 s))) in
  let ok n := gt threshold n in
  let tmp :=
    (if ok n1 && ok n3 then [mulv (invM0 s) (fst d0, snd d0, fst d1)] else []) ++
    (if ok n1 && ok n4 then [mulv (invM1 s) (fst d0, fst d1, snd d1)] else []) ++
    (if ok n2 && ok n4 then [mulv (invM2 s) (fst d0, snd d0, snd d1)] else []) ++
    (if ok n2 && ok n3 then [mulv (invM3 s) (snd d0, fst d1, snd d1)] else []) in
  match tmp with
  | [] => Err TypeError
  | _ => Ok ((mean (map v0 tmp), mean (map v1 tmp), mean (map v2 tmp)),
             (std (map v0 tmp), std (map v1 tmp), std (map v2 tmp)))
  end.

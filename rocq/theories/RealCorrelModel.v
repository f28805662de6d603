(** Creation of the objects which compute the correlations, and correlations in real space computed with scipy:
    calcul/correl.py:69-74 (parse_displacement_max), 165-200 (CorrelBase.__init__), 384-560 (the methods [_finalize_init] and [__call__] of
    the classes), 570-594 (_norm_images), and the windows of works/piv/singlepass.py:367-414.

    Simplifications: the pixels are real numbers without rounding; the window of search of the fft classes is in CorrelModel.v. *)
From Coq Require Import Reals String.
From Verif Require Import PyBase FloatBase.
Open Scope Z_scope.

(** the argument displacement_max: None, a number, a text which ends with "%" ([float] of what is before: None when it raises), another
    text *)
Inductive dmax_arg := DNone | DNum (d : R) | DPct (p : option R) | DText.
(** the attribute displacement_max *)
Inductive dmax := MNone | MNum (d : R) | MText.
(** parse_displacement_max, correl.py:69-74 *)
Definition parse_displacement_max (a : dmax_arg) (s0 : Z * Z) : result dmax :=
  match a with
  | DNone => Ok MNone
  | DNum d => Ok (MNum d)
  | DPct (Some p) => Ok (MNum (p / 100 * IZR (Z.max (fst s0) (snd s0))))
  | DPct None => Err ValueError
  | DText => Ok MText
  end.

Inductive method := Pythran | PyCuda | Signal (mode : option string) | Ndimage | Fft.
Record correl := mk_correl { c_method : method; iy0 : Z; ix0 : Z; displacement_max : dmax; large : Z -> Z -> bool }.
Definition no_large : Z -> Z -> bool := fun _ _ => false.

(** shapes are (ny, nx); [im0_shape == im1_shape] *)
Definition shape_eqb (a b : Z * Z) : bool := (fst a =? fst b) && (snd a =? snd b).
(** correl.py:391-404 (CorrelPythran) and 425-437 (CorrelPyCuda, [minus] is 0): the local variable is only defined when the attribute is None *)
Definition finalize_direct (m : method) (minus : Z) (s0 s1 : Z * Z) (d : dmax) : result correl :=
  match d with
  | MNone =>
    let dm := if shape_eqb s0 s1 then Z.min (fst s0) (snd s0) / 2 - minus
              else Z.min (fst s0 - fst s1) (snd s0 - snd s1) / 2 - 1 in
    if dm <=? 0 then Err ValueError else Ok (mk_correl m dm dm (MNum (IZR dm)) no_large)
  | _ => Err UnboundLocalError
  end.
(** correl.py:459-483; the message of the error is a sum of a text and a list *)
Definition same_origin (n : Z) : Z := if n mod 2 =? 0 then n / 2 - 1 else n / 2.
Definition finalize_signal (mode : option string) (s0 s1 : Z * Z) (d : dmax) : result correl :=
  let mode := match mode with None => "same"%string | Some m => m end in
  if String.eqb mode "same" then Ok (mk_correl (Signal (Some mode)) (same_origin (fst s0)) (same_origin (snd s0)) d no_large)
  else if String.eqb mode "valid" then Ok (mk_correl (Signal (Some mode)) ((fst s0 - fst s1) / 2) ((snd s0 - snd s1) / 2) d no_large)
  else Err TypeError.
(** correl.py:503-504 *)
Definition finalize_ndimage (s0 : Z * Z) (d : dmax) : result correl := Ok (mk_correl Ndimage (fst s0 / 2) (snd s0 / 2) d no_large).
(** correl.py:518-559 (the window of search is in CorrelModel.v): a number is compared with the attribute for each pixel *)
Definition finalize_fft (s0 : Z * Z) (s1 : option (Z * Z)) (iy0 ix0 : Z) (d : dmax) : result correl :=
  let check lg := if match s1 with None => true | Some s => shape_eqb s0 s end then Ok (mk_correl Fft iy0 ix0 d lg) else Err ValueError in
  match d with
  | MNone => check no_large
  | MText => if (fst s0 <=? 0) || (snd s0 <=? 0) then Err UnboundLocalError else Err TypeError
  | MNum m =>
    if (fst s0 <=? 0) || (snd s0 <=? 0) then Err UnboundLocalError
    else check (fun iy ix => if Rlt_dec m (sqrt (IZR ((ix0 - ix) * (ix0 - ix) + (iy0 - iy) * (iy0 - iy)))) then true else false)
  end.
(** CorrelBase.__init__, correl.py:171-200 *)
Definition new_correl (m : method) (s0 s1 : Z * Z) (a : dmax_arg) : result correl :=
  do d <- parse_displacement_max a s0 ;
  match m with
  | Pythran => finalize_direct m 1 s0 s1 d
  | PyCuda => finalize_direct m 0 s0 s1 d
  | Signal mode => finalize_signal mode s0 s1 d
  | Ndimage => finalize_ndimage s0 d
  | Fft => finalize_fft s0 (Some s1) (fst s0 / 2 - 1) (snd s0 / 2 - 1) d
  end.
(** correl.py:561-568: the points which are not set to nan before the search of the peak (all for the other classes) *)
Definition searched (c : correl) (iy ix : Z) : bool := negb (large c iy ix).
(** correl.py:210-212 and 206-208 *)
Definition indices_of (c : correl) (dx dy : Z) : Z * Z := (ix0 c - dx, iy0 c - dy).
Definition displacement_of (c : correl) (ix iy : Z) : Z * Z := (ix0 c - ix, iy0 c - iy).

(** * Windows and correlations *)
Definition img := Z -> Z -> R.
(** singlepass.py:367-414: the window of shape [s] around [(cy, cx)] (the crop starts at [cy - s // 2]) *)
Definition crop (A : img) (cy cx : Z) (s : Z * Z) : img := fun iy ix => A (cy - fst s / 2 + iy) (cx - snd s / 2 + ix).
Definition rsum (l : list Z) (f : Z -> R) : R := rsuml (map f l).
Definition inside (s : Z * Z) (iy ix : Z) : bool := ((0 <=? iy) && (iy <? fst s)) && ((0 <=? ix) && (ix <? snd s)).
(** scipy: for the point [(ky, kx)] the weights of [w] are multiplied with the image around this point, and [fill] is used out of the image *)
Definition correlate (im w : img) (s sw : Z * Z) (offy offx : Z) (fill : R) (ky kx : Z) : R :=
  rsum (range0 (fst sw)) (fun jy => rsum (range0 (snd sw)) (fun jx =>
    ((if inside s (ky + jy - offy) (kx + jx - offx) then im (ky + jy - offy)%Z (kx + jx - offx)%Z else fill) * w jy jx)%R)).
(** [im.min()] *)
Definition img_min (w : img) (s : Z * Z) : fl :=
  fmin (flat_map (fun jy => map (fun jx => Fin (w jy jx)) (range0 (snd s))) (range0 (fst s))).
(** CorrelScipySignal.__call__, correl.py:485-494: scipy.signal.correlate2d (the weights start at the point for "valid", and
    [(n - 1) // 2] before for "same") *)
Definition call_signal (c : correl) (im0 im1 : img) (s0 s1 : Z * Z) : Z -> Z -> R :=
  match c_method c with
  | Signal (Some "valid"%string) => correlate im0 im1 s0 s1 0 0 0
  | _ => correlate im0 im1 s0 s1 ((fst s1 - 1) / 2) ((snd s1 - 1) / 2) (rval (img_min im1 s1))
  end.
(** CorrelScipyNdimage.__call__, correl.py:506-510: scipy.ndimage.correlate (the weights start [n // 2] before the point) *)
Definition call_ndimage (im0 im1 : img) (s0 s1 : Z * Z) : Z -> Z -> R :=
  correlate im0 im1 s0 s1 (fst s1 / 2) (snd s1 / 2) (rval (img_min im1 s1)).
Definition pixels (im : img) (s : Z * Z) : list R := flat_map (fun iy => map (fun ix => im iy ix) (range0 (snd s))) (range0 (fst s)).
(** [np.sum(im1**2)] *)
Definition norm_ndimage (im1 : img) (s1 : Z * Z) : R := rsuml (map (fun x => x * x)%R (pixels im1 s1)).
(** _norm_images, correl.py:572-594: IndexError for an empty image *)
Definition acc (t : R) (l : list R) : R := fold_left (fun t x => t + x * x)%R l t.
Fixpoint acc2 (t0 t1 : R) (l0 l1 : list R) : R * R :=
  match l0, l1 with x :: l0', y :: l1' => acc2 (t0 + x * x)%R (t1 + y * y)%R l0' l1' | _, _ => (t0, t1) end.
Definition norm_images (im0 im1 : list R) : result R :=
  match im0, im1 with
  | a :: r0, b :: r1 =>
    let '(t0, t1) :=
      if negb (Nat.eqb (List.length im0) (List.length im1)) then (acc (a * a) r0, acc (b * b) r1)
      else acc2 (a * a)%R (b * b)%R r0 r1 in
    Ok (sqrt (t0 * t1))
  | _, _ => Err IndexError
  end.

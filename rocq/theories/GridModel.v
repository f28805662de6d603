(** Model of works/piv/singlepass.py: grid of the vectors, padding, cropping of the windows, positions of the
    displaced windows and loop over the vectors.

    Images are lists of rows of integers.  NumPy slices with integer bounds have the semantics of Python
    slices ([py_slice]). *)
From Verif Require Import PyBase.
Local Open Scope Z_scope.

Definition img : Type := list (list Z).

(** [params.piv0.shape_crop_im0]: an integer, a tuple or list, something else. *)
Inductive shape_arg := SInt (n : Z) | SSeq (l : list Z) | SNone | SOther.

(** _init_shape_crop (lines 52-87) *)
Definition one_shape (s : shape_arg) : result (Z * Z) :=
  match s with
  | SInt n => Ok (n, n)
  | SSeq [n0; n1] => Ok (n0, n1)
  | _ => Err NotImplementedError
  end.
Definition init_shape_crop (im0 im1 : shape_arg) : result ((Z * Z) * (Z * Z)) :=
  let im1 := match im1 with SNone => im0 | _ => im1 end in
  do s0 <- one_shape im0 ;
  do s1 <- one_shape im1 ;
  if (fst s0 <? fst s1) || (snd s0 <? snd s1) then Err ValueError else Ok (s0, s1).

(** _init_crop (lines 363-389), one axis *)
Definition start_for_crop (n : Z) : Z := n / 2.
Definition stop_for_crop (n : Z) : Z := if n mod 2 =? 1 then n / 2 + 1 else n / 2.

(** [np.arange(start, stop, step, dtype=int)] for integers: as [range] *)
Definition arange (start stop step : Z) : list Z := range_list start stop step.

(** lines 121-133, one axis.  [step // 2.5] is a floating point floor division of a small integer: the floor
    of [2 step / 5].  [ixvecs[-1]] raises IndexError for an empty array. *)
Definition axis_vecs (len scim step : Z) : result (list Z) :=
  let vec_max := len - stop_for_crop scim in
  let vecs := arange (start_for_crop scim) vec_max step in
  do last <- py_get vecs (-1) ;
  Ok (if (2 * step) / 5 <? vec_max - last then vecs ++ [vec_max] else vecs).

(** _prepare_with_image (lines 108-141).  [rnd]: the integers [int(np.round(overlap * scim))] for the two axes
    (any integers).  Result: [ixvecs, iyvecs, ixvecs_grid, iyvecs_grid]; [np.meshgrid(ixvecs, iyvecs)] then
    [flatten] (C order): x varies first. *)
Definition prepare_with_image (imshape scim rnd : Z * Z) : result (list Z * list Z * list Z * list Z) :=
  let '(len_y, len_x) := imshape in
  let stepy := fst scim - fst rnd in
  let stepx := snd scim - snd rnd in
  if negb (1 <=? stepy) then Err AssertionError
  else if negb (1 <=? stepx) then Err AssertionError
  else
    do ixvecs <- axis_vecs len_x (snd scim) stepx ;
    do iyvecs <- axis_vecs len_y (fst scim) stepy ;
    Ok (ixvecs, iyvecs,
        flat_map (fun y => ixvecs) iyvecs,
        flat_map (fun y => map (fun x => y) ixvecs) iyvecs).

(** _pad_images (lines 196-208), one image.  [im.min()] of an empty image raises ValueError. *)
Definition im_min (im : img) : result Z :=
  match List.concat im with [] => Err ValueError | z :: l => Ok (fold_left Z.min l z) end.
Definition npad_of (scim : Z * Z) : Z :=
  Z.max (Z.max (start_for_crop (fst scim)) (start_for_crop (snd scim)))
        (Z.max (stop_for_crop (fst scim)) (stop_for_crop (snd scim))).
Definition im_width (im : img) : Z := match im with [] => 0 | r :: _ => zlen r end.
Definition pad_image (npad : Z) (im : img) : result img :=
  do m <- im_min im ;
  let zeros := py_repeat 0 npad in
  let zero_row := py_repeat 0 (im_width im + 2 * npad) in
  Ok (py_repeat zero_row npad ++ map (fun r => zeros ++ map (fun p => p - m) r ++ zeros) im ++ py_repeat zero_row npad).

(** _crop_im0 (391-398) with [scim = shape_crop_im0], _crop_im1 (400-407) with [scim = shape_crop_im1] *)
Definition crop (scim : Z * Z) (ixvec iyvec : Z) (im : img) : img :=
  map (fun r => py_slice r (ixvec - start_for_crop (snd scim)) (ixvec + stop_for_crop (snd scim)))
      (py_slice im (iyvec - start_for_crop (fst scim)) (iyvec + stop_for_crop (fst scim))).

(** [im0crop.shape != self.shape_crop_im0] (line 291), for shapes with at least one row *)
Definition has_shape (scim : Z * Z) (im : img) : bool :=
  (zlen im =? fst scim) && forallb (fun r => zlen r =? snd scim) im.

(** positions of the windows in the first pass (lines 248-260): centres in the two padded images *)
Definition positions_first (npad gx gy : Z) : (Z * Z) * (Z * Z) :=
  ((gx + npad, gy + npad), (gx + npad, gy + npad)).

(** positions in the next passes (lines 822-870), for one vector: (ixs0, iys0), (ixs1, iys1) in the images,
    before the addition of npad (865-868).  [dx, dy]: the integer displacements [deltaxs_input, deltays_input].
    [xs, ys] are the middles of the two centres (862-863): the model gives twice these values. *)
Definition outside (imshape : Z * Z) (ix iy : Z) : bool :=
  (snd imshape <? ix) || (fst imshape <? iy) || (ix <? 0) || (iy <? 0).
Definition displaced (imshape : Z * Z) (gx gy dx dy : Z) : (Z * Z) * (Z * Z) :=
  let ix0 := gx - dx / 2 in
  let iy0 := gy - dy / 2 in
  let ix1 := ix0 + dx in
  let iy1 := iy0 + dy in
  if outside imshape ix1 iy1 then ((gx - dx, gy - dy), (gx, gy))
  else if outside imshape ix0 iy0 then ((gx, gy), (gx + dx, gy + dy))
  else ((ix0, iy0), (ix1, iy1)).
Definition positions_displaced (imshape : Z * Z) (npad gx gy dx dy : Z) : ((Z * Z) * (Z * Z)) * (Z * Z) :=
  let '((ix0, iy0), (ix1, iy1)) := displaced imshape gx gy dx dy in
  (((ix0 + npad, iy0 + npad), (ix1 + npad, iy1 + npad)), (ix0 + ix1, iy0 + iy1)).

(** *** _loop_vectors (lines 262-361) *)
Section Loop.
Context {F C M : Type}.           (* floats, correlations with norms, texts of errors *)
Variable nan : F.
Variable bad_shape : M.
Variable correl : img -> img -> C.
(** compute_displacements_from_correl: displacements and maximum, or a PIVError with explanation and results *)
Variable compute : C -> (F * F * F) + (M * (F * F * F)).
(** apply_subpix *)
Variable subpix : F -> F -> C -> (F * F) + M.
Variable has_to_apply_subpix : bool.
Variables scim0 scim1 : Z * Z.

Record loop_st := mk_loop { l_dx : list F; l_dy : list F; l_max : list F; l_err : list (Z * M) }.

Definition loop_body (im0pad im1pad : img) (pos : list ((Z * Z) * (Z * Z))) (s : loop_st) (ivec : Z) : result loop_st :=
  do p <- py_get pos ivec ;
  let '((ix0, iy0), (ix1, iy1)) := p in
  let im0crop := crop scim0 ix0 iy0 im0pad in
  let im1crop := crop scim1 ix1 iy1 im1pad in
  let set (dx dy m : F) (err : option M) : result loop_st :=
    do a <- py_update (l_dx s) ivec (fun _ => dx) ;
    do b <- py_update (l_dy s) ivec (fun _ => dy) ;
    do c <- py_update (l_max s) ivec (fun _ => m) ;
    Ok (mk_loop a b c (match err with None => l_err s | Some e => l_err s ++ [(ivec, e)] end)) in
  if negb (has_shape scim0 im0crop && has_shape scim1 im1crop) then set nan nan nan (Some bad_shape)
  else
    let c := correl im0crop im1crop in
    match compute c with
    | inr (e, (dx, dy, m)) => set dx dy m (Some e)
    | inl (dx, dy, m) =>
      if has_to_apply_subpix then
        match subpix dx dy c with
        | inl (dx', dy') => set dx' dy' m None
        | inr e => set dx dy m (Some e)
        end
      else set dx dy m None
    end.

(** [np.empty]: any initial content [junk]. *)
Definition loop_vectors (junk : F) (im0pad im1pad : img) (pos : list ((Z * Z) * (Z * Z))) : result loop_st :=
  let nb_vec := zlen pos in
  py_for (loop_body im0pad im1pad pos) (range0 nb_vec)
    (mk_loop (py_repeat junk nb_vec) (py_repeat junk nb_vec) (py_repeat junk nb_vec) []).
End Loop.
Arguments loop_st F M : clear implicits.

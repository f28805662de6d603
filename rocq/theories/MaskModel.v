(** Masking of the images: parsing of the crop, cropping of the arrays of a couple,
    conversions between the positions in the cropped image and in the original image.

    Simplifications: positions are integers (the code converts arrays of ints or floats,
    elementwise, by the same additions); an image is a list of lines, a line a list of
    pixels. *)
From Verif Require Import PyBase StrModel.

(** a Python [slice] object: start, stop, step *)
Record slice := mk_slice { s_start : option Z; s_stop : option Z; s_step : option Z }.

(** data_objects/piv.py:73: [int(i) if i else None] *)
Definition slice_field (i : chars) : result (option Z) :=
  match i with
  | [] => Ok None
  | _ => do n <- py_int i ; Ok (Some n)
  end.

(** the constructor [slice( *args )] of CPython: one argument is the stop; [TypeError] with
    more than three arguments ([split] never gives zero argument) *)
Definition make_slice (args : list (option Z)) : result slice :=
  match args with
  | [b] => Ok (mk_slice None b None)
  | [a; b] => Ok (mk_slice a b None)
  | [a; b; c] => Ok (mk_slice a b c)
  | _ => Err TypeError
  end.

(** data_objects/piv.py:71-75, [get_slices_from_strcrop] *)
Definition get_slices (strcrop : chars) : result (list slice) :=
  map_result (fun part =>
      do args <- map_result slice_field (split_on ":"%char (strip part)) ;
      make_slice args)
    (split_on comma strcrop).

(** CPython [slice.indices(n)] followed by [range]: the indices selected along an axis of
    length n (numpy basic slicing); [ValueError] for a step equal to zero *)
Definition clip_bound (n lower upper i : Z) : Z :=
  if i <? 0 then Z.max (i + n) lower else Z.min i upper.
Definition slice_range (n : Z) (s : slice) : result (list Z) :=
  let step := match s_step s with Some k => k | None => 1 end in
  if step =? 0 then Err ValueError
  else
    let lower := if step <? 0 then -1 else 0 in
    let upper := if step <? 0 then n - 1 else n in
    let start := match s_start s with
                 | Some i => clip_bound n lower upper i
                 | None => if step <? 0 then upper else lower
                 end in
    let stop := match s_stop s with
                | Some i => clip_bound n lower upper i
                | None => if step <? 0 then lower else upper
                end in
    Ok (range_list start stop step).

(** [axis[s]] for one axis *)
Definition take_slice {A} (s : slice) (l : list A) : result (list A) :=
  do inds <- slice_range (zlen l) s ;
  map_result (py_get l) inds.

Definition image (A : Type) := list (list A).

(** [array[indices]] for a 2d array and a tuple of slices; [IndexError] "too many indices" *)
Definition crop {A} (slices : list slice) (im : image A) : result (image A) :=
  match slices with
  | [] => Ok im
  | [s0] => take_slice s0 im
  | [s0; s1] => do lines <- take_slice s0 im ; map_result (take_slice s1) lines
  | _ => Err IndexError
  end.

(** data_objects/piv.py:150-157, [_mask_array]; the parameters [mask] have the attribute
    [strcrop] only (works/with_mask.py:37) *)
Record mask := mk_mask { strcrop : option chars }.
Definition mask_array {A} (m : option mask) (im : image A) : result (image A) :=
  match m with
  | None => Ok im
  | Some m =>
    match strcrop m with
    | None => Ok im
    | Some s => do slices <- get_slices s ; crop slices im
    end
  end.

(** A couple: [params_mask], [shape_images] and [arrays]. *)
Record couple (A : Type) := mk_couple {
  params_mask : option mask;
  shape_images : Z * Z;
  arrays : list (image A)
}.
Arguments mk_couple {A}. Arguments params_mask {A}. Arguments shape_images {A}.
Arguments arrays {A}.

Definition shape {A} (im : image A) : Z * Z :=
  (zlen im, match im with l :: _ => zlen l | [] => 0 end).

(** data_objects/piv.py:80-125, [ArrayCouple.__init__] with [arrays] (the reading of the
    images from the paths is not modelled) *)
Definition make_couple {A} (m : option mask) (a b : image A) : result (couple A) :=
  do l <- map_result (mask_array m) [a; b] ;
  Ok (mk_couple m (shape a) l).

(** [params_mask == self.params_mask]: equality of the parameters *)
Definition chars_eqb (a b : chars) : bool :=
  if list_eq_dec Ascii.ascii_dec a b then true else false.
Definition mask_eqb (a b : mask) : bool :=
  match strcrop a, strcrop b with
  | None, None => true
  | Some s, Some t => chars_eqb s t
  | _, _ => false
  end.

(** data_objects/piv.py:137-148, [apply_mask].  When the masking itself raises, the attribute
    [params_mask] has already been set (line 147): the couple left by the call is the second
    component. *)
Definition apply_mask {A} (c : couple A) (m : option mask) : result unit * couple A :=
  match params_mask c, m with
  | Some _, None => (Err NotImplementedError, c)
  | Some m0, Some m1 =>
    if mask_eqb m1 m0 then (Ok tt, c) else (Err NotImplementedError, c)
  | None, _ =>
    match map_result (mask_array m) (arrays c) with
    | Ok l => (Ok tt, mk_couple m (shape_images c) l)
    | Err e => (Err e, mk_couple m (shape_images c) (arrays c))
    end
  end.

(** works/with_mask.py:17-32; [slices[1]] is evaluated first *)
Definition starts (m : mask) : result (option (option Z * option Z)) :=
  match strcrop m with
  | None => Ok None
  | Some s =>
    do slices <- get_slices s ;
    do s1 <- py_get slices 1 ;
    do s0 <- py_get slices 0 ;
    Ok (Some (s_start s1, s_start s0))
  end.
Definition masked_from_original (m : mask) (xy : Z * Z) : result (Z * Z) :=
  let '(xs, ys) := xy in
  do st <- starts m ;
  match st with
  | None => Ok (xs, ys)
  | Some (start1, start0) =>
    let xs := match start1 with Some a => xs - a | None => xs end in
    let ys := match start0 with Some a => ys - a | None => ys end in
    Ok (xs, ys)
  end.
Definition original_from_masked (m : mask) (xy : Z * Z) : result (Z * Z) :=
  let '(xs, ys) := xy in
  do st <- starts m ;
  match st with
  | None => Ok (xs, ys)
  | Some (start1, start0) =>
    let xs := match start1 with Some a => xs + a | None => xs end in
    let ys := match start0 with Some a => ys + a | None => ys end in
    Ok (xs, ys)
  end.

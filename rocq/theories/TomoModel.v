(** Tomography (data_objects/tomo.py, reconstruct/tomo/mlos.py) and the points of the
    calibration target (calibration/calib_cv.py). *)
From Coq Require Import ZArith List Bool String.
From Verif Require Import PyBase StrModel.
Import ListNotations.
Local Open Scope Z_scope.

(** cv2.error *)
Definition CvError : exn := UserError 61.

Section Tomo.
(** the type of the coordinates, with the equality of numbers *)
Variable T : Type.
Variable eqb : T -> T -> bool.

(** *** ArrayTomoBase, tomo.py:69-72: the attributes set from the limits, in this order *)
Definition set_attr (k : string) (v : T) (attrs : list (string * T)) : list (string * T) :=
  (k, v) :: filter (fun kv => negb (String.eqb (fst kv) k)) attrs.
Definition tomo_limits (xlims ylims zlims : T * T) : list (string * T) :=
  let a := set_attr "xmax" (snd xlims) (set_attr "xmin" (fst xlims) []) in
  let a := set_attr "ymax" (snd ylims) (set_attr "ymin" (fst ylims) a) in
  set_attr "zmax" (snd zlims) (set_attr "ymin" (fst zlims) a).
(** [getattr(array, k)] *)
Definition get_attr (k : string) (attrs : list (string * T)) : result T :=
  match find (fun kv => String.eqb (fst kv) k) attrs with Some kv => Ok (snd kv) | None => Err AttributeError end.

(** *** ArrayTomoCV, tomo.py:282-294: the lines (x, y, z) of [grid], in the order of
    [meshgrid(zs, ys, xs, indexing="ij")] flattened *)
Definition tomo_grid (xs ys zs : list T) : list (T * T * T) :=
  flat_map (fun z => flat_map (fun y => map (fun x => (x, y, z)) xs) ys) zs.

Variable P : Type.                       (* a pixel *)
(** [cv2.projectPoints] for one point, with the rotation and translation of the slice z *)
Variable project : T -> T * T * T -> P.

(** [pix[a:b] = vs] on the first axis, with numpy's check of the sizes ([pix] is not initialised: None) *)
Definition assign_slice (pix : list (option P)) (a b : Z) (vs : list P) : result (list (option P)) :=
  let target := py_slice pix a b in
  if (zlen target =? zlen vs) || (zlen vs =? 1) then
    Ok (firstn (Z.to_nat a) pix ++
        (if zlen target =? zlen vs then map Some vs else map (fun _ => hd_error vs) target) ++
        skipn (Z.to_nat a + List.length target) pix)
  else Err ValueError.

(** mlos.py:167-187 *)
Definition phys2pix (grid3d : list (T * T * T)) (zs : list T) : result (list (option P)) :=
  py_for (fun pix iz =>
    let '(i, z) := iz in
    let grid_zslice := filter (fun g => eqb (snd g) z) grid3d in
    let n := zlen grid_zslice in
    let istart := i * n in
    let iend := (i + 1) * n in
    if n =? 0 then Err CvError else
    assign_slice pix istart iend (map (project z) grid_zslice))
  (combine (range0 (zlen zs)) zs) (map (fun _ => None) grid3d).
End Tomo.

(** *** plot_slices, tomo.py:246-261: the images of the slices for flat intensities,
    [I.reshape((nx, ny, nz))[:, :, k]], as a list of lines of a list of values *)
Definition reshape3 {A} (nx ny nz : nat) (l : list A) : list (list (list A)) :=
  map (fun a => map (fun b => firstn nz (skipn ((a * ny + b) * nz) l)) (seq 0 ny)) (seq 0 nx).
Definition plot_slice {A} (nx ny nz : nat) (vox : list A) (k : nat) : list (list (option A)) :=
  map (map (fun line => nth_error line k)) (reshape3 nx ny nz vox).

(** *** TomoMLOSBase.reconstruct, mlos.py:65-98 *)
Section Mlos.
Variable V : Type.                       (* an intensity *)
Variable mul : V -> V -> V.
Variable one : V.
(** [v ** (1.0 / len(self.cams))] *)
Variable root : V -> V.

(** the intensities in memory and the file; a call of reconstruct has the intensities of the
    image interpolated at the pixels of the voxels ([map_blocks(interp, x_pix, y_pix)]) *)
Record mlos := { mem : list V; file : option (list V) }.

(** the product of two arrays of the same size *)
Definition times (a b : list V) : result (list V) :=
  if zlen a =? zlen b then Ok (map (fun ab => mul (fst ab) (snd ab)) (combine a b)) else Err ValueError.

(** mlos.py:83-98; the lazy array in memory is represented by its value *)
Definition reconstruct (save : bool) (s : mlos) (interpolated : list V) : result mlos :=
  let i_vox := map root interpolated in
  if save then
    match file s with
    | Some dset => do prod <- times dset i_vox ; Ok {| mem := prod; file := Some prod |}
    | None => Ok {| mem := i_vox; file := Some i_vox |}
    end
  else do prod <- times (mem s) i_vox ; Ok {| mem := prod; file := file s |}.

(** the intensities of a new array (tomo.py:296-297) *)
Definition new_array (n : nat) : list V := repeat one n.

(** one call for each camera *)
Definition reconstruct_all (save : bool) (s : mlos) (cams : list (list V)) : result mlos := py_for (reconstruct save) cams s.
End Mlos.
Arguments mem {V}. Arguments file {V}. Arguments Build_mlos {V}.

(** *** calib_cv.py *)

(** calib_cv.py:159-186: the object points, as multiples of ds (the third coordinate is z).
    [np.mgrid[-ny:ny:stepy, -nx:nx:stepx].T.reshape(-1, 2)] is the list of the (first, second)
    coordinates of mgrid, the first axis of mgrid (with the values -ny, ..., ny) varying
    the fastest after the transposition.  For an odd number of points 2 m + 1 between -m and
    m the step is exactly 1. *)
Definition construct_object_points (nx ny : Z) : result (list (Z * Z)) :=
  if negb (nx mod 2 =? 1) then Err AssertionError else
  if negb (ny mod 2 =? 1) then Err AssertionError else
  let hx := (nx - 1) / 2 in
  let hy := (ny - 1) / 2 in
  Ok (flat_map (fun x => map (fun y => (y, x)) (range_list (- hy) (hy + 1) 1)) (range_list (- hx) (hx + 1) 1)).

(** calib_cv.py:136-156, the order of the image points: sorted by line (y), then by column
    (x).  [centers] are the (x, y) of the circles in multiples of ds (the rounded values). *)
Definition lex_le (a b : Z * Z) : bool := (snd a <? snd b) || ((snd a =? snd b) && (fst a <=? fst b)).
Fixpoint lex_insert (a : Z * Z) (l : list (Z * Z)) : list (Z * Z) :=
  match l with [] => [a] | b :: l' => if lex_le a b then a :: l else b :: lex_insert a l' end.
Definition lex_sort (l : list (Z * Z)) : list (Z * Z) := fold_right lex_insert [] l.
Definition order_image_points (nx ny : Z) (centers : list (Z * Z)) : result (list (Z * Z)) :=
  if zlen centers =? nx * ny then Ok (lex_sort centers) else Err AssertionError.

(** The intensity seen by a camera in the reconstruction of a volume (reconstruct/tomo/mlos.py:
    TomoMLOSNeighbour.get_interpolator, the blocks of TomoMLOSBase.reconstruct and the size of the
    blocks chosen by TomoMLOSCV.reconstruct).

    Real arithmetic.  Not modelled: the reading of the image, the calibration (the pixels of the
    voxels are given, see TomoModel.phys2pix), the class TomoMLOSRbf. *)
From Coq Require Import Reals Lra ZArith List.
From Verif Require Import PyBase.
Import ListNotations.
Local Open Scope R_scope.

(** an image: its rows *)
Definition image := list (list R).

Definition is_zero (v : R) : bool := if Req_EM_T v 0 then true else false.
Definition below (v t : R) : bool := if Rlt_dec v t then true else false.

(** mlos.py:151-152, [if threshold is not None: im[im < threshold] = 0.0] *)
Definition apply_threshold (threshold : option R) (im : image) : image :=
  match threshold with
  | None => im
  | Some t => map (map (fun v => if below v t then 0 else v)) im
  end.

(** one element of a sparse matrix: the column, the row and the value *)
Record entry := { e_col : nat; e_row : nat; e_data : R }.

(** [enumerate(l)] *)
Definition enumerate {A} (l : list A) : list (nat * A) := combine (seq 0 (List.length l)) l.

(** mlos.py:153, [sparse.coo_matrix(im)]: the elements which are not zero, row by row *)
Definition coo_matrix (im : image) : list entry :=
  flat_map (fun rl =>
    flat_map (fun cv => if is_zero (snd cv) then [] else [{| e_col := fst cv; e_row := fst rl; e_data := snd cv |}])
      (enumerate (snd rl)))
    (enumerate im).

(** the square of the distance from the point (x, y) to an element, of which the coordinates are
    (col, row): mlos.py:157 *)
Definition dist2 (x y : R) (e : entry) : R :=
  (x - INR (e_col e)) * (x - INR (e_col e)) + (y - INR (e_row e)) * (y - INR (e_row e)).

(** mlos.py:156-158, the call of a [NearestNDInterpolator] at one point: the value of one of the
    nearest elements (which one when several elements are at the same distance depends on the tree
    built by scipy).  [None]: nan, when there is no element (scipy >= 1.12). *)
Inductive nearest (x y : R) (es : list entry) : option R -> Prop :=
| nearest_some e : In e es -> (forall e', In e' es -> dist2 x y e <= dist2 x y e') -> nearest x y es (Some (e_data e))
| nearest_nan : es = [] -> nearest x y es None.

(** mlos.py:148-158: get_interpolator(image, threshold), called at one point *)
Definition interpolated (im : image) (threshold : option R) (x y : R) (v : option R) : Prop :=
  nearest x y (coo_matrix (apply_threshold threshold im)) v.

(** [i_vox ** (1.0 / len(self.cams))], mlos.py:86, for an intensity which is not negative *)
Definition root (nb_cams : nat) (v : R) : R := if is_zero v then 0 else Rpower v (1 / INR nb_cams).

(** ** The blocks *)
Section Blocks.
Context {A B : Type}.

(** [da.from_array(l, chunks=n)] for a positive [n]: blocks of [n] elements and the rest *)
Fixpoint cut_blocks (fuel n : nat) (l : list A) : list (list A) :=
  match fuel with
  | O => []
  | S fuel => match l with [] => [] | _ :: _ => firstn n l :: cut_blocks fuel n (skipn n l) end
  end.
(** dask divides the size by the size of the blocks, unless the array is empty *)
Definition from_array (n : Z) (l : list A) : result (list (list A)) :=
  match l with
  | [] => Ok [[]]
  | _ :: _ => if (n =? 0)%Z then Err ZeroDivisionError else Ok (cut_blocks (List.length l) (Z.to_nat n) l)
  end.
(** mlos.py:83-85, [da.map_blocks(interp, x_pix, y_pix)], [interp] acting on each element (here a
    pixel with its two coordinates) *)
Definition map_blocks (interp : A -> B) (n : Z) (l : list A) : result (list B) :=
  do blocks <- from_array n l ; Ok (List.concat (map (map interp) blocks)).
End Blocks.

(** mlos.py:200-205 with [chunks=None]; [nmax]: _estimate_max_array_size // 6 *)
Definition default_chunks (nb_voxels cpu_count nmax : Z) : Z :=
  let chunks := (nb_voxels / cpu_count)%Z in
  if (chunks >? nmax)%Z then nmax else chunks.

(** Model of calcul/correl.py: search of the maximum of a correlation, second chance, other peaks, conversions
    between indices and displacements, search window for the FFT classes, [_like_fftshift].

    A correlation of shape (n0, n1) is the flat list of its values in C order; a value is [None] (NaN) or [Some v]
    with [v] in a type with a boolean order [leb] (the finite floats). *)
From Verif Require Import PyBase.
Local Open Scope Z_scope.

Section Peak.
Context {T : Type}.
Variable leb : T -> T -> bool.
(** [correl[iy, ix] / norm] and the constant 0. *)
Variable div : T -> T -> T.
Variable zero : T.

Definition arr2 : Type := list (option T).

(** [correl[i0, i1]] for indices which are not negative *)
Definition get2 (n0 n1 : Z) (c : arr2) (i0 i1 : Z) : result (option T) :=
  if (0 <=? i0) && (i0 <? n0) && (0 <=? i1) && (i1 <? n1) then
    match nth_error c (Z.to_nat (i0 * n1 + i1)) with Some v => Ok v | None => Err IndexError end
  else Err IndexError.

Inductive message := NoMessage | TouchBoundary | TouchNan.

(** lines 99-106: first value which is not NaN, from the first point of the window to the end of the array *)
Fixpoint first_non_nan (l : arr2) : option T :=
  match l with
  | [] => None
  | None :: l' => first_non_nan l'
  | Some v :: _ => Some v
  end.

(** lines 113-121.  State: correl_max, i0_max, i1_max. *)
Definition scan_body (n0 n1 : Z) (c : arr2) (st : T * Z * Z) (i : Z * Z) : result (T * Z * Z) :=
  let '(cmax, j0, j1) := st in
  let '(i0, i1) := i in
  do value <- get2 n0 n1 c i0 i1 ;
  match value with
  | None => Ok st
  | Some v => if leb cmax v then Ok (v, i0, i1) else Ok st
  end.

Definition window (i0_start i0_stop i1_start i1_stop : Z) : list (Z * Z) :=
  flat_map (fun i0 => map (fun i1 => (i0, i1)) (range_list i1_start i1_stop 1)) (range_list i0_start i0_stop 1).

(** _is_there_a_nan (80-85) of the 3 x 3 block centred at (i0, i1), inside the array *)
Definition nan_around (n0 n1 : Z) (c : arr2) (i0 i1 : Z) : result bool :=
  py_for (fun b i => do v <- get2 n0 n1 c (fst i) (snd i) ; Ok (b || match v with None => true | _ => false end))
         (window (i0 - 1) (i0 + 2) (i1 - 1) (i1 + 2)) false.

(** nan_indices_max (lines 88-132) *)
Definition nan_indices_max (n0 n1 : Z) (c : arr2) (i0_start i0_stop i1_start i1_stop : Z)
  : result (Z * Z * message) :=
  match first_non_nan (skipn (Z.to_nat (i0_start * n1 + i1_start)) c) with
  | None => Err AssertionError
  | Some cmax =>
    do st <- py_for (scan_body n0 n1 c) (window i0_start i0_stop i1_start i1_stop) (cmax, 0, 0) ;
    let '(_, i0, i1) := st in
    if (i0 =? 0) || (i0 =? n0 - 1) || (i1 =? 0) || (i1 =? n1 - 1) then Ok (i0, i1, TouchBoundary)
    else
      do b <- nan_around n0 n1 c i0 i1 ;
      Ok (i0, i1, if b then TouchNan else NoMessage)
  end.

(** outcome of a search: indices and value, or a PIVError with these results, or another exception *)
Inductive search := Found (ix iy : Z) (m : option T) | PivErr (msg : message) (ix iy : Z) (m : option T)
                  | Failed (e : exn).

(** attributes start_stop_for_search0, start_stop_for_search1 (None: the shape) *)
Definition search_win : Type := (Z * option Z) * (Z * option Z).

(** _compute_indices_max (lines 135-164).  [norm]: None when it is equal to zero.  When [i0_stop] is None the
    two stops are given by the shape. *)
Definition compute_indices_max (n0 n1 : Z) (c : arr2) (norm : option T) (w : search_win) : search :=
  let '((i0_start, o0), (i1_start, o1)) := w in
  let '(i0_stop, i1_stop) := match o0 with
                             | None => (n0, n1)
                             | Some s => (s, match o1 with Some s1 => s1 | None => n1 end)
                             end in
  match nan_indices_max n0 n1 c i0_start i0_stop i1_start i1_stop with
  | Err e => Failed e
  | Ok (iy, ix, msg) =>
    let correl_max := match norm with
                      | None => Ok (Some zero)
                      | Some n => do v <- get2 n0 n1 c iy ix ; Ok (option_map (fun v => div v n) v)
                      end in
    match correl_max with
    | Err e => Failed e
    | Ok m => match msg with NoMessage => Found ix iy m | _ => PivErr msg ix iy m end
    end
  end.

(** [correl[iy - r : iy + r + 1, ix - r : ix + r + 1] = np.nan]: slices with negative bounds count from the end *)
Definition in_slice (n a b i : Z) : bool := (norm_bound n a <=? i) && (i <? norm_bound n b).
Definition mask_around (n0 n1 : Z) (r : Z) (ix iy : Z) (c : arr2) : arr2 :=
  map (fun '(k, v) =>
         let i0 := Z.of_nat k / n1 in
         let i1 := Z.of_nat k mod n1 in
         if in_slice n0 (iy - r) (iy + r + 1) i0 && in_slice n1 (ix - r) (ix + r + 1) i1 then None else v)
      (combine (seq 0 (List.length c)) c).

(** outcome of compute_displacements_from_correl: displacement, maximum, other peaks (None if only one peak is
    searched) or a PIVError with its results, or another exception *)
Inductive displ := Displ (dx dy : Z) (m : option T) (others : option (list (Z * Z * option T)))
                 | DPivErr (msg : message) (dx dy : Z) (m : option T) | DFailed (e : exn).

(** compute_displacement_from_indices (209-211), compute_indices_from_displacement (213-215),
    get_indices_no_displacement (217-219); [(ix0, iy0)]: attributes *)
Definition displacement_from_indices (ix0 iy0 ix iy : Z) : Z * Z := (ix0 - ix, iy0 - iy).
Definition indices_from_displacement (ix0 iy0 dx dy : Z) : Z * Z := (ix0 - dx, iy0 - dy).
Definition indices_no_displacement (ix0 iy0 : Z) : Z * Z := (iy0, ix0).

(** lines 255-270: search of the other peaks; any exception but PIVError escapes *)
Fixpoint other_peaks (fuel : nat) (n0 n1 r ix0 iy0 : Z) (norm : option T) (w : search_win)
         (c : arr2) (ix iy : Z) (acc : list (Z * Z * option T)) : result (list (Z * Z * option T)) :=
  match fuel with
  | O => Ok acc
  | S fuel' =>
    let c := mask_around n0 n1 r ix iy c in
    match compute_indices_max n0 n1 c norm w with
    | Failed e => Err e
    | PivErr _ _ _ _ => Ok acc
    | Found ix iy m =>
      let '(dx, dy) := displacement_from_indices ix0 iy0 ix iy in
      other_peaks fuel' n0 n1 r ix0 iy0 norm w c ix iy (acc ++ [(dx, dy, m)])
    end
  end.

(** CorrelBase.compute_displacements_from_correl (lines 226-275) *)
Definition compute_displacements (n0 n1 r ix0 iy0 : Z) (w : search_win) (nb_peaks : Z) (c : arr2) (norm : option T) : displ :=
  let finish (c : arr2) (ix iy : Z) (m : option T) : displ :=
    let '(dx, dy) := displacement_from_indices ix0 iy0 ix iy in
    if nb_peaks =? 1 then Displ dx dy m None
    else if 1 <=? nb_peaks then
      match other_peaks (Z.to_nat (nb_peaks - 1)) n0 n1 r ix0 iy0 norm w c ix iy [] with
      | Ok l => Displ dx dy m (Some l)
      | Err e => DFailed e
      end
    else DFailed ValueError in
  match compute_indices_max n0 n1 c norm w with
  | Failed e => DFailed e
  | Found ix iy m => finish c ix iy m
  | PivErr _ ix iy m =>
    let c2 := mask_around n0 n1 r ix iy c in
    match compute_indices_max n0 n1 c2 norm w with
    | Failed e => DFailed e
    | PivErr msg _ _ _ =>
      let '(dx, dy) := displacement_from_indices ix0 iy0 ix iy in DPivErr msg dx dy m
    | Found ix2 iy2 m2 => finish c2 ix2 iy2 m2
    end
  end.

(** CorrelBase.__init__ (189): attributes iy0, ix0 of the FFT classes *)
Definition fft_origin (n : Z) : Z := n / 2 - 1.

(** CorrelFFTBase._finalize_init (518-547).  [sqrt(dx**2 + dy**2) > displacement_max] for a non negative
    displacement_max is [dx^2 + dy^2 > d2], [d2] the integer part of its square. *)
Definition is_large (n0 n1 d2 i0 i1 : Z) : bool :=
  let '(dx, dy) := displacement_from_indices (fft_origin n1) (fft_origin n0) i1 i0 in
  d2 <? dx * dx + dy * dy.
Definition large_row (n0 n1 d2 i0 : Z) : bool := forallb (fun i1 => is_large n0 n1 d2 i0 i1) (range0 n1).
Definition large_col (n0 n1 d2 i1 : Z) : bool := forallb (fun i0 => is_large n0 n1 d2 i0 i1) (range0 n0).
(** [for i in l: if not all(...): break]: the value of the loop variable after the loop (None: no iteration, the
    variable is not defined) *)
Fixpoint loop_break (all : Z -> bool) (l : list Z) : option Z :=
  match l with
  | [] => None
  | [i] => Some i
  | i :: l' => if negb (all i) then Some i else loop_break all l'
  end.
Definition search_window (n0 n1 d2 : Z) : result search_win :=
  match loop_break (large_row n0 n1 d2) (range0 n0), loop_break (large_col n0 n1 d2) (range0 n1),
        loop_break (large_row n0 n1 d2) (rev (range0 n0)), loop_break (large_col n0 n1 d2) (rev (range0 n1)) with
  | Some a0, Some a1, Some b0, Some b1 => Ok ((a0, Some (b0 + 1)), (a1, Some (b1 + 1)))
  | _, _, _, _ => Err UnboundLocalError
  end.

(** CorrelFFTBase.compute_displacements_from_correl (561-568), masking *)
Definition mask_large (n0 n1 d2 : Z) (c : arr2) : arr2 :=
  map (fun '(k, v) => if is_large n0 n1 d2 (Z.of_nat k / n1) (Z.of_nat k mod n1) then None else v)
      (combine (seq 0 (List.length c)) c).
End Peak.
Arguments arr2 T : clear implicits.

(** *** _like_fftshift (lines 596-636)

    A 2D array of shape (n0, n1) in C order is a function of the flat index; an assignment updates the function;
    [np.empty_like]: any function [junk]. *)
Section Shift.
Context {A : Type}.
Definition farr : Type := nat -> A.
Definition fset (f : farr) (w : nat * A) : farr := fun j => if Nat.eqb j (fst w) then snd w else f j.
Definition writes (l : list (nat * A)) (f : farr) : farr := fold_left fset l f.

Local Open Scope nat_scope.
(** line 605 *)
Definition flip2 (n0 n1 : nat) (arr : farr) : farr :=
  fun k => arr ((n0 - 1 - k / n1) * n1 + (n1 - 1 - k mod n1)).

(** lines 608-619 *)
Definition shift_cols (n0 n1 : nat) (junk arr : farr) : farr :=
  if Nat.eqb (n1 mod 2) 0 then
    writes (flat_map (fun i0 => flat_map (fun i1 =>
      [(i0 * n1 + (n1 / 2 + i1), arr (i0 * n1 + i1)); (i0 * n1 + i1, arr (i0 * n1 + (n1 / 2 + i1)))])
      (seq 0 (n1 / 2))) (seq 0 n0)) junk
  else
    writes (flat_map (fun i0 =>
      map (fun i1 => (i0 * n1 + (n1 / 2 + i1), arr (i0 * n1 + i1))) (seq 0 (n1 / 2 + 1)) ++
      map (fun i1 => (i0 * n1 + i1, arr (i0 * n1 + (n1 / 2 + 1 + i1)))) (seq 0 (n1 / 2))) (seq 0 n0)) junk.

(** lines 621-635 *)
Definition shift_rows (n0 n1 : nat) (arr tmp : farr) : farr :=
  if Nat.eqb (n0 mod 2) 0 then
    let n_half := (n0 / 2) * n1 in
    writes (flat_map (fun idx => [(idx + n_half, tmp idx); (idx, tmp (idx + n_half))]) (seq 0 n_half)) arr
  else
    let n_half_a := (n0 / 2 + 1) * n1 in
    let n_half_b := (n0 / 2) * n1 in
    writes (map (fun idx => (idx + n_half_b, tmp idx)) (seq 0 n_half_a) ++
            map (fun idx => (idx, tmp (idx + n_half_a))) (seq 0 n_half_b)) arr.

Definition like_fftshift (n0 n1 : nat) (junk arr : farr) : farr :=
  let arr := flip2 n0 n1 arr in
  let tmp := shift_cols n0 n1 junk arr in
  shift_rows n0 n1 arr tmp.
End Shift.

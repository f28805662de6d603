(** Model of the wave vector of the pattern, of the gain and of the filter of the surface tracking
    (works/surface_tracking.py: wave_vector, set_gain_filter, rectify_frame).

    Frames are functions of two indices (line, column) with real values, as in FourierModel; floating point
    arithmetic is replaced by real arithmetic and the Fourier transforms are given by their definition.  Sizes are
    natural numbers (ymax > ymin and xmax > xmin, sur a positive integer). *)
From Coq Require Import Reals ZArith List.
From Verif Require Import FourierBase FourierModel.
Local Open Scope R_scope.

(** element [i] of [np.arange(-n / 2, n / 2)] (lines 227, 281, 282, 697): it has [n] elements *)
Definition arange_half (n i : nat) : R := - (INR n / 2) + INR i.

(** element [i] of [np.arange(-n / 2, n / 2) / n] (lines 281, 282) *)
Definition wavenumber (n i : nat) : R := arange_half n i / INR n.

(** [np.fft.fftshift] rolls by n // 2: the element [k] of the result is this element of the argument *)
Definition shifted (n k : nat) : nat := ((k + (n - n / 2)) mod n)%nat.

(** [np.fft.fft2] of an array of complex numbers *)
Definition cfft2 (n0 n1 : nat) (f : cfield) : cfield := fun k0 k1 =>
  sum2 (fun x0 x1 => Cmul (f x0 x1)
                          (Cmul (w n0 (Z.of_nat k0 * - Z.of_nat x0)) (w n1 (Z.of_nat k1 * - Z.of_nat x1)))) n0 n1.

(** [np.fft.fft2(ref, shape)] with a shape not smaller than the one of ref: completed with zeros *)
Definition zero_padded (h l : nat) (ref : field) : field := fun y x =>
  if (Nat.ltb y h && Nat.ltb x l)%bool then ref y x else 0.

(** [abs] of a complex number *)
Definition Cabs (z : Cx) : R := sqrt (Cmod2 z).

(** [np.max] of the elements of a non empty column *)
Fixpoint max_upto (f : nat -> R) (n : nat) : R :=
  match n with O => f O | S m => Rmax (max_upto f m) (f (S m)) end.

(** [argmax]: the first element which is not smaller than any other one *)
Fixpoint argmax_upto (f : nat -> R) (n : nat) : nat :=
  match n with
  | O => O
  | S m => let j := argmax_upto f m in if Rlt_dec (f j) (f (S m)) then S m else j
  end.

(** ** wave_vector, lines 683-700; [h] is ymax - ymin, [l] is xmax - xmin *)
Definition wave_vector (ref : field) (h l sur : nat) : R :=
  let n0 := (h * sur)%nat in
  let n1 := (l * sur)%nat in
  let Fref := fft2 n0 n1 (zero_padded h l ref) in
  let kxma := fun i => arange_half n1 i / INR sur in
  let columns := fun j => max_upto (fun i => Cabs (Fref (shifted n0 i) (shifted n1 j))) (n0 - 1) in
  let indc := argmax_upto columns (n1 - 1) in
  Rabs (kxma indc).

(** ** set_gain_filter, lines 279-311 *)

(** line 285: [np.exp(-1.0j * 2 * np.pi * (k_x / l_x * X))], with X = kx * l_x (line 284) *)
Definition gain (k_x : R) (l_x : nat) : cfield := fun _ j =>
  let X := wavenumber l_x j * INR l_x in
  let angle := - (2 * PI * (k_x / INR l_x * X)) in
  (cos angle, sin angle).

(** lines 286-289 *)
Definition filt1 (k_x slicer l_x kx ky : R) : R :=
  exp (- ((kx ^ 2 + ky ^ 2) / 2 / (k_x / slicer / l_x) ^ 2))
  * exp (1 - 1 / (1 + ((kx + k_x) ^ 2 + ky ^ 2) / k_x ^ 2)).
(** lines 291-300 *)
Definition filt2 (k_x l_x kx ky : R) : R :=
  - exp (- (((kx + k_x / l_x) ^ 2 + ky ^ 2) / 2 / (k_x / 10 / l_x) ^ 2)) + 1.
(** lines 301-310 *)
Definition filt3 (k_x l_x kx ky : R) : R :=
  - exp (- (((kx - k_x / l_x) ^ 2 + ky ^ 2) / 2 / (k_x / 10 / l_x) ^ 2)) + 1.

(** line 311: the three arrays are shifted with [np.fft.fftshift] (lines 286, 291, 301) *)
Definition filt (k_x : R) (l_y l_x : nat) (slicer : R) : field := fun k0 k1 =>
  let kx := wavenumber l_x (shifted l_x k1) in
  let ky := wavenumber l_y (shifted l_y k0) in
  filt1 k_x slicer (INR l_x) kx ky * filt2 k_x (INR l_x) kx ky * filt3 k_x (INR l_x) kx ky.

(** ** rectify_frame, line 385 *)
Definition rectify_frame (l_y l_x : nat) (frame : field) (g : cfield) (f : field) : cfield := fun k0 k1 =>
  Cmul (cfft2 l_y l_x (fun y x => Cmul (RtoC (frame y x)) (g y x)) k0 k1) (RtoC (f k0 k1)).

(** Model of compute_1dspectrum and compute_2dspectrum (src/fluidimage/postproc/util.py).

    Real arithmetic instead of floats; the transforms of numpy are given by their
    definition. *)
From Coq Require Import Reals ZArith Lia.
From Verif Require Import FourierBase FourierModel.
Local Open Scope R_scope.

(** [np.fft.fft(signal)] for one line of [n] values *)
Definition fft1 (n : nat) (f : nat -> R) (k : nat) : Cx :=
  csum (fun x => Cmul (RtoC (f x)) (w n (Z.of_nat k * - Z.of_nat x))) n.

(** [np.fft.fftshift]: the element [i] is the element [(i - n // 2) mod n] *)
Definition fftshift {A} (n : nat) (a : nat -> A) (i : nat) : A := a ((i + (n - n / 2)) mod n)%nat.

(** [np.fft.fftfreq(n, d)]: [0, 1, ..., (n-1)//2, -(n//2), ..., -1] divided by [n * d] *)
Definition fftfreq (n : nat) (d : R) (k : nat) : R :=
  (if Nat.ltb k ((n + 1) / 2) then INR k else INR k - INR n) / (INR n * d).

(** util.py:109-121; the signal is real, with [n] values at [x[0] + j * dx] *)
Definition spectrum1_fft (n : nat) (dx : R) (signal : nat -> R) (i : nat) : Cx :=
  let Lx := INR n * dx in
  Cmul (RtoC (dx / Lx)) (fftshift n (fft1 n signal) i).
Definition spectrum1_omega (n : nat) (dx : R) (i : nat) : R := fftshift n (fftfreq n dx) i * 2 * PI.
Definition spectrum1_psd (n : nat) (dx : R) (signal : nat -> R) (i : nat) : R :=
  let Lx := INR n * dx in
  let dk := 2 * PI / Lx in
  (1 / 2) / dk * Cmod2 (spectrum1_fft n dx signal i).

(** util.py:142-183 with [axes = (0, 1)] and a signal of shape (ny, nx) *)
Definition spectrum2_fft (n0 n1 : nat) (signal : field) (i0 i1 : nat) : Cx :=
  Cmul (RtoC (1 / size n0 n1)) (fftshift n0 (fun k0 => fftshift n1 (fft2 n0 n1 signal k0) i1) i0).
Definition spectrum2_psd (n0 n1 : nat) (dx dy : R) (signal : field) (i0 i1 : nat) : R :=
  let dkx := 2 * PI / (INR n1 * dx) in
  let dky := 2 * PI / (INR n0 * dy) in
  (1 / 2) / (dkx * dky) * Cmod2 (spectrum2_fft n0 n1 signal i0 i1).

(** Model of calcul/fft.py (operators FFTW2DReal2Complex and NumpyFFT2DReal2Complex) and of the computation of the
    correlation by Fourier transforms in calcul/correl.py (CorrelFFTWithOperBase.__call__, CorrelFFTNumpy.__call__).

    Images of shape (n0, n1) = (ny, nx) are functions of two indices with real values; floating point arithmetic is
    replaced by real arithmetic.  The transforms computed by numpy.fft and by FFTW are given by their definition. *)
From Coq Require Import Reals ZArith.
From Verif Require Import FourierBase.
Local Open Scope R_scope.

Definition field : Type := nat -> nat -> R.
Definition cfield : Type := nat -> nat -> Cx.

Definition sum2 (f : nat -> nat -> Cx) (n0 n1 : nat) : Cx := csum (fun i => csum (f i) n1) n0.
Definition rsum2 (f : nat -> nat -> R) (n0 n1 : nat) : R := rsum (fun i => rsum (f i) n1) n0.
Definition size (n0 n1 : nat) : R := INR n0 * INR n1.

(** [np_fft.fft2(field)] (fft.py line 239); for FFTW (lines 203-206) the same values, for k1 <= nx // 2 only *)
Definition fft2 (n0 n1 : nat) (f : field) : cfield := fun k0 k1 =>
  sum2 (fun x0 x1 => Cmul (RtoC (f x0 x1))
                          (Cmul (w n0 (Z.of_nat k0 * - Z.of_nat x0)) (w n1 (Z.of_nat k1 * - Z.of_nat x1)))) n0 n1.

(** not normalised inverse transform *)
Definition isum2 (n0 n1 : nat) (g : cfield) : cfield := fun x0 x1 =>
  sum2 (fun k0 k1 => Cmul (g k0 k1) (Cmul (w n0 (Z.of_nat k0 * Z.of_nat x0)) (w n1 (Z.of_nat k1 * Z.of_nat x1)))) n0 n1.
(** [np_fft.ifft2] (line 242) *)
Definition ifft2 (n0 n1 : nat) (g : cfield) : cfield := fun x0 x1 => Cmul (RtoC (/ size n0 n1)) (isum2 n0 n1 g x0 x1).

(** FFTW c2r transform (lines 208-211): only the columns k1 <= nx // 2 of the input are used, the other ones are
    given by the Hermitian symmetry; [normalise_idft=False] *)
Definition extend (n0 n1 : nat) (g : cfield) : cfield := fun k0 k1 =>
  if Nat.leb k1 (n1 / 2) then g k0 k1 else Cconj (g ((n0 - k0) mod n0)%nat (n1 - k1)%nat).
Definition ifft_fftw (n0 n1 : nat) (g : cfield) : field := fun x0 x1 => Cre (isum2 n0 n1 (extend n0 n1 g) x0 x1).

(** [fft_im[0, 0] = 0.0] (correl.py lines 655, 657, 678, 680) *)
Definition zero_mode (g : cfield) : cfield := fun k0 k1 => if (Nat.eqb k0 0 && Nat.eqb k1 0)%bool then C0 else g k0 k1.

Definition product (f0 f1 : cfield) : cfield := fun k0 k1 => Cmul (Cconj (f0 k0 k1)) (f1 k0 k1).

(** correl.py line 681, before the reordering *)
Definition correl_np (n0 n1 : nat) (im0 im1 : field) : field := fun l0 l1 =>
  Cre (ifft2 n0 n1 (product (zero_mode (fft2 n0 n1 im0)) (zero_mode (fft2 n0 n1 im1))) l0 l1).
(** line 661 with FFTW *)
Definition correl_fftw (n0 n1 : nat) (im0 im1 : field) : field :=
  ifft_fftw n0 n1 (product (zero_mode (fft2 n0 n1 im0)) (zero_mode (fft2 n0 n1 im1))).

(** NumpyFFT2DReal2Complex.compute_energy_from_fourier (lines 244-245); coef_norm_energy is (nx ny)^2 (line 95: it is
    computed before coef_norm is set to one) *)
Definition energy_np (n0 n1 : nat) (g : cfield) : R :=
  rsum2 (fun k0 k1 => Cmod2 (g k0 k1)) n0 n1 / 2 / (size n0 n1 * size n0 n1).

(** _compute_energy_from_fourier (lines 70-74): [m] is the number of columns, [abs(z) ** 2] is Cmod2 *)
Definition energy_loop (n0 m : nat) (g : cfield) : R :=
  rsum (fun i0 => Cmod2 (g i0 0%nat) + Cmod2 (g i0 (m - 1)%nat) + rsum (fun k => 2 * Cmod2 (g i0 (1 + k)%nat)) (m - 2)) n0.
(** OperatorFFTBase.compute_energy_from_fourier (lines 105-107), shapeK = [ny, nx // 2 + 1] *)
Definition energy_fftw (n0 n1 : nat) (g : cfield) : R :=
  1 / 2 / (size n0 n1 * size n0 n1) * energy_loop n0 (n1 / 2 + 1) g.

(** compute_energy_from_spatial (lines 109-111) *)
Definition energy_spatial (n0 n1 : nat) (f : field) : R := rsum2 (fun x0 x1 => f x0 x1 * f x0 x1) n0 n1 / size n0 n1 / 2.

(** correl.py lines 660, 684; coef_norm_correl is (nx ny)^2 for FFTW (line 94), nx ny for numpy (line 235) *)
Definition norm_np (n0 n1 : nat) (im0 im1 : field) : R :=
  sqrt (4 * energy_np n0 n1 (zero_mode (fft2 n0 n1 im0)) * energy_np n0 n1 (zero_mode (fft2 n0 n1 im1))) * size n0 n1.
Definition norm_fftw (n0 n1 : nat) (im0 im1 : field) : R :=
  sqrt (4 * energy_fftw n0 n1 (zero_mode (fft2 n0 n1 im0)) * energy_fftw n0 n1 (zero_mode (fft2 n0 n1 im1)))
  * (size n0 n1 * size n0 n1).

(** C67: spectra. *)
From Coq Require Import Reals ZArith Lia Lra.
From Verif Require Import FourierBase FourierModel FourierProofs SpectrumModel.
Local Open Scope R_scope.

Section Line.
Variables (n : nat) (dx : R).
Hypotheses (Hn : (0 < n)%nat) (Hdx : 0 < dx).

Lemma INR_n : 0 < INR n. Proof. apply lt_0_INR. exact Hn. Qed.

(** inverse transform *)
Lemma inversion f j : (j < n)%nat ->
  csum (fun k => Cmul (fft1 n f k) (w n (Z.of_nat k * Z.of_nat j))) n = Cmul (RtoC (INR n)) (RtoC (f j)).
Proof.
  intros Hj. unfold fft1.
  rewrite (csum_ext _ (fun k => csum (fun x => Cmul (RtoC (f x)) (w n (Z.of_nat k * (Z.of_nat j - Z.of_nat x)))) n)).
  - rewrite csum_swap. rewrite (csum_ext _ (fun x => Cmul (RtoC (f x)) (csum (fun k => w n (Z.of_nat k * (Z.of_nat j - Z.of_nat x))) n))).
    + rewrite (csum_single _ n j Hj).
      * rewrite orthogonality by exact Hn. rewrite Z.sub_diag, Z.mod_0_l by lia. cbn [Z.eqb]. ring.
      * intros x Hx Hne. rewrite orthogonality by exact Hn. destruct (Z.eqb_spec ((Z.of_nat j - Z.of_nat x) mod Z.of_nat n) 0) as [E|E]; [|ring].
        exfalso. apply Z.mod_divide in E; [|lia]. destruct E as [q Hq]. assert (q = 0)%Z by nia. lia.
    + intros x _. rewrite csum_mul_l. reflexivity.
  - intros k _. rewrite <- csum_mul_r. apply csum_ext. intros x _.
    replace (Z.of_nat k * (Z.of_nat j - Z.of_nat x))%Z with (Z.of_nat k * - Z.of_nat x + Z.of_nat k * Z.of_nat j)%Z by ring.
    rewrite w_add by exact Hn. ring.
Qed.

Lemma parseval1 f : rsum (fun k => Cmod2 (fft1 n f k)) n = INR n * rsum (fun x => f x * f x) n.
Proof.
  apply RtoC_inj. rewrite <- csum_R.
  rewrite (csum_ext _ (fun k => csum (fun x => Cmul (RtoC (f x)) (Cmul (fft1 n f k) (w n (Z.of_nat k * Z.of_nat x)))) n)).
  - rewrite csum_swap. rewrite (csum_ext _ (fun x => Cmul (RtoC (INR n)) (RtoC (f x * f x)))).
    + rewrite csum_mul_l, csum_R, RtoC_mul. reflexivity.
    + intros x Hx. rewrite csum_mul_l, inversion by exact Hx. rewrite RtoC_mul. ring.
  - intros k _. rewrite <- Cmul_conj.
    replace (Cconj (fft1 n f k)) with (csum (fun x => Cmul (RtoC (f x)) (w n (Z.of_nat k * Z.of_nat x))) n).
    + rewrite <- csum_mul_r. apply csum_ext. intros x _. ring.
    + unfold fft1. rewrite csum_conj. apply csum_ext. intros x _. rewrite Cconj_mul, Cconj_R, w_conj. do 2 f_equal. lia.
Qed.

Lemma fftshift_sum (a : nat -> R) : rsum (fftshift n a) n = rsum a n.
Proof. unfold fftshift. apply (rsum_shift a n (n - n / 2) Hn). Qed.

Lemma Cmod2_scal c z : Cmod2 (Cmul (RtoC c) z) = c * c * Cmod2 z.
Proof. unfold Cmod2, Cmul, RtoC. cbn [fst snd]. ring. Qed.

(** [sum(psd) * domega] is half of the mean of the square of the signal. *)
Theorem C67_psd_partial signal :
  let domega := 2 * PI / (INR n * dx) in
  rsum (spectrum1_psd n dx signal) n * domega = (1 / 2) * (rsum (fun x => signal x * signal x) n * dx / (INR n * dx)).
Proof.
  cbv zeta. pose proof INR_n as HN. pose proof PI_RGT_0 as HPI.
  unfold spectrum1_psd, spectrum1_fft. cbv zeta.
  rewrite (rsum_ext _ (fun i => ((1 / 2) / (2 * PI / (INR n * dx)) * (dx / (INR n * dx) * (dx / (INR n * dx)))) * fftshift n (fun k => Cmod2 (fft1 n signal k)) i)).
  - rewrite rsum_scal, fftshift_sum, parseval1. field. repeat split; try lra; try (apply Rgt_not_eq; nra).
  - intros i _. rewrite Cmod2_scal. unfold fftshift. ring.
Qed.

(** The normalisation of the documentation is then wrong for all the signals but zero. *)
Theorem C67_doc_refuted signal :
  (exists x, (x < n)%nat /\ signal x <> 0) ->
  let domega := 2 * PI / (INR n * dx) in
  rsum (fun x => signal x * signal x) n * dx / (INR n * dx) <> rsum (spectrum1_psd n dx signal) n * domega.
Proof.
  intros (x & Hx & Hne). cbv zeta. pose proof (C67_psd_partial signal) as E. cbv zeta in E. rewrite E. pose proof INR_n as HN.
  assert (HS : 0 < rsum (fun x => signal x * signal x) n).
  { clear E HN Hn. revert Hx. induction n as [|m IH]; intros Hx; [lia|]. cbn [rsum].
    assert (P : 0 <= rsum (fun x => signal x * signal x) m) by (apply rsum_pos; intros; apply Rle_0_sqr).
    destruct (Nat.eq_dec x m) as [->|Hd].
    - pose proof (Rsqr_pos_lt _ Hne) as Q. unfold Rsqr in Q. lra.
    - pose proof (Rle_0_sqr (signal m)) as Q. unfold Rsqr in Q. specialize (IH ltac:(lia)). lra. }
  assert (0 < rsum (fun x0 => signal x0 * signal x0) n * dx / (INR n * dx)).
  { apply Rdiv_lt_0_compat; apply Rmult_lt_0_compat; assumption. }
  lra.
Qed.

(** index [i] of the shifted arrays is the mode [i - n // 2] *)
Lemma shift_index i : (i < n)%nat -> exists k : nat, (i + (n - n / 2)) mod n = k /\ (k < n)%nat /\
  (Z.of_nat k = Z.of_nat i - Z.of_nat (n / 2) \/ Z.of_nat k = Z.of_nat i - Z.of_nat (n / 2) + Z.of_nat n)%Z /\
  ((n / 2 <= i)%nat <-> (k < (n + 1) / 2)%nat).
Proof.
  intros Hi. exists ((i + (n - n / 2)) mod n)%nat. split; [reflexivity|]. split; [apply Nat.mod_upper_bound; lia|].
  assert (H2 : (2 * (n / 2) <= n < 2 * (n / 2) + 2)%nat).
  { pose proof (Nat.div_mod n 2 ltac:(lia)). pose proof (Nat.mod_upper_bound n 2 ltac:(lia)). lia. }
  assert (H3 : (2 * ((n + 1) / 2) <= n + 1 < 2 * ((n + 1) / 2) + 2)%nat).
  { pose proof (Nat.div_mod (n + 1) 2 ltac:(lia)). pose proof (Nat.mod_upper_bound (n + 1) 2 ltac:(lia)). lia. }
  destruct (Nat.lt_ge_cases i (n / 2)) as [H|H].
  - rewrite Nat.mod_small by lia. lia.
  - replace (i + (n - n / 2))%nat with (i - n / 2 + 1 * n)%nat by lia. rewrite Nat.mod_add, Nat.mod_small by lia. lia.
Qed.

Lemma omega_spec i : (i < n)%nat -> spectrum1_omega n dx i = 2 * PI * IZR (Z.of_nat i - Z.of_nat (n / 2)) / (INR n * dx).
Proof.
  intros Hi. pose proof INR_n as HN. unfold spectrum1_omega, fftshift, fftfreq. destruct (shift_index i Hi) as (k & -> & Hk & HZ & HL).
  assert (H2 : (2 * (n / 2) <= n < 2 * (n / 2) + 2)%nat).
  { pose proof (Nat.div_mod n 2 ltac:(lia)). pose proof (Nat.mod_upper_bound n 2 ltac:(lia)). lia. }
  assert (H3 : (2 * ((n + 1) / 2) <= n + 1 < 2 * ((n + 1) / 2) + 2)%nat).
  { pose proof (Nat.div_mod (n + 1) 2 ltac:(lia)). pose proof (Nat.mod_upper_bound (n + 1) 2 ltac:(lia)). lia. }
  destruct (Nat.ltb_spec k ((n + 1) / 2)) as [H|H].
  - replace (Z.of_nat i - Z.of_nat (n / 2))%Z with (Z.of_nat k) by lia. rewrite <- INR_IZR_INZ. field. split; lra.
  - replace (Z.of_nat i - Z.of_nat (n / 2))%Z with (Z.of_nat k - Z.of_nat n)%Z by lia. rewrite minus_IZR, <- !INR_IZR_INZ. field. split; lra.
Qed.

Lemma csum_shift1 f m : (0 < m)%nat -> csum (fun k => f ((k + 1) mod m)%nat) m = csum f m.
Proof.
  intros Hm. apply Cx_eq.
  - assert (F : forall g l, fst (csum g l) = rsum (fun k => fst (g k)) l) by (induction l as [|l IH]; [reflexivity|cbn; rewrite IH; reflexivity]).
    rewrite !F. apply (rsum_shift1 (fun k => fst (f k)) m Hm).
  - assert (F : forall g l, snd (csum g l) = rsum (fun k => snd (g k)) l) by (induction l as [|l IH]; [reflexivity|cbn; rewrite IH; reflexivity]).
    rewrite !F. apply (rsum_shift1 (fun k => snd (f k)) m Hm).
Qed.
Lemma csum_shift f m d : (0 < m)%nat -> csum (fun k => f ((k + d) mod m)%nat) m = csum f m.
Proof.
  intros Hm. apply Cx_eq.
  - assert (F : forall g l, fst (csum g l) = rsum (fun k => fst (g k)) l) by (induction l as [|l IH]; [reflexivity|cbn; rewrite IH; reflexivity]).
    rewrite !F. apply (rsum_shift (fun k => fst (f k)) m d Hm).
  - assert (F : forall g l, snd (csum g l) = rsum (fun k => snd (g k)) l) by (induction l as [|l IH]; [reflexivity|cbn; rewrite IH; reflexivity]).
    rewrite !F. apply (rsum_shift (fun k => snd (f k)) m d Hm).
Qed.

(** The pulsations and the coefficients fit together: the signal at the position [j * dx] is
    the sum of the waves [signal_fft[i] * exp(1j * omega[i] * x)]. *)
Theorem C67_waves signal j : (j < n)%nat ->
  let x := INR j * dx in
  csum (fun i => Cmul (spectrum1_fft n dx signal i) (cos (spectrum1_omega n dx i * x), sin (spectrum1_omega n dx i * x))) n = RtoC (signal j).
Proof.
  intros Hj. cbv zeta. pose proof INR_n as HN.
  rewrite (csum_ext _ (fun i => Cmul (RtoC (/ INR n)) (fftshift n (fun k => Cmul (fft1 n signal k) (w n (Z.of_nat k * Z.of_nat j))) i))).
  - rewrite csum_mul_l. unfold fftshift. rewrite (csum_shift (fun k => Cmul (fft1 n signal k) (w n (Z.of_nat k * Z.of_nat j))) n (n - n / 2) Hn).
    rewrite inversion by exact Hj. rewrite <- !RtoC_mul. f_equal. field. lra.
  - intros i Hi. unfold spectrum1_fft. cbv zeta.
    replace (dx / (INR n * dx)) with (/ INR n) by (field; split; lra).
    assert (E : (cos (spectrum1_omega n dx i * (INR j * dx)), sin (spectrum1_omega n dx i * (INR j * dx))) = w n (Z.of_nat ((i + (n - n / 2)) mod n) * Z.of_nat j)).
    { destruct (shift_index i Hi) as (k & -> & Hk & HZ & _).
      transitivity (w n ((Z.of_nat i - Z.of_nat (n / 2)) * Z.of_nat j)).
      - unfold w, ang. rewrite omega_spec by exact Hi. rewrite mult_IZR, <- (INR_IZR_INZ j).
        replace (2 * PI * IZR (Z.of_nat i - Z.of_nat (n / 2)) / (INR n * dx) * (INR j * dx)) with (2 * PI * (IZR (Z.of_nat i - Z.of_nat (n / 2)) * INR j) / INR n) by (field; split; lra).
        reflexivity.
      - destruct HZ as [->|HZ]; [reflexivity|]. rewrite HZ.
        replace ((Z.of_nat i - Z.of_nat (n / 2) + Z.of_nat n) * Z.of_nat j)%Z with ((Z.of_nat i - Z.of_nat (n / 2)) * Z.of_nat j + Z.of_nat n * Z.of_nat j)%Z by ring.
        symmetry. apply w_periodic. exact Hn. }
    rewrite E. unfold fftshift. ring.
Qed.

(** the pulsations are increasing, with the step [2 pi / Lx] *)
Theorem C67_omega_step i : (S i < n)%nat -> spectrum1_omega n dx (S i) - spectrum1_omega n dx i = 2 * PI / (INR n * dx).
Proof.
  intros Hi. pose proof INR_n as HN. rewrite !omega_spec by lia. rewrite Nat2Z.inj_succ.
  replace (Z.succ (Z.of_nat i) - Z.of_nat (n / 2))%Z with ((Z.of_nat i - Z.of_nat (n / 2)) + 1)%Z by lia. rewrite plus_IZR. field. split; lra.
Qed.
End Line.
Print Assumptions C67_psd_partial.
Print Assumptions C67_doc_refuted.
Print Assumptions C67_waves.
Print Assumptions C67_omega_step.

(** In two dimensions too, [sum(psd) * dkx * dky] is half of the mean of the square. *)
Theorem C67_psd2 n0 n1 dx dy signal : (0 < n0)%nat -> (0 < n1)%nat -> 0 < dx -> 0 < dy ->
  let dkx := 2 * PI / (INR n1 * dx) in
  let dky := 2 * PI / (INR n0 * dy) in
  rsum2 (spectrum2_psd n0 n1 dx dy signal) n0 n1 * (dkx * dky) = (1 / 2) * (rsum2 (fun i j => signal i j * signal i j) n0 n1 / size n0 n1).
Proof.
  intros H0 H1 Hdx Hdy. cbv zeta. pose proof PI_RGT_0 as HPI. pose proof (lt_0_INR n0 H0) as N0. pose proof (lt_0_INR n1 H1) as N1.
  unfold spectrum2_psd, spectrum2_fft. cbv zeta.
  set (c := (1 / 2) / (2 * PI / (INR n1 * dx) * (2 * PI / (INR n0 * dy))) * (1 / size n0 n1 * (1 / size n0 n1))).
  rewrite (rsum2_ext _ (fun i j => c * (fun i0 i1 => Cmod2 (fft2 n0 n1 signal i0 i1)) ((i + (n0 - n0 / 2)) mod n0)%nat ((j + (n1 - n1 / 2)) mod n1)%nat)).
  - rewrite rsum2_scal.
    rewrite (rsum2_shift (fun i0 i1 => Cmod2 (fft2 n0 n1 signal i0 i1)) n0 n1 (n0 - n0 / 2) (n1 - n1 / 2) H0 H1). rewrite parseval by assumption. unfold c, size. field. repeat split; lra.
  - intros i j _ _. rewrite Cmod2_scal. unfold fftshift, c. ring.
Qed.
Print Assumptions C67_psd2.

(** a signal which meets the hypothesis of C67_doc_refuted *)
Example C67_example : exists x, (x < 4)%nat /\ (fun k : nat => INR k) x <> 0.
Proof. exists 1%nat. split; [lia|]. cbn. lra. Qed.

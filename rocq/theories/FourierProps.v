(** C33: recovery of a circular translation.  C45: energy of the Fourier modes.  C61: normalised correlation. *)
From Coq Require Import Reals Lra.
From Verif Require Import PyBase FourierBase FourierModel FourierProofs CorrelModel CorrelProofs CorrelProps ShiftProps PeakProps.
Local Open Scope R_scope.

(** *** C45 *)

Lemma rsum_neg f n : (0 < n)%nat -> rsum (fun k => f ((n - k) mod n)%nat) n = rsum f n.
Proof.
  intros Hn. rewrite <- (rsum_shift1 f n Hn). rewrite (rsum_rev (fun k => f ((k + 1) mod n)%nat)).
  apply rsum_ext. intros k Hk. f_equal. f_equal. lia.
Qed.

(** a field of coefficients whose modulus has the symmetry of the transform of a real field *)
Definition symmetric (n0 n1 : nat) (g : cfield) : Prop :=
  forall k0 k1, (k0 < n0)%nat -> (k1 < n1)%nat -> Cmod2 (g ((n0 - k0) mod n0)%nat ((n1 - k1) mod n1)%nat) = Cmod2 (g k0 k1).

Lemma symmetric_fft (n0 n1 : nat) f : (0 < n0)%nat -> (0 < n1)%nat -> symmetric n0 n1 (fft2 n0 n1 f).
Proof. intros H0 H1 k0 k1 K0 K1. rewrite hermitian by assumption. apply Cmod2_conj. Qed.

Lemma symmetric_zero_mode n0 n1 g : (0 < n0)%nat -> (0 < n1)%nat -> symmetric n0 n1 g -> symmetric n0 n1 (zero_mode g).
Proof.
  intros H0 H1 Hs k0 k1 K0 K1. unfold zero_mode.
  assert (E : forall n k, (k < n)%nat -> Nat.eqb ((n - k) mod n) 0 = Nat.eqb k 0).
  { intros n k Hk. destruct k; [rewrite Nat.sub_0_r, Nat.mod_same by lia; reflexivity|].
    rewrite Nat.mod_small by lia. destruct (Nat.eqb_spec (n - S k) 0); [lia|reflexivity]. }
  rewrite !E by assumption. destruct (Nat.eqb k0 0 && Nat.eqb k1 0)%bool; [reflexivity|]. apply Hs; assumption.
Qed.

(** sum over the columns h < k1 < n1 *)
Lemma tail_sum n0 n1 g h : (0 < n0)%nat -> symmetric n0 n1 g -> (h < n1)%nat ->
  rsum2 (fun k0 k => Cmod2 (g k0 (n1 - h + k)%nat)) n0 h = rsum2 (fun k0 k => Cmod2 (g k0 (1 + k)%nat)) n0 h.
Proof.
  intros H0 Hs Hh. unfold rsum2. rewrite <- (rsum_neg (fun k0 => rsum (fun k => Cmod2 (g k0 (n1 - h + k)%nat)) h) n0 H0).
  apply rsum_ext. intros k0 K0. rewrite rsum_rev. apply rsum_ext. intros k K.
  rewrite <- (Hs k0 (1 + k)%nat K0) by lia. do 2 f_equal. rewrite Nat.mod_small by lia. lia.
Qed.

Lemma full_even n0 h g : (0 < n0)%nat -> (0 < h)%nat -> symmetric n0 (2 * h) g ->
  rsum2 (fun k0 k1 => Cmod2 (g k0 k1)) n0 (2 * h) = energy_loop n0 (h + 1) g.
Proof.
  intros H0 Hh Hs. unfold energy_loop. replace (h + 1 - 1)%nat with h by lia. replace (h + 1 - 2)%nat with (h - 1)%nat by lia.
  pose proof (tail_sum n0 (2 * h) g (h - 1) H0 Hs ltac:(lia)) as T. unfold rsum2 in *.
  rewrite (rsum_ext (fun k0 => rsum (fun k1 => Cmod2 (g k0 k1)) (2 * h))
    (fun k0 => Cmod2 (g k0 0%nat) + Cmod2 (g k0 h) + rsum (fun k => Cmod2 (g k0 (1 + k)%nat)) (h - 1)
               + rsum (fun k => Cmod2 (g k0 (2 * h - (h - 1) + k)%nat)) (h - 1))).
  - rewrite rsum_plus, T, <- rsum_plus. apply rsum_ext. intros k0 _. rewrite rsum_scal. ring.
  - intros k0 _. replace (2 * h)%nat with (1 + (h - 1) + 1 + (h - 1))%nat at 1 by lia. rewrite !rsum_app. cbn [rsum].
    replace (1 + (h - 1) + 0)%nat with h by lia.
    rewrite (rsum_ext (fun k => Cmod2 (g k0 (1 + (h - 1) + 1 + k)%nat)) (fun k => Cmod2 (g k0 (2 * h - (h - 1) + k)%nat))).
    + ring.
    + intros k _. do 2 f_equal. lia.
Qed.

Lemma full_odd n0 h g : (0 < n0)%nat -> (0 < h)%nat -> symmetric n0 (2 * h + 1) g ->
  rsum2 (fun k0 k1 => Cmod2 (g k0 k1)) n0 (2 * h + 1) = energy_loop n0 (h + 1) g + rsum (fun k0 => Cmod2 (g k0 h)) n0.
Proof.
  intros H0 Hh Hs. unfold energy_loop. replace (h + 1 - 1)%nat with h by lia. replace (h + 1 - 2)%nat with (h - 1)%nat by lia.
  pose proof (tail_sum n0 (2 * h + 1) g h H0 Hs ltac:(lia)) as T. unfold rsum2 in *.
  rewrite (rsum_ext (fun k0 => rsum (fun k1 => Cmod2 (g k0 k1)) (2 * h + 1))
    (fun k0 => Cmod2 (g k0 0%nat) + rsum (fun k => Cmod2 (g k0 (1 + k)%nat)) h
               + rsum (fun k => Cmod2 (g k0 (2 * h + 1 - h + k)%nat)) h)).
  - rewrite rsum_plus, T, <- rsum_plus, <- rsum_plus. apply rsum_ext. intros k0 _.
    rewrite rsum_scal.
    assert (Sh : rsum (fun k => Cmod2 (g k0 (1 + k)%nat)) h = rsum (fun k => Cmod2 (g k0 (1 + k)%nat)) (h - 1) + Cmod2 (g k0 h)).
    { transitivity (rsum (fun k => Cmod2 (g k0 (1 + k)%nat)) (h - 1 + 1)); [f_equal; lia|]. rewrite rsum_app. cbn [rsum].
      replace (1 + (h - 1 + 0))%nat with h by lia. ring. }
    rewrite Sh. ring.
  - intros k0 _. replace (2 * h + 1)%nat with (1 + h + h)%nat at 1 by lia. rewrite !rsum_app. cbn [rsum].
    rewrite (rsum_ext (fun k => Cmod2 (g k0 (1 + h + k)%nat)) (fun k => Cmod2 (g k0 (2 * h + 1 - h + k)%nat))).
    + ring.
    + intros k _. do 2 f_equal. lia.
Qed.

(** numpy operator: for all sizes, the energy computed in Fourier space is the energy in physical space. *)
Theorem C45_numpy n0 n1 f : (0 < n0)%nat -> (0 < n1)%nat ->
  energy_np n0 n1 (fft2 n0 n1 f) = energy_spatial n0 n1 f.
Proof.
  intros H0 H1. unfold energy_np, energy_spatial. rewrite parseval by assumption.
  pose proof (size_pos n0 n1 H0 H1). field. lra.
Qed.

(** FFTW operator (half of the coefficients): the same for an even nx. *)
Theorem C45_half_even_partial n0 h f : (0 < n0)%nat -> (0 < h)%nat ->
  energy_fftw n0 (2 * h) (fft2 n0 (2 * h) f) = energy_spatial n0 (2 * h) f.
Proof.
  intros H0 Hh. unfold energy_fftw.
  replace (2 * h / 2 + 1)%nat with (h + 1)%nat.
  2:{ rewrite (Nat.mul_comm 2 h), Nat.div_mul; lia. }
  rewrite <- full_even by (assumption || (apply symmetric_fft; lia)).
  rewrite <- C45_numpy by lia. unfold energy_np. field. apply Rgt_not_eq, size_pos; lia.
Qed.

(** For an odd nx >= 3 the modes of the last column are counted once instead of twice: the energy is too small by the
    energy of this column.  For nx = 1 it is twice the energy. *)
Theorem C45_half_odd n0 h f : (0 < n0)%nat -> (0 < h)%nat ->
  energy_fftw n0 (2 * h + 1) (fft2 n0 (2 * h + 1) f) =
  energy_spatial n0 (2 * h + 1) f
  - rsum (fun k0 => Cmod2 (fft2 n0 (2 * h + 1) f k0 h)) n0 / 2 / (size n0 (2 * h + 1) * size n0 (2 * h + 1)).
Proof.
  intros H0 Hh. rewrite <- C45_numpy by lia. unfold energy_fftw, energy_np.
  replace ((2 * h + 1) / 2 + 1)%nat with (h + 1)%nat.
  2:{ rewrite (Nat.mul_comm 2 h), Nat.div_add_l by lia. cbn. lia. }
  rewrite full_odd by (assumption || (apply symmetric_fft; lia)). field. apply Rgt_not_eq, size_pos; lia.
Qed.
Theorem C45_half_one n0 f : (0 < n0)%nat ->
  energy_fftw n0 1 (fft2 n0 1 f) = 2 * energy_spatial n0 1 f.
Proof.
  intros H0. rewrite <- C45_numpy by lia. unfold energy_fftw, energy_np, energy_loop, rsum2. cbn [Nat.div Nat.add Nat.sub].
  rewrite (rsum_ext (fun i0 => Cmod2 (fft2 n0 1 f i0 0%nat) + Cmod2 (fft2 n0 1 f i0 (fst (Nat.divmod 1 1 0 1) + 1 - 1)%nat) +
     rsum (fun k => 2 * Cmod2 (fft2 n0 1 f i0 (S k))) (fst (Nat.divmod 1 1 0 1) + 1 - 2))
     (fun i0 => 2 * rsum (fun k1 => Cmod2 (fft2 n0 1 f i0 k1)) 1)).
  - rewrite rsum_scal. field. apply Rgt_not_eq, size_pos; lia.
  - intros k _. cbn [Nat.divmod fst Nat.sub Nat.add rsum]. ring.
Qed.

(** one bright pixel *)
Definition delta : field := fun x0 x1 => if (Nat.eqb x0 0 && Nat.eqb x1 0)%bool then 1 else 0.
Lemma fft2_delta n0 n1 k0 k1 : (0 < n0)%nat -> (0 < n1)%nat -> fft2 n0 n1 delta k0 k1 = C1.
Proof.
  intros H0 H1. unfold fft2. rewrite (sum2_single _ n0 n1 0 0 H0 H1).
  - unfold delta. cbn [Nat.eqb andb Z.of_nat Z.opp]. rewrite !Z.mul_0_r, !w_0. cx.
  - intros i j _ _ Hne. unfold delta. destruct (Nat.eqb_spec i 0), (Nat.eqb_spec j 0); cbn [andb]; try (cx; fail). exfalso; tauto.
Qed.

Theorem C45_refuted n0 h : (0 < n0)%nat -> (0 < h)%nat ->
  energy_fftw n0 (2 * h + 1) (fft2 n0 (2 * h + 1) delta) < energy_spatial n0 (2 * h + 1) delta.
Proof.
  intros H0 Hh. rewrite C45_half_odd by assumption.
  assert (E : rsum (fun k0 => Cmod2 (fft2 n0 (2 * h + 1) delta k0 h)) n0 = INR n0).
  { rewrite (rsum_ext _ (fun _ => 1)).
    - rewrite rsum_const. ring.
    - intros. rewrite fft2_delta by lia. unfold Cmod2, C1. cbn. ring. }
  rewrite E. pose proof (size_pos n0 (2 * h + 1) H0 ltac:(lia)) as P. assert (0 < INR n0) by (apply lt_0_INR; lia).
  assert (0 < INR n0 / 2 / (size n0 (2 * h + 1) * size n0 (2 * h + 1))); [|lra].
  apply Rdiv_lt_0_compat; [lra|]. apply Rmult_lt_0_compat; assumption.
Qed.

(** *** C33 *)
(** Specification. Index of an axis of size [n] reached from [x] by the displacement [d], the axis being periodic. *)
Definition move (n x : nat) (d : Z) : nat := Z.to_nat ((Z.of_nat x + d) mod Z.of_nat n).
Lemma move_mod n x d : (0 < n)%nat -> move n x d = ((x + Z.to_nat (d mod Z.of_nat n)) mod n)%nat.
Proof.
  intros Hn. unfold move. pose proof (Z.mod_pos_bound d (Z.of_nat n) ltac:(lia)) as B.
  apply Nat2Z.inj. rewrite Nat2Z.inj_mod, Nat2Z.inj_add, !Z2Nat.id by (try apply Z.mod_pos_bound; lia).
  symmetry. apply Z.add_mod_idemp_r. lia.
Qed.

Section C33.
Variables n0 n1 : nat.
Hypothesis H0 : (0 < n0)%nat.
Hypothesis H1 : (0 < n1)%nat.
(** the second image is the first one translated *)
Definition translated (im0 im1 : field) (dx dy : Z) : Prop :=
  forall y x, (y < n0)%nat -> (x < n1)%nat -> im1 (move n0 y dy) (move n1 x dx) = im0 y x.
Definition in_range (dx dy : Z) : Prop :=
  (- (Z.of_nat n0 - Z.of_nat n0 / 2) <= dy <= Z.of_nat n0 / 2 - 1 /\
   - (Z.of_nat n1 - Z.of_nat n1 / 2) <= dx <= Z.of_nat n1 / 2 - 1)%Z.
(** covariance of the first image and of the second one translated back *)
Definition covariance (im0 im1 : field) (dx dy : Z) : R :=
  rsum2 (fun y x => im0 y x * im1 (move n0 y dy) (move n1 x dx)) n0 n1
  - rsum2 im0 n0 n1 * rsum2 im1 n0 n1 / size n0 n1.

Lemma covariance_circ im0 im1 dx dy :
  covariance im0 im1 dx dy =
  circ n0 n1 im0 im1 (Z.to_nat (dy mod Z.of_nat n0)) (Z.to_nat (dx mod Z.of_nat n1))
  - rsum2 im0 n0 n1 * rsum2 im1 n0 n1 / size n0 n1.
Proof.
  unfold covariance, circ. f_equal. apply rsum2_ext. intros. rewrite !move_mod by assumption. reflexivity.
Qed.

Definition energy2 (f : field) : R := rsum2 (fun y x => f y x * f y x) n0 n1.

Lemma energy_shift (f : field) l0 l1 :
  rsum2 (fun y x => f ((y + l0) mod n0)%nat ((x + l1) mod n1)%nat * f ((y + l0) mod n0)%nat ((x + l1) mod n1)%nat) n0 n1 = energy2 f.
Proof. apply (rsum2_shift (fun y x => f y x * f y x)); assumption. Qed.

Lemma circ_le (f g : field) l0 l1 : circ n0 n1 f g l0 l1 <= (energy2 f + energy2 g) / 2.
Proof.
  rewrite <- (energy_shift g l0 l1). unfold energy2, circ. rewrite <- rsum2_plus.
  replace (rsum2 _ n0 n1 / 2) with (/ 2 * rsum2 (fun i j => f i j * f i j + g ((i + l0) mod n0)%nat ((j + l1) mod n1)%nat *
     g ((i + l0) mod n0)%nat ((j + l1) mod n1)%nat) n0 n1) by (unfold Rdiv; ring).
  rewrite <- rsum2_scal. apply rsum2_le. intros i j _ _. 
  set (a := f i j). set (b := g _ _). assert (H : 0 <= (a - b) * (a - b)) by apply Rle_0_sqr. clearbody a b. lra.
Qed.

Lemma translated_energy im0 im1 dx dy : translated im0 im1 dx dy -> energy2 im1 = energy2 im0.
Proof.
  intros T. rewrite <- (energy_shift im1 (Z.to_nat (dy mod Z.of_nat n0)) (Z.to_nat (dx mod Z.of_nat n1))).
  apply rsum2_ext. intros i j Hi Hj. rewrite <- !move_mod by assumption. rewrite T by assumption. reflexivity.
Qed.

Lemma translated_cov im0 im1 dx dy : translated im0 im1 dx dy ->
  covariance im0 im1 dx dy = energy2 im0 - rsum2 im0 n0 n1 * rsum2 im1 n0 n1 / size n0 n1.
Proof.
  intros T. unfold covariance. f_equal. apply rsum2_ext. intros i j Hi Hj. rewrite T by assumption. reflexivity.
Qed.

Variable junk : nat -> R.

(** value returned by the call of the correlation object: the flat array of the inverse transform, reordered *)
Definition correl_call (im0 im1 : field) : nat -> R :=
  like_fftshift n0 n1 junk (fun k => correl_np n0 n1 im0 im1 (k / n1)%nat (k mod n1)%nat).

(** At the indices of a displacement the array contains the covariance for this displacement. *)
Theorem C33_values im0 im1 dx dy :
  in_range dx dy ->
  let '(ix, iy) := indices_from_displacement (fft_origin (Z.of_nat n1)) (fft_origin (Z.of_nat n0)) dx dy in
  (0 <= iy < Z.of_nat n0 /\ 0 <= ix < Z.of_nat n1)%Z /\
  elem n1 (correl_call im0 im1) (Z.to_nat iy) (Z.to_nat ix) = covariance im0 im1 dx dy.
Proof.
  intros [Ry Rx].
  pose proof (C32_lag n0 n1 junk (fun k => correl_np n0 n1 im0 im1 (k / n1)%nat (k mod n1)%nat) dx dy Ry Rx) as L.
  unfold indices_from_displacement in *. destruct L as (Ly & Lx & E). split; [split; assumption|].
  unfold correl_call. rewrite E. unfold elem.
  pose proof (Z.mod_pos_bound dx (Z.of_nat n1) ltac:(lia)) as B.
  destruct (divmod_row (Z.to_nat (dy mod Z.of_nat n0)) (Z.to_nat (dx mod Z.of_nat n1)) n1) as [-> ->]; [lia|].
  rewrite correl_np_spec by assumption. rewrite covariance_circ. reflexivity.
Qed.

(** If the second image is the first one translated circularly, no value of the array is larger than the one at the
    indices of this translation. *)
Theorem C33_maximum im0 im1 dx dy :
  in_range dx dy -> translated im0 im1 dx dy ->
  let '(ix, iy) := indices_from_displacement (fft_origin (Z.of_nat n1)) (fft_origin (Z.of_nat n0)) dx dy in
  forall jy jx, (jy < n0)%nat -> (jx < n1)%nat ->
    elem n1 (correl_call im0 im1) jy jx <= elem n1 (correl_call im0 im1) (Z.to_nat iy) (Z.to_nat ix).
Proof.
  intros R T. pose proof (C33_values im0 im1 dx dy R) as V.
  unfold indices_from_displacement in *. destruct V as [_ V]. rewrite V. intros jy jx Jy Jx.
  set (ex := (fft_origin (Z.of_nat n1) - Z.of_nat jx)%Z). set (ey := (fft_origin (Z.of_nat n0) - Z.of_nat jy)%Z).
  assert (Re : in_range ex ey).
  { unfold in_range, ex, ey, fft_origin. lia. }
  pose proof (C33_values im0 im1 ex ey Re) as V'. unfold indices_from_displacement in V'.
  replace (fft_origin (Z.of_nat n0) - ey)%Z with (Z.of_nat jy) in V' by (unfold ey; ring).
  replace (fft_origin (Z.of_nat n1) - ex)%Z with (Z.of_nat jx) in V' by (unfold ex; ring).
  rewrite !Nat2Z.id in V'. destruct V' as [_ V']. rewrite V'.
  rewrite (translated_cov im0 im1 dx dy T), covariance_circ.
  pose proof (circ_le im0 im1 (Z.to_nat (ey mod Z.of_nat n0)) (Z.to_nat (ex mod Z.of_nat n1))) as C.
  rewrite (translated_energy im0 im1 dx dy T) in C. lra.
Qed.

(** order on the values *)
Definition Rleb (a b : R) : bool := if Rle_dec a b then true else false.
Lemma Rleb_true a b : Rleb a b = true <-> a <= b.
Proof. unfold Rleb. destruct (Rle_dec a b); split; intros; (assumption || reflexivity || discriminate || contradiction). Qed.
Lemma Rleb_total a b : Rleb a b = true \/ Rleb b a = true.
Proof. rewrite !Rleb_true. lra. Qed.
Lemma Rleb_trans a b c : Rleb a b = true -> Rleb b c = true -> Rleb a c = true.
Proof. rewrite !Rleb_true. lra. Qed.

(** the array given to the search of the peak *)
Definition correl_list (im0 im1 : field) : arr2 R := map (fun k => Some (correl_call im0 im1 k)) (seq 0 (n0 * n1)).

Lemma correl_list_len im0 im1 : zlen (correl_list im0 im1) = (Z.of_nat n0 * Z.of_nat n1)%Z.
Proof. unfold zlen, correl_list. rewrite map_length, seq_length. lia. Qed.
Lemma correl_list_at im0 im1 i0 i1 : (0 <= i0 < Z.of_nat n0)%Z -> (0 <= i1 < Z.of_nat n1)%Z ->
  at2 (Z.of_nat n1) (correl_list im0 im1) i0 i1 = Some (elem n1 (correl_call im0 im1) (Z.to_nat i0) (Z.to_nat i1)).
Proof.
  intros B0 B1. unfold at2, correl_list, elem.
  assert (E : Z.to_nat (i0 * Z.of_nat n1 + i1) = (Z.to_nat i0 * n1 + Z.to_nat i1)%nat) by nia.
  assert (L : (Z.to_nat i0 * n1 + Z.to_nat i1 < n0 * n1)%nat) by (apply row_lt; lia).
  rewrite E. erewrite nth_error_nth; [reflexivity|].
  rewrite nth_error_map.
  rewrite (nth_error_nth' (seq 0 (n0 * n1)) 0%nat) by (rewrite seq_length; exact L).
  rewrite seq_nth by exact L. reflexivity.
Qed.

(** the search over the whole correlation, then the conversion into a displacement *)
Definition find_displacement (im0 im1 : field) : displ :=
  compute_displacements Rleb Rdiv 0 (Z.of_nat n0) (Z.of_nat n1) 3 (fft_origin (Z.of_nat n1)) (fft_origin (Z.of_nat n0))
    ((0%Z, None), (0%Z, None)) 1 (correl_list im0 im1)
    (if Req_EM_T (norm_np n0 n1 im0 im1) 0 then None else Some (norm_np n0 n1 im0 im1)).

(** If moreover the maximum is strict and the translation is not the first or the last one of the range, the
    displacement found is the imposed one. *)
Theorem C33_recovered_partial im0 im1 dx dy :
  in_range dx dy -> translated im0 im1 dx dy ->
  in_range (dx + 1) (dy + 1) -> in_range (dx - 1) (dy - 1) ->
  (forall e_x e_y, in_range e_x e_y -> (e_x, e_y) <> (dx, dy) -> covariance im0 im1 e_x e_y < covariance im0 im1 dx dy) ->
  exists m, find_displacement im0 im1 = Displ dx dy m None.
Proof.
  intros R T Rp Rm Hs. unfold find_displacement, compute_displacements.
  set (norm := if Req_EM_T _ _ then _ else _).
  destruct (C30_whole Rleb Rleb_total Rleb_trans Rdiv 0 (Z.of_nat n0) (Z.of_nat n1) (correl_list im0 im1) norm
              (correl_list_len im0 im1) ltac:(lia)) as [[A _]|(i0 & i1 & v & (P0 & P1 & v' & Ev' & Hv) & Ev & H)].
  - exfalso. specialize (A 0%Z 0%Z ltac:(lia) ltac:(lia)). rewrite correl_list_at in A by lia. discriminate.
  - pose proof (C33_values im0 im1 dx dy R) as V. unfold indices_from_displacement in V. destruct V as [[By Bx] V].
    set (e_y := (fft_origin (Z.of_nat n0) - i0)%Z). set (e_x := (fft_origin (Z.of_nat n1) - i1)%Z).
    assert (Re : in_range e_x e_y) by (unfold in_range, e_x, e_y, fft_origin; lia).
    assert (E : (e_x, e_y) = (dx, dy)).
    { destruct (Z.eq_dec e_x dx) as [Ex|Ex]; [destruct (Z.eq_dec e_y dy) as [Ey|Ey]; [congruence|]|].
      all: exfalso; assert (Hne : (e_x, e_y) <> (dx, dy)) by congruence; specialize (Hs e_x e_y Re Hne).
      all: rewrite Ev in Ev'; inversion Ev'; subst v'; clear Ev'.
      all: destruct (Hv (fft_origin (Z.of_nat n0) - dy)%Z (fft_origin (Z.of_nat n1) - dx)%Z
              (elem n1 (correl_call im0 im1) (Z.to_nat (fft_origin (Z.of_nat n0) - dy)) (Z.to_nat (fft_origin (Z.of_nat n1) - dx)))
              By Bx (correl_list_at im0 im1 _ _ By Bx)) as [Hle _]; rewrite Rleb_true, V in Hle.
      all: rewrite correl_list_at in Ev by assumption.
      all: pose proof (C33_values im0 im1 e_x e_y Re) as V2; unfold indices_from_displacement in V2; destruct V2 as [_ V2].
      all: replace (fft_origin (Z.of_nat n0) - e_y)%Z with i0 in V2 by (unfold e_y; ring).
      all: replace (fft_origin (Z.of_nat n1) - e_x)%Z with i1 in V2 by (unfold e_x; ring).
      all: rewrite V2 in Ev; inversion Ev; subst v; lra. }
    inversion E as [[Ex Ey]]. cbv zeta in H.
    assert (Hb : ~ on_border (Z.of_nat n0) (Z.of_nat n1) i0 i1).
    { unfold on_border, in_range, e_x, e_y, fft_origin in *. lia. }
    assert (Hc : ~ nan_close (Z.of_nat n1) (correl_list im0 im1) i0 i1).
    { intros (k0 & k1 & K0 & K1 & N). unfold on_border in Hb. rewrite correl_list_at in N by lia. discriminate. }
    destruct H as [[H _]|[[_ H]|[_ [_ H]]]]; [|contradiction|contradiction]. rewrite H.
    unfold displacement_from_indices. fold e_x e_y. rewrite Ex, Ey. change (1 =? 1)%Z with true. cbv iota.
    eexists. reflexivity.
Qed.

(** translations which differ by a period are the same translation *)
Theorem C33_period im0 im1 dx dy p q :
  translated im0 im1 dx dy <-> translated im0 im1 (dx + Z.of_nat n1 * p) (dy + Z.of_nat n0 * q).
Proof.
  assert (M : forall n x d k, (0 < n)%nat -> move n x (d + Z.of_nat n * k) = move n x d).
  { intros n x d k Hn. unfold move. rewrite Z.add_assoc, (Z.mul_comm (Z.of_nat n)), Z_mod_plus_full. reflexivity. }
  unfold translated. split; intros T y x Hy Hx.
  - rewrite !M by assumption. apply T; assumption.
  - rewrite <- (M n0 y dy q), <- (M n1 x dx p) by assumption. apply T; assumption.
Qed.

(** Uniform images: they are translated of each other (for instance with no displacement), and no displacement is
    found: an error is raised, the point reported being in the last corner. *)
Theorem C33_refuted c :
  translated (fun _ _ => c) (fun _ _ => c) 0 0 /\
  ((4 <= n0)%nat -> (5 <= n1)%nat ->
   exists msg m, find_displacement (fun _ _ => c) (fun _ _ => c) =
     DPivErr msg (fft_origin (Z.of_nat n1) - (Z.of_nat n1 - 1)) (fft_origin (Z.of_nat n0) - (Z.of_nat n0 - 1)) m).
Proof.
  split; [intros ? ? ? ?; reflexivity|]. intros B0 B1.
  set (im := fun _ _ : nat => c).
  assert (Z0 : forall i0 i1, (0 <= i0 < Z.of_nat n0)%Z -> (0 <= i1 < Z.of_nat n1)%Z ->
            at2 (Z.of_nat n1) (correl_list im im) i0 i1 = Some 0).
  { intros i0 i1 I0 I1. rewrite correl_list_at by assumption. f_equal.
    set (e_y := (fft_origin (Z.of_nat n0) - i0)%Z). set (e_x := (fft_origin (Z.of_nat n1) - i1)%Z).
    assert (Re : in_range e_x e_y) by (unfold in_range, e_x, e_y, fft_origin; lia).
    pose proof (C33_values im im e_x e_y Re) as V2; unfold indices_from_displacement in V2; destruct V2 as [_ V2].
    replace (fft_origin (Z.of_nat n0) - e_y)%Z with i0 in V2 by (unfold e_y; ring).
    replace (fft_origin (Z.of_nat n1) - e_x)%Z with i1 in V2 by (unfold e_x; ring).
    rewrite V2. unfold covariance, im. rewrite !rsum2_const. pose proof (size_pos n0 n1 H0 H1). field. lra. }
  unfold find_displacement, compute_displacements.
  set (norm := if Req_EM_T _ _ then _ else _).
  (* first search *)
  destruct (C30_whole Rleb Rleb_total Rleb_trans Rdiv 0 (Z.of_nat n0) (Z.of_nat n1) (correl_list im im) norm
              (correl_list_len im im) ltac:(lia)) as [[A _]|(i0 & i1 & v & (P0 & P1 & v' & Ev' & Hv) & Ev & H)].
  { exfalso. specialize (A 0%Z 0%Z ltac:(lia) ltac:(lia)). rewrite correl_list_at in A by lia. discriminate. }
  assert (Ei : i0 = (Z.of_nat n0 - 1)%Z /\ i1 = (Z.of_nat n1 - 1)%Z).
  { destruct (Hv (Z.of_nat n0 - 1)%Z (Z.of_nat n1 - 1)%Z 0 ltac:(lia) ltac:(lia) (Z0 (Z.of_nat n0 - 1)%Z (Z.of_nat n1 - 1)%Z ltac:(lia) ltac:(lia))) as [_ Hb].
    rewrite Z0 in Ev' by assumption. inversion Ev'; subst v'.
    unfold before in Hb. cbn [fst snd] in Hb.
    destruct (Z.eq_dec i0 (Z.of_nat n0 - 1)), (Z.eq_dec i1 (Z.of_nat n1 - 1)); try (split; assumption); exfalso;
      (assert (X : Rleb 0 0 = false) by (apply Hb; lia); assert (Y : Rleb 0 0 = true) by (apply Rleb_true; lra); congruence). }
  destruct Ei as [-> ->]. cbv zeta in H.
  assert (B : on_border (Z.of_nat n0) (Z.of_nat n1) (Z.of_nat n0 - 1) (Z.of_nat n1 - 1)) by (unfold on_border; tauto).
  destruct H as [[_ [Hb _]]|[[H _]|[_ [Hb _]]]]; [contradiction| |contradiction]. rewrite H.
  (* second search *)
  set (c2 := mask_around _ _ _ _ _ _).
  assert (L2 : zlen c2 = (Z.of_nat n0 * Z.of_nat n1)%Z) by (unfold c2; rewrite mask_around_zlen; apply correl_list_len).
  assert (V2 : forall i0 i1, (0 <= i0 < Z.of_nat n0)%Z -> (0 <= i1 < Z.of_nat n1)%Z ->
            at2 (Z.of_nat n1) c2 i0 i1 =
            if ((Z.abs (i0 - (Z.of_nat n0 - 1)) <=? 3) && (Z.abs (i1 - (Z.of_nat n1 - 1)) <=? 3))%Z%bool then None else Some 0).
  { intros i0 i1 I0 I1. unfold c2. rewrite (C58_mask_partial Rleb Rdiv 0 Rleb_total Rleb_trans) by (try apply correl_list_len; lia). rewrite Z0 by assumption. reflexivity. }
  destruct (C30_whole Rleb Rleb_total Rleb_trans Rdiv 0 (Z.of_nat n0) (Z.of_nat n1) c2 norm L2 ltac:(lia))
    as [[A _]|(j0 & j1 & u & (Q0 & Q1 & u' & Eu' & Hu) & Eu & H2)].
  { exfalso. specialize (A 0%Z 0%Z ltac:(lia) ltac:(lia)). rewrite V2 in A by lia.
    destruct ((Z.abs (0 - (Z.of_nat n0 - 1)) <=? 3) && (Z.abs (0 - (Z.of_nat n1 - 1)) <=? 3))%Z%bool eqn:Eb; [lia|discriminate]. }
  assert (Ej : j0 = (Z.of_nat n0 - 1)%Z).
  { assert (W : at2 (Z.of_nat n1) c2 (Z.of_nat n0 - 1) (Z.of_nat n1 - 5) = Some 0).
    { rewrite V2 by lia.
      destruct ((Z.abs (Z.of_nat n0 - 1 - (Z.of_nat n0 - 1)) <=? 3) && (Z.abs (Z.of_nat n1 - 5 - (Z.of_nat n1 - 1)) <=? 3))%Z%bool eqn:Eb; [lia|reflexivity]. }
    destruct (Hu (Z.of_nat n0 - 1)%Z (Z.of_nat n1 - 5)%Z 0 ltac:(lia) ltac:(lia) W) as [_ Hb].
    assert (U0 : u' = 0).
    { rewrite V2 in Eu' by assumption. destruct (_ && _)%bool in Eu'; [discriminate|]. congruence. }
    subst u'. unfold before in Hb. cbn [fst snd] in Hb.
    destruct (Z.eq_dec j0 (Z.of_nat n0 - 1)); [assumption|]. exfalso.
    assert (X : Rleb 0 0 = false) by (apply Hb; lia). assert (Y : Rleb 0 0 = true) by (apply Rleb_true; lra). congruence. }
  subst j0. cbv zeta in H2.
  assert (B2 : on_border (Z.of_nat n0) (Z.of_nat n1) (Z.of_nat n0 - 1) j1) by (unfold on_border; tauto).
  destruct H2 as [[_ [Hb _]]|[[H2 _]|[_ [Hb _]]]]; [contradiction| |contradiction].
  rewrite H2. eexists _, _. reflexivity.
Qed.
End C33.

(** The hypotheses are met: one bright pixel, for all sizes and all translations which are not at the ends of the range. *)
Section Pixel.
Variables n0 n1 : nat.
Hypothesis H0 : (0 < n0)%nat.
Hypothesis H1 : (0 < n1)%nat.
Variables dx dy : Z.

Definition moved_pixel : field := fun y x => if (Nat.eqb y (move n0 0 dy) && Nat.eqb x (move n1 0 dx))%bool then 1 else 0.

Lemma move_eq n x y d e : (0 < n)%nat -> (move n x d = move n y e <-> (Z.of_nat x + d - (Z.of_nat y + e)) mod Z.of_nat n = 0)%Z.
Proof.
  intros Hn. unfold move. set (N := Z.of_nat n). assert (HN : (0 < N)%Z) by (unfold N; lia).
  pose proof (Z.mod_pos_bound (Z.of_nat x + d) N HN). pose proof (Z.mod_pos_bound (Z.of_nat y + e) N HN).
  split; intros Hm.
  - apply Z2Nat.inj in Hm; try lia. rewrite Zminus_mod, Hm, Z.sub_diag. apply Z.mod_0_l. lia.
  - f_equal. apply Z.mod_divide in Hm; [|lia]. destruct Hm as (q & Hq).
    replace (Z.of_nat x + d)%Z with (Z.of_nat y + e + q * N)%Z by lia. apply Z.mod_add. lia.
Qed.

Lemma small_mod n a : (0 < n)%Z -> (- n < a < n)%Z -> (a mod n = 0)%Z -> a = 0%Z.
Proof. intros Hn Ha Hm. apply Z.mod_divide in Hm; [|lia]. destruct Hm as (q & ->). assert (q = 0 \/ 1 <= q \/ q <= -1)%Z as [->|[Q|Q]] by lia; [reflexivity|nia|nia]. Qed.

Lemma moved_pixel_translated : translated n0 n1 delta moved_pixel dx dy.
Proof.
  intros y x Hy Hx. unfold moved_pixel, delta.
  assert (E : forall n k d, (0 < n)%nat -> (k < n)%nat -> Nat.eqb (move n k d) (move n 0 d) = Nat.eqb k 0).
  { intros n k d Hn Hk. destruct (Nat.eqb_spec k 0) as [->|K]; [apply Nat.eqb_refl|].
    apply Nat.eqb_neq. rewrite move_eq by assumption. intros Hm. apply K.
    apply small_mod in Hm; lia. }
  rewrite !E by assumption. reflexivity.
Qed.

Lemma covariance_pixel ex ey : covariance n0 n1 delta moved_pixel ex ey =
  moved_pixel (move n0 0 ey) (move n1 0 ex) - rsum2 delta n0 n1 * rsum2 moved_pixel n0 n1 / size n0 n1.
Proof.
  unfold covariance. f_equal. apply RtoC_inj. rewrite <- sum2_R. rewrite (sum2_single _ _ _ 0 0 H0 H1).
  - unfold delta. cbn [Nat.eqb andb]. f_equal. ring.
  - intros i j _ _ Hne. unfold delta. destruct (Nat.eqb_spec i 0), (Nat.eqb_spec j 0); cbn [andb]; try (rewrite Rmult_0_l; reflexivity).
    exfalso; tauto.
Qed.

Theorem C33_one_pixel junk :
  in_range n0 n1 (dx + 1) (dy + 1) -> in_range n0 n1 (dx - 1) (dy - 1) ->
  exists m, find_displacement n0 n1 junk delta moved_pixel = Displ dx dy m None.
Proof.
  intros Rp Rm. assert (R : in_range n0 n1 dx dy) by (unfold in_range in *; lia).
  apply C33_recovered_partial; try assumption.
  - apply moved_pixel_translated.
  - intros ex ey Re Hne. rewrite !covariance_pixel. unfold moved_pixel at 1 3. rewrite !Nat.eqb_refl. cbn [andb].
    assert (E : (Nat.eqb (move n0 0 ey) (move n0 0 dy) && Nat.eqb (move n1 0 ex) (move n1 0 dx))%bool = false).
    { destruct (Nat.eqb_spec (move n0 0 ey) (move n0 0 dy)) as [A|A]; [|reflexivity].
      destruct (Nat.eqb_spec (move n1 0 ex) (move n1 0 dx)) as [B|B]; [|reflexivity]. exfalso. apply Hne.
      rewrite move_eq in A, B by assumption. unfold in_range in *.
      apply small_mod in A; [|lia|lia]. apply small_mod in B; [|lia|lia]. f_equal; lia. }
    rewrite E. lra.
Qed.
End Pixel.

Example C33_example : in_range 32 48 (3 + 1) (-7 + 1) /\ in_range 32 48 (3 - 1) (-7 - 1).
Proof. unfold in_range. lia. Qed.

(** *** C61: the normalised correlation *)
Section C61.
Variables n0 n1 : nat.
Hypothesis H0 : (0 < n0)%nat.
Hypothesis H1 : (0 < n1)%nat.

Definition variance (f : field) : R := energy2 n0 n1 f - rsum2 f n0 n1 * rsum2 f n0 n1 / size n0 n1.
Definition centred (f : field) : field := fun y x => f y x - rsum2 f n0 n1 / size n0 n1.

Lemma circ_centred f g l0 l1 :
  circ n0 n1 (centred f) (centred g) l0 l1 = circ n0 n1 f g l0 l1 - rsum2 f n0 n1 * rsum2 g n0 n1 / size n0 n1.
Proof.
  unfold circ, centred. set (mf := rsum2 f n0 n1 / size n0 n1). set (mg := rsum2 g n0 n1 / size n0 n1).
  rewrite (rsum2_ext _ (fun i j => f i j * g ((i + l0) mod n0)%nat ((j + l1) mod n1)%nat
     + (- mg * f i j + (- mf * g ((i + l0) mod n0)%nat ((j + l1) mod n1)%nat + mf * mg)))) by (intros; ring).
  rewrite !rsum2_plus, !rsum2_scal, rsum2_const.
  rewrite (rsum2_shift g n0 n1 l0 l1 H0 H1). unfold mf, mg. pose proof (size_pos n0 n1 H0 H1). field. lra.
Qed.

Lemma energy2_circ f : energy2 n0 n1 f = circ n0 n1 f f 0 0.
Proof. unfold energy2, circ. apply rsum2_ext. intros i j Hi Hj. rewrite !Nat.add_0_r, !Nat.mod_small by assumption. reflexivity. Qed.

Lemma variance_centred f : variance f = energy2 n0 n1 (centred f).
Proof. unfold variance. rewrite !energy2_circ, circ_centred. reflexivity. Qed.

Lemma energy2_pos f : 0 <= energy2 n0 n1 f.
Proof. apply rsum2_pos. intros. apply Rle_0_sqr. Qed.

(** Cauchy-Schwarz *)
Lemma cauchy_schwarz f g l0 l1 : circ n0 n1 f g l0 l1 * circ n0 n1 f g l0 l1 <= energy2 n0 n1 f * energy2 n0 n1 g.
Proof.
  set (b := circ n0 n1 f g l0 l1). 
  assert (Q : forall t, 0 <= energy2 n0 n1 f + 2 * t * b + t * t * energy2 n0 n1 g).
  { intros t. unfold b, circ. rewrite <- (energy_shift n0 n1 H0 H1 g l0 l1). unfold energy2 at 1.
    rewrite <- !rsum2_scal, <- !rsum2_plus. apply rsum2_pos. intros i j _ _.
    set (x := f i j). set (y := g _ _).
    replace (x * x + 2 * t * (x * y) + t * t * (y * y)) with ((x + t * y) * (x + t * y)) by ring. apply Rle_0_sqr. }
  destruct (Req_dec (energy2 n0 n1 g) 0) as [E|E].
  - rewrite E, Rmult_0_r. destruct (Req_dec b 0) as [->|Hb]; [lra|].
    pose proof (Q (- (energy2 n0 n1 f + 1) / (2 * b))) as X. rewrite E in X.
    replace (energy2 n0 n1 f + 2 * (- (energy2 n0 n1 f + 1) / (2 * b)) * b +
      - (energy2 n0 n1 f + 1) / (2 * b) * (- (energy2 n0 n1 f + 1) / (2 * b)) * 0) with (-1) in X by (field; exact Hb). lra.
  - pose proof (energy2_pos g) as Pg. pose proof (Q (- b / energy2 n0 n1 g)) as X.
    replace (energy2 n0 n1 f + 2 * (- b / energy2 n0 n1 g) * b + - b / energy2 n0 n1 g * (- b / energy2 n0 n1 g) * energy2 n0 n1 g)
      with (energy2 n0 n1 f - b * b / energy2 n0 n1 g) in X by (field; exact E).
    apply (Rmult_le_reg_r (/ energy2 n0 n1 g)); [apply Rinv_0_lt_compat; lra|].
    replace (energy2 n0 n1 f * energy2 n0 n1 g * / energy2 n0 n1 g) with (energy2 n0 n1 f) by (field; exact E).
    unfold Rdiv in X. lra.
Qed.

Lemma norm_np_spec f g : norm_np n0 n1 f g = sqrt (variance f * variance g).
Proof.
  unfold norm_np, energy_np. rewrite !parseval0 by assumption. fold (energy2 n0 n1 f) (energy2 n0 n1 g).
  pose proof (size_pos n0 n1 H0 H1) as P. set (N := size n0 n1) in *.
  replace (4 * ((N * energy2 n0 n1 f - rsum2 f n0 n1 * rsum2 f n0 n1) / 2 / (N * N)) *
    ((N * energy2 n0 n1 g - rsum2 g n0 n1 * rsum2 g n0 n1) / 2 / (N * N))) with (variance f * variance g * (/ N * / N)).
  2:{ unfold variance. fold N. field. lra. }
  rewrite sqrt_mult.
  - rewrite sqrt_square by (apply Rlt_le, Rinv_0_lt_compat; exact P). field. lra.
  - rewrite !variance_centred. apply Rmult_le_pos; apply energy2_pos.
  - apply Rlt_le, Rmult_lt_0_compat; apply Rinv_0_lt_compat; exact P.
Qed.

(** numpy: the absolute value of the correlation is at most the norm, ... *)
Theorem C61_bound f g l0 l1 : Rabs (correl_np n0 n1 f g l0 l1) <= norm_np n0 n1 f g.
Proof.
  rewrite correl_np_spec, norm_np_spec by assumption. rewrite <- circ_centred, !variance_centred.
  rewrite <- sqrt_Rsqr_abs. apply sqrt_le_1_alt. unfold Rsqr. apply cauchy_schwarz.
Qed.

(** ... with equality for a translation. *)
Theorem C61_one f g dx dy : translated n0 n1 f g dx dy ->
  correl_np n0 n1 f g (Z.to_nat (dy mod Z.of_nat n0)) (Z.to_nat (dx mod Z.of_nat n1)) = norm_np n0 n1 f g.
Proof.
  intros T. rewrite correl_np_spec, norm_np_spec by assumption.
  rewrite <- (covariance_circ n0 n1 H0 H1), (translated_cov n0 n1 f g dx dy T).
  assert (S : rsum2 g n0 n1 = rsum2 f n0 n1).
  { rewrite <- (rsum2_shift g n0 n1 (Z.to_nat (dy mod Z.of_nat n0)) (Z.to_nat (dx mod Z.of_nat n1)) H0 H1).
    apply rsum2_ext. intros i j Hi Hj. rewrite <- !move_mod by assumption. apply T; assumption. }
  assert (E : variance g = variance f).
  { unfold variance. rewrite S, (translated_energy n0 n1 H0 H1 f g dx dy T). reflexivity. }
  rewrite E, sqrt_square; [|rewrite variance_centred by assumption; apply energy2_pos].
  unfold variance. rewrite S. reflexivity.
Qed.
End C61.

(** FFTW with an even nx: the same normalisation *)
Theorem C61_fftw_even_partial n0 h f g l0 l1 : (0 < n0)%nat -> (0 < h)%nat ->
  Rabs (correl_fftw n0 (2 * h) f g l0 l1) <= norm_fftw n0 (2 * h) f g.
Proof.
  intros H0 Hh. assert (H1 : (0 < 2 * h)%nat) by lia.
  pose proof (C61_bound n0 (2 * h) H0 H1 f g l0 l1) as B.
  assert (En : forall im, energy_fftw n0 (2 * h) (zero_mode (fft2 n0 (2 * h) im)) = energy_np n0 (2 * h) (zero_mode (fft2 n0 (2 * h) im))).
  { intros im. unfold energy_fftw, energy_np. replace (2 * h / 2 + 1)%nat with (h + 1)%nat.
    2:{ rewrite (Nat.mul_comm 2 h), Nat.div_mul; lia. }
    rewrite <- full_even by (assumption || (apply symmetric_zero_mode; [lia|lia|apply symmetric_fft; lia])).
    field. apply Rgt_not_eq, size_pos; lia. }
  unfold norm_fftw. rewrite !En. unfold norm_np in B.
  rewrite correl_np_spec in B by assumption. rewrite correl_fftw_spec by assumption.
  pose proof (size_pos n0 (2 * h) H0 H1) as P. set (N := size n0 (2 * h)) in *.
  replace (N * circ n0 (2 * h) f g l0 l1 - rsum2 f n0 (2 * h) * rsum2 g n0 (2 * h))
    with (N * (circ n0 (2 * h) f g l0 l1 - rsum2 f n0 (2 * h) * rsum2 g n0 (2 * h) / N)) by (field; lra).
  rewrite Rabs_mult, (Rabs_pos_eq N) by lra.
  set (s := sqrt _) in *. replace (s * (N * N)) with (N * (s * N)) by ring. apply Rmult_le_compat_l; lra.
Qed.

(** FFTW with an odd nx: the correlation of an image with itself can be larger than the norm. *)
Theorem C61_refuted n0 h : (0 < n0)%nat -> (0 < h)%nat -> 
  norm_fftw n0 (2 * h + 1) delta delta < correl_fftw n0 (2 * h + 1) delta delta 0%nat 0%nat.
Proof.
  intros H0 Hh. assert (H1 : (0 < 2 * h + 1)%nat) by lia.
  rewrite correl_fftw_spec by assumption. 
  pose proof (size_pos n0 (2 * h + 1) H0 H1) as P. set (N := size n0 (2 * h + 1)) in *.
  assert (S1 : rsum2 delta n0 (2 * h + 1) = 1).
  { apply RtoC_inj. rewrite <- sum2_R. rewrite (sum2_single _ _ _ 0 0 H0 H1); [reflexivity|].
    intros i j _ _ Hne. unfold delta. destruct (Nat.eqb_spec i 0), (Nat.eqb_spec j 0); cbn [andb]; try reflexivity. exfalso; tauto. }
  assert (S2 : circ n0 (2 * h + 1) delta delta 0%nat 0%nat = 1).
  { rewrite <- S1. unfold circ. apply rsum2_ext. intros i j Hi Hj. rewrite !Nat.add_0_r, !Nat.mod_small by assumption.
    unfold delta. destruct (_ && _)%bool; ring. }
  rewrite S1, S2.
  set (G := zero_mode (fft2 n0 (2 * h + 1) delta)).
  assert (E : energy_fftw n0 (2 * h + 1) G = (N - 1 - INR n0) / 2 / (N * N)).
  { unfold energy_fftw. fold N. replace ((2 * h + 1) / 2 + 1)%nat with (h + 1)%nat.
    2:{ rewrite (Nat.mul_comm 2 h), Nat.div_add_l by lia. cbn. lia. }
    assert (F : rsum2 (fun k0 k1 => Cmod2 (G k0 k1)) n0 (2 * h + 1) = energy_loop n0 (h + 1) G + rsum (fun k0 => Cmod2 (G k0 h)) n0).
    { apply full_odd; try assumption. apply symmetric_zero_mode; [assumption|assumption|apply symmetric_fft; assumption]. }
    unfold G in F at 1. rewrite parseval0 in F by assumption. fold N in F. rewrite S1 in F.
    assert (E2 : rsum2 (fun x0 x1 => delta x0 x1 * delta x0 x1) n0 (2 * h + 1) = 1).
    { rewrite <- S1. apply rsum2_ext. intros. unfold delta. destruct (_ && _)%bool; ring. }
    rewrite E2 in F.
    assert (C : rsum (fun k0 => Cmod2 (G k0 h)) n0 = INR n0).
    { rewrite (rsum_ext _ (fun _ => 1)); [rewrite rsum_const; ring|]. intros k _. unfold G, zero_mode.
      replace (Nat.eqb h 0) with false by (symmetry; apply Nat.eqb_neq; lia). rewrite andb_false_r.
      rewrite fft2_delta by assumption. unfold Cmod2, C1. cbn. ring. }
    rewrite C in F. replace (energy_loop n0 (h + 1) G) with (N - 1 - INR n0) by lra. field. lra. }
  unfold norm_fftw. fold G N. rewrite E.
  assert (PN : 1 <= INR n0) by (change 1 with (INR 1); apply le_INR; lia).
  assert (PN3 : 3 <= INR (2 * h + 1)) by (replace 3 with (INR 3) by (cbn; ring); apply le_INR; lia).
  assert (Nn : N = INR n0 * INR (2 * h + 1)) by reflexivity.
  assert (Q : 0 <= N - 1 - INR n0) by nra.
  set (q := N - 1 - INR n0) in *.
  replace (4 * (q / 2 / (N * N)) * (q / 2 / (N * N))) with ((q / (N * N)) * (q / (N * N))) by (field; lra).
  rewrite sqrt_square.
  - replace (q / (N * N) * (N * N)) with q by (field; lra). unfold q. lra.
  - apply Rmult_le_pos; [exact Q|]. apply Rlt_le, Rinv_0_lt_compat. nra.
Qed.

Example C61_example : Rabs (correl_fftw 4 (2 * 3) delta delta 1%nat 2%nat) <= norm_fftw 4 (2 * 3) delta delta.
Proof. apply C61_fftw_even_partial; lia. Qed.

Print Assumptions C33_values.
Print Assumptions C33_maximum.
Print Assumptions C33_recovered_partial.
Print Assumptions C33_one_pixel.
Print Assumptions C33_period.
Print Assumptions C33_refuted.
Print Assumptions C45_numpy.
Print Assumptions C45_half_even_partial.
Print Assumptions C45_half_odd.
Print Assumptions C45_half_one.
Print Assumptions C45_refuted.
Print Assumptions C61_bound.
Print Assumptions C61_one.
Print Assumptions C61_fftw_even_partial.
Print Assumptions C61_refuted.

(** Lemmas on two-dimensional discrete Fourier transforms. *)
From Coq Require Import Reals Lra Lia ZArith Arith Bool.
From Coq Require Import ZifyNat.
From Verif Require Import FourierBase FourierModel.
Local Open Scope R_scope.

Lemma sum2_ext f g n0 n1 : (forall i j, (i < n0)%nat -> (j < n1)%nat -> f i j = g i j) -> sum2 f n0 n1 = sum2 g n0 n1.
Proof. intros H. unfold sum2. apply csum_ext. intros i Hi. apply csum_ext. intros j Hj. auto. Qed.
Lemma sum2_add f g n0 n1 : sum2 (fun i j => Cadd (f i j) (g i j)) n0 n1 = Cadd (sum2 f n0 n1) (sum2 g n0 n1).
Proof. unfold sum2. rewrite <- csum_add. apply csum_ext. intros. apply csum_add. Qed.
Lemma sum2_mul_l c f n0 n1 : sum2 (fun i j => Cmul c (f i j)) n0 n1 = Cmul c (sum2 f n0 n1).
Proof. unfold sum2. rewrite <- csum_mul_l. apply csum_ext. intros. apply csum_mul_l. Qed.
Lemma sum2_mul_r c f n0 n1 : sum2 (fun i j => Cmul (f i j) c) n0 n1 = Cmul (sum2 f n0 n1) c.
Proof. unfold sum2. rewrite <- csum_mul_r. apply csum_ext. intros. apply csum_mul_r. Qed.
Lemma sum2_conj f n0 n1 : Cconj (sum2 f n0 n1) = sum2 (fun i j => Cconj (f i j)) n0 n1.
Proof. unfold sum2. rewrite csum_conj. apply csum_ext. intros. apply csum_conj. Qed.
Lemma sum2_R f n0 n1 : sum2 (fun i j => RtoC (f i j)) n0 n1 = RtoC (rsum2 f n0 n1).
Proof. unfold sum2, rsum2. rewrite <- csum_R. apply csum_ext. intros. apply csum_R. Qed.
Lemma sum2_swap (f : nat -> nat -> nat -> nat -> Cx) n0 n1 m0 m1 :
  sum2 (fun i0 i1 => sum2 (fun j0 j1 => f i0 i1 j0 j1) m0 m1) n0 n1 =
  sum2 (fun j0 j1 => sum2 (fun i0 i1 => f i0 i1 j0 j1) n0 n1) m0 m1.
Proof.
  unfold sum2.
  rewrite (csum_ext _ (fun i0 => csum (fun j0 => csum (fun i1 => csum (fun j1 => f i0 i1 j0 j1) m1) n1) m0))
    by (intros; apply csum_swap).
  rewrite csum_swap. apply csum_ext. intros j0 _.
  rewrite (csum_ext _ (fun i0 => csum (fun j1 => csum (fun i1 => f i0 i1 j0 j1) n1) m1)) by (intros; apply csum_swap).
  rewrite csum_swap. reflexivity.
Qed.
Lemma sum2_prod f g n0 n1 : sum2 (fun i j => Cmul (f i) (g j)) n0 n1 = Cmul (csum f n0) (csum g n1).
Proof.
  unfold sum2. rewrite <- csum_mul_r. apply csum_ext. intros. apply csum_mul_l.
Qed.
Lemma sum2_single f n0 n1 a b :
  (a < n0)%nat -> (b < n1)%nat -> (forall i j, (i < n0)%nat -> (j < n1)%nat -> i <> a \/ j <> b -> f i j = C0) ->
  sum2 f n0 n1 = f a b.
Proof.
  intros Ha Hb H. unfold sum2. rewrite (csum_single _ n0 a Ha).
  - apply csum_single; [exact Hb|]. intros; apply H; auto.
  - intros i Hi Hne. rewrite (csum_ext _ (fun _ => C0)); [apply csum_0|]. intros; apply H; auto.
Qed.

Lemma rsum2_ext f g n0 n1 : (forall i j, (i < n0)%nat -> (j < n1)%nat -> f i j = g i j) -> rsum2 f n0 n1 = rsum2 g n0 n1.
Proof. intros H. unfold rsum2. apply rsum_ext. intros i Hi. apply rsum_ext. intros j Hj. auto. Qed.
Lemma rsum2_le f g n0 n1 : (forall i j, (i < n0)%nat -> (j < n1)%nat -> f i j <= g i j) -> rsum2 f n0 n1 <= rsum2 g n0 n1.
Proof. intros H. unfold rsum2. apply rsum_le. intros i Hi. apply rsum_le. intros j Hj. auto. Qed.
Lemma rsum2_plus f g n0 n1 : rsum2 (fun i j => f i j + g i j) n0 n1 = rsum2 f n0 n1 + rsum2 g n0 n1.
Proof. unfold rsum2. rewrite <- rsum_plus. apply rsum_ext. intros. apply rsum_plus. Qed.
Lemma rsum2_scal c f n0 n1 : rsum2 (fun i j => c * f i j) n0 n1 = c * rsum2 f n0 n1.
Proof. unfold rsum2. rewrite <- rsum_scal. apply rsum_ext. intros. apply rsum_scal. Qed.
Lemma rsum2_pos f n0 n1 : (forall i j, (i < n0)%nat -> (j < n1)%nat -> 0 <= f i j) -> 0 <= rsum2 f n0 n1.
Proof. intros H. apply rsum_pos. intros. apply rsum_pos. auto. Qed.
Lemma rsum2_const c n0 n1 : rsum2 (fun _ _ => c) n0 n1 = size n0 n1 * c.
Proof. unfold rsum2, size. rewrite rsum_const, rsum_const. ring. Qed.
Lemma rsum2_shift f n0 n1 d0 d1 : (0 < n0)%nat -> (0 < n1)%nat ->
  rsum2 (fun i j => f ((i + d0) mod n0)%nat ((j + d1) mod n1)%nat) n0 n1 = rsum2 f n0 n1.
Proof.
  intros H0 H1. unfold rsum2. rewrite <- (rsum_shift (fun i => rsum (f i) n1) n0 d0 H0).
  apply rsum_ext. intros. apply (rsum_shift (f ((k + d0) mod n0)%nat) n1 d1 H1).
Qed.

Lemma size_pos n0 n1 : (0 < n0)%nat -> (0 < n1)%nat -> 0 < size n0 n1.
Proof. intros. unfold size. apply Rmult_lt_0_compat; apply lt_0_INR; assumption. Qed.

Section Dft.
Variables n0 n1 : nat.
Hypothesis H0 : (0 < n0)%nat.
Hypothesis H1 : (0 < n1)%nat.

Definition zdvd (n : nat) (a : Z) : bool := Z.eqb (a mod Z.of_nat n) 0.

Lemma orth2 a0 a1 :
  sum2 (fun k0 k1 => Cmul (w n0 (Z.of_nat k0 * a0)) (w n1 (Z.of_nat k1 * a1))) n0 n1
  = if zdvd n0 a0 && zdvd n1 a1 then RtoC (size n0 n1) else C0.
Proof.
  rewrite (sum2_prod (fun k0 => w n0 (Z.of_nat k0 * a0)) (fun k1 => w n1 (Z.of_nat k1 * a1))).
  rewrite !orthogonality by assumption. unfold zdvd, size. rewrite RtoC_mul.
  destruct (a0 mod Z.of_nat n0 =? 0)%Z, (a1 mod Z.of_nat n1 =? 0)%Z; cbn [andb]; ring.
Qed.

Lemma zdvd_shift n x l y : (0 < n)%nat -> (y < n)%nat ->
  zdvd n (Z.of_nat x + - Z.of_nat y + Z.of_nat l) = Nat.eqb y ((x + l) mod n).
Proof.
  intros Hn Hy. unfold zdvd. destruct (Nat.eqb_spec y ((x + l) mod n)) as [E|E].
  - apply Z.eqb_eq. rewrite E, Nat2Z.inj_mod, Nat2Z.inj_add.
    pose proof (Z.div_mod (Z.of_nat x + Z.of_nat l) (Z.of_nat n) ltac:(lia)) as D.
    replace (Z.of_nat x + - ((Z.of_nat x + Z.of_nat l) mod Z.of_nat n) + Z.of_nat l)%Z
      with ((Z.of_nat x + Z.of_nat l) / Z.of_nat n * Z.of_nat n)%Z by lia.
    apply Z.mod_mul. lia.
  - apply Z.eqb_neq. intros Z0. apply Z.mod_divide in Z0; [|lia]. destruct Z0 as (q & Hq).
    apply E. apply Nat2Z.inj. rewrite Nat2Z.inj_mod, Nat2Z.inj_add.
    apply Z.mod_unique with (q := q); lia.
Qed.

(** correlation theorem *)
Lemma correlation_theorem (f g : field) l0 l1 :
  isum2 n0 n1 (product (fft2 n0 n1 f) (fft2 n0 n1 g)) l0 l1 =
  RtoC (size n0 n1 * rsum2 (fun x0 x1 => f x0 x1 * g ((x0 + l0) mod n0)%nat ((x1 + l1) mod n1)%nat) n0 n1).
Proof.
  unfold isum2, product.
  set (T := fun k0 k1 x0 x1 y0 y1 =>
    Cmul (Cmul (RtoC (f x0 x1)) (RtoC (g y0 y1)))
         (Cmul (w n0 (Z.of_nat k0 * (Z.of_nat x0 + - Z.of_nat y0 + Z.of_nat l0)))
               (w n1 (Z.of_nat k1 * (Z.of_nat x1 + - Z.of_nat y1 + Z.of_nat l1))))).
  rewrite (sum2_ext _ (fun k0 k1 => sum2 (fun x0 x1 => sum2 (fun y0 y1 => T k0 k1 x0 x1 y0 y1) n0 n1) n0 n1)).
  - rewrite sum2_swap.
    rewrite (sum2_ext _ (fun x0 x1 => RtoC (size n0 n1 * (f x0 x1 * g ((x0 + l0) mod n0)%nat ((x1 + l1) mod n1)%nat)))).
    + rewrite sum2_R, rsum2_scal. reflexivity.
    + intros x0 x1 Hx0 Hx1. rewrite sum2_swap.
      assert (M0 : ((x0 + l0) mod n0 < n0)%nat) by (apply Nat.mod_upper_bound; lia).
      assert (M1 : ((x1 + l1) mod n1 < n1)%nat) by (apply Nat.mod_upper_bound; lia).
      rewrite (sum2_single _ n0 n1 _ _ M0 M1).
      * unfold T. rewrite sum2_mul_l, orth2, !zdvd_shift, !Nat.eqb_refl by assumption. cbn [andb].
        rewrite !RtoC_mul. ring.
      * intros y0 y1 Hy0 Hy1 Hne. unfold T. rewrite sum2_mul_l, orth2, !zdvd_shift by assumption.
        destruct (Nat.eqb_spec y0 ((x0 + l0) mod n0)), (Nat.eqb_spec y1 ((x1 + l1) mod n1)); cbn [andb]; try ring.
        exfalso. tauto.
  - intros k0 k1 _ _. unfold fft2. rewrite sum2_conj.
    rewrite <- sum2_mul_r. rewrite <- sum2_mul_r. apply sum2_ext. intros x0 x1 _ _.
    rewrite <- sum2_mul_l, <- sum2_mul_r. apply sum2_ext. intros y0 y1 _ _. unfold T.
    rewrite !Cconj_mul, Cconj_R, !w_conj.
    replace (Z.of_nat k0 * (Z.of_nat x0 + - Z.of_nat y0 + Z.of_nat l0))%Z
      with (- (Z.of_nat k0 * - Z.of_nat x0) + (Z.of_nat k0 * - Z.of_nat y0 + Z.of_nat k0 * Z.of_nat l0))%Z by ring.
    replace (Z.of_nat k1 * (Z.of_nat x1 + - Z.of_nat y1 + Z.of_nat l1))%Z
      with (- (Z.of_nat k1 * - Z.of_nat x1) + (Z.of_nat k1 * - Z.of_nat y1 + Z.of_nat k1 * Z.of_nat l1))%Z by ring.
    rewrite !w_add by assumption. ring.
Qed.

Lemma zero_mode_product (F G : cfield) : forall k0 k1, product (zero_mode F) (zero_mode G) k0 k1 = zero_mode (product F G) k0 k1.
Proof.
  intros k0 k1. unfold product, zero_mode. destruct (Nat.eqb k0 0 && Nat.eqb k1 0)%bool; [cx|reflexivity].
Qed.

Lemma sum2_zero_mode (G h : cfield) :
  sum2 (fun k0 k1 => Cmul (zero_mode G k0 k1) (h k0 k1)) n0 n1 =
  Csub (sum2 (fun k0 k1 => Cmul (G k0 k1) (h k0 k1)) n0 n1) (Cmul (G 0%nat 0%nat) (h 0%nat 0%nat)).
Proof.
  set (D := fun k0 k1 => if (Nat.eqb k0 0 && Nat.eqb k1 0)%bool then Cmul (G k0 k1) (h k0 k1) else C0).
  assert (E : sum2 D n0 n1 = Cmul (G 0%nat 0%nat) (h 0%nat 0%nat)).
  { rewrite (sum2_single D n0 n1 0 0 H0 H1); [reflexivity|]. intros i j _ _ Hne. unfold D.
    destruct (Nat.eqb_spec i 0), (Nat.eqb_spec j 0); cbn [andb]; try reflexivity. exfalso; tauto. }
  rewrite <- E.
  rewrite (sum2_ext (fun k0 k1 => Cmul (G k0 k1) (h k0 k1)) (fun k0 k1 => Cadd (Cmul (zero_mode G k0 k1) (h k0 k1)) (D k0 k1))).
  - rewrite sum2_add. ring.
  - intros i j _ _. unfold zero_mode, D. destruct (Nat.eqb i 0 && Nat.eqb j 0)%bool; ring.
Qed.

Lemma fft2_00 (f : field) : fft2 n0 n1 f 0%nat 0%nat = RtoC (rsum2 f n0 n1).
Proof.
  unfold fft2. rewrite <- sum2_R. apply sum2_ext. intros. cbn [Z.of_nat Z.mul]. rewrite !w_0. ring.
Qed.

(** covariance for a lag *)
Definition circ (f g : field) (l0 l1 : nat) : R :=
  rsum2 (fun x0 x1 => f x0 x1 * g ((x0 + l0) mod n0)%nat ((x1 + l1) mod n1)%nat) n0 n1.

Lemma isum2_zero_mode (F : cfield) l0 l1 :
  isum2 n0 n1 (zero_mode F) l0 l1 = Csub (isum2 n0 n1 F l0 l1) (F 0%nat 0%nat).
Proof.
  unfold isum2. rewrite sum2_zero_mode. cbn [Z.of_nat Z.mul]. rewrite !w_0. ring.
Qed.

Lemma isum2_correl (f g : field) l0 l1 :
  isum2 n0 n1 (product (zero_mode (fft2 n0 n1 f)) (zero_mode (fft2 n0 n1 g))) l0 l1 =
  RtoC (size n0 n1 * circ f g l0 l1 - rsum2 f n0 n1 * rsum2 g n0 n1).
Proof.
  transitivity (isum2 n0 n1 (zero_mode (product (fft2 n0 n1 f) (fft2 n0 n1 g))) l0 l1).
  - unfold isum2. apply sum2_ext. intros. rewrite zero_mode_product. reflexivity.
  - rewrite isum2_zero_mode, correlation_theorem. unfold product at 1. rewrite !fft2_00, Cconj_R. unfold circ. cx.
Qed.

Lemma correl_np_spec (f g : field) l0 l1 :
  correl_np n0 n1 f g l0 l1 = circ f g l0 l1 - rsum2 f n0 n1 * rsum2 g n0 n1 / size n0 n1.
Proof.
  unfold correl_np, ifft2. rewrite isum2_correl, <- RtoC_mul. unfold Cre, RtoC. cbn [fst].
  pose proof (size_pos n0 n1 H0 H1). field. lra.
Qed.

(** Hermitian symmetry of the transform of a real field *)
Lemma neg_w n k x : (0 < n)%nat -> (k < n)%nat -> w n (Z.of_nat ((n - k) mod n) * x) = w n (- (Z.of_nat k * x)).
Proof.
  intros Hn Hk. destruct k as [|k].
  - rewrite Nat.sub_0_r, Nat.mod_same by lia. reflexivity.
  - rewrite Nat.mod_small by lia.
    replace (Z.of_nat (n - S k) * x)%Z with (- (Z.of_nat (S k) * x) + Z.of_nat n * x)%Z by lia.
    apply w_periodic. assumption.
Qed.

Lemma hermitian (f : field) k0 k1 : (k0 < n0)%nat -> (k1 < n1)%nat ->
  fft2 n0 n1 f ((n0 - k0) mod n0)%nat ((n1 - k1) mod n1)%nat = Cconj (fft2 n0 n1 f k0 k1).
Proof.
  intros K0 K1. unfold fft2. rewrite sum2_conj. apply sum2_ext. intros x0 x1 _ _.
  rewrite !neg_w by assumption. rewrite !Cconj_mul, Cconj_R, !w_conj. reflexivity.
Qed.

Lemma extend_product (f g : field) k0 k1 : (k0 < n0)%nat -> (k1 < n1)%nat ->
  extend n0 n1 (product (zero_mode (fft2 n0 n1 f)) (zero_mode (fft2 n0 n1 g))) k0 k1 =
  product (zero_mode (fft2 n0 n1 f)) (zero_mode (fft2 n0 n1 g)) k0 k1.
Proof.
  intros K0 K1. unfold extend. destruct (Nat.leb_spec k1 (n1 / 2)) as [|Hk]; [reflexivity|].
  assert (D := Nat.div_mod n1 2 ltac:(lia)). assert (0 < k1)%nat by lia.
  rewrite !zero_mode_product. unfold zero_mode.
  replace (Nat.eqb (n1 - k1) 0) with false by (symmetry; apply Nat.eqb_neq; lia).
  replace (Nat.eqb k1 0) with false by (symmetry; apply Nat.eqb_neq; lia). rewrite !andb_false_r.
  unfold product. rewrite <- (Nat.mod_small (n1 - k1) n1) by lia.
  rewrite !hermitian by assumption. rewrite !Cconj_mul, !Cconj_invol. reflexivity.
Qed.

Lemma correl_fftw_spec (f g : field) l0 l1 :
  correl_fftw n0 n1 f g l0 l1 = size n0 n1 * circ f g l0 l1 - rsum2 f n0 n1 * rsum2 g n0 n1.
Proof.
  unfold correl_fftw, ifft_fftw.
  transitivity (Cre (isum2 n0 n1 (product (zero_mode (fft2 n0 n1 f)) (zero_mode (fft2 n0 n1 g))) l0 l1)).
  - f_equal. unfold isum2. apply sum2_ext. intros. rewrite extend_product by assumption. reflexivity.
  - rewrite isum2_correl. reflexivity.
Qed.

(** Parseval *)
Lemma parseval (f : field) :
  rsum2 (fun k0 k1 => Cmod2 (fft2 n0 n1 f k0 k1)) n0 n1 = size n0 n1 * rsum2 (fun x0 x1 => f x0 x1 * f x0 x1) n0 n1.
Proof.
  apply RtoC_inj. rewrite <- sum2_R.
  transitivity (isum2 n0 n1 (product (fft2 n0 n1 f) (fft2 n0 n1 f)) 0%nat 0%nat).
  - unfold isum2, product. apply sum2_ext. intros. cbn [Z.of_nat]. rewrite !Z.mul_0_r, !w_0, <- Cmul_conj. ring.
  - rewrite correlation_theorem. f_equal. f_equal. apply rsum2_ext. intros i j Hi Hj.
    rewrite !Nat.add_0_r, !Nat.mod_small by assumption. reflexivity.
Qed.

Lemma parseval0 (f : field) :
  rsum2 (fun k0 k1 => Cmod2 (zero_mode (fft2 n0 n1 f) k0 k1)) n0 n1 =
  size n0 n1 * rsum2 (fun x0 x1 => f x0 x1 * f x0 x1) n0 n1 - rsum2 f n0 n1 * rsum2 f n0 n1.
Proof.
  apply RtoC_inj. rewrite <- sum2_R.
  transitivity (isum2 n0 n1 (product (zero_mode (fft2 n0 n1 f)) (zero_mode (fft2 n0 n1 f))) 0%nat 0%nat).
  - unfold isum2, product. apply sum2_ext. intros. cbn [Z.of_nat]. rewrite !Z.mul_0_r, !w_0, <- Cmul_conj. ring.
  - rewrite isum2_correl. f_equal. unfold circ. do 2 f_equal. apply rsum2_ext. intros i j Hi Hj.
    rewrite !Nat.add_0_r, !Nat.mod_small by assumption. reflexivity.
Qed.
End Dft.

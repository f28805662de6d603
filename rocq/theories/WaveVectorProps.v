(** C122: the wave vector found in the reference frame of the surface tracking, the gain and the filter. *)
From Coq Require Import Reals ZArith List Lia Lra Bool.
From Coq Require Import ZifyNat.
From Verif Require Import FourierBase FourierModel FourierProofs WaveVectorModel.
Local Open Scope R_scope.

(** ** Specification: the power of the plane wave with [ky] periods on [n0] lines and [kx] periods on [n1] columns in
    an image of [h] lines and [l] columns *)
Definition phase_at (n0 n1 : nat) (ky kx : Z) (y x : nat) : R :=
  2 * PI * (IZR ky * INR y / INR n0 + IZR kx * INR x / INR n1).
Definition power (ref : field) (h l n0 n1 : nat) (ky kx : Z) : R :=
  (rsum2 (fun y x => ref y x * cos (phase_at n0 n1 ky kx y x)) h l) ^ 2
  + (rsum2 (fun y x => ref y x * sin (phase_at n0 n1 ky kx y x)) h l) ^ 2.

(** ** Lemmas *)
Lemma csum_trunc f g n m : (m <= n)%nat -> (forall k, (k < m)%nat -> f k = g k) ->
  (forall k, (m <= k)%nat -> f k = C0) -> csum f n = csum g m.
Proof.
  intros Hm E Z. induction n as [|n IH].
  - replace m with O by lia. reflexivity.
  - destruct (Nat.eq_dec m (S n)) as [->|Hne]; [apply csum_ext; exact E|].
    cbn [csum]. rewrite IH by lia. rewrite Z by lia. ring.
Qed.

Definition G (ref : field) (h l n0 n1 : nat) (ky kx : Z) : Cx :=
  sum2 (fun y x => Cmul (RtoC (ref y x)) (Cmul (w n0 (ky * - Z.of_nat y)) (w n1 (kx * - Z.of_nat x)))) h l.

Lemma fft2_padded ref h l n0 n1 k0 k1 : (h <= n0)%nat -> (l <= n1)%nat ->
  fft2 n0 n1 (zero_padded h l ref) k0 k1 = G ref h l n0 n1 (Z.of_nat k0) (Z.of_nat k1).
Proof.
  intros H0 H1. unfold fft2, G, sum2. apply csum_trunc; [exact H0| |].
  - intros y Hy. apply csum_trunc; [exact H1| |].
    + intros x Hx. unfold zero_padded. rewrite (proj2 (Nat.ltb_lt y h) Hy), (proj2 (Nat.ltb_lt x l) Hx). reflexivity.
    + intros x Hx. unfold zero_padded. rewrite (proj2 (Nat.ltb_ge x l) Hx), andb_false_r. cx.
  - intros y Hy. transitivity (csum (fun _ => C0) n1); [|apply csum_0]. apply csum_ext. intros x _.
    unfold zero_padded. rewrite (proj2 (Nat.ltb_ge y h) Hy). cbn [andb]. cx.
Qed.

Lemma w_prod n0 n1 ky kx y x : (0 < n0)%nat -> (0 < n1)%nat ->
  Cmul (w n0 (ky * - Z.of_nat y)) (w n1 (kx * - Z.of_nat x))
  = (cos (phase_at n0 n1 ky kx y x), - sin (phase_at n0 n1 ky kx y x)).
Proof.
  intros H0 H1. unfold w.
  replace (phase_at n0 n1 ky kx y x) with (- (ang n0 (ky * - Z.of_nat y) + ang n1 (kx * - Z.of_nat x))).
  - rewrite cos_neg, sin_neg, cos_plus, sin_plus. unfold Cmul. cbn [fst snd]. f_equal; ring.
  - unfold phase_at, ang. rewrite !mult_IZR, !opp_IZR, <- !INR_IZR_INZ.
    assert (INR n0 <> 0) by (apply not_0_INR; lia). assert (INR n1 <> 0) by (apply not_0_INR; lia). field. auto.
Qed.

Lemma csum_pair f g n : csum (fun k => (f k, g k)) n = (rsum f n, rsum g n).
Proof. induction n as [|n IH]; [reflexivity|]. cbn [csum rsum]. rewrite IH. reflexivity. Qed.

Lemma rsum2_opp f n m : rsum2 (fun i j => - f i j) n m = - rsum2 f n m.
Proof.
  replace (- rsum2 f n m) with ((-1) * rsum2 f n m) by ring. rewrite <- rsum2_scal. apply rsum2_ext. intros. ring.
Qed.

Lemma power_G ref h l n0 n1 ky kx : (0 < n0)%nat -> (0 < n1)%nat ->
  power ref h l n0 n1 ky kx = Cmod2 (G ref h l n0 n1 ky kx).
Proof.
  intros H0 H1. unfold G.
  rewrite (sum2_ext _ (fun y x => (ref y x * cos (phase_at n0 n1 ky kx y x), - (ref y x * sin (phase_at n0 n1 ky kx y x))))).
  2:{ intros y x _ _. rewrite w_prod by assumption. unfold Cmul, RtoC. cbn [fst snd]. f_equal; ring. }
  unfold sum2.
  rewrite (csum_ext _ (fun y => (rsum (fun x => ref y x * cos (phase_at n0 n1 ky kx y x)) l,
                                 rsum (fun x => - (ref y x * sin (phase_at n0 n1 ky kx y x))) l)))
    by (intros; apply csum_pair).
  rewrite csum_pair. unfold Cmod2. cbn [fst snd].
  change (rsum (fun y => rsum (fun x => - (ref y x * sin (phase_at n0 n1 ky kx y x))) l) h)
    with (rsum2 (fun y x => - (ref y x * sin (phase_at n0 n1 ky kx y x))) h l).
  rewrite rsum2_opp. unfold power, rsum2. ring.
Qed.

Lemma G_mod ref h l n0 n1 ky kx ky' kx' : (0 < n0)%nat -> (0 < n1)%nat ->
  (ky mod Z.of_nat n0 = ky' mod Z.of_nat n0)%Z -> (kx mod Z.of_nat n1 = kx' mod Z.of_nat n1)%Z ->
  G ref h l n0 n1 ky kx = G ref h l n0 n1 ky' kx'.
Proof.
  intros H0 H1 E0 E1. unfold G. apply sum2_ext. intros y x _ _.
  rewrite <- (w_mod n0 (ky * _)), <- (w_mod n1 (kx * _)), <- (w_mod n0 (ky' * _)), <- (w_mod n1 (kx' * _)) by assumption.
  rewrite (Z.mul_mod ky), (Z.mul_mod kx), (Z.mul_mod ky'), (Z.mul_mod kx'), E0, E1 by lia. reflexivity.
Qed.

Lemma power_mod ref h l n0 n1 ky kx ky' kx' : (0 < n0)%nat -> (0 < n1)%nat ->
  (ky mod Z.of_nat n0 = ky' mod Z.of_nat n0)%Z -> (kx mod Z.of_nat n1 = kx' mod Z.of_nat n1)%Z ->
  power ref h l n0 n1 ky kx = power ref h l n0 n1 ky' kx'.
Proof. intros. rewrite !power_G by assumption. f_equal. apply G_mod; assumption. Qed.

Lemma power_neg ref h l n0 n1 ky kx : power ref h l n0 n1 (- ky) (- kx) = power ref h l n0 n1 ky kx.
Proof.
  unfold power.
  assert (E : forall y x, phase_at n0 n1 (- ky) (- kx) y x = - phase_at n0 n1 ky kx y x).
  { intros. unfold phase_at. rewrite !opp_IZR. unfold Rdiv. ring. }
  rewrite (rsum2_ext (fun y x => ref y x * cos (phase_at n0 n1 (- ky) (- kx) y x))
                     (fun y x => ref y x * cos (phase_at n0 n1 ky kx y x))).
  2:{ intros. rewrite E, cos_neg. reflexivity. }
  rewrite (rsum2_ext (fun y x => ref y x * sin (phase_at n0 n1 (- ky) (- kx) y x))
                     (fun y x => - (ref y x * sin (phase_at n0 n1 ky kx y x)))).
  2:{ intros. rewrite E, sin_neg. ring. }
  rewrite rsum2_opp. ring.
Qed.

Lemma power_pos ref h l n0 n1 ky kx : 0 <= power ref h l n0 n1 ky kx.
Proof. unfold power. apply Rplus_le_le_0_compat; apply pow2_ge_0. Qed.

Lemma max_upto_ge f n i : (i <= n)%nat -> f i <= max_upto f n.
Proof.
  induction n as [|n IH]; intros Hi; cbn.
  - replace i with O by lia. lra.
  - destruct (Nat.eq_dec i (S n)) as [->|]; [apply Rmax_r|]. eapply Rle_trans; [apply IH; lia|apply Rmax_l].
Qed.
Lemma max_upto_lt f n B : (forall i, (i <= n)%nat -> f i < B) -> max_upto f n < B.
Proof. induction n as [|n IH]; intros H; cbn; [apply H; lia|]. apply Rmax_lub_lt; [apply IH|]; auto with arith. Qed.
Lemma max_upto_le f n B : (forall i, (i <= n)%nat -> f i <= B) -> max_upto f n <= B.
Proof. induction n as [|n IH]; intros H; cbn; [apply H; lia|]. apply Rmax_lub; [apply IH|]; auto with arith. Qed.

Lemma argmax_upto_spec f n : (argmax_upto f n <= n)%nat /\ (forall i, (i <= n)%nat -> f i <= f (argmax_upto f n)) /\
  (forall i, (i < argmax_upto f n)%nat -> f i < f (argmax_upto f n)).
Proof.
  induction n as [|n (A & B & C)].
  - cbn. repeat split; [lia| |]; intros i Hi; [replace i with O by lia; lra|lia].
  - cbn. destruct (Rlt_dec _ _) as [Hl|Hl].
    + repeat split; [lia| |].
      * intros i Hi. destruct (Nat.eq_dec i (S n)) as [->|]; [lra|]. apply Rlt_le, (Rle_lt_trans _ _ _ (B i ltac:(lia)) Hl).
      * intros i Hi. apply (Rle_lt_trans _ _ _ (B i ltac:(lia)) Hl).
    + repeat split; [lia| |].
      * intros i Hi. destruct (Nat.eq_dec i (S n)) as [->|]; [lra|]. apply B. lia.
      * exact C.
Qed.

Lemma argmax_upto_unique f n j : (j <= n)%nat -> (forall i, (i <= n)%nat -> f i <= f j) ->
  (forall i, (i < j)%nat -> f i < f j) -> argmax_upto f n = j.
Proof.
  intros Hj A B. destruct (argmax_upto_spec f n) as (P & Q & R'). set (a := argmax_upto f n) in *.
  destruct (Nat.lt_trichotomy a j) as [L|[E|L]]; [|exact E|].
  - pose proof (B a L). pose proof (Q j Hj). lra.
  - pose proof (R' j L). pose proof (A a P). lra.
Qed.

Lemma shifted_lt n k : (0 < n)%nat -> (shifted n k < n)%nat.
Proof. intros. unfold shifted. apply Nat.mod_upper_bound. lia. Qed.
Lemma shifted_mod n k : (0 < n)%nat ->
  (Z.of_nat (shifted n k) mod Z.of_nat n = (Z.of_nat k - Z.of_nat (n / 2)) mod Z.of_nat n)%Z.
Proof.
  intros Hn. unfold shifted. rewrite Nat2Z.inj_mod, Zmod_mod, Nat2Z.inj_add, Nat2Z.inj_sub.
  2:{ apply Nat.lt_le_incl, Nat.div_lt; lia. }
  replace (Z.of_nat k + (Z.of_nat n - Z.of_nat (n / 2)))%Z
    with (Z.of_nat k - Z.of_nat (n / 2) + 1 * Z.of_nat n)%Z by ring.
  apply Z_mod_plus_full.
Qed.

Lemma row_of n0 (ky : Z) : (0 < n0)%nat -> exists i, (i <= n0 - 1)%nat /\
  (Z.of_nat (shifted n0 i) mod Z.of_nat n0 = ky mod Z.of_nat n0)%Z.
Proof.
  intros Hn. exists (Z.to_nat ((ky + Z.of_nat (n0 / 2)) mod Z.of_nat n0)).
  pose proof (Z.mod_pos_bound (ky + Z.of_nat (n0 / 2)) (Z.of_nat n0) ltac:(lia)) as B.
  split; [lia|]. rewrite shifted_mod by exact Hn. rewrite Z2Nat.id by lia.
  rewrite Zminus_mod_idemp_l. f_equal. ring.
Qed.

Lemma mod_eq_0 a b n : (0 < n)%Z -> ((a - b) mod n = 0)%Z <-> (a mod n = b mod n)%Z.
Proof.
  intros Hn. split.
  - intros E. apply Z.mod_divide in E; [|lia]. destruct E as (q & E). replace a with (b + q * n)%Z by lia.
    apply Z_mod_plus_full.
  - intros E. rewrite Zminus_mod, E, Z.sub_diag. reflexivity.
Qed.

Lemma mod_eq_small a b n : (0 < n)%Z -> (a mod n = b mod n)%Z -> (- n < a - b < n)%Z -> a = b.
Proof.
  intros Hn E B. apply mod_eq_0 in E; [|exact Hn]. apply Z.mod_divide in E; [|lia]. destruct E as (q & E).
  assert (q = 0)%Z by nia. lia.
Qed.

Lemma half_div n : exists b : nat, (b = 0 \/ b = 1)%nat /\ (n = 2 * (n / 2) + b)%nat /\ (Nat.even n = true <-> b = 0%nat).
Proof.
  exists (n mod 2)%nat. pose proof (Nat.div_mod_eq n 2) as D. pose proof (Nat.mod_upper_bound n 2 ltac:(lia)) as B.
  split; [lia|]. split; [exact D|].
  rewrite Nat.even_spec. split.
  - intros (q & ->). rewrite Nat.mul_comm. apply Nat.mod_mul. lia.
  - intros E. exists (n / 2)%nat. lia.
Qed.

(** ** The wave vector *)
(** C122: when one wavenumber is stronger than any other one in the reference frame, it is found, for an even number
    of columns; for an odd one half a wavenumber is added *)
Theorem C122_wave : forall (ref : field) h l sur m, (0 < h)%nat -> (0 < l)%nat -> (0 < sur)%nat ->
  (2 * m <= l * sur)%nat ->
  (exists ky0 : Z, forall ky kx : Z,
     ((kx - Z.of_nat m) mod Z.of_nat (l * sur) <> 0)%Z -> ((kx + Z.of_nat m) mod Z.of_nat (l * sur) <> 0)%Z ->
     power ref h l (h * sur) (l * sur) ky kx < power ref h l (h * sur) (l * sur) ky0 (Z.of_nat m)) ->
  wave_vector ref h l sur = (INR m + if Nat.even (l * sur) then 0 else 1 / 2) / INR sur.
Proof.
  intros ref h l sur m Hh Hl Hs Hm (ky0 & Dom). unfold wave_vector.
  set (n0 := (h * sur)%nat) in *. set (n1 := (l * sur)%nat) in *.
  assert (N0 : (0 < n0)%nat) by (unfold n0; nia). assert (N1 : (0 < n1)%nat) by (unfold n1; nia).
  assert (L0 : (h <= n0)%nat) by (unfold n0; nia). assert (L1 : (l <= n1)%nat) by (unfold n1; nia).
  destruct (half_div n1) as (b & Hb & D & Ev).
  set (col := fun j => max_upto _ _).
  set (P := power ref h l n0 n1) in *.
  assert (Abs : forall k0 k1, Cabs (fft2 n0 n1 (zero_padded h l ref) k0 k1) = sqrt (P (Z.of_nat k0) (Z.of_nat k1))).
  { intros. unfold Cabs, P. rewrite fft2_padded, power_G by assumption. reflexivity. }
  assert (Upper : forall j B, (forall ky, P ky (Z.of_nat (shifted n1 j)) < B ^ 2) -> 0 <= B -> col j < B).
  { intros j B HB B0. unfold col. apply max_upto_lt. intros i _. rewrite Abs.
    rewrite <- (sqrt_pow2 B B0). apply sqrt_lt_1_alt. split; [apply power_pos|apply HB]. }
  assert (Lower : forall j ky, sqrt (P ky (Z.of_nat (shifted n1 j))) <= col j).
  { intros j ky. destruct (row_of n0 ky N0) as (i & Hi & E). unfold col.
    refine (Rle_trans _ _ _ _ (max_upto_ge _ _ i Hi)). rewrite Abs. apply Req_le. f_equal. unfold P.
    apply power_mod; [assumption|assumption|symmetry; exact E|reflexivity]. }
  set (j0 := (n1 / 2 - m)%nat).
  assert (J0 : Z.of_nat j0 = (Z.of_nat (n1 / 2) - Z.of_nat m)%Z) by (unfold j0; lia).
  assert (C0' : sqrt (P ky0 (Z.of_nat m)) <= col j0).
  { refine (Rle_trans _ _ _ _ (Lower j0 (- ky0)%Z)). apply Req_le. f_equal. unfold P.
    rewrite <- power_neg. apply power_mod; [assumption|assumption|reflexivity|].
    rewrite shifted_mod by exact N1. f_equal. lia. }
  assert (Argmax : argmax_upto col (n1 - 1) = j0).
  { assert (Other : forall j, (j <= n1 - 1)%nat -> j = j0 \/ col j < col j0 \/
      ((Z.of_nat j - Z.of_nat (n1 / 2)) mod Z.of_nat n1 = Z.of_nat m mod Z.of_nat n1)%Z).
    { intros j Hj. set (s := (Z.of_nat j - Z.of_nat (n1 / 2))%Z).
      destruct (Z.eq_dec (s mod Z.of_nat n1) (Z.of_nat m mod Z.of_nat n1)) as [E|E]; [right; right; exact E|].
      destruct (Z.eq_dec (s mod Z.of_nat n1) ((- Z.of_nat m) mod Z.of_nat n1)) as [E'|E'].
      - left. apply mod_eq_small in E'; [unfold s in E'; lia|lia|unfold s; lia].
      - right; left. refine (Rlt_le_trans _ _ _ _ C0'). apply Upper; [|apply sqrt_pos].
        intros ky. rewrite pow2_sqrt by apply power_pos. apply Dom.
        + intros F. apply mod_eq_0 in F; [|lia]. rewrite shifted_mod in F by exact N1. exact (E F).
        + intros F. replace (Z.of_nat (shifted n1 j) + Z.of_nat m)%Z with (Z.of_nat (shifted n1 j) - - Z.of_nat m)%Z in F by ring.
          apply mod_eq_0 in F; [|lia]. rewrite shifted_mod in F by exact N1. exact (E' F). }
    apply argmax_upto_unique.
    - unfold j0. lia.
    - intros j Hj. destruct (Other j Hj) as [->|[L|E]]; [lra|lra|].
      unfold col at 1. apply max_upto_le. intros i _. rewrite Abs.
      refine (Rle_trans _ _ _ _ (Lower j0 (- Z.of_nat (shifted n0 i))%Z)). apply Req_le. f_equal. unfold P.
      rewrite <- power_neg. apply power_mod; [assumption|assumption|reflexivity|].
      apply mod_eq_0; [lia|]. rewrite Zminus_mod, shifted_mod, <- Zminus_mod by exact N1.
      apply mod_eq_0 in E; [|lia]. pose proof (shifted_mod n1 j N1) as S1. rewrite <- (Zmod_mod _ _) in S1.
      apply mod_eq_0 in S1; [|lia].
      apply Z.mod_divide in E; [|lia]. apply Z.mod_divide; [lia|].
      pose proof (shifted_mod n1 j N1) as S2. apply mod_eq_0 in S2; [|lia]. apply Z.mod_divide in S2; [|lia].
      destruct E as (q & E), S2 as (q' & S2). exists (- q' - q)%Z. lia.
    - intros j Hj. destruct (Other j ltac:(unfold j0 in Hj; lia)) as [->|[L|E]]; [lia|exact L|exfalso].
      apply mod_eq_0 in E; [|lia]. apply Z.mod_divide in E; [|lia]. destruct E as (q & E).
      assert (q = -1)%Z by nia. lia. }
  rewrite Argmax. unfold arange_half.
  assert (PS : 0 < INR sur) by (apply lt_0_INR; exact Hs).
  assert (EJ : INR j0 = INR (n1 / 2) - INR m) by (unfold j0; apply minus_INR; lia).
  assert (EN : INR n1 = 2 * INR (n1 / 2) + INR b).
  { rewrite D at 1. rewrite plus_INR, mult_INR. reflexivity. }
  rewrite EJ, EN.
  replace ((- ((2 * INR (n1 / 2) + INR b) / 2) + (INR (n1 / 2) - INR m)) / INR sur)
    with (- ((INR m + INR b / 2) / INR sur)) by (field; lra).
  rewrite Rabs_Ropp, Rabs_pos_eq.
  - f_equal. f_equal. destruct (Nat.even n1) eqn:E.
    + rewrite (proj1 Ev eq_refl). cbn. lra.
    + destruct Hb as [-> | ->]; [|cbn; lra]. pose proof (proj2 Ev eq_refl). congruence.
  - apply Rmult_le_pos; [|apply Rlt_le, Rinv_0_lt_compat, PS]. pose proof (pos_INR m). pose proof (pos_INR b). lra.
Qed.

(** *** a sinusoidal pattern *)
Lemma G_sinusoid A phi h l m ky kx : (0 < h)%nat -> (0 < l)%nat ->
  G (fun _ x => A * cos (2 * PI * INR m * INR x / INR l + phi)) h l h l ky kx =
  Cadd (Cmul (A / 2 * cos phi, A / 2 * sin phi)
             (if (zdvd h (- ky) && zdvd l (Z.of_nat m - kx))%bool then RtoC (size h l) else C0))
       (Cmul (A / 2 * cos phi, - (A / 2 * sin phi))
             (if (zdvd h (- ky) && zdvd l (- Z.of_nat m - kx))%bool then RtoC (size h l) else C0)).
Proof.
  intros Hh Hl. rewrite <- !(orth2 h l Hh Hl), <- !sum2_mul_l, <- sum2_add. unfold G. apply sum2_ext. intros y x _ _.
  replace (Z.of_nat x * (Z.of_nat m - kx))%Z with (Z.of_nat m * Z.of_nat x + kx * - Z.of_nat x)%Z by ring.
  replace (Z.of_nat x * (- Z.of_nat m - kx))%Z with (- (Z.of_nat m * Z.of_nat x) + kx * - Z.of_nat x)%Z by ring.
  replace (Z.of_nat y * - ky)%Z with (ky * - Z.of_nat y)%Z by ring.
  rewrite !w_add, <- w_conj by exact Hl.
  assert (E : RtoC (A * cos (2 * PI * INR m * INR x / INR l + phi)) =
              Cadd (Cmul (A / 2 * cos phi, A / 2 * sin phi) (w l (Z.of_nat m * Z.of_nat x)))
                   (Cmul (A / 2 * cos phi, - (A / 2 * sin phi)) (Cconj (w l (Z.of_nat m * Z.of_nat x))))).
  { replace (2 * PI * INR m * INR x / INR l) with (ang l (Z.of_nat m * Z.of_nat x)).
    - rewrite cos_plus. unfold w. cx. field.
    - unfold ang. rewrite mult_IZR, <- !INR_IZR_INZ. unfold Rdiv. ring. }
  rewrite E. ring.
Qed.

(** C122: the wavenumber of a sinusoidal pattern is found whatever its phase and its contrast when the number of
    columns is even, and is wrong by a half when it is odd *)
Theorem C122_sinusoid : forall A phi h l m, A <> 0 -> (0 < h)%nat -> (0 < m)%nat -> (2 * m < l)%nat ->
  wave_vector (fun _ x => A * cos (2 * PI * INR m * INR x / INR l + phi)) h l 1
  = if Nat.even l then INR m else INR m + 1 / 2.
Proof.
  intros A phi h l m HA Hh Hm Hl.
  rewrite (C122_wave _ h l 1 m); [| exact Hh | lia | lia | lia |].
  - rewrite Nat.mul_1_r. cbn [INR]. destruct (Nat.even l); field.
  - rewrite !Nat.mul_1_r. exists 0%Z. intros ky kx E1 E2.
    assert (Hl' : (0 < l)%nat) by lia.
    rewrite !power_G by assumption. rewrite !G_sinusoid by assumption.
    assert (Z1 : zdvd l (Z.of_nat m - kx) = false).
    { unfold zdvd. apply Z.eqb_neq. intros F. apply E1. apply mod_eq_0; [lia|]. apply mod_eq_0 in F; [|lia]. congruence. }
    assert (Z2 : zdvd l (- Z.of_nat m - kx) = false).
    { unfold zdvd. apply Z.eqb_neq. intros F. apply E2. apply mod_eq_0 in F; [|lia].
      replace (kx + Z.of_nat m)%Z with (kx - - Z.of_nat m)%Z by ring. apply mod_eq_0; [lia|]. congruence. }
    rewrite Z1, Z2, !andb_false_r.
    assert (Z3 : zdvd l (Z.of_nat m - Z.of_nat m) = true) by (rewrite Z.sub_diag; reflexivity).
    assert (Z4 : zdvd l (- Z.of_nat m - Z.of_nat m) = false).
    { unfold zdvd. apply Z.eqb_neq. intros F. apply Z.mod_divide in F; [|lia]. destruct F as (q & F). assert (q <= -1 \/ 0 <= q)%Z as [Q|Q] by lia; nia. }
    rewrite Z3, Z4. change (zdvd h (- 0)) with true. cbn [andb].
    replace (Cadd (Cmul (A / 2 * cos phi, A / 2 * sin phi) C0) (Cmul (A / 2 * cos phi, - (A / 2 * sin phi)) C0)) with C0 by ring.
    replace (Cadd (Cmul (A / 2 * cos phi, A / 2 * sin phi) (RtoC (size h l))) (Cmul (A / 2 * cos phi, - (A / 2 * sin phi)) C0))
      with (Cmul (A / 2 * cos phi, A / 2 * sin phi) (RtoC (size h l))) by ring.
    unfold Cmod2, Cmul, RtoC, C0. cbn [fst snd].
    pose proof (size_pos h l Hh Hl') as Sp. set (S := size h l) in *.
    pose proof (sin2_cos2 phi) as T. unfold Rsqr in T.
    replace ((A / 2 * cos phi * S - A / 2 * sin phi * 0) * (A / 2 * cos phi * S - A / 2 * sin phi * 0) +
             (A / 2 * cos phi * 0 + A / 2 * sin phi * S) * (A / 2 * cos phi * 0 + A / 2 * sin phi * S))
      with ((A / 2 * S) * (A / 2 * S) * (sin phi * sin phi + cos phi * cos phi)) by ring.
    rewrite T. assert (X : A / 2 * S <> 0) by (apply Rmult_integral_contrapositive_currified; lra).
    pose proof (Rsqr_pos_lt _ X) as Y. unfold Rsqr in Y. lra.
Qed.

(** C122 is refuted as stated: no odd number of columns gives the wavenumber of the pattern *)
Theorem C122_odd_refuted : forall A phi h l m, A <> 0 -> (0 < h)%nat -> (0 < m)%nat -> (2 * m < l)%nat ->
  Nat.even l = false ->
  wave_vector (fun _ x => A * cos (2 * PI * INR m * INR x / INR l + phi)) h l 1 <> INR m.
Proof. intros. rewrite C122_sinusoid by assumption. rewrite H3. lra. Qed.

(** C122: without any pattern (all the normalised pixels are zero) no failure is reported: the largest wavenumber is
    returned *)
Theorem C122_no_pattern : forall (ref : field) h l sur, (0 < h)%nat -> (0 < l)%nat -> (0 < sur)%nat ->
  (forall y x, (y < h)%nat -> (x < l)%nat -> ref y x = 0) ->
  wave_vector ref h l sur = INR l / 2.
Proof.
  intros ref h l sur Hh Hl Hs Z. unfold wave_vector.
  set (col := fun j => max_upto _ _).
  assert (E : forall j, col j = 0).
  { intros j. unfold col. assert (A : forall i, Cabs (fft2 (h * sur) (l * sur) (zero_padded h l ref) (shifted (h * sur) i) (shifted (l * sur) j)) = 0).
    { intros i. rewrite fft2_padded by nia. unfold G, Cabs.
      rewrite (sum2_ext _ (fun _ _ => C0)).
      - unfold sum2. rewrite (csum_ext _ (fun _ => C0)) by (intros; apply csum_0). rewrite csum_0.
        unfold Cmod2, C0. cbn [fst snd]. replace (0 * 0 + 0 * 0) with 0 by ring. apply sqrt_0.
      - intros y x Hy Hx. rewrite Z by assumption. cx. }
    apply Rle_antisym.
    - apply max_upto_le. intros. rewrite A. lra.
    - refine (Rle_trans _ _ _ _ (max_upto_ge _ _ O (Nat.le_0_l _))). cbv beta. rewrite A. lra. }
  rewrite (argmax_upto_unique col _ 0%nat).
  - unfold arange_half. cbn [INR]. assert (0 < INR sur) by (apply lt_0_INR; exact Hs). rewrite mult_INR.
    replace ((- (INR l * INR sur / 2) + 0) / INR sur) with (- (INR l / 2)) by (field; lra).
    rewrite Rabs_Ropp. apply Rabs_pos_eq. pose proof (pos_INR l). lra.
  - lia.
  - intros. rewrite !E. lra.
  - intros. lia.
Qed.

(** ** The gain moves the pattern to the frequency zero *)
Lemma gain_w k l j : (0 < l)%nat ->
  gain (INR k) l 0%nat j = Cmul (cos (PI * INR k), sin (PI * INR k)) (w l (- (Z.of_nat k * Z.of_nat j))).
Proof.
  intros Hl. unfold gain, wavenumber, arange_half. assert (INR l <> 0) by (apply not_0_INR; lia).
  replace (- (2 * PI * (INR k / INR l * ((- (INR l / 2) + INR j) / INR l * INR l))))
    with (PI * INR k + ang l (- (Z.of_nat k * Z.of_nat j))).
  - unfold w, Cmul. cbn [fst snd]. rewrite cos_plus, sin_plus. f_equal; ring.
  - unfold ang. rewrite opp_IZR, mult_IZR, <- !INR_IZR_INZ. field. assumption.
Qed.

Lemma Cmod2_mul a b : Cmod2 (Cmul a b) = Cmod2 a * Cmod2 b.
Proof. unfold Cmod2, Cmul. cbn [fst snd]. ring. Qed.

(** C122: for a pattern of [k] periods, the power of each plane wave of the rectified frame is the one of the frame
    with [k] more periods, times the square of the filter; the gain itself changes no pixel's modulus *)
Theorem C122_rectify : forall (frame f : field) k l_y l_x k0 k1, (0 < l_y)%nat -> (0 < l_x)%nat ->
  Cmod2 (rectify_frame l_y l_x frame (gain (INR k) l_x) f k0 k1)
  = power frame l_y l_x l_y l_x (Z.of_nat k0) (Z.of_nat (k1 + k)) * (f k0 k1) ^ 2.
Proof.
  intros frame f k l_y l_x k0 k1 Hy Hx. unfold rectify_frame. rewrite Cmod2_mul, power_G by assumption.
  f_equal; [|unfold Cmod2, RtoC; cbn [fst snd]; ring].
  transitivity (Cmod2 (Cmul (cos (PI * INR k), sin (PI * INR k)) (G frame l_y l_x l_y l_x (Z.of_nat k0) (Z.of_nat (k1 + k))))).
  - f_equal. unfold cfft2, G. rewrite <- sum2_mul_l. apply sum2_ext. intros y x _ _.
    change (gain (INR k) l_x y x) with (gain (INR k) l_x 0%nat x). rewrite gain_w by exact Hx.
    replace (Z.of_nat (k1 + k) * - Z.of_nat x)%Z with (- (Z.of_nat k * Z.of_nat x) + Z.of_nat k1 * - Z.of_nat x)%Z by lia.
    rewrite (w_add l_x) by exact Hx. ring.
  - rewrite Cmod2_mul. unfold Cmod2 at 1. cbn [fst snd]. pose proof (sin2_cos2 (PI * INR k)) as T. unfold Rsqr in T.
    replace (cos (PI * INR k) * cos (PI * INR k) + sin (PI * INR k) * sin (PI * INR k)) with 1 by lra. ring.
Qed.

Theorem C122_gain : forall k_x l_x i j, Cmod2 (gain k_x l_x i j) = 1.
Proof.
  intros. unfold gain, Cmod2. cbn [fst snd]. set (a := - _). pose proof (sin2_cos2 a) as T. unfold Rsqr in T. lra.
Qed.

(** ** The filter *)
Lemma filt23 k l x y : 0 < k -> 0 < l ->
  0 <= - exp (- (((x) ^ 2 + y ^ 2) / 2 / (k / 10 / l) ^ 2)) + 1 < 1 /\
  (- exp (- ((x ^ 2 + y ^ 2) / 2 / (k / 10 / l) ^ 2)) + 1 = 0 <-> x = 0 /\ y = 0).
Proof.
  intros Hk Hl. assert (D : 0 < (k / 10 / l) ^ 2).
  { apply pow_lt. unfold Rdiv. repeat apply Rmult_lt_0_compat; try lra. apply Rinv_0_lt_compat; lra. }
  set (d := (k / 10 / l) ^ 2) in *. set (s := x ^ 2 + y ^ 2).
  assert (S0 : 0 <= s) by (unfold s; nra).
  set (t := s / 2 / d).
  assert (T0 : 0 <= t).
  { unfold t, Rdiv. apply Rmult_le_pos; [lra|]. apply Rlt_le, Rinv_0_lt_compat, D. }
  pose proof (exp_pos (- t)) as Ep.
  assert (E1 : exp (- t) <= 1). { destruct (Req_dec t 0) as [->|]; [rewrite Ropp_0, exp_0; lra|]. rewrite <- exp_0. apply Rlt_le, exp_increasing. lra. }
  split; [lra|]. split.
  - intros E. assert (X : exp (- t) = exp 0) by (rewrite exp_0; lra). apply exp_inv in X.
    assert (s = 0).
    { assert (t = 0) as Q by lra. unfold t, Rdiv in Q. apply Rmult_integral in Q. destruct Q as [Q|Q]; [lra|].
      apply Rinv_neq_0_compat in Q; [tauto|lra]. }
    unfold s in *. split; nra.
  - intros (-> & ->). assert (t = 0) as ->; [|rewrite Ropp_0, exp_0; ring].
    unfold t, s. unfold Rdiv. ring.
Qed.

Lemma filt1_range k s l x y : 0 < k -> s <> 0 -> 0 < l -> 0 < filt1 k s l x y < exp 1.
Proof.
  intros Hk Hs Hl. unfold filt1.
  set (d := (k / s / l) ^ 2). assert (D : 0 < d).
  { unfold d. rewrite <- Rsqr_pow2. apply Rsqr_pos_lt. unfold Rdiv.
    repeat apply Rmult_integral_contrapositive_currified; try apply Rinv_neq_0_compat; lra. }
  set (a := (x ^ 2 + y ^ 2) / 2 / d). assert (A0 : 0 <= a).
  { unfold a, Rdiv. apply Rmult_le_pos; [nra|]. apply Rlt_le, Rinv_0_lt_compat, D. }
  set (b := ((x + k) ^ 2 + y ^ 2) / k ^ 2). assert (B0 : 0 <= b).
  { unfold b, Rdiv. apply Rmult_le_pos; [apply Rplus_le_le_0_compat; apply pow2_ge_0|]. apply Rlt_le, Rinv_0_lt_compat. nra. }
  rewrite <- exp_plus. split; [apply exp_pos|]. apply exp_increasing.
  assert (0 < 1 / (1 + b)) by (unfold Rdiv; rewrite Rmult_1_l; apply Rinv_0_lt_compat; lra). lra.
Qed.

(** C122: the filter never amplifies more than e times, and never changes the sign *)
Theorem C122_filter_range : forall k_x l_y l_x slicer k0 k1, 0 < k_x -> (0 < l_x)%nat -> slicer <> 0 ->
  0 <= filt k_x l_y l_x slicer k0 k1 < exp 1.
Proof.
  intros k_x l_y l_x slicer k0 k1 Hk Hl Hs. unfold filt. assert (L : 0 < INR l_x) by (apply lt_0_INR; exact Hl).
  set (x := wavenumber l_x _). set (y := wavenumber l_y _).
  pose proof (filt1_range k_x slicer (INR l_x) x y Hk Hs L) as F1.
  pose proof (proj1 (filt23 k_x (INR l_x) (x + k_x / INR l_x) y Hk L)) as F2.
  pose proof (proj1 (filt23 k_x (INR l_x) (x - k_x / INR l_x) y Hk L)) as F3.
  unfold filt2, filt3. set (a := filt1 _ _ _ _ _) in *. set (b := - exp _ + 1) in *. set (c := - exp _ + 1) in *.
  clearbody a b c. split; [apply Rmult_le_pos; [apply Rmult_le_pos|]; lra|].
  apply (Rle_lt_trans _ (a * b)).
  - rewrite <- (Rmult_1_r (a * b)) at 2. apply Rmult_le_compat_l; [apply Rmult_le_pos; lra|lra].
  - apply (Rle_lt_trans _ a); [|lra]. rewrite <- (Rmult_1_r a) at 2. apply Rmult_le_compat_l; lra.
Qed.

(** the wavenumber of the element [k] of the shifted arrays: a half is added for an odd size *)
Lemma wavenumber_shifted n k : (k < n)%nat -> exists b q : nat, (b = 0 \/ b = 1)%nat /\ (q = 0 \/ q = 1)%nat /\
  (Nat.even n = true <-> b = 0%nat) /\ (q = 0%nat <-> (2 * k + b < n)%nat) /\
  wavenumber n (shifted n k) * INR n = INR k + INR b / 2 - INR (q * n).
Proof.
  intros Hk. destruct (half_div n) as (b & Hb & D & Ev). exists b.
  exists (if Nat.ltb (k + (n - n / 2)) n then 0 else 1)%nat.
  assert (INR n <> 0) by (apply not_0_INR; lia).
  split; [exact Hb|]. split; [destruct (Nat.ltb _ _); lia|]. split; [exact Ev|]. split.
  - destruct (Nat.ltb_spec (k + (n - n / 2)) n); lia.
  - unfold wavenumber, arange_half.
    assert (E : (shifted n k + (if Nat.ltb (k + (n - n / 2)) n then 0 else n) = k + (n - n / 2))%nat).
    { unfold shifted. destruct (Nat.ltb_spec (k + (n - n / 2)) n) as [L|L].
      - rewrite Nat.mod_small by exact L. lia.
      - rewrite <- (Nat.mod_unique (k + (n - n / 2)) n 1 (k + (n - n / 2) - n)); [lia| |]; clear - Hk L D Hb; lia. }
    replace ((- (INR n / 2) + INR (shifted n k)) / INR n * INR n) with (- (INR n / 2) + INR (shifted n k)) by (field; assumption).
    assert (E' : INR (shifted n k) + (if Nat.ltb (k + (n - n / 2)) n then 0 else INR n) = INR k + (INR n - INR (n / 2))).
    { rewrite <- minus_INR, <- plus_INR by (clear - D Hb; lia). destruct (Nat.ltb _ _); rewrite <- E, plus_INR; reflexivity. }
    assert (EN : INR n = 2 * INR (n / 2) + INR b) by (rewrite D at 1; rewrite plus_INR, mult_INR; reflexivity).
    destruct (Nat.ltb (k + (n - n / 2)) n).
    + change (INR (0 * n)) with 0. lra.
    + rewrite Nat.mul_1_l. lra.
Qed.

(** C122: for a pattern of [k] periods the filter removes exactly the two plane waves of [k] and [- k] periods along
    the lines, but only when both sizes are even: otherwise nothing is removed *)
Theorem C122_filter_zero_iff : forall k l_y l_x slicer k0 k1, (0 < k)%nat -> (2 * k < l_x)%nat -> slicer <> 0 ->
  (k0 < l_y)%nat -> (k1 < l_x)%nat ->
  (filt (INR k) l_y l_x slicer k0 k1 = 0 <->
   Nat.even l_y = true /\ Nat.even l_x = true /\ k0 = 0%nat /\ (k1 = k \/ k1 = l_x - k)%nat).
Proof.
  intros k l_y l_x slicer k0 k1 Hk Hl Hs K0 K1. unfold filt.
  assert (L : 0 < INR l_x) by (apply lt_0_INR; lia). assert (Ly : 0 < INR l_y) by (apply lt_0_INR; lia).
  assert (Kp : 0 < INR k) by (apply lt_0_INR; lia).
  destruct (wavenumber_shifted l_x k1 K1) as (bx & qx & Bx & Qx & Ex & Qx' & X).
  destruct (wavenumber_shifted l_y k0 K0) as (by' & qy & By & Qy & Ey & Qy' & Y).
  set (x := wavenumber l_x _) in *. set (y := wavenumber l_y _) in *.
  pose proof (filt1_range (INR k) slicer (INR l_x) x y Kp Hs L) as F1.
  pose proof (proj2 (filt23 (INR k) (INR l_x) (x + INR k / INR l_x) y Kp L)) as F2.
  pose proof (proj2 (filt23 (INR k) (INR l_x) (x - INR k / INR l_x) y Kp L)) as F3.
  unfold filt2, filt3.
  assert (Y0 : y = 0 <-> Nat.even l_y = true /\ k0 = 0%nat).
  { split.
    - intros E. rewrite E, Rmult_0_l in Y. assert (Z2 : INR (2 * k0 + by') = INR (2 * (qy * l_y))).
      { rewrite plus_INR, !(mult_INR 2). change (INR 2) with 2. lra. }
      apply INR_eq in Z2. destruct By as [-> | ->]; [|lia]. split; [apply Ey; reflexivity|]. destruct Qy as [-> | ->]; lia.
    - intros (E & ->). apply Ey in E. subst by'. assert (qy = 0%nat) as -> by (apply Qy'; lia).
      cbn [INR Nat.mul] in Y. apply (Rmult_eq_reg_r (INR l_y)); lra. }
  assert (X0 : forall s : bool, (x + (if s then 1 else -1) * (INR k / INR l_x) = 0 <->
            Nat.even l_x = true /\ k1 = if s then (l_x - k)%nat else k)).
  { intros s. assert (M : x + (if s then 1 else -1) * (INR k / INR l_x) = 0 <->
        INR (2 * k1 + bx + (if s then 2 * k else 0)) = INR (2 * (qx * l_x) + if s then 0 else 2 * k)).
    { rewrite !plus_INR, !(mult_INR 2). change (INR 2) with 2.
      replace (x + (if s then 1 else -1) * (INR k / INR l_x)) with ((x * INR l_x + (if s then 1 else -1) * INR k) / INR l_x) by (field; lra).
      rewrite X. split.
      - intros E. unfold Rdiv in E at 1. apply Rmult_integral in E. destruct E as [E|E].
        + destruct s; rewrite ?mult_INR in *; cbn [INR] in *; lra.
        + apply Rinv_neq_0_compat in E; [tauto|lra].
      - intros E. replace (INR k1 + INR bx / 2 - INR (qx * l_x) + (if s then 1 else -1) * INR k) with 0; [unfold Rdiv; ring|].
        destruct s; rewrite ?mult_INR in *; cbn [INR] in *; lra. }
    rewrite M. split.
    - intros E. apply INR_eq in E. destruct Bx as [-> | ->]; [|destruct s; lia]. split; [apply Ex; reflexivity|].
      destruct s, Qx as [-> | ->]; lia.
    - intros (E & ->). apply Ex in E. subst bx. f_equal. destruct s, Qx as [-> | ->]; lia. }
  pose proof (X0 true) as XT. pose proof (X0 false) as XF. cbv iota in XT, XF.
  replace (x + 1 * (INR k / INR l_x)) with (x + INR k / INR l_x) in XT by ring.
  replace (x + -1 * (INR k / INR l_x)) with (x - INR k / INR l_x) in XF by ring.
  split.
  - intros E. apply Rmult_integral in E. destruct E as [E|E].
    + apply Rmult_integral in E. destruct E as [E|E]; [lra|]. apply F2 in E. tauto.
    + apply F3 in E. tauto.
  - intros (E1 & E2 & E3 & [E4|E4]).
    + apply Rmult_eq_0_compat_l. tauto.
    + apply Rmult_eq_0_compat_r, Rmult_eq_0_compat_l. tauto.
Qed.

Print Assumptions C122_wave. Print Assumptions C122_sinusoid. Print Assumptions C122_odd_refuted.
Print Assumptions C122_no_pattern. Print Assumptions C122_rectify. Print Assumptions C122_gain.
Print Assumptions C122_filter_range. Print Assumptions C122_filter_zero_iff.

Example C122_ex_even : wave_vector (fun _ x => 3 * cos (2 * PI * INR 2 * INR x / INR 8 + 1)) 2 8 1 = 2.
Proof. rewrite C122_sinusoid by (lra || lia). reflexivity. Qed.
Example C122_ex_odd : wave_vector (fun _ x => 3 * cos (2 * PI * INR 2 * INR x / INR 9 + 1)) 2 9 1 = 5 / 2.
Proof. rewrite C122_sinusoid by (lra || lia). cbn. lra. Qed.
Example C122_ex_filter : filt (INR 2) 4 8 2 0%nat 6%nat = 0 /\ filt (INR 2) 4 8 2 1%nat 6%nat <> 0 /\ filt (INR 2) 3 8 2 0%nat 6%nat <> 0.
Proof.
  repeat split; rewrite C122_filter_zero_iff by (lra || lia); cbn.
  - auto.
  - intros (_ & _ & E & _). discriminate.
  - intros (E & _). discriminate.
Qed.

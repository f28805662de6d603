(** Complex numbers as pairs of reals, finite sums, roots of unity and their orthogonality (mathematics only, no code
    of the repository is modelled here).  Uses the real numbers of the standard library. *)
From Coq Require Import Reals Lra Lia ZArith List.
From Coq Require Import ZifyNat.
Local Open Scope R_scope.

(** *** complex numbers *)
Definition Cx : Type := R * R.
Definition Cre (z : Cx) : R := fst z.
Definition Cim (z : Cx) : R := snd z.
Definition RtoC (x : R) : Cx := (x, 0).
Definition C0 : Cx := (0, 0).
Definition C1 : Cx := (1, 0).
Definition Cadd (a b : Cx) : Cx := (fst a + fst b, snd a + snd b).
Definition Copp (a : Cx) : Cx := (- fst a, - snd a).
Definition Csub (a b : Cx) : Cx := Cadd a (Copp b).
Definition Cmul (a b : Cx) : Cx := (fst a * fst b - snd a * snd b, fst a * snd b + snd a * fst b).
Definition Cconj (a : Cx) : Cx := (fst a, - snd a).
(** square of the modulus *)
Definition Cmod2 (a : Cx) : R := fst a * fst a + snd a * snd a.

Lemma Cx_eq (a b : Cx) : fst a = fst b -> snd a = snd b -> a = b.
Proof. destruct a, b; cbn; intros; subst; reflexivity. Qed.
Ltac cx := apply Cx_eq; unfold Csub, Cadd, Cmul, Copp, Cconj, RtoC, C0, C1 in *; cbn [fst snd] in *; try ring.

Lemma Cx_ring : ring_theory C0 C1 Cadd Cmul Csub Copp (@eq Cx).
Proof. constructor; intros; cx. Qed.
Add Ring Cx : Cx_ring.

Lemma Cconj_add a b : Cconj (Cadd a b) = Cadd (Cconj a) (Cconj b). Proof. cx. Qed.
Lemma Cconj_mul a b : Cconj (Cmul a b) = Cmul (Cconj a) (Cconj b). Proof. cx. Qed.
Lemma Cconj_R x : Cconj (RtoC x) = RtoC x. Proof. cx. Qed.
Lemma Cconj_invol a : Cconj (Cconj a) = a. Proof. cx. Qed.
Lemma RtoC_add x y : RtoC (x + y) = Cadd (RtoC x) (RtoC y). Proof. cx. Qed.
Lemma RtoC_mul x y : RtoC (x * y) = Cmul (RtoC x) (RtoC y). Proof. cx. Qed.
Lemma RtoC_inj x y : RtoC x = RtoC y -> x = y. Proof. intros H. exact (f_equal fst H). Qed.
Lemma Cmul_conj a : Cmul (Cconj a) a = RtoC (Cmod2 a). Proof. unfold Cmod2. cx. Qed.
Lemma Cmod2_conj a : Cmod2 (Cconj a) = Cmod2 a. Proof. unfold Cmod2, Cconj; cbn. ring. Qed.
Lemma Cmod2_pos a : 0 <= Cmod2 a. Proof. unfold Cmod2. nra. Qed.
Lemma Cmod2_0 a : Cmod2 a = 0 -> a = C0.
Proof. unfold Cmod2. intros H. apply Cx_eq; cbn; nra. Qed.
Lemma Cmul_integral a b : Cmul a b = C0 -> a = C0 \/ b = C0.
Proof.
  intros H. destruct (Req_dec (Cmod2 a) 0) as [E|E]; [left; apply Cmod2_0; exact E|]. right.
  assert (X : Cmul (RtoC (Cmod2 a)) b = C0).
  { rewrite <- Cmul_conj. replace (Cmul (Cmul (Cconj a) a) b) with (Cmul (Cconj a) (Cmul a b)) by ring. rewrite H. ring. }
  unfold Cmul, RtoC, C0 in X. cbn [fst snd] in X. pose proof (f_equal fst X) as X1. pose proof (f_equal snd X) as X2.
  cbn [fst snd] in X1, X2. apply Cx_eq; cbn.
  - apply (Rmult_eq_reg_l (Cmod2 a)); [lra|exact E].
  - apply (Rmult_eq_reg_l (Cmod2 a)); [lra|exact E].
Qed.

(** *** sums *)
Fixpoint csum (f : nat -> Cx) (n : nat) : Cx := match n with O => C0 | S m => Cadd (csum f m) (f m) end.
Fixpoint rsum (f : nat -> R) (n : nat) : R := match n with O => 0 | S m => rsum f m + f m end.

Lemma csum_ext f g n : (forall k, (k < n)%nat -> f k = g k) -> csum f n = csum g n.
Proof. induction n as [|n IH]; intros H; cbn; [reflexivity|]. rewrite IH, H by auto with arith. reflexivity. Qed.
Lemma csum_add f g n : csum (fun k => Cadd (f k) (g k)) n = Cadd (csum f n) (csum g n).
Proof. induction n as [|n IH]; cbn; [ring|]. rewrite IH. ring. Qed.
Lemma csum_mul_l c f n : csum (fun k => Cmul c (f k)) n = Cmul c (csum f n).
Proof. induction n as [|n IH]; cbn; [ring|]. rewrite IH. ring. Qed.
Lemma csum_mul_r c f n : csum (fun k => Cmul (f k) c) n = Cmul (csum f n) c.
Proof. induction n as [|n IH]; cbn; [ring|]. rewrite IH. ring. Qed.
Lemma csum_0 n : csum (fun _ => C0) n = C0.
Proof. induction n as [|n IH]; cbn; [reflexivity|]. rewrite IH. ring. Qed.
Lemma csum_const c n : csum (fun _ => c) n = Cmul (RtoC (INR n)) c.
Proof. induction n as [|n IH]; [cbn; cx|]. cbn [csum]. rewrite IH, S_INR, RtoC_add. change (RtoC 1) with C1. ring. Qed.
Lemma csum_swap f n m : csum (fun i => csum (fun j => f i j) m) n = csum (fun j => csum (fun i => f i j) n) m.
Proof.
  induction n as [|n IH]; cbn.
  - rewrite csum_0. reflexivity.
  - rewrite IH, csum_add. reflexivity.
Qed.
Lemma csum_conj f n : Cconj (csum f n) = csum (fun k => Cconj (f k)) n.
Proof. induction n as [|n IH]; cbn [csum]; [cx|]. rewrite Cconj_add, IH. reflexivity. Qed.
Lemma csum_R f n : csum (fun k => RtoC (f k)) n = RtoC (rsum f n).
Proof. induction n as [|n IH]; cbn [csum rsum]; [reflexivity|]. rewrite IH, RtoC_add. reflexivity. Qed.
Lemma csum_single f n j : (j < n)%nat -> (forall k, (k < n)%nat -> k <> j -> f k = C0) -> csum f n = f j.
Proof.
  induction n as [|n IH]; intros Hj H; [lia|]. cbn. destruct (Nat.eq_dec j n) as [->|Hne].
  - rewrite (csum_ext f (fun _ => C0)) by (intros k Hk; apply H; lia). rewrite csum_0. ring.
  - rewrite IH by (lia || (intros; apply H; lia)). rewrite (H n) by lia. ring.
Qed.

Lemma rsum_ext f g n : (forall k, (k < n)%nat -> f k = g k) -> rsum f n = rsum g n.
Proof. induction n as [|n IH]; intros H; cbn; [reflexivity|]. rewrite IH, H by auto with arith. reflexivity. Qed.
Lemma rsum_le f g n : (forall k, (k < n)%nat -> f k <= g k) -> rsum f n <= rsum g n.
Proof. induction n as [|n IH]; intros H; cbn; [lra|]. apply Rplus_le_compat; [apply IH|apply H]; auto with arith. Qed.
Lemma rsum_plus f g n : rsum (fun k => f k + g k) n = rsum f n + rsum g n.
Proof. induction n as [|n IH]; cbn; [ring|]. rewrite IH. ring. Qed.
Lemma rsum_scal c f n : rsum (fun k => c * f k) n = c * rsum f n.
Proof. induction n as [|n IH]; cbn; [ring|]. rewrite IH. ring. Qed.
Lemma rsum_const c n : rsum (fun _ => c) n = INR n * c.
Proof. induction n as [|n IH]; [cbn; ring|]. cbn [rsum]. rewrite IH, S_INR. ring. Qed.
Lemma rsum_pos f n : (forall k, (k < n)%nat -> 0 <= f k) -> 0 <= rsum f n.
Proof. intros H. rewrite <- (Rmult_0_r (INR n)), <- (rsum_const 0 n). apply rsum_le. exact H. Qed.
Lemma rsum_app f n m : rsum f (n + m) = rsum f n + rsum (fun k => f (n + k)%nat) m.
Proof. induction m as [|m IH]; [rewrite Nat.add_0_r; cbn; ring|]. rewrite Nat.add_succ_r. cbn [rsum]. rewrite IH. ring. Qed.
Lemma rsum_rev f n : rsum f n = rsum (fun k => f (n - 1 - k)%nat) n.
Proof.
  induction n as [|n IH]; [reflexivity|].
  transitivity (rsum (fun k => f (S n - 1 - k)%nat) (1 + n)); [|reflexivity]. rewrite rsum_app. cbn [rsum].
  replace (S n - 1 - 0)%nat with n by lia. rewrite IH.
  rewrite (rsum_ext (fun k => f (S n - 1 - (1 + k))%nat) (fun k => f (n - 1 - k)%nat)).
  - ring.
  - intros k Hk. f_equal. lia.
Qed.
Lemma rsum_swap f n m : rsum (fun i => rsum (fun j => f i j) m) n = rsum (fun j => rsum (fun i => f i j) n) m.
Proof.
  apply RtoC_inj. rewrite <- !csum_R.
  rewrite (csum_ext _ (fun i => csum (fun j => RtoC (f i j)) m)) by (intros; symmetry; apply csum_R).
  rewrite csum_swap. apply csum_ext. intros. apply csum_R.
Qed.

(** cyclic shift of a sum *)
Lemma rsum_shift1 f n : (0 < n)%nat -> rsum (fun k => f ((k + 1) mod n)%nat) n = rsum f n.
Proof.
  intros Hn. destruct n as [|m]; [lia|]. cbn [rsum].
  rewrite (rsum_ext (fun k => f ((k + 1) mod S m)%nat) (fun k => f (1 + k)%nat)).
  - replace ((m + 1) mod S m)%nat with 0%nat.
    + change (rsum f m + f m) with (rsum f (1 + m)). rewrite rsum_app. cbn [rsum]. ring.
    + replace (m + 1)%nat with (S m) by lia. rewrite Nat.mod_same; lia.
  - intros k Hk. f_equal. rewrite Nat.mod_small; lia.
Qed.
Lemma rsum_shift f n d : (0 < n)%nat -> rsum (fun k => f ((k + d) mod n)%nat) n = rsum f n.
Proof.
  intros Hn. induction d as [|d IH].
  - apply rsum_ext. intros k Hk. f_equal. rewrite Nat.add_0_r. apply Nat.mod_small; lia.
  - rewrite <- IH. rewrite <- (rsum_shift1 (fun k => f ((k + d) mod n)%nat) n Hn).
    apply rsum_ext. intros k Hk. f_equal.
    rewrite Nat.add_mod_idemp_l by lia. f_equal. lia.
Qed.

(** *** roots of unity: w n a = exp (2 i pi a / n) *)
Definition ang (n : nat) (a : Z) : R := 2 * PI * IZR a / INR n.
Definition w (n : nat) (a : Z) : Cx := (cos (ang n a), sin (ang n a)).

Lemma w_add n a b : (0 < n)%nat -> w n (a + b) = Cmul (w n a) (w n b).
Proof.
  intros Hn. unfold w. replace (ang n (a + b)) with (ang n a + ang n b).
  - rewrite cos_plus, sin_plus. unfold Cmul. cbn [fst snd]. f_equal. ring.
  - unfold ang. rewrite plus_IZR. field. apply not_0_INR. lia.
Qed.
Lemma w_0 n : w n 0 = C1.
Proof.
  unfold w, ang. replace (2 * PI * 0 / INR n) with 0; [rewrite cos_0, sin_0; reflexivity|].
  unfold Rdiv. ring.
Qed.
Lemma w_conj n a : Cconj (w n a) = w n (- a).
Proof.
  unfold w, Cconj. cbn [fst snd]. replace (ang n (- a)) with (- ang n a).
  - rewrite cos_neg, sin_neg. reflexivity.
  - unfold ang. rewrite opp_IZR. unfold Rdiv. ring.
Qed.
Lemma w_mod2 n a : Cmod2 (w n a) = 1.
Proof. unfold Cmod2, w. cbn [fst snd]. pose proof (sin2_cos2 (ang n a)) as H. unfold Rsqr in H. lra. Qed.
Lemma w_n n : (0 < n)%nat -> w n (Z.of_nat n) = C1.
Proof.
  intros Hn. unfold w, ang. replace (2 * PI * IZR (Z.of_nat n) / INR n) with (2 * PI).
  - rewrite cos_2PI, sin_2PI. reflexivity.
  - rewrite <- INR_IZR_INZ. field. apply not_0_INR. lia.
Qed.
Lemma w_mul_n n k : (0 < n)%nat -> w n (Z.of_nat n * k) = C1.
Proof.
  intros Hn.
  assert (G : forall m : nat, w n (Z.of_nat n * Z.of_nat m) = C1).
  { induction m as [|m IH]; [rewrite Z.mul_0_r; apply w_0|].
    replace (Z.of_nat n * Z.of_nat (S m))%Z with (Z.of_nat n * Z.of_nat m + Z.of_nat n)%Z by lia.
    rewrite w_add, IH, w_n by assumption. ring. }
  destruct (Z.le_gt_cases 0 k) as [Hk|Hk].
  - rewrite <- (Z2Nat.id k) by assumption. apply G.
  - replace (Z.of_nat n * k)%Z with (- (Z.of_nat n * Z.of_nat (Z.to_nat (- k))))%Z by lia.
    rewrite <- w_conj, G. cx.
Qed.
Lemma w_periodic n a k : (0 < n)%nat -> w n (a + Z.of_nat n * k) = w n a.
Proof. intros Hn. rewrite w_add, w_mul_n by assumption. ring. Qed.
Lemma w_mod n a : (0 < n)%nat -> w n (a mod Z.of_nat n) = w n a.
Proof.
  intros Hn. rewrite (Z.div_mod a (Z.of_nat n)) at 2 by lia. rewrite Z.add_comm, w_periodic by assumption. reflexivity.
Qed.
Lemma w_neq_1 n a : (0 < n)%nat -> (a mod Z.of_nat n <> 0)%Z -> w n a <> C1.
Proof.
  intros Hn Ha E. rewrite <- w_mod in E by assumption.
  pose proof (Z.mod_pos_bound a (Z.of_nat n) ltac:(lia)) as B.
  set (r := (a mod Z.of_nat n)%Z) in *.
  assert (Hc : cos (ang n r) = 1) by exact (f_equal fst E).
  set (h := PI * IZR r / INR n).
  assert (Hh : ang n r = 2 * h) by (unfold ang, h, Rdiv; ring).
  assert (Pn : 0 < INR n) by (apply lt_0_INR; lia).
  assert (B1 : 0 < h).
  { unfold h. apply Rdiv_lt_0_compat; [|exact Pn]. apply Rmult_lt_0_compat; [apply PI_RGT_0|]. apply IZR_lt. lia. }
  assert (B2 : h < PI).
  { unfold h. apply (Rmult_lt_reg_r (INR n)); [exact Pn|]. unfold Rdiv. rewrite Rmult_assoc, Rinv_l by lra.
    rewrite Rmult_1_r. apply Rmult_lt_compat_l; [apply PI_RGT_0|]. rewrite INR_IZR_INZ. apply IZR_lt. lia. }
  pose proof (sin_gt_0 h B1 B2) as Hs.
  rewrite Hh, cos_2a_sin in Hc. nra.
Qed.

(** geometric sums *)
Lemma w_geom n a m : (0 < n)%nat ->
  Cmul (Csub (w n a) C1) (csum (fun k => w n (Z.of_nat k * a)) m) = Csub (w n (Z.of_nat m * a)) C1.
Proof.
  intros Hn. induction m as [|m IH].
  - cbn [csum]. change (Z.of_nat 0 * a)%Z with 0%Z. rewrite w_0. ring.
  - cbn [csum]. replace (Z.of_nat (S m) * a)%Z with (Z.of_nat m * a + a)%Z by lia. rewrite w_add by assumption.
    replace (Cmul (Csub (w n a) C1) (Cadd (csum (fun k => w n (Z.of_nat k * a)) m) (w n (Z.of_nat m * a))))
      with (Cadd (Cmul (Csub (w n a) C1) (csum (fun k => w n (Z.of_nat k * a)) m))
                 (Cmul (Csub (w n a) C1) (w n (Z.of_nat m * a)))) by ring.
    rewrite IH. ring.
Qed.

Theorem orthogonality n a : (0 < n)%nat ->
  csum (fun k => w n (Z.of_nat k * a)) n = if Z.eqb (a mod Z.of_nat n) 0 then RtoC (INR n) else C0.
Proof.
  intros Hn. destruct (Z.eqb_spec (a mod Z.of_nat n) 0) as [E|E].
  - rewrite (csum_ext _ (fun _ => C1)).
    + rewrite csum_const. ring.
    + intros k _. apply Z.mod_divide in E; [|lia]. destruct E as (q & ->).
      replace (Z.of_nat k * (q * Z.of_nat n))%Z with (Z.of_nat n * (Z.of_nat k * q))%Z by ring. apply w_mul_n. assumption.
  - pose proof (w_geom n a n Hn) as G. rewrite w_mul_n in G by assumption.
    destruct (Cmul_integral (Csub (w n a) C1) (csum (fun k => w n (Z.of_nat k * a)) n)) as [H|H].
    + rewrite G. ring.
    + exfalso. apply (w_neq_1 n a Hn E). replace (w n a) with (Cadd (Csub (w n a) C1) C1) by ring. rewrite H. ring.
    + exact H.
Qed.

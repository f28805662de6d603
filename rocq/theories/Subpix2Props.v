(** C80: the subpixel methods on a peak of Gaussian shape; symmetries of the method "2d_gaussian2". *)
From Coq Require Import Reals Lra Lia Permutation.
From Verif Require Import PyBase FloatBase SubpixModel SubpixProps.
Local Open Scope Z_scope.

Lemma offsets1 : offsets 1 = [(-1, -1); (-1, 0); (-1, 1); (0, -1); (0, 0); (0, 1); (1, -1); (1, 0); (1, 1)].
Proof. reflexivity. Qed.

(** *** Operations on floats *)
Ltac fl_cases := repeat (match goal with |- context [Rlt_dec ?a ?b] => destruct (Rlt_dec a b) | |- context [Req_EM_T ?a ?b] => destruct (Req_EM_T a b) end); try reflexivity; try (exfalso; lra); try (f_equal; lra).
Lemma fadd_comm a b : fadd a b = fadd b a.
Proof. destruct a, b; cbn; try reflexivity. f_equal. lra. Qed.
Lemma fadd_assoc a b c : fadd (fadd a b) c = fadd a (fadd b c).
Proof. destruct a, b, c; cbn; try reflexivity. f_equal. lra. Qed.
Lemma fmin2_comm a b : fmin2 a b = fmin2 b a.
Proof. destruct a, b; cbn; try reflexivity; fl_cases. Qed.
Lemma fmin2_right a b c : fmin2 (fmin2 a b) c = fmin2 (fmin2 a c) b.
Proof. destruct a as [| | |x], b as [| | |y], c as [| | |z]; cbn; try reflexivity; unfold fltb; fl_cases; cbn; fl_cases. Qed.
Lemma fmax2_comm a b : fmax2 a b = fmax2 b a.
Proof. destruct a, b; cbn; try reflexivity; fl_cases. Qed.
Lemma fmax2_right a b c : fmax2 (fmax2 a b) c = fmax2 (fmax2 a c) b.
Proof. destruct a as [| | |x], b as [| | |y], c as [| | |z]; cbn; try reflexivity; unfold fltb; fl_cases; cbn; fl_cases. Qed.

Lemma fsum_perm l l' : Permutation l l' -> fsum l = fsum l'.
Proof.
  induction 1; cbn [fsum fold_right]; try reflexivity.
  - unfold fsum in IHPermutation. rewrite IHPermutation. reflexivity.
  - rewrite <- !fadd_assoc. f_equal. apply fadd_comm.
  - congruence.
Qed.
Lemma fold_perm (f : fl -> fl -> fl) : (forall a b c, f (f a b) c = f (f a c) b) -> forall l l', Permutation l l' -> forall a, fold_left f l a = fold_left f l' a.
Proof.
  intros Hf l l' H. induction H; intros a; cbn [fold_left]; [reflexivity|apply IHPermutation| |congruence]. rewrite Hf. reflexivity.
Qed.
Definition fold1 (f : fl -> fl -> fl) (l : list fl) : fl := match l with nil => NaN | a :: l' => fold_left f l' a end.
Lemma fold1_perm (f : fl -> fl -> fl) : (forall a b, f a b = f b a) -> (forall a b c, f (f a b) c = f (f a c) b) ->
  forall l l', Permutation l l' -> fold1 f l = fold1 f l'.
Proof.
  intros Hc Hf l l' H. induction H; cbn [fold1]; [reflexivity|apply fold_perm; assumption| |congruence]. cbn [fold_left]. rewrite Hc. reflexivity.
Qed.
Lemma fmin_perm l l' : Permutation l l' -> fmin l = fmin l'.
Proof. apply (fold1_perm fmin2 fmin2_comm fmin2_right). Qed.
Lemma fmax_perm l l' : Permutation l l' -> fmax l = fmax l'.
Proof. apply (fold1_perm fmax2 fmax2_comm fmax2_right). Qed.

(** *** Symmetries of 2d_gaussian2 *)
Lemma fdiv_neg a b : fdiv (fneg a) b = fneg (fdiv a b).
Proof. destruct a, b; cbn; try reflexivity; unfold inf_times; fl_cases. all: try (cbn; f_equal; field; assumption). Qed.
Lemma fmul_neg_l a b : fmul (fneg a) b = fneg (fmul a b).
Proof. destruct a, b; cbn; try reflexivity; unfold inf_times; fl_cases. Qed.
Lemma fmul_comm a b : fmul a b = fmul b a.
Proof. destruct a, b; cbn; try reflexivity; unfold inf_times; fl_cases. Qed.
Lemma fmul_neg_r a b : fmul a (fneg b) = fneg (fmul a b).
Proof. rewrite fmul_comm, fmul_neg_l, fmul_comm. reflexivity. Qed.
Lemma fsub_neg a b : fsub (fneg a) (fneg b) = fneg (fsub a b).
Proof. destruct a, b; cbn; try reflexivity. f_equal. lra. Qed.
Lemma fneg_neg a : fneg (fneg a) = a.
Proof. destruct a; cbn; try reflexivity. f_equal. lra. Qed.
Lemma fneg_add a b : fadd (fneg a) (fneg b) = fneg (fadd a b).
Proof. destruct a, b; cbn; try reflexivity. f_equal. lra. Qed.
Lemma fsum_neg {A} (f : A -> fl) l : fsum (map (fun a => fneg (f a)) l) = fneg (fsum (map f l)).
Proof. induction l as [|a l IH]; cbn; [f_equal; lra|]. unfold fsum in IH. rewrite IH. apply fneg_add. Qed.
Lemma fmul4 a b : fmul (fmul (Fin 4) a) b = fmul (fmul (Fin 4) b) a.
Proof. destruct a, b; cbn; try reflexivity; unfold inf_times; fl_cases; cbn; unfold inf_times; fl_cases. Qed.

(** the logarithms used by the method, at an offset *)
Definition c0 (correl : Z -> Z -> fl) (ix iy : Z) (o : Z * Z) : fl := correl (iy + fst o) (ix + snd o).
Definition normalized (correl : Z -> Z -> fl) (ix iy : Z) (o : Z * Z) : fl :=
  let cmin := fmin (map (c0 correl ix iy) (offsets 1)) in
  let cmax := fmax (map (fun o => fsub (c0 correl ix iy o) cmin) (offsets 1)) in
  let x := fdiv (fsub (c0 correl ix iy o) cmin) cmax in if fis0 x then Fin (/ 100000000) else x.
Definition lsum (h : Z * Z -> fl) (w : Z -> Z -> Z) : fl :=
  fsum (map (fun o : Z * Z => fmul (Z2F (w (snd o) (fst o))) (flog (h o))) (offsets 1)).
Definition solve (c10 c01 c11 c20 c02 : fl) : fl * fl :=
  let den := fsub (fmul (fmul (Fin 4) c20) c02) (fsq c11) in
  (fdiv (fsub (fmul c11 c01) (fmul (fmul (Fin 2) c10) c02)) den,
   fdiv (fsub (fmul c11 c10) (fmul (fmul (Fin 2) c01) c20)) den).
Lemma gaussian2_eq correl ix iy : let h := normalized correl ix iy in
  gaussian2 correl ix iy = solve (fdiv (lsum h (fun x y => x)) (Fin 6)) (fdiv (lsum h (fun x y => y)) (Fin 6))
    (fdiv (lsum h (fun x y => x * y)) (Fin 4)) (fdiv (lsum h (fun x y => 3 * (x * x) - 2)) (Fin 6)) (fdiv (lsum h (fun x y => 3 * (y * y) - 2)) (Fin 6)).
Proof. reflexivity. Qed.

Section Symmetry.
(** a symmetry [s] of the offsets *)
Variable s : Z * Z -> Z * Z.
Hypothesis s_perm : Permutation (map s (offsets 1)) (offsets 1).
Variables correl correl' : Z -> Z -> fl.
Variables ix iy ix' iy' : Z.
Hypothesis Hs : forall o, c0 correl' ix' iy' o = c0 correl ix iy (s o).
Lemma map_sym {A} (g : Z * Z -> A) : Permutation (map (fun o => g (s o)) (offsets 1)) (map g (offsets 1)).
Proof. rewrite <- (map_map s g). apply Permutation_map. exact s_perm. Qed.
Lemma normalized_sym o : normalized correl' ix' iy' o = normalized correl ix iy (s o).
Proof.
  assert (E : fmin (map (c0 correl' ix' iy') (offsets 1)) = fmin (map (c0 correl ix iy) (offsets 1))).
  { apply fmin_perm. rewrite (map_ext _ (fun o => c0 correl ix iy (s o))) by exact Hs. apply map_sym. }
  unfold normalized. rewrite E. cbv zeta.
  assert (E' : fmax (map (fun o => fsub (c0 correl' ix' iy' o) (fmin (map (c0 correl ix iy) (offsets 1)))) (offsets 1)) =
               fmax (map (fun o => fsub (c0 correl ix iy o) (fmin (map (c0 correl ix iy) (offsets 1)))) (offsets 1))).
  { apply fmax_perm. rewrite (map_ext _ (fun o => fsub (c0 correl ix iy (s o)) (fmin (map (c0 correl ix iy) (offsets 1))))) by (intros; rewrite Hs; reflexivity).
    apply (map_sym (fun o => fsub (c0 correl ix iy o) (fmin (map (c0 correl ix iy) (offsets 1))))). }
  rewrite E', Hs. reflexivity.
Qed.
Lemma lsum_sym (w w' : Z -> Z -> Z) : (forall o, w' (snd o) (fst o) = w (snd (s o)) (fst (s o))) ->
  lsum (normalized correl' ix' iy') w' = lsum (normalized correl ix iy) w.
Proof.
  intros Hw. unfold lsum. apply fsum_perm.
  rewrite (map_ext _ (fun o => fmul (Z2F (w (snd (s o)) (fst (s o)))) (flog (normalized correl ix iy (s o))))).
  - apply (map_sym (fun o => fmul (Z2F (w (snd o) (fst o))) (flog (normalized correl ix iy o)))).
  - intros o. rewrite normalized_sym, Hw. reflexivity.
Qed.
End Symmetry.
Lemma lsum_neg h (w w' : Z -> Z -> Z) : (forall x y, w' x y = - w x y) -> lsum h w' = fneg (lsum h w).
Proof.
  intros Hw. unfold lsum. rewrite <- fsum_neg. f_equal. apply map_ext. intros o. rewrite Hw, <- fmul_neg_l. f_equal. unfold Z2F. cbn. rewrite opp_IZR. reflexivity.
Qed.

(** exchanging the two axes exchanges the two displacements *)
Theorem C80_gaussian2_transpose correl ix iy :
  gaussian2 (fun i0 i1 => correl i1 i0) iy ix = (snd (gaussian2 correl ix iy), fst (gaussian2 correl ix iy)).
Proof.
  rewrite !gaussian2_eq. set (h := normalized correl ix iy).
  assert (P : Permutation (map (fun o : Z * Z => (snd o, fst o)) (offsets 1)) (offsets 1)).
  { rewrite offsets1. cbn [map fst snd].
    apply NoDup_Permutation; [repeat constructor; cbn; intuition congruence|repeat constructor; cbn; intuition congruence|]. intros x. cbn. tauto. }
  set (correl' := fun i0 i1 => correl i1 i0).
  assert (X : forall w w', (forall x y, w' x y = w y x) -> lsum (normalized correl' iy ix) w' = lsum h w).
  { intros w w' Hw. apply (lsum_sym (fun o => (snd o, fst o)) P correl correl' ix iy iy ix); [reflexivity|]. intros o. rewrite Hw. reflexivity. }
  rewrite (X (fun x y => y) (fun x y => x)) by reflexivity. rewrite (X (fun x y => x) (fun x y => y)) by reflexivity.
  rewrite (X (fun x y => x * y) (fun x y => x * y)) by (intros; lia).
  rewrite (X (fun x y => 3 * (y * y) - 2) (fun x y => 3 * (x * x) - 2)) by reflexivity. rewrite (X (fun x y => 3 * (x * x) - 2) (fun x y => 3 * (y * y) - 2)) by reflexivity.
  unfold solve. cbn [fst snd]. rewrite fmul4. reflexivity.
Qed.

(** a reflection of the correlation changes the sign of one displacement *)
Theorem C80_gaussian2_mirror correl ix iy :
  gaussian2 (fun i0 i1 => correl i0 (2 * ix - i1)) ix iy = (fneg (fst (gaussian2 correl ix iy)), snd (gaussian2 correl ix iy)).
Proof.
  rewrite !gaussian2_eq. set (h := normalized correl ix iy).
  assert (P : Permutation (map (fun o : Z * Z => (fst o, - snd o)) (offsets 1)) (offsets 1)).
  { rewrite offsets1. cbn [map fst snd Z.opp].
    apply NoDup_Permutation; [repeat constructor; cbn; intuition congruence|repeat constructor; cbn; intuition congruence|]. intros x. cbn. tauto. }
  set (correl' := fun i0 i1 => correl i0 (2 * ix - i1)).
  assert (X : forall w w', (forall x y, w' x y = w (- x) y) -> lsum (normalized correl' ix iy) w' = lsum h w).
  { intros w w' Hw. apply (lsum_sym (fun o => (fst o, - snd o)) P correl correl' ix iy ix iy).
    - intros o. unfold c0, correl'. cbn [fst snd]. f_equal. lia.
    - intros o. rewrite Hw. reflexivity. }
  rewrite (X (fun x y => - x) (fun x y => x)) by (intros; lia). rewrite (X (fun x y => y) (fun x y => y)) by reflexivity.
  rewrite (X (fun x y => - (x * y)) (fun x y => x * y)) by (intros; lia).
  rewrite (X (fun x y => 3 * (x * x) - 2) (fun x y => 3 * (x * x) - 2)) by (intros; lia). rewrite (X (fun x y => 3 * (y * y) - 2) (fun x y => 3 * (y * y) - 2)) by reflexivity.
  rewrite (lsum_neg h (fun x y => x) (fun x y => - x)) by reflexivity. rewrite (lsum_neg h (fun x y => x * y) (fun x y => - (x * y))) by reflexivity.
  rewrite !fdiv_neg. set (c10 := fdiv (lsum h (fun x _ => x)) (Fin 6)). set (c01 := fdiv (lsum h (fun _ y => y)) (Fin 6)). set (c11 := fdiv (lsum h (fun x y => x * y)) (Fin 4)).
  unfold solve. cbn [fst snd]. unfold fsq. rewrite !fmul_neg_l, !fmul_neg_r, !fneg_neg, !fmul_neg_l, fsub_neg, fdiv_neg. reflexivity.
Qed.

(** *** What is computed by 2d_gaussian2 *)
Lemma fmin_spec (f : Z * Z -> R) m l : l <> [] -> (forall o, In o l -> (m <= f o)%R) -> (exists o, In o l /\ f o = m) -> fmin (map (fun o => Fin (f o)) l) = Fin m.
Proof.
  intros Hl Hle (o & Ho & Em). destruct l as [|a l]; [congruence|]. cbn [map fmin].
  assert (X : forall l acc, (m <= acc)%R -> (forall o, In o l -> (m <= f o)%R) -> (acc = m \/ exists o, In o l /\ f o = m) -> fold_left fmin2 (map (fun o => Fin (f o)) l) (Fin acc) = Fin m).
  { clear. induction l as [|b l IH]; intros acc Ha Hle Hex; cbn [map fold_left].
    - destruct Hex as [->|(o & [] & _)]. reflexivity.
    - unfold fmin2 at 2. unfold fltb. pose proof (Hle b (or_introl eq_refl)) as Hb. destruct (Rlt_dec (f b) acc) as [Hlt|Hge].
      + apply IH; [exact Hb|intros; apply Hle; right; assumption|]. destruct Hex as [->|(o & [->|Ho] & Eo)]; [left; lra|left; exact Eo|right; exists o; split; assumption].
      + apply IH; [exact Ha|intros; apply Hle; right; assumption|]. destruct Hex as [->|(o & [->|Ho] & Eo)]; [left; reflexivity|left; lra|right; exists o; split; assumption]. }
  apply X; [apply Hle; left; reflexivity|intros; apply Hle; right; assumption|]. destruct Ho as [->|Ho]; [left; exact Em|right; exists o; split; assumption].
Qed.
Lemma fmax_spec (f : Z * Z -> R) m l : l <> [] -> (forall o, In o l -> (f o <= m)%R) -> (exists o, In o l /\ f o = m) -> fmax (map (fun o => Fin (f o)) l) = Fin m.
Proof.
  intros Hl Hle (o & Ho & Em). destruct l as [|a l]; [congruence|]. cbn [map fmax].
  assert (X : forall l acc, (acc <= m)%R -> (forall o, In o l -> (f o <= m)%R) -> (acc = m \/ exists o, In o l /\ f o = m) -> fold_left fmax2 (map (fun o => Fin (f o)) l) (Fin acc) = Fin m).
  { clear. induction l as [|b l IH]; intros acc Ha Hle Hex; cbn [map fold_left].
    - destruct Hex as [->|(o & [] & _)]. reflexivity.
    - unfold fmax2 at 2. unfold fltb. pose proof (Hle b (or_introl eq_refl)) as Hb. destruct (Rlt_dec acc (f b)) as [Hlt|Hge].
      + apply IH; [exact Hb|intros; apply Hle; right; assumption|]. destruct Hex as [->|(o & [->|Ho] & Eo)]; [left; lra|left; exact Eo|right; exists o; split; assumption].
      + apply IH; [exact Ha|intros; apply Hle; right; assumption|]. destruct Hex as [->|(o & [->|Ho] & Eo)]; [left; reflexivity|left; lra|right; exists o; split; assumption]. }
  apply X; [apply Hle; left; reflexivity|intros; apply Hle; right; assumption|]. destruct Ho as [->|Ho]; [left; exact Em|right; exists o; split; assumption].
Qed.

Local Open Scope R_scope.
(** The correlations around the peak, with their minimum [m] and their amplitude [K]: [u] is between 0 and 1 and takes these
    two values. *)
Definition crop_is (correl : Z -> Z -> fl) (ix iy : Z) (m K : R) (u : Z * Z -> R) : Prop :=
  0 < K /\ (forall o, In o (offsets 1) -> correl (iy + fst o)%Z (ix + snd o)%Z = Fin (m + K * u o)) /\
  (forall o, In o (offsets 1) -> 0 <= u o <= 1) /\ (exists o, In o (offsets 1) /\ u o = 0) /\ (exists o, In o (offsets 1) /\ u o = 1).
(** logarithm of the normalised correlation, the minimum being replaced by 1e-8 *)
Definition log_of (u : R) : R := if Req_EM_T u 0 then - ln 100000000 else ln u.

Lemma normalized_crop correl ix iy m K u o : crop_is correl ix iy m K u -> In o (offsets 1) -> flog (normalized correl ix iy o) = Fin (log_of (u o)).
Proof.
  intros (HK & Hv & Hu & (o0 & Ho0 & E0) & (o1 & Ho1 & E1)) Ho.
  assert (Mn : fmin (map (c0 correl ix iy) (offsets 1)) = Fin m).
  { rewrite (map_ext_in _ (fun o => Fin (m + K * u o))) by (intros; apply Hv; assumption). apply fmin_spec; [rewrite offsets1; discriminate| |].
    - intros p Hp. destruct (Hu p Hp). nra.
    - exists o0. split; [exact Ho0|]. rewrite E0. ring. }
  unfold normalized. cbv zeta. rewrite Mn.
  assert (S : forall p, In p (offsets 1) -> fsub (c0 correl ix iy p) (Fin m) = Fin (K * u p)).
  { intros p Hp. unfold c0. rewrite (Hv p Hp). cbn. f_equal. ring. }
  assert (Mx : fmax (map (fun p => fsub (c0 correl ix iy p) (Fin m)) (offsets 1)) = Fin K).
  { rewrite (map_ext_in _ (fun p => Fin (K * u p))) by exact S. apply fmax_spec; [rewrite offsets1; discriminate| |].
    - intros p Hp. destruct (Hu p Hp). nra.
    - exists o1. split; [exact Ho1|]. rewrite E1. ring. }
  rewrite Mx, (S o Ho). unfold fdiv. destruct (Req_EM_T K 0) as [?|_]; [lra|]. replace (K * u o / K) with (u o) by (field; lra).
  unfold fis0, log_of. destruct (Hu o Ho) as [U0 U1]. destruct (Req_EM_T (u o) 0) as [E|E].
  - unfold flog. destruct (Rlt_dec 0 (/ 100000000)) as [_|N]; [|exfalso; apply N; apply Rinv_0_lt_compat; lra]. f_equal. apply ln_Rinv. lra.
  - unfold flog. destruct (Rlt_dec 0 (u o)) as [_|N]; [reflexivity|lra].
Qed.
Lemma lsum_crop correl ix iy m K u w : crop_is correl ix iy m K u ->
  lsum (normalized correl ix iy) w = Fin (rsuml (map (fun o => IZR (w (snd o) (fst o)) * log_of (u o)) (offsets 1))).
Proof.
  intros H. unfold lsum. rewrite <- fsum_fin. f_equal. apply map_ext_in. intros o Ho. rewrite (normalized_crop _ _ _ _ _ _ _ H Ho). reflexivity.
Qed.

(** If these logarithms are a polynomial of degree 2, the method gives the point where its gradient is zero. *)
Theorem C80_gaussian2_fit correl ix iy m K u a b c d e f :
  crop_is correl ix iy m K u ->
  (forall o, In o (offsets 1) -> let x := IZR (snd o) in let y := IZR (fst o) in log_of (u o) = a + b * x + c * y + d * (x * y) + e * (x * x) + f * (y * y)) ->
  4 * e * f - d * d <> 0 ->
  exists x y, gaussian2 correl ix iy = (Fin x, Fin y) /\ b + 2 * e * x + d * y = 0 /\ c + d * x + 2 * f * y = 0.
Proof.
  intros H Hp Hd. rewrite gaussian2_eq. cbv zeta.
  assert (X : forall w : Z -> Z -> Z, lsum (normalized correl ix iy) w =
     Fin (rsuml (map (fun o => IZR (w (snd o) (fst o)) * (a + b * IZR (snd o) + c * IZR (fst o) + d * (IZR (snd o) * IZR (fst o)) + e * (IZR (snd o) * IZR (snd o)) + f * (IZR (fst o) * IZR (fst o)))) (offsets 1)))).
  { intros w. rewrite (lsum_crop _ _ _ _ _ _ _ H). f_equal. apply rsuml_ext. intros o Ho. rewrite (Hp o Ho). reflexivity. }
  rewrite !X. clear X. rewrite offsets1. unfold rsuml. cbn [map fold_right fst snd]. rewrite ?minus_IZR, ?mult_IZR.
  unfold fdiv. repeat (destruct (Req_EM_T _ _) as [?E|_]; [exfalso; lra|]).
  match goal with |- context [solve (Fin ?p) (Fin ?q) (Fin ?r) (Fin ?s) (Fin ?t)] =>
    replace p with b by field; replace q with c by field; replace r with d by field; replace s with e by field; replace t with f by field end.
  exists ((d * c - 2 * b * f) / (4 * e * f - d * d)), ((d * b - 2 * c * e) / (4 * e * f - d * d)).
  split; [|split; field; exact Hd].
  unfold solve, fsq. cbn [fmul fsub fneg fadd]. unfold fdiv. destruct (Req_EM_T _ 0) as [E|_]; [exfalso; apply Hd; lra|]. f_equal; f_equal; field; lra.
Qed.

(** a correlation satisfying the hypotheses: 10^-(3 x^2 + 3 y^2 + 2 x), the minimum 1e-8 being replaced by 0; the maximum of
    the polynomial is at x = - 1 / 3 *)
Definition ex_exponent (o : Z * Z) : nat := Z.to_nat (3 * (snd o * snd o) + 3 * (fst o * fst o) + 2 * snd o).
Definition ex_u (o : Z * Z) : R := if Nat.eqb (ex_exponent o) 8 then 0 else / 10 ^ ex_exponent o.
Lemma ln_pow10 n : ln (10 ^ n) = INR n * ln 10.
Proof.
  induction n as [|n IH]; [cbn; rewrite ln_1; ring|]. cbn [pow]. rewrite ln_mult by (try apply pow_lt; lra). rewrite IH, S_INR. ring.
Qed.
Example C80_fit_ex : exists correl x y, crop_is correl 10 20 (1 / 10) 2 ex_u /\ gaussian2 correl 10 20 = (Fin x, Fin y) /\ x = - 1 / 3 /\ y = 0.
Proof.
  set (correl := fun i0 i1 : Z => Fin (1 / 10 + 2 * ex_u (i0 - 20, i1 - 10)%Z)).
  assert (L10 : 0 < ln 10) by (rewrite <- ln_1; apply ln_increasing; lra).
  assert (H : crop_is correl 10 20 (1 / 10) 2 ex_u).
  { split; [lra|]. split; [|split; [|split]].
    - intros o _. unfold correl. do 4 f_equal. destruct o as [p q]. cbn [fst snd]. f_equal; lia.
    - intros o Ho. unfold ex_u. destruct (Nat.eqb _ 8); [lra|]. assert (P : 0 < 10 ^ ex_exponent o) by (apply pow_lt; lra). split.
      + left. apply Rinv_0_lt_compat. exact P.
      + rewrite <- Rinv_1. apply Rinv_le_contravar; [lra|]. apply pow_R1_Rle. lra.
    - exists (1, 1)%Z. split; [rewrite offsets1; cbn; tauto|reflexivity].
    - exists (0, 0)%Z. split; [rewrite offsets1; cbn; tauto|]. unfold ex_u. cbn. apply Rinv_1. }
  assert (E8 : ln 100000000 = 8 * ln 10).
  { replace 100000000 with (10 ^ 8) by (cbn [pow]; lra). rewrite ln_pow10. replace (INR 8) with 8 by (cbn; lra). reflexivity. }
  destruct (C80_gaussian2_fit correl 10 20 (1 / 10) 2 ex_u 0 (- (2 * ln 10)) 0 0 (- (3 * ln 10)) (- (3 * ln 10)) H) as (x & y & E & G1 & G2).
  - intros o Ho. cbv zeta. assert (L : log_of (ex_u o) = - (INR (ex_exponent o) * ln 10)).
    { unfold log_of, ex_u. destruct (Nat.eqb_spec (ex_exponent o) 8) as [E|E].
      - destruct (Req_EM_T 0 0); [|lra]. rewrite E, E8. replace (INR 8) with 8 by (cbn; lra). reflexivity.
      - assert (P : 0 < 10 ^ ex_exponent o) by (apply pow_lt; lra). destruct (Req_EM_T (/ 10 ^ ex_exponent o) 0) as [Z0|_].
        + exfalso. pose proof (Rinv_0_lt_compat _ P). lra.
        + rewrite ln_Rinv by exact P. rewrite ln_pow10. reflexivity. }
    rewrite L. rewrite offsets1 in Ho. cbn in Ho.
    decompose [or] Ho; try contradiction; subst o; unfold ex_exponent; cbn [fst snd]; rewrite INR_IZR_INZ;
      (match goal with |- context [Z.of_nat (Z.to_nat ?z)] => let v := eval vm_compute in (Z.of_nat (Z.to_nat z)) in change (Z.of_nat (Z.to_nat z)) with v end); ring.
  - nra.
  - exists correl, x, y. split; [exact H|]. split; [exact E|]. split; nra.
Qed.

(** *** A peak of Gaussian shape *)
Lemma exp_pow4 n : exp (- (INR n * ln 4)) = / 4 ^ n.
Proof. rewrite exp_Ropp. f_equal. change (exp (INR n * ln 4)) with (Rpower 4 (INR n)). apply Rpower_pow. lra. Qed.
(** width and amplitude of the peak *)
Definition wg : R := sqrt (/ (4 * ln 4)).
Definition ag : R := exp (ln 4 / 8).
Lemma ln4_pos : 0 < ln 4.
Proof. rewrite <- ln_1. apply ln_increasing; lra. Qed.
Lemma peak_value (x y : R) : gaussian_peak ag (1 / 4) 0 wg wg x y = exp (ln 4 * (x - 2 * (x * x) - 2 * (y * y))).
Proof.
  pose proof ln4_pos as L. unfold gaussian_peak, ag. rewrite <- exp_plus. f_equal.
  assert (W : wg * wg = / (4 * ln 4)) by (apply sqrt_sqrt; left; apply Rinv_0_lt_compat; lra). rewrite W. field. lra.
Qed.
Lemma lnZ_mult a b : (0 < a)%Z -> (0 < b)%Z -> ln (IZR (a * b)) = ln (IZR a) + ln (IZR b).
Proof. intros. rewrite mult_IZR. apply ln_mult; apply IZR_lt; assumption. Qed.
Lemma lnZ_pow a n : (0 < a)%Z -> ln (IZR (a ^ Z.of_nat n)) = INR n * ln (IZR a).
Proof.
  intros Ha. induction n as [|n IH]; [cbn; rewrite ln_1; ring|]. rewrite Nat2Z.inj_succ, Z.pow_succ_r by lia. rewrite lnZ_mult by (try apply Z.pow_pos_nonneg; lia). rewrite IH, S_INR. ring.
Qed.
Lemma ln_Zlt a b : (0 < a)%Z -> (a < b)%Z -> ln (IZR a) < ln (IZR b).
Proof. intros. apply ln_increasing; apply IZR_lt; assumption. Qed.

Definition peak_u (o : Z * Z) : R := (/ 4 ^ (Z.to_nat (2 * (snd o * snd o) + 2 * (fst o * fst o) - snd o)) - / 1024) / (1023 / 1024).
(** an exact Gaussian with its maximum at x0 = 0.25: the method 2d_gaussian gives it, 2d_gaussian2 gives more than 0.35 *)
Theorem C80_gaussian2_refuted : exists correl A s x y,
  0 < A /\ 0 < s /\
  (forall i0 i1 : Z, correl i0 i1 = Fin (gaussian_peak A (1 / 4) 0 s s (IZR (i1 - 16)) (IZR (i0 - 16)))) /\
  compute_subpix 32 32 1 pinv1 Gaussian correl 16 16 = Ok (Fin (1 / 4 + 16), Fin (0 + 16)) /\
  compute_subpix 32 32 1 pinv1 Gaussian2 correl 16 16 = Ok (Fin (x + 16), Fin (y + 16)) /\
  x > 7 / 20.
Proof.
  set (correl := fun i0 i1 : Z => Fin (gaussian_peak ag (1 / 4) 0 wg wg (IZR (i1 - 16)) (IZR (i0 - 16)))).
  pose proof ln4_pos as L4. assert (Aw : 0 < ag) by apply exp_pos. assert (Ww : 0 < wg) by (apply sqrt_lt_R0; apply Rinv_0_lt_compat; lra).
  assert (Hv : forall o, In o (offsets 1) -> correl (16 + fst o)%Z (16 + snd o)%Z = Fin (/ 4 ^ (Z.to_nat (2 * (snd o * snd o) + 2 * (fst o * fst o) - snd o)))).
  { intros o Ho. unfold correl. f_equal. rewrite peak_value. replace (16 + snd o - 16)%Z with (snd o) by lia. replace (16 + fst o - 16)%Z with (fst o) by lia.
    rewrite <- exp_pow4. f_equal. rewrite INR_IZR_INZ. rewrite Z2Nat.id.
    - rewrite minus_IZR, plus_IZR, !mult_IZR. ring.
    - rewrite offsets1 in Ho. cbn in Ho. decompose [or] Ho; try contradiction; subst o; cbn; lia. }
  assert (H : crop_is correl 16 16 (/ 1024) (1023 / 1024) peak_u).
  { split; [lra|]. split; [|split; [|split]].
    - intros o Ho. rewrite (Hv o Ho). f_equal. unfold peak_u. field.
      apply pow_nonzero. lra.
    - intros o Ho. rewrite offsets1 in Ho. cbn in Ho. decompose [or] Ho; try contradiction; subst o; unfold peak_u; cbn [fst snd]; 
        (match goal with |- context [Z.to_nat ?z] => let z' := eval vm_compute in (Z.to_nat z) in change (Z.to_nat z) with z' end); cbn [pow]; split; lra.
    - exists (1, -1)%Z. split; [rewrite offsets1; cbn; tauto|]. unfold peak_u. cbn [fst snd]. change (Z.to_nat _) with 5%nat. cbn [pow]. lra.
    - exists (0, 0)%Z. split; [rewrite offsets1; cbn; tauto|]. unfold peak_u. cbn [fst snd]. change (Z.to_nat _) with 0%nat. cbn [pow]. lra. }
  (* logarithms *)
  assert (LQ : forall p q : Z, (0 < p)%Z -> (0 < q)%Z -> ln (IZR p / IZR q) = ln (IZR p) - ln (IZR q)).
  { intros p q Hp Hq. unfold Rdiv. rewrite ln_mult, ln_Rinv; [reflexivity|apply IZR_lt; exact Hq|apply IZR_lt; exact Hp|apply Rinv_0_lt_compat, IZR_lt; exact Hq]. }
  assert (P : forall (x y : Z) (n : nat) (r : R), Z.to_nat (2 * (x * x) + 2 * (y * y) - x) = n -> (/ 4 ^ n - / 1024) / (1023 / 1024) = r -> log_of (peak_u (y, x)) = log_of r).
  { intros x y n r En Er. unfold peak_u. cbn [fst snd]. rewrite En, Er. reflexivity. }
  assert (N : forall r, r <> 0 -> log_of r = ln r) by (intros r Hr; unfold log_of; destruct (Req_EM_T r 0); [contradiction|reflexivity]).
  set (la := ln 255). set (lb := ln 15). set (lc := ln 63). set (ld := ln 1023). set (le := ln 100000000).
  assert (U00 : log_of (peak_u (0, 0)%Z) = 0).
  { rewrite (P 0%Z 0%Z 0%nat 1); [|reflexivity|cbn [pow]; lra]. rewrite N by lra. apply ln_1. }
  assert (U10 : log_of (peak_u (0, 1)%Z) = la - ld).
  { rewrite (P 1%Z 0%Z 1%nat (255 / 1023)); [|reflexivity|cbn [pow]; lra]. rewrite N by lra. apply LQ; lia. }
  assert (U90 : log_of (peak_u (0, -1)%Z) = lb - ld).
  { rewrite (P (-1)%Z 0%Z 3%nat (15 / 1023)); [|reflexivity|cbn [pow]; lra]. rewrite N by lra. apply LQ; lia. }
  assert (U01 : forall y, y = 1%Z \/ y = (-1)%Z -> log_of (peak_u (y, 0)%Z) = lc - ld).
  { intros y Hy. rewrite (P 0%Z y 2%nat (63 / 1023)); [|destruct Hy as [-> | ->]; reflexivity|cbn [pow]; lra]. rewrite N by lra. apply LQ; lia. }
  assert (U11 : forall y, y = 1%Z \/ y = (-1)%Z -> log_of (peak_u (y, 1)%Z) = lb - ld).
  { intros y Hy. rewrite (P 1%Z y 3%nat (15 / 1023)); [|destruct Hy as [-> | ->]; reflexivity|cbn [pow]; lra]. rewrite N by lra. apply LQ; lia. }
  assert (U91 : forall y, y = 1%Z \/ y = (-1)%Z -> log_of (peak_u (y, -1)%Z) = - le).
  { intros y Hy. rewrite (P (-1)%Z y 5%nat 0); [|destruct Hy as [-> | ->]; reflexivity|cbn [pow]; lra]. unfold log_of. destruct (Req_EM_T 0 0); [reflexivity|lra]. }
  assert (G : exists c10 c20 c02, gaussian2 correl 16 16 = solve (Fin (c10 / 6)) (Fin 0) (Fin 0) (Fin (c20 / 6)) (Fin (c02 / 6)) /\
     c10 = la + lb - 2 * ld + 2 * le /\ c20 = la + 3 * lb - 4 * lc - 2 * le /\ c02 = 2 * lc - 2 * la - 2 * le).
  { do 3 eexists. split; [|split; [|split]; reflexivity]. rewrite gaussian2_eq. cbv zeta. rewrite !(lsum_crop _ _ _ _ _ _ _ H). rewrite offsets1. unfold rsuml. cbn [map fold_right fst snd].
    rewrite U00, U10, U90. rewrite !U01, !U11, !U91 by tauto. rewrite ?minus_IZR, ?mult_IZR. unfold fdiv. repeat (destruct (Req_EM_T _ _) as [?E|_]; [exfalso; lra|]).
    f_equal; f_equal; field. }
  destruct G as (c10 & c20 & c02 & G & E10 & E20 & E02).
  (* comparison of the logarithms of integers *)
  assert (K1 : 0 < 10 * c10 + 7 * c20).
  { assert (T : ln (IZR (1023 ^ Z.of_nat 20 * 63 ^ Z.of_nat 28)) < ln (IZR (255 ^ Z.of_nat 17 * 15 ^ Z.of_nat 31 * 100000000 ^ Z.of_nat 6))) by (apply ln_Zlt; [vm_compute; reflexivity|vm_compute; reflexivity]).
    rewrite !lnZ_mult in T by (vm_compute; reflexivity). rewrite !lnZ_pow in T by reflexivity. rewrite !INR_IZR_INZ in T. cbn [Z.of_nat Pos.of_succ_nat Pos.succ] in T. fold la lb lc ld le in T. lra. }
  assert (K2 : c10 + 2 * c20 < 0).
  { assert (T : ln (IZR (255 ^ Z.of_nat 3 * 15 ^ Z.of_nat 7)) < ln (IZR (1023 ^ Z.of_nat 2 * 63 ^ Z.of_nat 8 * 100000000 ^ Z.of_nat 2))) by (apply ln_Zlt; [vm_compute; reflexivity|vm_compute; reflexivity]).
    rewrite !lnZ_mult in T by (vm_compute; reflexivity). rewrite !lnZ_pow in T by reflexivity. rewrite !INR_IZR_INZ in T. cbn [Z.of_nat Pos.of_succ_nat Pos.succ] in T. fold la lb lc ld le in T. lra. }
  assert (K3 : c02 < 0).
  { assert (T : lc < la) by (apply ln_increasing; lra). assert (0 < le) by (unfold le; rewrite <- ln_1; apply ln_increasing; lra). lra. }
  assert (K4 : c20 < 0).
  { assert (T : ln (IZR (255 ^ Z.of_nat 1 * 15 ^ Z.of_nat 3)) < ln (IZR (63 ^ Z.of_nat 4 * 100000000 ^ Z.of_nat 2))) by (apply ln_Zlt; [vm_compute; reflexivity|vm_compute; reflexivity]).
    rewrite !lnZ_mult in T by (vm_compute; reflexivity). rewrite !lnZ_pow in T by reflexivity. rewrite !INR_IZR_INZ in T. cbn [Z.of_nat Pos.of_succ_nat Pos.succ] in T. fold la lb lc ld le in T. lra. }
  set (x := - c10 / (2 * c20)).
  assert (Ex : x * (2 * c20) = - c10) by (unfold x; field; lra).
  assert (X1 : x > 7 / 20) by nra. assert (X2 : x < 1) by nra.
  assert (E : gaussian2 correl 16 16 = (Fin x, Fin 0)).
  { rewrite G. unfold solve, fsq. cbn [fmul fsub fneg fadd]. unfold fdiv. destruct (Req_EM_T _ 0) as [E|_]; [exfalso; nra|]. unfold x. f_equal; f_equal; field; lra. }
  exists correl, ag, wg, x, 0. split; [exact Aw|]. split; [exact Ww|]. split; [reflexivity|]. split; [|split; [|exact X1]].
  - apply C36_gaussian_exact with (A := ag) (sx := wg) (sy := wg); try assumption.
    + unfold inside_map. lia.
    + exact C36_left_inverse.
    + lra.
    + intros o _. unfold correl. replace (16 + snd o - 16)%Z with (snd o) by lia. replace (16 + fst o - 16)%Z with (fst o) by lia. reflexivity.
  - unfold compute_subpix. rewrite compute_inside by (unfold inside_map; lia). rewrite E.
    assert (T : too_far 1 (Fin x, Fin 0) = false).
    { unfold too_far, fsq. cbn [fst snd fmul fadd fltb]. destruct (Rlt_dec _ _); [exfalso; nra|reflexivity]. }
    rewrite T. unfold finish. rewrite T. reflexivity.
Qed.

Print Assumptions C80_gaussian2_transpose. Print Assumptions C80_gaussian2_mirror. Print Assumptions C80_gaussian2_fit. Print Assumptions C80_gaussian2_refuted.

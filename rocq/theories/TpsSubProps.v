(** C52, C75: the thin plate splines with subdomains. *)
From Coq Require Import Reals ZArith List Bool Lra Lia.
From Verif Require Import PyBase StrModel CalibModel CalibProps TpsModel TpsProps.
Import ListNotations.
Local Open Scope R_scope.

(** ** Specification *)

(** the smallest and the largest value of a list *)
Definition smallest (m : R) (l : list R) : Prop := In m l /\ forall x, In x l -> m <= x.
Definition largest (m : R) (l : list R) : Prop := In m l /\ forall x, In x l -> x <= m.

(** [v] is an average of the values [l], with positive weights of sum one *)
Definition weighted_average (v : R) (l : list R) : Prop :=
  exists lambdas, List.length lambdas = List.length l /\ (forall x, In x lambdas -> 0 < x) /\ rsum lambdas = 1 /\ v = dotv lambdas l.

(** the fields of the subdomains which contain the position [p], at [p]; a subdomain comes
    with its centers and its weights *)
Definition fields_at (l : list (subdom * (list pos * list R))) (p : pos) : list R :=
  map (fun q => field_at (fst (snd q)) (snd (snd q)) p) (filter (fun q => inside (fst q) p) l).

(** ** Sums at indices *)

Lemma update_nth_length : forall {A} f (l : list A) n, List.length (update_nth n f l) = List.length l.
Proof. induction l as [ | a l IH ]; intros [ | n ]; cbn; auto. Qed.
Lemma nth_update_eq : forall (v : R) l n d, (n < List.length l)%nat -> nth n (update_nth n (fun _ => v) l) d = v.
Proof. induction l as [ | a l IH ]; intros [ | n ] d H; cbn in *; try lia; auto. apply IH. lia. Qed.
Lemma nth_update_neq : forall (v : R) l n m d, n <> m -> nth m (update_nth n (fun _ => v) l) d = nth m l d.
Proof. induction l as [ | a l IH ]; intros [ | n ] [ | m ] d H; cbn in *; try lia; auto. Qed.

Lemma take_map : forall {A} (l : list A) idx d, (forall i, In i idx -> (i < List.length l)%nat) -> take l idx = map (fun i => nth i l d) idx.
Proof.
  intros A l idx d. induction idx as [ | i idx IH ]; intros H; [ reflexivity | ].
  unfold take in *. cbn [flat_map map]. rewrite (nth_error_nth' l d) by (apply H; left; auto). cbn [app].
  f_equal. apply IH. intros j Hj. apply H. right. exact Hj.
Qed.

(** what the values [values] at the indices [idx] add at the index [i] *)
Definition contrib (idx : list nat) (values : list R) (i : nat) : R :=
  rsum (map snd (filter (fun p => (fst p =? i)%nat) (combine idx values))).

Lemma contrib_out : forall idx values i, ~ In i idx -> contrib idx values i = 0.
Proof.
  unfold contrib. induction idx as [ | j idx IH ]; intros values i H; [ reflexivity | ]. destruct values as [ | v values ]; [ reflexivity | ].
  cbn [combine filter fst]. destruct (Nat.eqb_spec j i) as [ E | E ]; [ destruct H; left; exact E | ]. apply IH. intros Hi. apply H. right. exact Hi.
Qed.

Lemma assign_nth : forall ps b i,
  NoDup (map fst ps) -> (forall p, In p ps -> (fst p < List.length b)%nat) ->
  nth i (fold_left (fun b p => update_nth (fst p) (fun _ => snd p) b) ps b) 0
  = (if in_dec Nat.eq_dec i (map fst ps) then rsum (map snd (filter (fun p => (fst p =? i)%nat) ps)) else nth i b 0).
Proof.
  induction ps as [ | (j, v) ps IH ]; intros b i Hn Hb; [ reflexivity | ].
  cbn [map fst] in Hn. inversion Hn as [ | j' l' Hj Hn' ]; subst. cbn [fold_left fst snd].
  rewrite IH; [ | exact Hn' | intros p Hp; rewrite update_nth_length; apply Hb; right; exact Hp ].
  cbn [map fst filter]. destruct (Nat.eqb_spec j i) as [ -> | E ].
  - destruct (in_dec Nat.eq_dec i (map fst ps)) as [ Hi | Hi ]; [ contradiction | ].
    rewrite nth_update_eq by (apply (Hb (i, v)); left; reflexivity).
    destruct (in_dec Nat.eq_dec i (i :: map fst ps)) as [ _ | n ]; [ | destruct n; left; reflexivity ].
    cbn [map snd]. rewrite rsum_cons.
    assert (F : filter (fun p : nat * R => (fst p =? i)%nat) ps = []).
    { assert (G : forall p, In p ps -> (fst p =? i)%nat = false).
      { intros p Hp. apply Nat.eqb_neq. intros Q. apply Hi. rewrite <- Q. apply in_map. exact Hp. }
      clear - G. induction ps as [ | p ps IH ]; [ reflexivity | ]. cbn [filter]. rewrite G by (left; auto). apply IH. intros q Hq. apply G. right. exact Hq. }
    rewrite F. cbn [map]. unfold rsum. cbn. ring.
  - destruct (in_dec Nat.eq_dec i (map fst ps)) as [ Hi | Hi ]; destruct (in_dec Nat.eq_dec i (j :: map fst ps)) as [ Hi' | Hi' ]; try reflexivity.
    + destruct Hi'. right. exact Hi.
    + destruct Hi' as [ -> | Hi' ]; contradiction.
    + apply nth_update_neq. exact E.
Qed.

Lemma map_fst_combine : forall {A B} (l : list A) (l' : list B), List.length l = List.length l' -> map fst (combine l l') = l.
Proof. induction l as [ | a l IH ]; intros [ | b l' ] H; try discriminate; [ reflexivity | ]. cbn. f_equal. apply IH. injection H; auto. Qed.

Lemma add_at_length : forall a idx values, List.length (add_at a idx values) = List.length a.
Proof.
  intros a idx values. unfold add_at. generalize (combine idx (add_lists (take a idx) values)). intros ps.
  assert (G : forall ps b, List.length (fold_left (fun b (p : nat * R) => update_nth (fst p) (fun _ => snd p) b) ps b) = List.length b).
  { clear. induction ps as [ | p ps IH ]; intros b; [ reflexivity | ]. cbn [fold_left]. rewrite IH. apply update_nth_length. }
  apply G.
Qed.

Lemma add_at_nth : forall a idx values i,
  NoDup idx -> (forall j, In j idx -> (j < List.length a)%nat) -> List.length values = List.length idx ->
  nth i (add_at a idx values) 0 = nth i a 0 + contrib idx values i.
Proof.
  intros a idx values i Hn Hb Hl. unfold add_at. rewrite (take_map a idx 0 Hb).
  assert (Hlen : List.length idx = List.length (add_lists (map (fun i => nth i a 0) idx) values)).
  { unfold add_lists. rewrite map_length, combine_length, map_length. lia. }
  rewrite assign_nth.
  2: rewrite map_fst_combine by exact Hlen; exact Hn.
  2: { intros (j, v) Hp. apply Hb. apply in_combine_l in Hp. exact Hp. }
  rewrite map_fst_combine by exact Hlen.
  destruct (in_dec Nat.eq_dec i idx) as [ Hi | Hi ].
  - unfold contrib. clear Hlen Hb. revert values Hl. induction idx as [ | j idx IH ]; intros [ | v values ] Hl; try discriminate; [ destruct Hi | ].
    inversion Hn as [ | j' l' Hj Hn' ]; subst. cbn [map combine filter fst]. rewrite add_lists_cons. cbn [combine filter fst].
    destruct (Nat.eqb_spec j i) as [ -> | E ].
    + cbn [map snd]. rewrite !rsum_cons.
      pose proof (contrib_out idx values i Hj) as C1. unfold contrib in C1. rewrite C1.
      pose proof (contrib_out idx (add_lists (map (fun i => nth i a 0) idx) values) i Hj) as C2. unfold contrib in C2. rewrite C2. ring.
    + apply IH; [ exact Hn' | destruct Hi; [ contradiction | assumption ] | injection Hl; auto ].
  - rewrite contrib_out by exact Hi. ring.
Qed.

Lemma add_domains_length : forall idxs valuess a, List.length (add_domains idxs valuess a) = List.length a.
Proof.
  induction idxs as [ | idx idxs IH ]; intros [ | v vs ] a; try reflexivity. cbn [add_domains]. rewrite IH. apply add_at_length.
Qed.

Lemma add_domains_nth : forall idxs valuess a i,
  List.length valuess = List.length idxs ->
  (forall p, In p (combine idxs valuess) -> NoDup (fst p) /\ (forall j, In j (fst p) -> (j < List.length a)%nat) /\ List.length (snd p) = List.length (fst p)) ->
  nth i (add_domains idxs valuess a) 0 = nth i a 0 + rsum (map (fun p => contrib (fst p) (snd p) i) (combine idxs valuess)).
Proof.
  induction idxs as [ | idx idxs IH ]; intros [ | v vs ] a i Hl H; try discriminate; cbn [add_domains combine map].
  - unfold rsum. cbn. ring.
  - rewrite rsum_cons, IH.
    + destruct (H (idx, v)) as (H1 & H2 & H3); [ left; reflexivity | ]. cbn [fst snd] in *. rewrite add_at_nth by assumption. ring.
    + injection Hl; auto.
    + intros p Hp. rewrite add_at_length. apply H. right. exact Hp.
Qed.

(** *** the points of one subdomain *)

Lemma indices_in_spec : forall d ps i, In i (indices_in d ps) <-> exists p, nth_error ps i = Some p /\ inside d p = true.
Proof.
  intros d ps i. unfold indices_in. rewrite filter_In, in_seq. split.
  - intros [ H1 H2 ]. destruct (nth_error ps i) as [ p | ]; [ exists p; auto | discriminate ].
  - intros (p & H1 & H2). rewrite H1. split; [ | exact H2 ]. assert (i < List.length ps)%nat by (apply nth_error_Some; congruence). lia.
Qed.
Lemma indices_in_NoDup : forall d ps, NoDup (indices_in d ps).
Proof. intros. apply NoDup_filter, seq_NoDup. Qed.
Lemma indices_in_lt : forall d ps i, In i (indices_in d ps) -> (i < List.length ps)%nat.
Proof. intros d ps i H. apply indices_in_spec in H. destruct H as (p & H & _). apply nth_error_Some. congruence. Qed.

Lemma contrib_indices : forall (g : pos -> R) d ps i p, nth_error ps i = Some p ->
  contrib (indices_in d ps) (map g (take ps (indices_in d ps))) i = if inside d p then g p else 0.
Proof.
  intros g d ps i p Hp.
  assert (G : forall idx, NoDup idx -> (forall j, In j idx -> (j < List.length ps)%nat) ->
              contrib idx (map g (take ps idx)) i = if in_dec Nat.eq_dec i idx then g p else 0).
  { induction idx as [ | j idx IH ]; intros Hn Hb; [ reflexivity | ].
    inversion Hn as [ | j' l' Hj Hn' ]; subst.
    assert (Hjl : (j < List.length ps)%nat) by (apply Hb; left; auto).
    unfold take. cbn [flat_map]. fold (take ps idx). destruct (nth_error ps j) as [ q | ] eqn:Eq; [ | apply nth_error_None in Eq; lia ].
    cbn [app map]. unfold contrib. cbn [combine filter fst].
    assert (IH' : contrib idx (map g (take ps idx)) i = (if in_dec Nat.eq_dec i idx then g p else 0)) by (apply IH; [ exact Hn' | intros k Hk; apply Hb; right; exact Hk ]).
    unfold contrib in IH'. destruct (Nat.eqb_spec j i) as [ -> | E ].
    - cbn [map snd]. rewrite rsum_cons, IH'. destruct (in_dec Nat.eq_dec i idx) as [ Hi | _ ]; [ contradiction | ].
      destruct (in_dec Nat.eq_dec i (i :: idx)) as [ _ | n ]; [ | destruct n; left; auto ]. assert (q = p) by congruence. subst q. ring.
    - rewrite IH'. destruct (in_dec Nat.eq_dec i idx) as [ Hi | Hi ]; destruct (in_dec Nat.eq_dec i (j :: idx)) as [ Hi' | Hi' ]; try reflexivity.
      + destruct Hi'. right. exact Hi.
      + destruct Hi' as [ -> | Hi' ]; contradiction. }
  rewrite G by (first [ apply indices_in_NoDup | apply indices_in_lt ]).
  destruct (in_dec Nat.eq_dec i (indices_in d ps)) as [ Hi | Hi ].
  - apply indices_in_spec in Hi. destruct Hi as (q & Hq & Hin). assert (q = p) by congruence. subst q. rewrite Hin. reflexivity.
  - destruct (inside d p) eqn:E; [ | reflexivity ]. destruct Hi. apply indices_in_spec. eauto.
Qed.

(** the sum over the subdomains of values given by functions *)
Lemma sum_domains : forall {X} (l : list (subdom * X)) (g : subdom * X -> pos -> R) ps i p, nth_error ps i = Some p ->
  nth i (add_domains (map (fun q => indices_in (fst q) ps) l) (map (fun q => map (g q) (take ps (indices_in (fst q) ps))) l) (zeros (List.length ps))) 0
  = rsum (map (fun q => g q p) (filter (fun q => inside (fst q) p) l)).
Proof.
  intros X l g ps i p Hp. rewrite add_domains_nth.
  - unfold zeros. rewrite nth_repeat, Rplus_0_l. induction l as [ | q l IH ]; [ reflexivity | ].
    cbn [map combine filter fst snd]. rewrite rsum_cons, IH. cbn [fst snd]. rewrite (contrib_indices _ _ _ _ _ Hp).
    destruct (inside (fst q) p); [ reflexivity | ]. ring.
  - rewrite !map_length. reflexivity.
  - intros (idx, values) H. cbn [fst snd]. unfold zeros. rewrite repeat_length.
    assert (G : exists q, idx = indices_in (fst q) ps /\ values = map (g q) (take ps (indices_in (fst q) ps))).
    { clear Hp. induction l as [ | q l IH ]; [ destruct H | ]. destruct H as [ H | H ]; [ | apply IH; exact H ].
      apply pair_equal_spec in H. destruct H as [ <- <- ]. exists q. auto. }
    destruct G as (q & -> & ->). split; [ apply indices_in_NoDup | ]. split; [ apply indices_in_lt | ].
    rewrite map_length, (take_map _ _ (0, 0)), map_length by (apply indices_in_lt). reflexivity.
Qed.

Lemma sum_domains_length : forall idxs vss n, List.length (add_domains idxs vss (zeros n)) = n.
Proof. intros. rewrite add_domains_length. apply repeat_length. Qed.

Lemma quotients_nth : forall u v i x y, List.length u = List.length v -> (i < List.length u)%nat -> nth i u 0 = x -> nth i v 0 = y ->
  nth_error (quotients u v) i = Some (quotient x y).
Proof.
  induction u as [ | a u IH ]; intros [ | b v ] i x y Hl Hi Hx Hy; try discriminate; cbn in Hi; [ lia | ].
  destruct i as [ | i ]; cbn in *; [ subst; reflexivity | ]. apply IH; auto; lia.
Qed.

(** ** The geometry *)

Lemma ge_true : forall x y, ge x y = true <-> y <= x.
Proof. intros. unfold ge. destruct (Rle_dec y x); split; intros; try discriminate; try contradiction; auto. Qed.
Lemma gt_iff : forall x y, gt x y = true <-> y < x.
Proof. intros. unfold gt. destruct (Rlt_dec y x); split; intros; try discriminate; try contradiction; auto. Qed.
Lemma gt_iff_false : forall x y, gt x y = false <-> x <= y.
Proof. intros. unfold gt. destruct (Rlt_dec y x); split; intros; try discriminate; try lra; auto. Qed.

Lemma inside_spec : forall d p, inside d p = true <->
  d_xmin d <= snd p < d_xmax d /\ d_ymin d <= fst p < d_ymax d.
Proof.
  intros d p. unfold inside. rewrite !andb_true_iff, !ge_true, !gt_iff. tauto.
Qed.

(** inside a subdomain the coefficient is positive *)
Lemma coef_pos : forall d p, inside d p = true -> 0 < compute_coef_norm d p.
Proof.
  intros d p H. apply inside_spec in H. destruct H as [ [ H1 H2 ] [ H3 H4 ] ]. unfold compute_coef_norm.
  assert (G : forall lo hi v, lo <= v < hi ->
            0 <= 1 - (v - 1 / 2 * (lo + hi)) * (v - 1 / 2 * (lo + hi)) / ((hi - 1 / 2 * (lo + hi)) * (hi - 1 / 2 * (lo + hi)))).
  { intros lo hi v [ Hl Hh ]. set (m := (hi - 1 / 2 * (lo + hi))). assert (Hm : 0 < m) by (unfold m; lra).
    assert (Hv : - m <= v - 1 / 2 * (lo + hi) <= m) by (unfold m; lra). set (u := v - 1 / 2 * (lo + hi)) in *.
    assert (Hmm : 0 < m * m) by nra. apply Rmult_le_reg_r with (m * m); [ exact Hmm | ].
    replace ((1 - u * u / (m * m)) * (m * m)) with (m * m - u * u) by (field; lra). nra. }
  pose proof (G _ _ _ (conj H1 H2)) as Gx. pose proof (G _ _ _ (conj H3 H4)) as Gy.
  pose proof (Rmult_le_pos _ _ Gx Gy). lra.
Qed.

(** The weight of a subdomain in the blended field: the largest one, 1.001, at the centre of
    the subdomain and nowhere else, 0.001 exactly on its border, in between elsewhere: the
    contribution of a subdomain fades out (up to 0.001) when one goes out of it. *)
Lemma weight_factor : forall a b x, a < b -> a <= x <= b ->
  let c := 1 / 2 * (a + b) in let q := (x - c) * (x - c) / ((b - c) * (b - c)) in
  0 <= q <= 1 /\ (q = 1 <-> x = a \/ x = b) /\ (q = 0 <-> x = c).
Proof.
  intros a b x H [ H1 H2 ] c q. assert (D : 0 < (b - c) * (b - c)) by (apply Rmult_lt_0_compat; unfold c; lra).
  assert (E : q * ((b - c) * (b - c)) = (x - c) * (x - c)) by (unfold q; field; unfold c in *; lra).
  assert (P : (b - c) * (b - c) - (x - c) * (x - c) = (b - x) * (x - a)) by (unfold c; field).
  assert (N : 0 <= (b - x) * (x - a)) by nra.
  repeat split.
  - unfold q. apply Rmult_le_pos; [ apply Rle_0_sqr | apply Rlt_le, Rinv_0_lt_compat; exact D ].
  - apply (Rmult_le_reg_r _ _ _ D). rewrite E, Rmult_1_l. lra.
  - intros Hq. rewrite Hq, Rmult_1_l in E. assert (Z : (b - x) * (x - a) = 0) by lra.
    apply Rmult_integral in Z. destruct Z; [ right | left ]; lra.
  - intros Hx. apply (Rmult_eq_reg_r ((b - c) * (b - c))); [ | lra ]. rewrite E, Rmult_1_l.
    assert (Z : (b - x) * (x - a) = 0) by (destruct Hx as [ -> | -> ]; ring). lra.
  - intros Hq. rewrite Hq, Rmult_0_l in E. symmetry in E. apply Rmult_integral in E. destruct E; lra.
  - intros ->. unfold q. unfold c. field. lra.
Qed.

Theorem C52_weights : forall d x y,
  d_xmin d < d_xmax d -> d_ymin d < d_ymax d ->
  d_xmin d <= x <= d_xmax d -> d_ymin d <= y <= d_ymax d ->
  let w := compute_coef_norm d (y, x) in
  1 / 1000 <= w <= 1001 / 1000 /\
  (w = 1 / 1000 <-> x = d_xmin d \/ x = d_xmax d \/ y = d_ymin d \/ y = d_ymax d) /\
  (w = 1001 / 1000 <-> 2 * x = d_xmin d + d_xmax d /\ 2 * y = d_ymin d + d_ymax d).
Proof.
  intros d x y Hx Hy Ix Iy w. unfold w, compute_coef_norm. cbn [fst snd].
  destruct (weight_factor _ _ _ Hx Ix) as (A1 & A2 & A3). destruct (weight_factor _ _ _ Hy Iy) as (B1 & B2 & B3).
  set (p := (x - _) * _ / _) in *. set (q := (y - _) * _ / _) in *. clearbody p q.
  repeat split.
  - nra.
  - nra.
  - intros H. assert (Z : (1 - p) * (1 - q) = 0) by lra. apply Rmult_integral in Z. destruct Z as [ Z | Z ].
    + assert (Hp : p = 1) by lra. apply A2 in Hp. tauto.
    + assert (Hq : q = 1) by lra. apply B2 in Hq. tauto.
  - intros H. assert (Hpq : p = 1 \/ q = 1) by tauto. destruct Hpq as [ -> | -> ]; ring.
  - assert (Hp : p = 0) by nra. apply A3 in Hp. rewrite Hp. field.
  - assert (Hq : q = 0) by nra. apply B3 in Hq. rewrite Hq. field.
  - intros [ Ex Ey ]. assert (Hp : p = 0) by (apply A3; lra). assert (Hq : q = 0) by (apply B3; lra). rewrite Hp, Hq. field.
Qed.
Print Assumptions C52_weights.


(** the limits in one direction *)
Lemma limits_linspace : forall a b n l bu, (1 <= n)%Z -> linspace a b (n + 1) = Ok l ->
  limits l bu = map (fun k => (a + INR k * ((b - a) / IZR n) - bu, a + INR (S k) * ((b - a) / IZR n) + bu)) (seq 0 (Z.to_nat n)).
Proof.
  intros a b n l bu Hn H. unfold linspace in H.
  replace (n + 1 <? 0)%Z with false in H by (symmetry; apply Z.ltb_ge; lia).
  replace (n + 1 =? 1)%Z with false in H by (symmetry; apply Z.eqb_neq; lia).
  injection H as <-. unfold limits, but_last, but_first, range0. rewrite map_map.
  replace (n + 1 - 1)%Z with n by lia. replace (Z.to_nat (n + 1)) with (S (Z.to_nat n)) by lia.
  set (f := fun x : nat => a + IZR (Z.of_nat x) * ((b - a) / IZR n)).
  assert (R1 : forall m k, removelast (map f (seq k (S m))) = map f (seq k m)).
  { clear. induction m as [ | m IH ]; intros k; [ reflexivity | ].
    change (map f (seq k (S (S m)))) with (f k :: map f (seq (S k) (S m))). change (map f (seq k (S m))) with (f k :: map f (seq (S k) m)).
    rewrite <- (IH (S k)). reflexivity. }
  rewrite R1. change (tl (map f (seq 0 (S (Z.to_nat n))))) with (map f (seq 1 (Z.to_nat n))).
  rewrite <- seq_shift, !map_map. generalize (seq 0 (Z.to_nat n)). intros s. induction s as [ | k s IH ]; [ reflexivity | ].
  cbn [map combine]. rewrite IH. unfold f. rewrite !INR_IZR_INZ. reflexivity.
Qed.

(** the intervals cover the whole length, with the buffers *)
Lemma cover_1d : forall a h n bu x, 0 < h -> 0 <= bu ->
  (exists k, (k < S n)%nat /\ a + INR k * h - bu <= x < a + INR (S k) * h + bu) <-> a - bu <= x < a + INR (S n) * h + bu.
Proof.
  intros a h n bu x Hh Hb. split.
  - intros (k & Hk & H1 & H2). assert (K1 : 0 <= INR k) by apply pos_INR.
    assert (K2 : INR (S k) <= INR (S n)) by (apply le_INR; lia). split; nra.
  - induction n as [ | n IH ]; intros [ H1 H2 ].
    + exists 0%nat. split; [ lia | ]. cbn [INR] in *. lra.
    + destruct (Rlt_dec x (a + INR (S n) * h + bu)) as [ L | L ].
      * destruct (IH (conj H1 L)) as (k & Hk & Hx). exists k. split; [ lia | exact Hx ].
      * exists (S n). split; [ lia | ]. lra.
Qed.

(** the numbers of subdomains are at least one *)
Lemma numbers_pos : forall size sz rx ry nx ny, numbers_subdom size sz rx ry = Ok (nx, ny) -> (1 <= nx)%Z /\ (1 <= ny)%Z.
Proof.
  intros size sz rx ry nx ny H. unfold numbers_subdom in H.
  destruct (sz =? 0)%Z; [ discriminate | ]. destruct (is_zero rx && is_zero ry); [ discriminate | ].
  destruct (is_zero rx || is_zero ry); [ destruct (gt 0 _); discriminate | ].
  destruct (gt 0 _); [ discriminate | ].
  set (s1 := sqrt (IZR size / IZR sz / (ry / rx))) in H. set (s2 := sqrt (IZR size / IZR sz * (ry / rx))) in H.
  assert (P1 : 0 <= s1) by apply sqrt_pos. assert (P2 : 0 <= s2) by apply sqrt_pos.
  assert (F1 : (0 <= floor s1)%Z).
  { unfold floor. destruct (base_Int_part s1) as [ B1 B2 ]. apply Z.lt_succ_r. apply lt_IZR. rewrite succ_IZR. lra. }
  assert (F2 : (0 <= ceil s2)%Z).
  { unfold ceil. destruct (base_Int_part (- s2)) as [ B1 B2 ]. assert (IZR (Int_part (- s2)) <= 0) by lra. apply le_IZR in H0. lia. }
  injection H as <- <-. destruct (floor s1 =? 0)%Z eqn:E1; destruct (ceil s2 =? 0)%Z eqn:E2; lia.
Qed.

(** For a positive size of subdomain and points which are not all on a same line parallel to
    an axis, the numbers are defined *)
Lemma numbers_ok : forall size sz rx ry, (0 <= size)%Z -> (0 < sz)%Z -> 0 < rx -> 0 < ry -> exists ns, numbers_subdom size sz rx ry = Ok ns.
Proof.
  intros size sz rx ry Hs Hz Hx Hy. unfold numbers_subdom.
  replace (sz =? 0)%Z with false by lia.
  destruct (is_zero rx) eqn:E1; [ apply is_zero_true in E1; lra | ]. destruct (is_zero ry) eqn:E2; [ apply is_zero_true in E2; lra | ].
  cbn [andb orb]. destruct (gt 0 _) eqn:E; [ | eauto ]. apply gt_iff in E. exfalso.
  apply IZR_le in Hs. apply IZR_lt in Hz.
  assert (0 <= IZR size / IZR sz / (ry / rx)); [ | lra ].
  unfold Rdiv. repeat apply Rmult_le_pos; try lra.
  - apply Rlt_le, Rinv_0_lt_compat. lra.
  - apply Rlt_le, Rinv_0_lt_compat. apply Rmult_lt_0_compat; [ lra | apply Rinv_0_lt_compat; lra ].
Qed.

(** what the constructor gives *)
Lemma init_spec : forall centers sz sm th pc t x_min x_max y_min y_max,
  tps_init centers sz sm th pc = Ok t ->
  smallest x_min (map snd centers) -> largest x_max (map snd centers) ->
  smallest y_min (map fst centers) -> largest y_max (map fst centers) ->
  t_centers t = centers /\ t_threshold t = th /\
  t_indices t = map (fun d => indices_in d centers) (t_domains t) /\
  t_norm_coefs_domains t = map (fun d => map (compute_coef_norm d) (take centers (indices_in d centers))) (t_domains t) /\
  t_norm_coefs t = add_domains (t_indices t) (t_norm_coefs_domains t) (zeros (List.length centers)) /\
  x_min < x_max /\ y_min < y_max /\
  exists nx ny, (1 <= nx)%Z /\ (1 <= ny)%Z /\ numbers_subdom (zlen centers) sz (x_max - x_min) (y_max - y_min) = Ok (nx, ny) /\
    let bx := pc / 100 * (x_max - x_min) / IZR nx in
    let by_ := pc / 100 * (y_max - y_min) / IZR ny in
    let hx := (x_max - x_min) / IZR nx in
    let hy := (y_max - y_min) / IZR ny in
    t_domains t = flat_map (fun j => map (fun i => {| d_xmin := x_min + INR i * hx - bx; d_xmax := x_min + INR (S i) * hx + bx;
                                                     d_ymin := y_min + INR j * hy - by_; d_ymax := y_min + INR (S j) * hy + by_ |})
                                         (seq 0 (Z.to_nat nx))) (seq 0 (Z.to_nat ny)).
Proof.
  intros centers sz sm th pc t x_min x_max y_min y_max H [ X1 X2 ] [ X3 X4 ] [ Y1 Y2 ] [ Y3 Y4 ]. unfold tps_init in H.
  rewrite (np_min_is _ _ X1 X2), (np_max_is _ _ X3 X4), (np_min_is _ _ Y1 Y2), (np_max_is _ _ Y3 Y4) in H. cbn [bind] in H.
  destruct (numbers_subdom (zlen centers) sz (x_max - x_min) (y_max - y_min)) as [ (nx, ny) | ] eqn:En; [ | discriminate ]. cbn [bind] in H.
  destruct (numbers_pos _ _ _ _ _ _ En) as [ Hnx Hny ].
  destruct (linspace x_min x_max (nx + 1)) as [ xd | ] eqn:Lx; [ | discriminate ]. cbn [bind] in H.
  destruct (linspace y_min y_max (ny + 1)) as [ yd | ] eqn:Ly; [ | discriminate ]. cbn [bind] in H.
  destruct (py_get xd 1) as [ xd1 | ]; [ | discriminate ]. cbn [bind] in H. destruct (py_get xd 0) as [ xd0 | ]; [ | discriminate ]. cbn [bind] in H.
  destruct (py_get yd 1) as [ yd1 | ]; [ | discriminate ]. cbn [bind] in H. destruct (py_get yd 0) as [ yd0 | ]; [ | discriminate ]. cbn [bind] in H.
  match type of H with Ok ?r = Ok t => assert (E : t = r) by congruence end. clear H. rewrite E. cbn [t_centers t_threshold t_indices t_norm_coefs_domains t_norm_coefs t_domains].
  do 5 (split; [ reflexivity | ]).
  assert (Hr : x_min < x_max /\ y_min < y_max).
  { unfold numbers_subdom in En. destruct (sz =? 0)%Z; [ discriminate | ].
    destruct (is_zero (x_max - x_min)) eqn:Zx; destruct (is_zero (y_max - y_min)) eqn:Zy; cbn [andb orb] in En; try discriminate;
      try (destruct (gt 0 _); discriminate).
    apply is_zero_false in Zx, Zy. specialize (X2 _ X3). specialize (Y2 _ Y3). lra. }
  split; [ apply Hr | ]. split; [ apply Hr | ]. exists nx, ny. split; [ exact Hnx | ]. split; [ exact Hny | ]. split; [ reflexivity | ].
  cbv zeta. rewrite (limits_linspace _ _ _ _ _ Hnx Lx), (limits_linspace _ _ _ _ _ Hny Ly).
  rewrite !flat_map_concat_map, map_map. f_equal. apply map_ext. intros j. rewrite map_map. reflexivity.
Qed.

Lemma py_get_0 : forall (x : R) l, py_get (x :: l) 0 = Ok x.
Proof. intros. unfold py_get, zlen. cbn [List.length]. cbv zeta. rewrite Z.ltb_irrefl.
  replace ((0 <=? 0) && (0 <? Z.of_nat (S (List.length l))))%Z with true by lia. reflexivity. Qed.
Lemma py_get_1 : forall (x y : R) l, py_get (x :: y :: l) 1 = Ok y.
Proof. intros. unfold py_get, zlen. cbn [List.length]. cbv zeta. replace (1 <? 0)%Z with false by lia.
  replace ((0 <=? 1) && (1 <? Z.of_nat (S (S (List.length l)))))%Z with true by lia. reflexivity. Qed.

Lemma init_ok : forall (centers : list pos) sz sm th pc x_min x_max y_min y_max,
  smallest x_min (map snd centers) -> largest x_max (map snd centers) ->
  smallest y_min (map fst centers) -> largest y_max (map fst centers) ->
  (0 < sz)%Z -> x_min < x_max -> y_min < y_max -> exists t, tps_init centers sz sm th pc = Ok t.
Proof.
  intros centers sz sm th pc x_min x_max y_min y_max [ X1 X2 ] [ X3 X4 ] [ Y1 Y2 ] [ Y3 Y4 ] Hz Hx Hy. unfold tps_init.
  rewrite (np_min_is _ _ X1 X2), (np_max_is _ _ X3 X4), (np_min_is _ _ Y1 Y2), (np_max_is _ _ Y3 Y4). cbn [bind].
  destruct (numbers_ok (zlen centers) sz (x_max - x_min) (y_max - y_min)) as [ (nx, ny) En ]; try lra; try assumption.
  { unfold zlen. lia. }
  rewrite En. cbn [bind]. destruct (numbers_pos _ _ _ _ _ _ En) as [ Hnx Hny ].
  assert (L : forall a b n, (1 <= n)%Z -> exists l v0 v1, linspace a b (n + 1) = Ok l /\ py_get l 1 = Ok v1 /\ py_get l 0 = Ok v0).
  { intros a b n Hn. unfold linspace.
    replace (n + 1 <? 0)%Z with false by lia. replace (n + 1 =? 1)%Z with false by lia.
    eexists. unfold range0. replace (Z.to_nat (n + 1)) with (S (S (Z.to_nat (n - 1)))) by lia. cbn [seq map].
    match goal with |- exists v0 v1, Ok (?a :: ?b :: ?l) = _ /\ _ => exists a, b; set (tail := l) end.
    split; [ reflexivity | ]. rewrite py_get_1, py_get_0. auto. }
  destruct (L x_min x_max nx Hnx) as (lx & x0 & x1 & Lx & G1 & G2). destruct (L y_min y_max ny Hny) as (ly & y0 & y1 & Ly & G3 & G4).
  rewrite Lx, Ly. cbn [bind]. rewrite G1, G2, G3, G4. cbn [bind]. eauto.
Qed.

(** ** Coverage *)

Lemma covered : forall centers sz sm th pc t x_min x_max y_min y_max,
  tps_init centers sz sm th pc = Ok t -> 0 <= pc ->
  smallest x_min (map snd centers) -> largest x_max (map snd centers) ->
  smallest y_min (map fst centers) -> largest y_max (map fst centers) ->
  exists bx by_, (0 < pc -> 0 < bx /\ 0 < by_) /\ (pc = 0 -> bx = 0 /\ by_ = 0) /\
    forall p, (exists d, In d (t_domains t) /\ inside d p = true) <->
              x_min - bx <= snd p < x_max + bx /\ y_min - by_ <= fst p < y_max + by_.
Proof.
  intros centers sz sm th pc t x_min x_max y_min y_max H Hp X1 X2 Y1 Y2.
  destruct (init_spec _ _ _ _ _ _ _ _ _ _ H X1 X2 Y1 Y2) as (_ & _ & _ & _ & _ & Hx & Hy & nx & ny & Hnx & Hny & _ & D).
  cbv zeta in D. set (bx := pc / 100 * (x_max - x_min) / IZR nx) in D. set (by_ := pc / 100 * (y_max - y_min) / IZR ny) in D.
  set (hx := (x_max - x_min) / IZR nx) in D. set (hy := (y_max - y_min) / IZR ny) in D. exists bx, by_.
  assert (Px : 0 < IZR nx) by (apply IZR_lt; lia). assert (Py : 0 < IZR ny) by (apply IZR_lt; lia).
  assert (Hhx : 0 < hx) by (unfold hx, Rdiv; apply Rmult_lt_0_compat; [ lra | apply Rinv_0_lt_compat; exact Px ]).
  assert (Hhy : 0 < hy) by (unfold hy, Rdiv; apply Rmult_lt_0_compat; [ lra | apply Rinv_0_lt_compat; exact Py ]).
  assert (Ebx : bx = pc / 100 * hx) by (unfold bx, hx; field; lra). assert (Eby : by_ = pc / 100 * hy) by (unfold by_, hy; field; lra).
  split; [ intros; split; [ rewrite Ebx | rewrite Eby ]; apply Rmult_lt_0_compat; lra | ].
  split; [ intros Z0; split; [ rewrite Ebx | rewrite Eby ]; rewrite Z0; lra | ].
  assert (Bx : 0 <= bx) by (rewrite Ebx; apply Rmult_le_pos; lra). assert (By : 0 <= by_) by (rewrite Eby; apply Rmult_le_pos; lra).
  assert (Nx : exists m, Z.to_nat nx = S m) by (exists (Z.to_nat (nx - 1)); lia). destruct Nx as [ mx Nx ].
  assert (Ny : exists m, Z.to_nat ny = S m) by (exists (Z.to_nat (ny - 1)); lia). destruct Ny as [ my Ny ].
  assert (Ex : x_max = x_min + INR (S mx) * hx).
  { rewrite <- Nx, INR_IZR_INZ, Z2Nat.id by lia. unfold hx. field. lra. }
  assert (Ey : y_max = y_min + INR (S my) * hy).
  { rewrite <- Ny, INR_IZR_INZ, Z2Nat.id by lia. unfold hy. field. lra. }
  clearbody hx hy bx by_.
  intros p. rewrite Ex, Ey. rewrite <- (cover_1d x_min hx mx bx (snd p) Hhx Bx), <- (cover_1d y_min hy my by_ (fst p) Hhy By).
  rewrite D. split.
  - intros (d & Hd & Hi). apply in_flat_map in Hd. destruct Hd as (j & Hj & Hd). apply in_map_iff in Hd. destruct Hd as (i & <- & Hi2).
    apply inside_spec in Hi. cbn [d_xmin d_xmax d_ymin d_ymax] in Hi. apply in_seq in Hj, Hi2.
    split; [ exists i | exists j ]; (split; [ lia | tauto ]).
  - intros ((i & Hi & Qi) & (j & Hj & Qj)). eexists. split.
    + apply in_flat_map. exists j. split; [ apply in_seq; lia | ]. apply in_map_iff. exists i. split; [ reflexivity | apply in_seq; lia ].
    + apply inside_spec. cbn [d_xmin d_xmax d_ymin d_ymax]. auto.
Qed.

(** Every data point is in a subdomain, with a positive coefficient, and the coefficients do
    not vanish: with a positive buffer. *)
Theorem C52_covered_partial : forall centers sz sm th pc t,
  tps_init centers sz sm th pc = Ok t -> 0 < pc ->
  forall p, In p centers -> exists d, In d (t_domains t) /\ inside d p = true /\ 0 < compute_coef_norm d p.
Proof.
  intros centers sz sm th pc t H Hp p Hin.
  assert (M : exists x_min x_max y_min y_max, smallest x_min (map snd centers) /\ largest x_max (map snd centers) /\
                smallest y_min (map fst centers) /\ largest y_max (map fst centers)).
  { unfold tps_init in H.
    destruct (np_min (map snd centers)) as [ x_min | ] eqn:E1; [ | discriminate ]. cbn [bind] in H.
    destruct (np_max (map snd centers)) as [ x_max | ] eqn:E2; [ | discriminate ]. cbn [bind] in H.
    destruct (np_min (map fst centers)) as [ y_min | ] eqn:E3; [ | discriminate ]. cbn [bind] in H.
    destruct (np_max (map fst centers)) as [ y_max | ] eqn:E4; [ | discriminate ].
    exists x_min, x_max, y_min, y_max. apply np_min_spec in E1, E3. apply np_max_spec in E2, E4. auto. }
  destruct M as (x_min & x_max & y_min & y_max & X1 & X2 & Y1 & Y2).
  destruct (covered _ _ _ _ _ _ _ _ _ _ H (Rlt_le _ _ Hp) X1 X2 Y1 Y2) as (bx & by_ & B & _ & C). destruct (B Hp) as [ Bx By ].
  destruct (proj2 (C p)) as (d & Hd & Hi).
  { destruct X1 as [ _ X1 ], X2 as [ _ X2 ], Y1 as [ _ Y1 ], Y2 as [ _ Y2 ].
    specialize (X1 _ (in_map snd _ _ Hin)). specialize (X2 _ (in_map snd _ _ Hin)).
    specialize (Y1 _ (in_map fst _ _ Hin)). specialize (Y2 _ (in_map fst _ _ Hin)). split; split; lra. }
  exists d. split; [ exact Hd | ]. split; [ exact Hi | apply coef_pos; exact Hi ].
Qed.
Print Assumptions C52_covered_partial.

(** Without buffer, a data point is in a subdomain if and only if it is on neither of the
    lines x = x_max and y = y_max. *)
Theorem C52_no_buffer_iff : forall centers sz sm th t x_max y_max,
  tps_init centers sz sm th 0 = Ok t -> largest x_max (map snd centers) -> largest y_max (map fst centers) ->
  forall p, In p centers -> (exists d, In d (t_domains t) /\ inside d p = true) <-> snd p <> x_max /\ fst p <> y_max.
Proof.
  intros centers sz sm th t x_max y_max H X2 Y2 p Hin.
  assert (M : exists x_min y_min, smallest x_min (map snd centers) /\ smallest y_min (map fst centers)).
  { unfold tps_init in H.
    destruct (np_min (map snd centers)) as [ x_min | ] eqn:E1; [ | discriminate ]. cbn [bind] in H.
    destruct (np_max (map snd centers)) as [ x_max' | ] eqn:E2; [ | discriminate ]. cbn [bind] in H.
    destruct (np_min (map fst centers)) as [ y_min | ] eqn:E3; [ | discriminate ].
    exists x_min, y_min. apply np_min_spec in E1, E3. auto. }
  destruct M as (x_min & y_min & X1 & Y1).
  destruct (covered _ _ _ _ _ _ _ _ _ _ H (Rle_refl 0) X1 X2 Y1 Y2) as (bx & by_ & _ & B & C). destruct (B eq_refl) as [ -> -> ].
  rewrite C. destruct X1 as [ _ X1 ], X2 as [ _ X2 ], Y1 as [ _ Y1 ], Y2 as [ _ Y2 ].
  specialize (X1 _ (in_map snd _ _ Hin)). specialize (X2 _ (in_map snd _ _ Hin)).
  specialize (Y1 _ (in_map fst _ _ Hin)). specialize (Y2 _ (in_map fst _ _ Hin)). split; intros Q.
  - split; lra.
  - destruct Q as [ Q1 Q2 ]. assert (snd p < x_max) by (destruct X2; [ assumption | contradiction ]).
    assert (fst p < y_max) by (destruct Y2; [ assumption | contradiction ]). split; split; lra.
Qed.
Print Assumptions C52_no_buffer_iff.

(** ** The smoothed field and the interpolation *)

Lemma take_length : forall {A} (l : list A) idx, (forall i, In i idx -> (i < List.length l)%nat) -> List.length (take l idx) = List.length idx.
Proof.
  intros A l idx H. destruct l as [ | a l ].
  - destruct idx as [ | i idx ]; [ reflexivity | ]. exfalso. specialize (H i (or_introl eq_refl)). cbn in H. lia.
  - rewrite (take_map _ _ a H), map_length. reflexivity.
Qed.
Lemma take_of_map : forall {A B} (f : A -> B) (l : list A) idx, take (map f l) idx = map f (take l idx).
Proof.
  intros A B f l idx. induction idx as [ | i idx IH ]; [ reflexivity | ]. unfold take in *. cbn [flat_map].
  rewrite map_app, IH, nth_error_map. destruct (nth_error l i); reflexivity.
Qed.

Lemma replace_at_length : forall idx values smoothed, List.length (replace_at values smoothed idx) = List.length values.
Proof.
  unfold replace_at. induction idx as [ | i idx IH ]; intros values smoothed; [ reflexivity | ]. cbn [fold_left]. rewrite IH. apply update_nth_length.
Qed.

Section Solver.
Variable solve : matrix -> list R -> result (list R).
Hypothesis Hsolve : solve_contract solve.

(** a result of the (iterative) computation is given by a spline *)
Definition is_spline (centers : list pos) (smoothed w : list R) : Prop :=
  smoothed = map (field_at centers w) centers /\ List.length w = (List.length centers + 3)%nat.

Lemma weights_is_spline : forall centers values s smoothed w, List.length values = List.length centers ->
  compute_tps_weights solve centers values s = Ok (smoothed, w) -> is_spline centers smoothed w.
Proof.
  intros centers values s smoothed w Hl H.
  destruct (weights_spec _ _ _ _ _ _ Hsolve Hl H) as (ws & a & b & c & -> & Hw & -> & _). split.
  - apply map_ext. intros p. symmetry. apply field_at_spline. exact Hw.
  - rewrite app_length, Hw. reflexivity.
Qed.

Lemma loop_is_spline : forall fuel th centers s values smoothed w count nb r,
  List.length values = List.length centers -> is_spline centers smoothed w ->
  erratic_loop solve fuel th centers s values smoothed w count nb = Ok r ->
  is_spline centers (fst (fst (fst r))) (snd (fst (fst r))).
Proof.
  induction fuel as [ | fuel IH ]; intros th centers s values smoothed w count nb r Hl Hs H; [ discriminate | ].
  cbn [erratic_loop] in H. destruct (erratic th (differences smoothed values)) as [ | i idx ]; [ injection H as <-; exact Hs | ].
  destruct (compute_tps_weights solve centers (replace_at values smoothed (i :: idx)) s) as [ (sm', w') | ] eqn:E; [ | discriminate ].
  cbn [bind] in H. apply weights_is_spline in E; [ | rewrite replace_at_length; exact Hl ].
  destruct (10 <? count + 1)%nat; [ injection H as <-; exact E | ].
  apply IH in H; [ exact H | rewrite replace_at_length; exact Hl | exact E ].
Qed.

Lemma iter_is_spline : forall th centers values s smoothed w su, List.length values = List.length centers ->
  compute_tps_weights_iter solve th centers values s = Ok (smoothed, w, su) -> is_spline centers smoothed w.
Proof.
  intros th centers values s smoothed w su Hl H. unfold compute_tps_weights_iter in H.
  destruct (compute_tps_weights solve centers values s) as [ (sm', w') | ] eqn:E; [ | discriminate ]. cbn [bind] in H.
  apply weights_is_spline in E; [ | exact Hl ]. destruct th as [ th | ].
  - destruct (np_max (differences sm' values)); [ | discriminate ]. cbn [bind] in H.
    destruct (erratic_loop solve 11 th centers s values sm' w' 1 0) as [ (((sm2, w2), c2), n2) | ] eqn:L; [ | discriminate ].
    cbn [bind] in H. apply loop_is_spline in L; [ | exact Hl | exact E ]. cbn [fst snd] in L. injection H as <- <- _. exact L.
  - injection H as <- <- _. exact E.
Qed.

(** the subdomains with their centers and their weights *)
Definition with_weights (t : tps) (weights : list (list R)) : list (subdom * (list pos * list R)) :=
  combine (t_domains t) (combine (map (take (t_centers t)) (t_indices t)) weights).

Definition blend (l : list (subdom * (list pos * list R))) (p : pos) : option R :=
  quotient (rsum (map (fun q => compute_coef_norm (fst q) p * field_at (fst (snd q)) (snd (snd q)) p) (filter (fun q => inside (fst q) p) l)))
           (rsum (map (fun q => compute_coef_norm (fst q) p) (filter (fun q => inside (fst q) p) l))).

Lemma rsum_pos : forall l, (forall x, In x l -> 0 < x) -> 0 <= rsum l /\ (l <> [] -> 0 < rsum l).
Proof.
  induction l as [ | x l IH ]; intros H; [ split; [ apply Rle_refl | contradiction ] | ]. rewrite rsum_cons.
  destruct IH as [ IH _ ]; [ intros y Hy; apply H; right; exact Hy | ]. specialize (H x (or_introl eq_refl)). split; intros; lra.
Qed.

Lemma rsum_scale : forall k l, rsum (map (fun x => x / k) l) = rsum l / k.
Proof. intros k l. induction l as [ | x l IH ]; [ unfold rsum; cbn; unfold Rdiv; ring | ]. cbn [map]. rewrite !rsum_cons, IH. unfold Rdiv. ring. Qed.

Lemma blend_average : forall l p, (exists q, In q l /\ inside (fst q) p = true) ->
  exists v, blend l p = Some v /\ weighted_average v (fields_at l p).
Proof.
  intros l p (q & Hq & Hi). unfold blend. set (ds := filter (fun q => inside (fst q) p) l).
  assert (Hin : In q ds) by (apply filter_In; auto).
  assert (Hpos : forall x, In x (map (fun q : subdom * (list pos * list R) => compute_coef_norm (fst q) p) ds) -> 0 < x).
  { intros x Hx. apply in_map_iff in Hx. destruct Hx as (r & <- & Hr). apply filter_In in Hr. apply coef_pos, Hr. }
  destruct (rsum_pos _ Hpos) as [ _ S ]. set (N := rsum (map (fun q => compute_coef_norm (fst q) p) ds)) in *.
  assert (HN : 0 < N) by (apply S; destruct ds; [ destruct Hin | discriminate ]).
  unfold quotient. destruct (is_zero N) eqn:Z; [ apply is_zero_true in Z; lra | ]. eexists. split; [ reflexivity | ].
  exists (map (fun x => x / N) (map (fun q => compute_coef_norm (fst q) p) ds)). unfold fields_at. fold ds. split; [ rewrite !map_length; reflexivity | ].
  split; [ | split ].
  - intros x Hx. apply in_map_iff in Hx. destruct Hx as (y & <- & Hy). apply Hpos in Hy. apply Rmult_lt_0_compat; [ exact Hy | apply Rinv_0_lt_compat; exact HN ].
  - rewrite rsum_scale. change (N / N = 1). field. lra.
  - clearbody N. clear - HN. clearbody ds. induction ds as [ | r ds IH ]; cbn [map].
    + unfold dotv, rsum. cbn. unfold Rdiv. ring.
    + rewrite rsum_cons, dotv_cons, <- IH. unfold Rdiv. ring.
Qed.

Lemma blend_none : forall l p, blend l p = None <-> ~ exists q, In q l /\ inside (fst q) p = true.
Proof.
  intros l p. split.
  - intros H E. destruct (blend_average l p E) as (v & Hv & _). congruence.
  - intros E. unfold blend. replace (filter (fun q => inside (fst q) p) l) with (@nil (subdom * (list pos * list R))).
    + cbn. unfold quotient. destruct (is_zero 0) eqn:Z; [ reflexivity | apply is_zero_false in Z; lra ].
    + symmetry. clear - E. induction l as [ | q l IH ]; [ reflexivity | ]. cbn [filter]. destruct (inside (fst q) p) eqn:I1.
      * destruct E. exists q. split; [ left; reflexivity | exact I1 ].
      * apply IH. intros (r & Hr & I2). apply E. exists r. split; [ right; exact Hr | exact I2 ].
Qed.

Lemma map_result_length : forall {A B} (f : A -> result B) l r, map_result f l = Ok r -> List.length r = List.length l.
Proof.
  induction l as [ | a l IH ]; intros r H; [ injection H as <-; reflexivity | ]. cbn [map_result] in H.
  destruct (f a) as [ b | ]; [ | discriminate ]. cbn [bind] in H. destruct (map_result f l) as [ r' | ] eqn:E; [ | discriminate ].
  cbn [bind] in H. injection H as <-. cbn. f_equal. apply IH. reflexivity.
Qed.
Lemma map_result_combine : forall {A B} (f : A -> result B) l r, map_result f l = Ok r -> forall a b, In (a, b) (combine l r) -> f a = Ok b.
Proof.
  induction l as [ | x l IH ]; intros r H a b Hin; [ destruct Hin | ]. cbn [map_result] in H.
  destruct (f x) as [ y | ] eqn:Ex; [ | discriminate ]. cbn [bind] in H. destruct (map_result f l) as [ r' | ] eqn:E; [ | discriminate ].
  cbn [bind] in H. injection H as <-. destruct Hin as [ Hin | Hin ]; [ apply pair_equal_spec in Hin; destruct Hin as [ <- <- ]; exact Ex | ].
  eapply IH; [ reflexivity | exact Hin ].
Qed.

Lemma mul_maps : forall (f g : pos -> R) l, mul_lists (map f l) (map g l) = map (fun p => f p * g p) l.
Proof. unfold mul_lists. induction l as [ | p l IH ]; [ reflexivity | ]. cbn [map combine]. rewrite IH. reflexivity. Qed.

Lemma combine_fst_map : forall {A B C} (f : A -> C) (l : list A) (l' : list B), List.length l = List.length l' ->
  map (fun q => f (fst q)) (combine l l') = map f l.
Proof. induction l as [ | a l IH ]; intros [ | b l' ] H; try discriminate; [ reflexivity | ]. cbn [combine map fst]. f_equal. apply IH. injection H; auto. Qed.

Lemma combine_map_l : forall {A A' B} (f : A -> A') (l : list A) (l' : list B), combine (map f l) l' = map (fun q => (f (fst q), snd q)) (combine l l').
Proof. induction l as [ | a l IH ]; intros [ | b l' ]; try reflexivity. cbn [combine map fst snd]. rewrite IH. reflexivity. Qed.

(** the results of the subdomains *)
Lemma subdom_values : forall (centers : list pos) (ds : list subdom) (rs : list (list R * list R * summary)),
  List.length rs = List.length ds ->
  (forall d r, In (d, r) (combine ds rs) -> is_spline (take centers (indices_in d centers)) (fst (fst r)) (snd (fst r))) ->
  map (fun p => mul_lists (fst p) (fst (fst (snd p)))) (combine (map (fun d => map (compute_coef_norm d) (take centers (indices_in d centers))) ds) rs)
  = map (fun q => map (fun p => compute_coef_norm (fst q) p * field_at (fst (snd q)) (snd (snd q)) p) (take centers (indices_in (fst q) centers)))
        (combine ds (combine (map (take centers) (map (fun d => indices_in d centers) ds)) (map (fun r : list R * list R * summary => snd (fst r)) rs))).
Proof.
  intros centers ds. induction ds as [ | d ds IH ]; intros [ | r rs ] Hl H; try discriminate; [ reflexivity | ].
  cbn [map combine fst snd]. f_equal.
  - destruct (H d r) as [ E _ ]; [ left; reflexivity | ]. rewrite E. apply mul_maps.
  - apply IH; [ injection Hl; auto | ]. intros d' r' Hin. apply H. right. exact Hin.
Qed.

Lemma with_weights_fst : forall t weights, List.length weights = List.length (t_domains t) -> List.length (t_indices t) = List.length (t_domains t) ->
  forall {C} (f : subdom -> C), map (fun q => f (fst q)) (with_weights t weights) = map f (t_domains t).
Proof.
  intros t weights H1 H2 C f. unfold with_weights. apply combine_fst_map. rewrite combine_length, map_length. lia.
Qed.

Lemma with_weights_in : forall t weights, List.length weights = List.length (t_domains t) -> List.length (t_indices t) = List.length (t_domains t) ->
  forall p, (exists q, In q (with_weights t weights) /\ inside (fst q) p = true) <-> exists d, In d (t_domains t) /\ inside d p = true.
Proof.
  intros t weights H1 H2 p. pose proof (with_weights_fst t weights H1 H2 (fun d => d)) as E. rewrite map_id in E. rewrite <- E. split.
  - intros (q & Hq & Hi). exists (fst q). split; [ apply (in_map (fun q => fst q)); exact Hq | exact Hi ].
  - intros (d & Hd & Hi). apply in_map_iff in Hd. destruct Hd as (q & <- & Hq). eauto.
Qed.

Lemma combine_map_both : forall {A B C} (f : A -> B) (l : list A) (l' : list C), combine (map f l) l' = map (fun q => (f (fst q), snd q)) (combine l l').
Proof. intros. apply combine_map_l. Qed.

Lemma nth_error_ext : forall {A} (l l' : list A), (forall i, nth_error l i = nth_error l' i) -> l = l'.
Proof.
  induction l as [ | a l IH ]; intros [ | a' l' ] H; [ reflexivity | specialize (H 0%nat); discriminate | specialize (H 0%nat); discriminate | ].
  f_equal; [ specialize (H 0%nat); injection H; auto | ]. apply IH. intros i. apply (H (S i)).
Qed.

(** the smoothed field *)
Lemma smoothed_blend : forall centers sz sm th pc t values smoothed weights sums,
  tps_init centers sz sm th pc = Ok t -> List.length values = List.length centers ->
  compute_tps_weights_subdom solve t values = Ok (smoothed, weights, sums) ->
  List.length weights = List.length (t_domains t) /\ List.length (t_indices t) = List.length (t_domains t) /\
  smoothed = map (blend (with_weights t weights)) centers.
Proof.
  intros centers sz sm th pc t values smoothed weights sums H Hl Hc.
  assert (M : exists x_min x_max y_min y_max, smallest x_min (map snd centers) /\ largest x_max (map snd centers) /\
                smallest y_min (map fst centers) /\ largest y_max (map fst centers)).
  { pose proof H as H'. unfold tps_init in H'.
    destruct (np_min (map snd centers)) as [ x_min | ] eqn:E1; [ | discriminate ]. cbn [bind] in H'.
    destruct (np_max (map snd centers)) as [ x_max | ] eqn:E2; [ | discriminate ]. cbn [bind] in H'.
    destruct (np_min (map fst centers)) as [ y_min | ] eqn:E3; [ | discriminate ]. cbn [bind] in H'.
    destruct (np_max (map fst centers)) as [ y_max | ] eqn:E4; [ | discriminate ].
    exists x_min, x_max, y_min, y_max. apply np_min_spec in E1, E3. apply np_max_spec in E2, E4. auto. }
  destruct M as (x_min & x_max & y_min & y_max & X1 & X2 & Y1 & Y2).
  destruct (init_spec _ _ _ _ _ _ _ _ _ _ H X1 X2 Y1 Y2) as (Ec & _ & Ei & En & Enc & _).
  unfold compute_tps_weights_subdom in Hc.
  match type of Hc with bind ?e _ = _ => destruct e as [ rs | ] eqn:Er; [ | discriminate ] end. cbn [bind] in Hc.
  match type of Hc with bind ?e _ = _ => destruct e as [ xx | ]; [ | discriminate ] end. cbn [bind] in Hc.
  assert (Lr : List.length rs = List.length (t_domains t)) by (apply map_result_length in Er; rewrite Er, Ei, map_length; reflexivity).
  injection Hc as E1 E2 E3. assert (Lw : List.length weights = List.length (t_domains t)) by (rewrite <- E2, map_length; exact Lr).
  assert (Li : List.length (t_indices t) = List.length (t_domains t)) by (rewrite Ei, map_length; reflexivity).
  split; [ exact Lw | ]. split; [ exact Li | ].
  rewrite <- E1. rewrite Enc, En, Ec. rewrite subdom_values with (centers := centers).
  - rewrite E2. set (l := combine (t_domains t) (combine (map (take centers) (map (fun d => indices_in d centers) (t_domains t))) weights)).
    assert (El : l = with_weights t weights) by (unfold l, with_weights; rewrite Ec, Ei; reflexivity).
    assert (Ed : forall {C} (f : subdom -> C), map (fun q => f (fst q)) l = map f (t_domains t)) by (intros; rewrite El; apply with_weights_fst; assumption).
    rewrite Ei. rewrite <- (Ed _ (fun d => indices_in d centers)).
    rewrite <- (Ed _ (fun d => map (compute_coef_norm d) (take centers (indices_in d centers)))).
    apply nth_error_ext. intros i. destruct (nth_error centers i) as [ p | ] eqn:Ep.
    + rewrite (map_nth_error _ _ _ Ep), <- El. unfold blend.
      assert (Hi : (i < List.length centers)%nat) by (apply nth_error_Some; congruence).
      apply quotients_nth.
      * rewrite !sum_domains_length. reflexivity.
      * rewrite sum_domains_length. exact Hi.
      * apply (sum_domains l (fun q p => compute_coef_norm (fst q) p * field_at (fst (snd q)) (snd (snd q)) p) centers i p Ep).
      * apply (sum_domains l (fun q p => compute_coef_norm (fst q) p) centers i p Ep).
    + assert (Hi : (List.length centers <= i)%nat) by (apply nth_error_None; exact Ep).
      transitivity (@None (option R)); [ | symmetry ]; apply nth_error_None; [ | rewrite map_length; exact Hi ].
      unfold quotients. rewrite map_length, combine_length, !sum_domains_length, Nat.min_id. exact Hi.
  - exact Lr.
  - intros d r Hin.
    assert (Hin' : In (indices_in d centers, r) (combine (t_indices t) rs)).
    { rewrite Ei, combine_map_l. apply (in_map (fun q => (indices_in (fst q) centers, snd q))) in Hin. exact Hin. }
    pose proof (map_result_combine _ _ _ Er _ _ Hin') as Hr. cbn beta in Hr. rewrite Ec in Hr. destruct r as ((rsm, rw), rsu). cbn [fst snd].
    eapply iter_is_spline; [ | exact Hr ]. rewrite !take_length; [ reflexivity | apply indices_in_lt | ].
    intros i Hi. rewrite Hl. apply (indices_in_lt d). exact Hi.
Qed.

(** the interpolated field *)
Lemma interpolate_blend : forall t weights new,
  List.length weights = List.length (t_domains t) -> List.length (t_indices t) = List.length (t_domains t) ->
  interpolate t new weights = map (blend (with_weights t weights)) new.
Proof.
  intros t weights new Lw Li. unfold interpolate. cbv zeta.
  pose proof (fun C => @with_weights_fst t weights Lw Li C) as Ed. set (l := with_weights t weights) in *.
  assert (Ef : map (fun p : list R * list R => mul_lists (fst p) (snd p))
                 (combine (map (fun d => map (compute_coef_norm d) (take new (indices_in d new))) (t_domains t))
                    (map (fun p : list R * (list nat * list nat) => let '(w, (idx_new, idx_centers)) := p in
                            compute_field (take new idx_new) (take (t_centers t) idx_centers) w)
                       (combine weights (combine (map (fun d => indices_in d new) (t_domains t)) (t_indices t)))))
               = map (fun q => map (fun p => compute_coef_norm (fst q) p * field_at (fst (snd q)) (snd (snd q)) p) (take new (indices_in (fst q) new))) l).
  { unfold l, with_weights. clear l Ed. revert weights Lw Li. generalize (t_indices t). generalize (t_domains t). intros ds.
    induction ds as [ | d ds IH ]; intros [ | idx idxs ] [ | w ws ] Lw Li; try discriminate; [ reflexivity | ].
    cbn [map combine fst snd]. f_equal; [ | apply IH; [ injection Lw; auto | injection Li; auto ] ].
    rewrite compute_field_lines, mul_maps. apply map_ext. intros p. unfold field_at. rewrite compute_field_lines. reflexivity. }
  rewrite Ef. rewrite <- (Ed _ (fun d => indices_in d new)).
  rewrite <- (Ed _ (fun d => map (compute_coef_norm d) (take new (indices_in d new)))).
  apply nth_error_ext. intros i. destruct (nth_error new i) as [ p | ] eqn:Ep.
  - rewrite (map_nth_error _ _ _ Ep). unfold blend.
    assert (Hi : (i < List.length new)%nat) by (apply nth_error_Some; congruence).
    apply quotients_nth.
    + rewrite !sum_domains_length. reflexivity.
    + rewrite sum_domains_length. exact Hi.
    + apply (sum_domains l (fun q p => compute_coef_norm (fst q) p * field_at (fst (snd q)) (snd (snd q)) p) new i p Ep).
    + apply (sum_domains l (fun q p => compute_coef_norm (fst q) p) new i p Ep).
  - assert (Hi : (List.length new <= i)%nat) by (apply nth_error_None; exact Ep).
    transitivity (@None (option R)); [ | symmetry ]; apply nth_error_None; [ | rewrite map_length; exact Hi ].
    unfold quotients. rewrite map_length, combine_length, !sum_domains_length, Nat.min_id. exact Hi.
Qed.

(** ** C52: the smoothed field is a weighted average of the fields of the subdomains which
    contain the point. *)
Theorem C52_smoothed_partial : forall centers sz sm th pc t values smoothed weights sums,
  tps_init centers sz sm th pc = Ok t -> 0 < pc -> List.length values = List.length centers ->
  compute_tps_weights_subdom solve t values = Ok (smoothed, weights, sums) ->
  forall i p, nth_error centers i = Some p ->
    exists v, nth_error smoothed i = Some (Some v) /\ weighted_average v (fields_at (with_weights t weights) p).
Proof.
  intros centers sz sm th pc t values smoothed weights sums H Hp Hl Hc i p Hi.
  destruct (smoothed_blend _ _ _ _ _ _ _ _ _ _ H Hl Hc) as (Lw & Li & E).
  destruct (C52_covered_partial _ _ _ _ _ _ H Hp p (nth_error_In _ _ Hi)) as (d & Hd & Hin & _).
  destruct (blend_average (with_weights t weights) p) as (v & Hv & A).
  { apply with_weights_in; [ exact Lw | exact Li | eauto ]. }
  exists v. split; [ | exact A ]. rewrite E, (map_nth_error _ _ _ Hi), Hv. reflexivity.
Qed.

(** The same with no buffer: nan on the lines x = x_max and y = y_max, whatever the values. *)
Theorem C52_no_buffer_nan : forall centers sz sm th t values smoothed weights sums x_max y_max,
  tps_init centers sz sm th 0 = Ok t -> List.length values = List.length centers ->
  largest x_max (map snd centers) -> largest y_max (map fst centers) ->
  compute_tps_weights_subdom solve t values = Ok (smoothed, weights, sums) ->
  forall i p, nth_error centers i = Some p -> (nth_error smoothed i = Some None <-> snd p = x_max \/ fst p = y_max).
Proof.
  intros centers sz sm th t values smoothed weights sums x_max y_max H Hl HX HY Hc i p Hi.
  destruct (smoothed_blend _ _ _ _ _ _ _ _ _ _ H Hl Hc) as (Lw & Li & E).
  rewrite E, (map_nth_error _ _ _ Hi).
  pose proof (C52_no_buffer_iff _ _ _ _ _ _ _ H HX HY p (nth_error_In _ _ Hi)) as C.
  pose proof (with_weights_in t weights Lw Li p) as W. pose proof (blend_none (with_weights t weights) p) as B.
  destruct (Req_EM_T (snd p) x_max); destruct (Req_EM_T (fst p) y_max); split; intros Q; try tauto;
    try (f_equal; apply B; tauto); injection Q as Q; apply B in Q; tauto.
Qed.

(** Interpolating at the data points gives the smoothed field. *)
Theorem C52_interpolate_at_centers : forall centers sz sm th pc t values smoothed weights sums,
  tps_init centers sz sm th pc = Ok t -> List.length values = List.length centers ->
  compute_tps_weights_subdom solve t values = Ok (smoothed, weights, sums) ->
  interpolate t centers weights = smoothed.
Proof.
  intros centers sz sm th pc t values smoothed weights sums H Hl Hc.
  destruct (smoothed_blend _ _ _ _ _ _ _ _ _ _ H Hl Hc) as (Lw & Li & E). rewrite E. apply interpolate_blend; assumption.
Qed.

(** The interpolation at new positions: an average of the fields of the subdomains which contain
    the position if it is in the rectangle of the data extended by the buffer, nan otherwise. *)
Theorem C52_interpolate : forall centers sz sm th pc t values smoothed weights sums x_min x_max y_min y_max,
  tps_init centers sz sm th pc = Ok t -> 0 <= pc -> List.length values = List.length centers ->
  smallest x_min (map snd centers) -> largest x_max (map snd centers) ->
  smallest y_min (map fst centers) -> largest y_max (map fst centers) ->
  compute_tps_weights_subdom solve t values = Ok (smoothed, weights, sums) ->
  exists bx by_, (0 < pc -> 0 < bx /\ 0 < by_) /\ (pc = 0 -> bx = 0 /\ by_ = 0) /\
  forall new i p, nth_error new i = Some p ->
    (x_min - bx <= snd p < x_max + bx /\ y_min - by_ <= fst p < y_max + by_ /\
     exists v, nth_error (interpolate t new weights) i = Some (Some v) /\ weighted_average v (fields_at (with_weights t weights) p))
    \/ (~ (x_min - bx <= snd p < x_max + bx /\ y_min - by_ <= fst p < y_max + by_) /\
        nth_error (interpolate t new weights) i = Some None).
Proof.
  intros centers sz sm th pc t values smoothed weights sums x_min x_max y_min y_max H Hp Hl X1 X2 Y1 Y2 Hc.
  destruct (covered _ _ _ _ _ _ _ _ _ _ H Hp X1 X2 Y1 Y2) as (bx & by_ & B1 & B2 & C). exists bx, by_. split; [ exact B1 | ]. split; [ exact B2 | ].
  destruct (smoothed_blend _ _ _ _ _ _ _ _ _ _ H Hl Hc) as (Lw & Li & E).
  intros new i p Hi. rewrite (interpolate_blend _ _ _ Lw Li), (map_nth_error _ _ _ Hi).
  pose proof (with_weights_in t weights Lw Li p) as W. specialize (C p).
  destruct (Rle_dec (x_min - bx) (snd p)); [ | right ].
  2: { split; [ tauto | ]. f_equal. apply blend_none. tauto. }
  destruct (Rlt_dec (snd p) (x_max + bx)); [ | right; split; [ tauto | f_equal; apply blend_none; tauto ] ].
  destruct (Rle_dec (y_min - by_) (fst p)); [ | right; split; [ tauto | f_equal; apply blend_none; tauto ] ].
  destruct (Rlt_dec (fst p) (y_max + by_)); [ | right; split; [ tauto | f_equal; apply blend_none; tauto ] ].
  left. split; [ tauto | ]. split; [ tauto | ]. destruct (blend_average (with_weights t weights) p) as (v & Hv & A); [ tauto | ].
  exists v. rewrite Hv. auto.
Qed.

(** ** C75: the replacement of the erratic values *)

Lemma nth_differences : forall s v i, List.length s = List.length v -> nth i (differences s v) 0 = Rabs (nth i s 0 - nth i v 0).
Proof.
  unfold differences. induction s as [ | a s IH ]; intros [ | b v ] i Hl; try discriminate.
  - destruct i; cbn; rewrite Rminus_0_r, Rabs_R0; reflexivity.
  - destruct i as [ | i ]; cbn [combine map nth fst snd]; [ apply sqrt_Rsqr_abs | apply IH; injection Hl; auto ].
Qed.

Lemma erratic_empty : forall th s v, List.length s = List.length v ->
  erratic th (differences s v) = [] <-> forall i, (i < List.length s)%nat -> Rabs (nth i s 0 - nth i v 0) <= th.
Proof.
  intros th s v Hl. unfold erratic. assert (L : List.length (differences s v) = List.length s) by (unfold differences; rewrite map_length, combine_length; lia).
  rewrite L. split.
  - intros H i Hi. destruct (Rle_dec (Rabs (nth i s 0 - nth i v 0)) th) as [ Q | Q ]; [ exact Q | ]. exfalso.
    assert (In i []) as []. rewrite <- H. apply filter_In. split; [ apply in_seq; lia | ]. apply gt_iff. rewrite nth_differences by exact Hl. lra.
  - intros H. assert (G : forall i, In i (seq 0 (List.length s)) -> gt (nth i (differences s v) 0) th = false).
    { intros i Hi. apply in_seq in Hi. apply gt_iff_false. rewrite nth_differences by exact Hl. apply H. lia. }
    revert G. generalize (seq 0 (List.length s)). intros idx G. induction idx as [ | i idx IH ]; [ reflexivity | ].
    cbn [filter]. rewrite G by (left; auto). apply IH. intros j Hj. apply G. right. exact Hj.
Qed.

(** When no value differs from the smoothed value by more than the threshold, the result is
    the plain spline and nothing is replaced; and conversely. *)
Theorem C75_no_erratic : forall th centers values s smoothed w m,
  List.length values = List.length centers ->
  compute_tps_weights solve centers values s = Ok (smoothed, w) -> np_max (differences smoothed values) = Ok m ->
  (forall i, (i < List.length values)%nat -> Rabs (nth i smoothed 0 - nth i values 0) <= th) ->
  compute_tps_weights_iter solve (Some th) centers values s
  = Ok (smoothed, w, {| nb_fixed_vectors := 0; max_udiff := Some m; nb_iterations := 1 |}).
Proof.
  intros th centers values s smoothed w m Hl H Hm Hd. unfold compute_tps_weights_iter. rewrite H. cbn [bind]. rewrite Hm. cbn [bind].
  destruct (weights_is_spline _ _ _ _ _ Hl H) as [ E _ ].
  assert (Hls : List.length smoothed = List.length values) by (rewrite E, map_length; auto).
  cbn [erratic_loop]. rewrite (proj2 (erratic_empty th smoothed values Hls)); [ reflexivity | ]. intros i Hi. apply Hd. lia.
Qed.

(** The loop ends: at most eleven resolutions, never more; and if it has not reached the limit, no
    smoothed value differs by more than the threshold from the values used (some of which
    replaced). *)
Lemma loop_ends : forall fuel th centers s values smoothed w count nb,
  (forall M v, solve M v <> Err OutOfFuel) -> (1 <= count <= 10)%nat -> (11 <= fuel + count)%nat -> List.length values = List.length centers -> is_spline centers smoothed w ->
  erratic_loop solve fuel th centers s values smoothed w count nb <> Err OutOfFuel /\
  forall sm' w' c' n', erratic_loop solve fuel th centers s values smoothed w count nb = Ok (sm', w', c', n') ->
    (count <= c' <= 11)%nat /\
    ((c' <= 10)%nat -> exists values', List.length values' = List.length centers /\
       forall i, (i < List.length centers)%nat -> Rabs (nth i sm' 0 - nth i values' 0) <= th).
Proof.
  intros fuel. induction fuel as [ | fuel IH ]; intros th centers s values smoothed w count nb Hf Hc Hfu Hl Hs; [ lia | ].
  cbn [erratic_loop]. destruct (erratic th (differences smoothed values)) as [ | i idx ] eqn:Ee.
  - split; [ discriminate | ]. intros sm' w' c' n' H. injection H as <- <- <- <-. split; [ lia | ]. intros _.
    exists values. split; [ exact Hl | ].
    assert (Hls : List.length smoothed = List.length values) by (destruct Hs as [ E _ ]; rewrite E, map_length; auto).
    intros j Hj. apply (proj1 (erratic_empty th smoothed values Hls) Ee). lia.
  - destruct (compute_tps_weights solve centers (replace_at values smoothed (i :: idx)) s) as [ (sm2, w2) | e ] eqn:E.
    + cbn [bind]. apply weights_is_spline in E; [ | rewrite replace_at_length; exact Hl ].
      destruct (Nat.ltb_spec 10 (count + 1)) as [ L | L ].
      * split; [ discriminate | ]. intros sm' w' c' n' H. injection H as <- <- <- <-. split; lia.
      * destruct (IH th centers s (replace_at values smoothed (i :: idx)) sm2 w2 (count + 1)%nat (nb + List.length (i :: idx))%nat) as [ I1 I2 ];
          [ exact Hf | lia | lia | rewrite replace_at_length; exact Hl | exact E | ].
        split; [ exact I1 | ]. intros sm' w' c' n' H. destruct (I2 _ _ _ _ H) as [ I3 I4 ]. split; [ lia | exact I4 ].
    + cbn [bind]. split; [ | discriminate ]. intros Q. injection Q as ->. unfold compute_tps_weights in E.
      match type of E with bind ?x _ = _ => destruct x as [ z | e ] eqn:Ex end; [ discriminate | ]. cbn [bind] in E. injection E as ->. exact (Hf _ _ Ex).
Qed.

Theorem C75_ends : forall th centers values s,
  (forall M v, solve M v <> Err OutOfFuel) -> List.length values = List.length centers ->
  compute_tps_weights_iter solve th centers values s <> Err OutOfFuel /\
  forall smoothed w su, compute_tps_weights_iter solve th centers values s = Ok (smoothed, w, su) ->
    (1 <= nb_iterations su <= 11)%nat /\
    (forall t, th = Some t -> (nb_iterations su <= 10)%nat -> exists values', List.length values' = List.length centers /\
       forall i, (i < List.length centers)%nat -> Rabs (nth i smoothed 0 - nth i values' 0) <= t).
Proof.
  intros th centers values s Hf Hl. unfold compute_tps_weights_iter.
  destruct (compute_tps_weights solve centers values s) as [ (sm2, w2) | e ] eqn:E; cbn [bind].
  2: { split; [ | discriminate ]. intros Q. injection Q as ->. unfold compute_tps_weights in E.
       match type of E with bind ?x _ = _ => destruct x as [ z | e ] eqn:Ex end; [ discriminate | ]. cbn [bind] in E. injection E as ->. exact (Hf _ _ Ex). }
  apply weights_is_spline in E; [ | exact Hl ]. destruct th as [ th | ].
  - destruct (np_max (differences sm2 values)) as [ m | e ] eqn:Em; cbn [bind].
    2: { destruct (differences sm2 values); [ injection Em as <-; split; discriminate | discriminate ]. }
    destruct (loop_ends 11 th centers s values sm2 w2 1 0 Hf) as [ L1 L2 ]; [ lia | lia | exact Hl | exact E | ].
    destruct (erratic_loop solve 11 th centers s values sm2 w2 1 0) as [ (((sm', w'), c'), n') | e ] eqn:El; cbn [bind].
    + split; [ discriminate | ]. intros smoothed w su H. injection H as <- <- <-. cbn [nb_iterations].
      destruct (L2 _ _ _ _ eq_refl) as [ B C ]. split; [ lia | ]. intros t Ht Hle. injection Ht as <-. apply C. exact Hle.
    + split; [ intros Q; injection Q as ->; apply L1; reflexivity | discriminate ].
  - split; [ discriminate | ]. intros smoothed w su H. injection H as <- <- <-. cbn [nb_iterations]. split; [ lia | discriminate ].
Qed.

(** "The threshold is optional" (its default value is None) is false: without threshold the
    computation of the smoothed field never succeeds. *)
Theorem C75_threshold_refuted : forall centers sz sm pc t values,
  tps_init centers sz sm None pc = Ok t -> forall r, compute_tps_weights_subdom solve t values <> Ok r.
Proof.
  intros centers sz sm pc t values H r Hc.
  assert (M : exists x_min x_max y_min y_max, smallest x_min (map snd centers) /\ largest x_max (map snd centers) /\
                smallest y_min (map fst centers) /\ largest y_max (map fst centers)).
  { pose proof H as H'. unfold tps_init in H'.
    destruct (np_min (map snd centers)) as [ x_min | ] eqn:E1; [ | discriminate ]. cbn [bind] in H'.
    destruct (np_max (map snd centers)) as [ x_max | ] eqn:E2; [ | discriminate ]. cbn [bind] in H'.
    destruct (np_min (map fst centers)) as [ y_min | ] eqn:E3; [ | discriminate ]. cbn [bind] in H'.
    destruct (np_max (map fst centers)) as [ y_max | ] eqn:E4; [ | discriminate ].
    exists x_min, x_max, y_min, y_max. apply np_min_spec in E1, E3. apply np_max_spec in E2, E4. auto. }
  destruct M as (x_min & x_max & y_min & y_max & X1 & X2 & Y1 & Y2).
  destruct (init_spec _ _ _ _ _ _ _ _ _ _ H X1 X2 Y1 Y2) as (Ec & Et & Ei & _ & _ & _ & _ & nx & ny & Hnx & Hny & _ & D).
  unfold compute_tps_weights_subdom in Hc.
  match type of Hc with bind ?e _ = _ => destruct e as [ rs | ] eqn:Er; [ | discriminate ] end. cbn [bind] in Hc.
  assert (Nonempty : t_indices t <> []).
  { rewrite Ei. cbv zeta in D. rewrite D. replace (Z.to_nat ny) with (S (Z.to_nat (ny - 1))) by lia. replace (Z.to_nat nx) with (S (Z.to_nat (nx - 1))) by lia. discriminate. }
  destruct (t_indices t) as [ | idx idxs ]; [ contradiction | ]. cbn [map_result] in Er.
  destruct (compute_tps_weights_iter solve (t_threshold t) (take (t_centers t) idx) (take values idx) (t_smoothing_coef t)) as [ ((s1, w1), su1) | ] eqn:E1; [ | discriminate ].
  cbn [bind] in Er. match type of Er with bind ?e _ = _ => destruct e as [ rs' | ]; [ | discriminate ] end. cbn [bind] in Er. injection Er as <-.
  cbn [map_result snd] in Hc. rewrite Et in E1. unfold compute_tps_weights_iter in E1.
  destruct (compute_tps_weights solve _ _ _) as [ (a, b) | ]; [ | discriminate ]. cbn [bind] in E1. injection E1 as _ _ <-.
  cbn in Hc. discriminate.
Qed.

(** ** Affine fields: end to end *)
Theorem C52_affine : forall centers sz sm th pc t a b c smoothed weights sums new,
  tps_init centers sz sm (Some th) pc = Ok t -> 0 < pc -> 0 <= th ->
  compute_tps_weights_subdom solve t (map (affine a b c) centers) = Ok (smoothed, weights, sums) ->
  smoothed = map (fun p => Some (affine a b c p)) centers /\
  (forall su, In su sums -> nb_fixed_vectors su = 0%nat) /\
  forall i p v, nth_error new i = Some p -> nth_error (interpolate t new weights) i = Some (Some v) -> v = affine a b c p.
Proof.
  intros centers sz sm th pc t a b c smoothed weights sums new H Hp Hth Hc.
  assert (Hl : List.length (map (affine a b c) centers) = List.length centers) by apply map_length.
  destruct (smoothed_blend _ _ _ _ _ _ _ _ _ _ H Hl Hc) as (Lw & Li & E).
  assert (M : exists x_min x_max y_min y_max, smallest x_min (map snd centers) /\ largest x_max (map snd centers) /\
                smallest y_min (map fst centers) /\ largest y_max (map fst centers)).
  { pose proof H as H'. unfold tps_init in H'.
    destruct (np_min (map snd centers)) as [ x_min | ] eqn:E1; [ | discriminate ]. cbn [bind] in H'.
    destruct (np_max (map snd centers)) as [ x_max | ] eqn:E2; [ | discriminate ]. cbn [bind] in H'.
    destruct (np_min (map fst centers)) as [ y_min | ] eqn:E3; [ | discriminate ]. cbn [bind] in H'.
    destruct (np_max (map fst centers)) as [ y_max | ] eqn:E4; [ | discriminate ].
    exists x_min, x_max, y_min, y_max. apply np_min_spec in E1, E3. apply np_max_spec in E2, E4. auto. }
  destruct M as (x_min & x_max & y_min & y_max & X1 & X2 & Y1 & Y2).
  destruct (init_spec _ _ _ _ _ _ _ _ _ _ H X1 X2 Y1 Y2) as (Ec & Et & Ei & _).
  (* each subdomain reproduces the affine field *)
  assert (K : forall q, In q (with_weights t weights) -> forall p, field_at (fst (snd q)) (snd (snd q)) p = affine a b c p).
  { unfold compute_tps_weights_subdom in Hc.
    match type of Hc with bind ?e _ = _ => destruct e as [ rs | ] eqn:Er; [ | discriminate ] end. cbn [bind] in Hc.
    match type of Hc with bind ?e _ = _ => destruct e as [ xx | ]; [ | discriminate ] end. cbn [bind] in Hc. injection Hc as _ E2 _.
    intros (d, (cs, w)) Hq p. cbn [fst snd]. unfold with_weights in Hq. apply in_combine_r in Hq.
    rewrite combine_map_l in Hq. apply in_map_iff in Hq. destruct Hq as ((idx, w') & Q & Hq). cbn [fst snd] in Q. apply pair_equal_spec in Q. destruct Q as [ <- -> ].
    assert (Hr : exists r, In (idx, r) (combine (t_indices t) rs) /\ snd (fst r) = w).
    { rewrite <- E2 in Hq. clear - Hq. revert rs Hq. induction (t_indices t) as [ | i l IH ]; intros [ | r rs ] Hq; try (destruct Hq; fail).
      destruct Hq as [ Hq | Hq ]; [ apply pair_equal_spec in Hq; destruct Hq as [ <- <- ]; exists r; split; [ left | ]; reflexivity | ].
      destruct (IH _ Hq) as (r' & Hr & Hw). exists r'. split; [ right; exact Hr | exact Hw ]. }
    destruct Hr as (((rsm, rw), rsu) & Hr & <-). cbn [fst snd].
    apply (map_result_combine _ _ _ Er) in Hr. rewrite Ec, Et, take_of_map in Hr. unfold compute_tps_weights_iter in Hr.
    destruct (compute_tps_weights solve (take centers idx) (map (affine a b c) (take centers idx)) (t_smoothing_coef t)) as [ (sm1, w1) | ] eqn:E1; [ | discriminate ].
    cbn [bind] in Hr. destruct (C73_affine _ _ _ _ _ _ _ _ [p] Hsolve E1) as (A1 & A2 & A3).
    destruct (np_max (differences sm1 (map (affine a b c) (take centers idx)))); [ | discriminate ]. cbn [bind] in Hr. cbn [erratic_loop] in Hr.
    assert (Ee : erratic th (differences sm1 (map (affine a b c) (take centers idx))) = []).
    { rewrite A1. apply erratic_empty; [ reflexivity | ]. intros i _. rewrite Rminus_diag_eq, Rabs_R0 by reflexivity. exact Hth. }
    rewrite Ee in Hr. cbn [bind] in Hr. injection Hr as _ <- _. rewrite Ec. unfold field_at. rewrite A2. reflexivity. }
  assert (B : forall p v, blend (with_weights t weights) p = Some v -> v = affine a b c p).
  { intros p v Hv. unfold blend in Hv.
    rewrite (map_ext_in _ (fun q : subdom * (list pos * list R) => compute_coef_norm (fst q) p * affine a b c p)) in Hv.
    2: { intros q Hq. apply filter_In in Hq. rewrite K by apply Hq. reflexivity. }
    unfold quotient in Hv. destruct (is_zero _) eqn:Z; [ discriminate | ]. apply is_zero_false in Z. injection Hv as <-.
    set (f := filter _ _) in *. clearbody f. set (N := rsum (map (fun q => compute_coef_norm (fst q) p) f)) in *.
    assert (S : rsum (map (fun q : subdom * (list pos * list R) => compute_coef_norm (fst q) p * affine a b c p) f) = N * affine a b c p).
    { unfold N. clear. induction f as [ | q f IH ]; [ unfold rsum; cbn; ring | ]. cbn [map]. rewrite !rsum_cons, IH. ring. }
    rewrite S. field. exact Z. }
  split; [ | split ].
  - rewrite E. apply map_ext_in. intros p Hin.
    destruct (C52_covered_partial _ _ _ _ _ _ H Hp p Hin) as (d & Hd & Hi & _).
    destruct (blend_average (with_weights t weights) p) as (v & Hv & _); [ apply with_weights_in; [ exact Lw | exact Li | eauto ] | ].
    rewrite Hv. f_equal. apply B. exact Hv.
  - unfold compute_tps_weights_subdom in Hc.
    match type of Hc with bind ?e _ = _ => destruct e as [ rs | ] eqn:Er; [ | discriminate ] end. cbn [bind] in Hc.
    match type of Hc with bind ?e _ = _ => destruct e as [ xx | ]; [ | discriminate ] end. cbn [bind] in Hc. injection Hc as _ _ E2.
    intros su Hsu. rewrite <- E2 in Hsu. apply in_map_iff in Hsu. destruct Hsu as (((rsm, rw), rsu) & Q & Hsu). cbn [snd] in Q. subst rsu.
    destruct (In_nth_error _ _ Hsu) as [ k Hk ].
    destruct (nth_error (t_indices t) k) as [ idx | ] eqn:Ek.
    2: { apply nth_error_None in Ek. apply map_result_length in Er. assert (k < List.length rs)%nat by (apply nth_error_Some; congruence). lia. }
    assert (Hin : In (idx, (rsm, rw, su)) (combine (t_indices t) rs)).
    { clear - Hk Ek. revert rs k Hk Ek. induction (t_indices t) as [ | i l IH ]; intros [ | r rs ] [ | k ] Hk Ek; try discriminate.
      - injection Hk as ->. injection Ek as ->. left. reflexivity.
      - right. eapply IH; eassumption. }
    apply (map_result_combine _ _ _ Er) in Hin. rewrite Ec, Et, take_of_map in Hin. unfold compute_tps_weights_iter in Hin.
    destruct (compute_tps_weights solve (take centers idx) (map (affine a b c) (take centers idx)) (t_smoothing_coef t)) as [ (sm1, w1) | ] eqn:E1; [ | discriminate ].
    cbn [bind] in Hin. destruct (C73_affine _ _ _ _ _ _ _ _ [] Hsolve E1) as (A1 & _).
    destruct (np_max (differences sm1 (map (affine a b c) (take centers idx)))); [ | discriminate ]. cbn [bind] in Hin. cbn [erratic_loop] in Hin.
    assert (Ee : erratic th (differences sm1 (map (affine a b c) (take centers idx))) = []).
    { rewrite A1. apply erratic_empty; [ reflexivity | ]. intros i _. rewrite Rminus_diag_eq, Rabs_R0 by reflexivity. exact Hth. }
    rewrite Ee in Hin. cbn [bind] in Hin. injection Hin as _ _ <-. reflexivity.
  - intros i p v Hi Hv. rewrite (interpolate_blend _ _ _ Lw Li), (map_nth_error _ _ _ Hi) in Hv. injection Hv as Hv. apply B. exact Hv.
Qed.
End Solver.
Print Assumptions C52_smoothed_partial.
Print Assumptions C52_no_buffer_nan.
Print Assumptions C52_interpolate_at_centers.
Print Assumptions C52_interpolate.
Print Assumptions C75_no_erratic.
Print Assumptions C75_ends.
Print Assumptions C75_threshold_refuted.
Print Assumptions C52_affine.

(** "Every data point is covered, whatever the buffer" is false: with no buffer, the points on
    the right and top sides are in no subdomain. *)
Theorem C52_covered_refuted : exists centers t p,
  tps_init centers 200 5 (Some (3 / 2)) 0 = Ok t /\ In p centers /\ forall d, In d (t_domains t) -> inside d p = false.
Proof.
  set (centers := [(0, 0); (0, 1); (1, 0); (1, 1)] : list pos).
  assert (X1 : smallest 0 (map snd centers)) by (split; [ left; reflexivity | intros x Hx; cbn in Hx; intuition lra ]).
  assert (Y1 : smallest 0 (map fst centers)) by (split; [ left; reflexivity | intros x Hx; cbn in Hx; intuition lra ]).
  assert (X2 : largest 1 (map snd centers)) by (split; [ right; left; reflexivity | intros x Hx; cbn in Hx; intuition lra ]).
  assert (Y2 : largest 1 (map fst centers)) by (split; [ right; right; left; reflexivity | intros x Hx; cbn in Hx; intuition lra ]).
  destruct (init_ok centers 200 5 (Some (3 / 2)) 0 0 1 0 1 X1 X2 Y1 Y2) as [ t Ht ]; try lia; try lra.
  exists centers, t, (1, 1). split; [ exact Ht | ]. split; [ right; right; right; left; reflexivity | ].
  intros d Hd. destruct (inside d (1, 1)) eqn:E; [ | reflexivity ]. exfalso.
  destruct (proj1 (C52_no_buffer_iff centers 200 5 (Some (3 / 2)) t 1 1 Ht X2 Y2 (1, 1) (or_intror (or_intror (or_intror (or_introl eq_refl)))))) as [ Q _ ];
    [ exists d; auto | ]. cbn in Q. lra.
Qed.
Print Assumptions C52_covered_refuted.

(** ** Non-vacuity: three points, an affine field *)
Lemma Int_part_is : forall r z, IZR z <= r < IZR z + 1 -> Int_part r = z.
Proof.
  intros r z [ H1 H2 ]. destruct (base_Int_part r) as [ B1 B2 ].
  assert (A1 : IZR (Int_part r) < IZR (z + 1)) by (rewrite plus_IZR; lra). assert (A2 : IZR z < IZR (Int_part r + 1)) by (rewrite plus_IZR; lra).
  apply lt_IZR in A1, A2. lia.
Qed.
Lemma ex_init : exists t, tps_init ex_centers 200 5 (Some (3 / 2)) 20 = Ok t /\ t_indices t = [[0; 1; 2]%nat].
Proof.
  assert (X1 : smallest 0 (map snd ex_centers)) by (split; [ left; reflexivity | intros x Hx; cbn in Hx; intuition lra ]).
  assert (Y1 : smallest 0 (map fst ex_centers)) by (split; [ left; reflexivity | intros x Hx; cbn in Hx; intuition lra ]).
  assert (X2 : largest 1 (map snd ex_centers)) by (split; [ right; left; reflexivity | intros x Hx; cbn in Hx; intuition lra ]).
  assert (Y2 : largest 1 (map fst ex_centers)) by (split; [ right; right; left; reflexivity | intros x Hx; cbn in Hx; intuition lra ]).
  destruct (init_ok ex_centers 200 5 (Some (3 / 2)) 20 0 1 0 1 X1 X2 Y1 Y2) as [ t Ht ]; try lia; try lra.
  exists t. split; [ exact Ht | ].
  destruct (init_spec _ _ _ _ _ _ _ _ _ _ Ht X1 X2 Y1 Y2) as (_ & _ & Ei & _ & _ & _ & _ & nx & ny & Hnx & Hny & En & D).
  assert (N : nx = 1%Z /\ ny = 1%Z).
  { unfold numbers_subdom in En. change (200 =? 0)%Z with false in En.
    destruct (is_zero (1 - 0)) eqn:Z; [ apply is_zero_true in Z; lra | ]. cbn [andb orb] in En.
    change (zlen ex_centers) with 3%Z in En.
    replace (3 / 200 / ((1 - 0) / (1 - 0))) with (3 / 200) in En by field. replace (3 / 200 * ((1 - 0) / (1 - 0))) with (3 / 200) in En by field.
    destruct (gt 0 (3 / 200)); [ discriminate | ].
    assert (B : 0 < sqrt (3 / 200) < 1).
    { split; [ apply sqrt_lt_R0; lra | ]. rewrite <- sqrt_1. apply sqrt_lt_1; lra. }
    assert (F : floor (sqrt (3 / 200)) = 0%Z) by (apply Int_part_is; lra).
    assert (C : ceil (sqrt (3 / 200)) = 1%Z).
    { unfold ceil. rewrite (Int_part_is _ (-1)); [ reflexivity | lra ]. }
    rewrite F, C in En. cbn in En. injection En as <- <-. auto. }
  destruct N as [ -> -> ]. cbv zeta in D. change (seq 0 (Z.to_nat 1)) with [0%nat] in D. cbn [map flat_map app] in D.
  rewrite Ei, D. cbn [map]. f_equal. unfold indices_in.
  match goal with |- filter (fun i => match _ with Some p => inside ?d p | None => false end) _ = _ => set (dd := d) end.
  assert (I1 : forall p, In p ex_centers -> inside dd p = true).
  { intros p Hp. apply inside_spec. unfold dd. cbn [d_xmin d_xmax d_ymin d_ymax INR]. cbn in Hp.
    destruct Hp as [ <- | [ <- | [ <- | [] ] ] ]; cbn [fst snd]; lra. }
  change (seq 0 (List.length ex_centers)) with [0; 1; 2]%nat. cbn [filter nth_error ex_centers].
  rewrite !I1 by (cbn; auto). reflexivity.
Qed.

Example C52_affine_ex : exists solve t smoothed weights sums,
  solve_contract solve /\ tps_init ex_centers 200 5 (Some (3 / 2)) 20 = Ok t /\
  compute_tps_weights_subdom solve t (map (affine 1 2 3) ex_centers) = Ok (smoothed, weights, sums) /\
  smoothed = [Some 1; Some 4; Some 3] /\ List.length sums = 1%nat.
Proof.
  destruct ex_init as (t & Ht & Hi). set (s := t_smoothing_coef t). set (w0 := [0; 0; 0] ++ [1; 2; 3]). set (values := map (affine 1 2 3) ex_centers).
  set (sv := ex_solve s (mul_mv (tps_system ex_centers s) w0) w0).
  assert (C : solve_contract sv) by (apply ex_solve_contract; reflexivity).
  assert (E : mul_mv (tps_system ex_centers s) w0 = values ++ [0; 0; 0]).
  { unfold w0. rewrite system_mul by reflexivity. unfold values, ex_centers, spline, affine.
    cbn [List.length seq combine map app fst snd nth]. rewrite !dotv_cons, !dotv_nil, !rsum_cons. unfold rsum, fold_right.
    repeat (f_equal; try ring). }
  assert (H : exists smd, compute_tps_weights sv ex_centers values s = Ok (smd, w0)).
  { unfold compute_tps_weights. rewrite <- E. unfold sv, ex_solve.
    destruct (list_eq_dec (list_eq_dec Req_EM_T) _ _) as [ _ | n ]; [ | destruct n; reflexivity ].
    destruct (list_eq_dec Req_EM_T _ _) as [ _ | n ]; [ | destruct n; reflexivity ]. cbn [bind]. eauto. }
  destruct H as [ smd H ]. destruct (C73_affine _ _ _ _ _ _ _ _ [] C H) as (H1 & _). fold values in H1. subst smd.
  assert (Ec : t_centers t = ex_centers /\ t_threshold t = Some (3 / 2)).
  { assert (X1 : smallest 0 (map snd ex_centers)) by (split; [ left; reflexivity | intros x Hx; cbn in Hx; intuition lra ]).
    assert (Y1 : smallest 0 (map fst ex_centers)) by (split; [ left; reflexivity | intros x Hx; cbn in Hx; intuition lra ]).
    assert (X2 : largest 1 (map snd ex_centers)) by (split; [ right; left; reflexivity | intros x Hx; cbn in Hx; intuition lra ]).
    assert (Y2 : largest 1 (map fst ex_centers)) by (split; [ right; right; left; reflexivity | intros x Hx; cbn in Hx; intuition lra ]).
    destruct (init_spec _ _ _ _ _ _ _ _ _ _ Ht X1 X2 Y1 Y2) as (Q1 & Q2 & _). auto. }
  destruct Ec as [ Ec Et ].
  destruct (np_max (differences values values)) as [ m | ] eqn:Em; [ | discriminate ].
  assert (I1 : compute_tps_weights_iter sv (Some (3 / 2)) ex_centers values s = Ok (values, w0, {| nb_fixed_vectors := 0; max_udiff := Some m; nb_iterations := 1 |})).
  { apply C75_no_erratic; [ exact C | reflexivity | exact H | exact Em | ]. intros i _. rewrite Rminus_diag_eq, Rabs_R0 by reflexivity. lra. }
  assert (R1 : exists smd sums, compute_tps_weights_subdom sv t values = Ok (smd, [w0], sums) /\ List.length sums = 1%nat).
  { unfold compute_tps_weights_subdom. rewrite Hi, Ec, Et. cbn [map_result].
    change (take ex_centers [0; 1; 2]%nat) with ex_centers. change (take values [0; 1; 2]%nat) with values. fold s. rewrite I1. cbn [bind map_result max_udiff snd map].
    eexists. eexists. split; reflexivity. }
  destruct R1 as (smd & sums & R1 & Ls). exists sv, t, smd, [w0], sums. split; [ exact C | ]. split; [ exact Ht | ]. split; [ exact R1 | ]. split; [ | exact Ls ].
  destruct (C52_affine sv C ex_centers 200 5 (3 / 2) 20 t 1 2 3 smd [w0] sums [] Ht) as (A & _); [ lra | lra | exact R1 | ].
  rewrite A. unfold ex_centers, affine. cbn [map fst snd]. repeat (f_equal; try ring).
Qed.

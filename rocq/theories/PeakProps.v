(** C30 (search limited to small displacements), C58, C59: second chance, secondary peaks. *)
From Verif Require Import PyBase CorrelModel CorrelProofs CorrelProps.
Local Open Scope Z_scope.

Ltac Zify.zify_post_hook ::= Z.div_mod_to_equations.

(** *** masks *)
Section Masks.
Context {T : Type}.

Lemma mask_length (f : nat -> option T -> option T) (c : arr2 T) :
  List.length (map (fun '(k, v) => f k v) (combine (seq 0 (List.length c)) c)) = List.length c.
Proof. rewrite map_length, combine_length, seq_length. lia. Qed.

Lemma mask_nth (f : nat -> option T -> option T) (c : arr2 T) k :
  (k < List.length c)%nat ->
  nth k (map (fun '(k, v) => f k v) (combine (seq 0 (List.length c)) c)) None = f k (nth k c None).
Proof.
  enough (G : forall s k, (k < List.length c)%nat ->
    nth k (map (fun '(k, v) => f k v) (combine (seq s (List.length c)) c)) None = f (s + k)%nat (nth k c None)).
  { intros Hk. rewrite (G 0%nat k Hk). reflexivity. }
  clear k. induction c as [|a c IH]; intros s k Hk; cbn [List.length] in *; [lia|].
  cbn [seq combine map]. destruct k as [|k]; cbn [nth]; [rewrite Nat.add_0_r; reflexivity|].
  rewrite IH by lia. f_equal. lia.
Qed.

Lemma at2_mask (P : Z -> Z -> bool) n0 n1 (c : arr2 T) i0 i1 :
  zlen c = n0 * n1 -> 0 <= i0 < n0 -> 0 <= i1 < n1 ->
  at2 n1 (map (fun '(k, v) => if P (Z.of_nat k / n1) (Z.of_nat k mod n1) then None else v)
              (combine (seq 0 (List.length c)) c)) i0 i1
  = if P i0 i1 then None else at2 n1 c i0 i1.
Proof.
  intros Hl H0 H1. unfold at2, zlen in *.
  rewrite (mask_nth (fun k v => if P (Z.of_nat k / n1) (Z.of_nat k mod n1) then None else v)) by nia.
  rewrite Z2Nat.id by nia.
  rewrite Z.div_add_l by lia. rewrite (Z.div_small i1) by lia.
  replace ((i0 * n1 + i1) mod n1) with i1.
  2:{ rewrite Z.add_comm, Z_mod_plus_full, Z.mod_small; lia. }
  rewrite Z.add_0_r. reflexivity.
Qed.

Lemma mask_large_at n0 n1 d2 (c : arr2 T) i0 i1 :
  zlen c = n0 * n1 -> 0 <= i0 < n0 -> 0 <= i1 < n1 ->
  at2 n1 (mask_large n0 n1 d2 c) i0 i1 = if is_large n0 n1 d2 i0 i1 then None else at2 n1 c i0 i1.
Proof. intros. unfold mask_large. apply (at2_mask (fun a b => is_large n0 n1 d2 a b) n0); assumption. Qed.

Lemma mask_around_at n0 n1 r ix iy (c : arr2 T) i0 i1 :
  zlen c = n0 * n1 -> 0 <= i0 < n0 -> 0 <= i1 < n1 ->
  at2 n1 (mask_around n0 n1 r ix iy c) i0 i1 =
  if in_slice n0 (iy - r) (iy + r + 1) i0 && in_slice n1 (ix - r) (ix + r + 1) i1 then None else at2 n1 c i0 i1.
Proof.
  intros. unfold mask_around.
  apply (at2_mask (fun a b => in_slice n0 (iy - r) (iy + r + 1) a && in_slice n1 (ix - r) (ix + r + 1) b) n0); assumption.
Qed.

Lemma mask_large_zlen n0 n1 d2 (c : arr2 T) : zlen (mask_large n0 n1 d2 c) = zlen c.
Proof.
  unfold zlen, mask_large.
  rewrite (mask_length (fun k v => if is_large n0 n1 d2 (Z.of_nat k / n1) (Z.of_nat k mod n1) then None else v)). reflexivity.
Qed.
Lemma mask_around_zlen n0 n1 r ix iy (c : arr2 T) : zlen (mask_around n0 n1 r ix iy c) = zlen c.
Proof.
  unfold zlen, mask_around. f_equal.
  exact (mask_length (fun k v =>
    if in_slice n0 (iy - r) (iy + r + 1) (Z.of_nat k / n1) && in_slice n1 (ix - r) (ix + r + 1) (Z.of_nat k mod n1)
    then None else v) c).
Qed.

(** arrays are determined by their elements *)
Lemma at2_ext n0 n1 (c c' : arr2 T) :
  0 < n1 -> zlen c = n0 * n1 -> zlen c' = n0 * n1 ->
  (forall i0 i1, 0 <= i0 < n0 -> 0 <= i1 < n1 -> at2 n1 c i0 i1 = at2 n1 c' i0 i1) -> c = c'.
Proof.
  intros Hn Hl Hl' H. apply nth_ext with (d := None) (d' := None); [unfold zlen in *; lia|].
  intros k Hk. unfold zlen in *.
  assert (A : 0 <= Z.of_nat k / n1) by (apply Z.div_pos; lia).
  assert (B : Z.of_nat k / n1 < n0) by (apply Z.div_lt_upper_bound; lia).
  pose proof (Z.mod_pos_bound (Z.of_nat k) n1 Hn) as M.
  specialize (H (Z.of_nat k / n1) (Z.of_nat k mod n1) ltac:(lia) M). unfold at2 in H.
  replace (Z.of_nat k / n1 * n1 + Z.of_nat k mod n1) with (Z.of_nat k) in H.
  2:{ rewrite Z.mul_comm. apply Z.div_mod. lia. }
  rewrite Nat2Z.id in H. exact H.
Qed.
End Masks.

(** *** window of the small displacements *)
Lemma loop_break_spec all l :
  (exists i, In i l /\ all i = false) ->
  exists l1 i l2, l = l1 ++ i :: l2 /\ loop_break all l = Some i /\ all i = false /\ forall j, In j l1 -> all j = true.
Proof.
  induction l as [|a l IH]; intros (i & Hi & Ha); [destruct Hi|].
  destruct (all a) eqn:Ea.
  - destruct Hi as [->|Hi]; [congruence|]. destruct IH as (l1 & j & l2 & -> & E & Hj & H1); [eauto|].
    exists (a :: l1), j, l2. repeat split; auto.
    + cbn [app]. destruct l1; cbn [app] in *.
      * cbn [loop_break]. rewrite Ea. exact E.
      * cbn [loop_break negb]. rewrite Ea. exact E.
    + intros k [<-|Hk]; auto.
  - exists [], a, l. repeat split; auto.
    + destruct l; cbn [loop_break]; [reflexivity|]. rewrite Ea. reflexivity.
Qed.

Lemma range0_In n x : In x (range0 n) <-> 0 <= x < n.
Proof.
  unfold range0. rewrite in_map_iff. split.
  - intros (k & <- & Hk). apply in_seq in Hk. lia.
  - intros H. exists (Z.to_nat x). split; [lia|]. apply in_seq. lia.
Qed.

Lemma range0_split n l1 i l2 : range0 n = l1 ++ i :: l2 -> (forall j, In j l1 <-> 0 <= j < i) /\ (forall j, In j l2 <-> i < j < n).
Proof.
  unfold range0. intros E.
  assert (G : forall m k l1, map Z.of_nat (seq k m) = l1 ++ i :: l2 ->
    (forall j, In j l1 <-> Z.of_nat k <= j < i) /\ (forall j, In j l2 <-> i < j < Z.of_nat k + Z.of_nat m)).
  { clear. induction m as [|m IH]; intros k l1 E; cbn [seq map] in E.
    - destruct l1; discriminate.
    - destruct l1 as [|b l1]; cbn [app] in E.
      + assert (Ei : Z.of_nat k = i) by congruence. assert (E2 : map Z.of_nat (seq (S k) m) = l2) by congruence. subst i l2. split.
        * intros j. split; [intros []|lia].
        * intros j. rewrite in_map_iff. split.
          -- intros (x & <- & Hx). apply in_seq in Hx. lia.
          -- intros Hj. exists (Z.to_nat j). split; [lia|]. apply in_seq. lia.
      + assert (Eb : Z.of_nat k = b) by congruence. assert (E2 : map Z.of_nat (seq (S k) m) = l1 ++ i :: l2) by congruence.
        destruct (IH _ _ E2) as [I1 I2].
        assert (Hi : In i (map Z.of_nat (seq (S k) m))) by (rewrite E2; apply in_or_app; right; left; reflexivity).
        apply in_map_iff in Hi. destruct Hi as (x & Ex & Hx). apply in_seq in Hx. split.
        * intros j. specialize (I1 j). cbn [In]. rewrite I1. lia.
        * intros j. rewrite I2. lia. }
  destruct (G _ _ _ E) as [G1 G2]. split; intros j; [rewrite G1|rewrite G2]; [lia|].
  assert (Hi : In i (map Z.of_nat (seq 0 (Z.to_nat n)))) by (rewrite E; apply in_or_app; right; left; reflexivity).
  apply in_map_iff in Hi. destruct Hi as (x & Ex & Hx). apply in_seq in Hx. lia.
Qed.

Lemma is_large_origin n0 n1 d2 : 0 <= d2 -> is_large n0 n1 d2 (fft_origin n0) (fft_origin n1) = false.
Proof. intros H. unfold is_large, displacement_from_indices. lia. Qed.

Lemma large_row_spec n0 n1 d2 i0 : large_row n0 n1 d2 i0 = true <-> forall i1, 0 <= i1 < n1 -> is_large n0 n1 d2 i0 i1 = true.
Proof. unfold large_row. rewrite forallb_forall. split; intros H i Hi; apply H; apply range0_In; assumption. Qed.
Lemma large_col_spec n0 n1 d2 i1 : large_col n0 n1 d2 i1 = true <-> forall i0, 0 <= i0 < n0 -> is_large n0 n1 d2 i0 i1 = true.
Proof. unfold large_col. rewrite forallb_forall. split; intros H i Hi; apply H; apply range0_In; assumption. Qed.

Lemma find_ends all n i :
  0 <= i < n -> all i = false ->
  exists a b, loop_break all (range0 n) = Some a /\ loop_break all (rev (range0 n)) = Some b /\
    0 <= a <= i /\ i <= b < n /\ (forall j, 0 <= j < n -> all j = false -> a <= j <= b) /\ all a = false /\ all b = false.
Proof.
  intros Hi Ha.
  destruct (loop_break_spec all (range0 n)) as (l1 & a & l2 & E1 & Ea & Aa & H1).
  { exists i. split; [apply range0_In; exact Hi|exact Ha]. }
  destruct (loop_break_spec all (rev (range0 n))) as (m1 & b & m2 & E2 & Eb & Ab & H2).
  { exists i. split; [rewrite <- in_rev; apply range0_In; exact Hi|exact Ha]. }
  apply (f_equal (@rev Z)) in E2. rewrite rev_involutive, rev_app_distr in E2. cbn [rev] in E2. rewrite <- app_assoc in E2. cbn [app] in E2.
  destruct (range0_split _ _ _ _ E1) as [L1 L2]. destruct (range0_split _ _ _ _ E2) as [M1 M2].
  assert (Ia : 0 <= a < n) by (apply range0_In; rewrite E1; apply in_or_app; right; left; reflexivity).
  assert (Ib : 0 <= b < n) by (apply range0_In; rewrite E2; apply in_or_app; right; left; reflexivity).
  assert (K : forall j, 0 <= j < n -> all j = false -> a <= j <= b).
  { intros j Hj Aj. split.
    - destruct (Z_lt_le_dec j a) as [Hlt|]; [|lia]. rewrite H1 in Aj; [discriminate|]. apply L1. lia.
    - destruct (Z_lt_le_dec b j) as [Hlt|]; [|lia]. rewrite H2 in Aj; [discriminate|].
      apply in_rev. apply M2. lia. }
  exists a, b. pose proof (K i Hi Ha). repeat split; auto; lia.
Qed.

(** The window found for a maximal displacement contains all the small displacements, and each of its border lines
    contains one of them. *)
Theorem C30_search_window n0 n1 d2 :
  2 <= n0 -> 2 <= n1 -> 0 <= d2 ->
  exists a0 b0 a1 b1, search_window n0 n1 d2 = Ok ((a0, Some b0), (a1, Some b1)) /\
    0 <= a0 < b0 /\ b0 <= n0 /\ 0 <= a1 < b1 /\ b1 <= n1 /\
    (forall i0 i1, 0 <= i0 < n0 -> 0 <= i1 < n1 -> is_large n0 n1 d2 i0 i1 = false -> a0 <= i0 < b0 /\ a1 <= i1 < b1) /\
    (exists i1, 0 <= i1 < n1 /\ is_large n0 n1 d2 a0 i1 = false) /\
    (exists i1, 0 <= i1 < n1 /\ is_large n0 n1 d2 (b0 - 1) i1 = false) /\
    (exists i0, 0 <= i0 < n0 /\ is_large n0 n1 d2 i0 a1 = false) /\
    (exists i0, 0 <= i0 < n0 /\ is_large n0 n1 d2 i0 (b1 - 1) = false).
Proof.
  intros H0 H1 Hd. unfold search_window.
  assert (O0 : 0 <= fft_origin n0 < n0) by (unfold fft_origin; lia).
  assert (O1 : 0 <= fft_origin n1 < n1) by (unfold fft_origin; lia).
  pose proof (is_large_origin n0 n1 d2 Hd) as Ho.
  destruct (find_ends (large_row n0 n1 d2) n0 (fft_origin n0) O0) as (a0 & b0 & Ea0 & Eb0 & A0 & B0 & K0 & La0 & Lb0).
  { destruct (large_row n0 n1 d2 (fft_origin n0)) eqn:E; [|reflexivity]. rewrite large_row_spec in E. rewrite E in Ho by exact O1. discriminate. }
  destruct (find_ends (large_col n0 n1 d2) n1 (fft_origin n1) O1) as (a1 & b1 & Ea1 & Eb1 & A1 & B1 & K1 & La1 & Lb1).
  { destruct (large_col n0 n1 d2 (fft_origin n1)) eqn:E; [|reflexivity]. rewrite large_col_spec in E. rewrite E in Ho by exact O0. discriminate. }
  rewrite Ea0, Ea1, Eb0, Eb1.
  assert (Ex : forall (f : Z -> bool) n, forallb f (range0 n) = false -> exists i, 0 <= i < n /\ f i = false).
  { intros f n E. destruct (existsb (fun i => negb (f i)) (range0 n)) eqn:Ee.
    - apply existsb_exists in Ee. destruct Ee as (i & Hi & Hf). exists i. rewrite range0_In in Hi. split; [exact Hi|].
      destruct (f i); [discriminate|reflexivity].
    - exfalso. assert (forallb f (range0 n) = true); [|congruence]. apply forallb_forall. intros x Hx.
      destruct (f x) eqn:Ef; [reflexivity|]. exfalso.
      assert (existsb (fun i => negb (f i)) (range0 n) = true); [|congruence].
      apply existsb_exists. exists x. split; [exact Hx|]. rewrite Ef. reflexivity. }
  exists a0, (b0 + 1), a1, (b1 + 1). repeat split; try lia.
  - assert (large_row n0 n1 d2 i0 = false); [|specialize (K0 i0); lia].
    destruct (large_row n0 n1 d2 i0) eqn:E; [|reflexivity]. rewrite large_row_spec in E. rewrite E in H3 by lia. discriminate.
  - assert (large_row n0 n1 d2 i0 = false); [|specialize (K0 i0); lia].
    destruct (large_row n0 n1 d2 i0) eqn:E; [|reflexivity]. rewrite large_row_spec in E. rewrite E in H3 by lia. discriminate.
  - assert (large_col n0 n1 d2 i1 = false); [|specialize (K1 i1); lia].
    destruct (large_col n0 n1 d2 i1) eqn:E; [|reflexivity]. rewrite large_col_spec in E. rewrite E in H3 by lia. discriminate.
  - assert (large_col n0 n1 d2 i1 = false); [|specialize (K1 i1); lia].
    destruct (large_col n0 n1 d2 i1) eqn:E; [|reflexivity]. rewrite large_col_spec in E. rewrite E in H3 by lia. discriminate.
  - exact (Ex _ _ La0).
  - replace (b0 + 1 - 1) with b0 by lia. exact (Ex _ _ Lb0).
  - exact (Ex _ _ La1).
  - replace (b1 + 1 - 1) with b1 by lia. exact (Ex _ _ Lb1).
Qed.

Section Fft.
Context {T : Type}.
Variable leb : T -> T -> bool.
Variable div : T -> T -> T.
Variable zero : T.
Hypothesis leb_total : forall a b, leb a b = true \/ leb b a = true.
Hypothesis leb_trans : forall a b c, leb a b = true -> leb b c = true -> leb a c = true.

(** Specification: (dx, dy) is the displacement of norm at most sqrt(d2) with the largest correlation. *)
Definition is_best (n0 n1 d2 : Z) (c : arr2 T) (ix iy : Z) (v : T) : Prop :=
  0 <= iy < n0 /\ 0 <= ix < n1 /\
  (fft_origin n1 - ix) * (fft_origin n1 - ix) + (fft_origin n0 - iy) * (fft_origin n0 - iy) <= d2 /\
  at2 n1 c iy ix = Some v /\
  forall jx jy u, 0 <= jy < n0 -> 0 <= jx < n1 ->
    (fft_origin n1 - jx) * (fft_origin n1 - jx) + (fft_origin n0 - jy) * (fft_origin n0 - jy) <= d2 ->
    at2 n1 c jy jx = Some u -> leb u v = true.

Lemma search_complete n0 n1 (c : arr2 T) norm a0 b0 a1 b1 :
  valid n0 n1 c a0 b0 a1 b1 ->
  (forall k0 k1 u, 0 <= k0 < n0 -> 0 <= k1 < n1 -> at2 n1 c k0 k1 = Some u -> a0 <= k0 < b0 /\ a1 <= k1 < b1) ->
  let r := compute_indices_max leb div zero n0 n1 c norm ((a0, Some b0), (a1, Some b1)) in
  (all_nan n1 c 0 n0 0 n1 /\ r = Failed AssertionError) \/
  exists i0 i1 v msg, is_peak leb n1 c a0 b0 a1 b1 i0 i1 /\ at2 n1 c i0 i1 = Some v /\
    r = (let m := Some (match norm with None => zero | Some n => div v n end) in
         match msg with NoMessage => Found i1 i0 m | _ => PivErr msg i1 i0 m end) /\
    match msg with
    | TouchBoundary => on_border n0 n1 i0 i1
    | TouchNan => ~ on_border n0 n1 i0 i1 /\ nan_close n1 c i0 i1
    | NoMessage => ~ on_border n0 n1 i0 i1 /\ ~ nan_close n1 c i0 i1
    end.
Proof.
  intros V Hout. cbv zeta. unfold compute_indices_max.
  destruct (C30_maximum leb leb_total leb_trans n0 n1 c a0 b0 a1 b1 V Hout) as [[A E]|(i0 & i1 & msg & E & P & F)]; rewrite E.
  - left; auto.
  - right. destruct V as (Hl & Hn & V). assert (P' := P). destruct P' as (P0 & P1 & v & Ev & _).
    exists i0, i1, v, msg. split; [exact P|]. split; [exact Ev|]. split; [|exact F].
    assert (G : get2 n0 n1 c i0 i1 = Ok (Some v)).
    { rewrite (get2_at n0 n1 c i0 i1 Hl) by lia. rewrite Ev. reflexivity. }
    destruct norm as [n|]; [rewrite G|]; cbn [bind option_map]; destruct msg; reflexivity.
Qed.

(** FFT classes with a maximal displacement: the peak is the maximum among the displacements up to this maximum. *)
Theorem C30_displacement_max n0 n1 d2 c norm :
  2 <= n0 -> 2 <= n1 -> 0 <= d2 -> zlen c = n0 * n1 ->
  exists w, search_window n0 n1 d2 = Ok w /\
  let r := compute_indices_max leb div zero n0 n1 (mask_large n0 n1 d2 c) norm w in
  (all_nan n1 (mask_large n0 n1 d2 c) 0 n0 0 n1 /\ r = Failed AssertionError) \/
  exists ix iy v, is_best n0 n1 d2 c ix iy v /\
    let m := Some (match norm with None => zero | Some n => div v n end) in
    ((r = Found ix iy m /\ ~ on_border n0 n1 iy ix /\ ~ nan_close n1 (mask_large n0 n1 d2 c) iy ix) \/
     (r = PivErr TouchBoundary ix iy m /\ on_border n0 n1 iy ix) \/
     (r = PivErr TouchNan ix iy m /\ nan_close n1 (mask_large n0 n1 d2 c) iy ix)).
Proof.
  intros H0 H1 Hd Hl. destruct (C30_search_window n0 n1 d2 H0 H1 Hd) as (a0 & b0 & a1 & b1 & Ew & A0 & B0 & A1 & B1 & K & _).
  exists ((a0, Some b0), (a1, Some b1)). split; [exact Ew|].
  destruct (search_complete n0 n1 (mask_large n0 n1 d2 c) norm a0 b0 a1 b1) as [[A E]|(i0 & i1 & v & msg & P & Ev & E & F)].
  - unfold valid. rewrite mask_large_zlen. repeat split; auto; lia.
  - intros k0 k1 u K0 K1. rewrite (mask_large_at n0 n1 d2 c k0 k1 Hl K0 K1).
    destruct (is_large n0 n1 d2 k0 k1) eqn:El; [discriminate|]. intros _. apply K; assumption.
  - left. split; assumption.
  - right. exists i1, i0, v. destruct P as (P0 & P1 & v' & Ev' & Hv). rewrite Ev in Ev'. inversion Ev'; subst v'; clear Ev'.
    rewrite (mask_large_at n0 n1 d2 c i0 i1 Hl) in Ev by lia.
    destruct (is_large n0 n1 d2 i0 i1) eqn:El; [discriminate|].
    split.
    + split; [lia|]. split; [lia|]. split; [|split; [exact Ev|]].
      * unfold is_large, displacement_from_indices in El. lia.
      * intros jx jy u J0 J1 Jd Eu. 
        assert (Elj : is_large n0 n1 d2 jy jx = false) by (unfold is_large, displacement_from_indices; lia).
        destruct (K jy jx J0 J1 Elj) as [W0 W1].
        apply (Hv jy jx u W0 W1). rewrite (mask_large_at n0 n1 d2 c jy jx Hl J0 J1), Elj. exact Eu.
    + cbv zeta in E. cbv zeta. rewrite E. destruct msg; tauto.
Qed.

(** *** C58: second chance *)

(** When the point reported by the first search is at least [r] away from the first line and the first column, the
    values which are removed are exactly the values at a distance at most [r] along each axis. *)
Theorem C58_mask_partial n0 n1 r ix iy (c : arr2 T) i0 i1 :
  zlen c = n0 * n1 -> 0 <= r -> r <= iy < n0 -> r <= ix < n1 -> 0 <= i0 < n0 -> 0 <= i1 < n1 ->
  at2 n1 (mask_around n0 n1 r ix iy c) i0 i1 =
  if (Z.abs (i0 - iy) <=? r) && (Z.abs (i1 - ix) <=? r) then None else at2 n1 c i0 i1.
Proof.
  intros Hl Hr Hy Hx H0 H1. rewrite (mask_around_at n0 n1 r ix iy c i0 i1 Hl H0 H1).
  replace (in_slice n0 (iy - r) (iy + r + 1) i0) with (Z.abs (i0 - iy) <=? r).
  2:{ unfold in_slice, norm_bound. destruct (Z.ltb_spec (iy - r) 0), (Z.ltb_spec (iy + r + 1) 0); lia. }
  replace (in_slice n1 (ix - r) (ix + r + 1) i1) with (Z.abs (i1 - ix) <=? r).
  2:{ unfold in_slice, norm_bound. destruct (Z.ltb_spec (ix - r) 0), (Z.ltb_spec (ix + r + 1) 0); lia. }
  reflexivity.
Qed.

(** In this case the displacement which is returned is the one of the maximum of the remaining values; an error
    carries the first peak. *)
Theorem C58_second_partial n0 n1 r c norm ix iy m msg :
  zlen c = n0 * n1 -> 0 < n1 -> 0 <= r -> r <= iy -> r <= ix ->
  compute_indices_max leb div zero n0 n1 c norm ((0, None), (0, None)) = PivErr msg ix iy m ->
  let d := compute_displacements leb div zero n0 n1 r (fft_origin n1) (fft_origin n0) ((0, None), (0, None)) 1 c norm in
  (d = DFailed AssertionError /\
   forall i0 i1, 0 <= i0 < n0 -> 0 <= i1 < n1 -> at2 n1 c i0 i1 <> None -> Z.abs (i0 - iy) <= r /\ Z.abs (i1 - ix) <= r)
  \/ (exists msg2, d = DPivErr msg2 (fft_origin n1 - ix) (fft_origin n0 - iy) m)
  \/ (exists jx jy v, d = Displ (fft_origin n1 - jx) (fft_origin n0 - jy)
                            (Some (match norm with None => zero | Some n => div v n end)) None /\
        at2 n1 c jy jx = Some v /\ (r < Z.abs (jy - iy) \/ r < Z.abs (jx - ix)) /\
        forall i0 i1 u, 0 <= i0 < n0 -> 0 <= i1 < n1 -> at2 n1 c i0 i1 = Some u ->
          (r < Z.abs (i0 - iy) \/ r < Z.abs (i1 - ix)) -> leb u v = true).
Proof.
  intros Hl Hn Hr Hy Hx E. cbv zeta. unfold compute_displacements. rewrite E.
  assert (Hin : iy < n0 /\ ix < n1).
  { destruct (C30_whole leb leb_total leb_trans div zero n0 n1 c norm Hl Hn) as [[_ E']|(i0 & i1 & v & (P0 & P1 & _) & _ & H)];
      [congruence|]. cbv zeta in H. rewrite E in H.
    destruct H as [[H _]|[[H _]|[H _]]]; inversion H; subst; lia. }
  assert (Hl2 : zlen (mask_around n0 n1 r ix iy c) = n0 * n1) by (rewrite mask_around_zlen; exact Hl).
  destruct (C30_whole leb leb_total leb_trans div zero n0 n1 (mask_around n0 n1 r ix iy c) norm Hl2 Hn)
    as [[A E']|(i0 & i1 & v & (P0 & P1 & v' & Ev' & Hv) & Ev & H)].
  - left. rewrite E'. split; [reflexivity|]. intros i0 i1 H0 H1 Hne. specialize (A i0 i1 H0 H1).
    rewrite C58_mask_partial in A by (assumption || lia).
    destruct ((Z.abs (i0 - iy) <=? r) && (Z.abs (i1 - ix) <=? r)) eqn:Eb; [lia|congruence].
  - cbv zeta in H. rewrite Ev in Ev'. inversion Ev'; subst v'; clear Ev'.
    destruct H as [[H _]|[[H _]|[H _]]]; rewrite H; [|right; left; eexists; reflexivity|right; left; eexists; reflexivity].
    right. right. exists i1, i0, v. split; [reflexivity|].
    rewrite C58_mask_partial in Ev by (assumption || lia).
    destruct ((Z.abs (i0 - iy) <=? r) && (Z.abs (i1 - ix) <=? r)) eqn:Eb; [discriminate|].
    split; [exact Ev|]. split; [lia|]. intros j0 j1 u J0 J1 Eu Hj. apply (Hv j0 j1 u J0 J1).
    rewrite C58_mask_partial by (assumption || lia).
    destruct ((Z.abs (j0 - iy) <=? r) && (Z.abs (j1 - ix) <=? r)) eqn:Ej; [lia|exact Eu].
Qed.

(** When it is closer to the first line or to the first column, the slice is empty: nothing is removed. *)
Lemma mask_low_empty n0 n1 r ix iy (c : arr2 T) :
  zlen c = n0 * n1 -> 0 < n1 -> 2 * r + 1 <= n0 -> 2 * r + 1 <= n1 -> 0 <= iy -> 0 <= ix -> iy < r \/ ix < r ->
  mask_around n0 n1 r ix iy c = c.
Proof.
  intros Hl Hn N0 N1 Iy Ix H. apply (at2_ext n0 n1); [exact Hn|rewrite mask_around_zlen; exact Hl|exact Hl|].
  intros i0 i1 H0 H1. rewrite (mask_around_at n0 n1 r ix iy c i0 i1 Hl H0 H1).
  replace (in_slice n0 (iy - r) (iy + r + 1) i0 && in_slice n1 (ix - r) (ix + r + 1) i1) with false; [reflexivity|].
  unfold in_slice, norm_bound.
  destruct (Z.ltb_spec (iy - r) 0), (Z.ltb_spec (iy + r + 1) 0), (Z.ltb_spec (ix - r) 0), (Z.ltb_spec (ix + r + 1) 0); lia.
Qed.

(** For any correlation whose first peak is on the first line or column (or closer to them than the radius), there
    is no second chance: the computation ends with the first error, whatever the other values are. *)
Theorem C58_refuted n0 n1 r ix0 iy0 w nb c norm ix iy m msg :
  zlen c = n0 * n1 -> 0 < n1 -> 2 * r + 1 <= n0 -> 2 * r + 1 <= n1 -> 0 <= iy -> 0 <= ix -> iy < r \/ ix < r ->
  compute_indices_max leb div zero n0 n1 c norm w = PivErr msg ix iy m ->
  compute_displacements leb div zero n0 n1 r ix0 iy0 w nb c norm = DPivErr msg (ix0 - ix) (iy0 - iy) m.
Proof.
  intros Hl Hn N0 N1 Iy Ix H E. unfold compute_displacements. rewrite E.
  rewrite (mask_low_empty n0 n1 r ix iy c) by assumption. rewrite E. reflexivity.
Qed.

(** *** C59: secondary peaks *)

(** A second peak is the maximum of the values at a distance larger than [r] from the first one, when this one is at
    least [r] away from the first line and column. *)
Theorem C59_second_peak_partial n0 n1 r c norm ix iy m dx dy m2 :
  zlen c = n0 * n1 -> 0 < n1 -> 0 <= r -> r <= iy -> r <= ix ->
  compute_indices_max leb div zero n0 n1 c norm ((0, None), (0, None)) = Found ix iy m ->
  compute_displacements leb div zero n0 n1 r (fft_origin n1) (fft_origin n0) ((0, None), (0, None)) 2 c norm =
    Displ (fft_origin n1 - ix) (fft_origin n0 - iy) m (Some [(dx, dy, m2)]) ->
  exists jx jy v, dx = fft_origin n1 - jx /\ dy = fft_origin n0 - jy /\
    m2 = Some (match norm with None => zero | Some n => div v n end) /\
    at2 n1 c jy jx = Some v /\ (r < Z.abs (jy - iy) \/ r < Z.abs (jx - ix)) /\
    forall i0 i1 u, 0 <= i0 < n0 -> 0 <= i1 < n1 -> at2 n1 c i0 i1 = Some u ->
      (r < Z.abs (i0 - iy) \/ r < Z.abs (i1 - ix)) -> leb u v = true.
Proof.
  intros Hl Hn Hr Hy Hx E. unfold compute_displacements. rewrite E.
  assert (Hin : iy < n0 /\ ix < n1).
  { destruct (C30_whole leb leb_total leb_trans div zero n0 n1 c norm Hl Hn) as [[_ E']|(i0 & i1 & v & (P0 & P1 & _) & _ & H)];
      [congruence|]. cbv zeta in H. rewrite E in H.
    destruct H as [[H _]|[[H _]|[H _]]]; inversion H; subst; lia. }
  change (2 =? 1) with false. change (1 <=? 2) with true. change (Z.to_nat (2 - 1)) with 1%nat.
  unfold displacement_from_indices. cbn [other_peaks].
  assert (Hl2 : zlen (mask_around n0 n1 r ix iy c) = n0 * n1) by (rewrite mask_around_zlen; exact Hl).
  destruct (C30_whole leb leb_total leb_trans div zero n0 n1 (mask_around n0 n1 r ix iy c) norm Hl2 Hn)
    as [[A E']|(i0 & i1 & v & (P0 & P1 & v' & Ev' & Hv) & Ev & H)].
  - rewrite E'. discriminate.
  - cbv zeta in H. rewrite Ev in Ev'. inversion Ev'; subst v'; clear Ev'.
    destruct H as [[H _]|[[H _]|[H _]]]; rewrite H; [|discriminate|discriminate].
    unfold displacement_from_indices. cbn [app]. intros Eq. inversion Eq; subst. exists i1, i0, v.
    repeat (split; [reflexivity|]).
    rewrite C58_mask_partial in Ev by (assumption || lia).
    destruct ((Z.abs (i0 - iy) <=? r) && (Z.abs (i1 - ix) <=? r)) eqn:Eb; [discriminate|].
    split; [exact Ev|]. split; [lia|]. intros j0 j1 u J0 J1 Eu Hj. apply (Hv j0 j1 u J0 J1).
    rewrite C58_mask_partial by (assumption || lia).
    destruct ((Z.abs (j0 - iy) <=? r) && (Z.abs (j1 - ix) <=? r)) eqn:Ej; [lia|exact Eu].
Qed.

(** Otherwise all the secondary peaks are copies of the first peak. *)
Theorem C59_refuted n0 n1 r ix0 iy0 w (k : nat) c norm ix iy m :
  zlen c = n0 * n1 -> 0 < n1 -> 2 * r + 1 <= n0 -> 2 * r + 1 <= n1 -> 0 <= iy -> 0 <= ix -> iy < r \/ ix < r ->
  compute_indices_max leb div zero n0 n1 c norm w = Found ix iy m ->
  compute_displacements leb div zero n0 n1 r ix0 iy0 w (Z.of_nat k + 2) c norm =
    Displ (ix0 - ix) (iy0 - iy) m (Some (repeat (ix0 - ix, iy0 - iy, m) (S k))).
Proof.
  intros Hl Hn N0 N1 Iy Ix H E. unfold compute_displacements. rewrite E.
  replace (Z.of_nat k + 2 =? 1) with false by lia. replace (1 <=? Z.of_nat k + 2) with true by lia.
  replace (Z.to_nat (Z.of_nat k + 2 - 1)) with (S k) by lia.
  assert (G : forall f acc, other_peaks leb div zero f n0 n1 r ix0 iy0 norm w c ix iy acc
            = Ok (acc ++ repeat (ix0 - ix, iy0 - iy, m) f)).
  { induction f as [|f IH]; intros acc; cbn [other_peaks repeat]; [rewrite app_nil_r; reflexivity|].
    rewrite (mask_low_empty n0 n1 r ix iy c) by assumption. rewrite E. unfold displacement_from_indices.
    rewrite IH. rewrite <- app_assoc. reflexivity. }
  unfold displacement_from_indices. rewrite G. reflexivity.
Qed.
End Fft.

(** the hypotheses are met: a 7 x 7 correlation with a peak near the first column and a lower one in the bottom right
    corner, default radius 3 *)
Definition corr_ex (p : Z) : arr2 Z :=
  map (fun k => Some (if Z.of_nat k =? p then 9 else if Z.of_nat k =? 40 then 5 else Z.of_nat k mod 3)) (seq 0 49).
Definition displ_ex r nb p : displ :=
  compute_displacements Z.leb Z.div 0 7 7 r 2 2 ((0, None), (0, None)) nb (corr_ex p) (Some 1).
Example C58_example :
  (* peak at (0, 3), on the border: the other one, at (5, 5), is not found *)
  displ_ex 3 1 3 = DPivErr TouchBoundary (-1) 2 (Some 9) /\
  (* peak at (6, 2), on the border: the other one is found *)
  displ_ex 1 1 44 = Displ (-3) (-3) (Some 5) None.
Proof. split; vm_compute; reflexivity. Qed.
Example C59_example :
  (* peak at (2, 3): with the radius 1 the second peak is the one at (5, 5), with the radius 3 the first one again *)
  displ_ex 1 2 17 = Displ (-1) 0 (Some 9) (Some [(-3, -3, Some 5)]) /\
  displ_ex 3 3 17 = Displ (-1) 0 (Some 9) (Some [(-1, 0, Some 9); (-1, 0, Some 9)]) /\
  (* nothing left: another exception than PIVError *)
  displ_ex 3 3 24 = DFailed AssertionError.
Proof. repeat split; vm_compute; reflexivity. Qed.

Print Assumptions C30_search_window.
Print Assumptions C30_displacement_max.
Print Assumptions C58_mask_partial.
Print Assumptions C58_second_partial.
Print Assumptions C58_refuted.
Print Assumptions C59_second_peak_partial.
Print Assumptions C59_refuted.

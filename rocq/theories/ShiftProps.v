(** C31, C32: conversions between displacements and indices, reordering of the FFT correlation. *)
From Verif Require Import PyBase CorrelModel.
Local Open Scope Z_scope.

Ltac Zify.zify_post_hook ::= Z.div_mod_to_equations.

(** *** C31 *)
Theorem C31_inverse ix0 iy0 dx dy :
  (let '(ix, iy) := indices_from_displacement ix0 iy0 dx dy in displacement_from_indices ix0 iy0 ix iy) = (dx, dy).
Proof. unfold indices_from_displacement, displacement_from_indices. f_equal; ring. Qed.

Theorem C31_inverse' ix0 iy0 ix iy :
  (let '(dx, dy) := displacement_from_indices ix0 iy0 ix iy in indices_from_displacement ix0 iy0 dx dy) = (ix, iy).
Proof. unfold indices_from_displacement, displacement_from_indices. f_equal; ring. Qed.

(** the displacement zero is at the indices given by get_indices_no_displacement *)
Theorem C31_origin ix0 iy0 :
  (let '(iy, ix) := indices_no_displacement ix0 iy0 in displacement_from_indices ix0 iy0 ix iy) = (0, 0).
Proof. unfold indices_no_displacement, displacement_from_indices. f_equal; ring. Qed.

(** in the FFT classes this point is in the array as soon as the images have 2 pixels, and the indices of the array
    correspond to the displacements from n/2 - n to n/2 - 1, each one once *)
Theorem C31_range n d : 2 <= n ->
  (exists i, 0 <= i < n /\ d = fft_origin n - i) <-> - (n - n / 2) <= d <= n / 2 - 1.
Proof.
  intros Hn. unfold fft_origin. split.
  - intros (i & Hi & ->). lia.
  - intros Hd. exists (n / 2 - 1 - d). lia.
Qed.

(** *** C32 *)
Local Open Scope nat_scope.

(** Specification: element of a 2D array in C order; reversal of the two axes; numpy.fft.fftshift, which moves the
    element i of an axis of size n to (i + n // 2) % n. *)
Section Spec.
Context {A : Type}.
Definition elem (n1 : nat) (f : nat -> A) (i0 i1 : nat) : A := f (i0 * n1 + i1).
Definition is_reversed (n0 n1 : nat) (arr out : nat -> A) : Prop :=
  forall i0 i1, i0 < n0 -> i1 < n1 -> elem n1 out i0 i1 = elem n1 arr (n0 - 1 - i0) (n1 - 1 - i1).
Definition is_fftshift (n0 n1 : nat) (arr out : nat -> A) : Prop :=
  forall i0 i1, i0 < n0 -> i1 < n1 -> elem n1 out ((i0 + n0 / 2) mod n0) ((i1 + n1 / 2) mod n1) = elem n1 arr i0 i1.
End Spec.

Lemma writes_other {A} (l : list (nat * A)) f i : ~ In i (map fst l) -> writes l f i = f i.
Proof.
  unfold writes. revert f. induction l as [|[j v] l IH]; intros f H; [reflexivity|].
  cbn [fold_left]. rewrite IH by (intros X; apply H; right; exact X).
  unfold fset. cbn [fst snd]. destruct (Nat.eqb_spec i j); [|reflexivity]. exfalso. apply H. left. cbn. congruence.
Qed.

Lemma writes_in {A} (l : list (nat * A)) f (g : nat -> A) i :
  (forall j v, In (j, v) l -> v = g j) -> In i (map fst l) -> writes l f i = g i.
Proof.
  unfold writes. revert f. induction l as [|[j v] l IH]; intros f Hg H; [destruct H|].
  cbn [fold_left]. destruct (in_dec Nat.eq_dec i (map fst l)) as [Hi|Hi].
  - apply IH; [|exact Hi]. intros k w Hw. apply Hg. right; exact Hw.
  - fold (writes l (fset f (j, v))). rewrite writes_other by exact Hi.
    destruct H as [<-|H]; [|contradiction]. unfold fset. cbn [fst snd]. rewrite Nat.eqb_refl.
    apply Hg. left; reflexivity.
Qed.

Lemma divmod_row i0 i1 n1 : i1 < n1 -> (i0 * n1 + i1) / n1 = i0 /\ (i0 * n1 + i1) mod n1 = i1.
Proof.
  intros H. split.
  - rewrite Nat.div_add_l by lia. rewrite Nat.div_small by lia. lia.
  - rewrite Nat.add_comm, Nat.mod_add by lia. apply Nat.mod_small; lia.
Qed.

Lemma flip2_spec {A} n0 n1 (arr : nat -> A) : is_reversed n0 n1 arr (flip2 n0 n1 arr).
Proof.
  intros i0 i1 H0 H1. unfold flip2, elem. destruct (divmod_row i0 i1 n1 H1) as [-> ->]. reflexivity.
Qed.

(** value of [tmp] *)
Definition rot (n i : nat) : nat := if i <? n / 2 then n - n / 2 + i else i - n / 2.

Lemma row_lt (i0 n0 n1 j : nat) : i0 < n0 -> j < n1 -> i0 * n1 + j < n0 * n1.
Proof. intros. nia. Qed.

Lemma shift_cols_spec {A} n0 n1 (junk arr : nat -> A) i0 i1 :
  i0 < n0 -> i1 < n1 -> shift_cols n0 n1 junk arr (i0 * n1 + i1) = arr (i0 * n1 + rot n1 i1).
Proof.
  intros H0 H1.
  set (g := fun k => arr (k / n1 * n1 + rot n1 (k mod n1))).
  assert (Eg : forall j0 j1, j1 < n1 -> g (j0 * n1 + j1) = arr (j0 * n1 + rot n1 j1)).
  { intros j0 j1 Hj. unfold g. destruct (divmod_row j0 j1 n1 Hj) as [-> ->]. reflexivity. }
  rewrite <- (Eg i0 i1 H1). unfold shift_cols. destruct (Nat.eqb_spec (n1 mod 2) 0) as [Ev|Od].
  - assert (Hh : n1 = n1 / 2 + n1 / 2) by lia.
    apply writes_in.
    + intros j v Hj. apply in_flat_map in Hj. destruct Hj as (r & Hr & Hj). apply in_flat_map in Hj.
      destruct Hj as (q & Hq & Hj). apply in_seq in Hr, Hq. destruct Hj as [E|[E|[]]]; apply pair_equal_spec in E; destruct E as [<- <-].
      * rewrite Eg by lia. f_equal. f_equal. unfold rot. destruct (Nat.ltb_spec (n1 / 2 + q) (n1 / 2)); lia.
      * rewrite Eg by lia. f_equal. f_equal. unfold rot. destruct (Nat.ltb_spec q (n1 / 2)); lia.
    + rewrite in_map_iff. destruct (Nat.lt_ge_cases i1 (n1 / 2)).
      * exists (i0 * n1 + i1, arr (i0 * n1 + (n1 / 2 + i1))). split; [reflexivity|]. apply in_flat_map. exists i0.
        split; [apply in_seq; lia|]. apply in_flat_map. exists i1. split; [apply in_seq; lia|]. right; left; reflexivity.
      * exists (i0 * n1 + (n1 / 2 + (i1 - n1 / 2)), arr (i0 * n1 + (i1 - n1 / 2))). split; [cbn [fst]; lia|].
        apply in_flat_map. exists i0. split; [apply in_seq; lia|]. apply in_flat_map. exists (i1 - n1 / 2).
        split; [apply in_seq; lia|]. left; reflexivity.
  - assert (Hh : n1 = n1 / 2 + n1 / 2 + 1) by lia.
    apply writes_in.
    + intros j v Hj. apply in_flat_map in Hj. destruct Hj as (r & Hr & Hj). apply in_seq in Hr.
      apply in_app_or in Hj. destruct Hj as [Hj|Hj]; apply in_map_iff in Hj; destruct Hj as (q & E & Hq);
        apply in_seq in Hq; apply pair_equal_spec in E; destruct E as [<- <-]; rewrite Eg by lia; f_equal; f_equal; unfold rot.
      * destruct (Nat.ltb_spec (n1 / 2 + q) (n1 / 2)); lia.
      * destruct (Nat.ltb_spec q (n1 / 2)); lia.
    + rewrite in_map_iff. destruct (Nat.lt_ge_cases i1 (n1 / 2)).
      * exists (i0 * n1 + i1, arr (i0 * n1 + (n1 / 2 + 1 + i1))). split; [reflexivity|]. apply in_flat_map. exists i0.
        split; [apply in_seq; lia|]. apply in_or_app. right. apply in_map_iff. exists i1. split; [reflexivity|apply in_seq; lia].
      * exists (i0 * n1 + (n1 / 2 + (i1 - n1 / 2)), arr (i0 * n1 + (i1 - n1 / 2))). split; [cbn [fst]; lia|].
        apply in_flat_map. exists i0. split; [apply in_seq; lia|]. apply in_or_app. left. apply in_map_iff.
        exists (i1 - n1 / 2). split; [reflexivity|apply in_seq; lia].
Qed.

Lemma shift_rows_spec {A} n0 n1 (arr tmp : nat -> A) i0 i1 :
  i0 < n0 -> i1 < n1 -> shift_rows n0 n1 arr tmp (i0 * n1 + i1) = tmp (rot n0 i0 * n1 + i1).
Proof.
  intros H0 H1. set (h := n0 / 2).
  set (g := fun k => tmp (if k <? h * n1 then k + (n0 - h) * n1 else k - h * n1)).
  assert (Eg : g (i0 * n1 + i1) = tmp (rot n0 i0 * n1 + i1)).
  { unfold g, rot. fold h. f_equal.
    destruct (Nat.ltb_spec (i0 * n1 + i1) (h * n1)), (Nat.ltb_spec i0 h).
    - rewrite Nat.mul_add_distr_r. lia.
    - exfalso. assert (h * n1 <= i0 * n1) by (apply Nat.mul_le_mono_r; lia). lia.
    - exfalso. assert (X := row_lt i0 h n1 i1 ltac:(lia) H1). lia.
    - rewrite Nat.mul_sub_distr_r. assert (h * n1 <= i0 * n1) by (apply Nat.mul_le_mono_r; lia). lia. }
  rewrite <- Eg. clear Eg. assert (Hi := row_lt i0 n0 n1 i1 H0 H1). unfold shift_rows. fold h.
  destruct (Nat.eqb_spec (n0 mod 2) 0) as [Ev|Od].
  - assert (Hh : n0 = h + h) by (unfold h; lia).
    assert (Hm : n0 * n1 = h * n1 + h * n1) by (rewrite Hh at 1; ring).
    assert (Hs : (n0 - h) * n1 = h * n1) by (f_equal; lia).
    cbv zeta. apply writes_in.
    + intros j v Hj. apply in_flat_map in Hj. destruct Hj as (q & Hq & Hj). apply in_seq in Hq.
      destruct Hj as [E|[E|[]]]; apply pair_equal_spec in E; destruct E as [<- <-]; unfold g; f_equal; rewrite Hs.
      * destruct (Nat.ltb_spec (q + h * n1) (h * n1)); lia.
      * destruct (Nat.ltb_spec q (h * n1)); lia.
    + rewrite in_map_iff. destruct (Nat.lt_ge_cases (i0 * n1 + i1) (h * n1)).
      * eexists (_, _). split; [|apply in_flat_map; exists (i0 * n1 + i1); split; [apply in_seq; lia|right; left; reflexivity]].
        reflexivity.
      * eexists (_, _). split; [|apply in_flat_map; exists (i0 * n1 + i1 - h * n1); split; [apply in_seq; lia|left; reflexivity]].
        cbn [fst]. lia.
  - assert (Hh : n0 = h + (h + 1)) by (unfold h; lia).
    assert (Hm : n0 * n1 = h * n1 + (h + 1) * n1) by (rewrite Hh at 1; ring).
    assert (Hs : (n0 - h) * n1 = (h + 1) * n1) by (f_equal; lia).
    cbv zeta. apply writes_in.
    + intros j v Hj. apply in_app_or in Hj. destruct Hj as [Hj|Hj]; apply in_map_iff in Hj; destruct Hj as (q & E & Hq);
        apply in_seq in Hq; apply pair_equal_spec in E; destruct E as [<- <-]; unfold g; f_equal; rewrite Hs.
      * destruct (Nat.ltb_spec (q + h * n1) (h * n1)); lia.
      * destruct (Nat.ltb_spec q (h * n1)); lia.
    + rewrite in_map_iff. destruct (Nat.lt_ge_cases (i0 * n1 + i1) (h * n1)).
      * eexists (_, _). split; [|apply in_or_app; right; apply in_map_iff; exists (i0 * n1 + i1); split; [reflexivity|apply in_seq; lia]].
        reflexivity.
      * eexists (_, _). split; [|apply in_or_app; left; apply in_map_iff; exists (i0 * n1 + i1 - h * n1); split; [reflexivity|apply in_seq; lia]].
        cbn [fst]. lia.
Qed.

Lemma mod_sub_once a n : n <= a < 2 * n -> a mod n = a - n.
Proof.
  intros H. replace a with (a - n + 1 * n) at 1 by lia. rewrite Nat.mod_add by lia. apply Nat.mod_small. lia.
Qed.

Lemma rot_shift n i : i < n -> rot n ((i + n / 2) mod n) = i /\ (i + n / 2) mod n < n.
Proof.
  intros H. split; [|apply Nat.mod_upper_bound; lia].
  destruct (Nat.lt_ge_cases (i + n / 2) n).
  - rewrite Nat.mod_small by lia. unfold rot. destruct (Nat.ltb_spec (i + n / 2) (n / 2)); lia.
  - rewrite (mod_sub_once (i + n / 2) n) by lia.
    unfold rot. destruct (Nat.ltb_spec (i + n / 2 - n) (n / 2)); lia.
Qed.

(** The result is the fft shift of the reversed array; the uninitialised memory of the temporary array is not
    visible. *)
Theorem C32_reordering {A} n0 n1 (junk arr : nat -> A) :
  exists reversed, is_reversed n0 n1 arr reversed /\ is_fftshift n0 n1 reversed (like_fftshift n0 n1 junk arr).
Proof.
  exists (flip2 n0 n1 arr). split; [apply flip2_spec|].
  intros i0 i1 H0 H1. unfold elem, like_fftshift.
  destruct (rot_shift n0 i0 H0) as [R0 L0]. destruct (rot_shift n1 i1 H1) as [R1 L1].
  rewrite shift_rows_spec by assumption. rewrite R0.
  rewrite shift_cols_spec by assumption. rewrite R1. reflexivity.
Qed.

(** The value of the correlation for the lag (dy, dx), at the index (dy mod n0, dx mod n1) of the inverse FFT, is
    found at the indices which correspond to this displacement. *)
Local Open Scope Z_scope.
Theorem C32_lag {A} (n0 n1 : nat) (junk arr : nat -> A) dx dy :
  - (Z.of_nat n0 - Z.of_nat n0 / 2) <= dy <= Z.of_nat n0 / 2 - 1 ->
  - (Z.of_nat n1 - Z.of_nat n1 / 2) <= dx <= Z.of_nat n1 / 2 - 1 ->
  let '(ix, iy) := indices_from_displacement (fft_origin (Z.of_nat n1)) (fft_origin (Z.of_nat n0)) dx dy in
  0 <= iy < Z.of_nat n0 /\ 0 <= ix < Z.of_nat n1 /\
  elem n1 (like_fftshift n0 n1 junk arr) (Z.to_nat iy) (Z.to_nat ix) =
  elem n1 arr (Z.to_nat (dy mod Z.of_nat n0)) (Z.to_nat (dx mod Z.of_nat n1)).
Proof.
  intros Hy Hx. unfold indices_from_displacement, fft_origin.
  split; [lia|]. split; [lia|].
  destruct (@C32_reordering A n0 n1 junk arr) as (r & Hr & Hs).
  assert (Hdy : 0 <= dy mod Z.of_nat n0 < Z.of_nat n0) by (apply Z.mod_pos_bound; lia).
  assert (Hdx : 0 <= dx mod Z.of_nat n1 < Z.of_nat n1) by (apply Z.mod_pos_bound; lia).
  set (my := Z.to_nat (dy mod Z.of_nat n0)) in *. set (mx := Z.to_nat (dx mod Z.of_nat n1)) in *.
  assert (Lm : (my < n0 /\ mx < n1)%nat) by lia.
  specialize (Hs (n0 - 1 - my)%nat (n1 - 1 - mx)%nat ltac:(lia) ltac:(lia)).
  rewrite Hr in Hs by lia.
  replace (n0 - 1 - (n0 - 1 - my))%nat with my in Hs by lia.
  replace (n1 - 1 - (n1 - 1 - mx))%nat with mx in Hs by lia.
  rewrite <- Hs. f_equal.
  - clear - Hy Hdy Lm. 
    assert (E : Z.of_nat my = dy + (if dy <? 0 then Z.of_nat n0 else 0)).
    { unfold my. rewrite Z2Nat.id by lia. destruct (Z.ltb_spec dy 0).
      - symmetry. apply Z.mod_unique with (q := -1); lia.
      - rewrite Z.mod_small by lia. lia. }
    destruct (Z.ltb_spec dy 0).
    + destruct (Nat.lt_ge_cases (n0 - 1 - my + n0 / 2) n0); [rewrite Nat.mod_small by lia|rewrite mod_sub_once by lia]; lia.
    + destruct (Nat.lt_ge_cases (n0 - 1 - my + n0 / 2) n0); [rewrite Nat.mod_small by lia|rewrite mod_sub_once by lia]; lia.
  - clear - Hx Hdx Lm. 
    assert (E : Z.of_nat mx = dx + (if dx <? 0 then Z.of_nat n1 else 0)).
    { unfold mx. rewrite Z2Nat.id by lia. destruct (Z.ltb_spec dx 0).
      - symmetry. apply Z.mod_unique with (q := -1); lia.
      - rewrite Z.mod_small by lia. lia. }
    destruct (Z.ltb_spec dx 0).
    + destruct (Nat.lt_ge_cases (n1 - 1 - mx + n1 / 2) n1); [rewrite Nat.mod_small by lia|rewrite mod_sub_once by lia]; lia.
    + destruct (Nat.lt_ge_cases (n1 - 1 - mx + n1 / 2) n1); [rewrite Nat.mod_small by lia|rewrite mod_sub_once by lia]; lia.
Qed.

(** every index written or read by the loops is in the array: nothing is lost (a write outside of the array would
    raise IndexError) *)
Theorem C32_in_bounds {A} (n0 n1 : nat) (arr : nat -> A) (j : nat) :
  (n0 * n1 <= j)%nat -> forall junk, shift_cols n0 n1 junk arr j = junk j /\ shift_rows n0 n1 junk arr j = junk j.
Proof.
  intros Hj junk. split.
  - unfold shift_cols. destruct (Nat.eqb_spec (n1 mod 2) 0); apply writes_other; intros H; apply in_map_iff in H;
      destruct H as ([k v] & E & H); cbn [fst] in E; subst k; apply in_flat_map in H; destruct H as (r & Hr & H);
      apply in_seq in Hr.
    + apply in_flat_map in H. destruct H as (q & Hq & H). apply in_seq in Hq.
      destruct H as [E|[E|[]]]; apply pair_equal_spec in E; destruct E as [<- <-].
      * assert (X := row_lt r n0 n1 (n1 / 2 + q) ltac:(lia) ltac:(lia)). lia.
      * assert (X := row_lt r n0 n1 q ltac:(lia) ltac:(lia)). lia.
    + apply in_app_or in H. destruct H as [H|H]; apply in_map_iff in H; destruct H as (q & E & Hq); apply in_seq in Hq;
        apply pair_equal_spec in E; destruct E as [<- <-].
      * assert (X := row_lt r n0 n1 (n1 / 2 + q) ltac:(lia) ltac:(lia)). lia.
      * assert (X := row_lt r n0 n1 q ltac:(lia) ltac:(lia)). lia.
  - set (h := (n0 / 2)%nat). unfold shift_rows. fold h.
    destruct (Nat.eqb_spec (n0 mod 2) 0); cbv zeta; apply writes_other; intros H; apply in_map_iff in H;
      destruct H as ([k v] & E & H); cbn [fst] in E; subst k.
    + assert (Hm : (n0 * n1 = h * n1 + h * n1)%nat) by (replace n0 with (h + h)%nat at 1 by (unfold h; lia); ring).
      apply in_flat_map in H. destruct H as (q & Hq & H). apply in_seq in Hq.
      destruct H as [E|[E|[]]]; apply pair_equal_spec in E; destruct E as [<- <-]; lia.
    + assert (Hm : (n0 * n1 = h * n1 + (h + 1) * n1)%nat) by (replace n0 with (h + (h + 1))%nat at 1 by (unfold h; lia); ring).
      apply in_app_or in H. destruct H as [H|H]; apply in_map_iff in H; destruct H as (q & E & Hq); apply in_seq in Hq;
        apply pair_equal_spec in E; destruct E as [<- <-]; lia.
Qed.

Example C32_example :
  map (like_fftshift 3 4 (fun _ => 0) Z.of_nat) (seq 0 12) = [1; 0; 3; 2; 9; 8; 11; 10; 5; 4; 7; 6].
Proof. reflexivity. Qed.

Print Assumptions C31_inverse.
Print Assumptions C31_inverse'.
Print Assumptions C31_origin.
Print Assumptions C31_range.
Print Assumptions C32_reordering.
Print Assumptions C32_lag.
Print Assumptions C32_in_bounds.

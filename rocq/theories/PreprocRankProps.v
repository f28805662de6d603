(** C79: images saved by the preprocessing work when it is told the rank of the subset. *)
From Verif Require Import PyBase StrModel PivFileModel PivFileProofs PreprocModel PreprocProps SplitProofs.
Local Open Scope Z_scope.

(** *** Specification *)
(** elements a, ..., b - 1 of a list *)
Definition window {A} (l : list A) (a b : nat) : list A := firstn (b - a) (skipn a l).
(** slicing tuples of the subset number [k]: [N] values of the first index, from [i + k], and [Nj] values of the second
    index, if there is one *)
Definition slices_of (i N Nj : Z) (k : nat) (slices : list (list Z)) : Prop :=
  exists si rest, slices = [i + Z.of_nat k; i + Z.of_nat k + N; si] :: rest /\
   ((rest = [] /\ Nj = 1) \/ (exists j, rest = [[j]] /\ Nj = 1) \/ (exists j sj, rest = [[j; j + Nj; sj]])).

Lemma skipn_skipn {A} (l : list A) a b : skipn a (skipn b l) = skipn (b + a) l.
Proof. revert l. induction b as [|b IH]; intros l; [reflexivity|]. destruct l; [rewrite skipn_nil; reflexivity|]. cbn [skipn Nat.add]. apply IH. Qed.
Lemma window_app {A} (l : list A) a b c : (a <= b <= c)%nat -> window l a b ++ window l b c = window l a c.
Proof.
  intros H. unfold window. replace (c - a)%nat with ((b - a) + (c - b))%nat by lia.
  rewrite <- (firstn_skipn (b - a) (firstn (b - a + (c - b)) (skipn a l))). rewrite firstn_firstn. replace (Nat.min (b - a) (b - a + (c - b))) with (b - a)%nat by lia. f_equal.
  rewrite skipn_firstn_comm. replace (b - a + (c - b) - (b - a))%nat with (c - b)%nat by lia. rewrite skipn_skipn.
  do 2 f_equal. lia.
Qed.
Lemma window_all {A} (l : list A) : window l 0 (List.length l) = l.
Proof. unfold window. rewrite Nat.sub_0_r. apply firstn_all. Qed.
Lemma window_window {A} (l : list A) a b s e : (s <= e)%nat -> (a + e <= b)%nat -> window (window l a b) s e = window l (a + s) (a + e).
Proof.
  intros H1 H2. unfold window. rewrite skipn_firstn_comm, firstn_firstn, skipn_skipn. f_equal. lia.
Qed.
Lemma window_length {A} (l : list A) a b : (a <= b <= List.length l)%nat -> List.length (window l a b) = (b - a)%nat.
Proof. intros H. unfold window. rewrite firstn_length, skipn_length. lia. Qed.
Lemma window_telescope {A} (l : list A) (f : nat -> nat) n a : (forall k, (a <= k < a + n)%nat -> (f k <= f (S k))%nat) ->
  flat_map (fun k => window l (f k) (f (S k))) (seq a n) = window l (f a) (f (a + n)%nat).
Proof.
  revert a. induction n as [|n IH]; intros a H; cbn [seq flat_map].
  - rewrite Nat.add_0_r. unfold window. rewrite Nat.sub_diag. reflexivity.
  - assert (M : forall j, (j <= n)%nat -> (f (S a) <= f (S a + j))%nat).
    { induction j as [|j IHj]; intros Hj; [rewrite Nat.add_0_r; lia|]. specialize (IHj ltac:(lia)). specialize (H (S a + j)%nat ltac:(lia)).
      replace (S a + S j)%nat with (S (S a + j)) by lia. lia. }
    rewrite IH by (intros; apply H; lia). rewrite window_app; [f_equal; f_equal; lia|]. split; [apply H; lia|]. apply M. lia.
Qed.
Lemma slice_window {A} (l : list A) (s e : nat) : (s <= e <= List.length l)%nat -> py_slice l (Z.of_nat s) (Z.of_nat e) = window l s e.
Proof.
  intros H. unfold py_slice, window, norm_bound, zlen. replace (Z.of_nat s <? 0) with false by lia. replace (Z.of_nat e <? 0) with false by lia.
  f_equal; [lia|]. f_equal. lia.
Qed.
Lemma map_fst_combine_window {A B} (l : list A) (m : list B) : List.length l = List.length m -> map fst (combine l m) = l.
Proof. apply keys_combine. Qed.
Lemma combine_window {A B} (l : list A) (m : list B) s e x y : In (x, y) (combine (window l s e) (window m s e)) ->
  exists p, nth_error l p = Some x /\ nth_error m p = Some y.
Proof.
  intros H. apply combine_In_nth in H. destruct H as (n & H1 & H2). exists (s + n)%nat.
  assert (X : forall C (q : list C) z, nth_error (window q s e) n = Some z -> nth_error q (s + n) = Some z).
  { intros C q z Hz. unfold window in Hz.
    assert (n < e - s)%nat. { destruct (Nat.lt_ge_cases n (e - s)); [assumption|]. rewrite (proj2 (nth_error_None _ _)) in Hz; [discriminate|]. rewrite firstn_length. lia. }
    rewrite <- (firstn_skipn s q). destruct (Nat.le_gt_cases s (List.length q)).
    - rewrite nth_error_app2 by (rewrite firstn_length; lia). rewrite firstn_length. replace (s + n - Nat.min s (List.length q))%nat with n by lia.
      rewrite <- (firstn_skipn (e - s) (skipn s q)). rewrite nth_error_app1; [exact Hz|]. apply nth_error_Some. congruence.
    - rewrite skipn_all2 in Hz by lia. rewrite firstn_nil in Hz. destruct n; discriminate. }
  split; apply X; assumption.
Qed.

Lemma slices_NiNj i N Nj k sl : slices_of i N Nj k sl -> get_Ni_Nj sl = Ok (N, Nj).
Proof.
  intros (si & rest & -> & H).
  assert (X0 : forall A (x : A) l, py_get (x :: l) 0 = Ok x).
  { intros A x l. unfold py_get, zlen. cbn [List.length]. cbv zeta. change (0 <? 0) with false. cbv iota. destruct ((0 <=? 0) && (0 <? Z.of_nat (S (List.length l)))) eqn:E; [reflexivity|exfalso; lia]. }
  assert (X1 : forall A (x y : A) l, py_get (x :: y :: l) 1 = Ok y).
  { intros A x y l. unfold py_get, zlen. cbn [List.length]. cbv zeta. change (1 <? 0) with false. cbv iota. destruct ((0 <=? 1) && (1 <? Z.of_nat (S (S (List.length l))))) eqn:E; [reflexivity|exfalso; lia]. }
  unfold get_Ni_Nj. rewrite X0. cbn [bind]. rewrite X1, X0. cbn [bind].
  destruct H as [(-> & ->)|[(j & -> & ->)|(j & sj & ->)]].
  - do 2 f_equal. lia.
  - cbn. do 2 f_equal. lia.
  - change (zlen [j; j + Nj; sj] =? 1) with false. cbv iota. rewrite X1. cbn [bind]. rewrite X0. cbn [bind]. do 2 f_equal; lia.
Qed.

(** index of the first image saved by the subsets which are neither the first nor the last one *)
Definition middle_start (N Nj : nat) : nat := ((N - 1) / 2 * Nj)%nat.
Lemma middle_spec i (N Nj : nat) k sl : (1 <= N)%nat -> (1 <= Nj)%nat -> (Nat.odd N = true \/ Nj = 1%nat) -> slices_of i (Z.of_nat N) (Z.of_nat Nj) k sl ->
  get_ind_middle sl = Ok (Z.of_nat (middle_start N Nj), Z.of_nat (middle_start N Nj + Nj)).
Proof.
  intros HN HNj Hodd Hs. unfold get_ind_middle. rewrite (slices_NiNj _ _ _ _ _ Hs). cbn [bind]. f_equal. unfold middle_start.
  pose proof (Z.div_mod (Z.of_nat N) 2 ltac:(lia)) as D. pose proof (Z.mod_pos_bound (Z.of_nat N) 2 ltac:(lia)) as B.
  assert (Zq : Z.of_nat ((N - 1) / 2) = (Z.of_nat N - 1) / 2) by (rewrite Nat2Z.inj_div, Nat2Z.inj_sub by lia; reflexivity).
  destruct (Z.of_nat N mod 2 =? 0) eqn:E.
  - assert (Ej : Nj = 1%nat). { destruct Hodd as [Ho|]; [|assumption]. apply Nat.odd_spec in Ho. destruct Ho as (q & Hq). exfalso. subst N. lia. }
    subst Nj. rewrite !Nat.mul_1_r, Nat2Z.inj_add, Zq, !Z.mul_1_r. f_equal; Z.div_mod_to_equations; lia.
  - assert (Eq : (Z.of_nat N - 1) / 2 = Z.of_nat N / 2) by (Z.div_mod_to_equations; lia).
    assert (Er : (Z.of_nat N + 1) / 2 = Z.of_nat N / 2 + 1) by (Z.div_mod_to_equations; lia).
    rewrite Nat2Z.inj_add, Nat2Z.inj_mul, Zq, Eq, Er. f_equal. lia.
Qed.

Section Rank.
Context {image : Type}.
(** names of all the images, in the order of the indices *)
Variable names : list chars.
Variables N Nj nb : nat.
Variable i : Z.
Variable slices : nat -> list (list Z).
(** results of the tools for the images of the subset [k] *)
Variable images : nat -> list image.
Hypothesis HN : (1 <= N)%nat.
Hypothesis HNj : (1 <= Nj)%nat.
Hypothesis Hnb : (1 <= nb)%nat.
Hypothesis Hlen : List.length names = ((N + nb - 1) * Nj)%nat.
Hypothesis Hslices : forall k, (k < nb)%nat -> slices_of i (Z.of_nat N) (Z.of_nat Nj) k (slices k).
Hypothesis Himages : forall k, (k < nb)%nat -> List.length (images k) = (N * Nj)%nat.

(** names of the images of the subset [k] *)
Definition names_of (k : nat) : list chars := window names (k * Nj) (k * Nj + N * Nj).
Definition subset_of (k : nat) : subset image := mk_subset (slices k) (names_of k) [].

Definition bound (k : nat) : nat :=
  if Nat.eqb k 0 then 0%nat else if Nat.eqb k nb then ((N + nb - 1) * Nj)%nat else (k * Nj + middle_start N Nj)%nat.
Lemma names_of_length k : (k < nb)%nat -> List.length (names_of k) = (N * Nj)%nat.
Proof. intros H. unfold names_of. rewrite window_length; [lia|]. rewrite Hlen. split; [lia|]. nia. Qed.

Lemma middle_le : (middle_start N Nj + Nj <= N * Nj)%nat.
Proof.
  unfold middle_start. assert ((N - 1) / 2 + 1 <= N)%nat by (pose proof (Nat.div_mod (N - 1) 2 ltac:(lia)); lia). nia.
Qed.

(** slice of the images saved by the subset [k], in the subset *)
Definition first_saved (k : nat) : nat := if Nat.eqb k 0 then 0%nat else middle_start N Nj.
Definition end_saved (k : nat) : nat := if Nat.eqb (S k) nb then (N * Nj)%nat else (middle_start N Nj + Nj)%nat.
Lemma dict_spec k : (Nat.odd N = true \/ Nj = 1%nat) -> (k < nb)%nat ->
  make_dict_to_save (subset_of k) (Z.of_nat k) (Z.of_nat nb) (images k)
  = Ok (combine (window (names_of k) (first_saved k) (end_saved k)) (window (images k) (first_saved k) (end_saved k))).
Proof.
  intros Ho Hk. unfold make_dict_to_save. cbn [su_slices su_names subset_of]. rewrite (middle_spec i N Nj k _ HN HNj Ho (Hslices k Hk)). cbn [bind fst snd].
  pose proof middle_le as ML. f_equal.
  assert (X : forall A (l : list A), List.length l = (N * Nj)%nat ->
    (if (Z.of_nat k =? 0) && (Z.of_nat nb =? 1) then l
     else if Z.of_nat k =? 0 then py_slice l 0 (Z.of_nat (middle_start N Nj + Nj))
     else if Z.of_nat k =? Z.of_nat nb - 1 then py_slice l (Z.of_nat (middle_start N Nj)) (zlen l)
     else py_slice l (Z.of_nat (middle_start N Nj)) (Z.of_nat (middle_start N Nj + Nj))) = window l (first_saved k) (end_saved k)).
  { intros A l Hl. unfold first_saved, end_saved. destruct (Nat.eqb_spec k 0) as [->|Hk0].
    - change (Z.of_nat 0 =? 0) with true. cbn [andb]. destruct (Nat.eqb_spec 1 nb) as [<-|Hb].
      + change (Z.of_nat 1 =? 1) with true. cbv iota. rewrite <- Hl. symmetry. apply window_all.
      + replace (Z.of_nat nb =? 1) with false by lia. cbv iota. apply (slice_window l 0). lia.
    - replace (Z.of_nat k =? 0) with false by lia. cbn [andb]. destruct (Nat.eqb_spec (S k) nb) as [Hb|Hb].
      + replace (Z.of_nat k =? Z.of_nat nb - 1) with true by lia. unfold zlen. rewrite slice_window by lia. rewrite Hl. reflexivity.
      + replace (Z.of_nat k =? Z.of_nat nb - 1) with false by lia. apply slice_window. lia. }
  rewrite !X by (auto using names_of_length). reflexivity.
Qed.

(** every image is saved exactly once (one index, or an odd number of values of the first index) *)
Theorem C79_once_partial : (Nat.odd N = true \/ Nj = 1%nat) ->
  exists files : nat -> list (chars * image),
    (forall k, (k < nb)%nat -> make_dict_to_save (subset_of k) (Z.of_nat k) (Z.of_nat nb) (images k) = Ok (files k)) /\
    flat_map (fun k => map fst (files k)) (seq 0 nb) = names /\
    (forall k name im, (k < nb)%nat -> In (name, im) (files k) ->
       exists p, nth_error (names_of k) p = Some name /\ nth_error (images k) p = Some im).
Proof.
  intros Ho. pose proof middle_le as ML.
  exists (fun k => combine (window (names_of k) (first_saved k) (end_saved k)) (window (images k) (first_saved k) (end_saved k))).
  split; [intros k Hk; apply dict_spec; assumption|]. split; [|intros k name im _ H; eapply combine_window; exact H].
  assert (FE : forall k, (k < nb)%nat -> (first_saved k <= end_saved k <= N * Nj)%nat).
  { intros k Hk. unfold first_saved, end_saved. destruct (Nat.eqb k 0), (Nat.eqb (S k) nb); lia. }
  transitivity (flat_map (fun k => window names (bound k) (bound (S k))) (seq 0 nb)).
  - rewrite !flat_map_concat_map. f_equal. apply map_ext_in. intros k Hk. apply in_seq in Hk. pose proof (FE k ltac:(lia)) as F.
    rewrite map_fst_combine_window by (rewrite !window_length by (rewrite ?names_of_length, ?Himages by lia; lia); reflexivity).
    unfold names_of. rewrite window_window by lia.
    replace (k * Nj + first_saved k)%nat with (bound k).
    2:{ unfold bound, first_saved. destruct (Nat.eqb_spec k 0) as [->|?]; [lia|]. replace (Nat.eqb k nb) with false by (symmetry; apply Nat.eqb_neq; lia). reflexivity. }
    replace (k * Nj + end_saved k)%nat with (bound (S k)); [reflexivity|].
    unfold bound, end_saved. change (Nat.eqb (S k) 0) with false. cbv iota. destruct (Nat.eqb_spec (S k) nb) as [Hb|?]; [|lia]. rewrite <- Hb. replace (N + S k - 1)%nat with (k + N)%nat by lia. lia.
  - rewrite window_telescope.
    + cbn [Nat.add]. unfold bound at 2. rewrite Nat.eqb_refl. replace (Nat.eqb nb 0) with false by (symmetry; apply Nat.eqb_neq; lia). unfold bound. cbn [Nat.eqb]. rewrite <- Hlen. apply window_all.
    + intros k Hk. unfold bound. change (Nat.eqb (S k) 0) with false. cbv iota. destruct (Nat.eqb_spec k 0) as [->|?]; [apply Nat.le_0_l|]. replace (Nat.eqb k nb) with false by (symmetry; apply Nat.eqb_neq; lia).
      destruct (Nat.eqb_spec (S k) nb) as [Hb|?]; [|lia]. rewrite <- Hb. nia.
Qed.

(** two indices, an even number of values of the first one: an image is saved by no subset *)
Theorem C79_missing_refuted name : (2 <= nb)%nat -> Nat.even N = true -> (2 <= Nj)%nat -> NoDup names -> nth_error names (N / 2 * Nj) = Some name ->
  forall k files, (k < nb)%nat -> make_dict_to_save (subset_of k) (Z.of_nat k) (Z.of_nat nb) (images k) = Ok files -> ~ In name (map fst files).
Proof.
  intros Hb He Hj Hnd Hname k files Hk Hd. apply Nat.even_spec in He. destruct He as (h & Eh).
  unfold make_dict_to_save in Hd. cbn [su_slices su_names subset_of] in Hd. unfold get_ind_middle in Hd. rewrite (slices_NiNj _ _ _ _ _ (Hslices k Hk)) in Hd. cbn [bind] in Hd.
  replace (Z.of_nat N mod 2 =? 0) with true in Hd by (symmetry; apply Z.eqb_eq; rewrite Eh, Nat2Z.inj_mul, Z.mul_comm; apply Z.mod_mul; lia).
  assert (E1 : Z.of_nat N / 2 * Z.of_nat Nj = Z.of_nat (h * Nj)) by (rewrite Eh; Z.div_mod_to_equations; nia).
  assert (E2 : (Z.of_nat N + 1) / 2 * Z.of_nat Nj = Z.of_nat (h * Nj)).
  { replace ((Z.of_nat N + 1) / 2) with (Z.of_nat h) by (rewrite Eh; Z.div_mod_to_equations; nia). lia. }
  rewrite E1, E2 in Hd. cbn [fst snd] in Hd. replace (N / 2)%nat with h in Hname by (rewrite Eh, Nat.mul_comm, Nat.div_mul by lia; reflexivity).
  assert (1 <= h)%nat by lia.
  replace (Z.of_nat (h * Nj) - 1) with (Z.of_nat (h * Nj - 1)) in Hd by nia.
  assert (Hi : In name (window (names_of k) (if Nat.eqb k 0 then 0 else h * Nj - 1) (if Nat.eqb k 0 then h * Nj else if Nat.eqb (S k) nb then N * Nj else h * Nj)) -> False).
  { intros Hin. unfold names_of in Hin. rewrite window_window in Hin.
    - apply In_nth_error in Hin. destruct Hin as (q & Hq).
      set (s := (k * Nj + (if Nat.eqb k 0 then 0 else h * Nj - 1))%nat) in *. set (e := (k * Nj + _)%nat) in Hq.
      assert (Hql : (q < e - s)%nat). { destruct (Nat.lt_ge_cases q (e - s)); [assumption|]. unfold window in Hq. rewrite (proj2 (nth_error_None _ _)) in Hq; [discriminate|]. rewrite firstn_length. lia. }
      assert (Hp : nth_error names (s + q) = Some name).
      { destruct (combine_window names names s e name name) as (p & Hp & _).
        - unfold window in *. clear - Hq. revert Hq. generalize (firstn (e - s) (skipn s names)). intros l. revert q. induction l as [|x l IH]; intros [|q] H; cbn in *; try discriminate; [left; congruence|right; eapply IH; exact H].
        - clear Hp. unfold window in Hq. rewrite <- (firstn_skipn (e - s) (skipn s names)) in *. 
          assert (T : nth_error (skipn s names) q = Some name).
          { rewrite <- (firstn_skipn (e - s) (skipn s names)). rewrite nth_error_app1; [|apply nth_error_Some; rewrite firstn_skipn in Hq; congruence]. rewrite firstn_skipn in Hq. exact Hq. }
          rewrite <- (firstn_skipn s names). destruct (Nat.le_gt_cases s (List.length names)).
          + rewrite nth_error_app2 by (rewrite firstn_length; lia). rewrite firstn_length. replace (s + q - Nat.min s (List.length names))%nat with q by lia. exact T.
          + rewrite skipn_all2 in T by lia. destruct q; discriminate. }
      assert (s + q = h * Nj)%nat. { eapply NoDup_nth_error; [exact Hnd| |congruence]. apply nth_error_Some. congruence. }
      unfold s, e in *. destruct (Nat.eqb_spec k 0) as [->|?]; [lia|]. nia.
    - destruct (Nat.eqb k 0); [lia|]. destruct (Nat.eqb (S k) nb); nia.
    - destruct (Nat.eqb k 0); [nia|]. destruct (Nat.eqb (S k) nb); nia. }
  intros Hin. apply Hi. clear Hi. injection Hd as <-.
  assert (X : forall A (l : list A), List.length l = (N * Nj)%nat ->
    (if (Z.of_nat k =? 0) && (Z.of_nat nb =? 1) then l
     else if Z.of_nat k =? 0 then py_slice l 0 (Z.of_nat (h * Nj))
     else if Z.of_nat k =? Z.of_nat nb - 1 then py_slice l (Z.of_nat (h * Nj - 1)) (zlen l)
     else py_slice l (Z.of_nat (h * Nj - 1)) (Z.of_nat (h * Nj))) = window l (if Nat.eqb k 0 then 0 else h * Nj - 1) (if Nat.eqb k 0 then h * Nj else if Nat.eqb (S k) nb then N * Nj else h * Nj)).
  { intros A l Hl. replace (Z.of_nat nb =? 1) with false by lia. rewrite andb_false_r. destruct (Nat.eqb_spec k 0) as [->|Hk0].
    - change (Z.of_nat 0 =? 0) with true. cbv iota. apply (slice_window l 0). nia.
    - replace (Z.of_nat k =? 0) with false by lia. destruct (Nat.eqb_spec (S k) nb) as [Hb'|Hb'].
      + replace (Z.of_nat k =? Z.of_nat nb - 1) with true by lia. unfold zlen. rewrite slice_window by nia. rewrite Hl. reflexivity.
      + replace (Z.of_nat k =? Z.of_nat nb - 1) with false by lia. apply slice_window. nia. }
  rewrite !X in Hin by (auto using names_of_length). apply in_map_iff in Hin. destruct Hin as ([x y] & Ex & Hin). cbn [fst] in Ex. subst x. apply in_combine_l in Hin. exact Hin.
Qed.

(** the name looked for by the mode "complete" is one of the names saved for the subset *)
Theorem C79_complete_name k name : (Nat.odd N = true \/ Nj = 1%nat) -> (k < nb)%nat -> get_name_preproc (subset_of k) (Z.of_nat k) (Z.of_nat nb) = Ok name ->
  exists files, make_dict_to_save (subset_of k) (Z.of_nat k) (Z.of_nat nb) (images k) = Ok files /\ In name (map fst files).
Proof.
  intros Ho Hk Hn. eexists. split; [apply dict_spec; assumption|]. pose proof middle_le as ML.
  assert (FE : (first_saved k < end_saved k <= N * Nj)%nat).
  { unfold first_saved, end_saved. destruct (Nat.eqb k 0), (Nat.eqb (S k) nb); nia. }
  rewrite map_fst_combine_window by (rewrite !window_length by (rewrite ?names_of_length, ?Himages by lia; lia); reflexivity).
  unfold get_name_preproc in Hn. cbn [su_slices su_names subset_of] in Hn. rewrite (middle_spec i N Nj k _ HN HNj Ho (Hslices k Hk)) in Hn. cbn [bind fst snd] in Hn.
  assert (X : exists p, (first_saved k <= p < end_saved k)%nat /\ nth_error (names_of k) p = Some name).
  { assert (G : forall (q : nat), (q < N * Nj)%nat -> py_get (names_of k) (Z.of_nat q) = Ok name -> nth_error (names_of k) q = Some name).
    { intros q Hq. unfold py_get, zlen. rewrite names_of_length by exact Hk. replace (Z.of_nat q <? 0) with false by lia. replace ((0 <=? Z.of_nat q) && (Z.of_nat q <? Z.of_nat (N * Nj))) with true by lia.
      rewrite Nat2Z.id. destruct (nth_error (names_of k) q); congruence. }
    assert (GL : py_get (names_of k) (-1) = Ok name -> nth_error (names_of k) (N * Nj - 1) = Some name).
    { unfold py_get, zlen. rewrite names_of_length by exact Hk. change (-1 <? 0) with true. cbv iota. replace ((0 <=? -1 + Z.of_nat (N * Nj)) && (-1 + Z.of_nat (N * Nj) <? Z.of_nat (N * Nj))) with true by nia.
      replace (Z.to_nat (-1 + Z.of_nat (N * Nj))) with (N * Nj - 1)%nat by nia. destruct (nth_error (names_of k) (N * Nj - 1)); congruence. }
    unfold first_saved, end_saved. destruct (Nat.eqb_spec k 0) as [->|Hk0].
    - change (Z.of_nat 0 =? 0) with true in Hn. cbn [andb] in Hn. destruct (Nat.eqb_spec 1 nb) as [<-|Hb].
      + change (Z.of_nat 1 =? 1) with true in Hn. cbv iota in Hn. exists (N * Nj - 1)%nat. split; [nia|]. apply GL. exact Hn.
      + replace (Z.of_nat nb =? 1) with false in Hn by lia. cbv iota in Hn. exists (middle_start N Nj). split; [lia|]. apply G; [lia|exact Hn].
    - replace (Z.of_nat k =? 0) with false in Hn by lia. cbn [andb] in Hn. destruct (Nat.eqb_spec (S k) nb) as [Hb|Hb].
      + replace (Z.of_nat k =? Z.of_nat nb - 1) with true in Hn by lia. exists (N * Nj - 1)%nat. split; [nia|]. apply GL. exact Hn.
      + replace (Z.of_nat k =? Z.of_nat nb - 1) with false in Hn by lia. exists (middle_start N Nj). split; [lia|]. apply G; [lia|exact Hn]. }
  destruct X as (p & Hp & Hnth).
  pose proof (names_of_length k Hk) as L.
  assert (Hw : window (names_of k) 0 (first_saved k) ++ window (names_of k) (first_saved k) (end_saved k) ++ window (names_of k) (end_saved k) (N * Nj) = names_of k).
  { rewrite window_app by lia. rewrite window_app by lia. rewrite <- L. apply window_all. }
  rewrite <- Hw in Hnth. rewrite nth_error_app2 in Hnth by (rewrite window_length by lia; lia). rewrite nth_error_app1 in Hnth by (rewrite !window_length by lia; lia).
  apply nth_error_In in Hnth. exact Hnth.
Qed.
End Rank.

(** five images, subsets of three consecutive images *)
Example C79_ex : exists names slices images, List.length names = ((3 + 3 - 1) * 1)%nat /\ (forall k, (k < 3)%nat -> slices_of 0 3 1 k (slices k)) /\
  (forall k, (k < 3)%nat -> List.length (images k) = (3 * 1)%nat) /\
  map (fun k => make_dict_to_save (subset_of (image := Z) names 3 1 slices k) (Z.of_nat k) 3 (images k)) (seq 0 3) =
  [Ok [(nm 0, 10); (nm 1, 11)]; Ok [(nm 2, 22)]; Ok [(nm 3, 33); (nm 4, 34)]].
Proof.
  exists [nm 0; nm 1; nm 2; nm 3; nm 4], (fun k => [[Z.of_nat k; Z.of_nat k + 3; 1]]), (fun k => [10 + 11 * Z.of_nat k; 11 + 11 * Z.of_nat k; 12 + 11 * Z.of_nat k]).
  split; [reflexivity|]. split; [|split].
  - intros k Hk. eexists. exists []. split; [reflexivity|]. left. split; reflexivity.
  - reflexivity.
  - vm_compute. reflexivity.
Qed.
(** eight images (four values of the first index, two of the second one), subsets with two values of the first index *)
Example C79_ex_missing : exists names slices images, List.length names = ((2 + 3 - 1) * 2)%nat /\ (forall k, (k < 3)%nat -> slices_of 0 2 2 k (slices k)) /\ NoDup names /\
  nth_error names (2 / 2 * 2) = Some (nm 2) /\
  map (fun k => make_dict_to_save (subset_of (image := Z) names 2 2 slices k) (Z.of_nat k) 3 (images k)) (seq 0 3) =
  [Ok [(nm 0, 1); (nm 1, 2)]; Ok [(nm 3, 2)]; Ok [(nm 5, 2); (nm 6, 3); (nm 7, 4)]].
Proof.
  exists (map nm [0; 1; 2; 3; 4; 5; 6; 7]), (fun k => [[Z.of_nat k; Z.of_nat k + 2; 1]; [0; 2; 1]]), (fun k => [1; 2; 3; 4]).
  split; [reflexivity|]. split; [|split; [|split]].
  - intros k Hk. eexists. exists [[0; 2; 1]]. split; [reflexivity|]. right. right. exists 0, 1. reflexivity.
  - vm_compute. repeat constructor; cbn; intuition discriminate.
  - reflexivity.
  - vm_compute. reflexivity.
Qed.

Print Assumptions C79_once_partial. Print Assumptions C79_missing_refuted. Print Assumptions C79_complete_name.

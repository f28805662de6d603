(** C47 (gridding of the vectors), C48 (extract_square), C62 (orientation of the fields),
    C63 (extraction with physical bounds). *)
From Coq Require Import Sorting.Sorted.
From Verif Require Import PyBase GridProps DirectProps VecFieldModel.
Open Scope Z_scope.

Definition get2 {V} (a : array2 V) (i j : nat) : option V :=
  match nth_error a i with Some row => nth_error row j | None => None end.

(** ** np.unique *)
Lemma insert_unique_In x l z : In z (insert_unique x l) <-> z = x \/ In z l.
Proof.
  induction l as [|y l IH]; cbn [insert_unique]; [cbn; intuition auto|].
  destruct (x <? y); [cbn; intuition auto|]. destruct (x =? y) eqn:E.
  - cbn. apply Z.eqb_eq in E. subst. intuition auto.
  - cbn [In]. rewrite IH. intuition auto.
Qed.

Lemma insert_unique_sorted x l : StronglySorted Z.lt l -> StronglySorted Z.lt (insert_unique x l).
Proof.
  induction 1 as [|y l Hs IH Hf]; cbn [insert_unique]; [repeat constructor|].
  destruct (x <? y) eqn:E1.
  - constructor; [constructor; assumption|]. constructor; [lia|]. rewrite Forall_forall in *. intros z Hz. specialize (Hf z Hz). lia.
  - destruct (x =? y) eqn:E2; [constructor; assumption|]. constructor; [exact IH|].
    rewrite Forall_forall in *. intros z Hz. apply insert_unique_In in Hz. destruct Hz as [->|Hz]; [lia|auto].
Qed.

Lemma unique_spec l : StronglySorted Z.lt (np_unique l) /\ forall z, In z (np_unique l) <-> In z l.
Proof.
  induction l as [|x l (H1 & H2)]; cbn [np_unique fold_right].
  - split; [constructor|reflexivity].
  - split; [apply insert_unique_sorted; exact H1|]. intros z. rewrite insert_unique_In. fold (np_unique l). rewrite H2. cbn. intuition auto.
Qed.

(** strictly increasing or strictly decreasing *)
Definition increasing (l : list Z) : Prop := StronglySorted Z.lt l.
Definition decreasing (l : list Z) : Prop := StronglySorted (fun a b => b < a) l.

Lemma sorted_app_last {A} (R : A -> A -> Prop) l a : StronglySorted R l -> Forall (fun x => R x a) l -> StronglySorted R (l ++ [a]).
Proof.
  induction 1 as [|b l Hs IH Hf]; intros HA; cbn; [repeat constructor|].
  inversion HA; subst. constructor; [apply IH; assumption|]. apply Forall_app. split; [exact Hf|repeat constructor; assumption].
Qed.

Lemma decreasing_rev l : decreasing l -> increasing (rev l).
Proof.
  induction 1 as [|a l Hs IH Hf]; cbn; [constructor|]. apply sorted_app_last; [exact IH|].
  apply Forall_forall. intros x Hx. apply in_rev in Hx. rewrite Forall_forall in Hf. apply Hf. exact Hx.
Qed.

(** the orientation found by the code *)
Lemma oriented l l' a b m : l = a :: b :: m -> increasing l \/ decreasing l -> (forall z, In z l' <-> In z l) ->
  (if b - a <? 0 then rev (np_unique l') else np_unique l') = l.
Proof.
  intros -> HM HE. destruct (unique_spec l') as [HS HI]. destruct HM as [HM|HM].
  - assert (a < b) by (inversion HM as [|? ? _ Hf]; subst; inversion Hf; assumption).
    replace (b - a <? 0) with false by lia. apply sorted_eq; [exact HS|exact HM|]. intros x. rewrite HI. apply HE.
  - assert (b < a) by (inversion HM as [|? ? _ Hf]; subst; inversion Hf; assumption).
    replace (b - a <? 0) with true by lia. rewrite <- (rev_involutive (a :: b :: m)). f_equal.
    apply sorted_eq; [exact HS|apply decreasing_rev; exact HM|]. intros x. rewrite HI, HE. apply in_rev.
Qed.

(** ** reshape and transposition *)
Lemma get2_chunks {V} n1 : forall n0 (l : list V) i j, List.length l = (n0 * n1)%nat -> (i < n0)%nat -> (j < n1)%nat ->
  get2 (chunks n0 n1 l) i j = nth_error l (i * n1 + j).
Proof.
  induction n0 as [|n0 IH]; intros l i j HL Hi Hj; [lia|]. unfold get2. cbn [chunks]. destruct i as [|i].
  - cbn [nth_error]. cbn. rewrite <- (firstn_skipn n1 l) at 2. rewrite nth_error_app1; [reflexivity|].
    rewrite firstn_length. cbn in HL. lia.
  - cbn [nth_error]. fold (get2 (chunks n0 n1 (skipn n1 l)) i j). rewrite IH; [|rewrite skipn_length; cbn in HL; lia|lia|exact Hj].
    rewrite nth_error_skipn. f_equal. lia.
Qed.

Lemma chunks_shape {V} n1 : forall n0 (l : list V), List.length l = (n0 * n1)%nat ->
  List.length (chunks n0 n1 l) = n0 /\ Forall (fun row => List.length row = n1) (chunks n0 n1 l).
Proof.
  induction n0 as [|n0 IH]; intros l HL; cbn [chunks]; [split; [reflexivity|constructor]|].
  destruct (IH (skipn n1 l)) as [H1 H2]; [rewrite skipn_length; cbn in HL; lia|].
  cbn [List.length]. rewrite H1. split; [reflexivity|]. constructor; [|exact H2]. rewrite firstn_length. cbn in HL. lia.
Qed.

Lemma transpose_shape {V} : forall n1 (a : array2 V), Forall (fun row => List.length row = n1) a ->
  List.length (transpose n1 a) = n1 /\ Forall (fun row => List.length row = List.length a) (transpose n1 a).
Proof.
  induction n1 as [|n1 IH]; intros a HA; cbn [transpose]; [split; [reflexivity|constructor]|].
  destruct (IH (map (skipn 1) a)) as [H1 H2].
  { rewrite Forall_map. eapply Forall_impl; [|exact HA]. cbn beta. intros row Hr. rewrite skipn_length. lia. }
  cbn [List.length]. rewrite H1. split; [reflexivity|]. constructor.
  - clear - HA. induction HA as [|row a Hr _ IHa]; [reflexivity|]. destruct row as [|v row]; [discriminate|]. cbn. f_equal. exact IHa.
  - rewrite map_length in H2. exact H2.
Qed.

Lemma nth_first_column {V} n1 (a : array2 V) i : Forall (fun row => List.length row = S n1) a ->
  nth_error (flat_map (firstn 1) a) i = get2 a i 0.
Proof.
  intros HA. revert i. induction HA as [|row a Hr _ IH]; intros i; [destruct i; reflexivity|].
  destruct row as [|v row]; [discriminate|]. cbn [flat_map firstn app]. destruct i as [|i]; [reflexivity|]. cbn [nth_error]. rewrite IH. reflexivity.
Qed.

Lemma get2_transpose {V} : forall n1 (a : array2 V) i j, Forall (fun row => List.length row = n1) a -> (j < n1)%nat ->
  get2 (transpose n1 a) j i = get2 a i j.
Proof.
  induction n1 as [|n1 IH]; intros a i j HA Hj; [lia|]. cbn [transpose]. unfold get2 at 1. destruct j as [|j].
  - cbn [nth_error]. apply (nth_first_column n1). exact HA.
  - cbn [nth_error]. fold (get2 (transpose n1 (map (skipn 1) a)) j i). rewrite IH.
    + unfold get2. rewrite nth_error_map. destruct (nth_error a i) as [row|] eqn:E; [|reflexivity]. cbn [option_map].
      rewrite nth_error_skipn. reflexivity.
    + rewrite Forall_map. eapply Forall_impl; [|exact HA]. cbn beta. intros row Hr. rewrite skipn_length. lia.
    + lia.
Qed.

(** ** the vectors of a grid *)

(** The points of a grid with columns at [xs] and rows at [ys], given row by row or column
    by column. *)
Definition by_rows (xs ys : list Z) : list (Z * Z) := flat_map (fun y => map (fun x => (x, y)) xs) ys.
Definition by_columns (xs ys : list Z) : list (Z * Z) := flat_map (fun x => map (fun y => (x, y)) ys) xs.

Definition shape {V} (a : array2 V) (n0 n1 : nat) : Prop := List.length a = n0 /\ Forall (fun row => List.length row = n1) a.

Definition monotone (l : list Z) : Prop := (2 <= List.length l)%nat /\ (increasing l \/ decreasing l).

Lemma monotone_two l : monotone l -> exists a b m, l = a :: b :: m /\ a <> b.
Proof.
  intros (HL & HM). destruct l as [|a [|b m]]; cbn in HL; try lia. exists a, b, m. split; [reflexivity|].
  destruct HM as [HM|HM]; inversion HM as [|? ? _ Hf]; subst; inversion Hf; subst; lia.
Qed.

Lemma length_flat {A B} (f : A -> list B) l n : (forall a, In a l -> List.length (f a) = n) -> List.length (flat_map f l) = (List.length l * n)%nat.
Proof.
  induction l as [|a l IH]; intros H; [reflexivity|]. cbn [flat_map List.length]. rewrite app_length, IH by (intros b Hb; apply H; right; exact Hb). rewrite (H a) by (left; reflexivity). lia.
Qed.

Lemma by_rows_nth xs ys i j x y : nth_error ys i = Some y -> nth_error xs j = Some x ->
  nth_error (by_rows xs ys) (i * List.length xs + j) = Some (x, y).
Proof.
  intros Hi Hj. unfold by_rows. rewrite (nth_error_flat_map _ ys (List.length xs)) with (a := y).
  - rewrite nth_error_map, Hj. reflexivity.
  - intros. apply map_length.
  - exact Hi.
  - apply nth_error_Some. congruence.
Qed.
Lemma by_columns_nth xs ys i j x y : nth_error ys i = Some y -> nth_error xs j = Some x ->
  nth_error (by_columns xs ys) (j * List.length ys + i) = Some (x, y).
Proof.
  intros Hi Hj. unfold by_columns. rewrite (nth_error_flat_map _ xs (List.length ys)) with (a := x).
  - rewrite nth_error_map, Hi. reflexivity.
  - intros. apply map_length.
  - exact Hj.
  - apply nth_error_Some. congruence.
Qed.
Lemma by_rows_length xs ys : List.length (by_rows xs ys) = (List.length ys * List.length xs)%nat.
Proof. apply length_flat. intros. apply map_length. Qed.
Lemma by_columns_length xs ys : List.length (by_columns xs ys) = (List.length xs * List.length ys)%nat.
Proof. apply length_flat. intros. apply map_length. Qed.

Lemma py_get_map {A B} (f : A -> B) l k a : nth_error l k = Some a -> py_get (map f l) (Z.of_nat k) = Ok (f a).
Proof.
  intros H. assert (k < List.length l)%nat by (apply nth_error_Some; congruence).
  unfold py_get, zlen. rewrite map_length. replace (Z.of_nat k <? 0) with false by lia.
  replace ((0 <=? Z.of_nat k) && (Z.of_nat k <? Z.of_nat (List.length l))) with true by lia.
  rewrite Nat2Z.id, nth_error_map, H. reflexivity.
Qed.

Lemma unique_length l xs : monotone xs -> (forall z, In z l <-> In z xs) -> List.length (np_unique l) = List.length xs.
Proof.
  intros H HE. destruct (monotone_two xs H) as (a & b & m & E & _). destruct H as [_ HM].
  pose proof (oriented xs l a b m E HM HE) as HO. rewrite <- HO. destruct (b - a <? 0); [rewrite rev_length|]; reflexivity.
Qed.

Lemma grid_rows xs ys : monotone xs -> monotone ys ->
  get_grid_from_ivecs_final (map fst (by_rows xs ys)) (map snd (by_rows xs ys)) = Ok (xs, ys).
Proof.
  intros Hx Hy. destruct (monotone_two xs Hx) as (x0 & x1 & mx & Ex & Nx). destruct (monotone_two ys Hy) as (y0 & y1 & my & Ey & Ny).
  assert (HXI : forall z, In z (map fst (by_rows xs ys)) <-> In z xs).
  { intros z. rewrite in_map_iff. unfold by_rows. split.
    - intros ((x & y) & <- & H). apply in_flat_map in H. destruct H as (y' & _ & H). apply in_map_iff in H. destruct H as (x' & H & Hin). injection H as <- <-. exact Hin.
    - intros H. exists (z, y0). split; [reflexivity|]. apply in_flat_map. exists y0. split; [rewrite Ey; left; reflexivity|]. apply in_map_iff. exists z. auto. }
  assert (HYI : forall z, In z (map snd (by_rows xs ys)) <-> In z ys).
  { intros z. rewrite in_map_iff. unfold by_rows. split.
    - intros ((x & y) & <- & H). apply in_flat_map in H. destruct H as (y' & Hy' & H). apply in_map_iff in H. destruct H as (x' & H & Hin). injection H as <- <-. exact Hy'.
    - intros H. exists (x0, z). split; [reflexivity|]. apply in_flat_map. exists z. split; [exact H|]. apply in_map_iff. exists x0. split; [reflexivity|rewrite Ex; left; reflexivity]. }
  unfold get_grid_from_ivecs_final. cbv zeta.
  assert (P0 : nth_error (by_rows xs ys) 0 = Some (x0, y0)) by (apply (by_rows_nth xs ys 0 0); [rewrite Ey|rewrite Ex]; reflexivity).
  assert (P1 : nth_error (by_rows xs ys) 1 = Some (x1, y0)) by (apply (by_rows_nth xs ys 0 1); [rewrite Ey|rewrite Ex]; reflexivity).
  assert (Pn : nth_error (by_rows xs ys) (List.length xs) = Some (x0, y1)).
  { replace (List.length xs) with (1 * List.length xs + 0)%nat at 1 by lia. apply by_rows_nth; [rewrite Ey|rewrite Ex]; reflexivity. }
  pose proof (py_get_map fst _ _ _ P0) as A0. pose proof (py_get_map fst _ _ _ P1) as A1.
  pose proof (py_get_map snd _ _ _ P0) as B0. pose proof (py_get_map snd _ _ _ P1) as B1. pose proof (py_get_map snd _ _ _ Pn) as Bn.
  change (Z.of_nat 0) with 0 in *; change (Z.of_nat 1) with 1 in *; cbn [fst snd] in *.
  rewrite A1. cbn [bind]. rewrite A0. cbn [bind]. rewrite B1. cbn [bind]. rewrite B0. cbn [bind].
  replace (x1 =? x0) with false by lia. replace (y0 =? y0) with true by lia.
  unfold zlen at 1. rewrite (unique_length _ xs Hx HXI). rewrite Bn. cbn [bind fst snd].
  rewrite (oriented xs _ x0 x1 mx Ex (proj2 Hx) HXI). rewrite (oriented ys _ y0 y1 my Ey (proj2 Hy) HYI). reflexivity.
Qed.

Lemma grid_columns xs ys : monotone xs -> monotone ys ->
  get_grid_from_ivecs_final (map fst (by_columns xs ys)) (map snd (by_columns xs ys)) = Ok (xs, ys).
Proof.
  intros Hx Hy. destruct (monotone_two xs Hx) as (x0 & x1 & mx & Ex & Nx). destruct (monotone_two ys Hy) as (y0 & y1 & my & Ey & Ny).
  assert (HXI : forall z, In z (map fst (by_columns xs ys)) <-> In z xs).
  { intros z. rewrite in_map_iff. unfold by_columns. split.
    - intros ((x & y) & <- & H). apply in_flat_map in H. destruct H as (x' & Hx' & H). apply in_map_iff in H. destruct H as (y' & H & Hin). injection H as <- <-. exact Hx'.
    - intros H. exists (z, y0). split; [reflexivity|]. apply in_flat_map. exists z. split; [exact H|]. apply in_map_iff. exists y0. split; [reflexivity|rewrite Ey; left; reflexivity]. }
  assert (HYI : forall z, In z (map snd (by_columns xs ys)) <-> In z ys).
  { intros z. rewrite in_map_iff. unfold by_columns. split.
    - intros ((x & y) & <- & H). apply in_flat_map in H. destruct H as (x' & _ & H). apply in_map_iff in H. destruct H as (y' & H & Hin). injection H as <- <-. exact Hin.
    - intros H. exists (x0, z). split; [reflexivity|]. apply in_flat_map. exists x0. split; [rewrite Ex; left; reflexivity|]. apply in_map_iff. exists z. auto. }
  unfold get_grid_from_ivecs_final. cbv zeta.
  assert (P0 : nth_error (by_columns xs ys) 0 = Some (x0, y0)) by (apply (by_columns_nth xs ys 0 0); [rewrite Ey|rewrite Ex]; reflexivity).
  assert (P1 : nth_error (by_columns xs ys) 1 = Some (x0, y1)) by (apply (by_columns_nth xs ys 1 0); [rewrite Ey|rewrite Ex]; reflexivity).
  assert (Pn : nth_error (by_columns xs ys) (List.length ys) = Some (x1, y0)).
  { replace (List.length ys) with (1 * List.length ys + 0)%nat at 1 by lia. apply by_columns_nth; [rewrite Ey|rewrite Ex]; reflexivity. }
  pose proof (py_get_map fst _ _ _ P0) as A0. pose proof (py_get_map fst _ _ _ P1) as A1. pose proof (py_get_map fst _ _ _ Pn) as An.
  pose proof (py_get_map snd _ _ _ P0) as B0. pose proof (py_get_map snd _ _ _ P1) as B1.
  change (Z.of_nat 0) with 0 in *; change (Z.of_nat 1) with 1 in *; cbn [fst snd] in *.
  rewrite A1. cbn [bind]. rewrite A0. cbn [bind]. rewrite B1. cbn [bind]. rewrite B0. cbn [bind].
  replace (x0 =? x0) with true by lia. replace (y1 =? y0) with false by lia.
  unfold zlen at 1. rewrite (unique_length _ ys Hy HYI). rewrite An. cbn [bind fst snd].
  rewrite (oriented xs _ x0 x1 mx Ex (proj2 Hx) HXI). rewrite (oriented ys _ y0 y1 my Ey (proj2 Hy) HYI). reflexivity.
Qed.

Lemma get2_mesh xs ys i j : get2 (fst (meshgrid xs ys)) i j = match nth_error ys i with Some _ => nth_error xs j | None => None end
  /\ get2 (snd (meshgrid xs ys)) i j = match nth_error xs j with Some _ => nth_error ys i | None => None end.
Proof.
  unfold meshgrid, get2. cbn [fst snd]. rewrite !nth_error_map. destruct (nth_error ys i); cbn [option_map].
  - rewrite nth_error_map. split; destruct (nth_error xs j); reflexivity.
  - split; [reflexivity|]. destruct (nth_error xs j); reflexivity.
Qed.

Lemma mesh_shape xs ys : shape (fst (meshgrid xs ys)) (List.length ys) (List.length xs) /\ shape (snd (meshgrid xs ys)) (List.length ys) (List.length xs).
Proof.
  unfold meshgrid, shape. cbn [fst snd]. rewrite !map_length. repeat split; rewrite Forall_map; apply Forall_forall; intros; [reflexivity|apply map_length].
Qed.

(** Gridding keeps every vector at its place: the vectors are given row by row or column by
    column, with increasing or decreasing coordinates; the arrays have one row per [y] and
    one column per [x], and the vector number [k] is found where X and Y are its position. *)
Theorem C47_reshape {V} xs ys (points : list (Z * Z)) (deltaxs deltays : list V) :
  monotone xs -> monotone ys -> points = by_rows xs ys \/ points = by_columns xs ys ->
  List.length deltaxs = List.length points -> List.length deltays = List.length points ->
  exists X Y U W,
    reshape_on_grid_final (map fst points) (map snd points) deltaxs deltays = Ok (X, Y, U, W) /\
    shape X (List.length ys) (List.length xs) /\ shape Y (List.length ys) (List.length xs) /\
    shape U (List.length ys) (List.length xs) /\ shape W (List.length ys) (List.length xs) /\
    (forall i j x y, nth_error ys i = Some y -> nth_error xs j = Some x -> get2 X i j = Some x /\ get2 Y i j = Some y) /\
    (forall k x y u w, nth_error points k = Some (x, y) -> nth_error deltaxs k = Some u -> nth_error deltays k = Some w ->
       exists i j, nth_error ys i = Some y /\ nth_error xs j = Some x /\ get2 U i j = Some u /\ get2 W i j = Some w).
Proof.
  intros Hx Hy HP HU HW.
  destruct (monotone_two xs Hx) as (x0 & x1 & mx & Ex & Nx). destruct (monotone_two ys Hy) as (y0 & y1 & my & Ey & Ny).
  destruct (mesh_shape xs ys) as [SX SY].
  set (nx := List.length xs) in *. set (ny := List.length ys) in *.
  assert (Hnx : (2 <= nx)%nat) by apply Hx. assert (Hny : (2 <= ny)%nat) by apply Hy.
  destruct HP as [HP|HP]; subst points.
  - rewrite by_rows_length in HU, HW. fold nx in HU, HW. fold ny in HU, HW.
    unfold reshape_on_grid_final. rewrite grid_rows by assumption. cbn [bind]. destruct (meshgrid xs ys) as [X Y] eqn:EM.
    assert (P0 : nth_error (by_rows xs ys) 0 = Some (x0, y0)) by (apply (by_rows_nth xs ys 0 0); [rewrite Ey|rewrite Ex]; reflexivity).
    assert (P1 : nth_error (by_rows xs ys) 1 = Some (x1, y0)) by (apply (by_rows_nth xs ys 0 1); [rewrite Ey|rewrite Ex]; reflexivity).
    pose proof (py_get_map fst _ _ _ P0) as A0. pose proof (py_get_map fst _ _ _ P1) as A1.
    pose proof (py_get_map snd _ _ _ P0) as B0. pose proof (py_get_map snd _ _ _ P1) as B1.
    change (Z.of_nat 0) with 0 in *; change (Z.of_nat 1) with 1 in *; cbn [fst snd] in *. cbv zeta.
    rewrite A1. cbn [bind]. rewrite A0. cbn [bind]. rewrite B1. cbn [bind]. rewrite B0. cbn [bind].
    replace (x1 =? x0) with false by lia. replace (y0 =? y0) with true by lia.
    fold nx. fold ny. unfold np_reshape. rewrite HU, HW, Nat.eqb_refl. cbn [bind].
    exists X, Y, (chunks ny nx deltaxs), (chunks ny nx deltays).
    split; [reflexivity|]. split; [exact SX|]. split; [exact SY|]. split; [apply chunks_shape; exact HU|]. split; [apply chunks_shape; exact HW|].
    split.
    + intros i j x y Hi Hj. destruct (get2_mesh xs ys i j) as [G1 G2]. rewrite EM in G1, G2. cbn [fst snd] in G1, G2.
      rewrite G1, G2, Hi, Hj. split; reflexivity.
    + intros k x y u w Hk Hu Hw.
      assert (Hkl : (k < ny * nx)%nat) by (rewrite <- HU; apply nth_error_Some; congruence).
      set (i := (k / nx)%nat). set (j := (k mod nx)%nat).
      assert (Hij : k = (i * nx + j)%nat) by (unfold i, j; rewrite (Nat.mul_comm _ nx); apply Nat.div_mod; lia).
      assert (Hj : (j < nx)%nat) by (apply Nat.mod_upper_bound; lia).
      assert (Hi : (i < ny)%nat) by (apply Nat.div_lt_upper_bound; lia).
      destruct (nth_error ys i) as [y'|] eqn:Eyi; [|apply nth_error_None in Eyi; fold ny in Eyi; lia].
      destruct (nth_error xs j) as [x'|] eqn:Exj; [|apply nth_error_None in Exj; fold nx in Exj; lia].
      pose proof (by_rows_nth xs ys i j x' y' Eyi Exj) as E. fold nx in E. rewrite <- Hij, Hk in E. injection E as <- <-.
      exists i, j. rewrite !get2_chunks by assumption. rewrite <- Hij. auto.
  - rewrite by_columns_length in HU, HW. fold nx in HU, HW. fold ny in HU, HW.
    unfold reshape_on_grid_final. rewrite grid_columns by assumption. cbn [bind]. destruct (meshgrid xs ys) as [X Y] eqn:EM.
    assert (P0 : nth_error (by_columns xs ys) 0 = Some (x0, y0)) by (apply (by_columns_nth xs ys 0 0); [rewrite Ey|rewrite Ex]; reflexivity).
    assert (P1 : nth_error (by_columns xs ys) 1 = Some (x0, y1)) by (apply (by_columns_nth xs ys 1 0); [rewrite Ey|rewrite Ex]; reflexivity).
    pose proof (py_get_map fst _ _ _ P0) as A0. pose proof (py_get_map fst _ _ _ P1) as A1.
    pose proof (py_get_map snd _ _ _ P0) as B0. pose proof (py_get_map snd _ _ _ P1) as B1.
    change (Z.of_nat 0) with 0 in *; change (Z.of_nat 1) with 1 in *; cbn [fst snd] in *. cbv zeta.
    rewrite A1. cbn [bind]. rewrite A0. cbn [bind]. rewrite B1. cbn [bind]. rewrite B0. cbn [bind].
    replace (x0 =? x0) with true by lia. replace (y1 =? y0) with false by lia.
    fold nx. fold ny. unfold np_reshape. rewrite HU, HW, Nat.eqb_refl. cbn [bind].
    destruct (chunks_shape ny nx deltaxs HU) as [SU1 SU2]. destruct (chunks_shape ny nx deltays HW) as [SW1 SW2].
    exists X, Y, (transpose ny (chunks nx ny deltaxs)), (transpose ny (chunks nx ny deltays)).
    split; [reflexivity|]. split; [exact SX|]. split; [exact SY|].
    split; [destruct (transpose_shape ny _ SU2) as [T1 T2]; split; [exact T1|rewrite SU1 in T2; exact T2]|].
    split; [destruct (transpose_shape ny _ SW2) as [T1 T2]; split; [exact T1|rewrite SW1 in T2; exact T2]|].
    split.
    + intros i j x y Hi Hj. destruct (get2_mesh xs ys i j) as [G1 G2]. rewrite EM in G1, G2. cbn [fst snd] in G1, G2.
      rewrite G1, G2, Hi, Hj. split; reflexivity.
    + intros k x y u w Hk Hu Hw.
      assert (Hkl : (k < nx * ny)%nat) by (rewrite <- HU; apply nth_error_Some; congruence).
      set (j := (k / ny)%nat). set (i := (k mod ny)%nat).
      assert (Hij : k = (j * ny + i)%nat) by (unfold i, j; rewrite (Nat.mul_comm _ ny); apply Nat.div_mod; lia).
      assert (Hi : (i < ny)%nat) by (apply Nat.mod_upper_bound; lia).
      assert (Hj : (j < nx)%nat) by (apply Nat.div_lt_upper_bound; lia).
      destruct (nth_error ys i) as [y'|] eqn:Eyi; [|apply nth_error_None in Eyi; fold ny in Eyi; lia].
      destruct (nth_error xs j) as [x'|] eqn:Exj; [|apply nth_error_None in Exj; fold nx in Exj; lia].
      pose proof (by_columns_nth xs ys i j x' y' Eyi Exj) as E. fold ny in E. rewrite <- Hij, Hk in E. injection E as <- <-.
      exists i, j. rewrite !get2_transpose by assumption. rewrite !get2_chunks by assumption. rewrite <- Hij. auto.
Qed.
Print Assumptions C47_reshape.

(** With only one row or one column of vectors, the functions raise IndexError. *)
Lemma py_get_out {A} (l : list A) n : (List.length l <= n)%nat -> py_get l (Z.of_nat n) = Err IndexError.
Proof.
  intros H. unfold py_get, zlen. replace (Z.of_nat n <? 0) with false by lia.
  replace ((0 <=? Z.of_nat n) && (Z.of_nat n <? Z.of_nat (List.length l))) with false by lia. reflexivity.
Qed.

Lemma get01 l (a b : Z) m : l = a :: b :: m -> py_get l 0 = Ok a /\ py_get l 1 = Ok b.
Proof.
  intros ->. unfold py_get, zlen. cbn [List.length]. split.
  - replace (0 <? 0) with false by lia. replace ((0 <=? 0) && (0 <? Z.of_nat (S (S (List.length m))))) with true by lia. reflexivity.
  - replace (1 <? 0) with false by lia. replace ((0 <=? 1) && (1 <? Z.of_nat (S (S (List.length m))))) with true by lia. reflexivity.
Qed.

Theorem C47_one_row_refuted {V} xs y (deltaxs deltays : list V) : monotone xs ->
  reshape_on_grid_final (map fst (by_rows xs [y])) (map snd (by_rows xs [y])) deltaxs deltays = Err IndexError.
Proof.
  intros Hx. destruct (monotone_two xs Hx) as (x0 & x1 & mx & Ex & Nx).
  assert (E1 : map fst (by_rows xs [y]) = xs).
  { cbn. rewrite app_nil_r, map_map. cbn. apply map_id. }
  assert (E2 : map snd (by_rows xs [y]) = map (fun _ => y) xs).
  { cbn. rewrite app_nil_r, map_map. reflexivity. }
  rewrite E1, E2. unfold reshape_on_grid_final, get_grid_from_ivecs_final. cbv zeta.
  assert (G : py_get (map (fun _ : Z => y) xs) (zlen (np_unique xs)) = Err IndexError).
  { unfold zlen. rewrite (unique_length xs xs Hx) by reflexivity. apply py_get_out. rewrite map_length. lia. }
  destruct (get01 xs _ _ _ Ex) as [X0 X1].
  destruct (get01 (map (fun _ : Z => y) xs) y y (map (fun _ : Z => y) mx) ltac:(rewrite Ex; reflexivity)) as [Y0 Y1].
  rewrite X0, X1, Y0, Y1.
  cbn [bind]. replace (x1 =? x0) with false by lia. rewrite Z.eqb_refl. rewrite G. reflexivity.
Qed.
Print Assumptions C47_one_row_refuted.

Theorem C47_one_column_refuted {V} x ys (deltaxs deltays : list V) : monotone ys ->
  reshape_on_grid_final (map fst (by_rows [x] ys)) (map snd (by_rows [x] ys)) deltaxs deltays = Err IndexError.
Proof.
  intros Hy. destruct (monotone_two ys Hy) as (y0 & y1 & my & Ey & Ny).
  assert (E1 : map fst (by_rows [x] ys) = map (fun _ => x) ys).
  { unfold by_rows. clear. induction ys as [|y ys IH]; [reflexivity|]. cbn in *. f_equal. exact IH. }
  assert (E2 : map snd (by_rows [x] ys) = ys).
  { unfold by_rows. clear. induction ys as [|y ys IH]; [reflexivity|]. cbn in *. f_equal. exact IH. }
  rewrite E1, E2. unfold reshape_on_grid_final, get_grid_from_ivecs_final. cbv zeta.
  assert (G : py_get (map (fun _ : Z => x) ys) (zlen (np_unique ys)) = Err IndexError).
  { unfold zlen. rewrite (unique_length ys ys Hy) by reflexivity. apply py_get_out. rewrite map_length. lia. }
  destruct (get01 ys _ _ _ Ey) as [Y0 Y1].
  destruct (get01 (map (fun _ : Z => x) ys) x x (map (fun _ : Z => x) my) ltac:(rewrite Ey; reflexivity)) as [X0 X1].
  rewrite X0, X1, Y0, Y1.
  cbn [bind]. rewrite Z.eqb_refl. replace (y1 =? y0) with false by lia. rewrite G. reflexivity.
Qed.
Print Assumptions C47_one_column_refuted.

(** three columns and two rows, y decreasing, given column by column *)
Example C47_example :
  reshape_on_grid_final [1;1;3;3;5;5] [9;4;9;4;9;4] [10;20;30;40;50;60] [1;2;3;4;5;6]
    = Ok ([[1;3;5];[1;3;5]], [[9;9;9];[4;4;4]], [[10;30;50];[20;40;60]], [[1;3;5];[2;4;6]]) /\
  map fst (by_columns [1;3;5] [9;4]) = [1;1;3;3;5;5] /\ map snd (by_columns [1;3;5] [9;4]) = [9;4;9;4;9;4] /\
  monotone [1;3;5] /\ monotone [9;4].
Proof.
  split; [reflexivity|]. split; [reflexivity|]. split; [reflexivity|]. split; (split; [cbn; lia|]).
  - left. repeat constructor; lia.
  - right. repeat constructor; lia.
Qed.

(** ** C62: orientation of the fields *)

(** the vector [(u, w)] is at the position [(x, y)] in arrays [U] and [W] with columns at
    [xs] and rows at [ys] *)
Definition vector_at {V} (xs ys : list Z) (U W : array2 V) (x y : Z) (u w : V) : Prop :=
  exists i j, nth_error ys i = Some y /\ nth_error xs j = Some x /\ get2 U i j = Some u /\ get2 W i j = Some w.

Lemma nth_error_rev {A} (l : list A) k : (k < List.length l)%nat -> nth_error (rev l) k = nth_error l (List.length l - 1 - k).
Proof.
  intros H. destruct l as [|d l0] eqn:El; [cbn in H; lia|]. rewrite <- El in *.
  rewrite (nth_error_nth' (rev l) d) by (rewrite rev_length; exact H). rewrite (nth_error_nth' l d) by lia.
  f_equal. rewrite rev_nth by exact H. f_equal. lia.
Qed.

Lemma nth_error_lt {A} (l : list A) k a : nth_error l k = Some a -> (k < List.length l)%nat.
Proof. intros H. apply nth_error_Some. congruence. Qed.

Lemma get2_flipud {V} (a : array2 V) i j : (i < List.length a)%nat -> get2 (flipud a) i j = get2 a (List.length a - 1 - i) j.
Proof. intros H. unfold get2, flipud. rewrite nth_error_rev by exact H. reflexivity. Qed.
Lemma get2_fliplr {V} (a : array2 V) n i j : Forall (fun row => List.length row = n) a -> (j < n)%nat -> get2 (fliplr a) i j = get2 a i (n - 1 - j).
Proof.
  intros HA H. unfold get2, fliplr. rewrite nth_error_map. destruct (nth_error a i) as [row|] eqn:E; [|reflexivity]. cbn [option_map].
  rewrite Forall_forall in HA. pose proof (HA row (nth_error_In _ _ E)) as HL. rewrite nth_error_rev by lia. rewrite HL. reflexivity.
Qed.
Lemma flipud_shape {V} (a : array2 V) n0 n1 : shape a n0 n1 -> shape (flipud a) n0 n1.
Proof. intros [H1 H2]. split; [unfold flipud; rewrite rev_length; exact H1|]. unfold flipud. apply Forall_forall. intros r Hr. apply in_rev in Hr. rewrite Forall_forall in H2. auto. Qed.
Lemma fliplr_shape {V} (a : array2 V) n0 n1 : shape a n0 n1 -> shape (fliplr a) n0 n1.
Proof.
  intros [H1 H2]. split; [unfold fliplr; rewrite map_length; exact H1|]. unfold fliplr. rewrite Forall_map. eapply Forall_impl; [|exact H2]. cbn. intros r Hr. rewrite rev_length. exact Hr.
Qed.

Lemma vector_at_fliplr {V} xs ys (U W : array2 V) x y u w n0 : shape U n0 (List.length xs) -> shape W n0 (List.length xs) ->
  vector_at xs ys U W x y u w -> vector_at (rev xs) ys (fliplr U) (fliplr W) x y u w.
Proof.
  intros [_ HU] [_ HW] (i & j & Hi & Hj & Gu & Gw). pose proof (nth_error_lt _ _ _ Hj) as Lj.
  exists i, (List.length xs - 1 - j)%nat. split; [exact Hi|].
  rewrite nth_error_rev by lia. rewrite !(get2_fliplr _ (List.length xs)) by (assumption || lia).
  replace (List.length xs - 1 - (List.length xs - 1 - j))%nat with j by lia. auto.
Qed.
Lemma vector_at_flipud {V} xs ys (U W : array2 V) x y u w n1 : shape U (List.length ys) n1 -> shape W (List.length ys) n1 ->
  vector_at xs ys U W x y u w -> vector_at xs (rev ys) (flipud U) (flipud W) x y u w.
Proof.
  intros [HU _] [HW _] (i & j & Hi & Hj & Gu & Gw). pose proof (nth_error_lt _ _ _ Hi) as Li.
  exists (List.length ys - 1 - i)%nat, j. rewrite nth_error_rev by lia. rewrite !get2_flipud by lia. rewrite HU, HW.
  replace (List.length ys - 1 - (List.length ys - 1 - i))%nat with i by lia. auto.
Qed.

Lemma fliplr_involutive {V} (a : array2 V) : fliplr (fliplr a) = a.
Proof. unfold fliplr. rewrite map_map. rewrite <- (map_id a) at 2. apply map_ext. apply rev_involutive. Qed.
Lemma flipud_involutive {V} (a : array2 V) : flipud (flipud a) = a.
Proof. apply rev_involutive. Qed.

Lemma monotone_cases l a b m : l = a :: b :: m -> increasing l \/ decreasing l -> increasing (if b - a <? 0 then rev l else l).
Proof.
  intros -> [H|H].
  - assert (a < b) by (inversion H as [|? ? _ Hf]; subst; inversion Hf; assumption). replace (b - a <? 0) with false by lia. exact H.
  - assert (b < a) by (inversion H as [|? ? _ Hf]; subst; inversion Hf; assumption). replace (b - a <? 0) with true by lia. apply decreasing_rev. exact H.
Qed.

(** A field has increasing coordinates and, at each position, the vector that was given. *)
Theorem C62_orientation {V} xs ys (U W : array2 V) : monotone xs -> monotone ys ->
  shape U (List.length ys) (List.length xs) -> shape W (List.length ys) (List.length xs) ->
  exists f, make_field xs ys U W = Ok f /\ increasing (fx f) /\ increasing (fy f) /\
    List.length (fx f) = List.length xs /\ List.length (fy f) = List.length ys /\
    shape (vx f) (List.length ys) (List.length xs) /\ shape (vy f) (List.length ys) (List.length xs) /\
    forall x y u w, vector_at (fx f) (fy f) (vx f) (vy f) x y u w <-> vector_at xs ys U W x y u w.
Proof.
  intros Hx Hy SU SW.
  destruct (monotone_two xs Hx) as (x0 & x1 & mx & Ex & Nx). destruct (monotone_two ys Hy) as (y0 & y1 & my & Ey & Ny).
  destruct (get01 _ _ _ _ Ex) as [X0 X1]. destruct (get01 _ _ _ _ Ey) as [Y0 Y1].
  pose proof (monotone_cases _ _ _ _ Ex (proj2 Hx)) as IX. pose proof (monotone_cases _ _ _ _ Ey (proj2 Hy)) as IY.
  unfold make_field. rewrite X0, X1, Y0, Y1. cbn [bind]. eexists. split; [reflexivity|]. cbn [fx fy vx vy].
  split; [exact IX|]. split; [exact IY|].
  split; [destruct (x1 - x0 <? 0); [apply rev_length|reflexivity]|]. split; [destruct (y1 - y0 <? 0); [apply rev_length|reflexivity]|].
  pose proof (fliplr_shape U _ _ SU) as SU'. pose proof (fliplr_shape W _ _ SW) as SW'.
  split; [destruct (x1 - x0 <? 0), (y1 - y0 <? 0); try apply flipud_shape; assumption|].
  split; [destruct (x1 - x0 <? 0), (y1 - y0 <? 0); try apply flipud_shape; assumption|].
  intros x y u w. 
  assert (A : forall V' : bool, vector_at xs ys U W x y u w <-> vector_at (if V' then rev xs else xs) ys (if V' then fliplr U else U) (if V' then fliplr W else W) x y u w).
  { intros [|]; [|reflexivity]. split; intros H.
    - apply (vector_at_fliplr _ _ _ _ _ _ _ _ (List.length ys)); assumption.
    - apply (vector_at_fliplr _ _ _ _ _ _ _ _ (List.length ys)) in H; rewrite ?rev_length; try assumption.
      rewrite rev_involutive, !fliplr_involutive in H. exact H. }
  rewrite (A (x1 - x0 <? 0)). clear A.
  set (xs' := if x1 - x0 <? 0 then rev xs else xs). set (U' := if x1 - x0 <? 0 then fliplr U else U). set (W' := if x1 - x0 <? 0 then fliplr W else W).
  assert (SU2 : shape U' (List.length ys) (List.length xs)) by (unfold U'; destruct (x1 - x0 <? 0); assumption).
  assert (SW2 : shape W' (List.length ys) (List.length xs)) by (unfold W'; destruct (x1 - x0 <? 0); assumption).
  destruct (y1 - y0 <? 0); [|reflexivity]. split; intros H.
  - apply (vector_at_flipud _ _ _ _ _ _ _ _ (List.length xs)) in H; rewrite ?rev_length; try (apply flipud_shape; assumption).
    rewrite rev_involutive, !flipud_involutive in H. exact H.
  - apply (vector_at_flipud _ _ _ _ _ _ _ _ (List.length xs)); assumption.
Qed.
Print Assumptions C62_orientation.

Lemma reshape_mesh {V} xf yf (du dv : list V) xs ys X Y U W : get_grid_from_ivecs_final xf yf = Ok (xs, ys) ->
  reshape_on_grid_final xf yf du dv = Ok (X, Y, U, W) -> (X, Y) = meshgrid xs ys.
Proof.
  intros HG. unfold reshape_on_grid_final. rewrite HG. cbn [bind]. destruct (meshgrid xs ys) as [X' Y'].
  repeat match goal with |- context [bind ?e _] => destruct e; cbn [bind]; try discriminate end;
  repeat match goal with |- context [if ?e then _ else _] => destruct e end; cbn [bind]; try discriminate;
  repeat match goal with |- context [bind ?e _] => destruct e; cbn [bind]; try discriminate end;
  intros E; injection E; intros; subst; reflexivity.
Qed.

(** The field made from the vectors of a PIV result: increasing coordinates, and each
    vector at its position. *)
Theorem C62_from_piv {V} xs ys (points : list (Z * Z)) (deltaxs deltays : list V) :
  monotone xs -> monotone ys -> points = by_rows xs ys \/ points = by_columns xs ys ->
  List.length deltaxs = List.length points -> List.length deltays = List.length points ->
  exists f, field_from_piv (map fst points) (map snd points) deltaxs deltays = Ok f /\
    increasing (fx f) /\ increasing (fy f) /\
    (forall z, In z (fx f) <-> In z xs) /\ (forall z, In z (fy f) <-> In z ys) /\
    shape (vx f) (List.length ys) (List.length xs) /\ shape (vy f) (List.length ys) (List.length xs) /\
    forall k x y u w, nth_error points k = Some (x, y) -> nth_error deltaxs k = Some u -> nth_error deltays k = Some w ->
      vector_at (fx f) (fy f) (vx f) (vy f) x y u w.
Proof.
  intros Hx Hy HP HU HW. destruct (C47_reshape xs ys points deltaxs deltays Hx Hy HP HU HW) as (X & Y & U & W & E & SX & SY & SU & SW & HG & HV).
  unfold field_from_piv. rewrite E. cbn [bind].
  destruct (monotone_two xs Hx) as (x0 & x1 & mx & Ex & Nx). destruct (monotone_two ys Hy) as (y0 & y1 & my & Ey & Ny).
  assert (EM : (X, Y) = meshgrid xs ys).
  { destruct HP as [HP|HP]; subst points; [apply (reshape_mesh _ _ _ _ _ _ _ _ _ _ (grid_rows xs ys Hx Hy) E)|apply (reshape_mesh _ _ _ _ _ _ _ _ _ _ (grid_columns xs ys Hx Hy) E)]. }
  unfold meshgrid in EM. apply pair_equal_spec in EM. destruct EM as [-> ->].
  assert (EX : py_get (map (fun _ => xs) ys) 0 = Ok xs).
  { rewrite Ey. unfold py_get, zlen. cbn [List.length map]. rewrite map_length.
    replace ((0 <=? 0) && (0 <? Z.of_nat (S (S (List.length my))))) with true by lia. reflexivity. }
  assert (EY : fold_right (fun row acc => do v <- py_get row 0 ; do l <- acc ; Ok (v :: l)) (Ok []) (map (fun yv => map (fun _ : Z => yv) xs) ys) = Ok ys).
  { clear - Ex. induction ys as [|y ys IH]; [reflexivity|]. cbn [map fold_right]. rewrite IH, Ex. cbn [map].
    unfold py_get at 1, zlen. cbn [List.length]. rewrite map_length.
    replace ((0 <=? 0) && (0 <? Z.of_nat (S (S (List.length mx))))) with true by lia. reflexivity. }
  rewrite EX. cbn [bind]. rewrite EY. cbn [bind].
  destruct (C62_orientation xs ys U W Hx Hy SU SW) as (f & Ef & IX & IY & LX & LY & SVX & SVY & HF).
  exists f. split; [exact Ef|]. split; [exact IX|]. split; [exact IY|].
  destruct (get01 _ _ _ _ Ex) as [X0 X1]. destruct (get01 _ _ _ _ Ey) as [Y0 Y1].
  unfold make_field in Ef. rewrite X0, X1, Y0, Y1 in Ef. cbn [bind] in Ef.
  assert (FX : fx f = if x1 - x0 <? 0 then rev xs else xs) by (injection Ef as <-; reflexivity).
  assert (FY : fy f = if y1 - y0 <? 0 then rev ys else ys) by (injection Ef as <-; reflexivity).
  split; [intros z; rewrite FX; destruct (x1 - x0 <? 0); [symmetry; apply in_rev|reflexivity]|].
  split; [intros z; rewrite FY; destruct (y1 - y0 <? 0); [symmetry; apply in_rev|reflexivity]|].
  split; [exact SVX|]. split; [exact SVY|].
  intros k x y u w Hk Hu Hw. apply HF. destruct (HV k x y u w Hk Hu Hw) as (i & j & Hij). exists i, j. exact Hij.
Qed.
Print Assumptions C62_from_piv.

(** the vectors of [C47_example]: y is reversed *)
Example C62_example :
  field_from_piv [1;1;3;3;5;5] [9;4;9;4;9;4] [10;20;30;40;50;60] [1;2;3;4;5;6]
    = Ok {| fx := [1;3;5]; fy := [4;9]; vx := [[20;40;60];[10;30;50]]; vy := [[2;4;6];[1;3;5]] |}.
Proof. reflexivity. Qed.

(** ** Extraction *)
Definition well_shaped {V} (f : field V) : Prop :=
  shape (vx f) (List.length (fy f)) (List.length (fx f)) /\ shape (vy f) (List.length (fy f)) (List.length (fx f)).

Lemma get2_extract {V} (a : array2 V) n0 n1 s0 e0 s1 e1 i j : shape a n0 n1 ->
  0 <= s0 <= e0 -> e0 <= Z.of_nat n0 -> 0 <= s1 <= e1 -> e1 <= Z.of_nat n1 -> 0 <= i < e0 - s0 -> 0 <= j < e1 - s1 ->
  get2 (extract2d s0 e0 s1 e1 a) (Z.to_nat i) (Z.to_nat j) = get2 a (Z.to_nat (s0 + i)) (Z.to_nat (s1 + j)).
Proof.
  intros [H0 H1] Hs0 He0 Hs1 He1 Hi Hj. unfold get2, extract2d. rewrite nth_error_map.
  rewrite slice_nth by (unfold zlen; lia). destruct (nth_error a (Z.to_nat (s0 + i))) as [row|] eqn:E; [|reflexivity]. cbn [option_map].
  rewrite Forall_forall in H1. pose proof (H1 row (nth_error_In _ _ E)). apply slice_nth; unfold zlen; lia.
Qed.

Lemma extract_shape {V} (a : array2 V) n0 n1 s0 e0 s1 e1 : shape a n0 n1 ->
  0 <= s0 <= e0 -> e0 <= Z.of_nat n0 -> 0 <= s1 <= e1 -> e1 <= Z.of_nat n1 ->
  shape (extract2d s0 e0 s1 e1 a) (Z.to_nat (e0 - s0)) (Z.to_nat (e1 - s1)).
Proof.
  intros [H0 H1] Hs0 He0 Hs1 He1. unfold extract2d. split.
  - rewrite map_length. pose proof (slice_len a s0 e0). unfold zlen in *. lia.
  - rewrite Forall_map. apply Forall_forall. intros row Hr. rewrite Forall_forall in H1.
    assert (In row a).
    { rewrite slice_in in Hr by (unfold zlen; lia). rewrite <- (firstn_skipn (Z.to_nat s0) a). apply in_or_app. right. rewrite <- (firstn_skipn (Z.to_nat (e0 - s0)) (skipn (Z.to_nat s0) a)). apply in_or_app. left. exact Hr. }
    pose proof (slice_len row s1 e1) as HS. specialize (H1 row H). unfold zlen in *. lia.
Qed.

(** The extraction of rows [s0 .. e0 - 1] and columns [s1 .. e1 - 1]. *)
Theorem C63_extract_indices {V} (f : field V) s0 e0 s1 e1 : well_shaped f ->
  0 <= s0 <= e0 -> e0 <= zlen (fy f) -> 0 <= s1 <= e1 -> e1 <= zlen (fx f) ->
  exists g, extract f s0 e0 s1 e1 false = Ok g /\ well_shaped g /\ zlen (fy g) = e0 - s0 /\ zlen (fx g) = e1 - s1 /\
    (forall i, 0 <= i < e0 - s0 -> nth_error (fy g) (Z.to_nat i) = nth_error (fy f) (Z.to_nat (s0 + i))) /\
    (forall j, 0 <= j < e1 - s1 -> nth_error (fx g) (Z.to_nat j) = nth_error (fx f) (Z.to_nat (s1 + j))) /\
    (forall i j, 0 <= i < e0 - s0 -> 0 <= j < e1 - s1 ->
       get2 (vx g) (Z.to_nat i) (Z.to_nat j) = get2 (vx f) (Z.to_nat (s0 + i)) (Z.to_nat (s1 + j)) /\
       get2 (vy g) (Z.to_nat i) (Z.to_nat j) = get2 (vy f) (Z.to_nat (s0 + i)) (Z.to_nat (s1 + j))).
Proof.
  intros [SU SW] Hs0 He0 Hs1 He1. unfold extract. cbn [bind]. eexists. split; [reflexivity|]. cbn [fx fy vx vy].
  assert (L0 : zlen (py_slice (fy f) s0 e0) = e0 - s0) by (apply slice_len; assumption).
  assert (L1 : zlen (py_slice (fx f) s1 e1) = e1 - s1) by (apply slice_len; assumption).
  split.
  { split; cbn [fx fy vx vy]; unfold zlen in *; replace (List.length (py_slice (fy f) s0 e0)) with (Z.to_nat (e0 - s0)) by lia;
      replace (List.length (py_slice (fx f) s1 e1)) with (Z.to_nat (e1 - s1)) by lia; eapply extract_shape; eauto. }
  split; [exact L0|]. split; [exact L1|]. split; [intros i Hi; apply slice_nth; assumption|]. split; [intros j Hj; apply slice_nth; assumption|].
  intros i j Hi Hj. unfold zlen in *. split; eapply get2_extract; eauto.
Qed.
Print Assumptions C63_extract_indices.

(** ** C48 *)

(** For fields with at least as many columns as rows: a square, with the size asked for,
    inside the field, and centred. *)
Theorem C48_square_partial {V} (f : field V) cut (force_even : bool) :
  let n0 := zlen (fy f) in let n1 := zlen (fx f) in
  well_shaped f -> n0 <= n1 -> 0 <= cut -> 2 * cut <= n0 ->
  let n := if force_even then 2 * ((n0 - 2 * cut) / 2) else n0 - 2 * cut in
  exists g s0 s1, extract_square f cut force_even = Ok g /\ well_shaped g /\ zlen (fy g) = n /\ zlen (fx g) = n /\
    0 <= s0 /\ s0 + n <= n0 /\ 0 <= s1 /\ s1 + n <= n1 /\
    0 <= (n1 - (s1 + n)) - s1 <= 1 /\ 0 <= (n0 - (s0 + n)) - s0 <= 1 /\
    (forall i, 0 <= i < n -> nth_error (fy g) (Z.to_nat i) = nth_error (fy f) (Z.to_nat (s0 + i))) /\
    (forall j, 0 <= j < n -> nth_error (fx g) (Z.to_nat j) = nth_error (fx f) (Z.to_nat (s1 + j))) /\
    (forall i j, 0 <= i < n -> 0 <= j < n ->
       get2 (vx g) (Z.to_nat i) (Z.to_nat j) = get2 (vx f) (Z.to_nat (s0 + i)) (Z.to_nat (s1 + j)) /\
       get2 (vy g) (Z.to_nat i) (Z.to_nat j) = get2 (vy f) (Z.to_nat (s0 + i)) (Z.to_nat (s1 + j))).
Proof.
  cbv zeta. intros WF H01 Hc H2c. set (n0 := zlen (fy f)) in *. set (n1 := zlen (fx f)) in *.
  set (n := if force_even then 2 * ((n0 - 2 * cut) / 2) else n0 - 2 * cut).
  assert (En : (if force_even && ((Z.min n0 n1 - 2 * cut) mod 2 =? 1) then Z.min n0 n1 - 2 * cut - 1 else Z.min n0 n1 - 2 * cut) = n).
  { rewrite Z.min_l by lia. unfold n. destruct force_even; cbn [andb]; [|reflexivity].
    destruct ((n0 - 2 * cut) mod 2 =? 1) eqn:E; Z.div_mod_to_equations; lia. }
  assert (Hn : n0 - 2 * cut - 1 <= n <= n0 - 2 * cut /\ 0 <= n).
  { unfold n. destruct force_even; Z.div_mod_to_equations; lia. }
  unfold extract_square, square_bounds. fold n0. fold n1. cbv zeta. rewrite En. clear En. clearbody n.
  destruct (n0 <? n1) eqn:E.
  - assert (Hd : 0 <= n1 - n - 2 * ((n1 - n) / 2) <= 1) by (Z.div_mod_to_equations; lia).
    destruct (C63_extract_indices f cut (cut + n) ((n1 - n) / 2) ((n1 - n) / 2 + n) WF) as (g & Eg & WG & L0 & L1 & C0 & C1 & CV); fold n0; fold n1; try lia.
    exists g, cut, ((n1 - n) / 2).
    replace (cut + n - cut) with n in * by lia. replace ((n1 - n) / 2 + n - (n1 - n) / 2) with n in * by lia.
    repeat (split; [first [assumption | lia]|]). assumption.
  - assert (E01 : n0 = n1) by lia.
    assert (Hd : (n0 - n) / 2 = cut) by (Z.div_mod_to_equations; lia). rewrite Hd.
    destruct (C63_extract_indices f cut (cut + n) cut (cut + n) WF) as (g & Eg & WG & L0 & L1 & C0 & C1 & CV); fold n0; fold n1; try lia.
    exists g, cut, cut. replace (cut + n - cut) with n in * by lia.
    repeat (split; [first [assumption | lia]|]). assumption.
Qed.
Print Assumptions C48_square_partial.

(** With more rows than columns the last row is computed from the first column: the result
    has [n] columns but only [cut + n - (n0 - n) // 2] rows, or none.  It is a square only
    if the field was nearly a square. *)
Theorem C48_square_refuted {V} (f : field V) cut (force_even : bool) :
  let n0 := zlen (fy f) in let n1 := zlen (fx f) in
  well_shaped f -> n1 < n0 -> 0 <= cut -> 2 * cut <= n1 ->
  let n := if force_even then 2 * ((n1 - 2 * cut) / 2) else n1 - 2 * cut in
  exists g, extract_square f cut force_even = Ok g /\
    zlen (fx g) = n /\ zlen (fy g) = Z.max 0 (cut + n - (n0 - n) / 2) /\
    (0 < n -> (zlen (fx g) = zlen (fy g) <-> n0 - n <= 2 * cut + 1)).
Proof.
  cbv zeta. intros WF H01 Hc H2c. set (n0 := zlen (fy f)) in *. set (n1 := zlen (fx f)) in *.
  set (n := if force_even then 2 * ((n1 - 2 * cut) / 2) else n1 - 2 * cut).
  assert (En : (if force_even && ((Z.min n0 n1 - 2 * cut) mod 2 =? 1) then Z.min n0 n1 - 2 * cut - 1 else Z.min n0 n1 - 2 * cut) = n).
  { rewrite Z.min_r by lia. unfold n. destruct force_even; cbn [andb]; [|reflexivity].
    destruct ((n1 - 2 * cut) mod 2 =? 1) eqn:E; Z.div_mod_to_equations; lia. }
  assert (Hn : n1 - 2 * cut - 1 <= n <= n1 - 2 * cut /\ 0 <= n).
  { unfold n. destruct force_even; Z.div_mod_to_equations; lia. }
  unfold extract_square, square_bounds. fold n0. fold n1. cbv zeta. rewrite En. clear En. clearbody n.
  replace (n0 <? n1) with false by lia. unfold extract. cbn [bind]. eexists. split; [reflexivity|]. cbn [fx fy].
  assert (L1 : zlen (py_slice (fx f) cut (cut + n)) = n) by (rewrite slice_len; fold n1; lia).
  assert (Hd : 0 <= n0 - n - 2 * ((n0 - n) / 2) <= 1) by (Z.div_mod_to_equations; lia).
  assert (L0 : zlen (py_slice (fy f) ((n0 - n) / 2) (cut + n)) = Z.max 0 (cut + n - (n0 - n) / 2)).
  { destruct (Z.le_gt_cases ((n0 - n) / 2) (cut + n)) as [H|H].
    - rewrite slice_len; fold n0; lia.
    - unfold py_slice, norm_bound. replace ((n0 - n) / 2 <? 0) with false by lia. replace (cut + n <? 0) with false by lia.
      fold n0. rewrite !Z.min_l by lia. replace (Z.to_nat (cut + n - (n0 - n) / 2)) with 0%nat by lia. cbn. lia. }
  split; [exact L1|]. split; [exact L0|]. intros Hpos. rewrite L1, L0. lia.
Qed.
Print Assumptions C48_square_refuted.

Definition field_of (n0 n1 : Z) : field Z :=
  {| fx := range0 n1; fy := range0 n0; vx := map (fun i => map (fun j => 100 * i + j) (range0 n1)) (range0 n0);
     vy := map (fun i => map (fun j => i - j) (range0 n1)) (range0 n0) |}.

Example C48_example :
  (exists g, extract_square (field_of 4 7) 1 true = Ok g /\ fx g = [2; 3] /\ fy g = [1; 2] /\ vx g = [[102; 103]; [202; 203]]) /\
  (exists g, extract_square (field_of 10 4) 0 true = Ok g /\ fx g = [0; 1; 2; 3] /\ fy g = [3] /\ vx g = [[300; 301; 302; 303]]).
Proof. split; eexists; repeat split; vm_compute; reflexivity. Qed.
Example C48_example_hypotheses : well_shaped (field_of 4 7) /\ zlen (fy (field_of 4 7)) = 4 /\ zlen (fx (field_of 4 7)) = 7.
Proof. repeat split; repeat constructor. Qed.

(** ** C63: truncation and physical bounds *)
Theorem C63_truncate {V} (f : field V) cut : well_shaped f -> 0 <= cut -> 2 * cut <= zlen (fy f) -> 2 * cut <= zlen (fx f) ->
  exists g, truncate f cut = Ok g /\ well_shaped g /\ zlen (fy g) = zlen (fy f) - 2 * cut /\ zlen (fx g) = zlen (fx f) - 2 * cut /\
    forall i j, 0 <= i < zlen (fy g) -> 0 <= j < zlen (fx g) ->
      nth_error (fy g) (Z.to_nat i) = nth_error (fy f) (Z.to_nat (cut + i)) /\
      nth_error (fx g) (Z.to_nat j) = nth_error (fx f) (Z.to_nat (cut + j)) /\
      get2 (vx g) (Z.to_nat i) (Z.to_nat j) = get2 (vx f) (Z.to_nat (cut + i)) (Z.to_nat (cut + j)) /\
      get2 (vy g) (Z.to_nat i) (Z.to_nat j) = get2 (vy f) (Z.to_nat (cut + i)) (Z.to_nat (cut + j)).
Proof.
  intros WF H1 H2 H3. unfold truncate.
  destruct (C63_extract_indices f cut (zlen (fy f) - cut) cut (zlen (fx f) - cut) WF) as (g & Eg & WG & L0 & L1 & C0 & C1 & CV); try lia.
  exists g. split; [exact Eg|]. split; [exact WG|]. split; [lia|]. split; [lia|]. intros i j Hi Hj.
  split; [apply C0; lia|]. split; [apply C1; lia|]. apply CV; lia.
Qed.
Print Assumptions C63_truncate.

Definition within (lo hi v : Z) : bool := (lo <=? v) && (v <=? hi).

Lemma three_parts lo hi l : increasing l -> lo <= hi ->
  exists a b c, l = a ++ b ++ c /\ Forall (fun v => v < lo) a /\ Forall (fun v => lo <= v <= hi) b /\ Forall (fun v => hi < v) c.
Proof.
  intros HS Hlh. induction HS as [|v l HS IH Hf]; [exists [], [], []; repeat split; constructor|].
  destruct IH as (a & b & c & El & Ha & Hb & Hc).
  destruct (Z.lt_ge_cases v lo) as [H|H].
  { exists (v :: a), b, c. split; [cbn; congruence|]. repeat split; auto. }
  assert (a = []).
  { destruct a as [|z a]; [reflexivity|]. exfalso. rewrite El in Hf. inversion Hf; subst. inversion Ha; subst. lia. }
  subst a. cbn in El. destruct (Z.le_gt_cases v hi) as [H'|H'].
  { exists [], (v :: b), c. split; [cbn; congruence|]. repeat split; auto. }
  assert (b = []).
  { destruct b as [|z b]; [reflexivity|]. exfalso. rewrite El in Hf. inversion Hf; subst. inversion Hb; subst. lia. }
  subst b. exists [], [], (v :: c). cbn. split; [cbn in El; congruence|]. repeat split; auto.
Qed.

Lemma filter_none lo hi l : Forall (fun v => v < lo \/ hi < v) l -> filter (within lo hi) l = [].
Proof. induction 1 as [|v l H _ IH]; [reflexivity|]. cbn. unfold within at 1. replace ((lo <=? v) && (v <=? hi)) with false by lia. exact IH. Qed.
Lemma filter_all lo hi l : Forall (fun v => lo <= v <= hi) l -> filter (within lo hi) l = l.
Proof. induction 1 as [|v l H _ IH]; [reflexivity|]. cbn. unfold within at 1. replace ((lo <=? v) && (v <=? hi)) with true by lia. rewrite IH. reflexivity. Qed.

Lemma index_of_app v a l : ~ In v a -> index_of v (a ++ v :: l) = Ok (zlen a).
Proof.
  induction a as [|w a IH]; intros H; cbn [app index_of].
  - rewrite Z.eqb_refl. reflexivity.
  - destruct (w =? v) eqn:E; [exfalso; apply H; left; lia|]. rewrite IH by (intro; apply H; right; assumption). cbn [bind].
    unfold zlen. cbn [List.length]. f_equal. lia.
Qed.

Lemma sorted_min a l : increasing (a :: l) -> fold_left Z.min l a = a.
Proof.
  intros H. inversion H as [|? ? _ Hf]; subst. clear H. induction Hf as [|b l Hb _ IH]; [reflexivity|]. cbn. rewrite Z.min_l by lia. exact IH.
Qed.
Lemma sorted_max l : forall a, increasing (a :: l) -> forall b m, a :: l = m ++ [b] -> fold_left Z.max l a = b.
Proof.
  induction l as [|z l IH]; intros a H b m E; cbn.
  - destruct m as [|? [|? ?]]; inversion E. reflexivity.
  - inversion H as [|? ? H2 Hf]; subst. inversion Hf; subst. rewrite Z.max_r by lia. destruct m as [|a' m]; [discriminate|].
    injection E as -> E. apply (IH z H2 b m E).
Qed.

Lemma phys_bounds_spec lo hi l : increasing l ->
  match filter (within lo hi) l with
  | [] => phys_bounds l lo hi = Err ValueError
  | b => exists s e, phys_bounds l lo hi = Ok (s, e) /\ 0 <= s <= e /\ e <= zlen l /\ py_slice l s e = b /\
           forall i v, 0 <= i -> nth_error l (Z.to_nat i) = Some v -> (within lo hi v = true <-> s <= i < e)
  end.
Proof.
  intros HS. destruct (Z.le_gt_cases lo hi) as [Hlh|Hlh].
  2:{ replace (filter (within lo hi) l) with (@nil Z).
      - unfold phys_bounds. cbv zeta. fold (within lo hi). rewrite filter_none; [reflexivity|]. apply Forall_forall. intros. lia.
      - symmetry. apply filter_none. apply Forall_forall. intros. lia. }
  destruct (three_parts lo hi l HS Hlh) as (a & b & c & El & Ha & Hb & Hc).
  assert (EF : filter (within lo hi) l = b).
  { rewrite El, !filter_app, (filter_all lo hi b) by exact Hb. rewrite (filter_none lo hi c), (filter_none lo hi a), app_nil_r; [reflexivity| |].
    - eapply Forall_impl; [|exact Ha]. cbn. lia.
    - eapply Forall_impl; [|exact Hc]. cbn. lia. }
  rewrite EF. unfold phys_bounds. cbv zeta. change (fun v => (lo <=? v) && (v <=? hi)) with (within lo hi). rewrite EF.
  destruct b as [|m b']; [reflexivity|].
  assert (HNE : m :: b' <> []) by discriminate.
  assert (Sb : increasing (m :: b')).
  { clear - HS El. subst l. induction a as [|z a IH]; cbn in HS; [|inversion HS; subst; apply IH; assumption].
    clear - HS. change (m :: b' ++ c) with ((m :: b') ++ c) in HS. revert HS. generalize (m :: b'). induction l as [|z l IH]; intros H; [constructor|].
    cbn in H. inversion H as [|? ? H1 H2]; subst. constructor; [apply IH; exact H1|]. apply Forall_app in H2. apply H2. }
  destruct (exists_last HNE) as (m2 & mx & Em2).
  assert (Hmin : list_min (m :: b') = Ok m) by (unfold list_min; rewrite sorted_min by exact Sb; reflexivity).
  assert (Hmax : list_max (m :: b') = Ok mx) by (unfold list_max; rewrite (sorted_max _ _ Sb mx m2 Em2); reflexivity).
  assert (I1 : index_of m l = Ok (zlen a)).
  { rewrite El. cbn [app]. apply index_of_app. intros H. rewrite Forall_forall in Ha, Hb. specialize (Ha m H). specialize (Hb m (or_introl eq_refl)). lia. }
  assert (I2 : index_of mx l = Ok (zlen (a ++ m2))).
  { rewrite El, Em2. rewrite <- !app_assoc. cbn [app]. rewrite app_assoc. apply index_of_app. intros H. apply in_app_or in H. destruct H as [H|H].
    - rewrite Forall_forall in Ha, Hb. specialize (Ha mx H). specialize (Hb mx ltac:(rewrite Em2; apply in_or_app; right; left; reflexivity)). lia.
    - clear - Sb Em2 H. rewrite Em2 in Sb. clear Em2. induction m2 as [|z m2 IH]; [destruct H|]. cbn in Sb. inversion Sb as [|? ? S1 S2]; subst.
      destruct H as [->|H]; [|apply IH; assumption]. rewrite Forall_forall in S2. specialize (S2 mx ltac:(apply in_or_app; right; left; reflexivity)). lia. }
  rewrite Hmin. cbn [bind]. rewrite I1. cbn [bind]. rewrite Hmax. cbn [bind]. rewrite I2. cbn [bind].
  assert (Lb : zlen (a ++ m2) + 1 = zlen a + zlen (m :: b')).
  { rewrite Em2. unfold zlen. rewrite !app_length. cbn. lia. }
  assert (Ll : zlen l = zlen a + zlen (m :: b') + zlen c).
  { rewrite El. unfold zlen. rewrite !app_length. lia. }
  exists (zlen a), (zlen (a ++ m2) + 1). split; [reflexivity|]. rewrite Lb.
  assert (0 <= zlen a /\ 0 <= zlen (m :: b') /\ 0 <= zlen c) as (? & ? & ?) by (unfold zlen; lia).
  split; [lia|]. split; [lia|]. split.
  - rewrite slice_in by lia. rewrite El. replace (Z.to_nat (zlen a)) with (List.length a) by (unfold zlen; lia).
    rewrite skipn_app, Nat.sub_diag, skipn_all. cbn [app skipn]. change (m :: b' ++ c) with ((m :: b') ++ c).
    replace (Z.to_nat (zlen a + zlen (m :: b') - zlen a)) with (List.length (m :: b')) by (unfold zlen; lia).
    rewrite firstn_app, Nat.sub_diag, firstn_all. cbn [firstn]. apply app_nil_r.
  - intros i v Hi Hv. rewrite El in Hv. unfold within. unfold zlen in *.
    destruct (Z.lt_ge_cases i (Z.of_nat (List.length a))) as [H3|H3].
    { rewrite nth_error_app1 in Hv by lia. apply nth_error_In in Hv. rewrite Forall_forall in Ha. specialize (Ha v Hv). lia. }
    rewrite nth_error_app2 in Hv by lia.
    destruct (Z.lt_ge_cases i (Z.of_nat (List.length a) + Z.of_nat (List.length (m :: b')))) as [H4|H4].
    { rewrite nth_error_app1 in Hv by lia. apply nth_error_In in Hv. rewrite Forall_forall in Hb. specialize (Hb v Hv). lia. }
    rewrite nth_error_app2 in Hv by lia. apply nth_error_In in Hv. rewrite Forall_forall in Hc. specialize (Hc v Hv). lia.
Qed.

(** With physical bounds: exactly the points of the field inside the bounds (bounds
    included), each with its vector; ValueError if there is none. *)
Theorem C63_extract_phys {V} (f : field V) lo0 hi0 lo1 hi1 : well_shaped f -> increasing (fx f) -> increasing (fy f) ->
  let xs := filter (within lo1 hi1) (fx f) in
  let ys := filter (within lo0 hi0) (fy f) in
  (xs = [] \/ ys = [] -> extract f lo0 hi0 lo1 hi1 true = Err ValueError) /\
  (xs <> [] -> ys <> [] -> exists g, extract f lo0 hi0 lo1 hi1 true = Ok g /\ well_shaped g /\ fx g = xs /\ fy g = ys /\
     forall x y u w, vector_at (fx g) (fy g) (vx g) (vy g) x y u w <->
       (vector_at (fx f) (fy f) (vx f) (vy f) x y u w /\ lo1 <= x <= hi1 /\ lo0 <= y <= hi0)).
Proof.
  cbv zeta. intros WF IX IY. pose proof (phys_bounds_spec lo1 hi1 _ IX) as BX. pose proof (phys_bounds_spec lo0 hi0 _ IY) as BY.
  destruct (filter (within lo0 hi0) (fy f)) as [|yb yl] eqn:EY.
  { split; [intros _; unfold extract; rewrite BY; reflexivity|]. intros _ H. destruct (H eq_refl). }
  destruct BY as (s0 & e0 & BY & Hs0 & He0 & Sy & Iy).
  destruct (filter (within lo1 hi1) (fx f)) as [|xb xl] eqn:EX.
  { split; [intros _; unfold extract; rewrite BY; cbn [bind]; rewrite BX; reflexivity|]. intros H. destruct (H eq_refl). }
  destruct BX as (s1 & e1 & BX & Hs1 & He1 & Sx & Ix).
  split; [intros [H|H]; discriminate|]. intros _ _.
  destruct (C63_extract_indices f s0 e0 s1 e1 WF Hs0 He0 Hs1 He1) as (g & Eg & WG & L0 & L1 & C0 & C1 & CV).
  exists g. unfold extract in *. rewrite BY. cbn [bind]. rewrite BX. cbn [bind] in *. split; [exact Eg|]. split; [exact WG|].
  assert (FX : fx g = xb :: xl) by (injection Eg as <-; exact Sx).
  assert (FY : fy g = yb :: yl) by (injection Eg as <-; exact Sy).
  split; [exact FX|]. split; [exact FY|]. clear Eg. unfold zlen in *.
  intros x y u w. split.
  - intros (i & j & Hi & Hj & Hu & Hw). pose proof (nth_error_lt _ _ _ Hi) as Li. pose proof (nth_error_lt _ _ _ Hj) as Lj.
    assert (Bi : 0 <= Z.of_nat i < e0 - s0) by lia. assert (Bj : 0 <= Z.of_nat j < e1 - s1) by lia.
    pose proof (C0 _ Bi) as Gy. pose proof (C1 _ Bj) as Gx. destruct (CV _ _ Bi Bj) as [Gu Gw]. rewrite !Nat2Z.id in *.
    rewrite Hi in Gy. rewrite Hj in Gx. rewrite Hu in Gu. rewrite Hw in Gw.
    split; [exists (Z.to_nat (s0 + Z.of_nat i)), (Z.to_nat (s1 + Z.of_nat j)); auto|].
    pose proof (proj2 (Ix (s1 + Z.of_nat j) x ltac:(lia) ltac:(congruence)) ltac:(lia)) as W1.
    pose proof (proj2 (Iy (s0 + Z.of_nat i) y ltac:(lia) ltac:(congruence)) ltac:(lia)) as W2. unfold within in *. lia.
  - intros ((i & j & Hi & Hj & Hu & Hw) & Hbx & Hby).
    pose proof (proj1 (Ix (Z.of_nat j) x ltac:(lia) ltac:(rewrite Nat2Z.id; assumption)) ltac:(unfold within; lia)) as B1.
    pose proof (proj1 (Iy (Z.of_nat i) y ltac:(lia) ltac:(rewrite Nat2Z.id; assumption)) ltac:(unfold within; lia)) as B0.
    exists (Z.to_nat (Z.of_nat i - s0)), (Z.to_nat (Z.of_nat j - s1)).
    rewrite C0, C1 by lia. destruct (CV (Z.of_nat i - s0) (Z.of_nat j - s1) ltac:(lia) ltac:(lia)) as [-> ->].
    replace (Z.to_nat (s0 + (Z.of_nat i - s0))) with i by lia. replace (Z.to_nat (s1 + (Z.of_nat j - s1))) with j by lia. auto.
Qed.
Print Assumptions C63_extract_phys.

Example C63_example :
  extract (field_of 4 7) 1 2 3 9 true = Ok {| fx := [3;4;5;6]; fy := [1;2]; vx := [[103;104;105;106];[203;204;205;206]]; vy := [[-2;-3;-4;-5];[-1;-2;-3;-4]] |} /\
  extract (field_of 4 7) 1 2 7 9 true = Err ValueError.
Proof. split; reflexivity. Qed.

(** C136: the points of the figures which check a direct calibration. *)
From Coq Require Import ZArith List Lia.
From Verif Require Import PyBase CheckInterpModel.
Import ListNotations.
Open Scope Z_scope.

(** *** Specification *)

(** [l]: the multiples of [step] in the image, from the first pixel, in increasing order *)
Definition every (n step : Z) (l : list Z) : Prop :=
  (forall k, 0 <= k -> nth_error l (Z.to_nat k) = if k * step <? n then Some (k * step) else None).

(** [t]: for each ordinate in [ys] one row with for each abscissa in [xs] the value at this pixel *)
Definition table {V} (value : Z * Z -> V) (xs ys : list Z) (t : list (list V)) : Prop :=
  Forall2 (fun y row => Forall2 (fun x v => v = value (x, y)) xs row) ys t.

(** *** The samples *)

Lemma nth_range0 n k : 0 <= k -> nth_error (range0 n) (Z.to_nat k) = if k <? n then Some k else None.
Proof.
  intros Hk. unfold range0. destruct (Z.ltb_spec k n).
  - rewrite nth_error_map, (nth_error_nth' _ 0%nat) by (rewrite seq_length; lia). rewrite seq_nth by lia. cbn. f_equal. lia.
  - apply nth_error_None. rewrite map_length, seq_length. lia.
Qed.

Lemma ceil_spec n s k : 0 < s -> k < (n + s - 1) / s <-> k * s < n.
Proof.
  intros Hs. split; intros H.
  - assert (k + 1 <= (n + s - 1) / s) by lia. assert (s * ((n + s - 1) / s) <= n + s - 1) by (apply Z.mul_div_le; lia). nia.
  - apply Z.lt_le_trans with (k + 1); [lia|]. apply Z.div_le_lower_bound; nia.
Qed.

Lemma range_step_every n s : 0 < s -> exists l, range_step n s = Ok l /\ every n s l /\ zlen l = Z.max 0 ((n + s - 1) / s).
Proof.
  intros Hs. unfold range_step. replace (s =? 0) with false by lia. replace (s <? 0) with false by lia.
  eexists. split; [reflexivity|]. split.
  - intros k Hk. rewrite nth_error_map, nth_range0 by exact Hk. pose proof (ceil_spec n s k Hs).
    destruct (Z.ltb_spec k ((n + s - 1) / s)), (Z.ltb_spec (k * s) n); try reflexivity; lia.
  - unfold zlen, range0. rewrite !map_length, seq_length. lia.
Qed.

(** An image with at least [number] pixels in a direction: the pixels used are all the multiples of a
    step, from the first one; they are at least [number] and less than twice [number]. *)
Theorem C136_sample : forall n number, 0 < number -> number <= n ->
  exists l, sample n number = Ok l /\ every n (n / number) l /\ number <= zlen l < 2 * number.
Proof.
  intros n number Hp Hn. unfold sample. replace (number =? 0) with false by lia.
  assert (Hs : 1 <= n / number) by (apply Z.div_le_lower_bound; lia).
  destruct (range_step_every n (n / number)) as (l & E & Hl & L); [lia|]. exists l. split; [exact E|]. split; [exact Hl|].
  rewrite L. set (s := n / number) in *. pose proof (Z.div_mod n number ltac:(lia)) as D. fold s in D.
  pose proof (Z.mod_pos_bound n number Hp) as B.
  assert (C1 : number <= (n + s - 1) / s) by (apply Z.div_le_lower_bound; nia).
  assert (C2 : (n + s - 1) / s < 2 * number) by (apply Z.div_lt_upper_bound; nia). lia.
Qed.

(** The number of pixels used is the number asked for if and only if it divides the size. *)
Theorem C136_number_iff : forall n number, 0 < number -> number <= n ->
  ((exists l, sample n number = Ok l /\ zlen l = number) <-> n mod number = 0).
Proof.
  intros n number Hp Hn. unfold sample. replace (number =? 0) with false by lia.
  assert (Hs : 1 <= n / number) by (apply Z.div_le_lower_bound; lia).
  destruct (range_step_every n (n / number)) as (l & E & Hl & L); [lia|]. rewrite E.
  pose proof (Z.div_mod n number ltac:(lia)) as D. pose proof (Z.mod_pos_bound n number Hp) as B.
  set (s := n / number) in *. set (q := n mod number) in *.
  assert (C1 : number <= (n + s - 1) / s) by (apply Z.div_le_lower_bound; nia).
  pose proof (ceil_spec n s number ltac:(lia)) as K.
  split.
  - intros (l' & E' & L'). injection E' as <-. assert (~ number * s < n) by (intros X; apply K in X; lia). nia.
  - intros Q. exists l. split; [reflexivity|]. assert (~ number < (n + s - 1) / s) by (intros X; apply K in X; nia). lia.
Qed.

(** Fewer pixels than [number] in one direction: ValueError (the step is zero) and no figure. *)
Theorem C136_sample_error_iff : forall n number, 0 < n -> 0 <= number ->
  (sample n number = Err ValueError <-> n < number) /\ (sample n number = Err ZeroDivisionError <-> number = 0).
Proof.
  intros n number Hn Hp. unfold sample. destruct (Z.eqb_spec number 0) as [->|Hz].
  { repeat split; intros; try reflexivity; try discriminate; lia. }
  destruct (Z_lt_le_dec n number) as [L|L].
  - rewrite Z.div_small by lia. cbn. repeat split; intros; try reflexivity; try discriminate; try lia.
  - assert (Hs : 1 <= n / number) by (apply Z.div_le_lower_bound; lia).
    destruct (range_step_every n (n / number)) as (l & -> & _); [lia|]. repeat split; intros; try discriminate; lia.
Qed.

(** A negative [number] is accepted: no pixel is used. *)
Theorem C136_negative : forall n number, 0 < n -> number < 0 -> sample n number = Ok [].
Proof.
  intros n number Hn Hp. unfold sample, range_step. replace (number =? 0) with false by lia.
  pose proof (Z.div_mod n number ltac:(lia)) as D. pose proof (Z.mod_neg_bound n number Hp) as B.
  set (s := n / number) in *. set (q := n mod number) in *.
  assert (S : s < 0) by nia. assert (L : - s <= n) by nia.
  replace (s =? 0) with false by lia. replace (s <? 0) with true by lia.
  assert (C : (- n + - s - 1) / - s < 0) by (apply Z.div_lt_upper_bound; lia).
  unfold range0. replace (Z.to_nat _) with 0%nat by lia. reflexivity.
Qed.

(** *** The figures *)

Lemma table_row {V} (value : Z * Z -> V) xs y : Forall2 (fun x v => v = value (x, y)) xs (map value (combine xs (map (fun _ => y) xs))).
Proof. induction xs; cbn; constructor; auto. Qed.

Lemma call_table {V} (interp : nat -> Z * Z -> V) i xs ys :
  table (interp i) xs ys (call_arrays V interp i (fst (meshgrid xs ys)) (snd (meshgrid xs ys))).
Proof.
  unfold table, call_arrays, meshgrid. cbn [fst snd]. induction ys as [|y ys IH]; cbn; constructor; [apply table_row|exact IH].
Qed.

Lemma nth_const {A B} (l : list A) (b d : B) r : (r < List.length l)%nat -> nth r (map (fun _ => b) l) d = b.
Proof. revert r. induction l as [|a l IH]; intros [|r] H; cbn in *; try lia; [reflexivity|apply IH; lia]. Qed.

Lemma map_nth_seq {A} (l : list A) d : map (fun c => nth c l d) (seq 0 (List.length l)) = l.
Proof.
  induction l as [|a l IH]; [reflexivity|]. cbn [List.length seq map nth]. f_equal. rewrite <- seq_shift, map_map. exact IH.
Qed.

(** the array filled by the two loops is the one given by a call with the arrays of pixels *)
Lemma loops_call {V} (interp : nat -> Z * Z -> V) i xs ys :
  map (fun r => map (fun c => interp i (nth c (nth r (fst (meshgrid xs ys)) []) 0, nth c (nth r (snd (meshgrid xs ys)) []) 0))
                    (seq 0 (List.length xs))) (seq 0 (List.length ys)) =
  map (fun y => map (fun x => interp i (x, y)) xs) ys.
Proof.
  unfold meshgrid. cbn [fst snd].
  assert (M : forall A (f : Z -> A) l, map f l = map (fun c => f (nth c l 0)) (seq 0 (List.length l))).
  { intros A f l. rewrite <- (map_map (fun c => nth c l 0) f), map_nth_seq. reflexivity. }
  rewrite (M _ (fun y => map (fun x => interp i (x, y)) xs) ys). apply map_ext_in. intros r Hr. apply in_seq in Hr.
  rewrite (M _ (fun x => interp i (x, nth r ys 0)) xs). apply map_ext_in. intros c Hc. apply in_seq in Hc.
  rewrite nth_const by lia. f_equal. f_equal.
  rewrite (nth_indep _ [] (map (fun _ => 0) xs)) by (rewrite map_length; lia).
  change (map (fun _ : Z => 0) xs) with ((fun y : Z => map (fun _ : Z => y) xs) 0). rewrite map_nth. apply nth_const. lia.
Qed.

Lemma forall2_map {A B} (P : A -> B -> Prop) f l : (forall a, P a (f a)) -> Forall2 P l (map f l).
Proof. intros H. induction l; cbn; constructor; auto. Qed.

(** Each figure shows at each of its pixels the value at this pixel of the interpolation. *)
Theorem C136_levels : forall V (interp : nat -> Z * Z -> V) nx ny number levels xs ys,
  sample nx number = Ok xs -> sample ny number = Ok ys ->
  exists figs, check_interp_levels V interp nx ny number levels = Ok figs /\ List.length figs = levels /\
    forall i x y X Y, nth_error figs i = Some (x, y, X, Y) ->
      table fst xs ys x /\ table snd xs ys y /\
      table (interp (2 * i)%nat) xs ys X /\ table (interp (2 * i + 1)%nat) xs ys Y.
Proof.
  intros V interp nx ny number levels xs ys Ex Ey. unfold check_interp_levels. rewrite Ex, Ey. cbn [bind meshgrid].
  eexists. split; [reflexivity|]. split; [rewrite map_length, seq_length; reflexivity|].
  intros i x y X Y H. rewrite nth_error_map in H.
  destruct (nth_error (seq 0 levels) i) as [k|] eqn:E; [|discriminate]. cbn [option_map] in H.
  assert (k = i). { pose proof (nth_error_nth _ _ 0%nat E) as N. assert (i < levels)%nat. { rewrite <- (seq_length levels 0). apply nth_error_Some. congruence. }
    rewrite seq_nth in N by lia. lia. }
  subst k. injection H as <- <- <- <-. split; [|split; [|split]].
  - unfold table. apply forall2_map. intros y. rewrite <- (map_id xs) at 2. apply forall2_map. reflexivity.
  - unfold table. apply forall2_map. intros y. apply forall2_map. reflexivity.
  - apply (call_table interp).
  - apply (call_table interp).
Qed.

Theorem C136_coeffs : forall V (interp : nat -> Z * Z -> V) nx ny number i xs ys,
  sample nx number = Ok xs -> sample ny number = Ok ys ->
  exists t, check_interp_lines_coeff V interp nx ny number i = Ok t /\ table (interp i) xs ys t.
Proof.
  intros V interp nx ny number i xs ys Ex Ey. unfold check_interp_lines_coeff. rewrite Ex, Ey. cbn [bind meshgrid].
  eexists. split; [reflexivity|]. pose proof (loops_call interp i xs ys) as L. cbn [meshgrid fst snd] in L. rewrite L.
  unfold table. apply forall2_map. intros y. apply forall2_map. reflexivity.
Qed.

(** One line is drawn for each pixel of the grid, once. *)
Theorem C136_lines : forall nx ny number xs ys,
  sample nx number = Ok xs -> sample ny number = Ok ys ->
  exists l, check_interp_lines nx ny number = Ok l /\ zlen l = zlen xs * zlen ys /\
    forall x y, In (x, y) l <-> In x xs /\ In y ys.
Proof.
  intros nx ny number xs ys Ex Ey. unfold check_interp_lines. rewrite Ex, Ey. cbn [bind meshgrid].
  assert (R : forall y : Z, combine xs (map (fun _ => y) xs) = map (fun x => (x, y)) xs).
  { intros y. clear. induction xs as [|x xs IH]; cbn; [reflexivity|]. f_equal. exact IH. }
  assert (CA : forall (a b c d : list Z), List.length a = List.length b -> combine (a ++ c) (b ++ d) = combine a b ++ combine c d).
  { induction a; intros [|b0 b] c d H; cbn in *; try discriminate; [reflexivity|]. f_equal. apply IHa. congruence. }
  eexists. split; [reflexivity|].
  clear Ex Ey. induction ys as [|y ys [IL IH]]; cbn [map List.concat].
  { cbn. split; [unfold zlen; cbn; lia|]. intros x y. split; intros H; [destruct H|]. destruct H as [_ []]. }
  rewrite CA by (rewrite map_length; reflexivity). rewrite R. split.
  - unfold zlen in *. rewrite app_length, map_length. cbn [List.length]. nia.
  - intros x y'. rewrite in_app_iff, IH, in_map_iff. cbn [In]. split.
    + intros [(x' & E & Hx)|[Hx Hy]]; [injection E as <- <-; auto|auto].
    + intros [Hx [<-|Hy]]; [left; exists x; auto|right; auto].
Qed.

(** An image with fewer pixels than [number] in one direction: none of the figures. *)
Theorem C136_small_refuted : forall V (interp : nat -> Z * Z -> V) nx ny number levels i,
  0 < nx -> 0 < ny -> nx < number \/ ny < number ->
  check_interp_levels V interp nx ny number levels = Err ValueError /\
  check_interp_lines nx ny number = Err ValueError /\
  check_interp_lines_coeff V interp nx ny number i = Err ValueError.
Proof.
  intros V interp nx ny number levels i Hx Hy H. assert (Hn : 0 < number) by lia.
  unfold check_interp_levels, check_interp_lines, check_interp_lines_coeff.
  destruct (Z_lt_le_dec nx number) as [L|L].
  - destruct (C136_sample_error_iff nx number) as [E _]; try lia. rewrite (proj2 E L). repeat split.
  - destruct (C136_sample nx number) as (l & -> & _); try lia.
    destruct (C136_sample_error_iff ny number) as [E _]; try lia. rewrite (proj2 E) by lia. repeat split.
Qed.

Print Assumptions C136_sample.
Print Assumptions C136_number_iff.
Print Assumptions C136_sample_error_iff.
Print Assumptions C136_negative.
Print Assumptions C136_levels.
Print Assumptions C136_coeffs.
Print Assumptions C136_lines.
Print Assumptions C136_small_refuted.

(** 10 pixels, 4 asked for: one in two is used, five of them; 7 pixels, 4 asked for: all the seven *)
Example C136_ex_sample : sample 10 4 = Ok [0; 2; 4; 6; 8] /\ sample 7 4 = Ok [0; 1; 2; 3; 4; 5; 6] /\ sample 3 4 = Err ValueError.
Proof. repeat split. Qed.
Example C136_ex_coeff : check_interp_lines_coeff Z (fun _ p => fst p + 100 * snd p) 6 4 2 0 = Ok [[0; 3]; [200; 203]].
Proof. reflexivity. Qed.
Example C136_ex_lines : check_interp_lines 6 4 2 = Ok [(0, 0); (3, 0); (0, 2); (3, 2)].
Proof. reflexivity. Qed.

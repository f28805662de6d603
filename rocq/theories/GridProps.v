(** C28, C29: grid of the interrogation windows, displaced windows. *)
From Verif Require Import PyBase GridModel.
Local Open Scope Z_scope.
Ltac Zify.zify_post_hook ::= Z.div_mod_to_equations.

Lemma start_stop n : start_for_crop n + stop_for_crop n = n.
Proof. unfold start_for_crop, stop_for_crop. destruct (n mod 2 =? 1) eqn:E; lia. Qed.
Lemma start_le_stop n : start_for_crop n <= stop_for_crop n <= start_for_crop n + 1.
Proof. unfold start_for_crop, stop_for_crop. destruct (n mod 2 =? 1) eqn:E; lia. Qed.
Lemma start_nonneg n : 0 <= n -> 0 <= start_for_crop n.
Proof. unfold start_for_crop. lia. Qed.
Lemma start_mono n m : n <= m -> start_for_crop n <= start_for_crop m /\ stop_for_crop n <= stop_for_crop m.
Proof. unfold start_for_crop, stop_for_crop. destruct (n mod 2 =? 1) eqn:E, (m mod 2 =? 1) eqn:F; lia. Qed.

(** regular points *)
Definition regular (a step : Z) (m : nat) : list Z := map (fun k => a + Z.of_nat k * step) (seq 0 m).

Lemma regular_S a step m : regular a step (S m) = regular a step m ++ [a + Z.of_nat m * step].
Proof. unfold regular. rewrite seq_S, map_app. reflexivity. Qed.

Lemma py_get_last {A} (l : list A) x : py_get (l ++ [x]) (-1) = Ok x.
Proof.
  unfold py_get, zlen. rewrite app_length. cbn [List.length].
  replace (-1 <? 0) with true by reflexivity.
  replace ((0 <=? -1 + Z.of_nat (Datatypes.length l + 1)) && (-1 + Z.of_nat (Datatypes.length l + 1) <? Z.of_nat (Datatypes.length l + 1))) with true by lia.
  replace (Z.to_nat (-1 + Z.of_nat (Datatypes.length l + 1))) with (List.length l) by lia.
  rewrite nth_error_app2 by lia. rewrite Nat.sub_diag. reflexivity.
Qed.

(** what [axis_vecs] gives *)
Lemma axis_form len scim step : 1 <= step ->
  match axis_vecs len scim step with
  | Err e => e = IndexError /\ len <= scim
  | Ok vs => scim < len /\ exists m,
      let last := start_for_crop scim + Z.of_nat m * step in
      let gap := len - stop_for_crop scim - last in
      1 <= gap <= step /\
      vs = regular (start_for_crop scim) step (S m) ++ (if 2 * step / 5 <? gap then [len - stop_for_crop scim] else [])
  end.
Proof.
  intros Hs. unfold axis_vecs, arange, range_list, range_len.
  pose proof (start_stop scim) as HSS.
  set (a := start_for_crop scim) in *. set (b := stop_for_crop scim) in *.
  replace (0 <? step) with true by lia. cbn [andb].
  destruct (a <? len - b) eqn:E.
  - set (m := Z.to_nat ((len - b - a - 1) / step)).
    assert (Hq : 0 <= (len - b - a - 1) / step) by (apply Z.div_pos; lia).
    replace (Z.to_nat ((len - b - a - 1) / step + 1)) with (S m) by lia.
    fold (regular a step (S m)). rewrite regular_S, py_get_last. cbn [bind].
    split; [lia|]. exists m. cbv zeta. rewrite regular_S.
    assert (Hgap : 1 <= len - b - (a + Z.of_nat m * step) <= step).
    { unfold m. rewrite Z2Nat.id by lia. pose proof (Z.div_mod (len - b - a - 1) step ltac:(lia)).
      pose proof (Z.mod_pos_bound (len - b - a - 1) step ltac:(lia)). nia. }
    split; [exact Hgap|]. destruct (2 * step / 5 <? _); [reflexivity|rewrite app_nil_r; reflexivity].
  - replace (step <? 0) with false by lia. cbn [andb seq map Z.to_nat]. cbn [py_get]. unfold py_get, zlen. cbn.
    split; [reflexivity|lia].
Qed.

(** *** C28 *)

(** the grid is computed exactly when the image is larger than the window in the two directions *)
Theorem C28_rejected : forall len_y len_x scim_y scim_x rnd_y rnd_x,
  1 <= scim_y - rnd_y -> 1 <= scim_x - rnd_x ->
  (exists g, prepare_with_image (len_y, len_x) (scim_y, scim_x) (rnd_y, rnd_x) = Ok g) <->
  (scim_y < len_y /\ scim_x < len_x).
Proof.
  intros len_y len_x scim_y scim_x rnd_y rnd_x Hy Hx. unfold prepare_with_image. cbn [fst snd].
  replace (1 <=? scim_y - rnd_y) with true by lia. replace (1 <=? scim_x - rnd_x) with true by lia. cbn [negb].
  pose proof (axis_form len_x scim_x (scim_x - rnd_x) Hx) as Fx. pose proof (axis_form len_y scim_y (scim_y - rnd_y) Hy) as Fy.
  destruct (axis_vecs len_x scim_x (scim_x - rnd_x)); cbn [bind].
  - destruct (axis_vecs len_y scim_y (scim_y - rnd_y)); cbn [bind].
    + split; [intros _; lia|intros _; eexists; reflexivity].
    + split; [intros [g C]; discriminate|lia].
  - split; [intros [g C]; discriminate|lia].
Qed.

(** the centres along one axis: from the first possible position, regularly spaced (the last interval can be
    shorter), the last window stops at the border or at less than a step of it *)
Definition good_axis (len scim step : Z) (vs : list Z) : Prop :=
  (forall x, In x vs -> start_for_crop scim <= x /\ x + stop_for_crop scim <= len) /\
  hd_error vs = Some (start_for_crop scim) /\
  (forall i x x', nth_error vs i = Some x -> nth_error vs (S i) = Some x' ->
     x' - x = step \/ (S (S i) = List.length vs /\ x' + stop_for_crop scim = len /\ 2 * step / 5 < x' - x <= step)) /\
  (exists x, nth_error vs (List.length vs - 1) = Some x /\ 0 <= len - (x + stop_for_crop scim) <= 2 * step / 5 /\
             len - (x + stop_for_crop scim) < step).

Lemma regular_nth a step m i x : nth_error (regular a step m) i = Some x <-> (i < m)%nat /\ x = a + Z.of_nat i * step.
Proof.
  unfold regular. rewrite nth_error_map. destruct (Nat.lt_ge_cases i m) as [H|H].
  - rewrite (nth_error_nth' (seq 0 m) 0%nat) by (rewrite seq_length; exact H). rewrite seq_nth by exact H. cbn.
    split; [intros E; injection E as <-; auto|intros [_ ->]; reflexivity].
  - assert (E : nth_error (seq 0 m) i = None) by (apply nth_error_None; rewrite seq_length; exact H). rewrite E. cbn. split; [discriminate|lia].
Qed.
Lemma regular_len a step m : List.length (regular a step m) = m.
Proof. unfold regular. rewrite map_length, seq_length. reflexivity. Qed.

Lemma axis_good len scim step vs : 1 <= step -> axis_vecs len scim step = Ok vs -> good_axis len scim step vs.
Proof.
  intros Hs E. pose proof (axis_form len scim step Hs) as F. rewrite E in F. destruct F as (Hlen & m & Hgap & Hvs). cbv zeta in *.
  pose proof (start_stop scim) as HSS.
  set (a := start_for_crop scim) in *. set (b := stop_for_crop scim) in *. set (last := a + Z.of_nat m * step) in *.
  assert (Hreg : forall x, In x (regular a step (S m)) -> a <= x /\ x <= last).
  { intros x Hx. apply In_nth_error in Hx. destruct Hx as [i Hi]. apply regular_nth in Hi. destruct Hi as [Hi ->]. unfold last.
    pose proof (Z.mul_le_mono_nonneg_r (Z.of_nat i) (Z.of_nat m) step ltac:(lia) ltac:(lia)).
    pose proof (Z.mul_nonneg_nonneg (Z.of_nat i) step ltac:(lia) ltac:(lia)). lia. }
  assert (Hlast : nth_error (regular a step (S m)) m = Some last) by (apply regular_nth; split; [lia|reflexivity]).
  destruct (2 * step / 5 <? len - b - last) eqn:Eg; subst vs.
  - repeat split.
    + apply in_app_or in H. destruct H as [H|[<-|[]]]; [apply Hreg; exact H|lia].
    + apply in_app_or in H. destruct H as [H|[<-|[]]]; [apply Hreg in H; lia|lia].
    + unfold regular. cbn. rewrite Z.add_0_r. reflexivity.
    + intros i x x' H1 H2. rewrite app_length, regular_len. cbn [List.length].
      destruct (Nat.lt_ge_cases (S i) (S m)) as [Hi|Hi].
      * rewrite nth_error_app1 in H1, H2 by (rewrite regular_len; lia). apply regular_nth in H1, H2. left. lia.
      * rewrite nth_error_app2 in H2 by (rewrite regular_len; lia). rewrite regular_len in H2.
        destruct (S i - S m)%nat as [|z] eqn:Ez; [|cbn in H2; destruct z; discriminate].
        cbn in H2. injection H2 as <-. assert (i = m) by lia. subst i. rewrite nth_error_app1 in H1 by (rewrite regular_len; lia).
        rewrite Hlast in H1. injection H1 as <-. right. lia.
    + exists (len - b). rewrite app_length, regular_len. cbn [List.length]. rewrite nth_error_app2 by (rewrite regular_len; lia).
      rewrite regular_len. replace (S m + 1 - 1 - S m)%nat with 0%nat by lia. cbn [nth_error]. split; [reflexivity|lia].
  - rewrite app_nil_r. repeat split.
    + apply Hreg; exact H.
    + apply Hreg in H; lia.
    + unfold regular. cbn. rewrite Z.add_0_r. reflexivity.
    + intros i x x' H1 H2. apply regular_nth in H1, H2. left. lia.
    + exists last. rewrite regular_len. replace (S m - 1)%nat with m by lia. split; [exact Hlast|lia].
Qed.

Lemma prepare_inv len_y len_x scim_y scim_x rnd_y rnd_x xs ys gx gy :
  prepare_with_image (len_y, len_x) (scim_y, scim_x) (rnd_y, rnd_x) = Ok (xs, ys, gx, gy) ->
  1 <= scim_y - rnd_y /\ 1 <= scim_x - rnd_x /\
  axis_vecs len_x scim_x (scim_x - rnd_x) = Ok xs /\ axis_vecs len_y scim_y (scim_y - rnd_y) = Ok ys /\
  gx = flat_map (fun y => xs) ys /\ gy = flat_map (fun y => map (fun x => y) xs) ys.
Proof.
  unfold prepare_with_image. cbn [fst snd]. destruct (1 <=? scim_y - rnd_y) eqn:Hy; cbn [negb]; [|discriminate].
  destruct (1 <=? scim_x - rnd_x) eqn:Hx; cbn [negb]; [|discriminate].
  destruct (axis_vecs len_x scim_x (scim_x - rnd_x)) as [xs0|]; cbn [bind]; [|discriminate].
  destruct (axis_vecs len_y scim_y (scim_y - rnd_y)) as [ys0|]; cbn [bind]; [|discriminate].
  intros E. injection E as -> -> <- <-. repeat split; lia.
Qed.

Theorem C28_regular : forall len_y len_x scim_y scim_x rnd_y rnd_x xs ys gx gy,
  prepare_with_image (len_y, len_x) (scim_y, scim_x) (rnd_y, rnd_x) = Ok (xs, ys, gx, gy) ->
  good_axis len_x scim_x (scim_x - rnd_x) xs /\ good_axis len_y scim_y (scim_y - rnd_y) ys.
Proof.
  intros len_y len_x scim_y scim_x rnd_y rnd_x xs ys gx gy E. apply prepare_inv in E. destruct E as (Hy & Hx & Ex & Ey & _ & _).
  split; apply axis_good; assumption.
Qed.

(** With a non negative overlap every pixel up to less than a step of the border is in a window. *)
Lemma axis_cover len scim step vs : 1 <= step <= scim -> axis_vecs len scim step = Ok vs ->
  forall p, 0 <= p < len - 2 * step / 5 -> exists x, In x vs /\ x - start_for_crop scim <= p < x + stop_for_crop scim.
Proof.
  intros Hs E p Hp. pose proof (axis_form len scim step ltac:(lia)) as F. rewrite E in F. destruct F as (Hlen & m & Hgap & ->). cbv zeta in *.
  pose proof (start_stop scim) as HSS. set (a := start_for_crop scim) in *. set (b := stop_for_crop scim) in *.
  assert (Hd : 0 <= p / step) by (apply Z.div_pos; lia).
  pose proof (Z.div_mod p step ltac:(lia)) as Hdm. pose proof (Z.mod_pos_bound p step ltac:(lia)) as Hmb.
  destruct (Z.lt_ge_cases p (a + Z.of_nat m * step + b)) as [H|H].
  - destruct (Z.le_gt_cases (p / step) (Z.of_nat m)) as [Hk|Hk].
    + exists (a + Z.of_nat (Z.to_nat (p / step)) * step). split.
      * apply in_or_app. left. apply nth_error_In with (n := Z.to_nat (p / step)). apply regular_nth. split; [lia|reflexivity].
      * rewrite Z2Nat.id by lia. clear -Hs Hdm Hmb HSS. set (q := p / step) in *. set (r := p mod step) in *. clearbody q r. lia.
    + exists (a + Z.of_nat m * step). split.
      * apply in_or_app. left. apply nth_error_In with (n := m). apply regular_nth. split; [lia|reflexivity].
      * assert (Z.of_nat m * step <= p) by (set (q := p / step) in *; set (r := p mod step) in *; clearbody q r; nia). lia.
  - destruct (2 * step / 5 <? len - b - (a + Z.of_nat m * step)) eqn:Eg.
    + exists (len - b). split; [apply in_or_app; right; left; reflexivity|lia].
    + lia.
Qed.

Theorem C28_coverage : forall len_y len_x scim_y scim_x rnd_y rnd_x xs ys gx gy,
  0 <= rnd_y -> 0 <= rnd_x ->
  prepare_with_image (len_y, len_x) (scim_y, scim_x) (rnd_y, rnd_x) = Ok (xs, ys, gx, gy) ->
  forall py px, 0 <= py < len_y - 2 * (scim_y - rnd_y) / 5 -> 0 <= px < len_x - 2 * (scim_x - rnd_x) / 5 ->
  exists x y, In x xs /\ In y ys /\
    x - start_for_crop scim_x <= px < x + stop_for_crop scim_x /\ y - start_for_crop scim_y <= py < y + stop_for_crop scim_y.
Proof.
  intros len_y len_x scim_y scim_x rnd_y rnd_x xs ys gx gy Hry Hrx E py px Hpy Hpx. apply prepare_inv in E. destruct E as (Hy & Hx & Ex & Ey & _ & _).
  destruct (axis_cover len_x scim_x (scim_x - rnd_x) xs ltac:(lia) Ex px Hpx) as (x & H1 & H2).
  destruct (axis_cover len_y scim_y (scim_y - rnd_y) ys ltac:(lia) Ey py Hpy) as (y & H3 & H4).
  exists x, y. auto.
Qed.

(** *** images *)
Definition rect (im : img) (h w : Z) : Prop := zlen im = h /\ Forall (fun r => zlen r = w) im.
Definition pixel (im : img) (y x : Z) : option Z :=
  if (0 <=? y) && (0 <=? x) then
    match nth_error im (Z.to_nat y) with Some r => nth_error r (Z.to_nat x) | None => None end
  else None.

Lemma slice_in {A} (l : list A) a b : 0 <= a <= b -> b <= zlen l ->
  py_slice l a b = firstn (Z.to_nat (b - a)) (skipn (Z.to_nat a) l).
Proof.
  intros H1 H2. unfold py_slice, norm_bound. replace (a <? 0) with false by lia. replace (b <? 0) with false by lia.
  rewrite !Z.min_l by lia. reflexivity.
Qed.
Lemma slice_len {A} (l : list A) a b : 0 <= a <= b -> b <= zlen l -> zlen (py_slice l a b) = b - a.
Proof.
  intros H1 H2. rewrite slice_in by assumption. unfold zlen in *. rewrite firstn_length, skipn_length. lia.
Qed.
Lemma nth_error_skipn {A} (l : list A) n i : nth_error (skipn n l) i = nth_error l (n + i).
Proof. revert l. induction n as [|n IH]; intros [|z l]; cbn; try reflexivity; [destruct i; reflexivity|apply IH]. Qed.
Lemma nth_error_firstn_lt {A} (l : list A) n i : (i < n)%nat -> nth_error (firstn n l) i = nth_error l i.
Proof. revert l i. induction n as [|n IH]; intros [|z l] [|i] H; cbn; try reflexivity; try lia. apply IH. lia. Qed.
Lemma slice_nth {A} (l : list A) a b i : 0 <= a <= b -> b <= zlen l -> 0 <= i < b - a ->
  nth_error (py_slice l a b) (Z.to_nat i) = nth_error l (Z.to_nat (a + i)).
Proof.
  intros H1 H2 H3. rewrite slice_in by assumption. rewrite nth_error_firstn_lt by lia. rewrite nth_error_skipn. f_equal. lia.
Qed.

(** a window inside the (padded) image has the requested shape and contains the right pixels *)
Lemma crop_inside im h w scy scx ix iy : rect im h w -> 0 <= scy -> 0 <= scx ->
  0 <= iy - start_for_crop scy -> iy + stop_for_crop scy <= h ->
  0 <= ix - start_for_crop scx -> ix + stop_for_crop scx <= w ->
  has_shape (scy, scx) (crop (scy, scx) ix iy im) = true /\
  forall i j, 0 <= i < scy -> 0 <= j < scx ->
    pixel (crop (scy, scx) ix iy im) i j = pixel im (iy - start_for_crop scy + i) (ix - start_for_crop scx + j).
Proof.
  intros [Hh Hw] Hy Hx H1 H2 H3 H4. pose proof (start_stop scy) as Sy. pose proof (start_stop scx) as Sx.
  unfold crop. cbn [fst snd]. split.
  - unfold has_shape. cbn [fst snd]. apply andb_true_iff. split.
    + unfold zlen. rewrite map_length. fold (zlen (py_slice im (iy - start_for_crop scy) (iy + stop_for_crop scy))).
      rewrite slice_len by lia. lia.
    + apply forallb_forall. intros r Hr. apply in_map_iff in Hr. destruct Hr as (r0 & <- & Hr).
      assert (In r0 im). { rewrite slice_in in Hr by lia. 
        rewrite <- (firstn_skipn (Z.to_nat (iy - start_for_crop scy)) im). apply in_or_app. right.
        rewrite <- (firstn_skipn (Z.to_nat (iy + stop_for_crop scy - (iy - start_for_crop scy))) (skipn _ im)). apply in_or_app. left. exact Hr. }
      rewrite Forall_forall in Hw. specialize (Hw r0 H). rewrite slice_len by lia. lia.
  - intros i j Hi Hj. unfold pixel.
    replace ((0 <=? i) && (0 <=? j)) with true by lia.
    replace ((0 <=? iy - start_for_crop scy + i) && (0 <=? ix - start_for_crop scx + j)) with true by lia.
    rewrite nth_error_map. rewrite slice_nth by lia.
    destruct (nth_error im (Z.to_nat (iy - start_for_crop scy + i))) as [r|] eqn:E; [|reflexivity].
    cbn [option_map]. apply nth_error_In in E. rewrite Forall_forall in Hw. specialize (Hw r E). rewrite slice_nth by lia. reflexivity.
Qed.

Lemma zlen_repeat {A} (x : A) n : 0 <= n -> zlen (py_repeat x n) = n.
Proof. intros H. unfold zlen, py_repeat. rewrite repeat_length. lia. Qed.

Lemma rect_width im h w : rect im h w -> 1 <= h -> im_width im = w.
Proof. intros [H1 H2] H. destruct im as [|r im]; [cbn in H1; lia|]. cbn. apply Forall_inv in H2. exact H2. Qed.

(** the padded image *)
Lemma pad_spec npad im h w imp : rect im h w -> 1 <= h -> 0 <= npad -> pad_image npad im = Ok imp ->
  rect imp (h + 2 * npad) (w + 2 * npad) /\
  exists m, im_min im = Ok m /\ forall y x, - npad <= y < h + npad -> - npad <= x < w + npad ->
    pixel imp (y + npad) (x + npad) = Some (match pixel im y x with Some p => p - m | None => 0 end).
Proof.
  intros HR Hh Hn E. unfold pad_image in E. destruct (im_min im) as [m|]; cbn [bind] in E; [|discriminate].
  match type of E with Ok ?a = Ok _ => assert (Heq : a = imp) by congruence end. rewrite <- Heq. clear E Heq.
  rewrite (rect_width im h w HR Hh). destruct HR as [H1 H2].
  assert (Hw : 0 <= w). { destruct im as [|r im]; [cbn in H1; lia|]. apply Forall_inv in H2. unfold zlen in H2. lia. }
  set (zr := py_repeat 0 (w + 2 * npad)). set (f := fun r => py_repeat 0 npad ++ map (fun p => p - m) r ++ py_repeat 0 npad).
  assert (Hzr : zlen zr = w + 2 * npad) by (apply zlen_repeat; lia).
  assert (Hf : forall r, zlen r = w -> zlen (f r) = w + 2 * npad).
  { intros r Hr. unfold f, zlen in *. rewrite !app_length, map_length. unfold py_repeat. rewrite !repeat_length. lia. }
  split.
  - split.
    + unfold zlen in *. rewrite !app_length, map_length. unfold py_repeat. rewrite !repeat_length. lia.
    + apply Forall_app. split; [|apply Forall_app; split].
      * apply Forall_forall. intros r Hr. apply repeat_spec in Hr. subst r. exact Hzr.
      * apply Forall_forall. intros r Hr. apply in_map_iff in Hr. destruct Hr as (r0 & <- & Hr). apply Hf. rewrite Forall_forall in H2. auto.
      * apply Forall_forall. intros r Hr. apply repeat_spec in Hr. subst r. exact Hzr.
  - exists m. split; [reflexivity|]. intros y x Hy Hx. unfold pixel at 1. replace ((0 <=? y + npad) && (0 <=? x + npad)) with true by lia.
    assert (Hzero : nth_error zr (Z.to_nat (x + npad)) = Some 0).
    { unfold zr, py_repeat. rewrite (nth_error_nth' (repeat 0 (Z.to_nat (w + 2 * npad))) 0) by (rewrite repeat_length; lia).
      f_equal. apply nth_repeat. }
    assert (Hrow : forall k, (k < Z.to_nat npad)%nat -> nth_error (py_repeat zr npad) k = Some zr).
    { intros k Hk. unfold py_repeat. rewrite (nth_error_nth' (repeat zr (Z.to_nat npad)) zr) by (rewrite repeat_length; lia). f_equal. apply nth_repeat. }
    assert (Lz : List.length (py_repeat zr npad) = Z.to_nat npad) by apply repeat_length.
    unfold zlen in H1.
    destruct (Z.lt_ge_cases y 0) as [Hy0|Hy0].
    + rewrite nth_error_app1 by lia. rewrite Hrow by lia. rewrite Hzero. unfold pixel. replace (0 <=? y) with false by lia. reflexivity.
    + rewrite nth_error_app2 by lia. rewrite Lz.
      replace (Z.to_nat (y + npad) - Z.to_nat npad)%nat with (Z.to_nat y) by lia.
      destruct (Z.lt_ge_cases y h) as [Hyh|Hyh].
      * rewrite nth_error_app1 by (rewrite map_length; lia). rewrite nth_error_map.
        destruct (nth_error im (Z.to_nat y)) as [r|] eqn:Er; [|apply nth_error_None in Er; lia]. cbn [option_map].
        assert (Hr : zlen r = w) by (rewrite Forall_forall in H2; apply H2; eapply nth_error_In; exact Er).
        unfold f, zlen in *. unfold pixel. replace (0 <=? y) with true by lia. rewrite Er.
        destruct (Z.lt_ge_cases x 0) as [Hx0|Hx0].
        -- replace (0 <=? x) with false by lia. cbn [andb]. rewrite nth_error_app1 by (unfold py_repeat; rewrite repeat_length; lia).
           unfold py_repeat. rewrite (nth_error_nth' (repeat 0 (Z.to_nat npad)) 0) by (rewrite repeat_length; lia). f_equal. apply nth_repeat.
        -- replace (0 <=? x) with true by lia. cbn [andb]. rewrite nth_error_app2 by (unfold py_repeat; rewrite repeat_length; lia).
           replace (List.length (py_repeat 0 npad)) with (Z.to_nat npad) by (symmetry; apply repeat_length). replace (Z.to_nat (x + npad) - Z.to_nat npad)%nat with (Z.to_nat x) by lia.
           destruct (Z.lt_ge_cases x w) as [Hxw|Hxw].
           ++ rewrite nth_error_app1 by (rewrite map_length; lia). rewrite nth_error_map.
              destruct (nth_error r (Z.to_nat x)) eqn:Ex; [reflexivity|apply nth_error_None in Ex; lia].
           ++ rewrite nth_error_app2 by (rewrite map_length; lia). rewrite map_length.
              assert (E0 : nth_error r (Z.to_nat x) = None) by (apply nth_error_None; lia). rewrite E0.
              unfold py_repeat. rewrite (nth_error_nth' (repeat 0 (Z.to_nat npad)) 0) by (rewrite repeat_length; lia). f_equal. apply nth_repeat.
      * rewrite nth_error_app2 by (rewrite map_length; lia). rewrite map_length. rewrite Hrow by lia. rewrite Hzero.
        unfold pixel. replace (0 <=? y) with true by lia.
        assert (E0 : nth_error im (Z.to_nat y) = None) by (apply nth_error_None; lia). rewrite E0. destruct (0 <=? x); reflexivity.
Qed.

Lemma npad_ge scy scx : start_for_crop scy <= npad_of (scy, scx) /\ start_for_crop scx <= npad_of (scy, scx) /\
  stop_for_crop scy <= npad_of (scy, scx) /\ stop_for_crop scx <= npad_of (scy, scx).
Proof. unfold npad_of. cbn [fst snd]. lia. Qed.

(** content of a window of shape (scy, scx) centred at (cx, cy) in the image [im] extended by zeros *)
Definition is_window (im : img) (m : Z) (scy scx cx cy : Z) (wd : img) : Prop :=
  has_shape (scy, scx) wd = true /\
  forall i j, 0 <= i < scy -> 0 <= j < scx ->
    pixel wd i j = Some (match pixel im (cy - start_for_crop scy + i) (cx - start_for_crop scx + j) with
                         | Some p => p - m | None => 0 end).

Lemma window_in_pad im h w imp npad scy scx cx cy :
  rect im h w -> 1 <= h -> 0 <= npad -> pad_image npad im = Ok imp -> 0 <= scy -> 0 <= scx ->
  - npad <= cy - start_for_crop scy -> cy + stop_for_crop scy <= h + npad ->
  - npad <= cx - start_for_crop scx -> cx + stop_for_crop scx <= w + npad ->
  exists m, im_min im = Ok m /\ is_window im m scy scx cx cy (crop (scy, scx) (cx + npad) (cy + npad) imp).
Proof.
  intros HR Hh Hn Hp Hy Hx H1 H2 H3 H4. destruct (pad_spec npad im h w imp HR Hh Hn Hp) as (HRp & m & Em & Hpix).
  pose proof (start_stop scy) as Sy. pose proof (start_stop scx) as Sx.
  destruct (crop_inside imp _ _ scy scx (cx + npad) (cy + npad) HRp Hy Hx ltac:(lia) ltac:(lia) ltac:(lia) ltac:(lia)) as [C1 C2].
  exists m. split; [exact Em|]. split; [exact C1|]. intros i j Hi Hj. rewrite C2 by assumption.
  replace (cy + npad - start_for_crop scy + i) with (cy - start_for_crop scy + i + npad) by lia.
  replace (cx + npad - start_for_crop scx + j) with (cx - start_for_crop scx + j + npad) by lia.
  rewrite Hpix by lia. reflexivity.
Qed.

(** First pass: for all vectors the windows of the two images are entirely inside the images: they have the
    requested shapes and their pixels are those of the images (minus the minimum). *)
Lemma In_grid xs ys k x y : nth_error (flat_map (fun _ : Z => xs) ys) k = Some x ->
  nth_error (flat_map (fun y => map (fun _ : Z => y) xs) ys) k = Some y -> In x xs /\ In y ys.
Proof.
  intros H1 H2. apply nth_error_In in H1, H2. apply in_flat_map in H1, H2. destruct H1 as (? & _ & H1). destruct H2 as (y' & Hy & H2).
  apply in_map_iff in H2. destruct H2 as (? & -> & _). auto.
Qed.

Theorem C28_windows : forall im h w scim_y scim_x sc1_y sc1_x rnd_y rnd_x xs ys gx gy imp,
  rect im h w -> 1 <= sc1_y <= scim_y -> 1 <= sc1_x <= scim_x ->
  prepare_with_image (h, w) (scim_y, scim_x) (rnd_y, rnd_x) = Ok (xs, ys, gx, gy) ->
  let npad := npad_of (scim_y, scim_x) in
  pad_image npad im = Ok imp ->
  forall k x y, nth_error gx k = Some x -> nth_error gy k = Some y ->
  forall ix0 iy0 ix1 iy1, positions_first npad x y = ((ix0, iy0), (ix1, iy1)) ->
  let im0crop := crop (scim_y, scim_x) ix0 iy0 imp in
  let im1crop := crop (sc1_y, sc1_x) ix1 iy1 imp in
  has_shape (scim_y, scim_x) im0crop = true /\ has_shape (sc1_y, sc1_x) im1crop = true /\
  exists m, im_min im = Ok m /\
    (forall i j, 0 <= i < scim_y -> 0 <= j < scim_x ->
       exists p, pixel im (y - start_for_crop scim_y + i) (x - start_for_crop scim_x + j) = Some p /\
                 pixel im0crop i j = Some (p - m)) /\
    (forall i j, 0 <= i < sc1_y -> 0 <= j < sc1_x ->
       exists p, pixel im (y - start_for_crop sc1_y + i) (x - start_for_crop sc1_x + j) = Some p /\
                 pixel im1crop i j = Some (p - m)).
Proof.
  intros im h w scim_y scim_x sc1_y sc1_x rnd_y rnd_x xs ys gx gy imp HR Hy1 Hx1 E npad Hp k x y Hkx Hky ix0 iy0 ix1 iy1 Epos im0crop im1crop.
  pose proof (prepare_inv _ _ _ _ _ _ _ _ _ _ E) as (Hy & Hx & Ex & Ey & -> & ->).
  destruct (In_grid xs ys k x y Hkx Hky) as [Hix Hiy].
  destruct (axis_good _ _ _ _ Hx Ex) as (Bx & _). destruct (axis_good _ _ _ _ Hy Ey) as (By & _).
  specialize (Bx x Hix). specialize (By y Hiy).
  pose proof (start_mono _ _ (proj2 Hy1)) as My. pose proof (start_mono _ _ (proj2 Hx1)) as Mx.
  pose proof (start_stop scim_y) as Sy. pose proof (start_stop scim_x) as Sx. pose proof (start_stop sc1_y) as Sy1. pose proof (start_stop sc1_x) as Sx1.
  pose proof (npad_ge scim_y scim_x) as Hnp. fold npad in Hnp.
  pose proof (start_nonneg scim_y ltac:(lia)) as N0. pose proof (start_nonneg scim_x ltac:(lia)) as N1.
  pose proof (start_nonneg sc1_y ltac:(lia)) as N2. pose proof (start_nonneg sc1_x ltac:(lia)) as N3.
  assert (Hh : 1 <= h) by lia. assert (Hn : 0 <= npad) by lia.
  unfold positions_first in Epos. injection Epos as <- <- <- <-.
  destruct (window_in_pad im h w imp npad scim_y scim_x x y HR Hh Hn Hp ltac:(lia) ltac:(lia) ltac:(lia) ltac:(lia) ltac:(lia) ltac:(lia)) as (m & Em & W0 & W0p).
  destruct (window_in_pad im h w imp npad sc1_y sc1_x x y HR Hh Hn Hp ltac:(lia) ltac:(lia) ltac:(lia) ltac:(lia) ltac:(lia) ltac:(lia)) as (m' & Em' & W1 & W1p).
  assert (m' = m) by congruence. subst m'.
  assert (Hin : forall yy xx, 0 <= yy < h -> 0 <= xx < w -> exists p, pixel im yy xx = Some p).
  { intros yy xx Hyy Hxx. unfold pixel. replace ((0 <=? yy) && (0 <=? xx)) with true by lia. destruct HR as [HR1 HR2]. unfold zlen in *.
    destruct (nth_error im (Z.to_nat yy)) as [r|] eqn:Er; [|apply nth_error_None in Er; lia].
    rewrite Forall_forall in HR2. specialize (HR2 r (nth_error_In _ _ Er)).
    destruct (nth_error r (Z.to_nat xx)) as [p|] eqn:Exx; [exists p; reflexivity|apply nth_error_None in Exx; lia]. }
  split; [exact W0|]. split; [exact W1|]. exists m. split; [exact Em|]. split.
  - intros i j Hi Hj. destruct (Hin (y - start_for_crop scim_y + i) (x - start_for_crop scim_x + j) ltac:(lia) ltac:(lia)) as [p Ep].
    exists p. split; [exact Ep|]. unfold im0crop. rewrite W0p by assumption. rewrite Ep. reflexivity.
  - intros i j Hi Hj. destruct (Hin (y - start_for_crop sc1_y + i) (x - start_for_crop sc1_x + j) ltac:(lia) ltac:(lia)) as [p Ep].
    exists p. split; [exact Ep|]. unfold im1crop. rewrite W1p by assumption. rewrite Ep. reflexivity.
Qed.

(** the grid: all couples of coordinates, x varying first *)
Lemma nth_error_flat_map {A B} (f : A -> list B) l n : (forall a, In a l -> List.length (f a) = n) ->
  forall k a j, nth_error l k = Some a -> (j < n)%nat -> nth_error (flat_map f l) (k * n + j) = nth_error (f a) j.
Proof.
  induction l as [|z l IH]; intros H k a j Hk Hj; [destruct k; discriminate|]. cbn [flat_map]. destruct k as [|k].
  - cbn in Hk. injection Hk as ->. cbn. rewrite nth_error_app1 by (rewrite (H a (or_introl eq_refl)); exact Hj). reflexivity.
  - cbn in Hk. pose proof (H z (or_introl eq_refl)) as Hz. rewrite nth_error_app2 by lia.
    replace (S k * n + j - List.length (f z))%nat with (k * n + j)%nat by lia. apply (IH (fun b Hb => H b (or_intror Hb)) k a j Hk Hj).
Qed.

Theorem C28_grid : forall imshape scim rnd xs ys gx gy,
  prepare_with_image imshape scim rnd = Ok (xs, ys, gx, gy) ->
  List.length gx = (List.length ys * List.length xs)%nat /\ List.length gy = (List.length ys * List.length xs)%nat /\
  forall ky kx x y, nth_error xs kx = Some x -> nth_error ys ky = Some y ->
    nth_error gx (ky * List.length xs + kx) = Some x /\ nth_error gy (ky * List.length xs + kx) = Some y.
Proof.
  intros [h w] [sy sx] [ry rx] xs ys gx gy E. apply prepare_inv in E. destruct E as (_ & _ & _ & _ & -> & ->).
  assert (L : forall f : Z -> list Z, (forall y, List.length (f y) = List.length xs) -> List.length (flat_map f ys) = (List.length ys * List.length xs)%nat).
  { intros f Hf. induction ys as [|y ys IH]; [reflexivity|]. cbn [flat_map List.length]. rewrite app_length, Hf, IH. lia. }
  split; [apply L; reflexivity|]. split; [apply L; intros; apply map_length|].
  intros ky kx x y Hx Hy. assert (Hlt : (kx < List.length xs)%nat) by (apply nth_error_Some; congruence). split.
  - rewrite (nth_error_flat_map (fun _ => xs) ys (List.length xs)) with (a := y); auto.
  - rewrite (nth_error_flat_map (fun y => map (fun _ : Z => y) xs) ys (List.length xs)) with (a := y); auto.
    + rewrite nth_error_map, Hx. reflexivity.
    + intros. apply map_length.
Qed.

(** 3 x 4 windows of an image 7 x 10, overlap 1/2 *)
Example C28_example :
  prepare_with_image (7, 10) (3, 4) (2, 2) =
    Ok ([2; 4; 6; 8], [1; 2; 3; 4; 5],
        [2; 4; 6; 8; 2; 4; 6; 8; 2; 4; 6; 8; 2; 4; 6; 8; 2; 4; 6; 8],
        [1; 1; 1; 1; 2; 2; 2; 2; 3; 3; 3; 3; 4; 4; 4; 4; 5; 5; 5; 5]) /\
  prepare_with_image (3, 10) (3, 4) (2, 2) = Err IndexError /\
  init_shape_crop (SInt 48) SNone = Ok ((48, 48), (48, 48)) /\
  init_shape_crop (SInt 48) (SSeq [64; 32]) = Err ValueError.
Proof. repeat split. Qed.

(** *** C29 *)

(** The difference between the centres of the two windows is the displacement, for all vectors, and the position
    of the vector is the middle of the two centres; it is the point of the grid (up to half a pixel), or the
    point of the grid shifted by half the displacement. *)
Theorem C29_difference : forall imshape npad gx gy dx dy ix0 iy0 ix1 iy1 x2 y2,
  positions_displaced imshape npad gx gy dx dy = (((ix0, iy0), (ix1, iy1)), (x2, y2)) ->
  ix1 - ix0 = dx /\ iy1 - iy0 = dy /\
  x2 = (ix0 - npad) + (ix1 - npad) /\ y2 = (iy0 - npad) + (iy1 - npad) /\
  ((x2 - 2 * gx = dx mod 2 /\ y2 - 2 * gy = dy mod 2) \/ (x2 = 2 * gx - dx /\ y2 = 2 * gy - dy) \/ (x2 = 2 * gx + dx /\ y2 = 2 * gy + dy)).
Proof.
  intros imshape npad gx gy dx dy ix0 iy0 ix1 iy1 x2 y2. unfold positions_displaced, displaced.
  destruct (outside imshape (gx - dx / 2 + dx) (gy - dy / 2 + dy)).
  - intros E. injection E as <- <- <- <- <- <-. lia.
  - destruct (outside imshape (gx - dx / 2) (gy - dy / 2)); intros E; injection E as <- <- <- <- <- <-; lia.
Qed.

(** The windows are the windows of the images (extended by zeros) at the displaced positions when the displacement
    is not larger than the padding (half the largest window). *)
Theorem C29_windows_partial : forall im h w scim_y scim_x sc1_y sc1_x rnd_y rnd_x xs ys gx gy imp,
  rect im h w -> 1 <= sc1_y <= scim_y -> 1 <= sc1_x <= scim_x ->
  prepare_with_image (h, w) (scim_y, scim_x) (rnd_y, rnd_x) = Ok (xs, ys, gx, gy) ->
  let npad := npad_of (scim_y, scim_x) in
  pad_image npad im = Ok imp ->
  forall k x y dx dy, nth_error gx k = Some x -> nth_error gy k = Some y ->
  Z.abs dx <= npad -> Z.abs dy <= npad ->
  forall ix0 iy0 ix1 iy1 x2 y2, positions_displaced (h, w) npad x y dx dy = (((ix0, iy0), (ix1, iy1)), (x2, y2)) ->
  exists m, im_min im = Ok m /\
    is_window im m scim_y scim_x (ix0 - npad) (iy0 - npad) (crop (scim_y, scim_x) ix0 iy0 imp) /\
    is_window im m sc1_y sc1_x (ix1 - npad) (iy1 - npad) (crop (sc1_y, sc1_x) ix1 iy1 imp).
Proof.
  intros im h w scim_y scim_x sc1_y sc1_x rnd_y rnd_x xs ys gx gy imp HR Hy1 Hx1 E npad Hp k x y dx dy Hkx Hky Hdx Hdy ix0 iy0 ix1 iy1 x2 y2 Epos.
  pose proof (prepare_inv _ _ _ _ _ _ _ _ _ _ E) as (Hy & Hx & Ex & Ey & -> & ->).
  destruct (In_grid xs ys k x y Hkx Hky) as [Hix Hiy].
  destruct (axis_good _ _ _ _ Hx Ex) as (Bx & _). destruct (axis_good _ _ _ _ Hy Ey) as (By & _).
  specialize (Bx x Hix). specialize (By y Hiy).
  pose proof (start_mono _ _ (proj2 Hy1)) as My. pose proof (start_mono _ _ (proj2 Hx1)) as Mx.
  pose proof (start_stop scim_y) as Sy. pose proof (start_stop scim_x) as Sx. pose proof (start_stop sc1_y) as Sy1. pose proof (start_stop sc1_x) as Sx1.
  pose proof (npad_ge scim_y scim_x) as Hnp. fold npad in Hnp.
  pose proof (start_nonneg scim_y ltac:(lia)) as N0. pose proof (start_nonneg scim_x ltac:(lia)) as N1.
  pose proof (start_nonneg sc1_y ltac:(lia)) as N2. pose proof (start_nonneg sc1_x ltac:(lia)) as N3.
  assert (Hh : 1 <= h) by lia. assert (Hn : 0 <= npad) by lia.
  assert (B : exists cx0 cy0 cx1 cy1, ix0 = cx0 + npad /\ iy0 = cy0 + npad /\ ix1 = cx1 + npad /\ iy1 = cy1 + npad /\
     (x - npad <= cx0 <= x + npad) /\ (y - npad <= cy0 <= y + npad) /\ (x - npad <= cx1 <= x + npad) /\ (y - npad <= cy1 <= y + npad)).
  { unfold positions_displaced, displaced in Epos.
    destruct (outside (h, w) (x - dx / 2 + dx) (y - dy / 2 + dy)); [|destruct (outside (h, w) (x - dx / 2) (y - dy / 2))];
      injection Epos as <- <- <- <- <- <-; do 4 eexists; repeat (split; [reflexivity|]); clear - Hdx Hdy; lia. }
  clear Epos. destruct B as (cx0 & cy0 & cx1 & cy1 & -> & -> & -> & -> & B1 & B2 & B3 & B4). rewrite !Z.add_simpl_r.
  destruct (window_in_pad im h w imp npad scim_y scim_x cx0 cy0 HR Hh Hn Hp ltac:(lia) ltac:(lia) ltac:(lia) ltac:(lia) ltac:(lia) ltac:(lia)) as (m & Em & W0).
  destruct (window_in_pad im h w imp npad sc1_y sc1_x cx1 cy1 HR Hh Hn Hp ltac:(lia) ltac:(lia) ltac:(lia) ltac:(lia) ltac:(lia) ltac:(lia)) as (m' & Em' & W1).
  assert (m' = m) by congruence. subst m'. exists m. auto.
Qed.

(** For all displacements: a window which is inside the padded image is the right one.  (No condition on the
    displacements, but on the centres.) *)
Theorem C29_inside : forall im h w imp npad scy scx cx cy,
  rect im h w -> 1 <= h -> 0 <= npad -> pad_image npad im = Ok imp -> 1 <= scy -> 1 <= scx ->
  - npad <= cy - start_for_crop scy -> cy + stop_for_crop scy <= h + npad ->
  - npad <= cx - start_for_crop scx -> cx + stop_for_crop scx <= w + npad ->
  exists m, im_min im = Ok m /\ is_window im m scy scx cx cy (crop (scy, scx) (cx + npad) (cy + npad) imp).
Proof. intros. apply (window_in_pad im h w); auto; lia. Qed.

(** C29 is refuted for larger displacements: near a corner the displacement can send the first window before
    the beginning of the padded image; the negative indices make NumPy take pixels of the opposite border.  The
    window has the requested shape, so that no error is recorded, but it is not the window at the displaced position.

    Image 12 x 12 (with pixel (i, j) equal to 12 i + j), windows 4 x 4 with overlap 1/2, displacement (8, 8) at the
    vector (10, 2). *)
Definition big_im : img := map (fun i => map (fun j => Z.of_nat (i * 12 + j)) (seq 0 12)) (seq 0 12).
Theorem C29_refuted : exists xs ys gx gy imp k x y dx dy ix0 iy0 ix1 iy1 x2 y2 m,
  let npad := npad_of (4, 4) in
  rect big_im 12 12 /\ prepare_with_image (12, 12) (4, 4) (2, 2) = Ok (xs, ys, gx, gy) /\
  pad_image npad big_im = Ok imp /\ im_min big_im = Ok m /\
  nth_error gx k = Some x /\ nth_error gy k = Some y /\
  positions_displaced (12, 12) npad x y dx dy = (((ix0, iy0), (ix1, iy1)), (x2, y2)) /\
  has_shape (4, 4) (crop (4, 4) ix0 iy0 imp) = true /\ has_shape (4, 4) (crop (4, 4) ix1 iy1 imp) = true /\
  ~ is_window big_im m 4 4 (ix0 - npad) (iy0 - npad) (crop (4, 4) ix0 iy0 imp) /\
  (* the pixel taken is the first of one of the last rows *)
  pixel (crop (4, 4) ix0 iy0 imp) 0 0 = pixel big_im 8 0.
Proof.
  destruct (prepare_with_image (12, 12) (4, 4) (2, 2)) as [[[[xs ys] gx] gy]|] eqn:E; [|vm_compute in E; discriminate].
  assert (Egx : nth_error gx 4 = Some 10) by (vm_compute in E; injection E as <- <- <- <-; reflexivity).
  assert (Egy : nth_error gy 4 = Some 2) by (vm_compute in E; injection E as <- <- <- <-; reflexivity).
  exists xs, ys, gx, gy.
  eexists. exists 4%nat, 10, 2, 8, 8, 4, (-4), 12, 4, 12, (-4), 0. cbv zeta.
  assert (HR : rect big_im 12 12).
  { split; [reflexivity|]. apply Forall_forall. intros r Hr. unfold big_im in Hr. apply in_map_iff in Hr. destruct Hr as (i & <- & _).
    unfold zlen. rewrite map_length, seq_length. reflexivity. }
  split; [exact HR|]. split; [reflexivity|]. split; [vm_compute; reflexivity|]. split; [vm_compute; reflexivity|].
  split; [exact Egx|]. split; [exact Egy|]. split; [reflexivity|]. split; [vm_compute; reflexivity|]. split; [vm_compute; reflexivity|].
  split; [|vm_compute; reflexivity].
  intros [_ H]. specialize (H 0 0 ltac:(lia) ltac:(lia)). vm_compute in H. discriminate H.
Qed.

(** the same image and vector with displacement (2, -1): within the padding (2); the second window, partly outside of
    the image, contains zeros there *)
Example C29_example :
  positions_displaced (12, 12) (npad_of (4, 4)) 10 2 2 (-1) = (((11, 5), (13, 4)), (20, 5)) /\
  (exists imp, pad_image (npad_of (4, 4)) big_im = Ok imp /\
     crop (4, 4) 13 4 imp = [[9; 10; 11; 0]; [21; 22; 23; 0]; [33; 34; 35; 0]; [45; 46; 47; 0]]).
Proof. split; [reflexivity|]. eexists. split; vm_compute; reflexivity. Qed.

(** *** the loop over the vectors *)
Section LoopProps.
Context {F C M : Type}.
Variables (nan : F) (bad_shape : M) (correl : img -> img -> C) (compute : C -> (F * F * F) + (M * (F * F * F)))
          (subpix : F -> F -> C -> (F * F) + M) (has_to_apply_subpix : bool) (scim0 scim1 : Z * Z).

(** result for one vector: dx, dy, maximum, error *)
Definition vector (im0pad im1pad : img) (p : (Z * Z) * (Z * Z)) : F * F * F * option M :=
  let im0crop := crop scim0 (fst (fst p)) (snd (fst p)) im0pad in
  let im1crop := crop scim1 (fst (snd p)) (snd (snd p)) im1pad in
  if has_shape scim0 im0crop && has_shape scim1 im1crop then
    match compute (correl im0crop im1crop) with
    | inr (e, r) => (r, Some e)
    | inl (dx, dy, m) =>
      if has_to_apply_subpix then
        match subpix dx dy (correl im0crop im1crop) with
        | inl (dx', dy') => (dx', dy', m, None)
        | inr e => (dx, dy, m, Some e)
        end
      else (dx, dy, m, None)
    end
  else (nan, nan, nan, Some bad_shape).

Definition v_dx (v : F * F * F * option M) := fst (fst (fst v)).
Definition v_dy (v : F * F * F * option M) := snd (fst (fst v)).
Definition v_max (v : F * F * F * option M) := snd (fst v).

Fixpoint errs (k : Z) (vs : list (F * F * F * option M)) : list (Z * M) :=
  match vs with
  | [] => []
  | v :: vs' => (match snd v with Some e => [(k, e)] | None => [] end) ++ errs (k + 1) vs'
  end.

Lemma update_nth_app {A} (l1 : list A) x l2 f : update_nth (List.length l1) f (l1 ++ x :: l2) = l1 ++ f x :: l2.
Proof. induction l1 as [|z l1 IH]; cbn; [reflexivity|rewrite IH; reflexivity]. Qed.

Lemma py_update_app {A} (l1 : list A) x l2 f k : k = zlen l1 -> py_update (l1 ++ x :: l2) k f = Ok (l1 ++ f x :: l2).
Proof.
  intros ->. unfold py_update, zlen. rewrite app_length. cbn [List.length].
  replace (Z.of_nat (Datatypes.length l1) <? 0) with false by lia.
  replace ((0 <=? Z.of_nat (Datatypes.length l1)) && (Z.of_nat (Datatypes.length l1) <? Z.of_nat (Datatypes.length l1 + S (Datatypes.length l2)))) with true by lia.
  rewrite Nat2Z.id, update_nth_app. reflexivity.
Qed.

Lemma errs_app k l1 l2 : errs k (l1 ++ l2) = errs k l1 ++ errs (k + zlen l1) l2.
Proof.
  revert k. induction l1 as [|v l1 IH]; intros k; cbn [app errs].
  - unfold zlen. cbn. rewrite Z.add_0_r. reflexivity.
  - rewrite IH, app_assoc. f_equal. f_equal. unfold zlen. cbn [List.length]. lia.
Qed.

Lemma loop_body_step im0pad im1pad (pos1 pos2 : list ((Z * Z) * (Z * Z))) p vs (j1 j2 j3 : F) r1 r2 r3 :
  List.length vs = List.length pos1 ->
  loop_body nan bad_shape correl compute subpix has_to_apply_subpix scim0 scim1 im0pad im1pad (pos1 ++ p :: pos2)
    (mk_loop (map v_dx vs ++ j1 :: r1) (map v_dy vs ++ j2 :: r2) (map v_max vs ++ j3 :: r3) (errs 0 vs)) (zlen pos1) =
  let v := vector im0pad im1pad p in
  Ok (mk_loop (map v_dx (vs ++ [v]) ++ r1) (map v_dy (vs ++ [v]) ++ r2) (map v_max (vs ++ [v]) ++ r3) (errs 0 (vs ++ [v]))).
Proof.
  intros Hl. unfold loop_body.
  assert (Hg : py_get (pos1 ++ p :: pos2) (zlen pos1) = Ok p).
  { unfold py_get, zlen. rewrite app_length. cbn [List.length].
    replace (Z.of_nat (Datatypes.length pos1) <? 0) with false by lia.
    replace ((0 <=? Z.of_nat (Datatypes.length pos1)) && (Z.of_nat (Datatypes.length pos1) <? Z.of_nat (Datatypes.length pos1 + S (Datatypes.length pos2)))) with true by lia.
    rewrite Nat2Z.id, nth_error_app2, Nat.sub_diag by lia. reflexivity. }
  rewrite Hg. cbn [bind]. destruct p as [[ix0 iy0] [ix1 iy1]].
  cbn [l_dx l_dy l_max l_err].
  assert (L : forall g : (F * F * F * option M) -> F, zlen pos1 = zlen (map g vs)) by (intros g; unfold zlen; rewrite map_length; lia).
  rewrite errs_app, !map_app, <- !app_assoc. cbn [app map errs]. rewrite app_nil_r.
  replace (0 + zlen vs) with (zlen pos1) by (unfold zlen; lia).
  unfold vector. cbn [fst snd].
  set (c0 := crop scim0 ix0 iy0 im0pad). set (c1 := crop scim1 ix1 iy1 im1pad).
  destruct (has_shape scim0 c0 && has_shape scim1 c1); cbn [negb].
  - destruct (compute (correl c0 c1)) as [[[dx dy] m]|[e [[dx dy] m]]].
    + destruct has_to_apply_subpix.
      * destruct (subpix dx dy (correl c0 c1)) as [[dx' dy']|e]; rewrite !py_update_app by apply L; cbn [bind v_dx v_dy v_max fst snd]; [rewrite app_nil_r|]; reflexivity.
      * rewrite !py_update_app by apply L; cbn [bind v_dx v_dy v_max fst snd]. rewrite app_nil_r. reflexivity.
    + rewrite !py_update_app by apply L; cbn [bind v_dx v_dy v_max fst snd]. reflexivity.
  - rewrite !py_update_app by apply L; cbn [bind v_dx v_dy v_max fst snd]. reflexivity.
Qed.

(** the loop computes each vector from its own windows and records the errors under the indices of the vectors *)
Theorem C29_loop : forall junk im0pad im1pad pos,
  let vs := map (vector im0pad im1pad) pos in
  loop_vectors nan bad_shape correl compute subpix has_to_apply_subpix scim0 scim1 junk im0pad im1pad pos =
  Ok (mk_loop (map v_dx vs) (map v_dy vs) (map v_max vs) (errs 0 vs)).
Proof.
  intros junk im0pad im1pad pos vs. unfold loop_vectors.
  assert (G : forall pos2 pos1, pos = pos1 ++ pos2 ->
    let vs1 := map (vector im0pad im1pad) pos1 in let n := List.length pos2 in
    py_for (loop_body nan bad_shape correl compute subpix has_to_apply_subpix scim0 scim1 im0pad im1pad pos)
      (map Z.of_nat (seq (List.length pos1) n))
      (mk_loop (map v_dx vs1 ++ repeat junk n) (map v_dy vs1 ++ repeat junk n) (map v_max vs1 ++ repeat junk n) (errs 0 vs1)) =
    Ok (mk_loop (map v_dx vs) (map v_dy vs) (map v_max vs) (errs 0 vs))).
  { induction pos2 as [|p pos2 IH]; intros pos1 E; cbv zeta.
    - cbn [List.length seq map py_for repeat]. rewrite app_nil_r in E. subst pos1. rewrite !app_nil_r. reflexivity.
    - cbn [List.length seq map py_for repeat]. rewrite E. fold (zlen pos1).
      rewrite loop_body_step by (rewrite map_length; reflexivity). cbv zeta.
      specialize (IH (pos1 ++ [p])). rewrite <- app_assoc in IH. specialize (IH E). cbv zeta in IH.
      rewrite map_app in IH. cbn [map] in IH. rewrite app_length in IH. cbn [List.length] in IH. rewrite Nat.add_1_r in IH.
      rewrite <- E. exact IH. }
  specialize (G pos [] eq_refl). cbv zeta in G. cbn [map app List.length errs] in G. unfold range0, py_repeat.
  unfold zlen. rewrite Nat2Z.id. exact G.
Qed.

(** an error is recorded for the vector k if and only if ... *)
Lemma errs_In vs : forall k0 k e, In (k, e) (errs k0 vs) <-> exists v, nth_error vs (Z.to_nat (k - k0)) = Some v /\ k0 <= k /\ snd v = Some e.
Proof.
  induction vs as [|v vs IH]; intros k0 k e; cbn [errs].
  - split; [intros []|intros (v & H & _); destruct (Z.to_nat (k - k0)); discriminate].
  - rewrite in_app_iff, IH. split.
    + intros [H|(w & H & Hk & Hw)].
      * destruct (snd v) as [e'|] eqn:Ev; [|destruct H]. destruct H as [H|[]]. injection H as -> ->. exists v.
        rewrite Z.sub_diag. cbn. repeat split; auto; lia.
      * exists w. replace (Z.to_nat (k - k0)) with (S (Z.to_nat (k - (k0 + 1)))) by lia. cbn. repeat split; auto; lia.
    + intros (w & H & Hk & Hw). destruct (Z.to_nat (k - k0)) as [|n] eqn:En.
      * left. cbn in H. injection H as ->. rewrite Hw. left. f_equal. lia.
      * right. exists w. cbn in H. replace (Z.to_nat (k - (k0 + 1))) with n by lia. repeat split; auto; lia.
Qed.
End LoopProps.

Print Assumptions C28_rejected.
Print Assumptions C28_regular.
Print Assumptions C28_coverage.
Print Assumptions C28_windows.
Print Assumptions C28_grid.
Print Assumptions C29_difference.
Print Assumptions C29_windows_partial.
Print Assumptions C29_refuted.
Print Assumptions C29_loop.

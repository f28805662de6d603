(** C82, C83: correction of the phases and heights in the surface tracking. *)
From Coq Require Import Reals Lra ZArith List Bool Lia.
From Verif Require Import PyBase StrModel FloatBase SurfPhaseModel SurfFrameProps.
Import ListNotations.
Local Open Scope R_scope.

(** ** C82 *)

(** the array moved by a constant *)
Definition shifted (x : R) (a : array) : array := map (map (fun v => fadd v (Fin x))) a.

Lemma py_get_map {A B} (f : A -> B) l i : py_get (map f l) i = match py_get l i with Ok a => Ok (f a) | Err e => Err e end.
Proof.
  unfold py_get, zlen. rewrite map_length. destruct (_ && _)%bool; [|reflexivity]. rewrite nth_error_map. destruct (nth_error l _); reflexivity.
Qed.
Lemma get2_map (f : fl -> fl) a i j : get2 (map (map f) a) i j = match get2 a i j with Ok v => Ok (f v) | Err e => Err e end.
Proof. unfold get2. rewrite py_get_map. destruct (py_get a i) as [l|e]; [|reflexivity]. cbn [bind]. apply py_get_map. Qed.
Lemma shifted_0 a : shifted 0 a = a.
Proof.
  unfold shifted. rewrite (map_ext _ (fun l => l)), map_id; [reflexivity|]. intros l. rewrite (map_ext _ (fun v => v)), map_id; [reflexivity|].
  intros [| | |x]; cbn [fadd]; try reflexivity. f_equal. ring.
Qed.
Lemma shifted_shifted x y a : shifted x (shifted y a) = shifted (y + x) a.
Proof.
  unfold shifted. rewrite map_map. apply map_ext. intros l. rewrite map_map. apply map_ext. intros [| | |v]; cbn [fadd]; try reflexivity. f_equal. ring.
Qed.

Lemma loop_step fuel fy fx mod_ cur a m :
  get2 cur fy fx = Ok (Fin a) -> get2 mod_ fy fx = Ok (Fin m) ->
  correct_loop fuel fy fx mod_ cur =
  if Rlt_dec PI (Rabs (a - m)) then
    match fuel with O => Err OutOfFuel | S fuel' => correct_loop fuel' fy fx mod_ (shifted (if Rlt_dec m a then - (2 * PI) else 2 * PI) cur) end
  else Ok cur.
Proof.
  intros Ha Hm. destruct fuel as [|fuel]; cbn [correct_loop]; rewrite Ha; cbn [bind]; rewrite Hm; cbn [bind fsub fadd fneg fabs fltb];
    replace (a + - m) with (a - m) by ring; destruct (Rlt_dec PI (Rabs (a - m))) as [H|H]; try reflexivity.
  f_equal. unfold shifted. apply map_ext. intros l. apply map_ext. intros v. cbn [fsub fadd fneg fsign].
  pose proof PI_RGT_0.
  destruct (Rlt_dec 0 (a - m)) as [H1|H1].
  - destruct (Rlt_dec m a); [|lra]. unfold fsub; destruct v; cbn [fmul fneg fadd]; try reflexivity. f_equal. ring.
  - destruct (Rlt_dec (a - m) 0) as [H2|H2].
    + destruct (Rlt_dec m a); [lra|]. unfold fsub; destruct v; cbn [fmul fneg fadd]; try reflexivity. f_equal. ring.
    + exfalso. assert (E : a - m = 0) by lra. rewrite E, Rabs_R0 in H. lra.
Qed.

Lemma loop_ends mod_ fy fx m : get2 mod_ fy fx = Ok (Fin m) ->
  forall N cur a, get2 cur fy fx = Ok (Fin a) -> Rabs (a - m) <= PI + 2 * PI * INR N ->
  forall fuel, (N <= fuel)%nat ->
  exists k : Z, correct_loop fuel fy fx mod_ cur = Ok (shifted (2 * PI * IZR k) cur) /\
    Rabs (a + 2 * PI * IZR k - m) <= PI /\ (Rabs (a - m) <= PI -> k = 0%Z).
Proof.
  intros Hm. pose proof PI_RGT_0 as HPI. induction N as [|N IH]; intros cur a Ha HN fuel Hf.
  - rewrite (loop_step _ _ _ _ _ a m Ha Hm). cbn [INR] in HN. destruct (Rlt_dec PI (Rabs (a - m))) as [H|H]; [lra|].
    exists 0%Z. rewrite Rmult_0_r, shifted_0. split; [reflexivity|]. split; [|reflexivity]. replace (a + 0 - m) with (a - m) by ring. lra.
  - rewrite (loop_step _ _ _ _ _ a m Ha Hm). destruct (Rlt_dec PI (Rabs (a - m))) as [H|H].
    + destruct fuel as [|fuel]; [lia|]. rewrite S_INR in HN.
      set (d := if Rlt_dec m a then - (2 * PI) else 2 * PI).
      destruct (IH (shifted d cur) (a + d)) with (fuel := fuel) as (k & E & Hk & _).
      * unfold shifted. rewrite get2_map, Ha. reflexivity.
      * pose proof (pos_INR N). assert (0 <= 2 * PI * INR N) by nra. unfold d. destruct (Rlt_dec m a) as [L|L].
        -- rewrite (Rabs_right (a - m)) in * by lra. apply Rabs_le. lra.
        -- rewrite (Rabs_left1 (a - m)) in * by lra. apply Rabs_le. lra.
      * lia.
      * unfold d in *. destruct (Rlt_dec m a) as [L|L].
        -- exists (k - 1)%Z. rewrite E, shifted_shifted. rewrite minus_IZR. split; [f_equal; f_equal; ring|]. split; [|intros; lra].
           replace (a + 2 * PI * (IZR k - 1) - m) with (a + - (2 * PI) + 2 * PI * IZR k - m) by ring. exact Hk.
        -- exists (k + 1)%Z. rewrite E, shifted_shifted. rewrite plus_IZR. split; [f_equal; f_equal; ring|]. split; [|intros; lra].
           replace (a + 2 * PI * (IZR k + 1) - m) with (a + 2 * PI + 2 * PI * IZR k - m) by ring. exact Hk.
    + exists 0%Z. rewrite Rmult_0_r, shifted_0. split; [reflexivity|]. split; [|reflexivity]. replace (a + 0 - m) with (a - m) by ring. lra.
Qed.

Lemma enough_turns x : exists N, x <= PI + 2 * PI * INR N.
Proof.
  pose proof PI_RGT_0. destruct (Rle_dec x PI) as [Hx|Hx].
  - exists 0%nat. cbn [INR]. lra.
  - destruct (archimed ((x - PI) / (2 * PI))) as [H1 _]. set (z := up ((x - PI) / (2 * PI))) in *.
    assert (Hp : 0 < (x - PI) / (2 * PI)) by (apply Rdiv_lt_0_compat; lra).
    assert (Hz : (0 <= z)%Z) by (apply le_IZR; lra).
    exists (Z.to_nat z). rewrite INR_IZR_INZ, Z2Nat.id by exact Hz.
    assert (x - PI < 2 * PI * IZR z); [|lra].
    replace (x - PI) with (2 * PI * ((x - PI) / (2 * PI))) by (field; lra). apply Rmult_lt_compat_l; lra.
Qed.

(** The correction ends; the whole array is moved by the same multiple of 2 pi, such that at the reference
    pixel the phase is within pi of the one of the previous image (no move if it was already). *)
Theorem C82_correction : forall l_y l_x red_factor anglemod angle a m,
  get2 angle (fix_index l_y 20 red_factor) (fix_index l_x 2 red_factor) = Ok (Fin a) ->
  get2 anglemod (fix_index l_y 20 red_factor) (fix_index l_x 2 red_factor) = Ok (Fin m) ->
  exists turns, forall fuel, (turns <= fuel)%nat ->
  exists k : Z, correctcouple fuel l_y l_x red_factor anglemod angle = Ok (shifted (2 * PI * IZR k) angle) /\
    Rabs (a + 2 * PI * IZR k - m) <= PI /\ (Rabs (a - m) <= PI -> k = 0%Z).
Proof.
  intros l_y l_x r mod_ angle a m Ha Hm. destruct (enough_turns (Rabs (a - m))) as (N & HN). exists N. intros fuel Hf.
  exact (loop_ends mod_ _ _ m Hm N angle a Ha HN fuel Hf).
Qed.
Print Assumptions C82_correction.

(** The reference pixel is in the array ([process_frame] keeps one line and one column out of [red_factor]). *)
Theorem C82_pixel_in_array : forall l_y l_x red_factor (angle : array),
  (1 <= l_y)%Z -> (1 <= l_x)%Z -> (1 <= red_factor)%Z ->
  zlen angle = ((l_y - 1) / red_factor + 1)%Z -> (forall line, In line angle -> zlen line = ((l_x - 1) / red_factor + 1)%Z) ->
  exists v, get2 angle (fix_index l_y 20 red_factor) (fix_index l_x 2 red_factor) = Ok v.
Proof.
  intros l_y l_x r angle Hy Hx Hr HL HW.
  assert (HI : forall n d, (1 <= n)%Z -> (2 <= d)%Z -> (0 <= fix_index n d r < (n - 1) / r + 1)%Z).
  { intros n d Hn Hd. unfold fix_index. rewrite Z.quot_div_nonneg by nia. split; [apply Z.div_pos; nia|].
    rewrite (Z.mul_comm d r), <- Z.div_div by lia. assert (HM := Z.div_mod n r ltac:(lia)). pose proof (Z.mod_pos_bound n r ltac:(lia)).
    destruct (Z.eq_dec (n / r) 0) as [E|E].
    - rewrite E. rewrite Z.div_0_l by lia. pose proof (Z.div_pos (n - 1) r ltac:(lia) ltac:(lia)). lia.
    - assert (0 < n / r)%Z by (pose proof (Z.div_pos n r ltac:(lia) ltac:(lia)); lia).
      assert (n / r / d < n / r)%Z by (apply Z.div_lt; lia).
      assert (n / r <= (n - 1) / r + 1)%Z. { rewrite <- (Z.div_add (n - 1) 1 r) by lia. apply Z.div_le_mono; lia. } lia. }
  unfold get2. pose proof (HI l_y 20%Z Hy ltac:(lia)) as H1. pose proof (HI l_x 2%Z Hx ltac:(lia)) as H2.
  assert (HG : forall {A} (l : list A) i, (0 <= i < zlen l)%Z -> exists v, py_get l i = Ok v /\ In v l).
  { intros A l i Hi. unfold py_get. replace (i <? 0)%Z with false by lia. replace ((0 <=? i) && (i <? zlen l))%Z with true by lia.
    destruct (nth_error l (Z.to_nat i)) as [v|] eqn:E; [exists v; split; [reflexivity|eapply nth_error_In; exact E]|]. apply nth_error_None in E. unfold zlen in Hi. lia. }
  destruct (HG _ angle (fix_index l_y 20 r) ltac:(lia)) as (line & -> & Hin). cbn [bind].
  destruct (HG _ line (fix_index l_x 2 r)) as (v & -> & _); [rewrite (HW line Hin); lia|]. exists v. reflexivity.
Qed.
Print Assumptions C82_pixel_in_array.

(** Along a series: each image is moved by a multiple of 2 pi, and the phases at the reference pixel of two
    successive corrected images differ by at most pi. *)
Theorem C82_series : forall l_y l_x red_factor previous p (angles : list array) (refs : list R),
  let pixel_ref a := get2 a (fix_index l_y 20 red_factor) (fix_index l_x 2 red_factor) in
  pixel_ref previous = Ok (Fin p) -> Forall2 (fun angle a => pixel_ref angle = Ok (Fin a)) angles refs ->
  exists turns, forall fuel, (turns <= fuel)%nat ->
  exists ks : list Z,
    correct_series fuel l_y l_x red_factor previous angles = Ok (map2 (fun k angle => shifted (2 * PI * IZR k) angle) ks angles) /\
    List.length ks = List.length angles /\
    forall i a k, nth_error refs i = Some a -> nth_error ks i = Some k ->
      let before := match i with
                    | O => Some p
                    | S i' => match nth_error refs i', nth_error ks i' with Some a', Some k' => Some (a' + 2 * PI * IZR k') | _, _ => None end
                    end in
      exists b, before = Some b /\ Rabs (a + 2 * PI * IZR k - b) <= PI.
Proof.
  intros l_y l_x r previous p angles refs pixel_ref Hp HF. revert previous p Hp. induction HF as [|angle a angles refs Ha HF IH]; intros previous p Hp.
  - exists O. intros fuel _. exists []. split; [reflexivity|]. split; [reflexivity|]. intros [|i] a k Hi; discriminate.
  - destruct (C82_correction l_y l_x r previous angle a p Ha Hp) as (N1 & H1).
    destruct (H1 N1 (Nat.le_refl _)) as (k0 & E0 & _ & _).
    (* the number of turns does not depend on the fuel *)
    assert (Hfix : forall fuel, (N1 <= fuel)%nat -> exists k, correctcouple fuel l_y l_x r previous angle = Ok (shifted (2 * PI * IZR k) angle) /\ Rabs (a + 2 * PI * IZR k - p) <= PI /\ 
       correctcouple fuel l_y l_x r previous angle = correctcouple N1 l_y l_x r previous angle).
    { intros fuel Hf. destruct (H1 fuel Hf) as (k & E & Hk & _). exists k. split; [exact E|]. split; [exact Hk|].
      assert (HM : forall n fy fx mod_ cur n' v, (n <= n')%nat -> correct_loop n fy fx mod_ cur = Ok v -> correct_loop n' fy fx mod_ cur = Ok v).
      { clear. induction n as [|n IHn]; intros fy fx mod_ cur n' v Hle HE.
        - cbn [correct_loop] in HE. destruct n'; cbn [correct_loop]; [exact HE|].
          destruct (get2 cur fy fx) as [x|e]; [|exact HE]. cbn [bind] in *. destruct (get2 mod_ fy fx) as [y|e]; [|exact HE]. cbn [bind] in *.
          destruct (fltb _ _); [discriminate|exact HE].
        - destruct n' as [|n']; [lia|]. cbn [correct_loop] in HE |- *.
          destruct (get2 cur fy fx) as [x|e]; [|exact HE]. cbn [bind] in *. destruct (get2 mod_ fy fx) as [y|e]; [|exact HE]. cbn [bind] in *.
          destruct (fltb _ _); [|exact HE]. apply (IHn _ _ _ _ n'); [lia|exact HE]. }
      rewrite E0. unfold correctcouple in *. eapply HM; eassumption. }
    destruct (Hfix N1 (Nat.le_refl _)) as (k & Ek & Hk & _).
    assert (Hc : pixel_ref (shifted (2 * PI * IZR k) angle) = Ok (Fin (a + 2 * PI * IZR k))) by (unfold pixel_ref, shifted; rewrite get2_map; unfold pixel_ref in Ha; rewrite Ha; reflexivity).
    destruct (IH _ _ Hc) as (N2 & H2). exists (Nat.max N1 N2). intros fuel Hf.
    destruct (H2 fuel ltac:(lia)) as (ks & Es & Hl & Hs). exists (k :: ks).
    cbn [correct_series]. destruct (Hfix fuel ltac:(lia)) as (k' & Ek' & _ & Eq). rewrite Eq, Ek. cbn [bind]. rewrite Es. cbn [bind].
    split; [reflexivity|]. split; [cbn [List.length]; rewrite Hl; reflexivity|].
    intros [|i] a1 k1 E1 E2; cbn [nth_error] in E1, E2.
    + injection E1 as <-. injection E2 as <-. exists p. split; [reflexivity|exact Hk].
    + destruct (Hs i a1 k1 E1 E2) as (b & Eb & Hb). exists b. split; [|exact Hb]. destruct i as [|i]; cbn [nth_error] in Eb |- *; exact Eb.
Qed.
Print Assumptions C82_series.

(** With an infinite phase at the reference pixel the loop never ends. *)
Theorem C82_infinite_refuted : forall fuel l_y l_x red_factor anglemod angle m,
  get2 angle (fix_index l_y 20 red_factor) (fix_index l_x 2 red_factor) = Ok PInf ->
  get2 anglemod (fix_index l_y 20 red_factor) (fix_index l_x 2 red_factor) = Ok (Fin m) ->
  correctcouple fuel l_y l_x red_factor anglemod angle = Err OutOfFuel.
Proof.
  intros fuel l_y l_x r mod_ angle m Ha Hm. unfold correctcouple. revert angle Ha. induction fuel as [|fuel IH]; intros angle Ha; cbn [correct_loop];
    rewrite Ha; cbn [bind]; rewrite Hm; cbn [bind fsub fneg fadd fabs fltb]; [reflexivity|].
  apply IH. rewrite get2_map, Ha. cbn [fsign fmul fsub fneg fadd]. reflexivity.
Qed.
Print Assumptions C82_infinite_refuted.

(** a phase 5 pi too high: two turns *)
Example C82_example : correctcouple 2 1 1 1 [[Fin 0]] [[Fin (5 * PI)]] = Ok [[Fin (5 * PI + - (2 * PI) + - (2 * PI))]].
Proof.
  unfold correctcouple. change (fix_index 1 20 1) with 0%Z. change (fix_index 1 2 1) with 0%Z. pose proof PI_RGT_0 as HP.
  rewrite (loop_step 2 0 0 [[Fin 0]] [[Fin (5 * PI)]] (5 * PI) 0 eq_refl eq_refl).
  destruct (Rlt_dec PI (Rabs (5 * PI - 0))) as [_|H]; [|rewrite Rabs_right in H by lra; lra]. destruct (Rlt_dec 0 (5 * PI)); [|lra]. cbn [shifted map fadd].
  rewrite (loop_step 1 0 0 [[Fin 0]] [[Fin (5 * PI + - (2 * PI))]] (5 * PI + - (2 * PI)) 0 eq_refl eq_refl).
  destruct (Rlt_dec PI (Rabs (5 * PI + - (2 * PI) - 0))) as [_|H]; [|rewrite Rabs_right in H by lra; lra]. destruct (Rlt_dec 0 (5 * PI + - (2 * PI))); [|lra]. cbn [shifted map fadd].
  rewrite (loop_step 0 0 0 [[Fin 0]] [[Fin (5 * PI + - (2 * PI) + - (2 * PI))]] (5 * PI + - (2 * PI) + - (2 * PI)) 0 eq_refl eq_refl).
  destruct (Rlt_dec PI (Rabs (5 * PI + - (2 * PI) + - (2 * PI) - 0))) as [H|_]; [rewrite Rabs_right in H by lra; lra|]. reflexivity.
Qed.

(** ** C83 *)

(** The phase of a point of height [h] for a camera at the distance [dist] and a projector at [dist_p_c] from it. *)
Definition phase_of_height (c : phase_conf) (h : R) : R :=
  2 * PI / p_wave_len c * p_dist_p_c c * h / (h - p_dist c).

Theorem C83_height_of_phase : forall c h,
  p_wave_len c <> 0 -> p_dist_p_c c <> 0 -> p_dist c <> 0 -> h <> p_dist c ->
  height_of c (Fin (phase_of_height c h)) = Fin h.
Proof.
  intros c h Hw Hd HL Hh. unfold height_of, phase_of_height. cbn [fmul fsub fneg fadd fdiv]. pose proof PI_RGT_0 as HP.
  set (w := 2 * PI / p_wave_len c * p_dist_p_c c).
  assert (Hw0 : w <> 0). { unfold w, Rdiv. apply Rmult_integral_contrapositive_currified; [|assumption]. apply Rmult_integral_contrapositive_currified; [lra|]. apply Rinv_neq_0_compat. assumption. }
  assert (HhL : h - p_dist c <> 0) by lra.
  assert (E : w * h / (h - p_dist c) + - w = w * p_dist c / (h - p_dist c)) by (field; exact HhL). rewrite E.
  destruct (Req_EM_T (w * p_dist c / (h - p_dist c)) 0) as [E0|N0].
  - exfalso. apply (Rmult_integral_contrapositive_currified w (p_dist c) Hw0 HL).
    apply (Rmult_eq_compat_r (h - p_dist c)) in E0. replace (w * p_dist c / (h - p_dist c) * (h - p_dist c)) with (w * p_dist c) in E0 by (field; exact HhL). lra.
  - f_equal. field. auto.
Qed.
Print Assumptions C83_height_of_phase.

(** *** The position correction: all the displacements are set to zero *)
Lemma zero_but_last_spec (a : array) : (1 <= List.length a)%nat ->
  zero_but_last a = map (fun line => zeros_like line) (removelast a) ++ [last a []].
Proof.
  intros H. unfold zero_but_last.
  assert (HG : forall (l : array) k n, (1 <= List.length l)%nat -> (k + List.length l = n)%nat ->
    map (fun '(i, line) => if (i <? n - 1)%nat then zeros_like line else line) (combine (seq k (List.length l)) l) = map (fun line => zeros_like line) (removelast l) ++ [last l []]).
  { induction l as [|x l IH]; intros k n Hl Hk; [cbn in Hl; lia|]. destruct l as [|y l].
    - cbn [List.length] in *. cbn [seq combine map removelast last app]. replace (k <? n - 1)%nat with false by lia. reflexivity.
    - change (List.length (x :: y :: l)) with (S (List.length (y :: l))). cbn [seq combine map].
      change (removelast (x :: y :: l)) with (x :: removelast (y :: l)). change (last (x :: y :: l) []) with (last (y :: l) []). cbn [map app].
      replace (k <? n - 1)%nat with true by (cbn [List.length] in Hk; lia). f_equal. apply IH; cbn [List.length] in *; lia. }
  apply (HG a 0%nat); [exact H|reflexivity].
Qed.

Lemma zeros_like_length l : List.length (zeros_like l) = List.length l. Proof. apply map_length. Qed.
Lemma update_last {A} (f : A -> A) (l : list A) d : (1 <= List.length l)%nat -> update_nth (List.length l - 1) f l = removelast l ++ [f (last l d)].
Proof.
  induction l as [|x l IH]; intros H; [cbn in H; lia|]. destruct l as [|y l]; [reflexivity|].
  change (List.length (x :: y :: l) - 1)%nat with (S (List.length (y :: l) - 1) ) || replace (List.length (x :: y :: l) - 1)%nat with (S (List.length (y :: l) - 1)) by (cbn; lia).
  change (removelast (x :: y :: l)) with (x :: removelast (y :: l)). change (last (x :: y :: l) d) with (last (y :: l) d).
  cbn [update_nth app]. f_equal. apply IH. cbn. lia.
Qed.

Lemma zero_edges_spec ld Ld (a : array) : (2 <= ld)%nat -> (2 <= Ld)%nat -> List.length a = ld -> rectangular Ld a ->
  zero_edges a = Ok (repeat (repeat (Fin 0) Ld) ld).
Proof.
  intros Hl HL Ha HR. unfold zero_edges.
  assert (HZ : forall line, List.length line = Ld -> zeros_like line = repeat (Fin 0) Ld).
  { intros line <-. unfold zeros_like. clear. induction line as [|x l IH]; [reflexivity|]. cbn. rewrite IH. reflexivity. }
  unfold zero_line at 1, py_update. cbv zeta. change (1 <? 0)%Z with false. cbn iota. replace ((0 <=? 1) && (1 <? zlen a))%Z with true by (unfold zlen; lia). cbn [bind].
  set (a1 := update_nth (Z.to_nat 1) zeros_like a).
  assert (HUl : forall {A} (f : A -> A) l n, List.length (update_nth n f l) = List.length l) by (intros A f l; induction l as [|x l IH]; intros [|n]; cbn; auto).
  assert (HUi : forall {A} (f : A -> A) l n x, In x (update_nth n f l) -> In x l \/ exists y, In y l /\ x = f y).
  { intros A f l. induction l as [|y l IH]; intros [|n] x Hx; cbn in Hx; try contradiction.
    - destruct Hx as [<-|Hx]; [right; exists y; split; [left|]; reflexivity|left; right; exact Hx].
    - destruct Hx as [<-|Hx]; [left; left; reflexivity|]. destruct (IH n x Hx) as [H|(z & H1 & H2)]; [left; right; exact H|right; exists z; split; [right|]; assumption]. }
  assert (H1 : List.length a1 = ld) by (unfold a1; rewrite HUl; exact Ha).
  assert (R1 : rectangular Ld a1). { intros x Hx. apply HUi in Hx. destruct Hx as [Hx|(y & Hy & ->)]; [apply HR, Hx|rewrite zeros_like_length; apply HR, Hy]. }
  clearbody a1. unfold zero_line, py_update. change (-1 <? 0)%Z with true. cbn iota beta zeta. replace ((0 <=? -1 + zlen a1) && (-1 + zlen a1 <? zlen a1))%Z with true by (unfold zlen; lia). cbn [bind].
  replace (Z.to_nat (-1 + zlen a1)) with (List.length a1 - 1)%nat by (unfold zlen; lia).
  rewrite (update_last zeros_like a1 []) by lia.
  set (a2 := removelast a1 ++ [zeros_like (last a1 [])]).
  assert (Hlast : In (last a1 []) a1). { destruct a1 as [|x l]; [cbn in H1; lia|]. clear. revert x. induction l as [|y l IH]; intros x; [left; reflexivity|]. right. apply IH. }
  assert (Hrem : forall x, In x (removelast a1) -> In x a1). { clear. induction a1 as [|y l IH]; intros x Hx; [contradiction|]. destruct l as [|z l]; [contradiction|]. destruct Hx as [->|Hx]; [left; reflexivity|right; apply IH, Hx]. }
  assert (Hreml : List.length (removelast a1) = (ld - 1)%nat). { assert (E := app_removelast_last [] (l := a1) ltac:(destruct a1; [cbn in H1; lia|discriminate])). apply (f_equal (@List.length _)) in E. rewrite app_length in E. cbn in E. lia. }
  assert (R2 : forall x, In x (removelast a1) -> List.length x = Ld) by (intros x Hx; apply R1, Hrem, Hx).
  (* third step: a column *)
  set (col := fun line : list fl => update_nth (Z.to_nat 1) (fun _ => Fin 0) line).
  assert (E3 : zero_column 1 a2 = Ok (map col a2)).
  { unfold zero_column. apply map_result_ok. intros line Hin. unfold py_update. change (1 <? 0)%Z with false.
    assert (HLl : List.length line = Ld). { unfold a2 in Hin. apply in_app_or in Hin. destruct Hin as [Hin|[<-|[]]]; [apply R2, Hin|rewrite zeros_like_length; apply R1, Hlast]. }
    cbn iota beta zeta. replace ((0 <=? 1) && (1 <? zlen line))%Z with true by (unfold zlen; lia). reflexivity. }
  rewrite E3. cbn [bind]. f_equal. unfold a2. rewrite map_app. cbn [map].
  assert (Ecol : col (zeros_like (last a1 [])) = repeat (Fin 0) Ld).
  { rewrite (HZ _ (R1 _ Hlast)). unfold col. destruct Ld as [|[|L]]; try lia. reflexivity. }
  rewrite Ecol. rewrite zero_but_last_spec by (rewrite app_length; cbn; lia).
  rewrite removelast_app by discriminate. cbn [removelast]. rewrite app_nil_r. rewrite last_last.
  rewrite map_map. rewrite (map_ext_in _ (fun _ => repeat (Fin 0) Ld)).
  - assert (ER : forall {A B} (v : B) (l : list A), map (fun _ => v) l = repeat v (List.length l)) by (intros A B v l; induction l; cbn; congruence).
    rewrite ER, Hreml. change [repeat (Fin 0) Ld] with (repeat (repeat (Fin 0) Ld) 1). rewrite <- repeat_app. f_equal. lia.
  - intros line Hin. rewrite HZ; [reflexivity|]. unfold col. rewrite HUl. apply R2, Hin.
Qed.

Lemma map2_add_zero (M : array) ld Ld : List.length M = ld -> (forall line, In line M -> List.length line = Ld /\ forall v, In v line -> exists x, v = Fin x) ->
  map2 (map2 fadd) M (repeat (repeat (Fin 0) Ld) ld) = M.
Proof.
  intros <- H. induction M as [|line M IH]; [reflexivity|]. cbn [List.length repeat]. unfold map2 at 1. cbn [combine map fst snd]. f_equal.
  - destruct (H line (or_introl eq_refl)) as [HL HV]. clear - HL HV. subst Ld. induction line as [|v line IH]; [reflexivity|]. cbn [List.length repeat]. unfold map2. cbn [combine map fst snd]. f_equal.
    + destruct (HV v (or_introl eq_refl)) as [x ->]. cbn [fadd]. f_equal. ring.
    + apply IH. intros; apply HV; right; assumption.
  - apply IH. intros l Hl. apply H. right. exact Hl.
Qed.

(** the interpolation at the data points gives the data, for arrays of this shape *)
Definition exact_at_data (griddata : list (fl * fl) -> list fl -> list (list (fl * fl)) -> result array) (ld Ld : nat) : Prop :=
  forall X Y values : array,
  List.length X = ld -> List.length Y = ld -> List.length values = ld -> rectangular Ld X -> rectangular Ld Y -> rectangular Ld values ->
  griddata (combine (List.concat X) (List.concat Y)) (List.concat values) (map2 (@combine fl fl) X Y) = Ok values.

(** Whatever the phases, the correction of the positions changes nothing. *)
Theorem C83_correct_pos_refuted : forall griddata pix dist dpc wl red ch ref_height (phase : array) ld Ld,
  exact_at_data griddata ld Ld ->
  (2 <= ld)%nat -> (2 <= Ld)%nat -> List.length phase = ld -> rectangular Ld phase ->
  convphase griddata (mk_pconf pix dist dpc wl red true ch) ref_height phase =
  convphase griddata (mk_pconf pix dist dpc wl red false ch) ref_height phase.
Proof.
  intros griddata pix dist dpc wl red ch ref_height phase ld Ld HG Hl HL Hp HR.
  unfold convphase. cbn [p_correct_pos p_correct_height].
  set (c := mk_pconf pix dist dpc wl red true ch).
  assert (EH : map (map (height_of (mk_pconf pix dist dpc wl red false ch))) phase = map (map (height_of c)) phase) by reflexivity. rewrite EH.
  set (height := map (map (height_of c)) phase).
  assert (EL : match phase with line :: _ => List.length line | [] => 0%nat end = Ld) by (destruct phase as [|l p]; [cbn in Hp; lia|]; apply HR; left; reflexivity).
  rewrite EL, Hp.
  set (X := map (fun i => map (fun j => Fin (coord c Ld j)) (seq 0 Ld)) (seq 0 ld)).
  set (Y := map (fun i => map (fun j => Fin (coord c ld i)) (seq 0 Ld)) (seq 0 ld)).
  assert (HS : forall M : array, List.length M = ld -> rectangular Ld M ->
     zero_edges (map2 (map2 (fun x h => fmul (fdiv (fneg x) (Fin (p_dist c))) h)) M height) = Ok (repeat (repeat (Fin 0) Ld) ld)).
  { intros M HM HMr. apply zero_edges_spec; try assumption.
    - unfold map2. rewrite map_length, combine_length, HM. unfold height. rewrite map_length. lia.
    - intros line Hin. unfold map2 at 1 in Hin. apply in_map_iff in Hin. destruct Hin as ([x h] & <- & Hin). cbn [fst snd]. unfold map2. rewrite map_length, combine_length.
      rewrite (HMr x) by (eapply in_combine_l; exact Hin). apply in_combine_r in Hin. unfold height in Hin. apply in_map_iff in Hin. destruct Hin as (l0 & <- & Hl0). rewrite map_length, (HR l0 Hl0). lia. }
  assert (HX : List.length X = ld) by (unfold X; rewrite map_length, seq_length; reflexivity).
  assert (HY : List.length Y = ld) by (unfold Y; rewrite map_length, seq_length; reflexivity).
  assert (HXl : forall line, In line X -> List.length line = Ld /\ forall v, In v line -> exists x, v = Fin x).
  { intros line Hin. unfold X in Hin. apply in_map_iff in Hin. destruct Hin as (i & <- & _). split; [rewrite map_length, seq_length; reflexivity|]. intros v Hv. apply in_map_iff in Hv. destruct Hv as (j & <- & _). eexists; reflexivity. }
  assert (HYl : forall line, In line Y -> List.length line = Ld /\ forall v, In v line -> exists x, v = Fin x).
  { intros line Hin. unfold Y in Hin. apply in_map_iff in Hin. destruct Hin as (i & <- & _). split; [rewrite map_length, seq_length; reflexivity|]. intros v Hv. apply in_map_iff in Hv. destruct Hv as (j & <- & _). eexists; reflexivity. }
  rewrite (HS X HX) by (intros l Hin; apply HXl, Hin). cbn [bind]. rewrite (HS Y HY) by (intros l Hin; apply HYl, Hin). cbn [bind].
  rewrite (map2_add_zero X ld Ld HX HXl), (map2_add_zero Y ld Ld HY HYl). rewrite HG; [reflexivity|exact HX|exact HY| | | |].
  - unfold height. rewrite map_length. exact Hp.
  - intros l Hin. apply HXl, Hin.
  - intros l Hin. apply HYl, Hin.
  - intros l Hin. unfold height in Hin. apply in_map_iff in Hin. destruct Hin as (l0 & <- & Hl0). rewrite map_length. apply HR, Hl0.
Qed.
Print Assumptions C83_correct_pos_refuted.

(** *** The heights are those of the phases as they are *)
Theorem C83_heights_of_given_phases : forall griddata c ref_height phase out,
  calculheight griddata c ref_height phase = Ok out -> convphase griddata c ref_height phase = Ok out.
Proof.
  intros griddata c rh phase out E. unfold calculheight in E.
  destruct (map_result (smooth true) phase) as [s|e]; [|discriminate]. cbn [bind] in E.
  destruct (map_result (smooth false) (columns s)) as [s'|e]; [|discriminate]. exact E.
Qed.
Print Assumptions C83_heights_of_given_phases.

(** the hypothesis can be met: *)
Fixpoint take_lines (values : list fl) (target : list (list (fl * fl))) : array :=
  match target with [] => [] | l :: rest => firstn (List.length l) values :: take_lines (skipn (List.length l) values) rest end.
Example exact_at_data_example : forall ld Ld, exact_at_data (fun _ values target => Ok (take_lines values target)) ld Ld.
Proof.
  intros ld Ld X Y values HX HY HV RX RY RV. f_equal. revert X Y ld HX HY HV RX RY. induction values as [|v values IH]; intros [|x X] [|y Y] ld HX HY HV RX RY; cbn in HX, HY, HV; try lia; [reflexivity|].
  assert (Hx : List.length x = Ld) by (apply RX; left; reflexivity). assert (Hy : List.length y = Ld) by (apply RY; left; reflexivity). assert (Hv : List.length v = Ld) by (apply RV; left; reflexivity).
  unfold map2. cbn [combine map fst snd take_lines List.concat]. rewrite combine_length, Hx, Hy, Nat.min_id, <- Hv.
  rewrite firstn_app, Nat.sub_diag, firstn_all. cbn [firstn]. rewrite app_nil_r. f_equal. rewrite skipn_app, Nat.sub_diag, skipn_all. cbn [skipn app].
  apply (IH ltac:(intros l Hl; apply RV; right; exact Hl) X Y (ld - 1)%nat); try lia; intros l Hl; [apply RX|apply RY]; right; exact Hl.
Qed.

Lemma convphase_correct griddata pix dist dpc wl red cp ref_height phase :
  convphase griddata (mk_pconf pix dist dpc wl red cp true) ref_height phase =
  do height <- convphase griddata (mk_pconf pix dist dpc wl red cp false) [] phase ;
  if (List.length height =? List.length ref_height)%nat &&
     forallb (fun p => (List.length (fst p) =? List.length (snd p))%nat) (combine height ref_height)
  then Ok (map2 (map2 fsub) height ref_height) else Err ValueError.
Proof.
  assert (HB : forall (e : result array) (f : array -> result array), bind e f = bind (bind e Ok) f) by (intros [v|e] f; reflexivity).
  unfold convphase. cbn [p_correct_height]. exact (HB _ _).
Qed.

(** *** The reference frame has the height [offset] *)
Theorem C83_reference : forall griddata pix dist dpc wl red cp offset ref_angle ref_height out,
  let c := mk_pconf pix dist dpc wl red cp true in
  process_ref griddata c offset ref_angle = Ok ref_height ->
  calculheight griddata c ref_height ref_angle = Ok out ->
  forall raw, convphase griddata (mk_pconf pix dist dpc wl red cp false) [] ref_angle = Ok raw ->
  forall i j h, pixel raw i j = Some (Fin h) -> pixel out i j = Some (Fin offset).
Proof.
  intros griddata pix dist dpc wl red cp offset ra rh out c Href Hout raw Hraw i j h Hp.
  unfold process_ref in Href. destruct (calculheight griddata c (map zeros_like ra) ra) as [h0|e] eqn:E0; [|discriminate]. cbn [bind] in Href. injection Href as <-.
  apply C83_heights_of_given_phases in E0. apply C83_heights_of_given_phases in Hout.
  unfold c in E0, Hout. rewrite convphase_correct, Hraw in E0. rewrite convphase_correct, Hraw in Hout. cbn [bind] in E0, Hout. clear Hraw c. rename raw into hh.
  destruct ((List.length hh =? List.length (map zeros_like ra))%nat && _) eqn:S0; [|discriminate]. injection E0 as <-.
  match type of Hout with (if ?b then _ else _) = _ => destruct b eqn:S1; [|discriminate] end. injection Hout as <-.
  apply andb_prop in S0. destruct S0 as [S0 S0']. apply Nat.eqb_eq in S0.
  unfold pixel in *. destruct (nth_error hh i) as [line|] eqn:Ei; [|discriminate].
  assert (exists z, nth_error (map zeros_like ra) i = Some z) as (z & Ez).
  { destruct (nth_error (map zeros_like ra) i) eqn:E; [eexists; reflexivity|]. apply nth_error_None in E. assert (i < List.length hh)%nat by (apply nth_error_Some; congruence). lia. }
  assert (HLz : List.length line = List.length z).
  { rewrite forallb_forall in S0'. specialize (S0' (line, z)). cbn [fst snd] in S0'. apply Nat.eqb_eq. apply S0'. eapply nth_error_In. apply nth_combine; [exact Ei|exact Ez]. }
  assert (Hzj : nth_error z j = Some (Fin 0)).
  { assert (j < List.length z)%nat by (rewrite <- HLz; apply nth_error_Some; congruence). rewrite nth_error_map in Ez. destruct (nth_error ra i) as [l0|]; [|discriminate]. injection Ez as <-. unfold zeros_like in *. rewrite nth_error_map. rewrite map_length in H. destruct (nth_error l0 j) eqn:E; [reflexivity|]. apply nth_error_None in E. lia. }
  assert (HM2 : forall {A B C} (f : A -> B -> C) l m k a b, nth_error l k = Some a -> nth_error m k = Some b -> nth_error (map2 f l m) k = Some (f a b)).
  { intros A B C f l m k a b H1 H2. unfold map2. rewrite nth_error_map, (nth_combine _ _ _ _ _ H1 H2). reflexivity. }
  pose proof (HM2 _ _ _ (map2 fsub) hh (map zeros_like ra) i line z Ei Ez) as E1.
  assert (E2 : nth_error (map (map (fun v => fsub v (Fin offset))) (map2 (map2 fsub) hh (map zeros_like ra))) i = Some (map (fun v => fsub v (Fin offset)) (map2 fsub line z))) by (rewrite nth_error_map, E1; reflexivity).
  rewrite (HM2 _ _ _ (map2 fsub) hh _ i _ _ Ei E2).
  pose proof (HM2 _ _ _ fsub line z j _ _ Hp Hzj) as E3.
  erewrite HM2; [|exact Hp|rewrite nth_error_map, E3; reflexivity]. cbn [fsub fneg fadd]. f_equal. f_equal. ring.
Qed.
Print Assumptions C83_reference.

(** *** The discarded smoothing can still fail *)
Lemma filter_lengths (a : list fl) : List.length (differences a) = (List.length a - 1)%nat.
Proof. induction a as [|x a IH]; [reflexivity|]. destruct a as [|y a]; [reflexivity|]. change (differences (x :: y :: a)) with (fsub y x :: differences (y :: a)). cbn [List.length] in *. rewrite IH. cbn. lia. Qed.
Lemma smoother_length sc : forall js sw, List.length (smoother_loop sc sw js) = List.length js.
Proof. induction js as [|j js IH]; intros sw; [reflexivity|]. cbn [smoother_loop List.length]. rewrite IH. reflexivity. Qed.
Lemma filter_count {A} (p : A -> bool) (l : list A) : (List.length (filter p l) <= List.length l)%nat /\ (List.length (filter p l) = List.length l <-> forall x, In x l -> p x = true) /\ (List.length (filter p l) = 0%nat <-> forall x, In x l -> p x = false).
Proof.
  induction l as [|x l (I1 & I2 & I3)]; [cbn; split; [lia|]; split; split; intros; try lia; contradiction|]. cbn [filter]. destruct (p x) eqn:E; cbn [List.length].
  - split; [lia|]. split; split; intros H.
    + intros y [<-|Hy]; [exact E|]. apply I2; [lia|exact Hy].
    + f_equal. apply I2. intros y Hy. apply H. right. exact Hy.
    + lia.
    + rewrite (H x (or_introl eq_refl)) in E. discriminate.
  - split; [lia|]. split; split; intros H.
    + lia.
    + rewrite (H x (or_introl eq_refl)) in E. discriminate.
    + intros y [<-|Hy]; [exact E|]. apply I3; [exact H|exact Hy].
    + apply I3. intros y Hy. apply H. right. exact Hy.
Qed.

(** A line of phases (real numbers or NaN) is refused exactly when the difference of two neighbours is NaN or 0.95
    pi (neither above nor below) and the one of two other neighbours is not. *)
Theorem C83_smoothing_fails_iff : forall sc (a : list fl),
  (forall d, In d (differences a) -> d <> PInf /\ d <> NInf) ->
  (smooth sc a = Err ValueError <->
   (exists d, In d (differences a) /\ (d = NaN \/ d = Fin (95 / 100 * PI))) /\
   (exists d, In d (differences a) /\ ~ (d = NaN \/ d = Fin (95 / 100 * PI)))).
Proof.
  intros sc a Hinf.
  assert (HC : forall d, In d (differences a) -> (compared d = false <-> (d = NaN \/ d = Fin (95 / 100 * PI)))).
  { intros d Hd. destruct (Hinf d Hd) as [N1 N2]. unfold compared, bound95. destruct d as [| | |x]; try contradiction; cbn [fltb orb].
    - split; [left; reflexivity|reflexivity].
    - destruct (Rlt_dec (95 / 100 * PI) x); destruct (Rlt_dec x (95 / 100 * PI)); cbn [orb]; split; intros H; try discriminate; try reflexivity.
      + exfalso. lra.
      + destruct H as [H|H]; [discriminate|]. injection H as H. lra.
      + destruct H as [H|H]; [discriminate|]. injection H as H. lra.
      + right. f_equal. lra. }
  destruct (filter_count compared (differences a)) as (F1 & F2 & F3).
  assert (HJ : exists js, jumps a = Ok js /\ List.length js = List.length (filter compared (differences a))).
  { unfold jumps. assert (HS : forall l, (forall d, In d l -> d <> PInf /\ d <> NInf /\ d <> NaN) -> exists js, map_result sign_int l = Ok js /\ List.length js = List.length l).
    { induction l as [|d l IH]; intros H; [exists []; split; reflexivity|]. destruct IH as (js & E & HL); [intros; apply H; right; assumption|]. destruct (H d (or_introl eq_refl)) as (A1 & A2 & A3).
      destruct d as [| | |x]; try contradiction. cbn [map_result sign_int bind]. rewrite E. cbn [bind]. eexists. split; [reflexivity|]. cbn. rewrite HL. reflexivity. }
    apply HS. intros d Hd. apply filter_In in Hd. destruct Hd as [Hd1 Hd2]. destruct (Hinf d Hd1). repeat split; try assumption. intros ->. discriminate Hd2. }
  destruct HJ as (js & EJ & HLj). unfold smooth. rewrite EJ. cbn [bind]. unfold add_line. cbn [List.length]. rewrite smoother_length, HLj.
  pose proof (filter_lengths a) as HD. set (n := List.length (filter compared (differences a))) in *.
  assert (Iall : (exists d, In d (differences a) /\ (d = NaN \/ d = Fin (95 / 100 * PI))) <-> (n <> List.length (differences a))).
  { split.
    - intros (d & Hd & Hx) E. apply F2 with (x := d) in E; [|exact Hd]. apply HC in Hx; [congruence|exact Hd].
    - intros Hn. assert (HX : forall l, (exists x, In x l /\ compared x = false) \/ (forall x, In x l -> compared x = true)).
      { induction l as [|x l [(y & Hy & E)|IH]]; [right; intros; contradiction|left; exists y; split; [right|]; assumption|]. destruct (compared x) eqn:E; [right; intros y [<-|Hy]; auto|left; exists x; split; [left; reflexivity|exact E]]. }
      destruct (HX (differences a)) as [(x & Hx & E)|H]; [exists x; split; [exact Hx|apply HC; assumption]|]. exfalso. apply Hn, F2, H. }
  assert (Inone : (exists d, In d (differences a) /\ ~ (d = NaN \/ d = Fin (95 / 100 * PI))) <-> (n <> 0%nat)).
  { split.
    - intros (d & Hd & Hx) E. apply F3 with (x := d) in E; [|exact Hd]. apply Hx, HC; assumption.
    - intros Hn. assert (HX : forall l, (exists x, In x l /\ compared x = true) \/ (forall x, In x l -> compared x = false)).
      { induction l as [|x l [(y & Hy & E)|IH]]; [right; intros; contradiction|left; exists y; split; [right|]; assumption|]. destruct (compared x) eqn:E; [left; exists x; split; [left; reflexivity|exact E]|right; intros y [<-|Hy]; auto]. }
      destruct (HX (differences a)) as [(x & Hx & E)|H]; [exists x; split; [exact Hx|]|exfalso; apply Hn, F3, H]. intros HN. apply HC in HN; [congruence|exact Hx]. }
  rewrite Iall, Inone. rewrite HD in *. clear F2 F3 Iall Inone HC Hinf EJ. clearbody n.
  destruct (Nat.eqb_spec (List.length a) (S n)) as [E|E].
  - split; [discriminate|]. intros [H _]. exfalso. apply H. lia.
  - destruct js as [|j js]; cbn [smoother_loop].
    + cbn in HLj. split; [destruct a as [|x [|y a]]; discriminate|]. intros [_ H]. exfalso. apply H. lia.
    + cbn [List.length] in HLj. destruct a as [|x [|y a]].
      * exfalso. cbn [List.length] in F1. lia.
      * exfalso. cbn [List.length] in F1. lia.
      * cbn [List.length] in *. split; [|reflexivity]. intros _. split; lia.
Qed.
Print Assumptions C83_smoothing_fails_iff.

(** a NaN in a line of three phases is not accepted, although the smoothing is not used *)
Example C83_nan_example : smooth true [Fin 0; Fin 1; NaN] = Err ValueError.
Proof.
  apply C83_smoothing_fails_iff.
  - intros d [<-|[<-|[]]]; split; discriminate.
  - split.
    + exists NaN. split; [right; left; reflexivity|left; reflexivity].
    + exists (Fin (1 + - 0)). split; [left; reflexivity|]. intros [H|H]; [discriminate|]. injection H as H. pose proof PI2_3_2. pose proof PI2_1. unfold PI2 in *. assert (PI > 3) by lra. lra.
Qed.

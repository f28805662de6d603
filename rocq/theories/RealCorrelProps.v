(** Properties of the creation of the correlations and of the correlations in real space (C118). *)
From Coq Require Import Reals String Lra Lia Bool FinFun.
From Verif Require Import PyBase FloatBase RealCorrelModel.
Open Scope Z_scope.

(** * Specification *)
(** norm of a displacement *)
Definition length_of (dx dy : Z) : R := sqrt (IZR (dx * dx + dy * dy)).
(** the pixel of [A] if it is in the window of shape [s] around the centre, otherwise [fill] *)
Definition seen (A : img) (cy cx : Z) (s : Z * Z) (fill : R) : img :=
  fun y x => if ((cy - fst s / 2 <=? y) && (y <? cy - fst s / 2 + fst s)) && ((cx - snd s / 2 <=? x) && (x <? cx - snd s / 2 + snd s))
             then A y x else fill.
(** the correlation of two images for the displacement [(dx, dy)]: sum over the pixels of the window of the second image of
    the product with the pixel of the first image which would move there *)
Definition correlation (A B : img) (cy cx : Z) (s0 s1 : Z * Z) (fill : R) (dx dy : Z) : R :=
  rsum (range0 (fst s1)) (fun jy => rsum (range0 (snd s1)) (fun jx =>
    let y := cy - fst s1 / 2 + jy in let x := cx - snd s1 / 2 + jx in
    Rmult (seen A cy cx s0 fill (y - dy) (x - dx)) (B y x))).
Definition same_parity (a b : Z) : Prop := Z.even a = Z.even b.
Definition in_array (s : Z * Z) (iy ix : Z) : Prop := 0 <= iy < fst s /\ 0 <= ix < snd s.
(** value found at the indices of the displacement *)
Definition value_at (c : correl) (v : Z -> Z -> R) (dx dy : Z) : R := let '(ix, iy) := indices_of c dx dy in v iy ix.

(** * Creation *)
(** A number given as displacement_max: the fft classes look only at the displacements which are not larger (for windows of the same shape,
    otherwise ValueError), the classes with scipy ignore it, and the two others can not be created. *)
Theorem C118_max m s0 s1 d : 0 < fst s0 -> 0 < snd s0 ->
  match m with
  | Fft =>
    if shape_eqb s0 s1 then
      exists c, new_correl m s0 s1 (DNum d) = Ok c /\
        forall iy ix, let '(dx, dy) := displacement_of c ix iy in searched c iy ix = true <-> (length_of dx dy <= d)%R
    else new_correl m s0 s1 (DNum d) = Err ValueError
  | Ndimage | Signal None | Signal (Some "same"%string) | Signal (Some "valid"%string) =>
    exists c, new_correl m s0 s1 (DNum d) = Ok c /\ forall iy ix, searched c iy ix = true
  | Signal _ => new_correl m s0 s1 (DNum d) = Err TypeError
  | Pythran | PyCuda => new_correl m s0 s1 (DNum d) = Err UnboundLocalError
  end.
Proof.
  intros H0 H1. destruct m as [| | mode | |]; try reflexivity.
  - unfold new_correl. cbn [parse_displacement_max bind]. unfold finalize_signal.
    assert (G : forall s, String.eqb s "same" = false -> String.eqb s "valid" = false -> finalize_signal (Some s) s0 s1 (MNum d) = Err TypeError)
      by (intros s E1 E2; unfold finalize_signal; rewrite E1, E2; reflexivity).
    destruct mode as [s|]; [|eexists; split; reflexivity].
    destruct (String.eqb_spec s "same") as [-> | N1]; [eexists; split; reflexivity|].
    destruct (String.eqb_spec s "valid") as [-> | N2]; [eexists; split; reflexivity|].
    repeat (match goal with |- context [match ?x with _ => _ end] => is_var x; destruct x; try reflexivity; try congruence end).
  - eexists. split; reflexivity.
  - unfold new_correl. cbn [parse_displacement_max bind]. unfold finalize_fft.
    replace (fst s0 <=? 0) with false by (symmetry; apply Z.leb_gt; lia). replace (snd s0 <=? 0) with false by (symmetry; apply Z.leb_gt; lia). cbn [orb].
    destruct (shape_eqb s0 s1); [|reflexivity]. eexists. split; [reflexivity|]. intros iy ix. cbn [displacement_of ix0 iy0]. unfold searched, length_of. cbn [large].
    destruct (Rlt_dec _ _) as [L | L]; cbn [negb]; split; intros H; try discriminate; try reflexivity; lra.
Qed.

(** A percentage is the one of the largest side of the window. *)
Theorem C118_percent s0 p : 0 < fst s0 -> 0 < snd s0 ->
  exists c, new_correl Fft s0 s0 (DPct (Some p)) = Ok c /\
    forall iy ix, let '(dx, dy) := displacement_of c ix iy in
      searched c iy ix = true <-> (length_of dx dy <= p / 100 * IZR (Z.max (fst s0) (snd s0)))%R.
Proof.
  intros H0 H1. pose proof (C118_max Fft s0 s0 (p / 100 * IZR (Z.max (fst s0) (snd s0)))%R H0 H1) as H. cbv beta iota in H.
  unfold shape_eqb in H. rewrite !Z.eqb_refl in H. exact H.
Qed.

(** The fft classes can be created exactly with two windows of the same shape. *)
Theorem C118_fft_iff s0 s1 : (exists c, new_correl Fft s0 s1 DNone = Ok c) <-> s0 = s1.
Proof.
  unfold new_correl. cbn [parse_displacement_max bind]. unfold finalize_fft, shape_eqb. destruct s0 as [a b], s1 as [a' b']. cbn [fst snd].
  destruct (Z.eqb_spec a a'), (Z.eqb_spec b b'); cbn [andb]; split; intros H; subst; try (destruct H as (c & H); discriminate); try (eexists; reflexivity); congruence.
Qed.
(** Their correlation has the size of the windows: for windows of even sizes, the displacements which have a point in it
    are those between -n/2 and n/2 - 1 in each direction. *)
Theorem C118_fft_points s0 s1 a c dx dy : new_correl Fft s0 s1 a = Ok c -> Z.even (fst s0) = true -> Z.even (snd s0) = true ->
  let '(ix, iy) := indices_of c dx dy in
  (0 <= iy < fst s0 /\ 0 <= ix < snd s0) <->
  (- (fst s0 / 2) <= dy <= fst s0 / 2 - 1 /\ - (snd s0 / 2) <= dx <= snd s0 / 2 - 1).
Proof.
  intros H E0 E1. assert (HI : iy0 c = fst s0 / 2 - 1 /\ ix0 c = snd s0 / 2 - 1).
  { unfold new_correl in H. destruct (parse_displacement_max a s0) as [d|]; cbn [bind] in H; [|discriminate]. unfold finalize_fft in H.
    destruct d; cbv zeta in H; repeat match type of H with context [if ?b then _ else _] => destruct b end; try discriminate; injection H as <-; split; reflexivity. }
  unfold indices_of. destruct HI as [-> ->]. apply Z.even_spec in E0, E1. destruct E0 as [m0 ->], E1 as [m1 ->].
  rewrite !(Z.mul_comm 2), !Z.div_mul by lia. lia.
Qed.
(** CorrelPythran, without displacement_max: possible exactly for windows large enough; it searches up to half of the window (or of the
    difference of the windows), minus one. *)
Theorem C118_pythran_iff s0 s1 : (exists c, new_correl Pythran s0 s1 DNone = Ok c) <->
  if shape_eqb s0 s1 then 4 <= fst s0 /\ 4 <= snd s0 else 4 <= fst s0 - fst s1 /\ 4 <= snd s0 - snd s1.
Proof.
  unfold new_correl. cbn [parse_displacement_max bind]. unfold finalize_direct.
  destruct (shape_eqb s0 s1); match goal with |- context [if ?d <=? 0 then _ else _] => destruct (Z.leb_spec d 0) as [L | L] end;
    split; intros H; try (destruct H as (c & H); discriminate); try (eexists; reflexivity).
  - exfalso. assert (2 <= Z.min (fst s0) (snd s0) / 2) by (apply Z.div_le_lower_bound; lia). lia.
  - pose proof (Z.mul_div_le (Z.min (fst s0) (snd s0)) 2). lia.
  - exfalso. assert (2 <= Z.min (fst s0 - fst s1) (snd s0 - snd s1) / 2) by (apply Z.div_le_lower_bound; lia). lia.
  - pose proof (Z.mul_div_le (Z.min (fst s0 - fst s1) (snd s0 - snd s1)) 2). lia.
Qed.

Theorem C118_pycuda_iff s0 s1 : (exists c, new_correl PyCuda s0 s1 DNone = Ok c) <->
  if shape_eqb s0 s1 then 2 <= fst s0 /\ 2 <= snd s0 else 4 <= fst s0 - fst s1 /\ 4 <= snd s0 - snd s1.
Proof.
  unfold new_correl. cbn [parse_displacement_max bind]. unfold finalize_direct.
  destruct (shape_eqb s0 s1); match goal with |- context [if ?d <=? 0 then _ else _] => destruct (Z.leb_spec d 0) as [L | L] end;
    split; intros H; try (destruct H as (c & H); discriminate); try (eexists; reflexivity).
  - exfalso. assert (1 <= Z.min (fst s0) (snd s0) / 2) by (apply Z.div_le_lower_bound; lia). lia.
  - pose proof (Z.mul_div_le (Z.min (fst s0) (snd s0)) 2). lia.
  - exfalso. assert (2 <= Z.min (fst s0 - fst s1) (snd s0 - snd s1) / 2) by (apply Z.div_le_lower_bound; lia). lia.
  - pose proof (Z.mul_div_le (Z.min (fst s0 - fst s1) (snd s0 - snd s1)) 2). lia.
Qed.
(** In these two classes the origin is at the largest displacement which is searched; with equal windows it leaves at least one pixel of the
    first window in front of the second one, with a smaller second window the second window stays in the first one. *)
Theorem C118_range m s0 s1 c : m = Pythran \/ m = PyCuda -> new_correl m s0 s1 DNone = Ok c ->
  exists d, displacement_max c = MNum (IZR d) /\ iy0 c = d /\ ix0 c = d /\ 0 < d /\
    if shape_eqb s0 s1 then 2 * d <= fst s0 /\ 2 * d <= snd s0 else 2 * d + 2 <= fst s0 - fst s1 /\ 2 * d + 2 <= snd s0 - snd s1.
Proof.
  intros Hm E. unfold new_correl in E. cbn [parse_displacement_max bind] in E.
  destruct Hm as [-> | ->]; unfold finalize_direct in E; destruct (shape_eqb s0 s1);
    match type of E with context [if ?d <=? 0 then _ else _] => destruct (Z.leb_spec d 0) as [L | L]; [discriminate|]; exists d end;
    injection E as <-; cbn [displacement_max iy0 ix0]; (split; [reflexivity|]); (split; [reflexivity|]); (split; [reflexivity|]); (split; [exact L|]);
    [pose proof (Z.mul_div_le (Z.min (fst s0) (snd s0)) 2) | pose proof (Z.mul_div_le (Z.min (fst s0 - fst s1) (snd s0 - snd s1)) 2)
    |pose proof (Z.mul_div_le (Z.min (fst s0) (snd s0)) 2) | pose proof (Z.mul_div_le (Z.min (fst s0 - fst s1) (snd s0 - snd s1)) 2)]; lia.
Qed.

(** * Sums *)
Lemma rsum_ext l f g : (forall x, In x l -> f x = g x) -> rsum l f = rsum l g.
Proof. intros H. unfold rsum. apply rsuml_ext. exact H. Qed.
Lemma rsum_0 l f : (forall x, In x l -> f x = 0%R) -> rsum l f = 0%R.
Proof. intros H. rewrite (rsum_ext l f (fun _ => 0%R) H). unfold rsum, rsuml. induction l as [|a l IH]; cbn; [reflexivity|]. rewrite IH by (intros x Hx; apply H; right; exact Hx). ring. Qed.
Lemma rsum_one l k f : NoDup l -> In k l -> (forall x, In x l -> x <> k -> f x = 0%R) -> rsum l f = f k.
Proof.
  intros Hnd Hk H. induction l as [|a l IH]; [destruct Hk|]. inversion Hnd as [|? ? Ha Hl]; subst.
  unfold rsum in *. cbn [map]. unfold rsuml. cbn [fold_right]. fold (rsuml (map f l)). fold (rsum l f).
  destruct (Z.eq_dec a k) as [-> | Hn].
  - rewrite (rsum_0 l f); [ring|]. intros x Hx. apply H; [right; exact Hx|]. intros ->. contradiction.
  - rewrite (H a (or_introl eq_refl) Hn). unfold rsum. rewrite IH; [ring|exact Hl|destruct Hk; [congruence|assumption]|].
    intros x Hx. apply H. right. exact Hx.
Qed.
Lemma in_range0 n k : In k (range0 n) <-> 0 <= k < n.
Proof.
  unfold range0. rewrite in_map_iff. split.
  - intros (i & <- & Hi). apply in_seq in Hi. lia.
  - intros H. exists (Z.to_nat k). split; [lia|]. apply in_seq. lia.
Qed.
Lemma nodup_range0 n : NoDup (range0 n).
Proof. unfold range0. apply FinFun.Injective_map_NoDup; [intros a b; apply Nat2Z.inj|apply seq_NoDup]. Qed.

(** * The general fact: the origin and the offset of the weights decide which displacement is at which index *)
Lemma correlate_shift A B cy cx s0 s1 offy offx fill oy ox dx dy :
  correlate (crop A cy cx s0) (crop B cy cx s1) s0 s1 offy offx fill (oy - dy) (ox - dx) =
  correlation A B cy cx s0 s1 fill (dx + (fst (snd s0, 0) / 2 - snd s1 / 2 + offx - ox)) (dy + (fst s0 / 2 - fst s1 / 2 + offy - oy)).
Proof.
  unfold correlate, correlation. cbn [fst]. apply rsum_ext. intros jy _. apply rsum_ext. intros jx _.
  unfold crop, seen, inside.
  replace (cy - fst s1 / 2 + jy - (dy + (fst s0 / 2 - fst s1 / 2 + offy - oy))) with (cy - fst s0 / 2 + (oy - dy + jy - offy)) by ring.
  replace (cx - snd s1 / 2 + jx - (dx + (snd s0 / 2 - snd s1 / 2 + offx - ox))) with (cx - snd s0 / 2 + (ox - dx + jx - offx)) by ring.
  set (a := oy - dy + jy - offy). set (b := ox - dx + jx - offx).
  replace (cy - fst s0 / 2 <=? cy - fst s0 / 2 + a) with (0 <=? a) by (destruct (Z.leb_spec 0 a), (Z.leb_spec (cy - fst s0 / 2) (cy - fst s0 / 2 + a)); lia).
  replace (cy - fst s0 / 2 + a <? cy - fst s0 / 2 + fst s0) with (a <? fst s0) by (destruct (Z.ltb_spec a (fst s0)), (Z.ltb_spec (cy - fst s0 / 2 + a) (cy - fst s0 / 2 + fst s0)); lia).
  replace (cx - snd s0 / 2 <=? cx - snd s0 / 2 + b) with (0 <=? b) by (destruct (Z.leb_spec 0 b), (Z.leb_spec (cx - snd s0 / 2) (cx - snd s0 / 2 + b)); lia).
  replace (cx - snd s0 / 2 + b <? cx - snd s0 / 2 + snd s0) with (b <? snd s0) by (destruct (Z.ltb_spec b (snd s0)), (Z.ltb_spec (cx - snd s0 / 2 + b) (cx - snd s0 / 2 + snd s0)); lia).
  reflexivity.
Qed.

(** an image with one bright pixel *)
Definition dot (cy cx : Z) : img := fun y x => if (y =? cy) && (x =? cx) then 1%R else 0%R.
Lemma correlation_dot cy cx s0 s1 fill dx dy : 0 < fst s1 -> 0 < snd s1 ->
  (cy - fst s0 / 2 <= cy - dy < cy - fst s0 / 2 + fst s0) -> (cx - snd s0 / 2 <= cx - dx < cx - snd s0 / 2 + snd s0) ->
  correlation (dot cy cx) (dot cy cx) cy cx s0 s1 fill dx dy = if (dx =? 0) && (dy =? 0) then 1%R else 0%R.
Proof.
  intros H0 H1 Hy Hx. unfold correlation.
  assert (D0 : 0 <= fst s1 / 2 < fst s1) by (split; [apply Z.div_pos; lia|apply Z.div_lt_upper_bound; lia]).
  assert (D1 : 0 <= snd s1 / 2 < snd s1) by (split; [apply Z.div_pos; lia|apply Z.div_lt_upper_bound; lia]).
  rewrite (rsum_one _ (fst s1 / 2)); [|apply nodup_range0|apply in_range0; exact D0|].
  - rewrite (rsum_one _ (snd s1 / 2)); [|apply nodup_range0|apply in_range0; exact D1|].
    + cbv zeta. replace (cy - fst s1 / 2 + fst s1 / 2) with cy by ring. replace (cx - snd s1 / 2 + snd s1 / 2) with cx by ring.
      unfold seen. replace (cy - fst s0 / 2 <=? cy - dy) with true by (symmetry; apply Z.leb_le; lia).
      replace (cy - dy <? cy - fst s0 / 2 + fst s0) with true by (symmetry; apply Z.ltb_lt; lia).
      replace (cx - snd s0 / 2 <=? cx - dx) with true by (symmetry; apply Z.leb_le; lia).
      replace (cx - dx <? cx - snd s0 / 2 + snd s0) with true by (symmetry; apply Z.ltb_lt; lia). cbn [andb].
      unfold dot. rewrite !Z.eqb_refl. cbn [andb].
      destruct (Z.eqb_spec (cy - dy) cy), (Z.eqb_spec (cx - dx) cx), (Z.eqb_spec dx 0), (Z.eqb_spec dy 0); cbn [andb]; try ring; lia.
    + intros x Hx' Hn. cbv zeta. unfold dot at 2. replace (cx - snd s1 / 2 + x =? cx) with false by (symmetry; apply Z.eqb_neq; lia).
      rewrite andb_false_r. ring.
  - intros y Hy' Hn. apply rsum_0. intros x _. cbv zeta. unfold dot at 2. replace (cy - fst s1 / 2 + y =? cy) with false by (symmetry; apply Z.eqb_neq; lia).
    cbn [andb]. ring.
Qed.

Lemma same_origin_alt n : same_origin n = (n - 1) / 2.
Proof.
  unfold same_origin. pose proof (Z.div_mod n 2 ltac:(lia)) as E. pose proof (Z.mod_pos_bound n 2 ltac:(lia)) as M.
  destruct (Z.eqb_spec (n mod 2) 0) as [H | H].
  - apply Z.div_unique with 1; lia.
  - apply Z.div_unique with 0; lia.
Qed.
Lemma even_half n : n / 2 - (n - 1) / 2 = if Z.even n then 1 else 0.
Proof.
  destruct (Z.even n) eqn:E.
  - apply Z.even_spec in E as (k & ->). replace (2 * k) with (k * 2) by ring. rewrite Z.div_mul by lia.
    replace ((k * 2 - 1) / 2) with (k - 1); [lia|]. apply Z.div_unique with 1; lia.
  - assert (O : Z.odd n = true) by (rewrite <- Z.negb_even, E; reflexivity). apply Z.odd_spec in O as (k & ->).
    replace ((2 * k + 1) / 2) with k by (apply Z.div_unique with 1; lia). replace ((2 * k + 1 - 1) / 2) with k by (apply Z.div_unique with 0; lia). lia.
Qed.

(** CorrelScipyNdimage: the value at the indices of a displacement is the correlation for this displacement, for all windows. *)
Theorem C118_ndimage A B cy cx s0 s1 a c dx dy : new_correl Ndimage s0 s1 a = Ok c ->
  value_at c (call_ndimage (crop A cy cx s0) (crop B cy cx s1) s0 s1) dx dy =
  correlation A B cy cx s0 s1 (rval (img_min (crop B cy cx s1) s1)) dx dy.
Proof.
  intros E. unfold new_correl in E. destruct (parse_displacement_max a s0) as [d|e]; [|discriminate]. cbn [bind] in E. unfold finalize_ndimage in E.
  injection E as <-. unfold value_at, indices_of, call_ndimage. cbn [ix0 iy0]. rewrite correlate_shift. cbn [fst].
  f_equal; ring.
Qed.

(** CorrelScipySignal (mode "same", the one used for the PIV): what is exactly at the indices of a displacement. *)
Theorem C118_signal A B cy cx s0 s1 a c dx dy : new_correl (Signal None) s0 s1 a = Ok c ->
  value_at c (call_signal c (crop A cy cx s0) (crop B cy cx s1) s0 s1) dx dy =
  correlation A B cy cx s0 s1 (rval (img_min (crop B cy cx s1) s1))
    (dx + ((if Z.even (snd s0) then 1 else 0) - (if Z.even (snd s1) then 1 else 0)))
    (dy + ((if Z.even (fst s0) then 1 else 0) - (if Z.even (fst s1) then 1 else 0))).
Proof.
  intros E. unfold new_correl in E. destruct (parse_displacement_max a s0) as [d|e]; [|discriminate]. cbn [bind] in E.
  cbn in E. injection E as <-. unfold value_at, indices_of, call_signal. cbn [c_method ix0 iy0]. rewrite correlate_shift. cbn [fst].
  rewrite !same_origin_alt, <- !even_half. f_equal; ring.
Qed.
(** It is the correlation for this displacement, for all images, exactly when the sides of the two windows have the same parity. *)
Theorem C118_signal_iff s0 s1 a c : 0 < fst s1 <= fst s0 -> 0 < snd s1 <= snd s0 -> new_correl (Signal None) s0 s1 a = Ok c ->
  ((forall A B cy cx dx dy, in_array s0 (iy0 c - dy) (ix0 c - dx) ->
     value_at c (call_signal c (crop A cy cx s0) (crop B cy cx s1) s0 s1) dx dy =
     correlation A B cy cx s0 s1 (rval (img_min (crop B cy cx s1) s1)) dx dy) <->
   same_parity (fst s0) (fst s1) /\ same_parity (snd s0) (snd s1)).
Proof.
  intros Hy Hx E. split.
  - intros H. specialize (H (dot 0 0) (dot 0 0) 0 0 0 0).
    assert (Oy : iy0 c = (fst s0 - 1) / 2 /\ ix0 c = (snd s0 - 1) / 2).
    { unfold new_correl in E. destruct (parse_displacement_max a s0) as [d|e]; [|discriminate]. cbn [bind] in E. cbn in E. injection E as <-. cbn. rewrite !same_origin_alt. split; reflexivity. }
    destruct Oy as [Oy Ox]. rewrite (C118_signal _ _ _ _ _ _ _ _ _ _ E) in H.
    assert (Hin : in_array s0 (iy0 c - 0) (ix0 c - 0)).
    { rewrite Oy, Ox. unfold in_array. pose proof (Z.mul_div_le (fst s0 - 1) 2 ltac:(lia)). pose proof (Z.mul_div_le (snd s0 - 1) 2 ltac:(lia)).
      pose proof (Z.div_pos (fst s0 - 1) 2 ltac:(lia) ltac:(lia)). pose proof (Z.div_pos (snd s0 - 1) 2 ltac:(lia) ltac:(lia)). lia. }
    specialize (H Hin).
    assert (W : forall n m, 0 < m <= n -> let e := 0 + ((if Z.even n then 1 else 0) - (if Z.even m then 1 else 0)) in 0 - n / 2 <= 0 - e < 0 - n / 2 + n).
    { intros n m Hm e. subst e. pose proof (even_half n) as En. pose proof (Z.div_mod n 2 ltac:(lia)). pose proof (Z.mod_pos_bound n 2 ltac:(lia)).
      pose proof (Zmod_even n). pose proof (Zmod_even m). pose proof (Z.div_mod m 2 ltac:(lia)). destruct (Z.even n), (Z.even m); lia. }
    rewrite correlation_dot in H; [|lia|lia|apply W; lia|apply W; lia].
    rewrite correlation_dot in H; [|lia|lia| |].
    + rewrite !Z.eqb_refl in H. cbn [andb] in H. unfold same_parity.
      destruct (Z.even (fst s0)), (Z.even (fst s1)), (Z.even (snd s0)), (Z.even (snd s1)); cbn in H; try (split; reflexivity); lra.
    + pose proof (Z.div_pos (fst s0) 2 ltac:(lia) ltac:(lia)). assert (fst s0 / 2 < fst s0) by (apply Z.div_lt_upper_bound; lia). lia.
    + pose proof (Z.div_pos (snd s0) 2 ltac:(lia) ltac:(lia)). assert (snd s0 / 2 < snd s0) by (apply Z.div_lt_upper_bound; lia). lia.
  - intros [P Q] A B cy cx dx dy _. rewrite (C118_signal _ _ _ _ _ _ _ _ _ _ E). unfold same_parity in P, Q. rewrite P, Q. f_equal; ring.
Qed.
(** A window of even side and one of odd side: a displacement of one pixel is found between an image and itself (and none at zero). *)
Theorem C118_signal_refuted n m c : 0 < m <= n -> Z.even n = true -> Z.even m = false -> new_correl (Signal None) (n, n) (m, m) DNone = Ok c ->
  forall cy cx dx dy, in_array (n, n) (iy0 c - dy) (ix0 c - dx) -> -1 <= dx < n / 2 -> -1 <= dy < n / 2 ->
    value_at c (call_signal c (crop (dot cy cx) cy cx (n, n)) (crop (dot cy cx) cy cx (m, m)) (n, n) (m, m)) dx dy =
    if (dx =? -1) && (dy =? -1) then 1%R else 0%R.
Proof.
  intros Hm En Em E cy cx dx dy Hin Hdx Hdy. rewrite (C118_signal _ _ _ _ _ _ _ _ _ _ E). cbn [fst snd]. rewrite En, Em.
  apply Z.even_spec in En as (k & ->). replace (2 * k) with (k * 2) in * by ring. rewrite Z.div_mul in * by lia.
  rewrite correlation_dot; cbn [fst snd]; rewrite ?Z.div_mul by lia; try lia.
  destruct (Z.eqb_spec (dx + (1 - 0)) 0), (Z.eqb_spec (dy + (1 - 0)) 0), (Z.eqb_spec dx (-1)), (Z.eqb_spec dy (-1)); cbn [andb]; try reflexivity; lia.
Qed.
(** CorrelScipySignal, mode "valid": right exactly when no side is even for the first window and odd for the second one. *)
Theorem C118_valid_iff s0 s1 a c : 0 < fst s1 <= fst s0 -> 0 < snd s1 <= snd s0 -> new_correl (Signal (Some "valid"%string)) s0 s1 a = Ok c ->
  ((forall A B cy cx dx dy, 0 <= iy0 c - dy <= fst s0 - fst s1 -> 0 <= ix0 c - dx <= snd s0 - snd s1 ->
     value_at c (call_signal c (crop A cy cx s0) (crop B cy cx s1) s0 s1) dx dy = correlation A B cy cx s0 s1 0 dx dy) <->
   ~ (Z.even (fst s0) = true /\ Z.even (fst s1) = false) /\ ~ (Z.even (snd s0) = true /\ Z.even (snd s1) = false)).
Proof.
  intros Hy Hx E. unfold new_correl in E. destruct (parse_displacement_max a s0) as [d|e]; [|discriminate]. cbn [bind] in E. cbn in E. injection E as <-.
  cbn [iy0 ix0]. unfold value_at, indices_of, call_signal. cbn [c_method ix0 iy0].
  assert (K : forall n m, n / 2 - m / 2 + 0 - (n - m) / 2 = if Z.even n && negb (Z.even m) then 1 else 0).
  { intros n m. pose proof (Z.div_mod n 2 ltac:(lia)). pose proof (Z.div_mod m 2 ltac:(lia)). pose proof (Z.div_mod (n - m) 2 ltac:(lia)).
    pose proof (Z.mod_pos_bound (n - m) 2 ltac:(lia)). pose proof (Zmod_even n) as En. pose proof (Zmod_even m) as Em.
    destruct (Z.even n), (Z.even m); cbn [andb negb]; lia. }
  split.
  - intros H.
    assert (Hr : forall n m, 0 < m <= n -> 0 <= (n - m) / 2 - 0 <= n - m).
    { intros n m Hm. pose proof (Z.div_pos (n - m) 2 ltac:(lia) ltac:(lia)). pose proof (Z.mul_div_le (n - m) 2 ltac:(lia)). lia. }
    specialize (H (dot 0 0) (dot 0 0) 0 0 0 0 (Hr _ _ Hy) (Hr _ _ Hx)). cbv beta iota in H. rewrite correlate_shift in H. cbn [fst] in H. rewrite !K in H.
    assert (W : forall n m, 0 < m <= n -> let e := 0 + (if Z.even n && negb (Z.even m) then 1 else 0) in 0 - n / 2 <= 0 - e < 0 - n / 2 + n).
    { intros n m Hm e. subst e. pose proof (Z.div_mod n 2 ltac:(lia)). pose proof (Zmod_even n) as En.
      destruct (Z.even n) eqn:P; cbn [andb]; [|lia]. destruct (Z.even m); cbn [negb]; lia. }
    rewrite correlation_dot in H; [|lia|lia|apply W; lia|apply W; lia].
    rewrite correlation_dot in H; [|lia|lia| |].
    + rewrite !Z.eqb_refl in H. cbn [andb] in H.
      destruct (Z.even (fst s0)), (Z.even (fst s1)), (Z.even (snd s0)), (Z.even (snd s1)); cbn in H; try (split; intros [? ?]; discriminate); lra.
    + pose proof (Z.div_pos (fst s0) 2 ltac:(lia) ltac:(lia)). assert (fst s0 / 2 < fst s0) by (apply Z.div_lt_upper_bound; lia). lia.
    + pose proof (Z.div_pos (snd s0) 2 ltac:(lia) ltac:(lia)). assert (snd s0 / 2 < snd s0) by (apply Z.div_lt_upper_bound; lia). lia.
  - intros [P Q] A B cy cx dx dy _ _. rewrite correlate_shift. cbn [fst]. rewrite !K.
    destruct (Z.even (fst s0)), (Z.even (fst s1)), (Z.even (snd s0)), (Z.even (snd s1)); cbn [andb negb]; try (exfalso; first [apply P; split; reflexivity|apply Q; split; reflexivity]);
      f_equal; ring.
Qed.

(** * Norms *)
Lemma acc_sum l : forall t, acc t l = (t + rsuml (map (fun x => x * x) l))%R.
Proof. unfold acc, rsuml. induction l as [|a l IH]; intros t; cbn; [ring|]. rewrite IH. ring. Qed.
Lemma acc2_sum l0 : forall l1 t0 t1, List.length l0 = List.length l1 ->
  acc2 t0 t1 l0 l1 = ((t0 + rsuml (map (fun x => x * x) l0))%R, (t1 + rsuml (map (fun x => x * x) l1))%R).
Proof.
  unfold rsuml. induction l0 as [|a l0 IH]; intros [|b l1] t0 t1 H; cbn in *; try discriminate; [f_equal; ring|]. rewrite IH by lia. f_equal; ring.
Qed.
(** _norm_images gives the square root of the product of the two sums of squares, for images of the same size or not. *)
Theorem C118_norm im0 im1 : im0 <> [] -> im1 <> [] ->
  norm_images im0 im1 = Ok (sqrt (rsuml (map (fun x => x * x) im0) * rsuml (map (fun x => x * x) im1)))%R.
Proof.
  destruct im0 as [|a r0], im1 as [|b r1]; try congruence. intros _ _. unfold norm_images.
  assert (S : forall x r, (x * x + rsuml (map (fun x => x * x) r))%R = rsuml (map (fun x => x * x)%R (x :: r))) by reflexivity.
  destruct (Nat.eqb_spec (List.length (a :: r0)) (List.length (b :: r1))) as [El | Nl]; cbn [negb].
  - rewrite acc2_sum by (cbn in El; lia). rewrite !S. reflexivity.
  - rewrite !acc_sum, !S. reflexivity.
Qed.

Lemma pixels_sum (f : R -> R) im s : rsuml (map f (pixels im s)) = rsum (range0 (fst s)) (fun iy => rsum (range0 (snd s)) (fun ix => f (im iy ix))).
Proof.
  unfold pixels, rsum. induction (range0 (fst s)) as [|y l IH]; [reflexivity|]. cbn [flat_map map]. rewrite map_app, rsuml_app, IH, map_map. reflexivity.
Qed.
Lemma rsum_scal l k f : rsum l (fun x => k * f x)%R = (k * rsum l f)%R.
Proof. unfold rsum. apply rsuml_scal. Qed.
Lemma zero_correlation A B cy cx s k fill : (forall y x, A y x = k * B y x)%R ->
  correlation A B cy cx s s fill 0 0 = (k * rsuml (map (fun x => x * x) (pixels (crop B cy cx s) s)))%R.
Proof.
  intros H. rewrite pixels_sum. unfold correlation. rewrite <- rsum_scal. apply rsum_ext. intros jy Hy. rewrite <- rsum_scal. apply rsum_ext. intros jx Hx.
  apply in_range0 in Hy, Hx. cbv zeta. unfold seen, crop. rewrite !Z.sub_0_r.
  replace (cy - fst s / 2 <=? cy - fst s / 2 + jy) with true by (symmetry; apply Z.leb_le; lia).
  replace (cy - fst s / 2 + jy <? cy - fst s / 2 + fst s) with true by (symmetry; apply Z.ltb_lt; lia).
  replace (cx - snd s / 2 <=? cx - snd s / 2 + jx) with true by (symmetry; apply Z.leb_le; lia).
  replace (cx - snd s / 2 + jx <? cx - snd s / 2 + snd s) with true by (symmetry; apply Z.ltb_lt; lia). cbn [andb]. rewrite H. ring.
Qed.
(** An image compared with itself times [k] (a change of the light): the normalised correlation without displacement is 1 for CorrelScipySignal,
    but [k] for CorrelScipyNdimage. *)
Theorem C118_light A B cy cx s k c c' norm : 0 < fst s -> 0 < snd s -> (0 < k)%R -> (forall y x, A y x = k * B y x)%R ->
  (0 < rsuml (map (fun x => x * x) (pixels (crop B cy cx s) s)))%R ->
  new_correl (Signal None) s s DNone = Ok c -> new_correl Ndimage s s DNone = Ok c' ->
  norm_images (pixels (crop A cy cx s) s) (pixels (crop B cy cx s) s) = Ok norm ->
  (value_at c (call_signal c (crop A cy cx s) (crop B cy cx s) s s) 0 0 / norm = 1)%R /\
  (value_at c' (call_ndimage (crop A cy cx s) (crop B cy cx s) s s) 0 0 / norm_ndimage (crop B cy cx s) s = k)%R.
Proof.
  intros Hy Hx Hk HA HB Ec Ec' En.
  rewrite (C118_ndimage A B cy cx s s DNone c' 0 0 Ec'), (C118_signal A B cy cx s s DNone c 0 0 Ec), !Z.sub_diag, !Z.add_0_r, !(zero_correlation A B cy cx s k) by exact HA.
  set (S := rsuml (map (fun x => x * x)%R (pixels (crop B cy cx s) s))) in *.
  assert (Ne : forall im : img, pixels im s <> []).
  { intros im H. apply (f_equal (@List.length R)) in H. unfold pixels in H.
    assert (I0 : In 0 (range0 (fst s))) by (apply in_range0; lia). assert (I1 : In 0 (range0 (snd s))) by (apply in_range0; lia).
    apply in_split in I0 as (l1 & l2 & E0). rewrite E0, flat_map_app in H. cbn [flat_map] in H. rewrite !app_length, map_length in H.
    destruct (range0 (snd s)); [destruct I1|]. cbn in H. lia. }
  split.
  - rewrite C118_norm in En by apply Ne. injection En as <-.
    assert (Sa : rsuml (map (fun x => x * x)%R (pixels (crop A cy cx s) s)) = (k * k * S)%R).
    { unfold S. rewrite !pixels_sum. rewrite <- rsum_scal. apply rsum_ext. intros jy _. rewrite <- rsum_scal. apply rsum_ext. intros jx _. unfold crop. rewrite HA. ring. }
    rewrite Sa. fold S. replace (k * k * S * S)%R with ((k * S) * (k * S))%R by ring. rewrite sqrt_square by nra. field. split; lra.
  - unfold norm_ndimage. fold S. field. lra.
Qed.
Theorem C118_light_refuted : let s : Z * Z := (4, 4) in exists (A B : img) c', new_correl Ndimage s s DNone = Ok c' /\
  (1 < value_at c' (call_ndimage (crop A 0 0 s) (crop B 0 0 s) s s) 0 0 / norm_ndimage (crop B 0 0 s) s)%R.
Proof.
  cbv zeta. exists (fun y x => 2 * dot 0 0 y x)%R, (dot 0 0). eexists. split; [reflexivity|].
  edestruct (C118_light (fun y x => 2 * dot 0 0 y x)%R (dot 0 0) 0 0 (4, 4) 2) as [_ H]; try reflexivity; try lra.
  - rewrite pixels_sum, (rsum_one _ 2); [|apply nodup_range0|apply in_range0; cbn; lia|].
    + rewrite (rsum_one _ 2); [cbn; lra|apply nodup_range0|apply in_range0; cbn; lia|].
      intros x Hx Hn. apply in_range0 in Hx. cbn [snd] in Hx. assert (x = 0 \/ x = 1 \/ x = 3) as [-> | [-> | ->]] by lia; cbn; ring.
    + intros y Hy Hn. apply in_range0 in Hy. cbn [fst] in Hy. apply rsum_0. intros x Hx. unfold crop, dot. cbn [fst snd].
      replace (0 - 4 / 2 + y =? 0) with false by (symmetry; apply Z.eqb_neq; change (4 / 2) with 2; lia). cbn [andb]. ring.
Qed.

Print Assumptions C118_max.
Print Assumptions C118_percent.
Print Assumptions C118_fft_iff.
Print Assumptions C118_fft_points.
Print Assumptions C118_pythran_iff.
Print Assumptions C118_pycuda_iff.
Print Assumptions C118_range.
Print Assumptions C118_ndimage.
Print Assumptions C118_signal.
Print Assumptions C118_signal_iff.
Print Assumptions C118_signal_refuted.
Print Assumptions C118_valid_iff.
Print Assumptions C118_norm.
Print Assumptions C118_light.
Print Assumptions C118_light_refuted.

(** * Cases *)
Example ex_signal : exists c, new_correl (Signal None) (32, 32) (15, 15) DNone = Ok c /\ iy0 c = 15 /\ 0 < 15 <= 32 /\
  ~ same_parity 32 15 /\ in_array (32, 32) (iy0 c - -1) (ix0 c - -1).
Proof. eexists. split; [reflexivity|]. cbn. unfold same_parity, in_array. cbn. repeat split; try lia; try discriminate. Qed.
Example ex_max : exists c, new_correl Fft (32, 32) (32, 32) (DNum 8) = Ok c.
Proof. destruct (C118_max Fft (32, 32) (32, 32) 8 ltac:(cbn; lia) ltac:(cbn; lia)) as (c & E & _). exists c. exact E. Qed.

Example ex_points : exists c, new_correl Fft (32, 24) (32, 24) DNone = Ok c /\ Z.even 32 = true /\ Z.even 24 = true /\ indices_of c (-12) 15 = (23, 0).
Proof. eexists. repeat split. Qed.

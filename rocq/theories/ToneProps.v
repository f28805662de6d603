(** Properties of the tools which change the brightness and the contrast of an image (C116). *)
From Coq Require Import Reals Lra Lia.
From Verif Require Import PyBase FloatBase ToneModel.
From Verif Require ToolboxModel.
Open Scope R_scope.

(** * Specification *)
(** [m] is the maximum (the minimum) of the pixels *)
Definition is_max (m : R) (l : list R) : Prop := In m l /\ forall x, In x l -> x <= m.
Definition is_min (m : R) (l : list R) : Prop := In m l /\ forall x, In x l -> m <= x.
(** pixel by pixel *)
Definition pixelwise {A B} (P : A -> B -> Prop) (l : list A) (l' : list B) : Prop :=
  List.length l' = List.length l /\ forall i x y, nth_error l i = Some x -> nth_error l' i = Some y -> P x y.
(** the brightness order of the pixels is kept *)
Definition keeps_order (l l' : list R) : Prop :=
  List.length l' = List.length l /\
  forall i j x y x' y', nth_error l i = Some x -> nth_error l j = Some y -> nth_error l' i = Some x' -> nth_error l' j = Some y' ->
    x <= y -> x' <= y'.
(** the largest value of a dtype *)
Definition top (d : dtype) : Z :=
  match d with ToolboxModel.U8 => 255 | ToolboxModel.U16 => 65535 | _ => 2147483647 end.
Definition bottom (d : dtype) : Z := match d with ToolboxModel.I32 => -2147483648 | _ => 0 end.
Definition is_int (d : dtype) : Prop := d <> ToolboxModel.F64.
Definition fits (d : dtype) (l : list Z) : Prop := forall n, In n l -> (bottom d <= n <= top d)%Z.

(** * Lists *)
Lemma pixelwise_map {A B} (P : A -> B -> Prop) (f : A -> B) l : (forall x, In x l -> P x (f x)) -> pixelwise P l (map f l).
Proof.
  intros H. split; [apply map_length|]. intros i x y Hx Hy. rewrite nth_error_map, Hx in Hy. cbn in Hy. injection Hy as <-.
  apply H. exact (nth_error_In _ _ Hx).
Qed.
Lemma keeps_order_map (f : R -> R) l : (forall x y, In x l -> In y l -> x <= y -> f x <= f y) -> keeps_order l (map f l).
Proof.
  intros H. split; [apply map_length|]. intros i j x y x' y' Hx Hy Hx' Hy' Hle.
  rewrite nth_error_map, Hx in Hx'. rewrite nth_error_map, Hy in Hy'. cbn in Hx', Hy'. injection Hx' as <-. injection Hy' as <-.
  apply H; [exact (nth_error_In _ _ Hx)|exact (nth_error_In _ _ Hy)|exact Hle].
Qed.
Lemma fold_max_spec l : forall a, is_max (fold_left Rmax l a) (a :: l).
Proof.
  induction l as [|b l IH]; intros a; cbn [fold_left].
  - split; [left; reflexivity|]. intros x [<- | []]. lra.
  - destruct (IH (Rmax a b)) as [Hin Hle]. split.
    + destruct Hin as [E | Hin]; [|right; right; exact Hin]. unfold Rmax in *. destruct (Rle_dec a b); [right; left|left]; exact E.
    + intros x [<- | [<- | Hx]].
      * eapply Rle_trans; [apply (Rmax_l a b)|apply Hle; left; reflexivity].
      * eapply Rle_trans; [apply (Rmax_r a b)|apply Hle; left; reflexivity].
      * apply Hle. right. exact Hx.
Qed.
Lemma fold_min_spec l : forall a, is_min (fold_left Rmin l a) (a :: l).
Proof.
  induction l as [|b l IH]; intros a; cbn [fold_left].
  - split; [left; reflexivity|]. intros x [<- | []]. lra.
  - destruct (IH (Rmin a b)) as [Hin Hle]. split.
    + destruct Hin as [E | Hin]; [|right; right; exact Hin]. unfold Rmin in *. destruct (Rle_dec a b); [left|right; left]; exact E.
    + intros x [<- | [<- | Hx]].
      * eapply Rle_trans; [apply Hle; left; reflexivity|apply (Rmin_l a b)].
      * eapply Rle_trans; [apply Hle; left; reflexivity|apply (Rmin_r a b)].
      * apply Hle. right. exact Hx.
Qed.
Lemma is_max_unique m m' l : is_max m l -> is_max m' l -> m = m'.
Proof. intros [H1 H2] [H3 H4]. apply Rle_antisym; auto. Qed.
Lemma is_min_unique m m' l : is_min m l -> is_min m' l -> m = m'.
Proof. intros [H1 H2] [H3 H4]. apply Rle_antisym; auto. Qed.
Lemma rmax_ok m l : is_max m l -> rmax l = Ok m.
Proof. intros H. destruct l as [|a l]; [destruct H as [[] _]|]. cbn. f_equal. exact (is_max_unique _ _ _ (fold_max_spec l a) H). Qed.
Lemma rmin_ok m l : is_min m l -> rmin l = Ok m.
Proof. intros H. destruct l as [|a l]; [destruct H as [[] _]|]. cbn. f_equal. exact (is_min_unique _ _ _ (fold_min_spec l a) H). Qed.
Lemma has_max (l : list R) : l <> [] -> exists m, is_max m l.
Proof. intros H. destruct l as [|a l]; [congruence|]. eexists. apply fold_max_spec. Qed.
Lemma has_min (l : list R) : l <> [] -> exists m, is_min m l.
Proof. intros H. destruct l as [|a l]; [congruence|]. eexists. apply fold_min_spec. Qed.
Lemma fmax_fin l : forall a, fold_left fmax2 (map Fin l) (Fin a) = Fin (fold_left Rmax l a).
Proof.
  induction l as [|b l IH]; intros a; [reflexivity|]. cbn [map fold_left].
  replace (fmax2 (Fin a) (Fin b)) with (Fin (Rmax a b)); [apply IH|].
  unfold fmax2, fltb, Rmax. destruct (Rle_dec a b), (Rlt_dec a b); f_equal; lra.
Qed.
Lemma fmax_ok m l : is_max m l -> fmax (map Fin l) = Fin m.
Proof. intros H. destruct l as [|a l]; [destruct H as [[] _]|]. cbn [map fmax]. rewrite fmax_fin. f_equal. exact (is_max_unique _ _ _ (fold_max_spec l a) H). Qed.

(** * The hyperbolic tangent *)
Lemma tanh_alt x : tanh x = 1 - 2 / (exp (2 * x) + 1).
Proof.
  unfold tanh, sinh, cosh. replace (2 * x) with (x + x) by lra. rewrite exp_plus.
  pose proof (exp_pos x) as Hp. rewrite exp_Ropp.
  assert (exp x <> 0) by lra. assert (exp x * exp x + 1 <> 0) by nra. field. repeat split; try lra; nra.
Qed.
Lemma tanh_lt x y : x < y -> tanh x < tanh y.
Proof.
  intros H. rewrite !tanh_alt. assert (E : exp (2 * x) < exp (2 * y)) by (apply exp_increasing; lra).
  pose proof (exp_pos (2 * x)). pose proof (exp_pos (2 * y)).
  assert (2 / (exp (2 * y) + 1) < 2 / (exp (2 * x) + 1)); [|lra].
  unfold Rdiv. apply Rmult_lt_compat_l; [lra|]. apply Rinv_lt_contravar; [nra|lra].
Qed.
Lemma tanh_le x y : x <= y -> tanh x <= tanh y.
Proof. intros [H | ->]; [left; apply tanh_lt; exact H|right; reflexivity]. Qed.
Lemma tanh_0 : tanh 0 = 0.
Proof. rewrite tanh_alt. replace (2 * 0) with 0 by lra. rewrite exp_0. lra. Qed.
Lemma tanh_lt_1 x : tanh x < 1.
Proof. rewrite tanh_alt. pose proof (exp_pos (2 * x)). assert (0 < 2 / (exp (2 * x) + 1)) by (apply Rdiv_lt_0_compat; lra). lra. Qed.
Lemma div_le x y t : 0 < t -> x <= y -> x / t <= y / t.
Proof. intros Ht H. unfold Rdiv. apply Rmult_le_compat_r; [left; apply Rinv_0_lt_compat; exact Ht|exact H]. Qed.
Lemma floor_le x y : x <= y -> IZR (Int_part x) <= IZR (Int_part y).
Proof.
  intros H. apply IZR_le. destruct (base_Int_part x) as [A B], (base_Int_part y) as [A' B'].
  assert (IZR (Int_part x) < IZR (Int_part y) + 1) by lra. rewrite <- plus_IZR in H0. apply lt_IZR in H0. lia.
Qed.
Lemma floor_IZR k : Int_part (IZR k) = k.
Proof. destruct (base_Int_part (IZR k)) as [A B]. apply le_IZR in A. assert (IZR k < IZR (Int_part (IZR k)) + 1) by lra. rewrite <- plus_IZR in H. apply lt_IZR in H. lia. Qed.

(** * rescale_intensity_tanh *)
Lemma tanh_max_out m l t : 0 < t -> is_max m l -> is_max (tanh (m / t)) (map (fun x => tanh (x / t)) l).
Proof.
  intros Ht [Hin Hle]. split; [apply in_map_iff; exists m; auto|].
  intros y Hy. apply in_map_iff in Hy as (x & <- & Hx). apply tanh_le, div_le; auto.
Qed.
Lemma fis0_fin t : t <> 0 -> fis0 (Fin t) = false.
Proof. intros H. cbn. destruct (Req_EM_T t 0); [contradiction|reflexivity]. Qed.
Lemma outs t l : t <> 0 -> map (fun x => ftanh (fdiv x (Fin t))) (map Fin l) = map Fin (map (fun x => tanh (x / t)) l).
Proof. intros H. rewrite !map_map. apply map_ext. intros x. cbn. destruct (Req_EM_T t 0); [contradiction|reflexivity]. Qed.
Lemma tanh_sign m t : 0 < t -> m <> 0 -> 0 < m / tanh (m / t) /\ tanh (m / t) <> 0.
Proof.
  intros Ht Hm. pose proof (Rinv_0_lt_compat _ Ht) as Hi.
  destruct (Rtotal_order m 0) as [H | [H | H]]; [|lra|].
  - assert (m / t < 0) by (unfold Rdiv; nra). pose proof (tanh_lt _ _ H0) as L. rewrite tanh_0 in L. split; [|lra].
    replace (m / tanh (m / t)) with ((- m) / (- tanh (m / t))) by (field; lra). apply Rdiv_lt_0_compat; lra.
  - assert (0 < m / t) by (unfold Rdiv; nra). pose proof (tanh_lt _ _ H0) as L. rewrite tanh_0 in L. split; [|lra]. apply Rdiv_lt_0_compat; lra.
Qed.
Lemma tanh_run im l t m : vals im = map Fin l -> 0 < t -> is_max m l -> m <> 0 ->
  rescale_intensity_tanh im (Some t) = Ok (Floats (map Fin (map (fun x => IZR (Int_part (m / tanh (m / t) * tanh (x / t)))) l))).
Proof.
  intros Hv Ht Hmax Hm. unfold rescale_intensity_tanh. rewrite fis0_fin by lra. rewrite Hv, outs by lra.
  rewrite (fmax_ok _ _ Hmax), (fmax_ok _ _ (tanh_max_out _ _ _ Ht Hmax)).
  destruct (tanh_sign m t Ht Hm) as [_ Hn].
  assert (Hl : map Fin l <> []) by (destruct l; [destruct Hmax as [[] _]|discriminate]).
  destruct (map Fin l) eqn:E; [congruence|]. cbn [fdiv]. destruct (Req_EM_T (tanh (m / t)) 0); [contradiction|].
  rewrite !map_map. do 2 f_equal.
Qed.

(** Each pixel [x] becomes the integer below [max(img) tanh(x / T) / tanh(max(img) / T)]. *)
Theorem C116_tanh im l t m : vals im = map Fin l -> 0 < t -> is_max m l -> m <> 0 ->
  exists out, rescale_intensity_tanh im (Some t) = Ok (Floats (map Fin out)) /\
    pixelwise (fun x y => exists k, y = IZR k /\ y <= m * (tanh (x / t) / tanh (m / t)) < y + 1) l out.
Proof.
  intros Hv Ht Hmax Hm. eexists. split; [apply (tanh_run _ _ _ _ Hv Ht Hmax Hm)|].
  apply pixelwise_map. intros x _. eexists. split; [reflexivity|].
  replace (m * (tanh (x / t) / tanh (m / t))) with (m / tanh (m / t) * tanh (x / t)) by (unfold Rdiv; ring).
  destruct (base_Int_part (m / tanh (m / t) * tanh (x / t))). lra.
Qed.

(** The order of the pixels is kept; the maximum is the one of the image, without its decimals, whatever the threshold. *)
Theorem C116_tanh_order im l t m : vals im = map Fin l -> 0 < t -> is_max m l -> m <> 0 ->
  exists out, rescale_intensity_tanh im (Some t) = Ok (Floats (map Fin out)) /\ keeps_order l out /\
    exists k, is_max (IZR k) out /\ IZR k <= m < IZR k + 1.
Proof.
  intros Hv Ht Hmax Hm. eexists. split; [apply (tanh_run _ _ _ _ Hv Ht Hmax Hm)|].
  destruct (tanh_sign m t Ht Hm) as [Hs Hn].
  assert (Hmono : forall x y, x <= y -> IZR (Int_part (m / tanh (m / t) * tanh (x / t))) <= IZR (Int_part (m / tanh (m / t) * tanh (y / t)))).
  { intros x y H. apply floor_le. apply Rmult_le_compat_l; [lra|]. apply tanh_le, div_le; auto. }
  split; [apply keeps_order_map; auto|]. exists (Int_part m).
  assert (E : m / tanh (m / t) * tanh (m / t) = m) by (field; exact Hn).
  split.
  - split; [apply in_map_iff; exists m; rewrite E; split; [reflexivity|apply Hmax]|].
    intros y Hy. apply in_map_iff in Hy as (x & <- & Hx). rewrite <- E at 3. apply Hmono. apply Hmax. exact Hx.
  - destruct (base_Int_part m). lra.
Qed.

(** An image of which the maximum is 0 becomes an image without any number. *)
Theorem C116_tanh_nan im l t : vals im = map Fin l -> 0 < t -> is_max 0 l ->
  rescale_intensity_tanh im (Some t) = Ok (Floats (map (fun _ => NaN) l)).
Proof.
  intros Hv Ht Hmax. unfold rescale_intensity_tanh. rewrite fis0_fin by lra. rewrite Hv, outs by lra.
  rewrite (fmax_ok _ _ Hmax), (fmax_ok _ _ (tanh_max_out _ _ _ Ht Hmax)).
  replace (0 / t) with 0 by (unfold Rdiv; ring). rewrite tanh_0.
  assert (Hl : map Fin l <> []) by (destruct l; [destruct Hmax as [[] _]|discriminate]).
  destruct (map Fin l) eqn:E; [congruence|]. cbn [fdiv]. destruct (Req_EM_T 0 0); [|lra].
  unfold inf_times. destruct (Req_EM_T 0 0); [|lra]. rewrite !map_map. do 2 f_equal.
Qed.

(** The documented formulas do not hold: the values are not [max(img) tanh(img / threshold)],
    and an image of zeros has no number left. *)
Theorem C116_tanh_formula_refuted m t : 0 < t -> (0 < m)%Z ->
  rescale_intensity_tanh (Ints ToolboxModel.U8 [m]) (Some t) = Ok (Floats [Fin (IZR m)]) /\ IZR m * tanh (IZR m / t) < IZR m.
Proof.
  intros Ht Hm. assert (0 < IZR m) by (apply (IZR_lt 0); exact Hm). split.
  - rewrite (tanh_run _ [IZR m] t (IZR m)); [|reflexivity|exact Ht| |lra].
    + cbn [map]. destruct (tanh_sign (IZR m) t Ht ltac:(lra)) as [_ Hn].
      replace (IZR m / tanh (IZR m / t) * tanh (IZR m / t)) with (IZR m) by (field; exact Hn). rewrite floor_IZR. reflexivity.
    + split; [left; reflexivity|]. intros x [<- | []]. lra.
  - pose proof (tanh_lt_1 (IZR m / t)). nra.
Qed.

(** ** The default threshold *)
Lemma wrap_int d n : is_int d -> ToolboxModel.wrap d n = (bottom d + (n - bottom d) mod (top d - bottom d + 1))%Z.
Proof. intros H. destruct d; try reflexivity. destruct H. reflexivity. Qed.
Lemma wrap_fits d n : is_int d -> (bottom d <= n <= top d)%Z -> ToolboxModel.wrap d n = n.
Proof. intros H Hn. rewrite wrap_int by exact H. rewrite Z.mod_small; [lia|]. lia. Qed.
Lemma wrap_le_top d n : is_int d -> (bottom d <= ToolboxModel.wrap d n <= top d)%Z.
Proof.
  intros H. rewrite wrap_int by exact H. assert (0 < top d - bottom d + 1)%Z by (destruct d; cbn; lia).
  pose proof (Z.mod_pos_bound (n - bottom d) _ H0). lia.
Qed.
Lemma bottom_le0 d : (bottom d <= 0)%Z. Proof. destruct d; cbn; lia. Qed.
Lemma wrap_square d n : is_int d -> (ToolboxModel.wrap d (n * n) <= n * n)%Z.
Proof.
  intros H. pose proof (wrap_le_top d (n * n) H) as [_ Hu]. destruct (Z_le_gt_dec (n * n) (top d)) as [Hs | Hs]; [|lia].
  pose proof (bottom_le0 d). rewrite wrap_fits; [lia|exact H|]. split; nia.
Qed.
Definition sumsq (l : list Z) : Z := fold_right (fun n s => (n * n + s)%Z) 0%Z l.
Lemma sum_wrapped d l : is_int d ->
  (fold_right (fun n s => (ToolboxModel.wrap d (n * n) + s)%Z) 0%Z l <= sumsq l)%Z /\
  ((fold_right (fun n s => (ToolboxModel.wrap d (n * n) + s)%Z) 0%Z l = sumsq l)%Z <-> forall n, In n l -> (n * n <= top d)%Z).
Proof.
  intros H. induction l as [|a l [IHle IH]]; cbn [fold_right sumsq]; [split; [lia|]; split; [intros _ n []|reflexivity]|].
  fold (sumsq l). pose proof (wrap_square d a H) as Hw. split; [lia|]. split.
  - intros E n [<- | Hn].
    + pose proof (wrap_le_top d (a * a) H). lia.
    + apply IH; [lia|exact Hn].
  - intros Hall. assert (E : ToolboxModel.wrap d (a * a) = (a * a)%Z).
    { pose proof (bottom_le0 d). apply wrap_fits; [exact H|]. specialize (Hall a (or_introl eq_refl)). split; nia. }
    rewrite E. f_equal. apply IH. intros n Hn. apply Hall. right. exact Hn.
Qed.
Lemma mean_int (f : Z -> Z) l : l <> [] -> mean (map (fun n => Fin (IZR (f n))) l) = Fin (IZR (fold_right (fun n s => (f n + s)%Z) 0%Z l) / INR (List.length l)).
Proof.
  intros Hl. unfold mean. rewrite map_length. rewrite (fsum_fin (fun n => IZR (f n))).
  assert (E : rsuml (map (fun n => IZR (f n)) l) = IZR (fold_right (fun n s => (f n + s)%Z) 0%Z l)).
  { clear Hl. unfold rsuml. induction l as [|a l IH]; cbn [map fold_right]; [reflexivity|]. rewrite IH, plus_IZR. reflexivity. }
  rewrite E. cbn [fdiv]. destruct (Req_EM_T (INR (List.length l)) 0) as [E0 | _]; [|reflexivity].
  exfalso. apply Hl. destruct l; [reflexivity|]. cbn [List.length] in E0. pose proof (pos_INR (List.length l)). rewrite S_INR in E0. lra.
Qed.
Lemma sumsq_pos l : (0 <= sumsq l)%Z.
Proof. induction l as [|a l IH]; cbn [sumsq fold_right]; [lia|]. fold (sumsq l). nia. Qed.

(** The default threshold of an image of integers is twice the root mean square of the pixels
    exactly when no square is above the largest value of the dtype (15 for uint8, 255 for uint16). *)
Theorem C116_default_iff d p : is_int d -> p <> [] ->
  (default_threshold (Ints d p) = Fin (2 * sqrt (IZR (sumsq p) / INR (List.length p))) <-> forall n, In n p -> (n * n <= top d)%Z).
Proof.
  intros Hd Hp. destruct (sum_wrapped d p Hd) as [Hle Hiff]. rewrite <- Hiff.
  unfold default_threshold, mean_square. rewrite mean_int by exact Hp.
  set (w := fold_right (fun n s => (ToolboxModel.wrap d (n * n) + s)%Z) 0%Z p) in *.
  assert (Hn : 0 < INR (List.length p)).
  { destruct p; [congruence|]. cbn [List.length]. pose proof (pos_INR (List.length p)). rewrite S_INR. lra. }
  pose proof (Rinv_0_lt_compat _ Hn) as Hi. pose proof (sumsq_pos p) as Hq. apply IZR_le in Hq. unfold Rdiv in *.
  split.
  - cbn [fsqrt]. destruct (Rlt_dec _ _) as [Hneg | Hpos]; [discriminate|]. cbn [fmul]. intros E. injection E as E.
    assert (E' : sqrt (IZR w * / INR (List.length p)) = sqrt (IZR (sumsq p) * / INR (List.length p))) by lra.
    apply sqrt_inj in E'; [|lra|nra]. apply eq_IZR. apply Rmult_eq_reg_r in E'; [exact E'|lra].
  - intros ->. cbn [fsqrt]. destruct (Rlt_dec _ _) as [Hneg | Hpos]; [nra|]. reflexivity.
Qed.

(** Without a threshold the tool is the one with the default threshold. *)
Theorem C116_default_used im t : default_threshold im = Fin t -> rescale_intensity_tanh im None = rescale_intensity_tanh im (Some t).
Proof. intros E. unfold rescale_intensity_tanh. rewrite E. reflexivity. Qed.

(** A uint8 image of which the pixels are multiples of 16 is not changed, whatever its contrast. *)
Theorem C116_default_refuted p : p <> [] -> (forall n, In n p -> exists k, n = 16 * k)%Z ->
  rescale_intensity_tanh (Ints ToolboxModel.U8 p) None = Ok (Ints ToolboxModel.U8 p).
Proof.
  intros Hp H. unfold rescale_intensity_tanh, default_threshold, mean_square. rewrite mean_int by exact Hp.
  replace (fold_right (fun n s => (ToolboxModel.wrap ToolboxModel.U8 (n * n) + s)%Z) 0%Z p) with 0%Z.
  - replace (0 / INR (List.length p)) with 0 by (unfold Rdiv; ring). cbn [fsqrt]. destruct (Rlt_dec 0 0); [lra|].
    rewrite sqrt_0. cbn [fmul fis0]. destruct (Req_EM_T (2 * 0) 0); [reflexivity|lra].
  - clear Hp. induction p as [|a p IH]; [reflexivity|]. cbn [fold_right]. rewrite <- IH by (intros n Hn; apply H; right; exact Hn).
    destruct (H a (or_introl eq_refl)) as (k & ->). rewrite wrap_int by discriminate. cbn [bottom top].
    replace (16 * k * (16 * k) - 0)%Z with (k * k * 256)%Z by lia. change (255 - 0 + 1)%Z with 256%Z. rewrite Z.mod_mul by lia. reflexivity.
Qed.

(** * rescale_intensity *)
Lemma rescale_run l a b mn mx : is_min mn l -> is_max mx l -> mn < mx ->
  rescale_intensity l a b = Ok (map (fun x => (x - mn) / (mx - mn) * (b - a) + a) l).
Proof.
  intros H1 H2 Hlt. unfold rescale_intensity, sk_rescale. rewrite (rmin_ok _ _ H1), (rmax_ok _ _ H2). cbn [bind].
  destruct (Req_EM_T mn mx); [lra|]. reflexivity.
Qed.
(** The pixels of an image which is not uniform cover exactly the given range; differences are proportional. *)
Theorem C116_rescale l a b mn mx : is_min mn l -> is_max mx l -> mn < mx -> a <= b ->
  exists out, rescale_intensity l a b = Ok out /\ is_min a out /\ is_max b out /\ keeps_order l out /\
    pixelwise (fun x y => (y - a) * (mx - mn) = (x - mn) * (b - a)) l out.
Proof.
  intros H1 H2 Hlt Hab. eexists. split; [apply (rescale_run _ _ _ _ _ H1 H2 Hlt)|].
  assert (Hi : 0 < / (mx - mn)) by (apply Rinv_0_lt_compat; lra).
  assert (Hmono : forall x y, x <= y -> (x - mn) / (mx - mn) * (b - a) + a <= (y - mn) / (mx - mn) * (b - a) + a).
  { intros x y H. apply Rplus_le_compat_r. apply Rmult_le_compat_r; [lra|]. apply div_le; lra. }
  assert (Ea : (mn - mn) / (mx - mn) * (b - a) + a = a) by (field; lra).
  assert (Eb : (mx - mn) / (mx - mn) * (b - a) + a = b) by (field; lra).
  split; [|split; [|split]].
  - split; [apply in_map_iff; exists mn; split; [exact Ea|apply H1]|]. intros y Hy. apply in_map_iff in Hy as (x & <- & Hx).
    eapply Rle_trans; [right; symmetry; exact Ea|]. apply Hmono, H1, Hx.
  - split; [apply in_map_iff; exists mx; split; [exact Eb|apply H2]|]. intros y Hy. apply in_map_iff in Hy as (x & <- & Hx).
    eapply Rle_trans; [|right; exact Eb]. apply Hmono, H2, Hx.
  - apply keeps_order_map. auto.
  - apply pixelwise_map. intros x _. field. lra.
Qed.
(** A uniform image is not rescaled: its value is only brought into the range. *)
Theorem C116_rescale_uniform l a b c : l <> [] -> (forall x, In x l -> x = c) -> a <= b ->
  exists c', rescale_intensity l a b = Ok (map (fun _ => c') l) /\ a <= c' <= b /\ (a <= c <= b -> c' = c) /\ (c < a -> c' = a) /\ (b < c -> c' = b).
Proof.
  intros Hl Hc Hab. assert (Hin : In c l) by (destruct l as [|x l]; [congruence|]; left; apply Hc; left; reflexivity).
  exists (clip a b c). split.
  - unfold rescale_intensity, sk_rescale. rewrite (rmin_ok c l), (rmax_ok c l); [|split; [exact Hin|intros x Hx; rewrite (Hc x Hx); lra]..].
    cbn [bind]. destruct (Req_EM_T c c); [|congruence]. f_equal. apply map_ext_in. intros x Hx. rewrite (Hc x Hx). reflexivity.
  - unfold clip, Rmin, Rmax. destruct (Rle_dec a c); [destruct (Rle_dec b c)|destruct (Rle_dec b a)]; repeat split; intros; lra.
Qed.
(** The change is a multiplicative factor exactly when the two ranges are proportional (in particular, not for minima = 0
    when the darkest pixel is not 0). *)
Theorem C116_factor_iff l a b mn mx : is_min mn l -> is_max mx l -> mn < mx ->
  exists out, rescale_intensity l a b = Ok out /\ ((exists c, pixelwise (fun x y => y = c * x) l out) <-> a * mx = b * mn).
Proof.
  intros H1 H2 Hlt. eexists. split; [apply (rescale_run _ _ _ _ _ H1 H2 Hlt)|]. split.
  - intros (c & Hlen & H). destruct (In_nth_error _ _ (proj1 H1)) as (i & Hi). destruct (In_nth_error _ _ (proj1 H2)) as (j & Hj).
    pose proof (H i _ _ Hi (map_nth_error _ _ _ Hi)) as Ei. pose proof (H j _ _ Hj (map_nth_error _ _ _ Hj)) as Ej. cbv beta in Ei, Ej.
    assert (Ea : (mn - mn) / (mx - mn) * (b - a) + a = a) by (field; lra). assert (Eb : (mx - mn) / (mx - mn) * (b - a) + a = b) by (field; lra).
    rewrite Ea in Ei. rewrite Eb in Ej. subst a b. ring.
  - intros E. exists ((b - a) / (mx - mn)). apply pixelwise_map. intros x _.
    assert (a = (b - a) / (mx - mn) * mn); [|unfold Rdiv in *; nra].
    apply (Rmult_eq_reg_r (mx - mn)); [|lra]. replace ((b - a) / (mx - mn) * mn * (mx - mn)) with ((b - a) * mn) by (field; lra). lra.
Qed.
Theorem C116_factor_refuted : exists l out, rescale_intensity l 0 4096 = Ok out /\ ~ exists c, pixelwise (fun x y => y = c * x) l out.
Proof.
  assert (H1 : is_min 1 [1; 2; 3]) by (split; [left; reflexivity|]; intros x [<- | [<- | [<- | []]]]; lra).
  assert (H2 : is_max 3 [1; 2; 3]) by (split; [right; right; left; reflexivity|]; intros x [<- | [<- | [<- | []]]]; lra).
  destruct (C116_factor_iff [1; 2; 3] 0 4096 1 3 H1 H2 ltac:(lra)) as (out & E & Hiff). exists [1; 2; 3], out. split; [exact E|].
  intros H. apply Hiff in H. lra.
Qed.

(** * equalize_hist_adapt, equalize_hist_local *)
Lemma rescale_some l a b : l <> [] -> exists out, rescale_intensity l a b = Ok out /\ List.length out = List.length l.
Proof.
  intros Hl. destruct (has_min l Hl) as (mn & H1). destruct (has_max l Hl) as (mx & H2).
  unfold rescale_intensity, sk_rescale. rewrite (rmin_ok _ _ H1), (rmax_ok _ _ H2). cbn [bind].
  destruct (Req_EM_T mn mx); eexists; (split; [reflexivity|apply map_length]).
Qed.
(** What is equalised is the image brought to the range from 0 to 1.  The result covers the range of brightness of the image exactly
    when the equalised image is not uniform, or the image is. *)
Theorem C116_equalize_iff equalize l mn mx : (forall i, List.length (equalize i) = List.length i) -> is_min mn l -> is_max mx l ->
  exists unit out, rescale_intensity l 0 1 = Ok unit /\ equalize_hist equalize l = Ok out /\ List.length out = List.length l /\
    (forall y, In y out -> mn <= y <= mx) /\
    (is_min mn out /\ is_max mx out <-> mn = mx \/ exists x y, In x (equalize unit) /\ In y (equalize unit) /\ x <> y).
Proof.
  intros Hlen H1 H2. assert (Hl : l <> []) by (destruct l; [destruct H1 as [[] _]|discriminate]).
  assert (Hle : mn <= mx) by (apply H1; apply H2).
  destruct (rescale_some l 0 1 Hl) as (unit & Eu & Lu). exists unit.
  assert (Le : List.length (equalize unit) = List.length l) by (rewrite Hlen; exact Lu).
  assert (He : equalize unit <> []) by (intros E; rewrite E in Le; destruct l; [congruence|discriminate]).
  unfold equalize_hist. rewrite (rmin_ok _ _ H1), (rmax_ok _ _ H2). cbn [bind]. rewrite Eu. cbn [bind].
  destruct (has_min _ He) as (em & E1). destruct (has_max _ He) as (eM & E2).
  assert (Hee : em <= eM) by (apply E1; apply E2).
  destruct (Rlt_dec em eM) as [Hlt | Hge].
  - destruct (C116_rescale _ mn mx _ _ E1 E2 Hlt Hle) as (out & Eo & Ha & Hb & Hk & _). exists out.
    split; [reflexivity|]. split; [exact Eo|]. split; [rewrite (proj1 Hk); exact Le|]. split.
    + intros y Hy. split; [apply Ha|apply Hb]; exact Hy.
    + split; [|auto]. intros _. right. exists em, eM. split; [apply E1|]. split; [apply E2|lra].
  - assert (Hc : forall x, In x (equalize unit) -> x = em) by (intros x Hx; pose proof (proj2 E1 x Hx); pose proof (proj2 E2 x Hx); lra).
    destruct (C116_rescale_uniform _ mn mx em He Hc Hle) as (c & Eo & Hr & _). eexists. split; [reflexivity|]. split; [exact Eo|].
    split; [rewrite map_length; exact Le|]. split.
    + intros y Hy. apply in_map_iff in Hy as (x & <- & _). exact Hr.
    + split.
      * intros [[Ha _] [Hb _]]. left. apply in_map_iff in Ha as (? & <- & _). apply in_map_iff in Hb as (? & <- & _). reflexivity.
      * intros [E | (x & y & Hx & Hy & Hn)]; [|exfalso; apply Hn; rewrite (Hc x Hx), (Hc y Hy); reflexivity].
        assert (c = mn) by lra. subst c. assert (Hin : In mn (map (fun _ => mn) (equalize unit))).
        { destruct (equalize unit); [congruence|]. left. reflexivity. }
        split; (split; [try rewrite <- E; exact Hin|]); intros y Hy; apply in_map_iff in Hy as (x & <- & _); lra.
Qed.

(** * adaptive_threshold *)
(** The result is the threshold, not a binary image: with a window of one pixel it is the image. *)
Theorem C116_adaptive_refuted local_mean l offset : (forall l, local_mean 1%Z l = l) ->
  adaptive_threshold local_mean l 1 offset = map (fun x => x - offset) l /\
  exists l', exists x y z, In x (adaptive_threshold local_mean l' 1 offset) /\ In y (adaptive_threshold local_mean l' 1 offset) /\
    In z (adaptive_threshold local_mean l' 1 offset) /\ x <> y /\ y <> z /\ x <> z.
Proof.
  intros H. unfold adaptive_threshold. rewrite H. split; [reflexivity|]. exists [1; 2; 3]. rewrite H. cbn [map].
  exists (1 - offset), (2 - offset), (3 - offset). cbn. repeat split; auto; lra.
Qed.

(** * sharpen *)
Lemma zip_nth {A B C} (f : A -> B -> C) a : forall b i, nth_error (zip f a b) i =
  match nth_error a i, nth_error b i with Some x, Some y => Some (f x y) | _, _ => None end.
Proof.
  induction a as [|x a IH]; intros [|y b] [|i]; cbn; try reflexivity; [destruct (nth_error a i); reflexivity|apply IH].
Qed.
Lemma wrap_unsigned d x y : d = ToolboxModel.U8 \/ d = ToolboxModel.U16 -> (0 <= x <= top d)%Z -> (0 <= y <= top d)%Z ->
  ToolboxModel.wrap d (x - y) = if Z_le_dec y x then (x - y)%Z else (x - y + (top d + 1))%Z.
Proof.
  intros Hd Hx Hy. assert (Hi : is_int d) by (destruct Hd; subst; discriminate). rewrite wrap_int by exact Hi.
  assert (Hb : bottom d = 0%Z) by (destruct Hd; subst; reflexivity). rewrite Hb. replace (top d - 0 + 1)%Z with (top d + 1)%Z by lia.
  replace (0 + (x - y - 0) mod (top d + 1))%Z with ((x - y) mod (top d + 1))%Z by (rewrite Z.sub_0_r; reflexivity).
  destruct (Z_le_dec y x); [apply Z.mod_small; lia|]. symmetry. apply Z.mod_unique with (-1)%Z; lia.
Qed.
(** For unsigned integers, with [p] the image after the first filter and [q] after the second one: exact value of each pixel. *)
Theorem C116_sharpen gauss im s1 s2 alpha d p q : d = ToolboxModel.U8 \/ d = ToolboxModel.U16 ->
  gauss s1 im = Ints d p -> gauss s2 (Ints d p) = Ints d q -> List.length q = List.length p -> fits d p -> fits d q ->
  exists out, sharpen gauss im s1 s2 alpha = Floats (map Fin out) /\ List.length out = List.length p /\
    forall i x y, nth_error p i = Some x -> nth_error q i = Some y ->
      nth_error out i = Some (IZR x + alpha * (IZR x - IZR y + (if Z_le_dec y x then 0 else IZR (top d + 1)))).
Proof.
  intros Hd E1 E2 Hl Fp Fq. unfold sharpen. rewrite E1, E2. cbn [sub vals].
  assert (Hb : bottom d = 0%Z) by (destruct Hd; subst; reflexivity). unfold fits in Fp, Fq. rewrite Hb in Fp, Fq.
  exists (zip (fun x y => IZR x + alpha * IZR (ToolboxModel.wrap d (x - y))) p q). split; [|split].
  - f_equal. clear E1 E2 Fp Fq. revert q Hl. induction p as [|x p IH]; intros [|y q] Hl; cbn; try reflexivity. f_equal. apply IH. cbn in Hl. lia.
  - clear E1 E2 Fp Fq. revert q Hl. induction p as [|x p IH]; intros [|y q] Hl; cbn in *; try reflexivity; try lia. f_equal. apply IH. lia.
  - intros i x y Hx Hy. rewrite zip_nth, Hx, Hy. do 3 f_equal.
    rewrite wrap_unsigned; [|exact Hd|apply Fp; exact (nth_error_In _ _ Hx)|apply Fq; exact (nth_error_In _ _ Hy)].
    destruct (Z_le_dec y x); [|rewrite plus_IZR]; rewrite minus_IZR; [ring|reflexivity].
Qed.
(** The formula holds for unsigned integers exactly when the second filter brightens no pixel: never at the dark side of an edge. *)
Theorem C116_sharpen_iff gauss im s1 s2 alpha d p q : d = ToolboxModel.U8 \/ d = ToolboxModel.U16 -> alpha <> 0 ->
  gauss s1 im = Ints d p -> gauss s2 (Ints d p) = Ints d q -> List.length q = List.length p -> fits d p -> fits d q ->
  exists out, sharpen gauss im s1 s2 alpha = Floats (map Fin out) /\
    ((forall i x y z, nth_error p i = Some x -> nth_error q i = Some y -> nth_error out i = Some z -> z = IZR x + alpha * (IZR x - IZR y)) <->
     forall i x y, nth_error p i = Some x -> nth_error q i = Some y -> (y <= x)%Z).
Proof.
  intros Hd Ha E1 E2 Hl Fp Fq. destruct (C116_sharpen gauss im s1 s2 alpha d p q Hd E1 E2 Hl Fp Fq) as (out & E & _ & H).
  exists out. split; [exact E|]. split.
  - intros HF i x y Hx Hy. specialize (H i x y Hx Hy). specialize (HF i x y _ Hx Hy H). destruct (Z_le_dec y x) as [L | L]; [exact L|exfalso].
    assert (Hp : 0 < IZR (top d + 1)) by (apply (IZR_lt 0); destruct Hd; subst; reflexivity).
    assert (E0 : alpha * IZR (top d + 1) = 0) by lra. apply Rmult_integral in E0. lra.
  - intros HL i x y z Hx Hy Hz. specialize (H i x y Hx Hy). rewrite H in Hz. injection Hz as <-. specialize (HL i x y Hx Hy).
    destruct (Z_le_dec y x); [ring|contradiction].
Qed.
(** For an image of floats the formula always holds. *)
Theorem C116_sharpen_float gauss im s1 s2 alpha p q :
  gauss s1 im = Floats (map Fin p) -> gauss s2 (Floats (map Fin p)) = Floats (map Fin q) -> List.length q = List.length p ->
  exists out, sharpen gauss im s1 s2 alpha = Floats (map Fin out) /\ List.length out = List.length p /\
    forall i x y, nth_error p i = Some x -> nth_error q i = Some y -> nth_error out i = Some (x + alpha * (x - y)).
Proof.
  intros E1 E2 Hl. unfold sharpen. rewrite E1, E2. cbn [sub vals].
  exists (zip (fun x y => x + alpha * (x - y)) p q). clear E1 E2. split; [|split].
  - f_equal. revert q Hl. induction p as [|x p IH]; intros [|y q] Hl; cbn; try reflexivity. f_equal. apply IH. cbn in Hl. lia.
  - revert q Hl. induction p as [|x p IH]; intros [|y q] Hl; cbn in *; try reflexivity; try lia. f_equal. apply IH. lia.
  - intros i x y Hx Hy. rewrite zip_nth, Hx, Hy. reflexivity.
Qed.

Print Assumptions C116_tanh.
Print Assumptions C116_tanh_order.
Print Assumptions C116_tanh_nan.
Print Assumptions C116_tanh_formula_refuted.
Print Assumptions C116_default_iff.
Print Assumptions C116_default_used.
Print Assumptions C116_default_refuted.
Print Assumptions C116_rescale.
Print Assumptions C116_rescale_uniform.
Print Assumptions C116_factor_iff.
Print Assumptions C116_factor_refuted.
Print Assumptions C116_equalize_iff.
Print Assumptions C116_adaptive_refuted.
Print Assumptions C116_sharpen.
Print Assumptions C116_sharpen_iff.
Print Assumptions C116_sharpen_float.

(** * Cases which meet the hypotheses *)
Example ex_max : is_max 200 (map IZR [10; 200; 40]%Z) /\ is_min 10 (map IZR [10; 200; 40]%Z) /\ 10 < 200 /\ 200 <> 0 /\
  vals (Ints ToolboxModel.U8 [10; 200; 40]%Z) = map Fin (map IZR [10; 200; 40]%Z).
Proof.
  cbn. repeat split; try lra.
  - right; left; reflexivity.
  - intros x [<- | [<- | [<- | []]]]; lra.
  - left; reflexivity.
  - intros x [<- | [<- | [<- | []]]]; lra.
Qed.
(** a uint8 image with pixels above 15: the threshold is not the documented one *)
Example ex_default : default_threshold (Ints ToolboxModel.U8 [10; 200; 40]%Z) <>
  Fin (2 * sqrt (IZR (sumsq [10; 200; 40]%Z) / INR (List.length [10; 200; 40]%Z))).
Proof. intros E. pose proof (proj1 (C116_default_iff ToolboxModel.U8 [10; 200; 40]%Z ltac:(discriminate) ltac:(discriminate)) E) as E'. specialize (E' 200%Z (or_intror (or_introl eq_refl))). cbn in E'. lia. Qed.
Example ex_default_ok : default_threshold (Ints ToolboxModel.U8 [10; 15; 4]%Z) =
  Fin (2 * sqrt (IZR (sumsq [10; 15; 4]%Z) / INR (List.length [10; 15; 4]%Z))).
Proof. apply (proj2 (C116_default_iff ToolboxModel.U8 [10; 15; 4]%Z ltac:(discriminate) ltac:(discriminate))). intros n [<- | [<- | [<- | []]]]; cbn; lia. Qed.
(** a smooth edge: the filter makes the dark pixel brighter, and the result there is far above the bright side *)
Definition ex_gauss (s : R) (im : image) : image :=
  match im with Ints d [a; b] => Ints d [((3 * a + b) / 4)%Z; ((a + 3 * b) / 4)%Z] | _ => im end.
Example ex_sharpen : exists out, sharpen ex_gauss (Ints ToolboxModel.U8 [10; 18]%Z) 3 1 30 = Floats (map Fin out) /\
  nth_error out 0 = Some (12 + 30 * (12 - 13 + 256)) /\ nth_error out 1 = Some (16 + 30 * (16 - 15 + 0)).
Proof.
  destruct (C116_sharpen ex_gauss (Ints ToolboxModel.U8 [10; 18]%Z) 3 1 30 ToolboxModel.U8 [12; 16]%Z [13; 15]%Z) as (out & E & _ & H);
    try reflexivity; [auto|intros n [<- | [<- | []]]; cbn; lia..|].
  exists out. split; [exact E|]. split; [apply (H 0%nat 12%Z 13%Z eq_refl eq_refl)|apply (H 1%nat 16%Z 15%Z eq_refl eq_refl)].
Qed.

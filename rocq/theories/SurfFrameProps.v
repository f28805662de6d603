(** C84, C85, C86: normalisation of the frames, cropped frames and borders in the surface tracking. *)
From Coq Require Import QArith Qround Lqa Permutation Sorted.
From Verif Require Import PyBase StrModel ToolboxModel SurfFrameModel.
Open Scope Z_scope.

(** ** Generic lemmas *)
Definition rectangular {A} (w : nat) (f : list (list A)) : Prop := forall line, In line f -> List.length line = w.

Lemma map_result_ok {A B} (f : A -> result B) (g : A -> B) l : (forall a, In a l -> f a = Ok (g a)) -> map_result f l = Ok (map g l).
Proof. induction l as [|a l IH]; intros H; [reflexivity|]. cbn [map_result map]. rewrite (H a (or_introl eq_refl)). cbn [bind]. rewrite IH by (intros; apply H; right; assumption). reflexivity. Qed.

Lemma map_result_map {A B C} (F : B -> result C) (h : A -> B) (h' : A -> C) l : (forall a, In a l -> F (h a) = Ok (h' a)) -> map_result F (map h l) = Ok (map h' l).
Proof. induction l as [|a l IH]; intros H; [reflexivity|]. cbn [map_result map]. rewrite (H a (or_introl eq_refl)). cbn [bind]. rewrite IH by (intros; apply H; right; assumption). reflexivity. Qed.

Lemma combine_map_l {A B C} (h : A * B -> C) : forall (l : list A) (m : list B), combine (map h (combine l m)) m = map (fun p => (h p, snd p)) (combine l m).
Proof. induction l as [|a l IH]; intros [|b m]; try reflexivity. cbn [combine map snd]. rewrite IH. reflexivity. Qed.

Lemma update_nth_app {A} (v p : A) : forall l1 l2, update_nth (List.length l1) (fun _ => v) (l1 ++ p :: l2) = l1 ++ v :: l2.
Proof. induction l1 as [|a l1 IH]; intros l2; [reflexivity|]. cbn. rewrite IH. reflexivity. Qed.

Lemma firstn_nth_skipn {A} k (l : list A) p : nth_error l k = Some p -> l = firstn k l ++ p :: skipn (S k) l /\ firstn (S k) l = firstn k l ++ [p] /\ skipn k l = p :: skipn (S k) l.
Proof.
  revert k; induction l as [|a l IH]; intros [|k] H; try discriminate.
  - injection H as ->. auto.
  - cbn in H. destruct (IH k H) as (E1 & E2 & E3). split; [|split].
    + change (a :: l = a :: (firstn k l ++ p :: skipn (S k) l)). f_equal. exact E1.
    + change (a :: firstn (S k) l = a :: (firstn k l ++ [p])). f_equal. exact E2.
    + exact E3.
Qed.

Lemma Forall2_map_self {A B} (R : A -> B -> Prop) (h : A -> B) l : (forall a, In a l -> R a (h a)) -> Forall2 R l (map h l).
Proof. induction l as [|a l IH]; intros H; constructor; [apply H; left; reflexivity|apply IH; intros; apply H; right; assumption]. Qed.

(** ** The loop on the columns *)
Lemma divide_loop d (means : list Q) (g : Q -> Q -> Q) (w : nat) (f : frame) :
  rectangular w f ->
  (forall m, In m means -> ~ (m == 0)%Q) ->
  (forall line m p, In (line, m) (combine f means) -> In p line -> cast d (PyFloat (p / m)) = Ok (g m p)) ->
  List.length f = List.length means ->
  forall n k, (k + n = w)%nat ->
  py_for (divide_column d means) (seq k n) (map (fun '(line, m) => map (g m) (firstn k line) ++ skipn k line) (combine f means))
  = Ok (map (fun '(line, m) => map (g m) line) (combine f means)).
Proof.
  intros Hw Hm Hg Hl. induction n as [|n IH]; intros k Hk.
  - cbn [seq py_for]. f_equal. apply map_ext_in. intros [line m] Hin. rewrite firstn_all2, skipn_all2, app_nil_r; [reflexivity| |];
      rewrite (Hw line) by (eapply in_combine_l; eassumption); lia.
  - cbn [seq py_for]. unfold divide_column at 1. rewrite combine_map_l.
    rewrite (map_result_map _ _ (fun '(line, m) => map (g m) (firstn (S k) line) ++ skipn (S k) line)).
    + cbn beta iota. apply IH. lia.
    + intros [line m] Hin. cbn [snd].
      destruct (Qeq_bool m 0) eqn:E0; [apply Qeq_bool_iff in E0; exfalso; eapply Hm; [eapply in_combine_r; eassumption|exact E0]|].
      assert (HL : List.length line = w) by (apply Hw; eapply in_combine_l; eassumption).
      destruct (nth_error line k) as [p|] eqn:E; [|apply nth_error_None in E; lia].
      destruct (firstn_nth_skipn k line p E) as (E1 & E2 & E3). rewrite E3, E2, map_app, <- app_assoc. cbn [map app].
      assert (HF : List.length (map (g m) (firstn k line)) = k) by (rewrite map_length, firstn_length; lia).
      rewrite nth_error_app2 by lia. rewrite HF, Nat.sub_diag. cbn [nth_error].
      rewrite (Hg line m p Hin) by (eapply nth_error_In; exact E). cbn [bind]. f_equal.
      rewrite <- HF at 1. apply update_nth_app.
Qed.

Lemma normalize_formula d (g : Q -> Q -> Q) (w : nat) (f : frame) :
  rectangular w f -> (1 <= List.length f)%nat ->
  (forall line, In line f -> ~ (qmean line == 0)%Q) ->
  (forall line p, In line f -> In p line -> cast d (PyFloat (p / qmean line)) = Ok (g (qmean line) p)) ->
  let f' := map (fun line => map (g (qmean line)) line) f in
  frame_normalize (mk_img d f) = Ok (mk_img d f', map (map (fun p => (p - qmean (List.concat f'))%Q)) f').
Proof.
  intros Hw Hh Hm Hg f'. unfold frame_normalize. cbn [px dt].
  assert (HC : forall h : list Q * Q -> list Q, map h (combine f (map qmean f)) = map (fun line => h (line, qmean line)) f)
    by (intros h; clear; induction f as [|l f IH]; [reflexivity|]; cbn [map combine]; rewrite IH; reflexivity).
  assert (HI : forall line m, In (line, m) (combine f (map qmean f)) -> In line f /\ m = qmean line).
  { clear. induction f as [|l f IH]; intros line m [].
    - injection H as <- <-. split; [left|]; reflexivity.
    - destruct (IH _ _ H). split; [right|]; assumption. }
  pose proof (divide_loop d (map qmean f) g w f Hw) as HD.
  rewrite HC in HD. 
  assert (Wd : width f = w) by (destruct f as [|l f]; [cbn in Hh; lia|]; apply Hw; left; reflexivity).
  specialize (HD ltac:(intros m Hin; apply in_map_iff in Hin; destruct Hin as (l & <- & Hl); apply Hm, Hl)).
  specialize (HD ltac:(intros line m p Hin Hp; destruct (HI _ _ Hin) as [H1 ->]; apply Hg; assumption)).
  specialize (HD ltac:(rewrite map_length; reflexivity) w 0%nat eq_refl).
  rewrite Wd. rewrite HC in HD. cbn [firstn map app] in HD. cbn [skipn] in HD. rewrite map_id in HD.
  fold f' in HD. rewrite HD. reflexivity.
Qed.

(** ** Sums *)
Lemma qsum_app l1 l2 : (qsum (l1 ++ l2) == qsum l1 + qsum l2)%Q.
Proof. induction l1 as [|a l1 IH]; cbn [app qsum fold_right]; [unfold qsum; ring|]. fold (qsum (l1 ++ l2)). rewrite IH. fold (qsum l1). ring. Qed.
Lemma qsum_div m l : ~ (m == 0)%Q -> (qsum (map (fun p => p / m) l) == qsum l / m)%Q.
Proof. intros Hm. induction l as [|a l IH]; cbn [map qsum fold_right]; [field; exact Hm|]. fold (qsum (map (fun p => p / m)%Q l)). rewrite IH. fold (qsum l). field; exact Hm. Qed.
Lemma qsum_sub c l : (qsum (map (fun p => p - c) l) == qsum l - inject_Z (zlen l) * c)%Q.
Proof.
  induction l as [|a l IH]; [reflexivity|]. cbn [map qsum fold_right]. fold (qsum (map (fun p => p - c)%Q l)). rewrite IH. fold (qsum l).
  unfold zlen. cbn [List.length]. rewrite Nat2Z.inj_succ. unfold Z.succ. rewrite inject_Z_plus. ring.
Qed.
Lemma qsum_concat (v : Q) (ls : list (list Q)) : (forall l, In l ls -> (qsum l == v)%Q) -> (qsum (List.concat ls) == inject_Z (zlen ls) * v)%Q.
Proof.
  induction ls as [|l ls IH]; intros H; [unfold qsum; cbn; ring|]. cbn [List.concat]. rewrite qsum_app, IH by (intros; apply H; right; assumption).
  rewrite (H l) by (left; reflexivity). unfold zlen. cbn [List.length]. rewrite Nat2Z.inj_succ. unfold Z.succ. rewrite inject_Z_plus. ring.
Qed.
Lemma length_concat {A} w (ls : list (list A)) : rectangular w ls -> List.length (List.concat ls) = (List.length ls * w)%nat.
Proof. induction ls as [|l ls IH]; intros H; [reflexivity|]. cbn [List.concat List.length]. rewrite app_length, IH by (intros x Hx; apply H; right; exact Hx). rewrite (H l) by (left; reflexivity). lia. Qed.
Lemma inject_Z_nonzero n : n <> 0 -> ~ (inject_Z n == 0)%Q.
Proof. intros H E. apply H. unfold Qeq in E. cbn in E. lia. Qed.

Lemma normalised_mean w (f : frame) : (1 <= List.length f)%nat -> (1 <= w)%nat -> rectangular w f ->
  (forall line, In line f -> ~ (qmean line == 0)%Q) ->
  (qmean (List.concat (map (fun line => map (fun p => p / qmean line)%Q line) f)) == 1)%Q.
Proof.
  intros Hh Hw1 Hw Hm. unfold qmean at 1.
  assert (HR : rectangular w (map (fun line => map (fun p => p / qmean line)%Q line) f)).
  { intros x Hx. apply in_map_iff in Hx. destruct Hx as (l & <- & Hl). rewrite map_length. apply Hw, Hl. }
  unfold zlen. rewrite (length_concat w) by exact HR. rewrite map_length.
  rewrite (qsum_concat (inject_Z (Z.of_nat w))).
  - unfold zlen. rewrite map_length, Nat2Z.inj_mul, inject_Z_mult. field. split; apply inject_Z_nonzero; lia.
  - intros x Hx. apply in_map_iff in Hx. destruct Hx as (l & <- & Hl). rewrite qsum_div by (apply Hm, Hl).
    assert (HM := Hm l Hl). unfold qmean in *. assert (HZ : zlen l = Z.of_nat w) by (unfold zlen; rewrite (Hw l Hl); reflexivity). rewrite HZ in *.
    assert (HN : ~ (inject_Z (Z.of_nat w) == 0)%Q) by (apply inject_Z_nonzero; lia).
    assert (HS : ~ (qsum l == 0)%Q). { intros E. apply HM. rewrite E. field. exact HN. }
    field. split; assumption.
Qed.

(** ** C84 *)
(** In an array of floats each pixel becomes its intensity divided by the mean of its line, minus one, so
    that the mean of each line is zero. *)
Theorem C84_float_frames : forall w (f : frame),
  (1 <= List.length f)%nat -> (1 <= w)%nat -> rectangular w f ->
  (forall line, In line f -> ~ (qmean line == 0)%Q) ->
  exists after out, frame_normalize (mk_img F64 f) = Ok (after, out) /\
    Forall2 (fun line o => Forall2 (fun p q => q == p / qmean line - 1)%Q line o /\ (qmean o == 0)%Q) f out.
Proof.
  intros w f Hh Hw1 Hw Hm.
  pose proof (normalised_mean w f Hh Hw1 Hw Hm) as HM.
  rewrite (normalize_formula F64 (fun m p => (p / m)%Q) w f Hw Hh Hm) by reflexivity. do 2 eexists. split; [reflexivity|].
  set (M := qmean (List.concat (map (fun line => map (fun p => p / qmean line)%Q line) f))) in *. clearbody M.
  rewrite map_map. apply Forall2_map_self. intros line Hl. rewrite map_map. split.
  - apply Forall2_map_self. intros p _. rewrite HM. reflexivity.
  - unfold qmean at 1. rewrite <- (map_map (fun p => p / qmean line)%Q (fun p => p - M)%Q).
    rewrite qsum_sub, qsum_div by (apply Hm, Hl). unfold zlen. rewrite !map_length.
    assert (HS := Hm line Hl). unfold qmean, zlen in *. rewrite (Hw line Hl) in *. rewrite HM.
    assert (HN : ~ (inject_Z (Z.of_nat w) == 0)%Q) by (apply inject_Z_nonzero; lia).
    assert (HS' : ~ (qsum line == 0)%Q). { intros E. apply HS. rewrite E. field. exact HN. }
    field. split; assumption.
Qed.
Print Assumptions C84_float_frames.

(** A line lit [c] times more gives the same normalised line. *)
Theorem C84_illumination : forall w (f : frame) (c : list Q),
  (1 <= List.length f)%nat -> (1 <= w)%nat -> rectangular w f -> List.length c = List.length f ->
  (forall line, In line f -> ~ (qmean line == 0)%Q) -> (forall x, In x c -> ~ (x == 0)%Q) ->
  exists after out after' out',
    frame_normalize (mk_img F64 f) = Ok (after, out) /\
    frame_normalize (mk_img F64 (map (fun '(x, line) => map (Qmult x) line) (combine c f))) = Ok (after', out') /\
    Forall2 (Forall2 Qeq) out out'.
Proof.
  intros w f c Hh Hw1 Hw Hc Hm Hx.
  destruct (C84_float_frames w f Hh Hw1 Hw Hm) as (after & out & E & HF).
  set (f' := map (fun '(x, line) => map (Qmult x) line) (combine c f)).
  assert (Hmean : forall x line, (qmean (map (Qmult x) line) == x * qmean line)%Q).
  { intros x line. unfold qmean, zlen. rewrite map_length. assert (ES : (qsum (map (Qmult x) line) == x * qsum line)%Q).
    { clear. induction line as [|a l IH]; [unfold qsum; cbn; ring|]. cbn [map qsum fold_right]. fold (qsum (map (Qmult x) l)). rewrite IH. fold (qsum l). ring. }
    rewrite ES. unfold Qdiv. ring. }
  destruct (C84_float_frames w f') as (after' & out' & E' & HF').
  - unfold f'. rewrite map_length, combine_length. lia.
  - exact Hw1.
  - intros l Hl. unfold f' in Hl. apply in_map_iff in Hl. destruct Hl as ([x line] & <- & Hin). rewrite map_length. apply Hw. eapply in_combine_r; eassumption.
  - intros l Hl E0. unfold f' in Hl. apply in_map_iff in Hl. destruct Hl as ([x line] & <- & Hin). rewrite Hmean in E0.
    apply Qmult_integral in E0. destruct E0 as [E0|E0]; [apply (Hx x); [eapply in_combine_l; eassumption|exact E0]|apply (Hm line); [eapply in_combine_r; eassumption|exact E0]].
  - exists after, out, after', out'. split; [exact E|]. split; [exact E'|].
    unfold f' in HF'. clear E E' f' Hh Hw Hw1. revert c Hc Hx out out' HF HF'. induction f as [|line f IH]; intros [|x c] Hc Hx out out' HF HF'; try discriminate.
    + inversion HF; subst. inversion HF'; subst. constructor.
    + inversion HF as [|? o ? out1 [H1 _] H2]; subst. cbn [combine map] in HF'. inversion HF' as [|? o' ? out1' [H1' _] H2']; subst. constructor.
      * assert (Hx0 : ~ (x == 0)%Q) by (apply Hx; left; reflexivity). assert (Hm0 : ~ (qmean line == 0)%Q) by (apply Hm; left; reflexivity).
        pose proof (Hmean x line) as HE. set (m' := qmean (map (Qmult x) line)) in *. clearbody m'. set (m := qmean line) in *. clearbody m.
        clear - H1 H1' HE Hx0 Hm0. revert o o' H1 H1'. induction line as [|p line IHl]; intros o o' H1 H1'; inversion H1 as [|? ? ? ? Ha Hb]; subst; cbn [map] in H1'; inversion H1' as [|? ? ? ? Ha' Hb']; subst; constructor.
        -- rewrite Ha, Ha', HE. field. split; assumption.
        -- apply IHl; assumption.
      * apply (IH ltac:(intros; apply Hm; right; assumption) c ltac:(injection Hc as Hc; exact Hc) ltac:(intros; apply Hx; right; assumption)); assumption.
Qed.
Print Assumptions C84_illumination.

(** In an array of integers (the images as they are read) the divided values are truncated when they are
    written in the frame: an image whose intensities are less than twice the mean of their line
    becomes an image of two levels. *)
Theorem C84_integer_two_levels : forall d w (f : frame),
  d <> F64 -> (1 <= List.length f)%nat -> rectangular w f ->
  (forall line p, In line f -> In p line -> (0 <= p < 2 * qmean line)%Q) ->
  (forall line, In line f -> (0 < qmean line)%Q) ->
  exists after out level, frame_normalize (mk_img d f) = Ok (after, out) /\
    out = map (fun line => map (fun p => if qlt p (qmean line) then 0 - level else 1 - level)%Q line) f.
Proof.
  intros d w f Hd Hh Hw Hp Hm.
  rewrite (normalize_formula d (fun m p => if qlt p m then 0 else 1)%Q w f Hw Hh).
  - do 2 eexists. exists (qmean (List.concat (map (fun line => map (fun p => if qlt p (qmean line) then 0 else 1)%Q line) f))). split; [reflexivity|].
    rewrite map_map. apply map_ext. intros line. rewrite map_map. apply map_ext. intros p. destruct (qlt p (qmean line)); reflexivity.
  - intros line Hl E. pose proof (Hm line Hl). rewrite E in H. apply Qlt_irrefl in H. exact H.
  - intros line p Hl Hin. pose proof (Hp line p Hl Hin) as [H1 H2]. pose proof (Hm line Hl) as H3. set (m := qmean line) in *. clearbody m.
    assert (HT : truncate (p / m) = if qlt p m then 0 else 1).
    { unfold truncate. assert (H0 : (0 <= p / m)%Q) by (apply Qle_shift_div_l; [exact H3|]; rewrite Qmult_0_l; exact H1).
      destruct (Qlt_le_dec (p / m) 0) as [HL|_]; [exfalso; lra|].
      pose proof (Qfloor_le (p / m)) as F1. pose proof (Qlt_floor (p / m)) as F2. set (n := Qfloor (p / m)) in *.
      assert (HU : (p / m < 2)%Q) by (apply Qlt_shift_div_r; [exact H3|]; exact H2).
      assert (Hn0 : 0 <= n) by (unfold n; change 0 with (Qfloor (inject_Z 0)); apply Qfloor_resp_le; exact H0).
      assert (Hn2 : n < 2). { apply Zlt_Qlt || (rewrite Zlt_Qlt). change (inject_Z 2) with 2%Q. lra. }
      unfold qlt. destruct (Qlt_le_dec p m) as [HL|HL].
      - assert (n < 1); [|lia]. rewrite Zlt_Qlt. change (inject_Z 1) with 1%Q. assert (p / m < 1)%Q by (apply Qlt_shift_div_r; [exact H3|]; lra). lra.
      - assert (0 < n); [|lia]. assert (1 <= p / m)%Q by (apply Qle_shift_div_l; [exact H3|]; lra).
        assert (0 < n + 1 - 1 -> 0 < n) by lia. rewrite Zlt_Qlt. rewrite inject_Z_plus in F2. change (inject_Z 1) with 1%Q in F2. 
        assert (1 <= n); [|]. 2: { change (0%Q) with (inject_Z 0). rewrite <- Zlt_Qlt. lia. }
        unfold n. change 1 with (Qfloor (inject_Z 1)). apply Qfloor_resp_le. exact H. }
    unfold cast. rewrite HT. destruct d; try (contradiction Hd; reflexivity); cbn [iinfo]; destruct (qlt p m); reflexivity.
Qed.
Print Assumptions C84_integer_two_levels.

(** Two pixels of different intensities are confused, and the mean of a line is not zero. *)
Theorem C84_integer_refuted :
  exists (f : frame) after out, rectangular 4 f /\ (forall line, In line f -> (0 < qmean line)%Q) /\
    frame_normalize (mk_img U16 f) = Ok (after, out) /\
    (exists line o p q, nth_error f 0 = Some line /\ nth_error out 0 = Some o /\
       nth_error line 1 = Some p /\ nth_error line 2 = Some q /\ (p < q)%Q /\ nth_error o 1 = nth_error o 2) /\
    ~ Forall (fun o => qmean o == 0)%Q out.
Proof.
  exists [[100; 200; 300; 200]; [100; 100; 100; 100]]%Q. do 2 eexists.
  split; [intros line [<-|[<-|[]]]; reflexivity|]. split; [intros line [<-|[<-|[]]]; reflexivity|].
  split; [vm_compute; reflexivity|]. split.
  - do 4 eexists. repeat (split; [reflexivity|]). reflexivity.
  - intros H. inversion H as [|? ? H0 _]; subst. vm_compute in H0. discriminate H0.
Qed.
Print Assumptions C84_integer_refuted.

Example C84_example : exists after out,
  frame_normalize (mk_img F64 [[100; 200; 300; 200]; [1; 2; 3; 4]]%Q) = Ok (after, out) /\
  Forall2 (Forall2 Qeq) out [[- (1 # 2); 0; 1 # 2; 0]; [- (3 # 5); - (1 # 5); 1 # 5; 3 # 5]]%Q.
Proof. do 2 eexists. split; [vm_compute; reflexivity|]. repeat constructor. Qed.
(** the same image as it is read: *)
Example C84_example_integer : exists after out,
  frame_normalize (mk_img U16 [[100; 200; 300; 200]; [1; 2; 3; 4]]%Q) = Ok (after, out) /\
  Forall2 (Forall2 Qeq) out [[- (5 # 8); 3 # 8; 3 # 8; 3 # 8]; [- (5 # 8); - (5 # 8); 3 # 8; 3 # 8]]%Q.
Proof. do 2 eexists. split; [vm_compute; reflexivity|]. repeat constructor. Qed.

(** ** C85: cropped frames *)

(** *** Without cropping the result for an image depends on this image only *)
Theorem C85_whole_frames : forall c ref other arrays,
  c_crop_edge c = false ->
  process_frames c ref arrays =
  map (fun array => match process_frame c other array with Ok (_, frame1, shape) => Ok (frame1, shape) | Err e => Err e end) arrays.
Proof.
  intros c ref other arrays Hc. induction arrays as [|a arrays IH]; [reflexivity|]. cbn [process_frames map].
  assert (E : process_frame c ref a = match process_frame c other a with Ok (_, frame1, shape) => Ok (ref, frame1, shape) | Err e => Err e end)
    by (unfold process_frame; rewrite Hc; destruct (frame_normalize _) as [[after out]|e]; reflexivity).
  rewrite E. destruct (process_frame c other a) as [[[r o] sh]|e]; rewrite IH; reflexivity.
Qed.
Print Assumptions C85_whole_frames.

(** *** Embedding in the reference frame *)
Lemma norm_bound_in n i : 0 <= i <= n -> norm_bound n i = i.
Proof. unfold norm_bound. destruct (i <? 0) eqn:E; lia. Qed.
Lemma norm_bound_neg n i : 1 <= i <= n -> norm_bound n (- i) = n - i.
Proof. unfold norm_bound. destruct (- i <? 0) eqn:E; lia. Qed.

Lemma py_slice_nth {A} (l : list A) a b j : 0 <= a -> a <= b -> b <= zlen l -> (j < Z.to_nat (b - a))%nat ->
  nth_error (py_slice l a b) j = nth_error l (Z.to_nat a + j).
Proof.
  intros H1 H2 H3 Hj. unfold py_slice. rewrite !norm_bound_in by lia.
  assert (HF : forall (m : list A) n i, (i < n)%nat -> nth_error (firstn n m) i = nth_error m i).
  { induction m as [|x m IH]; intros [|n] [|i] Hi; try lia; try reflexivity. cbn. apply IH. lia. }
  rewrite HF by exact Hj. generalize (Z.to_nat a) as k. intros k. clear. revert k. induction l as [|x l IH]; intros [|k]; try reflexivity.
  - cbn. destruct j; reflexivity.
  - cbn [skipn Nat.add nth_error]. apply IH.
Qed.
Lemma py_slice_length {A} (l : list A) a b : 0 <= a -> a <= b -> b <= zlen l -> zlen (py_slice l a b) = b - a.
Proof. intros H1 H2 H3. unfold py_slice, zlen in *. rewrite !norm_bound_in by lia. rewrite firstn_length, skipn_length. lia. Qed.

Lemma set_slice_spec {A} (line values : list A) a b : 0 <= a -> a <= b -> b < zlen line -> zlen values = b - a ->
  exists out, set_slice line a (- (zlen line - b)) values = Ok out /\ List.length out = List.length line /\
    forall j, nth_error out j = if (Z.to_nat a <=? j)%nat && (j <? Z.to_nat b)%nat then nth_error values (j - Z.to_nat a) else nth_error line j.
Proof.
  intros H1 H2 H4 H5. unfold set_slice. rewrite (norm_bound_in _ a) by lia. rewrite norm_bound_neg by lia.
  replace (Z.max a (zlen line - (zlen line - b))) with b by lia. rewrite H5, Z.eqb_refl. eexists. split; [reflexivity|].
  unfold zlen in *. split; [rewrite !app_length, firstn_length, skipn_length; lia|].
  assert (HF : forall (m : list A) n i, (i < n)%nat -> nth_error (firstn n m) i = nth_error m i).
  { induction m as [|x m IH]; intros [|n] [|i] Hi; try lia; try reflexivity. cbn. apply IH. lia. }
  assert (HS : forall (m : list A) n i, nth_error (skipn n m) i = nth_error m (n + i)).
  { induction m as [|x m IH]; intros [|n] i; try reflexivity; [destruct i; reflexivity|]. cbn [skipn Nat.add nth_error]. apply IH. }
  intros j. assert (HL : List.length (firstn (Z.to_nat a) line) = Z.to_nat a) by (rewrite firstn_length; lia).
  destruct (Nat.leb_spec (Z.to_nat a) j) as [Ha|Ha]; cbn [andb].
  - rewrite nth_error_app2 by lia. rewrite HL. destruct (Nat.ltb_spec j (Z.to_nat b)) as [Hb|Hb].
    + rewrite nth_error_app1 by lia. reflexivity.
    + rewrite nth_error_app2 by lia. rewrite HS. f_equal. lia.
  - rewrite nth_error_app1 by lia. apply HF. exact Ha.
Qed.

Lemma map_result_forall2 {A B} (F : A -> result B) (P : A -> B -> Prop) l : (forall a, In a l -> exists b, F a = Ok b /\ P a b) -> exists bs, map_result F l = Ok bs /\ Forall2 P l bs.
Proof.
  induction l as [|a l IH]; intros H; [exists []; split; [reflexivity|constructor]|].
  destruct (H a (or_introl eq_refl)) as (b & E & HP). destruct IH as (bs & E' & HF); [intros; apply H; right; assumption|].
  exists (b :: bs). cbn [map_result]. rewrite E. cbn [bind]. rewrite E'. split; [reflexivity|]. constructor; assumption.
Qed.
Lemma Forall2_nth {A B} (P : A -> B -> Prop) l m : Forall2 P l m -> forall i a, nth_error l i = Some a -> exists b, nth_error m i = Some b /\ P a b.
Proof. induction 1 as [|a b l m HP HF IH]; intros [|i] x E; try discriminate; cbn in E. - injection E as <-. exists b. split; [reflexivity|assumption]. - apply IH, E. Qed.
Lemma nth_combine {A B} : forall (l : list A) (m : list B) i a b, nth_error l i = Some a -> nth_error m i = Some b -> nth_error (combine l m) i = Some (a, b).
Proof. induction l as [|x l IH]; intros [|y m] [|i] a b H1 H2; try discriminate; cbn in *. - injection H1 as ->. injection H2 as ->. reflexivity. - apply IH; assumption. Qed.

(** the value of a pixel *)
Definition pixel {A} (f : list (list A)) (i j : nat) : option A := match nth_error f i with Some line => nth_error line j | None => None end.

(** The columns of the plate are those of the image; the other ones, and always the last one, are those of
    the reference frame as it has been left by the previous image (for the result to depend on the
    image only, they should be those of the reference frame: false, see below). *)
Theorem C85_cropped_frame_partial : forall c ref W (f : frame) x_min x_max,
  0 <= c_xmin c -> c_xmin c < c_xmax c -> c_xmax c <= Z.of_nat W -> rectangular W f ->
  0 <= c_ymin c -> c_ymin c <= c_ymax c -> c_ymax c <= zlen f ->
  zlen ref = c_ymax c - c_ymin c -> rectangular (Z.to_nat (c_xmax c - c_xmin c)) ref ->
  c_xmin c < x_max -> x_min < c_xmax c - 1 -> x_min < x_max ->
  exists calc, merge_cropped_frame c ref f x_min x_max = Ok calc /\
    forall i j, (i < List.length ref)%nat -> (j < Z.to_nat (c_xmax c - c_xmin c))%nat ->
      let x := Z.of_nat j + c_xmin c in
      pixel calc i j = if (x_min <=? x) && (x <? x_max) && (x <? c_xmax c - 1)
                       then pixel f (Z.to_nat (c_ymin c) + i) (Z.to_nat x) else pixel ref i j.
Proof.
  intros c ref W f x_min x_max H1 H2 H3 Hf H4 H5 H6 Hr Hrw Hx1 Hx2 Hx3. unfold merge_cropped_frame.
  set (xM := if c_xmax c <=? x_max then c_xmax c - 1 else x_max). set (xm := if x_min <=? c_xmin c then c_xmin c else x_min).
  assert (HM : xM = Z.min x_max (c_xmax c - 1)) by (unfold xM; destruct (c_xmax c <=? x_max) eqn:E; lia).
  assert (Hm : xm = Z.max x_min (c_xmin c)) by (unfold xm; destruct (x_min <=? c_xmin c) eqn:E; lia).
  clearbody xM xm.
  set (vs := map (fun line => py_slice line xm xM) (py_slice f (c_ymin c) (c_ymax c))).
  assert (HV : zlen vs = zlen ref) by (unfold vs; unfold zlen; rewrite map_length; pose proof (py_slice_length f (c_ymin c) (c_ymax c)); unfold zlen in *; lia).
  unfold set_columns. rewrite HV, Z.eqb_refl.
  assert (Hin : forall line, In line (py_slice f (c_ymin c) (c_ymax c)) -> List.length line = W).
  { intros line Hl. apply Hf. unfold py_slice in Hl. apply In_nth_error in Hl. destruct Hl as (k & Hk).
    assert (Hsub : forall {A} n (l : list A) x, In x (firstn n l) -> In x l) by (intros A n l x Hx; rewrite <- (firstn_skipn n l); apply in_or_app; left; exact Hx).
    assert (Hsub' : forall {A} n (l : list A) x, In x (skipn n l) -> In x l) by (intros A n l x Hx; rewrite <- (firstn_skipn n l); apply in_or_app; right; exact Hx).
    apply nth_error_In in Hk. apply Hsub in Hk. apply Hsub' in Hk. exact Hk. }
  edestruct (map_result_forall2 (fun '(line, v) => set_slice line (xm - c_xmin c) (- (c_xmax c - xM)) v)
    (fun '(line, v) out => List.length out = List.length line /\ forall j, nth_error out j = if (Z.to_nat (xm - c_xmin c) <=? j)%nat && (j <? Z.to_nat (xM - c_xmin c))%nat then nth_error v (j - Z.to_nat (xm - c_xmin c)) else nth_error line j)
    (combine ref vs)) as (calc & E & HF).
  { intros [line v] Hl. assert (HLl : List.length line = Z.to_nat (c_xmax c - c_xmin c)) by (apply Hrw; eapply in_combine_l; eassumption).
    assert (HLv : zlen v = xM - xm). { apply in_combine_r in Hl. unfold vs in Hl. apply in_map_iff in Hl. destruct Hl as (l0 & <- & Hl0). apply py_slice_length; unfold zlen; try rewrite (Hin l0 Hl0); lia. }
    replace (- (c_xmax c - xM)) with (- (zlen line - (xM - c_xmin c))) by (unfold zlen; lia).
    apply set_slice_spec; unfold zlen in *; lia. }
  exists calc. split; [exact E|]. intros i j Hi Hj. set (x := Z.of_nat j + c_xmin c).
  destruct (nth_error ref i) as [line|] eqn:Er; [|apply nth_error_None in Er; lia].
  assert (Hsl : nth_error (py_slice f (c_ymin c) (c_ymax c)) i = nth_error f (Z.to_nat (c_ymin c) + i)) by (apply py_slice_nth; unfold zlen in *; lia).
  destruct (nth_error f (Z.to_nat (c_ymin c) + i)) as [fl|] eqn:Ef; [|apply nth_error_None in Ef; unfold zlen in *; lia].
  assert (Ev : nth_error vs i = Some (py_slice fl xm xM)) by (unfold vs; rewrite nth_error_map, Hsl; reflexivity).
  destruct (Forall2_nth _ _ _ HF i _ (nth_combine _ _ _ _ _ Er Ev)) as (out & Eo & HL & HP).
  unfold pixel. rewrite Eo, Er, Ef, HP.
  assert (HFL : List.length fl = W) by (apply Hf; eapply nth_error_In; exact Ef).
  destruct (Nat.leb_spec (Z.to_nat (xm - c_xmin c)) j) as [Ha|Ha]; destruct (Nat.ltb_spec j (Z.to_nat (xM - c_xmin c))) as [Hb|Hb]; cbn [andb].
  - replace ((x_min <=? x) && (x <? x_max) && (x <? c_xmax c - 1)) with true by (unfold x; lia).
    rewrite py_slice_nth by (unfold zlen; lia). f_equal. unfold x. lia.
  - replace ((x_min <=? x) && (x <? x_max) && (x <? c_xmax c - 1)) with false by (unfold x; lia). reflexivity.
  - replace ((x_min <=? x) && (x <? x_max) && (x <? c_xmax c - 1)) with false by (unfold x; lia). reflexivity.
  - replace ((x_min <=? x) && (x <? x_max) && (x <? c_xmax c - 1)) with false by (unfold x; lia). reflexivity.
Qed.
Print Assumptions C85_cropped_frame_partial.

(** The same image gives another result after another image: the reference frame has been overwritten. *)
Definition ex_conf : surf_conf := mk_conf 1 6 0 1 1 true 300.
Definition narrow : img := mk_img U16 [[0; 0; 0; 400; 800; 0; 0]]%Q.
Definition wide : img := mk_img U16 [[0; 0; 500; 400; 900; 400; 0]]%Q.
Theorem C85_cropped_frames_refuted :
  exists c ref a b, c_crop_edge c = true /\
    exists r1 r2 r3, process_frames c ref [a] = [Ok r1] /\ process_frames c ref [b; a] = [Ok r2; Ok r3] /\
      snd r1 = snd r3 /\ ~ Forall2 (Forall2 Qeq) (fst r1) (fst r3).
Proof.
  exists ex_conf, [[1; 2; 3; 2; 1]]%Q, narrow, wide. split; [reflexivity|].
  do 3 eexists. split; [vm_compute; reflexivity|]. split; [vm_compute; reflexivity|]. split; [reflexivity|].
  intros H. inversion H as [|? ? ? ? H1 _]; subst. inversion H1 as [|? ? ? ? H2 _]; subst. discriminate H2.
Qed.
Print Assumptions C85_cropped_frames_refuted.

(** and even an image processed twice *)
Theorem C85_twice_refuted :
  exists c ref a, c_crop_edge c = true /\
    exists r1 r2, process_frames c ref [a; a] = [Ok r1; Ok r2] /\ ~ Forall2 (Forall2 Qeq) (fst r1) (fst r2).
Proof.
  exists ex_conf, [[1; 2; 3; 2; 1]]%Q, narrow. split; [reflexivity|].
  do 2 eexists. split; [vm_compute; reflexivity|].
  intros H. inversion H as [|? ? ? ? H1 _]; subst. inversion H1 as [|? ? ? ? H2 _]; subst. discriminate H2.
Qed.
Print Assumptions C85_twice_refuted.

(** *** The borders of the plate *)
Lemma first_true_spec l : forall k i, (k < List.length l)%nat -> nth k l false = true -> (forall j, (j < k)%nat -> nth j l false = false) -> first_true l i = i + Z.of_nat k.
Proof.
  induction l as [|b l IH]; intros k i Hk Ht Hf; [cbn in Hk; lia|]. cbn [first_true]. destruct k as [|k].
  - cbn in Ht. rewrite Ht. lia.
  - pose proof (Hf 0%nat ltac:(lia)) as Hb. cbn in Hb. rewrite Hb. rewrite (IH k (i + 1)); [lia|cbn in Hk; lia|exact Ht|]. intros j Hj. apply (Hf (S j)). lia.
Qed.
Lemma insert_const v n : insert_z v (repeat v n) = repeat v (S n).
Proof. destruct n; cbn; [reflexivity|]. rewrite Z.leb_refl. reflexivity. Qed.
Lemma sort_const v n : sort_z (repeat v n) = repeat v n.
Proof. induction n as [|n IH]; [reflexivity|]. cbn [repeat sort_z fold_right]. fold (sort_z (repeat v n)). rewrite IH. apply insert_const. Qed.
Lemma nth_repeat_lt {A} (v d : A) : forall n i, (i < n)%nat -> nth i (repeat v n) d = v.
Proof. induction n as [|n IH]; intros [|i] H; try lia; cbn; [reflexivity|]. apply IH. lia. Qed.
Lemma twice_median_const v n : (1 <= n)%nat -> twice_median (repeat v n) = Ok (2 * v).
Proof.
  intros H. destruct n as [|n]; [lia|]. unfold twice_median. cbn [repeat]. f_equal. change (v :: repeat v n) with (repeat v (S n)).
  rewrite sort_const, repeat_length. rewrite !nth_repeat_lt; [lia| |]; [apply Nat.div_lt; lia|].
  pose proof (Nat.div_le_mono (S n - 1) (S n) 2 ltac:(lia) ltac:(lia)). assert (S n / 2 < S n)%nat by (apply Nat.div_lt; lia). lia.
Qed.
Lemma map_result_const {A B} (F : A -> result B) v l : (forall a, In a l -> F a = Ok v) -> map_result F l = Ok (repeat v (List.length l)).
Proof. induction l as [|a l IH]; intros H; [reflexivity|]. cbn [map_result List.length repeat]. rewrite (H a (or_introl eq_refl)). cbn [bind]. rewrite IH by (intros; apply H; right; assumption). reflexivity. Qed.

(** An image where, in each line, the first and the last pixels above the threshold are in the columns l and
    r - 1: the borders are l and r. *)
Theorem C85_borders : forall thres W (f : frame) (l r : nat),
  (1 <= List.length f)%nat -> rectangular W f -> (l < r)%nat -> (r <= W)%nat ->
  (forall line, In line f ->
     (thres < nth l line 0)%Q /\ (thres < nth (r - 1) line 0)%Q /\
     (forall j, (j < l)%nat -> (nth j line 0 <= thres)%Q) /\ (forall j, (r <= j < W)%nat -> (nth j line 0 <= thres)%Q)) ->
  get_borders thres f = Ok (Z.of_nat l, Z.of_nat r).
Proof.
  intros thres W f l r Hh Hw Hlr HrW Hb.
  assert (Wd : width f = W) by (destruct f as [|x f]; [cbn in Hh; lia|]; apply Hw; left; reflexivity).
  unfold get_borders. rewrite Wd.
  set (T := fun p => qlt thres p).
  assert (HT : forall line j, (j < List.length line)%nat -> nth j (map T line) false = T (nth j line 0%Q)).
  { intros line j Hj. rewrite (nth_indep _ false (T 0%Q)) by (rewrite map_length; exact Hj). apply map_nth. }
  assert (Tt : forall p, (thres < p)%Q -> T p = true) by (intros p Hp; unfold T, qlt; destruct (Qlt_le_dec thres p); [reflexivity|lra]).
  assert (Tf : forall p, (p <= thres)%Q -> T p = false) by (intros p Hp; unfold T, qlt; destruct (Qlt_le_dec thres p); [lra|reflexivity]).
  rewrite (map_result_const _ (Z.of_nat l)).
  2: { intros bl Hin. apply in_map_iff in Hin. destruct Hin as (line & <- & Hl). destruct (Hb line Hl) as (B1 & B2 & B3 & B4). pose proof (Hw line Hl) as HL.
       unfold argmax01. destruct (map T line) as [|b0 bs] eqn:EM; [apply (f_equal (@List.length bool)) in EM; rewrite map_length in EM; cbn in EM; lia|]. rewrite <- EM.
       f_equal. rewrite (first_true_spec _ l); [lia|rewrite map_length; lia|rewrite HT by lia; apply Tt, B1|].
       intros j Hj. rewrite HT by lia. apply Tf, B3, Hj. }
  cbn [bind]. rewrite map_length, twice_median_const by exact Hh. cbn [bind].
  rewrite (map_result_const _ (Z.of_nat (W - r))).
  2: { intros bl Hin. apply in_map_iff in Hin. destruct Hin as (line & <- & Hl). destruct (Hb line Hl) as (B1 & B2 & B3 & B4). pose proof (Hw line Hl) as HL.
       unfold argmax01. destruct (rev (map T line)) as [|b0 bs] eqn:EM; [apply (f_equal (@List.length bool)) in EM; rewrite rev_length, map_length in EM; cbn in EM; lia|]. rewrite <- EM.
       f_equal. rewrite (first_true_spec _ (W - r)); [lia|rewrite rev_length, map_length; lia| |].
       - rewrite rev_nth by (rewrite map_length; lia). rewrite map_length, HL. replace (W - S (W - r))%nat with (r - 1)%nat by lia. rewrite HT by lia. apply Tt, B2.
       - intros j Hj. rewrite rev_nth by (rewrite map_length; lia). rewrite map_length, HL. rewrite HT by lia. apply Tf, B4. lia. }
  cbn [bind]. rewrite map_length, twice_median_const by exact Hh. cbn [bind]. f_equal. f_equal.
  - rewrite Z.mul_comm, Z.quot_mul by lia. reflexivity.
  - replace (2 * Z.of_nat W - 2 * Z.of_nat (W - r)) with (Z.of_nat r * 2) by lia. rewrite Z.quot_mul by lia. reflexivity.
Qed.
Print Assumptions C85_borders.
Example C85_borders_example : get_borders 300 (px narrow) = Ok (3, 5) /\ get_borders 300 (px wide) = Ok (2, 6).
Proof. split; vm_compute; reflexivity. Qed.

(** *** The median: the borders of the majority of the lines, whatever the other lines *)
Lemma insert_perm x l : Permutation (insert_z x l) (x :: l).
Proof. induction l as [|y l IH]; [reflexivity|]. cbn [insert_z]. destruct (x <=? y); [reflexivity|]. rewrite IH. apply perm_swap. Qed.
Lemma sort_perm l : Permutation (sort_z l) l.
Proof. induction l as [|x l IH]; [reflexivity|]. cbn [sort_z fold_right]. rewrite insert_perm. constructor. exact IH. Qed.
Lemma insert_sorted x l : StronglySorted Z.le l -> StronglySorted Z.le (insert_z x l).
Proof.
  induction 1 as [|y l Hs IH Hy]; cbn [insert_z]; [repeat constructor|]. destruct (Z.leb_spec x y).
  - constructor; [constructor; assumption|]. constructor; [lia|]. rewrite Forall_forall in *. intros z Hz. specialize (Hy z Hz). lia.
  - constructor; [exact IH|]. rewrite Forall_forall in *. intros z Hz. apply (Permutation_in _ (insert_perm x l)) in Hz. destruct Hz as [<-|Hz]; [lia|auto].
Qed.
Lemma sort_sorted l : StronglySorted Z.le (sort_z l).
Proof. induction l as [|x l IH]; [constructor|]. cbn [sort_z fold_right]. apply insert_sorted, IH. Qed.
Lemma filter_nothing {A} (f : A -> bool) l : (forall x, In x l -> f x = false) -> filter f l = [].
Proof. induction l as [|a l IH]; intros H; [reflexivity|]. cbn. rewrite (H a (or_introl eq_refl)). apply IH. intros x Hx. apply H. right. exact Hx. Qed.
Lemma sorted_parts v s : StronglySorted Z.le s ->
  s = filter (fun x => x <? v) s ++ filter (fun x => x =? v) s ++ filter (fun x => v <? x) s.
Proof.
  induction 1 as [|y s Hs IH Hy]; [reflexivity|]. rewrite Forall_forall in Hy. cbn [filter].
  destruct (Z.ltb_spec y v).
  - replace (y =? v) with false by lia. replace (v <? y) with false by lia. cbn [app]. f_equal. exact IH.
  - replace (v <? y) with (negb (y =? v)) by lia.
    rewrite (filter_nothing (fun x => x <? v)) in * by (intros x Hx; specialize (Hy x Hx); lia).
    destruct (Z.eqb_spec y v) as [->|]; cbn [negb app] in *; [f_equal; exact IH|].
    rewrite (filter_nothing (fun x => x =? v)) in * by (intros x Hx; specialize (Hy x Hx); lia). cbn [app] in *. f_equal. exact IH.
Qed.
Lemma filter_all_eq v s : filter (fun x => x =? v) s = repeat v (count_occ Z.eq_dec s v).
Proof.
  induction s as [|y s IH]; [reflexivity|]. cbn [filter count_occ]. destruct (Z.eq_dec y v) as [->|N].
  - rewrite Z.eqb_refl, IH. reflexivity.
  - replace (y =? v) with false by lia. exact IH.
Qed.
Lemma twice_median_majority v l : (List.length l < 2 * count_occ Z.eq_dec l v)%nat -> twice_median l = Ok (2 * v).
Proof.
  intros H. unfold twice_median. destruct l as [|x0 l0] eqn:El; [cbn in H; lia|]. rewrite <- El in *. clear El x0 l0. f_equal.
  pose proof (sorted_parts v (sort_z l) (sort_sorted l)) as E. rewrite filter_all_eq in E.
  assert (C : count_occ Z.eq_dec (sort_z l) v = count_occ Z.eq_dec l v) by (apply Permutation_count_occ, sort_perm). rewrite C in E.
  pose proof (Permutation_length (sort_perm l)) as EL.
  set (a := filter _ (sort_z l)) in E at 1. set (b := filter _ (sort_z l)) in E. set (c := count_occ Z.eq_dec l v) in *.
  assert (L : List.length l = (List.length a + c + List.length b)%nat) by (rewrite <- EL, E, !app_length, repeat_length; lia).
  assert (G : forall i, (List.length a <= i < List.length a + c)%nat -> nth i (sort_z l) 0 = v).
  { intros i Hi. rewrite E, app_nth2 by lia. rewrite app_nth1 by (rewrite repeat_length; lia). apply nth_repeat_lt. lia. }
  clearbody a b c. pose proof (Nat.div_mod (List.length l - 1) 2 ltac:(lia)). pose proof (Nat.mod_upper_bound (List.length l - 1) 2 ltac:(lia)).
  pose proof (Nat.div_mod (List.length l) 2 ltac:(lia)). pose proof (Nat.mod_upper_bound (List.length l) 2 ltac:(lia)).
  rewrite !G by lia. lia.
Qed.

(** the first and the last columns above the threshold of one line (0 and the width for a dark line) *)
Definition left_border (thres : Q) (line : list Q) (l : nat) : Prop :=
  ((l < List.length line)%nat /\ (thres < nth l line 0)%Q /\ (forall j, (j < l)%nat -> (nth j line 0 <= thres)%Q)) \/
  (l = O /\ forall j, (j < List.length line)%nat -> (nth j line 0 <= thres)%Q).
Definition right_border (thres : Q) (line : list Q) (r : nat) : Prop :=
  ((1 <= r <= List.length line)%nat /\ (thres < nth (r - 1) line 0)%Q /\ (forall j, (r <= j < List.length line)%nat -> (nth j line 0 <= thres)%Q)) \/
  (r = List.length line /\ forall j, (j < List.length line)%nat -> (nth j line 0 <= thres)%Q).

Lemma first_true_none l : forall i, (forall j, (j < List.length l)%nat -> nth j l false = false) -> first_true l i = 0.
Proof.
  induction l as [|b l IH]; intros i H; [reflexivity|]. cbn [first_true]. pose proof (H 0%nat ltac:(cbn; lia)) as Hb. cbn in Hb. rewrite Hb.
  apply IH. intros j Hj. apply (H (S j)). cbn. lia.
Qed.
Lemma argmax_ne l : (1 <= List.length l)%nat -> argmax01 l = Ok (first_true l 0).
Proof. destruct l; [cbn; lia|reflexivity]. Qed.
Lemma map_result_exists {A B} (F : A -> result B) l : (forall a, In a l -> exists b, F a = Ok b) ->
  exists bs, map_result F l = Ok bs /\ Forall2 (fun a b => F a = Ok b) l bs.
Proof.
  induction l as [|a l IH]; intros H; [exists []; split; [reflexivity|constructor]|].
  destruct (H a (or_introl eq_refl)) as (b & Hb). destruct IH as (bs & E & F2); [intros; apply H; right; assumption|].
  exists (b :: bs). cbn [map_result]. rewrite Hb. cbn [bind]. rewrite E. split; [reflexivity|constructor; assumption].
Qed.
Lemma majority_count {A} (F : A -> result Z) v l bs : Forall2 (fun a b => F a = Ok b) l bs ->
  forall good, NoDup good -> (forall i, In i good -> (i < List.length l)%nat /\ forall d, F (nth i l d) = Ok v) ->
  (List.length good <= count_occ Z.eq_dec bs v)%nat.
Proof.
  induction 1 as [|a b l bs Hab _ IH]; intros good ND G.
  - destruct good as [|i good]; [cbn; lia|]. destruct (G i (or_introl eq_refl)) as (X & _). cbn in X. lia.
  - set (g := map pred (filter (fun i => negb (i =? 0)%nat) good)).
    assert (Hg : (List.length g <= count_occ Z.eq_dec bs v)%nat).
    { apply IH.
      - unfold g. assert (K : forall i, In i (filter (fun i => negb (i =? 0)%nat) good) -> i <> O) by (intros i Hi; apply filter_In in Hi; destruct Hi as (_ & Hi); intros ->; discriminate).
        pose proof (NoDup_filter (fun i => negb (i =? 0)%nat) ND) as ND2. revert K ND2. generalize (filter (fun i => negb (i =? 0)%nat) good). intros k.
        induction k as [|i k IHk]; intros K N; [constructor|]. inversion N as [|? ? N1 N2]; subst. cbn [map]. constructor.
        + intros X. apply in_map_iff in X. destruct X as (j & E & J). pose proof (K i (or_introl eq_refl)). pose proof (K j (or_intror J)).
          assert (i = j) as -> by lia. contradiction.
        + apply IHk; [intros j J; apply K; right; exact J|exact N2].
      - intros i Hi. unfold g in Hi. apply in_map_iff in Hi. destruct Hi as (j & <- & J). apply filter_In in J. destruct J as (J & J0).
        destruct j as [|j]; [discriminate|]. destruct (G _ J) as (G1 & G2). cbn in G1. cbn [pred]. split; [lia|]. intros d. exact (G2 d). }
    assert (Hl : (List.length good <= List.length g + count_occ Nat.eq_dec good 0)%nat).
    { unfold g. rewrite map_length. clear. induction good as [|i good IHg]; [cbn; lia|]. cbn [filter count_occ List.length].
      destruct i; cbn [Nat.eqb negb List.length]; [|destruct (Nat.eq_dec (S i) 0); [lia|]]; try (destruct (Nat.eq_dec 0 0); [|congruence]); cbn; lia. }
    pose proof (proj1 (NoDup_count_occ Nat.eq_dec good) ND 0%nat) as C0.
    cbn [count_occ]. destruct (Z.eq_dec b v) as [|Nb].
    + lia.
    + assert (count_occ Nat.eq_dec good 0%nat = O); [|lia]. apply count_occ_not_In. intros X. destruct (G _ X) as (_ & G2).
      specialize (G2 a). cbn in G2. congruence.
Qed.

(** If more than half of the lines have their first bright column at l and more than half have their last bright column at
    r - 1, the borders are l and r, whatever the other lines (a line without bright pixel counts for 0 and the width). *)
Theorem C85_borders_majority : forall thres W (f : frame) (l r : nat) goodl goodr,
  (1 <= W)%nat -> rectangular W f ->
  NoDup goodl -> NoDup goodr -> (List.length f < 2 * List.length goodl)%nat -> (List.length f < 2 * List.length goodr)%nat ->
  (forall i, In i goodl -> (i < List.length f)%nat /\ left_border thres (nth i f []) l) ->
  (forall i, In i goodr -> (i < List.length f)%nat /\ right_border thres (nth i f []) r) ->
  get_borders thres f = Ok (Z.of_nat l, Z.of_nat r).
Proof.
  intros thres W f l r goodl goodr HW Hw NDl NDr Ml Mr Gl Gr.
  assert (Hf : (1 <= List.length f)%nat).
  { destruct f; [|cbn; lia]. destruct goodl as [|i ?]; [cbn in Ml; lia|]. destruct (Gl i (or_introl eq_refl)) as (X & _). cbn in X. lia. }
  assert (Wd : width f = W) by (destruct f as [|x f]; [cbn in Hf; lia|]; apply Hw; left; reflexivity).
  unfold get_borders. rewrite Wd.
  set (T := fun p => qlt thres p).
  assert (HT : forall line j, (j < List.length line)%nat -> nth j (map T line) false = T (nth j line 0%Q)).
  { intros line j Hj. rewrite (nth_indep _ false (T 0%Q)) by (rewrite map_length; exact Hj). apply map_nth. }
  assert (Tt : forall p, (thres < p)%Q -> T p = true) by (intros p Hp; unfold T, qlt; destruct (Qlt_le_dec thres p); [reflexivity|lra]).
  assert (Tf : forall p, (p <= thres)%Q -> T p = false) by (intros p Hp; unfold T, qlt; destruct (Qlt_le_dec thres p); [lra|reflexivity]).
  assert (LM : forall line, In line f -> List.length (map T line) = W) by (intros line Hl; rewrite map_length; apply Hw, Hl).
  assert (GLl : forall line, List.length line = W -> left_border thres line l -> argmax01 (map T line) = Ok (Z.of_nat l)).
  { intros line HL B. rewrite argmax_ne by (rewrite map_length; lia). f_equal. destruct B as [(B0 & B1 & B2)|(-> & B)].
    - rewrite (first_true_spec _ l); [lia|rewrite map_length; lia|rewrite HT by lia; apply Tt, B1|].
      intros j Hj. rewrite HT by lia. apply Tf, B2, Hj.
    - apply first_true_none. intros j Hj. rewrite map_length in Hj. rewrite HT by lia. apply Tf, B, Hj. }
  assert (GLr : forall line, List.length line = W -> right_border thres line r -> argmax01 (rev (map T line)) = Ok (Z.of_nat (W - r))).
  { intros line HL B. rewrite argmax_ne by (rewrite rev_length, map_length; lia). f_equal. destruct B as [(B0 & B1 & B2)|(-> & B)].
    - rewrite (first_true_spec _ (W - r)); [lia|rewrite rev_length, map_length; lia| |].
      + rewrite rev_nth by (rewrite map_length; lia). rewrite map_length, HL. replace (W - S (W - r))%nat with (r - 1)%nat by lia. rewrite HT by lia. apply Tt, B1.
      + intros j Hj. rewrite rev_nth by (rewrite map_length; lia). rewrite map_length, HL. rewrite HT by lia. apply Tf, B2. lia.
    - rewrite HL, Nat.sub_diag. apply first_true_none. intros j Hj. rewrite rev_length, map_length in Hj.
      rewrite rev_nth by (rewrite map_length; lia). rewrite map_length, HT by lia. apply Tf, B. lia. }
  assert (Hr : (r <= W)%nat).
  { destruct goodr as [|i ?]; [cbn in Mr; lia|]. destruct (Gr i (or_introl eq_refl)) as (I & B).
    assert (List.length (nth i f []) = W) as HL by (apply Hw, nth_In, I). destruct B as [(B & _)|(B & _)]; lia. }
  assert (NM : forall i d, (i < List.length f)%nat -> nth i (map (map T) f) d = map T (nth i f [])).
  { intros i d Hi. rewrite (nth_indep _ d (map T [])) by (rewrite map_length; exact Hi). apply map_nth. }
  destruct (map_result_exists argmax01 (map (map T) f)) as (a & Ea & Fa).
  { intros bl Hin. apply in_map_iff in Hin. destruct Hin as (line & <- & Hl). eexists. apply argmax_ne. rewrite LM by exact Hl. exact HW. }
  destruct (map_result_exists (fun line => argmax01 (rev line)) (map (map T) f)) as (b & Eb & Fb).
  { intros bl Hin. apply in_map_iff in Hin. destruct Hin as (line & <- & Hl). eexists. apply argmax_ne. rewrite rev_length, LM by exact Hl. exact HW. }
  assert (Ca : (List.length goodl <= count_occ Z.eq_dec a (Z.of_nat l))%nat).
  { apply (majority_count _ _ _ _ Fa goodl NDl). intros i Hi. destruct (Gl i Hi) as (I & B). rewrite map_length. split; [exact I|].
    intros d. rewrite NM by exact I. apply GLl; [apply Hw, nth_In, I|exact B]. }
  assert (Cb : (List.length goodr <= count_occ Z.eq_dec b (Z.of_nat (W - r)))%nat).
  { apply (majority_count _ _ _ _ Fb goodr NDr). intros i Hi. destruct (Gr i Hi) as (I & B). rewrite map_length. split; [exact I|].
    intros d. rewrite NM by exact I. apply GLr; [apply Hw, nth_In, I|exact B]. }
  assert (La : List.length a = List.length f) by (clear - Fa; rewrite <- (map_length (map T) f); induction Fa; cbn; congruence).
  assert (Lb : List.length b = List.length f) by (clear - Fb; rewrite <- (map_length (map T) f); induction Fb; cbn; congruence).
  rewrite Ea. cbn [bind]. rewrite (twice_median_majority (Z.of_nat l)) by lia. cbn [bind]. rewrite Eb. cbn [bind].
  rewrite (twice_median_majority (Z.of_nat (W - r))) by lia. cbn [bind]. f_equal. f_equal.
  - rewrite Z.mul_comm, Z.quot_mul by lia. reflexivity.
  - replace (2 * Z.of_nat W - 2 * Z.of_nat (W - r)) with (Z.of_nat r * 2) by lia. rewrite Z.quot_mul by lia. reflexivity.
Qed.
Print Assumptions C85_borders_majority.
(** five lines, one dark, one too wide; and an image without any bright pixel *)
Example C85_borders_majority_example :
  get_borders 3 [[0; 9; 9; 0]; [0; 0; 0; 0]; [0; 9; 9; 0]; [9; 9; 9; 9]; [0; 9; 9; 0]]%Q = Ok (1, 3) /\
  get_borders 3 [[0; 1; 0]; [2; 0; 0]]%Q = Ok (0, 3) /\
  left_border 3 [0; 9; 9; 0]%Q 1 /\ right_border 3 [0; 9; 9; 0]%Q 3.
Proof.
  split; [vm_compute; reflexivity|]. split; [vm_compute; reflexivity|]. split; left.
  - cbn. split; [lia|]. split; [reflexivity|]. intros j Hj. assert (j = O) as -> by lia. cbn. discriminate.
  - cbn. split; [lia|]. split; [reflexivity|]. intros j Hj. assert (j = 3%nat) as -> by lia. cbn. discriminate.
Qed.

(** ** C86: zero on the borders *)
Lemma py_repeat_nth {A} (v : A) n j : nth_error (py_repeat v n) j = if (j <? Z.to_nat n)%nat then Some v else None.
Proof.
  unfold py_repeat. generalize (Z.to_nat n) as m. clear n. intros m. revert j. induction m as [|m IH]; intros [|j]; try reflexivity.
  cbn [repeat nth_error]. rewrite IH. reflexivity.
Qed.

Section Borders.
Context {A : Type} (zero : A).
Variable resize : list (list A) -> Z -> Z -> result (list (list A)).

Definition has_shape (h w : Z) (f : list (list A)) : Prop := zlen f = h /\ forall line, In line f -> zlen line = w.

(** the columns of the heights given to [resize] *)
Definition inside_columns (c : surf_conf) (array : list (list A)) (shape : Z * Z) : list (list A) :=
  let x_max := if c_xmax c <=? snd shape then c_xmax c - 1 else snd shape in
  map (fun line => py_slice line (fst shape + c_borders c - c_xmin c) (- (c_xmax c - x_max + c_borders c))) array.


Lemma set_borders_spec c h array shape inside :
  1 <= c_borders c -> 2 * c_borders c < c_xmax c - c_xmin c -> 0 <= h ->
  resize (inside_columns c array shape) h (c_xmax c - 2 * c_borders c - c_xmin c) = Ok inside ->
  has_shape h (c_xmax c - 2 * c_borders c - c_xmin c) inside ->
  exists out, set_borders_zero zero resize c h array shape = Ok out /\ has_shape h (c_xmax c - c_xmin c) out /\
    forall i j, 0 <= i < h -> 0 <= j < c_xmax c - c_xmin c ->
      pixel out (Z.to_nat i) (Z.to_nat j) =
      if (j <? c_borders c) || (c_xmax c - c_xmin c - c_borders c <=? j) then Some zero
      else pixel inside (Z.to_nat i) (Z.to_nat (j - c_borders c)).
Proof.
  intros Hb Hw Hh Hres [HS1 HS2]. unfold set_borders_zero. destruct shape as [x_min x_max]. unfold inside_columns in Hres. cbn [fst snd] in Hres. rewrite Hres. cbn [bind].
  set (b := c_borders c) in *. set (W := c_xmax c - c_xmin c) in *. replace (c_xmax c - 2 * b - c_xmin c) with (W - 2 * b) in * by (unfold W; lia). clearbody b W.
  set (row := py_repeat zero W). set (new := py_repeat row h). 
  assert (HN : zlen new = h) by (unfold new, zlen, py_repeat; rewrite repeat_length; lia).
  assert (HR : zlen row = W) by (unfold row, zlen, py_repeat; rewrite repeat_length; lia).
  unfold set_columns. rewrite HS1, HN, Z.eqb_refl.
  edestruct (map_result_forall2 (fun '(line, v) => set_slice line b (- b) v)
    (fun '(line, v) out => List.length out = List.length line /\ forall j, nth_error out j = if (Z.to_nat b <=? j)%nat && (j <? Z.to_nat (W - b))%nat then nth_error v (j - Z.to_nat b) else nth_error line j)
    (combine new inside)) as (out & E & HF).
  { intros [line v] Hl. assert (Hl1 : line = row) by (apply in_combine_l in Hl; unfold new, py_repeat in Hl; apply repeat_spec in Hl; exact Hl).
    assert (HLv : zlen v = W - 2 * b) by (apply HS2; eapply in_combine_r; eassumption). subst line.
    replace (- b) with (- (zlen row - (W - b))) by lia. apply set_slice_spec; lia. }
  exists out. split; [exact E|].
  assert (HLo : List.length out = List.length (combine new inside)) by (clear - HF; induction HF; cbn; congruence).
  rewrite combine_length in HLo. split.
  - split; [unfold zlen in *; lia|]. intros line Hl. apply In_nth_error in Hl. destruct Hl as (i & Hi).
    assert (Hc : exists lv, nth_error (combine new inside) i = Some lv).
    { destruct (nth_error (combine new inside) i) eqn:Ec; [eexists; reflexivity|]. apply nth_error_None in Ec. rewrite combine_length in Ec. assert (i < List.length out)%nat by (apply nth_error_Some; congruence). lia. }
    destruct Hc as ([l0 v0] & Hc). destruct (Forall2_nth _ _ _ HF i _ Hc) as (o & Eo & HLn & _). rewrite Hi in Eo. injection Eo as <-.
    apply nth_error_In in Hc. apply in_combine_l in Hc. unfold new, py_repeat in Hc. apply repeat_spec in Hc. subst l0. unfold zlen in *. lia.
  - intros i j Hi Hj.
    assert (E1 : nth_error new (Z.to_nat i) = Some row) by (unfold new; rewrite py_repeat_nth; destruct (Nat.ltb_spec (Z.to_nat i) (Z.to_nat h)); [reflexivity|lia]).
    destruct (nth_error inside (Z.to_nat i)) as [v|] eqn:E2; [|apply nth_error_None in E2; unfold zlen in *; lia].
    destruct (Forall2_nth _ _ _ HF (Z.to_nat i) _ (nth_combine _ _ _ _ _ E1 E2)) as (o & Eo & _ & HP).
    unfold pixel. rewrite Eo, E2, HP.
    destruct (j <? b) eqn:Ej1; destruct (W - b <=? j) eqn:Ej2; cbn [orb].
    1-3: replace ((Z.to_nat b <=? Z.to_nat j)%nat && (Z.to_nat j <? Z.to_nat (W - b))%nat) with false by lia; unfold row; rewrite py_repeat_nth; replace (Z.to_nat j <? Z.to_nat W)%nat with true by lia; reflexivity.
    replace ((Z.to_nat b <=? Z.to_nat j)%nat && (Z.to_nat j <? Z.to_nat (W - b))%nat) with true by lia. f_equal. lia.
Qed.

(** no border: nothing can be assigned *)
Lemma set_borders_none c h array shape inside :
  c_borders c = 0 -> 2 <= c_xmax c - c_xmin c -> 1 <= h ->
  resize (inside_columns c array shape) h (c_xmax c - 2 * c_borders c - c_xmin c) = Ok inside ->
  has_shape h (c_xmax c - 2 * c_borders c - c_xmin c) inside ->
  set_borders_zero zero resize c h array shape = Err ValueError.
Proof.
  intros Hb Hw Hh Hres [HS1 HS2]. unfold set_borders_zero. destruct shape as [x_min x_max]. unfold inside_columns in Hres. cbn [fst snd] in Hres. rewrite Hres. cbn [bind].
  rewrite Hb in *. unfold set_columns. replace (zlen inside =? _) with true by (unfold zlen, py_repeat in *; rewrite repeat_length; lia).
  destruct inside as [|v inside]; [unfold zlen in HS1; cbn in HS1; lia|]. unfold py_repeat at 1. replace (Z.to_nat h) with (S (Z.to_nat (h - 1))) by lia.
  cbn [repeat combine map_result]. unfold set_slice. change (- 0) with 0.
  replace (zlen v =? _) with false.
  - assert (HV : zlen v = c_xmax c - 2 * 0 - c_xmin c) by (apply HS2; left; reflexivity). destruct v as [|v0 [|v1 v]]; unfold zlen in HV; cbn in HV; try lia. reflexivity.
  - assert (HV : zlen v = c_xmax c - 2 * 0 - c_xmin c) by (apply HS2; left; reflexivity). rewrite (norm_bound_in _ 0) by (unfold zlen; lia). lia.
Qed.
End Borders.

(** The zeros: on the [borders] first and last columns; the columns between are those made by [resize].
    Missing for the full property: the columns between are the heights computed for these columns (false, see below). *)
Theorem C86_borders_zero_partial :
  forall A (zero : A) resize c h array shape inside,
  1 <= c_borders c -> 2 * c_borders c < c_xmax c - c_xmin c -> 0 <= h ->
  resize (inside_columns c array shape) h (c_xmax c - 2 * c_borders c - c_xmin c) = Ok inside ->
  has_shape h (c_xmax c - 2 * c_borders c - c_xmin c) inside ->
  exists out, set_borders_zero zero resize c h array shape = Ok out /\ has_shape h (c_xmax c - c_xmin c) out /\
    forall i j, 0 <= i < h -> 0 <= j < c_xmax c - c_xmin c ->
      pixel out (Z.to_nat i) (Z.to_nat j) =
      if (j <? c_borders c) || (c_xmax c - c_xmin c - c_borders c <=? j) then Some zero
      else pixel inside (Z.to_nat i) (Z.to_nat (j - c_borders c)).
Proof. intros. apply (set_borders_spec zero resize c h array shape inside); assumption. Qed.
Print Assumptions C86_borders_zero_partial.

(** borders = 0 is refused whatever the heights *)
Theorem C86_no_border_refuted :
  forall A (zero : A) resize c h array shape inside,
  c_borders c = 0 -> 2 <= c_xmax c - c_xmin c -> 1 <= h ->
  resize (inside_columns c array shape) h (c_xmax c - c_xmin c) = Ok inside -> has_shape h (c_xmax c - c_xmin c) inside ->
  set_borders_zero zero resize c h array shape = Err ValueError.
Proof.
  intros A zero resize c h array shape inside Hb Hw Hh Hr HS. apply (set_borders_none zero resize c h array shape inside); try assumption.
  - rewrite Hb. replace (c_xmax c - 2 * 0 - c_xmin c) with (c_xmax c - c_xmin c) by lia. exact Hr.
  - rewrite Hb. replace (c_xmax c - 2 * 0 - c_xmin c) with (c_xmax c - c_xmin c) by lia. exact HS.
Qed.
Print Assumptions C86_no_border_refuted.

(** Even without cropping, the last column inside the borders is not used: two fields of heights which
    only agree on the columns borders, ..., W - borders - 2 give the same image (the W - 2 borders - 1
    columns are stretched over W - 2 borders columns). *)
Theorem C86_last_column_refuted :
  forall A (zero : A) resize c h (array array' : list (list A)),
  let W := c_xmax c - c_xmin c in
  1 <= c_borders c -> 2 * c_borders c < W -> has_shape h W array -> has_shape h W array' ->
  (forall i j, (Z.to_nat (c_borders c) <= j < Z.to_nat (W - c_borders c - 1))%nat -> pixel array i j = pixel array' i j) ->
  set_borders_zero zero resize c h array (c_xmin c, c_xmax c) = set_borders_zero zero resize c h array' (c_xmin c, c_xmax c).
Proof.
  intros A zero resize c h array array' W Hb Hw [H1 H2] [H1' H2'] HP. unfold set_borders_zero. rewrite Z.leb_refl.
  match goal with |- bind (resize ?a _ _) _ = bind (resize ?a' _ _) _ => assert (E : a = a') end; [|rewrite E; reflexivity].
  set (b := c_borders c) in *. replace (c_xmin c + b - c_xmin c) with b by lia. replace (c_xmax c - (c_xmax c - 1) + b) with (1 + b) by lia. clearbody b.
  clearbody W. revert h array' H1 H2 H1' H2' HP. induction array as [|l array IH]; intros h [|l' array'] H1 H2 H1' H2' HP; unfold zlen in *; cbn [List.length] in *; try lia; [reflexivity|].
  cbn [map]. f_equal.
  - assert (HL : zlen l = W) by (apply H2; left; reflexivity). assert (HL' : zlen l' = W) by (apply H2'; left; reflexivity).
    assert (HE : forall (x : list A), zlen x = W -> py_slice x b (- (1 + b)) = py_slice x b (W - b - 1)).
    { intros x Hx. unfold py_slice. rewrite Hx. rewrite norm_bound_neg by lia. rewrite (norm_bound_in _ (W - b - 1)) by lia. replace (W - (1 + b)) with (W - b - 1) by lia. reflexivity. }
    rewrite !HE by assumption.
    assert (HX : forall (x y : list A), List.length x = List.length y -> (forall j, (j < List.length x)%nat -> nth_error x j = nth_error y j) -> x = y).
    { clear. induction x as [|a x IH]; intros [|a' y] HL Hj; cbn in HL; try lia; [reflexivity|]. f_equal.
      - specialize (Hj 0%nat ltac:(cbn; lia)). cbn in Hj. congruence.
      - apply IH; [lia|]. intros j H. apply (Hj (S j)). cbn. lia. }
    apply HX.
    + pose proof (py_slice_length l b (W - b - 1)) as P1. pose proof (py_slice_length l' b (W - b - 1)) as P2. unfold zlen in *. lia.
    + intros j Hj. assert (Hj' : (j < Z.to_nat (W - b - 1 - b))%nat) by (pose proof (py_slice_length l b (W - b - 1)) as P1; unfold zlen in *; lia).
      rewrite !py_slice_nth by lia. apply (HP 0%nat). lia.
  - apply (IH (h - 1)); try lia.
    + intros x Hx. apply H2. right. exact Hx.
    + intros x Hx. apply H2'. right. exact Hx.
    + intros i j Hj. apply (HP (S i) j Hj).
Qed.
Print Assumptions C86_last_column_refuted.

(** A plate which begins before the window: the first bound is negative, so counted from the end, and [resize]
    can get no column at all. *)
Theorem C86_left_refuted :
  forall A (c : surf_conf) h (array : list (list A)) x_min x_max,
  has_shape h (c_xmax c - c_xmin c) array -> 1 <= c_borders c -> x_max < c_xmax c ->
  1 <= c_xmin c - x_min - c_borders c -> c_xmin c - x_min - c_borders c <= c_xmax c - x_max + c_borders c ->
  inside_columns c array (x_min, x_max) = map (fun _ => []) array.
Proof.
  intros A c h array x_min x_max [H1 H2] Hb Hx Hl Hr. unfold inside_columns. cbn [fst snd]. destruct (c_xmax c <=? x_max) eqn:E; [lia|].
  apply map_ext_in. intros line Hin. unfold py_slice. rewrite (H2 line Hin). unfold norm_bound.
  replace (x_min + c_borders c - c_xmin c <? 0) with true by lia. replace (- (c_xmax c - x_max + c_borders c) <? 0) with true by lia.
  match goal with |- firstn (Z.to_nat ?n) _ = _ => replace (Z.to_nat n) with 0%nat by lia end. reflexivity.
Qed.
Print Assumptions C86_left_refuted.

(** a [resize] which repeats the last column (or cuts) *)
Definition toy_resize (a : list (list Z)) (h w : Z) : result (list (list Z)) :=
  Ok (map (fun line => firstn (Z.to_nat w) (line ++ repeat (last line 0) (Z.to_nat w))) a).
Example C86_example :
  set_borders_zero 0 toy_resize ex_conf 1 [[11; 12; 13; 14; 15]] (1, 6) = Ok [[0; 12; 13; 13; 0]] /\
  set_borders_zero 0 toy_resize (mk_conf 1 6 0 1 0 true 300) 1 [[11; 12; 13; 14; 15]] (1, 6) = Err ValueError.
Proof. split; vm_compute; reflexivity. Qed.

(** The reference frame is the mean of the reference frames, pixel by pixel. *)
Definition pixel_at (f : frame) (i j : nat) : Q := nth j (nth i f []) 0%Q.
Definition of_size (h w : nat) (f : frame) : Prop := List.length f = h /\ rectangular w f.

Lemma add_frames_size h w a b : of_size h w a -> of_size h w b -> of_size h w (add_frames a b).
Proof.
  intros (La & Ra) (Lb & Rb). unfold add_frames. split; [rewrite map_length, combine_length; lia|].
  intros line H. apply in_map_iff in H. destruct H as ((l & m) & <- & H). rewrite map_length, combine_length.
  rewrite (Ra l (in_combine_l _ _ _ _ H)), (Rb m (in_combine_r _ _ _ _ H)). lia.
Qed.
Lemma add_frames_pixel h w a b i j : of_size h w a -> of_size h w b -> (i < h)%nat -> (j < w)%nat ->
  (pixel_at (add_frames a b) i j == pixel_at a i j + pixel_at b i j)%Q.
Proof.
  intros (La & Ra) (Lb & Rb) Hi Hj. unfold pixel_at, add_frames.
  assert (E : forall (x y : list Q), nth i (map (fun '(l, m) => map (fun '(p, q) => (p + q)%Q) (combine l m)) (combine a b)) [] =
    map (fun '(p, q) => (p + q)%Q) (combine (nth i a []) (nth i b []))).
  { intros _ _. rewrite (nth_indep _ [] (map (fun '(p, q) => (p + q)%Q) (combine (@nil Q) (@nil Q)))) by (rewrite map_length, combine_length; lia).
    change (map (fun '(p, q) => (p + q)%Q) (combine (@nil Q) (@nil Q))) with ((fun '(l, m) => map (fun '(p, q) => (p + q)%Q) (combine l m)) ((@nil Q), (@nil Q))).
    rewrite map_nth, combine_nth by lia. reflexivity. }
  rewrite (E [] []). clear E. assert (L1 : List.length (nth i a []) = w) by (apply Ra, nth_In; lia).
  assert (L2 : List.length (nth i b []) = w) by (apply Rb, nth_In; lia).
  rewrite (nth_indep _ 0%Q (0 + 0)%Q) by (rewrite map_length, combine_length; lia).
  change (0 + 0)%Q with ((fun '(p, q) => (p + q)%Q) (0%Q, 0%Q)). rewrite map_nth, combine_nth by lia. reflexivity.
Qed.

Theorem C83_reference : forall c frames (h w : nat),
  frames <> [] -> c_xmax c - c_xmin c = Z.of_nat w -> c_ymax c - c_ymin c = Z.of_nat h -> Forall (of_size h w) frames ->
  exists ref, read_ref c frames = Ok ref /\ of_size h w ref /\
    forall i j, (i < h)%nat -> (j < w)%nat ->
      (pixel_at ref i j == fold_right Qplus 0 (map (fun f => pixel_at f i j) frames) / inject_Z (Z.of_nat (List.length frames)))%Q.
Proof.
  intros c frames h w NE Hw Hh HF. unfold read_ref, ref_attribute. destruct frames as [|f0 fs]; [contradiction|]. cbv zeta iota.
  set (frames := f0 :: fs) in *. clearbody frames. eexists. split; [reflexivity|].
  assert (G : forall z, of_size h w z -> of_size h w (fold_left add_frames frames z) /\ forall i j, (i < h)%nat -> (j < w)%nat ->
    (pixel_at (fold_left add_frames frames z) i j == pixel_at z i j + fold_right Qplus 0 (map (fun f => pixel_at f i j) frames))%Q).
  { clear -HF. induction HF as [|f frames Hf _ IH]; intros z Hz.
    - split; [exact Hz|]. intros i j _ _. cbn [fold_left map fold_right]. ring.
    - cbn [fold_left]. destruct (IH (add_frames z f) (add_frames_size _ _ _ _ Hz Hf)) as (I1 & I2). split; [exact I1|].
      intros i j Hi Hj. rewrite I2 by assumption. rewrite (add_frames_pixel h w) by assumption. cbn [map fold_right]. ring. }
  assert (Z0 : of_size h w (py_repeat (py_repeat 0%Q (c_xmax c - c_xmin c)) (c_ymax c - c_ymin c)) /\
    forall i j, (i < h)%nat -> (j < w)%nat -> pixel_at (py_repeat (py_repeat 0%Q (c_xmax c - c_xmin c)) (c_ymax c - c_ymin c)) i j = 0%Q).
  { unfold py_repeat. rewrite Hw, Hh, !Nat2Z.id. split.
    - split; [apply repeat_length|]. intros line H. apply repeat_spec in H. subst line. apply repeat_length.
    - intros i j Hi Hj. unfold pixel_at. rewrite (nth_indep _ [] (repeat 0%Q w)) by (rewrite repeat_length; lia). rewrite nth_repeat. apply nth_repeat. }
  destruct Z0 as (Zs & Zp). destruct (G _ Zs) as (Gs & Gp). set (total := fold_left add_frames frames _) in *. clearbody total.
  destruct Gs as (Gl & Gr). split.
  - split; [rewrite map_length; exact Gl|]. intros line H. apply in_map_iff in H. destruct H as (l & <- & H). rewrite map_length. apply Gr, H.
  - intros i j Hi Hj. unfold zlen. set (N := inject_Z (Z.of_nat (List.length frames))). clearbody N.
    assert (E : pixel_at (map (map (fun p => (p / N)%Q)) total) i j = (pixel_at total i j / N)%Q).
    { unfold pixel_at. change (@nil Q) with (map (fun p => (p / N)%Q) []) at 1. rewrite map_nth.
      assert (L : List.length (nth i total []) = w) by (apply Gr, nth_In; lia).
      rewrite (nth_indep _ 0%Q ((fun p => (p / N)%Q) 0%Q)) by (rewrite map_length; lia). apply (map_nth (fun p => (p / N)%Q)). }
    rewrite E, Gp, Zp by assumption. rewrite Qplus_0_l. reflexivity.
Qed.
Print Assumptions C83_reference.

(** ** Reference images: compute_kx accepts a series without images, then the attribute is missing *)
Theorem C83_no_reference_refuted : forall c, read_ref c [] = Err AttributeError.
Proof. reflexivity. Qed.
Print Assumptions C83_no_reference_refuted.

Example C83_reference_ex : exists ref, read_ref (mk_conf 1 3 0 1 1 false 300) [[[2; 4]]; [[4; 10]]]%Q = Ok ref /\
  Forall (of_size 1 2) [[[2; 4]]; [[4; 10]]]%Q /\ (pixel_at ref 0 0 == 3)%Q /\ (pixel_at ref 0 1 == 7)%Q.
Proof.
  eexists. split; [reflexivity|]. split; [|split; reflexivity].
  repeat constructor; intros line [<-|[]]; reflexivity.
Qed.

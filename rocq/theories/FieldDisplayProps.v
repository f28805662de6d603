(** C107: the display of a vector field.  C108: the arrays of vector fields. *)
From Verif Require Import PyBase StrModel VecFieldModel VecFieldProps GridProps FieldDisplayModel.
Local Open Scope Z_scope.

Lemma range_in a b s x : 0 < s -> (In x (range_list a b s) <-> a <= x < b /\ exists k, x = a + k * s).
Proof.
  intros Hs. unfold range_list, range_len. replace (0 <? s) with true by lia. replace (s <? 0) with false by lia. cbn [andb].
  pose proof (Z.mul_div_le (b - a - 1) s Hs) as HM.
  rewrite in_map_iff. split.
  - intros (k & <- & Hk). apply in_seq in Hk. split; [|eauto]. destruct (a <? b) eqn:E; [|cbn in Hk; lia].
    assert (Hq : Z.of_nat k <= (b - a - 1) / s) by (pose proof (Z.div_pos (b - a - 1) s); lia). nia.
  - intros (Hb & k & ->). exists (Z.to_nat k). assert (0 <= k) by nia. split; [rewrite Z2Nat.id by lia; reflexivity|]. apply in_seq.
    assert (k <= (b - a - 1) / s) by (apply Z.div_le_lower_bound; nia). replace (a <? b) with true by lia. lia.
Qed.
Lemma indices_bound n s i : 0 <= n -> 0 < s_step s -> In i (slice_indices n s) -> 0 <= i < n.
Proof.
  intros Hn Hs H. unfold slice_indices in H. apply (range_in _ _ _ _ Hs) in H. destruct H as (Hb & _). unfold norm_bound in Hb.
  destruct (s_start s) as [a|]; destruct (s_stop s) as [b|];
    repeat match goal with H : context [if ?c then _ else _] |- _ => destruct c eqn:? end; lia.
Qed.

Lemma map_get_ok {A} (l : list A) : forall idx, (forall i, In i idx -> 0 <= i < zlen l) ->
  exists r, map_result (py_get l) idx = Ok r /\ Forall2 (fun i x => nth_error l (Z.to_nat i) = Some x) idx r.
Proof.
  induction idx as [|i idx IH]; intros H; [exists []; split; [reflexivity|constructor]|].
  destruct IH as (r & Er & Fr); [intros k Hk; apply H; right; exact Hk|]. pose proof (H i (or_introl eq_refl)) as Hi. unfold zlen in Hi.
  destruct (nth_error l (Z.to_nat i)) as [x|] eqn:Ex; [|apply nth_error_None in Ex; lia].
  exists (x :: r). split; [|constructor; assumption]. cbn [map_result]. unfold py_get at 1. replace (i <? 0) with false by lia. unfold zlen.
  replace ((0 <=? i) && (i <? Z.of_nat (List.length l))) with true by lia. rewrite Ex. cbn [bind]. rewrite Er. reflexivity.
Qed.
Lemma take_ok {A} (s : slc) (l : list A) : 0 < s_step s ->
  exists r, take s l = Ok r /\ Forall2 (fun i x => nth_error l (Z.to_nat i) = Some x) (slice_indices (zlen l) s) r.
Proof.
  intros Hs. unfold take. replace (s_step s <=? 0) with false by lia. apply map_get_ok. intros i Hi. apply indices_bound with (s := s); [unfold zlen; lia|exact Hs|exact Hi].
Qed.
Lemma forall2_impl {A B} (P Q : A -> B -> Prop) l l' : (forall a b, P a b -> Q a b) -> Forall2 P l l' -> Forall2 Q l l'.
Proof. intros H. induction 1; constructor; auto. Qed.
Lemma take2_ok {A} (s : slc * slc) (a : array2 A) n0 n1 : shape a n0 n1 -> 0 < s_step (fst s) -> 0 < s_step (snd s) ->
  exists r, take2 s a = Ok r /\
    Forall2 (fun i row => Forall2 (fun j u => get2 a (Z.to_nat i) (Z.to_nat j) = Some u) (slice_indices (Z.of_nat n1) (snd s)) row) (slice_indices (Z.of_nat n0) (fst s)) r.
Proof.
  intros [S0 S1] H0 H1. unfold take2. destruct (take_ok (fst s) a H0) as (rows & Er & Fr). rewrite Er. cbn [bind].
  unfold zlen in Fr. rewrite S0 in Fr. clear Er. induction Fr as [|i row idx rows Hi Fr IH]; [exists []; split; [reflexivity|constructor]|].
  destruct IH as (r & Er & F2). destruct (take_ok (snd s) row H1) as (t & Et & Ft). exists (t :: r). cbn [map_result]. rewrite Et. cbn [bind]. rewrite Er. split; [reflexivity|].
  constructor; [|exact F2]. rewrite Forall_forall in S1. pose proof (S1 row (nth_error_In _ _ Hi)) as L. unfold zlen in Ft. rewrite L in Ft.
  eapply forall2_impl; [|exact Ft]. cbn. intros j u Hu. unfold get2. rewrite Hi. exact Hu.
Qed.
Lemma zip4_app {A} : forall a (u v : list A) b u' v', List.length u = List.length a -> List.length v = List.length a ->
  zip4 (a ++ b) (u ++ u') (v ++ v') = zip4 a u v ++ zip4 b u' v'.
Proof.
  induction a as [|p a IH]; intros [|x u] [|y v] b u' v' H1 H2; cbn in H1, H2; try discriminate; [reflexivity|]. cbn. f_equal. apply IH; lia.
Qed.
Lemma zip_row {A} (P : Z -> Z -> Prop) (Q R : Z -> A -> Prop) y : forall J X u v, Forall2 P J X -> Forall2 Q J u -> Forall2 R J v ->
  List.length u = List.length X /\ List.length v = List.length X /\
  forall x0 y0 a b, In (x0, y0, a, b) (zip4 (map (fun x => (x, y)) X) u v) ->
    y0 = y /\ exists j, In j J /\ P j x0 /\ Q j a /\ R j b.
Proof.
  induction J as [|j J IH]; intros X u v HX Hu Hv; inversion HX; inversion Hu; inversion Hv; subst.
  - repeat split; intros; contradiction.
  - destruct (IH _ _ _ ltac:(eassumption) ltac:(eassumption) ltac:(eassumption)) as (L1 & L2 & IN). cbn. split; [congruence|]. split; [congruence|].
    intros px py pa pb [E | E]; [injection E as <- <- <- <-; split; [reflexivity|]; eauto 10|].
    destruct (IN _ _ _ _ E) as (-> & j' & Hj & HH). split; [reflexivity|]. exists j'. auto.
Qed.
Lemma zip_row_conv {A} (P : Z -> Z -> Prop) (Q R : Z -> A -> Prop) y j : forall J X u v, Forall2 P J X -> Forall2 Q J u -> Forall2 R J v -> In j J ->
  exists x0 a b, P j x0 /\ Q j a /\ R j b /\ In (x0, y, a, b) (zip4 (map (fun x => (x, y)) X) u v).
Proof.
  induction J as [|j' J IH]; intros X u v HX Hu Hv Hj; [contradiction|]. inversion HX; inversion Hu; inversion Hv; subst. cbn. destruct Hj as [-> | Hj].
  - eauto 10.
  - destruct (IH _ _ _ ltac:(eassumption) ltac:(eassumption) ltac:(eassumption) Hj) as (x0 & a & b & Hx & Ha & Hb & Hin). exists x0, a, b. auto.
Qed.
Lemma zip_rows {A} (P R : Z -> Z -> Prop) (Q T : Z -> Z -> A -> Prop) J X : Forall2 P J X -> forall I Y U W,
  Forall2 R I Y -> Forall2 (fun i row => Forall2 (Q i) J row) I U -> Forall2 (fun i row => Forall2 (T i) J row) I W ->
  let xy := flat_map (fun y => map (fun x => (x, y)) X) Y in
  List.length (List.concat U) = List.length xy /\ List.length (List.concat W) = List.length xy /\
  (forall x0 y0 a b, In (x0, y0, a, b) (zip4 xy (List.concat U) (List.concat W)) -> exists i j, In i I /\ In j J /\ P j x0 /\ R i y0 /\ Q i j a /\ T i j b) /\
  (forall i j, In i I -> In j J -> exists x0 y0 a b, P j x0 /\ R i y0 /\ Q i j a /\ T i j b /\ In (x0, y0, a, b) (zip4 xy (List.concat U) (List.concat W))).
Proof.
  intros HX. induction I as [|i I IH]; intros Y U W HY HU HW; inversion HY as [|i1 y I1 Y' Hy HY']; inversion HU as [|i2 u I2 U' Hu HU']; inversion HW as [|i3 w I3 W' Hw HW']; subst.
  - cbn. repeat split; intros; contradiction.
  - destruct (IH _ _ _ HY' HU' HW') as (L1 & L2 & IN1 & IN2). destruct (zip_row P (Q i) (T i) y J X u w HX Hu Hw) as (K1 & K2 & RN).
    cbn [flat_map List.concat]. cbv zeta in *. rewrite !app_length, !map_length. split; [lia|]. split; [lia|].
    rewrite zip4_app by (rewrite map_length; assumption). split.
    + intros x0 y0 a b H. apply in_app_or in H. destruct H as [H | H].
      * destruct (RN _ _ _ _ H) as (-> & j & Hj & HP & HQ & HT). exists i, j. cbn. auto 10.
      * destruct (IN1 _ _ _ _ H) as (i' & j & Hi & Hj & HH). exists i', j. cbn. auto.
    + intros i' j Hi Hj. destruct Hi as [<- | Hi].
      * destruct (zip_row_conv P (Q i) (T i) y j J X u w HX Hu Hw Hj) as (x0 & a & b & HP & HQ & HT & Hin). exists x0, y, a, b. repeat (split; [assumption|]). apply in_or_app. auto.
      * destruct (IN2 i' j Hi Hj) as (x0 & y0 & a & b & HP & HR & HQ & HT & Hin). exists x0, y0, a, b. repeat (split; [assumption|]). apply in_or_app. auto.
Qed.
Lemma Forall2_len {A B} (P : A -> B -> Prop) l l' : Forall2 P l l' -> List.length l' = List.length l.
Proof. induction 1; cbn; congruence. Qed.

(** ** C107 *)
(** *** Specification *)
Section Spec.
Context {A : Type}.
Definition dwell (f : dfield A) : Prop :=
  shape (d_vx f) (List.length (d_y f)) (List.length (d_x f)) /\ shape (d_vy f) (List.length (d_y f)) (List.length (d_x f)).
(** the arrow at the point of indices [i, j] of the field *)
Definition arrow_of (f : dfield A) (i j : Z) (x y : Z) (u w : A) : Prop :=
  nth_error (d_x f) (Z.to_nat j) = Some x /\ nth_error (d_y f) (Z.to_nat i) = Some y /\
  get2 (d_vx f) (Z.to_nat i) (Z.to_nat j) = Some u /\ get2 (d_vy f) (Z.to_nat i) (Z.to_nat j) = Some w.

(** With the same slice for both axes, the arrows displayed are those of the points chosen by the slice, each with
    its position. *)
Theorem C107_same_slices : forall f s, dwell f -> 0 < s_step s -> slice_indices (zlen (d_y f)) s <> [] ->
  exists l, display f false ANone (ASlices (s, s)) = Ok l /\
    zlen l = zlen (slice_indices (zlen (d_y f)) s) * zlen (slice_indices (zlen (d_x f)) s) /\
    forall x y u w, In (x, y, u, w) l <->
      exists i j, In i (slice_indices (zlen (d_y f)) s) /\ In j (slice_indices (zlen (d_x f)) s) /\ arrow_of f i j x y u w.
Proof.
  intros f s [SX SY] Hs HN. unfold display. cbn [choose_skip bind fst snd].
  destruct (take_ok s (d_x f) Hs) as (X & EX & FX). destruct (take_ok s (d_y f) Hs) as (Y & EY & FY).
  destruct (take2_ok (s, s) (d_vx f) _ _ SX Hs Hs) as (U & EU & FU). destruct (take2_ok (s, s) (d_vy f) _ _ SY Hs Hs) as (W & EW & FW).
  rewrite EX, EY, EU, EW. cbn [bind fst snd] in *. fold (zlen (d_x f)) in *. fold (zlen (d_y f)) in *.
  set (I := slice_indices (zlen (d_y f)) s) in *. set (J := slice_indices (zlen (d_x f)) s) in *.
  destruct (zip_rows _ _ (fun i j u => get2 (d_vx f) (Z.to_nat i) (Z.to_nat j) = Some u) (fun i j w => get2 (d_vy f) (Z.to_nat i) (Z.to_nat j) = Some w) J X FX I Y U W FY FU FW) as (L1 & L2 & IN1 & IN2). cbv zeta in *.
  assert (NC : match U with [] => 0 | row :: _ => zlen row end = zlen X).
  { destruct FU as [|i row I' U' Hr _]; [congruence|]. unfold zlen. rewrite (Forall2_len _ _ _ Hr), (Forall2_len _ _ _ FX). reflexivity. }
  unfold quiver. rewrite NC. replace (zlen Y =? zlen U) with true by (unfold zlen; rewrite (Forall2_len _ _ _ FY), (Forall2_len _ _ _ FU); lia). rewrite Z.eqb_refl. cbn [andb bind].
  set (xy := flat_map (fun y => map (fun x => (x, y)) X) Y) in *.
  replace (zlen xy =? zlen (List.concat U)) with true by (unfold zlen; lia). replace (zlen xy =? zlen (List.concat W)) with true by (unfold zlen; lia). cbn [andb].
  eexists. split; [reflexivity|]. split.
  - assert (LZ : forall (p : list (Z * Z)) (u v : list A), List.length u = List.length p -> List.length v = List.length p -> List.length (zip4 p u v) = List.length p).
    { clear. induction p as [|q p IH]; intros [|a u] [|b v] H1 H2; cbn in *; try discriminate; [reflexivity|]. f_equal. apply IH; lia. }
    unfold zlen at 1. rewrite LZ by assumption. subst xy.
    assert (LF : List.length (flat_map (fun y => map (fun x => (x, y)) X) Y) = (List.length Y * List.length X)%nat).
    { clear. induction Y as [|y Y IH]; [reflexivity|]. cbn. rewrite app_length, map_length, IH. reflexivity. }
    rewrite LF, (Forall2_len _ _ _ FY), (Forall2_len _ _ _ FX). unfold zlen. lia.
  - intros x y u w. split.
    + intros H. destruct (IN1 _ _ _ _ H) as (i & j & Hi & Hj & Hx & Hy & Hu & Hw). exists i, j. unfold arrow_of. auto 10.
    + intros (i & j & Hi & Hj & Hx & Hy & Hu & Hw). destruct (IN2 i j Hi Hj) as (x0 & y0 & a & b & Hx' & Hy' & Hu' & Hw' & H). cbn in *. rewrite Hx in Hx'. rewrite Hy in Hy'. rewrite Hu in Hu'. rewrite Hw in Hw'.
      injection Hx' as ->. injection Hy' as ->. injection Hu' as ->. injection Hw' as ->. exact H.
Qed.

(** With a step: one point in [k] along each axis, from the first one. *)
Theorem C107_step : forall f k, dwell f -> 1 <= k -> d_y f <> [] ->
  exists l, display f false (AInt k) ANone = Ok l /\
    forall x y u w, In (x, y, u, w) l <-> exists i j, 0 <= i < zlen (d_y f) /\ 0 <= j < zlen (d_x f) /\ (k | i) /\ (k | j) /\ arrow_of f i j x y u w.
Proof.
  intros f k Hf Hk HN. set (s := mk_slc None None k).
  assert (HI : forall n i, In i (slice_indices n s) <-> 0 <= i < n /\ (k | i)).
  { intros n i. unfold slice_indices. cbn [s s_start s_stop s_step]. rewrite range_in by lia. split; intros (H1 & q & H2); (split; [exact H1|]); exists q; lia. }
  assert (HN' : slice_indices (zlen (d_y f)) s <> []).
  { intros E. assert (In 0 (slice_indices (zlen (d_y f)) s)) as H; [|rewrite E in H; contradiction]. apply HI. split; [|exists 0; reflexivity]. destruct (d_y f); [congruence|]. unfold zlen. cbn. lia. }
  destruct (C107_same_slices f s Hf ltac:(cbn; lia) HN') as (l & E & _ & H). exists l. split; [exact E|].
  intros x y u w. rewrite H. split.
  - intros (i & j & Hi & Hj & Ha). apply HI in Hi. apply HI in Hj. exists i, j. tauto.
  - intros (i & j & Hi & Hj & Di & Dj & Ha). exists i, j. split; [apply HI; auto|]. split; [apply HI; auto|exact Ha].
Qed.

(** Without argument: the step depends on the number of lines, and 25 to 49 lines are displayed (all if there are
    less than 25). *)
Theorem C107_default_step : forall f, dwell f -> d_y f <> [] ->
  exists k, 1 <= k /\ display f false ANone ANone = display f false (AInt k) ANone /\
    (zlen (d_y f) < 50 -> k = 1) /\
    let lines := slice_indices (zlen (d_y f)) (mk_slc None None k) in
    (25 <= zlen (d_y f) -> 25 <= zlen lines <= 49) /\ (zlen (d_y f) < 25 -> zlen lines = zlen (d_y f)).
Proof.
  intros f Hf HN. exists (Z.max (zlen (d_y f) / 25) 1). set (n := zlen (d_y f)).
  assert (Hn : 0 < n) by (unfold n, zlen; destruct (d_y f); [congruence|cbn; lia]).
  split; [lia|]. split; [reflexivity|]. split; [intros; assert (n / 25 < 2) by (apply Z.div_lt_upper_bound; lia); lia|].
  set (k := Z.max (n / 25) 1). unfold slice_indices. cbn [s_start s_stop s_step]. unfold range_list, zlen. rewrite map_length, seq_length. unfold range_len.
  replace (0 <? k) with true by (unfold k; lia). replace (0 <? n) with true by lia. cbn [andb]. replace (n - 0 - 1) with (n - 1) by lia.
  rewrite Z2Nat.id by (pose proof (Z.div_pos (n - 1) k); unfold k in *; lia). split.
  - intros H25. assert (Ek : k = n / 25) by (unfold k; assert (1 <= n / 25) by (apply Z.div_le_lower_bound; lia); lia).
    pose proof (Z.div_mod n 25 ltac:(lia)) as D. pose proof (Z.mod_pos_bound n 25 ltac:(lia)) as M. rewrite <- Ek in D.
    assert (1 <= k) by (unfold k; lia).
    assert (24 <= (n - 1) / k) by (apply Z.div_le_lower_bound; lia). assert ((n - 1) / k < 49) by (apply Z.div_lt_upper_bound; lia). lia.
  - intros H25. assert (Ek : k = 1) by (unfold k; assert (n / 25 < 1) by (apply Z.div_lt_upper_bound; lia); lia). rewrite Ek, Z.div_1_r. lia.
Qed.

(** Both arguments, or a background: refused. *)
Theorem C107_refused : forall (f : dfield A) b k s, display f b (AInt k) (ASlices s) = Err ValueError /\ display f true (AInt k) ANone = Err NotImplementedError.
Proof. intros. split; reflexivity. Qed.
End Spec.
Print Assumptions C107_same_slices.
Print Assumptions C107_step.
Print Assumptions C107_default_step.
Print Assumptions C107_refused.

(** With two different slices the slice of the lines chooses the [x] and that of the columns chooses the [y]: an
    arrow can be drawn at the position of another point, or the call raises. *)
Definition ex4 : dfield Z := mk_dfield [0; 1; 2; 3] [0; 10; 20; 30]
  [[0; 1; 2; 3]; [10; 11; 12; 13]; [20; 21; 22; 23]; [30; 31; 32; 33]] (repeat [0; 0; 0; 0] 4).
Definition even : slc := mk_slc (Some 0) None 2.
Definition odd : slc := mk_slc (Some 1) None 2.
Theorem C107_skip_refuted : exists (f : dfield Z) s l, dwell f /\ display f false ANone (ASlices s) = Ok l /\
  exists x y u w, In (x, y, u, w) l /\ ~ exists i j, arrow_of f i j x y u w.
Proof.
  exists ex4, (even, odd). eexists. split; [split; split; repeat constructor|]. split; [reflexivity|].
  exists 0, 10, 1, 0. split; [left; reflexivity|]. intros (i & j & Hx & Hy & Hu & _). unfold get2 in Hu. cbn [ex4 d_x d_y d_vx] in *.
  destruct (Z.to_nat j) as [|[|[|[|j']]]]; cbn in Hx; try discriminate; try (destruct j'; discriminate).
  destruct (Z.to_nat i) as [|[|[|[|i']]]]; cbn in Hy; try discriminate; try (destruct i'; discriminate).
Qed.
Theorem C107_skip_raises_refuted : exists f s, dwell (A := Z) f /\ slice_indices (zlen (d_y f)) (fst s) <> [] /\ slice_indices (zlen (d_x f)) (snd s) <> [] /\
  display f false ANone (ASlices s) = Err ValueError.
Proof.
  exists ex4, (mk_slc None None 1, mk_slc None None 2). split; [split; split; repeat constructor|]. split; [discriminate|]. split; [discriminate|]. reflexivity.
Qed.
Print Assumptions C107_skip_refuted.
Print Assumptions C107_skip_raises_refuted.
Example C107_ex : exists l, display ex4 false (AInt 2) ANone = Ok l /\ l = [(0, 0, 0, 0); (2, 0, 2, 0); (0, 20, 20, 0); (2, 20, 22, 0)].
Proof. eexists. split; reflexivity. Qed.

(** ** C108 *)
(** *** Specification: the calls of a program on one array *)
Section Arrays.
Context {A : Type}.
Inductive call := KAppend (v : dfield A) | KExtend (l : list (dfield A)) | KSet (i : Z) (v : dfield A) | KDel (i : Z) | KStep (dt : Z).
(** a call that raises does nothing *)
Definition exec (a : farray A) (c : call) : farray A :=
  match c with
  | KAppend v => append v a
  | KExtend l => extend l a
  | KSet i v => match set_item i v a with Ok b => b | Err _ => a end
  | KDel i => match del_item i a with Ok b => b | Err _ => a end
  | KStep dt => set_timestep dt a
  end.
Definition run (a : farray A) (h : list call) : farray A := fold_left exec h a.
Definition is_step (c : call) : Prop := match c with KStep _ => True | _ => False end.

Lemma exec_times a c : ~ is_step c -> a_times (exec a c) = a_times a.
Proof.
  destruct c; cbn; intros H; try reflexivity; [| |contradiction (H I)].
  - unfold set_item. destruct (py_get (a_list a) i); reflexivity.
  - unfold del_item. destruct (py_get (a_list a) i); reflexivity.
Qed.
Lemma run_times h : forall a, Forall (fun c => ~ is_step c) h -> a_times (run a h) = a_times a.
Proof. induction h as [|c h IH]; intros a H; [reflexivity|]. inversion H; subst. change (run a (c :: h)) with (run (exec a c) h). rewrite IH by assumption. apply exec_times. assumption. Qed.

(** The times are the multiples of the last time step given, as many as there were fields at this call. *)
Theorem C108_times : forall l h1 dt h2, Forall (fun c => ~ is_step c) h2 ->
  let n := List.length (a_list (run (new_array l) h1)) in
  exists t, a_times (run (new_array l) (h1 ++ KStep dt :: h2)) = Some t /\ List.length t = n /\ forall k, (k < n)%nat -> nth_error t k = Some (Z.of_nat k * dt).
Proof.
  intros l h1 dt h2 H n. unfold run. rewrite fold_left_app. cbn [fold_left]. fold (run (new_array l) h1). fold (run (exec (run (new_array l) h1) (KStep dt)) h2).
  rewrite run_times by assumption. cbn [exec set_timestep a_times]. eexists. split; [reflexivity|]. unfold range0, zlen. fold n. rewrite Nat2Z.id. split; [rewrite !map_length, seq_length; reflexivity|].
  intros k Hk. rewrite map_map, nth_error_map. rewrite (nth_error_nth' _ 0%nat) by (rewrite seq_length; exact Hk). rewrite seq_nth by exact Hk. reflexivity.
Qed.
Theorem C108_no_times : forall l h, Forall (fun c => ~ is_step c) h -> a_times (run (new_array l) h) = None.
Proof. intros l h H. rewrite run_times by assumption. reflexivity. Qed.
(** There is one time for each field exactly when the number of fields is that of the last call of set_timestep. *)
Theorem C108_times_iff : forall l h1 dt h2 t, Forall (fun c => ~ is_step c) h2 ->
  a_times (run (new_array l) (h1 ++ KStep dt :: h2)) = Some t ->
  (List.length t = List.length (a_list (run (new_array l) (h1 ++ KStep dt :: h2))) <->
   List.length (a_list (run (new_array l) h1)) = List.length (a_list (run (new_array l) (h1 ++ KStep dt :: h2)))).
Proof.
  intros l h1 dt h2 t H E. destruct (C108_times l h1 dt h2 H) as (t' & E' & L & _). rewrite E in E'. injection E' as <-. rewrite L. reflexivity.
Qed.
(** Adding a field after set_timestep: a field without time. *)
Theorem C108_append_refuted : forall (a : farray A) dt v, exists t, a_times (append v (set_timestep dt a)) = Some t /\ List.length t <> List.length (a_list (append v (set_timestep dt a))).
Proof.
  intros a dt v. cbn. eexists. split; [reflexivity|]. unfold range0, zlen. rewrite !map_length, seq_length, Nat2Z.id, app_length. cbn. lia.
Qed.
(** The parts of an array and the results of operations have no times. *)
Theorem C108_lost_refuted : forall (a : farray A) i j h b, a_times (get_slice (A := A) i j a) = None /\ (map_fields h a = Ok b -> a_times b = None).
Proof. intros a i j h b. split; [reflexivity|]. unfold map_fields. destruct (map_result h (a_list a)); cbn; [|discriminate]. intros E. injection E as <-. reflexivity. Qed.

(** The list: as a Python list. *)
Lemma update_nth_get {B} (l : list B) i v : (i < List.length l)%nat -> nth_error (update_nth i (fun _ => v) l) i = Some v /\
  List.length (update_nth i (fun _ => v) l) = List.length l /\ forall k, k <> i -> nth_error (update_nth i (fun _ => v) l) k = nth_error l k.
Proof.
  revert i. induction l as [|x l IH]; intros i H; [cbn in H; lia|]. destruct i as [|i]; cbn.
  - repeat split. intros [|k] Hk; [congruence|reflexivity].
  - cbn in H. destruct (IH i ltac:(lia)) as (H1 & H2 & H3). repeat split; [exact H1|congruence|]. intros [|k] Hk; [reflexivity|]. apply H3. congruence.
Qed.
(** the position designated by an index of Python *)
Definition designates (n : nat) (i : Z) (p : nat) : Prop := (p < n)%nat /\ (i = Z.of_nat p \/ i = Z.of_nat p - Z.of_nat n).
Lemma designates_iff {B} (l : list B) i : (exists p, designates (List.length l) i p) \/ py_get l i = Err IndexError.
Proof.
  unfold py_get, designates, zlen. destruct (i <? 0) eqn:E.
  - destruct ((0 <=? i + Z.of_nat (List.length l)) && (i + Z.of_nat (List.length l) <? Z.of_nat (List.length l))) eqn:E2; [left; exists (Z.to_nat (i + Z.of_nat (List.length l))); lia|auto].
  - destruct ((0 <=? i) && (i <? Z.of_nat (List.length l))) eqn:E2; [left; exists (Z.to_nat i); lia|auto].
Qed.
Lemma designates_get {B} (l : list B) i p : designates (List.length l) i p -> (if i <? 0 then i + zlen l else i) = Z.of_nat p /\ exists v, nth_error l p = Some v /\ py_get l i = Ok v.
Proof.
  intros (Hp & Hi). assert (E : (if i <? 0 then i + zlen l else i) = Z.of_nat p) by (unfold zlen; destruct (i <? 0) eqn:E; lia). split; [exact E|].
  destruct (nth_error l p) as [v|] eqn:Ev; [|apply nth_error_None in Ev; lia]. exists v. split; [reflexivity|]. unfold py_get. cbv zeta. rewrite E, Nat2Z.id. unfold zlen.
  replace ((0 <=? Z.of_nat p) && (Z.of_nat p <? Z.of_nat (List.length l))) with true by lia. rewrite Ev. reflexivity.
Qed.
Theorem C108_items : forall (a : farray A) i p, designates (List.length (a_list a)) i p ->
  (exists v, get_item i a = Ok v /\ nth_error (a_list a) p = Some v) /\
  (forall v, exists b, set_item i v a = Ok b /\ nth_error (a_list b) p = Some v /\ List.length (a_list b) = List.length (a_list a) /\
     (forall k, k <> p -> nth_error (a_list b) k = nth_error (a_list a) k)) /\
  (exists b, del_item i a = Ok b /\ S (List.length (a_list b)) = List.length (a_list a) /\
     (forall k, (k < p)%nat -> nth_error (a_list b) k = nth_error (a_list a) k) /\ (forall k, (p <= k)%nat -> nth_error (a_list b) k = nth_error (a_list a) (S k))).
Proof.
  intros a i p H. destruct (designates_get (a_list a) i p H) as (E & v0 & Ev & Eg). destruct H as [Hp _]. split; [exists v0; auto|]. split.
  - intros v. unfold set_item. rewrite Eg. cbn [bind]. cbv zeta. rewrite E, Nat2Z.id. destruct (update_nth_get (a_list a) p v Hp) as (H1 & H2 & H3). eexists. split; [reflexivity|]. cbn [a_list]. auto.
  - unfold del_item. rewrite Eg. cbn [bind]. cbv zeta. rewrite E, Nat2Z.id. eexists. split; [reflexivity|]. cbn [a_list].
    split; [rewrite app_length, firstn_length, skipn_length; lia|]. split; intros k Hk.
    + rewrite nth_error_app1 by (rewrite firstn_length; lia). apply nth_error_firstn_lt. lia.
    + rewrite nth_error_app2 by (rewrite firstn_length; lia). rewrite firstn_length, Nat.min_l by lia. rewrite nth_error_skipn. f_equal. lia.
Qed.
Theorem C108_no_item : forall (a : farray A) i v, (forall p, ~ designates (List.length (a_list a)) i p) ->
  get_item i a = Err IndexError /\ set_item i v a = Err IndexError /\ del_item i a = Err IndexError.
Proof.
  intros a i v H. destruct (designates_iff (a_list a) i) as [(p & Hp) | E]; [contradiction (H p Hp)|]. unfold get_item, set_item, del_item. rewrite E. auto.
Qed.
(** New fields come after the others; a part has the fields from the first bound to the second one, excluded. *)
Theorem C108_extend_and_parts : forall (a : farray A) v l,
  (forall k, (k < List.length (a_list a))%nat -> nth_error (a_list (append v a)) k = nth_error (a_list a) k /\ nth_error (a_list (extend l a)) k = nth_error (a_list a) k) /\
  nth_error (a_list (append v a)) (List.length (a_list a)) = Some v /\
  (forall k, nth_error (a_list (extend l a)) (List.length (a_list a) + k) = nth_error l k) /\
  (forall i j, 0 <= i <= j -> j <= zlen (a_list a) -> zlen (a_list (get_slice i j a)) = j - i /\
     forall k, 0 <= k < j - i -> nth_error (a_list (get_slice i j a)) (Z.to_nat k) = nth_error (a_list a) (Z.to_nat (i + k))).
Proof.
  intros a v l. cbn [append extend get_slice new_array a_list]. split; [intros k Hk; rewrite !nth_error_app1 by exact Hk; auto|].
  split; [rewrite nth_error_app2 by lia; rewrite Nat.sub_diag; reflexivity|].
  split; [intros k; rewrite nth_error_app2 by lia; f_equal; lia|].
  intros i j Hi Hj. split; [apply slice_len; assumption|]. intros k Hk. apply slice_nth; assumption.
Qed.
(** The fields of another array: one by one, until the last one. *)
Theorem C108_extend_array : forall (a b : farray A) fuel,
  extend_array fuel (Some b) a = if (fuel <=? List.length (a_list b))%nat then None else Some (extend (a_list b) a).
Proof.
  intros a b fuel. unfold extend_array.
  assert (H : forall fuel i (a : farray A), (i <= List.length (a_list b))%nat ->
    extend_items fuel i (Some b) a = if (fuel <=? List.length (a_list b) - i)%nat then None else Some (extend (skipn i (a_list b)) a)).
  { clear. induction fuel as [|fuel IH]; intros i a Hi; cbn [extend_items]; [reflexivity|].
    destruct (nth_error (a_list b) i) as [v|] eqn:E.
    - assert (Hl : (i < List.length (a_list b))%nat) by (apply nth_error_Some; congruence).
      rewrite IH by lia. replace (S fuel <=? List.length (a_list b) - i)%nat with (fuel <=? List.length (a_list b) - S i)%nat
        by (destruct (Nat.leb_spec fuel (List.length (a_list b) - S i)), (Nat.leb_spec (S fuel) (List.length (a_list b) - i)); lia).
      destruct (fuel <=? _)%nat; [reflexivity|]. f_equal. unfold extend, append. cbn [a_list a_times].
      rewrite <- app_assoc. do 2 f_equal. clear - E.
      revert i E. induction (a_list b) as [|w l IHl]; intros [|i] E; cbn in *; try discriminate; [injection E as ->; reflexivity|apply IHl, E].
    - apply nth_error_None in E. replace (List.length (a_list b) - i)%nat with 0%nat by lia. cbn [Nat.leb].
      rewrite skipn_all2 by exact E. unfold extend. rewrite app_nil_r. destruct a; reflexivity. }
  rewrite H by lia. rewrite Nat.sub_0_r. reflexivity.
Qed.
(** The fields of the array itself: the call never returns, unless the array is empty. *)
Theorem C108_extend_self_iff : forall a : farray A,
  (exists fuel b, extend_array fuel None a = Some b) <-> a_list a = [].
Proof.
  intros a. split.
  - intros (fuel & b & H). destruct (a_list a) as [|v l] eqn:E; [reflexivity|]. exfalso. unfold extend_array in H.
    assert (Hl : (0 < List.length (a_list a))%nat) by (rewrite E; cbn; lia). clear E.
    revert Hl H. generalize 0%nat as i. revert a. induction fuel as [|fuel IH]; intros a i Hl H; cbn [extend_items] in H; [discriminate|].
    destruct (nth_error (a_list a) i) as [w|] eqn:Ew; [|apply nth_error_None in Ew; lia].
    apply (IH (append w a) (S i)); [|exact H]. cbn [append a_list]. rewrite app_length. cbn. lia.
  - intros E. exists 1%nat, a. unfold extend_array. cbn [extend_items]. rewrite E. reflexivity.
Qed.
Theorem C108_extend_self_refuted : forall a : farray A, a_list a <> [] ->
  forall fuel, extend_array fuel None a <> Some (extend (a_list a) a) /\ extend_array fuel None a = None.
Proof.
  intros a H fuel. assert (E : extend_array fuel None a = None).
  { destruct (extend_array fuel None a) as [b|] eqn:E; [|reflexivity]. exfalso. apply H, C108_extend_self_iff. eauto. }
  split; [rewrite E; discriminate|exact E].
Qed.
(** An operation on an array is the operation on each field, in the order. *)
Theorem C108_operations : forall (a b : farray A) h, map_fields h a = Ok b ->
  List.length (a_list b) = List.length (a_list a) /\ forall k f, nth_error (a_list a) k = Some f -> exists g, nth_error (a_list b) k = Some g /\ h f = Ok g.
Proof.
  intros a b h H. unfold map_fields in H. destruct (map_result h (a_list a)) as [l|] eqn:E; cbn in H; [|discriminate]. injection H as <-. cbn [new_array a_list].
  revert l E. induction (a_list a) as [|f fs IH]; intros l E; cbn in E.
  - injection E as <-. split; [reflexivity|]. intros [|k] f; discriminate.
  - destruct (h f) as [g|] eqn:Eg; cbn in E; [|discriminate]. destruct (map_result h fs) as [gs|] eqn:Es; cbn in E; [|discriminate]. injection E as <-.
    destruct (IH gs eq_refl) as (L & N). split; [cbn; congruence|]. intros [|k] f' Hf; cbn in *; [injection Hf as <-; eauto|eauto].
Qed.

(** The display of an array with its default arguments always raises. *)
Theorem C108_display_refuted : forall (a : farray A) ind p, designates (List.length (a_list a)) ind p ->
  array_display a ind false default_skip = Err TypeError.
Proof. intros a ind p H. destruct (designates_get (a_list a) ind p H) as (_ & v & _ & E). unfold array_display. rewrite E. reflexivity. Qed.
(** [skip] is the step of the display of the field: None or an integer. *)
Theorem C108_display_step : forall (a : farray A) ind p f, designates (List.length (a_list a)) ind p -> nth_error (a_list a) p = Some f ->
  (forall k, array_display a ind false (AInt k) = display f false (AInt k) ANone) /\ array_display a ind false ANone = display f false ANone ANone.
Proof.
  intros a ind p f H Hf. destruct (designates_get (a_list a) ind p H) as (_ & v & Hv & E). rewrite Hf in Hv. injection Hv as <-. unfold array_display. rewrite E. split; reflexivity.
Qed.
End Arrays.
Print Assumptions C108_times.
Print Assumptions C108_no_times.
Print Assumptions C108_times_iff.
Print Assumptions C108_append_refuted.
Print Assumptions C108_lost_refuted.
Print Assumptions C108_items.
Print Assumptions C108_no_item.
Print Assumptions C108_extend_and_parts.
Print Assumptions C108_extend_array.
Print Assumptions C108_extend_self_iff.
Print Assumptions C108_extend_self_refuted.
Print Assumptions C108_operations.
Print Assumptions C108_display_refuted.
Print Assumptions C108_display_step.
Example C108_ex : a_times (run (new_array [ex4; ex4]) [KAppend ex4; KStep 5; KDel (-1)]) = Some [0; 5; 10] /\
  List.length (a_list (run (new_array [ex4; ex4]) [KAppend ex4; KStep 5; KDel (-1)])) = 2%nat.
Proof. split; reflexivity. Qed.
Example C108_extend_ex : exists b, extend_array 3 (Some (new_array [ex4; ex4])) (new_array [ex4]) = Some b /\ List.length (a_list b) = 3%nat.
Proof. eexists. split; reflexivity. Qed.

(** C64 (time average), C65 (functions of the spatio-temporal data), C66 (curl and
    divergence). *)
From Coq Require Import Sorting.Sorted Lqa.
From Verif Require Import PyBase StrModel GridProps VecFieldModel VecFieldProps FieldOpsModel.
Open Scope Z_scope.

Definition map2o (op : Q -> Q -> Q) (a b : option Q) : option Q :=
  match a, b with Some x, Some y => Some (op x y) | _, _ => None end.

Lemma zip1_spec op : forall a b, List.length a = List.length b -> exists r, zip1 op a b = Ok r /\ List.length r = List.length a /\
  forall i, nth_error r i = map2o op (nth_error a i) (nth_error b i).
Proof.
  induction a as [|x a IH]; intros [|y b] H; try discriminate.
  - exists []. split; [reflexivity|]. split; [reflexivity|]. intros [|i]; reflexivity.
  - destruct (IH b) as (r & E & L & N); [cbn in H; lia|]. exists (op x y :: r). cbn [zip1]. rewrite E. cbn [bind].
    split; [reflexivity|]. split; [cbn; lia|]. intros [|i]; [reflexivity|]. apply N.
Qed.

Lemma zip2_spec op n1 : forall n0 a b, shape a n0 n1 -> shape b n0 n1 -> exists r, zip2 op a b = Ok r /\ shape r n0 n1 /\
  forall i j, get2 r i j = map2o op (get2 a i j) (get2 b i j).
Proof.
  unfold shape. induction n0 as [|n0 IH]; intros a b [La Fa] [Lb Fb].
  - destruct a; [|discriminate]. destruct b; [|discriminate]. exists []. split; [reflexivity|]. split; [split; [reflexivity|constructor]|].
    intros i j. destruct i; reflexivity.
  - destruct a as [|x a]; [discriminate|]. destruct b as [|y b]; [discriminate|]. inversion Fa; subst. inversion Fb; subst.
    destruct (zip1_spec op x y) as (r1 & E1 & L1 & N1); [congruence|].
    destruct (IH a b) as (r & E & [L F] & N); [split; [cbn in La; lia|assumption]|split; [cbn in Lb; lia|assumption]|].
    exists (r1 :: r). cbn [zip2]. rewrite E1. cbn [bind]. rewrite E. cbn [bind]. split; [reflexivity|].
    split; [split; [cbn; lia|constructor; assumption]|]. intros [|i] j; [unfold get2; cbn [nth_error]; apply N1|]. apply N.
Qed.

Lemma increasing_no_flip (l : list Z) : increasing l -> (2 <= List.length l)%nat ->
  exists a b, py_get l 0 = Ok a /\ py_get l 1 = Ok b /\ (b - a <? 0) = false.
Proof.
  intros HI HL. destruct l as [|a [|b m]]; cbn in HL; try lia. destruct (get01 _ a b m eq_refl) as [-> ->]. exists a, b.
  split; [reflexivity|]. split; [reflexivity|]. inversion HI as [|? ? _ Hf]; subst. inversion Hf; subst. lia.
Qed.

Lemma make_field_same {V} xs ys (U W : array2 V) : increasing xs -> increasing ys -> (2 <= List.length xs)%nat -> (2 <= List.length ys)%nat ->
  make_field xs ys U W = Ok {| fx := xs; fy := ys; vx := U; vy := W |}.
Proof.
  intros HX HY LX LY. destruct (increasing_no_flip xs HX LX) as (x0 & x1 & E0 & E1 & EF).
  destruct (increasing_no_flip ys HY LY) as (y0 & y1 & G0 & G1 & GF). unfold make_field. rewrite E0, E1, G0, G1. cbn [bind]. rewrite EF, GF. reflexivity.
Qed.

(** ** C64 *)

(** a field with increasing coordinates, at least two in each direction *)
Definition proper (f : field Q) : Prop :=
  well_shaped f /\ increasing (fx f) /\ increasing (fy f) /\ (2 <= List.length (fx f))%nat /\ (2 <= List.length (fy f))%nat.

Definition same_shape (f g : field Q) : Prop := List.length (fx f) = List.length (fx g) /\ List.length (fy f) = List.length (fy g).

Definition Qsum (l : list Q) : Q := fold_right Qplus 0%Q l.

(** the values of a component of the fields at the indices [i], [j] *)
Definition values (comp : field Q -> array2 Q) (fields : list (field Q)) (i j : nat) (us : list Q) : Prop :=
  Forall2 (fun f u => get2 (comp f) i j = Some u) fields us.

Lemma add_spec f g : proper f -> well_shaped g -> same_shape f g ->
  exists r, field_add f g = Ok r /\ proper r /\ fx r = fx f /\ fy r = fy f /\
    (forall i j, get2 (vx r) i j = map2o Qplus (get2 (vx f) i j) (get2 (vx g) i j)) /\
    (forall i j, get2 (vy r) i j = map2o Qplus (get2 (vy f) i j) (get2 (vy g) i j)).
Proof.
  intros ([SU SW] & IX & IY & LX & LY) [SU' SW'] [E1 E2]. rewrite <- E1, <- E2 in SU', SW'.
  destruct (zip2_spec Qplus _ _ _ _ SU SU') as (U & EU & HU & GU). destruct (zip2_spec Qplus _ _ _ _ SW SW') as (W & EW & HW & GW).
  unfold field_add. rewrite EU. cbn [bind]. rewrite EW. cbn [bind]. rewrite make_field_same by assumption.
  eexists. split; [reflexivity|]. unfold proper, well_shaped. cbn [fx fy vx vy]. auto 12.
Qed.

Lemma shape_map {V} (h : V -> V) (a : array2 V) n0 n1 : shape a n0 n1 -> shape (map (map h) a) n0 n1.
Proof.
  intros [H1 H2]. split; [rewrite map_length; exact H1|]. rewrite Forall_map. eapply Forall_impl; [|exact H2]. cbn. intros. rewrite map_length. assumption.
Qed.
Lemma get2_map {V} (h : V -> V) (a : array2 V) i j : get2 (map (map h) a) i j = option_map h (get2 a i j).
Proof. unfold get2. rewrite nth_error_map. destruct (nth_error a i); [|reflexivity]. cbn. apply nth_error_map. Qed.

Lemma sum_spec rest : forall f0, proper f0 -> Forall (fun g => well_shaped g /\ same_shape f0 g) rest ->
  exists r, py_for field_add rest f0 = Ok r /\ proper r /\ fx r = fx f0 /\ fy r = fy f0 /\
    (forall i j us, values vx (f0 :: rest) i j us -> exists q, get2 (vx r) i j = Some q /\ (q == Qsum us)%Q) /\
    (forall i j us, values vy (f0 :: rest) i j us -> exists q, get2 (vy r) i j = Some q /\ (q == Qsum us)%Q).
Proof.
  induction rest as [|g rest IH]; intros f0 HP HF.
  - exists f0. split; [reflexivity|]. split; [exact HP|]. split; [reflexivity|]. split; [reflexivity|].
    split; intros i j us H; inversion H as [|? u ? us' Hu H']; subst; inversion H'; subst; exists u; split; try exact Hu; cbn; ring.
  - inversion HF as [|? ? [HW HS] HF']; subst. destruct (add_spec f0 g HP HW HS) as (s & ES & PS & XS & YS & GX & GY).
    destruct (IH s PS) as (r & ER & PR & XR & YR & RX & RY).
    { eapply Forall_impl; [|exact HF']. cbn. intros h [? [? ?]]. split; [assumption|]. split; congruence. }
    exists r. cbn [py_for]. rewrite ES. split; [exact ER|]. split; [exact PR|]. split; [congruence|]. split; [congruence|].
    split; intros i j us H; inversion H as [|? u0 ? us1 Hu0 H1]; subst; inversion H1 as [|? u1 ? us2 Hu1 H2]; subst.
    + destruct (RX i j ((u0 + u1)%Q :: us2)) as (q & Hq & Eq).
      { constructor; [rewrite GX, Hu0, Hu1; reflexivity|exact H2]. }
      exists q. split; [exact Hq|]. rewrite Eq. cbn. ring.
    + destruct (RY i j ((u0 + u1)%Q :: us2)) as (q & Hq & Eq).
      { constructor; [rewrite GY, Hu0, Hu1; reflexivity|exact H2]. }
      exists q. split; [exact Hq|]. rewrite Eq. cbn. ring.
Qed.

(** The time average is a field on the grid of the first field, whose vector at each point
    of the grid is the mean of the vectors of the fields there; at least one field, all of
    the same shape. *)
Theorem C64_average f0 rest : proper f0 -> Forall (fun g => well_shaped g /\ same_shape f0 g) rest ->
  exists r, compute_time_average (f0 :: rest) = Ok r /\ fx r = fx f0 /\ fy r = fy f0 /\ well_shaped r /\
    let n := inject_Z (zlen (f0 :: rest)) in
    (forall i j us, values vx (f0 :: rest) i j us -> exists q, get2 (vx r) i j = Some q /\ (q * n == Qsum us)%Q) /\
    (forall i j us, values vy (f0 :: rest) i j us -> exists q, get2 (vy r) i j = Some q /\ (q * n == Qsum us)%Q).
Proof.
  intros HP HF. destruct (sum_spec rest f0 HP HF) as (s & ES & ([SU SW] & IX & IY & LX & LY) & XS & YS & GX & GY).
  unfold compute_time_average. rewrite ES. cbn [bind]. unfold field_div. rewrite make_field_same by assumption.
  eexists. split; [reflexivity|]. cbn [fx fy vx vy]. split; [exact XS|]. split; [exact YS|].
  split; [unfold well_shaped; cbn [fx fy vx vy]; split; apply shape_map; assumption|]. cbv zeta.
  assert (HN : (~ inject_Z (zlen (f0 :: rest)) == 0)%Q).
  { unfold Qeq, inject_Z, zlen. cbn [Qnum Qden List.length]. lia. }
  split; intros i j us H.
  - destruct (GX i j us H) as (q & Hq & Eq). exists (q / inject_Z (zlen (f0 :: rest)))%Q. rewrite get2_map, Hq. split; [reflexivity|]. rewrite <- Eq. field. exact HN.
  - destruct (GY i j us H) as (q & Hq & Eq). exists (q / inject_Z (zlen (f0 :: rest)))%Q. rewrite get2_map, Hq. split; [reflexivity|]. rewrite <- Eq. field. exact HN.
Qed.
Print Assumptions C64_average.

(** The coordinates of the other fields are not looked at: moving them does not change the
    average, so that vectors of different positions may be averaged without any error. *)
Theorem C64_other_grids_refuted f0 (rest rest' : list (field Q)) :
  Forall2 (fun g g' => vx g = vx g' /\ vy g = vy g') rest rest' ->
  compute_time_average (f0 :: rest) = compute_time_average (f0 :: rest').
Proof.
  intros H. unfold compute_time_average.
  assert (E : py_for field_add rest f0 = py_for field_add rest' f0).
  { revert f0. induction H as [|g g' l l' [E1 E2] _ IH]; intros f0; [reflexivity|]. cbn [py_for].
    unfold field_add at 1 3. rewrite E1, E2. destruct (zip2 Qplus (vx f0) (vx g')); [|reflexivity]. cbn [bind].
    destruct (zip2 Qplus (vy f0) (vy g')); [|reflexivity]. cbn [bind]. destruct (make_field (fx f0) (fy f0) a a0); [|reflexivity]. apply IH. }
  rewrite E. unfold zlen. cbn [List.length]. replace (List.length rest') with (List.length rest); [reflexivity|]. clear - H. induction H; cbn; congruence.
Qed.
Print Assumptions C64_other_grids_refuted.

Lemma py_get_cases {A} (l : list A) i : (exists a, py_get l i = Ok a) \/ py_get l i = Err IndexError.
Proof. unfold py_get. destruct (_ && _); [|right; reflexivity]. destruct (nth_error _ _); [left; eauto|right; reflexivity]. Qed.

(** A field of one line (for example extracted from another one) cannot be averaged, nor an
    empty array of fields. *)
Theorem C64_one_line_refuted (f : field Q) y : well_shaped f -> fy f = [y] -> compute_time_average [f] = Err IndexError.
Proof.
  intros _ Hy. unfold compute_time_average. cbn [py_for bind]. unfold field_div, make_field. rewrite Hy.
  destruct (py_get_cases (fx f) 1) as [[x1 ->]| ->]; cbn [bind]; [|reflexivity].
  destruct (py_get_cases (fx f) 0) as [[x0 ->]| ->]; cbn [bind]; reflexivity.
Qed.
Print Assumptions C64_one_line_refuted.
Theorem C64_empty : compute_time_average [] = Err IndexError.
Proof. reflexivity. Qed.

Definition q_field (k : Q) : field Q := {| fx := [0;2]; fy := [1;5]; vx := [[k;1]; [2;k*k]]%Q; vy := [[0;0];[k;-k]]%Q |}.
Example C64_example : (exists r, compute_time_average [q_field 1; q_field 2; q_field 4] = Ok r /\
    match get2 (vx r) 1 1 with Some q => (q == 7)%Q | None => False end) /\ proper (q_field 1) /\
  Forall (fun g => well_shaped g /\ same_shape (q_field 1) g) [q_field 2; q_field 4].
Proof.
  split; [eexists; split; [vm_compute; reflexivity|]; vm_compute; reflexivity|]. split.
  - unfold proper, well_shaped, shape, increasing. cbn. repeat split; repeat constructor.
  - repeat constructor.
Qed.

(** ** C65 *)

Definition map_all {A} (func : list A -> list A) : np_function (A := A) := fun a => (a, Fresh (func a)).

Lemma read_all {A} (l : list A) n : zlen l = n -> map_result (fun it => py_get l it) (range0 n) = Ok l.
Proof.
  intros <-. unfold zlen.
  assert (H : forall k m, (m + k = List.length l)%nat -> map_result (fun it => py_get l it) (map Z.of_nat (seq m k)) = Ok (skipn m l)).
  { induction k as [|k IH]; intros m Hm; cbn [seq map map_result].
    - rewrite skipn_all2 by lia. reflexivity.
    - destruct (nth_error l m) as [v|] eqn:E; [|apply nth_error_None in E; lia].
      pose proof (py_get_map (fun x => x) l m v E) as G. rewrite map_id in G. rewrite G. cbn [bind]. rewrite IH by lia. cbn [bind].
      f_equal. clear - E. revert l E. induction m as [|m IHm]; intros [|a l] E; try discriminate; cbn in *; [injection E as ->; reflexivity|apply IHm; exact E]. }
  unfold range0. rewrite Nat2Z.id, H by lia. reflexivity.
Qed.

(** With a function which returns a new array (of the same number of times), the function is
    applied to the vx and to the vy. *)
Theorem C65_fresh_partial {A} (func : np_function (A := A)) vxs vys lx ly mx my : zlen vys = zlen vxs ->
  func vxs = (mx, Fresh lx) -> func vys = (my, Fresh ly) -> zlen lx = zlen vxs -> zlen ly = zlen vxs ->
  apply_function_to_spatiotemp_data func vxs vys = Ok (lx, ly).
Proof.
  intros _ Ex Ey Lx Ly. unfold apply_function_to_spatiotemp_data. rewrite Ex, Ey. cbn [content].
  rewrite (read_all lx _ Lx), (read_all ly _ Ly). reflexivity.
Qed.
Print Assumptions C65_fresh_partial.

(** With a function which returns a view on its argument, the vx of the result are those of
    the y component. *)
Theorem C65_view_refuted {A} (phi : list A -> list A) (modify : list A -> list A) vxs vys :
  zlen vys = zlen vxs -> (forall l, zlen (modify l) = zlen l) -> (forall l, zlen (phi l) = zlen l) ->
  apply_function_to_spatiotemp_data (fun a => (modify a, View phi)) vxs vys = Ok (phi (modify vys), phi (modify vys)).
Proof.
  intros L HM HP. unfold apply_function_to_spatiotemp_data. cbn [content].
  rewrite (read_all (phi (modify vys))) by (rewrite HP, HM; exact L). reflexivity.
Qed.
Print Assumptions C65_view_refuted.

(** the times reversed: [a[::-1].copy()] and [a[::-1]] *)
Example C65_example :
  apply_function_to_spatiotemp_data (fun a => (a, Fresh (rev a))) [1;2;3] [10;20;30] = Ok ([3;2;1], [30;20;10]) /\
  apply_function_to_spatiotemp_data (fun a => (a, View (@rev Z))) [1;2;3] [10;20;30] = Ok ([30;20;10], [30;20;10]).
Proof. split; reflexivity. Qed.

(** ** C66 *)

(** [n] regularly spaced coordinates *)
Definition arith (x0 dx : Z) (n : nat) : list Z := map (fun k => x0 + dx * Z.of_nat k) (seq 0 n).

Lemma arith_nth x0 dx n k : (k < n)%nat -> nth_error (arith x0 dx n) k = Some (x0 + dx * Z.of_nat k).
Proof.
  intros H. unfold arith. rewrite nth_error_map. rewrite (nth_error_nth' _ 0%nat) by (rewrite seq_length; exact H).
  rewrite seq_nth by exact H. reflexivity.
Qed.
Lemma arith_length x0 dx n : List.length (arith x0 dx n) = n.
Proof. unfold arith. rewrite map_length. apply seq_length. Qed.

Lemma arith_regular x0 dx n : (2 <= n)%nat -> is_regular (arith x0 dx n) = Ok true /\
  py_get (arith x0 dx n) 0 = Ok x0 /\ py_get (arith x0 dx n) 1 = Ok (x0 + dx).
Proof.
  intros H.
  assert (HD : forall m s, Forall (fun d => d = dx) (diffs (map (fun k => x0 + dx * Z.of_nat k) (seq s m)))).
  { induction m as [|m IH]; intros s; [constructor|]. cbn [seq map diffs]. specialize (IH (S s)). destruct m as [|m]; [constructor|].
    cbn [seq map] in *. constructor; [nia|exact IH]. }
  destruct n as [|[|n]]; [lia|lia|].
  assert (E : arith x0 dx (S (S n)) = x0 :: (x0 + dx) :: map (fun k => x0 + dx * Z.of_nat k) (seq 2 n)).
  { unfold arith. cbn [seq map]. change (Z.of_nat 0) with 0. change (Z.of_nat 1) with 1. f_equal; [lia|]. f_equal. lia. }
  destruct (get01 _ _ _ _ E) as [E0 E1]. split; [|auto]. unfold is_regular. rewrite E0, E1. cbn [bind]. f_equal.
  apply forallb_forall. intros d Hd. specialize (HD (S (S n)) 0%nat). rewrite Forall_forall in HD. rewrite (HD d Hd). apply Z.eqb_eq. lia.
Qed.

(** a polynomial of degree two *)
Definition poly (a0 a1 a2 t : Q) : Q := (a0 + a1 * t + a2 * t * t)%Q.

Lemma interior_nth h : forall l i a c, nth_error l i = Some a -> nth_error l (S (S i)) = Some c -> nth_error (interior h l) i = Some ((c - a) / (2 * h))%Q.
Proof.
  induction l as [|a0 l IH]; intros i a c Ha Hc; [destruct i; discriminate|]. cbn [interior].
  destruct l as [|b l']; [destruct i; discriminate|]. destruct l' as [|c' l'']; [destruct i; cbn in Hc; [discriminate|destruct i; discriminate]|].
  destruct i as [|i]; cbn [nth_error] in *.
  - injection Ha as ->. injection Hc as ->. reflexivity.
  - apply IH; assumption.
Qed.
Lemma interior_length h : forall l, List.length (interior h l) = (List.length l - 2)%nat.
Proof.
  induction l as [|a l IH]; [reflexivity|]. cbn [interior]. destruct l as [|b [|c l]]; [reflexivity|reflexivity|]. cbn [List.length] in *. lia.
Qed.

(** The numerical derivative of a polynomial of degree two is exact, at the ends too. *)
Lemma gradient_exact h l t0 a0 a1 a2 : ~ (h == 0)%Q -> (3 <= List.length l)%nat ->
  (forall i v, nth_error l i = Some v -> v == poly a0 a1 a2 (t0 + h * inject_Z (Z.of_nat i)))%Q ->
  exists g, np_gradient 2 h l = Ok g /\ List.length g = List.length l /\
    forall i v, nth_error g i = Some v -> (v == a1 + 2 * a2 * (t0 + h * inject_Z (Z.of_nat i)))%Q.
Proof.
  intros Hh HL HV. unfold np_gradient. cbn [negb orb Z.eqb Pos.eqb].
  assert (Hex : forall i, (i < List.length l)%nat -> exists v, nth_error l i = Some v /\ (v == poly a0 a1 a2 (t0 + h * inject_Z (Z.of_nat i)))%Q).
  { intros i Hi. destruct (nth_error l i) as [v|] eqn:E; [exists v; split; [reflexivity|apply HV; exact E]|apply nth_error_None in E; lia]. }
  destruct (rev l) as [|z [|y [|x m']]] eqn:ER; try (apply (f_equal (@List.length Q)) in ER; rewrite rev_length in ER; cbn in ER; lia).
  destruct l as [|a [|b [|c m]]] eqn:El; cbn in HL; try lia. rewrite <- El in *.
  set (n := List.length l) in *. assert (Hn : (3 <= n)%nat) by (unfold n; rewrite El; cbn; lia).
  rewrite ER. eexists. split; [reflexivity|].
  assert (LI : List.length (interior h l) = (n - 2)%nat) by apply interior_length.
  split; [cbn [List.length]; rewrite app_length, LI; cbn; lia|].
  assert (Hz : nth_error l (n - 1) = Some z) by (pose proof (nth_error_rev l 0 ltac:(lia)) as E; rewrite ER in E; cbn [nth_error] in E; fold n in E; rewrite E; f_equal; lia).
  assert (Hy : nth_error l (n - 2) = Some y) by (pose proof (nth_error_rev l 1 ltac:(lia)) as E; rewrite ER in E; cbn [nth_error] in E; fold n in E; rewrite E; f_equal; lia).
  assert (Hx : nth_error l (n - 3) = Some x) by (pose proof (nth_error_rev l 2 ltac:(lia)) as E; rewrite ER in E; cbn [nth_error] in E; fold n in E; rewrite E; f_equal; lia).
  pose proof (HV _ _ Hz) as Vz. pose proof (HV _ _ Hy) as Vy. pose proof (HV _ _ Hx) as Vx.
  pose proof (HV 0%nat a ltac:(rewrite El; reflexivity)) as Va. pose proof (HV 1%nat b ltac:(rewrite El; reflexivity)) as Vb. pose proof (HV 2%nat c ltac:(rewrite El; reflexivity)) as Vc.
  intros i v Hi. destruct i as [|i]; cbn [nth_error] in Hi.
  - injection Hi as <-. unfold gradient_edge. cbn [Z.eqb Pos.eqb]. rewrite Va, Vb, Vc. unfold poly. cbn [Z.of_nat Pos.of_succ_nat Pos.succ]. field. exact Hh.
  - destruct (Nat.lt_ge_cases i (n - 2)) as [H|H].
    + rewrite nth_error_app1 in Hi by lia.
      destruct (Hex i ltac:(lia)) as (p & Hp & Ep). destruct (Hex (S (S i)) ltac:(lia)) as (q & Hq & Eq).
      rewrite (interior_nth h l i p q Hp Hq) in Hi. injection Hi as <-. rewrite Ep, Eq. unfold poly.
      rewrite !Nat2Z.inj_succ, <- !Z.add_1_r, !inject_Z_plus. change (inject_Z 1) with 1%Q. field. exact Hh.
    + rewrite nth_error_app2 in Hi by lia. rewrite LI in Hi. destruct (i - (n - 2))%nat as [|k] eqn:Ei; [|cbn in Hi; destruct k; discriminate].
      cbn in Hi. injection Hi as <-. unfold gradient_edge. cbn [Z.eqb Pos.eqb]. rewrite Vx, Vy, Vz. unfold poly.
      assert (E1 : i = (n - 3 + 1)%nat) by lia. 
      replace (n - 1)%nat with (n - 3 + 2)%nat by lia. replace (n - 2)%nat with (n - 3 + 1)%nat by lia. replace (S i) with (n - 3 + 2)%nat by lia.
      rewrite !Nat2Z.inj_add, !inject_Z_plus. change (inject_Z (Z.of_nat 2)) with 2%Q. change (inject_Z (Z.of_nat 1)) with 1%Q. field. exact Hh.
Qed.

Lemma map_result_nth {A B} (f : A -> result B) (P : nat -> B -> Prop) : forall l (k0 : nat),
  (forall k a, nth_error l k = Some a -> exists b, f a = Ok b /\ P (k0 + k)%nat b) ->
  exists r, map_result f l = Ok r /\ List.length r = List.length l /\ forall k b, nth_error r k = Some b -> P (k0 + k)%nat b.
Proof.
  induction l as [|a l IH]; intros k0 H.
  - exists []. split; [reflexivity|]. split; [reflexivity|]. intros [|k] b Hb; discriminate.
  - destruct (H 0%nat a eq_refl) as (b & Eb & Pb). destruct (IH (S k0)) as (r & Er & Lr & Pr).
    { intros k a' Ha'. destruct (H (S k) a' Ha') as (b' & Eb' & Pb'). exists b'. split; [exact Eb'|]. replace (S k0 + k)%nat with (k0 + S k)%nat by lia. exact Pb'. }
    exists (b :: r). cbn [map_result]. rewrite Eb. cbn [bind]. rewrite Er. cbn [bind]. split; [reflexivity|]. split; [cbn; lia|].
    intros [|k] b' Hb'; [injection Hb' as <-; exact Pb|]. replace (k0 + S k)%nat with (S k0 + k)%nat by lia. apply Pr. exact Hb'.
Qed.

Lemma gradient1_exact a n0 n1 h t0 (c0 c1 c2 : nat -> Q) : shape a n0 n1 -> (3 <= n1)%nat -> ~ (h == 0)%Q ->
  (forall i j v, get2 a i j = Some v -> v == poly (c0 i) (c1 i) (c2 i) (t0 + h * inject_Z (Z.of_nat j)))%Q ->
  exists r, gradient_axis1 2 h a = Ok r /\ shape r n0 n1 /\
    forall i j v, get2 r i j = Some v -> (v == c1 i + 2 * c2 i * (t0 + h * inject_Z (Z.of_nat j)))%Q.
Proof.
  intros [L F] Hn Hh HV. unfold gradient_axis1.
  destruct (map_result_nth (np_gradient 2 h) (fun i g => List.length g = n1 /\ forall j v, nth_error g j = Some v -> (v == c1 i + 2 * c2 i * (t0 + h * inject_Z (Z.of_nat j)))%Q) a 0%nat) as (r & Er & Lr & Pr).
  { intros i row Hr. rewrite Forall_forall in F. pose proof (F row (nth_error_In _ _ Hr)) as LR.
    destruct (gradient_exact h row t0 (c0 i) (c1 i) (c2 i) Hh) as (g & Eg & Lg & Pg); [lia| |].
    - intros j v Hv. apply HV. unfold get2. rewrite Hr. exact Hv.
    - exists g. split; [exact Eg|]. cbn [Nat.add]. split; [lia|exact Pg]. }
  exists r. split; [exact Er|]. split.
  - split; [lia|]. apply Forall_forall. intros row Hr. apply In_nth_error in Hr. destruct Hr as [k Hk]. apply (Pr k row Hk).
  - intros i j v Hv. unfold get2 in Hv. destruct (nth_error r i) as [row|] eqn:E; [|discriminate]. apply (Pr i row E). exact Hv.
Qed.

Lemma gradient0_exact a n0 n1 h t0 (c0 c1 c2 : nat -> Q) : shape a n0 n1 -> (3 <= n0)%nat -> ~ (h == 0)%Q ->
  (forall i j v, get2 a i j = Some v -> v == poly (c0 j) (c1 j) (c2 j) (t0 + h * inject_Z (Z.of_nat i)))%Q ->
  exists r, gradient_axis0 2 h n0 n1 a = Ok r /\ shape r n0 n1 /\
    forall i j v, get2 r i j = Some v -> (v == c1 j + 2 * c2 j * (t0 + h * inject_Z (Z.of_nat i)))%Q.
Proof.
  intros [L F] Hn Hh HV. unfold gradient_axis0.
  destruct (transpose_shape n1 a F) as [TL TF]. rewrite L in TF.
  destruct (gradient1_exact (transpose n1 a) n1 n0 h t0 c0 c1 c2 (conj TL TF) Hn Hh) as (t & Et & [Lt Ft] & Pt).
  { intros j i v Hv. apply HV. rewrite <- (get2_transpose n1 a i j F); [exact Hv|].
    unfold get2 in Hv. destruct (nth_error (transpose n1 a) j) eqn:E; [|discriminate]. apply nth_error_lt in E. lia. }
  unfold gradient_axis1 in Et. rewrite Et. cbn [bind]. exists (transpose n0 t). split; [reflexivity|].
  destruct (transpose_shape n0 t Ft) as [UL UF]. rewrite Lt in UF. split; [split; assumption|].
  intros i j v Hv. apply Pt. rewrite <- (get2_transpose n0 t j i Ft); [exact Hv|].
  unfold get2 in Hv. destruct (nth_error (transpose n0 t) i) eqn:E; [|discriminate]. apply nth_error_lt in E. lia.
Qed.

(** a polynomial of degree two of the position, and its derivatives *)
Record quad := { q0 : Q; qx : Q; qy : Q; qxx : Q; qxy : Q; qyy : Q }.
Definition quad_at (p : quad) (x y : Q) : Q := (q0 p + qx p * x + qy p * y + qxx p * x * x + qxy p * x * y + qyy p * y * y)%Q.
Definition quad_dx (p : quad) (x y : Q) : Q := (qx p + 2 * qxx p * x + qxy p * y)%Q.
Definition quad_dy (p : quad) (x y : Q) : Q := (qy p + qxy p * x + 2 * qyy p * y)%Q.

(** the component [a] of the field is the polynomial [p] *)
Definition is_quad (f : field Q) (a : array2 Q) (p : quad) : Prop :=
  forall i j x y v, nth_error (fy f) i = Some y -> nth_error (fx f) j = Some x -> get2 a i j = Some v ->
    (v == quad_at p (inject_Z x) (inject_Z y))%Q.

Lemma get2_bounds {V} (a : array2 V) n0 n1 i j v : shape a n0 n1 -> get2 a i j = Some v -> (i < n0 /\ j < n1)%nat.
Proof.
  intros [L F] H. unfold get2 in H. destruct (nth_error a i) as [row|] eqn:E; [|discriminate]. rewrite Forall_forall in F.
  pose proof (F row (nth_error_In _ _ E)). apply nth_error_lt in E. apply nth_error_lt in H. lia.
Qed.

Lemma steps_spec f x0 dx nx y0 dy ny : fx f = arith x0 dx nx -> fy f = arith y0 dy ny -> (2 <= nx)%nat -> (2 <= ny)%nat ->
  grid_steps f = Ok (Some (inject_Z dx, inject_Z dy)).
Proof.
  intros EX EY HX HY. unfold grid_steps. rewrite EX, EY. destruct (arith_regular x0 dx nx HX) as (-> & -> & ->). cbn [bind].
  destruct (arith_regular y0 dy ny HY) as (-> & -> & ->). cbn [bind]. do 4 f_equal; f_equal; lia.
Qed.

Lemma nonzero_Q z : z <> 0 -> ~ (inject_Z z == 0)%Q.
Proof. intros H E. apply H. unfold Qeq, inject_Z in E. cbn in E. lia. Qed.

Section Exact.
Variables (f : field Q) (x0 dx y0 dy : Z) (nx ny : nat) (p q : quad).
Hypotheses (WF : well_shaped f) (EX : fx f = arith x0 dx nx) (EY : fy f = arith y0 dy ny) (HX : (3 <= nx)%nat) (HY : (3 <= ny)%nat)
  (Hdx : dx <> 0) (Hdy : dy <> 0).

Lemma quad_rows a c : shape a ny nx -> is_quad f a c -> exists r, gradient_axis1 2 (inject_Z dx) a = Ok r /\ shape r ny nx /\
  forall i j v, get2 r i j = Some v -> (v == quad_dx c (inject_Z (x0 + dx * Z.of_nat j)) (inject_Z (y0 + dy * Z.of_nat i)))%Q.
Proof.
  intros HS HQ. pose (yy := fun i => inject_Z (y0 + dy * Z.of_nat i)).
  destruct (gradient1_exact a ny nx (inject_Z dx) (inject_Z x0)
    (fun i => q0 c + qy c * yy i + qyy c * yy i * yy i)%Q (fun i => qx c + qxy c * yy i)%Q (fun i => qxx c) HS HX (nonzero_Q _ Hdx)) as (r & Er & Sr & Pr).
  { intros i j v Hv. destruct (get2_bounds _ _ _ _ _ _ HS Hv) as [Hi Hj].
    rewrite (HQ i j (x0 + dx * Z.of_nat j) (y0 + dy * Z.of_nat i) v); [|rewrite EY; apply arith_nth; exact Hi|rewrite EX; apply arith_nth; exact Hj|exact Hv].
    unfold quad_at, poly, yy. rewrite (inject_Z_plus x0), (inject_Z_mult dx). ring. }
  exists r. split; [exact Er|]. split; [exact Sr|]. intros i j v Hv. rewrite (Pr i j v Hv). unfold quad_dx, yy.
  rewrite (inject_Z_plus x0), (inject_Z_mult dx). ring.
Qed.

Lemma quad_columns a c : shape a ny nx -> is_quad f a c -> exists r, gradient_axis0 2 (inject_Z dy) ny nx a = Ok r /\ shape r ny nx /\
  forall i j v, get2 r i j = Some v -> (v == quad_dy c (inject_Z (x0 + dx * Z.of_nat j)) (inject_Z (y0 + dy * Z.of_nat i)))%Q.
Proof.
  intros HS HQ. pose (xx := fun j => inject_Z (x0 + dx * Z.of_nat j)).
  destruct (gradient0_exact a ny nx (inject_Z dy) (inject_Z y0)
    (fun j => q0 c + qx c * xx j + qxx c * xx j * xx j)%Q (fun j => qy c + qxy c * xx j)%Q (fun j => qyy c) HS HY (nonzero_Q _ Hdy)) as (r & Er & Sr & Pr).
  { intros i j v Hv. destruct (get2_bounds _ _ _ _ _ _ HS Hv) as [Hi Hj].
    rewrite (HQ i j (x0 + dx * Z.of_nat j) (y0 + dy * Z.of_nat i) v); [|rewrite EY; apply arith_nth; exact Hi|rewrite EX; apply arith_nth; exact Hj|exact Hv].
    unfold quad_at, poly, xx. rewrite (inject_Z_plus y0), (inject_Z_mult dy). ring. }
  exists r. split; [exact Er|]. split; [exact Sr|]. intros i j v Hv. rewrite (Pr i j v Hv). unfold quad_dy, xx.
  rewrite (inject_Z_plus y0), (inject_Z_mult dy). ring.
Qed.

Hypotheses (HP : is_quad f (vx f) p) (HQ : is_quad f (vy f) q).

Lemma shapes : shape (vx f) ny nx /\ shape (vy f) ny nx.
Proof. destruct WF as [S1 S2]. rewrite EX, EY, !arith_length in S1, S2. split; assumption. Qed.
End Exact.

(** On a regular grid with at least three points in each direction, the curl and the
    divergence of a field whose components are polynomials of degree two are exact at every
    point, the borders included. *)
Theorem C66_rotz f x0 dx nx y0 dy ny p q : well_shaped f ->
  fx f = arith x0 dx nx -> fy f = arith y0 dy ny -> (3 <= nx)%nat -> (3 <= ny)%nat -> dx <> 0 -> dy <> 0 ->
  is_quad f (vx f) p -> is_quad f (vy f) q ->
  exists r, compute_rotz f 2 = Ok r /\ shape r ny nx /\
    forall i j x y v, nth_error (fy f) i = Some y -> nth_error (fx f) j = Some x -> get2 r i j = Some v ->
      (v == quad_dx q (inject_Z x) (inject_Z y) - quad_dy p (inject_Z x) (inject_Z y))%Q.
Proof.
  intros WF EX EY HX HY Hdx Hdy HP HQ. destruct (shapes f x0 dx y0 dy nx ny WF EX EY) as [SU SW].
  unfold compute_rotz. rewrite (steps_spec f x0 dx nx y0 dy ny) by (assumption || lia). cbn [bind].
  rewrite EX, EY, !arith_length.
  destruct (quad_columns f x0 dx y0 dy nx ny EX EY HY Hdy (vx f) p SU HP) as (a & Ea & Sa & Pa).
  destruct (quad_rows f x0 dx y0 dy nx ny EX EY HX Hdx (vy f) q SW HQ) as (b & Eb & Sb & Pb).
  rewrite Ea. cbn [bind]. rewrite Eb. cbn [bind].
  destruct (zip2_spec Qminus nx ny b a Sb Sa) as (r & Er & Sr & Pr). exists r. split; [exact Er|]. split; [exact Sr|].
  intros i j x y v Hi Hj Hv. destruct (get2_bounds _ _ _ _ _ _ Sr Hv) as [Li Lj]. rewrite arith_nth in Hi, Hj by assumption. injection Hi as <-. injection Hj as <-.
  rewrite Pr in Hv. destruct (get2 b i j) as [vb|] eqn:Gb; [|discriminate]. destruct (get2 a i j) as [va|] eqn:Ga; [|discriminate]. injection Hv as <-.
  rewrite (Pa i j va Ga), (Pb i j vb Gb). reflexivity.
Qed.
Print Assumptions C66_rotz.

Theorem C66_divh f x0 dx nx y0 dy ny p q : well_shaped f ->
  fx f = arith x0 dx nx -> fy f = arith y0 dy ny -> (3 <= nx)%nat -> (3 <= ny)%nat -> dx <> 0 -> dy <> 0 ->
  is_quad f (vx f) p -> is_quad f (vy f) q ->
  exists r, compute_divh f 2 = Ok r /\ shape r ny nx /\
    forall i j x y v, nth_error (fy f) i = Some y -> nth_error (fx f) j = Some x -> get2 r i j = Some v ->
      (v == quad_dx p (inject_Z x) (inject_Z y) + quad_dy q (inject_Z x) (inject_Z y))%Q.
Proof.
  intros WF EX EY HX HY Hdx Hdy HP HQ. destruct (shapes f x0 dx y0 dy nx ny WF EX EY) as [SU SW].
  unfold compute_divh. rewrite (steps_spec f x0 dx nx y0 dy ny) by (assumption || lia). cbn [bind].
  rewrite EX, EY, !arith_length.
  destruct (quad_rows f x0 dx y0 dy nx ny EX EY HX Hdx (vx f) p SU HP) as (a & Ea & Sa & Pa).
  destruct (quad_columns f x0 dx y0 dy nx ny EX EY HY Hdy (vy f) q SW HQ) as (b & Eb & Sb & Pb).
  rewrite Ea. cbn [bind]. rewrite Eb. cbn [bind].
  destruct (zip2_spec Qplus nx ny a b Sa Sb) as (r & Er & Sr & Pr). exists r. split; [exact Er|]. split; [exact Sr|].
  intros i j x y v Hi Hj Hv. destruct (get2_bounds _ _ _ _ _ _ Sr Hv) as [Li Lj]. rewrite arith_nth in Hi, Hj by assumption. injection Hi as <-. injection Hj as <-.
  rewrite Pr in Hv. destruct (get2 a i j) as [va|] eqn:Ga; [|discriminate]. destruct (get2 b i j) as [vb|] eqn:Gb; [|discriminate]. injection Hv as <-.
  rewrite (Pa i j va Ga), (Pb i j vb Gb). reflexivity.
Qed.
Print Assumptions C66_divh.

(** A regular grid with fewer than three points in one direction: ValueError. *)
Theorem C66_small f x0 dx nx y0 dy ny : well_shaped f ->
  fx f = arith x0 dx nx -> fy f = arith y0 dy ny -> (2 <= nx)%nat -> ny = 2%nat -> compute_rotz f 2 = Err ValueError.
Proof.
  intros WF EX EY HX ->. destruct (shapes f x0 dx y0 dy nx 2 WF EX EY) as [[L F] _].
  unfold compute_rotz. rewrite (steps_spec f x0 dx nx y0 dy 2) by (assumption || lia). cbn [bind]. rewrite EX, EY, !arith_length.
  unfold gradient_axis0. destruct (transpose_shape nx (vx f) F) as [TL TF]. rewrite L in TF.
  destruct (transpose nx (vx f)) as [|row t]; [cbn in TL; lia|]. inversion TF as [|? ? HR _]; subst.
  destruct row as [|a [|b [|c m]]]; cbn in HR; try lia. cbn [map_result]. unfold np_gradient at 1. cbn. reflexivity.
Qed.
Print Assumptions C66_small.

Definition quad_field : field Q :=
  let xs := arith (-1) 2 4 in let ys := arith 5 3 3 in
  {| fx := xs; fy := ys;
     vx := map (fun y => map (fun x => quad_at {| q0 := 1; qx := 2; qy := 3; qxx := 0; qxy := 1; qyy := 2 |} (inject_Z x) (inject_Z y)) xs) ys;
     vy := map (fun y => map (fun x => quad_at {| q0 := 0; qx := 1; qy := 0; qxx := 5; qxy := 0; qyy := 0 |} (inject_Z x) (inject_Z y)) xs) ys |}.
(** at x = -1, y = 5: d vy / dx = 1 - 10, d vx / dy = 3 - 1 + 20 *)
Example C66_example : exists r, compute_rotz quad_field 2 = Ok r /\ match get2 r 0 0 with Some v => (v == -31)%Q | None => False end.
Proof. eexists. split; [vm_compute; reflexivity|vm_compute; reflexivity]. Qed.
Example C66_example_hypotheses : well_shaped quad_field /\ is_quad quad_field (vy quad_field) {| q0 := 0; qx := 1; qy := 0; qxx := 5; qxy := 0; qyy := 0 |}.
Proof.
  split; [repeat split; repeat constructor|].
  intros i j x y v Hi Hj Hv. unfold get2, quad_field in Hv. cbn [vy] in Hv. cbn [fy quad_field] in Hi. cbn [fx quad_field] in Hj.
  rewrite nth_error_map, Hi in Hv. cbn [option_map] in Hv. rewrite nth_error_map, Hj in Hv. cbn [option_map] in Hv. injection Hv as <-. reflexivity.
Qed.

(** C111: what the deprecated classes [PIV_Postproc] and [PIV_PostProc_serie] compute. *)
From Verif Require DirectProps.
From Verif Require Import PyBase StrModel VecFieldModel VecFieldProps FieldOpsModel FieldOpsProps OldPostprocModel.
From Coq Require Import QArith Lqa.
Open Scope Z_scope.

(** ** Specification *)

(** Every vector of the file is in the arrays, at the place of its point. *)
Definition placed {V} (xs ys : list Z) (us ws : list V) (g : array2 Z * array2 Z * array2 V * array2 V) : Prop :=
  let '(X, Y, U, W) := g in
  forall k x y u w, nth_error xs k = Some x -> nth_error ys k = Some y -> nth_error us k = Some u -> nth_error ws k = Some w ->
    exists i j, get2 X i j = Some x /\ get2 Y i j = Some y /\ get2 U i j = Some u /\ get2 W i j = Some w.

(** The array [a] holds the values of the polynomial [p] at the points (x0 + dx j, y0 + dy i). *)
Definition point (x0 dx : Q) (j : nat) : Q := (x0 + dx * inject_Z (Z.of_nat j))%Q.
Definition holds_quad (x0 dx y0 dy : Q) (a : array2 Q) (p : quad) : Prop :=
  forall i j v, get2 a i j = Some v -> (v == quad_at p (point x0 dx j) (point y0 dy i))%Q.

(** what the user does, one action after the other *)
Fixpoint pp_run (p : pp) (ops : list pp_op) : result pp :=
  match ops with [] => Ok p | o :: r => do (p', _) <- pp_step p o ; pp_run p' r end.

(** another object with the same velocities and steps, on which nothing was computed *)
Definition fresh (p : pp) : pp := mk_pp (pp_X p) (pp_Y p) (pp_U p) (pp_V p) (pp_dx p) (pp_dy p) None.

(** what a call gives to the user *)
Definition answer (r : result (pp * option (array2 Q))) : result (option (array2 Q)) := do (_, v) <- r ; Ok v.

(** ** The grid *)

Lemma nth_combine {A B} : forall (a : list A) (b : list B) k x y, nth_error (combine a b) k = Some (x, y) <-> nth_error a k = Some x /\ nth_error b k = Some y.
Proof.
  induction a as [|a0 a IH]; intros b k x y; [split; [destruct k; discriminate|intros [H _]; destruct k; discriminate]|].
  destruct b as [|b0 b]; [split; [destruct k; discriminate|intros [_ H]; destruct k; discriminate]|].
  destruct k as [|k]; cbn; [|apply IH]. split; [intros H; injection H as -> ->; split; reflexivity|intros [H1 H2]; injection H1 as ->; injection H2 as ->; reflexivity].
Qed.

Lemma in_by_rows xs ys x y : In (x, y) (by_rows xs ys) <-> In x xs /\ In y ys.
Proof.
  unfold by_rows. rewrite in_flat_map. split.
  - intros (y' & Hy & H). apply in_map_iff in H. destruct H as (x' & E & Hx). injection E as -> ->. split; assumption.
  - intros [Hx Hy]. exists y. split; [exact Hy|]. apply in_map_iff. exists x. split; [reflexivity|exact Hx].
Qed.

Lemma unique_of_rows xs ys X0 Y0 : List.length xs = List.length ys -> increasing X0 -> increasing Y0 -> combine xs ys = by_rows X0 Y0 ->
  (X0 <> [] /\ Y0 <> [] /\ np_unique xs = X0 /\ np_unique ys = Y0) \/ (xs = [] /\ ys = []).
Proof.
  intros L IX IY E. destruct xs as [|x1 xs'] eqn:Ex; [destruct ys; [right; split; reflexivity|discriminate]|]. rewrite <- Ex in *.
  destruct ys as [|y1 ys'] eqn:Ey; [subst; discriminate|]. rewrite <- Ey in *. left.
  assert (H1 : In (x1, y1) (by_rows X0 Y0)) by (rewrite <- E, Ex, Ey; left; reflexivity). apply in_by_rows in H1. destruct H1 as [HX HY].
  split; [intros ->; exact HX|]. split; [intros ->; exact HY|].
  assert (HI : forall x y, In x X0 -> In y Y0 -> In x xs /\ In y ys).
  { intros x y Hx Hy. assert (In (x, y) (combine xs ys)) by (rewrite E; apply in_by_rows; split; assumption).
    split; [eapply in_combine_l; eassumption|eapply in_combine_r; eassumption]. }
  destruct (unique_spec xs) as [SX UX]. destruct (unique_spec ys) as [SY UY]. split.
  - apply DirectProps.sorted_eq; [exact SX|exact IX|]. intros z. rewrite UX. split; [|intros Hz; apply (HI z y1 Hz HY)].
    intros Hz. apply In_nth_error in Hz. destruct Hz as [k Hk]. assert (Hlt : (k < List.length ys)%nat) by (rewrite <- L; apply nth_error_Some; congruence).
    destruct (nth_error ys k) as [w|] eqn:Hw; [|apply nth_error_None in Hw; lia].
    assert (Hc : nth_error (combine xs ys) k = Some (z, w)) by (apply nth_combine; split; assumption). rewrite E in Hc. apply nth_error_In in Hc. apply in_by_rows in Hc. apply Hc.
  - apply DirectProps.sorted_eq; [exact SY|exact IY|]. intros z. rewrite UY. split; [|intros Hz; apply (HI x1 z HX Hz)].
    intros Hz. apply In_nth_error in Hz. destruct Hz as [k Hk]. assert (Hlt : (k < List.length xs)%nat) by (rewrite L; apply nth_error_Some; congruence).
    destruct (nth_error xs k) as [w|] eqn:Hw; [|apply nth_error_None in Hw; lia].
    assert (Hc : nth_error (combine xs ys) k = Some (w, z)) by (apply nth_combine; split; assumption). rewrite E in Hc. apply nth_error_In in Hc. apply in_by_rows in Hc. apply Hc.
Qed.

Lemma compute_grid_ok {V} xs ys (us ws : list V) g : compute_grid xs ys us ws = Ok g ->
  List.length us = (List.length (np_unique ys) * List.length (np_unique xs))%nat /\ List.length ws = List.length us /\
  g = (fst (meshgrid (np_unique xs) (np_unique ys)), snd (meshgrid (np_unique xs) (np_unique ys)),
       chunks (List.length (np_unique ys)) (List.length (np_unique xs)) us, chunks (List.length (np_unique ys)) (List.length (np_unique xs)) ws).
Proof.
  unfold compute_grid, meshgrid, np_reshape. destruct (Nat.eqb_spec (List.length us) (List.length (np_unique ys) * List.length (np_unique xs))) as [E|E]; [|discriminate]. cbn [bind].
  destruct (Nat.eqb_spec (List.length ws) (List.length (np_unique ys) * List.length (np_unique xs))) as [E'|E']; [|discriminate]. cbn [bind fst snd].
  intros H. injection H as <-. split; [exact E|]. split; [lia|reflexivity].
Qed.

(** When the file gives the points line by line, each line in increasing x and the lines in
    increasing y, the vectors are at their places. *)
Theorem C111_grid {V} xs ys (us ws : list V) X0 Y0 : List.length xs = List.length ys -> List.length us = List.length xs -> List.length ws = List.length xs ->
  increasing X0 -> increasing Y0 -> combine xs ys = by_rows X0 Y0 ->
  exists g, compute_grid xs ys us ws = Ok g /\ placed xs ys us ws g.
Proof.
  intros L LU LW IX IY E. destruct (unique_of_rows xs ys X0 Y0 L IX IY E) as [(NX & NY & UX & UY)|[-> ->]].
  - assert (LE : List.length xs = (List.length Y0 * List.length X0)%nat) by (rewrite <- by_rows_length, <- E, combine_length; lia).
    eexists. split.
    + unfold compute_grid, meshgrid, np_reshape. rewrite UX, UY. replace (List.length us =? _)%nat with true by (symmetry; apply Nat.eqb_eq; lia). cbn [bind].
      replace (List.length ws =? _)%nat with true by (symmetry; apply Nat.eqb_eq; lia). cbn [bind]. reflexivity.
    + unfold placed. intros k x y u w Hx Hy Hu Hw. pose (n := List.length X0). assert (Hn : (0 < n)%nat) by (unfold n; destruct X0; [contradiction|cbn; lia]).
      assert (Hk : (k < List.length Y0 * n)%nat) by (unfold n; rewrite <- LE; apply nth_error_Some; congruence).
      assert (Hi : (k / n < List.length Y0)%nat) by (apply Nat.div_lt_upper_bound; lia). assert (Hj : (k mod n < n)%nat) by (apply Nat.mod_upper_bound; lia).
      assert (Hd : k = (k / n * n + k mod n)%nat) by (pose proof (Nat.div_mod k n); lia).
      destruct (nth_error Y0 (k / n)) as [y'|] eqn:Ey; [|apply nth_error_None in Ey; lia]. destruct (nth_error X0 (k mod n)) as [x'|] eqn:Ex; [|apply nth_error_None in Ex; unfold n in *; lia].
      pose proof (by_rows_nth X0 Y0 _ _ x' y' Ey Ex) as HB. fold n in HB. rewrite <- Hd, <- E in HB. apply nth_combine in HB. destruct HB as [HB1 HB2].
      rewrite Hx in HB1. injection HB1 as ->. rewrite Hy in HB2. injection HB2 as ->.
      exists (k / n)%nat, (k mod n)%nat. pose proof (get2_mesh X0 Y0 (k / n) (k mod n)) as [M1 M2]. unfold meshgrid in M1, M2. cbn [fst snd] in M1, M2.
      rewrite M1, M2, Ex, Ey. split; [reflexivity|]. split; [reflexivity|].
      rewrite !get2_chunks by (fold n; lia). fold n. rewrite <- Hd. split; assumption.
  - destruct us; [|discriminate]. destruct ws; [|discriminate]. eexists. split; [reflexivity|]. intros k x y u w H. destruct k; discriminate.
Qed.
Print Assumptions C111_grid.

(** In every other order a vector is put at the place of another point, or the file is
    refused: with values which tell the vectors apart, the grid is right only for that order. *)
Theorem C111_grid_iff xs ys : List.length xs = List.length ys ->
  (exists g, compute_grid xs ys (seq 0 (List.length xs)) (seq 0 (List.length xs)) = Ok g /\ placed xs ys (seq 0 (List.length xs)) (seq 0 (List.length xs)) g) <->
  exists X0 Y0, increasing X0 /\ increasing Y0 /\ combine xs ys = by_rows X0 Y0.
Proof.
  intros L. split.
  - intros (g & Eg & Pg). apply compute_grid_ok in Eg. destruct Eg as (LE & _ & ->). rewrite seq_length in LE.
    exists (np_unique xs), (np_unique ys). split; [apply unique_spec|]. split; [apply unique_spec|].
    assert (HL : List.length (combine xs ys) = List.length (by_rows (np_unique xs) (np_unique ys))) by (rewrite by_rows_length, combine_length; lia).
    apply (nth_ext _ _ (0, 0) (0, 0) HL). intros k Hk. rewrite combine_length in Hk. assert (Hkx : (k < List.length xs)%nat) by lia.
    destruct (nth_error xs k) as [x|] eqn:Hx; [|apply nth_error_None in Hx; lia]. destruct (nth_error ys k) as [y|] eqn:Hy; [|apply nth_error_None in Hy; lia].
    assert (Hs : nth_error (seq 0 (List.length xs)) k = Some k) by (rewrite (nth_error_nth' _ 0%nat) by (rewrite seq_length; exact Hkx); rewrite seq_nth by exact Hkx; reflexivity).
    destruct (Pg k x y k k Hx Hy Hs Hs) as (i & j & G1 & G2 & G3 & _).
    pose proof (get2_mesh (np_unique xs) (np_unique ys) i j) as [M1 M2]. rewrite M1 in G1. rewrite M2 in G2.
    destruct (nth_error (np_unique ys) i) as [y'|] eqn:Ey; [|discriminate]. rewrite G1 in G2. injection G2 as ->.
    assert (Hi : (i < List.length (np_unique ys))%nat) by (apply nth_error_Some; congruence). assert (Hj : (j < List.length (np_unique xs))%nat) by (apply nth_error_Some; congruence).
    rewrite get2_chunks in G3 by (rewrite ?seq_length; assumption).
    assert (Hlt : (i * List.length (np_unique xs) + j < List.length xs)%nat) by (rewrite <- (seq_length (List.length xs) 0); apply nth_error_Some; congruence).
    rewrite (nth_error_nth' _ 0%nat) in G3 by (rewrite seq_length; exact Hlt). rewrite seq_nth in G3 by exact Hlt. injection G3 as Hk'. cbn in Hk'.
    pose proof (by_rows_nth _ _ _ _ _ _ Ey G1) as HB. rewrite Hk' in HB. rewrite (nth_error_nth _ _ _ HB).
    apply nth_error_nth. apply nth_combine. split; assumption.
  - intros (X0 & Y0 & IX & IY & E). apply (C111_grid _ _ _ _ X0 Y0 L); rewrite ?seq_length; auto.
Qed.
Print Assumptions C111_grid_iff.

(** ** The curl and the divergence *)

(** An object made by the constructor has neither a curl nor a divergence. *)
Theorem C111_no_steps_refuted ix iy us ws p edge_order : pp_init ix iy us ws = Ok p ->
  pp_compute_rot p edge_order = Err AttributeError /\ pp_compute_div p edge_order = Err AttributeError.
Proof.
  unfold pp_init. destruct (compute_grid ix iy us ws) as [[[[X Y] U] W]|e]; [|discriminate]. cbn [bind]. intros H. injection H as <-. split; reflexivity.
Qed.

Lemma shape_rows {V} (a : array2 V) n0 n1 : shape a n0 n1 -> (0 < n0)%nat -> rows a = n0 /\ columns a = n1.
Proof. intros [L F] H. unfold rows, columns. split; [exact L|]. destruct a as [|r a]; [cbn in L; lia|]. inversion F; subst. reflexivity. Qed.

Lemma gradient2_quad a n0 n1 x0 dx y0 dy p : shape a n0 n1 -> (3 <= n0)%nat -> (3 <= n1)%nat -> ~ (dx == 0)%Q -> ~ (dy == 0)%Q -> holds_quad x0 dx y0 dy a p ->
  exists g0 g1, np_gradient2 2 dx dy a = Ok (g0, g1) /\ shape g0 n0 n1 /\ shape g1 n0 n1 /\
    (forall i j v, get2 g0 i j = Some v -> v == quad_dy p (point x0 dx j) (point y0 dy i) * (dy / dx))%Q /\
    (forall i j v, get2 g1 i j = Some v -> v == quad_dx p (point x0 dx j) (point y0 dy i) * (dx / dy))%Q.
Proof.
  intros HS H0 H1 Hx Hy HQ. unfold np_gradient2. destruct (shape_rows a n0 n1 HS) as [-> ->]; [lia|].
  destruct (gradient0_exact a n0 n1 dx 0
    (fun j => q0 p + qx p * point x0 dx j + qxx p * point x0 dx j * point x0 dx j + (qy p + qxy p * point x0 dx j) * y0 + qyy p * y0 * y0)%Q
    (fun j => (qy p + qxy p * point x0 dx j + 2 * qyy p * y0) * (dy / dx))%Q (fun _ => qyy p * (dy / dx) * (dy / dx))%Q HS H0 Hx) as (g0 & E0 & S0 & P0).
  { intros i j v Hv. rewrite (HQ i j v Hv). unfold quad_at, poly, point. field. exact Hx. }
  destruct (gradient1_exact a n0 n1 dy 0
    (fun i => q0 p + qy p * point y0 dy i + qyy p * point y0 dy i * point y0 dy i + (qx p + qxy p * point y0 dy i) * x0 + qxx p * x0 * x0)%Q
    (fun i => (qx p + qxy p * point y0 dy i + 2 * qxx p * x0) * (dx / dy))%Q (fun _ => qxx p * (dx / dy) * (dx / dy))%Q HS H1 Hy) as (g1 & E1 & S1 & P1).
  { intros i j v Hv. rewrite (HQ i j v Hv). unfold quad_at, poly, point. field. exact Hy. }
  exists g0, g1. rewrite E0. cbn [bind]. rewrite E1. cbn [bind]. split; [reflexivity|]. split; [exact S0|]. split; [exact S1|]. split.
  - intros i j v Hv. rewrite (P0 i j v Hv). unfold quad_dy, point. field. exact Hx.
  - intros i j v Hv. rewrite (P1 i j v Hv). unfold quad_dx, point. field. exact Hy.
Qed.

(** If the user gives the steps, the derivatives along x and along y are exchanged and the
    steps are those of the other direction: what comes out for a field whose components are
    the polynomials [p] and [q]. *)
Theorem C111_values p0 n0 n1 x0 dx y0 dy p q : shape (pp_U p0) n0 n1 -> shape (pp_V p0) n0 n1 -> (3 <= n0)%nat -> (3 <= n1)%nat ->
  pp_dx p0 = Some dx -> pp_dy p0 = Some dy -> ~ (dx == 0)%Q -> ~ (dy == 0)%Q -> pp_deriv p0 = None ->
  holds_quad x0 dx y0 dy (pp_U p0) p -> holds_quad x0 dx y0 dy (pp_V p0) q ->
  exists p1 rot p2 div, pp_compute_rot p0 2 = Ok (p1, rot) /\ pp_compute_div p0 2 = Ok (p2, div) /\ shape rot n0 n1 /\ shape div n0 n1 /\
    (forall i j v, get2 rot i j = Some v ->
       v == quad_dy q (point x0 dx j) (point y0 dy i) * (dy / dx) - quad_dx p (point x0 dx j) (point y0 dy i) * (dx / dy))%Q /\
    (forall i j v, get2 div i j = Some v ->
       v == quad_dy p (point x0 dx j) (point y0 dy i) * (dy / dx) + quad_dx q (point x0 dx j) (point y0 dy i) * (dx / dy))%Q.
Proof.
  intros SU SV H0 H1 Edx Edy Hx Hy Ed HU HV.
  destruct (gradient2_quad _ n0 n1 x0 dx y0 dy p SU H0 H1 Hx Hy HU) as (u0 & u1 & EU & Su0 & Su1 & Pu0 & Pu1).
  destruct (gradient2_quad _ n0 n1 x0 dx y0 dy q SV H0 H1 Hx Hy HV) as (v0 & v1 & EV & Sv0 & Sv1 & Pv0 & Pv1).
  destruct (zip2_spec Qminus n1 n0 v0 u1 Sv0 Su1) as (rot & Er & Sr & Pr). destruct (zip2_spec Qplus n1 n0 u0 v1 Su0 Sv1) as (div & Eq & Sd & Pd).
  assert (ED : pp_compute_derivatives p0 2 = Ok (mk_deriv u0 u1 v0 v1)).
  { unfold pp_compute_derivatives. rewrite Edx, Edy. cbn [attr bind]. unfold compute_derivatives. rewrite EU. cbn [bind]. rewrite EV. reflexivity. }
  unfold pp_compute_rot, pp_compute_div. rewrite Ed, ED. cbn [bind OldPostprocModel.dVdx OldPostprocModel.dUdy OldPostprocModel.dUdx OldPostprocModel.dVdy]. rewrite Er, Eq. cbn [bind].
  do 4 eexists. split; [reflexivity|]. split; [reflexivity|]. split; [exact Sr|]. split; [exact Sd|]. split.
  - intros i j v Hv. rewrite Pr in Hv. destruct (get2 v0 i j) as [a|] eqn:Ga; [|discriminate]. destruct (get2 u1 i j) as [b|] eqn:Gb; [|discriminate]. injection Hv as <-.
    rewrite (Pv0 i j a Ga), (Pu1 i j b Gb). reflexivity.
  - intros i j v Hv. rewrite Pd in Hv. destruct (get2 u0 i j) as [a|] eqn:Ga; [|discriminate]. destruct (get2 v1 i j) as [b|] eqn:Gb; [|discriminate]. injection Hv as <-.
    rewrite (Pu0 i j a Ga), (Pv1 i j b Gb). reflexivity.
Qed.
Print Assumptions C111_values.

(** A rotation of the fluid as a whole, at any speed and on any regular grid, has a curl of
    zero everywhere, and an expansion has a divergence of zero. *)
Definition turning (w : Q) : quad * quad :=
  ({| q0 := 0; qx := 0; qy := - w; qxx := 0; qxy := 0; qyy := 0 |}%Q, {| q0 := 0; qx := w; qy := 0; qxx := 0; qxy := 0; qyy := 0 |}%Q).
Definition expanding (s : Q) : quad * quad :=
  ({| q0 := 0; qx := s; qy := 0; qxx := 0; qxy := 0; qyy := 0 |}%Q, {| q0 := 0; qx := 0; qy := s; qxx := 0; qxy := 0; qyy := 0 |}%Q).

Theorem C111_rotation_refuted p0 n0 n1 x0 dx y0 dy w : shape (pp_U p0) n0 n1 -> shape (pp_V p0) n0 n1 -> (3 <= n0)%nat -> (3 <= n1)%nat ->
  pp_dx p0 = Some dx -> pp_dy p0 = Some dy -> ~ (dx == 0)%Q -> ~ (dy == 0)%Q -> pp_deriv p0 = None ->
  (holds_quad x0 dx y0 dy (pp_U p0) (fst (turning w)) -> holds_quad x0 dx y0 dy (pp_V p0) (snd (turning w)) ->
   exists p1 rot, pp_compute_rot p0 2 = Ok (p1, rot) /\ shape rot n0 n1 /\ forall i j v, get2 rot i j = Some v -> (v == 0)%Q) /\
  (holds_quad x0 dx y0 dy (pp_U p0) (fst (expanding w)) -> holds_quad x0 dx y0 dy (pp_V p0) (snd (expanding w)) ->
   exists p1 div, pp_compute_div p0 2 = Ok (p1, div) /\ shape div n0 n1 /\ forall i j v, get2 div i j = Some v -> (v == 0)%Q).
Proof.
  intros SU SV H0 H1 Edx Edy Hx Hy Ed. split; intros HU HV.
  - destruct (C111_values p0 n0 n1 x0 dx y0 dy _ _ SU SV H0 H1 Edx Edy Hx Hy Ed HU HV) as (p1 & rot & p2 & div & E1 & E2 & S1 & S2 & P1 & P2).
    exists p1, rot. split; [exact E1|]. split; [exact S1|]. intros i j v Hv. rewrite (P1 i j v Hv). unfold quad_dy, quad_dx, turning. cbn [fst snd q0 qx qy qxx qxy qyy]. field. split; assumption.
  - destruct (C111_values p0 n0 n1 x0 dx y0 dy _ _ SU SV H0 H1 Edx Edy Hx Hy Ed HU HV) as (p1 & rot & p2 & div & E1 & E2 & S1 & S2 & P1 & P2).
    exists p2, div. split; [exact E2|]. split; [exact S2|]. intros i j v Hv. rewrite (P2 i j v Hv). unfold quad_dy, quad_dx, expanding. cbn [fst snd q0 qx qy qxx qxy qyy]. field. split; assumption.
Qed.
Print Assumptions C111_rotation_refuted.

(** [edge_order] is without effect: on a grid of two lines, for which [edge_order=1] is made,
    the divergence is refused. *)
Theorem C111_edge_order_refuted p0 dx dy n1 edge_order : shape (pp_U p0) 2 n1 -> (0 < n1)%nat -> pp_dx p0 = Some dx -> pp_dy p0 = Some dy ->
  pp_compute_div p0 edge_order = Err ValueError.
Proof.
  intros HS Hn Edx Edy. unfold pp_compute_div, pp_compute_derivatives. rewrite Edx, Edy. cbn [attr bind]. unfold compute_derivatives, np_gradient2, gradient_axis0.
  destruct (shape_rows _ _ _ HS) as [-> ->]; [lia|]. destruct HS as [HL HF]. destruct (transpose_shape n1 _ HF) as [L F]. rewrite HL in F.
  destruct (transpose n1 (pp_U p0)) as [|c t]; [cbn in L; lia|]. cbn [map_result]. inversion F as [|? ? Hc Ft]; subst.
  destruct c as [|a [|b [|c0 c]]]; try discriminate. reflexivity.
Qed.

(** ** The history of an object *)

Lemma pp_run_app p l1 l2 : pp_run p (l1 ++ l2) = (do p' <- pp_run p l1 ; pp_run p' l2).
Proof.
  revert p. induction l1 as [|o l1 IH]; intros p; [reflexivity|]. cbn [app pp_run]. destruct (pp_step p o) as [[p' v]|e]; [|reflexivity]. cbn [bind]. apply IH.
Qed.

(** The divergence is that of the present velocities, whatever was done before. *)
Theorem C111_div_fresh p ops p2 : pp_run p ops = Ok p2 -> answer (pp_step p2 CallDiv) = answer (pp_step (fresh p2) CallDiv).
Proof.
  intros _. cbn [pp_step]. unfold pp_compute_div, pp_compute_derivatives, fresh. cbn [pp_dx pp_dy pp_U pp_V].
  destruct (attr (pp_dx p2)) as [dx|]; [|reflexivity]. cbn [bind]. destruct (attr (pp_dy p2)) as [dy|]; [|reflexivity]. cbn [bind].
  destruct (compute_derivatives dx dy (pp_U p2) (pp_V p2) 2) as [d|]; [|reflexivity]. cbn [bind]. destruct (zip2 Qplus _ _); reflexivity.
Qed.

(** Just after a divergence the curl is that of the present velocities. *)
Theorem C111_rot_after_div p p1 v : pp_step p CallDiv = Ok (p1, v) -> answer (pp_step p1 CallRot) = answer (pp_step (fresh p1) CallRot).
Proof.
  cbn [pp_step]. unfold pp_compute_div. destruct (pp_compute_derivatives p 2) as [d|] eqn:E; [|discriminate]. cbn [bind].
  destruct (zip2 Qplus _ _) as [w|]; [|discriminate]. cbn [bind]. intros H. injection H as <- _.
  unfold pp_compute_rot. cbn [set_deriv pp_deriv fresh bind].
  change (pp_compute_derivatives (fresh (set_deriv p d)) 2) with (pp_compute_derivatives p 2). unfold fresh in *. cbn [pp_deriv].
  match goal with |- context [pp_compute_derivatives ?q 2] => change (pp_compute_derivatives q 2) with (pp_compute_derivatives p 2) end. rewrite E. cbn [bind].
  destruct (zip2 Qminus _ _); reflexivity.
Qed.

(** The curl is remembered: after a first call, and as long as no divergence is asked, the
    curl is the same whatever the new velocities and the new steps. *)
Theorem C111_stale_refuted p p1 r ops p2 : pp_step p CallRot = Ok (p1, r) -> ~ In CallDiv ops -> pp_run p1 ops = Ok p2 -> answer (pp_step p2 CallRot) = Ok r.
Proof.
  cbn [pp_step]. unfold pp_compute_rot at 1. destruct (match pp_deriv p with Some d => Ok d | None => _ end) as [d|]; [|discriminate]. cbn [bind].
  destruct (zip2 Qminus (dVdx d) (dUdy d)) as [w|] eqn:Ez; [|discriminate]. cbn [bind]. intros H. injection H as <- <-.
  assert (Hd : pp_deriv (set_deriv p d) = Some d) by reflexivity. revert Hd. generalize (set_deriv p d). clear p. revert p2.
  induction ops as [|o ops IH]; intros p2 p Hd Hn Hr; cbn [pp_run] in Hr.
  - injection Hr as <-. unfold pp_compute_rot. rewrite Hd. cbn [bind]. rewrite Ez. reflexivity.
  - destruct (pp_step p o) as [[p' v]|] eqn:E; [|discriminate]. cbn [bind] in Hr. apply (IH p2 p'); [|intros H; apply Hn; right; exact H|exact Hr].
    destruct o as [U W|dx dy| |]; cbn [pp_step] in E.
    + injection E as <- _. exact Hd.
    + injection E as <- _. exact Hd.
    + unfold pp_compute_rot in E. rewrite Hd in E. cbn [bind] in E. rewrite Ez in E. injection E as <- _. reflexivity.
    + exfalso. apply Hn. left. reflexivity.
Qed.
Print Assumptions C111_stale_refuted.

(** ** The norm given to the display *)

(** Without arguments the background is the norm of the vectors shown. *)
Theorem C111_display {B} (norm : Q -> Q -> B) p i j u w : get2 (pp_U p) i j = Some u -> get2 (pp_V p) i j = Some w ->
  exists U W bg, pp_displayf norm p None None = (U, W, bg) /\ get2 U i j = Some u /\ get2 W i j = Some w /\ get2 bg i j = Some (norm u w).
Proof.
  intros Hu Hw. exists (pp_U p), (pp_V p), (pp_compute_norm norm p (pp_U p) (pp_V p)). split; [reflexivity|]. split; [exact Hu|]. split; [exact Hw|].
  unfold pp_compute_norm, get2 in *. rewrite nth_error_map. destruct (nth_error (pp_U p) i) as [ru|] eqn:Eu; [|discriminate]. destruct (nth_error (pp_V p) i) as [rw|] eqn:Ew; [|discriminate].
  rewrite (proj2 (nth_combine _ _ i ru rw) (conj Eu Ew)). cbn [option_map fst snd]. rewrite nth_error_map, (proj2 (nth_combine _ _ j u w) (conj Hu Hw)). reflexivity.
Qed.

(** With other vectors the background is still the norm of those of the file. *)
Theorem C111_norm_refuted {B} (norm : Q -> Q -> B) p U W i j u w : get2 (pp_U p) i j = Some u -> get2 (pp_V p) i j = Some w ->
  exists bg, pp_displayf norm p (Some (U, W)) None = (U, W, bg) /\ get2 bg i j = Some (norm u w).
Proof.
  intros Hu Hw. destruct (C111_display norm p i j u w Hu Hw) as (U' & W' & bg & E & _ & _ & Hb). exists bg. split; [|exact Hb].
  injection E as _ _ <-. reflexivity.
Qed.

(** ** The series *)

Lemma map_result_first {A B} (f : A -> result B) a l e : f a = Err e -> map_result f (a :: l) = Err e.
Proof. intros H. cbn [map_result]. rewrite H. reflexivity. Qed.

Lemma compute_grid_err {V} xs ys (us ws : list V) e : compute_grid xs ys us ws = Err e -> e = ValueError.
Proof.
  unfold compute_grid, meshgrid, np_reshape. destruct (_ =? _)%nat; cbn [bind]; [|congruence]. destruct (_ =? _)%nat; cbn [bind]; congruence.
Qed.

Lemma stack_spec rest : forall a b, (exists a' b', py_for (fun acc f =>
    let '(a, b) := acc : nd * nd in
    let '(ix, iy, du, dv) := f : list Z * list Z * list Q * list Q in
    do _ <- pp_init ix iy du dv ;
    do a' <- vstack a du ; do b' <- vstack b dv ; Ok (a', b')) rest (a, b) = Ok (a', b') /\ 
    (nd_get a' 0 = nd_get a 0 \/ exists l, nd_get a' 0 = Ok l) /\ (nd_get b' 0 = nd_get b 0 \/ exists l, nd_get b' 0 = Ok l)) \/
  py_for (fun acc f =>
    let '(a, b) := acc : nd * nd in
    let '(ix, iy, du, dv) := f : list Z * list Z * list Q * list Q in
    do _ <- pp_init ix iy du dv ;
    do a' <- vstack a du ; do b' <- vstack b dv ; Ok (a', b')) rest (a, b) = Err ValueError.
Proof.
  assert (HV : forall a l, vstack a l = Err ValueError \/ exists rs r, vstack a l = Ok (D2 (rs ++ [r]))).
  { intros a l. unfold vstack. destruct (forallb _ _); [right; eauto|left; reflexivity]. }
  assert (HG : forall rs r, exists l, nd_get (D2 (rs ++ [r])) 0 = Ok l).
  { intros [|r0 rs] r; cbn [nd_get app]; eexists; unfold py_get; cbn [zlen List.length]; rewrite ?app_length.
    - reflexivity.
    - replace (_ && _) with true by (unfold zlen; cbn; lia). reflexivity. }
  induction rest as [|[[[ix iy] du] dv] rest IH]; intros a b.
  - left. exists a, b. split; [reflexivity|]. split; left; reflexivity.
  - cbn [py_for]. destruct (pp_init ix iy du dv) as [p|e] eqn:Ep.
    2:{ right. cbn [bind]. f_equal. unfold pp_init in Ep. destruct (compute_grid ix iy du dv) as [[[[X Y] U] W]|e'] eqn:Eg; [discriminate|]. injection Ep as <-. eapply compute_grid_err. exact Eg. }
    cbn [bind]. destruct (HV a du) as [-> | (ra & la & ->)]; [right; reflexivity|]. cbn [bind]. destruct (HV b dv) as [-> | (rb & lb & ->)]; [right; reflexivity|]. cbn [bind].
    destruct (IH (D2 (ra ++ [la])) (D2 (rb ++ [lb]))) as [(a' & b' & E & Ha & Hb)|E]; [|right; exact E]. left. exists a', b'. split; [exact E|].
    destruct (HG ra la) as [l1 E1]. destruct (HG rb lb) as [l2 E2]. split; right.
    + destruct Ha as [-> | Ha]; eauto.
    + destruct Hb as [-> | Hb]; eauto.
Qed.

(** No series can be made: the constructor fails for every list of files; with at least one
    file which has vectors, with ValueError. *)
Theorem C111_series_refuted files : (exists e, serie_init files = Err e) /\
  forall ix iy du dv rest, files = (ix, iy, du, dv) :: rest -> du <> [] -> dv <> [] -> serie_init files = Err ValueError.
Proof.
  assert (HF : forall ix iy du dv, exists e, (do g <- compute_grid ix iy du dv ; let '(X, Y, U, W) := g in unpack 6 [AZ X; AZ Y; AQ U; AQ W]) = Err e /\ e = ValueError).
  { intros ix iy du dv. destruct (compute_grid ix iy du dv) as [[[[X Y] U] W]|e] eqn:E; cbn [bind]; [eexists; split; reflexivity|]. exists e. split; [reflexivity|eapply compute_grid_err; exact E]. }
  assert (HM : forall ix iy du dv rest, (exists e, serie_init ((ix, iy, du, dv) :: rest) = Err e) /\ (du <> [] -> dv <> [] -> serie_init ((ix, iy, du, dv) :: rest) = Err ValueError)).
  { intros ix iy du dv rest. unfold serie_init, serie_stack. destruct (stack_spec rest (D1 du) (D1 dv)) as [(a & b & -> & Ha & Hb)| -> ]; [|split; [exists ValueError|]; reflexivity].
    cbn [bind]. unfold serie_compute_grid. cbn [List.length seq].
    assert (HH : forall e, (do du0 <- nd_get a (Z.of_nat 0) ; do dv0 <- nd_get b (Z.of_nat 0) ; do g <- compute_grid ix iy du0 dv0 ; (let '(X, Y, U, W) := g in unpack 6 [AZ X; AZ Y; AQ U; AQ W])) = Err e ->
       map_result (fun ti => do du <- nd_get a (Z.of_nat ti) ; do dv <- nd_get b (Z.of_nat ti) ; do g <- compute_grid ix iy du dv ; (let '(X, Y, U, W) := g in unpack 6 [AZ X; AZ Y; AQ U; AQ W])) (0%nat :: seq 1 (List.length rest)) = Err e).
    { intros e He. apply map_result_first. exact He. }
    cbn [Z.of_nat] in HH. split.
    - destruct (nd_get a 0) as [da|e]; [|eexists; apply HH; reflexivity]. cbn [bind] in HH. destruct (nd_get b 0) as [db|e]; [|eexists; apply HH; reflexivity]. cbn [bind] in HH.
      destruct (HF ix iy da db) as (e & E & _). exists e. apply HH. exact E.
    - intros Nu Nv. assert (Ga : exists l, nd_get a 0 = Ok l). { destruct Ha as [-> | Ha]; [|exact Ha]. destruct du as [|u du]; [contradiction|]. exists [u]. reflexivity. }
      assert (Gb : exists l, nd_get b 0 = Ok l). { destruct Hb as [-> | Hb]; [|exact Hb]. destruct dv as [|u dv]; [contradiction|]. exists [u]. reflexivity. }
      destruct Ga as [da Ga]. destruct Gb as [db Gb]. rewrite Ga, Gb in HH. cbn [bind] in HH. apply HH. destruct (HF ix iy da db) as (e & E & ->). exact E. }
  split.
  - destruct files as [|[[[ix iy] du] dv] rest]; [exists IndexError; reflexivity|]. apply HM.
  - intros ix iy du dv rest -> . apply HM.
Qed.
Print Assumptions C111_series_refuted.

(** The times of the series: one for each file, the file i at i dt. *)
Theorem C111_time dt nb : List.length (set_time dt nb) = nb /\ forall i t, nth_error (set_time dt nb) i = Some t -> (t == inject_Z (Z.of_nat i) * dt)%Q.
Proof.
  unfold set_time. destruct nb as [|[|n]]; [split; [reflexivity|intros [|i] t H; discriminate]|split; [reflexivity|intros [|[|i]] t H; try discriminate; injection H as <-; ring]|].
  split; [rewrite map_length; apply seq_length|]. intros i t H. rewrite nth_error_map in H. destruct (nth_error (seq 0 (S (S n))) i) as [k|] eqn:E; [|discriminate].
  assert (HN : ~ (inject_Z (Z.of_nat (S (S n)) - 1) == 0)%Q) by (apply nonzero_Q; lia). revert H HN. cbn [option_map]. generalize (inject_Z (Z.of_nat (S (S n)) - 1)). intros N H HN.
  injection H as <-.
  assert (k = i) as ->. { assert (Hi : (i < S (S n))%nat) by (rewrite <- (seq_length (S (S n)) 0); apply nth_error_Some; congruence). rewrite (nth_error_nth' _ 0%nat) in E by (rewrite seq_length; exact Hi). rewrite seq_nth in E by exact Hi. injection E as <-. reflexivity. }
  field. exact HN.
Qed.

(** ** Examples *)
Definition ex_pp : pp := mk_pp (fst (meshgrid [0;1;2] [0;1;2])) (snd (meshgrid [0;1;2] [0;1;2]))
  [[0;0;0];[-(2);-(2);-(2)];[-(4);-(4);-(4)]]%Q [[0;2;4];[0;2;4];[0;2;4]]%Q (Some 1%Q) (Some 1%Q) None.

Example C111_example :
  (exists g, compute_grid [1;5;9;1;5;9] [2;2;2;4;4;4] (seq 0 6) (seq 0 6) = Ok g /\ placed [1;5;9;1;5;9] [2;2;2;4;4;4] (seq 0 6) (seq 0 6) g) /\
  (forall X0 Y0, increasing X0 -> increasing Y0 -> combine [1;5;1;5] [4;4;2;2] <> by_rows X0 Y0) /\
  holds_quad 0 1 0 1 (pp_U ex_pp) (fst (turning 2)) /\ holds_quad 0 1 0 1 (pp_V ex_pp) (snd (turning 2)) /\
  serie_init [([0;1], [0;0], [1;2]%Q, [3;4]%Q); ([0;1], [0;0], [1;2]%Q, [3;4]%Q)] = Err ValueError.
Proof.
  split; [|split; [|split; [|split]]].
  - apply C111_grid_iff; [reflexivity|]. exists [1;5;9], [2;4]. split; [|split; [|reflexivity]]; repeat constructor; lia.
  - intros X0 Y0 IX IY E. destruct (unique_of_rows [1;5;1;5] [4;4;2;2] X0 Y0 eq_refl IX IY E) as [(_ & _ & UX & UY)|[H _]]; [|discriminate].
    rewrite <- UX, <- UY in E. discriminate.
  - intros i j v H. destruct i as [|[|[|i]]]; try (destruct j as [|[|[|j]]]); cbn in H; try discriminate; try (destruct j; discriminate); try (destruct i; discriminate); injection H as <-; reflexivity.
  - intros i j v H. destruct i as [|[|[|i]]]; try (destruct j as [|[|[|j]]]); cbn in H; try discriminate; try (destruct j; discriminate); try (destruct i; discriminate); injection H as <-; reflexivity.
  - reflexivity.
Qed.

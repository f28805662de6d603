(** C69: the bases of the cameras and the stereo reconstruction. *)
From Coq Require Import Reals ZArith List Bool Lia Lra Psatz R_sqrt Nsatz.
From Verif Require Import PyBase StrModel CalibModel CalibProps.
Import ListNotations.
Local Open Scope R_scope.

Ltac vec := unfold mulv, transpose3, dot3, cross, scale, line0, line1, line2, v0, v1, v2 in *; cbn [fst snd] in *.

Lemma inv3_left : forall M N v, inv3 M = Ok N -> mulv N (mulv M v) = v.
Proof.
  intros [[[[a b] c] [[d e] g]] [[h i] j]] N [[x y] z] H. unfold inv3 in H.
  destruct (is_zero _) eqn:E; [ discriminate | ]. apply is_zero_false in E. injection H as <-.
  unfold det3 in *. vec. repeat (apply pair_equal_spec; split); field; exact E.
Qed.

Lemma inv3_solve : forall r0 r1 r2 N D, inv3 (r0, r1, r2) = Ok N -> mulv N (dot3 r0 D, dot3 r1 D, dot3 r2 D) = D.
Proof. intros r0 r1 r2 N D H. exact (inv3_left _ _ D H). Qed.

Lemma vec_eq : forall a b c x y z, a = x -> b = y -> c = z -> (a, b, c) = (x, y, z) :> vec3.
Proof. intros; subst; reflexivity. Qed.

Definition orthonormal (ex ey ez : vec3) : Prop :=
  dot3 ex ex = 1 /\ dot3 ey ey = 1 /\ dot3 ez ez = 1 /\ dot3 ex ey = 0 /\ dot3 ey ez = 0 /\ dot3 ez ex = 0.

Lemma dot3_scale : forall k a b, dot3 (scale k a) b = k * dot3 a b.
Proof. intros k [[a1 a2] a3] [[b1 b2] b3]. vec. ring. Qed.
Lemma dot3_sym : forall a b, dot3 a b = dot3 b a.
Proof. intros [[a1 a2] a3] [[b1 b2] b3]. vec. ring. Qed.
Lemma dot3_pos : forall a, 0 <= dot3 a a.
Proof.
  intros [[a1 a2] a3]. vec. pose proof (Rle_0_sqr a1). pose proof (Rle_0_sqr a2). pose proof (Rle_0_sqr a3). unfold Rsqr in *. lra.
Qed.

Lemma unit_scale : forall a, dot3 a a <> 0 -> 0 < norm3 a /\ dot3 (scale (/ norm3 a) a) (scale (/ norm3 a) a) = 1.
Proof.
  intros a H. pose proof (dot3_pos a).
  assert (Hn : 0 < norm3 a) by (unfold norm3; apply sqrt_lt_R0; lra).
  split; [ exact Hn | ].
  assert (Hs : norm3 a * norm3 a = dot3 a a) by (unfold norm3; apply sqrt_sqrt; lra).
  rewrite dot3_scale, dot3_sym, dot3_scale, <- Hs. field. lra.
Qed.

(** The vectors of the base: orthonormal and direct, the third one along the given normal and
    the first one in the plane y = 0. *)
Theorem C69_base : forall nx ny nz ex ey ez, nz <> 0 -> base_vectors nx ny nz = (ex, ey, ez) ->
  orthonormal ex ey ez /\ cross ez ex = ey /\ v1 ex = 0 /\ 0 < v0 ex /\
  (exists k, 0 < k /\ (nx, ny, nz) = scale k ez).
Proof.
  intros nx ny nz ex ey ez Hz H. unfold base_vectors in H.
  set (n := (nx, ny, nz)) in *. set (u := (1, 0, - (1 * nx + 0 * ny) / nz)) in *.
  assert (Hn : dot3 n n <> 0).
  { unfold n. vec. pose proof (Rle_0_sqr nx). pose proof (Rle_0_sqr ny). pose proof (Rlt_0_sqr nz Hz). unfold Rsqr in *. lra. }
  assert (Hu : dot3 u u <> 0).
  { unfold u. vec. match goal with |- _ + ?c * ?c <> 0 => pose proof (Rle_0_sqr c) end. unfold Rsqr in *. lra. }
  destruct (unit_scale n Hn) as [ P1 Q1 ]. destruct (unit_scale u Hu) as [ P2 Q2 ].
  injection H as E1 E2 E3.
  change (scale (/ norm3 u) u = ex) in E1. change (cross (scale (/ norm3 n) n) (scale (/ norm3 u) u) = ey) in E2.
  change (scale (/ norm3 n) n = ez) in E3.
  rewrite E1, E3 in E2. rewrite E1 in Q2. rewrite E3 in Q1.
  assert (O : dot3 ez ex = 0).
  { assert (Z : dot3 u n = 0) by (unfold u, n; vec; field; exact Hz).
    rewrite <- E1, <- E3, dot3_scale, dot3_sym, dot3_scale, Z. ring. }
  assert (V0 : v0 ex = / norm3 u) by (rewrite <- E1; unfold u; vec; ring).
  assert (V1 : v1 ex = 0) by (rewrite <- E1; unfold u; vec; ring).
  split; [ | split; [ exact E2 | split; [ exact V1 | split ] ] ].
  - subst ey. clear - O Q1 Q2. destruct ex as [[a b] c], ez as [[d e] g]. unfold orthonormal. vec.
    repeat split; try assumption; nsatz.
  - rewrite V0. apply Rinv_0_lt_compat. exact P2.
  - exists (norm3 n). split; [ exact P1 | ]. rewrite <- E3. clearbody n u. destruct n as [[a b] c]. vec.
    repeat (apply pair_equal_spec; split); field; lra.
Qed.
Print Assumptions C69_base.

Lemma mulv_lin : forall M a b k, mulv M (v0 a + k * v0 b, v1 a + k * v1 b, v2 a + k * v2 b) =
  (v0 (mulv M a) + k * v0 (mulv M b), v1 (mulv M a) + k * v1 (mulv M b), v2 (mulv M a) + k * v2 (mulv M b)).
Proof.
  intros [[[[m11 m12] m13] [[m21 m22] m23]] [[m31 m32] m33]] [[a1 a2] a3] [[b1 b2] b3] k. vec.
  repeat (apply pair_equal_spec; split); ring.
Qed.

Lemma base_inverse : forall n A B, v2 n <> 0 -> get_base_from_normal_vector n = Ok (A, B) ->
  exists ex ey ez, base_vectors (v0 n) (v1 n) (v2 n) = (ex, ey, ez) /\ A = transpose3 (ex, ey, ez) /\ B = (ex, ey, ez).
Proof.
  intros n A B Hz H. unfold get_base_from_normal_vector in H.
  destruct (base_vectors (v0 n) (v1 n) (v2 n)) as [[ex ey] ez] eqn:E.
  destruct (inv3 _) as [ B' | ] eqn:EI; [ cbn [bind] in H | discriminate ]. injection H as <- <-.
  exists ex, ey, ez. split; [ reflexivity | ]. split; [ reflexivity | ].
  destruct (C69_base _ _ _ _ _ _ Hz E) as ((O1 & O2 & O3 & O4 & O5 & O6) & Hc & _).
  unfold inv3 in EI. destruct (is_zero _) eqn:EZ; [ discriminate | ]. injection EI as <-.
  assert (D : det3 (transpose3 (ex, ey, ez)) = 1).
  { subst ey. clear - O1 O3 O6. destruct ex as [[a b] c], ez as [[d e] g]. unfold det3. vec. nsatz. }
  rewrite D. subst ey. clear - O1 O2 O3 O4 O5 O6. destruct ex as [[a b] c], ez as [[d e] g]. vec.
  repeat (apply pair_equal_spec; split); rewrite Rinv_1, ?Rmult_1_l; nsatz.
Qed.

(** get_base_from_normal_vector never fails for a direction which is not horizontal, and gives
    the matrix with columns ex, ey, ez and its inverse, with lines ex, ey, ez. *)
Theorem C69_base_matrices : forall n, v2 n <> 0 ->
  exists ex ey ez, base_vectors (v0 n) (v1 n) (v2 n) = (ex, ey, ez) /\
    get_base_from_normal_vector n = Ok (transpose3 (ex, ey, ez), (ex, ey, ez)).
Proof.
  intros n Hz. destruct (get_base_from_normal_vector n) as [ [ A B ] | e ] eqn:E.
  - destruct (base_inverse _ _ _ Hz E) as (ex & ey & ez & H1 & -> & ->). exists ex, ey, ez. auto.
  - exfalso. unfold get_base_from_normal_vector in E.
    destruct (base_vectors (v0 n) (v1 n) (v2 n)) as [[ex ey] ez] eqn:EB.
    destruct (C69_base _ _ _ _ _ _ Hz EB) as ((O1 & O2 & O3 & O4 & O5 & O6) & Hc & _).
    assert (D : det3 (transpose3 (ex, ey, ez)) = 1).
    { subst ey. clear - O1 O3 O6. destruct ex as [[a b] c], ez as [[d e'] g]. unfold det3. vec. nsatz. }
    unfold inv3 in E. rewrite D in E. unfold is_zero in E. destruct (Req_EM_T 1 0); [ lra | discriminate ].
Qed.
Print Assumptions C69_base_matrices.

(** [a] and [b] are seen at the same place by a camera which looks along [n]: they differ by a
    vector along the optical path *)
Definition same_view (n a b : vec3) : Prop := exists k, b = (v0 a + k * v0 n, v1 a + k * v1 n, v2 a + k * v2 n).

Lemma project_same : forall n A B D d, v2 n <> 0 -> get_base_from_normal_vector n = Ok (A, B) -> same_view n D d ->
  project2cam B d = (dot3 (line0 B) D, dot3 (line1 B) D).
Proof.
  intros n A B D d Hz H [ k -> ]. destruct (base_inverse _ _ _ Hz H) as (ex & ey & ez & E & HA & HB).
  destruct (C69_base _ _ _ _ _ _ Hz E) as ((O1 & O2 & O3 & O4 & O5 & O6) & Hc & _ & _ & (c & Hc' & Hn)).
  unfold project2cam. rewrite mulv_lin. subst B.
  assert (E0 : dot3 ex n = 0).
  { destruct n as [[n1 n2] n3]. unfold v0, v1, v2 in Hn. cbn [fst snd] in Hn. rewrite Hn, dot3_sym, dot3_scale, O6. ring. }
  assert (E1 : dot3 ey n = 0).
  { destruct n as [[n1 n2] n3]. unfold v0, v1, v2 in Hn. cbn [fst snd] in Hn. rewrite Hn, dot3_sym, dot3_scale, dot3_sym, O5. ring. }
  unfold mulv, line0, line1, line2, v0, v1 in *. cbn [fst snd] in *. rewrite E0, E1. apply pair_equal_spec; split; ring.
Qed.

Lemma mean_const : forall l a, l <> [] -> (forall x, In x l -> x = a) -> mean l = a.
Proof.
  intros l a Hl H. unfold mean.
  assert (E : fold_right Rplus 0 l = INR (List.length l) * a).
  { clear Hl. induction l as [ | b l IH ]; [ cbn; ring | ].
    cbn [fold_right List.length]. rewrite S_INR, IH by (intros; apply H; right; assumption). rewrite (H b) by (left; reflexivity). ring. }
  rewrite E. field. apply not_0_INR. destruct l; [ contradiction | discriminate ].
Qed.
Lemma std_const : forall l a, l <> [] -> (forall x, In x l -> x = a) -> std l = 0.
Proof.
  intros l a Hl H. unfold std. rewrite (mean_const l a Hl H).
  rewrite (mean_const _ 0); [ apply sqrt_0 | destruct l; [ contradiction | discriminate ] | ].
  intros x Hx. apply in_map_iff in Hx. destruct Hx as (y & <- & Hy). rewrite (H y Hy). ring.
Qed.

(** Two cameras which look in the directions n0 and n1 (the same ones for all their pixels)
    see the displacement D as the displacements d0 and d1 of the laser plane, equal to D up to
    a vector along their optical paths.  If reconstruction succeeds, it returns D, with
    zero errors. *)
Theorem C69_reconstruction_exact : forall allclose n0 n1 s D d0 d1 m e,
  v2 n0 <> 0 -> v2 n1 <> 0 -> stereo_init allclose n0 n1 = Ok s ->
  same_view n0 D d0 -> same_view n1 D d1 ->
  reconstruction s (project2cam (B0 s) d0) (project2cam (B1 s) d1) = Ok (m, e) ->
  m = D /\ e = (0, 0, 0).
Proof.
  intros allclose n0 n1 s D d0 d1 m e Hz0 Hz1 Hs Hv0 Hv1 HR.
  unfold stereo_init in Hs.
  destruct (get_base_from_normal_vector n0) as [ [ a0 b0 ] | ] eqn:G0; [ cbn [bind] in Hs | discriminate ].
  destruct (get_base_from_normal_vector n1) as [ [ a1 b1 ] | ] eqn:G1; [ cbn [bind] in Hs | discriminate ].
  destruct (allclose a0 a1); [ discriminate | ].
  destruct (inv3 (line0 b0, line1 b0, line0 b1)) as [ i0 | ] eqn:I0; [ cbn [bind] in Hs | discriminate ].
  destruct (inv3 (line0 b0, line0 b1, line1 b1)) as [ i1 | ] eqn:I1; [ cbn [bind] in Hs | discriminate ].
  destruct (inv3 (line0 b0, line1 b0, line1 b1)) as [ i2 | ] eqn:I2; [ cbn [bind] in Hs | discriminate ].
  destruct (inv3 (line1 b0, line0 b1, line1 b1)) as [ i3 | ] eqn:I3; [ cbn [bind] in Hs | discriminate ].
  injection Hs as <-. cbn [B0 B1] in HR.
  rewrite (project_same _ _ _ _ _ Hz0 G0 Hv0), (project_same _ _ _ _ _ Hz1 G1 Hv1) in HR.
  unfold reconstruction in HR. cbn [A0 A1 invM0 invM1 invM2 invM3 fst snd] in HR.
  pose proof (inv3_solve _ _ _ _ D I0) as J0. pose proof (inv3_solve _ _ _ _ D I1) as J1.
  pose proof (inv3_solve _ _ _ _ D I2) as J2. pose proof (inv3_solve _ _ _ _ D I3) as J3.
  rewrite J0, J1, J2, J3 in HR.
  match type of HR with match ?t with _ => _ end = _ => set (tmp := t) in HR end.
  assert (HT : forall x, In x tmp -> x = D).
  { intros x Hx. unfold tmp in Hx. repeat (apply in_app_or in Hx; destruct Hx as [ Hx | Hx ]);
      (destruct (_ && _) in Hx; [ destruct Hx as [ Hx | [] ]; auto | destruct Hx ]). }
  destruct tmp as [ | t tmp' ] eqn:ET; [ discriminate | ]. rewrite <- ET in HR, HT.
  assert (Hne : tmp <> []) by (rewrite ET; discriminate).
  assert (Hc : forall pr : vec3 -> R, map pr tmp <> [] /\ forall x, In x (map pr tmp) -> x = pr D).
  { intros pr. split; [ rewrite ET; discriminate | ]. intros x Hx. apply in_map_iff in Hx. destruct Hx as (y & <- & Hy). rewrite (HT y Hy). reflexivity. }
  destruct (Hc v0) as [ N0 C0 ], (Hc v1) as [ N1 C1 ], (Hc v2) as [ N2 C2 ].
  rewrite (mean_const _ _ N0 C0), (mean_const _ _ N1 C1), (mean_const _ _ N2 C2) in HR.
  rewrite (std_const _ _ N0 C0), (std_const _ _ N1 C1), (std_const _ _ N2 C2) in HR.
  injection HR as <- <-. split; [ destruct D as [[D1 D2] D3]; reflexivity | reflexivity ].
Qed.
Print Assumptions C69_reconstruction_exact.

(** But the reconstruction cannot be built for two cameras tilted around the same axis. *)
Theorem C69_same_axis_refuted : forall allclose n0 n1,
  v2 n0 <> 0 -> v2 n1 <> 0 ->
  (v0 n0 = 0 /\ v0 n1 = 0) \/ (v1 n0 = 0 /\ v1 n1 = 0) ->
  (forall a b, allclose a b = false) ->
  stereo_init allclose n0 n1 = Err LinAlgError.
Proof.
  intros allclose n0 n1 Hz0 Hz1 Hn Ha. unfold stereo_init.
  destruct (C69_base_matrices n0 Hz0) as (ex0 & ey0 & ez0 & EB0 & ->).
  destruct (C69_base_matrices n1 Hz1) as (ex1 & ey1 & ez1 & EB1 & ->). cbn [bind]. rewrite Ha.
  unfold line0, line1 at 1. cbn [fst snd].
  destruct (C69_base _ _ _ _ _ _ Hz0 EB0) as ((O1 & O2 & O3 & O4 & O5 & O6) & Hc & X1 & X0 & (k & Hk & Hn0)).
  destruct (C69_base _ _ _ _ _ _ Hz1 EB1) as ((P1 & P2 & P3 & P4 & P5 & P6) & Hd & Y1 & Y0 & (k' & Hk' & Hn1)).
  assert (Hzz : v2 ez0 <> 0 /\ v2 ez1 <> 0).
  { clear - Hn0 Hn1 Hz0 Hz1. destruct n0 as [[n1' n2] n3], n1 as [[p1 p2] p3], ez0 as [[a b] c], ez1 as [[d e] g]. vec.
    injection Hn0. injection Hn1. intros; subst. split; intros ->; lra. }
  destruct Hzz as [ Z0 Z1 ].
  destruct Hn as [ [ A B ] | [ A B ] ].
  - assert (E0 : v0 ez0 = 0 /\ v0 ez1 = 0).
    { clear - Hn0 Hn1 A B Hk Hk'. destruct n0 as [[n1' n2] n3], n1 as [[p1 p2] p3], ez0 as [[a b] c], ez1 as [[d e] g]. vec.
      injection Hn0. injection Hn1. intros. subst n1' p1. split; [ destruct (Rmult_integral k a); auto | destruct (Rmult_integral k' d); auto ]; lra. }
    destruct E0 as [ E0 F0 ].
    assert (D : det3 (ex0, ey0, ex1) = 0).
    { clear - O1 O6 P6 P1 X1 Y1 Z0 Z1 E0 F0. destruct ex0 as [[a b] c], ex1 as [[d e] g], ez0 as [[h i] j], ez1 as [[l m] o], ey0 as [[q r] t].
      unfold det3. vec. subst. assert (c = 0) by (destruct (Rmult_integral j c); auto; lra).
      assert (g = 0) by (destruct (Rmult_integral o g); auto; lra). subst. ring. }
    unfold inv3 at 1. cbn [fst snd]. rewrite D. replace (is_zero 0) with true by (symmetry; apply is_zero_true; reflexivity). reflexivity.
  - assert (E0 : v1 ez0 = 0 /\ v1 ez1 = 0).
    { clear - Hn0 Hn1 A B Hk Hk'. destruct n0 as [[n1' n2] n3], n1 as [[p1 p2] p3], ez0 as [[a b] c], ez1 as [[d e] g]. vec.
      injection Hn0. injection Hn1. intros. subst n2 p2. split; [ destruct (Rmult_integral k b); auto | destruct (Rmult_integral k' e); auto ]; lra. }
    destruct E0 as [ E0 F0 ].
    assert (D : det3 (ex0, ey0, ey1) = 0).
    { subst ey0 ey1. clear - X1 Y1 E0 F0. destruct ex0 as [[a b] c], ex1 as [[d e] g], ez0 as [[h i] j], ez1 as [[l m] o].
      unfold det3. vec. subst. ring. }
    destruct (inv3 (ex0, ey0, ex1)) as [ i0 | ] eqn:I0; [ cbn [bind] | unfold inv3 in I0; destruct (is_zero _) in I0; [ injection I0 as <-; reflexivity | discriminate ] ].
    unfold line1. cbn [fst snd].
    destruct (inv3 (ex0, ex1, ey1)) as [ i1 | ] eqn:I1; [ cbn [bind] | unfold inv3 in I1; destruct (is_zero _) in I1; [ injection I1 as <-; reflexivity | discriminate ] ].
    unfold inv3 at 1. cbn [fst snd]. rewrite D. replace (is_zero 0) with true by (symmetry; apply is_zero_true; reflexivity). reflexivity.
Qed.
Print Assumptions C69_same_axis_refuted.

(** reconstruction fails exactly if the first two lines of the matrices are almost parallel two
    by two: each of the four triples of vectors is then excluded *)
Theorem C69_reconstruction_fails_iff : forall s d0 d1,
  let near a b := threshold <= Rabs (dot3 a b) in
  reconstruction s d0 d1 = Err TypeError <->
  (near (line0 (A0 s)) (line0 (A1 s)) /\ near (line1 (A0 s)) (line1 (A1 s))) \/
  (near (line1 (A0 s)) (line0 (A1 s)) /\ near (line0 (A0 s)) (line1 (A1 s))).
Proof.
  intros s d0 d1 near. unfold reconstruction, near.
  set (n1 := Rabs (dot3 (line0 (A0 s)) (line0 (A1 s)))). set (n2 := Rabs (dot3 (line1 (A0 s)) (line1 (A1 s)))).
  set (n3 := Rabs (dot3 (line1 (A0 s)) (line0 (A1 s)))). set (n4 := Rabs (dot3 (line0 (A0 s)) (line1 (A1 s)))).
  cbv zeta beta.
  assert (K : forall n, (gt threshold n = true /\ n < threshold) \/ (gt threshold n = false /\ threshold <= n)).
  { intros n. destruct (gt threshold n) eqn:E; [ left | right ]; split; auto; [ apply gt_true in E | apply gt_false in E ]; lra. }
  destruct (K n1) as [ [ -> H1 ] | [ -> H1 ] ], (K n2) as [ [ -> H2 ] | [ -> H2 ] ],
    (K n3) as [ [ -> H3 ] | [ -> H3 ] ], (K n4) as [ [ -> H4 ] | [ -> H4 ] ]; cbn [andb app];
    (split; [ intros H; try discriminate H; tauto | intros [ [ ? ? ] | [ ? ? ] ]; try reflexivity; lra ]).
Qed.
Print Assumptions C69_reconstruction_fails_iff.

(** two cameras, tilted around different axes *)
Lemma base_304 : base_vectors 3 0 4 = ((4/5, 0, -3/5), (0, 1, 0), (3/5, 0, 4/5)).
Proof.
  unfold base_vectors. cbv zeta.
  assert (N1 : norm3 (3, 0, 4) = 5).
  { unfold norm3. replace (dot3 (3, 0, 4) (3, 0, 4)) with (5 * 5) by (vec; ring). apply sqrt_square. lra. }
  assert (N2 : norm3 (1, 0, - (1 * 3 + 0 * 0) / 4) = 5 / 4).
  { unfold norm3. replace (dot3 _ _) with ((5 / 4) * (5 / 4)) by (vec; field). apply sqrt_square. lra. }
  rewrite N1, N2. vec. repeat (apply pair_equal_spec; split); field.
Qed.
Lemma base_034 : base_vectors 0 3 4 = ((1, 0, 0), (0, 4/5, -3/5), (0, 3/5, 4/5)).
Proof.
  unfold base_vectors. cbv zeta.
  assert (N1 : norm3 (0, 3, 4) = 5).
  { unfold norm3. replace (dot3 (0, 3, 4) (0, 3, 4)) with (5 * 5) by (vec; ring). apply sqrt_square. lra. }
  assert (N2 : norm3 (1, 0, - (1 * 0 + 0 * 3) / 4) = 1).
  { unfold norm3. replace (dot3 _ _) with 1 by (vec; field). apply sqrt_1. }
  rewrite N1, N2. vec. repeat (apply pair_equal_spec; split); field.
Qed.
Lemma threshold_large : 4 / 5 < threshold.
Proof.
  unfold threshold. pose proof PI_RGT_0. pose proof PI_4.
  assert (cos (PI / 6) < cos (5 * 2 * PI / 180)) by (apply cos_decreasing_1; lra).
  rewrite cos_PI6 in *.
  assert (8 / 5 < sqrt 3); [ | lra ].
  replace (8 / 5) with (sqrt ((8 / 5) * (8 / 5))) by (apply sqrt_square; lra). apply sqrt_lt_1; lra.
Qed.

Example C69_case : exists s, stereo_init (fun _ _ => false) (3, 0, 4) (0, 3, 4) = Ok s /\
  forall d0 d1, exists m e, reconstruction s d0 d1 = Ok (m, e).
Proof.
  unfold stereo_init.
  destruct (C69_base_matrices (3, 0, 4)) as (ex0 & ey0 & ez0 & E0 & ->); [ unfold v2; cbn; lra | ].
  destruct (C69_base_matrices (0, 3, 4)) as (ex1 & ey1 & ez1 & E1 & ->); [ unfold v2; cbn; lra | ].
  unfold v0, v1, v2 in E0, E1. cbn [fst snd] in E0, E1. rewrite base_304 in E0. rewrite base_034 in E1.
  apply pair_equal_spec in E0. destruct E0 as [ E0 <- ]. apply pair_equal_spec in E0. destruct E0 as [ <- <- ].
  apply pair_equal_spec in E1. destruct E1 as [ E1 <- ]. apply pair_equal_spec in E1. destruct E1 as [ <- <- ]. cbn [bind].
  assert (K : forall M, det3 M <> 0 -> exists N, inv3 M = Ok N).
  { intros M HM. unfold inv3. apply is_zero_false in HM. rewrite HM. eexists; reflexivity. }
  unfold line0, line1. cbn [fst snd].
  match goal with |- context [ bind (inv3 ?M) _ ] => destruct (K M) as [ i0 -> ]; [ unfold det3; vec; lra | ] end. cbn [bind].
  match goal with |- context [ bind (inv3 ?M) _ ] => destruct (K M) as [ i1 -> ]; [ unfold det3; vec; lra | ] end. cbn [bind].
  match goal with |- context [ bind (inv3 ?M) _ ] => destruct (K M) as [ i2 -> ]; [ unfold det3; vec; lra | ] end. cbn [bind].
  match goal with |- context [ bind (inv3 ?M) _ ] => destruct (K M) as [ i3 -> ]; [ unfold det3; vec; lra | ] end. cbn [bind].
  eexists. split; [ reflexivity | ].
  intros d0 d1.
  match goal with |- exists m e, reconstruction ?s _ _ = _ => set (st := s) end.
  destruct (reconstruction st d0 d1) as [ [ m e ] | er ] eqn:E; [ exists m, e; reflexivity | exfalso ].
  assert (Ht : er = TypeError).
  { unfold reconstruction in E. cbv zeta in E.
    match type of E with match ?t with _ => _ end = _ => destruct t; [ injection E as <-; reflexivity | discriminate ] end. }
  subst er. apply C69_reconstruction_fails_iff in E. unfold st in E. cbn [A0 A1] in E.
  pose proof threshold_large as HT. vec.
  assert (Q : forall x a, Rabs a <= 4 / 5 -> threshold <= Rabs x -> x = a -> False) by (intros x a Q1 Q2 ->; lra).
  destruct E as [ [ E _ ] | [ E _ ] ].
  - refine (Q _ (4 / 5) _ E _); [ rewrite Rabs_right; lra | field ].
  - refine (Q _ 0 _ E _); [ rewrite Rabs_R0; lra | field ].
Qed.

(** C104: a field saved in a file and read again.  C105: the metadata of the fields given by the operations.
    C106: the regularity of the grid. *)
From Coq Require Import Sorted.
From Verif Require Import PyBase StrModel VecFieldModel VecFieldProps GridProps FieldObjModel.
Local Open Scope Z_scope.

Lemma bind_ok {A B} (r : result A) (k : A -> result B) b : bind r k = Ok b -> exists a, r = Ok a /\ k a = Ok b.
Proof. destruct r as [a|e]; cbn; [|discriminate]. intros H. exists a. auto. Qed.
Lemma str_eqb_refl a : str_eqb a a = true.
Proof. unfold str_eqb. destruct (list_eq_dec ascii_dec a a); congruence. Qed.
Lemma str_eqb_eq a b : str_eqb a b = true <-> a = b.
Proof. unfold str_eqb. destruct (list_eq_dec ascii_dec a b); split; congruence. Qed.
Lemma get_01 (l : list Z) : (2 <= List.length l)%nat -> exists a b m, l = a :: b :: m /\ py_get l 1 = Ok b /\ py_get l 0 = Ok a.
Proof.
  destruct l as [|a [|b m]]; cbn; try lia. intros _. exists a, b, m. split; [reflexivity|].
  assert (HL : 2 <= zlen (a :: b :: m)) by (unfold zlen; cbn; lia).
  unfold py_get. change (1 <? 0) with false. change (0 <? 0) with false. cbv iota zeta. split; [replace ((0 <=? 1) && (1 <? zlen (a :: b :: m))) with true by lia; reflexivity|].
  replace ((0 <=? 0) && (0 <? zlen (a :: b :: m))) with true by lia. reflexivity.
Qed.
Lemma get_1_short (l : list Z) : (List.length l < 2)%nat -> py_get l 1 = Err IndexError.
Proof. intros H. unfold py_get. change (1 <? 0) with false. cbv iota zeta. replace (1 <? zlen l) with false by (unfold zlen; lia). reflexivity. Qed.
Lemma flip_increasing l : increasing l -> (2 <= List.length l)%nat -> flip l = Ok false.
Proof.
  intros Hi H2. destruct (get_01 l H2) as (a & b & m & -> & H1 & H0). unfold flip. rewrite H1, H0. cbn [bind]. f_equal.
  inversion Hi as [|? ? _ HF]; subst. inversion HF; subst. lia.
Qed.
Lemma flip_monotone l : monotone l -> exists fl, flip l = Ok fl /\ increasing (if fl then rev l else l).
Proof.
  intros [H2 Hm]. destruct (get_01 l H2) as (a & b & m & El & H1 & H0). exists (b - a <? 0). unfold flip. rewrite H1, H0. split; [reflexivity|].
  exact (monotone_cases l a b m El Hm).
Qed.
Lemma sorted_skipn {A} (R : A -> A -> Prop) n l : StronglySorted R l -> StronglySorted R (skipn n l).
Proof. revert l. induction n as [|n IH]; intros l H; [exact H|]. destruct l; [exact H|]. inversion H; subst. apply IH. assumption. Qed.
Lemma sorted_firstn {A} (R : A -> A -> Prop) n l : StronglySorted R l -> StronglySorted R (firstn n l).
Proof.
  revert l. induction n as [|n IH]; intros l H; [constructor|]. destruct l as [|a l]; [constructor|]. inversion H; subst. cbn. constructor; [apply IH; assumption|].
  apply Forall_forall. intros x Hx. rewrite Forall_forall in H3. apply H3. rewrite <- (firstn_skipn n l). apply in_or_app. auto.
Qed.
Lemma slice_increasing l a b : increasing l -> increasing (py_slice l a b).
Proof. intros H. unfold py_slice. apply sorted_firstn, sorted_skipn, H. Qed.

(** *** Specification *)
Section Spec.
Context {V : Type}.
Variable close : Z -> Z -> bool.
Variable from_piv_file : file V -> result (fobj V).
Variable cls mod_ : chars.

(** The objects a program can hold: constructed from coordinates that increase or decrease, results of
    operators and extractions, regularized, read from the file of another object. *)
Inductive reachable : fobj V -> Prop :=
| r_made x y z vx vy vz m p f : monotone x -> monotone y -> make close x y z vx vy vz m p = Ok f -> reachable f
| r_arith op f o g : reachable f -> arith close op f o = Ok g -> reachable g
| r_extract s0 e0 s1 e1 t f : reachable f -> reachable (oextract s0 e0 s1 e1 t f)
| r_regularize f : reachable f -> reachable (fst (regularize_grid close f))
| r_loaded f p g : reachable f -> from_file close from_piv_file cls mod_ (fst (save cls mod_ f p)) = Ok g -> reachable g.

(** the same values *)
Definition same_vz (a b : vzcomp V) : Prop :=
  match a, b with
  | VzArr u, VzArr v => u = v
  | (VzNum u | VzZero u), (VzNum v | VzZero v) => u = v
  | _, _ => False
  end.
Definition same_data (f g : fobj V) : Prop :=
  o_x g = o_x f /\ o_y g = o_y f /\ o_z g = o_z f /\ o_vx g = o_vx f /\ o_vy g = o_vy f /\ same_vz (o_vz f) (o_vz g).

Lemma make_increasing x y z vx vy vz m p (f : fobj V) : monotone x -> monotone y -> make close x y z vx vy vz m p = Ok f -> increasing (o_x f) /\ increasing (o_y f).
Proof.
  intros Hx Hy. destruct (flip_monotone x Hx) as (fx & Ex & Ix). destruct (flip_monotone y Hy) as (fy & Ey & Iy).
  unfold make. rewrite Ex, Ey. cbn [bind]. destruct fx, fy; intros H; apply bind_ok in H; destruct H as (s & _ & H); injection H as <-; cbn [o_x o_y]; auto.
Qed.
Lemma make_same x y z (vx vy : array2 V) vz m p : increasing x -> increasing y -> (2 <= List.length x)%nat -> (2 <= List.length y)%nat ->
  make close x y z vx vy vz m p = (do s <- grid_state close x y z ; Ok (mk_fobj x y z vx vy vz m p s)).
Proof. intros Ix Iy Lx Ly. unfold make. rewrite (flip_increasing x Ix Lx), (flip_increasing y Iy Ly). reflexivity. Qed.
Lemma make_length x y z vx vy vz m p (f : fobj V) : make close x y z vx vy vz m p = Ok f -> (2 <= List.length x)%nat /\ (2 <= List.length y)%nat.
Proof.
  unfold make. intros H. apply bind_ok in H. destruct H as (fx & Ex & H). apply bind_ok in H. destruct H as (fy & Ey & _).
  unfold flip in Ex, Ey. apply bind_ok in Ex. destruct Ex as (a & Ea & _). apply bind_ok in Ey. destruct Ey as (b & Eb & _).
  split; [destruct (Nat.lt_ge_cases (List.length x) 2) as [L|L]; [|exact L]; rewrite (get_1_short x L) in Ea; discriminate|].
  destruct (Nat.lt_ge_cases (List.length y) 2) as [L|L]; [|exact L]. rewrite (get_1_short y L) in Eb. discriminate.
Qed.
Lemma make_keeps x y z vx vy vz m p (f : fobj V) : increasing x -> increasing y -> make close x y z vx vy vz m p = Ok f ->
  o_x f = x /\ o_y f = y /\ o_z f = z /\ o_vx f = vx /\ o_vy f = vy /\ o_vz f = vz /\ o_meta f = m /\ o_params f = p /\ grid_state close x y z = Ok (o_steps f).
Proof.
  intros Ix Iy H. destruct (make_length _ _ _ _ _ _ _ _ _ H) as [Lx Ly]. rewrite (make_same _ _ _ _ _ _ _ _ Ix Iy Lx Ly) in H.
  apply bind_ok in H. destruct H as (s & Es & H). injection H as <-. cbn [o_x o_y o_z o_vx o_vy o_vz o_meta o_params o_steps]. rewrite Es. repeat split.
Qed.

(** the value of an array at a position *)
Definition value_at {W} (xs ys : list Z) (A : array2 W) (x y : Z) (u : W) : Prop :=
  exists i j, nth_error xs j = Some x /\ nth_error ys i = Some y /\ get2 A i j = Some u.
Lemma value_vector {W} xs ys (A : array2 W) x y u : value_at xs ys A x y u <-> vector_at xs ys A A x y u u.
Proof. clear. unfold value_at, vector_at. firstorder. Qed.
Lemma flips_at {W} (fx fy : bool) xs ys (A : array2 W) x y u : shape A (List.length ys) (List.length xs) ->
  (value_at (if fx then rev xs else xs) (if fy then rev ys else ys) (if fy then flipud (if fx then fliplr A else A) else (if fx then fliplr A else A)) x y u <-> value_at xs ys A x y u).
Proof.
  clear. intros SA. rewrite !value_vector.
  assert (K : vector_at (if fx then rev xs else xs) ys (if fx then fliplr A else A) (if fx then fliplr A else A) x y u u <-> vector_at xs ys A A x y u u).
  { destruct fx; [|reflexivity]. pose proof (fliplr_shape _ _ _ SA) as SA'. split; intros H.
    - apply (vector_at_fliplr _ _ _ _ _ _ _ _ (List.length ys)) in H; rewrite ?rev_length; try assumption. rewrite rev_involutive, !fliplr_involutive in H. exact H.
    - apply (vector_at_fliplr _ _ _ _ _ _ _ _ (List.length ys)); assumption. }
  rewrite <- K. set (xs' := if fx then rev xs else xs). set (A' := if fx then fliplr A else A).
  assert (SA' : shape A' (List.length ys) (List.length xs)) by (unfold A'; destruct fx; [apply fliplr_shape|]; assumption).
  destruct fy; [|reflexivity]. split; intros H.
  - apply (vector_at_flipud _ _ _ _ _ _ _ _ (List.length xs)) in H; rewrite ?rev_length; try (apply flipud_shape; assumption).
    rewrite rev_involutive, !flipud_involutive in H. exact H.
  - apply (vector_at_flipud _ _ _ _ _ _ _ _ (List.length xs)); assumption.
Qed.

(** The constructor orients the data: each array has at each position the value that was given. *)
Theorem C104_constructor : forall x y z (vx vy : array2 V) vz m p f, monotone x -> monotone y -> make close x y z vx vy vz m p = Ok f ->
  (forall A, In A [vx; vy] \/ vz = VzArr A -> shape A (List.length y) (List.length x)) -> (forall A, z = ZPlane A -> shape A (List.length y) (List.length x)) ->
  o_meta f = m /\ o_params f = p /\
  (forall a b u, value_at (o_x f) (o_y f) (o_vx f) a b u <-> value_at x y vx a b u) /\
  (forall a b u, value_at (o_x f) (o_y f) (o_vy f) a b u <-> value_at x y vy a b u) /\
  match vz with
  | VzArr A => exists B, o_vz f = VzArr B /\ forall a b u, value_at (o_x f) (o_y f) B a b u <-> value_at x y A a b u
  | _ => o_vz f = vz
  end /\
  match z with
  | ZPlane A => exists B, o_z f = ZPlane B /\ forall a b u, value_at (o_x f) (o_y f) B a b u <-> value_at x y A a b u
  | _ => o_z f = z
  end.
Proof.
  intros x y z vx vy vz m p f Hx Hy H SV SZ.
  destruct (flip_monotone x Hx) as (fx & Ex & _). destruct (flip_monotone y Hy) as (fy & Ey & _). unfold make in H. rewrite Ex, Ey in H. cbn [bind] in H.
  assert (SX : shape vx (List.length y) (List.length x)) by (apply SV; left; cbn; auto).
  assert (SY : shape vy (List.length y) (List.length x)) by (apply SV; left; cbn; auto).
  destruct fx, fy; apply bind_ok in H; destruct H as (s & _ & H); injection H as <-; cbn [o_meta o_params o_x o_y o_z o_vx o_vy o_vz];
    (split; [reflexivity|]; split; [reflexivity|]);
    (split; [intros a b u; first [exact (flips_at true true x y vx a b u SX) | exact (flips_at true false x y vx a b u SX) | exact (flips_at false true x y vx a b u SX) | exact (flips_at false false x y vx a b u SX)]|]);
    (split; [intros a b u; first [exact (flips_at true true x y vy a b u SY) | exact (flips_at true false x y vy a b u SY) | exact (flips_at false true x y vy a b u SY) | exact (flips_at false false x y vy a b u SY)]|]);
    (split; [destruct vz as [v|v|A]; [reflexivity|reflexivity|]; eexists; split; [reflexivity|]; intros a b u; pose proof (SV A (or_intror eq_refl)) as SA;
       first [exact (flips_at true true x y A a b u SA) | exact (flips_at true false x y A a b u SA) | exact (flips_at false true x y A a b u SA) | exact (flips_at false false x y A a b u SA)]|]);
    (destruct z as [|k|l|A]; [reflexivity|reflexivity|reflexivity|]; eexists; split; [reflexivity|]; intros a b u; pose proof (SZ A eq_refl) as SA;
       first [exact (flips_at true true x y A a b u SA) | exact (flips_at true false x y A a b u SA) | exact (flips_at false true x y A a b u SA) | exact (flips_at false false x y A a b u SA)]).
Qed.

Hypothesis not_piv : mod_ <> of_string "fluidimage.data_objects.piv".

Lemma from_file_save (f : fobj V) p : o_z f <> ZNone -> exists fl, save cls mod_ f p = (fl, None) /\
  from_file close from_piv_file cls mod_ fl =
    make close (o_x f) (o_y f) (o_z f) (o_vx f) (o_vy f) (match o_vz f with VzNum v => VzZero v | v => v end) (o_meta f)
      (match (match p with None => o_params f | Some _ => p end) with
       | Some q => if str_eqb (fst q) (of_string "params") then Some q else None | None => None end).
Proof.
  intros Hz. unfold save. destruct (o_z f) as [|z|l|a] eqn:Ez; [congruence| | |]; cbn [ds_z];
    (eexists; split; [reflexivity|]); unfold from_file; cbn [f_class f_module f_datasets f_attrs f_groups];
    (destruct (str_eqb mod_ (of_string "fluidimage.data_objects.piv")) eqn:E; [apply str_eqb_eq in E; congruence|]);
    rewrite andb_false_r, !str_eqb_refl; cbn [andb app lookup bind str_eqb list_eq_dec];
    change (str_eqb (of_string "vx") (of_string "vx")) with true; change (str_eqb (of_string "vx") (of_string "vy")) with false;
    change (str_eqb (of_string "vx") (of_string "vz")) with false; change (str_eqb (of_string "vx") (of_string "x")) with false;
    change (str_eqb (of_string "vx") (of_string "y")) with false; change (str_eqb (of_string "vx") (of_string "z")) with false;
    change (str_eqb (of_string "vy") (of_string "vy")) with true; change (str_eqb (of_string "vy") (of_string "vz")) with false;
    change (str_eqb (of_string "vy") (of_string "x")) with false; change (str_eqb (of_string "vy") (of_string "y")) with false;
    change (str_eqb (of_string "vy") (of_string "z")) with false;
    change (str_eqb (of_string "vz") (of_string "vz")) with true; change (str_eqb (of_string "vz") (of_string "x")) with false;
    change (str_eqb (of_string "vz") (of_string "y")) with false; change (str_eqb (of_string "vz") (of_string "z")) with false;
    change (str_eqb (of_string "x") (of_string "x")) with true; change (str_eqb (of_string "x") (of_string "y")) with false;
    change (str_eqb (of_string "x") (of_string "z")) with false; change (str_eqb (of_string "y") (of_string "y")) with true;
    change (str_eqb (of_string "y") (of_string "z")) with false; change (str_eqb (of_string "z") (of_string "z")) with true;
    cbn [bind as_array as_line as_z];
    (destruct (o_vz f); cbn [ds_vz as_vz bind]; destruct (match p with Some _ => p | None => o_params f end) as [q|]; cbn [find]; try reflexivity;
      destruct (str_eqb (fst q) (of_string "params")); reflexivity).
Qed.

Lemma arith_make op (f : fobj V) o g : arith close op f o = Ok g -> exists vx vy vz, make close (o_x f) (o_y f) (o_z f) vx vy vz default_meta None = Ok g.
Proof.
  unfold arith. destruct o as [v|h]; intros H.
  - apply bind_ok in H. destruct H as (vz & _ & H). eauto.
  - apply bind_ok in H. destruct H as (vx & _ & H). apply bind_ok in H. destruct H as (vy & _ & H). apply bind_ok in H. destruct H as (vz & _ & H). eauto.
Qed.
Lemma regularize_coords (f : fobj V) : exists a b c d, (o_x (fst (regularize_grid close f)) = py_slice (o_x f) a b \/ o_x (fst (regularize_grid close f)) = o_x f) /\
  (o_y (fst (regularize_grid close f)) = py_slice (o_y f) c d \/ o_y (fst (regularize_grid close f)) = o_y f).
Proof.
  exists 0, (-1), 0, (-1). unfold regularize_grid. destruct (o_steps f); [cbn; auto|]. destruct (o_vz f); [|cbn; auto|cbn; auto]. destruct (o_z f); cbn [fst]; auto;
    (destruct (must_cut close (o_x f)) as [cx|]; [|cbn; auto]; destruct cx;
      (destruct (must_cut close _) as [cy|]; [|cbn; auto]; destruct cy;
        destruct (grid_state close _ _ _) as [[s|]|]; cbn; auto)).
Qed.
Lemma loaded_none (f : fobj V) p : o_z f = ZNone -> from_file close from_piv_file cls mod_ (fst (save cls mod_ f p)) = Err KeyError.
Proof.
  intros Hz. unfold save. rewrite Hz. cbn [ds_z fst]. unfold from_file. cbn [f_class f_module f_datasets f_attrs f_groups].
  destruct (str_eqb mod_ (of_string "fluidimage.data_objects.piv")) eqn:E; [apply str_eqb_eq in E; congruence|].
  rewrite andb_false_r, !str_eqb_refl. cbn [andb]. destruct (o_vz f); reflexivity.
Qed.

Theorem C104_coordinates_increase : forall f, reachable f -> increasing (o_x f) /\ increasing (o_y f).
Proof.
  intros f H. induction H as [x y z vx vy vz m p f Hx Hy E | op f o g _ IH E | s0 e0 s1 e1 t f _ IH | f _ IH | f p g _ IH E].
  - exact (make_increasing _ _ _ _ _ _ _ _ _ Hx Hy E).
  - destruct (arith_make _ _ _ _ E) as (vx & vy & vz & Em). destruct (make_keeps _ _ _ _ _ _ _ _ _ (proj1 IH) (proj2 IH) Em) as (-> & -> & _). exact IH.
  - cbn. split; apply slice_increasing; apply IH.
  - destruct (regularize_coords f) as (a & b & c & d & [-> | ->] & [-> | ->]); split; try apply slice_increasing; apply IH.
  - destruct (o_z f) eqn:Ez; [rewrite (loaded_none f p Ez) in E; discriminate| | |];
      (destruct (from_file_save f p) as (fl & Es & Ef); [congruence|]; rewrite Es in E; cbn [fst] in E; rewrite Ef in E;
       destruct (make_keeps _ _ _ _ _ _ _ _ _ (proj1 IH) (proj2 IH) E) as (-> & -> & _); exact IH).
Qed.

(** the parameters written in the file *)
Definition chosen (f : fobj V) (p : option params) : option params := match p with Some _ => p | None => o_params f end.

(** What is saved is read: the same coordinates, values, names, units, name and history, and the parameters. *)
Theorem C104_roundtrip : forall f p, reachable f -> (2 <= List.length (o_x f))%nat -> (2 <= List.length (o_y f))%nat ->
  o_z f <> ZNone -> (forall l, o_z f = ZLine l -> (2 <= List.length l)%nat) ->
  exists fl g, save cls mod_ f p = (fl, None) /\ from_file close from_piv_file cls mod_ fl = Ok g /\
    same_data f g /\ o_meta g = o_meta f /\
    (forall q, chosen f p = Some q -> fst q = of_string "params" -> o_params g = Some q) /\ (chosen f p = None -> o_params g = None) /\
    grid_state close (o_x f) (o_y f) (o_z f) = Ok (o_steps g).
Proof.
  intros f p Hr Lx Ly Hz Hl. destruct (C104_coordinates_increase f Hr) as [Ix Iy]. destruct (from_file_save f p Hz) as (fl & Es & Ef).
  exists fl. rewrite Ef. rewrite (make_same _ _ _ _ _ _ _ _ Ix Iy Lx Ly).
  assert (exists s, grid_state close (o_x f) (o_y f) (o_z f) = Ok s) as (s & Eg).
  { unfold grid_state, is_regular. destruct (get_01 _ Lx) as (a & b & m & _ & -> & ->). destruct (get_01 _ Ly) as (a' & b' & m' & _ & -> & ->). cbn [bind].
    destruct (forallb (fun d => close d (b - a)) (differences (o_x f))); cbn [bind]; [|eauto].
    destruct (forallb (fun d => close d (b' - a')) (differences (o_y f))); cbn [bind]; [|eauto].
    destruct (o_z f) as [|z|l|pl] eqn:Ez; cbn [bind]; [eauto|eauto| |eauto].
    destruct (get_01 l (Hl l eq_refl)) as (a2 & b2 & m2 & _ & -> & ->). cbn [bind]. destruct (forallb _ _); cbn [bind]; eauto. }
  rewrite Eg. cbn [bind]. eexists. split; [exact Es|]. split; [reflexivity|]. cbn [o_x o_y o_z o_vx o_vy o_vz o_meta o_params o_steps].
  split; [unfold same_data; cbn [o_x o_y o_z o_vx o_vy o_vz]; destruct (o_vz f); cbn; auto 10|]. split; [reflexivity|]. fold (chosen f p).
  split; [intros q -> Hq; rewrite Hq, str_eqb_refl; reflexivity|]. split; [intros ->; reflexivity|reflexivity].
Qed.

(** A field read and saved again gives the same file. *)
Theorem C104_idempotent : forall f p g, reachable f -> o_z f <> ZNone ->
  (forall q, chosen f p = Some q -> fst q = of_string "params") ->
  from_file close from_piv_file cls mod_ (fst (save cls mod_ f p)) = Ok g -> save cls mod_ g None = save cls mod_ f p.
Proof.
  intros f p g Hr Hz Hq E. destruct (C104_coordinates_increase f Hr) as [Ix Iy]. destruct (from_file_save f p Hz) as (fl & Es & Ef).
  rewrite Es in E. cbn [fst] in E. rewrite Ef in E. destruct (make_keeps _ _ _ _ _ _ _ _ _ Ix Iy E) as (E1 & E2 & E3 & E4 & E5 & E6 & E7 & E8 & _).
  unfold save. rewrite E1, E2, E3, E4, E5, E6, E7, E8. fold (chosen f p).
  assert (Ec : match chosen f p with Some q => if str_eqb (fst q) (of_string "params") then Some q else None | None => None end = chosen f p).
  { destruct (chosen f p) as [q|] eqn:Ec; [|reflexivity]. rewrite (Hq q eq_refl), str_eqb_refl. reflexivity. }
  rewrite Ec. assert (Ev : ds_vz match o_vz f with VzNum v => VzZero v | v => v end = ds_vz (o_vz f)) by (destruct (o_vz f); reflexivity).
  rewrite Ev. reflexivity.
Qed.

(** The fields made from PIV files ([z] is None) cannot be saved; what was in the file is lost and the new file
    cannot be read. *)
Theorem C104_z_none_refuted : forall (f : fobj V) p, o_z f = ZNone ->
  snd (save cls mod_ f p) = Some TypeError /\ from_file close from_piv_file cls mod_ (fst (save cls mod_ f p)) = Err KeyError.
Proof. intros f p Hz. split; [unfold save; rewrite Hz; reflexivity|]. apply loaded_none, Hz. Qed.

(** A field with one column (or one line), obtained by an extraction, can be saved but not read. *)
Theorem C104_one_column_refuted : forall (f : fobj V) p, o_z f <> ZNone -> (List.length (o_x f) < 2 \/ List.length (o_y f) < 2)%nat ->
  snd (save cls mod_ f p) = None /\ from_file close from_piv_file cls mod_ (fst (save cls mod_ f p)) = Err IndexError.
Proof.
  intros f p Hz HL. destruct (from_file_save f p Hz) as (fl & Es & Ef). rewrite Es. cbn [fst snd]. split; [reflexivity|]. rewrite Ef. unfold make, flip.
  destruct (Nat.lt_ge_cases (List.length (o_x f)) 2) as [L|L]; [rewrite (get_1_short _ L); reflexivity|].
  destruct (get_01 _ L) as (a & b & m & _ & -> & ->). cbn [bind]. destruct HL as [HL | HL]; [lia|]. rewrite (get_1_short _ HL). reflexivity.
Qed.

(** A third component which is a number is read as an array of dimension zero: the grid of the field that is read
    cannot be regularized, although the grid of the field that was saved could be. *)
Theorem C104_vz_refuted : forall f p v g, reachable f -> o_z f <> ZNone -> o_vz f = VzNum v ->
  from_file close from_piv_file cls mod_ (fst (save cls mod_ f p)) = Ok g ->
  o_vz g = VzZero v /\ (o_steps g = None -> snd (regularize_grid close g) = Some NotImplementedError).
Proof.
  intros f p v g Hr Hz Hv E. destruct (C104_coordinates_increase f Hr) as [Ix Iy]. destruct (from_file_save f p Hz) as (fl & Es & Ef).
  rewrite Es in E. cbn [fst] in E. rewrite Ef in E. destruct (make_keeps _ _ _ _ _ _ _ _ _ Ix Iy E) as (E1 & E2 & E3 & E4 & E5 & E6 & _).
  rewrite Hv in E6. split; [exact E6|]. intros Hs. unfold regularize_grid. rewrite Hs, E6. reflexivity.
Qed.

(** The class of the object that reads must be the class of the object saved. *)
Theorem C104_class : forall (f : fobj V) p cls' mod', cls' <> cls \/ mod' <> mod_ ->
  from_file close from_piv_file cls' mod' (fst (save cls mod_ f p)) = Err NotImplementedError.
Proof.
  intros f p cls' mod' H. assert (E : f_class (fst (save cls mod_ f p)) = cls /\ f_module (fst (save cls mod_ f p)) = mod_).
  { unfold save. destruct (ds_z (o_z f)); split; reflexivity. }
  unfold from_file. destruct E as [-> ->]. destruct (str_eqb mod_ (of_string "fluidimage.data_objects.piv")) eqn:E; [apply str_eqb_eq in E; congruence|].
  rewrite andb_false_r. destruct (str_eqb cls cls') eqn:E1; [|reflexivity]. destruct (str_eqb mod_ mod') eqn:E2; [|reflexivity].
  apply str_eqb_eq in E1. apply str_eqb_eq in E2. destruct H; congruence.
Qed.
End Spec.
Print Assumptions C104_constructor.
Print Assumptions C104_coordinates_increase.
Print Assumptions C104_roundtrip.
Print Assumptions C104_idempotent.
Print Assumptions C104_z_none_refuted.
Print Assumptions C104_one_column_refuted.
Print Assumptions C104_vz_refuted.
Print Assumptions C104_class.

(** ** C105 *)
Section Ops.
Context {V : Type}.
Variable close : Z -> Z -> bool.
Variable op : V -> V -> V.

Lemma zipv_nth : forall a b l, zipv op a b = Ok l -> List.length l = List.length a /\ List.length b = List.length a /\
  forall i u w, nth_error a i = Some u -> nth_error b i = Some w -> nth_error l i = Some (op u w).
Proof.
  induction a as [|x a IH]; intros b l H; destruct b as [|y b]; try discriminate; cbn in H.
  - injection H as <-. repeat split. intros [|i] u w Hu; discriminate.
  - apply bind_ok in H. destruct H as (l' & E & H). injection H as <-. destruct (IH b l' E) as (L1 & L2 & N). cbn. repeat split; [congruence|congruence|].
    intros [|i] u w Hu Hw; cbn in *; [congruence|eauto].
Qed.
Lemma zipa_nth : forall a b l, zipa op a b = Ok l -> List.length l = List.length a /\ List.length b = List.length a /\
  forall i u w, nth_error a i = Some u -> nth_error b i = Some w -> exists r, zipv op u w = Ok r /\ nth_error l i = Some r.
Proof.
  induction a as [|x a IH]; intros b l H; destruct b as [|y b]; try discriminate; cbn in H.
  - injection H as <-. repeat split. intros [|i] u w Hu; discriminate.
  - apply bind_ok in H. destruct H as (r & Er & H). apply bind_ok in H. destruct H as (l' & E & H). injection H as <-. destruct (IH b l' E) as (L1 & L2 & N). cbn. repeat split; [congruence|congruence|].
    intros [|i] u w Hu Hw; cbn in *; [|eauto]. injection Hu as <-. injection Hw as <-. eauto.
Qed.
Lemma zipa_get a b l i j u w : zipa op a b = Ok l -> get2 a i j = Some u -> get2 b i j = Some w -> get2 l i j = Some (op u w).
Proof.
  intros H Hu Hw. destruct (zipa_nth _ _ _ H) as (_ & _ & N). unfold get2 in *.
  destruct (nth_error a i) as [ra|] eqn:Ea; [|discriminate]. destruct (nth_error b i) as [rb|] eqn:Eb; [|discriminate].
  destruct (N i ra rb Ea Eb) as (r & Er & ->). destruct (zipv_nth _ _ _ Er) as (_ & _ & N'). eauto.
Qed.
Lemma map_get (a : array2 V) (h : V -> V) i j u : get2 a i j = Some u -> get2 (map (map h) a) i j = Some (h u).
Proof.
  unfold get2. rewrite nth_error_map. destruct (nth_error a i) as [r|]; [|discriminate]. cbn. rewrite nth_error_map. intros ->. reflexivity.
Qed.

(** The values are those of the operation, point by point, on the grid of the first field. *)
Theorem C105_values : forall (f : fobj V) o g, increasing (o_x f) -> increasing (o_y f) -> arith close op f o = Ok g ->
  o_x g = o_x f /\ o_y g = o_y f /\ o_z g = o_z f /\
  forall i j ux uy, get2 (o_vx f) i j = Some ux -> get2 (o_vy f) i j = Some uy ->
    match o with
    | ONumber v => get2 (o_vx g) i j = Some (op ux v) /\ get2 (o_vy g) i j = Some (op uy v)
    | OField h => forall wx wy, get2 (o_vx h) i j = Some wx -> get2 (o_vy h) i j = Some wy ->
        get2 (o_vx g) i j = Some (op ux wx) /\ get2 (o_vy g) i j = Some (op uy wy)
    end.
Proof.
  intros f o g Ix Iy H. unfold arith in H. destruct o as [v|h].
  - apply bind_ok in H. destruct H as (vz & _ & H). destruct (make_keeps _ _ _ _ _ _ _ _ _ _ Ix Iy H) as (-> & -> & -> & -> & -> & _).
    split; [reflexivity|]. split; [reflexivity|]. split; [reflexivity|]. intros i j ux uy Hx Hy. split; eapply (map_get _ (fun x => op x v)); eassumption.
  - apply bind_ok in H. destruct H as (vx & Ex & H). apply bind_ok in H. destruct H as (vy & Ey & H). apply bind_ok in H. destruct H as (vz & _ & H).
    destruct (make_keeps _ _ _ _ _ _ _ _ _ _ Ix Iy H) as (-> & -> & -> & -> & -> & _).
    split; [reflexivity|]. split; [reflexivity|]. split; [reflexivity|]. intros i j ux uy Hx Hy wx wy Kx Ky.
    split; [exact (zipa_get _ _ _ _ _ _ _ Ex Hx Kx)|exact (zipa_get _ _ _ _ _ _ _ Ey Hy Ky)].
Qed.

(** The third component. *)
Theorem C105_third_component : forall (f : fobj V) o g, increasing (o_x f) -> increasing (o_y f) -> arith close op f o = Ok g ->
  match o_vz f, (match o with ONumber v => VzNum v | OField h => o_vz h end) with
  | VzArr a, VzArr b => exists c, o_vz g = VzArr c /\ forall i j u w, get2 a i j = Some u -> get2 b i j = Some w -> get2 c i j = Some (op u w)
  | VzArr a, (VzNum v | VzZero v) => exists c, o_vz g = VzArr c /\ forall i j u, get2 a i j = Some u -> get2 c i j = Some (op u v)
  | (VzNum v | VzZero v), VzArr b => exists c, o_vz g = VzArr c /\ forall i j u, get2 b i j = Some u -> get2 c i j = Some (op v u)
  | (VzNum u | VzZero u), (VzNum v | VzZero v) => o_vz g = VzNum (op u v)
  end.
Proof.
  intros f o g Ix Iy H. unfold arith in H.
  assert (E : exists vz, op_vz op (o_vz f) (match o with ONumber v => VzNum v | OField h => o_vz h end) = Ok vz /\ o_vz g = vz).
  { destruct o as [v|h].
    - apply bind_ok in H. destruct H as (vz & Ez & H). destruct (make_keeps _ _ _ _ _ _ _ _ _ _ Ix Iy H) as (_ & _ & _ & _ & _ & -> & _). eauto.
    - apply bind_ok in H. destruct H as (vx & Ex & H). apply bind_ok in H. destruct H as (vy & Ey & H). apply bind_ok in H. destruct H as (vz & Ez & H).
      destruct (make_keeps _ _ _ _ _ _ _ _ _ _ Ix Iy H) as (_ & _ & _ & _ & _ & -> & _). eauto. }
  destruct E as (vz & E & ->). destruct (o_vz f) as [u|u|a], (match o with ONumber v => VzNum v | OField h => o_vz h end) as [w|w|b]; cbn in E;
    try (injection E as <-; reflexivity);
    try (injection E as <-; eexists; split; [reflexivity|]; intros i j x Hx; first [exact (map_get _ (fun y => op u y) i j x Hx) | exact (map_get _ (fun y => op y w) i j x Hx)]).
  apply bind_ok in E. destruct E as (c & Ec & E). injection E as <-. exists c. split; [reflexivity|]. intros i j x w Hx Hw. exact (zipa_get _ _ _ _ _ _ _ Ec Hx Hw).
Qed.

(** An operator forgets the names, the units, the name, the history and the parameters. *)
Theorem C105_operators_refuted : forall (f : fobj V) o g, arith close op f o = Ok g -> o_meta g = default_meta /\ o_params g = None.
Proof.
  intros f o g H. destruct (arith_make close op f o g H) as (vx & vy & vz & Em). unfold make in Em.
  apply bind_ok in Em. destruct Em as (fx & _ & Em). apply bind_ok in Em. destruct Em as (fy & _ & Em).
  destruct fx, fy; apply bind_ok in Em; destruct Em as (s & _ & Em); injection Em as <-; split; reflexivity.
Qed.

(** An extraction keeps the metadata, and the history tells the operations in their order. *)
Theorem C105_extract : forall (f : fobj V) s0 e0 s1 e1 t,
  let g := oextract s0 e0 s1 e1 t f in
  m_names (o_meta g) = m_names (o_meta f) /\ m_name (o_meta g) = m_name (o_meta f) /\
  m_history (o_meta g) = m_history (o_meta f) ++ [t] /\ o_params g = o_params f.
Proof. intros. repeat split. Qed.
Theorem C105_history : forall (cuts : list (Z * Z * Z * Z * chars)) (f : fobj V),
  m_history (o_meta (fold_left (fun g '(s0, e0, s1, e1, t) => oextract s0 e0 s1 e1 t g) cuts f)) = m_history (o_meta f) ++ map snd cuts.
Proof.
  induction cuts as [|[[[[s0 e0] s1] e1] t] cuts IH]; intros f; cbn [fold_left map snd]; [rewrite app_nil_r; reflexivity|].
  rewrite IH. cbn. rewrite <- app_assoc. reflexivity.
Qed.

(** When an operation with a number raises: with one line or one column. *)
Theorem C105_number_iff : forall (f : fobj V) v, increasing (o_x f) -> increasing (o_y f) -> (forall l, o_z f <> ZLine l) ->
  ((exists g, arith close op f (ONumber v) = Ok g) <-> (2 <= List.length (o_x f))%nat /\ (2 <= List.length (o_y f))%nat).
Proof.
  intros f v Ix Iy Hz. unfold arith. assert (E : exists vz, op_vz op (o_vz f) (VzNum v) = Ok vz) by (destruct (o_vz f); cbn; eauto). destruct E as (vz & ->). cbn [bind]. split.
  - intros (g & H). exact (make_length _ _ _ _ _ _ _ _ _ _ H).
  - intros [Lx Ly]. rewrite (make_same _ _ _ _ _ _ _ _ _ Ix Iy Lx Ly). unfold grid_state, is_regular.
    destruct (get_01 _ Lx) as (a & b & m & _ & -> & ->). destruct (get_01 _ Ly) as (a' & b' & m' & _ & -> & ->). cbn [bind].
    destruct (forallb (fun d => close d (b - a)) (differences (o_x f))); cbn [bind]; [|eauto].
    destruct (forallb (fun d => close d (b' - a')) (differences (o_y f))); cbn [bind]; [|eauto].
    destruct (o_z f) as [|z|l|pl] eqn:Ez; cbn [bind]; [eauto|eauto|congruence|eauto].
Qed.
End Ops.
Print Assumptions C105_values.
Print Assumptions C105_third_component.
Print Assumptions C105_operators_refuted.
Print Assumptions C105_extract.
Print Assumptions C105_history.
Print Assumptions C105_number_iff.

Definition ex_meta : meta := mk_meta (repeat (of_string "m") 12) (of_string "run1") [of_string "fluidimage"].
Definition ex_f : fobj Z := mk_fobj [0; 1; 2] [0; 1] (ZNum 0) [[1; 2; 3]; [4; 5; 6]] [[1; 2; 3]; [4; 5; 6]] (VzNum 0) ex_meta None (Some (1, 1)).
Definition ex_g : fobj Z := mk_fobj [10; 20; 40] [0; 7] (ZNum 5) [[1; 2; 3]; [4; 5; 6]] [[1; 2; 3]; [4; 5; 6]] (VzNum 0) ex_meta None None.
(** The grid of the second field is not looked at. *)
Theorem C105_grids_refuted : exists f h g, arith Z.eqb Z.add f (OField h) = Ok g /\ o_x h <> o_x f /\ o_y h <> o_y f /\ o_x g = o_x f.
Proof. exists ex_f, ex_g. eexists. split; [reflexivity|]. repeat split; discriminate. Qed.
Print Assumptions C105_grids_refuted.

(** ** C106 *)
(** *** Specification *)
(** all the steps are close to the first one *)
Definition regular (close : Z -> Z -> bool) (l : list Z) : Prop :=
  exists a b m, l = a :: b :: m /\ forall i u v, nth_error l i = Some u -> nth_error l (S i) = Some v -> close (v - u) (b - a) = true.

Section Regular.
Context {V : Type}.
Variable close : Z -> Z -> bool.
Hypothesis close_refl : forall d, close d d = true.

Lemma differences_spec (P : Z -> bool) : forall l, forallb P (differences l) = true <->
  forall i u v, nth_error l i = Some u -> nth_error l (S i) = Some v -> P (v - u) = true.
Proof.
  clear. induction l as [|a l IH]; [split; [intros _ [|i]; discriminate|reflexivity]|]. destruct l as [|b l].
  - split; [intros _ [|[|i]] u v; cbn; discriminate|reflexivity].
  - cbn [differences forallb]. rewrite andb_true_iff, IH. split.
    + intros [H1 H2] [|i] u v Hu Hv; [cbn in *; congruence|]. exact (H2 i u v Hu Hv).
    + intros H. split; [exact (H 0%nat a b eq_refl eq_refl)|]. intros i u v Hu Hv. exact (H (S i) u v Hu Hv).
Qed.
Lemma is_regular_spec l : is_regular close l = Ok true <-> regular close l.
Proof.
  clear close_refl. split.
  - intros H. unfold is_regular in H. destruct (Nat.lt_ge_cases (List.length l) 2) as [L|L]; [rewrite (get_1_short l L) in H; discriminate|].
    destruct (get_01 l L) as (a & b & m & El & E1 & E0). rewrite E1, E0 in H. cbn [bind] in H. exists a, b, m. split; [exact El|].
    injection H as H. exact (proj1 (differences_spec _ l) H).
  - intros (a & b & m & El & H). assert (L : (2 <= List.length l)%nat) by (subst; cbn; lia).
    destruct (get_01 l L) as (a' & b' & m' & El' & E1 & E0). unfold is_regular. rewrite E1, E0. cbn [bind]. f_equal.
    rewrite El in El'. injection El' as <- <- <-. apply (proj2 (differences_spec (fun d => close d (b - a)) l)). exact H.
Qed.
Lemma is_regular_total l : (2 <= List.length l)%nat -> is_regular close l = Ok true \/ is_regular close l = Ok false.
Proof. intros L. destruct (get_01 l L) as (a & b & m & El & E1 & E0). unfold is_regular. rewrite E1, E0. cbn [bind]. destruct (forallb _ _); auto. Qed.
Lemma regular_two a b : regular close [a; b].
Proof. exists a, b, []. split; [reflexivity|]. intros [|[|i]] u v; cbn; intros Hu Hv; try discriminate. injection Hu as <-. injection Hv as <-. apply close_refl. Qed.
Lemma slice_last {A} (l : list A) : py_slice l 0 (-1) = removelast l.
Proof.
  clear. unfold py_slice, norm_bound. change (0 <? 0) with false. change (-1 <? 0) with true. cbv iota.
  rewrite Z.min_l by (unfold zlen; lia). cbn [Z.to_nat skipn]. rewrite removelast_firstn_len. f_equal. unfold zlen. lia.
Qed.
Definition fixable (l : list Z) : Prop := regular close l \/ regular close (removelast l).
Lemma must_cut_spec l : (2 <= List.length l)%nat ->
  (must_cut close l = Ok false /\ regular close l) \/
  (must_cut close l = Ok true /\ ~ regular close l /\ regular close (removelast l)) \/
  (must_cut close l = Ok false /\ ~ fixable l).
Proof.
  intros L. unfold must_cut, fixable. destruct (is_regular_total l L) as [E|E]; rewrite E; cbn [bind].
  - left. split; [reflexivity|]. apply is_regular_spec, E.
  - assert (N : ~ regular close l) by (intros H; apply is_regular_spec in H; congruence). right. rewrite slice_last.
    assert (L' : (2 <= List.length (removelast l))%nat).
    { rewrite removelast_firstn_len, firstn_length. destruct l as [|a [|b [|c l]]]; cbn in *; try lia. exfalso. apply N, regular_two. }
    destruct (is_regular_total _ L') as [E'|E']; [left|right]; rewrite E'; (split; [reflexivity|]).
    + split; [exact N|]. apply is_regular_spec, E'.
    + intros [H | H]; [auto|]. apply is_regular_spec in H. congruence.
Qed.
(** the coordinates after the call *)
Definition trimmed (l l' : list Z) : Prop := (regular close l /\ l' = l) \/ (~ regular close l /\ l' = removelast l).

Lemma grid_state_iff x y z : (2 <= List.length x)%nat -> (2 <= List.length y)%nat -> z = ZNone \/ (exists k, z = ZNum k) ->
  (exists s, grid_state close x y z = Ok s) /\ ((exists s, grid_state close x y z = Ok (Some s)) <-> regular close x /\ regular close y).
Proof.
  intros Lx Ly Hz. unfold grid_state. rewrite <- !is_regular_spec.
  assert (Z0 : match z with ZLine l => is_regular close l | _ => Ok true end = Ok true) by (destruct Hz as [-> | (k & ->)]; reflexivity).
  destruct (is_regular_total x Lx) as [E|E]; rewrite E; cbn [bind].
  - destruct (is_regular_total y Ly) as [E'|E']; rewrite E'; cbn [bind].
    + rewrite Z0. cbn [bind].
      destruct (get_01 _ Lx) as (a & b & m & _ & -> & ->). destruct (get_01 _ Ly) as (a' & b' & m' & _ & -> & ->). cbn [bind]. split; [eauto|]. split; eauto.
    + split; [eauto|]. split; [intros (s & H); discriminate|intros [_ H]; discriminate].
  - split; [eauto|]. split; [intros (s & H); discriminate|intros [H _]; discriminate].
Qed.

(** The grid is made regular exactly when it is already, or when the last line or the last column, or both, are
    the only defects, for a field whose third component is a number and without vertical coordinate (or with a
    number). *)
Theorem C106_iff : forall (f : fobj V), o_steps f = None -> (2 <= List.length (o_x f))%nat -> (2 <= List.length (o_y f))%nat ->
  (snd (regularize_grid close f) = None <->
   (exists v, o_vz f = VzNum v) /\ (o_z f = ZNone \/ exists k, o_z f = ZNum k) /\ fixable (o_x f) /\ fixable (o_y f)).
Proof.
  intros f Hs Lx Ly. unfold regularize_grid. rewrite Hs.
  destruct (o_vz f) as [v|v|a] eqn:Ev; [|split; [discriminate|intros ((v' & H) & _); discriminate]|split; [discriminate|intros ((v' & H) & _); discriminate]].
  assert (Hz : (o_z f = ZNone \/ (exists k, o_z f = ZNum k)) \/ (exists l, o_z f = ZLine l) \/ exists a, o_z f = ZPlane a) by (destruct (o_z f); eauto).
  destruct Hz as [Hz | [(l & Hz) | (a & Hz)]]; [|rewrite Hz; split; [discriminate|intros (_ & [H | (k & H)] & _); discriminate]|rewrite Hz; split; [discriminate|intros (_ & [H | (k & H)] & _); discriminate]].
  assert (G : forall (T : fobj V * option exn), match o_z f with ZNone | ZNum _ => T | _ => (f, Some NotImplementedError) end = T) by (intros T; destruct Hz as [-> | (k & ->)]; reflexivity).
  rewrite G. clear G.
  assert (LL : forall l, ~ regular close l -> (2 <= List.length l)%nat -> (2 <= List.length (removelast l))%nat).
  { intros l N L. rewrite removelast_firstn_len, firstn_length. destruct l as [|a [|b [|c l]]]; cbn in *; try lia. exfalso. apply N, regular_two. }
  assert (FIN : forall h : fobj V, (2 <= List.length (o_x h))%nat -> (2 <= List.length (o_y h))%nat -> o_z h = o_z f ->
     (snd (match grid_state close (o_x h) (o_y h) (o_z h) with Err e => (h, Some e) | Ok None => (with_steps h None, Some NotImplementedError) | Ok s => (with_steps h s, None) end) = None
       <-> regular close (o_x h) /\ regular close (o_y h))).
  { intros h L1 L2 Ez. rewrite Ez. destruct (grid_state_iff (o_x h) (o_y h) (o_z f) L1 L2 Hz) as [(s & Es) Hiff]. rewrite <- Hiff. rewrite Es. destruct s as [s|]; cbn; split; eauto; [discriminate|intros (s & H); discriminate]. }
  destruct (must_cut_spec (o_x f) Lx) as [(E & R) | [(E & N & R) | (E & N)]]; rewrite E; cbv iota.
  - destruct (must_cut_spec (o_y f) Ly) as [(E' & R') | [(E' & N' & R') | (E' & N')]]; rewrite E'; cbv iota.
    + rewrite FIN by (try assumption; reflexivity). unfold fixable. (split; [intros _; split; [eauto|split; [exact Hz|split; auto]]|intros _; split; assumption]).
    + rewrite FIN by (cbn [o_x o_y o_z with_y]; rewrite ?slice_last; auto). cbn [o_x o_y with_y]. rewrite slice_last. unfold fixable. (split; [intros _; split; [eauto|split; [exact Hz|split; auto]]|intros _; split; assumption]).
    + rewrite FIN by (try assumption; reflexivity). unfold fixable in *. (split; [intros [A B]; exfalso; apply N'; left; exact B|intros (_ & _ & A & B); contradiction]).
  - cbn [o_y with_x]. destruct (must_cut_spec (o_y f) Ly) as [(E' & R') | [(E' & N' & R') | (E' & N')]]; rewrite E'; cbv iota.
    + rewrite FIN by (cbn [o_x o_y o_z with_x]; rewrite ?slice_last; auto). cbn [o_x o_y with_x]. rewrite slice_last. unfold fixable. (split; [intros _; split; [eauto|split; [exact Hz|split; auto]]|intros _; split; assumption]).
    + rewrite FIN by (cbn [o_x o_y o_z with_x with_y]; rewrite ?slice_last; auto). cbn [o_x o_y with_x with_y]. rewrite !slice_last. unfold fixable. (split; [intros _; split; [eauto|split; [exact Hz|split; auto]]|intros _; split; assumption]).
    + rewrite FIN by (cbn [o_x o_y o_z with_x]; rewrite ?slice_last; auto). cbn [o_x o_y with_x]. rewrite slice_last. unfold fixable in *. (split; [intros [A B]; exfalso; apply N'; left; exact B|intros (_ & _ & A & B); contradiction]).
  - destruct (must_cut_spec (o_y f) Ly) as [(E' & R') | [(E' & N' & R') | (E' & N')]]; rewrite E'; cbv iota.
    + rewrite FIN by (try assumption; reflexivity). unfold fixable in *. (split; [intros [A B]; exfalso; apply N; left; exact A|intros (_ & _ & A & B); contradiction]).
    + rewrite FIN by (cbn [o_x o_y o_z with_y]; rewrite ?slice_last; auto). cbn [o_x o_y with_y]. rewrite slice_last. unfold fixable in *. (split; [intros [A B]; exfalso; apply N; left; exact A|intros (_ & _ & A & B); contradiction]).
    + rewrite FIN by (try assumption; reflexivity). unfold fixable in *. (split; [intros [A B]; exfalso; apply N; left; exact A|intros (_ & _ & A & B); contradiction]).
Qed.

Lemma regularize_ok (f : fobj V) : o_steps f = None -> snd (regularize_grid close f) = None ->
  exists cx cy s, must_cut close (o_x f) = Ok cx /\ must_cut close (o_y f) = Ok cy /\
    let h := if cx then with_x f else f in let h := if cy then with_y h else h in
    fst (regularize_grid close f) = with_steps h (Some s) /\ grid_state close (o_x h) (o_y h) (o_z h) = Ok (Some s).
Proof.
  intros Hs. unfold regularize_grid. rewrite Hs.
  destruct (o_vz f); [|discriminate|discriminate]. destruct (o_z f) eqn:Ez; try discriminate;
   (destruct (must_cut close (o_x f)) as [cx|]; [|discriminate];
    assert (Ey : o_y (if cx then with_x f else f) = o_y f) by (destruct cx; reflexivity); rewrite Ey;
    destruct (must_cut close (o_y f)) as [cy|]; [|discriminate];
    destruct (grid_state close _ _ _) as [[s|]|] eqn:Eg; cbn [snd]; try discriminate; intros _;
    exists cx, cy, s; split; [reflexivity|]; split; [reflexivity|]; cbv zeta; split; [reflexivity|exact Eg]).
Qed.
Lemma removelast_nth {A} (l : list A) i : (i < List.length l - 1)%nat -> nth_error (removelast l) i = nth_error l i.
Proof. clear. intros H. rewrite removelast_firstn_len. apply nth_error_firstn_lt. lia. Qed.
Lemma removelast_len {A} (l : list A) : List.length (removelast l) = (List.length l - 1)%nat.
Proof. clear. rewrite removelast_firstn_len, firstn_length. lia. Qed.
Lemma cut_columns (a : array2 V) n0 n1 i j : shape a n0 n1 -> (j < n1 - 1)%nat -> get2 (map (fun row => py_slice row 0 (-1)) a) i j = get2 a i j.
Proof.
  clear. intros [H0 H1] Hj. unfold get2. rewrite nth_error_map. destruct (nth_error a i) as [r|] eqn:E; [|reflexivity]. cbn. rewrite slice_last.
  rewrite Forall_forall in H1. specialize (H1 r (nth_error_In _ _ E)). apply removelast_nth. lia.
Qed.
Lemma cut_rows (a : array2 V) i j : (i < List.length a - 1)%nat -> get2 (py_slice a 0 (-1)) i j = get2 a i j.
Proof. clear. intros Hi. unfold get2. rewrite slice_last. rewrite removelast_nth by assumption. reflexivity. Qed.

(** On success: the coordinates are kept, except the last one when it is the defect; the values at the points that
    remain are unchanged; the steps are those of the new grid. *)
Theorem C106_success : forall (f : fobj V), o_steps f = None -> (2 <= List.length (o_x f))%nat -> (2 <= List.length (o_y f))%nat ->
  shape (o_vx f) (List.length (o_y f)) (List.length (o_x f)) -> shape (o_vy f) (List.length (o_y f)) (List.length (o_x f)) ->
  snd (regularize_grid close f) = None ->
  let g := fst (regularize_grid close f) in
  trimmed (o_x f) (o_x g) /\ trimmed (o_y f) (o_y g) /\ regular close (o_x g) /\ regular close (o_y g) /\
  (exists x0 x1 xs y0 y1 ys, o_x g = x0 :: x1 :: xs /\ o_y g = y0 :: y1 :: ys /\ o_steps g = Some (x1 - x0, y1 - y0)) /\
  (forall i j, (i < List.length (o_y g))%nat -> (j < List.length (o_x g))%nat ->
     get2 (o_vx g) i j = get2 (o_vx f) i j /\ get2 (o_vy g) i j = get2 (o_vy f) i j) /\
  o_z g = o_z f /\ o_vz g = o_vz f /\ o_meta g = o_meta f /\ o_params g = o_params f.
Proof.
  intros f Hs Lx Ly SX SY H. pose proof (proj1 (C106_iff f Hs Lx Ly) H) as (_ & Hz & _).
  destruct (regularize_ok f Hs H) as (cx & cy & s & Ex & Ey & HH). cbv zeta in HH. destruct HH as [-> Eg].
  set (h := if cy then with_y (if cx then with_x f else f) else (if cx then with_x f else f)) in *.
  assert (TX : trimmed (o_x f) (o_x h)).
  { replace (o_x h) with (if cx then removelast (o_x f) else o_x f) by (subst h; destruct cx, cy; cbn [o_x with_x with_y]; rewrite ?slice_last; reflexivity).
    destruct (must_cut_spec (o_x f) Lx) as [(E & R) | [(E & N & R) | (E & N)]]; rewrite E in Ex; injection Ex as <-; [left; auto|right; auto|].
    exfalso. pose proof (proj1 (C106_iff f Hs Lx Ly) H) as (_ & _ & FX & _). contradiction. }
  assert (TY : trimmed (o_y f) (o_y h)).
  { replace (o_y h) with (if cy then removelast (o_y f) else o_y f) by (subst h; destruct cx, cy; cbn [o_y with_x with_y]; rewrite ?slice_last; reflexivity).
    destruct (must_cut_spec (o_y f) Ly) as [(E & R) | [(E & N & R) | (E & N)]]; rewrite E in Ey; injection Ey as <-; [left; auto|right; auto|].
    exfalso. pose proof (proj1 (C106_iff f Hs Lx Ly) H) as (_ & _ & _ & FY). contradiction. }
  cbn [with_steps o_x o_y o_z o_vx o_vy o_vz o_meta o_params o_steps].
  assert (LL : forall l l', trimmed l l' -> (2 <= List.length l)%nat -> (2 <= List.length l')%nat).
  { intros l l' [(_ & ->) | (N & ->)] L; [exact L|]. rewrite removelast_len. destruct l as [|a [|b [|c l]]]; cbn in *; try lia. exfalso. apply N, regular_two. }
  pose proof (LL _ _ TX Lx) as Lx'. pose proof (LL _ _ TY Ly) as Ly'.
  assert (Ezh : o_z h = o_z f) by (subst h; destruct cx, cy; reflexivity).
  assert (R : regular close (o_x h) /\ regular close (o_y h)).
  { apply (proj2 (grid_state_iff (o_x h) (o_y h) (o_z f) Lx' Ly' Hz)). rewrite <- Ezh. eauto. }
  split; [exact TX|]. split; [exact TY|]. split; [apply R|]. split; [apply R|]. split.
  { destruct (get_01 _ Lx') as (a & b & m & Elx & E1 & E0). destruct (get_01 _ Ly') as (a' & b' & m' & Ely & E1' & E0').
    exists a, b, m, a', b', m'. split; [exact Elx|]. split; [exact Ely|].
    unfold grid_state in Eg. rewrite (proj2 (is_regular_spec (o_x h)) (proj1 R)), (proj2 (is_regular_spec (o_y h)) (proj2 R)) in Eg. cbn [bind] in Eg.
    rewrite E1, E0, E1', E0' in Eg. rewrite Ezh in Eg. destruct Hz as [Hz | (k & Hz)]; rewrite Hz in Eg; cbn [bind] in Eg; congruence. }
  split.
  { intros i j Hi Hj.
    assert (DX : (j < List.length (if cx then removelast (o_x f) else o_x f))%nat) by (subst h; destruct cx, cy; cbn [o_x with_x with_y] in Hj; rewrite ?slice_last in Hj; exact Hj).
    assert (DY : (i < List.length (if cy then removelast (o_y f) else o_y f))%nat) by (subst h; destruct cx, cy; cbn [o_y with_x with_y] in Hi; rewrite ?slice_last in Hi; exact Hi).
    assert (GET : forall a : array2 V, shape a (List.length (o_y f)) (List.length (o_x f)) ->
       get2 (if cy then py_slice (if cx then map (fun row => py_slice row 0 (-1)) a else a) 0 (-1) else (if cx then map (fun row => py_slice row 0 (-1)) a else a)) i j = get2 a i j).
    { intros a Sa. pose proof Sa as [Sa0 _]. destruct cx, cy; rewrite ?removelast_len in *; rewrite ?cut_rows by (rewrite ?map_length; lia); rewrite ?(cut_columns a _ _ i j Sa) by lia; reflexivity. }
    specialize (GET (o_vx f) SX) as GX. specialize (GET (o_vy f) SY) as GY.
    subst h; destruct cx, cy; cbn [o_vx o_vy with_x with_y]; auto. }
  subst h; destruct cx, cy; repeat split.
Qed.

(** A regular grid is not changed. *)
Theorem C106_already : forall (f : fobj V) s, o_steps f = Some s -> regularize_grid close f = (f, None).
Proof. intros f s H. unfold regularize_grid. rewrite H. reflexivity. Qed.
End Regular.
Print Assumptions C106_iff.
Print Assumptions C106_success.
Print Assumptions C106_already.

(** A call that raises may have removed the last column (and its values). *)
Theorem C106_failure_refuted : exists f : fobj Z, o_steps f = None /\ snd (regularize_grid Z.eqb f) = Some NotImplementedError /\
  o_x (fst (regularize_grid Z.eqb f)) <> o_x f /\ o_vx (fst (regularize_grid Z.eqb f)) <> o_vx f.
Proof.
  exists (mk_fobj [0; 1; 2; 5] [0; 1; 5; 6] ZNone (repeat [1; 2; 3; 4] 4) (repeat [1; 2; 3; 4] 4) (VzNum 0) ex_meta None None).
  split; [reflexivity|]. split; [reflexivity|]. split; intros H; vm_compute in H; discriminate.
Qed.
Print Assumptions C106_failure_refuted.

(** The regularity is that of the grid at the construction: a regular part of an irregular grid is said irregular,
    so that the curl and the divergence raise. *)
Theorem C106_extract_refuted : exists (f : fobj Z) s0 e0 s1 e1 t, let g := oextract s0 e0 s1 e1 t f in
  grid_state Z.eqb (o_x f) (o_y f) (o_z f) = Ok (o_steps f) /\ grid_state Z.eqb (o_x g) (o_y g) (o_z g) = Ok (Some (1, 1)) /\ o_steps g = None.
Proof.
  exists (mk_fobj [0; 1; 2; 5] [0; 1; 2; 3] ZNone (repeat [1; 2; 3; 4] 4) (repeat [1; 2; 3; 4] 4) (VzNum 0) ex_meta None None), 0, 4, 0, 3, [].
  repeat split.
Qed.
Print Assumptions C106_extract_refuted.

(** The other direction is right: the steps of a regular grid are those of its parts with two points at least. *)
Lemma regular_eqb l dx : (2 <= List.length l)%nat ->
  (regular Z.eqb l /\ (exists a b m, l = a :: b :: m /\ b - a = dx)) <-> (forall i u v, nth_error l i = Some u -> nth_error l (S i) = Some v -> v - u = dx).
Proof.
  intros L. split.
  - intros ((a & b & m & El & H) & (a' & b' & m' & El' & Hd)) i u v Hu Hv. rewrite El in El'. injection El' as <- <- <-. specialize (H i u v Hu Hv). lia.
  - intros H. destruct l as [|a [|b m]]; cbn in L; try lia. pose proof (H 0%nat a b eq_refl eq_refl) as H0. split.
    + exists a, b, m. split; [reflexivity|]. intros i u v Hu Hv. rewrite (H i u v Hu Hv). lia.
    + exists a, b, m. auto.
Qed.
Lemma slice_steps l s e dx : (forall i u v, nth_error l i = Some u -> nth_error l (S i) = Some v -> v - u = dx) ->
  forall i u v, nth_error (py_slice l s e) i = Some u -> nth_error (py_slice l s e) (S i) = Some v -> v - u = dx.
Proof.
  intros H i u v Hu Hv. unfold py_slice in *. set (n := Z.to_nat (norm_bound (zlen l) e - norm_bound (zlen l) s)) in *. set (k := Z.to_nat (norm_bound (zlen l) s)) in *.
  assert (Hn : (S i < n)%nat).
  { destruct (Nat.lt_ge_cases (S i) n) as [Q|Q]; [exact Q|]. exfalso. assert (nth_error (firstn n (skipn k l)) (S i) = None) by (apply nth_error_None; rewrite firstn_length; lia). congruence. }
  rewrite nth_error_firstn_lt in Hu by lia. rewrite nth_error_firstn_lt in Hv by lia. rewrite nth_error_skipn in Hu, Hv.
  replace (k + S i)%nat with (S (k + i)) in Hv by lia. exact (H _ _ _ Hu Hv).
Qed.
Theorem C106_extract_regular : forall {V} (f : fobj V) dx dy s0 e0 s1 e1 t, (o_z f = ZNone \/ exists k, o_z f = ZNum k) ->
  grid_state Z.eqb (o_x f) (o_y f) (o_z f) = Ok (Some (dx, dy)) -> o_steps f = Some (dx, dy) ->
  let g := oextract s0 e0 s1 e1 t f in
  (2 <= List.length (o_x g))%nat -> (2 <= List.length (o_y g))%nat -> grid_state Z.eqb (o_x g) (o_y g) (o_z g) = Ok (o_steps g).
Proof.
  intros V f dx dy s0 e0 s1 e1 t Hz Hg Hs g Lx Ly.
  assert (STEP : forall x y z (d1 d2 : Z), (z = ZNone \/ exists k, z = ZNum k) -> (2 <= List.length x)%nat -> (2 <= List.length y)%nat ->
    (grid_state Z.eqb x y z = Ok (Some (d1, d2)) <->
     (forall i u v, nth_error x i = Some u -> nth_error x (S i) = Some v -> v - u = d1) /\ (forall i u v, nth_error y i = Some u -> nth_error y (S i) = Some v -> v - u = d2))).
  { clear. intros x y z d1 d2 Hz Lx Ly. rewrite <- (regular_eqb x d1 Lx), <- (regular_eqb y d2 Ly). unfold grid_state.
    destruct (get_01 x Lx) as (a & b & m & El & E1 & E0). destruct (get_01 y Ly) as (a' & b' & m' & El' & E1' & E0').
    assert (Z0 : match z with ZLine l => is_regular Z.eqb l | _ => Ok true end = Ok true) by (destruct Hz as [-> | (k & ->)]; reflexivity).
    pose proof (is_regular_spec Z.eqb x) as RX. pose proof (is_regular_spec Z.eqb y) as RY.
    destruct (is_regular_total Z.eqb x Lx) as [E|E]; rewrite E in *; cbn [bind].
    - destruct (is_regular_total Z.eqb y Ly) as [E'|E']; rewrite E' in *; cbn [bind].
      + rewrite Z0, E1, E0, E1', E0'. cbn [bind]. split.
        * intros H. injection H as <- <-. split; (split; [tauto|]); eauto 10.
        * intros [[_ (p & q & r & Ep & <-)] [_ (p' & q' & r' & Ep' & <-)]]. rewrite Ep in El. rewrite Ep' in El'. injection El as -> -> _. injection El' as -> -> _. reflexivity.
      + split; [discriminate|]. intros [_ [H _]]. apply RY in H. discriminate.
    - split; [discriminate|]. intros [[H _] _]. apply RX in H. discriminate. }
  assert (Lf : (2 <= List.length (o_x f))%nat /\ (2 <= List.length (o_y f))%nat).
  { unfold grid_state, is_regular in Hg. destruct (Nat.lt_ge_cases (List.length (o_x f)) 2) as [L|L]; [rewrite (get_1_short _ L) in Hg; discriminate|]. split; [exact L|].
    destruct (Nat.lt_ge_cases (List.length (o_y f)) 2) as [L'|L']; [|exact L']. destruct (get_01 _ L) as (a & b & m & _ & E1 & E0). rewrite E1, E0 in Hg. cbn [bind] in Hg.
    destruct (forallb _ _) in Hg; cbn [bind] in Hg; [|discriminate]. rewrite (get_1_short _ L') in Hg. discriminate. }
  assert (Ez : o_z g = o_z f) by (subst g; cbn; destruct Hz as [-> | (k & ->)]; reflexivity).
  rewrite Ez. change (o_steps g) with (o_steps f). rewrite Hs. apply (STEP _ _ _ dx dy Hz Lx Ly).
  apply (STEP _ _ _ dx dy Hz (proj1 Lf) (proj2 Lf)) in Hg. destruct Hg as [HX HY]. subst g. cbn [oextract o_x o_y]. split; apply slice_steps; assumption.
Qed.
Print Assumptions C106_extract_regular.

(** *** Examples: the hypotheses are met *)
Definition no_piv : file Z -> result (fobj Z) := fun _ => Err NotImplementedError.
Definition vfog : chars := of_string "VectorFieldOnGrid".
Definition vfmod : chars := of_string "fluidimage.postproc.vector_field".
Definition ex_irregular : fobj Z := mk_fobj [0; 1; 2; 5] [0; 1; 2] (ZNum 3) (repeat [1; 2; 3; 4] 3) (repeat [5; 6; 7; 8] 3) (VzNum 0) ex_meta (Some (of_string "params", [])) None.
Example C104_ex_reachable : reachable Z.eqb no_piv vfog vfmod ex_irregular.
Proof.
  apply r_made with (x := [5; 2; 1; 0]) (y := [0; 1; 2]) (z := ZNum 3) (vx := repeat [4; 3; 2; 1] 3) (vy := repeat [8; 7; 6; 5] 3) (vz := VzNum 0) (m := ex_meta) (p := Some (of_string "params", [])).
  - split; [cbn; lia|]. right. repeat constructor; lia.
  - split; [cbn; lia|]. left. repeat constructor; lia.
  - reflexivity.
Qed.
Example C104_ex : exists g, from_file Z.eqb no_piv vfog vfmod (fst (save vfog vfmod ex_irregular None)) = Ok g /\
  o_steps g = None /\ snd (regularize_grid Z.eqb ex_irregular) = None /\ snd (regularize_grid Z.eqb g) = Some NotImplementedError.
Proof. eexists. repeat split; reflexivity. Qed.
Example C106_ex : o_x (fst (regularize_grid Z.eqb ex_irregular)) = [0; 1; 2] /\ o_vx (fst (regularize_grid Z.eqb ex_irregular)) = repeat [1; 2; 3] 3.
Proof. split; reflexivity. Qed.

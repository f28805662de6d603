(** Property C94: the displacements used by the next passes and the final field of a PIV computation. *)
From Verif Require Import PyBase GridModel GridProps PivPassModel PivHistProps.
Local Open Scope Z_scope.

Section Interp.
Context {F C M : Type}.
Variable nan : F.
Variable isnan : F -> bool.
Variable bad_shape : M.
Variable correl : nat -> img -> img -> C.
Variable compute : nat -> C -> (F * F * F) + (M * (F * F * F)).
Variable subpix : nat -> F -> F -> C -> (F * F) + M.
Variables scim0 scim1 rnd : nat -> Z * Z.
Variable number : nat.
Variable tps_param : use_tps.
Variables offx offy : Z.
Variable junk : F.
Variable rint : F -> Z.
Variable addi : F -> Z -> F.
Variables lin near : list ((Z * Z) * F) -> result (Z * Z -> F).
Variable tps : list ((Z * Z) * F) -> result (list F * (Z * Z -> F)).
Variable fix_pass : nat -> @heavy F M -> result (@heavy F M).
Local Notation heavy := (@heavy F M).

Local Notation calcul := (calcul nan isnan bad_shape correl compute subpix scim0 scim1 rnd number tps_param offx offy junk rint addi lin near tps fix_pass).
Local Notation next_passes := (next_passes nan isnan bad_shape correl compute subpix scim0 scim1 rnd number tps_param offx offy junk rint addi lin near tps fix_pass).
Local Notation fresh := (fresh number).
Local Notation prepare := (prepare scim0 rnd).
Local Notation apply_interp := (apply_interp isnan tps_param offx offy lin near tps).
Local Notation interp_values := (interp_values isnan tps_param offx offy lin near tps).
Local Notation griddata := (griddata isnan lin near).

(** *** Specification *)

(** the vectors of a result: position (in half pixels, in the original image) and displacement *)
Definition vectors (h : heavy) : list ((Z * Z) * (F * F)) := combine (combine (h_x h) (h_y h)) (combine (h_dx h) (h_dy h)).
Definition valid (v : (Z * Z) * (F * F)) : bool := negb (isnan (fst (snd v))) && negb (isnan (snd (snd v))).
(** all arrays have one value per vector *)
Definition well_formed (h : heavy) : Prop :=
  List.length (h_y h) = List.length (h_x h) /\ List.length (h_dx h) = List.length (h_x h) /\ List.length (h_dy h) = List.length (h_x h).

(** the data of the interpolation: the valid vectors, in the coordinates of the cropped image *)
Definition data (f : F * F -> F) (h : heavy) : list ((Z * Z) * F) :=
  map (fun v => ((fst (fst v) - 2 * offx, snd (fst v) - 2 * offy), f (snd v))) (filter valid (vectors h)).
Definition swap (p : Z * Z) : Z * Z := (snd p, fst p).
Definition swapped (l : list ((Z * Z) * F)) : list ((Z * Z) * F) := map (fun v => (swap (fst v), snd v)) l.

(** linear interpolation inside the convex hull of the data, nearest outside *)
Definition by_griddata (pts : list ((Z * Z) * F)) (f : Z * Z -> F) : Prop :=
  exists fl fn, lin pts = Ok fl /\ near pts = Ok fn /\ forall p, f p = if isnan (fl p) then fn p else fl p.
Definition by_tps (pts : list ((Z * Z) * F)) (smooth : list F) (f : Z * Z -> F) : Prop :=
  exists ft, tps (swapped pts) = Ok (smooth, ft) /\ forall p, f p = ft (swap p).
Definition wants_tps (last : bool) : Prop := tps_param = TpsTrue \/ (tps_param = TpsLast /\ last = true).

(** the two interpolating functions for the result [h] *)
Definition interpolants (h : heavy) (last : bool) (fx fy : Z * Z -> F) : Prop :=
  (wants_tps last /\ exists sx sy, by_tps (data fst h) sx fx /\ by_tps (data snd h) sy fy) \/
  ((wants_tps last -> tps (swapped (data fst h)) = Err LinAlgError \/ tps (swapped (data snd h)) = Err LinAlgError) /\
   by_griddata (data fst h) fx /\ by_griddata (data snd h) fy).

(** the nodes of a grid (in half pixels, in the cropped image), x first, and their positions in the original image *)
Definition nodes (g : pgrid) : list (Z * Z) := map (fun '(x, y) => (2 * x, 2 * y)) (combine (g_ixg g) (g_iyg g)).
Definition original (l : list (Z * Z)) : list Z * list Z := (map (fun p => fst p + 2 * offx) l, map (fun p => snd p + 2 * offy) l).

(** [h'] has the same vectors and errors as [h] *)
Definition same_vectors (h h' : heavy) : Prop :=
  h_dx h' = h_dx h /\ h_dy h' = h_dy h /\ h_x h' = h_x h /\ h_y h' = h_y h /\ h_max h' = h_max h /\ h_err h' = h_err h /\ h_input h' = h_input h.

(** *** Lemmas *)
Lemma rows_of (h : heavy) : well_formed h ->
  h_x h = map (fun v => fst (fst v)) (vectors h) /\ h_y h = map (fun v => snd (fst v)) (vectors h) /\
  h_dx h = map (fun v => fst (snd v)) (vectors h) /\ h_dy h = map (fun v => snd (snd v)) (vectors h).
Proof.
  unfold well_formed, vectors. destruct h as [dx dy x y m er inp ap a fp f s]. cbn. clear.
  revert y dx dy. induction x as [|x0 x IH]; intros [|y0 y] [|a dx] [|b dy] (A & B & D); cbn in *; try discriminate; [auto|].
  destruct (IH y dx dy) as (E1 & E2 & E3 & E4); [lia|]. repeat split; f_equal; assumption.
Qed.

Lemma select_map {A B} (f : A -> B) (ok : A -> bool) l : select (map ok l) (map f l) = Ok (map f (filter ok l)).
Proof. induction l as [|x l IH]; [reflexivity|]. cbn [map select filter]. rewrite IH. cbn [bind]. destruct (ok x); reflexivity. Qed.

Lemma selection_map {A} (f g : A -> F) l : selection isnan (map f l) (map g l) = Ok (map (fun v => negb (isnan (f v)) && negb (isnan (g v))) l).
Proof. induction l as [|x l IH]; [reflexivity|]. cbn [map selection]. rewrite IH. cbn [bind]. rewrite negb_orb. reflexivity. Qed.

Lemma combine_map2 {A B D} (f : A -> B) (g : A -> D) l : combine (map f l) (map g l) = map (fun x => (f x, g x)) l.
Proof. induction l as [|x l IH]; [reflexivity|]. cbn. rewrite IH. reflexivity. Qed.

Lemma grid_nodes ix iy :
  combine (halves (flat_map (fun _ : Z => ix) iy)) (halves (flat_map (fun y => map (fun _ : Z => y) ix) iy)) =
  flat_map (fun y => map (fun x => (x, y)) (halves ix)) (halves iy).
Proof.
  unfold halves. induction iy as [|y iy IH]; [reflexivity|]. cbn [flat_map map]. rewrite !map_app, <- IH. clear IH.
  assert (E : forall l r1 r2, combine (map (fun x => 2 * x) l ++ r1) (map (fun x => 2 * x) (map (fun _ : Z => y) l) ++ r2) =
                              map (fun x => (x, 2 * y)) (map (fun x => 2 * x) l) ++ combine r1 r2).
  { induction l as [|a l IH]; intros r1 r2; [reflexivity|]. cbn [map app combine]. rewrite IH. reflexivity. }
  apply E.
Qed.

Lemma prepare_grid i im g : prepare i im = Ok g ->
  g_shape g = shape im /\ g_ixg g = flat_map (fun _ : Z => g_ix g) (g_iy g) /\ g_iyg g = flat_map (fun y => map (fun _ : Z => y) (g_ix g)) (g_iy g).
Proof.
  unfold PivPassModel.prepare, prepare_with_image. intros H. destruct (negb _); [discriminate|]. destruct (negb _); [discriminate|].
  destruct (axis_vecs _ _ _) as [ix|]; [|discriminate]. cbn [bind] in H. destruct (axis_vecs _ _ _) as [iy|]; [|discriminate]. cbn [bind] in H. injection H as <-.
  cbn. auto.
Qed.

Lemma nodes_combine g : combine (halves (g_ixg g)) (halves (g_iyg g)) = nodes g.
Proof.
  unfold halves, nodes. generalize (g_iyg g). induction (g_ixg g) as [|x l IH]; intros [|y m]; cbn; try reflexivity. rewrite IH. reflexivity.
Qed.
Lemma nodes_swap g : combine (halves (g_iyg g)) (halves (g_ixg g)) = map swap (nodes g).
Proof.
  unfold halves, nodes. generalize (g_iyg g). induction (g_ixg g) as [|x l IH]; intros [|y m]; cbn; try reflexivity. rewrite IH. reflexivity.
Qed.
Lemma grid_len i im g : prepare i im = Ok g -> List.length (g_iyg g) = List.length (g_ixg g).
Proof.
  intros P. destruct (prepare_grid _ _ _ P) as (_ & -> & ->). induction (g_iy g) as [|y l IH]; [reflexivity|]. cbn [flat_map]. rewrite !app_length, map_length, IH. reflexivity.
Qed.
Lemma original_nodes i im g : prepare i im = Ok g -> original (nodes g) = (to_original offx (halves (g_ixg g)), to_original offy (halves (g_iyg g))).
Proof.
  intros P. pose proof (grid_len _ _ _ P) as L. unfold original, nodes, to_original, halves. rewrite !map_map. revert L. generalize (g_iyg g).
  induction (g_ixg g) as [|x l IH]; intros [|y m] L; try discriminate; [reflexivity|]. cbn [combine map fst snd]. injection L as L. specialize (IH _ L).
  pose proof (f_equal fst IH) as E1. pose proof (f_equal snd IH) as E2. cbn [fst snd] in E1, E2. rewrite E1, E2. reflexivity.
Qed.

Lemma griddata_ok i im g pts l : prepare i im = Ok g -> griddata pts (halves (g_ix g)) (halves (g_iy g)) = Ok l ->
  exists f, by_griddata pts f /\ l = map f (nodes g).
Proof.
  intros P H. unfold PivPassModel.griddata in H. destruct (lin pts) as [fl|] eqn:L; [|discriminate]. cbn [bind] in H.
  destruct (near pts) as [fn|] eqn:N; [|discriminate]. cbn [bind] in H. injection H as <-.
  exists (fun p => if isnan (fl p) then fn p else fl p). split; [exists fl, fn; auto|].
  destruct (prepare_grid _ _ _ P) as (_ & E1 & E2). rewrite <- nodes_combine, E1, E2, grid_nodes. reflexivity.
Qed.

Lemma existsb_map_filter {A} (ok : A -> bool) l : existsb (fun b => b) (map ok l) = false <-> filter ok l = [].
Proof.
  induction l as [|x l IH]; [split; reflexivity|]. cbn. destruct (ok x); cbn; [split; discriminate|exact IH].
Qed.

Lemma set_pos_same g last (h : heavy) : same_vectors h (set_pos offx offy g last h).
Proof. unfold set_pos, same_vectors. destruct last; [destruct (h_final_pos h)|destruct (h_approx_pos h)]; cbn; auto 10. Qed.
Lemma same_wf h h' : same_vectors h h' -> well_formed h -> well_formed h'.
Proof. unfold same_vectors, well_formed. intros (-> & -> & -> & -> & _). auto. Qed.
Lemma same_data f h h' : same_vectors h h' -> data f h' = data f h.
Proof. unfold same_vectors, data, vectors. intros (-> & -> & -> & -> & _). reflexivity. Qed.
Lemma same_vecs h h' : same_vectors h h' -> vectors h' = vectors h.
Proof. unfold same_vectors, vectors. intros (-> & -> & -> & -> & _). reflexivity. Qed.
Lemma same_interpolants h h' last fx fy : same_vectors h h' -> interpolants h' last fx fy <-> interpolants h last fx fy.
Proof. intros S. unfold interpolants. rewrite !(same_data _ _ _ S). tauto. Qed.

(** what apply_interp computes, in the terms of the specification *)
Lemma interp_values_eq g last (h : heavy) : well_formed h ->
  interp_values g last h =
  if match filter valid (vectors h) with [] => true | _ => false end then Err InterpError
  else
    let gd (_ : unit) :=
      do ax <- griddata (data fst h) (halves (g_ix g)) (halves (g_iy g)) ;
      do ay <- griddata (data snd h) (halves (g_ix g)) (halves (g_iy g)) ;
      Ok ((ax, ay), None) in
    if match tps_param with TpsTrue => true | TpsLast => last | TpsFalse => false end then
      match tps (swapped (data fst h)), tps (swapped (data snd h)) with
      | Err (UserError 60), _ => gd tt
      | Err e, _ => Err e
      | Ok _, Err (UserError 60) => gd tt
      | Ok _, Err e => Err e
      | Ok (sx, fx), Ok (sy, fy) =>
        let ax := map fx (map swap (nodes g)) in
        let ay := map fy (map swap (nodes g)) in
        if last then
          match h_final_pos h with
          | None => Err AttributeError
          | Some (px, py) =>
            do xs_smooth <- mask_set (map valid (vectors h)) px (map (fun v => fst (fst v)) (filter valid (vectors h))) ;
            do ys_smooth <- mask_set (map valid (vectors h)) py (map (fun v => snd (fst v)) (filter valid (vectors h))) ;
            do dxs_smooth <- mask_set (map valid (vectors h)) ax sx ;
            do dys_smooth <- mask_set (map valid (vectors h)) ay sy ;
            Ok ((ax, ay), Some ((xs_smooth, ys_smooth), (dxs_smooth, dys_smooth)))
          end
        else Ok ((ax, ay), None)
      end
    else gd tt.
Proof.
  intros W. destruct (rows_of h W) as (Ex & Ey & Edx & Edy). unfold PivPassModel.interp_values.
  rewrite Edx, Edy. rewrite selection_map. cbn [bind]. fold valid.
  change (map (fun v => negb (isnan (fst (snd v))) && negb (isnan (snd (snd v)))) (vectors h)) with (map valid (vectors h)).
  assert (Ex1 : existsb (fun b => b) (map valid (vectors h)) = match filter valid (vectors h) with [] => false | _ => true end).
  { destruct (filter valid (vectors h)) eqn:E; [apply existsb_map_filter, E|]. destruct (existsb _ _) eqn:X; [reflexivity|]. apply existsb_map_filter in X. congruence. }
  rewrite Ex1. destruct (filter valid (vectors h)) as [|v0 vs] eqn:Fv; [reflexivity|]. cbn [negb]. rewrite <- Fv.
  rewrite Ex, Ey, !select_map. cbn [bind]. unfold to_masked. rewrite !map_map, !combine_map2, nodes_swap.
  assert (D1 : map (fun x => ((fst (fst x) - 2 * offx, snd (fst x) - 2 * offy), fst (snd x))) (filter valid (vectors h)) = data fst h) by reflexivity.
  assert (D2 : map (fun x => ((fst (fst x) - 2 * offx, snd (fst x) - 2 * offy), snd (snd x))) (filter valid (vectors h)) = data snd h) by reflexivity.
  assert (D3 : map (fun x => ((snd (fst x) - 2 * offy, fst (fst x) - 2 * offx), fst (snd x))) (filter valid (vectors h)) = swapped (data fst h))
    by (unfold swapped, data; rewrite map_map; reflexivity).
  assert (D4 : map (fun x => ((snd (fst x) - 2 * offy, fst (fst x) - 2 * offx), snd (snd x))) (filter valid (vectors h)) = swapped (data snd h))
    by (unfold swapped, data; rewrite map_map; reflexivity).
  rewrite D1, D2, D3, D4. reflexivity.
Qed.

Lemma wants_dec last : wants_tps last <-> match tps_param with TpsTrue => true | TpsLast => last | TpsFalse => false end = true.
Proof.
  unfold wants_tps. destruct tps_param.
  - split; auto.
  - split; [intros [H|(_ & H)]; [discriminate|exact H]|auto].
  - split; [intros [H|(H & _)]; discriminate|discriminate].
Qed.

Lemma exn60 (e : exn) : e = LinAlgError \/ e <> LinAlgError.
Proof. assert (D : {e = LinAlgError} + {e <> LinAlgError}) by (repeat decide equality). destruct D; auto. Qed.
Lemma match60 {A} (e : exn) (a b : A) : e <> LinAlgError -> match e with UserError 60 => a | _ => b end = b.
Proof.
  intros N. destruct e as [| | | | | | | | | | | | | |z|]; try reflexivity. destruct z as [|p|p]; try reflexivity.
  do 6 (destruct p as [p|p|]; try reflexivity). destruct N. reflexivity.
Qed.

Lemma interp_ok i im g last (h : heavy) a sm : prepare i im = Ok g -> well_formed h -> interp_values g last h = Ok (a, sm) ->
  exists fx fy, interpolants h last fx fy /\ a = (map fx (nodes g), map fy (nodes g)).
Proof.
  intros P W H. rewrite (interp_values_eq g last h W) in H. destruct (filter valid (vectors h)); [discriminate|].
  assert (GD : (wants_tps last -> tps (swapped (data fst h)) = Err LinAlgError \/ tps (swapped (data snd h)) = Err LinAlgError) ->
    (do ax <- griddata (data fst h) (halves (g_ix g)) (halves (g_iy g)) ;
     do ay <- griddata (data snd h) (halves (g_ix g)) (halves (g_iy g)) ;
     Ok ((ax, ay), None)) = Ok (a, sm) ->
    exists fx fy, interpolants h last fx fy /\ a = (map fx (nodes g), map fy (nodes g))).
  { intros T G. destruct (griddata (data fst h) _ _) as [ax|] eqn:G1; [|discriminate]. cbn [bind] in G.
    destruct (griddata (data snd h) _ _) as [ay|] eqn:G2; [|discriminate]. cbn [bind] in G. injection G as <- _.
    destruct (griddata_ok _ _ _ _ _ P G1) as (fx & B1 & ->). destruct (griddata_ok _ _ _ _ _ P G2) as (fy & B2 & ->).
    exists fx, fy. split; [right; auto|reflexivity]. }
  cbv zeta in H. destruct (match tps_param with TpsTrue => true | TpsLast => last | TpsFalse => false end) eqn:T.
  - assert (WT : wants_tps last) by (apply wants_dec, T).
    destruct (tps (swapped (data fst h))) as [(sx & fx)|e] eqn:T1.
    + destruct (tps (swapped (data snd h))) as [(sy & fy)|e] eqn:T2.
      * assert (a = (map fx (map swap (nodes g)), map fy (map swap (nodes g)))) as ->.
        { destruct last; [|injection H as <- _; reflexivity]. destruct (h_final_pos h) as [(px, py)|]; [|discriminate].
          do 4 (destruct (mask_set _ _ _); [|discriminate]; cbn [bind] in H). injection H as <- _. reflexivity. }
        exists (fun p => fx (swap p)), (fun p => fy (swap p)). rewrite !map_map. split; [|reflexivity]. left. split; [exact WT|].
        exists sx, sy. split; [exists fx|exists fy]; auto.
      * destruct (exn60 e) as [->|N]; [|rewrite match60 in H by exact N; discriminate]. apply GD; [|exact H]. auto.
    + destruct (exn60 e) as [->|N]; [|rewrite match60 in H by exact N; discriminate]. apply GD; [|exact H]. auto.
  - apply GD; [|exact H]. intros WT. apply wants_dec in WT. congruence.
Qed.

(** ** Theorems *)

(** Interpolation of a result on a grid: the value given to each node is that of the interpolation of the valid vectors (and
    only these ones), at the position of this node; the positions recorded are those of the nodes in the original image; the
    vectors are not changed. *)
Theorem C94_values : forall i im g last (h h' : heavy), prepare i im = Ok g -> well_formed h ->
  apply_interp g last h = (h', Ok tt) ->
  same_vectors h h' /\
  (exists fx fy, interpolants h last fx fy /\ (if last then h_final h' else h_approx h') = Some (map fx (nodes g), map fy (nodes g))) /\
  ((if last then h_final_pos h else h_approx_pos h) = None -> (if last then h_final_pos h' else h_approx_pos h') = Some (original (nodes g))).
Proof.
  intros i im g last h h' P W H. unfold PivPassModel.apply_interp in H. pose proof (set_pos_same g last h) as S0.
  pose proof (same_wf _ _ S0 W) as W0. destruct (interp_values g last (set_pos offx offy g last h)) as [(a, sm)|] eqn:V; [|discriminate]. injection H as <-.
  destruct (interp_ok _ _ _ _ _ _ _ P W0 V) as (fx & fy & I0 & ->). apply (same_interpolants _ _ last fx fy S0) in I0.
  split; [|split].
  - destruct S0 as (A1 & A2 & A3 & A4 & A5 & A6 & A7). unfold store, same_vectors. destruct last; cbn; auto 10.
  - exists fx, fy. split; [exact I0|]. unfold store. destruct last; reflexivity.
  - rewrite (original_nodes _ _ _ P). unfold store, set_pos. destruct last; intros ->; reflexivity.
Qed.

(** The interpolation fails with InterpError exactly when no vector is valid (the external functions raise other exceptions). *)
Theorem C94_only_nan : forall g last (h : heavy), well_formed h ->
  (forall pts, lin pts <> Err InterpError /\ near pts <> Err InterpError /\ tps pts <> Err InterpError) ->
  snd (apply_interp g last h) = Err InterpError <-> forall v, In v (vectors h) -> isnan (fst (snd v)) = true \/ isnan (snd (snd v)) = true.
Proof.
  intros g last h W X. unfold PivPassModel.apply_interp. pose proof (set_pos_same g last h) as S0. pose proof (same_wf _ _ S0 W) as W0.
  rewrite (interp_values_eq _ _ _ W0), !(same_data _ _ _ S0), (same_vecs _ _ S0).
  assert (E : filter valid (vectors h) = [] <-> forall v, In v (vectors h) -> isnan (fst (snd v)) = true \/ isnan (snd (snd v)) = true).
  { induction (vectors h) as [|v l IH]; [split; [intros _ v []|reflexivity]|]. cbn [filter]. unfold valid at 1.
    destruct (isnan (fst (snd v))) eqn:A; cbn [negb andb].
    - rewrite IH. split; intros H w Hw; [destruct Hw as [<-|Hw]; auto|apply H; right; exact Hw].
    - destruct (isnan (snd (snd v))) eqn:B; cbn [negb].
      + rewrite IH. split; intros H w Hw; [destruct Hw as [<-|Hw]; auto|apply H; right; exact Hw].
      + split; [discriminate|]. intros H. destruct (H v (or_introl eq_refl)); congruence. }
  rewrite <- E. destruct (filter valid (vectors h)) as [|v0 vs]; [cbn; tauto|]. split; [|discriminate]. intros H. exfalso. revert H. cbv zeta.
  assert (GDx : forall pts, griddata pts (halves (g_ix g)) (halves (g_iy g)) <> Err InterpError).
  { intros pts. unfold PivPassModel.griddata. destruct (X pts) as (X1 & X2 & _). destruct (lin pts); [|cbn; congruence]. cbn [bind].
    destruct (near pts); cbn; congruence. }
  set (gd := do ax <- griddata (data fst h) _ _ ; _).
  assert (GD : gd <> Err InterpError).
  { unfold gd. pose proof (GDx (data fst h)). pose proof (GDx (data snd h)). destruct (griddata (data fst h) _ _); [|cbn; congruence]. cbn [bind].
    destruct (griddata (data snd h) _ _); cbn; congruence. }
  assert (ND : forall A (sel : list bool) (l v : list A), mask_set sel l v <> Err InterpError).
  { intros A sel. induction sel as [|b sel IH]; intros [|y l] v; cbn; try discriminate; [destruct v; discriminate|destruct b; discriminate|].
    destruct b; [destruct v as [|z v]; [discriminate|]|]; [specialize (IH l v); destruct (mask_set sel l v); cbn; congruence|specialize (IH l v); destruct (mask_set sel l v); cbn; congruence]. }
  match goal with |- context [match ?R with Ok v => _ | Err e => (_, Err e) end] => assert (R <> Err InterpError) end.
  { destruct (match tps_param with TpsTrue => true | TpsLast => last | TpsFalse => false end); [|exact GD].
    pose proof (X (swapped (data fst h))) as (_ & _ & X1). pose proof (X (swapped (data snd h))) as (_ & _ & X2).
    destruct (tps (swapped (data fst h))) as [(sx & fx)|e].
    - destruct (tps (swapped (data snd h))) as [(sy & fy)|e].
      + destruct last; [|discriminate]. destruct (h_final_pos _) as [(px, py)|]; [|discriminate].
        do 4 (match goal with |- context [mask_set ?a ?b ?c] => let Q := fresh "Q" in pose proof (ND _ a b c) as Q; destruct (mask_set a b c); [|cbn; congruence]; cbn [bind] end).
        discriminate.
      + destruct (exn60 e) as [->|N]; [exact GD|]. rewrite match60 by exact N. congruence.
    - destruct (exn60 e) as [->|N]; [exact GD|]. rewrite match60 by exact N. congruence. }
  match goal with |- context [match ?R with Ok v => _ | Err e => (_, Err e) end] => destruct R end; cbn; congruence.
Qed.

Lemma mask_set_nth {A} (ok : A -> bool) {B} (rows : list A) : forall (l v r : list B), mask_set (map ok rows) l v = Ok r ->
  List.length l = List.length rows /\ List.length v = List.length (filter ok rows) /\ List.length r = List.length rows /\
  forall k row, nth_error rows k = Some row ->
    nth_error r k = if ok row then nth_error v (List.length (filter ok (firstn k rows))) else nth_error l k.
Proof.
  induction rows as [|row rows IH]; intros l v r H; cbn [map mask_set] in H.
  - destruct l; [|discriminate]. destruct v; [|discriminate]. injection H as <-. repeat split; try reflexivity. intros [|k] row N; discriminate.
  - destruct l as [|y l]; [destruct (ok row); discriminate|]. cbn [filter]. destruct (ok row) eqn:O.
    + destruct v as [|z v]; [discriminate|]. destruct (mask_set _ l v) as [r'|] eqn:E; [|discriminate]. cbn [bind] in H. injection H as <-.
      destruct (IH _ _ _ E) as (A1 & A2 & A3 & A4). cbn [List.length]. repeat split; try lia. intros [|k] row' N; cbn [nth_error firstn filter] in *.
      * injection N as <-. rewrite O. reflexivity.
      * rewrite (A4 _ _ N), O. reflexivity.
    + destruct (mask_set _ l v) as [r'|] eqn:E; [|discriminate]. cbn [bind] in H. injection H as <-.
      destruct (IH _ _ _ E) as (A1 & A2 & A3 & A4). cbn [List.length]. repeat split; try lia. intros [|k] row' N; cbn [nth_error firstn filter] in *.
      * injection N as <-. rewrite O. reflexivity.
      * rewrite (A4 _ _ N), O. reflexivity.
Qed.

(** The smooth field of the last pass (with the thin plate splines): one value per vector; a valid vector keeps its own
    position, with its smoothed displacement; at the place of a wrong vector there is the node of the grid with the
    interpolated displacement. *)
Theorem C94_smooth : forall i im g (h h' : heavy) px py dxs dys, prepare i im = Ok g -> well_formed h ->
  h_final_pos h = None -> h_smooth h = None ->
  apply_interp g true h = (h', Ok tt) -> h_smooth h' = Some ((px, py), (dxs, dys)) ->
  exists sx sy fx fy, wants_tps true /\ by_tps (data fst h) sx fx /\ by_tps (data snd h) sy fy /\
  List.length sx = List.length (filter valid (vectors h)) /\ List.length sy = List.length (filter valid (vectors h)) /\
  List.length (nodes g) = List.length (vectors h) /\
  forall k x y dx dy, nth_error (vectors h) k = Some ((x, y), (dx, dy)) ->
    let rank := List.length (filter valid (firstn k (vectors h))) in
    if valid ((x, y), (dx, dy)) then
      nth_error px k = Some x /\ nth_error py k = Some y /\ nth_error dxs k = nth_error sx rank /\ nth_error dys k = nth_error sy rank
    else exists node, nth_error (nodes g) k = Some node /\
      nth_error px k = Some (fst node + 2 * offx) /\ nth_error py k = Some (snd node + 2 * offy) /\
      nth_error dxs k = Some (fx node) /\ nth_error dys k = Some (fy node).
Proof.
  intros i im g h h' px py dxs dys P W Hp Hs H Hs'. unfold PivPassModel.apply_interp in H. pose proof (set_pos_same g true h) as S0.
  pose proof (same_wf _ _ S0 W) as W0. rewrite (interp_values_eq _ _ _ W0), !(same_data _ _ _ S0), (same_vecs _ _ S0) in H.
  assert (Sm : h_smooth (set_pos offx offy g true h) = None) by (unfold set_pos; rewrite Hp; exact Hs).
  assert (Pos : h_final_pos (set_pos offx offy g true h) = Some (original (nodes g))) by (rewrite (original_nodes _ _ _ P); unfold set_pos; rewrite Hp; reflexivity).
  destruct (filter valid (vectors h)) as [|v0 vs] eqn:Fv; [discriminate|]. rewrite <- Fv in *. cbv zeta in H.
  set (gd := do ax <- griddata (data fst h) _ _ ; _) in H.
  assert (GD : forall a sm, gd = Ok (a, sm) -> sm = None).
  { intros a sm. unfold gd. destruct (griddata (data fst h) _ _); [|discriminate]. cbn [bind]. destruct (griddata (data snd h) _ _); [|discriminate]. cbn [bind]. congruence. }
  assert (NG : match gd with Ok v => (store true v (set_pos offx offy g true h), Ok tt) | Err e => (set_pos offx offy g true h, Err e) end = (h', Ok tt) -> False).
  { destruct gd as [(a & sm)|]; [|discriminate]. intros Q. injection Q as <-. rewrite (GD _ _ eq_refl) in Hs'. cbn in Hs'. unfold set_pos in Sm, Hs'. rewrite Hp in Sm, Hs'. cbn in Sm, Hs'. rewrite Sm in Hs'. discriminate. }
  destruct (match tps_param with TpsTrue => true | TpsLast => true | TpsFalse => false end) eqn:T; [|destruct (NG H)].
  destruct (tps (swapped (data fst h))) as [(sx & fx)|e] eqn:T1; [|destruct (exn60 e) as [->|N]; [destruct (NG H)|rewrite match60 in H by exact N; discriminate]].
  destruct (tps (swapped (data snd h))) as [(sy & fy)|e] eqn:T2; [|destruct (exn60 e) as [->|N]; [destruct (NG H)|rewrite match60 in H by exact N; discriminate]].
  rewrite Pos in H. destruct (original (nodes g)) as (ox, oy) eqn:Or.
  destruct (mask_set _ ox _) as [r1|] eqn:M1; [|discriminate]. cbn [bind] in H.
  destruct (mask_set _ oy _) as [r2|] eqn:M2; [|discriminate]. cbn [bind] in H.
  destruct (mask_set _ _ sx) as [r3|] eqn:M3; [|discriminate]. cbn [bind] in H.
  destruct (mask_set _ _ sy) as [r4|] eqn:M4; [|discriminate]. cbn [bind] in H.
  injection H as <-. cbn [store snd h_smooth] in Hs'. injection Hs' as -> -> -> ->.
  apply mask_set_nth in M1, M2, M3, M4. destruct M1 as (_ & _ & _ & M1). destruct M2 as (_ & _ & _ & M2).
  destruct M3 as (L3 & L3' & _ & M3). destruct M4 as (_ & L4' & _ & M4). rewrite !map_length in L3.
  exists sx, sy, (fun p => fx (swap p)), (fun p => fy (swap p)).
  split; [apply wants_dec; exact T|]. split; [exists fx; auto|]. split; [exists fy; auto|]. split; [exact L3'|]. split; [exact L4'|]. split; [exact L3|].
  intros k x y dx dy N rank. specialize (M1 _ _ N). specialize (M2 _ _ N). specialize (M3 _ _ N). specialize (M4 _ _ N). fold rank in M1, M2, M3, M4.
  injection Or as <- <-. destruct (valid ((x, y), (dx, dy))) eqn:Va.
  - assert (R : nth_error (filter valid (vectors h)) rank = Some ((x, y), (dx, dy))).
    { unfold rank. clear - N Va. revert k N. induction (vectors h) as [|v l IH]; intros [|k] N; [discriminate..| |].
      - injection N as ->. cbn. rewrite Va. reflexivity.
      - cbn in N |- *. destruct (valid v); cbn; apply IH; exact N. }
    rewrite !nth_error_map, R in M1, M2. cbn [option_map fst snd] in M1, M2. auto.
  - assert (K : (k < List.length (nodes g))%nat) by (rewrite L3; apply nth_error_Some; congruence).
    destruct (nth_error (nodes g) k) as [node|] eqn:En; [|apply nth_error_None in En; lia]. exists node. split; [reflexivity|].
    rewrite M1, M2, M3, M4, !nth_error_map, En. cbn. auto.
Qed.

(** *** The passes *)

(** the step "fix" (property C35) changes displacements, maxima and errors, not the positions nor the number of vectors *)
Definition keeps_positions : Prop := forall i h h', fix_pass i h = Ok h' ->
  h_x h' = h_x h /\ h_y h' = h_y h /\ List.length (h_dx h') = List.length (h_dx h) /\ List.length (h_dy h') = List.length (h_dy h) /\
  h_input h' = h_input h /\ h_approx_pos h' = h_approx_pos h /\ h_approx h' = h_approx h /\
  h_final_pos h' = h_final_pos h /\ h_final h' = h_final h /\ h_smooth h' = h_smooth h.

(** the vector of the pass [i] computed from two windows, given by their centres in the two images *)
Definition window_vector (i : nat) (im0pad im1pad : img) (w : (Z * Z) * (Z * Z)) : F * F * F * option M :=
  let npad := npad_of (scim0 i) in
  vector nan bad_shape (correl i) (compute i) (subpix i) (Nat.eqb (S i) number) (scim0 i) (scim1 i) im0pad im1pad
    ((fst (fst w) + npad, snd (fst w) + npad), (fst (snd w) + npad, snd (snd w) + npad)).
Definition padded (i : nat) (im0 im1 im0pad im1pad : img) : Prop :=
  pad_image (npad_of (scim0 i)) im0 = Ok im0pad /\ pad_image (npad_of (scim0 i)) im1 = Ok im1pad.

(** first pass: the windows are centred on the nodes of the grid *)
Definition first_computed (g : pgrid) (im0 im1 : img) (raw : heavy) : Prop :=
  exists im0pad im1pad, padded 0 im0 im1 im0pad im1pad /\
  let centres := combine (g_ixg g) (g_iyg g) in
  let vs := map (fun c => window_vector 0 im0pad im1pad (c, c)) centres in
  h_x raw = map (fun c => 2 * (fst c + offx)) centres /\ h_y raw = map (fun c => 2 * (snd c + offy)) centres /\
  h_dx raw = map v_dx vs /\ h_dy raw = map v_dy vs /\ h_max raw = map v_max vs /\ h_err raw = errs 0 vs /\ h_input raw = None.

(** next passes: the windows are displaced by the rounded values of the interpolation at the node *)
Definition next_computed (i : nat) (g : pgrid) (fx fy : Z * Z -> F) (im0 im1 : img) (raw : heavy) : Prop :=
  exists im0pad im1pad, padded i im0 im1 im0pad im1pad /\
  let centres := combine (g_ixg g) (g_iyg g) in
  let inx c := rint (fx (2 * fst c, 2 * snd c)) in
  let iny c := rint (fy (2 * fst c, 2 * snd c)) in
  let windows c := displaced (shape im0) (fst c) (snd c) (inx c) (iny c) in
  let vec c := window_vector i im0pad im1pad (windows c) in
  h_x raw = map (fun c => fst (fst (windows c)) + fst (snd (windows c)) + 2 * offx) centres /\
  h_y raw = map (fun c => snd (fst (windows c)) + snd (snd (windows c)) + 2 * offy) centres /\
  h_dx raw = map (fun c => addi (v_dx (vec c)) (inx c)) centres /\
  h_dy raw = map (fun c => addi (v_dy (vec c)) (iny c)) centres /\
  h_max raw = map (fun c => v_max (vec c)) centres /\ h_err raw = errs 0 (map vec centres) /\
  h_input raw = Some (map inx centres, map iny centres).

(** from the pass [i], with the result [h], to the next one, with the result [h'] *)
Definition next_step (im0 im1 : img) (i : nat) (h h' : heavy) : Prop :=
  exists g fx fy raw fixed, prepare (S i) im0 = Ok g /\ interpolants h false fx fy /\
    h_approx_pos h = Some (original (nodes g)) /\ h_approx h = Some (map fx (nodes g), map fy (nodes g)) /\
    next_computed (S i) g fx fy im0 im1 raw /\ fix_pass (S i) raw = Ok fixed /\ same_vectors fixed h'.

Definition all_nan (h : heavy) : Prop := forall v, In v (vectors h) -> isnan (fst (snd v)) = true \/ isnan (snd (snd v)) = true.
(** the last interpolation, on the grid of the last pass *)
Definition last_step (im0 : img) (i : nat) (h : heavy) : Prop :=
  exists g, prepare i im0 = Ok g /\ h_final_pos h = Some (original (nodes g)) /\
    ((all_nan h /\ h_final h = None) \/
     (~ all_nan h /\ exists fx fy, interpolants h true fx fy /\ h_final h = Some (map fx (nodes g), map fy (nodes g)))).

Definition blank (h : heavy) : Prop := h_approx_pos h = None /\ h_approx h = None /\ h_final_pos h = None /\ h_final h = None /\ h_smooth h = None.

Lemma loop_pass_ok i im0 im1 pos l :
  loop_pass nan bad_shape correl compute subpix scim0 scim1 number junk i im0 im1 pos = Ok l ->
  exists im0pad im1pad, padded i im0 im1 im0pad im1pad /\
    let vs := map (vector nan bad_shape (correl i) (compute i) (subpix i) (Nat.eqb (S i) number) (scim0 i) (scim1 i) im0pad im1pad) (pos (npad_of (scim0 i))) in
    l = mk_loop (map v_dx vs) (map v_dy vs) (map v_max vs) (errs 0 vs).
Proof.
  unfold loop_pass, padded. intros H. destruct (pad_image _ im0) as [im0pad|]; [|discriminate]. cbn [bind] in H.
  destruct (pad_image _ im1) as [im1pad|]; [|discriminate]. cbn [bind] in H. rewrite C29_loop in H. injection H as <-. exists im0pad, im1pad. auto.
Qed.

Lemma map_combine_map {A B D} (f : A -> B) (g : A -> D) l : map fst (combine (map f l) (map g l)) = map f l.
Proof. rewrite combine_map2, map_map. reflexivity. Qed.

Lemma grid_maps i im g : prepare i im = Ok g -> g_ixg g = map fst (combine (g_ixg g) (g_iyg g)) /\ g_iyg g = map snd (combine (g_ixg g) (g_iyg g)).
Proof.
  intros P. pose proof (grid_len _ _ _ P) as L. revert L. generalize (g_iyg g). induction (g_ixg g) as [|x l IH]; intros [|y m] L; try discriminate; [auto|].
  injection L as L. destruct (IH _ L) as (E1 & E2). cbn. rewrite <- E1, <- E2. auto.
Qed.

Lemma first_ok im g im0 im1 raw : prepare 0 im = Ok g ->
  first_pass nan bad_shape correl compute subpix scim0 scim1 number offx offy junk g im0 im1 = Ok raw ->
  first_computed g im0 im1 raw /\ blank raw /\ well_formed raw.
Proof.
  intros P H. unfold first_pass in H. destruct (loop_pass _ _ _ _ _ _ _ _ _ _ _ _ _) as [l|] eqn:L; [|discriminate]. cbn [bind] in H. injection H as <-.
  apply loop_pass_ok in L. destruct L as (a & b & Pd & ->). destruct (grid_maps _ _ _ P) as (G1 & G2). remember (combine (g_ixg g) (g_iyg g)) as cs eqn:Ecs.
  rewrite G1, G2. split; [|split].
  - exists a, b. split; [exact Pd|]. cbv zeta. rewrite <- Ecs. cbn [heavy_of h_x h_y h_dx h_dy h_max h_err h_input l_dx l_dy l_max l_err].
    unfold to_original, halves. rewrite !map_map. repeat split; try (apply map_ext; intros (x, y); cbn [fst snd]; lia); try (apply map_ext; intros (x, y); reflexivity).
    f_equal. apply map_ext. intros (x, y). reflexivity.
  - unfold blank. cbn. auto.
  - unfold well_formed. cbn. unfold to_original, halves. rewrite !map_length. auto.
Qed.

Lemma next_ok_spec i im0 im1 g prev fx fy raw : prepare i im0 = Ok g -> h_approx prev = Some (map fx (nodes g), map fy (nodes g)) ->
  next_pass nan bad_shape correl compute subpix scim0 scim1 number offx offy junk rint addi i g prev im0 im1 = Ok raw ->
  next_computed i g fx fy im0 im1 raw /\ blank raw /\ well_formed raw.
Proof.
  intros P A H. unfold next_pass in H. rewrite A in H. destruct (prepare_grid _ _ _ P) as (Sh & _). rewrite Sh in H. destruct (negb _); [discriminate|].
  unfold nodes in H. set (cs := combine (g_ixg g) (g_iyg g)) in *.
  set (inx := fun c : Z * Z => rint (fx (2 * fst c, 2 * snd c))). set (iny := fun c : Z * Z => rint (fy (2 * fst c, 2 * snd c))).
  assert (Ex : map rint (map fx (map (fun '(x, y) => (2 * x, 2 * y)) cs)) = map inx cs) by (rewrite !map_map; apply map_ext; intros (x, y); reflexivity).
  assert (Ey : map rint (map fy (map (fun '(x, y) => (2 * x, 2 * y)) cs)) = map iny cs) by (rewrite !map_map; apply map_ext; intros (x, y); reflexivity).
  rewrite Ex, Ey in H. assert (Ev : combine cs (combine (map inx cs) (map iny cs)) = map (fun c => (c, (inx c, iny c))) cs).
  { rewrite combine_map2. rewrite <- (map_id cs) at 1. apply combine_map2. }
  rewrite Ev in H. clear Ev Ex Ey. destruct (loop_pass _ _ _ _ _ _ _ _ _ _ _ _ _) as [l|] eqn:L; [|discriminate]. cbn [bind] in H. injection H as <-.
  apply loop_pass_ok in L. destruct L as (a & b & Pd & ->). cbn [l_dx l_dy l_max l_err]. cbv zeta. rewrite !map_map, !combine_map2, !map_map.
  split; [|split].
  - exists a, b. split; [exact Pd|]. cbv zeta. cbn [heavy_of h_x h_y h_dx h_dy h_max h_err h_input l_dx l_dy l_max l_err]. unfold to_original. rewrite !map_map.
    fold cs inx iny.
    assert (PD : forall c npad, positions_displaced (shape im0) npad (fst c) (snd c) (inx c) (iny c) =
       let w := displaced (shape im0) (fst c) (snd c) (inx c) (iny c) in
       (((fst (fst w) + npad, snd (fst w) + npad), (fst (snd w) + npad, snd (snd w) + npad)), (fst (fst w) + fst (snd w), snd (fst w) + snd (snd w)))).
    { intros c npad. unfold positions_displaced. destruct (displaced _ _ _ _ _) as ((ix0, iy0), (ix1, iy1)). reflexivity. }
    unfold window_vector.
    repeat split; try (apply map_ext; intros (x, y); change x with (fst (x, y)); change y with (snd (x, y)); rewrite PD; reflexivity).
    f_equal. apply map_ext; intros (x, y); change x with (fst (x, y)); change y with (snd (x, y)); rewrite PD; reflexivity.
  - unfold blank. cbn. auto.
  - unfold well_formed. cbn. unfold to_original. rewrite !map_length. auto.
Qed.

Lemma fixed_ok i raw fixed : keeps_positions -> fix_pass i raw = Ok fixed -> blank raw -> well_formed raw -> blank fixed /\ well_formed fixed.
Proof.
  intros K H (B1 & B2 & B3 & B4 & B5) (W1 & W2 & W3). destruct (K _ _ _ H) as (A1 & A2 & A3 & A4 & A5 & A6 & A7 & A8 & A9 & A10).
  split; [unfold blank|unfold well_formed]; [rewrite A6, A7, A8, A9, A10; auto|rewrite A1, A2, A3, A4; auto].
Qed.

Lemma same_refl h : same_vectors h h.
Proof. unfold same_vectors. auto 10. Qed.
Lemma same_trans a b c : same_vectors a b -> same_vectors b c -> same_vectors a c.
Proof. unfold same_vectors. intros (?&?&?&?&?&?&?) (?&?&?&?&?&?&?). repeat split; congruence. Qed.
Lemma exn63 (e : exn) : e = InterpError \/ e <> InterpError.
Proof. assert (D : {e = InterpError} + {e <> InterpError}) by (repeat decide equality). destruct D; auto. Qed.
Lemma match63 {A} (e : exn) (a b : A) : e <> InterpError -> match e with UserError 63 => a | _ => b end = b.
Proof.
  intros N. destruct e as [| | | | | | | | | | | | | |z|]; try reflexivity. destruct z as [|p|p]; try reflexivity.
  do 6 (destruct p as [p|p|]; try reflexivity). destruct N. reflexivity.
Qed.
Lemma same_all_nan h h' : same_vectors h h' -> all_nan h' <-> all_nan h.
Proof. intros S0. unfold all_nan. rewrite (same_vecs _ _ S0). tauto. Qed.

Hypothesis Keep : keeps_positions.
Hypothesis NoInterp : forall pts, lin pts <> Err InterpError /\ near pts <> Err InterpError /\ tps pts <> Err InterpError.

Lemma next_chain im0 im1 n : forall i g prev st hs, prepare i im0 = Ok g -> blank prev -> well_formed prev ->
  next_passes i g prev (repeat None n) im0 im1 = (st, Ok hs) ->
  exists h0 rest, hs = h0 :: rest /\ List.length rest = n /\ same_vectors prev h0 /\
    (forall k h h', nth_error hs k = Some h -> nth_error hs (S k) = Some h' -> next_step im0 im1 (i + k) h h') /\
    (forall h, nth_error hs n = Some h -> last_step im0 (i + n) h).
Proof.
  induction n as [|n IH]; intros i g prev st hs P B W H; cbn [repeat PivPassModel.next_passes] in H.
  - destruct (apply_interp g true prev) as (h, r) eqn:A. injection H as _ H.
    assert (Q : same_vectors prev h /\ hs = [h] /\ last_step im0 i h).
    { destruct B as (B1 & B2 & B3 & B4 & B5). pose proof (C94_only_nan g true prev W NoInterp) as ON. rewrite A in ON. cbn [snd] in ON.
      destruct r as [u|e].
      - destruct u. injection H as <-. destruct (C94_values _ _ _ _ _ _ P W A) as (S0 & (fx & fy & I0 & V) & Ps).
        split; [exact S0|]. split; [reflexivity|]. exists g. split; [exact P|]. split; [apply Ps, B3|]. right. split.
        + rewrite (same_all_nan _ _ S0). unfold all_nan. rewrite <- ON. discriminate.
        + exists fx, fy. split; [apply (same_interpolants _ _ _ _ _ S0), I0|exact V].
      - destruct (exn63 e) as [->|N]; [|rewrite match63 in H by exact N; discriminate]. injection H as <-.
        unfold PivPassModel.apply_interp in A. pose proof (set_pos_same g true prev) as S0. destruct (interp_values _ _ _) as [v|]; [discriminate|]. injection A as <- _.
        split; [exact S0|]. split; [reflexivity|]. exists g. split; [exact P|]. split.
        + rewrite (original_nodes _ _ _ P). unfold set_pos. rewrite B3. reflexivity.
        + left. split; [rewrite (same_all_nan _ _ S0); exact (proj1 ON eq_refl)|]. unfold set_pos. rewrite B3. exact B4. }
    destruct Q as (Q1 & -> & Q3). exists h, []. split; [reflexivity|]. split; [reflexivity|]. split; [exact Q1|]. split.
    + intros [|k] x y; cbn; [discriminate|destruct k; discriminate].
    + intros x Hx. injection Hx as <-. rewrite Nat.add_0_r. exact Q3.
  - cbn [prepared] in H. destruct (prepare (S i) im0) as [g'|] eqn:P'; [|discriminate].
    destruct (apply_interp g' false prev) as (prev', r) eqn:A. destruct r as [u|]; [|discriminate]. destruct u. cbn [bind] in H.
    destruct (next_pass _ _ _ _ _ _ _ _ _ _ _ _ _ _ _ _ _ _) as [raw|] eqn:Np; [|discriminate]. cbn [bind] in H.
    destruct (fix_pass (S i) raw) as [fixed|] eqn:Fx; [|discriminate].
    destruct (next_passes (S i) g' fixed (repeat None n) im0 im1) as (st', res) eqn:R. injection H as _ H. destruct res as [l|]; [|discriminate]. cbn [bind] in H. injection H as <-.
    destruct (C94_values _ _ _ _ _ _ P' W A) as (S0 & (fx & fy & I0 & V) & Ps).
    destruct (next_ok_spec _ _ _ _ _ _ _ _ P' V Np) as (Nc & Br & Wr). destruct (fixed_ok _ _ _ Keep Fx Br Wr) as (Bf & Wf).
    destruct (IH _ _ _ _ _ P' Bf Wf R) as (h0 & rest & -> & Lr & S1 & Steps & Last).
    exists prev', (h0 :: rest). split; [reflexivity|]. split; [cbn; rewrite Lr; reflexivity|]. split; [exact S0|]. split.
    + intros [|k] h h' Hh Hh'.
      * injection Hh as <-. injection Hh' as <-. rewrite Nat.add_0_r. exists g', fx, fy, raw, fixed.
        split; [exact P'|]. split; [apply (same_interpolants _ _ _ _ _ S0), I0|]. split; [apply Ps, B|]. split; [exact V|]. auto.
      * replace (i + S k)%nat with (S i + k)%nat by lia. apply (Steps k h h' Hh Hh').
    + intros h Hh. replace (i + S n)%nat with (S i + n)%nat by lia. apply Last. exact Hh.
Qed.

(** The computation for a couple: one result per pass; the first pass uses the windows centred on its grid; each next pass uses
    windows displaced by the rounded interpolation of the valid vectors of the previous pass, at each node of its own grid;
    the final field is the interpolation of the valid vectors of the last pass on its grid (missing if there is none). *)
Theorem C94_passes : forall im0 im1 st hs, calcul fresh (im0, im1) = (st, Ok hs) ->
  List.length hs = Nat.max 1 number /\
  (exists g raw fixed h0 rest, hs = h0 :: rest /\ prepare 0 im0 = Ok g /\ first_computed g im0 im1 raw /\ fix_pass 0 raw = Ok fixed /\ same_vectors fixed h0) /\
  (forall k h h', nth_error hs k = Some h -> nth_error hs (S k) = Some h' -> next_step im0 im1 k h h') /\
  (forall h, nth_error hs (List.length hs - 1) = Some h -> last_step im0 (List.length hs - 1) h).
Proof.
  intros im0 im1 st hs H. unfold PivPassModel.fresh in H. destruct (Nat.max 1 number) as [|n] eqn:En; [lia|]. cbn [repeat PivPassModel.calcul prepared] in H.
  destruct (prepare 0 im0) as [g|] eqn:P; [|discriminate]. destruct (first_pass _ _ _ _ _ _ _ _ _ _ _ g im0 im1) as [raw|] eqn:Fp; [|discriminate]. cbn [bind] in H.
  destruct (fix_pass 0 raw) as [fixed|] eqn:Fx; [|discriminate]. destruct (next_passes 0 g fixed (repeat None n) im0 im1) as (st', res) eqn:R. injection H as _ ->.
  destruct (first_ok _ _ _ _ _ P Fp) as (Fc & Br & Wr). destruct (fixed_ok _ _ _ Keep Fx Br Wr) as (Bf & Wf).
  destruct (next_chain im0 im1 n 0 g fixed st' hs P Bf Wf R) as (h0 & rest & -> & Lr & S1 & Steps & Last). cbn [List.length]. rewrite Lr.
  split; [reflexivity|]. split; [exists g, raw, fixed, h0, rest; auto|]. split; [exact Steps|]. intros h Hh. replace (S n - 1)%nat with n in * by lia. apply (Last h Hh).
Qed.

(** *** No other exception *)
Lemma mask_set_total {A B} (ok : A -> bool) (rows : list A) : forall (l v : list B), List.length l = List.length rows ->
  List.length v = List.length (filter ok rows) -> exists r, mask_set (map ok rows) l v = Ok r.
Proof.
  induction rows as [|row rows IH]; intros [|y l] v L V; try discriminate; cbn [map mask_set filter] in *.
  - destruct v; [eexists; reflexivity|discriminate].
  - injection L as L. destruct (ok row); [destruct v as [|z v]; [discriminate|]; injection V as V|];
      destruct (IH l v L V) as (r & ->); eexists; reflexivity.
Qed.

Hypothesis lin_total : forall pts, exists f, lin pts = Ok f.
Hypothesis near_total : forall pts, exists f, near pts = Ok f.
Hypothesis tps_total : forall pts, tps pts = Err LinAlgError \/ exists sm f, tps pts = Ok (sm, f) /\ List.length sm = List.length pts.
Hypothesis fix_total : forall i h, exists h', fix_pass i h = Ok h'.

Lemma data_len f h : List.length (swapped (data f h)) = List.length (filter valid (vectors h)).
Proof. unfold swapped, data. rewrite !map_length. reflexivity. Qed.

Lemma interp_total g last (h : heavy) : well_formed h -> (last = true -> h_final_pos h = None /\ List.length (vectors h) = List.length (nodes g)) ->
  List.length (g_iyg g) = List.length (g_ixg g) ->
  snd (apply_interp g last h) = Ok tt \/ snd (apply_interp g last h) = Err InterpError.
Proof.
  intros W L Lg. unfold PivPassModel.apply_interp. pose proof (set_pos_same g last h) as S0. pose proof (same_wf _ _ S0 W) as W0.
  rewrite (interp_values_eq _ _ _ W0), !(same_data _ _ _ S0), (same_vecs _ _ S0).
  destruct (filter valid (vectors h)) as [|v0 vs] eqn:Fv; [right; reflexivity|]. rewrite <- Fv in *. left. cbv zeta.
  assert (GD : exists v, (do ax <- griddata (data fst h) (halves (g_ix g)) (halves (g_iy g)) ;
     do ay <- griddata (data snd h) (halves (g_ix g)) (halves (g_iy g)) ;
     Ok ((ax, ay), @None ((list Z * list Z) * (list F * list F)))) = Ok v).
  { unfold PivPassModel.griddata. destruct (lin_total (data fst h)) as (f1 & ->). destruct (near_total (data fst h)) as (f2 & ->). cbn [bind].
    destruct (lin_total (data snd h)) as (f3 & ->). destruct (near_total (data snd h)) as (f4 & ->). cbn [bind]. eexists; reflexivity. }
  match goal with |- context [match ?R with Ok v => _ | Err e => (_, Err e) end] => assert (Q : exists v, R = Ok v) end.
  { destruct (match tps_param with TpsTrue => true | TpsLast => last | TpsFalse => false end); [|exact GD].
    destruct (tps_total (swapped (data fst h))) as [->|(sx & fx & -> & Lx)]; [exact GD|].
    destruct (tps_total (swapped (data snd h))) as [->|(sy & fy & -> & Ly)]; [exact GD|]. rewrite data_len in Lx, Ly.
    destruct last; [|eexists; reflexivity]. destruct (L eq_refl) as (L1 & L2). unfold set_pos. rewrite L1. cbn [h_final_pos].
    assert (LN : List.length (nodes g) = List.length (g_ixg g)) by (unfold nodes; rewrite map_length, combine_length, Lg; lia).
    destruct (mask_set_total valid (vectors h) (to_original offx (halves (g_ixg g))) (map (fun v => fst (fst v)) (filter valid (vectors h)))) as (r1 & ->);
      [unfold to_original, halves; rewrite !map_length; congruence|rewrite map_length; reflexivity|].
    destruct (mask_set_total valid (vectors h) (to_original offy (halves (g_iyg g))) (map (fun v => snd (fst v)) (filter valid (vectors h)))) as (r2 & ->);
      [unfold to_original, halves; rewrite !map_length; congruence|rewrite map_length; reflexivity|].
    destruct (mask_set_total valid (vectors h) (map fx (map swap (nodes g))) sx) as (r3 & ->); [rewrite !map_length; congruence|exact Lx|].
    destruct (mask_set_total valid (vectors h) (map fy (map swap (nodes g))) sy) as (r4 & ->); [rewrite !map_length; congruence|exact Ly|].
    cbn [bind]. eexists; reflexivity. }
  destruct Q as (v & ->). reflexivity.
Qed.

Lemma pad_total npad im : List.concat im <> [] -> exists p, pad_image npad im = Ok p.
Proof. intros H. unfold pad_image, im_min. destruct (List.concat im); [congruence|]. eexists; reflexivity. Qed.

Lemma loop_total i im0 im1 pos : List.concat im0 <> [] -> List.concat im1 <> [] ->
  exists l, loop_pass nan bad_shape correl compute subpix scim0 scim1 number junk i im0 im1 pos = Ok l.
Proof.
  intros H0 H1. unfold loop_pass. destruct (pad_total (npad_of (scim0 i)) im0 H0) as (p0 & ->). destruct (pad_total (npad_of (scim0 i)) im1 H1) as (p1 & ->).
  cbn [bind]. rewrite C29_loop. eexists; reflexivity.
Qed.

Lemma next_pass_total i im0 im1 g prev fx fy : List.concat im0 <> [] -> List.concat im1 <> [] -> prepare i im0 = Ok g ->
  h_approx prev = Some (map fx (nodes g), map fy (nodes g)) ->
  exists raw, next_pass nan bad_shape correl compute subpix scim0 scim1 number offx offy junk rint addi i g prev im0 im1 = Ok raw.
Proof.
  intros H0 H1 P A. unfold next_pass. rewrite A. pose proof (grid_len _ _ _ P) as Lg.
  assert (LN : List.length (nodes g) = List.length (g_ixg g)) by (unfold nodes; rewrite map_length, combine_length, Lg; lia).
  unfold zlen. rewrite !map_length, LN, Lg, Z.eqb_refl. cbn [andb negb].
  edestruct (loop_total i im0 im1) as (l & E); [exact H0|exact H1|]. rewrite E. eexists; reflexivity.
Qed.

Lemma vectors_len h : well_formed h -> List.length (vectors h) = List.length (h_x h).
Proof. intros (A & B & D). unfold vectors. rewrite !combine_length. lia. Qed.

Lemma next_total im0 im1 : List.concat im0 <> [] -> List.concat im1 <> [] -> forall n i g prev,
  (forall j, (i <= j <= i + n)%nat -> exists g, prepare j im0 = Ok g) -> prepare i im0 = Ok g -> blank prev -> well_formed prev ->
  List.length (h_x prev) = List.length (nodes g) ->
  (exists hs, snd (next_passes i g prev (repeat None n) im0 im1) = Ok hs) \/ snd (next_passes i g prev (repeat None n) im0 im1) = Err InterpError.
Proof.
  intros H0 H1. induction n as [|n IH]; intros i g prev Pr P B W L; cbn [repeat PivPassModel.next_passes].
  - destruct (interp_total g true prev W) as [E|E].
    + intros _. split; [apply B|]. rewrite (vectors_len _ W). exact L.
    + apply (grid_len _ _ _ P).
    + destruct (apply_interp g true prev) as (h, r). cbn [snd] in E |- *. subst r. left. eexists; reflexivity.
    + destruct (apply_interp g true prev) as (h, r). cbn [snd] in E |- *. subst r. left. eexists; reflexivity.
  - cbn [prepared]. destruct (Pr (S i)) as (g' & P'); [lia|]. rewrite P'.
    destruct (interp_total g' false prev W) as [E|E]; [discriminate|apply (grid_len _ _ _ P')| |].
    + destruct (apply_interp g' false prev) as (prev', r) eqn:A. cbn [snd] in E. subst r. cbn [bind].
      destruct (C94_values _ _ _ _ _ _ P' W A) as (S0 & (fx & fy & _ & V) & _).
      destruct (next_pass_total (S i) im0 im1 g' prev' fx fy H0 H1 P' V) as (raw & Np). rewrite Np. cbn [bind].
      destruct (fix_total (S i) raw) as (fixed & Fx). rewrite Fx.
      destruct (next_ok_spec _ _ _ _ _ _ _ _ P' V Np) as (Nc & Br & Wr). destruct (fixed_ok _ _ _ Keep Fx Br Wr) as (Bf & Wf).
      assert (Lf : List.length (h_x fixed) = List.length (nodes g')).
      { destruct (Keep _ _ _ Fx) as (-> & _). destruct Nc as (a & b & _ & Nx & _). rewrite Nx. unfold nodes. rewrite !map_length. reflexivity. }
      destruct (IH (S i) g' fixed) as [(hs & E)|E]; try assumption; [intros j Hj; apply Pr; lia| |];
        destruct (next_passes (S i) g' fixed (repeat None n) im0 im1) as (st, res); cbn [snd] in E |- *; subst res; [left; eexists; reflexivity|right; reflexivity].
    + destruct (apply_interp g' false prev) as (prev', r). cbn [snd] in E. subst r. right. reflexivity.
Qed.

(** With images with pixels, windows which fit in the images and interpolation functions which do not fail (otherwise than by
    LinAlgError for the splines), the computation gives a result or raises InterpError. *)
Theorem C94_errors : forall im0 im1, List.concat im0 <> [] -> List.concat im1 <> [] ->
  (forall i, (i < Nat.max 1 number)%nat -> exists g, prepare i im0 = Ok g) ->
  (exists hs, snd (calcul fresh (im0, im1)) = Ok hs) \/ snd (calcul fresh (im0, im1)) = Err InterpError.
Proof.
  intros im0 im1 H0 H1 Pr. unfold PivPassModel.fresh. destruct (Nat.max 1 number) as [|n] eqn:En; [lia|]. cbn [repeat PivPassModel.calcul prepared].
  destruct (Pr 0%nat) as (g & P); [lia|]. rewrite P.
  assert (Fp : exists raw, first_pass nan bad_shape correl compute subpix scim0 scim1 number offx offy junk g im0 im1 = Ok raw).
  { unfold first_pass. edestruct (loop_total 0 im0 im1) as (l & E); [exact H0|exact H1|]. rewrite E. eexists; reflexivity. }
  destruct Fp as (raw & Fp). rewrite Fp. cbn [bind]. destruct (fix_total 0 raw) as (fixed & Fx). rewrite Fx.
  destruct (first_ok _ _ _ _ _ P Fp) as (Fc & Br & Wr). destruct (fixed_ok _ _ _ Keep Fx Br Wr) as (Bf & Wf).
  assert (Lf : List.length (h_x fixed) = List.length (nodes g)).
  { destruct (Keep _ _ _ Fx) as (-> & _). destruct Fc as (a & b & _ & Nx & _). rewrite Nx. unfold nodes. rewrite !map_length. reflexivity. }
  destruct (next_total im0 im1 H0 H1 n 0%nat g fixed) as [(hs & E)|E]; try assumption; [intros j Hj; apply Pr; lia| |];
    destruct (next_passes 0 g fixed (repeat None n) im0 im1) as (st, res); cbn [snd] in E |- *; subst res; [left; eexists; reflexivity|right; reflexivity].
Qed.
End Interp.

Print Assumptions C94_values.
Print Assumptions C94_only_nan.
Print Assumptions C94_smooth.

Print Assumptions C94_passes.
Print Assumptions C94_errors.

(** *** Concrete works: windows of 8 x 8 then 4 x 4 pixels; [peak]: result for a pair of windows; interpolation by the first
    valid vector *)
Definition ex_isnan (x : option Z) : bool := match x with None => true | _ => false end.
Definition ex_near (pts : list ((Z * Z) * option Z)) : result (Z * Z -> option Z) := Ok (fun _ => match pts with (_, v) :: _ => v | [] => None end).
Definition ex2 (peak : Z -> option Z) (number : nat) (t : use_tps) := @calcul (option Z) Z unit None ex_isnan tt
  (fun _ a b => sum_img a - sum_img b) (fun _ c => inl (peak c, Some 1, Some 1)) (fun _ dx dy _ => inl (dx, dy))
  (fun i => match i with O => (8, 8) | _ => (4, 4) end) (fun i => match i with O => (8, 8) | _ => (4, 4) end)
  (fun i => match i with O => (4, 4) | _ => (2, 2) end) number t 3 5 None (fun x => match x with Some z => z | None => 0 end)
  (fun x z => match x with Some y => Some (y + z) | None => None end)
  (fun pts => Ok (fun _ => None)) ex_near
  (fun pts => Ok (map snd pts, fun p => Some (fst p))) (fun _ h => Ok h).

(** A couple is processed without error but the result has no final field, when all vectors of the last pass are wrong; when
    they are all wrong in a previous pass the computation raises InterpError. *)
Theorem C94_no_final_refuted :
  (exists h, snd (ex2 (fun _ => None) 1 TpsLast (fresh 1) (square 16, square 16)) = Ok [h] /\ h_final h = None) /\
  snd (ex2 (fun _ => None) 2 TpsLast (fresh 2) (square 16, square 16)) = Err InterpError.
Proof. split; [eexists; split; [vm_compute; reflexivity|reflexivity]|vm_compute; reflexivity]. Qed.
Print Assumptions C94_no_final_refuted.

(** two passes, some vectors are wrong: the hypotheses of the theorems are met, both passes have valid vectors *)
Example C94_example :
  @keeps_positions (option Z) unit (fun _ h => Ok h) /\
  (forall pts : list ((Z * Z) * option Z), Ok (fun _ : Z * Z => None : option Z) <> Err InterpError /\ ex_near pts <> Err InterpError /\
     Ok (map snd pts, fun p : Z * Z => Some (fst p)) <> Err InterpError) /\
  exists h0 h1 st, ex2 (fun c => if c =? 0 then Some 1 else None) 2 TpsLast (fresh 2) (square 16, square 16) = (st, Ok [h0; h1]) /\
    zlen (h_dx h0) = 9 /\ zlen (h_dx h1) = 49 /\ h_final h1 <> None /\ h_smooth h1 <> None /\
    h_input h1 = Some (repeat 1 49, repeat 1 49) /\ nth 0 (h_x h1) 0 = 2 * (2 + 3) + 1 /\ nth 0 (h_y h1) 0 = 2 * (2 + 5) + 1.
Proof.
  split; [intros i h h' E; injection E as <-; auto 20|]. split; [intros pts; repeat split; discriminate|].
  eexists _, _, _. split; [vm_compute; reflexivity|]. cbn. repeat split; discriminate.
Qed.

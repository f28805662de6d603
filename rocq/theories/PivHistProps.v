(** Property C93: the grids kept by the works between the calls of [calcul]. *)
From Verif Require Import PyBase GridModel PivPassModel.
Local Open Scope Z_scope.

(** shape of an array of pixels *)
Definition shape (im : img) : Z * Z := (zlen im, im_width im).

Section Hist.
Context {F C M : Type}.
Variable nan : F.
Variable isnan : F -> bool.
Variable bad_shape : M.
Variable correl : nat -> img -> img -> C.
Variable compute : nat -> C -> (F * F * F) + (M * (F * F * F)).
Variable subpix : nat -> F -> F -> C -> (F * F) + M.
Variables scim0 scim1 rnd : nat -> Z * Z.
Variable number : nat.
Variable tps_param : use_tps.
Variables offx offy : Z.
Variable junk : F.
Variable rint : F -> Z.
Variable addi : F -> Z -> F.
Variables lin near : list ((Z * Z) * F) -> result (Z * Z -> F).
Variable tps : list ((Z * Z) * F) -> result (list F * (Z * Z -> F)).
Variable fix_pass : nat -> @heavy F M -> result (@heavy F M).

Local Notation calcul := (calcul nan isnan bad_shape correl compute subpix scim0 scim1 rnd number tps_param offx offy junk rint addi lin near tps fix_pass).
Local Notation next_passes := (next_passes nan isnan bad_shape correl compute subpix scim0 scim1 rnd number tps_param offx offy junk rint addi lin near tps fix_pass).
Local Notation after := (after nan isnan bad_shape correl compute subpix scim0 scim1 rnd number tps_param offx offy junk rint addi lin near tps fix_pass).
Local Notation fresh := (fresh number).
Local Notation prepare := (prepare scim0 rnd).
Local Notation prepared := (prepared scim0 rnd).

(** the grids of the works are those of images like [im] *)
Fixpoint grids_of (im : img) (i : nat) (works : list (option pgrid)) : Prop :=
  match works with
  | [] => True
  | w :: works' => match w with None => True | Some g => prepare i im = Ok g end /\ grids_of im (S i) works'
  end.

Lemma prepare_shape i a b : shape a = shape b -> prepare i a = prepare i b.
Proof. unfold prepare, shape. intros E. rewrite E. reflexivity. Qed.

Lemma prepared_ok i im w a : match w with None => True | Some g => prepare i im = Ok g end -> shape a = shape im ->
  prepared i w a = prepare i im.
Proof. intros H E. destruct w as [g|]; cbn; [symmetry; exact H|]. apply prepare_shape, E. Qed.

Lemma grids_fresh im n : forall i, grids_of im i (repeat None n).
Proof. induction n as [|n IH]; intros i; cbn; auto. Qed.

Lemma next_len works : forall i g prev im0 im1, List.length (fst (next_passes i g prev works im0 im1)) = List.length works.
Proof.
  induction works as [|w works IH]; intros i g prev im0 im1; cbn [next_passes].
  - destruct (apply_interp _ _ _ _ _ _ _ g true prev). reflexivity.
  - destruct (prepared (S i) w im0) as [g'|]; [|reflexivity]. destruct (apply_interp _ _ _ _ _ _ _ g' false prev) as (prev', r).
    destruct (bind r _) as [h|]; [|reflexivity]. specialize (IH (S i) g' h im0 im1). destruct (next_passes _ _ _ _ _ _) as (w'', res). cbn in *. congruence.
Qed.

Lemma next_ok im works : forall i g prev im0 im1, grids_of im (S i) works -> shape im0 = shape im ->
  grids_of im (S i) (fst (next_passes i g prev works im0 im1)) /\
  snd (next_passes i g prev works im0 im1) = snd (next_passes i g prev (repeat None (List.length works)) im0 im1).
Proof.
  induction works as [|w works IH]; intros i g prev im0 im1 G E; cbn [next_passes List.length repeat].
  - destruct (apply_interp _ _ _ _ _ _ _ g true prev). cbn. auto.
  - destruct G as (G1 & G2). rewrite (prepared_ok (S i) im w im0 G1 E), (prepared_ok (S i) im None im0 I E).
    destruct (prepare (S i) im) as [g'|] eqn:P; [|split; [cbn; rewrite ?P in *; auto|reflexivity]].
    destruct (apply_interp _ _ _ _ _ _ _ g' false prev) as (prev', r).
    destruct (bind r _) as [h|]; [|split; [cbn; rewrite ?P in *; auto|reflexivity]].
    specialize (IH (S i) g' h im0 im1 G2 E). destruct IH as (IH1 & IH2).
    destruct (next_passes (S i) g' h works im0 im1) as (w1, r1). destruct (next_passes (S i) g' h (repeat None _) im0 im1) as (w2, r2).
    cbn [fst snd] in *. subst r2. split; [cbn; rewrite ?P in *; auto|reflexivity].
Qed.

Lemma calcul_len works c : List.length (fst (calcul works c)) = List.length works.
Proof.
  destruct c as (im0, im1). unfold calcul. destruct works as [|w works]; [reflexivity|].
  destruct (prepared 0 w im0) as [g|]; [|reflexivity]. destruct (bind _ _) as [h|]; [|reflexivity].
  pose proof (next_len works 0 g h im0 im1) as L. destruct (next_passes _ _ _ _ _ _) as (w'', res). cbn in *. congruence.
Qed.

Lemma calcul_ok im works c : grids_of im 0 works -> shape (fst c) = shape im ->
  grids_of im 0 (fst (calcul works c)) /\ snd (calcul works c) = snd (calcul (repeat None (List.length works)) c).
Proof.
  destruct c as (im0, im1). cbn [fst]. intros G E. unfold calcul. destruct works as [|w works]; cbn [List.length repeat]; [auto|].
  destruct G as (G1 & G2). rewrite (prepared_ok 0 im w im0 G1 E), (prepared_ok 0 im None im0 I E).
  destruct (prepare 0 im) as [g'|] eqn:P; [|split; [cbn; rewrite ?P in *; auto|reflexivity]].
  destruct (bind _ _) as [h|]; [|split; [cbn; rewrite ?P in *; auto|reflexivity]].
  destruct (next_ok im works 0 g' h im0 im1 G2 E) as (IH1 & IH2).
  destruct (next_passes 0 g' h works im0 im1) as (w1, r1). destruct (next_passes 0 g' h (repeat None _) im0 im1) as (w2, r2).
  cbn [fst snd] in *. subst r2. split; [cbn; rewrite ?P in *; auto|reflexivity].
Qed.

Lemma after_len couples : List.length (after couples) = List.length fresh.
Proof.
  unfold after. generalize fresh as st. induction couples as [|c couples IH]; intros st; cbn [fold_left]; [reflexivity|].
  rewrite IH. apply calcul_len.
Qed.

(** ** Theorems *)

(** The result for a couple does not depend on the couples given before to the same object (with or without error), as long
    as all images have the same size. *)
Theorem C93_same_size_partial : forall couples c,
  (forall c', In c' couples -> shape (fst c') = shape (fst c)) ->
  snd (calcul (after couples) c) = snd (calcul fresh c).
Proof.
  intros couples c H.
  assert (G : grids_of (fst c) 0 (after couples)).
  { unfold after. assert (G0 : grids_of (fst c) 0 fresh) by apply grids_fresh. revert G0. generalize fresh as st.
    induction couples as [|c' couples IH]; intros st G0; cbn [fold_left]; [exact G0|].
    apply IH; [intros x X; apply H; right; exact X|]. apply calcul_ok; [exact G0|]. apply H. left. reflexivity. }
  destruct (calcul_ok _ _ c G eq_refl) as (_ & E). rewrite E, after_len. unfold fresh at 1. rewrite repeat_length. reflexivity.
Qed.

(** In general, the vectors of the first pass are at the positions of the grid of the first couple (for which a grid can be
    made), whatever the sizes of the images of the other couples. *)
Theorem C93_first_grid : forall c1 couples c g hs,
  (forall i h h', fix_pass i h = Ok h' -> h_x h' = h_x h /\ h_y h' = h_y h) ->
  prepare 0 (fst c1) = Ok g ->
  snd (calcul (after (c1 :: couples)) c) = Ok hs ->
  exists h0 rest, hs = h0 :: rest /\
    h_x h0 = map (fun x => 2 * (x + offx)) (g_ixg g) /\ h_y h0 = map (fun y => 2 * (y + offy)) (g_iyg g).
Proof.
  intros c1 couples c g hs K P H.
  assert (S0 : exists rest, after (c1 :: couples) = Some g :: rest).
  { clear H. unfold after. cbn [fold_left]. assert (S1 : exists rest, fst (calcul fresh c1) = Some g :: rest).
    { destruct c1 as (a, b). unfold fresh. destruct (Nat.max 1 number) as [|n] eqn:E; [lia|]. cbn [repeat]. unfold calcul. cbn [prepared fst] in *. rewrite P.
      destruct (bind _ _) as [h|]; [|eexists; reflexivity]. destruct (next_passes _ _ _ _ _ _). eexists; reflexivity. }
    revert S1. generalize (fst (calcul fresh c1)) as st. induction couples as [|c' couples IH]; intros st S1; cbn [fold_left]; [exact S1|].
    apply IH. destruct S1 as (rest & ->). destruct c' as (a, b). unfold calcul. cbn [prepared].
    destruct (bind _ _) as [h|]; [|eexists; reflexivity]. destruct (next_passes _ _ _ _ _ _). eexists; reflexivity. }
  destruct S0 as (rest & S0). rewrite S0 in H. destruct c as (im0, im1). unfold calcul in H. cbn [prepared] in H.
  destruct (bind (first_pass _ _ _ _ _ _ _ _ _ _ _ g im0 im1) _) as [h|] eqn:B; [|discriminate].
  assert (X : h_x h = map (fun x => 2 * (x + offx)) (g_ixg g) /\ h_y h = map (fun y => 2 * (y + offy)) (g_iyg g)).
  { destruct (first_pass _ _ _ _ _ _ _ _ _ _ _ g im0 im1) as [r|] eqn:Fp; [|discriminate]. cbn [bind] in B. apply K in B. destruct B as (-> & ->).
    unfold first_pass in Fp. destruct (loop_pass _ _ _ _ _ _ _ _ _ _ _ _ _); [|discriminate]. cbn [bind] in Fp. injection Fp as <-. cbn [heavy_of h_x h_y].
    unfold to_original, halves. rewrite !map_map. split; apply map_ext; intros; lia. }
  assert (Q : exists h0 tail, hs = h0 :: tail /\ h_x h0 = h_x h /\ h_y h0 = h_y h).
  { clear - H. destruct rest as [|w rest]; cbn [next_passes] in H.
    - destruct (apply_interp _ _ _ _ _ _ _ g true h) as (h', r) eqn:A.
      assert (E : h_x h' = h_x h /\ h_y h' = h_y h).
      { unfold apply_interp in A. unfold set_pos in A. destruct (h_final_pos h); destruct (interp_values _ _ _ _ _ _ _ _ _ _); injection A as <- _; auto. }
      assert (hs = [h']) as -> by (destruct r as [|e]; cbn in H; [congruence|destruct e as [| | | | | | | | | | | | | |z|]; try discriminate; destruct z as [|p|p]; try discriminate;
        repeat (destruct p as [p|p|]; try discriminate); congruence]).
      exists h', []. split; [reflexivity|exact E].
    - destruct (prepared 1 w im0) as [g'|]; [|discriminate]. destruct (apply_interp _ _ _ _ _ _ _ g' false h) as (h', r) eqn:A.
      assert (E : h_x h' = h_x h /\ h_y h' = h_y h).
      { unfold apply_interp in A. unfold set_pos in A. destruct (h_approx_pos h); destruct (interp_values _ _ _ _ _ _ _ _ _ _); injection A as <- _; auto. }
      destruct (bind r _) as [h1|]; [|discriminate]. destruct (next_passes _ _ _ _ _ _) as (w'', res). cbn [snd] in H.
      destruct res as [l|]; [|discriminate]. injection H as <-. exists h', l. split; [reflexivity|exact E]. }
  destruct Q as (h0 & tail & -> & Qx & Qy). exists h0, tail. rewrite Qx, Qy. split; [reflexivity|exact X].
Qed.
End Hist.
Print Assumptions C93_same_size_partial.
Print Assumptions C93_first_grid.

(** *** A concrete work: one pass, windows of 4 x 4 pixels, overlap of 2 pixels; "correlation" by sums of pixels *)
Definition sum_img (im : img) : Z := fold_right Z.add 0 (map (fold_right Z.add 0) im).
Definition ex_calcul := @calcul (option Z) Z unit None (fun x => match x with None => true | _ => false end) tt
  (fun _ a b => sum_img a - sum_img b) (fun _ c => inl (Some c, Some c, Some 1)) (fun _ dx dy _ => inl (dx, dy))
  (fun _ => (4, 4)) (fun _ => (4, 4)) (fun _ => (2, 2)) 1 TpsFalse 0 0 None (fun x => match x with Some z => z | None => 0 end)
  (fun x z => match x with Some y => Some (y + z) | None => None end)
  (fun pts => Ok (fun _ => None)) (fun pts => Ok (fun _ => match pts with (_, v) :: _ => v | [] => None end))
  (fun pts => Ok (map snd pts, fun _ => Some 0)) (fun _ h => Ok h).
Definition square (n : Z) : img := py_repeat (py_repeat 1 n) n.
Definition nb_vectors (r : result (list (@heavy (option Z) unit))) : list Z :=
  match r with Ok l => map (fun h => zlen (h_dx h)) l | Err _ => [] end.

(** As stated the property is false: after a couple of images of 8 x 8 pixels, only the upper left corner of images of
    16 x 16 pixels is covered (9 vectors instead of 49). *)
Theorem C93_refuted : exists c1 c2,
  let first := ex_calcul (fresh 1) c1 in
  let r := snd (ex_calcul (fst first) c2) in
  let expected := snd (ex_calcul (fresh 1) c2) in
  nb_vectors (snd first) = [9] /\ nb_vectors expected = [49] /\ nb_vectors r = [9] /\
  (exists h, r = Ok [h] /\ forall x, In x (h_x h) -> x <= 2 * 6) /\
  (exists h, expected = Ok [h] /\ In (2 * 14) (h_x h)).
Proof.
  exists (square 8, square 8), (square 16, square 16). cbv zeta. split; [vm_compute; reflexivity|]. split; [vm_compute; reflexivity|].
  split; [vm_compute; reflexivity|]. split.
  - eexists. split; [vm_compute; reflexivity|]. intros x X. cbn [h_x] in X. repeat (destruct X as [<-|X]; [lia|]). destruct X.
  - eexists. split; [vm_compute; reflexivity|]. cbn [h_x]. repeat (first [left; reflexivity | right]).
Qed.
Print Assumptions C93_refuted.

(** three couples of the same size, the second with an error (an image without pixel): the hypotheses are met *)
Example C93_example : forall c', In c' [(square 8, square 8); (square 8, []); (square 8, square 7)] -> shape (fst c') = shape (fst (square 8, square 8)).
Proof. intros c' [<-|[<-|[<-|[]]]]; reflexivity. Qed.
Example C93_example_error : exists e, snd (ex_calcul (fresh 1) (square 8, [])) = Err e.
Proof. eexists. vm_compute. reflexivity. Qed.

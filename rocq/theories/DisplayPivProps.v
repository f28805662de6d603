(** C114: the display of a PIV result. *)
From Coq Require Import Reals Lra.
From Verif Require Import PyBase StrModel FloatBase DisplayPivModel.
From Verif Require LogPlotProps.
Open Scope Z_scope.

Section Spec.
Variable correl : Type.
Notation pivres := (pivres correl). Notation display := (display correl).

(** ** Specification *)

(** A result of [n] vectors as the PIV makes them: the arrays have the same size and the vectors the displacement of
    which is nan are among the wrong ones. *)
Definition well_formed (r : pivres) (n : nat) : Prop :=
  List.length (f_xs (r_field _ r)) = n /\ List.length (f_ys (r_field _ r)) = n /\
  List.length (f_dxs (r_field _ r)) = n /\ List.length (f_dys (r_field _ r)) = n /\
  (forall cs, r_correls_max _ r = Some cs -> List.length cs = n) /\
  (forall w i d, r_wrong _ r = Some w -> In (i, d) w -> 0 <= i < Z.of_nat n) /\
  (forall i, nth_error (f_dxs (r_field _ r)) i = Some NaN ->
     exists w d, r_wrong _ r = Some w /\ assoc (Z.of_nat i) w = Some d).

(** The vector which an arrow represents *)
Definition represents (s : display) (a : artist) (k : nat) (i : nat) : Prop :=
  match a with
  | Q0 => i = k /\ (k < List.length (q_x (d_q _ s)))%nat
  | QWrong => exists inds q, d_wrong _ s = Some (inds, q) /\ nth_error inds k = Some (Z.of_nat i)
  | QIsnan => exists inds q, d_isnan _ s = Some (inds, q) /\ nth_error inds k = Some (Z.of_nat i)
  end.

(** The information about the vector [i]: its position; its displacement, or the wrong one if it has been removed;
    its correlation; its error. *)
Definition describes (r : pivres) (i : nat) (t : info) : Prop :=
  i_vec t = Z.of_nat i /\
  nth_error (f_xs (r_field _ r)) i = Some (i_x t) /\ nth_error (f_ys (r_field _ r)) i = Some (i_y t) /\
  (exists dx dy, nth_error (f_dxs (r_field _ r)) i = Some dx /\ nth_error (f_dys (r_field _ r)) i = Some dy /\
     ((fisnan dx = false /\ (i_u t, i_v t) = (dx, dy)) \/
      (fisnan dx = true /\ exists w, r_wrong _ r = Some w /\ assoc (Z.of_nat i) w = Some (i_u t, i_v t)))) /\
  (match r_correls_max _ r with None => i_c t = None | Some cs => nth_error cs i = i_c t /\ i_c t <> None end) /\
  i_error t = match r_errors _ r with None => None | Some d => assoc (Z.of_nat i) d end.

(** ** Lemmas *)

Lemma get_nth {A} (l : list A) i a : py_get l (Z.of_nat i) = Ok a <-> nth_error l i = Some a.
Proof.
  unfold py_get. destruct (Z.of_nat i <? 0) eqn:E; [lia|]. unfold zlen.
  destruct ((0 <=? Z.of_nat i) && (Z.of_nat i <? Z.of_nat (List.length l))) eqn:B.
  - rewrite Nat2Z.id. destruct (nth_error l i); split; intros H; try discriminate; injection H as ->; reflexivity.
  - split; [discriminate|]. intros H. assert (i < List.length l)%nat by (apply nth_error_Some; congruence). lia.
Qed.
Lemma get_in {A} (l : list A) i : (i < List.length l)%nat -> exists a, py_get l (Z.of_nat i) = Ok a /\ nth_error l i = Some a.
Proof.
  intros H. apply nth_error_Some in H. destruct (nth_error l i) as [a|] eqn:E; [|congruence]. exists a. split; [|reflexivity].
  apply get_nth. exact E.
Qed.
Lemma gather_nth a inds b : gather a inds = Ok b ->
  List.length b = List.length inds /\
  forall k i, nth_error inds k = Some (Z.of_nat i) -> nth_error b k = nth_error a i.
Proof.
  unfold gather. intros H. apply LogPlotProps.map_result_inv in H. split.
  - symmetry. apply (LogPlotProps.Forall2_len _ _ _ H).
  - induction H as [|i0 x inds b Hx H IH]; intros k i Hk; [destruct k; discriminate|].
    destruct k as [|k]; cbn in Hk |- *; [|apply IH; exact Hk]. injection Hk as ->.
    apply get_nth in Hx. symmetry. exact Hx.
Qed.

(** the arrows never change *)
Definition same_arrows (s s' : display) : Prop :=
  d_q _ s' = d_q _ s /\ d_wrong _ s' = d_wrong _ s /\ d_isnan _ s' = d_isnan _ s /\ d_show_correl _ s' = d_show_correl _ s.
Lemma same_arrows_trans s1 s2 s3 : same_arrows s1 s2 -> same_arrows s2 s3 -> same_arrows s1 s3.
Proof. intros (A & B & C & D) (A' & B' & C' & D'). repeat split; congruence. Qed.
Lemma represents_same s s' a k i : same_arrows s s' -> represents s a k i -> represents s' a k i.
Proof. intros (A & B & C & D). unfold represents. destruct a; rewrite ?A, ?B, ?C; auto. Qed.

Ltac dm := match goal with
  | |- context [match ?x with _ => _ end] => destruct x
  end.
Lemma select_frame r s inds a : same_arrows s (fst (select_arrow _ r s inds a)) /\
  d_images _ (fst (select_arrow _ r s inds a)) = d_images _ s /\ d_title _ (fst (select_arrow _ r s inds a)) = d_title _ s.
Proof. unfold select_arrow. repeat dm; repeat split. Qed.
Lemma handle_frame r s e : same_arrows s (fst (handle _ r s e)).
Proof.
  destruct e as [a ind|k b]; cbn [handle]; [apply select_frame|]. destruct b; cbn [negb]; [|repeat split].
  destruct k; try (repeat split; fail). unfold switch. cbn [fst]. destruct (d_images _ s) as [[v0 v1]|]; repeat split.
Qed.
Lemma history_frame r s es : same_arrows s (history _ r s es).
Proof.
  unfold history. revert s. induction es as [|e es IH]; intros s; cbn [fold_left]; [repeat split|].
  eapply same_arrows_trans; [apply handle_frame|apply IH].
Qed.

(** ** The display of the field itself (show_interp=False) *)
Section Plain.
Variable r : pivres.
Variable n : nat.
Hypothesis wf : well_formed r n.

(** the collections of arrows are those of the result *)
Definition arrows_ok (s : display) : Prop :=
  q_x (d_q _ s) = f_xs (r_field _ r) /\ q_y (d_q _ s) = f_ys (r_field _ r) /\
  (forall inds q, d_wrong _ s = Some (inds, q) \/ d_isnan _ s = Some (inds, q) ->
     List.length (q_x q) = List.length inds /\
     (forall k i, nth_error inds k = Some i -> 0 <= i < Z.of_nat n) /\
     forall k i, nth_error inds k = Some (Z.of_nat i) ->
       nth_error (q_x q) k = nth_error (f_xs (r_field _ r)) i /\ nth_error (q_y q) k = nth_error (f_ys (r_field _ r)) i).
Definition text_ok (s : display) : Prop :=
  match d_text _ s with
  | None => d_ind _ s = 0
  | Some t => exists i, d_ind _ s = Z.of_nat i /\ describes r i t /\ d_point _ s = Some (i_x t, i_y t)
  end.

(** without correlations no exception *)
Lemma select_quiet s a k rest i :
  arrows_ok s -> represents s a k i -> (i < n)%nat -> d_show_correl _ s = false ->
  snd (select_arrow _ r s (Z.of_nat k :: rest) a) = None.
Proof.
  intros HA HR Hi HS. destruct wf as (W1 & W2 & W3 & W4 & W5 & W6 & W7). destruct HA as (A1 & A2 & A3).
  cbn zeta. unfold select_arrow.
  set (sel := match a with Q0 => Ok (Z.of_nat k, d_q _ s) | QWrong => _ | QIsnan => _ end).
  assert (S : exists q, sel = Ok (Z.of_nat i, q) /\ (k < List.length (q_x q))%nat /\
     nth_error (q_x q) k = nth_error (f_xs (r_field _ r)) i /\ nth_error (q_y q) k = nth_error (f_ys (r_field _ r)) i).
  { unfold sel. destruct a; cbn [represents] in HR.
    - destruct HR as (-> & Hk). exists (d_q _ s). split; [reflexivity|]. split; [exact Hk|]. rewrite A1, A2. split; reflexivity.
    - destruct HR as (inds & q & E & Hk). exists q. rewrite E, (proj2 (get_nth _ _ _) Hk). cbn [bind].
      destruct (A3 inds q (or_introl E)) as (B1 & _ & B2). split; [reflexivity|]. rewrite B1. split; [apply nth_error_Some; congruence|].
      apply B2. exact Hk.
    - destruct HR as (inds & q & E & Hk). exists q. rewrite E, (proj2 (get_nth _ _ _) Hk). cbn [bind].
      destruct (A3 inds q (or_intror E)) as (B1 & _ & B2). split; [reflexivity|]. rewrite B1. split; [apply nth_error_Some; congruence|].
      apply B2. exact Hk. }
  destruct S as (q & -> & Hk & Ex & Ey). cbn match.
  replace (zlen (q_x q) <=? Z.of_nat k) with false by (unfold zlen; symmetry; apply Z.leb_gt; lia).
  replace (Z.of_nat k <? 0) with false by (symmetry; apply Z.ltb_ge; lia). cbn [orb].
  destruct (Z.eqb_spec (d_ind _ s) (Z.of_nat i)) as [D|D].
  { reflexivity. }
  destruct (get_in (f_xs (r_field _ r)) i) as (x & _ & Gx); [lia|]. destruct (get_in (f_ys (r_field _ r)) i) as (y & _ & Gy); [lia|].
  rewrite Gx in Ex. rewrite Gy in Ey. rewrite (proj2 (get_nth _ _ _) Ex), (proj2 (get_nth _ _ _) Ey). cbn [bind].
  destruct (get_in (f_dxs (r_field _ r)) i) as (dx & Px & Nx); [lia|]. destruct (get_in (f_dys (r_field _ r)) i) as (dy & Py & Ny); [lia|].
  rewrite Px, Py. cbn [bind].
  assert (DD : exists d, (if fisnan dx then
                   do wrong <- opt (r_wrong _ r) ; match assoc (Z.of_nat i) wrong with Some d => Ok d | None => Err KeyError end
                 else Ok (dx, dy)) = Ok d /\
       ((fisnan dx = false /\ d = (dx, dy)) \/ (fisnan dx = true /\ exists w, r_wrong _ r = Some w /\ assoc (Z.of_nat i) w = Some d))).
  { destruct dx; cbn [fisnan]; try (eexists; split; [reflexivity|left; split; reflexivity]).
    destruct (W7 i Nx) as (w & d & Ew & Ed). rewrite Ew. cbn [opt bind]. rewrite Ed. exists d. split; [reflexivity|].
    right. split; [reflexivity|]. exists w. split; [reflexivity|exact Ed]. }
  destruct DD as (d & -> & Hd). cbn [bind].
  assert (CC : exists c, match r_correls_max _ r with None => Ok None | Some cs => do c <- py_get cs (Z.of_nat i) ; Ok (Some c) end = Ok c /\
     match r_correls_max _ r with None => c = None | Some cs => nth_error cs i = c /\ c <> None end).
  { destruct (r_correls_max _ r) as [cs|]; [|exists None; split; reflexivity].
    destruct (get_in cs i) as (c & Pc & Nc); [rewrite (W5 cs eq_refl); exact Hi|]. rewrite Pc. cbn [bind]. exists (Some c).
    split; [reflexivity|]. split; [exact Nc|discriminate]. }
  destruct CC as (c & -> & Hc).
  cbn [set_text set_point set_ind d_show_correl]. rewrite HS. reflexivity.
Qed.

(** what the click on an arrow of the vector [i] does *)
Lemma select_spec s a k rest i :
  arrows_ok s -> text_ok s -> represents s a k i -> (i < n)%nat ->
  let s' := fst (select_arrow _ r s (Z.of_nat k :: rest) a) in
  text_ok s' /\
  ((d_ind _ s = Z.of_nat i /\ s' = s) \/
   (d_ind _ s <> Z.of_nat i /\ d_ind _ s' = Z.of_nat i /\ d_text _ s' <> None)).
Proof.
  intros HA HT HR Hi. destruct wf as (W1 & W2 & W3 & W4 & W5 & W6 & W7). destruct HA as (A1 & A2 & A3).
  cbn zeta. unfold select_arrow.
  set (sel := match a with Q0 => Ok (Z.of_nat k, d_q _ s) | QWrong => _ | QIsnan => _ end).
  assert (S : exists q, sel = Ok (Z.of_nat i, q) /\ (k < List.length (q_x q))%nat /\
     nth_error (q_x q) k = nth_error (f_xs (r_field _ r)) i /\ nth_error (q_y q) k = nth_error (f_ys (r_field _ r)) i).
  { unfold sel. destruct a; cbn [represents] in HR.
    - destruct HR as (-> & Hk). exists (d_q _ s). split; [reflexivity|]. split; [exact Hk|]. rewrite A1, A2. split; reflexivity.
    - destruct HR as (inds & q & E & Hk). exists q. rewrite E, (proj2 (get_nth _ _ _) Hk). cbn [bind].
      destruct (A3 inds q (or_introl E)) as (B1 & _ & B2). split; [reflexivity|]. rewrite B1. split; [apply nth_error_Some; congruence|].
      apply B2. exact Hk.
    - destruct HR as (inds & q & E & Hk). exists q. rewrite E, (proj2 (get_nth _ _ _) Hk). cbn [bind].
      destruct (A3 inds q (or_intror E)) as (B1 & _ & B2). split; [reflexivity|]. rewrite B1. split; [apply nth_error_Some; congruence|].
      apply B2. exact Hk. }
  destruct S as (q & -> & Hk & Ex & Ey). cbn match.
  replace (zlen (q_x q) <=? Z.of_nat k) with false by (unfold zlen; symmetry; apply Z.leb_gt; lia).
  replace (Z.of_nat k <? 0) with false by (symmetry; apply Z.ltb_ge; lia). cbn [orb].
  destruct (Z.eqb_spec (d_ind _ s) (Z.of_nat i)) as [D|D].
  { split; [exact HT|]. left. split; [exact D|reflexivity]. }
  destruct (get_in (f_xs (r_field _ r)) i) as (x & _ & Gx); [lia|]. destruct (get_in (f_ys (r_field _ r)) i) as (y & _ & Gy); [lia|].
  rewrite Gx in Ex. rewrite Gy in Ey. rewrite (proj2 (get_nth _ _ _) Ex), (proj2 (get_nth _ _ _) Ey). cbn [bind].
  destruct (get_in (f_dxs (r_field _ r)) i) as (dx & Px & Nx); [lia|]. destruct (get_in (f_dys (r_field _ r)) i) as (dy & Py & Ny); [lia|].
  rewrite Px, Py. cbn [bind].
  assert (DD : exists d, (if fisnan dx then
                   do wrong <- opt (r_wrong _ r) ; match assoc (Z.of_nat i) wrong with Some d => Ok d | None => Err KeyError end
                 else Ok (dx, dy)) = Ok d /\
       ((fisnan dx = false /\ d = (dx, dy)) \/ (fisnan dx = true /\ exists w, r_wrong _ r = Some w /\ assoc (Z.of_nat i) w = Some d))).
  { destruct dx; cbn [fisnan]; try (eexists; split; [reflexivity|left; split; reflexivity]).
    destruct (W7 i Nx) as (w & d & Ew & Ed). rewrite Ew. cbn [opt bind]. rewrite Ed. exists d. split; [reflexivity|].
    right. split; [reflexivity|]. exists w. split; [reflexivity|exact Ed]. }
  destruct DD as (d & -> & Hd). cbn [bind].
  assert (CC : exists c, match r_correls_max _ r with None => Ok None | Some cs => do c <- py_get cs (Z.of_nat i) ; Ok (Some c) end = Ok c /\
     match r_correls_max _ r with None => c = None | Some cs => nth_error cs i = c /\ c <> None end).
  { destruct (r_correls_max _ r) as [cs|]; [|exists None; split; reflexivity].
    destruct (get_in cs i) as (c & Pc & Nc); [rewrite (W5 cs eq_refl); exact Hi|]. rewrite Pc. cbn [bind]. exists (Some c).
    split; [reflexivity|]. split; [exact Nc|discriminate]. }
  destruct CC as (c & -> & Hc).
  set (t := {| i_vec := Z.of_nat i; i_x := x; i_y := y; i_u := fst d; i_v := snd d; i_c := c;
               i_error := match r_errors _ r with None => None | Some d0 => assoc (Z.of_nat i) d0 end |}).
  assert (HD : describes r i t).
  { unfold describes, t; cbn. split; [reflexivity|]. split; [exact Gx|]. split; [exact Gy|]. split; [|split; [exact Hc|reflexivity]].
    exists dx, dy. split; [exact Nx|]. split; [exact Ny|]. destruct d as (u, v). cbn [fst snd] in *. exact Hd. }
  assert (G : forall s', d_text _ s' = Some t -> d_ind _ s' = Z.of_nat i -> d_point _ s' = Some (x, y) ->
     text_ok s' /\ ((d_ind _ s = Z.of_nat i /\ s' = s) \/ (d_ind _ s <> Z.of_nat i /\ d_ind _ s' = Z.of_nat i /\ d_text _ s' <> None))).
  { intros s' E1 E2 E3. split.
    - unfold text_ok. rewrite E1. exists i. split; [exact E2|]. split; [exact HD|exact E3].
    - right. split; [exact D|]. split; [exact E2|]. rewrite E1. discriminate. }
  cbn [set_text set_point set_ind d_show_correl].
  destruct (d_show_correl _ s); [|apply G; reflexivity].
  destruct (draw_correl _ _ _ _ _) as [ax|e]; apply G; reflexivity.
Qed.

(** a click which does not select an arrow of the collections *)
Lemma select_other s a inds : arrows_ok s -> text_ok s ->
  (forall k i, hd_error inds = Some (Z.of_nat k) -> represents s a k i -> False) ->
  text_ok (fst (select_arrow _ r s inds a)).
Proof.
  intros HA HT HN. destruct HA as (A1 & A2 & A3).
  assert (EQ : fst (select_arrow _ r s inds a) = s); [|rewrite EQ; exact HT].
  destruct inds as [|ind inds]; [reflexivity|]. cbn [select_arrow].
  set (sel := match a with Q0 => Ok (ind, d_q _ s) | QWrong => _ | QIsnan => _ end).
  destruct sel as [(ia, q)|e] eqn:E; [|reflexivity].
  destruct ((zlen (q_x q) <=? ind) || (ind <? 0)) eqn:B; [reflexivity|]. exfalso.
  apply Bool.orb_false_iff in B as (B1 & B2). apply Z.leb_gt in B1. apply Z.ltb_ge in B2. unfold zlen in B1.
  destruct (Z_of_nat_complete ind B2) as (k & ->). unfold sel in E. destruct a.
  - injection E as <- <-. apply (HN k k eq_refl). cbn. split; [reflexivity|]. rewrite A1 in B1 |- *. lia.
  - destruct (d_wrong _ s) as [(ie, q')|] eqn:Ew; [|discriminate]. destruct (py_get ie (Z.of_nat k)) as [j|] eqn:Ej; cbn [bind] in E; [|discriminate].
    injection E as <- <-. apply get_nth in Ej. destruct (A3 ie q' (or_introl eq_refl)) as (_ & C & _). specialize (C k j Ej).
    destruct (Z_of_nat_complete j) as (i & ->); [lia|]. apply (HN k i eq_refl). cbn. exists ie, q'. split; assumption.
  - destruct (d_isnan _ s) as [(ie, q')|] eqn:Ew; [|discriminate]. destruct (py_get ie (Z.of_nat k)) as [j|] eqn:Ej; cbn [bind] in E; [|discriminate].
    injection E as <- <-. apply get_nth in Ej. destruct (A3 ie q' (or_intror eq_refl)) as (_ & C & _). specialize (C k j Ej).
    destruct (Z_of_nat_complete j) as (i & ->); [lia|]. apply (HN k i eq_refl). cbn. exists ie, q'. split; assumption.
Qed.
End Plain.

Lemma flip_wf r n : well_formed r n -> well_formed (flip_displayed _ r NoInterp) n.
Proof.
  intros (W1 & W2 & W3 & W4 & W5 & W6 & W7). unfold well_formed; cbn. rewrite map_length. repeat split; assumption || (eapply W6; eassumption).
Qed.
Lemma fst_in {A} (w : list (Z * A)) i : In i (map fst w) -> exists d, In (i, d) w.
Proof. intros H. apply in_map_iff in H as ((j, d) & E & H). cbn in E. subst j. exists d. exact H. Qed.

(** the state just after the construction *)
Lemma init_ok images r n se sc s0 r' : well_formed r n -> display_piv _ images r NoInterp se sc = Ok (s0, r') ->
  well_formed r' n /\ arrows_ok r' n s0 /\ text_ok r' s0.
Proof.
  intros HW H.
  assert (HW' : well_formed (if images then r else flip_displayed _ r NoInterp) n) by (destruct images; [exact HW|apply flip_wf, HW]).
  unfold display_piv in H. cbn [displayed bind] in H.
  set (r1 := if images then r else flip_displayed _ r NoInterp) in *.
  destruct HW' as (W1 & W2 & W3 & W4 & W5 & W6 & W7).
  destruct (if se then r_wrong _ r1 else None) as [w|] eqn:Ew.
  - destruct (gather (f_xs (r_field _ r1)) (map fst w)) as [xw|] eqn:E1; cbn [bind] in H; [|discriminate].
    destruct (gather (f_ys (r_field _ r1)) (map fst w)) as [yw|] eqn:E2; cbn [bind] in H; [|discriminate].
    set (nn := map fst (filter _ w)) in H.
    destruct (gather (f_xs (r_field _ r1)) nn) as [xn|] eqn:E3; cbn [bind] in H; [|discriminate].
    destruct (gather (f_ys (r_field _ r1)) nn) as [yn|] eqn:E4; cbn [bind fst snd] in H; [|discriminate].
    injection H as <- <-. split; [repeat split; assumption || (eapply W6; eassumption)|]. split; [|reflexivity].
    assert (Rw : r_wrong _ r1 = Some w) by (destruct se; [exact Ew|discriminate]).
    split; [reflexivity|]. split; [reflexivity|]. cbn [d_wrong d_isnan]. intros inds q [E|E]; injection E as <- <-; cbn [q_x q_y].
    + destruct (gather_nth _ _ _ E1) as (L1 & N1). destruct (gather_nth _ _ _ E2) as (_ & N2). split; [exact L1|]. split.
      * intros k i Hk. apply nth_error_In in Hk. apply fst_in in Hk as (d & Hd). apply (W6 w i d Rw Hd).
      * intros k i Hk. split; [apply N1|apply N2]; exact Hk.
    + destruct (gather_nth _ _ _ E3) as (L1 & N1). destruct (gather_nth _ _ _ E4) as (_ & N2). split; [exact L1|]. split.
      * intros k i Hk. apply nth_error_In in Hk. apply fst_in in Hk as (d & Hd). apply filter_In in Hd as (Hd & _). apply (W6 w i d Rw Hd).
      * intros k i Hk. split; [apply N1|apply N2]; exact Hk.
  - cbn [bind fst snd] in H. injection H as <- <-. split; [repeat split; assumption || (eapply W6; eassumption)|]. split; [|reflexivity].
    split; [reflexivity|]. split; [reflexivity|]. cbn [d_wrong d_isnan]. intros inds q [E|E]; discriminate.
Qed.

Lemma arrows_same r n s s' : same_arrows s s' -> arrows_ok r n s -> arrows_ok r n s'.
Proof. intros (A & B & C & D). unfold arrows_ok. rewrite A, B, C. auto. Qed.

Lemma represents_dec r n s a k : arrows_ok r n s -> (exists i, represents s a k i) \/ (forall i, ~ represents s a k i).
Proof.
  intros (A1 & A2 & A3). destruct a; cbn [represents].
  - destruct (Nat.ltb_spec k (List.length (q_x (d_q _ s)))) as [L|L]; [left; exists k; split; [reflexivity|exact L]|].
    right. intros i (-> & H). lia.
  - destruct (d_wrong _ s) as [(ie, q)|]; [|right; intros i (x & y & E & _); discriminate].
    destruct (nth_error ie k) as [j|] eqn:Ej; [|right; intros i (x & y & E & H); injection E as <- <-; congruence].
    destruct (A3 ie q (or_introl eq_refl)) as (_ & C & _). specialize (C k j Ej). left. exists (Z.to_nat j), ie, q.
    split; [reflexivity|]. rewrite Z2Nat.id by lia. exact Ej.
  - destruct (d_isnan _ s) as [(ie, q)|]; [|right; intros i (x & y & E & _); discriminate].
    destruct (nth_error ie k) as [j|] eqn:Ej; [|right; intros i (x & y & E & H); injection E as <- <-; congruence].
    destruct (A3 ie q (or_intror eq_refl)) as (_ & C & _). specialize (C k j Ej). left. exists (Z.to_nat j), ie, q.
    split; [reflexivity|]. rewrite Z2Nat.id by lia. exact Ej.
Qed.
Lemma represents_range r n s a k i : well_formed r n -> arrows_ok r n s -> represents s a k i -> (i < n)%nat.
Proof.
  intros (W1 & _) (A1 & A2 & A3). destruct a; cbn [represents].
  - intros (-> & H). rewrite A1, W1 in H. exact H.
  - intros (ie & q & E & H). destruct (A3 ie q (or_introl E)) as (_ & C & _). specialize (C k _ H). lia.
  - intros (ie & q & E & H). destruct (A3 ie q (or_intror E)) as (_ & C & _). specialize (C k _ H). lia.
Qed.

Lemma handle_ok r n s e : well_formed r n -> arrows_ok r n s -> text_ok r s -> text_ok r (fst (handle _ r s e)).
Proof.
  intros HW HA HT. destruct e as [a inds|k b]; cbn [handle].
  - destruct inds as [|ind rest]; [exact HT|].
    destruct (Z_lt_dec ind 0) as [N|N].
    + apply (select_other r n); try assumption. intros k i H _. cbn in H. injection H as H. lia.
    + destruct (Z_of_nat_complete ind) as (k & ->); [lia|]. destruct (represents_dec r n s a k HA) as [(i & Hi)|Hi].
      * apply (select_spec r n HW s a k rest i HA HT Hi (represents_range r n s a k i HW HA Hi)).
      * apply (select_other r n); try assumption. intros k' i H G. cbn in H. injection H as H.
        assert (k' = k) as -> by lia. apply (Hi i G).
  - destruct b; cbn [negb]; [|exact HT]. destruct k; try exact HT. unfold switch, text_ok in *. cbn [fst].
    destruct (d_images _ s) as [(v0, v1)|]; cbn; exact HT.
Qed.
Lemma history_ok r n s es : well_formed r n -> arrows_ok r n s -> text_ok r s ->
  arrows_ok r n (history _ r s es) /\ text_ok r (history _ r s es).
Proof.
  intros HW HA HT. split; [apply (arrows_same r n s); [apply history_frame|exact HA]|].
  unfold history. revert s HA HT. induction es as [|e es IH]; intros s HA HT; cbn [fold_left]; [exact HT|].
  apply IH; [apply (arrows_same r n s); [apply handle_frame|exact HA]|apply (handle_ok r n); assumption].
Qed.

(** ** Theorems *)

(** After any history of events, a click on an arrow of the vector [i] shows the information about this vector and
    puts the point on it, except if no vector has ever been selected and [i] is 0: then nothing is shown. *)
Theorem C114_click images r n se sc s0 r' es a k rest i :
  well_formed r n -> display_piv _ images r NoInterp se sc = Ok (s0, r') -> represents s0 a k i ->
  let s := history _ r' s0 es in
  let s' := history _ r' s0 (es ++ [Pick a (Z.of_nat k :: rest)]) in
  (d_text _ s = None /\ i = 0%nat /\ d_text _ s' = None) \/
  (~ (d_text _ s = None /\ i = 0%nat) /\
   exists t, d_text _ s' = Some t /\ describes r' i t /\ d_point _ s' = Some (i_x t, i_y t)).
Proof.
  intros HW H HR s s'. destruct (init_ok _ _ _ _ _ _ _ HW H) as (HW' & HA0 & HT0).
  destruct (history_ok r' n s0 es HW' HA0 HT0) as (HA & HT). fold s in HA, HT.
  assert (HR' : represents s a k i) by (apply (represents_same s0); [apply history_frame|exact HR]).
  assert (Hi := represents_range _ _ _ _ _ _ HW' HA HR').
  assert (E : s' = fst (select_arrow _ r' s (Z.of_nat k :: rest) a)) by (unfold s', history; rewrite fold_left_app; reflexivity).
  destruct (select_spec r' n HW' s a k rest i HA HT HR' Hi) as (T1 & T2). rewrite <- E in T1, T2. clear E.
  unfold text_ok in T1, HT. destruct T2 as [(D & Es)|(D & D' & Ht)].
  - rewrite Es in *. destruct (d_text _ s) as [t|] eqn:Et.
    + right. split; [intros (F & _); discriminate|]. destruct HT as (j & Dj & Hd & Hp). assert (j = i) as -> by lia.
      exists t. split; [reflexivity|]. split; assumption.
    + left. split; [reflexivity|]. split; [lia|reflexivity].
  - right. split; [intros (F & G); rewrite F in HT; lia|]. destruct (d_text _ s') as [t|]; [|congruence].
    destruct T1 as (j & Dj & Hd & Hp). assert (j = i) as -> by lia. exists t. split; [reflexivity|]. split; assumption.
Qed.

(** Whatever the history, what is shown is the information about one vector, and nothing is shown only as long as no
    vector other than 0 has been clicked. *)
Theorem C114_shown images r n se sc s0 r' es :
  well_formed r n -> display_piv _ images r NoInterp se sc = Ok (s0, r') ->
  let s := history _ r' s0 es in
  (exists i t, d_text _ s = Some t /\ describes r' i t /\ d_point _ s = Some (i_x t, i_y t)) \/
  (d_text _ s = None /\
   forall a k rest i, In (Pick a (Z.of_nat k :: rest)) es -> represents s0 a k i -> i = 0%nat).
Proof.
  intros HW H s. destruct (init_ok _ _ _ _ _ _ _ HW H) as (HW' & HA0 & HT0).
  destruct (history_ok r' n s0 es HW' HA0 HT0) as (HA & HT). fold s in HA, HT.
  unfold text_ok in HT. destruct (d_text _ s) as [t|] eqn:Et.
  - left. destruct HT as (i & _ & Hd & Hp). exists i, t. split; [reflexivity|]. split; assumption.
  - right. split; [reflexivity|]. intros a k rest i Hin HR. destruct (Nat.eq_dec i 0) as [E|N]; [exact E|]. exfalso.
    apply in_split in Hin as (es1 & es2 & ->).
    assert (P : forall es3 s1, arrows_ok r' n s1 -> text_ok r' s1 -> d_text _ s1 <> None -> d_text _ (history _ r' s1 es3) <> None).
    { unfold history. induction es3 as [|e es3 IH]; intros s1 A1 T1 N1; cbn [fold_left]; [exact N1|].
      apply IH; [apply (arrows_same r' n s1); [apply handle_frame|exact A1]|apply (handle_ok r' n); assumption|].
      assert (T2 := handle_ok r' n s1 e HW' A1 T1). clear IH es3.
      destruct e as [b inds|kk bb]; cbn [handle] in *.
      - destruct inds as [|ind rest']; [exact N1|].
        destruct (Z_lt_dec ind 0) as [M|M].
        + cbn [select_arrow]. repeat match goal with |- context [match ?x with _ => _ end] => destruct x eqn:?; try exact N1; try discriminate end; cbn; congruence.
        + destruct (Z_of_nat_complete ind) as (k' & ->); [lia|]. destruct (represents_dec r' n s1 b k' A1) as [(j & Hj)|Hj].
          * destruct (select_spec r' n HW' s1 b k' rest' j A1 T1 Hj (represents_range r' n s1 b k' j HW' A1 Hj)) as (_ & [(_ & ->)|(_ & _ & G)]); assumption.
          * cbn [select_arrow].
            repeat match goal with |- context [match ?x with _ => _ end] => destruct x eqn:?; try exact N1; try discriminate end; cbn; congruence.
      - destruct bb; cbn [negb] in *; [|exact N1]. destruct kk; try exact N1. unfold switch. cbn [fst].
        destruct (d_images _ s1) as [(v0, v1)|]; exact N1. }
    destruct (history_ok r' n s0 es1 HW' HA0 HT0) as (HA1 & HT1).
    assert (E : s = history _ r' (history _ r' s0 (es1 ++ [Pick a (Z.of_nat k :: rest)])) es2).
    { unfold s, history. rewrite <- fold_left_app, <- app_assoc. reflexivity. }
    rewrite E in Et. revert Et. destruct (history_ok r' n s0 (es1 ++ [Pick a (Z.of_nat k :: rest)]) HW' HA0 HT0) as (HA2 & HT2).
    apply P; [exact HA2|exact HT2|].
    destruct (C114_click images r n se sc s0 r' es1 a k rest i HW H HR) as [(_ & G & _)|(_ & t & G & _)]; [lia|]. cbn zeta in G. congruence.
Qed.

(** The keys alt+left and alt+right never change anything. *)
Theorem C114_keys_iff (r : pivres) s es :
  history _ r s es =
  history _ r s (filter (fun e => match e with Key AltLeft _ | Key AltRight _ => false | _ => true end) es).
Proof.
  unfold history. revert s. induction es as [|e es IH]; intros s; [reflexivity|]. cbn [filter].
  destruct e as [a ind|k b]; [cbn [fold_left]; apply IH|].
  destruct k; cbn [fold_left]; try apply IH; cbn [handle]; destruct b; cbn [negb fst]; apply IH.
Qed.

(** With images, exactly one of the two is visible, and the title tells which one; alt+s, and only it, switches. *)
Definition is_switch (e : event) : bool := match e with Key AltS true => true | _ => false end.
Theorem C114_images (r : pivres) si se sc s0 r' es :
  display_piv _ true r si se sc = Ok (s0, r') ->
  let odd := Nat.odd (List.length (filter is_switch es)) in
  let s := history _ r' s0 es in
  d_images _ s = Some (negb odd, odd) /\ d_title _ s = (if odd then 1 else 0).
Proof.
  intros H odd s.
  assert (I0 : d_images _ s0 = Some (true, false) /\ d_title _ s0 = 0).
  { unfold display_piv in H. destruct (displayed _ r si) as [f|]; cbn [bind] in H; [|discriminate].
    match type of H with (do we <- ?m ; _) = _ => destruct m as [we|]; cbn [bind] in H; [|discriminate] end.
    injection H as <- _. split; reflexivity. }
  assert (G : forall es s1 b, d_images _ s1 = Some (negb b, b) -> d_title _ s1 = (if b then 1 else 0) ->
     let b' := xorb b (Nat.odd (List.length (filter is_switch es))) in
     d_images _ (history _ r' s1 es) = Some (negb b', b') /\ d_title _ (history _ r' s1 es) = (if b' then 1 else 0)).
  { clear. unfold history. induction es as [|e es IH]; intros s1 b H1 H2; cbn [fold_left filter].
    - cbn. rewrite Bool.xorb_false_r. split; assumption.
    - destruct (is_switch e) eqn:Es.
      + destruct e as [|k bb]; [discriminate|]. destruct k, bb; try discriminate. cbn [handle negb fst].
        unfold switch. rewrite H1. cbn [List.length]. rewrite Nat.odd_succ.
        specialize (IH (set_images _ s1 (Some (negb (negb b), negb b)) (if negb b then 1 else 0)) (negb b) eq_refl eq_refl).
        cbn zeta in IH. rewrite <- Nat.negb_odd. rewrite <- Bool.negb_xorb_r. rewrite Bool.negb_xorb_l. exact IH.
      + assert (E : d_images _ (fst (handle _ r' s1 e)) = d_images _ s1 /\ d_title _ (fst (handle _ r' s1 e)) = d_title _ s1).
        { destruct e as [a ind|k bb]; cbn [handle]; [split; apply select_frame|]. destruct k, bb; try discriminate; split; reflexivity. }
        destruct E as (E1 & E2). apply IH; congruence. }
  destruct (G es s0 false (proj1 I0) (proj2 I0)) as (G1 & G2). rewrite Bool.xorb_false_l in G1, G2. split; assumption.
Qed.

(** ** The result is modified when there are no images *)
Lemma fneg_fneg l : map fneg (map fneg l) = l.
Proof. rewrite map_map. rewrite <- (map_id l) at 2. apply map_ext. intros [| | |x]; cbn; try reflexivity. f_equal. lra. Qed.

(** With images the result is left as it is. *)
Theorem C114_pure (r : pivres) si se sc s0 r' : display_piv _ true r si se sc = Ok (s0, r') -> r' = r.
Proof.
  unfold display_piv. intros H. destruct (displayed _ r si) as [f|]; cbn [bind] in H; [|discriminate].
  match type of H with (do we <- ?m ; _) = _ => destruct m as [we|]; cbn [bind] in H; [|discriminate] end.
  injection H as _ <-. reflexivity.
Qed.
(** Without images, the sign of the vertical displacements of the result is changed, so that a second display of the
    same result draws all the arrows with the opposite vertical component. *)
Theorem C114_modified_iff (r : pivres) si se sc s1 r1 : display_piv _ false r si se sc = Ok (s1, r1) ->
  exists f f1, displayed _ r si = Ok f /\ displayed _ r1 si = Ok f1 /\
    f_xs f1 = f_xs f /\ f_ys f1 = f_ys f /\ f_dxs f1 = f_dxs f /\ f_dys f1 = map fneg (f_dys f) /\
    q_v (d_q _ s1) = f_dys f /\
    forall s2 r2, display_piv _ false r1 si se sc = Ok (s2, r2) ->
      q_v (d_q _ s2) = map fneg (q_v (d_q _ s1)) /\ q_u (d_q _ s2) = q_u (d_q _ s1) /\ displayed _ r2 si = displayed _ r si.
Proof.
  assert (FL : forall (r0 : pivres) f, displayed _ r0 si = Ok f -> displayed _ (flip_displayed _ r0 si) si = Ok (flip f)).
  { intros r0 f. destruct si; cbn; [intros H; injection H as <-; reflexivity| |].
    - destruct (r_smooth _ r0); cbn; [intros H; injection H as <-; reflexivity|discriminate].
    - destruct (r_approx _ r0) as [g|] eqn:E; cbn; [intros H; injection H as <-; reflexivity|].
      destruct (r_final _ r0); cbn; [intros H; injection H as <-; reflexivity|discriminate]. }
  assert (ST : forall (r0 : pivres) s r', display_piv _ false r0 si se sc = Ok (s, r') ->
     exists f, displayed _ r0 si = Ok f /\ r' = flip_displayed _ r0 si /\ q_v (d_q _ s) = f_dys f /\ q_u (d_q _ s) = f_dxs f).
  { intros r0 s r' H. unfold display_piv in H. destruct (displayed _ r0 si) as [f|] eqn:E; cbn [bind] in H; [|discriminate].
    rewrite (FL r0 f E) in H. cbn [bind] in H.
    match type of H with (do we <- ?m ; _) = _ => destruct m as [we|]; cbn [bind] in H; [|discriminate] end.
    injection H as <- <-. exists f. split; [reflexivity|]. split; [reflexivity|]. cbn. rewrite fneg_fneg. split; reflexivity. }
  intros H. destruct (ST _ _ _ H) as (f & E & -> & V & U). exists f, (flip f). split; [exact E|]. split; [apply FL; exact E|].
  repeat (split; [reflexivity|]). split; [exact V|]. intros s2 r2 H2. destruct (ST _ _ _ H2) as (g & Eg & -> & V2 & U2).
  assert (Efl := FL _ _ E). rewrite Efl in Eg. injection Eg as <-. rewrite V2, U2, V, U. split; [reflexivity|]. split; [reflexivity|].
  rewrite (FL _ _ Efl), E. f_equal. unfold flip. cbn. rewrite fneg_fneg. destruct f; reflexivity.
Qed.

(** ** The marks on the correlation *)

(** In the array of the correlation, the displacement (dx, dy) is at the column ix0 - dx and at the row iy0 - dy; the
    columns are along x. *)
Definition is_at (r : pivres) (dx dy : fl) (x y : fl) : Prop :=
  let '(iy0, ix0) := r_indices_no_displacement _ r in x = fsub (Fin ix0) dx /\ y = fsub (Fin iy0) dy.
(** the displacement relative to the displacement given by the previous pass *)
Definition relative (r : pivres) (i : nat) (d d' : fl * fl) : Prop :=
  match r_input _ r with
  | None => d' = d
  | Some (ixs, iys) => exists x y, nth_error ixs i = Some x /\ nth_error iys i = Some y /\ d' = (fsub (fst d) x, fsub (snd d) y)
  end.

Lemma minus_input_spec r i d d' : minus_input _ r (Z.of_nat i) d = Ok d' -> relative r i d d'.
Proof.
  unfold minus_input, relative. destruct (r_input _ r) as [(ixs, iys)|]; [|intros H; injection H as <-; reflexivity].
  destruct (py_get ixs (Z.of_nat i)) as [x|] eqn:Ex; cbn [bind]; [|discriminate].
  destruct (py_get iys (Z.of_nat i)) as [y|] eqn:Ey; cbn [bind]; [|discriminate].
  intros H. injection H as <-. exists x, y. split; [apply get_nth; exact Ex|]. split; [apply get_nth; exact Ey|reflexivity].
Qed.
Lemma indices_is_at r d x y : compute_indices_from_displacement (fst d) (snd d) (r_indices_no_displacement _ r) = (x, y) ->
  is_at r (fst d) (snd d) x y.
Proof.
  unfold compute_indices_from_displacement, is_at. destruct (r_indices_no_displacement _ r) as (iy0, ix0). cbn [fst snd].
  intros H. injection H as <- <-. split; reflexivity.
Qed.

(** The marks: one cross at the displacement of the text, one white circle at the final displacement, one triangle at
    the vector which was replaced, one plus for each other peak, always relative to the displacement of the previous
    pass; the mark of the absence of displacement and the centre of the circle have their coordinates exchanged. *)
Theorem C114_marks r i delta cm al c marks :
  draw_correl _ r (Z.of_nat i) delta cm = Ok (al, c, marks) ->
  (exists correls, r_correls _ r = Some correls /\ nth_error correls i = Some al) /\ cm = Some c /\
  (exists x y d, In (Found x y) marks /\ relative r i delta d /\ is_at r (fst d) (snd d) x y) /\
  (forall m, In m marks ->
     match m with
     | NoDispl x y => (x, y) = r_indices_no_displacement _ r
     | Circle x y d => (x, y) = r_indices_no_displacement _ r /\ r_displacement_max _ r = Some d
     | Found x y => exists d, relative r i delta d /\ is_at r (fst d) (snd d) x y
     | FinalMark x y => exists f dx dy d, r_final _ r = Some f /\ nth_error (f_dxs f) i = Some dx /\
         nth_error (f_dys f) i = Some dy /\ relative r i (dx, dy) d /\ is_at r (fst d) (snd d) x y
     | Bad x y => exists w bad d, r_replaced _ r = Some w /\ assoc (Z.of_nat i) w = Some bad /\
         relative r i bad d /\ is_at r (fst d) (snd d) x y
     | Other x y => exists l p, nth_error (r_secondary_peaks _ r) i = Some (Some l) /\ In p l /\
         is_at r (fst p) (snd p) x y
     end) /\
  In (NoDispl (fst (r_indices_no_displacement _ r)) (snd (r_indices_no_displacement _ r))) marks.
Proof.
  unfold draw_correl. intros H.
  destruct (r_correls _ r) as [correls|] eqn:Ec; cbn [opt bind] in H; [|discriminate].
  destruct (py_get correls (Z.of_nat i)) as [al'|] eqn:Eal; cbn [bind] in H; [|discriminate].
  destruct cm as [c'|]; cbn [bind] in H; [|discriminate].
  destruct (minus_input _ r (Z.of_nat i) delta) as [d|] eqn:Ed; cbn [bind] in H; [|discriminate].
  destruct (compute_indices_from_displacement (fst d) (snd d) _) as (i1, i0) eqn:Ei.
  match type of H with (do m3 <- ?m ; _) = _ => destruct m as [m3|] eqn:E3; cbn [bind] in H; [|discriminate] end.
  match type of H with (do m4 <- ?m ; _) = _ => destruct m as [m4|] eqn:E4; cbn [bind] in H; [|discriminate] end.
  match type of H with (do m5 <- ?m ; _) = _ => destruct m as [m5|] eqn:E5; cbn [bind] in H; [|discriminate] end.
  injection H as <- <- <-.
  assert (Hd := minus_input_spec _ _ _ _ Ed). assert (Hi := indices_is_at _ _ _ _ Ei).
  split; [exists correls; split; [reflexivity|apply get_nth; exact Eal]|]. split; [reflexivity|].
  split; [exists i1, i0, d; split; [right; left; reflexivity|split; assumption]|].
  split; [|left; reflexivity].
  intros m [<-|[<-|Hm]].
  - symmetry. apply surjective_pairing.
  - exists d. split; assumption.
  - apply in_app_or in Hm as [Hm|Hm]; [|apply in_app_or in Hm as [Hm|Hm]; [|apply in_app_or in Hm as [Hm|Hm]]].
    + destruct (r_final _ r) as [f|]; [|injection E3 as <-; destruct Hm].
      destruct (py_get (f_dxs f) (Z.of_nat i)) as [dx|] eqn:Ex; cbn [bind] in E3; [|discriminate].
      destruct (py_get (f_dys f) (Z.of_nat i)) as [dy|] eqn:Ey; cbn [bind] in E3; [|discriminate].
      destruct (minus_input _ r (Z.of_nat i) (dx, dy)) as [d3|] eqn:Ed3; cbn [bind] in E3; [|discriminate].
      destruct (compute_indices_from_displacement (fst d3) (snd d3) _) as (j1, j0) eqn:Ej. injection E3 as <-.
      destruct Hm as [<-|[]]. exists f, dx, dy, d3. split; [reflexivity|]. split; [apply get_nth; exact Ex|].
      split; [apply get_nth; exact Ey|]. split; [apply minus_input_spec; exact Ed3|apply indices_is_at; exact Ej].
    + destruct (r_replaced _ r) as [w|]; [|injection E4 as <-; destruct Hm].
      destruct (assoc (Z.of_nat i) w) as [bad|] eqn:Eb; [|injection E4 as <-; destruct Hm].
      destruct (minus_input _ r (Z.of_nat i) bad) as [d3|] eqn:Ed3; cbn [bind] in E4; [|discriminate].
      destruct (compute_indices_from_displacement (fst d3) (snd d3) _) as (j1, j0) eqn:Ej. injection E4 as <-.
      destruct Hm as [<-|[]]. exists w, bad, d3. split; [reflexivity|]. split; [exact Eb|].
      split; [apply minus_input_spec; exact Ed3|apply indices_is_at; exact Ej].
    + destruct (1 <? r_nb_peaks_to_search _ r); [|injection E5 as <-; destruct Hm].
      destruct (py_get (r_secondary_peaks _ r) (Z.of_nat i)) as [[l|]|] eqn:Ep; cbn [bind] in E5; try discriminate; [|injection E5 as <-; destruct Hm].
      injection E5 as <-. apply in_map_iff in Hm as (p & Em & Hp).
      unfold compute_indices_from_displacement in Em. rewrite <- Em. exists l, p. split; [apply get_nth; exact Ep|].
      split; [exact Hp|]. apply indices_is_at. reflexivity.
    + destruct (r_displacement_max _ r) as [dm|]; [|destruct Hm]. destruct Hm as [<-|[]]. split; [symmetry; apply surjective_pairing|reflexivity].
Qed.

(** The mark of the absence of displacement is at the place of the displacement zero if and only if the two indices
    are equal. *)
Theorem C114_no_displacement_iff r i delta cm al c marks x y :
  draw_correl _ r (Z.of_nat i) delta cm = Ok (al, c, marks) -> In (NoDispl x y) marks ->
  is_at r (Fin 0) (Fin 0) (Fin x) (Fin y) <-> fst (r_indices_no_displacement _ r) = snd (r_indices_no_displacement _ r).
Proof.
  intros H Hin. destruct (C114_marks _ _ _ _ _ _ _ H) as (_ & _ & _ & HM & _). specialize (HM _ Hin). cbn in HM.
  unfold is_at. destruct (r_indices_no_displacement _ r) as (iy0, ix0). injection HM as -> ->. cbn [fst snd fsub fneg fadd].
  split.
  - intros (H1 & _). injection H1 as H1. lra.
  - intros ->. split; f_equal; lra.
Qed.
(** The arrows drawn: on each vector its displacement, the vertical axis going down with images (the vertical component
    given to matplotlib is the opposite one) and up without images; on each wrong vector its wrong displacement, and one
    more arrow, of length zero, for each wrong vector the wrong displacement of which is not known. *)
Definition arrow (q : quiver) (k : nat) (x y u v : fl) : Prop :=
  nth_error (q_x q) k = Some x /\ nth_error (q_y q) k = Some y /\ nth_error (q_u q) k = Some u /\ nth_error (q_v q) k = Some v.
Definition vertical (images : bool) (v : fl) : fl := if images then fneg v else v.
Definition at_vector (r : pivres) (i : Z) (x y : fl) : Prop :=
  exists n, i = Z.of_nat n /\ nth_error (f_xs (r_field _ r)) n = Some x /\ nth_error (f_ys (r_field _ r)) n = Some y.

Lemma fneg_inv x : fneg (fneg x) = x.
Proof. destruct x; cbn; try reflexivity. rewrite Ropp_involutive. reflexivity. Qed.
Lemma gather_at a inds b k i : gather a inds = Ok b -> nth_error inds k = Some i -> 0 <= i ->
  exists x, nth_error b k = Some x /\ nth_error a (Z.to_nat i) = Some x.
Proof.
  intros H Hk Hi. destruct (gather_nth _ _ _ H) as (L & N).
  assert (k < List.length b)%nat as Hb by (rewrite L; apply nth_error_Some; congruence).
  apply nth_error_Some in Hb. destruct (nth_error b k) as [x|] eqn:E; [|congruence]. exists x. split; [reflexivity|].
  rewrite <- (N k (Z.to_nat i)); [exact E|]. rewrite Z2Nat.id by lia. exact Hk.
Qed.

Theorem C114_arrows images (r : pivres) n se sc s0 r' :
  well_formed r n -> display_piv _ images r NoInterp se sc = Ok (s0, r') ->
  (forall i x y u v, nth_error (f_xs (r_field _ r)) i = Some x -> nth_error (f_ys (r_field _ r)) i = Some y ->
     nth_error (f_dxs (r_field _ r)) i = Some u -> nth_error (f_dys (r_field _ r)) i = Some v ->
     arrow (d_q _ s0) i x y u (vertical images v)) /\
  (forall w, se = true -> r_wrong _ r = Some w ->
     (forall k i u v, nth_error w k = Some (i, (u, v)) ->
        exists inds q x y, d_wrong _ s0 = Some (inds, q) /\ nth_error inds k = Some i /\ at_vector r i x y /\
          arrow q k x y u (vertical images v)) /\
     (forall i u v, In (i, (u, v)) w -> fisnan u = true ->
        exists inds q k x y, d_isnan _ s0 = Some (inds, q) /\ nth_error inds k = Some i /\ at_vector r i x y /\
          arrow q k x y (Fin 0) (Fin 0))) /\
  (se = false \/ r_wrong _ r = None -> d_wrong _ s0 = None /\ d_isnan _ s0 = None).
Proof.
  intros HW H. unfold display_piv in H. cbn [displayed bind] in H.
  set (r1 := if images then r else flip_displayed _ r NoInterp) in H.
  assert (Ex : f_xs (r_field _ r1) = f_xs (r_field _ r)) by (destruct images; reflexivity).
  assert (Ey : f_ys (r_field _ r1) = f_ys (r_field _ r)) by (destruct images; reflexivity).
  assert (Eu : f_dxs (r_field _ r1) = f_dxs (r_field _ r)) by (destruct images; reflexivity).
  assert (Ev : map fneg (f_dys (r_field _ r1)) = map (vertical images) (f_dys (r_field _ r))).
  { destruct images; [reflexivity|]. cbn. rewrite fneg_fneg. symmetry. apply map_id. }
  assert (Ew : r_wrong _ r1 = r_wrong _ r) by (destruct images; reflexivity).
  rewrite Ex, Ey, Eu, Ev, Ew in H.
  match type of H with (do we <- ?m ; _) = _ => destruct m as [we|] eqn:Em; cbn [bind] in H; [|discriminate] end.
  injection H as <- _. cbn [d_q d_wrong d_isnan]. split; [|split].
  - intros i x y u v Nx Ny Nu Nv. unfold arrow; cbn. repeat split; try assumption. apply map_nth_error. exact Nv.
  - intros w -> Hw. rewrite Hw in Em.
    destruct HW as (_ & _ & _ & _ & _ & HI & _).
    destruct (gather (f_xs _) (map fst w)) as [xw|] eqn:Gxw; cbn [bind] in Em; [|discriminate].
    destruct (gather (f_ys _) (map fst w)) as [yw|] eqn:Gyw; cbn [bind] in Em; [|discriminate].
    match type of Em with context [gather (f_xs _) (map fst ?l)] => set (wn := l) in Em end.
    destruct (gather (f_xs _) (map fst wn)) as [xn|] eqn:Gxn; cbn [bind] in Em; [|discriminate].
    destruct (gather (f_ys _) (map fst wn)) as [yn|] eqn:Gyn; cbn [bind] in Em; [|discriminate].
    injection Em as <-. cbn [fst snd]. split.
    + intros k i u v Nk. assert (Hi : 0 <= i < Z.of_nat n) by (apply (HI w i (u, v) Hw), (nth_error_In _ _ Nk)).
      assert (Ni : nth_error (map fst w) k = Some i) by (apply (map_nth_error fst) in Nk; exact Nk).
      destruct (gather_at _ _ _ _ _ Gxw Ni (proj1 Hi)) as (x & Nx & Fx).
      destruct (gather_at _ _ _ _ _ Gyw Ni (proj1 Hi)) as (y & Ny & Fy).
      eexists _, _, x, y. split; [reflexivity|]. split; [exact Ni|]. split.
      { exists (Z.to_nat i). rewrite Z2Nat.id by lia. repeat split; assumption. }
      unfold arrow; cbn. split; [exact Nx|]. split; [exact Ny|]. split.
      * apply (map_nth_error (fun e => fst (snd e))) in Nk. exact Nk.
      * destruct images; cbn.
        -- rewrite map_map. apply (map_nth_error (fun e => fneg (snd (snd e)))) in Nk. exact Nk.
        -- rewrite !map_map. apply (map_nth_error (fun e => fneg (fneg (snd (snd e))))) in Nk. cbn in Nk. rewrite fneg_inv in Nk. exact Nk.
    + intros i u v Hin Hn. assert (Hi : 0 <= i < Z.of_nat n) by (apply (HI w i (u, v) Hw Hin)).
      assert (In i (map fst wn)) as Hwn.
      { apply (in_map fst wn (i, (u, v))). apply filter_In. split; [exact Hin|exact Hn]. }
      apply In_nth_error in Hwn. destruct Hwn as (k & Ni).
      destruct (gather_at _ _ _ _ _ Gxn Ni (proj1 Hi)) as (x & Nx & Fx).
      destruct (gather_at _ _ _ _ _ Gyn Ni (proj1 Hi)) as (y & Ny & Fy).
      eexists _, _, k, x, y. split; [reflexivity|]. split; [exact Ni|]. split.
      { exists (Z.to_nat i). rewrite Z2Nat.id by lia. repeat split; assumption. }
      unfold arrow; cbn. split; [exact Nx|]. split; [exact Ny|].
      apply (map_nth_error (fun _ : fl => Fin 0)) in Nx. split; exact Nx.
  - intros [-> | Hw]; [|rewrite Hw in Em; destruct se]; injection Em as <-; split; reflexivity.
Qed.

(** After any history, the correlation shown is the one of the vector of the text, with the marks for the displacement
    of the text (see C114_marks), and its maximum is the correlation of the text. *)
Theorem C114_correl images (r : pivres) si se sc s0 r' es a :
  display_piv _ images r si se sc = Ok (s0, r') -> d_ax1 _ (history _ r' s0 es) = Some a ->
  exists t, d_text _ (history _ r' s0 es) = Some t /\
    draw_correl _ r' (i_vec t) (i_u t, i_v t) (i_c t) = Ok a.
Proof.
  intros H.
  assert (I : d_ax1 _ s0 = None).
  { unfold display_piv in H. destruct (displayed _ r si) as [f|]; cbn [bind] in H; [|discriminate].
    match type of H with (do f <- ?m ; _) = _ => destruct m as [f'|]; cbn [bind] in H; [|discriminate] end.
    match type of H with (do we <- ?m ; _) = _ => destruct m as [we|]; cbn [bind] in H; [|discriminate] end.
    injection H as <- _. reflexivity. }
  clear H. unfold history.
  set (P := fun s : display => (forall b, d_ax1 _ s = Some b ->
    d_show_correl _ s = true /\ exists t, d_text _ s = Some t /\ draw_correl _ r' (i_vec t) (i_u t, i_v t) (i_c t) = Ok b)).
  assert (P s0) as H0 by (intros b Hb; congruence). clear I.
  revert s0 H0. induction es as [|e es IH]; intros s H0; [intros Ha; apply (H0 a Ha)|]. cbn [fold_left]. apply IH. clear IH.
  destruct e as [ar inds|k b]; cbn [handle].
  - unfold select_arrow. destruct inds as [|ind inds]; [exact H0|].
    match goal with |- P (fst (match ?m with Ok _ => _ | Err _ => _ end)) => destruct m as [[ia q]|]; [|exact H0] end.
    destruct (_ || _); [exact H0|].
    match goal with |- P (fst (match ?m with Ok _ => _ | Err _ => _ end)) => destruct m as [[[ix iy] delta]|]; [|exact H0] end.
    match goal with |- P (fst (match ?m with Ok _ => _ | Err _ => _ end)) => destruct m as [cm|]; [|exact H0] end.
    cbn [set_text set_point set_ind d_show_correl].
    destruct (d_show_correl _ s) eqn:Es.
    + destruct (draw_correl _ r' ia delta cm) as [b|] eqn:Ed; cbn [fst]; intros b' Hb; cbn in Hb; [|discriminate].
      injection Hb as <-. split; [exact Es|]. eexists. split; [reflexivity|]. cbn. destruct delta as [u v]. exact Ed.
    + intros b Hb. cbn in Hb. destruct (H0 b Hb) as (H1 & _). congruence.
  - destruct b; cbn [negb]; [|exact H0]. destruct k; cbn [fst]; try exact H0.
    unfold switch. destruct (d_images _ s) as [[v0 v1]|]; exact H0.
Qed.

(** Without correlations (not asked for, or not in the result), after any history no correlation is drawn and a click on
    an arrow raises nothing. *)
Theorem C114_without_correl images r n se sc s0 r' es a k rest i :
  well_formed r n -> display_piv _ images r NoInterp se sc = Ok (s0, r') -> represents s0 a k i ->
  sc = false \/ r_correls _ r = None \/ r_correls _ r = Some [] ->
  let s := history _ r' s0 es in
  d_ax1 _ s = None /\ snd (handle _ r' s (Pick a (Z.of_nat k :: rest))) = None.
Proof.
  intros HW H HR HC s. destruct (init_ok _ _ _ _ _ _ _ HW H) as (HW' & HA0 & HT0).
  destruct (history_ok r' n s0 es HW' HA0 HT0) as (HA & _). fold s in HA.
  assert (HR' : represents s a k i) by (apply (represents_same s0); [apply history_frame|exact HR]).
  assert (Hi := represents_range _ _ _ _ _ _ HW' HA HR').
  assert (I : d_show_correl _ s0 = false /\ d_ax1 _ s0 = None).
  { unfold display_piv in H. cbn [displayed bind] in H.
    match type of H with (do we <- ?m ; _) = _ => destruct m as [we|]; cbn [bind] in H; [|discriminate] end.
    injection H as <- _. split; [|reflexivity]. cbn [d_show_correl]. destruct HC as [-> |[-> | ->]]; [reflexivity| |]; destruct sc; reflexivity. }
  assert (G : d_show_correl _ s = false /\ d_ax1 _ s = None).
  { unfold s. clear -I. unfold history. revert s0 I. induction es as [|e es IH]; intros s0 I; [exact I|]. cbn [fold_left]. apply IH. clear IH.
    destruct I as (I1 & I2). destruct e as [ar inds|kk b]; cbn [handle].
    - unfold select_arrow. destruct inds as [|ind inds]; [split; assumption|].
      match goal with |- context [match ?m with Ok _ => _ | Err _ => _ end] => destruct m as [[ia q]|]; [|split; assumption] end.
      destruct (_ || _); [split; assumption|].
      match goal with |- context [match ?m with Ok _ => _ | Err _ => _ end] => destruct m as [[[ix iy] delta]|]; [|split; assumption] end.
      match goal with |- context [match ?m with Ok _ => _ | Err _ => _ end] => destruct m as [cm|]; [|split; assumption] end.
      cbn [set_text set_point set_ind d_show_correl]. rewrite I1. cbn [fst set_text set_point set_ind d_show_correl d_ax1]. split; assumption.
    - destruct b; cbn [negb]; [|split; assumption]. destruct kk; cbn [fst]; try (split; assumption).
      unfold switch. destruct (d_images _ s0) as [[v0 v1]|]; split; assumption. }
  split; [apply G|]. cbn [handle]. apply (select_quiet r' n HW' s a k rest i HA HR' Hi (proj1 G)).
Qed.

End Spec.

(** ** Counterexamples and examples *)

(** A result with two vectors, the second one removed, and the result interpolated on the grid of the next pass,
    which has three vectors. *)
Definition ex_field : field4 :=
  {| f_xs := [Fin 10; Fin 20]; f_ys := [Fin 10; Fin 10]; f_dxs := [Fin 2; NaN]; f_dys := [Fin 1; NaN] |}.
Definition ex_approx : field4 :=
  {| f_xs := [Fin 5; Fin 15; Fin 25]; f_ys := [Fin 10; Fin 10; Fin 10]; f_dxs := [Fin 2; Fin 2; Fin 2]; f_dys := [Fin 1; Fin 1; Fin 1] |}.
Definition ex_res : pivres unit :=
  {| r_field := ex_field; r_approx := Some ex_approx; r_final := None; r_smooth := None;
     r_wrong := Some [(1, (Fin 7, Fin 3))]; r_errors := Some [(1, of_string "correl < correl_min")];
     r_correls_max := Some [Fin 1; Fin 0]; r_correls := Some [tt; tt];
     r_indices_no_displacement := (4%R, 6%R); r_input := None; r_replaced := None;
     r_secondary_peaks := [None; None]; r_nb_peaks_to_search := 1; r_displacement_max := None |}.

Lemma ex_wf : well_formed unit ex_res 2.
Proof.
  unfold well_formed; cbn. repeat (split; [reflexivity|]). split; [intros cs H; injection H as <-; reflexivity|].
  split; [intros w i d H; injection H as <-; intros [H|[]]; injection H as <- _; lia|].
  intros [|[|i]] H; cbn in H; try discriminate; [|destruct i; discriminate].
  eexists _, _. split; reflexivity.
Qed.

(** A click on a vector shows its information.  Refuted: nothing is shown for the vector 0 as long as no other vector
    has been selected. *)
Theorem C114_vector0_refuted :
  exists s0 r', display_piv unit true ex_res NoInterp true true = Ok (s0, r') /\ represents unit s0 Q0 0 0 /\
    forall n, d_text _ (history unit r' s0 (repeat (Pick Q0 [0]) n)) = None.
Proof.
  eexists _, _. split; [reflexivity|]. split; [split; [reflexivity|cbn; lia]|].
  intros n. unfold history. induction n as [|n IH]; [reflexivity|]. cbn [repeat fold_left]. exact IH.
Qed.

(** "Press alt+left or alt+right to change vector".  Refuted: the vector selected stays the same. *)
Theorem C114_keys_refuted :
  exists s0 r' t, display_piv unit true ex_res NoInterp true true = Ok (s0, r') /\
    d_text _ (history unit r' s0 [Pick Q0 [1]]) = Some t /\
    d_text _ (history unit r' s0 [Pick Q0 [1]; Key AltLeft true]) = Some t.
Proof. eexists _, _, _. split; [reflexivity|]. split; reflexivity. Qed.

(** To display a result does not change it.  Refuted without images. *)
Theorem C114_modified_refuted :
  exists s0 r', display_piv unit false ex_res NoInterp true true = Ok (s0, r') /\
    nth_error (f_dys (r_field _ ex_res)) 0 = Some (Fin 1) /\ nth_error (f_dys (r_field _ r')) 0 = Some (Fin (-1)).
Proof.
  eexists _, _. split; [reflexivity|]. split; [reflexivity|]. cbn. reflexivity.
Qed.

(** The mark of the absence of displacement is at the displacement zero.  Refuted for a correlation which is not a
    square. *)
Theorem C114_no_displacement_refuted :
  exists s0 r' c x y marks, display_piv unit true ex_res NoInterp true true = Ok (s0, r') /\
    d_ax1 _ (history unit r' s0 [Pick Q0 [1]]) = Some (tt, c, marks) /\ In (NoDispl x y) marks /\
    ~ is_at unit r' (Fin 0) (Fin 0) (Fin x) (Fin y).
Proof.
  eexists _, _, _, _, _, _. split; [reflexivity|]. split; [reflexivity|]. split; [left; reflexivity|].
  cbn. intros (H & _). injection H as H. lra.
Qed.

(** With show_interp, a click on an arrow shows the position of this arrow with the displacement of the vector of the
    same number of the field which is not interpolated. *)
Theorem C114_interp_partial correl (r : pivres correl) si se sc s0 r' k rest f dx dy :
  display_piv correl true r si se sc = Ok (s0, r') -> displayed _ r si = Ok f ->
  (0 < k)%nat -> (k < List.length (f_xs f))%nat -> (k < List.length (f_ys f))%nat ->
  nth_error (f_dxs (r_field _ r)) k = Some dx -> fisnan dx = false -> nth_error (f_dys (r_field _ r)) k = Some dy ->
  (forall cs, r_correls_max _ r = Some cs -> (k < List.length cs)%nat) ->
  exists t, d_text _ (history _ r' s0 [Pick Q0 (Z.of_nat k :: rest)]) = Some t /\
    nth_error (f_xs f) k = Some (i_x t) /\ nth_error (f_ys f) k = Some (i_y t) /\ i_u t = dx /\ i_v t = dy.
Proof.
  intros H Hf Hk Hx Hy Ndx Hn Ndy Hc. assert (r' = r) as -> by (apply (C114_pure _ _ _ _ _ _ _ H)).
  assert (Q : q_x (d_q _ s0) = f_xs f /\ q_y (d_q _ s0) = f_ys f /\ d_ind _ s0 = 0).
  { unfold display_piv in H. rewrite Hf in H. cbn [bind] in H.
    match type of H with (do we <- ?m ; _) = _ => destruct m as [we|]; cbn [bind] in H; [|discriminate] end.
    injection H as <-. repeat split. }
  destruct Q as (Qx & Qy & Qi). cbn [history fold_left handle select_arrow]. unfold history; cbn [fold_left handle select_arrow].
  rewrite Qx, Qy, Qi.
  replace (zlen (f_xs f) <=? Z.of_nat k) with false by (unfold zlen; symmetry; apply Z.leb_gt; lia).
  replace (Z.of_nat k <? 0) with false by (symmetry; apply Z.ltb_ge; lia).
  replace (0 =? Z.of_nat k) with false by (symmetry; apply Z.eqb_neq; lia). cbn [orb].
  destruct (get_in _ _ Hx) as (x & Px & Nx). destruct (get_in _ _ Hy) as (y & Py & Ny).
  rewrite Px, Py, (proj2 (get_nth _ _ _) Ndx), (proj2 (get_nth _ _ _) Ndy). cbn [bind]. rewrite Hn. cbn [bind].
  assert (C : exists c, match r_correls_max _ r with None => Ok None | Some cs => do c <- py_get cs (Z.of_nat k) ; Ok (Some c) end = Ok c).
  { destruct (r_correls_max _ r) as [cs|]; [|exists None; reflexivity]. destruct (get_in cs k (Hc cs eq_refl)) as (c & -> & _).
    exists (Some c). reflexivity. }
  destruct C as (c & ->).
  eexists. split; [|split; [|split; [|split]]].
  - destruct (d_show_correl _ _); [|reflexivity]. destruct (draw_correl _ _ _ _ _); reflexivity.
  - exact Nx.
  - exact Ny.
  - reflexivity.
  - reflexivity.
Qed.
(** A click on an arrow shows the displacement drawn.  Refuted with show_interp: for the second arrow of the interpolated
    field the displacement of another vector is shown, and for the third one there is an IndexError. *)
Theorem C114_interp_refuted :
  exists s0 r' t, display_piv unit true ex_res Interp false true = Ok (s0, r') /\
    nth_error (q_u (d_q _ s0)) 1 = Some (Fin 2) /\
    d_text _ (history unit r' s0 [Pick Q0 [1]]) = Some t /\ i_x t = Fin 15 /\ i_u t = Fin 7 /\
    represents unit s0 Q0 2 2 /\ snd (handle unit r' s0 (Pick Q0 [2])) = Some IndexError.
Proof.
  eexists _, _, _. split; [reflexivity|]. split; [reflexivity|]. split; [reflexivity|]. split; [reflexivity|]. split; [reflexivity|].
  split; [split; [reflexivity|cbn; lia]|]. reflexivity.
Qed.

(** The hypotheses of the theorems are met, and a click on the arrow of a wrong vector *)
Example C114_example :
  exists s0 r' t, display_piv unit true ex_res NoInterp true true = Ok (s0, r') /\ represents unit s0 QWrong 0 1 /\
    d_text _ (history unit r' s0 [Pick QWrong [0]]) = Some t /\
    (i_vec t, i_x t, i_u t, i_v t, i_error t) = (1, Fin 20, Fin 7, Fin 3, Some (of_string "correl < correl_min")).
Proof.
  eexists _, _, _. split; [reflexivity|]. split; [eexists _, _; split; reflexivity|]. split; [reflexivity|]. reflexivity.
Qed.

Print Assumptions C114_click.
Print Assumptions C114_correl.
Print Assumptions C114_without_correl.
Print Assumptions C114_arrows.
Print Assumptions C114_shown.
Print Assumptions C114_keys_iff.
Print Assumptions C114_images.
Print Assumptions C114_pure.
Print Assumptions C114_modified_iff.
Print Assumptions C114_marks.
Print Assumptions C114_no_displacement_iff.
Print Assumptions C114_vector0_refuted.
Print Assumptions C114_keys_refuted.
Print Assumptions C114_modified_refuted.
Print Assumptions C114_no_displacement_refuted.
Print Assumptions C114_interp_partial.
Print Assumptions C114_interp_refuted.

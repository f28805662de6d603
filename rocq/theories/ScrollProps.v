(** C124: the mouse wheel on the display of an array of vector fields. *)
From Verif Require Import PyBase StrModel VecFieldModel VecFieldProps FieldDisplayModel FieldDisplayProps ScrollModel.
Local Open Scope Z_scope.

(** ** Specification *)
(** the sum of the moves *)
Fixpoint moves (l : list wheel) : Z := match l with [] => 0 | Up :: l' => 1 + moves l' | Down :: l' => -1 + moves l' end.
(** all the fields have [ny] lines and [nx] columns *)
Definition same_shape {A} (ny nx : nat) (a : farray A) : Prop :=
  forall f, In f (a_list a) -> shape (d_vx f) ny nx /\ shape (d_vy f) ny nx /\ List.length (d_y f) = ny /\ List.length (d_x f) = nx.

(** the colours [C] of a mesh of [ny] x [nx] points are the norms of the vectors of [f], line by line *)
Definition colours_of {A B} (norm : A -> A -> B) (ny nx : nat) (f : dfield A) (C : list B) : Prop :=
  List.length C = (ny * nx)%nat /\
  forall i j ru rv u v, nth_error (d_vx f) i = Some ru -> nth_error ru j = Some u ->
    nth_error (d_vy f) i = Some rv -> nth_error rv j = Some v -> nth_error C (i * nx + j) = Some (norm u v).

Section S.
Context {A B : Type}.
Variable norm : A -> A -> B.

(** ** Lemmas *)
Lemma py_get_in {X} (l : list X) i : 0 <= i < zlen l -> exists x, py_get l i = Ok x /\ In x l /\ nth_error l (Z.to_nat i) = Some x.
Proof.
  intros H. unfold py_get. replace (i <? 0) with false by lia. replace ((0 <=? i) && (i <? zlen l)) with true by lia.
  destruct (nth_error l (Z.to_nat i)) as [x|] eqn:E; [|apply nth_error_None in E; unfold zlen in H; lia].
  exists x. split; [reflexivity|]. split; [exact (nth_error_In _ _ E)|reflexivity].
Qed.
Lemma py_get_any {X} (l : list X) i x : py_get l i = Ok x -> In x l.
Proof.
  unfold py_get. destruct (_ && _); [|discriminate]. destruct (nth_error l _) eqn:E; [|discriminate].
  intros H. injection H as <-. exact (nth_error_In _ _ E).
Qed.
Lemma py_get_nonempty {X} (l : list X) i x : py_get l i = Ok x -> 0 < zlen l.
Proof. intros H. apply py_get_any in H. destruct l; [contradiction|]. unfold zlen. cbn [List.length]. lia. Qed.

Lemma concat_length {X} (x : array2 X) ny nx : shape x ny nx -> List.length (List.concat x) = (ny * nx)%nat.
Proof.
  intros (<- & H). induction x as [|r x IH]; [reflexivity|]. inversion H; subst. cbn [List.concat List.length Nat.mul].
  rewrite app_length, IH by assumption. reflexivity.
Qed.
Lemma norms_length (f : dfield A) ny nx : shape (d_vx f) ny nx -> shape (d_vy f) ny nx -> zlen (norms norm f) = Z.of_nat (ny * nx).
Proof.
  intros Hx Hy. unfold norms, zlen. rewrite map_length, combine_length, (concat_length _ _ _ Hx), (concat_length _ _ _ Hy). lia.
Qed.

Lemma concat_nth {X} (x : array2 X) ny nx i j r v : shape x ny nx -> nth_error x i = Some r -> nth_error r j = Some v ->
  nth_error (List.concat x) (i * nx + j) = Some v.
Proof.
  intros (_ & H). revert i. induction x as [|r0 x IH]; intros i Er Ev; [destruct i; discriminate|].
  inversion H as [|? ? H0 H1]; subst. cbn [List.concat]. destruct i as [|i]; cbn [nth_error] in Er.
  - injection Er as <-. rewrite nth_error_app1; [exact Ev|]. apply nth_error_Some. cbn [Nat.mul Nat.add]. congruence.
  - rewrite nth_error_app2 by lia. replace (S i * List.length r0 + j - List.length r0)%nat with (i * List.length r0 + j)%nat by lia.
    exact (IH H1 i Er Ev).
Qed.
Lemma combine_nth {X Y} (l : list X) (l' : list Y) k u v : nth_error l k = Some u -> nth_error l' k = Some v ->
  nth_error (combine l l') k = Some (u, v).
Proof.
  revert l' k. induction l as [|a l IH]; intros l' k; [destruct k; discriminate|].
  destruct l' as [|b l']; [destruct k; discriminate|]. destruct k as [|k]; cbn [nth_error combine]; [congruence|apply IH].
Qed.
Lemma norms_colours (f : dfield A) ny nx : shape (d_vx f) ny nx -> shape (d_vy f) ny nx -> colours_of norm ny nx f (norms norm f).
Proof.
  intros Sx Sy. split.
  - pose proof (norms_length f ny nx Sx Sy) as E. unfold zlen in E. lia.
  - intros i j ru rv u v E1 E2 E3 E4. unfold norms.
    apply (map_nth_error (fun '(u, v) => norm u v) (i * nx + j) _ (d := (u, v))).
    apply combine_nth; [exact (concat_nth _ _ _ _ _ _ _ Sx E1 E2)|exact (concat_nth _ _ _ _ _ _ _ Sy E3 E4)].
Qed.

Lemma onscroll_cur a skip (g : fig) e :
  fg_cur (fst (onscroll norm a skip g e)) = (fg_cur g + moves [e]) mod zlen (a_list a).
Proof.
  unfold onscroll. replace (match e with Up => (fg_cur g + 1) mod zlen (a_list a) | Down => (fg_cur g - 1) mod zlen (a_list a) end)
    with ((fg_cur g + moves [e]) mod zlen (a_list a)) by (destruct e; cbn [moves]; f_equal; lia).
  repeat match goal with |- context [match ?x with _ => _ end] => destruct x; try reflexivity end.
Qed.
Lemma onscroll_n a skip (g : fig) e : fg_n (fst (onscroll norm a skip g e)) = fg_n g.
Proof. unfold onscroll. repeat match goal with |- context [match ?x with _ => _ end] => destruct x; try reflexivity end. Qed.

(** ** Theorems *)
(** C124: after any moves of the wheel the current index is that of the display plus the number of moves up minus the
    number of moves down, modulo the number of fields, even if exceptions have been raised *)
Theorem C124_index : forall a skip ind g l, fig_display norm a ind skip = Ok g -> l <> [] ->
  fg_cur (fst (scroll norm a skip g l)) = (ind + moves l) mod zlen (a_list a) /\
  0 <= fg_cur (fst (scroll norm a skip g l)) < zlen (a_list a).
Proof.
  intros a skip ind g l Hg Hl. unfold fig_display in Hg.
  destruct (array_display a ind false skip) as [arr|]; [|discriminate]. cbn [bind] in Hg.
  destruct (py_get (a_list a) ind) as [f|] eqn:Ef; [|discriminate]. cbn [bind] in Hg.
  assert (Hc : fg_cur g = ind) by (injection Hg as <-; reflexivity). clear Hg.
  pose proof (py_get_nonempty _ _ _ Ef) as Hn.
  assert (G : fg_cur (fst (scroll norm a skip g l)) = (ind + moves l) mod zlen (a_list a)).
  { rewrite <- Hc. clear Hc Ef. revert g. induction l as [|e l IH]; intros g; [congruence|]. cbn [scroll].
    pose proof (onscroll_cur a skip g e) as E. destruct (onscroll norm a skip g e) as [g1 r]. cbn [fst] in E.
    destruct l as [|e' l'].
    - cbn [scroll fst]. exact E.
    - specialize (IH ltac:(discriminate) g1). destruct (scroll norm a skip g1 (e' :: l')) as [g2 rs]. cbn [fst] in *.
      rewrite IH, E, Zplus_mod_idemp_l. f_equal. destruct e; cbn [moves]; lia. }
  split; [exact G|]. rewrite G. apply Z.mod_pos_bound. exact Hn.
Qed.

(** the display of a field without argument, in the two cases of the number of lines *)
Lemma shown (a : farray A) ind g ny nx : fig_display norm a ind ANone = Ok g -> same_shape ny nx a -> (0 < ny)%nat ->
  0 < zlen (a_list a) /\ zlen (fg_mesh g) = Z.of_nat (ny * nx) /\ fg_cur g = ind /\ fg_seen g = (fg_mesh g, fg_u g, fg_v g) /\
  (Z.of_nat ny < 50 -> fg_n g = Z.of_nat (ny * nx)) /\
  (50 <= Z.of_nat ny -> fg_n g <= 49 * Z.of_nat nx).
Proof.
  intros Hg Hs Hy. unfold fig_display, array_display in Hg.
  destruct (py_get (a_list a) ind) as [f|] eqn:Ef; [|discriminate]. cbn [bind] in Hg.
  destruct (Hs f (py_get_any _ _ _ Ef)) as (Sx & Sy & Ly & Lx).
  assert (D : dwell f) by (split; rewrite Ly, Lx; assumption).
  assert (Ny : d_y f <> []) by (intros E; rewrite E in Ly; cbn in Ly; lia).
  destruct (C107_default_step f D Ny) as (k & Hk & Ed & K1 & K2 & _).
  set (s := mk_slc None None k).
  assert (Eq : display f false (AInt k) ANone = display f false ANone (ASlices (s, s))) by reflexivity.
  assert (HN : slice_indices (zlen (d_y f)) s <> []).
  { intros E. assert (I0 : In 0 (slice_indices (zlen (d_y f)) s)); [|rewrite E in I0; contradiction].
    unfold slice_indices. cbn [s s_start s_stop s_step]. apply range_in; [lia|]. split; [unfold zlen; lia|exists 0; lia]. }
  destruct (C107_same_slices f s D ltac:(cbn; lia) HN) as (l & El & Ll & _).
  rewrite Ed, Eq, El in Hg. cbn [bind] in Hg. injection Hg as <-. cbn [fg_mesh fg_cur fg_seen fg_u fg_v fg_n].
  split; [exact (py_get_nonempty _ _ _ Ef)|]. split; [apply norms_length; assumption|]. split; [reflexivity|]. split; [reflexivity|].
  rewrite Ll. unfold zlen in K1, K2. rewrite Ly in K1, K2. unfold zlen in *. rewrite Ly, Lx in *.
  assert (C : forall n : nat, (List.length (slice_indices (Z.of_nat n) s) <= n)%nat /\ (k = 1 -> List.length (slice_indices (Z.of_nat n) s) = n)).
  { intros n. unfold slice_indices. cbn [s s_start s_stop s_step]. unfold range_list. rewrite map_length, seq_length. unfold range_len.
    replace (0 <? k) with true by lia. replace (k <? 0) with false by lia. cbn [andb].
    destruct (Z.ltb_spec 0 (Z.of_nat n)) as [P|P]; [|cbn; lia]. replace (Z.of_nat n - 0 - 1) with (Z.of_nat n - 1) by lia.
    pose proof (Z.div_pos (Z.of_nat n - 1) k ltac:(lia) ltac:(lia)).
    assert ((Z.of_nat n - 1) / k <= Z.of_nat n - 1) by (apply Z.div_le_upper_bound; nia).
    split; [lia|]. intros ->. rewrite Z.div_1_r. lia. }
  split.
  - intros H. rewrite (proj2 (C ny) (K1 H)), (proj2 (C nx) (K1 H)). lia.
  - intros H. cbv zeta in K2. specialize (K2 ltac:(lia)). fold s in K2. pose proof (proj1 (C nx)) as Cx.
    set (p := List.length (slice_indices (Z.of_nat ny) s)) in *. set (q := List.length (slice_indices (Z.of_nat nx) s)) in *. clearbody p q.
    apply Z.mul_le_mono_nonneg; lia.
Qed.

(** one event *)
Lemma one_small (a : farray A) ny nx (g : fig) e times : same_shape ny nx a -> 0 < zlen (a_list a) ->
  zlen (fg_mesh g) = Z.of_nat (ny * nx) -> fg_n g = Z.of_nat (ny * nx) -> a_times a = Some times -> zlen (a_list a) <= zlen times ->
  exists f t, nth_error (a_list a) (Z.to_nat (fg_cur (fst (onscroll norm a ANone g e)))) = Some f /\
    nth_error times (Z.to_nat (fg_cur (fst (onscroll norm a ANone g e)))) = Some t /\
    snd (onscroll norm a ANone g e) = Ok t /\ zlen (fg_mesh (fst (onscroll norm a ANone g e))) = Z.of_nat (ny * nx) /\
    fg_seen (fst (onscroll norm a ANone g e)) = (norms norm f, List.concat (d_vx f), List.concat (d_vy f)) /\ colours_of norm ny nx f (norms norm f).
Proof.
  intros Hs Hn Hm HN Ht Hl.
  rewrite onscroll_cur. unfold onscroll.
  replace (match e with Up => (fg_cur g + 1) mod zlen (a_list a) | Down => (fg_cur g - 1) mod zlen (a_list a) end)
    with ((fg_cur g + moves [e]) mod zlen (a_list a)) by (destruct e; cbn [moves]; f_equal; lia).
  pose proof (Z.mod_pos_bound (fg_cur g + moves [e]) (zlen (a_list a)) Hn) as Hb. set (c := (fg_cur g + moves [e]) mod zlen (a_list a)) in *.
  destruct (py_get_in (a_list a) c Hb) as (f & -> & Hf & Ef). destruct (py_get_in times c ltac:(lia)) as (t & Et & _ & Et').
  destruct (Hs f Hf) as (Sx & Sy & _ & _). rewrite (norms_length f ny nx Sx Sy), Hm, Z.eqb_refl. cbn [negb index_skip].
  unfold good_size. rewrite HN. unfold zlen. rewrite (concat_length _ _ _ Sx), (concat_length _ _ _ Sy), Z.eqb_refl. cbn [orb andb negb].
  rewrite Ht. fold (zlen (a_list a)). rewrite Et.
  exists f, t. cbn [fst snd fg_seen fg_mesh]. split; [exact Ef|]. split; [exact Et'|]. split; [reflexivity|]. split; [exact (norms_length f ny nx Sx Sy)|].
  split; [reflexivity|exact (norms_colours f ny nx Sx Sy)].
Qed.

(** C124: with less than fifty lines, one time for each field and the argument skip=None, every move succeeds, and the
    colours and the arrows drawn and the time printed are those of the current field *)
Theorem C124_follows : forall (a : farray A) ind g ny nx times l e,
  fig_display norm a ind ANone = Ok g -> same_shape ny nx a -> (0 < ny < 50)%nat ->
  a_times a = Some times -> zlen (a_list a) <= zlen times ->
  exists f t before, nth_error (a_list a) (Z.to_nat ((ind + moves (l ++ [e])) mod zlen (a_list a))) = Some f /\
    nth_error times (Z.to_nat ((ind + moves (l ++ [e])) mod zlen (a_list a))) = Some t /\
    snd (scroll norm a ANone g (l ++ [e])) = before ++ [Ok t] /\
    (forall r, In r before -> exists t', r = Ok t') /\
    exists C, colours_of norm ny nx f C /\
      fg_seen (fst (scroll norm a ANone g (l ++ [e]))) = (C, List.concat (d_vx f), List.concat (d_vy f)).
Proof.
  intros a ind g ny nx times l e Hg Hs Hy Ht Hl.
  destruct (shown a ind g ny nx Hg Hs ltac:(lia)) as (Hn & Hm & Hc & _ & HN & _). specialize (HN ltac:(lia)).
  rewrite <- Hc. clear Hg Hc. revert g Hm HN. induction l as [|e0 l IH]; intros g Hm HN.
  - cbn [app scroll]. destruct (one_small a ny nx g e times Hs Hn Hm HN Ht Hl) as (f & t & Ef & Et & Er & _ & Es & Ec).
    rewrite onscroll_cur in Ef, Et. exists f, t, []. destruct (onscroll norm a ANone g e) as [g1 r]. cbn [fst snd] in *.
    rewrite Er. split; [exact Ef|]. split; [exact Et|]. split; [reflexivity|]. split; [intros r' []|eauto].
  - cbn [app scroll]. destruct (one_small a ny nx g e0 times Hs Hn Hm HN Ht Hl) as (f0 & t0 & _ & _ & Er & Em & _ & _).
    pose proof (onscroll_cur a ANone g e0) as Ec. pose proof (onscroll_n a ANone g e0) as En.
    destruct (onscroll norm a ANone g e0) as [g1 r]. cbn [fst snd] in *.
    destruct (IH g1 Em ltac:(congruence)) as (f & t & before & Ef & Et & Ers & Hb & Es).
    destruct (scroll norm a ANone g1 (l ++ [e])) as [g2 rs]. cbn [fst snd] in *.
    replace ((fg_cur g + moves (e0 :: l ++ [e])) mod zlen (a_list a)) with ((fg_cur g1 + moves (l ++ [e])) mod zlen (a_list a)).
    2:{ rewrite Ec, Zplus_mod_idemp_l. f_equal. destruct e0; cbn [moves]; lia. }
    exists f, t, (r :: before). split; [exact Ef|]. split; [exact Et|]. split; [rewrite Ers; reflexivity|]. split; [|exact Es].
    intros r' [<-|Hr]; [eauto|apply Hb; exact Hr].
Qed.

(** one event with fifty lines or more *)
Lemma one_large (a : farray A) ny nx (g : fig) e : same_shape ny nx a -> 0 < zlen (a_list a) -> (50 <= ny)%nat -> (0 < nx)%nat ->
  zlen (fg_mesh g) = Z.of_nat (ny * nx) -> fg_n g <= 49 * Z.of_nat nx ->
  exists f, nth_error (a_list a) (Z.to_nat (fg_cur (fst (onscroll norm a ANone g e)))) = Some f /\
    snd (onscroll norm a ANone g e) = Err ValueError /\ fg_mesh (fst (onscroll norm a ANone g e)) = norms norm f /\
    zlen (norms norm f) = Z.of_nat (ny * nx) /\ colours_of norm ny nx f (norms norm f) /\
    fg_u (fst (onscroll norm a ANone g e)) = fg_u g /\ fg_v (fst (onscroll norm a ANone g e)) = fg_v g /\
    fg_seen (fst (onscroll norm a ANone g e)) = fg_seen g.
Proof.
  intros Hs Hn Hy Hx Hm HN. rewrite onscroll_cur. unfold onscroll.
  replace (match e with Up => (fg_cur g + 1) mod zlen (a_list a) | Down => (fg_cur g - 1) mod zlen (a_list a) end)
    with ((fg_cur g + moves [e]) mod zlen (a_list a)) by (destruct e; cbn [moves]; f_equal; lia).
  pose proof (Z.mod_pos_bound (fg_cur g + moves [e]) (zlen (a_list a)) Hn) as Hb. set (c := (fg_cur g + moves [e]) mod zlen (a_list a)) in *.
  destruct (py_get_in (a_list a) c Hb) as (f & -> & Hf & Ef).
  destruct (Hs f Hf) as (Sx & Sy & _ & _). rewrite (norms_length f ny nx Sx Sy), Hm, Z.eqb_refl. cbn [negb index_skip].
  assert (Eg : good_size (fg_n g) (List.concat (d_vx f)) = false).
  { unfold good_size, zlen. rewrite (concat_length _ _ _ Sx). apply orb_false_iff. split; apply Z.eqb_neq; nia. }
  rewrite Eg.
  cbn [orb andb negb fst snd fg_mesh fg_u fg_v fg_seen]. exists f. split; [exact Ef|]. split; [reflexivity|]. split; [reflexivity|].
  split; [exact (norms_length f ny nx Sx Sy)|]. split; [exact (norms_colours f ny nx Sx Sy)|]. auto.
Qed.

(** C124 is refuted as stated: with fifty lines or more, every move of the wheel raises ValueError: the arrows remain those of
    the first field, with the colours of the current one, and nothing is drawn *)
Theorem C124_large_refuted : forall (a : farray A) ind g ny nx l e,
  fig_display norm a ind ANone = Ok g -> same_shape ny nx a -> (50 <= ny)%nat -> (0 < nx)%nat ->
  exists f, nth_error (a_list a) (Z.to_nat ((ind + moves (l ++ [e])) mod zlen (a_list a))) = Some f /\
    (forall r, In r (snd (scroll norm a ANone g (l ++ [e]))) -> r = Err ValueError) /\
    let g' := fst (scroll norm a ANone g (l ++ [e])) in
    colours_of norm ny nx f (fg_mesh g') /\ fg_u g' = fg_u g /\ fg_v g' = fg_v g /\ fg_seen g' = fg_seen g.
Proof.
  intros a ind g ny nx l e Hg Hs Hy Hx.
  destruct (shown a ind g ny nx Hg Hs ltac:(lia)) as (Hn & Hm & Hc & _ & _ & HN). specialize (HN ltac:(lia)).
  rewrite <- Hc. clear Hg Hc. revert g Hm HN. induction l as [|e0 l IH]; intros g Hm HN.
  - cbn [app scroll]. destruct (one_large a ny nx g e Hs Hn Hy Hx Hm HN) as (f & Ef & Er & Em & _ & Ec & Eu & Ev & Es).
    rewrite onscroll_cur in Ef. exists f. destruct (onscroll norm a ANone g e) as [g1 r]. cbn [fst snd] in *.
    split; [exact Ef|]. split; [intros r' [<-|[]]; exact Er|]. rewrite Em. auto.
  - cbn [app scroll]. destruct (one_large a ny nx g e0 Hs Hn Hy Hx Hm HN) as (f0 & _ & Er & Em & Lm & _ & Eu & Ev & Es).
    pose proof (onscroll_cur a ANone g e0) as Ec. pose proof (onscroll_n a ANone g e0) as En.
    destruct (onscroll norm a ANone g e0) as [g1 r]. cbn [fst snd] in *.
    destruct (IH g1 ltac:(congruence) ltac:(congruence)) as (f & Ef & Ers & Em' & Eu' & Ev' & Es').
    destruct (scroll norm a ANone g1 (l ++ [e])) as [g2 rs]. cbn [fst snd] in *.
    replace ((fg_cur g + moves (e0 :: l ++ [e])) mod zlen (a_list a)) with ((fg_cur g1 + moves (l ++ [e])) mod zlen (a_list a)).
    2:{ rewrite Ec, Zplus_mod_idemp_l. f_equal. destruct e0; cbn [moves]; lia. }
    exists f. split; [exact Ef|]. split; [intros r' [<-|Hr]; [exact Er|apply Ers; exact Hr]|].
    split; [exact Em'|]. repeat split; congruence.
Qed.

(** C124 is refuted as stated: without times (set_timestep not called) no move of the wheel succeeds and the drawing
    never changes *)
Theorem C124_no_times_refuted : forall (a : farray A) skip ind g l, fig_display norm a ind skip = Ok g -> a_times a = None ->
  (forall r, In r (snd (scroll norm a skip g l)) -> exists e, r = Err e) /\
  fg_seen (fst (scroll norm a skip g l)) = fg_seen g.
Proof.
  intros a skip ind g l _ Ht. revert g. induction l as [|e l IH]; intros g; cbn [scroll].
  - split; [intros r []|reflexivity].
  - assert (O : (exists x, snd (onscroll norm a skip g e) = Err x) /\ fg_seen (fst (onscroll norm a skip g e)) = fg_seen g).
    { unfold onscroll. rewrite Ht. repeat match goal with |- context [match ?x with _ => _ end] => destruct x; try (cbn [fst snd]; split; [eexists; reflexivity|reflexivity]) end. }
    destruct (onscroll norm a skip g e) as [g1 r]. cbn [fst snd] in O. destruct (IH g1) as (I1 & I2).
    destruct (scroll norm a skip g1 l) as [g2 rs]. cbn [fst snd] in *. split; [intros r' [<-|Hr]; [apply O|apply I1, Hr]|].
    rewrite I2. apply O.
Qed.
End S.
Print Assumptions C124_index. Print Assumptions C124_follows. Print Assumptions C124_large_refuted. Print Assumptions C124_no_times_refuted.

(** ** Examples *)
Definition ex_f (c : Z) : dfield Z := mk_dfield [0; 1; 2] [0; 1] [[c; c; c]; [c; c; c]] [[0; 1; c]; [2; 3; c]].
Definition ex_a : farray Z := set_timestep 10 (new_array [ex_f 1; ex_f 2; ex_f 3]).
Example C124_ex_follows : same_shape 2 3 ex_a /\
  exists g, fig_display Z.add ex_a 0 ANone = Ok g /\
    snd (scroll Z.add ex_a ANone g [Up; Up; Up; Down]) = [Ok 10; Ok 20; Ok 0; Ok 20] /\
    fg_seen (fst (scroll Z.add ex_a ANone g [Up; Up; Up; Down])) = ([3; 4; 6; 5; 6; 6], [3; 3; 3; 3; 3; 3], [0; 1; 3; 2; 3; 3]).
Proof.
  split.
  - intros f [<-|[<-|[<-|[]]]]; repeat split; repeat constructor.
  - eexists. split; [vm_compute; reflexivity|]. split; vm_compute; reflexivity.
Qed.
Definition ex_tall (c : Z) : dfield Z := mk_dfield [0; 1] (range0 50) (repeat [c; c] 50) (repeat [0; 0] 50).
Example C124_ex_large : exists g, fig_display Z.add (set_timestep 10 (new_array [ex_tall 1; ex_tall 2])) 0 ANone = Ok g /\
  same_shape 50 2 (set_timestep 10 (new_array [ex_tall 1; ex_tall 2])).
Proof.
  eexists. split; [vm_compute; reflexivity|]. intros f [<-|[<-|[]]]; repeat split; repeat constructor.
Qed.

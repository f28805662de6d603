(** C34: mean over the neighbours. *)
From Coq Require Import Ring_theory Ring.
From Verif Require Import PyBase NeighModel CorrelProofs PeakProps GridProps.

Section Spec.
Context {T : Type}.
Variable zero : T.
Variable add : T -> T -> T.
Variable divc : T -> Z -> T.

(** Specification. A point of the grid, its neighbours (including the diagonal ones), the average of a list. *)
Definition inside (n0 n1 : Z) (p : Z * Z) : Prop := 0 <= fst p < n0 /\ 0 <= snd p < n1.
Definition neighbour (p q : Z * Z) : Prop := p <> q /\ Z.abs (fst p - fst q) <= 1 /\ Z.abs (snd p - snd q) <= 1.
Definition total (l : list T) : T := fold_right add zero l.
Definition average (l : list T) : T := divc (total l) (zlen l).

(** [out] is what is expected at the point [p] when the values are [v] ([None] where there is a NaN): *)
Definition mean_spec (n0 n1 : Z) (v : Z * Z -> option T) (p : Z * Z) (out : option T) : Prop :=
  exists l : list (Z * Z), NoDup l /\
    (forall q, In q l <-> inside n0 n1 q /\ neighbour q p /\ v q <> None) /\
    exists ts, map v l = map Some ts /\
      match v p, l with
      | None, _ => out = None
      | Some _, [] => out = None
      | Some _, _ => out = Some (average ts)
      end.
End Spec.

Section Proofs.
Context {T : Type}.
Variables zero one : T.
Variables add mul sub : T -> T -> T.
Variable opp : T -> T.
Variable Tring : ring_theory zero one add mul sub opp eq.
Add Ring T_ring : Tring.
Variable divc : T -> Z -> T.
Variables n0 n1 : Z.
Hypothesis H0 : 2 <= n0.
Hypothesis H1 : 2 <= n1.

Lemma index_ok n i : 0 <= i < n -> index n i = Ok i.
Proof. intros H. unfold index. destruct (0 <=? i) eqn:?, (i <? n) eqn:?; try lia. reflexivity. Qed.
Lemma get_ok {A} (f : Z -> Z -> A) i0 i1 : 0 <= i0 < n0 -> 0 <= i1 < n1 -> get n0 n1 f i0 i1 = Ok (f i0 i1).
Proof. intros A0 A1. unfold get. rewrite !index_ok by assumption. reflexivity. Qed.
Lemma set_ok {A} (f : Z -> Z -> A) i0 i1 v : 0 <= i0 < n0 -> 0 <= i1 < n1 -> set n0 n1 f i0 i1 v = Ok (upd f i0 i1 v).
Proof. intros A0 A1. unfold set. rewrite !index_ok by assumption. reflexivity. Qed.

Definition inb (p : Z * Z) : bool := (0 <=? fst p) && (fst p <? n0) && (0 <=? snd p) && (snd p <? n1).
Definition around (p : Z * Z) : list (Z * Z) :=
  let '(i0, i1) := p in
  [(i0 - 1, i1 - 1); (i0 - 1, i1); (i0 - 1, i1 + 1); (i0, i1 - 1); (i0, i1 + 1);
   (i0 + 1, i1 - 1); (i0 + 1, i1); (i0 + 1, i1 + 1)].
Definition nbl (p : Z * Z) : list (Z * Z) := filter inb (around p).

Section Array.
Variable a : Z -> Z -> T.
Variable nn : Z -> Z -> bool.
Hypothesis a_zero : forall i0 i1, nn i0 i1 = false -> a i0 i1 = zero.
Definition FA (i0 i1 : Z) : T := total zero add (map (fun p => a (fst p) (snd p)) (nbl (i0, i1))).
Definition FB (i0 i1 : Z) : Z := zsum (map (fun p => arr_b nn (fst p) (snd p)) (nbl (i0, i1))).

Lemma b_01 i0 i1 : 0 <= arr_b nn i0 i1 <= 1.
Proof. unfold arr_b. destruct (nn i0 i1); lia. Qed.
Lemma u8_small x y : 0 <= x + y < 256 -> u8add x y = x + y.
Proof. intros. unfold u8add. apply Z.mod_small. assumption. Qed.

Ltac regions :=
  unfold FA, FB, nbl, around; cbn [filter];
  repeat match goal with |- context[inb ?p] =>
    first [replace (inb p) with true by (unfold inb; cbn [fst snd]; lia)
          |replace (inb p) with false by (unfold inb; cbn [fst snd]; lia)] end;
  cbn [map total fold_right fst snd zsum].
Ltac gets := cbn [py_for bind]; repeat (rewrite get_ok by lia; cbn [bind py_for]).
Ltac fix_idx := rewrite ?Z.sub_0_r, ?Z.add_0_r;
  repeat match goal with
  | |- context[?x + -1] => change (x + -1) with (x - 1)
  | |- context[?x - -1] => change (x - -1) with (x + 1)
  end.
Ltac bounds := repeat match goal with |- context[arr_b nn ?x ?y] =>
    let H := fresh in pose proof (b_01 x y) as H; revert H; generalize (arr_b nn x y); intros ? H end.
Ltac done_a := regions; f_equal; ring.
Ltac done_b := regions; bounds; repeat match goal with |- context[u8add ?x ?y] => rewrite (u8_small x y) by lia end; f_equal; lia.

Lemma corner_a s0 s1 i0 i1 : s0 = 1 /\ i0 = 0 \/ s0 = -1 /\ i0 = n0 - 1 -> s1 = 1 /\ i1 = 0 \/ s1 = -1 /\ i1 = n1 - 1 ->
  corner n0 n1 add a s0 s1 i0 i1 = Ok (FA i0 i1) /\ corner n0 n1 u8add (arr_b nn) s0 s1 i0 i1 = Ok (FB i0 i1).
Proof.
  intros [[-> Hi]|[-> Hi]] [[-> Hj]|[-> Hj]]; unfold corner; gets; fix_idx; (split; [done_a|done_b]).
Qed.
Lemma row_a s0 i0 i1 : s0 = 1 /\ i0 = 0 \/ s0 = -1 /\ i0 = n0 - 1 -> 1 <= i1 < n1 - 1 ->
  row n0 n1 add a s0 i0 i1 = Ok (FA i0 i1) /\ row n0 n1 u8add (arr_b nn) s0 i0 i1 = Ok (FB i0 i1).
Proof. intros [[-> Hi]|[-> Hi]] Hj; unfold row; gets; fix_idx; (split; [done_a|done_b]). Qed.
Lemma col_a s1 i0 i1 : 1 <= i0 < n0 - 1 -> s1 = 1 /\ i1 = 0 \/ s1 = -1 /\ i1 = n1 - 1 ->
  col n0 n1 add a s1 i0 i1 = Ok (FA i0 i1) /\ col n0 n1 u8add (arr_b nn) s1 i0 i1 = Ok (FB i0 i1).
Proof. intros Hi [[-> Hj]|[-> Hj]]; unfold col; gets; fix_idx; (split; [done_a|done_b]). Qed.
Lemma core_a i0 i1 : 1 <= i0 < n0 - 1 -> 1 <= i1 < n1 - 1 ->
  core n0 n1 add a i0 i1 = Ok (FA i0 i1) /\ core n0 n1 u8add (arr_b nn) i0 i1 = Ok (FB i0 i1).
Proof. intros Hi Hj; unfold core; gets; fix_idx; (split; [done_a|done_b]). Qed.

(** every cell writes the same thing *)
Definition wr (s : @st T) (p : Z * Z) : @st T :=
  let '(i0, i1) := p in if nn i0 i1 then (upd (fst s) i0 i1 (FA i0 i1), upd (snd s) i0 i1 (FB i0 i1)) else s.

Lemma cell_ok fa fb s i0 i1 : 0 <= i0 < n0 -> 0 <= i1 < n1 -> fa i0 i1 = Ok (FA i0 i1) /\ fb i0 i1 = Ok (FB i0 i1) ->
  cell n0 n1 nn fa fb s (i0, i1) = Ok (wr s (i0, i1)).
Proof.
  intros I0 I1 [Ea Eb]. unfold cell. rewrite get_ok by assumption. cbn [bind]. unfold wr. destruct (nn i0 i1); [|reflexivity].
  rewrite Ea, Eb. cbn [bind]. rewrite set_ok by assumption. cbn [bind]. rewrite set_ok by assumption. reflexivity.
Qed.

Lemma for_wr {X} (f : @st T -> X -> result st) (pos : X -> Z * Z) l s :
  (forall x s, In x l -> f s x = Ok (wr s (pos x))) -> py_for f l s = Ok (fold_left wr (map pos l) s).
Proof.
  revert s. induction l as [|x l IH]; intros s H; [reflexivity|]. cbn [py_for map fold_left].
  rewrite H by (left; reflexivity). apply IH. intros; apply H; right; assumption.
Qed.
Lemma for_for {X} (f : @st T -> X -> result st) (ps : X -> list (Z * Z)) l s :
  (forall x s, In x l -> f s x = Ok (fold_left wr (ps x) s)) -> py_for f l s = Ok (fold_left wr (flat_map ps l) s).
Proof.
  revert s. induction l as [|x l IH]; intros s H; [reflexivity|]. cbn [py_for flat_map].
  rewrite H by (left; reflexivity). rewrite fold_left_app. apply IH. intros; apply H; right; assumption.
Qed.

Definition right_at (s : @st T) (p : Z * Z) : Prop := fst s (fst p) (snd p) = FA (fst p) (snd p) /\ snd s (fst p) (snd p) = FB (fst p) (snd p).
Lemma wr_right s p q : nn (fst q) (snd q) = true -> p = q \/ right_at s q -> right_at (wr s p) q.
Proof.
  destruct p as [i0 i1], q as [j0 j1]. cbn [fst snd]. intros Hn H. unfold wr, right_at in *. cbn [fst snd] in *.
  destruct (nn i0 i1) eqn:En.
  - cbn [fst snd]. unfold upd. destruct ((j0 =? i0) && (j1 =? i1)) eqn:E.
    + assert (j0 = i0 /\ j1 = i1) as [-> ->] by lia. split; reflexivity.
    + destruct H as [H|H]; [|exact H]. exfalso. inversion H; subst. lia.
  - destruct H as [H|H]; [|exact H]. inversion H; subst. congruence.
Qed.
Lemma fold_right_at l : forall s q, nn (fst q) (snd q) = true -> In q l \/ right_at s q -> right_at (fold_left wr l s) q.
Proof.
  induction l as [|p l IH]; intros s q Hn H; cbn [fold_left].
  - destruct H as [[]|H]; exact H.
  - apply IH; [exact Hn|]. destruct H as [[H|H]|H].
    + right. apply wr_right; [exact Hn|left; exact H].
    + left. exact H.
    + right. apply wr_right; [exact Hn|right; exact H].
Qed.

Lemma inner_In n x : In x (inner n) <-> 1 <= x < n - 1.
Proof. apply range1_In. Qed.

Lemma sums_ok : exists s, sums zero add n0 n1 a nn = Ok s /\ forall q, inside n0 n1 q -> nn (fst q) (snd q) = true -> right_at s q.
Proof.
  unfold sums.
  rewrite cell_ok by (try lia; apply corner_a; lia). cbn [bind].
  rewrite cell_ok by (try lia; apply corner_a; lia). cbn [bind].
  rewrite cell_ok by (try lia; apply corner_a; lia). cbn [bind].
  rewrite cell_ok by (try lia; apply corner_a; lia). cbn [bind].
  rewrite (for_wr _ (fun i1 => (0, i1))).
  2:{ intros x s Hx. apply inner_In in Hx. apply cell_ok; [lia|lia|]. apply row_a; lia. }
  cbn [bind]. rewrite (for_wr _ (fun i1 => (n0 - 1, i1))).
  2:{ intros x s Hx. apply inner_In in Hx. apply cell_ok; [lia|lia|]. apply row_a; lia. }
  cbn [bind]. rewrite (for_wr _ (fun i0 => (i0, 0))).
  2:{ intros x s Hx. apply inner_In in Hx. apply cell_ok; [lia|lia|]. apply col_a; lia. }
  cbn [bind]. rewrite (for_wr _ (fun i0 => (i0, n1 - 1))).
  2:{ intros x s Hx. apply inner_In in Hx. apply cell_ok; [lia|lia|]. apply col_a; lia. }
  cbn [bind]. rewrite (for_for _ (fun i0 => map (fun i1 => (i0, i1)) (inner n1))).
  2:{ intros x s Hx. apply inner_In in Hx. apply for_wr. intros y s' Hy. apply inner_In in Hy.
      apply cell_ok; [lia|lia|]. apply core_a; lia. }
  eexists. split; [reflexivity|]. intros [q0 q1] [Q0 Q1] Hn. cbn [fst snd] in *.
  apply fold_right_at; [exact Hn|].
  assert (C : 1 <= q0 < n0 - 1 /\ 1 <= q1 < n1 - 1 \/ ~ (1 <= q0 < n0 - 1 /\ 1 <= q1 < n1 - 1)) by lia. destruct C as [C|C].
  { left. apply in_flat_map. exists q0. split; [apply inner_In; lia|]. apply in_map. apply inner_In. lia. }
  right. apply fold_right_at; [exact Hn|].
  assert (D : 1 <= q0 < n0 - 1 /\ q1 = n1 - 1 \/ ~ (1 <= q0 < n0 - 1 /\ q1 = n1 - 1)) by lia. destruct D as [[D E]|D].
  { left. subst q1. apply (in_map (fun i0 => (i0, n1 - 1))). apply inner_In. lia. }
  right. apply fold_right_at; [exact Hn|].
  assert (D' : 1 <= q0 < n0 - 1 /\ q1 = 0 \/ ~ (1 <= q0 < n0 - 1 /\ q1 = 0)) by lia. destruct D' as [[D' E]|D'].
  { left. subst q1. apply (in_map (fun i0 => (i0, 0))). apply inner_In. lia. }
  right. apply fold_right_at; [exact Hn|].
  assert (D2 : 1 <= q1 < n1 - 1 /\ q0 = n0 - 1 \/ ~ (1 <= q1 < n1 - 1 /\ q0 = n0 - 1)) by lia. destruct D2 as [[D2 E]|D2].
  { left. subst q0. apply (in_map (fun i1 => (n0 - 1, i1))). apply inner_In. lia. }
  right. apply fold_right_at; [exact Hn|].
  assert (D3 : 1 <= q1 < n1 - 1 /\ q0 = 0 \/ ~ (1 <= q1 < n1 - 1 /\ q0 = 0)) by lia. destruct D3 as [[D3 E]|D3].
  { left. subst q0. apply (in_map (fun i1 => (0, i1))). apply inner_In. lia. }
  right.
  assert (Q : (n0 - 1, n1 - 1) = (q0, q1) \/ (n0 - 1, 0) = (q0, q1) \/ (0, n1 - 1) = (q0, q1) \/ (0, 0) = (q0, q1)).
  { assert (q0 = 0 \/ q0 = n0 - 1) by lia. assert (q1 = 0 \/ q1 = n1 - 1) by lia.
    destruct H as [-> | ->], H2 as [-> | ->]; tauto. }
  apply wr_right; [exact Hn|]. destruct Q as [Q|Q]; [left; exact Q|right].
  apply wr_right; [exact Hn|]. destruct Q as [Q|Q]; [left; exact Q|right].
  apply wr_right; [exact Hn|]. destruct Q as [Q|Q]; [left; exact Q|right].
  apply wr_right; [exact Hn|]. left; exact Q.
Qed.

(** pointwise nested loops *)
Lemma nested_loop {B} (body : (Z -> Z -> B) -> Z -> Z -> result (Z -> Z -> B)) (F : Z -> Z -> B) init :
  (forall out i0 i1, 0 <= i0 < n0 -> 0 <= i1 < n1 -> body out i0 i1 = Ok (upd out i0 i1 (F i0 i1))) ->
  exists out, py_for (fun out i0 => py_for (fun out i1 => body out i0 i1) (range0 n1) out) (range0 n0) init = Ok out /\
    forall i0 i1, 0 <= i0 < n0 -> 0 <= i1 < n1 -> out i0 i1 = F i0 i1.
Proof.
  intros Hb.
  assert (In1 : forall l out i0, 0 <= i0 < n0 -> (forall x, In x l -> 0 <= x < n1) ->
     exists out', py_for (fun out i1 => body out i0 i1) l out = Ok out' /\
       (forall i1, In i1 l -> out' i0 i1 = F i0 i1) /\ (forall j0 j1, out j0 j1 = F j0 j1 -> out' j0 j1 = F j0 j1)).
  { induction l as [|x l IH]; intros out i0 I0 Hl.
    - exists out. split; [reflexivity|]. split; [intros ? []|auto].
    - cbn [py_for]. rewrite Hb by (try apply Hl; try left; auto).
      destruct (IH (upd out i0 x (F i0 x)) i0 I0) as (out' & E & P1 & P2); [intros; apply Hl; right; assumption|].
      exists out'. split; [exact E|]. split.
      + intros i1 [->|Hi]; [|apply P1; exact Hi]. apply P2. unfold upd. rewrite !Z.eqb_refl. reflexivity.
      + intros j0 j1 Hj. apply P2. unfold upd. destruct ((j0 =? i0) && (j1 =? x)) eqn:E1; [|exact Hj].
        assert (j0 = i0 /\ j1 = x) as [-> ->] by lia. reflexivity. }
  assert (Out : forall l out, (forall x, In x l -> 0 <= x < n0) ->
     exists out', py_for (fun out i0 => py_for (fun out i1 => body out i0 i1) (range0 n1) out) l out = Ok out' /\
       (forall i0 i1, In i0 l -> 0 <= i1 < n1 -> out' i0 i1 = F i0 i1) /\ (forall j0 j1, out j0 j1 = F j0 j1 -> out' j0 j1 = F j0 j1)).
  { induction l as [|x l IH]; intros out Hl.
    - exists out. split; [reflexivity|]. split; [intros ? ? []|auto].
    - cbn [py_for]. destruct (In1 (range0 n1) out x) as (o1 & E1 & P1 & P2).
      { apply Hl. left. reflexivity. } { intros y Hy. apply range0_In. exact Hy. }
      rewrite E1. destruct (IH o1) as (o2 & E2 & Q1 & Q2); [intros; apply Hl; right; assumption|].
      exists o2. split; [exact E2|]. split.
      + intros i0 i1 [->|Hi] Hi1; [|apply Q1; assumption]. apply Q2, P1, range0_In. exact Hi1.
      + intros j0 j1 Hj. apply Q2, P2, Hj. }
  destruct (Out (range0 n0) init) as (out & E & P & _); [intros x Hx; apply range0_In; exact Hx|].
  exists out. split; [exact E|]. intros i0 i1 I0 I1. apply P; [apply range0_In; exact I0|exact I1].
Qed.

Lemma mean_ok : exists out, mean_neighbors zero add divc n0 n1 a nn = Ok out /\
  forall i0 i1, 0 <= i0 < n0 -> 0 <= i1 < n1 ->
    out i0 i1 = if (negb (nn i0 i1) || (FB i0 i1 =? 0))%bool then None else Some (divc (FA i0 i1) (FB i0 i1)).
Proof.
  unfold mean_neighbors. destruct sums_ok as (s & -> & Hs). cbn [bind]. unfold normalize.
  apply (nested_loop (fun out i0 i1 => do nn <- get n0 n1 nn i0 i1 ; do nb <- get n0 n1 (snd s) i0 i1 ;
      if (negb nn || (nb =? 0))%bool then set n0 n1 out i0 i1 None
      else do v <- get n0 n1 (fst s) i0 i1 ; set n0 n1 out i0 i1 (Some (divc v nb)))
    (fun i0 i1 => if (negb (nn i0 i1) || (FB i0 i1 =? 0))%bool then None else Some (divc (FA i0 i1) (FB i0 i1)))).
  intros out i0 i1 I0 I1. rewrite !get_ok by assumption. cbn [bind]. 
  destruct (nn i0 i1) eqn:En; cbn [negb orb].
  - destruct (Hs (i0, i1) (conj I0 I1) En) as [Ea Eb]. cbn [fst snd] in *. rewrite Ea, Eb.
    destruct (FB i0 i1 =? 0); rewrite set_ok by assumption; reflexivity.
  - rewrite set_ok by assumption. reflexivity.
Qed.

(** link with the specification *)
Definition val (p : Z * Z) : option T := if nn (fst p) (snd p) then Some (a (fst p) (snd p)) else None.

Lemma total_filter l : total zero add (map (fun p => a (fst p) (snd p)) l) =
  total zero add (map (fun p => a (fst p) (snd p)) (filter (fun p => nn (fst p) (snd p)) l)).
Proof.
  unfold total. induction l as [|p l IH]; [reflexivity|]. cbn [map fold_right filter].
  rewrite IH. destruct (nn (fst p) (snd p)) eqn:En; [reflexivity|]. rewrite (a_zero _ _ En). ring.
Qed.
Lemma count_filter l : zsum (map (fun p => arr_b nn (fst p) (snd p)) l) = zlen (filter (fun p => nn (fst p) (snd p)) l).
Proof.
  induction l as [|p l IH]; [reflexivity|]. cbn [map zsum fold_right filter]. fold (zsum (map (fun p => arr_b nn (fst p) (snd p)) l)).
  rewrite IH. unfold arr_b. destruct (nn (fst p) (snd p)); unfold zlen; cbn [List.length]; lia.
Qed.

Lemma around_In p q : In q (around p) <-> neighbour q p.
Proof.
  destruct p as [i0 i1], q as [j0 j1]. unfold around, neighbour. cbn [In fst snd]. split.
  - intros H. repeat destruct H as [H|H]; try contradiction; apply pair_equal_spec in H; destruct H; (split; [|lia]);
      intros E; apply pair_equal_spec in E; lia.
  - intros (Hne & A & B). assert (~ (j0 = i0 /\ j1 = i1)) by (intros [-> ->]; apply Hne; reflexivity).
    assert (j0 = i0 - 1 \/ j0 = i0 \/ j0 = i0 + 1) as [-> | [-> | ->]] by lia;
    assert (j1 = i1 - 1 \/ j1 = i1 \/ j1 = i1 + 1) as [-> | [-> | ->]] by lia; try tauto; lia.
Qed.
Lemma around_NoDup p : NoDup (around p).
Proof.
  destruct p as [i0 i1]. unfold around.
  repeat (constructor; [cbn [In]; intros H; repeat destruct H as [H|H]; try contradiction; apply pair_equal_spec in H; lia|]).
  constructor.
Qed.

Lemma mean_is_spec i0 i1 : 0 <= i0 < n0 -> 0 <= i1 < n1 ->
  mean_spec zero add divc n0 n1 val (i0, i1)
    (if (negb (nn i0 i1) || (FB i0 i1 =? 0))%bool then None else Some (divc (FA i0 i1) (FB i0 i1))).
Proof.
  intros I0 I1. set (l := filter (fun p => nn (fst p) (snd p)) (nbl (i0, i1))).
  exists l. split; [apply NoDup_filter, NoDup_filter, around_NoDup|]. split.
  { intros q. unfold l, nbl. rewrite !filter_In, around_In. unfold val, inside, inb.
    assert (Ev : (if nn (fst q) (snd q) then Some (a (fst q) (snd q)) else None) <> None <-> nn (fst q) (snd q) = true).
    { destruct (nn (fst q) (snd q)); split; intros; congruence. }
    rewrite Ev. rewrite !andb_true_iff, !Z.leb_le, !Z.ltb_lt. tauto. }
  exists (map (fun p => a (fst p) (snd p)) l). split.
  { rewrite map_map. apply map_ext_in. intros p Hp. apply filter_In in Hp. unfold val. destruct Hp as [_ ->]. reflexivity. }
  unfold val. cbn [fst snd]. destruct (nn i0 i1); cbn [negb orb]; [|reflexivity].
  unfold FA, FB. rewrite total_filter, count_filter. fold l. unfold average.
  replace (zlen (map (fun p => a (fst p) (snd p)) l)) with (zlen l) by (unfold zlen; rewrite map_length; reflexivity).
  destruct l; [reflexivity|]. destruct (zlen (p :: l) =? 0) eqn:E; [unfold zlen in E; cbn [List.length] in E; lia|reflexivity].
Qed.
End Array.

Lemma flatten_at {A} (f : Z -> Z -> A) i0 i1 d : 0 <= i0 < n0 -> 0 <= i1 < n1 ->
  nth (Z.to_nat (i0 * n1 + i1)) (flatten n0 n1 f) d = f i0 i1.
Proof.
  intros I0 I1. unfold flatten.
  assert (N : forall n k, 0 <= k < n -> nth_error (range0 n) (Z.to_nat k) = Some k).
  { intros n k Hk. unfold range0. rewrite nth_error_map, (nth_error_nth' _ 0%nat) by (rewrite seq_length; lia).
    rewrite seq_nth by lia. cbn. f_equal. lia. }
  replace (Z.to_nat (i0 * n1 + i1)) with (Z.to_nat i0 * Z.to_nat n1 + Z.to_nat i1)%nat by nia.
  apply nth_error_nth. rewrite (nth_error_flat_map _ _ (Z.to_nat n1) ) with (a := i0).
  - rewrite nth_error_map, N by assumption. reflexivity.
  - intros x _. rewrite map_length. unfold range0. rewrite map_length, seq_length. reflexivity.
  - apply N. assumption.
  - lia.
Qed.
Lemma flatten_zlen {A} (f : Z -> Z -> A) : zlen (flatten n0 n1 f) = n0 * n1.
Proof.
  unfold zlen, flatten. assert (E : forall l, List.length (flat_map (fun i0 => map (fun i1 => f i0 i1) (range0 n1)) l) = (List.length l * Z.to_nat n1)%nat).
  { induction l as [|x l IH]; [reflexivity|]. cbn [flat_map List.length]. rewrite app_length, IH, map_length. unfold range0.
    rewrite map_length, seq_length. lia. }
  rewrite E. unfold range0. rewrite map_length, seq_length. nia.
Qed.

(** Values of a flat array at a point of the grid; a vector is NaN if one of its two components is NaN. *)
Definition at_grid (l : list (option T)) (p : Z * Z) : option T := nth (Z.to_nat (fst p * n1 + snd p)) l None.
Definition comp_x (xs ys : list (option T)) (p : Z * Z) : option T :=
  match at_grid xs p, at_grid ys p with Some x, Some _ => Some x | _, _ => None end.
Definition comp_y (xs ys : list (option T)) (p : Z * Z) : option T :=
  match at_grid xs p, at_grid ys p with Some _, Some y => Some y | _, _ => None end.

Lemma mean_spec_ext v w p out : (forall q, v q = w q) -> mean_spec zero add divc n0 n1 v p out -> mean_spec zero add divc n0 n1 w p out.
Proof.
  intros E (l & Hd & Hl & ts & Ht & Ho). exists l. split; [exact Hd|]. split.
  - intros q. rewrite Hl, E. reflexivity.
  - exists ts. rewrite <- E. split; [|exact Ho]. rewrite <- Ht. apply map_ext. intros; symmetry; apply E.
Qed.

(** C34 *)
Theorem C34_mean xs ys :
  zlen xs = n0 * n1 -> zlen ys = n0 * n1 ->
  exists mx my, mean_neighbors_xy zero add divc n0 n1 xs ys = Ok (mx, my) /\
    zlen mx = n0 * n1 /\ zlen my = n0 * n1 /\
    forall p, inside n0 n1 p ->
      mean_spec zero add divc n0 n1 (comp_x xs ys) p (at_grid mx p) /\
      mean_spec zero add divc n0 n1 (comp_y xs ys) p (at_grid my p).
Proof.
  intros Lx Ly.
  set (nn := fun i0 i1 => match nth (Z.to_nat (i0 * n1 + i1)) xs None, nth (Z.to_nat (i0 * n1 + i1)) ys None with Some _, Some _ => true | _, _ => false end).
  set (x0 := fun i0 i1 => if nn i0 i1 then match nth (Z.to_nat (i0 * n1 + i1)) xs None with Some v => v | None => zero end else zero).
  set (y0 := fun i0 i1 => if nn i0 i1 then match nth (Z.to_nat (i0 * n1 + i1)) ys None with Some v => v | None => zero end else zero).
  assert (X0 : forall i0 i1, nn i0 i1 = false -> x0 i0 i1 = zero) by (intros i0 i1 E; unfold x0; rewrite E; reflexivity).
  assert (Y0 : forall i0 i1, nn i0 i1 = false -> y0 i0 i1 = zero) by (intros i0 i1 E; unfold y0; rewrite E; reflexivity).
  destruct (mean_ok x0 nn X0) as (mx & Ex & Hx). destruct (mean_ok y0 nn Y0) as (my & Ey & Hy).
  assert (E : mean_neighbors_xy zero add divc n0 n1 xs ys = Ok (flatten n0 n1 mx, flatten n0 n1 my)).
  { unfold mean_neighbors_xy, reshape. rewrite Lx, Ly, Z.eqb_refl. cbn [bind].
    change ((do mx <- mean_neighbors zero add divc n0 n1 x0 nn ; do my <- mean_neighbors zero add divc n0 n1 y0 nn ;
             Ok (flatten n0 n1 mx, flatten n0 n1 my)) = Ok (flatten n0 n1 mx, flatten n0 n1 my)).
    rewrite Ex. cbn [bind]. rewrite Ey. reflexivity. }
  exists (flatten n0 n1 mx), (flatten n0 n1 my). split; [exact E|]. split; [apply flatten_zlen|]. split; [apply flatten_zlen|].
  intros [i0 i1] [I0 I1]. cbn [fst snd] in *. split.
  - unfold at_grid. cbn [fst snd]. rewrite flatten_at, Hx by assumption.
    apply (mean_spec_ext (val x0 nn)); [|apply mean_is_spec; assumption].
    intros [q0 q1]. unfold val, comp_x, at_grid, x0, nn. cbn [fst snd].
    destruct (nth (Z.to_nat (q0 * n1 + q1)) xs None), (nth (Z.to_nat (q0 * n1 + q1)) ys None); reflexivity.
  - unfold at_grid. cbn [fst snd]. rewrite flatten_at, Hy by assumption.
    apply (mean_spec_ext (val y0 nn)); [|apply mean_is_spec; assumption].
    intros [q0 q1]. unfold val, comp_y, at_grid, y0, nn. cbn [fst snd].
    destruct (nth (Z.to_nat (q0 * n1 + q1)) xs None), (nth (Z.to_nat (q0 * n1 + q1)) ys None); reflexivity.
Qed.
End Proofs.

(** Grids with only one line (or one column): reading the line after the first one fails. *)
Theorem C34_one_line_error {T} (zero : T) add divc n0 n1 xs ys x y :
  n0 = 1 /\ 1 <= n1 \/ n1 = 1 /\ 2 <= n0 -> zlen xs = n0 * n1 -> zlen ys = n0 * n1 ->
  nth_error xs 0 = Some (Some x) -> nth_error ys 0 = Some (Some y) ->
  mean_neighbors_xy zero add divc n0 n1 xs ys = Err IndexError.
Proof.
  intros Hn Lx Ly Ex Ey. unfold mean_neighbors_xy, reshape. rewrite Lx, Ly, Z.eqb_refl. cbn [bind].
  unfold mean_neighbors at 1, sums at 1, cell at 1.
  assert (I0 : index n0 0 = Ok 0) by (unfold index; destruct (0 <? n0) eqn:E; [reflexivity|lia]).
  assert (I1 : index n1 0 = Ok 0) by (unfold index; destruct (0 <? n1) eqn:E; [reflexivity|lia]).
  unfold get at 1. rewrite I0, I1. cbn [bind]. change (Z.to_nat (0 * n1 + 0)) with 0%nat.
  rewrite (nth_error_nth _ _ _ Ex), (nth_error_nth _ _ _ Ey). cbv iota. cbn [bind].
  unfold corner at 1. change (0 + 1) with 1.
  assert (E : forall {A} (f : Z -> Z -> A) (k : A -> A -> result T),
     (do u <- get n0 n1 f 1 0; do v <- get n0 n1 f 1 1 ; k u v) = Err IndexError).
  { intros A f k. destruct Hn as [[-> Hn]|[-> Hn]].
    - unfold get at 1, index at 1. cbn. reflexivity.
    - unfold get. assert (J : index n0 1 = Ok 1) by (unfold index; destruct (1 <? n0) eqn:E1; [reflexivity|lia]).
      rewrite J. cbn. reflexivity. }
  rewrite (E _ _ (fun a b => do c <- get n0 n1 _ 0 1; Ok (add (add a b) c))). reflexivity.
Qed.

Example C34_example : exists mx my,
  mean_neighbors_xy 0 Z.add Z.div 2 3 [Some 6; None; Some 4; Some 9; Some 12; Some 1] [Some 0; Some 1; Some 2; Some 3; None; Some 5]
  = Ok (mx, my) /\ mx = [Some 9; None; Some 1; Some 6; None; Some 4] /\ my = [Some 3; None; Some 5; Some 0; None; Some 2].
Proof. eexists _, _. split; [vm_compute; reflexivity|]. split; reflexivity. Qed.

Print Assumptions C34_mean.
Print Assumptions C34_one_line_error.

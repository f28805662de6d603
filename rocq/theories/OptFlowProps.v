(** Property C95: vectors given by the optical flow. *)
From Coq Require Import Reals Lra.
From Verif Require Import PyBase PivPassModel OptFlowModel.
Local Open Scope R_scope.

(** *** Specification *)

(** distance along the axes of the position found by tracking back *)
Definition round_trip_ok (threshold : R) (p back : point) : Prop :=
  Rabs (fst p - fst back) < threshold /\ Rabs (snd p - snd back) < threshold.
Definition euclid (p q : point) : R := sqrt ((fst q - fst p) * (fst q - fst p) + (snd q - snd p) * (snd q - snd p)).
(** the documented filter: vectors smaller than the minimum or larger than the maximum are wrong *)
Definition documented (vmin vmax : option R) (n : R) : Prop :=
  match vmin with None => True | Some v => v <= n end /\ match vmax with None => True | Some v => n <= v end.
(** the filter applied: strict comparisons, with a minimum equal to zero if only the maximum is given *)
Definition applied (vmin vmax : option R) (n : R) : Prop :=
  match vmin, vmax with
  | None, None => True
  | Some a, None => a < n
  | None, Some b => 0 < n /\ n < b
  | Some a, Some b => a < n /\ n < b
  end.

(** sub-list of the elements which satisfy [P], in the same order *)
Inductive sub_list {A} (P : A -> Prop) : list A -> list A -> Prop :=
| sub_nil : sub_list P [] []
| sub_keep x l m : P x -> sub_list P l m -> sub_list P (x :: l) (x :: m)
| sub_drop x l m : ~ P x -> sub_list P l m -> sub_list P (x :: l) m.

(** *** Lemmas *)
Lemma Rltb_iff a b : Rltb a b = true <-> a < b.
Proof. unfold Rltb. destruct (Rlt_dec a b); split; auto; discriminate. Qed.

Lemma select_filter {A B} (f : A -> B) (ok : A -> bool) l : select (map ok l) (map f l) = Ok (map f (filter ok l)).
Proof. induction l as [|x l IH]; [reflexivity|]. cbn [map select filter]. rewrite IH. cbn [bind]. destruct (ok x); reflexivity. Qed.

Lemma sub_list_filter {A} (P : A -> Prop) (ok : A -> bool) l : (forall x, ok x = true <-> P x) -> sub_list P l (filter ok l).
Proof.
  intros H. induction l as [|x l IH]; [constructor|]. cbn. destruct (ok x) eqn:E.
  - constructor; [apply H, E|exact IH].
  - constructor; [intros Q; apply H in Q; congruence|exact IH].
Qed.

Lemma filter_filter {A} (f g : A -> bool) l : filter g (filter f l) = filter (fun x => f x && g x) l.
Proof. induction l as [|x l IH]; [reflexivity|]. cbn. destruct (f x); cbn; rewrite IH; reflexivity. Qed.

Section Flow.
Context {I : Type}.
Variable good_features : I -> option (list point).
Variable track : I -> I -> list point -> list (point * bool).
Local Notation optical_flow := (optical_flow good_features track).
Local Notation calcul_flow := (calcul_flow good_features track).

(** a feature, its position in the second image and the position found by tracking back *)
Record tracked := mk_tracked { t_start : point; t_end : point; t_back : point; t_found : bool }.
Definition follow (im0 im1 : I) (starts : list point) : list tracked :=
  let fwd := track im0 im1 starts in
  let bwd := track im1 im0 (map fst fwd) in
  map (fun '(p, (q, r)) => mk_tracked p (fst q) (fst r) (snd q)) (combine starts (combine fwd bwd)).

Definition kept (threshold : R) (vmin vmax : option R) (t : tracked) : Prop :=
  round_trip_ok threshold (t_start t) (t_back t) /\ applied vmin vmax (euclid (t_start t) (t_end t)).

Hypothesis track_length : forall a b l, List.length (track a b l) = List.length l.

Lemma follow_columns im0 im1 starts :
  let ts := follow im0 im1 starts in
  let fwd := track im0 im1 starts in
  starts = map t_start ts /\ map fst fwd = map t_end ts /\ map fst (track im1 im0 (map fst fwd)) = map t_back ts.
Proof.
  cbv zeta. unfold follow. pose proof (track_length im0 im1 starts) as L1. pose proof (track_length im1 im0 (map fst (track im0 im1 starts))) as L2.
  rewrite map_length in L2. revert L1 L2. generalize (track im1 im0 (map fst (track im0 im1 starts))) as b. generalize (track im0 im1 starts) as f. clear.
  induction starts as [|p l IH]; intros [|q f] [|r b] L1 L2; try discriminate; [auto|]. cbn in L1, L2. injection L1 as L1. injection L2 as L2.
  destruct (IH f b L1 L2) as (E1 & E2 & E3). cbn [combine map t_start t_end t_back fst]. rewrite <- E1, <- E2, <- E3. auto.
Qed.

Definition okb (threshold : R) (vmin vmax : option R) (t : tracked) : bool :=
  Rltb (diff_max (t_start t) (t_back t)) threshold &&
  match vmin, vmax with
  | None, None => true
  | _, _ => Rltb (match vmin with None => 0 | Some v => v end) (norm (psub (t_end t) (t_start t))) && below vmax (norm (psub (t_end t) (t_start t)))
  end.

Lemma norm_euclid p q : norm (psub q p) = euclid p q.
Proof. unfold norm, psub, euclid. cbn [fst snd]. f_equal. ring. Qed.

Lemma okb_kept threshold vmin vmax t : okb threshold vmin vmax t = true <-> kept threshold vmin vmax t.
Proof.
  unfold okb, kept, round_trip_ok, applied, diff_max. rewrite andb_true_iff, Rltb_iff, norm_euclid.
  assert (M : forall a b c, Rmax a b < c <-> a < c /\ b < c) by (intros a b c; unfold Rmax; destruct (Rle_dec a b); split; lra).
  rewrite M. unfold below. destruct vmin, vmax; rewrite ?andb_true_iff, ?Rltb_iff; tauto.
Qed.

Lemma flow_eq im0 im1 threshold vmin vmax starts : good_features im0 = Some starts ->
  optical_flow im0 im1 threshold vmin vmax =
  let l := filter (okb threshold vmin vmax) (follow im0 im1 starts) in
  Ok (map t_start l, map (fun t => psub (t_end t) (t_start t)) l).
Proof.
  intros G. unfold OptFlowModel.optical_flow. rewrite G. destruct (follow_columns im0 im1 starts) as (E1 & E2 & E3).
  cbv zeta. rewrite E3, E2. set (ts := follow im0 im1 starts) in *. clearbody ts. rewrite E1. clear E1 E2 E3. unfold map2.
  assert (CM : forall A B D (f : A -> B) (g : A -> D) l, combine (map f l) (map g l) = map (fun x => (f x, g x)) l).
  { intros A B D f g l. induction l as [|x l IH]; [reflexivity|]. cbn. rewrite IH. reflexivity. }
  rewrite !CM, !map_map, !select_filter. cbn [bind]. unfold okb.
  set (f1 := fun t => Rltb (diff_max (t_start t) (t_back t)) threshold).
  assert (S2 : forall ok : point -> bool, 
    (do positions <- select (map ok (map (fun x => psub (t_end x) (t_start x)) (filter f1 ts))) (map t_start (filter f1 ts)) ;
     do displacements <- select (map ok (map (fun x => psub (t_end x) (t_start x)) (filter f1 ts))) (map (fun x => psub (t_end x) (t_start x)) (filter f1 ts)) ;
     Ok (positions, displacements)) =
    Ok (map t_start (filter (fun t => f1 t && ok (psub (t_end t) (t_start t))) ts), map (fun x => psub (t_end x) (t_start x)) (filter (fun t => f1 t && ok (psub (t_end t) (t_start t))) ts))).
  { intros ok. rewrite map_map, !select_filter. cbn [bind]. rewrite filter_filter. reflexivity. }
  destruct vmin as [a|], vmax as [b|]; [apply (S2 (fun d => Rltb a (norm d) && below (Some b) (norm d)))|apply (S2 (fun d => Rltb a (norm d) && below None (norm d)))|
    apply (S2 (fun d => Rltb 0 (norm d) && below (Some b) (norm d)))|].
  f_equal. f_equal; f_equal; apply filter_ext; intros t; rewrite andb_true_r; reflexivity.
Qed.

(** ** Theorems *)

(** The vectors of the result are exactly the features which pass the filters, in the order of the features; each one has the
    position of its feature (in the original image) and its own displacement. *)
Theorem C95_vectors : forall offx offy im0 im1 threshold vmin vmax starts, good_features im0 = Some starts ->
  exists l, sub_list (kept threshold vmin vmax) (follow im0 im1 starts) l /\
  calcul_flow offx offy im0 im1 threshold vmin vmax =
  Ok ((map (fun t => fst (t_start t) + IZR offx) l, map (fun t => snd (t_start t) + IZR offy) l),
      (map (fun t => fst (t_end t) - fst (t_start t)) l, map (fun t => snd (t_end t) - snd (t_start t)) l)).
Proof.
  intros offx offy im0 im1 threshold vmin vmax starts G. unfold OptFlowModel.calcul_flow. rewrite (flow_eq _ _ _ _ _ _ G). cbv zeta. cbn [bind].
  exists (filter (okb threshold vmin vmax) (follow im0 im1 starts)). split; [apply sub_list_filter, okb_kept|].
  rewrite !map_map. reflexivity.
Qed.

(** Without any feature to track there is no result but an exception. *)
Theorem C95_no_feature_refuted : forall offx offy im0 im1 threshold vmin vmax, good_features im0 = None ->
  calcul_flow offx offy im0 im1 threshold vmin vmax = Err CvError.
Proof. intros. unfold OptFlowModel.calcul_flow, OptFlowModel.optical_flow. rewrite H. reflexivity. Qed.
End Flow.
Print Assumptions C95_vectors.

(** The filter on the displacements is the documented one, except for the displacements equal to one of the two bounds and,
    when only the maximum is given, for the motionless features (exact characterisation). *)
Theorem C95_filter_iff : forall vmin vmax n, 0 <= n ->
  (applied vmin vmax n <-> documented vmin vmax n) <->
  ((vmin = None /\ vmax = None) \/ ~ documented vmin vmax n \/
   (match vmin with Some a => n <> a | None => n <> 0 end /\ match vmax with Some b => n <> b | None => True end)).
Proof.
  intros vmin vmax n Hn. unfold applied, documented. destruct vmin as [a|], vmax as [b|].
  - split.
    + intros H. right. destruct (Req_dec n a) as [->|Na]; [left; intros D; apply H in D; lra|].
      destruct (Req_dec n b) as [->|Nb]; [left; intros D; apply H in D; lra|]. right. split; assumption.
    + intros [(E & _)|[N|(N1 & N2)]]; [discriminate| |]; split; intros Q; try lra; exfalso; apply N; lra.
  - split.
    + intros H. right. destruct (Req_dec n a) as [->|Na]; [left; intros D; apply H in D; lra|]. right. split; [assumption|exact I].
    + intros [(E & _)|[N|(N1 & N2)]]; [discriminate| |]; split; intros Q; try lra; exfalso; apply N; lra.
  - split.
    + intros H. right. destruct (Req_dec n 0) as [->|Na]; [left; intros D; apply H in D; lra|].
      destruct (Req_dec n b) as [->|Nb]; [left; intros D; apply H in D; lra|]. right. split; assumption.
    + intros [(_ & E)|[N|(N1 & N2)]]; [discriminate| |]; split; intros Q; try lra; exfalso; apply N; lra.
  - split; [auto|]. tauto.
Qed.
Print Assumptions C95_filter_iff.

(** With only a maximum, a motionless feature is removed. *)
Theorem C95_motionless_refuted : forall vmax, 0 < vmax -> documented None (Some vmax) 0 /\ ~ applied None (Some vmax) 0.
Proof. intros vmax H. unfold documented, applied. split; [split; [exact I|lra]|lra]. Qed.
Print Assumptions C95_motionless_refuted.

(** A feature for which the flow has not been found (status 0) is in the result as the others, if tracking back from the
    position given gives the first position again. *)
Theorem C95_lost_refuted : forall (p q : point) threshold, 0 < threshold ->
  let track := fun (a b : nat) (l : list point) => match a with O => map (fun _ => (q, false)) l | _ => map (fun _ => (p, true)) l end in
  calcul_flow (fun _ => Some [p]) track 0 0 0%nat 1%nat threshold None None =
  Ok (([fst p + 0], [snd p + 0]), ([fst q - fst p], [snd q - snd p])).
Proof.
  intros p q threshold H track.
  destruct (C95_vectors (fun _ : nat => Some [p]) track) with (offx := 0%Z) (offy := 0%Z) (im0 := 0%nat) (im1 := 1%nat) (threshold := threshold) (vmin := @None R) (vmax := @None R) (starts := [p])
    as (l & S & E); [intros [|a] b l; cbn; apply map_length|reflexivity|].
  rewrite E. change (follow track 0%nat 1%nat [p]) with [mk_tracked p q p false] in S.
  assert (K : kept threshold None None (mk_tracked p q p false)).
  { unfold kept, round_trip_ok, applied. cbn. rewrite !Rminus_diag_eq, Rabs_R0 by reflexivity. auto. }
  inversion S as [|x l0 m K0 S0|x l0 m K0 S0]; subst; [|contradiction]. inversion S0; subst. reflexivity.
Qed.
Print Assumptions C95_lost_refuted.
Print Assumptions C95_no_feature_refuted.

(** two features, the second one is not found again *)
Definition ex_track (a b : nat) (l : list point) : list (point * bool) :=
  match a with O => map (fun p => ((fst p + 3, snd p + 4), true)) l
             | _ => map (fun p => ((fst p - 3, if Rlt_dec (snd p) 10 then snd p - 4 else snd p), true)) l end.
Example C95_example : (forall a b l, List.length (ex_track a b l) = List.length l) /\
  calcul_flow (fun _ => Some [(1, 2); (5, 20)]) ex_track 10 20 0%nat 1%nat 1 (Some 4) (Some 6) = Ok (([1 + 10], [2 + 20]), ([1 + 3 - 1], [2 + 4 - 2])).
Proof.
  assert (T : forall a b l, List.length (ex_track a b l) = List.length l) by (intros [|a] b l; apply map_length). split; [exact T|].
  destruct (C95_vectors (fun _ : nat => Some [(1, 2); (5, 20)]) ex_track T 10%Z 20%Z 0%nat 1%nat 1 (Some 4) (Some 6) [(1, 2); (5, 20)] eq_refl) as (l & S & E).
  rewrite E. unfold follow, ex_track in S. cbn [map combine fst snd] in S. destruct (Rlt_dec (2 + 4) 10) as [L1|L1]; [|lra]. destruct (Rlt_dec (20 + 4) 10) as [L2|L2]; [lra|].
  assert (K1 : kept 1 (Some 4) (Some 6) (mk_tracked (1, 2) (1 + 3, 2 + 4) (1 + 3 - 3, 2 + 4 - 4) true)).
  { unfold kept, round_trip_ok, applied, euclid. cbn [t_start t_end t_back fst snd].
    replace (1 - (1 + 3 - 3)) with 0 by ring. replace (2 - (2 + 4 - 4)) with 0 by ring. rewrite Rabs_R0.
    replace ((1 + 3 - 1) * (1 + 3 - 1) + (2 + 4 - 2) * (2 + 4 - 2)) with (5 * 5) by ring. rewrite sqrt_square by lra. lra. }
  assert (K2 : ~ kept 1 (Some 4) (Some 6) (mk_tracked (5, 20) (5 + 3, 20 + 4) (5 + 3 - 3, 20 + 4) true)).
  { unfold kept, round_trip_ok. cbn [t_start t_end t_back fst snd]. intros ((_ & Q) & _). replace (20 - (20 + 4)) with (- (4)) in Q by ring.
    rewrite Rabs_Ropp, Rabs_pos_eq in Q; lra. }
  inversion S as [|x l0 m K0 S0|x l0 m K0 S0]; subst; [|contradiction]. inversion S0 as [|x l0 m' K3 S3|x l0 m' K3 S3]; subst; [contradiction|].
  inversion S3; subst. reflexivity.
Qed.

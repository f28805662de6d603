(** C30: the peak of a correlation is its maximum. *)
From Verif Require Import PyBase CorrelModel CorrelProofs.
Local Open Scope Z_scope.

Section C30.
Context {T : Type}.
Variable leb : T -> T -> bool.
Hypothesis leb_total : forall a b, leb a b = true \/ leb b a = true.
Hypothesis leb_trans : forall a b c, leb a b = true -> leb b c = true -> leb a c = true.

(** Specification: (i0, i1) is the point of the maximum of the non NaN values of the array in the window
    [a0, b0) x [a1, b1); the last one in C order if there are several maxima. *)
Definition is_peak (n1 : Z) (c : arr2 T) (a0 b0 a1 b1 i0 i1 : Z) : Prop :=
  a0 <= i0 < b0 /\ a1 <= i1 < b1 /\
  exists v, at2 n1 c i0 i1 = Some v /\
    forall k0 k1 u, a0 <= k0 < b0 -> a1 <= k1 < b1 -> at2 n1 c k0 k1 = Some u ->
      leb u v = true /\ (before (i0, i1) (k0, k1) -> leb v u = false).

Definition all_nan (n1 : Z) (c : arr2 T) (a0 b0 a1 b1 : Z) : Prop :=
  forall k0 k1, a0 <= k0 < b0 -> a1 <= k1 < b1 -> at2 n1 c k0 k1 = None.

Definition on_border (n0 n1 i0 i1 : Z) : Prop := i0 = 0 \/ i0 = n0 - 1 \/ i1 = 0 \/ i1 = n1 - 1.
Definition nan_close (n1 : Z) (c : arr2 T) (i0 i1 : Z) : Prop :=
  exists k0 k1, i0 - 1 <= k0 <= i0 + 1 /\ i1 - 1 <= k1 <= i1 + 1 /\ at2 n1 c k0 k1 = None.

(** an array of shape (n0, n1) and a window inside it *)
Definition valid (n0 n1 : Z) (c : arr2 T) (a0 b0 a1 b1 : Z) : Prop :=
  zlen c = n0 * n1 /\ 0 < n1 /\ 0 <= a0 /\ b0 <= n0 /\ 0 <= a1 /\ b1 <= n1.

Lemma scan_peak n0 n1 c a0 b0 a1 b1 cmax :
  valid n0 n1 c a0 b0 a1 b1 ->
  exists m i0 i1, py_for (scan_body leb n0 n1 c) (window a0 b0 a1 b1) (cmax, 0, 0) = Ok (m, i0, i1) /\
    (is_peak n1 c a0 b0 a1 b1 i0 i1 \/
     (i0 = 0 /\ i1 = 0 /\ forall k0 k1 u, a0 <= k0 < b0 -> a1 <= k1 < b1 -> at2 n1 c k0 k1 = Some u -> leb cmax u = false)).
Proof.
  intros (Hl & Hn & H). 
  destruct (scan_spec leb leb_total leb_trans n0 n1 c (window a0 b0 a1 b1) cmax 0 0 Hl) as
    [[E Hs]|(l1 & i0 & i1 & l2 & v & El & Ev & E & _ & H1 & H2)].
  { intros i0 i1 Hi. apply window_In in Hi. lia. }
  - exists cmax, 0, 0. split; [exact E|]. right. split; [reflexivity|]. split; [reflexivity|].
    intros k0 k1 u K0 K1 Eu. apply (Hs k0 k1 u); [|exact Eu]. apply window_In. lia.
  - exists v, i0, i1. split; [exact E|]. left.
    assert (Hi : In (i0, i1) (window a0 b0 a1 b1)) by (rewrite El; apply in_or_app; right; left; reflexivity).
    apply window_In in Hi. split; [tauto|]. split; [tauto|]. exists v. split; [exact Ev|].
    intros k0 k1 u K0 K1 Eu.
    assert (Hk : In (k0, k1) (window a0 b0 a1 b1)) by (apply window_In; lia).
    pose proof (window_sorted a0 b0 a1 b1) as Ss. rewrite El in Ss, Hk.
    destruct (sorted_split _ _ _ _ Ss) as [S1 S2].
    apply in_app_or in Hk. destruct Hk as [Hk|[Hk|Hk]].
    + split; [eauto|]. intros B. specialize (S1 _ Hk). unfold before in *. cbn in *. lia.
    + inversion Hk; subst. rewrite Ev in Eu. inversion Eu; subst. split.
      * destruct (leb_total u u); assumption.
      * unfold before. cbn. lia.
    + specialize (H2 _ _ _ Hk Eu). split; [|auto]. destruct (leb_total u v); [assumption|congruence].
Qed.

Lemma indices_max_cases n0 n1 c a0 b0 a1 b1 :
  valid n0 n1 c a0 b0 a1 b1 ->
  nan_indices_max leb n0 n1 c a0 b0 a1 b1 = Err AssertionError \/
  exists i0 i1 msg cmax, nan_indices_max leb n0 n1 c a0 b0 a1 b1 = Ok (i0, i1, msg) /\
    first_non_nan (skipn (Z.to_nat (a0 * n1 + a1)) c) = Some cmax /\
    (is_peak n1 c a0 b0 a1 b1 i0 i1 \/
     (i0 = 0 /\ i1 = 0 /\ forall k0 k1 u, a0 <= k0 < b0 -> a1 <= k1 < b1 -> at2 n1 c k0 k1 = Some u -> leb cmax u = false)) /\
    match msg with
    | TouchBoundary => on_border n0 n1 i0 i1
    | TouchNan => ~ on_border n0 n1 i0 i1 /\ nan_close n1 c i0 i1
    | NoMessage => ~ on_border n0 n1 i0 i1 /\ ~ nan_close n1 c i0 i1
    end.
Proof.
  intros V. unfold nan_indices_max.
  destruct (first_non_nan _) as [cmax|] eqn:Ef; [|left; reflexivity].
  right. destruct (scan_peak n0 n1 c a0 b0 a1 b1 cmax V) as (m & i0 & i1 & E & Hp). rewrite E. cbn [bind].
  destruct ((i0 =? 0) || (i0 =? n0 - 1) || (i1 =? 0) || (i1 =? n1 - 1)) eqn:Hb.
  - exists i0, i1, TouchBoundary, cmax. repeat split; auto. unfold on_border. lia.
  - destruct V as (Hl & Hn & V).
    assert (B : 1 <= i0 < n0 - 1 /\ 1 <= i1 < n1 - 1).
    { destruct Hp as [(P0 & P1 & _)|(-> & -> & _)]; lia. }
    destruct (nan_around_ok n0 n1 c i0 i1 Hl) as (b & Eb & Hbb); try tauto. rewrite Eb. cbn [bind].
    exists i0, i1, (if b then TouchNan else NoMessage), cmax. repeat split; auto.
    assert (~ on_border n0 n1 i0 i1) by (unfold on_border; lia).
    destruct b; split; try assumption.
    + apply Hbb; reflexivity.
    + intros N. apply Hbb in N. discriminate.
Qed.

(** For any array, any position of the NaN and any window: a point which is not reported as touching the border of
    the correlation is the maximum of the window, a point reported with no error has no NaN around it. *)
Theorem C30_unflagged n0 n1 c a0 b0 a1 b1 i0 i1 msg :
  valid n0 n1 c a0 b0 a1 b1 ->
  nan_indices_max leb n0 n1 c a0 b0 a1 b1 = Ok (i0, i1, msg) -> msg <> TouchBoundary ->
  is_peak n1 c a0 b0 a1 b1 i0 i1 /\ ~ on_border n0 n1 i0 i1 /\ (msg = TouchNan <-> nan_close n1 c i0 i1).
Proof.
  intros V E Hm. destruct (indices_max_cases n0 n1 c a0 b0 a1 b1 V) as [E'|(j0 & j1 & m & cmax & E' & _ & Hp & Hf)];
    rewrite E in E'; inversion E'; subst.
  destruct m; try congruence; destruct Hf as [Hb Hf].
  - split; [|split; [exact Hb|split; [discriminate|tauto]]].
    destruct Hp as [Hp|(-> & -> & _)]; [exact Hp|]. exfalso. apply Hb. left; reflexivity.
  - split; [|split; [exact Hb|tauto]].
    destruct Hp as [Hp|(-> & -> & _)]; [exact Hp|]. exfalso. apply Hb. left; reflexivity.
Qed.

(** ... and what is reported as touching the border touches it. *)
Theorem C30_flagged n0 n1 c a0 b0 a1 b1 i0 i1 :
  valid n0 n1 c a0 b0 a1 b1 ->
  nan_indices_max leb n0 n1 c a0 b0 a1 b1 = Ok (i0, i1, TouchBoundary) -> on_border n0 n1 i0 i1.
Proof.
  intros V E. destruct (indices_max_cases n0 n1 c a0 b0 a1 b1 V) as [E'|(j0 & j1 & m & cmax & E' & _ & Hp & Hf)];
    rewrite E in E'; inversion E'; subst; exact Hf.
Qed.

(** When there is no value out of the window (the whole array, or the values out of the window are masked), either
    there is no value at all and this is an error, or the result is the maximum. *)
Theorem C30_maximum n0 n1 c a0 b0 a1 b1 :
  valid n0 n1 c a0 b0 a1 b1 ->
  (forall k0 k1 u, 0 <= k0 < n0 -> 0 <= k1 < n1 -> at2 n1 c k0 k1 = Some u -> a0 <= k0 < b0 /\ a1 <= k1 < b1) ->
  (all_nan n1 c 0 n0 0 n1 /\ nan_indices_max leb n0 n1 c a0 b0 a1 b1 = Err AssertionError) \/
  exists i0 i1 msg, nan_indices_max leb n0 n1 c a0 b0 a1 b1 = Ok (i0, i1, msg) /\ is_peak n1 c a0 b0 a1 b1 i0 i1 /\
    match msg with
    | TouchBoundary => on_border n0 n1 i0 i1
    | TouchNan => ~ on_border n0 n1 i0 i1 /\ nan_close n1 c i0 i1
    | NoMessage => ~ on_border n0 n1 i0 i1 /\ ~ nan_close n1 c i0 i1
    end.
Proof.
  intros V Hout. assert (V' := V). destruct V' as (Hl & Hn & HV).
  destruct (indices_max_cases n0 n1 c a0 b0 a1 b1 V) as [E'|(j0 & j1 & m & cmax & E' & Hf0 & Hp & Hf)].
  - left. split; [|exact E']. revert E'. unfold nan_indices_max.
    pose proof (first_non_nan_spec (skipn (Z.to_nat (a0 * n1 + a1)) c)) as F.
    destruct (first_non_nan _) as [cmax|].
    { destruct (scan_peak n0 n1 c a0 b0 a1 b1 cmax V) as (m & i0 & i1 & E & Hp). rewrite E. cbn [bind].
      destruct ((i0 =? 0) || (i0 =? n0 - 1) || (i1 =? 0) || (i1 =? n1 - 1)) eqn:Hb; [discriminate|].
      destruct (nan_around_ok n0 n1 c i0 i1 Hl) as (b & Eb & _);
        [destruct Hp as [(P0 & P1 & _)|(-> & -> & _)]; lia|destruct Hp as [(P0 & P1 & _)|(-> & -> & _)]; lia|].
      rewrite Eb. discriminate. }
    intros _ k0 k1 K0 K1. destruct (at2 n1 c k0 k1) as [u|] eqn:Eu; [|reflexivity]. exfalso.
    destruct (Hout k0 k1 u K0 K1 Eu) as [A0 A1].
    apply (F u). unfold at2 in Eu.
    assert (Hlt : (Z.to_nat (k0 * n1 + k1) < List.length c)%nat) by (unfold zlen in Hl; nia).
    assert (Hin : In (nth (Z.to_nat (k0 * n1 + k1) - Z.to_nat (a0 * n1 + a1)) (skipn (Z.to_nat (a0 * n1 + a1)) c) None)
                     (skipn (Z.to_nat (a0 * n1 + a1)) c)).
    { apply nth_In. rewrite skipn_length. nia. }
    assert (Hle : (Z.to_nat (a0 * n1 + a1) <= Z.to_nat (k0 * n1 + k1))%nat) by nia.
    rewrite <- (firstn_skipn (Z.to_nat (a0 * n1 + a1)) c) in Eu.
    rewrite app_nth2 in Eu; rewrite firstn_length_le in * by lia; [|lia]. rewrite Eu in Hin. exact Hin.
  - right. exists j0, j1, m. split; [exact E'|]. split; [|exact Hf].
    destruct Hp as [Hp|(-> & -> & Hs)]; [exact Hp|]. exfalso.
    pose proof (first_non_nan_spec (skipn (Z.to_nat (a0 * n1 + a1)) c)) as F. rewrite Hf0 in F.
    destruct F as (k & Hk).
    assert (Hk' : nth_error c (Z.to_nat (a0 * n1 + a1) + k) = Some (Some cmax)).
    { rewrite <- Hk. clear. revert c. induction (Z.to_nat (a0 * n1 + a1)) as [|m IH]; intros c; [reflexivity|].
      destruct c; cbn; [destruct k; reflexivity|apply IH]. }
    destruct (nth_at n0 n1 c _ _ Hn Hl Hk') as (k0 & k1 & K0 & K1 & _ & Ek).
    destruct (Hout k0 k1 cmax K0 K1 Ek) as [A0 A1].
    pose proof (Hs k0 k1 cmax A0 A1 Ek) as X. destruct (leb_total cmax cmax); congruence.
Qed.

Variable div : T -> T -> T.
Variable zero : T.

(** The search over the whole array (no maximal displacement). *)
Theorem C30_whole n0 n1 c norm :
  zlen c = n0 * n1 -> 0 < n1 ->
  (all_nan n1 c 0 n0 0 n1 /\ compute_indices_max leb div zero n0 n1 c norm ((0, None), (0, None)) = Failed AssertionError) \/
  exists i0 i1 v, is_peak n1 c 0 n0 0 n1 i0 i1 /\ at2 n1 c i0 i1 = Some v /\
    let m := Some (match norm with None => zero | Some n => div v n end) in
    (compute_indices_max leb div zero n0 n1 c norm ((0, None), (0, None)) = Found i1 i0 m /\
     ~ on_border n0 n1 i0 i1 /\ ~ nan_close n1 c i0 i1) \/
    (compute_indices_max leb div zero n0 n1 c norm ((0, None), (0, None)) = PivErr TouchBoundary i1 i0 m /\
     on_border n0 n1 i0 i1) \/
    (compute_indices_max leb div zero n0 n1 c norm ((0, None), (0, None)) = PivErr TouchNan i1 i0 m /\
     ~ on_border n0 n1 i0 i1 /\ nan_close n1 c i0 i1).
Proof.
  intros Hl Hn. unfold compute_indices_max.
  destruct (C30_maximum n0 n1 c 0 n0 0 n1) as [[A E]|(i0 & i1 & msg & E & P & F)].
  - repeat split; auto; lia.
  - intros; lia.
  - left. rewrite E. auto.
  - right. assert (P' := P). destruct P' as (P0 & P1 & v & Ev & _). exists i0, i1, v. split; [exact P|]. split; [exact Ev|].
    rewrite E.
    assert (G : get2 n0 n1 c i0 i1 = Ok (Some v)).
    { rewrite (get2_at n0 n1 c i0 i1 Hl) by lia. rewrite Ev. reflexivity. }
    cbv zeta. destruct norm as [n|]; [rewrite G|]; cbn [bind option_map]; destruct msg; tauto.
Qed.
End C30.

(** With a window which is not the one of the largest displacements, the first value used as a reference can be out
    of the window: the result is (0, 0), reported as touching the border, although the window has a maximum inside
    the array. *)
Theorem C30_refuted :
  let c := [Some 0; Some 0; Some 0; Some 0; Some 0;
            Some 0; None;   None;   None;   Some 9;
            Some 0; Some 1; Some 2; Some 1; Some 0;
            Some 0; Some 0; Some 1; Some 0; Some 0;
            Some 0; Some 0; Some 0; Some 0; Some 0] in
  valid 5 5 c 1 4 1 4 /\ is_peak Z.leb 5 c 1 4 1 4 2 2 /\ nan_indices_max Z.leb 5 5 c 1 4 1 4 = Ok (0, 0, TouchBoundary).
Proof.
  cbv zeta. split; [unfold valid; cbn; lia|]. split; [|reflexivity].
  split; [lia|]. split; [lia|]. exists 2. split; [reflexivity|].
  intros k0 k1 u K0 K1.
  assert (H0 : k0 = 1 \/ k0 = 2 \/ k0 = 3) by lia. assert (H1 : k1 = 1 \/ k1 = 2 \/ k1 = 3) by lia.
  unfold before. cbn [fst snd].
  destruct H0 as [->|[->| ->]]; destruct H1 as [->|[->| ->]]; vm_compute; intros E; inversion E; subst; split; try reflexivity;
    intros [X|[X Y]]; congruence.
Qed.

Example C30_example :
  nan_indices_max Z.leb 4 4 [Some 1; Some 1; None; Some 0;
                             Some 1; Some 5; Some 2; Some 0;
                             Some 3; Some 2; Some 5; Some 1;
                             None; Some 1; Some 0; Some 4] 0 4 0 4 = Ok (2, 2, NoMessage)
  /\ nan_indices_max Z.leb 2 2 [None; None; None; None] 0 2 0 2 = Err AssertionError.
Proof. split; reflexivity. Qed.

Print Assumptions C30_unflagged.
Print Assumptions C30_flagged.
Print Assumptions C30_maximum.
Print Assumptions C30_whole.
Print Assumptions C30_refuted.

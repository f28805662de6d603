(** Lemmas about the search of the maximum of a correlation. *)
From Verif Require Import PyBase CorrelModel.
From Coq Require Import Sorted.
Local Open Scope Z_scope.

Lemma range1_In a b x : In x (range_list a b 1) <-> a <= x < b.
Proof.
  unfold range_list, range_len. rewrite in_map_iff. split.
  - intros (k & E & Hk). apply in_seq in Hk. destruct (a <? b) eqn:Hab.
    + change (0 <? 1) with true in Hk. cbn [andb] in Hk. rewrite Z.div_1_r in Hk. lia.
    + cbn in Hk. lia.
  - intros H. exists (Z.to_nat (x - a)). split; [lia|]. apply in_seq.
    change (0 <? 1) with true. cbn [andb]. destruct (a <? b) eqn:Hab; [|lia].
    rewrite Z.div_1_r. lia.
Qed.

Lemma range1_sorted a b : StronglySorted Z.lt (range_list a b 1).
Proof.
  unfold range_list. generalize (Z.to_nat (range_len a b 1)). intros n.
  generalize 0%nat. induction n as [|n IH]; intros k; cbn [seq map]; constructor; [apply IH|].
  apply Forall_forall. intros x Hx. apply in_map_iff in Hx. destruct Hx as (j & <- & Hj). apply in_seq in Hj. lia.
Qed.

(** order of the points in C order *)
Definition before (i j : Z * Z) : Prop := fst i < fst j \/ (fst i = fst j /\ snd i < snd j).

Lemma sorted_app {A} (R : A -> A -> Prop) l1 l2 :
  StronglySorted R l1 -> StronglySorted R l2 -> (forall a b, In a l1 -> In b l2 -> R a b) -> StronglySorted R (l1 ++ l2).
Proof.
  induction l1 as [|a l1 IH]; intros H1 H2 H; [exact H2|]. cbn. inversion H1; subst. constructor.
  - apply IH; auto. intros; apply H; [right|]; assumption.
  - apply Forall_app. split; [assumption|]. apply Forall_forall. intros b Hb. apply H; [left; reflexivity|assumption].
Qed.

Lemma sorted_split {A} (R : A -> A -> Prop) l1 a l2 :
  StronglySorted R (l1 ++ a :: l2) -> (forall b, In b l1 -> R b a) /\ (forall b, In b l2 -> R a b).
Proof.
  induction l1 as [|b l1 IH]; cbn; intros H; inversion H; subst.
  - split; [intros ? []|]. rewrite Forall_forall in H3. exact H3.
  - destruct (IH H2) as [I1 I2]. split; [|exact I2]. intros c [<-|Hc]; [|auto].
    rewrite Forall_forall in H3. apply H3. apply in_or_app. right; left; reflexivity.
Qed.

Lemma window_In a b c d i0 i1 : In (i0, i1) (window a b c d) <-> a <= i0 < b /\ c <= i1 < d.
Proof.
  unfold window. rewrite in_flat_map. split.
  - intros (x & Hx & H). apply in_map_iff in H. destruct H as (y & E & Hy).
    assert (x = i0 /\ y = i1) as [-> ->] by (split; congruence). rewrite range1_In in *. auto.
  - intros [H0 H1]. exists i0. rewrite range1_In. split; [exact H0|]. apply in_map_iff. exists i1.
    rewrite range1_In. auto.
Qed.

Lemma window_sorted a b c d : StronglySorted before (window a b c d).
Proof.
  unfold window. generalize (range1_sorted a b). induction 1 as [|x l Hs IH Hf]; [constructor|].
  cbn [flat_map]. apply sorted_app.
  - clear IH. generalize (range1_sorted c d). induction 1 as [|y m Hs' IH' Hf']; cbn [map]; constructor; [exact IH'|].
    apply Forall_forall. intros z Hz. apply in_map_iff in Hz. destruct Hz as (t & <- & Ht).
    rewrite Forall_forall in Hf'. right. cbn. split; [reflexivity|]. apply Hf'; exact Ht.
  - exact IH.
  - intros p q Hp Hq. apply in_map_iff in Hp. destruct Hp as (y & <- & _).
    apply in_flat_map in Hq. destruct Hq as (x' & Hx' & Hq). apply in_map_iff in Hq. destruct Hq as (y' & <- & _).
    left. cbn. rewrite Forall_forall in Hf. apply Hf; exact Hx'.
Qed.

Section Peak.
Context {T : Type}.
Variable leb : T -> T -> bool.
Hypothesis leb_total : forall a b, leb a b = true \/ leb b a = true.
Hypothesis leb_trans : forall a b c, leb a b = true -> leb b c = true -> leb a c = true.

(** value of the array at (i0, i1) *)
Definition at2 (n1 : Z) (c : arr2 T) (i0 i1 : Z) : option T := nth (Z.to_nat (i0 * n1 + i1)) c None.

Lemma get2_at n0 n1 (c : arr2 T) i0 i1 :
  zlen c = n0 * n1 -> 0 <= i0 < n0 -> 0 <= i1 < n1 -> get2 n0 n1 c i0 i1 = Ok (at2 n1 c i0 i1).
Proof.
  intros Hl H0 H1. unfold get2, at2.
  assert (E : (0 <=? i0) && (i0 <? n0) && (0 <=? i1) && (i1 <? n1) = true) by lia. rewrite E.
  unfold zlen in Hl.
  destruct (nth_error c (Z.to_nat (i0 * n1 + i1))) eqn:En.
  - rewrite (nth_error_nth _ _ None En). reflexivity.
  - apply nth_error_None in En. nia.
Qed.

Lemma scan_spec n0 n1 (c : arr2 T) l cmax j0 j1 :
  zlen c = n0 * n1 -> (forall i0 i1, In (i0, i1) l -> 0 <= i0 < n0 /\ 0 <= i1 < n1) ->
  (py_for (scan_body leb n0 n1 c) l (cmax, j0, j1) = Ok (cmax, j0, j1) /\
   forall i0 i1 v, In (i0, i1) l -> at2 n1 c i0 i1 = Some v -> leb cmax v = false)
  \/ (exists l1 i0 i1 l2 v, l = l1 ++ (i0, i1) :: l2 /\ at2 n1 c i0 i1 = Some v /\
        py_for (scan_body leb n0 n1 c) l (cmax, j0, j1) = Ok (v, i0, i1) /\ leb cmax v = true /\
        (forall k0 k1 u, In (k0, k1) l1 -> at2 n1 c k0 k1 = Some u -> leb u v = true) /\
        (forall k0 k1 u, In (k0, k1) l2 -> at2 n1 c k0 k1 = Some u -> leb v u = false)).
Proof.
  intros Hl. revert cmax j0 j1. induction l as [|[i0 i1] l IH]; intros cmax j0 j1 Hin.
  - left. split; [reflexivity|]. intros ? ? ? [].
  - cbn [py_for scan_body].
    destruct (Hin i0 i1 (or_introl eq_refl)) as [B0 B1]. rewrite (get2_at n0 n1 c i0 i1 Hl B0 B1). cbn [bind].
    assert (Hin' : forall k0 k1, In (k0, k1) l -> 0 <= k0 < n0 /\ 0 <= k1 < n1) by (intros; apply Hin; right; assumption).
    destruct (at2 n1 c i0 i1) as [v|] eqn:Ev.
    + destruct (leb cmax v) eqn:Hc.
      * right. destruct (IH v i0 i1 Hin') as [[E H]|(l1 & k0 & k1 & l2 & u & -> & Eu & E & Hvu & H1 & H2)].
        -- exists [], i0, i1, l, v. repeat split; auto; intros ? ? ? [].
        -- exists ((i0, i1) :: l1), k0, k1, l2, u. repeat split; auto.
           ++ eapply leb_trans; eassumption.
           ++ intros p q w [E'|Hw] Ew; [|eauto]. inversion E'; subst. rewrite Ev in Ew. inversion Ew; subst. exact Hvu.
      * destruct (IH cmax j0 j1 Hin') as [[E H]|(l1 & k0 & k1 & l2 & u & -> & Eu & E & Hvu & H1 & H2)].
        -- left. split; [exact E|]. intros p q w [E'|Hw] Ew; [|eauto]. inversion E'; subst. congruence.
        -- right. exists ((i0, i1) :: l1), k0, k1, l2, u. repeat split; auto.
           intros p q w [E'|Hw] Ew; [|eauto]. inversion E'; subst. rewrite Ev in Ew. inversion Ew; subst.
           destruct (leb_total cmax w) as [X|X]; [congruence|]. eapply leb_trans; eassumption.
    + destruct (IH cmax j0 j1 Hin') as [[E H]|(l1 & k0 & k1 & l2 & u & -> & Eu & E & Hvu & H1 & H2)].
      * left. split; [exact E|]. intros p q w [E'|Hw] Ew; [|eauto]. inversion E'; subst. congruence.
      * right. exists ((i0, i1) :: l1), k0, k1, l2, u. repeat split; auto.
        intros p q w [E'|Hw] Ew; [|eauto]. inversion E'; subst. congruence.
Qed.

Lemma first_non_nan_spec (l : arr2 T) :
  match first_non_nan l with
  | None => forall v, In (Some v) l -> False
  | Some v => exists k, nth_error l k = Some (Some v)
  end.
Proof.
  induction l as [|[v|] l IH]; cbn.
  - tauto.
  - exists 0%nat. reflexivity.
  - destruct (first_non_nan l) as [v|].
    + destruct IH as (k & Hk). exists (S k). exact Hk.
    + intros v [E|H]; [discriminate|eauto].
Qed.

Lemma nan_around_ok n0 n1 (c : arr2 T) i0 i1 :
  zlen c = n0 * n1 -> 1 <= i0 < n0 - 1 -> 1 <= i1 < n1 - 1 ->
  exists b, nan_around n0 n1 c i0 i1 = Ok b /\
    (b = true <-> exists k0 k1, i0 - 1 <= k0 <= i0 + 1 /\ i1 - 1 <= k1 <= i1 + 1 /\ at2 n1 c k0 k1 = None).
Proof.
  intros Hl H0 H1. unfold nan_around.
  assert (G : forall l b, (forall k0 k1, In (k0, k1) l -> 0 <= k0 < n0 /\ 0 <= k1 < n1) ->
    exists b', py_for (fun b i => do v <- get2 n0 n1 c (fst i) (snd i) ;
                       Ok (b || match v with None => true | _ => false end)) l b = Ok b' /\
      (b' = true <-> b = true \/ exists k0 k1, In (k0, k1) l /\ at2 n1 c k0 k1 = None)).
  { induction l as [|[k0 k1] l IH]; intros b Hin.
    - exists b. split; [reflexivity|]. split; [auto|]. intros [|(? & ? & [] & _)]; assumption.
    - cbn [py_for fst snd]. destruct (Hin k0 k1 (or_introl eq_refl)) as [B0 B1].
      rewrite (get2_at n0 n1 c k0 k1 Hl B0 B1). cbn [bind].
      destruct (IH (b || match at2 n1 c k0 k1 with None => true | _ => false end)) as (b' & E & Hb).
      { intros; apply Hin; right; assumption. }
      exists b'. split; [exact E|]. rewrite Hb. clear Hb E IH. split.
      + intros [H|(x & y & Hx & E)].
        * apply orb_true_iff in H. destruct H as [H|H]; [left; exact H|]. right. exists k0, k1. split; [left; reflexivity|].
          destruct (at2 n1 c k0 k1); [discriminate|reflexivity].
        * right. exists x, y. split; [right|]; assumption.
      + intros [H|(x & y & [Hx|Hx] & E)].
        * left. apply orb_true_iff. left; exact H.
        * inversion Hx; subst. rewrite E. left. apply orb_true_r.
        * right. exists x, y. auto. }
  destruct (G (window (i0 - 1) (i0 + 2) (i1 - 1) (i1 + 2)) false) as (b & E & Hb).
  { intros k0 k1 H. apply window_In in H. lia. }
  exists b. split; [exact E|]. rewrite Hb. split.
  - intros [H|(k0 & k1 & H & E')]; [discriminate|]. apply window_In in H. exists k0, k1. repeat split; auto; lia.
  - intros (k0 & k1 & A0 & A1 & E'). right. exists k0, k1. split; [apply window_In; lia|exact E'].
Qed.

(** position of a flat index *)
Lemma nth_at n0 n1 (c : arr2 T) k v :
  0 < n1 -> zlen c = n0 * n1 -> nth_error c k = Some v ->
  exists i0 i1, 0 <= i0 < n0 /\ 0 <= i1 < n1 /\ Z.of_nat k = i0 * n1 + i1 /\ at2 n1 c i0 i1 = v.
Proof.
  intros Hn Hl E. assert (Hk : (k < List.length c)%nat) by (apply nth_error_Some; congruence).
  unfold zlen in Hl.
  pose proof (Z.div_mod (Z.of_nat k) n1 ltac:(lia)) as D. pose proof (Z.mod_pos_bound (Z.of_nat k) n1 Hn) as M.
  exists (Z.of_nat k / n1), (Z.of_nat k mod n1).
  assert (0 <= Z.of_nat k / n1) by (apply Z.div_pos; lia).
  assert (Z.of_nat k / n1 < n0) by (apply Z.div_lt_upper_bound; lia).
  repeat split; try lia. unfold at2. replace (Z.to_nat _) with k by lia.
  exact (nth_error_nth _ _ None E).
Qed.
End Peak.

(** Proofs about the queues. *)
From Coq Require Import Sorted.
From Verif Require Import PyBase QueueModel QueueSpec.

Section P.
Context {V : Type}.

Definition keys (q : queue V) : list nat := map fst q.

Lemma q_mem_In k (q : queue V) : q_mem k q = true <-> In k (keys q).
Proof.
  unfold q_mem, keys. rewrite existsb_exists. split.
  - intros ([k' v] & HI & Hk). apply Nat.eqb_eq in Hk. subst k'. apply in_map_iff. exists (k, v). auto.
  - intros HI. apply in_map_iff in HI. destruct HI as ([k' v] & <- & HI). exists (k', v).
    split; [exact HI|]. apply Nat.eqb_refl.
Qed.

Lemma q_set_new k v (q : queue V) : ~ In k (keys q) -> q_set k v q = q ++ [(k, v)].
Proof.
  induction q as [|[k' v'] q IH]; intros H; [reflexivity|].
  cbn [q_set]. destruct (Nat.eqb_spec k k') as [->|Hk].
  - exfalso. apply H. left. reflexivity.
  - rewrite IH; [reflexivity|]. intros HI. apply H. right. exact HI.
Qed.

Lemma keys_q_set k v (q : queue V) :
  keys (q_set k v q) = if q_mem k q then keys q else keys q ++ [k].
Proof.
  induction q as [|[k' v'] q IH]; [reflexivity|].
  cbn [q_set]. unfold q_mem in *. cbn [existsb]. destruct (Nat.eqb_spec k k') as [->|Hk].
  - reflexivity.
  - cbn [keys map fst orb]. fold (keys (q_set k v q)) (keys q). rewrite IH.
    destruct (existsb _ q); reflexivity.
Qed.

Lemma q_get_In k v (q : queue V) : NoDup (keys q) -> In (k, v) q -> q_get k q = Ok v.
Proof.
  induction q as [|[k' v'] q IH]; intros Hd HI; [contradiction|].
  cbn [keys map fst] in Hd. inversion Hd as [|? ? Hn Hd']; subst. cbn [q_get].
  destruct HI as [Heq|HI].
  - injection Heq as -> ->. rewrite Nat.eqb_refl. reflexivity.
  - destruct (Nat.eqb_spec k k') as [->|Hk]; [|apply IH; assumption].
    exfalso. apply Hn. apply in_map_iff. exists (k', v). auto.
Qed.

Lemma q_get_None k (q : queue V) : ~ In k (keys q) -> q_get k q = Err KeyError.
Proof.
  induction q as [|[k' v'] q IH]; intros H; [reflexivity|]. cbn [q_get].
  destruct (Nat.eqb_spec k k') as [->|Hk]; [exfalso; apply H; left; reflexivity|].
  apply IH. intros HI. apply H. right. exact HI.
Qed.

(** dated queues *)
Definition dq := list (nat * V * nat).
Definition undate (d : dq) : queue V := map fst d.
Fixpoint look (k : nat) (d : dq) : option (V * nat) :=
  match d with
  | [] => None
  | (k', v, t) :: d' => if Nat.eqb k k' then Some (v, t) else look k d'
  end.
Definition dkeys (d : dq) : list nat := map (fun '(k, _, _) => k) d.
Definition dates (d : dq) : list nat := map snd d.

Lemma keys_undate d : keys (undate d) = dkeys d.
Proof. unfold keys, undate, dkeys. rewrite map_map. apply map_ext. intros [[k v] t]. reflexivity. Qed.

Definition R (q : queue V) (s : sstate V) : Prop :=
  exists d, q = undate d /\ NoDup (dkeys d) /\
    StronglySorted lt (dates d) /\ Forall (fun t => (t < clock s)%nat) (dates d) /\
    (forall k, content s k = look k d).

Lemma look_In k v t d : look k d = Some (v, t) -> In (k, v, t) d.
Proof.
  induction d as [|[[k' v'] t'] d IH]; cbn; [discriminate|].
  destruct (Nat.eqb_spec k k') as [->|Hk]; intros H; [injection H as -> ->; left; reflexivity|].
  right. apply IH, H.
Qed.

Lemma look_None k d : look k d = None <-> ~ In k (dkeys d).
Proof.
  induction d as [|[[k' v'] t'] d IH]; cbn; [tauto|].
  destruct (Nat.eqb_spec k k') as [->|Hk].
  - split; [discriminate|]. intros H. exfalso. apply H. left. reflexivity.
  - rewrite IH. split; intros H; [intros [->|HI]; [congruence|apply H, HI]|].
    intros HI. apply H. right. exact HI.
Qed.

Lemma look_app k d1 d2 : look k (d1 ++ d2) = match look k d1 with Some x => Some x | None => look k d2 end.
Proof.
  induction d1 as [|[[k' v'] t'] d IH]; cbn; [reflexivity|]. destruct (Nat.eqb k k'); [reflexivity|exact IH].
Qed.

(** set of a present key *)
Fixpoint dset (k : nat) (v : V) (d : dq) : dq :=
  match d with
  | [] => []
  | (k', v', t') :: d' => if Nat.eqb k k' then (k, v, t') :: d' else (k', v', t') :: dset k v d'
  end.

Lemma dset_undate k v d : In k (dkeys d) -> q_set k v (undate d) = undate (dset k v d).
Proof.
  induction d as [|[[k' v'] t'] d IH]; cbn; [tauto|]. intros H.
  destruct (Nat.eqb_spec k k') as [->|Hk]; [reflexivity|].
  cbn. fold (undate d). rewrite IH; [reflexivity|]. destruct H; [congruence|assumption].
Qed.
Lemma dset_keys k v d : dkeys (dset k v d) = dkeys d.
Proof.
  induction d as [|[[k' v'] t'] d IH]; cbn; [reflexivity|].
  destruct (Nat.eqb_spec k k') as [->|Hk]; cbn; [reflexivity|]. f_equal. exact IH.
Qed.
Lemma dset_dates k v d : dates (dset k v d) = dates d.
Proof.
  induction d as [|[[k' v'] t'] d IH]; cbn; [reflexivity|].
  destruct (Nat.eqb_spec k k') as [->|Hk]; cbn; [reflexivity|]. f_equal. exact IH.
Qed.
Lemma dset_look k v d v0 t0 : look k d = Some (v0, t0) ->
  look k (dset k v d) = Some (v, t0) /\ forall k', k' <> k -> look k' (dset k v d) = look k' d.
Proof.
  induction d as [|[[k' v'] t'] d IH]; cbn; [discriminate|].
  destruct (Nat.eqb_spec k k') as [->|Hk]; intros H.
  - injection H as -> ->. cbn. rewrite Nat.eqb_refl. split; [reflexivity|]. intros k'' Hk.
    destruct (Nat.eqb_spec k'' k'); [congruence|reflexivity].
  - cbn. destruct (Nat.eqb_spec k k'); [congruence|]. destruct (IH H) as [H1 H2].
    split; [exact H1|]. intros k'' Hk''. destruct (Nat.eqb k'' k'); [reflexivity|apply H2, Hk''].
Qed.

(** delete *)
Fixpoint ddel (k : nat) (d : dq) : dq :=
  match d with
  | [] => []
  | (k', v', t') :: d' => if Nat.eqb k k' then d' else (k', v', t') :: ddel k d'
  end.
Lemma ddel_undate k d : In k (dkeys d) -> q_del k (undate d) = Ok (undate (ddel k d)).
Proof.
  induction d as [|[[k' v'] t'] d IH]; cbn; [tauto|]. intros H.
  destruct (Nat.eqb_spec k k') as [->|Hk]; [reflexivity|].
  cbn. fold (undate d). rewrite IH; [reflexivity|]. destruct H; [congruence|assumption].
Qed.
Lemma ddel_missing k d : ~ In k (dkeys d) -> q_del k (undate d) = Err KeyError.
Proof.
  induction d as [|[[k' v'] t'] d IH]; cbn; [reflexivity|]. intros H.
  destruct (Nat.eqb_spec k k') as [->|Hk]; [tauto|]. fold (undate d). rewrite IH; [reflexivity|tauto].
Qed.
Lemma ddel_incl k d x : In x (ddel k d) -> In x d.
Proof.
  induction d as [|[[k' v'] t'] d IH]; cbn; [tauto|]. destruct (Nat.eqb k k'); cbn; tauto.
Qed.
Lemma ddel_sorted k d : StronglySorted lt (dates d) -> StronglySorted lt (dates (ddel k d)).
Proof.
  induction d as [|[[k' v'] t'] d IH]; cbn; [trivial|]. intros H. inversion H as [|? ? Hs Hf]; subst.
  destruct (Nat.eqb k k'); [exact Hs|]. cbn. constructor; [apply IH, Hs|].
  rewrite Forall_forall in *. intros t Ht. apply Hf. unfold dates in *. apply in_map_iff in Ht.
  destruct Ht as (x & <- & Hx). apply in_map. eapply ddel_incl, Hx.
Qed.
Lemma ddel_nodup k d : NoDup (dkeys d) -> NoDup (dkeys (ddel k d)).
Proof.
  induction d as [|[[k' v'] t'] d IH]; cbn; [trivial|]. intros H. inversion H as [|? ? Hs Hf]; subst.
  destruct (Nat.eqb k k'); [exact Hf|]. cbn. constructor; [|apply IH, Hf].
  intros HI. apply Hs. unfold dkeys in *. apply in_map_iff in HI. destruct HI as (x & <- & Hx).
  apply in_map_iff. exists x. split; [reflexivity|]. eapply ddel_incl, Hx.
Qed.
Lemma ddel_look k d : NoDup (dkeys d) ->
  look k (ddel k d) = None /\ forall k', k' <> k -> look k' (ddel k d) = look k' d.
Proof.
  induction d as [|[[k' v'] t'] d IH]; cbn; [auto|]. intros H. inversion H as [|? ? Hs Hf]; subst.
  destruct (Nat.eqb_spec k k') as [->|Hk].
  - split; [apply look_None, Hs|]. intros k'' Hk. destruct (Nat.eqb_spec k'' k'); [congruence|reflexivity].
  - cbn. destruct (Nat.eqb_spec k k'); [congruence|]. destruct (IH Hf) as [H1 H2]. split; [exact H1|].
    intros k'' Hk''. destruct (Nat.eqb k'' k'); [reflexivity|apply H2, Hk''].
Qed.

Lemma sorted_snoc l t : StronglySorted lt l -> Forall (fun x => (x < t)%nat) l -> StronglySorted lt (l ++ [t]).
Proof.
  induction l as [|x l IH]; cbn; intros Hs Hf; [repeat constructor|].
  inversion Hs; inversion Hf; subst. constructor; [apply IH; assumption|].
  apply Forall_app. split; [assumption|]. repeat constructor. assumption.
Qed.

Lemma step_sim q s o : R q s ->
  exists s', s_step s o (snd (q_step q o)) s' /\ R (fst (q_step q o)) s'.
Proof.
  intros (d & -> & Hnd & Hs & Hc & HL). destruct s as [c t]. cbn [clock content] in *.
  destruct o as [k v|k|]; cbn [q_step].
  - (* set *)
    destruct (look k d) as [[v0 t0]|] eqn:E.
    + pose proof (look_In _ _ _ _ E) as HI.
      assert (HK : In k (dkeys d)). { unfold dkeys. apply in_map_iff. exists (k, v0, t0). auto. }
      cbn [fst snd]. rewrite dset_undate by exact HK.
      destruct (dset_look k v d v0 t0 E) as [H1 H2].
      exists {| content := fun k' => look k' (dset k v d); clock := t |}. split.
      * eapply s_set_old; [rewrite HL; exact E|]. split; [exact H1|]. intros k' Hk. rewrite HL. apply H2, Hk.
      * exists (dset k v d). rewrite dset_keys, dset_dates. repeat split; auto.
    + assert (HK : ~ In k (dkeys d)) by (apply look_None, E).
      cbn [fst snd]. rewrite q_set_new by (rewrite keys_undate; exact HK).
      exists {| content := fun k' => look k' (d ++ [(k, v, t)]); clock := S t |}. split.
      * apply s_set_new; [rewrite HL; exact E|]. split.
        -- rewrite look_app, E. cbn. rewrite Nat.eqb_refl. reflexivity.
        -- intros k' Hk. rewrite look_app, HL. destruct (look k' d); [reflexivity|]. cbn.
           destruct (Nat.eqb_spec k' k); [congruence|reflexivity].
      * exists (d ++ [(k, v, t)]). unfold undate, dkeys, dates. rewrite !map_app.
        cbn [map fst snd clock content]. repeat split.
        -- apply NoDup_rev in Hnd. rewrite <- (rev_involutive (_ ++ _)). apply NoDup_rev.
           rewrite rev_app_distr. cbn. constructor; [|exact Hnd]. intros HI. apply HK, in_rev, HI.
        -- apply sorted_snoc; assumption.
        -- apply Forall_app. split; [|repeat constructor].
           eapply Forall_impl; [|exact Hc]. cbn. intros; lia.
  - (* del *)
    destruct (look k d) as [[v0 t0]|] eqn:E.
    + pose proof (look_In _ _ _ _ E) as HI.
      assert (HK : In k (dkeys d)). { unfold dkeys. apply in_map_iff. exists (k, v0, t0). auto. }
      rewrite ddel_undate by exact HK. cbn [fst snd].
      destruct (ddel_look k d Hnd) as [H1 H2].
      exists {| content := fun k' => look k' (ddel k d); clock := t |}. split.
      * apply s_del; [rewrite HL; congruence|]. split; [exact H1|]. intros k' Hk. rewrite HL. apply H2, Hk.
      * exists (ddel k d). repeat split; auto.
        -- apply ddel_nodup, Hnd.
        -- apply ddel_sorted, Hs.
        -- rewrite Forall_forall in *. intros x Hx. apply Hc. unfold dates in *. apply in_map_iff in Hx.
           destruct Hx as (y & <- & Hy). apply in_map. eapply ddel_incl, Hy.
    + rewrite ddel_missing by (apply look_None, E). cbn [fst snd].
      exists {| content := c; clock := t |}. split; [apply s_del_missing; rewrite HL; exact E|].
      exists d. repeat split; auto.
  - (* pop *)
    destruct d as [|[[k v] t0] d].
    + cbn. exists {| content := c; clock := t |}. split; [apply s_pop_empty; intros k; rewrite HL; reflexivity|].
      exists []. repeat split; auto.
    + cbn. cbn in Hnd, Hs, Hc. inversion Hnd as [|? ? Hn Hd]; inversion Hs as [|? ? Hs' Hf]; inversion Hc; subst.
      exists {| content := fun k' => look k' d; clock := t |}. split.
      * eapply (s_pop c t _ k v t0).
        -- rewrite HL. cbn. rewrite Nat.eqb_refl. reflexivity.
        -- intros k' v' t' H'. rewrite HL in H'. cbn in H'. destruct (Nat.eqb k' k); [injection H' as <- <-; lia|].
           apply look_In in H'. rewrite Forall_forall in Hf.
           specialize (Hf t'). apply Nat.lt_le_incl, Hf. unfold dates. apply in_map_iff. eexists; split; [|exact H']. reflexivity.
        -- split; [apply look_None, Hn|]. intros k' Hk. rewrite HL. cbn. destruct (Nat.eqb_spec k' k); [congruence|reflexivity].
      * exists d. repeat split; auto.
Qed.

Lemma run_sim ops q s : R q s ->
  exists s', s_run s ops (snd (q_run q ops)) s' /\ R (fst (q_run q ops)) s'.
Proof.
  revert q s. induction ops as [|o ops IH]; intros q s HR.
  - exists s. split; [constructor|exact HR].
  - cbn [q_run]. destruct (step_sim q s o HR) as (s1 & H1 & HR1).
    destruct (q_step q o) as [q1 r] eqn:E. cbn [fst snd] in *.
    destruct (IH q1 s1 HR1) as (s2 & H2 & HR2).
    destruct (q_run q1 ops) as [q2 rs] eqn:E2. cbn [fst snd] in *.
    exists s2. split; [econstructor; eassumption|exact HR2].
Qed.

Lemma R_empty : R q_empty s_empty.
Proof. exists []. repeat split; constructor. Qed.

Lemma sorted_nth l i j (x y : nat) : StronglySorted lt l -> (i < j)%nat ->
  nth_error l i = Some x -> nth_error l j = Some y -> (x < y)%nat.
Proof.
  revert i j. induction l as [|a l IH]; intros i j Hs Hij Hi Hj; [destruct i; discriminate|].
  inversion Hs as [|? ? Hs' Hf]; subst. destruct j as [|j]; [lia|]. cbn in Hj. destruct i as [|i].
  - cbn in Hi. injection Hi as <-. rewrite Forall_forall in Hf. apply Hf. eapply nth_error_In, Hj.
  - cbn in Hi. apply (IH i j); auto. lia.
Qed.

Lemma look_self k v t d : NoDup (dkeys d) -> In (k, v, t) d -> look k d = Some (v, t).
Proof.
  induction d as [|[[k' v'] t'] d IH]; cbn; [tauto|]. intros H HI. inversion H as [|? ? Hn Hd]; subst.
  destruct HI as [Heq|HI].
  - injection Heq as -> -> ->. rewrite Nat.eqb_refl. reflexivity.
  - destruct (Nat.eqb_spec k k') as [->|Hk]; [|apply IH; assumption].
    exfalso. apply Hn. apply in_map_iff. exists (k', v, t). auto.
Qed.

Lemma q_run_spec (ops : list (op V)) :
  exists s, s_run s_empty ops (snd (q_run q_empty ops)) s /\
    let q := fst (q_run q_empty ops) in
    NoDup (map fst q) /\
    (forall k v, In (k, v) q <-> exists t, content s k = Some (v, t)) /\
    (forall k, q_get k q = match content s k with Some (v, _) => Ok v | None => Err KeyError end) /\
    (forall i j k v k' v' t t', (i < j)%nat -> nth_error q i = Some (k, v) -> nth_error q j = Some (k', v') ->
       content s k = Some (v, t) -> content s k' = Some (v', t') -> (t < t')%nat).
Proof.
  destruct (run_sim ops q_empty s_empty R_empty) as (s & Hrun & d & Hq & Hnd & Hs & Hc & HL).
  exists s. split; [exact Hrun|]. cbn zeta. rewrite Hq.
  assert (Hkn : NoDup (map fst (undate d))). { fold (keys (undate d)). rewrite keys_undate. exact Hnd. }
  assert (HIn : forall k v, In (k, v) (undate d) <-> exists t, content s k = Some (v, t)).
  { intros k v. unfold undate. rewrite in_map_iff. split.
    - intros ([[k' v'] t] & Heq & HI). cbn in Heq. injection Heq as -> ->. exists t. rewrite HL.
      apply look_self; assumption.
    - intros (t & Ht). rewrite HL in Ht. apply look_In in Ht. exists (k, v, t). auto. }
  split; [exact Hkn|]. split; [exact HIn|]. split.
  - intros k. destruct (content s k) as [[v t]|] eqn:E.
    + apply q_get_In; [exact Hkn|]. apply HIn. exists t. exact E.
    + apply q_get_None. rewrite keys_undate. apply look_None. rewrite <- HL. exact E.
  - intros i j k v k' v' t t' Hij Hi Hj Hk Hk'.
    unfold undate in Hi, Hj. rewrite nth_error_map in Hi, Hj.
    destruct (nth_error d i) as [[[k1 v1] t1]|] eqn:Ei; cbn in Hi; [|discriminate].
    destruct (nth_error d j) as [[[k2 v2] t2]|] eqn:Ej; cbn in Hj; [|discriminate].
    injection Hi as -> ->. injection Hj as -> ->.
    assert (t1 = t). { rewrite HL in Hk. rewrite (look_self k v t1 d) in Hk; [congruence|exact Hnd|eapply nth_error_In, Ei]. }
    assert (t2 = t'). { rewrite HL in Hk'. rewrite (look_self k' v' t2 d) in Hk'; [congruence|exact Hnd|eapply nth_error_In, Ej]. }
    subst. eapply (sorted_nth (dates d) i j); try eassumption.
    + unfold dates. rewrite nth_error_map, Ei. reflexivity.
    + unfold dates. rewrite nth_error_map, Ej. reflexivity.
Qed.

Lemma q_copy_id (q : queue V) : NoDup (keys q) -> q_copy q = q.
Proof.
  unfold q_copy, q_empty. intros H.
  assert (Hg : forall l acc, NoDup (keys (acc ++ l)) ->
             fold_left (fun new '(k, v) => q_set k v new) l acc = acc ++ l).
  { induction l as [|[k v] l IH]; intros acc Hd; cbn [fold_left]; [rewrite app_nil_r; reflexivity|].
    rewrite q_set_new.
    - rewrite IH; rewrite <- app_assoc; [reflexivity|exact Hd].
    - unfold keys in *. rewrite map_app in Hd. cbn in Hd. apply NoDup_remove_2 in Hd.
      intros HI. apply Hd, in_or_app. left. exact HI. }
  apply (Hg q []). exact H.
Qed.

Lemma q_copy_reachable (ops : list (op V)) :
  let q := fst (q_run q_empty ops) in q_copy q = q.
Proof.
  cbn zeta. apply q_copy_id. destruct (q_run_spec ops) as (s & _ & H & _). exact H.
Qed.

End P.

Lemma is_name_in_values_spec name q :
  is_name_in_values name q = true <-> exists k names, In (k, names) q /\ In name names.
Proof.
  unfold is_name_in_values. rewrite existsb_exists. split.
  - intros ([k names] & HI & H). apply existsb_exists in H. destruct H as (x & Hx & Heq).
    apply Nat.eqb_eq in Heq. subst. exists k, names. auto.
  - intros (k & names & HI & H). exists (k, names). split; [exact HI|]. apply existsb_exists.
    exists name. split; [exact H|apply Nat.eqb_refl].
Qed.

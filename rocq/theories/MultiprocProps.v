(** C89: one item with the executor exec_async_multi, for every interleaving of the processes. *)
From Verif Require Import PyBase MultiprocModel.

(** ** Lists *)
Lemma upd_nth {A} (l : list A) : forall i j f, nth_error (update_nth i f l) j =
  if (i =? j)%nat then option_map f (nth_error l j) else nth_error l j.
Proof.
  induction l as [|x l IH]; intros i j f.
  - destruct i, j; cbn; try reflexivity; destruct (_ =? _)%nat; reflexivity.
  - destruct i, j; cbn; try reflexivity. apply IH.
Qed.
Lemma upd_len {A} (l : list A) : forall i f, List.length (update_nth i f l) = List.length l.
Proof. induction l as [|x l IH]; intros [|i] f; cbn; try reflexivity. rewrite IH. reflexivity. Qed.

Definition finished (c : child) : Prop := match c with CBoot | CRun => False | _ => True end.
Fixpoint boots (l : list child) : nat := match l with [] => 0 | CBoot :: l' => S (boots l') | _ :: l' => boots l' end.
Lemma boots_app l1 l2 : boots (l1 ++ l2) = (boots l1 + boots l2)%nat.
Proof. induction l1 as [|c l IH]; [reflexivity|]. destruct c; cbn; rewrite IH; reflexivity. Qed.
Lemma boots_upd l : forall i c d, nth_error l i = Some c ->
  (boots (update_nth i (fun _ => d) l) + boots [c] = boots l + boots [d])%nat.
Proof.
  induction l as [|x l IH]; intros [|i] c d H; try discriminate; cbn [update_nth nth_error] in *.
  - injection H as ->. change (d :: l) with ([d] ++ l). change (c :: l) with ([c] ++ l). rewrite !boots_app. lia.
  - specialize (IH i c d H). destruct x; cbn [boots] in *; lia.
Qed.
Lemma boots_le l : (boots l <= List.length l)%nat.
Proof. induction l as [|[] l IH]; cbn; lia. Qed.

Section Proofs.
Variable V : Type.
Variable out : outcome V.

(** the index of the process which the parent is taking care of, the number of processes started *)
Definition current (p : parent V) : option nat :=
  match p with PWait a | PTerm a | PRecv a | PJoin a _ => Some a | _ => None end.

Record inv (s : mp V) : Prop := mk_inv {
  i_len : match m_parent s with
          | PStart a => List.length (m_children s) = a /\ (a < 10)%nat
          | PDone _ => (1 <= List.length (m_children s) <= 10)%nat
          | PFail => List.length (m_children s) = 10%nat
          | PWait a | PTerm a | PRecv a | PJoin a _ => List.length (m_children s) = S a /\ (a < 10)%nat
          end;
  i_fin : forall i c, nth_error (m_children s) i = Some c -> current (m_parent s) <> Some i -> finished c;
  i_pipe : Forall (fun m => sent out = Some m) (m_pipe s);
  i_msg : match m_parent s with PJoin _ m | PDone m => sent out = Some m /\ (1 <= m_calls s)%nat | _ => True end;
  i_calls : (m_calls s + boots (m_children s) <= List.length (m_children s))%nat;
  i_first : m_pipe s <> [] -> (1 <= m_calls s)%nat;
  i_event : m_event s = false -> m_calls s = 0%nat;
  i_cur : match m_parent s with
          | PWait a | PRecv a => sent out <> None -> m_pipe s <> [] \/ nth_error (m_children s) a = Some CBoot \/ nth_error (m_children s) a = Some CRun
          | _ => True
          end;
  i_run : forall i, nth_error (m_children s) i = Some CRun -> (1 <= m_calls s)%nat
}.

Lemma inv_init : inv mp_init.
Proof. constructor; cbn; auto; try lia; try constructor; intros; try destruct i; try discriminate; congruence. Qed.

Lemma set_child_at (s : mp V) i c d : nth_error (m_children s) i = Some c -> nth_error (set_child V s i d) i = Some d.
Proof. intros H. unfold set_child. rewrite upd_nth, Nat.eqb_refl, H. reflexivity. Qed.
Lemma set_child_inv (s : mp V) i d j c : nth_error (set_child V s i d) j = Some c -> (j = i /\ c = d) \/ (j <> i /\ nth_error (m_children s) j = Some c).
Proof.
  unfold set_child. rewrite upd_nth. destruct (Nat.eqb_spec i j) as [<-|N]; intros H; [left|right; auto].
  destruct (nth_error (m_children s) i); [|discriminate]. cbn in H. split; congruence.
Qed.
Lemma unfinished_current s i c : inv s -> nth_error (m_children s) i = Some c -> ~ finished c -> current (m_parent s) = Some i.
Proof.
  intros I H N. destruct (current (m_parent s)) as [a|] eqn:E.
  - destruct (Nat.eq_dec a i) as [->|D]; [reflexivity|]. exfalso. apply N, (i_fin s I i c H). congruence.
  - exfalso. apply N, (i_fin s I i c H). congruence.
Qed.

Lemma inv_step s t : inv s -> mstep out s t -> inv t.
Proof.
  intros I S. pose proof I as [L F P M C E1 Ev Cu R]. destruct S as [s i H|s i m H Hm|s i H Hm|s a Hp|s a Hp He|s a Hp He|s a c Hp H|s a m rest Hp Hq|s a m c Hp H].
  - pose proof (boots_upd _ _ _ CRun H) as B. cbn [boots] in B.
    constructor; cbn [m_parent m_children m_pipe m_calls m_event].
    + unfold set_child. rewrite upd_len. exact L.
    + intros j c Hj N. apply set_child_inv in Hj. destruct Hj as [(-> & ->)|(_ & Hj)]; [|exact (F j c Hj N)].
      exfalso. apply N. exact (unfinished_current s i CBoot I H (fun x => x)).
    + exact P.
    + destruct (m_parent s); auto; (split; [exact (proj1 M)|lia]).
    + unfold set_child. rewrite upd_len. lia.
    + intros N. specialize (E1 N). lia.
    + discriminate.
    + destruct (m_parent s) as [a|a|a|a|a m|m|] eqn:Pp; auto; intros N; (destruct (Cu N) as [X|X]; [left; exact X|right]);
        (destruct (Nat.eq_dec a i) as [->|D]; [right; exact (set_child_at _ _ _ _ H)|]; unfold set_child; rewrite upd_nth; destruct (Nat.eqb_spec i a); [congruence|exact X]).
    + intros j _. lia.
  - pose proof (boots_upd _ _ _ CSent H) as B. cbn [boots] in B. pose proof (R i H) as Hc.
    constructor; cbn [m_parent m_children m_pipe m_calls m_event].
    + unfold set_child. rewrite upd_len. exact L.
    + intros j c Hj N. apply set_child_inv in Hj. destruct Hj as [(-> & ->)|(_ & Hj)]; [exact Logic.I|exact (F j c Hj N)].
    + apply Forall_app. split; [exact P|]. constructor; [exact Hm|constructor].
    + exact M.
    + unfold set_child. rewrite upd_len. lia.
    + intros _. exact Hc.
    + exact Ev.
    + destruct (m_parent s); auto; intros _; left; destruct (m_pipe s); discriminate.
    + intros j _. exact Hc.
  - pose proof (boots_upd _ _ _ CDead H) as B. cbn [boots] in B. pose proof (R i H) as Hc.
    constructor; cbn [m_parent m_children m_pipe m_calls m_event]; auto.
    + unfold set_child. rewrite upd_len. exact L.
    + intros j c Hj N. apply set_child_inv in Hj. destruct Hj as [(-> & ->)|(_ & Hj)]; [exact Logic.I|exact (F j c Hj N)].
    + unfold set_child. rewrite upd_len. lia.
    + destruct (m_parent s); auto; intros N; congruence.
  - rewrite Hp in *. destruct L as (L & La).
    constructor; cbn [m_parent m_children m_pipe m_calls m_event current]; auto.
    + rewrite app_length. cbn. lia.
    + intros j c Hj N. destruct (Nat.eq_dec j (List.length (m_children s))) as [->|D]; [congruence|].
      rewrite nth_error_app1 in Hj; [|apply nth_error_Some; intros X; assert (j < List.length (m_children s ++ [CBoot]))%nat by (apply nth_error_Some; congruence); rewrite app_length in *; cbn in *; apply nth_error_None in X; lia].
      apply (F j c Hj). cbn. discriminate.
    + rewrite boots_app, app_length. cbn. lia.
    + intros _. right. left. rewrite nth_error_app2 by lia. rewrite L, Nat.sub_diag. reflexivity.
    + intros j Hj. destruct (Nat.eq_dec j (List.length (m_children s))) as [->|D]; [rewrite nth_error_app2, Nat.sub_diag in Hj by lia; discriminate|].
      rewrite nth_error_app1 in Hj; [exact (R j Hj)|]. apply nth_error_Some. intros X. assert (j < List.length (m_children s ++ [CBoot]))%nat by (apply nth_error_Some; congruence). rewrite app_length in *. cbn in *. apply nth_error_None in X. lia.
  - rewrite Hp in *. constructor; cbn [set_parent m_parent m_children m_pipe m_calls m_event current]; auto.
  - rewrite Hp in *. constructor; cbn [set_parent m_parent m_children m_pipe m_calls m_event current]; auto.
  - rewrite Hp in *. destruct L as (L & La).
    set (ch := match c with CBoot | CRun => set_child V s a CKilled | _ => m_children s end).
    assert (Lc : List.length ch = List.length (m_children s)) by (unfold ch, set_child; destruct c; rewrite ?upd_len; reflexivity).
    assert (Fc : forall j d, nth_error ch j = Some d -> finished d).
    { intros j d Hj. destruct (Nat.eq_dec j a) as [->|D].
      - unfold ch in Hj. destruct c; try (rewrite H in Hj; injection Hj as <-; exact Logic.I);
          rewrite (set_child_at s a _ CKilled H) in Hj; injection Hj as <-; exact Logic.I.
      - assert (Hj' : nth_error (m_children s) j = Some d).
        { unfold ch in Hj. destruct c; try exact Hj; apply set_child_inv in Hj; destruct Hj as [(X & _)|(_ & X)]; congruence. }
        apply (F j d Hj'). cbn. congruence. }
    assert (Bc : (m_calls s + boots ch <= List.length ch)%nat).
    { rewrite Lc. unfold ch. destruct c; try exact C; pose proof (boots_upd _ _ _ CKilled H) as B; cbn [boots] in B; unfold set_child; lia. }
    unfold next_attempt. destruct (Nat.ltb_spec (S a) 10);
    (constructor; cbn [m_parent m_children m_pipe m_calls m_event current]; auto; fold ch;
     [first [lia|split; lia] | intros j d Hj _; exact (Fc j d Hj) | intros j Hj; destruct (Fc j CRun Hj)]).
  - rewrite Hp in *. assert (Nq : m_pipe s <> []) by (rewrite Hq; discriminate). rewrite Hq in P. inversion P as [|? ? P1 P2]; subst.
    constructor; cbn [m_parent m_children m_pipe m_calls m_event current]; auto.
  - rewrite Hp in *. destruct L as (L & La).
    set (ch := match c with CBoot | CRun => set_child V s a CKilled | _ => m_children s end).
    assert (Lc : List.length ch = List.length (m_children s)) by (unfold ch, set_child; destruct c; rewrite ?upd_len; reflexivity).
    assert (Fc : forall j d, nth_error ch j = Some d -> finished d).
    { intros j d Hj. destruct (Nat.eq_dec j a) as [->|D].
      - unfold ch in Hj. destruct c; try (rewrite H in Hj; injection Hj as <-; exact Logic.I);
          rewrite (set_child_at s a _ CKilled H) in Hj; injection Hj as <-; exact Logic.I.
      - assert (Hj' : nth_error (m_children s) j = Some d).
        { unfold ch in Hj. destruct c; try exact Hj; apply set_child_inv in Hj; destruct Hj as [(X & _)|(_ & X)]; congruence. }
        apply (F j d Hj'). cbn. congruence. }
    assert (Bc : (m_calls s + boots ch <= List.length ch)%nat).
    { rewrite Lc. unfold ch. destruct c; try exact C; pose proof (boots_upd _ _ _ CKilled H) as B; cbn [boots] in B; unfold set_child; lia. }
    constructor; cbn [m_parent m_children m_pipe m_calls m_event current]; auto; fold ch;
      [lia|intros j d Hj _; exact (Fc j d Hj)|intros j Hj; destruct (Fc j CRun Hj)].
Qed.
Lemma inv_reach s : reachable out s -> inv s.
Proof. unfold reachable. generalize (inv_init). generalize (@mp_init V). intros s0 I0 R. induction R as [|s t u _ IH S]; [exact I0|]. exact (inv_step _ _ (IH I0) S). Qed.
End Proofs.

(** ** Specification *)
(** the item is finished with the message m *)
Definition gives {V} (s : mp V) (m : message V) : Prop := m_parent s = PDone m.

(** ** Theorems *)

(** Whatever the interleaving and the number of processes started, the result of the item is what the function gives on this
    item (its value or its exception), and no process started for the item is still running. *)
Theorem C89_result : forall V (out : outcome V) s m, reachable out s -> gives s m ->
  (match out with OValue v => m = MValue v | OExc e => m = MExc e | _ => False end) /\
  (forall i c, nth_error (m_children s) i = Some c -> c <> CBoot /\ c <> CRun) /\
  (1 <= m_calls s <= 10)%nat.
Proof.
  intros V out s m R G. pose proof (inv_reach V out s R) as [L F P M C E1 Ev Cu Rn]. unfold gives in G. rewrite G in *.
  destruct M as (M & Hc). split; [|split].
  - unfold sent in M. destruct out; congruence.
  - intros i c H. assert (X : finished c) by (apply (F i c H); cbn; discriminate). split; intros ->; exact X.
  - pose proof (boots_le (m_children s)). lia.
Qed.
Print Assumptions C89_result.

(** No blocking: when the function gives a value or an exception which can be sent, the parent can always reach the end of
    the item or the RuntimeError of line 107, from any reachable state. *)
Theorem C89_can_end : forall V (out : outcome V) s, reachable out s -> sent out <> None ->
  exists t, msteps out s t /\ (m_parent t = PFail \/ exists m, gives t m).
Proof.
  intros V out s R HS. destruct (sent out) as [m0|] eqn:Em; [|congruence]. clear HS.
  assert (J : forall s a m, inv V out s -> m_parent s = PJoin a m -> exists t, msteps out s t /\ (m_parent t = PFail \/ exists m, gives t m)).
  { clear s R. intros s a m I Hp. pose proof (i_len V out s I) as L. rewrite Hp in L. destruct L as (L & _).
    destruct (nth_error (m_children s) a) as [c|] eqn:Hc; [|apply nth_error_None in Hc; lia].
    eexists. split; [eapply mtrans; [constructor|exact (MJoin V out s a m c Hp Hc)]|]. right. exists m. reflexivity. }
  assert (Q : forall s a, inv V out s -> m_parent s = PRecv a -> m_pipe s <> [] -> exists t, msteps out s t /\ (m_parent t = PFail \/ exists m, gives t m)).
  { clear s R. intros s a I Hp Hq. destruct (m_pipe s) as [|m rest] eqn:E; [congruence|].
    pose proof (MRecv V out s a m rest Hp E) as S1. destruct (J _ a m (inv_step _ _ _ _ I S1) eq_refl) as (t & T & X).
    exists t. split; [|exact X]. clear - S1 T. induction T as [|u v w T IH S2]; [eapply mtrans; [constructor|exact S1]|eapply mtrans; [apply IH, S1|exact S2]]. }
  assert (T0 : forall s t u, mstep out s t -> msteps out t u -> msteps out s u).
  { intros x y z S1 T. induction T as [|u v w T IH S2]; [eapply mtrans; [constructor|exact S1]|eapply mtrans; [apply IH, S1|exact S2]]. }
  assert (K1 : forall s a, inv V out s -> m_parent s = PRecv a -> nth_error (m_children s) a = Some CRun -> exists t, msteps out s t /\ (m_parent t = PFail \/ exists m, gives t m)).
  { clear s R. intros s a I Hp Hc. pose proof (MSend V out s a m0 Hc Em) as S1.
    destruct (Q _ a (inv_step _ _ _ _ I S1) Hp) as (t & T & X); [cbn; destruct (m_pipe s); discriminate|]. exists t. split; [exact (T0 _ _ _ S1 T)|exact X]. }
  assert (K2 : forall s a, inv V out s -> m_parent s = PRecv a -> nth_error (m_children s) a = Some CBoot -> exists t, msteps out s t /\ (m_parent t = PFail \/ exists m, gives t m)).
  { clear s R. intros s a I Hp Hc. pose proof (MBoot V out s a Hc) as S1.
    destruct (K1 _ a (inv_step _ _ _ _ I S1) Hp) as (t & T & X); [cbn; exact (set_child_at _ _ _ _ _ Hc)|]. exists t. split; [exact (T0 _ _ _ S1 T)|exact X]. }
  assert (K : forall s a, inv V out s -> m_parent s = PRecv a -> exists t, msteps out s t /\ (m_parent t = PFail \/ exists m, gives t m)).
  { clear s R. intros s a I Hp. pose proof (i_cur V out s I) as Cu. rewrite Hp in Cu. destruct (Cu ltac:(congruence)) as [X|[X|X]]; [exact (Q s a I Hp X)|exact (K2 s a I Hp X)|exact (K1 s a I Hp X)]. }
  assert (W : forall n s a, (10 - a <= n)%nat -> inv V out s -> m_parent s = PWait a \/ m_parent s = PTerm a \/ m_parent s = PStart a ->
            exists t, msteps out s t /\ (m_parent t = PFail \/ exists m, gives t m)).
  { clear s R. induction n as [|n IH]; intros s a Hn I Hp.
    { pose proof (i_len V out s I) as L. destruct Hp as [Hp|[Hp|Hp]]; rewrite Hp in L; lia. }
    assert (WT : forall s, inv V out s -> m_parent s = PTerm a -> exists t, msteps out s t /\ (m_parent t = PFail \/ exists m, gives t m)).
    { clear s I Hp. intros s I Hp. pose proof (i_len V out s I) as L. rewrite Hp in L. destruct L as (L & La).
      destruct (nth_error (m_children s) a) as [c|] eqn:Hc; [|apply nth_error_None in Hc; lia].
      pose proof (MTerm V out s a c Hp Hc) as S1. pose proof (inv_step _ _ _ _ I S1) as I1. unfold next_attempt in *. destruct (Nat.ltb_spec (S a) 10).
      - destruct (IH _ (S a) ltac:(lia) I1 (or_intror (or_intror eq_refl))) as (t & T & X). exists t. split; [exact (T0 _ _ _ S1 T)|exact X].
      - eexists. split; [eapply T0; [exact S1|constructor]|]. left. reflexivity. }
    assert (WW : forall s, inv V out s -> m_parent s = PWait a -> exists t, msteps out s t /\ (m_parent t = PFail \/ exists m, gives t m)).
    { clear s I Hp. intros s I Hp. destruct (m_event s) eqn:He.
      - pose proof (MWaitOk V out s a Hp He) as S1. destruct (K _ a (inv_step _ _ _ _ I S1) eq_refl) as (t & T & X). exists t. split; [exact (T0 _ _ _ S1 T)|exact X].
      - pose proof (MWaitNo V out s a Hp He) as S1. destruct (WT _ (inv_step _ _ _ _ I S1) eq_refl) as (t & T & X). exists t. split; [exact (T0 _ _ _ S1 T)|exact X]. }
    destruct Hp as [Hp|[Hp|Hp]]; [exact (WW s I Hp)|exact (WT s I Hp)|].
    pose proof (MStart V out s a Hp) as S1. destruct (WW _ (inv_step _ _ _ _ I S1) eq_refl) as (t & T & X). exists t. split; [exact (T0 _ _ _ S1 T)|exact X]. }
  pose proof (inv_reach V out s R) as I. destruct (m_parent s) as [a|a|a|a|a m|m|] eqn:Hp.
  - apply (W (10 - a)%nat s a); auto.
  - apply (W (10 - a)%nat s a); auto.
  - apply (W (10 - a)%nat s a); auto.
  - apply (K s a I Hp).
  - apply (J s a m I Hp).
  - exists s. split; [constructor|]. right. exists m. exact Hp.
  - exists s. split; [constructor|]. left. exact Hp.
Qed.
Print Assumptions C89_can_end.

Lemma stays_recv V (out : outcome V) : sent out = None -> forall s t, msteps out s t -> inv V out s -> m_parent s = PRecv 0 -> inv V out t /\ m_parent t = PRecv 0.
Proof.
  intros N s t T I0 H0. induction T as [|u v w T IH S]; [split; assumption|]. destruct (IH I0 H0) as (I & Hp). split; [exact (inv_step _ _ _ _ I S)|].
  pose proof (i_pipe V out v I) as P.
  destruct S as [s i H|s i m H Hm|s i H Hm|s a Hp'|s a Hp' He|s a Hp' He|s a c Hp' H|s a m rest Hp' Hq|s a m c Hp' H]; cbn; try congruence.
  rewrite Hq in P. inversion P; subst. congruence.
Qed.

(** A result which cannot be pickled, or a process which dies: the item never ends, and once the parent waits for the message
    it waits for ever. *)
Theorem C89_no_message_refuted : forall V (out : outcome V), sent out = None ->
  (forall s m, reachable out s -> ~ gives s m) /\
  (exists s, reachable out s /\ m_parent s = PRecv 0 /\ forall t, msteps out s t -> m_parent t = PRecv 0).
Proof.
  intros V out N. split.
  - intros s m R G. pose proof (inv_reach V out s R) as I. pose proof (i_msg V out s I) as M. unfold gives in G. rewrite G in M. destruct M. congruence.
  - pose proof (MStart V out mp_init 0 eq_refl) as S1. cbn in S1.
    pose proof (MBoot V out _ 0 (eq_refl : nth_error (m_children (mk_mp false [] [CBoot] (PWait 0) 0 : mp V)) 0 = Some CBoot)) as S2. cbn in S2.
    pose proof (MWaitOk V out _ 0 (eq_refl : m_parent (mk_mp true [] [CRun] (PWait 0) 1 : mp V) = PWait 0) eq_refl) as S3. cbn in S3.
    eexists. assert (R : reachable out (mk_mp true [] [CRun] (PRecv 0) 1 : mp V)).
    { eapply mtrans; [eapply mtrans; [eapply mtrans; [constructor|exact S1]|exact S2]|exact S3]. }
    split; [exact R|]. split; [reflexivity|]. intros t T. exact (proj2 (stays_recv V out N _ _ T (inv_reach V out _ R) eq_refl)).
Qed.
Print Assumptions C89_no_message_refuted.

(** The function can be called several times on one item: the first process sets the event between the end of the wait and
    its termination. *)
Theorem C89_twice_refuted : forall V (v : V), exists s, reachable (OValue v) s /\ gives s (MValue v) /\ m_calls s = 2%nat.
Proof.
  intros V v. exists (mk_mp true [MValue v] [CSent; CSent] (PDone (MValue v)) 2). split; [|split; reflexivity].
  unfold reachable.
  eapply mtrans; [|exact (MJoin V (OValue v) (mk_mp true [MValue v] [CSent; CSent] (PJoin 1 (MValue v)) 2) 1 (MValue v) CSent eq_refl eq_refl)].
  eapply mtrans; [|exact (MRecv V (OValue v) (mk_mp true [MValue v; MValue v] [CSent; CSent] (PRecv 1) 2) 1 (MValue v) [MValue v] eq_refl eq_refl)].
  eapply mtrans; [|exact (MSend V (OValue v) (mk_mp true [MValue v] [CSent; CRun] (PRecv 1) 2) 1 (MValue v) eq_refl eq_refl)].
  eapply mtrans; [|exact (MBoot V (OValue v) (mk_mp true [MValue v] [CSent; CBoot] (PRecv 1) 1) 1 eq_refl)].
  eapply mtrans; [|exact (MWaitOk V (OValue v) (mk_mp true [MValue v] [CSent; CBoot] (PWait 1) 1) 1 eq_refl eq_refl)].
  eapply mtrans; [|exact (MStart V (OValue v) (mk_mp true [MValue v] [CSent] (PStart 1) 1) 1 eq_refl)].
  eapply mtrans; [|exact (MTerm V (OValue v) (mk_mp true [MValue v] [CSent] (PTerm 0) 1) 0 CSent eq_refl eq_refl)].
  eapply mtrans; [|exact (MSend V (OValue v) (mk_mp true [] [CRun] (PTerm 0) 1) 0 (MValue v) eq_refl eq_refl)].
  eapply mtrans; [|exact (MBoot V (OValue v) (mk_mp false [] [CBoot] (PTerm 0) 0) 0 eq_refl)].
  eapply mtrans; [|exact (MWaitNo V (OValue v) (mk_mp false [] [CBoot] (PWait 0) 0) 0 eq_refl eq_refl)].
  eapply mtrans; [|exact (MStart V (OValue v) mp_init 0 eq_refl)]. constructor.
Qed.
Print Assumptions C89_twice_refuted.

(** The check that the process has really started is void after a first attempt: the event set by a terminated process is
    taken for the start of the next one. *)
Theorem C89_stale_event_refuted : forall V (out : outcome V), exists s, reachable out s /\
  m_parent s = PRecv 1 /\ m_children s = [CKilled; CBoot] /\ m_pipe s = [].
Proof.
  intros V out. exists (mk_mp true [] [CKilled; CBoot] (PRecv 1) 1). split; [|repeat split; reflexivity]. unfold reachable.
  eapply mtrans; [|exact (MWaitOk V out (mk_mp true [] [CKilled; CBoot] (PWait 1) 1) 1 eq_refl eq_refl)].
  eapply mtrans; [|exact (MStart V out (mk_mp true [] [CKilled] (PStart 1) 1) 1 eq_refl)].
  eapply mtrans; [|exact (MTerm V out (mk_mp true [] [CRun] (PTerm 0) 1) 0 CRun eq_refl eq_refl)].
  eapply mtrans; [|exact (MBoot V out (mk_mp false [] [CBoot] (PTerm 0) 0) 0 eq_refl)].
  eapply mtrans; [|exact (MWaitNo V out (mk_mp false [] [CBoot] (PWait 0) 0) 0 eq_refl eq_refl)].
  eapply mtrans; [|exact (MStart V out mp_init 0 eq_refl)]. constructor.
Qed.
Print Assumptions C89_stale_event_refuted.

Lemma nth_killed a c rest : nth_error (repeat CKilled a ++ c :: rest) a = Some c.
Proof. rewrite nth_error_app2; rewrite repeat_length; [rewrite Nat.sub_diag; reflexivity|lia]. Qed.
Lemma upd_killed a c d : update_nth a (fun _ => d) (repeat CKilled a ++ [c]) = repeat CKilled a ++ [d].
Proof. induction a as [|a IH]; [reflexivity|]. cbn. f_equal. exact IH. Qed.
Lemma attempts V (out : outcome V) a : (a < 10)%nat -> reachable out (mk_mp false [] (repeat CKilled a) (PStart a) 0).
Proof.
  induction a as [|a IH]; intros L; [constructor|]. unfold reachable in *.
  eapply mtrans; [eapply mtrans; [eapply mtrans; [apply IH; lia|apply (MStart V out _ a); reflexivity]|apply (MWaitNo V out _ a); reflexivity]|].
  cbn [set_parent m_event m_pipe m_children m_parent m_calls].
  pose proof (MTerm V out (mk_mp false [] (repeat CKilled a ++ [CBoot]) (PTerm a) 0) a CBoot eq_refl (nth_killed a CBoot [])) as Sx.
  cbn [m_event m_pipe m_children m_calls] in Sx. unfold set_child in Sx. cbn [m_children] in Sx. rewrite upd_killed in Sx.
  assert (E : repeat CKilled (S a) = repeat CKilled a ++ [CKilled]) by (exact (repeat_cons a CKilled)). rewrite E.
  unfold next_attempt in Sx. destruct (Nat.ltb_spec (S a) 10); [exact Sx|lia].
Qed.

(** RuntimeError "has not started after 10 attempts" although the function has been called on the item and has given its
    value (which is in the pipe). *)
Theorem C89_fail_refuted : forall V (v : V), exists s, reachable (OValue v) s /\ m_parent s = PFail /\ m_pipe s = [MValue v] /\ m_calls s = 1%nat.
Proof.
  intros V v. set (out := OValue v). exists (mk_mp true [MValue v] (repeat CKilled 9 ++ [CSent]) PFail 1). split; [|repeat split; reflexivity]. unfold reachable.
  eapply mtrans; [|exact (MTerm V out (mk_mp true [MValue v] (repeat CKilled 9 ++ [CSent]) (PTerm 9) 1) 9 CSent eq_refl eq_refl)].
  eapply mtrans; [|exact (MSend V out (mk_mp true [] (repeat CKilled 9 ++ [CRun]) (PTerm 9) 1) 9 (MValue v) eq_refl eq_refl)].
  eapply mtrans; [|exact (MBoot V out (mk_mp false [] (repeat CKilled 9 ++ [CBoot]) (PTerm 9) 0) 9 eq_refl)].
  eapply mtrans; [|exact (MWaitNo V out (mk_mp false [] (repeat CKilled 9 ++ [CBoot]) (PWait 9) 0) 9 eq_refl eq_refl)].
  eapply mtrans; [|exact (MStart V out (mk_mp false [] (repeat CKilled 9) (PStart 9) 0) 9 eq_refl)].
  apply attempts. lia.
Qed.
Print Assumptions C89_fail_refuted.

(** It is raised only after ten processes, none of which had set the event at the end of its wait. *)
Theorem C89_fail_partial : forall V (out : outcome V) s, reachable out s -> m_parent s = PFail -> List.length (m_children s) = 10%nat.
Proof. intros V out s R H. pose proof (i_len V out s (inv_reach V out s R)) as L. rewrite H in L. exact L. Qed.
Print Assumptions C89_fail_partial.

(** Example: the usual run *)
Example C89_example : exists s, reachable (OValue 5%Z) s /\ gives s (MValue 5%Z) /\ m_calls s = 1%nat.
Proof.
  set (out := OValue 5%Z). exists (mk_mp true [] [CSent] (PDone (MValue 5%Z)) 1). split; [|split; reflexivity]. unfold reachable.
  eapply mtrans; [|exact (MJoin Z out (mk_mp true [] [CSent] (PJoin 0 (MValue 5%Z)) 1) 0 (MValue 5%Z) CSent eq_refl eq_refl)].
  eapply mtrans; [|exact (MRecv Z out (mk_mp true [MValue 5%Z] [CSent] (PRecv 0) 1) 0 (MValue 5%Z) [] eq_refl eq_refl)].
  eapply mtrans; [|exact (MSend Z out (mk_mp true [] [CRun] (PRecv 0) 1) 0 (MValue 5%Z) eq_refl eq_refl)].
  eapply mtrans; [|exact (MWaitOk Z out (mk_mp true [] [CRun] (PWait 0) 1) 0 eq_refl eq_refl)].
  eapply mtrans; [|exact (MBoot Z out (mk_mp false [] [CBoot] (PWait 0) 0) 0 eq_refl)].
  eapply mtrans; [|exact (MStart Z out mp_init 0 eq_refl)]. constructor.
Qed.

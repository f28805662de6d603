(** C130: the interruption with Ctrl+C.

    During the asynchronous part of a computation no function is called any more, those which
    are being executed are executed to their end, once, and the nursery is left after at most
    one step per task (C130_calls, C130_ends, C130_not_saved).  In a session, a sequential
    computation is interrupted as it should be if no asynchronous executor has been created
    (C130_sequential) or if the last one which has been created has started its asynchronous
    part; otherwise the interruptions are treated as errors of the items and the computation
    goes on to its end (C130_swallowed_refuted, C130_sequential_iff).  An interruption during
    the one shot works of an asynchronous executor raises AttributeError
    (C130_one_shot_refuted).  After an interruption the directory stays locked for the session
    (C130_locked). *)
From Verif Require Import PyBase QueueModel ExecModel SignalModel CtrlCModel.
From Coq Require Import Permutation.

(** ** Specification *)
Section Spec.
Context {V : Type}.

(** the functions being executed in threads: work, key and argument *)
Definition running (s : ast V) : list (nat * nat * V) :=
  flat_map (fun t => match t_st t with Running k v => [(t_work t, k, v)] | Spawned => [] end) (a_tasks s).

(** the calls of functions of items in a trace *)
Definition called (tr : list (event V)) : list (nat * nat * V) :=
  flat_map (fun e => match e with ECall i k v _ => [(i, k, v)] | _ => [] end) tr.
End Spec.

(** ** Proofs for the asynchronous part *)
Section AsyncProofs.
Context {V : Type}.
Variable p : params V.

Record TI (s : ast V) : Prop := mk_TI {
  ti_ids : NoDup (map (@t_id V) (a_tasks s));
  ti_next : forall t, In t (a_tasks s) -> (t_id t < a_next s)%nat;
  ti_work : forall t, In t (a_tasks s) -> exists w inq f, nth_error (p_works p) (t_work t) = Some w /\ w_body w = ItemWork inq f
}.

Definition dropped (id : nat) (ts : list (task V)) := filter (fun t : task V => negb (Nat.eqb (t_id t) id)) ts.

Lemma find_task_In id (s : ast V) t : find_task id s = Some t -> In t (a_tasks s) /\ t_id t = id.
Proof. intros H. apply find_some in H. destruct H as [H1 H2]. split; [exact H1|]. apply Nat.eqb_eq, H2. Qed.

Lemma dropped_running id k v ts : dropped id (map (fun t : task V => if Nat.eqb (t_id t) id then mk_task id (t_work t) (Running k v) else t) ts) = dropped id ts.
Proof.
  induction ts as [|t ts IH]; [reflexivity|]. cbn. destruct (Nat.eqb (t_id t) id) eqn:E; cbn.
  - rewrite Nat.eqb_refl. cbn. exact IH.
  - rewrite E. cbn. unfold dropped in IH. rewrite IH. reflexivity.
Qed.

Lemma dropped_twice id (ts : list (task V)) : dropped id (dropped id ts) = dropped id ts.
Proof.
  induction ts as [|t ts IH]; [reflexivity|]. cbn. destruct (Nat.eqb (t_id t) id) eqn:E; cbn; [exact IH|]. rewrite E. cbn. f_equal. exact IH.
Qed.

Lemma start_shape id (s : ast V) s' : start p id s = Some s' ->
  (exists id' i, find_task id s = Some (mk_task id' i Spawned)) /\
  a_exited s' = a_exited s /\ a_poll_done s' = a_poll_done s /\ a_next s' = a_next s /\
  dropped id (a_tasks s') = dropped id (a_tasks s) /\
  (a_tasks s' = dropped id (a_tasks s) \/ exists k v, a_tasks s' = map (fun t : task V => if Nat.eqb (t_id t) id then mk_task id (t_work t) (Running k v) else t) (a_tasks s)) /\
  (exists evs, a_tr s' = a_tr s ++ evs /\ called evs = []).
Proof.
  unfold start. destruct (find_task id s) as [[id' i st]|] eqn:Ef; [|discriminate]. destruct st; [|discriminate].
  destruct (nth_error (p_works p) i) as [w|]; [|discriminate]. destruct (w_body w) as [inq f|]; [|discriminate]. cbv zeta.
  destruct (q_pop_first _) as [[[k [v|e]] q']|]; intros H; injection H as <-.
  - split; [exists id', i; reflexivity|]. destruct (w_io w); cbn; (repeat split; [apply dropped_running|right; exists k, v; reflexivity|exists []; split; [symmetry; apply app_nil_r|reflexivity]]).
  - split; [exists id', i; reflexivity|]. destruct (w_out w) as [o|]; destruct (w_io w); cbn;
      (repeat split; [apply dropped_twice|left; reflexivity|eexists; split; [first [symmetry; apply app_nil_r|reflexivity]|reflexivity]]).
  - split; [exists id', i; reflexivity|]. destruct (w_io w); cbn;
      (repeat split; [apply dropped_twice|left; reflexivity|exists []; split; [symmetry; apply app_nil_r|reflexivity]]).
Qed.

Lemma finish_shape id (s : ast V) s' : finish p id s = Some s' ->
  exists id' i k v w inq f, find_task id s = Some (mk_task id' i (Running k v)) /\ nth_error (p_works p) i = Some w /\ w_body w = ItemWork inq f /\
  a_exited s' = a_exited s /\ a_poll_done s' = a_poll_done s /\ a_next s' = a_next s /\
  dropped id (a_tasks s') = dropped id (a_tasks s) /\ (a_tasks s' = dropped id (a_tasks s) \/ a_tasks s' = a_tasks s) /\
  a_tr s' = a_tr s ++ [ECall i k v (f k v)].
Proof.
  unfold finish. destruct (find_task id s) as [[id' i st]|] eqn:Ef; [|discriminate]. destruct st as [|k v]; [discriminate|].
  destruct (nth_error (p_works p) i) as [w|] eqn:Ew; [|discriminate]. destruct (w_body w) as [inq f|] eqn:Eb; [|discriminate]. cbv zeta.
  intros H. exists id', i, k, v, w, inq, f. split; [reflexivity|]. split; [exact Ew|]. split; [exact Eb|].
  destruct (f k v) as [r|e]; [|destruct (p_stop_if_error p)]; injection H as <-;
    try destruct (w_io w); cbn; repeat split; try apply dropped_twice; try reflexivity; first [left; reflexivity|right; reflexivity].
Qed.

Lemma dropped_ids id (ts : list (task V)) : NoDup (map (@t_id V) ts) -> NoDup (map (@t_id V) (dropped id ts)).
Proof.
  induction ts as [|t ts IH]; [constructor|]. cbn. intros H. inversion_clear H as [|? ? H1 H2].
  destruct (negb _); [cbn; constructor; [|apply IH, H2]|apply IH, H2].
  intros Hin. apply H1. apply in_map_iff in Hin. destruct Hin as (t' & Ht & Hin). apply filter_In in Hin. apply in_map_iff. exists t'. split; [exact Ht|apply Hin].
Qed.

Lemma running_map_ids id k v (ts : list (task V)) : map (@t_id V) (map (fun t : task V => if Nat.eqb (t_id t) id then mk_task id (t_work t) (Running k v) else t) ts) = map (@t_id V) ts.
Proof. rewrite map_map. apply map_ext. intros t. destruct (Nat.eqb (t_id t) id) eqn:E; [|reflexivity]. apply Nat.eqb_eq in E. cbn. congruence. Qed.

(** invariants depend on the tasks only *)
Lemma TI_tasks s s' : TI s -> a_next s' = a_next s -> a_tasks s' = a_tasks s -> TI s'.
Proof. intros [H1 H2 H3] Hn Ht. constructor; rewrite Ht; try assumption. rewrite Hn. exact H2. Qed.

Lemma TI_dropped id s s' : TI s -> a_next s' = a_next s -> a_tasks s' = dropped id (a_tasks s) -> TI s'.
Proof.
  intros [H1 H2 H3] Hn Ht. constructor; rewrite Ht.
  - apply dropped_ids, H1.
  - intros t HI. rewrite Hn. apply H2. apply filter_In in HI. apply HI.
  - intros t HI. apply H3. apply filter_In in HI. apply HI.
Qed.

Lemma TI_running id k v s s' : TI s -> a_next s' = a_next s ->
  a_tasks s' = map (fun t : task V => if Nat.eqb (t_id t) id then mk_task id (t_work t) (Running k v) else t) (a_tasks s) -> TI s'.
Proof.
  intros [H1 H2 H3] Hn Ht. constructor; rewrite Ht.
  - rewrite running_map_ids. exact H1.
  - intros t HI. rewrite Hn. apply in_map_iff in HI. destruct HI as (t0 & Hb & HI). specialize (H2 t0 HI).
    destruct (Nat.eqb (t_id t0) id) eqn:E; subst t; cbn; [apply Nat.eqb_eq in E; lia|exact H2].
  - intros t HI. apply in_map_iff in HI. destruct HI as (t0 & Hb & HI). specialize (H3 t0 HI).
    destruct (Nat.eqb (t_id t0) id); subst t; cbn; exact H3.
Qed.

Lemma check_shape i s s' : check p i s = Some s' ->
  a_exited s i = false /\
  ((a_tasks s' = a_tasks s /\ a_next s' = a_next s) \/
   (a_tasks s' = a_tasks s ++ [mk_task (a_next s) i Spawned] /\ a_next s' = S (a_next s) /\
    exists w inq f, nth_error (p_works p) i = Some w /\ w_body w = ItemWork inq f)) /\
  (exists evs, a_tr s' = a_tr s ++ evs /\ called evs = []).
Proof.
  unfold check. destruct (a_exited s i); [discriminate|]. destruct (nth_error (p_works p) i) as [w|] eqn:Ew; [|discriminate].
  intros H. split; [reflexivity|]. destruct (w_body w) as [inq f|ready g] eqn:Eb.
  - match type of H with context [if ?c then _ else _] => destruct c end; [destruct (a_stop s)|]; injection H as <-; cbn.
    1, 2: (split; [left; split; reflexivity|exists []; split; [symmetry; apply app_nil_r|reflexivity]]).
    split; [right; repeat split; exists w, inq, f; auto|exists []; split; [symmetry; apply app_nil_r|reflexivity]].
  - destruct (ready (a_qs s)).
    + destruct (g (a_qs s)); [destruct (a_stop s)|]; injection H as <-; cbn;
        (split; [left; split; reflexivity|eexists; split; [first [symmetry; apply app_nil_r|reflexivity]|reflexivity]]).
    + destruct (a_stop s); injection H as <-; cbn;
        (split; [left; split; reflexivity|exists []; split; [symmetry; apply app_nil_r|reflexivity]]).
Qed.

Lemma TI_spawned s i : TI s -> (exists w inq f, nth_error (p_works p) i = Some w /\ w_body w = ItemWork inq f) ->
  forall s', a_tasks s' = a_tasks s ++ [mk_task (a_next s) i Spawned] -> a_next s' = S (a_next s) -> TI s'.
Proof.
  intros [H1 H2 H3] Hw s' Ht Hn. constructor; rewrite Ht.
  - rewrite map_app. cbn. apply NoDup_rev in H1. rewrite <- (rev_involutive (_ ++ _)), rev_app_distr. apply NoDup_rev. cbn. constructor; [|exact H1].
    rewrite <- in_rev. intros Hin. apply in_map_iff in Hin. destruct Hin as (t & He & Hin). specialize (H2 t Hin). lia.
  - intros t HI. rewrite Hn. apply in_app_or in HI. destruct HI as [HI|[<-|[]]]; [specialize (H2 t HI); lia|cbn; lia].
  - intros t HI. apply in_app_or in HI. destruct HI as [HI|[<-|[]]]; [apply H3, HI|cbn; exact Hw].
Qed.

Lemma TI_step s l s' : TI s -> step p s l = Some s' -> TI s'.
Proof.
  intros HT HS. unfold step in HS. destruct (a_raised s); [discriminate|]. destruct l as [i|id|id|].
  - destruct (check_shape _ _ _ HS) as (_ & [(Ht & Hn)|(Ht & Hn & Hw)] & _); [eapply TI_tasks; eassumption|eapply TI_spawned; eassumption].
  - destruct (start_shape _ _ _ HS) as (_ & _ & _ & Hn & _ & [Ht|(k & v & Ht)] & _); [eapply TI_dropped; eassumption|eapply TI_running; eassumption].
  - destruct (finish_shape _ _ _ HS) as (id' & i & k & v & w & inq & f & _ & _ & _ & _ & _ & Hn & _ & [Ht|Ht] & _); [eapply TI_dropped; eassumption|eapply TI_tasks; eassumption].
  - unfold poll in HS. destruct (a_poll_done s); [discriminate|]. destruct (a_stop s); injection HS as <-; eapply TI_tasks; try exact HT; reflexivity.
Qed.

Lemma TI_reachable qs s : reachable p (init qs) s -> TI s.
Proof.
  induction 1 as [|s l s' _ IH HS]; [|eapply TI_step; eassumption].
  constructor; cbn; [constructor|intros t []|intros t []].
Qed.

Definition run1 (t : task V) : list (nat * nat * V) := match t_st t with Running k v => [(t_work t, k, v)] | Spawned => [] end.

(** a task which is removed *)
Lemma dropped_perm id t (ts : list (task V)) : NoDup (map (@t_id V) ts) -> find (fun t : task V => Nat.eqb (t_id t) id) ts = Some t ->
  Permutation (flat_map run1 ts) (run1 t ++ flat_map run1 (dropped id ts)) /\ List.length ts = S (List.length (dropped id ts)).
Proof.
  induction ts as [|t0 ts IH]; [discriminate|]. cbn [find map]. intros HN HF. inversion_clear HN as [|? ? Hn HN'].
  destruct (Nat.eqb (t_id t0) id) eqn:E.
  - injection HF as ->. cbn [flat_map dropped filter]. rewrite E. cbn [negb].
    assert (Hd : dropped id ts = ts).
    { apply Nat.eqb_eq in E. subst id. clear -Hn. induction ts as [|t1 ts IH]; [reflexivity|]. cbn. cbn in Hn.
      destruct (Nat.eqb (t_id t1) (t_id t)) eqn:E; [apply Nat.eqb_eq in E; exfalso; apply Hn; left; exact E|]. cbn. f_equal. apply IH. tauto. }
    fold (dropped id ts). rewrite Hd. split; [reflexivity|reflexivity].
  - destruct (IH HN' HF) as [HP HL]. cbn [flat_map dropped filter]. rewrite E. cbn [negb flat_map]. fold (dropped id ts). split; [|cbn; congruence].
    rewrite HP. rewrite !app_assoc. apply Permutation_app_tail, Permutation_app_comm.
Qed.

Lemma cstep_effect s l s' : TI s -> cstep p s l = Some s' ->
  TI s' /\ (exists evs, a_tr s' = a_tr s ++ evs /\ Permutation (running s) (called evs ++ running s')) /\
  ((exists i, (i < List.length (p_works p))%nat /\ a_exited s i = false /\ a_exited s' = upd (a_exited s) i true /\ a_tasks s' = a_tasks s /\ a_poll_done s' = a_poll_done s) \/
   (a_exited s' = a_exited s /\ List.length (a_tasks s) = S (List.length (a_tasks s')) /\ a_poll_done s' = a_poll_done s) \/
   (a_exited s' = a_exited s /\ a_tasks s' = a_tasks s /\ a_poll_done s = false /\ a_poll_done s' = true)).
Proof.
  intros HT HS. destruct l as [i|id|id|]; cbn [cstep] in HS.
  - destruct (a_exited s i) eqn:Ee; [discriminate|]. destruct (i <? List.length (p_works p))%nat eqn:El; [|discriminate]. injection HS as <-.
    split; [eapply TI_tasks; try exact HT; reflexivity|]. split; [exists []; split; [symmetry; apply app_nil_r|reflexivity]|].
    left. exists i. apply Nat.ltb_lt in El. cbn. auto.
  - destruct (start p id s) as [s1|] eqn:E; [|discriminate]. injection HS as <-.
    destruct (start_shape _ _ _ E) as ((id' & i & Hf) & He & Hp & Hn & Hd & _ & evs & Htr & Hc).
    destruct (find_task_In _ _ _ Hf) as [_ Hid]. cbn in Hid. subst id'.
    destruct (dropped_perm id _ (a_tasks s) (ti_ids _ HT) Hf) as [HP HL]. cbn [run1 t_st app] in HP.
    assert (Ht : a_tasks (remove_task id s1) = dropped id (a_tasks s)) by (cbn; exact Hd).
    split; [eapply TI_dropped; [exact HT| |exact Ht]; cbn; exact Hn|]. split.
    + exists evs. split; [cbn; exact Htr|]. rewrite Hc. cbn [app]. unfold running. rewrite Ht. exact HP.
    + right. left. rewrite Ht. cbn. auto.
  - destruct (finish p id s) as [s1|] eqn:E; [|discriminate]. injection HS as <-.
    destruct (finish_shape _ _ _ E) as (id' & i & k & v & w & inq & f & Hf & Hw & Hb & He & Hp & Hn & Hd & _ & Htr).
    destruct (find_task_In _ _ _ Hf) as [_ Hid]. cbn in Hid. subst id'.
    destruct (dropped_perm id _ (a_tasks s) (ti_ids _ HT) Hf) as [HP HL]. cbn [run1 t_st app] in HP.
    assert (Ht : a_tasks (remove_task id s1) = dropped id (a_tasks s)) by (cbn; exact Hd).
    split; [eapply TI_dropped; [exact HT| |exact Ht]; cbn; exact Hn|]. split.
    + exists [ECall i k v (f k v)]. split; [cbn; exact Htr|]. cbn [called flat_map app]. unfold running. rewrite Ht. exact HP.
    + right. left. rewrite Ht. cbn. auto.
  - destruct (a_poll_done s) eqn:Ep; [discriminate|]. injection HS as <-.
    split; [eapply TI_tasks; try exact HT; reflexivity|]. split; [exists []; split; [symmetry; apply app_nil_r|reflexivity]|].
    right. right. cbn. auto.
Qed.

Lemma interrupt_effect s s' : TI s -> interrupt p s s' ->
  TI s' /\ (exists evs, a_tr s' = a_tr s ++ evs /\ Permutation (running s) (called evs ++ running s')) /\
  (List.length (a_tasks s') <= S (List.length (a_tasks s)))%nat.
Proof.
  intros HT H. destruct H as [i s1 He Hl Hs1|i w ready g qs He Hw Hb Hr|id i s1 Hf Hs1|id i k v w inq f s1 Hf Hw Hb Hs1|Hp].
  - destruct Hs1 as [->|Hc].
    + split; [eapply TI_tasks; try exact HT; reflexivity|]. split; [exists []; split; [symmetry; apply app_nil_r|reflexivity]|cbn; lia].
    + destruct (check_shape _ _ _ Hc) as (_ & [(Ht & Hn)|(Ht & Hn & Hw)] & evs & Htr & Hcl).
      * split; [eapply TI_tasks; try exact HT; cbn; assumption|]. split; [exists evs; split; [cbn; exact Htr|]|cbn; rewrite Ht; lia].
        rewrite Hcl. unfold running. cbn. rewrite Ht. reflexivity.
      * split; [eapply TI_spawned; try exact HT; try eassumption; cbn; assumption|]. split; [exists evs; split; [cbn; exact Htr|]|cbn; rewrite Ht, app_length; cbn; lia].
        rewrite Hcl. unfold running. cbn. rewrite Ht, flat_map_app. cbn. rewrite app_nil_r. reflexivity.
  - split; [eapply TI_tasks; try exact HT; reflexivity|]. split; [exists []; split; [symmetry; apply app_nil_r|reflexivity]|cbn; lia].
  - destruct (dropped_perm id _ (a_tasks s) (ti_ids _ HT) Hf) as [HP HL]. cbn [run1 t_st app] in HP.
    assert (HX : a_next s1 = a_next s /\ dropped id (a_tasks s1) = dropped id (a_tasks s) /\ exists evs, a_tr s1 = a_tr s ++ evs /\ called evs = []).
    { destruct Hs1 as [->|HS]; [repeat split; exists []; split; [symmetry; apply app_nil_r|reflexivity]|].
      destruct (start_shape _ _ _ HS) as (_ & _ & _ & Hn & Hd & _ & He). auto. }
    destruct HX as (Hn & Hd & evs & Htr & Hc).
    assert (Ht : a_tasks (remove_task id (receive s1)) = dropped id (a_tasks s)) by (cbn; exact Hd).
    split; [eapply TI_dropped; [exact HT| |exact Ht]; cbn; exact Hn|]. split; [|rewrite Ht; lia].
    exists evs. split; [cbn; exact Htr|]. rewrite Hc. cbn [app]. unfold running. rewrite Ht. exact HP.
  - destruct (dropped_perm id _ (a_tasks s) (ti_ids _ HT) Hf) as [HP HL]. cbn [run1 t_st app] in HP.
    assert (HX : a_next s1 = a_next s /\ dropped id (a_tasks s1) = dropped id (a_tasks s) /\ a_tr s1 = a_tr s ++ [ECall i k v (f k v)]).
    { destruct Hs1 as [->|HS]; [repeat split|].
      destruct (finish_shape _ _ _ HS) as (id' & i' & k' & v' & w' & inq' & f' & Hf' & Hw' & Hb' & _ & _ & Hn & Hd & _ & Htr).
      rewrite Hf' in Hf. injection Hf as <- <- <- <-. rewrite Hw' in Hw. injection Hw as <-. rewrite Hb' in Hb. injection Hb as <- <-. auto. }
    destruct HX as (Hn & Hd & Htr).
    assert (Ht : a_tasks (remove_task id (receive s1)) = dropped id (a_tasks s)) by (cbn; exact Hd).
    split; [eapply TI_dropped; [exact HT| |exact Ht]; cbn; exact Hn|]. split; [|rewrite Ht; lia].
    exists [ECall i k v (f k v)]. split; [cbn; exact Htr|]. cbn [called flat_map app]. unfold running. rewrite Ht. exact HP.
  - split; [eapply TI_tasks; try exact HT; reflexivity|]. split; [exists []; split; [symmetry; apply app_nil_r|reflexivity]|cbn; lia].
Qed.

Definition loops (s : ast V) : nat := List.length (filter (fun i => negb (a_exited s i)) (seq 0 (List.length (p_works p)))).
Definition measure (s : ast V) : nat := (loops s + List.length (a_tasks s) + (if a_poll_done s then 0 else 1))%nat.

Lemma filter_upd (e : nat -> bool) i l : NoDup l -> In i l -> e i = false ->
  List.length (filter (fun j => negb (e j)) l) = S (List.length (filter (fun j => negb (upd e i true j)) l)).
Proof.
  intros HN HI He. induction l as [|j l IH]; [destruct HI|]. inversion_clear HN as [|? ? Hj HN']. cbn. unfold upd at 1.
  destruct (Nat.eqb j i) eqn:E.
  - apply Nat.eqb_eq in E. subst j. rewrite He. cbn. f_equal. f_equal. apply filter_ext_in. intros j Hjl. unfold upd.
    destruct (Nat.eqb j i) eqn:E; [apply Nat.eqb_eq in E; subst j; contradiction|reflexivity].
  - destruct HI as [->|HI]; [rewrite Nat.eqb_refl in E; discriminate|]. specialize (IH HN' HI). destruct (e j); cbn; congruence.
Qed.

Lemma cstep_measure s l s' : TI s -> cstep p s l = Some s' -> measure s = S (measure s').
Proof.
  intros HT HS. destruct (cstep_effect _ _ _ HT HS) as (_ & _ & [(i & Hi & He & He' & Ht & Hp)|[(He & Hl & Hp)|(He & Ht & Hp & Hp')]]); unfold measure, loops.
  - rewrite He', Ht, Hp. rewrite (filter_upd (a_exited s) i); [lia|apply seq_NoDup|apply in_seq; lia|exact He].
  - rewrite He, Hl, Hp. lia.
  - rewrite He, Ht, Hp, Hp'. lia.
Qed.

Lemma loops_le s : (loops s <= List.length (p_works p))%nat.
Proof.
  unfold loops. rewrite <- (seq_length (List.length (p_works p)) 0) at 2. generalize (seq 0 (List.length (p_works p))). intros l.
  induction l as [|j l IH]; [apply le_n|]. cbn. destruct (negb _); cbn; lia.
Qed.

Lemma cstep_progress s : TI s -> ended p s \/ exists l s', cstep p s l = Some s'.
Proof.
  intros HT. destruct (a_tasks s) as [|t ts] eqn:Ht.
  - destruct (a_poll_done s) eqn:Ep; [|right; exists LPoll; cbn; rewrite Ep; eexists; reflexivity].
    destruct (find (fun i => negb (a_exited s i)) (seq 0 (List.length (p_works p)))) as [i|] eqn:Ef.
    + right. apply find_some in Ef. destruct Ef as [Hin He]. apply in_seq in Hin. exists (LCheck i). cbn [cstep].
      destruct (a_exited s i); [discriminate|]. destruct (Nat.ltb_spec i (List.length (p_works p))); [eexists; reflexivity|lia].
    + left. split; [|split; assumption]. intros i Hi. assert (Hin : In i (seq 0 (List.length (p_works p)))) by (apply in_seq; lia).
      apply (find_none _ _ Ef) in Hin. destruct (a_exited s i); [reflexivity|discriminate].
  - right. destruct (ti_work _ HT t) as (w & inq & f & Hw & Hb); [rewrite Ht; left; reflexivity|].
    destruct t as [id i [|k v]]; cbn in Hw.
    + exists (LStart id). cbn. unfold start, find_task. rewrite Ht. cbn [find t_id]. rewrite Nat.eqb_refl, Hw, Hb.
      cbv zeta. destruct (q_pop_first _) as [[[k [v|e]] q']|]; eexists; reflexivity.
    + exists (LFinish id). cbn. unfold finish, find_task. rewrite Ht. cbn [find t_id]. rewrite Nat.eqb_refl, Hw, Hb. cbv zeta.
      destruct (f k v); [|destruct (p_stop_if_error p)]; eexists; reflexivity.
Qed.

Lemma cexec_effect s n s' : TI s -> cexec p s n s' ->
  TI s' /\ (exists evs, a_tr s' = a_tr s ++ evs /\ Permutation (running s) (called evs ++ running s')) /\ measure s = (n + measure s')%nat.
Proof.
  intros HT. induction 1 as [|n s1 l s2 _ IH HS]; [split; [exact HT|split; [exists []; split; [symmetry; apply app_nil_r|reflexivity]|reflexivity]]|].
  destruct IH as (HT1 & (evs & Htr & HP) & Hm). destruct (cstep_effect _ _ _ HT1 HS) as (HT2 & (evs' & Htr' & HP') & _).
  split; [exact HT2|]. split; [|rewrite Hm, (cstep_measure _ _ _ HT1 HS); lia].
  exists (evs ++ evs'). split; [rewrite Htr', Htr, app_assoc; reflexivity|].
  rewrite HP, HP'. unfold called. rewrite flat_map_app, app_assoc. reflexivity.
Qed.

End AsyncProofs.

(** ** The asynchronous part *)

(** After Ctrl+C no function of a work is called any more; each function which was being
    executed is executed to its end, once: the calls recorded after the interruption, with those
    still being executed, are exactly the functions which were being executed.  For every
    topology, every execution before and after and every instant of the interruption. *)
Theorem C130_calls :
  forall (V : Type) (p : params V) (qs : queues V) (s s1 s' : ast V) (n : nat),
  reachable p (init qs) s -> interrupt p s s1 -> cexec p s1 n s' ->
  exists evs, a_tr s' = a_tr s ++ evs /\ Permutation (running s) (called evs ++ running s') /\
    (ended p s' -> Permutation (running s) (called evs)).
Proof.
  intros V p qs s s1 s' n HR HI HC. pose proof (TI_reachable p qs s HR) as HT.
  destruct (interrupt_effect p s s1 HT HI) as (HT1 & (evs & Htr & HP) & _).
  destruct (cexec_effect p s1 n s' HT1 HC) as (_ & (evs' & Htr' & HP') & _).
  exists (evs ++ evs'). split; [rewrite Htr', Htr, app_assoc; reflexivity|].
  assert (H : Permutation (running s) (called (evs ++ evs') ++ running s')).
  { rewrite HP, HP'. unfold called. rewrite flat_map_app, app_assoc. reflexivity. }
  split; [exact H|]. intros (_ & Ht & _). unfold running at 2 in H. rewrite Ht in H. cbn in H. rewrite app_nil_r in H. exact H.
Qed.
Print Assumptions C130_calls.

(** The computation ends as soon as these functions are finished: whatever the order, at most
    one step for each loop, each task and the surveillance of the end, and there is always a
    step to do before the end. *)
Theorem C130_ends :
  forall (V : Type) (p : params V) (qs : queues V) (s s1 s' : ast V) (n : nat),
  reachable p (init qs) s -> interrupt p s s1 -> cexec p s1 n s' ->
  (n <= List.length (p_works p) + List.length (a_tasks s) + 2)%nat /\
  (ended p s' \/ exists l s2, cstep p s' l = Some s2).
Proof.
  intros V p qs s s1 s' n HR HI HC. pose proof (TI_reachable p qs s HR) as HT.
  destruct (interrupt_effect p s s1 HT HI) as (HT1 & _ & Hl).
  destruct (cexec_effect p s1 n s' HT1 HC) as (HT' & _ & Hm).
  split; [|apply cstep_progress, HT'].
  unfold measure in Hm. pose proof (loops_le p s1). destruct (a_poll_done s1), (a_poll_done s'); lia.
Qed.
Print Assumptions C130_ends.

(** The results which wait before a work (for example to be saved) are not given to this work,
    unless its function was already being executed on them. *)
Theorem C130_not_saved :
  forall (V : Type) (p : params V) (qs : queues V) (s s1 s' : ast V) (n i k : nat),
  reachable p (init qs) s -> interrupt p s s1 -> cexec p s1 n s' ->
  (forall v, ~ In (i, k, v) (running s)) ->
  forall v, In (i, k, v) (called (a_tr s')) -> In (i, k, v) (called (a_tr s)).
Proof.
  intros V p qs s s1 s' n i k HR HI HC Hno v Hin. destruct (C130_calls V p qs s s1 s' n HR HI HC) as (evs & Htr & HP & _).
  rewrite Htr in Hin. unfold called in Hin. rewrite flat_map_app in Hin. apply in_app_or in Hin. destruct Hin as [Hin|Hin]; [exact Hin|].
  exfalso. apply (Hno v). eapply Permutation_in; [symmetry; exact HP|]. apply in_or_app. left. exact Hin.
Qed.
Print Assumptions C130_not_saved.

(** ** A session *)

(** the calls which are expected when Ctrl+C stops the computation: up to the first one which is
    interrupted *)
Fixpoint until_interrupted (l : list (call * bool)) : list call :=
  match l with
  | [] => []
  | (c, true) :: _ => [c]
  | (c, false) :: l => c :: until_interrupted l
  end.

Definition interrupted (l : list (call * bool)) : Prop := exists c, In (c, true) l.

(** an interrupted computation has been stopped: nothing is called after the interrupted call and
    compute raises an exception *)
Definition stopped (l : list (call * bool)) (o : outcome) : Prop :=
  o_calls o = until_interrupted l /\ o_raised o <> None.

Lemma run_works_keyboard h sie l : sigint h = KeyboardInterrupt -> interrupted l ->
  run_works h sie l = mk_outcome (until_interrupted l) [] (Some KeyboardInterrupt).
Proof.
  intros Hh. induction l as [|[c b] l IH]; intros (c0 & HI); [destruct HI|]. cbn. destruct b.
  - rewrite Hh. cbn. destruct c; reflexivity.
  - destruct HI as [HI|HI]; [discriminate|]. rewrite IH; [reflexivity|exists c0; exact HI].
Qed.

Definition is_sequential (c : computation) : Prop := match c with Sequential _ _ _ _ => True | _ => False end.

Lemma after_sequential l : forall s, Forall is_sequential l -> se_handler (after s l) = se_handler s.
Proof.
  induction l as [|c l IH]; intros s HF; [reflexivity|]. inversion_clear HF as [|? ? H1 H2]. cbn [after]. rewrite IH by exact H2.
  destruct c as [d sie os calls|]; [|destruct H1]. unfold compute. destruct (existsb _ _); [reflexivity|]. cbv zeta. cbn [dir_of]. destruct (one_shot_works _ _); reflexivity.
Qed.

(** If only sequential computations have been done, Ctrl+C during a call stops a sequential
    computation at once, with KeyboardInterrupt. *)
Theorem C130_sequential l d sie os calls :
  Forall is_sequential l -> ~ In d (se_locks (after new_session l)) -> ~ In true os -> interrupted calls ->
  snd (compute (after new_session l) (Sequential d sie os calls)) = mk_outcome (until_interrupted calls) [] (Some KeyboardInterrupt).
Proof.
  intros HF Hd Ho Hi. unfold compute. cbn [dir_of].
  destruct (existsb (Nat.eqb d) _) eqn:E; [apply existsb_exists in E; destruct E as (x & Hx & E); apply Nat.eqb_eq in E; subst x; contradiction|].
  cbv zeta. rewrite after_sequential by exact HF. cbn [new_session se_handler].
  replace (one_shot_works HDefault os) with (@None exn); [cbn [snd]; apply run_works_keyboard; [reflexivity|exact Hi]|].
  clear -Ho. induction os as [|b os IH]; [reflexivity|]. cbn. destruct b; [exfalso; apply Ho; left; reflexivity|]. apply IH. intros H. apply Ho. right. exact H.
Qed.
Print Assumptions C130_sequential.

(** The last asynchronous computation of a history has not begun its asynchronous part: it has
    been interrupted during a one shot work, or refused because of the lock of its directory. *)
Definition unopened (s0 : session) (l : list computation) : Prop :=
  exists l1 d os b l2, l = l1 ++ Asynchronous d os b :: l2 /\ Forall is_sequential l2 /\
    (In d (se_locks (after s0 l1)) \/ In true os).

Lemma one_shot_true h os : In true os -> one_shot_works h os = Some (sigint h).
Proof. induction os as [|[] os IH]; intros H; [destruct H|reflexivity|]. destruct H as [H|H]; [discriminate|]. cbn. apply IH, H. Qed.
Lemma one_shot_false h os : ~ In true os -> one_shot_works h os = None.
Proof. induction os as [|[] os IH]; intros H; [reflexivity|exfalso; apply H; left; reflexivity|]. cbn. apply IH. intros HI. apply H. right. exact HI. Qed.

Lemma existsb_In d l : existsb (Nat.eqb d) l = true <-> In d l.
Proof.
  split; [intros H; apply existsb_exists in H; destruct H as (x & Hx & E); apply Nat.eqb_eq in E; subst x; exact Hx|].
  intros H. apply existsb_exists. exists d. split; [exact H|apply Nat.eqb_refl].
Qed.

Lemma after_app s l1 l2 : after s (l1 ++ l2) = after (after s l1) l2.
Proof. revert s. induction l1 as [|c l1 IH]; intros s; [reflexivity|]. cbn. apply IH. Qed.

Lemma handler_async s d os b : se_handler (fst (compute s (Asynchronous d os b))) = HExec false <-> (In d (se_locks s) \/ In true os).
Proof.
  unfold compute. cbn [dir_of]. destruct (existsb (Nat.eqb d) (se_locks s)) eqn:E.
  - cbn. apply existsb_In in E. split; [intros _; left; exact E|reflexivity].
  - assert (Hd : ~ In d (se_locks s)) by (rewrite <- existsb_In, E; discriminate). cbv zeta.
    destruct (in_dec Bool.bool_dec true os) as [Ho|Ho].
    + rewrite one_shot_true by exact Ho. cbn. split; [intros _; right; exact Ho|reflexivity].
    + rewrite one_shot_false by exact Ho. destruct b; cbn; (split; [discriminate|tauto]).
Qed.

Lemma split_last_async l : Forall is_sequential l \/ exists l1 d os b l2, l = l1 ++ Asynchronous d os b :: l2 /\ Forall is_sequential l2.
Proof.
  induction l as [|c l IH]; [left; constructor|]. destruct IH as [IH|(l1 & d & os & b & l2 & -> & HF)].
  - destruct c as [d sie os calls|d os b]; [left; constructor; [exact I|exact IH]|right; exists [], d, os, b, l; split; [reflexivity|exact IH]].
  - right. exists (c :: l1), d, os, b, l2. split; [reflexivity|exact HF].
Qed.

Lemma after_handler s0 l : se_handler s0 = HDefault -> (se_handler (after s0 l) = HExec false <-> unopened s0 l).
Proof.
  intros H0. destruct (split_last_async l) as [HF|(l1 & d & os & b & l2 & -> & HF)].
  - rewrite after_sequential by exact HF. rewrite H0. split; [discriminate|].
    intros (l1 & d & os & b & l2 & -> & _). apply Forall_app in HF. destruct HF as [_ HF]. inversion_clear HF as [|? ? H _]. destruct H.
  - rewrite after_app. cbn [after]. rewrite after_sequential by exact HF. rewrite handler_async. split.
    + intros H. exists l1, d, os, b, l2. auto.
    + intros (l1' & d' & os' & b' & l2' & Heq & HF' & H).
      assert (HE : l1 = l1' /\ d = d' /\ os = os').
      { clear -Heq HF HF'. revert l1' Heq. induction l1 as [|c l1 IH]; intros [|c' l1'] Heq; cbn in Heq.
        - injection Heq as -> -> -> ->. auto.
        - injection Heq as <- ->. apply Forall_app in HF. destruct HF as [_ HF]. inversion_clear HF as [|? ? H _]. destruct H.
        - injection Heq as -> <-. apply Forall_app in HF'. destruct HF' as [_ HF']. inversion_clear HF' as [|? ? H _]. destruct H.
        - injection Heq as <- Heq. destruct (IH _ Heq) as (-> & -> & ->). auto. }
      destruct HE as (-> & -> & ->). exact H.
Qed.

(** the keys of the interrupted calls *)
Definition keys_interrupted (l : list (call * bool)) : list nat :=
  flat_map (fun cb => match cb with (CItem k, true) => [k] | _ => [] end) l.

Definition only_items_interrupted (l : list (call * bool)) : Prop := forall w, ~ In (CGlobal w, true) l.

Lemma run_works_swallow l : only_items_interrupted l -> run_works (HExec false) false l = mk_outcome (map fst l) (keys_interrupted l) None.
Proof.
  induction l as [|[c b] l IH]; intros H; [reflexivity|]. cbn.
  assert (Hl : only_items_interrupted l) by (intros w HI; apply (H w); right; exact HI).
  destruct b.
  - destruct c as [k|w]; [|exfalso; apply (H w); left; reflexivity]. cbn. rewrite IH by exact Hl. reflexivity.
  - rewrite IH by exact Hl. cbn. destruct c; reflexivity.
Qed.

(** REFUTED: Ctrl+C stops a sequential computation.  After an asynchronous computation which has
    been interrupted before its asynchronous part (or refused because of a lock), all the items
    of a sequential computation are computed, whatever the number of interruptions; those during
    which Ctrl+C is pressed are considered as failed, and compute returns normally. *)
Theorem C130_swallowed_refuted l d os calls :
  unopened new_session l -> ~ In d (se_locks (after new_session l)) -> ~ In true os -> only_items_interrupted calls ->
  snd (compute (after new_session l) (Sequential d false os calls)) = mk_outcome (map fst calls) (keys_interrupted calls) None.
Proof.
  intros Hu Hd Ho Hi. apply (after_handler new_session l eq_refl) in Hu. unfold compute. cbn [dir_of].
  destruct (existsb (Nat.eqb d) _) eqn:E; [apply existsb_In in E; contradiction|]. cbv zeta. rewrite Hu, one_shot_false by exact Ho. cbn [snd].
  apply run_works_swallow, Hi.
Qed.
Print Assumptions C130_swallowed_refuted.

(** When exactly does Ctrl+C stop a sequential computation whose functions are interrupted (with
    stop_if_error=False)? *)
Theorem C130_sequential_iff l d os calls :
  ~ In d (se_locks (after new_session l)) -> ~ In true os -> interrupted calls -> only_items_interrupted calls ->
  (stopped calls (snd (compute (after new_session l) (Sequential d false os calls))) <-> ~ unopened new_session l).
Proof.
  intros Hd Ho Hi Hg. split.
  - intros [_ Hs] Hu. rewrite C130_swallowed_refuted in Hs by assumption. apply Hs. reflexivity.
  - intros Hu. assert (Hh : se_handler (after new_session l) <> HExec false) by (intros H; apply Hu, (after_handler new_session l eq_refl), H).
    unfold compute. cbn [dir_of]. destruct (existsb (Nat.eqb d) _) eqn:E; [apply existsb_In in E; contradiction|].
    cbv zeta. rewrite one_shot_false by exact Ho. cbn [snd]. rewrite run_works_keyboard; [split; [reflexivity|discriminate]| |exact Hi].
    destruct (se_handler (after new_session l)) as [|[]]; [reflexivity|reflexivity|contradiction].
Qed.
Print Assumptions C130_sequential_iff.

(** REFUTED: Ctrl+C raises KeyboardInterrupt.  During a one shot work of an asynchronous executor
    it always raises AttributeError (the computation is stopped). *)
Theorem C130_one_shot_refuted s d os b :
  ~ In d (se_locks s) -> In true os -> o_raised (snd (compute s (Asynchronous d os b))) = Some AttributeError.
Proof.
  intros Hd Ho. unfold compute. cbn [dir_of]. destruct (existsb (Nat.eqb d) _) eqn:E; [apply existsb_In in E; contradiction|].
  cbv zeta. rewrite one_shot_true by exact Ho. reflexivity.
Qed.
Print Assumptions C130_one_shot_refuted.

(** ... and during the asynchronous part, KeyboardInterrupt, whatever was done before in the
    session. *)
Theorem C130_asynchronous s d os :
  ~ In d (se_locks s) -> ~ In true os -> o_raised (snd (compute s (Asynchronous d os true))) = Some KeyboardInterrupt.
Proof.
  intros Hd Ho. unfold compute. cbn [dir_of]. destruct (existsb (Nat.eqb d) _) eqn:E; [apply existsb_In in E; contradiction|].
  cbv zeta. rewrite one_shot_false by exact Ho. reflexivity.
Qed.
Print Assumptions C130_asynchronous.

Lemma locks_grow s c d : In d (se_locks s) -> In d (se_locks (fst (compute s c))).
Proof.
  intros H. unfold compute. destruct (existsb _ _); [exact H|]. destruct c as [d' sie os calls|d' os b]; cbv zeta; destruct (one_shot_works _ _).
  - right. exact H.
  - destruct (o_raised _); [right|]; exact H.
  - right. exact H.
  - destruct b; [right|]; exact H.
Qed.

(** After a computation which has raised an exception because of Ctrl+C, its directory is
    refused in the rest of the session: whatever is done in between, compute raises
    RuntimeError and calls nothing (the lock is only removed at the end of the process). *)
Theorem C130_locked s c l c' :
  o_raised (snd (compute s c)) <> None -> dir_of c' = dir_of c ->
  snd (compute (after (fst (compute s c)) l) c') = mk_outcome [] [] (Some RuntimeError).
Proof.
  intros Hr Hd.
  assert (H0 : In (dir_of c) (se_locks (fst (compute s c)))).
  { revert Hr. unfold compute. destruct (existsb (Nat.eqb (dir_of c)) (se_locks s)) eqn:E; [intros _; apply existsb_In, E|].
    destruct c as [d sie os calls|d os b]; cbv zeta; destruct (one_shot_works _ _); cbn; try (intros _; left; reflexivity).
    - destruct (o_raised _); [intros _; left; reflexivity|congruence].
    - destruct b; [intros _; left; reflexivity|cbn; congruence]. }
  assert (H1 : In (dir_of c) (se_locks (after (fst (compute s c)) l))).
  { revert H0. generalize (fst (compute s c)). induction l as [|c1 l IH]; intros s1 H; [exact H|]. cbn. apply IH, locks_grow, H. }
  remember (after (fst (compute s c)) l) as s2. unfold compute. rewrite Hd. apply existsb_In in H1. rewrite H1. reflexivity.
Qed.
Print Assumptions C130_locked.

(** A computation which returns normally leaves no lock: the directories which are refused
    afterwards are those which were refused before. *)
Theorem C130_again s c :
  o_raised (snd (compute s c)) = None -> se_locks (fst (compute s c)) = se_locks s.
Proof.
  unfold compute. destruct (existsb _ _); [discriminate|]. destruct c as [d sie os calls|d os b]; cbv zeta; destruct (one_shot_works _ _); cbn; try discriminate.
  - intros H. rewrite H. reflexivity.
  - destruct b; [discriminate|reflexivity].
Qed.
Print Assumptions C130_again.

(** ** Examples *)

(** three items, Ctrl+C during the second one: stopped in a new session, computed as if nothing
    had happened after an asynchronous computation interrupted during its one shot work *)
Example C130_ex_calls := [(CItem 0, false); (CItem 1, true); (CItem 2, false)].
Example C130_ex_stopped : snd (compute new_session (Sequential 7 false [false] C130_ex_calls))
  = mk_outcome [CItem 0; CItem 1] [] (Some KeyboardInterrupt).
Proof. reflexivity. Qed.
Example C130_ex_swallowed : snd (compute (after new_session [Asynchronous 6 [true] false]) (Sequential 7 false [false] C130_ex_calls))
  = mk_outcome [CItem 0; CItem 1; CItem 2] [1%nat] None.
Proof. reflexivity. Qed.
Example C130_ex_unopened : unopened new_session [Asynchronous 6 [true] false].
Proof. exists [], 6%nat, [true], false, []. split; [reflexivity|]. split; [constructor|]. right. left. reflexivity. Qed.
(** the second computation is refused, its executor has installed its handler *)
Example C130_ex_unopened2 : unopened new_session [Asynchronous 6 [false] true; Asynchronous 6 [false] false; Sequential 8 true [] []].
Proof. exists [Asynchronous 6 [false] true], 6%nat, [false], false, [Sequential 8 true [] []]. split; [reflexivity|]. split; [repeat constructor|]. left. left. reflexivity. Qed.
Example C130_ex_locked : snd (compute (after (fst (compute new_session (Sequential 7 false [false] C130_ex_calls))) []) (Asynchronous 7 [] false))
  = mk_outcome [] [] (Some RuntimeError).
Proof. reflexivity. Qed.

(** a chain of two works, two items: the first work is being executed on the first item, its
    second task has not begun when Ctrl+C is received by the loop of the second work *)
Definition C130_ex_params : params nat :=
  mk_params 2 4 false 2 (chain_works [(false, fun _ v => inl (v + 1)%nat); (true, fun _ v => inl (v * 2)%nat)]).
Definition C130_ex_queues : queues nat := chain_queues [(0%nat, inl 10%nat); (1%nat, inl 20%nat)].
Definition run_labels (s : ast nat) (l : list label) : option (ast nat) :=
  fold_left (fun o l => match o with Some s => step C130_ex_params s l | None => None end) l (Some s).
Definition run_clabels (s : ast nat) (l : list label) : option (ast nat) :=
  fold_left (fun o l => match o with Some s => cstep C130_ex_params s l | None => None end) l (Some s).
Definition or_init (o : option (ast nat)) : ast nat := match o with Some s => s | None => init C130_ex_queues end.
Definition C130_ex_s : ast nat := or_init (run_labels (init C130_ex_queues) [LCheck 0; LStart 0; LCheck 0]).
Definition C130_ex_s1 : ast nat := exit_work 1 (receive C130_ex_s).
Definition C130_ex_s' : ast nat := or_init (run_clabels C130_ex_s1 [LStart 1; LCheck 0; LFinish 0; LPoll]).
Example C130_ex_before : run_labels (init C130_ex_queues) [LCheck 0; LStart 0; LCheck 0] = Some C130_ex_s /\ running C130_ex_s = [(0, 0, 10)]%nat.
Proof. split; vm_compute; reflexivity. Qed.
Example C130_ex_interrupt : interrupt C130_ex_params C130_ex_s C130_ex_s1.
Proof. apply i_loop; [vm_compute; reflexivity|apply le_n|left; reflexivity]. Qed.
Example C130_ex_after : run_clabels C130_ex_s1 [LStart 1; LCheck 0; LFinish 0; LPoll] = Some C130_ex_s' /\
  called (a_tr C130_ex_s') = [(0, 0, 10)]%nat /\ a_qs C130_ex_s' 1%nat = [(0%nat, inl 11%nat)].
Proof. split; [|split]; vm_compute; reflexivity. Qed.
Example C130_ex_ended : ended C130_ex_params C130_ex_s'.
Proof.
  split; [|split; vm_compute; reflexivity]. intros i Hi. change (List.length (p_works C130_ex_params)) with 2%nat in Hi.
  assert (i = 0 \/ i = 1)%nat as [-> | ->] by lia; vm_compute; reflexivity.
Qed.

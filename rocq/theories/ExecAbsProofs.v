(** The two executors on an arbitrary topology, seen as the same transition system on the
    queues, the items being treated and the trace. *)
From Coq Require Import Permutation.
From Verif Require Import PyBase QueueModel QueueProofs ExecModel ExecSpec SplitProofs ExecProofs ExecAsyncProofs ExecBoundProofs.

Section Abs.
Context {V : Type}.

Record cfg := mk_cfg { c_qs : queues V; c_fl : list (nat * nat * V); c_tr : list (event V) }.

Inductive item_trans (ws : list (work V)) (i k : nat) (c c' : cfg) : Prop :=
| at_pop w inq f v q' : nth_error ws i = Some w -> w_body w = ItemWork inq f ->
    c_qs c inq = (k, inl v) :: q' -> c_qs c' = upd (c_qs c) inq q' ->
    Permutation (c_fl c') ((i, k, v) :: c_fl c) -> c_tr c' = c_tr c -> item_trans ws i k c c'
| at_exc w inq f e q' : nth_error ws i = Some w -> w_body w = ItemWork inq f ->
    c_qs c inq = (k, inr e) :: q' -> c_qs c' = put (w_out w) k (inr e) (upd (c_qs c) inq q') ->
    Permutation (c_fl c') (c_fl c) ->
    c_tr c' = c_tr c ++ (match w_out w with None => [ELost i k e] | Some _ => [] end) -> item_trans ws i k c c'
| at_fin w inq f v : nth_error ws i = Some w -> w_body w = ItemWork inq f ->
    Permutation (c_fl c) ((i, k, v) :: c_fl c') -> c_qs c' = put (w_out w) k (f k v) (c_qs c) ->
    c_tr c' = c_tr c ++ [ECall i k v (f k v)] -> item_trans ws i k c c'.

Inductive glob_trans (ws : list (work V)) (i : nat) (c c' : cfg) : Prop :=
| at_glob w ready g : nth_error ws i = Some w -> w_body w = GlobalWork ready g ->
    g (c_qs c) = Ok (c_qs c') -> Permutation (c_fl c') (c_fl c) -> c_tr c' = c_tr c ++ [EGlobal i] -> glob_trans ws i c c'.

Definition atrans ws c c' : Prop := (exists i k, item_trans ws i k c c') \/ (exists i, glob_trans ws i c c').

Definition running_list (ts : list (task V)) : list (nat * nat * V) :=
  flat_map (fun t => match t_st t with Running k v => [(t_work t, k, v)] | Spawned => [] end) ts.
Definition abs (s : ast V) : cfg := mk_cfg (a_qs s) (running_list (a_tasks s)) (a_tr s).

Lemma running_list_perm t1 t2 : Permutation t1 t2 -> Permutation (running_list t1) (running_list t2).
Proof. apply Permutation_flat_map. Qed.

Lemma running_list_app t1 t2 : running_list (t1 ++ t2) = running_list t1 ++ running_list t2.
Proof. apply flat_map_app. Qed.

Variable p : params V.

Definition same_abs (s s' : ast V) : Prop :=
  a_qs s' = a_qs s /\ Permutation (running_list (a_tasks s')) (running_list (a_tasks s)) /\ a_tr s' = a_tr s.

Lemma a_qs_ac io d (s : ast V) : a_qs (add_counter io d s) = a_qs s. Proof. destruct io; reflexivity. Qed.
Lemma a_tr_ac io d (s : ast V) : a_tr (add_counter io d s) = a_tr s. Proof. destruct io; reflexivity. Qed.
Lemma a_tasks_ac io d (s : ast V) : a_tasks (add_counter io d s) = a_tasks s. Proof. destruct io; reflexivity. Qed.
Lemma a_raised_ac io d (s : ast V) : a_raised (add_counter io d s) = a_raised s. Proof. destruct io; reflexivity. Qed.
Lemma a_stop_ac io d (s : ast V) : a_stop (add_counter io d s) = a_stop s. Proof. destruct io; reflexivity. Qed.
Lemma a_exited_ac io d (s : ast V) : a_exited (add_counter io d s) = a_exited s. Proof. destruct io; reflexivity. Qed.
Lemma a_poll_ac io d (s : ast V) : a_poll_done (add_counter io d s) = a_poll_done s. Proof. destruct io; reflexivity. Qed.

Lemma start_abs s id i w inq f s' : NoDup (map (@t_id V) (a_tasks s)) -> find_task id s = Some (mk_task id i Spawned) ->
  nth_error (p_works p) i = Some w -> w_body w = ItemWork inq f -> start p id s = Some s' ->
  a_raised s' = a_raised s /\
  ((a_qs s inq = [] /\ same_abs s s' /\ a_tasks s' = others id (a_tasks s)) \/
   (a_qs s inq <> [] /\ (exists k, item_trans (p_works p) i k (abs s) (abs s')) /\ (List.length (a_tasks s') <= List.length (a_tasks s))%nat)).
Proof.
  intros Hnd Et Ew Eb HS. unfold start in HS. rewrite Et, Ew, Eb in HS. cbv zeta in HS. rewrite a_qs_ac in HS.
  unfold find_task in Et. destruct (find_perm id (a_tasks s) _ Hnd Et) as [_ HP].
  assert (HL : Permutation (running_list (others id (a_tasks s))) (running_list (a_tasks s))).
  { rewrite (running_list_perm _ _ HP). reflexivity. }
  unfold q_pop_first in HS. destruct (a_qs s inq) as [|[k [v|e]] q'] eqn:Eqs.
  - injection HS as <-. split; [cbn [remove_task set_tasks a_raised]; rewrite !a_raised_ac; reflexivity|]. left. split; [reflexivity|]. unfold same_abs.
    cbn [remove_task set_tasks a_qs a_tasks a_tr]. rewrite !a_qs_ac, !a_tr_ac, !a_tasks_ac. auto.
  - injection HS as <-. split; [cbn [set_running set_tasks set_qs a_raised]; rewrite !a_raised_ac; reflexivity|]. right. split; [discriminate|]. split.
    + exists k. apply (at_pop _ _ _ _ _ w inq f v q'); try assumption; try reflexivity.
      * cbn [abs c_fl set_running set_tasks set_qs a_tasks]. rewrite a_tasks_ac.
        rewrite (running_list_perm _ _ (set_running_perm id k v (a_tasks s) _ Hnd Et)). cbn. constructor. exact HL.
      * cbn [abs c_tr set_running set_tasks set_qs a_tr]. apply a_tr_ac.
    + cbn [set_running set_tasks set_qs a_tasks]. rewrite map_length, a_tasks_ac. lia.
  - injection HS as <-. split.
    { cbn [remove_task set_tasks a_raised]. rewrite !a_raised_ac. destruct (w_out w); cbn [set_qs add_tr a_raised]; apply a_raised_ac. }
    right. split; [discriminate|]. split.
    + exists k. apply (at_exc _ _ _ _ _ w inq f e q'); try assumption.
      * cbn [abs c_qs remove_task set_tasks a_qs]. rewrite a_qs_ac. destruct (w_out w); reflexivity.
      * cbn [abs c_fl remove_task set_tasks a_tasks]. rewrite a_tasks_ac.
        destruct (w_out w); cbn [set_qs add_tr a_tasks]; rewrite a_tasks_ac; exact HL.
      * cbn [abs c_tr remove_task set_tasks a_tr]. rewrite a_tr_ac.
        destruct (w_out w); cbn [set_qs add_tr a_tr]; rewrite a_tr_ac; [symmetry; apply app_nil_r|reflexivity].
    + cbn [remove_task set_tasks a_tasks]. rewrite a_tasks_ac.
      match goal with |- (List.length (filter _ (a_tasks ?x)) <= _)%nat => assert (E : a_tasks x = a_tasks s) by (destruct (w_out w); cbn [set_qs add_tr a_tasks]; apply a_tasks_ac) end.
      rewrite E. apply filter_length_le.
Qed.

Lemma finish_abs s id i k v w inq f s' : NoDup (map (@t_id V) (a_tasks s)) -> find_task id s = Some (mk_task id i (Running k v)) ->
  nth_error (p_works p) i = Some w -> w_body w = ItemWork inq f -> finish p id s = Some s' -> a_raised s' = None ->
  item_trans (p_works p) i k (abs s) (abs s') /\ a_tasks s' = others id (a_tasks s).
Proof.
  intros Hnd Et Ew Eb HS Hr. unfold finish in HS. rewrite Et, Ew, Eb in HS. cbv zeta in HS.
  unfold find_task in Et. destruct (find_perm id (a_tasks s) _ Hnd Et) as [_ HP].
  assert (HT : a_tasks s' = others id (a_tasks s)).
  { destruct (f k v) as [v'|e]; [|destruct (p_stop_if_error p)]; injection HS as <-;
      cbn [remove_task set_tasks a_tasks]; rewrite ?a_tasks_ac; try reflexivity. discriminate Hr. }
  split; [|exact HT]. apply (at_fin _ _ _ _ _ w inq f v); try assumption.
  + cbn [abs c_fl]. rewrite (running_list_perm _ _ HP), HT. reflexivity.
  + destruct (f k v) as [v'|e]; [|destruct (p_stop_if_error p)]; injection HS as <-;
      cbn [abs c_qs remove_task set_tasks a_qs]; rewrite ?a_qs_ac; try reflexivity. discriminate Hr.
  + destruct (f k v) as [v'|e]; [|destruct (p_stop_if_error p)]; injection HS as <-;
      cbn [abs c_tr remove_task set_tasks a_tr]; rewrite ?a_tr_ac; try reflexivity.
Qed.

(** a step of the asynchronous executor which does not raise *)
Lemma step_abs s l s' : NoDup (map (@t_id V) (a_tasks s)) -> step p s l = Some s' -> a_raised s' = None ->
  same_abs s s' \/ atrans (p_works p) (abs s) (abs s').
Proof.
  intros Hnd HS Hr. unfold step in HS. destruct (a_raised s) as [|] eqn:Er; [discriminate|].
  destruct l as [i|id|id|].
  - unfold check in HS. destruct (a_exited s i); [discriminate|].
    destruct (nth_error (p_works p) i) as [w|] eqn:Ew; [|discriminate].
    destruct (w_body w) as [inq f|ready g] eqn:Eb.
    + left. match type of HS with context [if ?c then _ else _] => destruct c eqn:Ec end.
      * destruct (a_stop s); injection HS as <-; (split; [|split]; reflexivity).
      * injection HS as <-. unfold same_abs. cbn [spawn a_qs a_tasks a_tr]. rewrite running_list_app. cbn. rewrite app_nil_r. (split; [|split]; reflexivity).
    + destruct (ready (a_qs s)).
      * destruct (g (a_qs s)) as [qs'|e] eqn:Eg; [|injection HS as <-; discriminate Hr].
        right. right. exists i. apply (at_glob _ _ _ _ w ready g); try assumption; destruct (a_stop s); injection HS as <-; try reflexivity; exact Eg.
      * left. destruct (a_stop s); injection HS as <-; (split; [|split]; reflexivity).
  - pose proof HS as HS2. unfold start in HS2. destruct (find_task id s) as [[id0 i st]|] eqn:Et; [|discriminate].
    destruct st; [|discriminate]. destruct (nth_error (p_works p) i) as [w|] eqn:Ew; [|discriminate].
    destruct (w_body w) as [inq f|ready g] eqn:Eb; [|discriminate].
    pose proof Et as Et2. unfold find_task in Et2. destruct (find_perm id (a_tasks s) _ Hnd Et2) as [Hid HP]. cbn in Hid. subst id0.
    destruct (start_abs s id i w inq f s' Hnd Et Ew Eb HS) as [_ [(_ & H & _)|(_ & (k & H) & _)]]; [left; exact H|right; left; eauto].
  - pose proof HS as HS2. unfold finish in HS2. destruct (find_task id s) as [[id0 i st]|] eqn:Et; [|discriminate].
    destruct st as [|k v]; [discriminate|]. destruct (nth_error (p_works p) i) as [w|] eqn:Ew; [|discriminate].
    destruct (w_body w) as [inq f|ready g] eqn:Eb; [|discriminate].
    pose proof Et as Et2. unfold find_task in Et2. destruct (find_perm id (a_tasks s) _ Hnd Et2) as [Hid HP]. cbn in Hid. subst id0.
    right. left. exists i, k. apply (finish_abs s id i k v w inq f s' Hnd Et Ew Eb HS Hr).
  - left. unfold poll in HS. destruct (a_poll_done s); [discriminate|].
    destruct (a_stop s); injection HS as <-; (split; [|split]; reflexivity).
Qed.

(** ** flags *)
Definition well_formed : Prop := forall i w, nth_error (p_works p) i = Some w ->
  match w_body w with
  | ItemWork inq _ => (inq < p_nq p)%nat
  | GlobalWork ready _ => forall qs, all_empty (p_nq p) qs = true -> ready qs = false
  end.

Record Flags (s : ast V) : Prop := {
  f_stop : a_stop s = true -> all_empty (p_nq p) (a_qs s) = true /\ running_list (a_tasks s) = [];
  f_exit : forall i, a_exited s i = true -> a_stop s = true;
  f_poll : a_poll_done s = true -> a_stop s = true
}.

Lemma no_running s : G p s -> a_cpu s = 0 -> a_io s = 0 -> running_list (a_tasks s) = [].
Proof.
  intros HG Hc Hi. unfold running_list. assert (H : forall t, In t (a_tasks s) -> t_st t = Spawned).
  { intros t Ht. destruct (t_st t) as [|k v] eqn:Es; [reflexivity|]. exfalso.
    destruct (g_work _ _ HG t Ht) as (w & Hw).
    pose proof (g_cnt _ _ HG (w_io w)) as HC. unfold counter in HC.
    assert (HP : In t (filter (isrun p (w_io w)) (a_tasks s))).
    { apply filter_In. split; [exact Ht|]. unfold isrun. rewrite Es, Hw. apply Bool.eqb_reflx. }
    unfold cnt in HC. destruct (filter (isrun p (w_io w)) (a_tasks s)); [destruct HP|]. unfold zlen in HC. cbn [List.length] in HC.
    destruct (w_io w); lia. }
  induction (a_tasks s) as [|t ts IH]; [reflexivity|]. cbn. rewrite (H t) by (left; reflexivity). cbn. apply IH. intros t' Ht'. apply H. right. exact Ht'.
Qed.

Lemma flags_step_gen s l s' : well_formed -> G p s -> Flags s -> step p s l = Some s' -> Flags s'.
Proof.
  intros HW HG HF HS. unfold step in HS. destruct (a_raised s) as [|] eqn:Er; [discriminate|].
  destruct l as [i|id|id|].
  - unfold check in HS. destruct (a_exited s i) eqn:Ex; [discriminate|].
    destruct (nth_error (p_works p) i) as [w|] eqn:Ew; [|discriminate]. specialize (HW i w Ew).
    destruct (w_body w) as [inq f|ready g] eqn:Eb.
    + match type of HS with context [if ?c then _ else _] => destruct c eqn:Ec end.
      * destruct (a_stop s) eqn:Es; injection HS as <-; [|exact HF].
        destruct HF as [H1 H2 H3]. constructor; cbn [exit_work a_stop a_qs a_tasks a_exited a_poll_done].
        -- exact H1.
        -- intros j _. exact Es.
        -- exact H3.
      * injection HS as <-. destruct HF as [H1 H2 H3]. constructor; cbn [spawn a_stop a_qs a_tasks a_exited a_poll_done]; try assumption.
        intros Hs. destruct (H1 Hs) as [E1 E2]. split; [exact E1|]. rewrite running_list_app, E2. reflexivity.
    + destruct (ready (a_qs s)) eqn:Erd.
      * assert (Hs : a_stop s = false).
        { destruct (a_stop s) eqn:Es; [|reflexivity]. destruct (f_stop _ HF Es) as [E _]. rewrite (HW _ E) in Erd. discriminate. }
        rewrite Hs in HS. destruct (g (a_qs s)) as [qs'|e].
        -- injection HS as <-. destruct HF as [H1 H2 H3]. constructor; cbn [add_tr set_qs a_stop a_qs a_tasks a_exited a_poll_done]; try assumption.
           congruence.
        -- injection HS as <-. destruct HF as [H1 H2 H3]. constructor; assumption.
      * destruct (a_stop s) eqn:Es; injection HS as <-; [|exact HF].
        destruct HF as [H1 H2 H3]. constructor; cbn [exit_work a_stop a_qs a_tasks a_exited a_poll_done].
        -- exact H1.
        -- intros j _. exact Es.
        -- exact H3.
  - unfold start in HS. destruct (find_task id s) as [[id0 i st]|] eqn:Et; [|discriminate].
    destruct st; [|discriminate]. destruct (nth_error (p_works p) i) as [w|] eqn:Ew; [|discriminate].
    unfold find_task in Et. destruct (find_perm id (a_tasks s) _ (g_ids _ _ HG) Et) as [Hid HP]. cbn in Hid. subst id0.
    specialize (HW i w Ew). destruct (w_body w) as [inq f|ready g] eqn:Eb; [|discriminate]. cbv zeta in HS. rewrite a_qs_ac in HS.
    assert (HL : running_list (a_tasks s) = [] -> running_list (others id (a_tasks s)) = []).
    { intros E. apply Permutation_nil. rewrite <- E. rewrite (running_list_perm _ _ HP). reflexivity. }
    destruct (q_pop_first _) as [[[k [v|e]] q']|] eqn:Eq.
    + assert (Hs : a_stop s = false).
      { destruct (a_stop s) eqn:Es; [|reflexivity]. destruct (f_stop _ HF Es) as [E _].
        rewrite (proj1 (all_empty_spec _ _) E inq HW) in Eq. discriminate. }
      injection HS as <-. destruct HF as [H1 H2 H3].
      constructor; cbn [set_running set_tasks set_qs a_stop a_exited a_poll_done]; rewrite ?a_stop_ac, ?a_exited_ac, ?a_poll_ac; try assumption. congruence.
    + assert (Hs : a_stop s = false).
      { destruct (a_stop s) eqn:Es; [|reflexivity]. destruct (f_stop _ HF Es) as [E _].
        rewrite (proj1 (all_empty_spec _ _) E inq HW) in Eq. discriminate. }
      injection HS as <-. destruct HF as [H1 H2 H3].
      constructor; cbn [remove_task set_tasks a_stop a_exited a_poll_done]; rewrite ?a_stop_ac, ?a_exited_ac, ?a_poll_ac;
        destruct (w_out w); cbn [set_qs add_tr a_stop a_exited a_poll_done]; rewrite ?a_stop_ac, ?a_exited_ac, ?a_poll_ac; try assumption; congruence.
    + injection HS as <-. destruct HF as [H1 H2 H3].
      constructor; cbn [remove_task set_tasks a_stop a_exited a_poll_done a_qs a_tasks]; rewrite ?a_stop_ac, ?a_exited_ac, ?a_poll_ac, ?a_qs_ac, ?a_tasks_ac; try assumption.
      intros Hs. destruct (H1 Hs) as [E1 E2]. split; [exact E1|]. apply HL, E2.
  - unfold finish in HS. destruct (find_task id s) as [[id0 i st]|] eqn:Et; [|discriminate].
    destruct st as [|k v]; [discriminate|]. destruct (nth_error (p_works p) i) as [w|] eqn:Ew; [|discriminate].
    unfold find_task in Et. destruct (find_perm id (a_tasks s) _ (g_ids _ _ HG) Et) as [Hid HP].
    assert (Hs : a_stop s = false).
    { destruct (a_stop s) eqn:Es; [|reflexivity]. destruct (f_stop _ HF Es) as [_ E].
      pose proof (running_list_perm _ _ HP) as HP2. rewrite E in HP2. apply Permutation_nil in HP2. discriminate HP2. }
    destruct (w_body w) as [inq f|ready g] eqn:Eb; [|discriminate]. cbv zeta in HS. destruct HF as [H1 H2 H3].
    destruct (f k v) as [v'|e]; [|destruct (p_stop_if_error p)]; injection HS as <-;
      constructor; cbn [remove_task set_tasks raise add_tr set_qs a_stop a_exited a_poll_done]; rewrite ?a_stop_ac, ?a_exited_ac, ?a_poll_ac;
      cbn [set_qs add_tr a_stop a_exited a_poll_done]; try assumption; congruence.
  - unfold poll in HS. destruct (a_poll_done s) eqn:Ep; [discriminate|].
    destruct HF as [H1 H2 H3]. destruct (a_stop s) eqn:Es; injection HS as <-; constructor; cbn [set_poll a_stop a_qs a_tasks a_exited a_poll_done].
    + intros _. apply H1. reflexivity.
    + reflexivity.
    + reflexivity.
    + rewrite !andb_true_iff, !Z.eqb_eq. intros [[E1 E2] E3]. split; [exact E1|apply no_running; assumption].
    + intros i Hi. specialize (H2 i Hi). discriminate.
    + discriminate.
Qed.

Lemma Flags_init qs : Flags (init qs).
Proof. constructor; cbn; discriminate. Qed.

Lemma reachable_raised s0 s : reachable p s0 s -> a_raised s = None -> a_raised s0 = None.
Proof.
  intros HR. induction HR as [|s l s' HR IH HS]; intros H; [exact H|]. apply IH.
  unfold step in HS. destruct (a_raised s); [discriminate|reflexivity].
Qed.

Lemma reachable_flags qs s : well_formed -> reachable p (init qs) s -> Flags s.
Proof.
  intros HW HR. induction HR as [|s l s' HR IH HS]; [apply Flags_init|].
  eapply flags_step_gen; try eassumption. eapply reachable_G, HR.
Qed.

(** an invariant of the transition system is an invariant of the asynchronous executor *)
Lemma async_invariant (I : cfg -> Prop) qs :
  (forall c c', I c -> c_qs c' = c_qs c -> Permutation (c_fl c') (c_fl c) -> c_tr c' = c_tr c -> I c') ->
  (forall c c', I c -> atrans (p_works p) c c' -> I c') -> I (mk_cfg qs [] []) ->
  forall s, reachable p (init qs) s -> a_raised s = None -> I (abs s).
Proof.
  intros Hext Hstep Hinit s HR. induction HR as [|s l s' HR IH HS]; intros Hr.
  - exact Hinit.
  - assert (Hr0 : a_raised s = None). { unfold step in HS. destruct (a_raised s); [discriminate|reflexivity]. }
    destruct (step_abs s l s' (g_ids _ _ (reachable_G p qs s HR)) HS Hr) as [(H1 & H2 & H3)|H].
    + apply (Hext (abs s)); auto.
    + apply (Hstep (abs s)); auto.
Qed.
End Abs.
Arguments cfg V : clear implicits.

(** ** sequential executor *)
Section SeqAbs.
Context {V : Type}.

Inductive steps (ws : list (work V)) (c : cfg V) : cfg V -> Prop :=
| steps_refl : steps ws c c
| steps_snoc c1 c2 : steps ws c c1 -> atrans ws c1 c2 -> steps ws c c2.

Lemma steps_trans ws c1 c2 c3 : steps ws c1 c2 -> steps ws c2 c3 -> steps ws c1 c3.
Proof. intros H1 H2. induction H2; [exact H1|]. eapply steps_snoc; eassumption. Qed.

Definition cfg_of (st : sst V) : cfg V := mk_cfg (s_qs st) [] (s_tr st).

Lemma seq_work_abs ws nmax i w st st' : nth_error ws i = Some w ->
  seq_work false nmax i w st = (st', None) -> steps ws (cfg_of st) (cfg_of st').
Proof.
  intros Hw. unfold seq_work. destruct (w_body w) as [inq f|ready g] eqn:Eb.
  - unfold q_pop_first. destruct (s_qs st inq) as [|[k obj] q'] eqn:Eq; [intros H; injection H as <-; apply steps_refl|].
    destruct obj as [v|e].
    + intros H.
      assert (Hst : st' = mk_sst (put (w_out w) k (f k v) (upd (s_qs st) inq q')) (s_tr st ++ [ECall i k v (f k v)])).
      { destruct (f k v); injection H as <-; reflexivity. } subst st'.
      eapply steps_snoc; [eapply steps_snoc; [apply steps_refl|]|].
      * left. exists i, k. apply (at_pop _ _ _ _ (mk_cfg (upd (s_qs st) inq q') [(i, k, v)] (s_tr st)) w inq f v q'); try assumption; reflexivity.
      * left. exists i, k. apply (at_fin _ _ _ _ _ w inq f v); try assumption; reflexivity.
    + intros H. eapply steps_snoc; [apply steps_refl|]. left. exists i, k.
      apply (at_exc _ _ _ _ _ w inq f e q'); try assumption; destruct (w_out w); injection H as <-; try reflexivity.
      symmetry. apply app_nil_r.
  - destruct (match w_out w with Some o => _ | None => _ end); [intros H; injection H as <-; apply steps_refl|].
    destruct (g (s_qs st)) as [qs'|e] eqn:Eg; [|discriminate]. intros H. injection H as <-.
    eapply steps_snoc; [apply steps_refl|]. right. exists i. apply (at_glob _ _ _ _ w ready g); try assumption; reflexivity.
Qed.
End SeqAbs.

(** ** conserved quantities *)
Section Total.
Context {V X : Type}.
Variable ws : list (work V).
Variable nq : nat.
Variable obs : nat -> nat * item V -> list X.
Variable tobs : event V -> list X.

Definition fl_obs (x : nat * nat * V) : list X :=
  let '(i, k, v) := x in
  match nth_error ws i with
  | Some w => match w_body w with ItemWork inq _ => obs inq (k, inl v) | GlobalWork _ _ => [] end
  | None => []
  end.

Definition tot (c : cfg V) : list X :=
  flat_map tobs (c_tr c) ++ flat_map fl_obs (c_fl c) ++ down obs nq (c_qs c).

Definition conservedW : Prop := forall i w inq f, nth_error ws i = Some w -> w_body w = ItemWork inq f ->
  (inq < nq)%nat /\ (forall o, w_out w = Some o -> (o < nq)%nat) /\
  (forall k v, tobs (ECall i k v (f k v)) ++ (match w_out w with Some o => obs o (k, f k v) | None => [] end) = obs inq (k, inl v)) /\
  (forall k e, (match w_out w with Some o => obs o (k, inr e) | None => tobs (ELost i k e) end) = obs inq (k, inr e)).

Lemma put_down out k it qs : (forall o, out = Some o -> (o < nq)%nat /\ ~ In k (keys (qs o))) ->
  Permutation (down obs nq (put out k it qs)) ((match out with Some o => obs o (k, it) | None => [] end) ++ down obs nq qs).
Proof.
  intros H. unfold put. destruct out as [o|]; [|reflexivity]. destruct (H o eq_refl) as [H1 H2].
  rewrite q_set_new by exact H2. apply (down_push_perm [] obs nq qs o). exact H1.
Qed.

Lemma item_tot i k c c' : conservedW -> item_trans ws i k c c' ->
  (forall w o, nth_error ws i = Some w -> w_out w = Some o -> (forall inq f, w_body w = ItemWork inq f -> inq <> o) /\ ~ In k (keys (c_qs c o))) ->
  Permutation (tot c') (tot c).
Proof.
  intros HC HT Hfresh. unfold tot. destruct HT as [w inq f v q' Hw Hb Hq Hq' Hf Ht|w inq f e q' Hw Hb Hq Hq' Hf Ht|w inq f v Hw Hb Hf Hq' Ht];
    destruct (HC i w inq f Hw Hb) as (Hi & Ho & Hc1 & Hc2).
  - rewrite Ht, Hq'. apply Permutation_app_head. rewrite (Permutation_flat_map fl_obs Hf). cbn [flat_map fl_obs]. rewrite Hw, Hb.
    rewrite <- (down_pop_perm [] obs nq (c_qs c) inq k (inl v) q' Hi Hq). rewrite <- app_assoc.
    rewrite Permutation_app_comm, <- app_assoc. apply Permutation_app_head. apply Permutation_app_comm.
  - rewrite Ht, Hq', flat_map_app, <- app_assoc. apply Permutation_app_head. rewrite (Permutation_flat_map fl_obs Hf).
    rewrite put_down.
    2: { intros o Eo. split; [apply Ho, Eo|]. destruct (Hfresh w o Hw Eo) as [H1 H2]. specialize (H1 inq f Hb). rewrite upd_other by congruence. exact H2. }
    rewrite <- (down_pop_perm [] obs nq (c_qs c) inq k (inr e) q' Hi Hq). specialize (Hc2 k e). unfold item in *. rewrite <- Hc2.
    destruct (w_out w) as [o|]; cbn [flat_map app]; rewrite ?app_nil_r.
    + reflexivity.
    + rewrite !app_assoc. apply Permutation_app_tail, Permutation_app_comm.
  - rewrite Ht, Hq', flat_map_app, <- app_assoc. apply Permutation_app_head. rewrite (Permutation_flat_map fl_obs Hf).
    cbn [flat_map fl_obs]. rewrite Hw, Hb, app_nil_r. rewrite <- Hc1. rewrite put_down.
    2: { intros o Eo. split; [apply Ho, Eo|]. apply (Hfresh w o Hw Eo). }
    rewrite <- !app_assoc. apply Permutation_app_head. rewrite !app_assoc. apply Permutation_app_tail, Permutation_app_comm.
Qed.

Lemma tot_ext c c' : c_qs c' = c_qs c -> Permutation (c_fl c') (c_fl c) -> c_tr c' = c_tr c -> Permutation (tot c') (tot c).
Proof. intros H1 H2 H3. unfold tot. rewrite H1, H3, (Permutation_flat_map fl_obs H2). reflexivity. Qed.
End Total.

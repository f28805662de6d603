(** Proofs about the executors for arbitrary topologies: errors, counters, queue lengths. *)
From Verif Require Import PyBase QueueModel QueueProofs ExecModel ExecSpec ExecProofs.

Section Gen.
Context {V : Type}.

(** ** Errors, sequential *)
Definition good (st : sst V) : Prop := forallb (fun e => negb (failed e)) (s_tr st) = true.
Definition bad (st : sst V) (e : exn) : Prop :=
  exists tr i k v, s_tr st = tr ++ [ECall i k v (inr e)] /\ forallb (fun e => negb (failed e)) tr = true.

Lemma seq_work_true nmax i (w : work V) st st' r : (exists inq f, w_body w = ItemWork inq f) -> good st ->
  seq_work true nmax i w st = (st', r) ->
  match r with None => good st' | Some e => bad st' e end.
Proof.
  intros (inq & f & Hb) HG. unfold seq_work. rewrite Hb.
  destruct (q_pop_first (s_qs st inq)) as [[[k obj] q']|]; [|intros H; injection H as <- <-; exact HG].
  destruct obj as [v|e].
  - destruct (f k v) as [v'|e] eqn:Ef; intros H; injection H as <- <-.
    + unfold good. cbn [s_tr]. rewrite forallb_app. rewrite HG. reflexivity.
    + exists (s_tr st), i, k, v. auto.
  - destruct (w_out w); intros H; injection H as <- <-; [exact HG|].
    unfold good. cbn [s_tr]. rewrite forallb_app. rewrite HG. reflexivity.
Qed.

Lemma seq_sweep_true nmax (l : list (nat * work V)) st st' r : (forall i w, In (i, w) l -> exists inq f, w_body w = ItemWork inq f) -> good st ->
  seq_sweep true nmax l st = (st', r) -> match r with None => good st' | Some e => bad st' e end.
Proof.
  revert st. induction l as [|[i w] l IH]; intros st Hl HG; cbn [seq_sweep].
  - intros H. injection H as <- <-. exact HG.
  - destruct (seq_work true nmax i w st) as [st1 r1] eqn:E.
    pose proof (seq_work_true nmax i w st st1 r1 (Hl i w (or_introl eq_refl)) HG E) as H1.
    destruct r1 as [e|]; [intros H; injection H as <- <-; exact H1|].
    apply IH; [|exact H1]. intros i' w' HI. apply (Hl i'). right. exact HI.
Qed.

Lemma In_combine_seq {A} (l : list A) i w : In (i, w) (combine (seq 0 (List.length l)) l) -> In w l.
Proof. apply in_combine_r. Qed.

Lemma seq_run_true fuel nmax nq (ws : list (work V)) st st' r : only_item_works ws -> good st ->
  seq_run fuel true nmax nq ws st = Some (st', r) -> match r with None => good st' | Some e => bad st' e end.
Proof.
  intros Hws. revert st. induction fuel as [|fuel IH]; intros st HG; cbn [seq_run].
  - destruct (all_empty nq (s_qs st)); [|discriminate]. intros H. injection H as <- <-. exact HG.
  - destruct (all_empty nq (s_qs st)); [intros H; injection H as <- <-; exact HG|].
    destruct (seq_sweep _ _ _ _) as [st1 r1] eqn:E.
    apply seq_sweep_true in E; [|intros i w HI; apply Hws, (In_combine_seq _ i), HI|exact HG].
    destruct r1 as [e|]; [intros H; injection H as <- <-; exact E|]. apply IH. exact E.
Qed.

(** without stop_if_error, nothing escapes *)
Lemma seq_work_false nmax i (w : work V) st st' r : (exists inq f, w_body w = ItemWork inq f) ->
  seq_work false nmax i w st = (st', r) -> r = None.
Proof.
  intros (inq & f & Hb). unfold seq_work. rewrite Hb.
  destruct (q_pop_first (s_qs st inq)) as [[[k obj] q']|]; [|congruence].
  destruct obj as [v|e]; [destruct (f k v)|destruct (w_out w)]; congruence.
Qed.
Lemma seq_sweep_false nmax (l : list (nat * work V)) st st' r : (forall i w, In (i, w) l -> exists inq f, w_body w = ItemWork inq f) ->
  seq_sweep false nmax l st = (st', r) -> r = None.
Proof.
  revert st. induction l as [|[i w] l IH]; intros st Hl; cbn [seq_sweep]; [congruence|].
  destruct (seq_work false nmax i w st) as [st1 r1] eqn:E.
  apply seq_work_false in E; [|apply (Hl i w); left; reflexivity]. subst r1.
  apply IH. intros i' w' HI. apply (Hl i'). right. exact HI.
Qed.
Lemma seq_run_false fuel nmax nq (ws : list (work V)) st st' r : only_item_works ws ->
  seq_run fuel false nmax nq ws st = Some (st', r) -> r = None.
Proof.
  intros Hws. revert st. induction fuel as [|fuel IH]; intros st; cbn [seq_run].
  - destruct (all_empty nq (s_qs st)); congruence.
  - destruct (all_empty nq (s_qs st)); [congruence|].
    destruct (seq_sweep _ _ _ _) as [st1 r1] eqn:E.
    apply seq_sweep_false in E; [|intros i w HI; apply Hws, (In_combine_seq _ i), HI]. subst r1. apply IH.
Qed.

(** the run with stop_if_error is a prefix of the run without it *)
Lemma seq_work_prefix nmax i (w : work V) st st1 : seq_work false nmax i w st = (st1, None) ->
  exists st2 r rest, seq_work true nmax i w st = (st2, r) /\ s_tr st1 = s_tr st2 ++ rest /\ (r = None -> st2 = st1).
Proof.
  unfold seq_work. destruct (w_body w) as [inq f|ready g].
  - destruct (q_pop_first (s_qs st inq)) as [[[k obj] q']|].
    + destruct obj as [v|e].
      * destruct (f k v); intros H; injection H as <-.
        -- do 2 eexists. exists []. split; [reflexivity|]. split; [rewrite app_nil_r; reflexivity|reflexivity].
        -- do 2 eexists. exists []. split; [reflexivity|]. split; [rewrite app_nil_r; reflexivity|discriminate].
      * destruct (w_out w); intros H; injection H as <-;
        (do 2 eexists; exists []; split; [reflexivity|]; split; [rewrite app_nil_r; reflexivity|reflexivity]).
    + intros H. injection H as <-. do 2 eexists. exists []. split; [reflexivity|]. split; [rewrite app_nil_r; reflexivity|reflexivity].
  - match goal with |- context [if ?c then _ else _] => destruct c end; [|destruct (g (s_qs st)); [|discriminate]]; intros H; injection H as <-;
      (do 2 eexists; exists []; split; [reflexivity|]; split; [rewrite app_nil_r; reflexivity|reflexivity]).
Qed.

Lemma seq_work_grows sie nmax i (w : work V) st st1 r : seq_work sie nmax i w st = (st1, r) -> exists rest, s_tr st1 = s_tr st ++ rest.
Proof.
  unfold seq_work. destruct (w_body w) as [inq f|ready g].
  - destruct (q_pop_first (s_qs st inq)) as [[[k obj] q']|].
    + destruct obj as [v|e]; [destruct (f k v); [|destruct sie]|destruct (w_out w)]; intros H; injection H as <- <-;
      cbn [s_tr]; eauto. exists []. rewrite app_nil_r. reflexivity.
    + intros H. injection H as <- <-. exists []. rewrite app_nil_r. reflexivity.
  - match goal with |- context [if ?c then _ else _] => destruct c end; [|destruct (g (s_qs st))]; intros H; injection H as <- <-;
    cbn [s_tr]; eauto; exists []; rewrite app_nil_r; reflexivity.
Qed.
Lemma seq_sweep_grows sie nmax (l : list (nat * work V)) st st1 r : seq_sweep sie nmax l st = (st1, r) -> exists rest, s_tr st1 = s_tr st ++ rest.
Proof.
  revert st. induction l as [|[i w] l IH]; intros st; cbn [seq_sweep].
  - intros H. injection H as <- <-. exists []. rewrite app_nil_r. reflexivity.
  - destruct (seq_work sie nmax i w st) as [st2 r2] eqn:E. apply seq_work_grows in E. destruct E as [rest Hr].
    destruct r2; intros H; [injection H as <- <-; eauto|].
    apply IH in H. destruct H as [rest' Hr']. exists (rest ++ rest'). rewrite Hr', Hr, app_assoc. reflexivity.
Qed.
Lemma seq_run_grows fuel sie nmax nq (ws : list (work V)) st st1 r : seq_run fuel sie nmax nq ws st = Some (st1, r) -> exists rest, s_tr st1 = s_tr st ++ rest.
Proof.
  revert st. induction fuel as [|fuel IH]; intros st; cbn [seq_run].
  - destruct (all_empty nq (s_qs st)); [|discriminate]. intros H. injection H as <- <-. exists []. rewrite app_nil_r. reflexivity.
  - destruct (all_empty nq (s_qs st)); [intros H; injection H as <- <-; exists []; rewrite app_nil_r; reflexivity|].
    destruct (seq_sweep _ _ _ _) as [st2 r2] eqn:E. apply seq_sweep_grows in E. destruct E as [rest Hr].
    destruct r2; intros H; [injection H as <- <-; eauto|].
    apply IH in H. destruct H as [rest' Hr']. exists (rest ++ rest'). rewrite Hr', Hr, app_assoc. reflexivity.
Qed.

Lemma seq_sweep_prefix nmax (l : list (nat * work V)) st st1 : seq_sweep false nmax l st = (st1, None) ->
  exists st2 r rest, seq_sweep true nmax l st = (st2, r) /\ s_tr st1 = s_tr st2 ++ rest /\ (r = None -> st2 = st1).
Proof.
  revert st. induction l as [|[i w] l IH]; intros st; cbn [seq_sweep].
  - intros H. injection H as <-. do 2 eexists. exists []. split; [reflexivity|]. split; [rewrite app_nil_r; reflexivity|reflexivity].
  - destruct (seq_work false nmax i w st) as [st2 [e|]] eqn:E; [discriminate|]. intros H.
    destruct (seq_work_prefix _ _ _ _ _ E) as (st3 & r3 & rest & H3 & Hr & Hn). rewrite H3.
    destruct r3 as [e|].
    + apply seq_sweep_grows in H. destruct H as [rest' Hr']. exists st3, (Some e), (rest ++ rest').
      split; [reflexivity|]. split; [rewrite Hr', Hr, app_assoc; reflexivity|discriminate].
    + rewrite (Hn eq_refl). apply IH, H.
Qed.
Lemma seq_run_prefix fuel nmax nq (ws : list (work V)) st st1 : seq_run fuel false nmax nq ws st = Some (st1, None) ->
  exists st2 r rest, seq_run fuel true nmax nq ws st = Some (st2, r) /\ s_tr st1 = s_tr st2 ++ rest /\ (r = None -> st2 = st1).
Proof.
  revert st. induction fuel as [|fuel IH]; intros st; cbn [seq_run].
  - destruct (all_empty nq (s_qs st)); [|discriminate]. intros H. injection H as <-.
    do 2 eexists. exists []. split; [reflexivity|]. split; [rewrite app_nil_r; reflexivity|reflexivity].
  - destruct (all_empty nq (s_qs st)).
    { intros H. injection H as <-. do 2 eexists. exists []. split; [reflexivity|]. split; [rewrite app_nil_r; reflexivity|reflexivity]. }
    destruct (seq_sweep false _ _ _) as [st2 [e|]] eqn:E; [discriminate|]. intros H.
    destruct (seq_sweep_prefix _ _ _ _ E) as (st3 & r3 & rest & H3 & Hr & Hn). rewrite H3.
    destruct r3 as [e|].
    + apply seq_run_grows in H. destruct H as [rest' Hr']. exists st3, (Some e), (rest ++ rest').
      split; [reflexivity|]. split; [rewrite Hr', Hr, app_assoc; reflexivity|discriminate].
    + rewrite (Hn eq_refl). apply IH, H.
Qed.

(** ** Errors, asynchronous *)
Variable p : params V.

Definition agood (s : ast V) : Prop := forallb (fun e => negb (failed e)) (a_tr s) = true.
Definition abad (s : ast V) (e : exn) : Prop :=
  exists tr i k v, a_tr s = tr ++ [ECall i k v (inr e)] /\ forallb (fun e => negb (failed e)) tr = true.

Lemma a_tr_add_counter io d (s : ast V) : a_tr (add_counter io d s) = a_tr s.
Proof. destruct io; reflexivity. Qed.
Lemma a_raised_add_counter io d (s : ast V) : a_raised (add_counter io d s) = a_raised s.
Proof. destruct io; reflexivity. Qed.

Lemma nth_item i w : only_item_works (p_works p) -> nth_error (p_works p) i = Some w -> exists inq f, w_body w = ItemWork inq f.
Proof. intros H Hn. apply H. eapply nth_error_In, Hn. Qed.

Lemma step_errors s l s' : only_item_works (p_works p) -> a_raised s = None ->
  step p s l = Some s' ->
  (agood s -> p_stop_if_error p = true -> match a_raised s' with None => agood s' | Some e => abad s' e end) /\
  (p_stop_if_error p = false -> a_raised s' = None).
Proof.
  intros Hit Hr HS. unfold step in HS. rewrite Hr in HS. destruct l as [i|id|id|].
  - unfold check in HS. destruct (a_exited s i); [discriminate|].
    destruct (nth_error (p_works p) i) as [w|] eqn:Ew; [|discriminate].
    destruct (nth_item i w Hit Ew) as (inq & f & Hb). rewrite Hb in HS.
    assert (Htr : a_tr s' = a_tr s /\ a_raised s' = a_raised s).
    { match type of HS with context [if ?c then _ else _] => destruct c end; [destruct (a_stop s)|]; injection HS as <-; split; reflexivity. }
    destruct Htr as [H1 H2]. rewrite H2, Hr. unfold agood. rewrite H1. auto.
  - unfold start in HS. destruct (find_task id s) as [[id0 i st]|]; [|discriminate].
    destruct st; [|discriminate]. destruct (nth_error (p_works p) i) as [w|] eqn:Ew; [|discriminate].
    destruct (nth_item i w Hit Ew) as (inq & f & Hb). rewrite Hb in HS. cbv zeta in HS.
    destruct (q_pop_first _) as [[[k [v|e]] q']|].
    + injection HS as <-. unfold set_running, set_tasks, set_qs, agood. cbn [a_tr a_raised].
      rewrite a_tr_add_counter, a_raised_add_counter, Hr. auto.
    + injection HS as <-. destruct (w_out w); unfold remove_task, set_tasks, set_qs, add_tr, agood; cbn [a_tr a_raised];
      rewrite ?a_tr_add_counter, ?a_raised_add_counter; cbn [a_tr a_raised]; rewrite ?a_tr_add_counter, ?a_raised_add_counter, Hr.
      * auto.
      * split; [|auto]. intros Hg _. rewrite forallb_app, Hg. reflexivity.
    + injection HS as <-. unfold remove_task, set_tasks, agood. cbn [a_tr a_raised].
      rewrite !a_tr_add_counter, !a_raised_add_counter, Hr. auto.
  - unfold finish in HS. destruct (find_task id s) as [[id0 i st]|]; [|discriminate].
    destruct st as [|k v]; [discriminate|]. destruct (nth_error (p_works p) i) as [w|] eqn:Ew; [|discriminate].
    destruct (nth_item i w Hit Ew) as (inq & f & Hb). rewrite Hb in HS. cbv zeta in HS.
    destruct (f k v) as [v'|e] eqn:Ef.
    + injection HS as <-. unfold remove_task, set_tasks, agood. cbn [a_tr a_raised].
      rewrite !a_tr_add_counter, !a_raised_add_counter. unfold set_qs, add_tr. cbn [a_tr a_raised]. rewrite Hr.
      split; [|auto]. intros Hg _. rewrite forallb_app, Hg. reflexivity.
    + destruct (p_stop_if_error p); injection HS as <-.
      * split; [|discriminate]. intros Hg _. cbn. exists (a_tr s), i, k, v. auto.
      * unfold remove_task, set_tasks, agood. cbn [a_tr a_raised].
      rewrite !a_tr_add_counter, !a_raised_add_counter. unfold set_qs, add_tr. cbn [a_tr a_raised]. rewrite Hr.
      split; [discriminate|auto].
  - unfold poll in HS. destruct (a_poll_done s); [discriminate|]. destruct (a_stop s); injection HS as <-;
    unfold set_poll, agood; cbn [a_tr a_raised]; rewrite Hr; auto.
Qed.

Lemma async_errors qs s : only_item_works (p_works p) -> reachable p (init qs) s ->
  (p_stop_if_error p = true -> match a_raised s with None => agood s | Some e => abad s e end) /\
  (p_stop_if_error p = false -> a_raised s = None).
Proof.
  intros Hit HR. induction HR as [|s l s' HR IH HS].
  - split; reflexivity.
  - assert (Hr : a_raised s = None). { unfold step in HS. destruct (a_raised s); [discriminate|reflexivity]. }
    destruct (step_errors s l s' Hit Hr HS) as [H1 H2]. rewrite Hr in IH. split; [|exact H2].
    intros Hsie. apply H1; [|exact Hsie]. apply IH, Hsie.
Qed.
End Gen.

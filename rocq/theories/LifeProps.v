(** C17 and C18: how many times the one shot works and the final work are called. *)
From Verif Require Import PyBase StrModel FsModel LifeModel.

(** ** Specification *)

(** Number of times an event occurs in a trace. *)
Definition ev_eq_dec (a b : levent) : {a = b} + {a <> b}.
Proof. decide equality. apply Nat.eq_dec. Defined.
Definition times (e : levent) (tr : list levent) : nat := count_occ ev_eq_dec tr e.

(** The i-th work of the topology is declared "one shot". *)
Definition is_one_shot (t : topo) (i : nat) : bool :=
  match nth_error (t_works t) i with Some w => tw_one_shot w | None => false end.

(** A new executor on an empty trace. *)
Definition fresh (s : st) : Prop := w_trace (snd s) = [].

(** ** Proofs *)

(** [adds m l]: when [m] returns normally it has added the events [l] and left
    [_final_seq_work_run] unchanged. *)
Definition adds {A} (m : M A) (l : list levent) : Prop :=
  forall s s' a, m s = (s', Ok a) ->
    w_trace (snd s') = w_trace (snd s) ++ l /\ x_final_run (fst s') = x_final_run (fst s).

Lemma adds_ret {A} (a : A) : adds (ret a) [].
Proof. intros s s' b [= <- <-]. rewrite app_nil_r. split; reflexivity. Qed.
Lemma adds_raise {A} e : adds (A := A) (raise_ e) [].
Proof. intros s s' b [=]. Qed.
Lemma adds_get : adds get [].
Proof. intros s s' b [= <- <-]. rewrite app_nil_r. split; reflexivity. Qed.
Lemma adds_bind {A B} (m : M A) (k : A -> M B) l1 l2 l :
  adds m l1 -> (forall a, adds (k a) l2) -> l = l1 ++ l2 -> adds (mbind m k) l.
Proof.
  intros H1 H2 -> s s' b. unfold mbind. destruct (m s) as [s1 [a|e]] eqn:E; [|discriminate].
  intros H. destruct (H1 _ _ _ E) as (A1 & A2). destruct (H2 a _ _ _ H) as (B1 & B2).
  rewrite B1, A1, B2, A2, app_assoc. split; reflexivity.
Qed.
Lemma adds_bind0 {A B} (m : M A) (k : A -> M B) l :
  adds m [] -> (forall a, adds (k a) l) -> adds (mbind m k) l.
Proof. intros H1 H2. eapply adds_bind; [exact H1|exact H2|reflexivity]. Qed.
Lemma adds_on_fs f : adds (on_fs f) [].
Proof.
  intros [x w] s' b. unfold on_fs. destruct (f (w_fs w)); [|discriminate]. intros [= <- <-].
  cbn. rewrite app_nil_r. split; reflexivity.
Qed.
Lemma adds_emit e : adds (emit e) [e].
Proof. intros [x w] s' b [= <- <-]. split; reflexivity. Qed.
Lemma adds_add_results l : adds (add_results l) [].
Proof. intros [x w] s' b [= <- <-]. cbn. rewrite app_nil_r. split; reflexivity. Qed.
Lemma adds_raise_opt o : adds (raise_opt o) [].
Proof. destruct o; [apply adds_raise|apply adds_ret]. Qed.
Lemma adds_set_x f : (forall x, x_final_run (f x) = x_final_run x) -> adds (set_x f) [].
Proof. intros F [x w] s' b [= <- <-]. cbn. rewrite app_nil_r, F. split; reflexivity. Qed.

#[local] Hint Resolve adds_ret adds_raise adds_get adds_on_fs adds_add_results adds_raise_opt : adds.
Ltac adds0 := repeat first
  [ progress eauto with adds
  | apply adds_bind0; [|intros ?]
  | apply adds_set_x; intros []; reflexivity
  | match goal with
    | |- adds (if ?b then _ else _) _ => destruct b
    | |- adds (match ?o with _ => _ end) _ => destruct o
    | |- adds (let '(_, _) := ?p in _) _ => destruct p
    end ].

Lemma adds_save_lock now : adds (save_lock_file now) [].
Proof. unfold save_lock_file. adds0. Qed.
Lemma adds_release now : adds (release_lock now) [].
Proof. unfold release_lock. adds0. Qed.
#[local] Hint Resolve adds_save_lock adds_release : adds.
Lemma adds_job now p i : adds (save_job_data now p i) [].
Proof. unfold save_job_data. adds0. Qed.
Lemma adds_save_results pn : adds (save_results_names pn) [].
Proof. unfold save_results_names. adds0. Qed.
#[local] Hint Resolve adds_job adds_save_results : adds.
Lemma adds_batches pn h e l : adds (seq_batches pn h l e) [].
Proof. induction l as [|b l IH]; cbn [seq_batches]; adds0. Qed.
#[local] Hint Resolve adds_batches : adds.

(** calls made by the count of the expected results *)
Definition first_calls (t : topo) : list levent := if t_series t then [] else [EvCall 0].

Lemma adds_expected t : adds (init_num_expected_results t) (first_calls t).
Proof.
  unfold init_num_expected_results, first_calls. destruct (t_series t); [apply adds_ret|].
  destruct (t_works t) as [|w0 ws]; [intros s s' a [=]|].
  destruct (tw_has_input w0); [intros s s' a [=]|].
  destruct (tw_out w0); [| |intros s s' a [=]].
  - intros s s' a. unfold mbind, emit, raise_opt, raise_, ret. destruct s. destruct (tw_call w0); discriminate.
  - eapply adds_bind; [apply adds_emit| |rewrite app_nil_r; reflexivity]. intros _. adds0.
Qed.

(** calls made by exec_one_shot_works *)
Fixpoint one_shot_calls (i : nat) (l : list twork) : list levent :=
  match l with
  | [] => []
  | w :: l' => (if tw_one_shot w then [EvCall i] else []) ++ one_shot_calls (S i) l'
  end.

Lemma adds_one_shot i l : adds (one_shot_loop i l) (one_shot_calls i l).
Proof.
  revert i. induction l as [|w l IH]; intros i; cbn [one_shot_loop one_shot_calls]; [apply adds_ret|].
  eapply adds_bind; [|intros _; apply IH|reflexivity].
  destruct (tw_one_shot w); [|apply adds_ret].
  eapply adds_bind; [apply adds_emit|intros _; apply adds_raise_opt|reflexivity].
Qed.

Lemma times_app e a b : times e (a ++ b) = (times e a + times e b)%nat.
Proof. apply count_occ_app. Qed.

Lemma times_one_shot j l : forall i, times (EvCall j) (one_shot_calls i l) =
  if andb (i <=? j)%nat (match nth_error l (j - i) with Some w => tw_one_shot w | None => false end)
  then 1%nat else 0%nat.
Proof.
  induction l as [|w l IH]; intros i; cbn [one_shot_calls].
  - rewrite andb_comm. destruct (j - i)%nat; reflexivity.
  - rewrite times_app, IH.
    destruct (Nat.compare_spec i j) as [E|L|G].
    + subst j. rewrite Nat.leb_refl, Nat.sub_diag. cbn [andb nth_error].
      replace (S i <=? i)%nat with false by (symmetry; apply Nat.leb_gt; lia). cbn [andb].
      destruct (tw_one_shot w); cbn; [|reflexivity].
      destruct (Nat.eq_dec i i); [reflexivity|contradiction].
    + replace (i <=? j)%nat with true by (symmetry; apply Nat.leb_le; lia).
      replace (S i <=? j)%nat with true by (symmetry; apply Nat.leb_le; lia).
      replace (j - i)%nat with (S (j - S i)) by lia. cbn [andb nth_error].
      destruct (tw_one_shot w); [|reflexivity].
      cbn. destruct (Nat.eq_dec i j); [lia|]. reflexivity.
    + replace (i <=? j)%nat with false by (symmetry; apply Nat.leb_gt; lia).
      replace (S i <=? j)%nat with false by (symmetry; apply Nat.leb_gt; lia). cbn [andb].
      destruct (tw_one_shot w); [|reflexivity].
      cbn. destruct (Nat.eq_dec i j); [lia|]. reflexivity.
Qed.

Lemma times_other e l i : (forall j, e <> EvCall j) -> times e (one_shot_calls i l) = 0%nat.
Proof.
  intros N. revert i. induction l as [|w l IH]; intros i; cbn [one_shot_calls]; [reflexivity|].
  rewrite times_app, IH. destruct (tw_one_shot w); [|reflexivity].
  unfold times. cbn [count_occ]. destruct (ev_eq_dec (EvCall i) e) as [E|]; [symmetry in E; destruct (N _ E)|reflexivity].
Qed.

(** after [_init_compute] *)
Lemma init_compute_trace seq now p i t s s' n :
  init_compute seq now p i t s = (s', Ok n) ->
  w_trace (snd s') = w_trace (snd s) ++ first_calls t /\ x_final_run (fst s') = Some false.
Proof.
  unfold init_compute. destruct s as [x w]. unfold mbind at 1. cbn [set_x].
  set (x0 := mk_exec _ _ _ _ _ _).
  intros H.
  assert (A : adds (let! n := init_num_expected_results t in
     if (n =? 0)%nat then ret n
     else let! _ := save_job_data now p i in
          let! _ := if (seq && t_results t)%bool then init_results_log else ret tt in ret n) (first_calls t)).
  { eapply adds_bind; [apply adds_expected| |rewrite app_nil_r; reflexivity]. intros a.
    destruct (a =? 0)%nat; [apply adds_ret|]. apply adds_bind0; [apply adds_job|]. intros _.
    apply adds_bind0; [|intros _; apply adds_ret].
    destruct (seq && t_results t)%bool; [|apply adds_ret]. apply adds_set_x. intros []; reflexivity. }
  destruct (A _ _ _ H) as (A1 & A2). split; [exact A1|exact A2].
Qed.

(** the calls of _run_final_seq_work *)
Definition final_calls (t : topo) (fr : option bool) : list levent :=
  match t_final t, fr with Some _, Some false => [EvFinal] | _, _ => [] end.

Lemma run_final_trace t s s' : run_final_seq_work t s = (s', Ok tt) ->
  w_trace (snd s') = w_trace (snd s) ++ final_calls t (x_final_run (fst s)) /\
  (t_final t <> None -> x_final_run (fst s') = Some true).
Proof.
  destruct s as [x w]. unfold run_final_seq_work, final_calls. destruct (t_final t) as [esc|].
  - unfold mbind, get. cbn [fst snd]. destruct (x_final_run x) as [[|]|] eqn:F; try discriminate.
    + intros [= <-]. cbn. rewrite app_nil_r. split; [reflexivity|]. intros _; exact F.
    + unfold emit. destruct esc as [e|]; cbn; [discriminate|]. intros [= <-]. cbn. split; [reflexivity|].
      intros _. reflexivity.
  - intros [= <-]. rewrite app_nil_r. split; [reflexivity|]. intros H; destruct (H eq_refl).
Qed.

Lemma finalize_trace now t s s' : finalize_compute now t s = (s', Ok tt) ->
  w_trace (snd s') = w_trace (snd s) ++ final_calls t (x_final_run (fst s)).
Proof.
  unfold finalize_compute, mbind. destruct (run_final_seq_work t s) as [s1 [[]|e]] eqn:E; [|discriminate].
  intros H. destruct (run_final_trace _ _ _ E) as (A & _).
  destruct (adds_release now _ _ _ H) as (B & _). rewrite B, A, app_nil_r. reflexivity.
Qed.

(** The trace of an execution which returns normally. *)
Definition full_trace (t : topo) : list levent :=
  first_calls t ++ one_shot_calls 0 (t_works t) ++ [EvWorks] ++
  match t_final t with Some _ => [EvFinal] | None => [] end.

Lemma final_calls_false t : final_calls t (Some false) = match t_final t with Some _ => [EvFinal] | None => [] end.
Proof. reflexivity. Qed.

Lemma sequential_trace pn now p i now' t s s' :
  compute_sequential pn now p i now' t s = (s', Ok tt) ->
  w_trace (snd s') = w_trace (snd s) ++ full_trace t.
Proof.
  unfold compute_sequential, mbind at 1. destruct (init_compute true now p i t s) as [s1 [n|e]] eqn:E1; [|discriminate].
  destruct (init_compute_trace _ _ _ _ _ _ _ _ E1) as (T1 & F1).
  unfold mbind at 1. destruct (exec_one_shot_works t s1) as [s2 [[]|e]] eqn:E2; [|discriminate].
  destruct (adds_one_shot _ _ _ _ _ E2) as (T2 & F2).
  unfold mbind at 1. destruct (seq_batches pn (t_results t) (t_batches t) (t_escape t) s2) as [s3 [[]|e]] eqn:E3; [|discriminate].
  destruct (adds_batches _ _ _ _ _ _ _ E3) as (T3 & F3).
  unfold mbind at 1. destruct (emit EvWorks s3) as [s4 [[]|e]] eqn:E4; [|discriminate].
  destruct (adds_emit _ _ _ _ E4) as (T4 & F4).
  unfold mbind at 1. destruct (finalize_compute now' t s4) as [s5 [[]|e]] eqn:E5; [|discriminate].
  pose proof (finalize_trace _ _ _ _ E5) as T5. rewrite F4, F3, F2, F1, final_calls_false in T5.
  intros H.
  assert (T6 : w_trace (snd s') = w_trace (snd s5)).
  { destruct (t_results t).
    - destruct (adds_save_results _ _ _ _ H) as (T6 & _). rewrite T6, app_nil_r. reflexivity.
    - injection H as <-. reflexivity. }
  rewrite T6, T5, T4, T3, T2, T1, app_nil_r. unfold full_trace. rewrite <- !app_assoc. reflexivity.
Qed.

Lemma async_trace now p i now' t s s' :
  compute_async now p i now' t s = (s', Ok tt) ->
  w_trace (snd s') = w_trace (snd s) ++ full_trace t.
Proof.
  unfold compute_async, mbind at 1. destruct (init_compute false now p i t s) as [s1 [n|e]] eqn:E1; [|discriminate].
  destruct (init_compute_trace _ _ _ _ _ _ _ _ E1) as (T1 & F1).
  unfold mbind at 1. destruct (exec_one_shot_works t s1) as [s2 [[]|e]] eqn:E2; [|discriminate].
  destruct (adds_one_shot _ _ _ _ _ E2) as (T2 & F2).
  unfold mbind at 1. destruct (add_results (List.concat (t_batches t)) s2) as [s3 [[]|e]] eqn:E3; [|discriminate].
  destruct (adds_add_results _ _ _ _ E3) as (T3 & F3).
  unfold mbind at 1. destruct (raise_opt (t_escape t) s3) as [s3' [[]|e]] eqn:E3'; [|discriminate].
  destruct (adds_raise_opt _ _ _ _ E3') as (T3' & F3').
  unfold mbind at 1. destruct (emit EvWorks s3') as [s4 [[]|e]] eqn:E4; [|discriminate].
  destruct (adds_emit _ _ _ _ E4) as (T4 & F4).
  intros E5. pose proof (finalize_trace _ _ _ _ E5) as T5. rewrite F4, F3', F3, F2, F1, final_calls_false in T5.
  rewrite T5, T4, T3', T3, T2, T1, !app_nil_r. unfold full_trace. rewrite <- !app_assoc. reflexivity.
Qed.

(** An execution by one of the two single process executors which returns normally. *)
Definition returns (pn : chars -> chars) (t : topo) (s s' : st) : Prop :=
  exists now p i now',
    compute_sequential pn now p i now' t s = (s', Ok tt) \/
    compute_async now p i now' t s = (s', Ok tt).

Lemma returns_trace pn t s s' : returns pn t s s' -> w_trace (snd s') = w_trace (snd s) ++ full_trace t.
Proof.
  intros (now & p & i & now' & [H|H]); [eapply sequential_trace; exact H|eapply async_trace; exact H].
Qed.

(** ** C17 *)

(** Exact number of calls of the work [j] as a one shot function. *)
Theorem C17_count_partial : forall pn t s s' j,
  fresh s -> returns pn t s s' ->
  times (EvCall j) (w_trace (snd s')) =
    ((if is_one_shot t j then 1 else 0) + (if andb (negb (t_series t)) (j =? 0)%nat then 1 else 0))%nat.
Proof.
  intros pn t s s' j F H. rewrite (returns_trace _ _ _ _ H), F. cbn [app]. unfold full_trace.
  rewrite !times_app, times_one_shot, Nat.sub_0_r. cbn [Nat.leb andb]. unfold is_one_shot, first_calls.
  assert (R : times (EvCall j) [EvWorks] = 0%nat) by reflexivity.
  assert (R2 : times (EvCall j) match t_final t with Some _ => [EvFinal] | None => [] end = 0%nat).
  { destruct (t_final t); reflexivity. }
  rewrite R, R2.
  destruct (t_series t); cbn [negb andb].
  - cbn. destruct (nth_error (t_works t) j) as [w|]; [|reflexivity]. destruct (tw_one_shot w); reflexivity.
  - unfold times at 1. cbn [count_occ]. destruct (ev_eq_dec (EvCall 0) (EvCall j)) as [E|E].
    + injection E as <-. cbn [Nat.eqb]. lia.
    + destruct j; [contradiction E; reflexivity|]. cbn [Nat.eqb]. lia.
Qed.
Print Assumptions C17_count_partial.

(** With a topology which declares a series of images: exactly once, and before the works. *)
Theorem C17_series_partial : forall pn t s s',
  fresh s -> returns pn t s s' -> t_series t = true ->
  exists before after, w_trace (snd s') = before ++ EvWorks :: after /\
    (forall j, times (EvCall j) after = 0%nat) /\
    forall j, times (EvCall j) before = if is_one_shot t j then 1%nat else 0%nat.
Proof.
  intros pn t s s' F H S. rewrite (returns_trace _ _ _ _ H), F. unfold full_trace, first_calls. rewrite S.
  cbn [app]. eexists _, _. split; [reflexivity|]. split.
  - intros j. destruct (t_final t); reflexivity.
  - intros j. rewrite times_one_shot, Nat.sub_0_r. cbn [Nat.leb andb]. unfold is_one_shot.
    destruct (nth_error (t_works t) j) as [w|]; [|reflexivity]. destruct (tw_one_shot w); reflexivity.
Qed.
Print Assumptions C17_series_partial.

(** All calls precede the other works, also without series. *)
Theorem C17_before_works : forall pn t s s',
  fresh s -> returns pn t s s' ->
  exists before after, w_trace (snd s') = before ++ EvWorks :: after /\
    forall j, times (EvCall j) after = 0%nat.
Proof.
  intros pn t s s' F H. rewrite (returns_trace _ _ _ _ H), F. unfold full_trace. cbn [app].
  rewrite app_assoc. eexists _, _. split; [reflexivity|].
  intros j. destruct (t_final t); reflexivity.
Qed.
Print Assumptions C17_before_works.

(** Without series the first work, when it is a one shot work, is called twice in every
    execution which returns normally. *)
Theorem C17_refuted : forall pn t s s',
  fresh s -> returns pn t s s' -> t_series t = false -> is_one_shot t 0 = true ->
  times (EvCall 0) (w_trace (snd s')) = 2%nat.
Proof.
  intros pn t s s' F H S O. rewrite (C17_count_partial pn t s s' 0 F H), S, O. reflexivity.
Qed.
Print Assumptions C17_refuted.

(** Without series, a first work with no output queue is called once by [compute] and then nothing else happens: the call
    raises AttributeError (or the exception of the work), the file system is unchanged and no other work is run. *)
Theorem C17_no_output_refuted : forall pn t s now p i now' w0 rest,
  t_series t = false -> t_works t = w0 :: rest -> tw_has_input w0 = false -> tw_out w0 = ONone ->
  let e := match tw_call w0 with Some e => e | None => AttributeError end in
  exists s', compute_sequential pn now p i now' t s = (s', Err e) /\ compute_async now p i now' t s = (s', Err e) /\
    w_fs (snd s') = w_fs (snd s) /\ w_results (snd s') = w_results (snd s) /\ w_trace (snd s') = w_trace (snd s) ++ [EvCall 0].
Proof.
  intros pn t [x w] now p i now' w0 rest S W I O e.
  eexists. unfold compute_sequential, compute_async, init_compute, init_num_expected_results, mbind, set_x, emit, raise_opt, raise_, ret.
  rewrite S, W, I, O. subst e. destruct (tw_call w0); split; [reflexivity|split; [reflexivity|]|reflexivity|split; [reflexivity|]];
    cbn; repeat split; reflexivity.
Qed.
Print Assumptions C17_no_output_refuted.

(** ** C18 *)
Theorem C18_once : forall pn t s s',
  fresh s -> returns pn t s s' ->
  times EvFinal (w_trace (snd s')) = match t_final t with Some _ => 1%nat | None => 0%nat end.
Proof.
  intros pn t s s' F H. rewrite (returns_trace _ _ _ _ H), F. unfold full_trace. cbn [app].
  rewrite !times_app, times_other by discriminate. unfold first_calls.
  destruct (t_series t), (t_final t); reflexivity.
Qed.
Print Assumptions C18_once.

(** It is the last event: after the works. *)
Theorem C18_last : forall pn t s s',
  fresh s -> returns pn t s s' -> t_final t <> None ->
  exists before, w_trace (snd s') = before ++ [EvWorks; EvFinal] /\ times EvFinal before = 0%nat.
Proof.
  intros pn t s s' F H N. rewrite (returns_trace _ _ _ _ H), F. unfold full_trace. cbn [app].
  destruct (t_final t) as [o|]; [|contradiction N; reflexivity].
  exists (first_calls t ++ one_shot_calls 0 (t_works t)). rewrite <- app_assoc. split; [reflexivity|].
  rewrite times_app, times_other by discriminate. unfold first_calls. destruct (t_series t); reflexivity.
Qed.
Print Assumptions C18_last.

(** Whatever the number of calls (the multi executors call it before the end and in
    _finalize_compute): once. *)
Fixpoint repeat_final (t : topo) (n : nat) : M unit :=
  match n with
  | O => ret tt
  | S n' => let! _ := run_final_seq_work t in repeat_final t n'
  end.

Lemma repeat_done t n : forall s s', x_final_run (fst s) = Some true ->
  repeat_final t n s = (s', Ok tt) -> w_trace (snd s') = w_trace (snd s).
Proof.
  induction n as [|n IH]; intros s s' F; cbn [repeat_final].
  - intros [= <-]. reflexivity.
  - unfold mbind. destruct (run_final_seq_work t s) as [s1 [[]|e]] eqn:E; [|discriminate]. intros H.
    destruct (run_final_trace _ _ _ E) as (T & F1). rewrite F in T. 
    assert (T0 : final_calls t (Some true) = []) by (unfold final_calls; destruct (t_final t); reflexivity).
    rewrite T0, app_nil_r in T.
    destruct (t_final t) as [o|] eqn:O.
    + rewrite <- T. apply IH; [apply F1; discriminate|exact H].
    + unfold run_final_seq_work in E. rewrite O in E. injection E as <-. apply IH; assumption.
Qed.

Theorem C18_repeated : forall seq now p i t n s s1 s2 k,
  init_compute seq now p i t s = (s1, Ok k) -> repeat_final t (S n) s1 = (s2, Ok tt) ->
  fresh s ->
  times EvFinal (w_trace (snd s2)) = match t_final t with Some _ => 1%nat | None => 0%nat end.
Proof.
  intros seq now p i t n s s1 s2 k H1 H2 F. destruct (init_compute_trace _ _ _ _ _ _ _ _ H1) as (T1 & F1).
  rewrite F in T1. cbn [app] in T1. cbn [repeat_final] in H2. unfold mbind in H2.
  destruct (run_final_seq_work t s1) as [s3 [[]|e]] eqn:E; [|discriminate].
  destruct (run_final_trace _ _ _ E) as (T & F3). rewrite F1 in T.
  assert (R : w_trace (snd s2) = w_trace (snd s3)).
  { destruct (t_final t) as [o|] eqn:O.
    - eapply repeat_done; [apply F3; discriminate|exact H2].
    - clear - H2 O. revert s3 H2. induction n as [|n IH]; intros s3; cbn [repeat_final].
      + intros [= <-]. reflexivity.
      + unfold mbind, run_final_seq_work at 1. rewrite O. cbn. apply IH. }
  rewrite R, T, T1, times_app. unfold first_calls, final_calls.
  destruct (t_series t), (t_final t); reflexivity.
Qed.
Print Assumptions C18_repeated.

(** A final work which raises is run again by the next call: the flag is set afterwards. *)
Theorem C18_raising_final_refuted : exists t s s1 s2,
  fresh s /\ x_final_run (fst s) = Some false /\
  run_final_seq_work t s = (s1, Err (UserError 1)) /\
  run_final_seq_work t s1 = (s2, Err (UserError 1)) /\
  times EvFinal (w_trace (snd s2)) = 2%nat.
Proof.
  exists (mk_topo true 0 0 [] [] None false (Some (Some (UserError 1))) []).
  exists (mk_exec [] [] [] [] (Some false) None, mk_world [] [] []).
  eexists _, _. repeat split; reflexivity.
Qed.
Print Assumptions C18_raising_final_refuted.

(** ** The sequential executor when there is nothing to compute (see C23) *)

Theorem C23_sequential_nothing_refuted : forall pn now p i now' t s,
  t_series t = true -> t_nb_series t = 0%nat -> t_results t = true -> t_batches t = [] ->
  (forall w, In w (t_works t) -> tw_call w = None) ->
  t_final t = None -> x_saved (fst s) = None -> fs_exists (w_fs (snd s)) (x_lock (fst s)) = false ->
  snd (compute_sequential pn now p i now' t s) = Err AttributeError.
Proof.
  intros pn now p i now' t [x w] S N R B W F X L. cbn [fst snd] in *.
  assert (O : forall l i x1 w1, (forall w, In w l -> tw_call w = None) ->
     exists w2, one_shot_loop i l (x1, w1) = ((x1, w2), Ok tt) /\ w_fs w2 = w_fs w1).
  { clear. induction l as [|a l IH]; intros i x1 w1 H; cbn [one_shot_loop]; [eexists; split; reflexivity|].
    unfold mbind at 1. destruct (tw_one_shot a).
    - unfold mbind, emit. rewrite (H a) by (left; reflexivity). cbn [raise_opt ret].
      destruct (IH (S i) x1 (mk_world (w_fs w1) (w_trace w1 ++ [EvCall i]) (w_results w1))) as (w2 & E & G).
      { intros b Hb. apply H. right; exact Hb. }
      rewrite E. eexists. split; [reflexivity|exact G].
    - cbn [ret]. apply IH. intros b Hb. apply H. right; exact Hb. }
  destruct (O (t_works t) 0%nat (mk_exec (x_dir x) (x_postfix x) (x_job x) (x_lock x) (Some false) (x_saved x)) w W)
    as (w2 & E & G).
  unfold compute_sequential.
  assert (E1 : init_compute true now p i t (x, w) =
    ((mk_exec (x_dir x) (x_postfix x) (x_job x) (x_lock x) (Some false) (x_saved x), w), Ok 0%nat)).
  { unfold init_compute, mbind, set_x, init_num_expected_results. rewrite S, N. reflexivity. }
  unfold mbind at 1. rewrite E1. unfold mbind at 1, exec_one_shot_works. rewrite E, B.
  unfold mbind at 1. cbn [seq_batches ret]. unfold mbind at 1. cbn [emit].
  unfold mbind at 1, finalize_compute, mbind at 1, run_final_seq_work. rewrite F. cbn [ret].
  unfold release_lock, mbind at 1, get. cbn [w_fs x_lock]. rewrite G, L. cbn [ret].
  rewrite R. unfold save_results_names, mbind at 1, get. cbn [x_saved]. rewrite X. reflexivity.
Qed.
Print Assumptions C23_sequential_nothing_refuted.

(** ** Examples: executions which return normally *)
Definition ex_dir : path := [of_string "data"].
Definition ex_state : st :=
  (mk_exec ex_dir (of_string "p") (job_name (of_string "p") :: ex_dir)
           (lock_name :: job_name (of_string "p") :: ex_dir) None None,
   mk_world [(ex_dir, Dir)] [] []).
Definition ex_works : list twork :=
  [mk_twork true false OOne None; mk_twork false true OOne None; mk_twork true true ONone None].
(** series of images: one shot works 0 and 2 called once, the final work once *)
Definition ex_topo : topo :=
  mk_topo true 2 0 ex_works [[RNamed (of_string "a")]; [RNamed (of_string "b")]] None true (Some None) [].
(** no series *)
Definition ex_topo_ns : topo :=
  mk_topo false 0 2 ex_works [[RNamed (of_string "a")]] None true (Some None) [].
Example C17_example : exists s1 s2 s3 s4,
  returns (fun x => x) ex_topo ex_state s1 /\ returns (fun x => x) ex_topo_ns ex_state s2 /\
  compute_async [] [] [] [] ex_topo ex_state = (s3, Ok tt) /\
  compute_async [] [] [] [] ex_topo_ns ex_state = (s4, Ok tt) /\
  w_trace (snd s1) = [EvCall 0; EvCall 2; EvWorks; EvFinal] /\
  w_trace (snd s2) = [EvCall 0; EvCall 0; EvCall 2; EvWorks; EvFinal].
Proof.
  eexists _, _, _, _. split; [|split; [|split; [|split; [|split]]]].
  - exists [], [], [], []. left. vm_compute. reflexivity.
  - exists [], [], [], []. left. vm_compute. reflexivity.
  - vm_compute. reflexivity.
  - vm_compute. reflexivity.
  - reflexivity.
  - reflexivity.
Qed.

Example C17_no_output_example : exists s',
  compute_async [] [] [] [] (mk_topo false 0 2 [mk_twork true false ONone None] [] None true None []) ex_state = (s', Err AttributeError) /\
  w_trace (snd s') = [EvCall 0].
Proof. eexists. vm_compute. split; reflexivity. Qed.

(** all files exist already, mode "complete": the execution raises AttributeError *)
Example C23_sequential_nothing_example :
  snd (compute_sequential (fun x => x) [] [] [] []
    (mk_topo true 0 0 ex_works [] None true None []) ex_state) = Err AttributeError.
Proof. vm_compute. reflexivity. Qed.

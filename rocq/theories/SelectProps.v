(** C56: compute() runs the executor asked for. *)
From Verif Require Import PyBase SelectModel.
Open Scope string_scope.

(** ** Specification *)

(** The name asked for by the arguments, when they are consistent. *)
Definition asks (linux : bool) (executor : exec_arg) (sequential : bool) (name : string) : Prop :=
  (sequential = true /\ (executor = ANone \/ executor = AName "exec_sequential") /\ name = "exec_sequential") \/
  (sequential = false /\ executor = AName name) \/
  (sequential = false /\ executor = ANone /\
   name = if linux then "multi_exec_async" else "multi_exec_subproc").

(** ** Proofs *)
Lemma existsb_In name : existsb (String.eqb name) executor_names = true <-> In name executor_names.
Proof.
  rewrite existsb_exists. split.
  - intros (x & H & E). apply String.eqb_eq in E. subst x. exact H.
  - intros H. exists name. split; [exact H|apply String.eqb_refl].
Qed.

Lemma find_module name module : In (name, module) entry_points -> module_fullname name = Ok module.
Proof.
  intros H. unfold entry_points in H. cbn in H.
  repeat (destruct H as [H|H]; [injection H as <- <-; reflexivity|]). destruct H.
Qed.

Lemma asks_compute linux ta executor nb sleep sequential stop kw name :
  asks linux executor sequential name ->
  compute linux ta executor nb sleep sequential stop kw =
    if existsb (String.eqb name) executor_names then
      do module <- module_fullname name ;
      exec_class module (match nb with None => ta_nb_max_workers ta | Some _ => nb end) sleep stop
        (match kw with None => [] | Some k => k end)
    else Err NotImplementedError.
Proof.
  intros [(-> & [->| ->] & ->)|[(-> & ->)|(-> & -> & ->)]]; try reflexivity. destruct linux; reflexivity.
Qed.

(** ** Theorems *)

(** The executor asked for is run with the given options (the number of workers of the
    topology when none is given). *)
Theorem C56_runs_what_is_asked_partial : forall linux ta executor nb sleep sequential stop kw name module,
  asks linux executor sequential name -> In (name, module) entry_points ->
  let kwargs := match kw with None => [] | Some k => k end in
  kwargs_ok module kwargs = true ->
  (needs_path_log module = true -> In "path_log" (map fst kwargs)) ->
  (stop = true -> refuses_stop_if_error module = false) ->
  compute linux ta executor nb sleep sequential stop kw =
    Ok (mk_started module (match nb with Some n => Some n | None => ta_nb_max_workers ta end) sleep stop kwargs).
Proof.
  intros linux ta executor nb sleep sequential stop kw name module A I kwargs K P S.
  rewrite (asks_compute _ _ _ _ _ _ _ _ _ A).
  assert (E : existsb (String.eqb name) executor_names = true).
  { apply existsb_In. apply (in_map fst) in I. exact I. }
  rewrite E, (find_module _ _ I). cbn [bind]. unfold exec_class. fold kwargs. rewrite K. cbn [negb].
  assert (E2 : negb stop && needs_path_log module && negb (existsb (fun k => fst k =? "path_log") kwargs) = false).
  { destruct (needs_path_log module) eqn:N; [|rewrite andb_false_r; reflexivity].
    specialize (P eq_refl). apply in_map_iff in P. destruct P as ((a & v) & E1 & P). cbn in E1. subst a.
    assert (X : existsb (fun k => fst k =? "path_log") kwargs = true).
    { apply existsb_exists. exists ("path_log", v). split; [exact P|reflexivity]. }
    rewrite X. cbn [negb]. rewrite andb_false_r. reflexivity. }
  rewrite E2. destruct stop; cbn [andb].
  - rewrite (S eq_refl). destruct nb; reflexivity.
  - destruct nb; reflexivity.
Qed.
Print Assumptions C56_runs_what_is_asked_partial.

(** Whatever the arguments, when an executor is run it is the one asked for: never another
    class, number of workers, option. *)
Theorem C56_never_another : forall linux ta executor nb sleep sequential stop kw e,
  (forall id, executor <> AObj id) ->
  compute linux ta executor nb sleep sequential stop kw = Ok e ->
  exists name, asks linux executor sequential name /\ In (name, e_module e) entry_points /\
    e_nb_max_workers e = match nb with Some n => Some n | None => ta_nb_max_workers ta end /\
    e_sleep_time e = sleep /\ e_stop_if_error e = stop /\
    e_kwargs e = match kw with None => [] | Some k => k end.
Proof.
  intros linux ta executor nb sleep sequential stop kw e NO H.
  assert (A : exists name, asks linux executor sequential name).
  { unfold asks. destruct sequential.
    - destruct executor as [|n|id]; [exists "exec_sequential"; left; auto| |destruct (NO id eq_refl)].
      unfold compute in H. destruct (String.eqb_spec n "exec_sequential") as [->|]; [|discriminate H].
      exists "exec_sequential". left; auto.
    - destruct executor as [|n|id]; [|exists n; right; left; auto|destruct (NO id eq_refl)].
      eexists. right; right. repeat split; reflexivity. }
  destruct A as (name & A). exists name. split; [exact A|].
  rewrite (asks_compute _ _ _ _ _ _ _ _ _ A) in H.
  destruct (existsb (String.eqb name) executor_names) eqn:E; [|discriminate].
  unfold module_fullname in H. destruct (find (fun e => fst e =? name) entry_points) as [[n m]|] eqn:F; [|discriminate].
  apply find_some in F. destruct F as (F1 & F2). cbn in F2. apply String.eqb_eq in F2. subst n.
  cbn [bind snd] in H. unfold exec_class in H.
  destruct (negb (kwargs_ok m _)); [discriminate H|]. destruct (negb stop && _ && _); [discriminate H|].
  destruct (stop && _); [discriminate H|]. injection H as <-.
  cbn [e_module e_nb_max_workers e_sleep_time e_stop_if_error e_kwargs].
  split; [exact F1|]. destruct nb; repeat split; reflexivity.
Qed.
Print Assumptions C56_never_another.

(** Inconsistent or unknown requests raise. *)
Theorem C56_inconsistent : forall linux ta executor nb sleep stop kw,
  executor <> ANone -> executor <> AName "exec_sequential" ->
  compute linux ta executor nb sleep true stop kw = Err ValueError.
Proof.
  intros linux ta executor nb sleep stop kw H1 H2. destruct executor as [|n|id]; [contradiction H1; reflexivity| |reflexivity].
  unfold compute. destruct (String.eqb_spec n "exec_sequential") as [->|]; [contradiction H2; reflexivity|reflexivity].
Qed.
Print Assumptions C56_inconsistent.

Theorem C56_unknown : forall linux ta name nb sleep stop kw,
  ~ In name executor_names ->
  compute linux ta (AName name) nb sleep false stop kw = Err NotImplementedError.
Proof.
  intros linux ta name nb sleep stop kw H. rewrite (asks_compute linux ta (AName name) nb sleep false stop kw name).
  - destruct (existsb (String.eqb name) executor_names) eqn:E; [|reflexivity].
    apply existsb_In in E. contradiction.
  - right; left. split; reflexivity.
Qed.
Print Assumptions C56_unknown.

(** stop_if_error is refused, not ignored, by the executors which do not implement it. *)
Theorem C56_stop_if_error : forall linux ta executor nb sleep sequential kw name module,
  asks linux executor sequential name -> In (name, module) entry_points ->
  refuses_stop_if_error module = true -> kwargs_ok module (match kw with None => [] | Some k => k end) = true ->
  compute linux ta executor nb sleep sequential true kw = Err NotImplementedError.
Proof.
  intros linux ta executor nb sleep sequential kw name module A I R K.
  rewrite (asks_compute _ _ _ _ _ _ _ _ _ A).
  assert (E : existsb (String.eqb name) executor_names = true).
  { apply existsb_In. apply (in_map fst) in I. exact I. }
  rewrite E, (find_module _ _ I). cbn [bind]. unfold exec_class. rewrite K, R. reflexivity.
Qed.
Print Assumptions C56_stop_if_error.

(** What each executor takes, read from the signatures: the further keyword arguments, whether path_log is required and
    whether stop_if_error is implemented. *)
Record takes := mk_takes { t_module : string; t_options : list string; t_path_log : bool; t_stop : bool }.
Definition table : list (string * takes) :=
  [("exec_sequential", mk_takes "fluidimage.executors.exec_sequential" ["nb_items_queue_max"; "path_log"] false true);
   ("exec_async", mk_takes "fluidimage.executors.exec_async" ["nb_items_queue_max"; "path_log"] false true);
   ("exec_async_sequential", mk_takes "fluidimage.executors.exec_async_sequential" ["nb_items_queue_max"; "path_log"] false true);
   ("exec_async_multi", mk_takes "fluidimage.executors.exec_async_multiproc" ["nb_items_queue_max"; "path_log"] false true);
   ("exec_async_servers", mk_takes "fluidimage.executors.exec_async_servers" ["nb_items_queue_max"] false false);
   ("exec_async_servers_threading", mk_takes "fluidimage.executors.exec_async_servers_threading" ["nb_items_queue_max"] false false);
   ("multi_exec_async", mk_takes "fluidimage.executors.multi_exec_async" ["nb_items_queue_max"] false false);
   ("multi_exec_sync", mk_takes "fluidimage.executors.multi_exec_sync" ["nb_items_queue_max"] false false);
   ("multi_exec_subproc", mk_takes "fluidimage.executors.multi_exec_subproc" ["nb_items_queue_max"] false false);
   ("multi_exec_subproc_sync", mk_takes "fluidimage.executors.multi_exec_subproc_sync" ["nb_items_queue_max"] false false);
   ("exec_async_seq_for_multi", mk_takes "fluidimage.executors.exec_async_seq_for_multi" ["path_log"; "t_start"; "index_process"] true false);
   ("exec_seq_for_multi", mk_takes "fluidimage.executors.exec_seq_for_multi" ["path_log"; "t_start"; "index_process"] true false)].

Lemma table_model name t : In (name, t) table ->
  In (name, t_module t) entry_points /\ accepted (t_module t) = t_options t /\
  needs_path_log (t_module t) = t_path_log t /\ refuses_stop_if_error (t_module t) = negb (t_stop t).
Proof.
  intros H. cbn in H. repeat (destruct H as [H|H]; [injection H as <- <-; split; [cbn; tauto|repeat split; reflexivity]|]). destruct H.
Qed.
Lemma kwargs_ok_iff m kw : kwargs_ok m kw = true <-> incl (map fst kw) (accepted m).
Proof.
  unfold kwargs_ok. rewrite forallb_forall. split; intros H.
  - intros x X. apply in_map_iff in X. destruct X as (k & <- & K). specialize (H k K). apply existsb_exists in H.
    destruct H as (y & Y & E). apply String.eqb_eq in E. subst y. exact Y.
  - intros k K. apply existsb_exists. exists (fst k). split; [apply H, in_map, K|apply String.eqb_refl].
Qed.

(** Exactly which calls run: for each of the twelve executors. *)
Theorem C56_arguments_iff : forall linux ta executor nb sleep sequential stop kw name t,
  asks linux executor sequential name -> In (name, t) table ->
  let kwargs := match kw with None => [] | Some k => k end in
  let run := mk_started (t_module t) (match nb with Some n => Some n | None => ta_nb_max_workers ta end) sleep stop kwargs in
  (compute linux ta executor nb sleep sequential stop kw = Ok run <->
     incl (map fst kwargs) (t_options t) /\ (stop = true -> t_stop t = true) /\
     (t_path_log t = true -> stop = false -> In "path_log" (map fst kwargs))) /\
  (~ incl (map fst kwargs) (t_options t) -> compute linux ta executor nb sleep sequential stop kw = Err TypeError) /\
  (incl (map fst kwargs) (t_options t) -> stop = true -> t_stop t = false ->
     compute linux ta executor nb sleep sequential stop kw = Err NotImplementedError).
Proof.
  intros linux ta executor nb sleep sequential stop kw name t A I kwargs run. subst run.
  destruct (table_model _ _ I) as (I2 & EA & EP & ES).
  rewrite (asks_compute _ _ _ _ _ _ _ _ _ A).
  assert (E : existsb (String.eqb name) executor_names = true).
  { apply existsb_In. apply (in_map fst) in I2. exact I2. }
  rewrite E, (find_module _ _ I2). cbn [bind]. unfold exec_class. fold kwargs. rewrite EP, ES.
  pose proof (kwargs_ok_iff (t_module t) kwargs) as K. rewrite EA in K.
  assert (P : existsb (fun k => fst k =? "path_log") kwargs = true <-> In "path_log" (map fst kwargs)).
  { rewrite existsb_exists. split.
    - intros (k & K1 & K2). apply String.eqb_eq in K2. rewrite <- K2. apply in_map, K1.
    - intros X. apply in_map_iff in X. destruct X as (k & K1 & K2). exists k. split; [exact K2|rewrite K1; reflexivity]. }
  assert (N : match nb with None => ta_nb_max_workers ta | Some _ => nb end = match nb with Some n => Some n | None => ta_nb_max_workers ta end)
    by (destruct nb; reflexivity). rewrite N.
  destruct (kwargs_ok (t_module t) kwargs); cbn [negb].
  2: { split; [split; [discriminate|intros (X & _); apply K in X; discriminate]|]. split; [reflexivity|]. intros X. apply K in X. discriminate. }
  assert (K1 : incl (map fst kwargs) (t_options t)) by (apply K; reflexivity).
  split; [|split; [intros X; contradiction|intros _ -> ->; reflexivity]].
  destruct stop; cbn [negb andb].
  - destruct (t_stop t); cbn [negb]; split; intros H; try discriminate; try reflexivity; try (repeat split; auto; discriminate).
    destruct H as (_ & X & _). specialize (X eq_refl). discriminate.
  - destruct (t_path_log t); cbn [andb]; [|split; [intros _; repeat split; [exact K1|discriminate|discriminate]|reflexivity]].
    destruct (existsb _ kwargs); cbn [negb].
    + split; [intros _; repeat split; [exact K1|discriminate|intros _ _; apply P; reflexivity]|reflexivity].
    + split; [discriminate|]. intros (_ & _ & X). specialize (X eq_refl eq_refl). apply P in X. discriminate.
Qed.
Print Assumptions C56_arguments_iff.

(** The default executors exist. *)
Theorem C56_default_exists : forall linux, Forall (fun n => In n executor_names) (supported_multi_executors linux).
Proof.
  intros linux. apply Forall_forall. intros n H. apply existsb_In. destruct linux; cbn in H;
  repeat (destruct H as [<-|H]; [reflexivity|]); destruct H.
Qed.
Print Assumptions C56_default_exists.

(** An executor object is never used: AttributeError, or the executor of a previous call of
    compute is run again. *)
Theorem C56_object_refuted : forall linux ta id nb sleep stop kw,
  compute linux ta (AObj id) nb sleep false stop kw =
    match ta_executor ta with None => Err AttributeError | Some previous => Ok previous end.
Proof. reflexivity. Qed.
Print Assumptions C56_object_refuted.

(** Examples *)
Example C56_arguments_example :
  asks true (AName "exec_seq_for_multi") false "exec_seq_for_multi" /\
  compute true (mk_topo_attrs None None) (AName "exec_seq_for_multi") None 10 false false None = Err TypeError /\
  compute true (mk_topo_attrs None None) (AName "exec_async_servers") None 10 false true None = Err NotImplementedError /\
  (exists e, compute true (mk_topo_attrs None None) (AName "exec_seq_for_multi") None 10 false false (Some [("path_log", 0%Z)]) = Ok e).
Proof. repeat split; try reflexivity; [right; left; split; reflexivity|eexists; reflexivity]. Qed.

Example C56_example :
  compute true (mk_topo_attrs None (Some 4)) ANone None 10 false false None
    = Ok (mk_started "fluidimage.executors.multi_exec_async" (Some 4) 10 false []) /\
  compute true (mk_topo_attrs None (Some 4)) (AName "exec_async") (Some 2) 10 false true
      (Some [("nb_items_queue_max", 3%Z)])
    = Ok (mk_started "fluidimage.executors.exec_async" (Some 2) 10 true [("nb_items_queue_max", 3%Z)]) /\
  compute true (mk_topo_attrs None None) (AName "exec_async") None 10 true false None = Err ValueError /\
  compute true (mk_topo_attrs None None) (AName "no") None 10 false false None = Err NotImplementedError.
Proof. repeat split; reflexivity. Qed.

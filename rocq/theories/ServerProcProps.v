(** C109, C110: the server processes of the executor exec_async_servers. *)
From Verif Require Import PyBase StrModel StrProofs FsModel FsProofs ResultDirModel ResultDirProps SubprocDirModel SubprocDirProps
  ServersModel ServersProps ServerProcModel.

(** * C109: the start of the servers *)

(** the parameters [h0] of a topology whose directory of results is [D]: every server uses this directory, asks nothing and creates nothing *)
Theorem C109_same_directory : forall f0 answers0 src sp postfix h0 D h sp' f1,
  init_path_dir_result f0 answers0 src sp postfix h0 = Ok (Dir_ready D h, sp', f1) -> h0 <> NewDir ->
  is_dir f1 D /\
  forall f answers, is_dir f D ->
    exists hs, server_init f answers src sp' postfix h0 = Ok (Dir_ready D hs, SPPath D, f) /\ hs <> Ask.
Proof.
  intros f0 answers0 src sp postfix h0 D h sp' f1 I N. destruct (init_ready _ _ _ _ _ _ _ _ _ _ I) as (-> & D1). split; [exact D1|].
  intros f answers Df. exists (server_how h0). split; [|destruct h0; discriminate].
  assert (M : fs_mkdir f D true = Ok f) by (unfold fs_mkdir; rewrite Df; reflexivity).
  assert (X : fs_exists f D = true) by (unfold fs_exists; rewrite Df; reflexivity).
  assert (HO : h0 <> HOther) by (intros ->; discriminate I).
  unfold server_init, init_path_dir_result, prepare_path_dir_result. cbn [reload]. rewrite X. cbn [negb].
  destruct h0; try congruence; cbn [server_how bind]; rewrite M; reflexivity.
Qed.
Print Assumptions C109_same_directory.

(** With [params.saving.how = "new_dir"] no server starts. *)
Theorem C109_new_dir_refuted : forall f0 answers0 src sp postfix D h sp' f1,
  init_path_dir_result f0 answers0 src sp postfix NewDir = Ok (Dir_ready D h, sp', f1) ->
  is_dir f1 D /\
  forall f answers, is_dir f D -> server_init f answers src sp' postfix NewDir = Err TypeError.
Proof.
  intros f0 answers0 src sp postfix D h sp' f1 I. destruct (init_ready _ _ _ _ _ _ _ _ _ _ I) as (-> & D1). split; [exact D1|].
  intros f answers Df.
  assert (X : fs_exists f D = true) by (unfold fs_exists; rewrite Df; reflexivity).
  unfold server_init, init_path_dir_result, prepare_path_dir_result. cbn [reload server_how]. rewrite X. reflexivity.
Qed.
Print Assumptions C109_new_dir_refuted.

(** Only two types of servers exist; a server which is a process leaves the parameters of the caller as they are; a server which is
    a thread changes "ask" into "complete" in them, and only this. *)
Theorem C109_types : forall type h,
  (forall r, launch_server type h = Ok r <->
     (type = of_string "multiprocessing" /\ r = (true, h)) \/
     (type = of_string "threading" /\ r = (false, match h with Ask => Complete | _ => h end))) /\
  (forall e, launch_server type h = Err e <->
     e = ValueError /\ type <> of_string "multiprocessing" /\ type <> of_string "threading").
Proof.
  intros type h. unfold launch_server, str_eqb.
  destruct (chars_eq_dec type (of_string "multiprocessing")) as [E|N1].
  - split; [intros r; split|intros e; split].
    + intros [= <-]. left. split; [exact E|reflexivity].
    + intros [(_ & ->)|(T & _)]; [reflexivity|]. rewrite E in T. discriminate T.
    + discriminate.
    + intros (_ & N & _). contradiction.
  - destruct (chars_eq_dec type (of_string "threading")) as [E|N2].
    + split; [intros r; split|intros e; split].
      * intros [= <-]. right. split; [exact E|]. destruct h; reflexivity.
      * intros [(T & _)|(_ & ->)]; [contradiction|]. destruct h; reflexivity.
      * discriminate.
      * intros (_ & _ & N). contradiction.
    + split; [intros r; split|intros e; split].
      * discriminate.
      * intros [(T & _)|(T & _)]; contradiction.
      * intros [= <-]. split; [reflexivity|]. split; assumption.
      * intros (-> & _). reflexivity.
Qed.
Print Assumptions C109_types.

(** Without server ([nb_max_workers = 0]) the items stay in the queue and the executor never stops. *)
Theorem C109_no_server_refuted : forall is_exn items l, items <> [] ->
  let s := srun is_exn l (s_init 0 items) in
  s_stop s = false /\ s_in s = items /\ s_consumed s = [].
Proof.
  intros is_exn items l N. cbv zeta.
  assert (G : srun is_exn l (s_init 0 items) = s_init 0 items).
  { induction l as [|e l IH]; [reflexivity|]. cbn [srun fold_left].
    assert (E : do_step is_exn (s_init 0 items) e = s_init 0 items).
    { destruct e as [|j| |]; try reflexivity; cbn.
      - destruct j; reflexivity.
      - destruct items; [contradiction|reflexivity]. }
    rewrite E. exact IH. }
  rewrite G. split; [reflexivity|]. split; reflexivity.
Qed.
Print Assumptions C109_no_server_refuted.

(** * C110: the answers of a server *)
Section C110.
Context {K V : Type}.
Variable works : chars -> option (swork K V).
Variable pickle : res V -> option exn.
Local Notation job := (job K V).
Local Notation msg := (msg K V).
Local Notation answer := (answer K V).
Local Notation server := (server K V).
Local Notation vstep := (vstep K V).
Local Notation run := (vrun works pickle).
Local Notation step := (do_vstep works pickle).

(** ** Specification *)

(** [answers j a]: [a] is the answer to the job [j]: the name of the work and the key of the job, on the connection of the job, with what the
    function of the work gives on the object (and on the key if the work wants it), the value or the exception *)
Inductive answers (j : job) : answer -> Prop :=
| answers_value w v : works (j_work j) = Some w ->
    w_func w (if w_eat_key_value w then ArgKeyObj (j_key j) (j_obj j) else ArgObj (j_obj j)) = Returned v ->
    answers j (j_work j, j_key j, RObj v, j_conn j)
| answers_exception w e : works (j_work j) = Some w ->
    w_func w (if w_eat_key_value w then ArgKeyObj (j_key j) (j_obj j) else ArgObj (j_obj j)) = Raised e ->
    answers j (j_work j, j_key j, RExn e, j_conn j).

Definition conn_of (a : answer) : nat := snd a.
Definition result_of (a : answer) : res V := snd (fst a).

(** what the executor has sent *)
Definition messages (l : list vstep) : list msg := flat_map (fun e => match e with CSend m => [m] | _ => [] end) l.
(** the jobs among messages; a job for a work called "__t_start__" is not one *)
Definition jobs (l : list msg) : list job :=
  flat_map (fun m => match m with MJob j => if str_eqb (j_work j) (of_string "__t_start__") then [] else [j] | MStart _ => [] end) l.

(** a job which has an answer which can be sent *)
Definition sendable (j : job) : Prop := exists a, answers j a /\ pickle (result_of a) = None.

(** the executor sends the time first (exec_async_servers.py:115) *)
Definition time_first (l : list vstep) : Prop := exists t r, messages l = MStart t :: r.

Definition server_step (e : vstep) : Prop := match e with CSend _ | CStop => False | _ => True end.

(** ** Proofs *)
Definition of_opt {A} (o : option A) : list A := match o with Some x => [x] | None => [] end.
Definition cur (s : server) : list job := map fst (of_opt (v_current s)).

Lemma answers_conn j a : answers j a -> conn_of a = j_conn j.
Proof. intros A. destruct A; reflexivity. Qed.

Lemma messages_app l l' : messages (l ++ l') = messages l ++ messages l'.
Proof. unfold messages. apply flat_map_app. Qed.
Lemma jobs_app l l' : jobs (l ++ l') = jobs l ++ jobs l'.
Proof. unfold jobs. apply flat_map_app. Qed.
Lemma run_snoc l e s : run (l ++ [e]) s = step (run l s) e.
Proof. unfold vrun. rewrite fold_left_app. reflexivity. Qed.
Lemma run_app l l' s : run (l ++ l') s = run l' (run l s).
Proof. unfold vrun. apply fold_left_app. Qed.

(** the places of the jobs: answered, to be sent, running, waiting, in the pipe *)
Definition inv (J : list job) (s : server) : Prop :=
  exists done rest, J = done ++ rest /\ Forall2 answers done (v_delivered s ++ of_opt (v_sending s)) /\
    (v_dead s = None -> exists r1, rest = r1 ++ cur s ++ v_todo s ++ jobs (v_pipe s) /\ Forall2 answers r1 (v_resend s)) /\
    (forall j w, v_current s = Some (j, w) -> works (j_work j) = Some w).

Lemma forall2_prefix {A B} (P : A -> B -> Prop) d b c : Forall2 P d (b ++ c) ->
  exists d1 d2, d = d1 ++ d2 /\ Forall2 P d1 b.
Proof.
  intros F. apply Forall2_app_inv_r in F. destruct F as (d1 & d2 & F1 & _ & ->). exists d1, d2. split; [reflexivity|exact F1].
Qed.

Lemma inv_step l e s : inv (jobs (messages l)) s -> inv (jobs (messages (l ++ [e]))) (step s e).
Proof.
  intros (done & rest & EJ & F & R & W). rewrite messages_app, jobs_app.
  destruct e as [m| | | | | | |].
  - (* send *) exists done, (rest ++ jobs [m]). cbn [do_vstep v_delivered v_sending v_dead v_current v_todo v_pipe v_resend messages flat_map app].
    split; [rewrite EJ, <- app_assoc; cbn; reflexivity|]. split; [exact F|]. split; [|exact W].
    intros D. destruct (R D) as (r1 & -> & F1). exists r1. split; [|exact F1]. unfold cur. cbn [v_current]. rewrite jobs_app, <- !app_assoc. reflexivity.
  - cbn [messages flat_map app jobs]. rewrite app_nil_r. exists done, rest. split; [exact EJ|]. split; [exact F|]. split; [exact R|exact W].
  - cbn [messages flat_map app jobs]. rewrite app_nil_r. cbn [do_vstep].
    assert (Same : inv (jobs (messages l)) s) by (exists done, rest; split; [exact EJ|]; split; [exact F|]; split; [exact R|exact W]).
    destruct (v_dead s) eqn:D; [exact Same|].
    destruct (v_event s && negb (v_check_done s)); [|exact Same].
    exists done, rest. split; [exact EJ|]. split; [exact F|]. split; [|exact W]. intros _. exact (R eq_refl).
  - cbn [messages flat_map app jobs]. rewrite app_nil_r. cbn [do_vstep].
    assert (Same : inv (jobs (messages l)) s) by (exists done, rest; split; [exact EJ|]; split; [exact F|]; split; [exact R|exact W]).
    destruct (v_dead s) eqn:D; [exact Same|]. destruct (v_recv_done s) eqn:RD; [exact Same|].
    destruct (v_pipe s) as [|m p] eqn:P; [exact Same|].
    destruct (R eq_refl) as (r1 & -> & F1).
    exists done, (r1 ++ cur s ++ v_todo s ++ jobs (m :: p)). split; [exact EJ|].
    destruct m as [t|j]; cbn [handle].
    + split; [exact F|]. split; [|exact W]. intros _. exists r1. split; [reflexivity|exact F1].
    + unfold t_start_name. destruct (str_eqb (j_work j) (of_string "__t_start__")) eqn:S.
      * split; [exact F|]. split; [|exact W]. intros _. exists r1. split; [|exact F1].
        assert (JC : jobs (MJob j :: p) = jobs p) by (unfold jobs; cbn [flat_map]; rewrite S; reflexivity). rewrite JC. reflexivity.
      * split; [exact F|]. split; [|exact W]. intros _. exists r1. split; [|exact F1].
        assert (JC : jobs (MJob j :: p) = j :: jobs p) by (unfold jobs; cbn [flat_map]; rewrite S; reflexivity). rewrite JC.
        unfold cur. cbn [v_current v_todo v_pipe]. rewrite <- !app_assoc. reflexivity.
  - cbn [messages flat_map app jobs]. rewrite app_nil_r. cbn [do_vstep].
    assert (Same : inv (jobs (messages l)) s) by (exists done, rest; split; [exact EJ|]; split; [exact F|]; split; [exact R|exact W]).
    destruct (v_dead s) eqn:D; [exact Same|]. destruct (v_launch_done s); [exact Same|].
    destruct (v_current s) as [c|] eqn:C; [exact Same|]. destruct (v_todo s) as [|j p] eqn:T; [exact Same|].
    destruct (R eq_refl) as (r1 & -> & F1).
    destruct (take K V works j s) as [w|x] eqn:TK.
    + exists done, (r1 ++ j :: p ++ jobs (v_pipe s)). split; [rewrite EJ; unfold cur; rewrite C; reflexivity|]. split; [exact F|]. split.
      * intros _. exists r1. split; [reflexivity|exact F1].
      * cbn [v_current]. intros j0 w0 [= <- <-]. unfold take in TK. destruct (works (j_work j)) as [w1|]; [|discriminate].
        destruct (v_t_start s); try discriminate. congruence.
    + exists done, (r1 ++ cur s ++ (j :: p) ++ jobs (v_pipe s)). split; [exact EJ|]. split; [exact F|]. split; [discriminate|discriminate].
  - cbn [messages flat_map app jobs]. rewrite app_nil_r. cbn [do_vstep].
    assert (Same : inv (jobs (messages l)) s) by (exists done, rest; split; [exact EJ|]; split; [exact F|]; split; [exact R|exact W]).
    destruct (v_dead s) eqn:D; [exact Same|]. destruct (v_current s) as [[j w]|] eqn:C; [|exact Same].
    destruct (R eq_refl) as (r1 & -> & F1). specialize (W j w eq_refl).
    assert (CU : cur s = [j]) by (unfold cur; rewrite C; reflexivity). rewrite CU in EJ.
    assert (Good : forall r, answers j (j_work j, j_key j, r, j_conn j) ->
      inv (jobs (messages l)) (mk_server (v_pipe s) (v_event s) (v_continue s) (v_t_start s) (v_todo s) None
          (v_resend s ++ [(j_work j, j_key j, r, j_conn j)]) (v_sending s)
          (v_delivered s) (v_recv_done s) (negb (v_continue s)) (v_send_done s) (v_check_done s) (v_dead s))).
    { intros r A. exists done, (r1 ++ [j] ++ v_todo s ++ jobs (v_pipe s)). split; [exact EJ|]. split; [exact F|]. split; [|discriminate].
      intros _. exists (r1 ++ [j]). split; [cbn; rewrite <- app_assoc; reflexivity|]. cbn [v_resend]. apply Forall2_app; [exact F1|]. constructor; [exact A|constructor]. }
    rewrite D in Good.
    destruct (w_func w (prepare_argument w (j_key j) (j_obj j))) as [v|x|x] eqn:FN.
    + rewrite ?D. apply Good. eapply answers_value; [exact W|exact FN].
    + rewrite ?D. apply Good. eapply answers_exception; [exact W|exact FN].
    + exists done, (r1 ++ [j] ++ v_todo s ++ jobs (v_pipe s)). split; [exact EJ|]. split; [exact F|]. split; discriminate.
  - cbn [messages flat_map app jobs]. rewrite app_nil_r. cbn [do_vstep].
    assert (Same : inv (jobs (messages l)) s) by (exists done, rest; split; [exact EJ|]; split; [exact F|]; split; [exact R|exact W]).
    destruct (v_dead s) eqn:D; [exact Same|]. destruct (v_send_done s); [exact Same|]. destruct (v_sending s) eqn:S; [exact Same|].
    destruct (v_resend s) as [|a q] eqn:Q; [exact Same|].
    destruct (R eq_refl) as (r1 & -> & F1). inversion F1 as [|j a' r2 q' A F2]; subst.
    exists (done ++ [j]), (r2 ++ cur s ++ v_todo s ++ jobs (v_pipe s)). split; [rewrite EJ, <- app_assoc; reflexivity|].
    split; [cbn; cbn in F; rewrite app_nil_r in F; apply Forall2_app; [exact F|constructor; [exact A|constructor]]|]. split; [|exact W].
    intros _. exists r2. split; [reflexivity|exact F2].
  - cbn [messages flat_map app jobs]. rewrite app_nil_r. cbn [do_vstep].
    assert (Same : inv (jobs (messages l)) s) by (exists done, rest; split; [exact EJ|]; split; [exact F|]; split; [exact R|exact W]).
    destruct (v_sending s) as [a|] eqn:S; [|exact Same]. destruct (pickle (snd (fst a))) as [x|].
    + destruct (forall2_prefix _ _ _ _ F) as (d1 & d2 & -> & F1). exists d1, (d2 ++ rest). split; [rewrite EJ, <- app_assoc; reflexivity|].
      split; [cbn; rewrite app_nil_r; exact F1|]. split; discriminate.
    + exists done, rest. split; [exact EJ|]. split; [cbn; rewrite app_nil_r; exact F|]. split; [exact R|exact W].
Qed.

Lemma inv_run l : inv (jobs (messages l)) (run l server_start).
Proof.
  induction l as [|e l IH] using rev_ind.
  - exists [], []. split; [reflexivity|]. split; [constructor|]. split; [|discriminate]. intros _. exists []. split; [reflexivity|constructor].
  - rewrite run_snoc. apply inv_step. exact IH.
Qed.

(** ** Theorems *)

(** The answers received by the executor are the answers to the first jobs which it has sent, in the order of the jobs, one for each. *)
Theorem C110_in_order : forall l, exists first others,
  jobs (messages l) = first ++ others /\ Forall2 answers first (v_delivered (run l server_start)).
Proof.
  intros l. destruct (inv_run l) as (done & rest & EJ & F & _). destruct (forall2_prefix _ _ _ _ F) as (d1 & d2 & -> & F1).
  exists d1, (d2 ++ rest). split; [rewrite EJ, <- app_assoc; reflexivity|exact F1].
Qed.

(** When each job has its own connection: on a connection there is at most one answer, it is the answer to the job of this connection, hence the
    name of the work and the key are those of the job (the assertions of the executor never fail). *)
Theorem C110_own_connection : forall l, NoDup (map j_conn (jobs (messages l))) ->
  let d := v_delivered (run l server_start) in
  NoDup (map conn_of d) /\
  forall a j, In a d -> In j (jobs (messages l)) -> conn_of a = j_conn j ->
    answers j a /\ fst (fst (fst a)) = j_work j /\ snd (fst (fst a)) = j_key j.
Proof.
  intros l ND d. destruct (C110_in_order l) as (first & others & EJ & F). fold d in F.
  assert (EC : map conn_of d = map j_conn first).
  { clear - F. induction F as [|j a js aa A F IH]; [reflexivity|]. cbn. rewrite IH, (answers_conn _ _ A). reflexivity. }
  rewrite EJ, map_app in ND. split.
  - rewrite EC. clear - ND. revert ND. generalize (map j_conn others) as o. generalize (map j_conn first) as f. intros f o.
    induction f as [|x f IH]; intros ND; [constructor|]. cbn in ND. inversion ND as [|? ? NI ND']; subst. constructor; [|apply IH; exact ND'].
    intros I. apply NI. apply in_or_app. left. exact I.
  - intros a j Ia Ij E.
    assert (exists j', In j' first /\ answers j' a) as (j' & Ij' & A).
    { clear - F Ia. induction F as [|x b xs bs A F IH]; [destruct Ia|]. destruct Ia as [->|Ia]; [exists x; split; [left; reflexivity|exact A]|].
      destruct (IH Ia) as (j' & I & A'). exists j'. split; [right; exact I|exact A']. }
    assert (j' = j) as ->.
    { rewrite (answers_conn _ _ A) in E. rewrite <- map_app, <- EJ in ND.
      assert (I' : In j' (jobs (messages l))) by (rewrite EJ; apply in_or_app; left; exact Ij').
      clear - ND E I' Ij. induction (jobs (messages l)) as [|x q IH]; [destruct Ij|]. cbn in ND. inversion ND as [|? ? NI ND']; subst.
      destruct Ij as [->|Ij], I' as [->|I'].
      - reflexivity.
      - exfalso. apply NI. rewrite <- E. apply in_map. exact I'.
      - exfalso. apply NI. rewrite E. apply in_map. exact Ij.
      - apply IH; assumption. }
    split; [exact A|]. destruct A; split; reflexivity.
Qed.

(** *** No job makes the server fail and the server is not stopped: everything is answered *)
Definition fine (l : list vstep) : Prop :=
  time_first l /\
  forall j, In (MJob j) (messages l) -> j_work j <> of_string "__t_start__" /\ sendable j.

Definition inv2 (M : list msg) (s : server) : Prop :=
  v_dead s = None /\
  (exists r, M = r ++ v_pipe s /\ (r <> [] -> exists t, v_t_start s = TNumber t) /\ (r = [] -> v_todo s = [])) /\
  (forall j, In j (v_todo s) -> sendable j) /\
  (forall j w, v_current s = Some (j, w) -> sendable j /\ works (j_work j) = Some w) /\
  (forall a, In a (v_resend s) -> pickle (result_of a) = None) /\
  (forall a, v_sending s = Some a -> pickle (result_of a) = None).

Definition fine_messages (M : list msg) : Prop :=
  (M = [] \/ exists t r, M = MStart t :: r) /\
  forall j, In (MJob j) M -> j_work j <> of_string "__t_start__" /\ sendable j.

Lemma str_eqb_neq (a b : chars) : a <> b -> str_eqb a b = false.
Proof. intros N. unfold str_eqb. destruct (chars_eq_dec a b); [contradiction|reflexivity]. Qed.

Lemma inv2_step l e s : fine_messages (messages (l ++ [e])) -> inv2 (messages l) s -> inv2 (messages (l ++ [e])) (step s e).
Proof.
  intros FM (D & (r & EM & T1 & T2) & P1 & P2 & P3 & P4). rewrite messages_app in FM |- *.
  destruct e as [m| | | | | | |].
  - cbn [messages flat_map app] in FM |- *. split; [exact D|].
    split; [exists r; split; [rewrite EM, <- app_assoc; reflexivity|split; assumption]|]. split; [exact P1|]. split; [exact P2|]. split; [exact P3|exact P4].
  - cbn [messages flat_map app]. rewrite app_nil_r. split; [exact D|]. split; [exists r; split; [exact EM|split; assumption]|]. split; [exact P1|]. split; [exact P2|]. split; [exact P3|exact P4].
  - cbn [messages flat_map app]. rewrite app_nil_r. cbn [do_vstep]. rewrite D.
    destruct (v_event s && negb (v_check_done s)); (split; [first [exact D|reflexivity]|]); (split; [exists r; split; [exact EM|split; assumption]|]); (split; [exact P1|]); (split; [exact P2|]); (split; [exact P3|exact P4]).
  - cbn [messages flat_map app] in FM |- *. rewrite app_nil_r in FM |- *. cbn [do_vstep]. rewrite D.
    assert (Same : inv2 (messages l) s) by (split; [exact D|]; split; [exists r; split; [exact EM|split; assumption]|]; split; [exact P1|]; split; [exact P2|]; split; [exact P3|exact P4]).
    destruct (v_recv_done s); [exact Same|]. destruct (v_pipe s) as [|m p] eqn:P; [exact Same|].
    destruct m as [t|j]; cbn [handle].
    + split; [first [exact D|reflexivity]|]. split.
      { exists (r ++ [MStart t]). cbn. split; [rewrite EM, <- app_assoc; reflexivity|]. split; [intros _; exists t; reflexivity|].
        intros X. apply app_eq_nil in X. destruct X; discriminate. }
      split; [exact P1|]. split; [exact P2|]. split; [exact P3|exact P4].
    + assert (Ij : In (MJob j) (messages l)) by (rewrite EM; apply in_or_app; right; left; reflexivity).
      destruct FM as (FT & FJ). destruct (FJ j Ij) as (N & SJ). unfold t_start_name. rewrite (str_eqb_neq _ _ N).
      split; [first [exact D|reflexivity]|]. split.
      { exists (r ++ [MJob j]). cbn. split; [rewrite EM, <- app_assoc; reflexivity|]. split; [|intros X; apply app_eq_nil in X; destruct X; discriminate].
        intros _. destruct r as [|m0 r0].
        - exfalso. cbn in EM. destruct FT as [FT|(t & q & FT)]; rewrite FT in EM; discriminate.
        - apply T1. discriminate. }
      split; [intros j0 I; apply in_app_or in I; destruct I as [I|[<-|[]]]; [apply P1; exact I|exact SJ]|].
      split; [exact P2|]. split; [exact P3|exact P4].
  - cbn [messages flat_map app]. rewrite app_nil_r. cbn [do_vstep]. rewrite D.
    assert (Same : inv2 (messages l) s) by (split; [exact D|]; split; [exists r; split; [exact EM|split; assumption]|]; split; [exact P1|]; split; [exact P2|]; split; [exact P3|exact P4]).
    destruct (v_launch_done s); [exact Same|]. destruct (v_current s) eqn:C; [exact Same|]. destruct (v_todo s) as [|j p] eqn:T; [exact Same|].
    assert (SJ : sendable j) by (apply P1; left; reflexivity).
    assert (exists t, v_t_start s = TNumber t) as (t & TS).
    { apply T1. intros E. specialize (T2 E). discriminate. }
    assert (exists w, works (j_work j) = Some w) as (w & W).
    { destruct SJ as (a & A & _). destruct A as [w v W _|w e W _]; exists w; exact W. }
    unfold take. rewrite W, TS.
    split; [first [exact D|reflexivity]|]. split; [exists r; cbn; split; [exact EM|]; split; [intros _; exists t; reflexivity|intros E; specialize (T2 E); discriminate]|].
    split; [intros j0 I; apply P1; right; exact I|]. split; [cbn; intros j0 w0 [= <- <-]; split; assumption|]. split; [exact P3|exact P4].
  - cbn [messages flat_map app]. rewrite app_nil_r. cbn [do_vstep]. rewrite D.
    assert (Same : inv2 (messages l) s) by (split; [exact D|]; split; [exists r; split; [exact EM|split; assumption]|]; split; [exact P1|]; split; [exact P2|]; split; [exact P3|exact P4]).
    destruct (v_current s) as [[j w]|] eqn:C; [|exact Same]. destruct (P2 j w eq_refl) as ((a & A & PA) & W).
    assert (Good : forall r0, a = (j_work j, j_key j, r0, j_conn j) ->
      inv2 (messages l) (mk_server (v_pipe s) (v_event s) (v_continue s) (v_t_start s) (v_todo s) None
          (v_resend s ++ [(j_work j, j_key j, r0, j_conn j)]) (v_sending s)
          (v_delivered s) (v_recv_done s) (negb (v_continue s)) (v_send_done s) (v_check_done s) None)).
    { intros r0 E. split; [reflexivity|]. split; [exists r; split; [exact EM|split; assumption]|]. split; [exact P1|]. split; [discriminate|].
      split; [|exact P4]. intros b I. cbn in I. apply in_app_or in I. destruct I as [I|[<-|[]]]; [apply P3; exact I|]. rewrite <- E. exact PA. }
    unfold prepare_argument.
    destruct A as [w' v W' FN|w' x W' FN]; rewrite W in W'; injection W' as <-; rewrite FN; apply Good; reflexivity.
  - cbn [messages flat_map app]. rewrite app_nil_r. cbn [do_vstep]. rewrite D.
    assert (Same : inv2 (messages l) s) by (split; [exact D|]; split; [exists r; split; [exact EM|split; assumption]|]; split; [exact P1|]; split; [exact P2|]; split; [exact P3|exact P4]).
    destruct (v_send_done s); [exact Same|]. destruct (v_sending s) eqn:S; [exact Same|]. destruct (v_resend s) as [|a q] eqn:Q; [exact Same|].
    split; [first [exact D|reflexivity]|]. split; [exists r; split; [exact EM|split; assumption]|]. split; [exact P1|]. split; [exact P2|].
    split; [intros b I; apply P3; right; exact I|]. cbn. intros b [= <-]. apply P3. left. reflexivity.
  - cbn [messages flat_map app]. rewrite app_nil_r. cbn [do_vstep].
    assert (Same : inv2 (messages l) s) by (split; [exact D|]; split; [exists r; split; [exact EM|split; assumption]|]; split; [exact P1|]; split; [exact P2|]; split; [exact P3|exact P4]).
    destruct (v_sending s) as [a|] eqn:S; [|exact Same]. pose proof (P4 a eq_refl) as PA. unfold result_of in PA. rewrite PA.
    split; [exact D|]. split; [exists r; split; [exact EM|split; assumption]|]. split; [exact P1|]. split; [exact P2|]. split; [exact P3|discriminate].
Qed.

Lemma fine_prefix l l' : fine_messages (messages (l ++ l')) -> fine_messages (messages l).
Proof.
  rewrite messages_app. intros (T & J). split.
  - destruct (messages l) as [|m q]; [left; reflexivity|]. right. destruct T as [T|(t & r & T)]; [discriminate|].
    injection T as -> _. exists t, q. reflexivity.
  - intros j I. apply J. apply in_or_app. left. exact I.
Qed.

Lemma inv2_run l : fine_messages (messages l) -> inv2 (messages l) (run l server_start).
Proof.
  induction l as [|e l IH] using rev_ind; intros FM.
  - split; [reflexivity|]. split; [exists []; split; [reflexivity|split; [contradiction|reflexivity]]|].
    split; [intros j []|]. split; [discriminate|]. split; [intros a []|discriminate].
  - rewrite run_snoc. apply inv2_step; [exact FM|]. apply IH. exact (fine_prefix _ _ FM).
Qed.
Lemma fine_fine l : fine l -> fine_messages (messages l).
Proof. intros ((t & r & T) & J). split; [right; exists t, r; exact T|exact J]. Qed.

(** no stop: the loops go on *)
Definition not_stopped (l : list vstep) : Prop := ~ In CStop l.
Lemma loops_go_on l : not_stopped l -> let s := run l server_start in
  v_event s = false /\ v_continue s = true /\ v_recv_done s = false /\ v_launch_done s = false /\ v_send_done s = false.
Proof.
  cbv zeta. induction l as [|e l IH] using rev_ind; intros N; [repeat split; reflexivity|]. rewrite run_snoc.
  assert (N' : not_stopped l) by (intros I; apply N; apply in_or_app; left; exact I).
  destruct (IH N') as (A & B & C & D & E). set (s := run l server_start) in *.
  destruct e as [m| | | | | | |]; cbn [do_vstep].
  - repeat split; assumption.
  - exfalso. apply N. apply in_or_app. right. left. reflexivity.
  - rewrite A. destruct (v_dead s); repeat split; assumption.
  - destruct (v_dead s); [repeat split; assumption|]. rewrite C. destruct (v_pipe s) as [|m p]; [repeat split; assumption|].
    destruct (handle K V m s) as (t & td). cbn. rewrite B. repeat split; assumption.
  - destruct (v_dead s); [repeat split; assumption|]. rewrite D. destruct (v_current s); [repeat split; assumption|]. destruct (v_todo s); [repeat split; assumption|].
    destruct (take K V works j s); cbn; repeat split; assumption.
  - destruct (v_dead s); [repeat split; assumption|]. destruct (v_current s) as [[j w]|]; [|repeat split; assumption].
    destruct (w_func w _); cbn; rewrite ?B; repeat split; assumption.
  - destruct (v_dead s); [repeat split; assumption|]. rewrite E. destruct (v_sending s); [repeat split; assumption|]. destruct (v_resend s); cbn; repeat split; assumption.
  - destruct (v_sending s) as [a|]; [|repeat split; assumption]. destruct (pickle _); cbn; rewrite ?B; repeat split; assumption.
Qed.

(** the work left on the server *)
Definition work_left (s : server) : nat :=
  5 * List.length (v_pipe s) + 4 * List.length (v_todo s) + 3 * List.length (of_opt (v_current s)) + 2 * List.length (v_resend s) +
  List.length (of_opt (v_sending s)).

(** The server does not fail; as long as a job is not answered, a task can advance, and each step which changes something diminishes
    the work left: whatever the order of the steps, all the jobs are answered. *)
Theorem C110_all_answered : forall l, fine l -> not_stopped l ->
  let s := run l server_start in
  v_dead s = None /\
  (forall e, server_step e -> step s e = s \/ (work_left (step s e) < work_left s)%nat) /\
  ((forall e, server_step e -> step s e = s) -> Forall2 answers (jobs (messages l)) (v_delivered s)) /\
  exists l', (forall e, In e l' -> server_step e) /\ Forall2 answers (jobs (messages l)) (v_delivered (run (l ++ l') server_start)).
Proof.
  intros l FM NS s.
  assert (Dec : forall s, v_dead s = None -> v_event s = false ->
     forall e, server_step e -> step s e = s \/ (work_left (step s e) < work_left s)%nat).
  { clear. intros s D Ev e SE. unfold work_left. destruct e; try destruct SE; cbn [do_vstep]; rewrite ?D.
    - rewrite Ev. left. reflexivity.
    - destruct (v_recv_done s); [left; reflexivity|]. destruct (v_pipe s) as [|m p] eqn:P; [left; reflexivity|]. right.
      unfold handle. destruct m as [t|j]; [|destruct (str_eqb _ _)]; cbn; rewrite ?P, ?app_length; cbn; lia.
    - destruct (v_launch_done s); [left; reflexivity|]. destruct (v_current s) eqn:C; [left; reflexivity|]. destruct (v_todo s) eqn:T; [left; reflexivity|]. right.
      destruct (take K V works j s); cbn; rewrite ?T, ?C; cbn; lia.
    - destruct (v_current s) as [[j w]|] eqn:C; [|left; reflexivity]. right. destruct (w_func w _); cbn; rewrite ?C, ?app_length; cbn; lia.
    - destruct (v_send_done s); [left; reflexivity|]. destruct (v_sending s) eqn:S; [left; reflexivity|]. destruct (v_resend s) eqn:Q; [left; reflexivity|]. right.
      cbn. rewrite ?S, ?Q. cbn. lia.
    - destruct (v_sending s) eqn:S; [|left; reflexivity]. right. destruct (pickle _); cbn; rewrite ?S; cbn; lia. }
  assert (Stuck : forall l, fine l -> not_stopped l -> let s := run l server_start in
     (forall e, In e [VReceive; VLaunch; VJobEnds; VSend; VSent] -> step s e = s) -> Forall2 answers (jobs (messages l)) (v_delivered s)).
  { clear - Dec. intros l FM NS s H. destruct (loops_go_on l NS) as (Ev & Co & RD & LD & SD). fold s in Ev, Co, RD, LD, SD.
    destruct (inv2_run l (fine_fine _ FM)) as (D & (r & EM & T1 & T2) & P1 & P2 & P3 & P4). fold s in D, EM, T1, T2, P1, P2, P3, P4.
    assert (W : forall e, In e [VReceive; VLaunch; VJobEnds; VSend; VSent] -> work_left (step s e) = work_left s) by (intros e I; rewrite (H e I); reflexivity).
    unfold work_left in W.
    assert (HP : v_pipe s = []).
    { specialize (W VReceive (or_introl eq_refl)). cbn [do_vstep] in W. rewrite D, RD in W. destruct (v_pipe s) as [|m p] eqn:P; [reflexivity|]. exfalso.
      unfold handle in W. destruct m as [t|j]; [|destruct (str_eqb _ _)]; cbn in W; rewrite ?P, ?app_length in W; cbn in W; lia. }
    assert (HC : v_current s = None).
    { specialize (W VJobEnds (or_intror (or_intror (or_introl eq_refl)))). cbn [do_vstep] in W. rewrite D in W. destruct (v_current s) as [[j w]|] eqn:C; [|reflexivity].
      exfalso. destruct (w_func w _); cbn in W; rewrite ?C, ?app_length in W; cbn in W; lia. }
    assert (HT : v_todo s = []).
    { specialize (W VLaunch (or_intror (or_introl eq_refl))). cbn [do_vstep] in W. rewrite D, LD, HC in W. destruct (v_todo s) eqn:T; [reflexivity|].
      exfalso. destruct (take K V works j s); cbn in W; rewrite ?T in W; cbn in W; lia. }
    assert (HS : v_sending s = None).
    { specialize (W VSent (or_intror (or_intror (or_intror (or_intror (or_introl eq_refl)))))). cbn [do_vstep] in W. destruct (v_sending s) eqn:S; [|reflexivity].
      exfalso. destruct (pickle _); cbn in W; rewrite ?S, ?HC in W; cbn in W; lia. }
    assert (HR : v_resend s = []).
    { specialize (W VSend (or_intror (or_intror (or_intror (or_introl eq_refl))))). cbn [do_vstep] in W. rewrite D, SD, HS in W. destruct (v_resend s) eqn:Q; [reflexivity|].
      exfalso. cbn in W. rewrite ?Q in W. cbn in W. lia. }
    destruct (inv_run l) as (done & rest & EJ & F & R & _). fold s in F, R. destruct (R D) as (r1 & -> & F1).
    unfold cur in EJ. rewrite HR in F1. inversion F1; subst. rewrite HC, HT, HP in EJ. cbn in EJ. rewrite app_nil_r in EJ. rewrite EJ.
    rewrite HS in F. cbn in F. rewrite app_nil_r in F. exact F. }
  destruct (inv2_run l (fine_fine _ FM)) as (D & _). destruct (loops_go_on l NS) as (Ev & _). cbv zeta in Ev.
  split; [exact D|]. split; [apply Dec; assumption|]. split.
  { intros H. apply Stuck; [exact FM|exact NS|]. intros e I. apply H. cbn in I. destruct I as [<-|[<-|[<-|[<-|[<-|[]]]]]]; exact I. }
  clear D Ev. subst s.
  remember (work_left (run l server_start)) as n eqn:N. revert l FM NS N. induction n as [n IH] using (well_founded_induction lt_wf). intros l FM NS N.
  destruct (inv2_run l (fine_fine _ FM)) as (D & _). destruct (loops_go_on l NS) as (Ev & _). cbv zeta in Ev.
  assert (Ex : (exists e, server_step e /\ (forall m, e <> CSend m) /\ (work_left (step (run l server_start) e) < work_left (run l server_start))%nat) \/
     (forall e, In e [VReceive; VLaunch; VJobEnds; VSend; VSent] -> step (run l server_start) e = run l server_start)).
  { assert (C : forall e, server_step e -> (forall m, e <> CSend m) ->
       (exists e, server_step e /\ (forall m, e <> CSend m) /\ (work_left (step (run l server_start) e) < work_left (run l server_start))%nat) \/
       step (run l server_start) e = run l server_start).
    { intros e SE NE. destruct (Dec _ D Ev e SE) as [X|X]; [right; exact X|left; exists e; split; [exact SE|split; [exact NE|exact X]]]. }
    destruct (C VReceive I ltac:(discriminate)) as [X|X1]; [left; exact X|].
    destruct (C VLaunch I ltac:(discriminate)) as [X|X2]; [left; exact X|].
    destruct (C VJobEnds I ltac:(discriminate)) as [X|X3]; [left; exact X|].
    destruct (C VSend I ltac:(discriminate)) as [X|X4]; [left; exact X|].
    destruct (C VSent I ltac:(discriminate)) as [X|X5]; [left; exact X|].
    right. intros e Ie. cbn in Ie. destruct Ie as [<-|[<-|[<-|[<-|[<-|[]]]]]]; assumption. }
  destruct Ex as [(e & SE & NE & Lt)|H].
  - assert (ME : messages (l ++ [e]) = messages l).
    { rewrite messages_app. destruct e; cbn; rewrite ?app_nil_r; try reflexivity. contradiction (NE m eq_refl). }
    assert (FM' : fine (l ++ [e])) by (unfold fine, time_first; rewrite ME; exact FM).
    assert (NS' : not_stopped (l ++ [e])).
    { intros I. apply in_app_or in I. destruct I as [I|[->|[]]]; [exact (NS I)|exact SE]. }
    destruct (IH (work_left (run (l ++ [e]) server_start))) with (l := l ++ [e]) as (l' & S' & F'); try assumption; [rewrite N, run_snoc; exact Lt|reflexivity|].
    exists (e :: l'). split; [intros x [<-|Ix]; [exact SE|apply S'; exact Ix]|]. rewrite ME in F'. rewrite <- app_assoc in F'. exact F'.
  - exists []. split; [intros e []|]. rewrite app_nil_r. apply Stuck; assumption.
Qed.

(** *** After a failure, nothing is answered any more (except the answer which is already being sent), the server does not start again *)
Theorem C110_after_failure : forall s, v_dead s <> None ->
  forall l, v_dead (run l s) <> None /\
    exists d, v_delivered (run l s) = v_delivered s ++ d /\ (d = [] \/ exists a, v_sending s = Some a /\ d = [a]).
Proof.
  intros s Ds l.
  assert (G : v_dead (run l s) <> None /\ v_current (run l s) = v_current (run l s) /\
     ((v_delivered (run l s) = v_delivered s /\ (v_sending (run l s) = v_sending s \/ v_sending (run l s) = None)) \/
      (exists a, v_sending s = Some a /\ v_delivered (run l s) = v_delivered s ++ [a] /\ v_sending (run l s) = None))).
  { induction l as [|e l IH] using rev_ind; [split; [exact Ds|]; split; [reflexivity|]; left; split; [reflexivity|left; reflexivity]|].
    destruct IH as (D & _ & IH). rewrite run_snoc. set (t := run l s) in *. destruct (v_dead t) as [x|] eqn:Dt; [|contradiction].
    split; [|split; [reflexivity|]].
    - destruct e; cbn [do_vstep]; rewrite ?Dt; cbn; rewrite ?Dt; try discriminate. destruct (v_sending t) as [a|]; [|rewrite Dt; discriminate]. destruct (pickle _); cbn; rewrite ?Dt; discriminate.
    - destruct e; cbn [do_vstep]; rewrite ?Dt; cbn; try exact IH.
      destruct (v_sending t) as [a|] eqn:S; [|rewrite S; exact IH].
      destruct IH as [(E & [X|X])|(a' & A & E & X)]; try congruence.
      destruct (pickle _); cbn; [left; split; [exact E|right; reflexivity]|].
      right. exists a. rewrite <- X. rewrite E. split; [reflexivity|]. split; reflexivity. }
  destruct G as (D & _ & [(E & _)|(a & A & E & _)]); split; try exact D.
  - exists []. rewrite app_nil_r. split; [exact E|left; reflexivity].
  - exists [a]. split; [exact E|]. right. exists a. split; [exact A|reflexivity].
Qed.

(** *** The event does not end the tasks of a server: without another message, the task which receives never ends *)
Theorem C110_stop_refuted : forall l, let s := run l server_start in
  v_pipe s = [] -> v_recv_done s = false ->
  forall l', messages l' = [] -> v_recv_done (run l' s) = false.
Proof.
  intros l s P R l' M.
  assert (G : v_pipe (run l' s) = [] /\ v_recv_done (run l' s) = false); [|exact (proj2 G)].
  induction l' as [|e l' IH] using rev_ind; [split; assumption|]. rewrite messages_app in M. apply app_eq_nil in M. destruct M as (M1 & M2).
  destruct (IH M1) as (P' & R'). rewrite run_snoc. set (t := run l' s) in *. destruct e as [m| | | | | | |]; cbn [do_vstep]; [discriminate| | | | | | |].
  - split; assumption.
  - destruct (v_dead t); [split; assumption|]. destruct (v_event t && negb (v_check_done t)); split; assumption.
  - rewrite R', P'. destruct (v_dead t); split; assumption.
  - destruct (v_dead t), (v_launch_done t), (v_current t), (v_todo t); try (split; assumption). destruct (take K V works j t); split; assumption.
  - destruct (v_dead t); [split; assumption|]. destruct (v_current t) as [[j w]|]; [|split; assumption]. destruct (w_func w _); split; assumption.
  - destruct (v_dead t), (v_send_done t), (v_sending t), (v_resend t); split; assumption.
  - destruct (v_sending t); [|split; assumption]. destruct (pickle _); split; assumption.
Qed.

(** a server fails only because of a job without answer which can be sent, of a work called "__t_start__", or of a first message
    which is not the time; stopping it or not *)
Theorem C110_no_failure : forall l, fine l -> v_dead (run l server_start) = None.
Proof. intros l F. exact (proj1 (inv2_run l (fine_fine _ F))). Qed.
End C110.
Print Assumptions C110_no_failure.
Print Assumptions C110_in_order.
Print Assumptions C110_own_connection.
Print Assumptions C110_all_answered.
Print Assumptions C110_after_failure.
Print Assumptions C110_stop_refuted.

(** *** Concrete cases *)
(** keys and objects are numbers; the work "add" adds the key, the work "inv" raises an exception for 0, the work "obj" gives 30, which cannot be
    pickled, the work "exit" calls sys.exit *)
Definition works_ex (n : chars) : option (swork nat nat) :=
  if str_eqb n (of_string "add") then Some (mk_swork true (fun a => match a with ArgKeyObj k v => Returned (k + v)%nat | ArgObj v => Returned v end))
  else if str_eqb n (of_string "inv") then
    Some (mk_swork false (fun a => match a with ArgObj O => Raised ZeroDivisionError | ArgObj v => Returned v | ArgKeyObj _ _ => Raised TypeError end))
  else if str_eqb n (of_string "obj") then Some (mk_swork false (fun _ => Returned 30%nat))
  else if str_eqb n (of_string "exit") then Some (mk_swork false (fun _ => RaisedBase (UserError 1)))
  else if str_eqb n (of_string "__t_start__") then Some (mk_swork false (fun _ => Returned 0%nat))
  else None.
Definition pickle_ex (r : res nat) : option exn := match r with RObj 30%nat => Some TypeError | _ => None end.
Definition job_ex (w : string) (k v c : nat) : msg nat nat := MJob (mk_job (of_string w) k v c).

Example C110_example :
  let l := [CSend (MStart 5); CSend (job_ex "add" 1 2 0); CSend (job_ex "inv" 2 0 1); VReceive; VReceive; VLaunch; VReceive; VJobEnds;
            CSend (job_ex "inv" 3 7 2); VLaunch; VSend; VJobEnds; VSent; VReceive; VSend; VSent; VLaunch; VJobEnds; VSend; VSent] in
  fine works_ex pickle_ex l /\ not_stopped l /\ NoDup (map j_conn (jobs (messages l))) /\
  v_delivered (vrun works_ex pickle_ex l server_start) =
    [(of_string "add", 1%nat, RObj 3%nat, 0%nat); (of_string "inv", 2%nat, RExn ZeroDivisionError, 1%nat); (of_string "inv", 3%nat, RObj 7%nat, 2%nat)].
Proof.
  cbv zeta. split; [|split; [|split; [|vm_compute; reflexivity]]].
  - split; [exists 5; eexists; reflexivity|].
    intros j I. cbn in I. destruct I as [I|[I|[I|[I|[]]]]]; [discriminate| | |]; injection I as <-; (split; [discriminate|]); eexists.
    + split; [eapply answers_value; reflexivity|reflexivity].
    + split; [eapply answers_exception; reflexivity|reflexivity].
    + split; [eapply answers_value; reflexivity|reflexivity].
  - intros I. cbn in I. repeat (destruct I as [I|I]; [discriminate|]). exact I.
  - vm_compute. repeat constructor; cbn; intuition; discriminate.
Qed.

(** A job which has no answer which can be sent (its work does not exist on the server, its result cannot be pickled, its function calls
    sys.exit) stops the server: a job sent after it, which has an answer, is never answered, whatever happens. *)
Theorem C110_one_job_refuted : forall bad, In bad ["nothing"; "obj"; "exit"]%string ->
  exists l j, In (MJob j) (messages l) /\ sendable works_ex pickle_ex j /\ j_work j = of_string "add" /\
    time_first l /\ not_stopped l /\ (forall j', In (MJob j') (messages l) -> j' = j \/ j_work j' = of_string bad) /\
    forall l', v_delivered (vrun works_ex pickle_ex (l ++ l') server_start) = [].
Proof.
  intros bad B.
  exists [CSend (MStart 5); CSend (job_ex bad 1 2 0); CSend (job_ex "add" 2 2 1); VReceive; VReceive; VLaunch; VJobEnds; VSend; VSent].
  exists (mk_job (of_string "add") 2%nat 2%nat 1%nat).
  split; [right; right; left; reflexivity|]. split; [eexists; split; [eapply answers_value; reflexivity|reflexivity]|].
  split; [reflexivity|]. split; [exists 5; eexists; reflexivity|].
  split; [intros I; cbn in I; repeat (destruct I as [I|I]; [discriminate|]); exact I|].
  split. { intros j' I. cbn in I. destruct I as [I|[I|[I|[]]]]; [discriminate| |]; injection I as <-; [right|left]; reflexivity. }
  intros l'. unfold vrun. rewrite fold_left_app.
  match goal with |- v_delivered (fold_left _ l' ?t) = [] => set (t0 := t) end.
  assert (D : v_dead t0 <> None /\ v_sending t0 = None /\ v_delivered t0 = []).
  { unfold t0. cbn in B. destruct B as [<-|[<-|[<-|[]]]]; vm_compute; (split; [discriminate|split; reflexivity]). }
  destruct D as (D & S & E). destruct (C110_after_failure works_ex pickle_ex t0 D l') as (_ & d & E2 & X).
  unfold vrun in E2. rewrite E2, E. destruct X as [->|(a & A & _)]; [reflexivity|]. rewrite S in A. discriminate.
Qed.
Print Assumptions C110_one_job_refuted.

(** A work called "__t_start__" is never executed by a server: its jobs are not answered, and stop the server. *)
Theorem C110_name_refuted : exists l j1 j2,
  messages l = [MStart 5; MJob j1; MJob j2] /\ sendable works_ex pickle_ex j1 /\ sendable works_ex pickle_ex j2 /\ not_stopped l /\
  forall l', v_delivered (vrun works_ex pickle_ex (l ++ l') server_start) = [].
Proof.
  exists [CSend (MStart 5); CSend (job_ex "__t_start__" 1 2 0); CSend (job_ex "add" 2 2 1); VReceive; VReceive; VReceive; VLaunch].
  do 2 eexists. split; [reflexivity|].
  split; [eexists; split; [eapply answers_value; reflexivity|reflexivity]|].
  split; [eexists; split; [eapply answers_value; reflexivity|reflexivity]|].
  split; [intros I; cbn in I; repeat (destruct I as [I|I]; [discriminate|]); exact I|].
  intros l'. unfold vrun. rewrite fold_left_app.
  match goal with |- v_delivered (fold_left _ l' ?t) = [] => set (t0 := t) end.
  assert (D : v_dead t0 <> None /\ v_sending t0 = None /\ v_delivered t0 = []) by (vm_compute; split; [discriminate|split; reflexivity]).
  destruct D as (D & S & E). destruct (C110_after_failure works_ex pickle_ex t0 D l') as (_ & d & E2 & X).
  unfold vrun in E2. rewrite E2, E. destruct X as [->|(a & A & _)]; [reflexivity|]. rewrite S in A. discriminate.
Qed.
Print Assumptions C110_name_refuted.

(** The executor which waits for an answer never stops: with the model of the executor (ServersModel) and without the race of C24, as long as a task waits
    for the answer of a server, the test of the end is false. *)
Theorem C110_lost_answer_refuted : forall is_exn nb items l i k,
  let s := srun is_exn l (s_init nb items) in
  (forall t, In t (states is_exn l (s_init nb items)) -> ~ racing t) ->
  In (i, Waiting k) (s_jobs s) -> s_stop s = false -> s_stop (do_step is_exn s SCheck) = false.
Proof.
  intros is_exn nb items l i k s NR J S0. destruct (s_stop (do_step is_exn s SCheck)) eqn:S1; [|reflexivity].
  destruct (C24_stop_partial is_exn nb items l NR S0 S1) as (_ & _ & H & _).
  specialize (H _ k J (or_introl eq_refl)). discriminate H.
Qed.
Print Assumptions C110_lost_answer_refuted.

(** The event alone does not end an idle server. *)
Example C110_stop_example :
  let s := vrun works_ex pickle_ex [CSend (MStart 5); VReceive; CStop; VCheck] server_start in
  v_pipe s = [] /\ v_recv_done s = false /\ v_continue s = false /\ v_check_done s = true.
Proof. vm_compute. repeat split. Qed.

Example C109_example :
  let f : fs := [([of_string "images"], Dir); ([of_string "images.piv"], Dir)] in
  exists D h sp' f1, init_path_dir_result f [of_string "n"] [of_string "images"] SPNone (of_string "piv") Ask = Ok (Dir_ready D h, sp', f1) /\
    D = [of_string "images.piv0"] /\ h = NewDir /\
    server_init f1 [] [of_string "images"] sp' (of_string "piv") Ask = Ok (Dir_ready D Complete, SPPath D, f1).
Proof. cbv zeta. do 4 eexists. split; [vm_compute; reflexivity|]. split; [reflexivity|]. split; [reflexivity|]. vm_compute. reflexivity. Qed.

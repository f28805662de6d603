(** Proofs about the lock files. *)
From Verif Require Import PyBase StrModel StrProofs FsModel FsProofs LifeModel LockModel.

(** every entry is in a directory *)
Definition wf_fs (f : fs) : Prop :=
  forall p n, fs_get f p = Some n -> p <> [] -> fs_get f (parent p) = Some Dir.

Definition is_file (f : fs) (p : path) : Prop := exists c, fs_get f p = Some (File c).

(** what writing and creating directories preserves *)
Definition grows (f f' : fs) : Prop :=
  (forall p, fs_get f p = Some Dir -> fs_get f' p = Some Dir) /\
  (forall p, is_file f p -> is_file f' p) /\
  (wf_fs f -> wf_fs f').

Lemma grows_refl f : grows f f.
Proof. split; [|split]; auto. Qed.
Lemma grows_trans f g h : grows f g -> grows g h -> grows f h.
Proof. intros (A & B & C) (A' & B' & C'). split; [|split]; auto. Qed.

Lemma wf_put f p n : wf_fs f -> p <> [] -> fs_get f (parent p) = Some Dir ->
  (fs_get f p = Some Dir -> n = Dir) -> wf_fs (fs_put f p n).
Proof.
  intros W NE PD Keep q m Hq Hne. rewrite fs_get_put in Hq by exact NE.
  assert (D : fs_get f (parent q) = Some Dir).
  { destruct (path_eq_dec p q) as [<-|N]; [exact PD|]. exact (W q m Hq Hne). }
  rewrite fs_get_put by exact NE.
  destruct (path_eq_dec p (parent q)) as [E|N]; [|exact D].
  f_equal. apply Keep. rewrite E. exact D.
Qed.

Lemma grows_put f p n : p <> [] -> fs_get f (parent p) = Some Dir ->
  (match fs_get f p with
   | Some Dir => n = Dir
   | Some (File _) => exists c, n = File c
   | None => True
   end) -> grows f (fs_put f p n).
Proof.
  intros NE PD H. split; [|split].
  - intros q Hq. rewrite fs_get_put by exact NE. destruct (path_eq_dec p q) as [<-|N]; [|exact Hq].
    rewrite Hq in H. congruence.
  - intros q (c & Hq). unfold is_file. rewrite fs_get_put by exact NE.
    destruct (path_eq_dec p q) as [<-|N]; [|exists c; exact Hq].
    rewrite Hq in H. destruct H as (d & ->). exists d; reflexivity.
  - intros W. apply wf_put; [exact W|exact NE|exact PD|]. intros E. rewrite E in H. exact H.
Qed.

Lemma grows_mkdir f p eo f' : fs_mkdir f p eo = Ok f' -> grows f f'.
Proof.
  unfold fs_mkdir. destruct (fs_get f p) as [[|c]|] eqn:E.
  - destruct eo; [|discriminate]. intros [= <-]. apply grows_refl.
  - discriminate.
  - destruct (fs_get f (parent p)) as [[|c]|] eqn:E2; try discriminate. intros [= <-].
    apply grows_put; [intros ->; discriminate E|exact E2|rewrite E; exact I].
Qed.

Lemma grows_write f p t f' : wf_fs f -> fs_write f p t = Ok f' -> grows f f'.
Proof.
  intros W. unfold fs_write. destruct (fs_get f p) as [[|c]|] eqn:E; try discriminate.
  - intros [= <-]. assert (p <> []) by (intros ->; discriminate E).
    apply grows_put; [assumption|exact (W p _ E ltac:(assumption))|rewrite E; eexists; reflexivity].
  - destruct (fs_get f (parent p)) as [[|c]|] eqn:E2; try discriminate. intros [= <-].
    apply grows_put; [intros ->; discriminate E|exact E2|rewrite E; exact I].
Qed.

(** executors *)
Definition xkey (x : exec) : path := x_postfix x :: x_dir x.
Definition job_dir (x : exec) : path := job_name (x_postfix x) :: x_dir x.
Definition log_dir (x : exec) : path := log_name (x_postfix x) :: x_dir x.
Definition lock_ok (x : exec) : Prop :=
  x_lock x = lock_name :: job_dir x \/ x_lock x = lock_name :: log_dir x.

Lemma job_name_inj a b : job_name a = job_name b -> a = b.
Proof. unfold job_name. intros E. apply app_inv_head in E. exact E. Qed.
Lemma log_name_inj a b : log_name a = log_name b -> a = b.
Proof. unfold log_name. intros E. apply app_inv_head in E. exact E. Qed.
Lemma job_not_log a b : job_name a <> log_name b.
Proof. unfold job_name, log_name. cbn [of_string list_ascii_of_string app]. discriminate. Qed.

Lemma same_lock_same_key x y : lock_ok x -> lock_ok y -> x_lock x = x_lock y -> xkey x = xkey y.
Proof.
  unfold lock_ok, job_dir, log_dir, xkey.
  intros [Hx|Hx] [Hy|Hy] E; rewrite Hx, Hy in E; try discriminate; injection E as E1 E2.
  - congruence.
  - congruence.
Qed.

Lemma init_log_path_ok f dir tp x : init_log_path f dir tp = Ok x ->
  x_dir x = dir /\ x_saved x = None /\
  ((fs_exists f (job_name tp :: dir) = false /\ x_postfix x = tp /\
    x_job x = job_dir x /\ x_lock x = lock_name :: job_dir x) \/
   (fs_exists f (job_name tp :: dir) = true /\ x_job x = log_dir x /\
    x_lock x = lock_name :: log_dir x)) /\
  fs_exists f (parent (x_lock x)) = false.
Proof.
  unfold init_log_path. destruct (fs_exists f (job_name tp :: dir)) eqn:E.
  - destruct (log_path_loop (List.length f) f dir tp 0) as [pf|e] eqn:EL; [|discriminate]. cbn [bind].
    intros [= <-]. cbn [x_dir x_saved x_job x_lock x_postfix job_dir log_dir parent tl].
    split; [reflexivity|]. split; [reflexivity|]. split; [right; repeat split; reflexivity|].
    unfold log_dir; cbn [x_postfix x_dir].
    revert EL. generalize (List.length f) 0. intros n. induction n as [|n IH]; intros z; cbn [log_path_loop];
      destruct (fs_exists f (log_name (tp ++ py_str (z + 1)) :: dir)) eqn:E2; try discriminate;
      try (intros [= <-]; exact E2).
    intros H. exact (IH _ H).
  - intros [= <-]. cbn [x_dir x_saved x_job x_lock x_postfix parent tl].
    split; [reflexivity|]. split; [reflexivity|]. split; [left; repeat split; reflexivity|]. exact E.
Qed.

(** The fuel of the loop is enough. *)
Lemma init_log_path_total f dir tp : exists x, init_log_path f dir tp = Ok x.
Proof.
  unfold init_log_path. destruct (fs_exists f (job_name tp :: dir)); [|eexists; reflexivity].
  destruct (fresh_index f (fun n => log_name (tp ++ py_str (Z.of_nat n + 1)) :: dir)) as (i & Hi & F).
  - intros i j E. injection E as E. apply app_inv_head in E. apply py_str_inj in E. lia.
  - intros i; discriminate.
  - assert (T : forall fuel z m, 0 <= z -> z <= m -> m < z + Z.of_nat fuel + 1 ->
       fs_exists f (log_name (tp ++ py_str (m + 1)) :: dir) = false ->
       exists pf, log_path_loop fuel f dir tp z = Ok pf).
    { induction fuel as [|fuel IH]; intros z m Hz Hzm Hm Fm; cbn [log_path_loop].
      - replace m with z in Fm by lia. rewrite Fm. eexists; reflexivity.
      - destruct (fs_exists f (log_name (tp ++ py_str (z + 1)) :: dir)) eqn:E; [|eexists; reflexivity].
        assert (m <> z) by congruence. apply (IH (z + 1) m); (lia || exact Fm). }
    destruct (T (List.length f) 0 (Z.of_nat i) ltac:(lia) ltac:(lia) ltac:(lia) F) as (pf & ->).
    cbn [bind]. eexists; reflexivity.
Qed.

(** [_release_lock] on the file system *)
Lemma release_spec now x f :
  wf_fs f -> is_file f (x_lock x) \/ fs_exists f (x_lock x) = false ->
  x_lock x <> [] -> hd [] (x_lock x) = lock_name ->
  let f' := snd (fst (run_fs (release_lock now) x f)) in
  fs_exists f' (x_lock x) = false /\
  (forall q, q <> x_lock x -> q <> time_end_name :: parent (x_lock x) -> fs_get f' q = fs_get f q) /\
  wf_fs f' /\
  (forall q, q <> x_lock x -> is_file f q -> is_file f' q) /\
  (forall q, fs_get f q = Some Dir -> fs_get f' q = Some Dir) /\
  (fs_exists f (x_lock x) = true -> fs_get f (time_end_name :: parent (x_lock x)) <> Some Dir ->
   fs_get f' (time_end_name :: parent (x_lock x)) = Some (File now)) /\
  (fs_exists f (x_lock x) = false -> f' = f).
Proof.
  intros W L NE HD f'. subst f'. unfold run_fs, release_lock, mbind, get.
  cbn [w_fs]. destruct (fs_exists f (x_lock x)) eqn:E.
  - destruct L as [(c & L)|]; [|discriminate].
    unfold on_fs at 1. cbn [w_fs w_trace w_results].
    set (g := fs_unlink f (x_lock x)).
    set (te := time_end_name :: parent (x_lock x)).
    assert (Wg : wf_fs g).
    { intros p n Hp Hne. unfold g, fs_unlink in *. rewrite fs_get_del in * by exact NE.
      destruct (path_eq_dec (x_lock x) p); [discriminate|].
      destruct (path_eq_dec (x_lock x) (parent p)) as [E2|]; [|exact (W p n Hp Hne)].
      pose proof (W p n Hp Hne) as D. rewrite <- E2, L in D. discriminate. }
    assert (Nte : te <> x_lock x).
    { unfold te. destruct (x_lock x) as [|a b]; [contradiction|]. cbn [hd] in HD. subst a.
      cbn [parent tl]. discriminate. }
    assert (Gg : forall q, q <> x_lock x -> fs_get g q = fs_get f q).
    { intros q Hq. apply fs_get_del_other; congruence. }
    assert (Gx : fs_get g (x_lock x) = None) by (apply fs_get_del_same; exact NE).
    unfold on_fs. cbn [w_fs w_trace w_results]. fold g.
    destruct (fs_write g te now) as [h|e] eqn:EW; cbn [snd fst w_fs].
    + pose proof (fs_write_ok _ _ _ _ EW) as (H1 & H2).
      pose proof (grows_write _ _ _ _ Wg EW) as (G1 & G2 & G3).
      split; [|split; [|split; [|split; [|split; [|split]]]]].
      * unfold fs_exists. rewrite H2 by congruence. rewrite Gx. reflexivity.
      * intros q Hq Hq2. rewrite H2 by exact Hq2. apply Gg. exact Hq.
      * apply G3, Wg.
      * intros q Hq (d & Hd). apply G2. exists d. rewrite Gg by exact Hq. exact Hd.
      * intros q Hq. apply G1. rewrite Gg; [exact Hq|]. intros ->. congruence.
      * intros _ _. exact H1.
      * discriminate.
    + split; [|split; [|split; [|split; [|split; [|split]]]]].
      * unfold fs_exists. rewrite Gx. reflexivity.
      * intros q Hq _. apply Gg; exact Hq.
      * exact Wg.
      * intros q Hq (d & Hd). exists d. rewrite Gg by exact Hq. exact Hd.
      * intros q Hq. rewrite Gg; [exact Hq|]. intros ->. congruence.
      * intros _ ND. exfalso. revert EW. unfold fs_write.
        rewrite (Gg te Nte). fold te in ND.
        assert (PD : fs_get g (parent te) = Some Dir).
        { unfold te. cbn [parent tl]. rewrite Gg; [exact (W _ _ L NE)|].
          intros Q. pose proof (W _ _ L NE) as D. fold (parent (x_lock x)) in Q. rewrite Q in D. congruence. }
        destruct (fs_get f te) as [[|d]|]; [congruence|discriminate|rewrite PD; discriminate].
      * discriminate.
  - cbn [snd fst w_fs ret]. repeat split; auto. intros Hf; discriminate.
Qed.

(** [_save_job_data] *)
Lemma save_job_data_spec now params info x f x' f' r :
  wf_fs f -> lock_ok x ->
  run_fs (save_job_data now params info) x f = ((x', f'), r) ->
  grows f f' /\ x_lock x' = x_lock x /\ xkey x' = xkey x /\ x_job x' = job_dir x' /\
  (forall q, hd [] q = lock_name -> q <> x_lock x -> fs_get f' q = fs_get f q) /\
  (r = Ok tt -> fs_get f (job_dir x) = None /\ fs_get f' (job_dir x) = Some Dir /\
                is_file f' (x_lock x) /\ fs_get f (parent (x_lock x)) = Some Dir \/
                fs_get f (job_dir x) = None /\ fs_get f' (job_dir x) = Some Dir /\
                is_file f' (x_lock x) /\ parent (x_lock x) = job_dir x) /\
  (forall e, r = Err e -> fs_exists f (x_lock x) = false -> fs_get f' (x_lock x) = None).
Proof.
  intros W LO. unfold run_fs, save_job_data, mbind, get, set_x, on_fs.
  cbn [w_fs w_trace w_results fst snd x_dir x_postfix x_lock].
  set (job := job_name (x_postfix x) :: x_dir x).
  assert (NL : forall t, t <> lock_name -> forall q, hd [] q = lock_name -> q <> t :: job).
  { intros t Ht q Hq ->. cbn in Hq. contradiction. }
  assert (JL : forall q : path, hd [] q = lock_name -> q <> job).
  { intros q Hq ->. unfold job in Hq. cbn [hd] in Hq. unfold job_name, lock_name in Hq. cbn in Hq. discriminate. }
  assert (HL : hd [] (x_lock x) = lock_name) by (destruct LO as [-> | ->]; reflexivity).
  assert (PT : of_string "params.xml" <> lock_name) by (vm_compute; discriminate).
  assert (IT : of_string "info.xml" <> lock_name) by (vm_compute; discriminate).
  destruct (fs_mkdir f job false) as [f1|e] eqn:E1.
  2:{ intros [= <- <- <-]. repeat split; auto; try discriminate.
      intros e0 _ Hx. unfold fs_exists in Hx. destruct (fs_get f (x_lock x)); [discriminate|reflexivity]. }
  pose proof (fs_mkdir_ok _ _ _ _ E1) as (D1 & O1).
  pose proof (grows_mkdir _ _ _ _ E1) as G1.
  assert (W1 : wf_fs f1) by (apply G1, W).
  assert (NJ : fs_get f job = None).
  { revert E1. unfold fs_mkdir. destruct (fs_get f job) as [[|c]|]; try discriminate. reflexivity. }
  unfold save_lock_file, mbind, get, on_fs. cbn [w_fs w_trace w_results x_lock].
  destruct (fs_exists f1 (x_lock x)) eqn:EX.
  { unfold raise_. cbn [w_fs w_trace w_results]. intros [= <- <- <-]. split; [exact G1|].
    split; [reflexivity|]. split; [reflexivity|]. split; [reflexivity|]. split.
    { intros q Hq _. apply O1, JL, Hq. }
    split; [discriminate|]. intros e0 _ Hx. unfold fs_exists in Hx, EX.
    rewrite O1 in EX by (apply JL, HL). rewrite O1 by (apply JL, HL).
    destruct (fs_get f (x_lock x)); [discriminate|reflexivity]. }
  cbn [w_fs w_trace w_results].
  destruct (fs_write f1 (x_lock x) now) as [f2|e] eqn:E2.
  2:{ cbn [w_fs w_trace w_results]. intros [= <- <- <-]. split; [exact G1|].
      split; [reflexivity|]. split; [reflexivity|]. split; [reflexivity|]. split.
      { intros q Hq _. apply O1, JL, Hq. }
      split; [discriminate|]. intros e0 _ Hx. unfold fs_exists in Hx.
      rewrite O1 by (apply JL, HL). destruct (fs_get f (x_lock x)); [discriminate|reflexivity]. }
  pose proof (fs_write_ok _ _ _ _ E2) as (D2 & O2).
  pose proof (grows_write _ _ _ _ W1 E2) as G2.
  assert (W2 : wf_fs f2) by (apply G2, W1).
  cbn [w_fs w_trace w_results].
  assert (J2 : fs_get f2 job = Some Dir) by (apply G2; exact D1).
  assert (N1 : forall t, fs_get f1 (t :: job) = None).
  { intros t. rewrite O1 by (intros Q; apply (f_equal (@List.length chars)) in Q; cbn in Q; lia).
    destruct (fs_get f (t :: job)) eqn:Q; [|reflexivity].
    pose proof (W _ _ Q ltac:(discriminate)) as P. cbn [parent tl] in P. congruence. }
  destruct (fs_write f2 (of_string "params.xml" :: job) params) as [f3|e] eqn:E3.
  2:{ exfalso. revert E3. unfold fs_write.
      rewrite O2 by (intros Q; apply (NL _ PT (x_lock x) HL); congruence).
      rewrite N1. cbn [parent tl]. rewrite J2. discriminate. }
  pose proof (fs_write_ok _ _ _ _ E3) as (D3 & O3).
  pose proof (grows_write _ _ _ _ W2 E3) as G3.
  assert (W3 : wf_fs f3) by (apply G3, W2).
  cbn [w_fs w_trace w_results].
  destruct (fs_write f3 (of_string "info.xml" :: job) info) as [f4|e] eqn:E4.
  2:{ exfalso. revert E4. unfold fs_write.
      rewrite O3 by (vm_compute; discriminate).
      rewrite O2 by (intros Q; apply (NL _ IT (x_lock x) HL); congruence).
      rewrite N1. cbn [parent tl]. assert (J3 : fs_get f3 job = Some Dir) by (apply G3; exact J2).
      rewrite J3. discriminate. }
  pose proof (fs_write_ok _ _ _ _ E4) as (D4 & O4).
  pose proof (grows_write _ _ _ _ W3 E4) as G4.
  cbn [w_fs w_trace w_results]. intros [= <- <- <-].
  assert (G : grows f f4).
  { eapply grows_trans; [exact G1|]. eapply grows_trans; [exact G2|]. eapply grows_trans; [exact G3|exact G4]. }
  split; [exact G|]. split; [reflexivity|]. split; [reflexivity|]. split; [reflexivity|]. split.
  { intros q Hq Hne. rewrite O4 by (apply NL; assumption). rewrite O3 by (apply NL; assumption).
    rewrite O2 by exact Hne. apply O1, JL, Hq. }
  split; [|discriminate].
  intros _.
  assert (LF : is_file f4 (x_lock x)).
  { apply G4, G3. exists now. exact D2. }
  assert (JD : fs_get f4 job = Some Dir) by (apply G4, G3, J2).
  assert (PD : fs_get f1 (parent (x_lock x)) = Some Dir).
  { revert E2. unfold fs_write. unfold fs_exists in EX.
    destruct (fs_get f1 (x_lock x)); [discriminate|].
    destruct (fs_get f1 (parent (x_lock x))) as [[|]|]; try discriminate. reflexivity. }
  destruct LO as [L|L].
  - right. repeat split; try assumption. rewrite L. reflexivity.
  - left. repeat split; try assumption. rewrite <- O1; [exact PD|].
    rewrite L. cbn [parent tl]. unfold log_dir, job. discriminate.
Qed.

Lemma grows_none f f' p : grows f f' -> fs_get f' p = None -> fs_get f p = None.
Proof.
  intros (A & B & _) H. destruct (fs_get f p) as [[|c]|] eqn:E; [|destruct (B p)|reflexivity].
  - rewrite (A p E) in H. discriminate.
  - exists c; exact E.
  - congruence.
Qed.

Lemma lock_ok_hd x : lock_ok x -> hd [] (x_lock x) = lock_name /\ x_lock x <> [].
Proof. intros [-> | ->]; split; (reflexivity || discriminate). Qed.

Lemma not_lock_hd t (d q : path) : t <> lock_name -> hd [] q = lock_name -> q <> t :: d.
Proof. intros H Hq ->. cbn in Hq. contradiction. Qed.

Lemma start_job_spec multi f dir time pid now params info n f' r :
  wf_fs f -> hd [] dir <> lock_name ->
  start_job multi f dir time pid now params info n = (f', r) ->
  grows f f' /\
  (forall x, r = Ok (Some x) ->
     n <> O /\ lock_ok x /\ x_dir x = dir /\ fs_get f (job_dir x) = None /\ fs_get f' (job_dir x) = Some Dir /\
     is_file f' (x_lock x) /\ x_job x = job_dir x /\
     (multi = false -> x_lock x = lock_name :: job_dir x)) /\
  (forall q, hd [] q = lock_name -> (forall x, r = Ok (Some x) -> q <> x_lock x) ->
     fs_get f' q = fs_get f q) /\
  (n = O -> multi = false -> fs_exists f dir = true -> f' = f).
Proof.
  intros W HDir. unfold start_job.
  destruct (fs_mkdir f dir true) as [f1|e] eqn:E0.
  2:{ intros [= <- <-]. split; [apply grows_refl|]. split; [discriminate|]. split; reflexivity. }
  pose proof (fs_mkdir_ok _ _ _ _ E0) as (D0 & O0).
  pose proof (grows_mkdir _ _ _ _ E0) as G0. assert (W1 : wf_fs f1) by (apply G0, W).
  assert (Same : fs_exists f dir = true -> f1 = f).
  { revert E0. unfold fs_exists, fs_mkdir. destruct (fs_get f dir) as [[|c]|]; try discriminate. congruence. }
  destruct (init_log_path_total f1 dir (time ++ of_string "_" ++ pid)) as (x & Ex). rewrite Ex.
  apply init_log_path_ok in Ex. destruct Ex as (Xd & _ & Xl & Xf).
  assert (LO : lock_ok x) by (destruct Xl as [(_ & _ & _ & H)|(_ & _ & H)]; [left|right]; exact H).
  assert (NL1 : fs_get f1 (x_lock x) = None).
  { destruct (fs_get f1 (x_lock x)) eqn:E; [|reflexivity].
    pose proof (W1 _ _ E (proj2 (lock_ok_hd x LO))) as P. unfold fs_exists in Xf. rewrite P in Xf. discriminate. }
  assert (Q0 : forall q, hd [] q = lock_name -> fs_get f1 q = fs_get f q).
  { intros q Hq. apply O0. intros ->. contradiction. }
  destruct (if multi then fs_mkdir f1 (log_name (x_postfix x) :: dir) true else Ok f1) as [f2|e] eqn:E1.
  2:{ intros [= <- <-]. split; [exact G0|]. split; [discriminate|]. split; [intros q Hq _; apply Q0, Hq|].
      intros _ _ Hd. exact (Same Hd). }
  assert (G1 : grows f1 f2).
  { destruct multi; [apply grows_mkdir in E1; exact E1|injection E1 as <-; apply grows_refl]. }
  assert (W2 : wf_fs f2) by (apply G1, W1).
  assert (Q1 : forall q, hd [] q = lock_name -> fs_get f2 q = fs_get f1 q).
  { intros q Hq. destruct multi; [|congruence]. apply fs_mkdir_ok in E1. apply (proj2 E1).
    apply not_lock_hd; [discriminate|exact Hq]. }
  assert (NL2 : fs_get f2 (x_lock x) = None).
  { rewrite Q1 by apply (lock_ok_hd x LO). exact NL1. }
  destruct (Nat.eqb n 0) eqn:En.
  - apply Nat.eqb_eq in En. subst n.
    assert (Hr : f' = f2 /\ r = Ok None ->
      grows f f' /\
      (forall x, r = Ok (Some x) ->
         0%nat <> O /\ lock_ok x /\ x_dir x = dir /\ fs_get f (job_dir x) = None /\ fs_get f' (job_dir x) = Some Dir /\
         is_file f' (x_lock x) /\ x_job x = job_dir x /\
         (multi = false -> x_lock x = lock_name :: job_dir x)) /\
      (forall q, hd [] q = lock_name -> (forall x, r = Ok (Some x) -> q <> x_lock x) ->
         fs_get f' q = fs_get f q) /\
      (0%nat = O -> multi = false -> fs_exists f dir = true -> f' = f)).
    { intros (-> & ->). split; [eapply grows_trans; eassumption|]. split; [discriminate|].
      split; [intros q Hq _; rewrite Q1 by exact Hq; apply Q0, Hq|].
      intros _ -> Hd. injection E1 as <-. exact (Same Hd). }
    destruct multi; [intros [= <- <-]; apply Hr; split; reflexivity|].
    destruct (release_spec now x f2 W2) as (_ & _ & _ & _ & _ & _ & Id).
    { right. unfold fs_exists. rewrite NL2. reflexivity. }
    { apply (lock_ok_hd x LO). } { apply (lock_ok_hd x LO). }
    unfold fs_exists in Id. rewrite NL2 in Id. specialize (Id eq_refl).
    destruct (run_fs (release_lock now) x f2) as [[y f3] rr] eqn:ER. cbn [snd fst] in Id. subst f3.
    assert (rr = Ok tt) as ->.
    { revert ER. unfold run_fs, release_lock, mbind, get. cbn [w_fs]. unfold fs_exists. rewrite NL2.
      unfold ret. congruence. }
    intros [= <- <-]. apply Hr; split; reflexivity.
  - apply Nat.eqb_neq in En.
    destruct (run_fs (save_job_data now params info) x f2) as [[x' f3] rr] eqn:ER.
    destruct (save_job_data_spec _ _ _ _ _ _ _ _ W2 LO ER) as (G2 & L' & K' & J' & Q2 & OkC & ErrC).
    assert (JD : job_dir x' = job_dir x).
    { unfold xkey in K'. injection K' as K1 K2; unfold job_dir, log_dir; congruence. }
    assert (LD : log_dir x' = log_dir x).
    { unfold xkey in K'. injection K' as K1 K2; unfold job_dir, log_dir; congruence. }
    assert (G : grows f f3) by (eapply grows_trans; [exact G0|]; eapply grows_trans; eassumption).
    destruct rr as [u|e].
    + intros [= <- <-]. split; [exact G|]. split.
      * intros y [= <-]. destruct u. specialize (OkC eq_refl).
        split; [exact En|].
        assert (LO' : lock_ok x') by (unfold lock_ok; rewrite L', JD, LD; exact LO).
        split; [exact LO'|].
        split; [unfold xkey in K'; injection K' as K1 K2; congruence|].
        rewrite JD, L'.
        assert (NJ : fs_get f (job_dir x) = None).
        { apply (grows_none f f1); [exact G0|]. apply (grows_none f1 f2); [exact G1|].
          destruct OkC as [(H & _)|(H & _)]; exact H. }
        split; [exact NJ|].
        split; [destruct OkC as [(_ & H & _)|(_ & H & _)]; exact H|].
        split; [destruct OkC as [(_ & _ & H & _)|(_ & _ & H & _)]; exact H|].
        split; [rewrite <- JD; exact J'|].
        intros ->. injection E1 as <-.
        destruct Xl as [(_ & _ & _ & H)|(_ & _ & H)]; [exact H|]. exfalso.
        destruct OkC as [(_ & _ & _ & P)|(_ & _ & _ & P)].
        -- unfold fs_exists in Xf. rewrite P in Xf. discriminate.
        -- rewrite H in P. cbn [parent tl] in P. unfold log_dir, job_dir in P. discriminate.
      * split; [|intros ->; contradiction].
        intros q Hq Hne. rewrite Q2; [rewrite Q1 by exact Hq; apply Q0, Hq|exact Hq|].
        rewrite <- L'. apply Hne. reflexivity.
    + intros [= <- <-]. split; [exact G|]. split; [discriminate|].
      split; [|intros ->; contradiction]. intros q Hq _.
      destruct (path_eq_dec q (x_lock x)) as [->|N].
      * rewrite (ErrC e eq_refl) by (unfold fs_exists; rewrite NL2; reflexivity).
        rewrite <- Q0 by exact Hq. symmetry. exact NL1.
      * rewrite Q2 by assumption. rewrite Q1 by exact Hq. apply Q0, Hq.
Qed.

(** ** The invariant of the system *)
Lemma find_set l pid p q :
  find_proc (set_proc l pid p) q = if chars_eq_dec pid q then Some p else find_proc l q.
Proof.
  unfold set_proc, del_proc. cbn [find_proc]. destruct (chars_eq_dec pid q) as [|N]; [reflexivity|].
  induction l as [|[r s] l IH]; cbn [filter find_proc]; [reflexivity|].
  destruct (chars_eq_dec r pid) as [->|N2].
  - rewrite IH. destruct (chars_eq_dec pid q); [contradiction|reflexivity].
  - cbn [find_proc]. rewrite IH. reflexivity.
Qed.

Lemma find_del l pid q :
  find_proc (del_proc l pid) q = if chars_eq_dec pid q then None else find_proc l q.
Proof.
  unfold del_proc. induction l as [|[r s] l IH]; cbn [filter find_proc].
  - destruct chars_eq_dec; reflexivity.
  - destruct (chars_eq_dec r pid) as [->|N2].
    + rewrite IH. destruct (chars_eq_dec pid q); reflexivity.
    + cbn [find_proc]. rewrite IH. destruct (chars_eq_dec r q) as [->|]; [|reflexivity].
      destruct (chars_eq_dec pid q); [congruence|reflexivity].
Qed.

(** an executor started by a living process *)
Definition started (s : sys) (pid : chars) (x : exec) : Prop :=
  exists p, find_proc (y_procs s) pid = Some p /\ In x (p_atexit p).
Definition runs (s : sys) (pid : chars) (x : exec) : Prop :=
  exists l, find_proc (y_procs s) pid = Some (mk_proc (Some x) l).

Record inv (s : sys) : Prop := {
  inv_wf : wf_fs (y_fs s);
  inv_lockfile : forall q, hd [] q = lock_name -> fs_get (y_fs s) q <> Some Dir;
  inv_started : forall pid x, started s pid x ->
    lock_ok x /\ fs_get (y_fs s) (job_dir x) = Some Dir /\ x_job x = job_dir x;
  inv_runs : forall pid x, runs s pid x -> started s pid x /\ is_file (y_fs s) (x_lock x);
  inv_unique : forall pid pid' x x', started s pid x -> started s pid' x' -> pid <> pid' ->
    xkey x <> xkey x'
}.

Lemma job_dir_key x y : xkey x = xkey y -> job_dir x = job_dir y.
Proof. unfold xkey, job_dir. intros E. injection E as -> ->. reflexivity. Qed.

Lemma inv_init f0 : wf_fs f0 -> (forall q, hd [] q = lock_name -> fs_get f0 q <> Some Dir) ->
  inv (mk_sys f0 []).
Proof.
  intros W L. split; cbn [y_fs]; try assumption.
  - intros pid x (p & H & _). discriminate.
  - intros pid x (l & H). discriminate.
  - intros pid pid' x x' (p & H & _). discriminate.
Qed.

(** Release of the locks of a process: nothing changes for the other ones. *)
Lemma release_all_spec now l f :
  wf_fs f -> (forall q, hd [] q = lock_name -> fs_get f q <> Some Dir) ->
  Forall lock_ok l ->
  let f' := release_all l now f in
  wf_fs f' /\ (forall q, hd [] q = lock_name -> fs_get f' q <> Some Dir) /\
  (forall q, fs_get f q = Some Dir -> fs_get f' q = Some Dir) /\
  (forall q, ~ In q (map x_lock l) -> is_file f q -> is_file f' q) /\
  (forall x, In x l -> fs_exists f' (x_lock x) = false) /\
  (forall q, hd [] q = lock_name -> fs_exists f q = false -> fs_exists f' q = false).
Proof.
  revert f. induction l as [|x l IH]; intros f W L F; cbn [release_all map].
  - repeat split; auto; contradiction.
  - inversion F as [|? ? LO F']; subst.
    destruct (lock_ok_hd x LO) as (Hh & Hn).
    assert (Or : is_file f (x_lock x) \/ fs_exists f (x_lock x) = false).
    { unfold is_file, fs_exists. destruct (fs_get f (x_lock x)) as [[|c]|] eqn:E; [|left; exists c; reflexivity|right; reflexivity].
      exfalso. exact (L _ Hh E). }
    destruct (release_spec now x f W Or Hn Hh) as (A & B & C & D & E & _ & _).
    set (g := snd (fst (run_fs (release_lock now) x f))) in *.
    assert (Lg : forall q, hd [] q = lock_name -> fs_get g q <> Some Dir).
    { intros q Hq. destruct (path_eq_dec q (x_lock x)) as [->|N].
      - unfold fs_exists in A. destruct (fs_get g (x_lock x)); [discriminate|discriminate].
      - rewrite B; [apply L, Hq|exact N|]. apply not_lock_hd; [discriminate|exact Hq]. }
    destruct (IH g C Lg F') as (A' & B' & C' & D' & E' & F2).
    split; [exact A'|]. split; [exact B'|]. split; [auto|]. split; [|split].
    + intros q Hq Hf. apply D'; [intros Hi; apply Hq; right; exact Hi|].
      apply D; [intros ->; apply Hq; left; reflexivity|exact Hf].
    + intros y [<-|Hy]; [|apply E', Hy]. apply F2; [exact Hh|exact A].
    + intros q Hq Hf. apply F2; [exact Hq|].
      destruct (path_eq_dec q (x_lock x)) as [->|N]; [exact A|].
      unfold fs_exists in *. rewrite B; [exact Hf|exact N|]. apply not_lock_hd; [discriminate|exact Hq].
Qed.

(** events which make sense: the directory of results is not called is_running.lock *)
Definition sensible (e : sys_event) : Prop :=
  match e with
  | SStart _ dir _ _ _ _ _ _ => hd [] dir <> lock_name
  | _ => True
  end.

Lemma inv_grow s f : inv s -> grows (y_fs s) f ->
  (forall q, hd [] q = lock_name -> fs_get f q <> Some Dir) ->
  inv (mk_sys f (y_procs s)).
Proof.
  intros [W L S R U] (G1 & G2 & G3) Lf. split; cbn [y_fs]; auto.
  - intros pid x Hx. destruct (S pid x Hx) as (A & B & C). auto.
  - intros pid x Hx. destruct (R pid x Hx) as (A & B). split; auto.
Qed.

Lemma inv_step s e s' : sensible e -> inv s -> sys_step s e = Some s' -> inv s'.
Proof.
  intros Sen I. destruct e as [multi dir time pid now params info n|pid now|pid|pid now|pid|p text|p];
    cbn [sys_step].
  - set (p := match find_proc (y_procs s) pid with Some p => p | None => mk_proc None [] end).
    assert (Hp : forall x, In x (p_atexit p) -> started s pid x).
    { intros x Hx. unfold p in Hx. destruct (find_proc (y_procs s) pid) as [p0|] eqn:E; [|contradiction].
      exists p0. split; [exact E|exact Hx]. }
    destruct (p_running p) eqn:ER; [discriminate|].
    destruct (start_job multi (y_fs s) dir time pid now params info n) as [f r] eqn:ES.
    destruct (start_job_spec _ _ _ _ _ _ _ _ _ _ _ (inv_wf _ I) Sen ES) as (G & Hs & Q & _).
    destruct I as [W L S R U].
    assert (Lf : forall q, hd [] q = lock_name -> fs_get f q <> Some Dir).
    { intros q Hq HD. destruct r as [[x|]|e].
      - destruct (path_eq_dec q (x_lock x)) as [->|N].
        + destruct (Hs x eq_refl) as (_ & _ & _ & _ & _ & (c & F) & _). congruence.
        + rewrite Q in HD; [exact (L q Hq HD)|exact Hq|]. intros y [= <-]. exact N.
      - rewrite Q in HD; [exact (L q Hq HD)|exact Hq|discriminate].
      - rewrite Q in HD; [exact (L q Hq HD)|exact Hq|discriminate]. }
    assert (NoNew : forall f', Some (mk_sys f' (set_proc (y_procs s) pid p)) = Some s' -> f' = f -> inv s').
    { intros f' [= <-] ->. destruct G as (G1 & G2 & G3).
      assert (St : forall q x, started (mk_sys f (set_proc (y_procs s) pid p)) q x -> started s q x).
      { intros q x (p0 & E & Hx). cbn [y_procs] in E. rewrite find_set in E.
        destruct (chars_eq_dec pid q) as [<-|N]; [injection E as <-; apply Hp, Hx|exists p0; split; assumption]. }
      split; cbn [y_fs]; auto.
      - intros q x Hx. destruct (S q x (St _ _ Hx)) as (A & B & C). auto.
      - intros q x (l & E). cbn [y_procs] in E. rewrite find_set in E.
        destruct (chars_eq_dec pid q) as [<-|N].
        + injection E as E. rewrite E in ER. discriminate.
        + destruct (R q x) as ((p0 & A & A') & B); [exists l; exact E|]. split; [|apply G2, B].
          exists p0. cbn [y_procs]. rewrite find_set. destruct (chars_eq_dec pid q); [contradiction|]. split; assumption.
      - intros q q' x x' Hx Hx' N. apply (U q q'); auto. }
    destruct r as [[x|]|e].
    + intros [= <-]. clear NoNew. destruct (Hs x eq_refl) as (_ & LO & _ & NJ & YJ & LF & XJ & _).
      destruct G as (G1 & G2 & G3).
      assert (St : forall q y, started (mk_sys f (set_proc (y_procs s) pid (mk_proc (Some x) (p_atexit p ++ [x])))) q y ->
                   started s q y \/ (q = pid /\ y = x)).
      { intros q y (p0 & E & Hy). cbn [y_procs] in E. rewrite find_set in E.
        destruct (chars_eq_dec pid q) as [<-|N].
        - injection E as <-. cbn [p_atexit] in Hy. apply in_app_or in Hy. destruct Hy as [Hy|[<-|[]]]; [left; apply Hp, Hy|right; split; reflexivity].
        - left. exists p0; split; assumption. }
      assert (Fresh : forall q y, started s q y -> xkey y <> xkey x).
      { intros q y Hy E. destruct (S q y Hy) as (_ & B & _). rewrite (job_dir_key _ _ E), NJ in B. discriminate. }
      split; cbn [y_fs]; auto.
      * intros q y Hy. destruct (St q y Hy) as [Hy'|(-> & ->)]; [|repeat split; assumption].
        destruct (S q y Hy') as (A & B & C). auto.
      * intros q y (l & E). cbn [y_procs] in E. rewrite find_set in E.
        destruct (chars_eq_dec pid q) as [<-|N].
        -- injection E as <- <-. split; [|exact LF]. eexists. cbn [y_procs]. rewrite find_set.
           destruct (chars_eq_dec pid pid); [|contradiction]. split; [reflexivity|].
           cbn [p_atexit]. apply in_or_app. right; left; reflexivity.
        -- destruct (R q y) as ((p0 & A & A') & B); [exists l; exact E|]. split; [|apply G2, B].
           exists p0. cbn [y_procs]. rewrite find_set. destruct (chars_eq_dec pid q); [contradiction|]. split; assumption.
      * intros q q' y y' Hy Hy' N E.
        destruct (St q y Hy) as [A|(-> & ->)]; destruct (St q' y' Hy') as [A'|(-> & ->)].
        -- exact (U q q' y y' A A' N E).
        -- exact (Fresh q y A E).
        -- exact (Fresh q' y' A' (eq_sym E)).
        -- contradiction.
    + intros H. apply (NoNew f); [exact H|reflexivity].
    + intros H. apply (NoNew f); [exact H|reflexivity].
  - destruct (find_proc (y_procs s) pid) as [[[x|] l]|] eqn:E; try discriminate. intros [= <-].
    destruct I as [W L S R U].
    assert (Rx : runs s pid x) by (exists l; exact E).
    destruct (R pid x Rx) as (Sx & Fx). destruct (S pid x Sx) as (LO & _ & _).
    destruct (lock_ok_hd x LO) as (Hh & Hn).
    destruct (release_spec now x (y_fs s) W (or_introl Fx) Hn Hh) as (A & B & C & D & F & _ & _).
    set (g := snd (fst (run_fs (release_lock now) x (y_fs s)))) in *.
    assert (St : forall q y, started (mk_sys g (set_proc (y_procs s) pid (mk_proc None l))) q y -> started s q y).
    { intros q y (p0 & E0 & Hy). cbn [y_procs] in E0. rewrite find_set in E0.
      destruct (chars_eq_dec pid q) as [<-|N]; [|exists p0; split; assumption].
      injection E0 as <-. exists (mk_proc (Some x) l). split; assumption. }
    split; cbn [y_fs]; auto.
    + intros q Hq. destruct (path_eq_dec q (x_lock x)) as [->|N].
      * unfold fs_exists in A. destruct (fs_get g (x_lock x)); discriminate.
      * rewrite B; [apply L, Hq|exact N|]. apply not_lock_hd; [discriminate|exact Hq].
    + intros q y Hy. destruct (S q y (St _ _ Hy)) as (A1 & A2 & A3). auto.
    + intros q y (l0 & E0). cbn [y_procs] in E0. rewrite find_set in E0.
      destruct (chars_eq_dec pid q) as [<-|N]; [discriminate|].
      destruct (R q y) as (Sy & Fy); [exists l0; exact E0|]. split.
      * destruct Sy as (p0 & A1 & A2). exists p0. cbn [y_procs]. rewrite find_set.
        destruct (chars_eq_dec pid q); [contradiction|]. split; assumption.
      * apply D; [|exact Fy]. intros Q. apply (U q pid y x Sy Sx); [congruence|].
        apply same_lock_same_key; [apply (S q y Sy)|exact LO|exact Q].
    + intros q q' y y' Hy Hy' N. apply (U q q'); auto.
  - destruct (find_proc (y_procs s) pid) as [[[x|] l]|] eqn:E; try discriminate. intros [= <-].
    destruct I as [W L S R U].
    assert (St : forall q y, started (mk_sys (y_fs s) (set_proc (y_procs s) pid (mk_proc None l))) q y -> started s q y).
    { intros q y (p0 & E0 & Hy). cbn [y_procs] in E0. rewrite find_set in E0.
      destruct (chars_eq_dec pid q) as [<-|N]; [|exists p0; split; assumption].
      injection E0 as <-. exists (mk_proc (Some x) l). split; assumption. }
    split; cbn [y_fs]; auto.
    + intros q y Hy. apply (S q y (St _ _ Hy)).
    + intros q y (l0 & E0). cbn [y_procs] in E0. rewrite find_set in E0.
      destruct (chars_eq_dec pid q) as [<-|N]; [discriminate|].
      destruct (R q y) as (Sy & Fy); [exists l0; exact E0|]. split; [|exact Fy].
      destruct Sy as (p0 & A1 & A2). exists p0. cbn [y_procs]. rewrite find_set.
      destruct (chars_eq_dec pid q); [contradiction|]. split; assumption.
    + intros q q' y y' Hy Hy' N. apply (U q q'); auto.
  - destruct (find_proc (y_procs s) pid) as [p|] eqn:E; [|discriminate]. intros [= <-].
    destruct I as [W L S R U].
    assert (FL : Forall lock_ok (rev (p_atexit p))).
    { apply Forall_forall. intros x Hx. apply in_rev in Hx. apply (S pid x). exists p; split; assumption. }
    destruct (release_all_spec now (rev (p_atexit p)) (y_fs s) W L FL) as (A & B & C & D & _ & _).
    set (g := release_all (rev (p_atexit p)) now (y_fs s)) in *.
    assert (St : forall q y, started (mk_sys g (del_proc (y_procs s) pid)) q y -> started s q y /\ q <> pid).
    { intros q y (p0 & E0 & Hy). cbn [y_procs] in E0. rewrite find_del in E0.
      destruct (chars_eq_dec pid q) as [<-|N]; [discriminate|]. split; [exists p0; split; assumption|congruence]. }
    split; cbn [y_fs]; auto.
    + intros q y Hy. destruct (St _ _ Hy) as (Hy' & _). destruct (S q y Hy') as (A1 & A2 & A3). auto.
    + intros q y (l0 & E0). cbn [y_procs] in E0. rewrite find_del in E0.
      destruct (chars_eq_dec pid q) as [<-|N]; [discriminate|].
      destruct (R q y) as (Sy & Fy); [exists l0; exact E0|]. split.
      * destruct Sy as (p0 & A1 & A2). exists p0. cbn [y_procs]. rewrite find_del.
        destruct (chars_eq_dec pid q); [contradiction|]. split; assumption.
      * apply D; [|exact Fy]. intros Q. apply in_map_iff in Q. destruct Q as (x & Q & Hx).
        apply in_rev in Hx. assert (Sx : started s pid x) by (exists p; split; assumption).
        apply (U q pid y x Sy Sx); [congruence|].
        apply same_lock_same_key; [apply (S q y Sy)|apply (S pid x Sx)|congruence].
    + intros q q' y y' Hy Hy' N. apply (U q q'); [apply St, Hy|apply St, Hy'|exact N].
  - intros [= <-]. destruct I as [W L S R U].
    assert (St : forall q y, started (mk_sys (y_fs s) (del_proc (y_procs s) pid)) q y -> started s q y).
    { intros q y (p0 & E0 & Hy). cbn [y_procs] in E0. rewrite find_del in E0.
      destruct (chars_eq_dec pid q) as [<-|N]; [discriminate|]. exists p0; split; assumption. }
    split; cbn [y_fs]; auto.
    + intros q y Hy. apply (S q y (St _ _ Hy)).
    + intros q y (l0 & E0). cbn [y_procs] in E0. rewrite find_del in E0.
      destruct (chars_eq_dec pid q) as [<-|N]; [discriminate|].
      destruct (R q y) as (Sy & Fy); [exists l0; exact E0|]. split; [|exact Fy].
      destruct Sy as (p0 & A1 & A2). exists p0. cbn [y_procs]. rewrite find_del.
      destruct (chars_eq_dec pid q); [contradiction|]. split; assumption.
    + intros q q' y y' Hy Hy' N. apply (U q q'); auto.
  - destruct p as [|nm d]; [discriminate|]. destruct (chars_eq_dec nm lock_name) as [|N]; [discriminate|].
    destruct (fs_write (y_fs s) (nm :: d) text) as [f|e] eqn:EW; [|discriminate]. intros [= <-].
    apply inv_grow; [exact I|apply (grows_write _ _ _ _ (inv_wf _ I) EW)|].
    intros q Hq. apply fs_write_ok in EW. rewrite (proj2 EW) by (apply not_lock_hd; assumption).
    apply (inv_lockfile _ I), Hq.
  - destruct p as [|nm d]; [discriminate|]. destruct (chars_eq_dec nm lock_name) as [|N]; [discriminate|].
    destruct (fs_mkdir (y_fs s) (nm :: d) false) as [f|e] eqn:EW; [|discriminate]. intros [= <-].
    apply inv_grow; [exact I|apply (grows_mkdir _ _ _ _ EW)|].
    intros q Hq. apply fs_mkdir_ok in EW. rewrite (proj2 EW) by (apply not_lock_hd; assumption).
    apply (inv_lockfile _ I), Hq.
Qed.

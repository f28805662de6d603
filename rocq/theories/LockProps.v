(** C20: life cycle of the lock file, for any number of processes sharing directories. *)
From Verif Require Import PyBase StrModel StrProofs FsModel FsProofs LifeModel LockModel LockProofs.

(** ** Specification *)

(** A file system in which every entry is in a directory and in which no directory is
    called is_running.lock. *)
Definition good_fs (f : fs) : Prop :=
  (forall p n, fs_get f p = Some n -> p <> [] -> fs_get f (tl p) = Some Dir) /\
  (forall d, fs_get f (of_string "is_running.lock" :: d) <> Some Dir).

(** The process [pid] is running the execution [x]. *)
Definition running (s : sys) (pid : chars) (x : exec) : Prop :=
  exists l, find_proc (y_procs s) pid = Some (mk_proc (Some x) l).

(** Nothing else than the executors writes the lock files and results are not put in a
    directory called is_running.lock; [single]: no executor creating the log directory. *)
Definition any_event (e : sys_event) : Prop :=
  match e with
  | SStart _ dir _ _ _ _ _ _ => hd [] dir <> of_string "is_running.lock"
  | _ => True
  end.
Definition single_event (e : sys_event) : Prop :=
  match e with
  | SStart multi dir _ _ _ _ _ _ => multi = false /\ hd [] dir <> of_string "is_running.lock"
  | _ => True
  end.

Lemma good_inv f : good_fs f -> inv (mk_sys f []).
Proof.
  intros (A & B). apply inv_init; [exact A|].
  intros [|a q] H; [discriminate H|]. cbn [hd] in H. subst a. apply B.
Qed.

Lemma reach_inv f s : good_fs f -> sys_reach any_event f s -> inv s.
Proof.
  intros G H. induction H as [|s e s' _ IH He E]; [apply good_inv, G|].
  apply (inv_step s e); [exact He|exact IH|exact E].
Qed.

Lemma single_any f s : sys_reach single_event f s -> sys_reach any_event f s.
Proof.
  intros H. induction H as [|s e s' _ IH He E]; [constructor|].
  eapply sys_next; [exact IH| |exact E]. destruct e; cbn in *; tauto.
Qed.

(** ** While a job runs its lock file exists *)
Theorem C20_running : forall f0 s pid x,
  good_fs f0 -> sys_reach any_event f0 s -> running s pid x ->
  (exists c, fs_get (y_fs s) (x_lock x) = Some (File c)) /\
  fs_get (y_fs s) (x_job x) = Some Dir /\
  (x_lock x = of_string "is_running.lock" :: x_job x \/
   x_lock x = of_string "is_running.lock" :: (of_string "log_" ++ x_postfix x) :: x_dir x).
Proof.
  intros f0 s pid x G H R. pose proof (reach_inv _ _ G H) as I.
  destruct (inv_runs _ I pid x R) as (S & F). destruct (inv_started _ I pid x S) as (L & D & J).
  split; [exact F|]. rewrite J. split; [exact D|]. exact L.
Qed.
Print Assumptions C20_running.

(** ... and it is in the directory of the job for all executors which do not create a
    directory log_... when they are constructed (sequential, async, ...). *)
Theorem C20_running_in_job_dir : forall f0 s pid x,
  good_fs f0 -> sys_reach single_event f0 s -> running s pid x ->
  exists c, fs_get (y_fs s) (of_string "is_running.lock" :: x_job x) = Some (File c).
Proof.
  intros f0 s pid x G H R.
  assert (A : forall s, sys_reach single_event f0 s ->
    forall pid x, started s pid x -> x_lock x = lock_name :: x_job x).
  { intros s1 H1. induction H1 as [|s1 e s' H1 IH He E]; [intros p y (q & Q & _); discriminate|].
    pose proof (reach_inv _ _ G (single_any _ _ H1)) as I.
    destruct e as [multi dir time pid0 now params info n|pid0 now|pid0|pid0 now|pid0|p0 text|p0];
      cbn [sys_step] in E.
    - set (p := match find_proc (y_procs s1) pid0 with Some p => p | None => mk_proc None [] end) in *.
      assert (Hp : forall y, In y (p_atexit p) -> started s1 pid0 y).
      { intros y Hy. unfold p in Hy. destruct (find_proc (y_procs s1) pid0) as [q|] eqn:Q; [|contradiction].
        exists q. split; assumption. }
      destruct (p_running p); [discriminate|].
      destruct (start_job multi (y_fs s1) dir time pid0 now params info n) as [f r] eqn:ES.
      destruct He as (-> & Hd).
      destruct (start_job_spec _ _ _ _ _ _ _ _ _ _ _ (inv_wf _ I) Hd ES) as (_ & Hs & _).
      intros q y (p1 & P1 & P2).
      destruct r as [[z|]|e]; injection E as <-; cbn [y_procs] in P1; rewrite find_set in P1;
        (destruct (chars_eq_dec pid0 q) as [<-|N]; [|apply (IH q); exists p1; split; assumption]);
        injection P1 as <-; [|apply (IH pid0), Hp, P2|apply (IH pid0), Hp, P2].
      cbn [p_atexit] in P2. apply in_app_or in P2. destruct P2 as [P2|[<-|[]]]; [apply (IH pid0), Hp, P2|].
      destruct (Hs z eq_refl) as (_ & _ & _ & _ & _ & _ & -> & L). apply L; reflexivity.
    - destruct (find_proc (y_procs s1) pid0) as [[[z|] l]|] eqn:Q; try discriminate. injection E as <-.
      intros q y (p1 & P1 & P2). cbn [y_procs] in P1. rewrite find_set in P1.
      destruct (chars_eq_dec pid0 q) as [<-|N]; [|apply (IH q); exists p1; split; assumption].
      injection P1 as <-. apply (IH pid0). eexists. split; [exact Q|exact P2].
    - destruct (find_proc (y_procs s1) pid0) as [[[z|] l]|] eqn:Q; try discriminate. injection E as <-.
      intros q y (p1 & P1 & P2). cbn [y_procs] in P1. rewrite find_set in P1.
      destruct (chars_eq_dec pid0 q) as [<-|N]; [|apply (IH q); exists p1; split; assumption].
      injection P1 as <-. apply (IH pid0). eexists. split; [exact Q|exact P2].
    - destruct (find_proc (y_procs s1) pid0) as [p2|] eqn:Q; try discriminate. injection E as <-.
      intros q y (p1 & P1 & P2). cbn [y_procs] in P1. rewrite find_del in P1.
      destruct (chars_eq_dec pid0 q) as [<-|N]; [discriminate|apply (IH q); exists p1; split; assumption].
    - injection E as <-.
      intros q y (p1 & P1 & P2). cbn [y_procs] in P1. rewrite find_del in P1.
      destruct (chars_eq_dec pid0 q) as [<-|N]; [discriminate|apply (IH q); exists p1; split; assumption].
    - destruct p0 as [|nm d]; [discriminate|]. destruct (chars_eq_dec nm lock_name); [discriminate|].
      destruct (fs_write (y_fs s1) (nm :: d) text); [|discriminate]. injection E as <-.
      intros q y (p1 & P1 & P2). apply (IH q). exists p1. split; assumption.
    - destruct p0 as [|nm d]; [discriminate|]. destruct (chars_eq_dec nm lock_name); [discriminate|].
      destruct (fs_mkdir (y_fs s1) (nm :: d) false); [|discriminate]. injection E as <-.
      intros q y (p1 & P1 & P2). apply (IH q). exists p1. split; assumption. }
  pose proof (reach_inv _ _ G (single_any _ _ H)) as I.
  destruct (inv_runs _ I pid x R) as (S & (c & F)). exists c.
  rewrite (A s H pid x S) in F. exact F.
Qed.
Print Assumptions C20_running_in_job_dir.

(** ** Two jobs never run on the same job directory *)
Theorem C20_exclusive : forall f0 s pid pid' x x',
  good_fs f0 -> sys_reach any_event f0 s ->
  running s pid x -> running s pid' x' -> pid <> pid' -> x_job x <> x_job x'.
Proof.
  intros f0 s pid pid' x x' G H R R' N E. pose proof (reach_inv _ _ G H) as I.
  destruct (inv_runs _ I _ _ R) as (S & _). destruct (inv_runs _ I _ _ R') as (S' & _).
  destruct (inv_started _ I _ _ S) as (_ & _ & J). destruct (inv_started _ I _ _ S') as (_ & _ & J').
  apply (inv_unique _ I _ _ _ _ S S' N). rewrite J, J' in E. unfold job_dir in E. injection E as E1 E2.
  unfold xkey. congruence.
Qed.
Print Assumptions C20_exclusive.

(** An executor cannot start on a job directory which exists: nothing is written. *)
Theorem C20_second_start_refused : forall now params info x f,
  fs_get f ((of_string "job_" ++ x_postfix x) :: x_dir x) = Some Dir ->
  snd (run_fs (save_job_data now params info) x f) = Err FileExistsError /\
  snd (fst (run_fs (save_job_data now params info) x f)) = f.
Proof.
  intros now params info x f H.
  assert (E : fs_mkdir f (job_name (x_postfix x) :: x_dir x) false = Err FileExistsError).
  { change (fs_get f (job_name (x_postfix x) :: x_dir x) = Some Dir) in H.
    unfold fs_mkdir. rewrite H. reflexivity. }
  unfold run_fs, save_job_data, mbind, get, set_x, on_fs.
  cbn [w_fs x_postfix x_dir]. rewrite E. split; reflexivity.
Qed.
Print Assumptions C20_second_start_refused.

(** ** End of a job *)
Theorem C20_end : forall f0 s pid now x s',
  good_fs f0 -> sys_reach any_event f0 s -> running s pid x ->
  sys_step s (SEnd pid now) = Some s' ->
  fs_get (y_fs s') (x_lock x) = None /\
  (fs_get (y_fs s) (of_string "time_end.txt" :: tl (x_lock x)) <> Some Dir ->
   fs_get (y_fs s') (of_string "time_end.txt" :: tl (x_lock x)) = Some (File now)) /\
  (forall q, q <> x_lock x -> q <> of_string "time_end.txt" :: tl (x_lock x) ->
     fs_get (y_fs s') q = fs_get (y_fs s) q) /\
  (forall y, ~ running s' pid y).
Proof.
  intros f0 s pid now x s' G H R E. pose proof (reach_inv _ _ G H) as I.
  destruct R as (l & R). cbn [sys_step] in E. rewrite R in E. injection E as <-. cbn [y_fs].
  destruct (inv_runs _ I pid x) as (S & F); [exists l; exact R|].
  destruct (inv_started _ I _ _ S) as (L & _ & _). destruct (lock_ok_hd _ L) as (Hh & Hn).
  destruct (release_spec now x (y_fs s) (inv_wf _ I) (or_introl F) Hn Hh) as (A & B & _ & _ & _ & D & _).
  split; [|split; [|split]].
  - unfold fs_exists in A. destruct (fs_get _ (x_lock x)); [discriminate|reflexivity].
  - intros ND. apply D; [|exact ND]. destruct F as (c & F). unfold fs_exists. rewrite F. reflexivity.
  - exact B.
  - intros y (l' & Q). cbn [y_procs] in Q. rewrite find_set in Q.
    destruct (chars_eq_dec pid pid); [discriminate|contradiction].
Qed.
Print Assumptions C20_end.

(** When the interpreter exits no lock of this process is left, and the locks of the other
    processes are untouched (first theorem). *)
Theorem C20_exit : forall f0 s pid now p s',
  good_fs f0 -> sys_reach any_event f0 s -> find_proc (y_procs s) pid = Some p ->
  sys_step s (SExit pid now) = Some s' ->
  forall x, In x (p_atexit p) \/ p_running p = Some x -> fs_get (y_fs s') (x_lock x) = None.
Proof.
  intros f0 s pid now p s' G H R E x Hx. pose proof (reach_inv _ _ G H) as I.
  cbn [sys_step] in E. rewrite R in E. injection E as <-. cbn [y_fs].
  assert (FL : Forall lock_ok (rev (p_atexit p))).
  { apply Forall_forall. intros y Hy. apply in_rev in Hy. apply (inv_started _ I pid y). exists p; split; assumption. }
  destruct (release_all_spec now (rev (p_atexit p)) (y_fs s) (inv_wf _ I) (inv_lockfile _ I) FL)
    as (_ & _ & _ & _ & A & _).
  assert (Hx' : In x (p_atexit p)).
  { destruct Hx as [Hx|Hx]; [exact Hx|]. destruct p as [r l]. cbn [p_running] in Hx. subst r.
    destruct (inv_runs _ I pid x) as ((p0 & P & Q) & _); [exists l; exact R|]. rewrite R in P. injection P as <-. exact Q. }
  specialize (A x). rewrite <- in_rev in A. specialize (A Hx'). unfold fs_exists in A.
  destruct (fs_get _ (x_lock x)); [discriminate|reflexivity].
Qed.
Print Assumptions C20_exit.

(** Releasing twice is harmless: the second release changes nothing at all. *)
Theorem C20_release_twice : forall now now' x f,
  good_fs f -> hd [] (x_lock x) = of_string "is_running.lock" -> x_lock x <> [] ->
  let f1 := snd (fst (run_fs (release_lock now) x f)) in
  let f2 := snd (fst (run_fs (release_lock now') x f1)) in
  fs_get f1 (x_lock x) = None /\ f2 = f1.
Proof.
  intros now now' x f (W & L) Hh Hn f1 f2.
  assert (Or : is_file f (x_lock x) \/ fs_exists f (x_lock x) = false).
  { unfold is_file, fs_exists. destruct (fs_get f (x_lock x)) as [[|c]|] eqn:E; [|left; eexists; reflexivity|right; reflexivity].
    exfalso. destruct (x_lock x) as [|a b]; [contradiction|]. cbn [hd] in Hh. subst a. exact (L b E). }
  destruct (release_spec now x f W Or Hn Hh) as (A & _ & W' & _).
  fold f1 in A, W'. split.
  - unfold fs_exists in A. destruct (fs_get f1 (x_lock x)); [discriminate|reflexivity].
  - apply (release_spec now' x f1 W' (or_intror A) Hn Hh). exact A.
Qed.
Print Assumptions C20_release_twice.

(** A job with nothing to do creates and removes no lock file, and does not run. *)
Theorem C20_nothing_to_do : forall f0 s multi dir time pid now params info s',
  good_fs f0 -> sys_reach any_event f0 s -> hd [] dir <> of_string "is_running.lock" ->
  sys_step s (SStart multi dir time pid now params info 0) = Some s' ->
  (forall d, fs_get (y_fs s') (of_string "is_running.lock" :: d) =
             fs_get (y_fs s) (of_string "is_running.lock" :: d)) /\
  (forall x, ~ running s' pid x).
Proof.
  intros f0 s multi dir time pid now params info s' G H Hd E. pose proof (reach_inv _ _ G H) as I.
  cbn [sys_step] in E.
  set (p := match find_proc (y_procs s) pid with Some p => p | None => mk_proc None [] end) in *.
  destruct (p_running p) eqn:ER; [discriminate|].
  destruct (start_job multi (y_fs s) dir time pid now params info 0) as [f r] eqn:ES.
  destruct (start_job_spec _ _ _ _ _ _ _ _ _ _ _ (inv_wf _ I) Hd ES) as (_ & Hs & Q & _).
  assert (NS : forall x, r <> Ok (Some x)).
  { intros x ->. destruct (Hs x eq_refl) as (N & _). apply N; reflexivity. }
  assert (s' = mk_sys f (set_proc (y_procs s) pid p)) as ->.
  { destruct r as [[x|]|e]; [elim (NS x eq_refl)|congruence|congruence]. }
  cbn [y_fs]. split.
  - intros d. apply Q; [reflexivity|]. intros x Hx. elim (NS x Hx).
  - intros x (l & F). cbn [y_procs] in F. rewrite find_set in F.
    destruct (chars_eq_dec pid pid); [|contradiction]. injection F as F. rewrite F in ER. discriminate.
Qed.
Print Assumptions C20_nothing_to_do.

(** ** What fails: a second execution in the same process and the same second *)

(** When the name of the job is already used (an earlier execution by the same process in the
    same second) the executors without log directory never start. *)
Theorem C20_same_second_refuted : forall f dir time pid now params info n,
  good_fs f -> hd [] dir <> of_string "is_running.lock" ->
  fs_get f dir = Some Dir ->
  fs_exists f ((of_string "job_" ++ time ++ of_string "_" ++ pid) :: dir) = true -> n <> O ->
  exists e, snd (start_job false f dir time pid now params info n) = Err e.
Proof.
  intros f dir time pid now params info n (W & _) Hd Dd Ex Hn.
  change (fs_exists f (job_name (time ++ of_string "_" ++ pid) :: dir) = true) in Ex.
  destruct (start_job false f dir time pid now params info n) as [f' r] eqn:ES. cbn [snd].
  destruct r as [[x|]|e]; [| |exists e; reflexivity]; exfalso.
  - revert ES. unfold start_job. unfold fs_mkdir at 1. rewrite Dd. cbn [bind].
    destruct (init_log_path_total f dir (time ++ of_string "_" ++ pid)) as (y & Ey). rewrite Ey.
    destruct (Nat.eqb n 0) eqn:En; [apply Nat.eqb_eq in En; contradiction|].
    apply init_log_path_ok in Ey. destruct Ey as (Yd & _ & Yl & Yf).
    destruct Yl as [(F & _)|(_ & _ & Yl)]; [congruence|].
    destruct (run_fs (save_job_data now params info) y f) as [[y' f3] [u|e]] eqn:ER; [|discriminate].
    intros _. destruct u.
    destruct (save_job_data_spec _ _ _ _ _ _ _ _ W (or_intror Yl) ER) as (_ & _ & _ & _ & _ & OkC & _).
    destruct (OkC eq_refl) as [(_ & _ & _ & P)|(_ & _ & _ & P)].
    + unfold fs_exists in Yf. rewrite P in Yf. discriminate.
    + rewrite Yl in P. discriminate.
  - revert ES. unfold start_job. unfold fs_mkdir at 1. rewrite Dd.
    destruct (init_log_path_total f dir (time ++ of_string "_" ++ pid)) as (y & Ey). rewrite Ey.
    destruct (Nat.eqb n 0) eqn:En; [apply Nat.eqb_eq in En; contradiction|].
    destruct (run_fs (save_job_data now params info) y f) as [[y' f3] [u|e]]; discriminate.
Qed.
Print Assumptions C20_same_second_refuted.

(** Concrete histories. *)
Definition ex_res : path := [of_string "res"].
Definition ex_fs0 : fs := [(ex_res, Dir)].
Definition ex_start (multi : bool) (pid : string) (n : nat) : sys_event :=
  SStart multi ex_res (of_string "2026-01-01_00-00-00") (of_string pid) (of_string "t") [] [] n.
Definition ex_run (l : list sys_event) : option sys :=
  fold_left (fun o e => match o with Some s => sys_step s e | None => None end) l
            (Some (mk_sys ex_fs0 [])).

Lemma ex_good : good_fs ex_fs0.
Proof.
  split.
  - intros p n H Hne. unfold ex_fs0, fs_get, fs_find in H. destruct p as [|a p]; [contradiction|].
    destruct (path_eq_dec ex_res (a :: p)) as [<-|]; [reflexivity|discriminate].
  - intros d. unfold fs_get, ex_fs0, fs_find. destruct path_eq_dec as [E|]; [discriminate E|discriminate].
Qed.

Lemma ex_reach_single l s : Forall single_event l -> ex_run l = Some s -> sys_reach single_event ex_fs0 s.
Proof.
  assert (A : forall l s0 s, sys_reach single_event ex_fs0 s0 -> Forall single_event l ->
    fold_left (fun o e => match o with Some s => sys_step s e | None => None end) l (Some s0) = Some s ->
    sys_reach single_event ex_fs0 s).
  { clear. induction l as [|e l IH]; intros s0 s H F; cbn [fold_left].
    - congruence.
    - inversion F as [|? ? He Fl]; subst. destruct (sys_step s0 e) as [s1|] eqn:E.
      + apply IH; [|exact Fl]. eapply sys_next; eassumption.
      + intros Q. exfalso. clear - Q. induction l; cbn in Q; [discriminate|auto]. }
  intros F E. eapply A; [constructor|exact F|exact E].
Qed.

(** two processes running at the same time: the hypotheses of the theorems are met *)
Example C20_example : exists s x x',
  sys_reach single_event ex_fs0 s /\ good_fs ex_fs0 /\
  running s (of_string "11") x /\ running s (of_string "12") x'.
Proof.
  destruct (ex_run [ex_start false "11" 3; ex_start false "12" 3]) as [s|] eqn:E;
    [|vm_compute in E; discriminate].
  exists s.
  assert (R : sys_reach single_event ex_fs0 s).
  { apply (ex_reach_single _ _) with (2 := E).
    repeat constructor; discriminate. }
  vm_compute in E. injection E as <-. do 2 eexists.
  split; [exact R|]. split; [apply ex_good|]. split; eexists; reflexivity.
Qed.

(** sequential executor twice in the same second: FileNotFoundError *)
Example C20_example_same_second :
  match ex_run [ex_start false "11" 3; SEnd (of_string "11") (of_string "t")] with
  | Some s => snd (start_job false (y_fs s) ex_res (of_string "2026-01-01_00-00-00") (of_string "11")
                             (of_string "t") [] [] 3) = Err FileNotFoundError
  | None => False
  end.
Proof. vm_compute. reflexivity. Qed.

(** For the executors with a log directory the second execution starts, but its lock file is
    not in the directory of the job. *)
Theorem C20_lock_outside_job_dir_refuted : exists s x,
  sys_reach any_event ex_fs0 s /\ running s (of_string "11") x /\
  fs_get (y_fs s) (of_string "is_running.lock" :: x_job x) = None.
Proof.
  destruct (ex_run [ex_start true "11" 3; SEnd (of_string "11") (of_string "t"); ex_start true "11" 3]) as [s|] eqn:E;
    [|vm_compute in E; discriminate].
  exists s. vm_compute in E. injection E as <-. eexists.
  split.
  - eapply sys_next with (e := ex_start true "11" 3);
      [eapply sys_next with (e := SEnd (of_string "11") (of_string "t"));
       [eapply sys_next with (e := ex_start true "11" 3); [constructor|discriminate|]|exact I|]|discriminate|].
    all: vm_compute; reflexivity.
  - split; [eexists; reflexivity|vm_compute; reflexivity].
Qed.
Print Assumptions C20_lock_outside_job_dir_refuted.

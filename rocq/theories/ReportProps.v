(** C115: the reports of the works which fail. *)
From Verif Require Import PyBase StrModel FsModel FsProofs ReportModel.
Open Scope Z_scope.

(** ** Specification *)

(** The file of the report of a work for a key *)
Definition report_name (work_name key : chars) : chars :=
  of_string "exception_" ++ work_name ++ of_string "_" ++ key ++ of_string ".txt".

(** Its content *)
Definition content (work_name key traceback : chars) : chars :=
  (of_string "Exception for work " ++ work_name ++ of_string ", key " ++ key ++ of_string ":") ++ newline :: traceback.

(** Before the execution there is nothing in the directory of the reports, which may not exist yet; its parent exists. *)
Definition clean (f : fs) (dir : path) : Prop :=
  dir <> [] /\ fs_get f (parent dir) = Some Dir /\ (fs_get f dir = None \/ fs_get f dir = Some Dir) /\
  forall p, p <> [] -> fs_get f (p ++ dir) = None.

(** No report of a work can have the file of a report of another one. *)
Definition is_prefix (a b : chars) : Prop := exists c, b = a ++ c.
Definition separable (w1 w2 : chars) : Prop :=
  ~ is_prefix (w1 ++ of_string "_") (w2 ++ of_string "_") /\ ~ is_prefix (w2 ++ of_string "_") (w1 ++ of_string "_").

(** ** Paths *)

Lemma split_on_no c s : ~ In c s -> split_on c s = [s].
Proof.
  induction s as [|x s IH]; intros H; [reflexivity|]. cbn in H |- *.
  destruct (Ascii.eqb_spec x c) as [->|Hx]; [tauto|]. rewrite IH by tauto. reflexivity.
Qed.
Lemma split_on_first c a b : ~ In c a -> split_on c (a ++ c :: b) = a :: split_on c b.
Proof.
  induction a as [|x a IH]; intros H; cbn.
  - rewrite Ascii.eqb_refl. reflexivity.
  - cbn in H. destruct (Ascii.eqb_spec x c) as [->|Hx]; [tauto|]. rewrite IH by tauto. reflexivity.
Qed.
Lemma split_on_last c s t : ~ In c t -> t <> [] -> exists l x, split_on c (s ++ t) = l ++ [x ++ t].
Proof.
  intros Ht Hn. induction s as [|x s (l & y & IH)]; cbn.
  - exists [], []. apply split_on_no. exact Ht.
  - rewrite IH. destruct (Ascii.eqb x c); [exists ([] :: l), y; reflexivity|].
    destruct l as [|a l]; cbn; [exists [], (x :: y)|exists ((x :: a) :: l), y]; reflexivity.
Qed.
Lemma slash_first (s : chars) : In slash s -> exists a b, s = a ++ slash :: b /\ ~ In slash a.
Proof.
  induction s as [|x s IH]; intros H; [destruct H|].
  destruct (ascii_dec x slash) as [->|Hx]; [exists [], s; split; [reflexivity|intros []]|].
  destruct H as [H|H]; [congruence|]. destruct (IH H) as (a & b & -> & Ha). exists (x :: a), b. split; [reflexivity|].
  intros [H'|H']; [congruence|tauto].
Qed.

Lemma report_name_slash w k : In slash (report_name w k) <-> In slash w \/ In slash k.
Proof.
  unfold report_name. rewrite !in_app_iff. cbn. intuition discriminate.
Qed.
Lemma path_log_plain dir w k : ~ In slash w -> ~ In slash k -> path_log dir w k = report_name w k :: dir.
Proof.
  intros Hw Hk. unfold path_log, path_div. fold (report_name w k). rewrite split_on_no by (rewrite report_name_slash; tauto).
  cbn [filter]. destruct (chars_eq_dec (report_name w k) []) as [E|_]; [discriminate E|].
  destruct (chars_eq_dec (report_name w k) (of_string ".")) as [E|_]; [discriminate E|]. reflexivity.
Qed.
Lemma path_log_slash dir w k : In slash w \/ In slash k ->
  exists z m, m <> [] /\ path_log dir w k = z :: m ++ dir.
Proof.
  intros H. unfold path_log, path_div. fold (report_name w k).
  set (t := of_string ".txt"). set (b := of_string "exception_").
  assert (E : report_name w k = b ++ (w ++ of_string "_" ++ k) ++ t) by (unfold report_name; rewrite <- !app_assoc; reflexivity).
  assert (Hs : In slash (w ++ of_string "_" ++ k)) by (rewrite !in_app_iff; tauto).
  destruct (slash_first _ Hs) as (a & c & Ea & Ha). rewrite E, Ea.
  replace (b ++ (a ++ slash :: c) ++ t) with ((b ++ a) ++ slash :: (c ++ t)) by (rewrite <- !app_assoc; reflexivity).
  rewrite split_on_first by (rewrite in_app_iff; intros [Hb|Hb]; [cbn in Hb; intuition discriminate|tauto]).
  destruct (split_on_last slash c t) as (l & x & ->); [cbn; intuition discriminate|discriminate|].
  cbn [filter]. destruct (chars_eq_dec (b ++ a) []) as [F|_]; [discriminate F|].
  destruct (chars_eq_dec (b ++ a) (of_string ".")) as [F|_]; [discriminate F|]. cbn [negb].
  rewrite filter_app. cbn [filter].
  destruct (chars_eq_dec (x ++ t) []) as [F|_]; [destruct x; discriminate F|].
  destruct (chars_eq_dec (x ++ t) (of_string ".")) as [F|_]; [apply (f_equal (@List.length _)) in F; rewrite app_length in F; cbn in F; lia|].
  cbn [negb]. rewrite app_comm_cons, rev_app_distr. cbn [rev app].
  eexists _, _. split; [|reflexivity]. intros F. apply app_eq_nil in F. destruct F; discriminate.
Qed.

(** ** The state of the files after some reports *)

Definition failure : Type := chars * chars * chars. (* work, key, traceback *)

(** [f] is [f0] with the reports of [L] (the last one for each name) *)
Definition reports (f0 : fs) (dir : path) (L : list failure) (f : fs) : Prop :=
  (forall w k tb L1 L2, L = L1 ++ (w, k, tb) :: L2 ->
     (forall w' k' tb', In (w', k', tb') L2 -> report_name w' k' <> report_name w k) ->
     fs_get f (report_name w k :: dir) = Some (File (content w k tb))) /\
  (forall p, (forall w k tb, In (w, k, tb) L -> p <> report_name w k :: dir) -> p <> dir -> fs_get f p = fs_get f0 p) /\
  fs_get f dir = (match L with [] => fs_get f0 dir | _ => Some Dir end).

Lemma last_with (L : list failure) n : (exists w k tb, In (w, k, tb) L /\ report_name w k = n) ->
  exists w k tb L1 L2, L = L1 ++ (w, k, tb) :: L2 /\ report_name w k = n /\
    forall w' k' tb', In (w', k', tb') L2 -> report_name w' k' <> report_name w k.
Proof.
  induction L as [|[[w k] tb] L IH]; intros (w0 & k0 & tb0 & Hin & Hn); [destruct Hin|].
  assert (D : (exists w k tb, In (w, k, tb) L /\ report_name w k = n) \/ ~ (exists w k tb, In (w, k, tb) L /\ report_name w k = n)).
  { clear. induction L as [|[[w k] tb] L IH]; [right; intros (? & ? & ? & [] & _)|].
    destruct (chars_eq_dec (report_name w k) n) as [E|E]; [left; exists w, k, tb; split; [left; reflexivity|exact E]|].
    destruct IH as [(w' & k' & tb' & Hi & E')|H]; [left; exists w', k', tb'; split; [right; exact Hi|exact E']|].
    right. intros (w' & k' & tb' & [Hi|Hi] & E'); [injection Hi as <- <- <-; contradiction|].
    apply H. exists w', k', tb'. split; assumption. }
  destruct D as [D|D].
  - destruct (IH D) as (w1 & k1 & tb1 & L1 & L2 & -> & E & F). exists w1, k1, tb1, ((w, k, tb) :: L1), L2.
    split; [reflexivity|]. split; assumption.
  - destruct Hin as [Hin|Hin]; [|exfalso; apply D; exists w0, k0, tb0; split; assumption].
    injection Hin as <- <- <-. exists w, k, tb, [], L. split; [reflexivity|]. split; [exact Hn|].
    intros w' k' tb' Hi E. apply D. exists w', k', tb'. split; [exact Hi|congruence].
Qed.

Lemma reports_under f0 dir L f n : clean f0 dir -> reports f0 dir L f ->
  fs_get f (n :: dir) = None \/ exists c, fs_get f (n :: dir) = Some (File c).
Proof.
  intros (D0 & D1 & D2 & D3) (R1 & R2 & R3).
  destruct (in_dec chars_eq_dec n (map (fun '(w, k, _) => report_name w k) L)) as [Hi|Hi].
  - apply in_map_iff in Hi. destruct Hi as ([[w k] tb] & <- & Hi).
    destruct (last_with L (report_name w k)) as (w1 & k1 & tb1 & L1 & L2 & E & En & F); [exists w, k, tb; split; [exact Hi|reflexivity]|].
    right. rewrite <- En. eexists. apply (R1 _ _ _ _ _ E F).
  - left. rewrite R2; [apply (D3 [n]); discriminate| |].
    + intros w k tb H E. injection E as ->. apply Hi, in_map_iff. exists (w, k, tb). split; [reflexivity|exact H].
    + intros E. apply (f_equal (@List.length _)) in E. cbn in E. lia.
Qed.
Lemma reports_deep f0 dir L f z m : clean f0 dir -> reports f0 dir L f -> m <> [] -> fs_get f (z :: m ++ dir) = None.
Proof.
  intros (D0 & D1 & D2 & D3) (R1 & R2 & R3) Hm. rewrite R2; [apply (D3 (z :: m)); discriminate| |].
  - intros w k tb _ E. apply (f_equal (@List.length _)) in E. cbn in E. rewrite app_length in E. destruct m; [congruence|]. cbn in E. lia.
  - intros E. apply (f_equal (@List.length _)) in E. cbn in E. rewrite app_length in E. lia.
Qed.
Lemma reports_mkdir f0 dir L f : clean f0 dir -> reports f0 dir L f ->
  exists f1, fs_mkdir f dir true = Ok f1 /\ fs_get f1 dir = Some Dir /\ forall q, q <> dir -> fs_get f1 q = fs_get f q.
Proof.
  intros (D0 & D1 & D2 & D3) (R1 & R2 & R3).
  assert (P : fs_get f (parent dir) = Some Dir).
  { rewrite R2; [exact D1| |].
    - intros w k tb _ E. apply (f_equal (@List.length _)) in E. unfold parent in E. destruct dir; [congruence|]. cbn in E. lia.
    - intros E. apply (f_equal (@List.length _)) in E. unfold parent in E. destruct dir; [congruence|]. cbn in E. lia. }
  assert (exists f1, fs_mkdir f dir true = Ok f1) as (f1 & E1).
  { unfold fs_mkdir. rewrite P. assert (fs_get f dir = None \/ fs_get f dir = Some Dir) as [-> | ->]; [|eexists; reflexivity|eexists; reflexivity].
    rewrite R3. destruct L; [exact D2|right; reflexivity]. }
  exists f1. split; [exact E1|]. apply (fs_mkdir_ok _ _ _ _ E1).
Qed.

Lemma log_plain f0 dir L f w k tb : clean f0 dir -> reports f0 dir L f -> ~ In slash w -> ~ In slash k ->
  exists f', log_exception f dir w k tb = (f', None) /\ reports f0 dir (L ++ [(w, k, tb)]) f'.
Proof.
  intros HC HR Hw Hk. destruct (reports_mkdir _ _ _ _ HC HR) as (f1 & E1 & M1 & M2).
  unfold log_exception. replace (report_text w k tb) with (content w k tb) by (unfold content; rewrite <- !app_assoc; reflexivity). rewrite E1, path_log_plain by assumption. set (n := report_name w k).
  assert (ND : n :: dir <> dir) by (intros E; apply (f_equal (@List.length _)) in E; cbn in E; lia).
  assert (exists f2, fs_write f1 (n :: dir) (content w k tb) = Ok f2) as (f2 & E2).
  { unfold fs_write. cbn [parent tl]. rewrite M1, (M2 _ ND).
    destruct (reports_under _ _ _ _ n HC HR) as [-> | (c & ->)]; eexists; reflexivity. }
  rewrite E2. exists f2. split; [reflexivity|]. destruct (fs_write_ok _ _ _ _ E2) as (W1 & W2).
  destruct HR as (R1 & R2 & R3). split; [|split].
  - intros w' k' tb' L1 L2 E F. destruct L2 as [|x L2].
    + apply app_inj_tail in E. destruct E as (-> & E). injection E as <- <- <-. exact W1.
    + destruct (exists_last (l := x :: L2)) as (L3 & y & Ey); [discriminate|]. rewrite Ey in E, F.
      rewrite app_comm_cons, app_assoc in E. apply app_inj_tail in E. destruct E as (E & <-).
      rewrite W2, M2.
      * apply (R1 _ _ _ _ _ E). intros w1 k1 tb1 H1. apply (F w1 k1 tb1). apply in_or_app. left. exact H1.
      * intros E'. apply (f_equal (@List.length _)) in E'. cbn in E'. lia.
      * intros E'. apply (F w k tb); [apply in_or_app; right; left; reflexivity|]. symmetry. exact (f_equal (hd []) E').
  - intros p Hp Hd. rewrite W2, M2 by (try exact Hd; apply (Hp w k tb), in_or_app; right; left; reflexivity).
    apply R2; [|exact Hd]. intros w1 k1 tb1 H1. apply (Hp w1 k1 tb1), in_or_app. left. exact H1.
  - rewrite W2 by (intros E; symmetry in E; contradiction). rewrite M1. destruct L; reflexivity.
Qed.
Lemma log_slash f0 dir L f w k tb : clean f0 dir -> reports f0 dir L f -> In slash w \/ In slash k ->
  exists f', log_exception f dir w k tb = (f', Some FileNotFoundError).
Proof.
  intros HC HR H. destruct (reports_mkdir _ _ _ _ HC HR) as (f1 & E1 & M1 & M2).
  unfold log_exception. rewrite E1. destruct (path_log_slash dir w k H) as (z & m & Hm & ->).
  assert (N : forall p, p <> [] -> p ++ dir <> dir).
  { intros p Hp E. apply (f_equal (@List.length _)) in E. rewrite app_length in E. destruct p; [congruence|]. cbn in E. lia. }
  unfold fs_write. cbn [parent tl]. rewrite (M2 (z :: m ++ dir)) by (apply (N (z :: m)); discriminate).
  rewrite (reports_deep _ _ _ _ z m HC HR Hm). rewrite M2 by (apply N; exact Hm).
  destruct m as [|a [|b m]]; [congruence| |].
  - cbn [app]. destruct (reports_under _ _ _ _ a HC HR) as [-> | (c & ->)]; eexists; reflexivity.
  - assert (G : fs_get f ((a :: b :: m) ++ dir) = None) by (apply (reports_deep _ _ _ _ a (b :: m) HC HR); discriminate).
    rewrite G. eexists; reflexivity.
Qed.
Lemma reports_nil f0 dir : reports f0 dir [] f0.
Proof. split; [intros w k tb [|] L2 E; discriminate|]. split; reflexivity. Qed.

(** ** Theorems on the files *)

(** Any list of failures of works and keys without slash, in any order (that of the processes which share the directory, for
    example): each failure has its report, with the names of the work and of the key, except those the file of which
    is also the one of a later failure; nothing else is written. *)
Fixpoint log_all (f : fs) (dir : path) (L : list failure) : fs * option exn :=
  match L with
  | [] => (f, None)
  | (w, k, tb) :: L' => match log_exception f dir w k tb with (f', None) => log_all f' dir L' | (f', Some e) => (f', Some e) end
  end.
Theorem C115_history f0 dir L : clean f0 dir ->
  (forall w k tb, In (w, k, tb) L -> ~ In slash w /\ ~ In slash k) ->
  exists f, log_all f0 dir L = (f, None) /\
  (forall w k tb L1 L2, L = L1 ++ (w, k, tb) :: L2 ->
     (forall w' k' tb', In (w', k', tb') L2 -> report_name w' k' <> report_name w k) ->
     fs_get f (report_name w k :: dir) = Some (File (content w k tb))) /\
  (forall p, (forall w k tb, In (w, k, tb) L -> p <> report_name w k :: dir) -> p <> dir -> fs_get f p = fs_get f0 p).
Proof.
  intros HC HS.
  enough (G : forall L1 f, reports f0 dir L1 f -> exists f', log_all f dir L = (f', None) /\ reports f0 dir (L1 ++ L) f').
  { destruct (G [] f0 (reports_nil f0 dir)) as (f & E & R1 & R2 & _). exists f. split; [exact E|]. split; assumption. }
  induction L as [|[[w k] tb] L IH]; intros L1 f HR; cbn [log_all].
  - exists f. rewrite app_nil_r. split; [reflexivity|exact HR].
  - destruct (HS w k tb (or_introl eq_refl)) as (Hw & Hk).
    destruct (log_plain _ _ _ _ w k tb HC HR Hw Hk) as (f1 & -> & HR1).
    destruct (IH (fun w0 k0 tb0 H => HS w0 k0 tb0 (or_intror H)) _ _ HR1) as (f2 & E & HR2).
    exists f2. split; [exact E|]. rewrite <- app_assoc in HR2. exact HR2.
Qed.

(** Two works can have the same file for some keys exactly if they are not separable. *)
Theorem C115_separable_iff w1 w2 :
  separable w1 w2 <-> forall k1 k2, report_name w1 k1 <> report_name w2 k2.
Proof.
  assert (N : forall w k, report_name w k = of_string "exception_" ++ ((w ++ of_string "_") ++ k) ++ of_string ".txt").
  { intros w k. unfold report_name. rewrite <- !app_assoc. reflexivity. }
  split.
  - intros (H1 & H2) k1 k2 E. rewrite !N in E. apply app_inv_head, app_inv_tail in E.
    apply app_eq_app in E. destruct E as (l & [(E1 & E2) | (E1 & E2)]); [apply H2|apply H1]; exists l; exact E1.
  - intros H. split; intros (c & E).
    + apply (H c []). rewrite !N, E, app_nil_r. reflexivity.
    + apply (H [] c). rewrite !N, E, app_nil_r. reflexivity.
Qed.
Lemma report_key w k1 k2 : report_name w k1 = report_name w k2 -> k1 = k2.
Proof.
  unfold report_name. intros E. do 3 apply app_inv_head in E. apply app_inv_tail in E. exact E.
Qed.

(** ** The execution *)

Section Run.
Variable V : Type.
Notation work := (work V). Notation state := (state V).
Variable ws : list work.
Variable items : list (chars * V).

(** The value of the item (k, v0) before the work number i, and its failure in the work number j *)
Inductive reached (k : chars) (v0 : V) : nat -> V -> Prop :=
| reached_0 : reached k v0 O v0
| reached_S i v w v' : reached k v0 i v -> nth_error ws i = Some w -> w_func _ w k v = inl v' -> reached k v0 (S i) v'.
Definition fails_at (k : chars) (v0 : V) (j : nat) (e : exn) (tb : chars) : Prop :=
  exists w v, reached k v0 j v /\ nth_error ws j = Some w /\ w_func _ w k v = inr (e, tb).
(** The failure of an item in the work called w *)
Definition fails_in (k : chars) (w : chars) (e : exn) (tb : chars) : Prop :=
  exists v0 j wk, In (k, v0) items /\ fails_at k v0 j e tb /\ nth_error ws j = Some wk /\ w = name_no_space (w_name _ wk).
(** All the works have an output queue, except maybe the last one. *)
Definition chained : Prop := forall i w, nth_error ws i = Some w -> (S i < List.length ws)%nat -> w_out _ w = true.
(** Nothing remains to be done. *)
Definition finished (s : state) : Prop := forall i, (i < List.length ws)%nat -> s_queues _ s i = [].

Lemma reached_fun k v0 i v1 v2 : reached k v0 i v1 -> reached k v0 i v2 -> v1 = v2.
Proof.
  intros H. revert v2. induction H as [|i v w v' H IH Hw Hf]; intros v2 H2.
  - inversion H2; reflexivity.
  - inversion H2; subst. rewrite Hw in H3. injection H3 as <-. rewrite (IH _ H1) in Hf. congruence.
Qed.
Lemma reached_le k v0 i v : reached k v0 i v -> forall j, (j <= i)%nat -> exists v', reached k v0 j v'.
Proof.
  induction 1 as [|i v w v' H IH Hw Hf]; intros j Hj.
  - assert (j = O) as -> by lia. exists v0. constructor.
  - destruct (Nat.eq_dec j (S i)) as [->|N]; [exists v'; econstructor; eassumption|apply IH; lia].
Qed.
Lemma fails_blocks k v0 j e tb i v : fails_at k v0 j e tb -> reached k v0 i v -> (i <= j)%nat.
Proof.
  intros (w & u & R & Hw & Hf) H. destruct (le_lt_dec i j) as [|L]; [assumption|exfalso].
  destruct (reached_le _ _ _ _ H (S j) L) as (v' & R'). inversion R'; subst. rewrite Hw in H2. injection H2 as <-.
  rewrite (reached_fun _ _ _ _ _ H1 R) in H3. congruence.
Qed.
Lemma fails_fun k v0 j1 e1 tb1 j2 e2 tb2 : fails_at k v0 j1 e1 tb1 -> fails_at k v0 j2 e2 tb2 -> j1 = j2 /\ e1 = e2 /\ tb1 = tb2.
Proof.
  intros F1 F2. pose proof F1 as (w1 & v1 & R1 & W1 & G1). pose proof F2 as (w2 & v2 & R2 & W2 & G2).
  pose proof (fails_blocks _ _ _ _ _ _ _ F1 R2). pose proof (fails_blocks _ _ _ _ _ _ _ F2 R1).
  assert (j1 = j2) as -> by lia. rewrite W1 in W2. injection W2 as <-. rewrite (reached_fun _ _ _ _ _ R1 R2) in G1.
  rewrite G1 in G2. injection G2 as <- <-. repeat split.
Qed.

Lemma put_in w qs i key obj q ret : qs i = (key, obj) :: q ->
  (forall j x, In x (put V w (set_queue V qs i q) i key ret j) -> In x (qs j) \/ (j = S i /\ x = (key, ret))) /\
  (forall j x, In x (qs j) -> In x (put V w (set_queue V qs i q) i key ret j) \/ (j = i /\ x = (key, obj))) /\
  (w_out _ w = true -> In (key, ret) (put V w (set_queue V qs i q) i key ret (S i))).
Proof.
  intros E. unfold put, set_queue. destruct (w_out _ w).
  - replace (Nat.eqb (S i) i) with false by (symmetry; apply Nat.eqb_neq; lia). split; [|split].
    + intros j x. destruct (Nat.eqb_spec j (S i)) as [->|N1].
      * intros H. apply in_app_or in H. destruct H as [H|[H|[]]]; [left; exact H|right; split; [reflexivity|congruence]].
      * destruct (Nat.eqb_spec j i) as [->|N2]; [rewrite E; intros H; left; right; exact H|intros H; left; exact H].
    + intros j x H. destruct (Nat.eqb_spec j (S i)) as [->|N1]; [left; apply in_or_app; left; exact H|].
      destruct (Nat.eqb_spec j i) as [->|N2]; [|left; exact H]. rewrite E in H. destruct H as [H|H]; [right; split; [reflexivity|congruence]|left; exact H].
    + intros _. rewrite Nat.eqb_refl. apply in_or_app. right. left. reflexivity.
  - split; [|split; [|discriminate]].
    + intros j x. destruct (Nat.eqb_spec j i) as [->|N2]; [rewrite E; intros H; left; right; exact H|intros H; left; exact H].
    + intros j x H. destruct (Nat.eqb_spec j i) as [->|N2]; [|left; exact H].
      rewrite E in H. destruct H as [H|H]; [right; split; [reflexivity|congruence]|left; exact H].
Qed.

Variable f0 : fs.
Variable dir : path.

Record inv (s : state) (L : list failure) : Prop := {
  i_rep : reports f0 dir L (s_fs _ s);
  i_val : forall i k v, In (k, inl v) (s_queues _ s i) -> exists v0, In (k, v0) items /\ reached k v0 i v;
  i_exn : forall i k e, In (k, inr e) (s_queues _ s i) -> exists v0 j tb, In (k, v0) items /\ (j < i)%nat /\ fails_at k v0 j e tb;
  i_L : forall w k tb, In (w, k, tb) L -> ~ In slash w /\ ~ In slash k /\ exists e, fails_in k w e tb;
  i_all : forall k v0, In (k, v0) items ->
    (exists i v, reached k v0 i v /\ ((i < List.length ws)%nat -> In (k, inl v) (s_queues _ s i))) \/
    (exists j e tb wk i, fails_at k v0 j e tb /\ nth_error ws j = Some wk /\ In (name_no_space (w_name _ wk), k, tb) L /\
       (j < i <= List.length ws)%nat /\ ((i < List.length ws)%nat -> In (k, inr e) (s_queues _ s i)) /\
       (i = List.length ws -> S j = i \/
          forall wl, nth_error ws (pred i) = Some wl -> w_out _ wl = false -> In (name_no_space (w_name _ wl), k) (s_msgs _ s)));
  i_msg : forall w k, In (w, k) (s_msgs _ s) -> exists v0 j e tb wl, In (k, v0) items /\ fails_at k v0 j e tb /\
    (S j < List.length ws)%nat /\ nth_error ws (pred (List.length ws)) = Some wl /\ w_out _ wl = false /\ w = name_no_space (w_name _ wl)
}.

Lemma inv_init : inv (init V f0 items) [].
Proof.
  constructor; cbn.
  - apply reports_nil.
  - intros [|i] k v H; [|destruct H]. apply in_map_iff in H. destruct H as ([k' v'] & E & H). injection E as <- <-.
    exists v'. split; [exact H|constructor].
  - intros [|i] k e H; [|destruct H]. apply in_map_iff in H. destruct H as ([k' v'] & E & H). discriminate.
  - intros w k tb [].
  - intros k v0 H. left. exists O, v0. split; [constructor|]. intros _. apply in_map_iff. exists (k, v0). split; [reflexivity|exact H].
  - intros w k [].
Qed.

Lemma reached_lt k v0 i v : reached k v0 i v -> (i <= List.length ws)%nat.
Proof.
  destruct 1 as [|i v w v' H Hw Hf]; [lia|]. assert (i < List.length ws)%nat by (apply nth_error_Some; congruence). lia.
Qed.

Lemma inv_step s L i : chained -> clean f0 dir -> inv s L ->
  match step V false dir ws s i with
  | (s', None) => exists L', inv s' L'
  | (s', Some e) => e = FileNotFoundError /\ exists k w e tb, fails_in k w e tb /\ (In slash w \/ In slash k)
  end.
Proof.
  intros HO HC HI. unfold step.
  destruct (nth_error ws i) as [w|] eqn:Ew; [|exists L; exact HI].
  destruct (s_queues _ s i) as [|[key obj] q] eqn:Eq; [exists L; exact HI|].
  assert (Hi : (i < List.length ws)%nat) by (apply nth_error_Some; congruence).
  destruct obj as [v|e].
  - destruct (i_val _ _ HI i key v) as (v0 & Hin & HR); [rewrite Eq; left; reflexivity|].
    destruct (w_func _ w key v) as [ret|[error tb]] eqn:Ef.
    + (* success *)
      destruct (put_in w _ i key (inl v) q (inl ret) Eq) as (P1 & P2 & P3).
      exists L. constructor; cbn [s_fs s_queues s_msgs].
      * apply (i_rep _ _ HI).
      * intros j k u H. destruct (P1 _ _ H) as [H'|(-> & H')]; [apply (i_val _ _ HI _ _ _ H')|].
        injection H' as -> ->. exists v0. split; [exact Hin|]. econstructor; eassumption.
      * intros j k e H. destruct (P1 _ _ H) as [H'|(-> & H')]; [apply (i_exn _ _ HI _ _ _ H')|discriminate].
      * apply (i_L _ _ HI).
      * intros k u0 Hk. destruct (i_all _ _ HI k u0 Hk) as [(i0 & u & R & Q)|(j & e & tb & wk & i0 & F & Hj & HL & Hl & Q & M)].
        -- left. destruct (lt_dec i0 (List.length ws)) as [Hlt|Hge]; [|exists i0, u; split; [exact R|lia]].
           destruct (P2 _ _ (Q Hlt)) as [Q'|(-> & Q')]; [exists i0, u; split; [exact R|intros _; exact Q']|].
           injection Q' as -> ->. exists (S i), ret. split; [econstructor; eassumption|]. intros Hs. apply P3, (HO i w Ew Hs).
        -- right. exists j, e, tb, wk, i0. repeat (split; [assumption|]). split; [|exact M].
           intros Hlt. destruct (P2 _ _ (Q Hlt)) as [Q'|(_ & Q')]; [exact Q'|discriminate].
      * apply (i_msg _ _ HI).
    + (* failure *)
      assert (HF : fails_at key v0 i error tb) by (exists w, v; repeat split; assumption).
      assert (HFI : fails_in key (name_no_space (w_name _ w)) error tb) by (exists v0, i, w; repeat split; assumption).
      destruct (in_dec ascii_dec slash (name_no_space (w_name _ w))) as [Sw|Sw];
        [|destruct (in_dec ascii_dec slash key) as [Sk|Sk]].
      * destruct (log_slash _ _ _ _ (name_no_space (w_name _ w)) key tb HC (i_rep _ _ HI) (or_introl Sw)) as (f' & ->).
        split; [reflexivity|]. exists key, (name_no_space (w_name _ w)), error, tb. split; [exact HFI|left; exact Sw].
      * destruct (log_slash _ _ _ _ (name_no_space (w_name _ w)) key tb HC (i_rep _ _ HI) (or_intror Sk)) as (f' & ->).
        split; [reflexivity|]. exists key, (name_no_space (w_name _ w)), error, tb. split; [exact HFI|right; exact Sk].
      * destruct (log_plain _ _ _ _ (name_no_space (w_name _ w)) key tb HC (i_rep _ _ HI) Sw Sk) as (f' & -> & HR').
        destruct (put_in w _ i key (inl v) q (inr error) Eq) as (P1 & P2 & P3).
        eexists. constructor; cbn [s_fs s_queues s_msgs].
        -- exact HR'.
        -- intros j k u H. destruct (P1 _ _ H) as [H'|(-> & H')]; [apply (i_val _ _ HI _ _ _ H')|discriminate].
        -- intros j k e H. destruct (P1 _ _ H) as [H'|(-> & H')]; [apply (i_exn _ _ HI _ _ _ H')|].
           injection H' as -> ->. exists v0, i, tb. split; [exact Hin|]. split; [lia|exact HF].
        -- intros w' k tb' H. apply in_app_or in H. destruct H as [H|[H|[]]]; [apply (i_L _ _ HI _ _ _ H)|].
           injection H as <- <- <-. split; [exact Sw|]. split; [exact Sk|]. exists error. exact HFI.
        -- intros k u0 Hk. destruct (i_all _ _ HI k u0 Hk) as [(i0 & u & R & Q)|(j & e & tb' & wk & i0 & F & Hj & HL & Hl & Q & M)].
           ++ destruct (lt_dec i0 (List.length ws)) as [Hlt|Hge]; [|left; exists i0, u; split; [exact R|lia]].
              destruct (P2 _ _ (Q Hlt)) as [Q'|(-> & Q')]; [left; exists i0, u; split; [exact R|intros _; exact Q']|].
              injection Q' as -> ->. right. exists i, error, tb, w, (S i).
              split; [exists w, v; repeat split; assumption|]. split; [exact Ew|].
              split; [apply in_or_app; right; left; reflexivity|]. split; [lia|].
              split; [intros Hs; apply P3, (HO i w Ew Hs)|]. intros _. left. reflexivity.
           ++ right. exists j, e, tb', wk, i0. split; [exact F|]. split; [exact Hj|]. split; [apply in_or_app; left; exact HL|].
              split; [exact Hl|]. split; [|exact M].
              intros Hlt. destruct (P2 _ _ (Q Hlt)) as [Q'|(_ & Q')]; [exact Q'|discriminate].
        -- apply (i_msg _ _ HI).
  - (* an exception of a previous work *)
    destruct (i_exn _ _ HI i key e) as (v0 & j0 & tb0 & Hin & Hj0 & HF); [rewrite Eq; left; reflexivity|].
    destruct (put_in w _ i key (inr e) q (inr e) Eq) as (P1 & P2 & P3).
    exists L. constructor; cbn [s_fs s_queues s_msgs].
    + apply (i_rep _ _ HI).
    + intros j k u H. destruct (P1 _ _ H) as [H'|(-> & H')]; [apply (i_val _ _ HI _ _ _ H')|discriminate].
    + intros j k e' H. destruct (P1 _ _ H) as [H'|(-> & H')]; [apply (i_exn _ _ HI _ _ _ H')|].
      injection H' as -> ->. exists v0, j0, tb0. split; [exact Hin|]. split; [lia|exact HF].
    + apply (i_L _ _ HI).
    + intros k u0 Hk. destruct (i_all _ _ HI k u0 Hk) as [(i0 & u & R & Q)|(j & e' & tb' & wk & i0 & F & Hj & HL & Hl & Q & M)].
      * left. exists i0, u. split; [exact R|]. intros Hlt. destruct (P2 _ _ (Q Hlt)) as [Q'|(_ & Q')]; [exact Q'|discriminate].
      * right. destruct (lt_dec i0 (List.length ws)) as [Hlt|Hge].
        -- destruct (P2 _ _ (Q Hlt)) as [Q'|(-> & Q')].
           ++ exists j, e', tb', wk, i0. split; [exact F|]. split; [exact Hj|]. split; [exact HL|]. split; [exact Hl|].
              split; [intros _; exact Q'|]. intros; lia.
           ++ injection Q' as -> ->. exists j, e, tb', wk, (S i). split; [exact F|]. split; [exact Hj|]. split; [exact HL|].
              split; [lia|]. split; [intros Hs; apply P3, (HO i w Ew Hs)|].
              intros _. right. intros wl Hwl Ho. cbn [pred] in Hwl. rewrite Ew in Hwl. injection Hwl as <-. rewrite Ho.
              apply in_or_app. right. left. reflexivity.
        -- exists j, e', tb', wk, i0. split; [exact F|]. split; [exact Hj|]. split; [exact HL|]. split; [exact Hl|].
           split; [intros; lia|]. intros E. destruct (M E) as [M'|M']; [left; exact M'|right].
           intros wl Hwl Ho. specialize (M' wl Hwl Ho). destruct (w_out _ w); [exact M'|apply in_or_app; left; exact M'].
    + intros w' k H. destruct (w_out _ w) eqn:Eo; [apply (i_msg _ _ HI _ _ H)|].
      apply in_app_or in H. destruct H as [H|[H|[]]]; [apply (i_msg _ _ HI _ _ H)|]. injection H as <- <-.
      assert (S i = List.length ws) as En.
      { destruct (Nat.eq_dec (S i) (List.length ws)); [assumption|]. rewrite (HO i w Ew) in Eo by lia. discriminate. }
      exists v0, j0, e, tb0, w. split; [exact Hin|]. split; [exact HF|]. split; [lia|].
      rewrite <- En. cbn [pred]. split; [exact Ew|]. split; [exact Eo|reflexivity].
Qed.

Lemma inv_run schedule s L : chained -> clean f0 dir -> inv s L ->
  match run V false dir ws s schedule with
  | (s', None) => exists L', inv s' L'
  | (s', Some e) => e = FileNotFoundError /\ exists k w e tb, fails_in k w e tb /\ (In slash w \/ In slash k)
  end.
Proof.
  intros HO HC. revert s L. induction schedule as [|i sch IH]; intros s L HI; cbn [run]; [exists L; exact HI|].
  pose proof (inv_step s L i HO HC HI) as H. destruct (step V false dir ws s i) as [s' [e|]]; [exact H|].
  destruct H as (L' & HI'). apply (IH _ _ HI').
Qed.

Definition name_of (w : work) : chars := name_no_space (w_name _ w).
Definition all_separable : Prop := forall i j w1 w2, nth_error ws i = Some w1 -> nth_error ws j = Some w2 -> i <> j ->
  separable (name_of w1) (name_of w2).

Lemma inv_finished s L k w e tb : inv s L -> finished s -> fails_in k w e tb -> In (w, k, tb) L.
Proof.
  intros HI HFin (v0 & j & wk & Hin & F & Hj & ->).
  destruct (i_all _ _ HI k v0 Hin) as [(i & v & R & Q)|(j' & e' & tb' & wk' & i & F' & Hj' & HL & _)].
  - pose proof (fails_blocks _ _ _ _ _ _ _ F R). assert (j < List.length ws)%nat by (apply nth_error_Some; congruence).
    assert (i < List.length ws)%nat as Hi by lia. specialize (Q Hi). rewrite (HFin i Hi) in Q. destruct Q.
  - destruct (fails_fun _ _ _ _ _ _ _ _ F F') as (<- & <- & <-). rewrite Hj in Hj'. injection Hj' as <-. exact HL.
Qed.
Lemma fails_same k w1 w2 e1 e2 tb1 tb2 : NoDup (map fst items) -> fails_in k w1 e1 tb1 -> fails_in k w2 e2 tb2 -> tb1 = tb2.
Proof.
  intros ND (v1 & j1 & wk1 & H1 & F1 & _) (v2 & j2 & wk2 & H2 & F2 & _).
  assert (v1 = v2) as <-.
  { clear -ND H1 H2. induction items as [|[k' v'] l IH]; [destruct H1|]. cbn in ND. inversion ND as [|x y N1 N2]; subst.
    destruct H1 as [H1|H1], H2 as [H2|H2]; try congruence; try (apply IH; assumption).
    - injection H1 as -> ->. exfalso. apply N1. apply (in_map fst l (k, v2)). exact H2.
    - injection H2 as -> ->. exfalso. apply N1. apply (in_map fst l (k, v1)). exact H1. }
  apply (fails_fun _ _ _ _ _ _ _ _ F1 F2).
Qed.

(** The works of a topology being separable (they are in the topologies of fluidimage, see C115_topologies), for any execution
    without [stop_if_error] which has treated everything: each failure of an item in a work has its report, with the names of
    the work and of the key and with the traceback; there is no other report (in particular none for the works which come
    after); nothing else has changed. *)
Theorem C115_reports schedule s : chained -> clean f0 dir -> all_separable -> NoDup (map fst items) ->
  run V false dir ws (init V f0 items) schedule = (s, None) -> finished s ->
  (forall k w e tb, fails_in k w e tb -> fs_get (s_fs _ s) (report_name w k :: dir) = Some (File (content w k tb))) /\
  (forall n x, fs_get (s_fs _ s) (n :: dir) = Some x ->
     exists k w e tb, fails_in k w e tb /\ n = report_name w k /\ x = File (content w k tb)) /\
  (forall p, (forall m, p <> m ++ dir) -> fs_get (s_fs _ s) p = fs_get f0 p).
Proof.
  intros HO HC HS ND HRun HFin. pose proof (inv_run schedule _ _ HO HC inv_init) as H. rewrite HRun in H.
  destruct H as (L & HI). pose proof (i_rep _ _ HI) as (R1 & R2 & R3). split; [|split].
  - intros k w e tb HF. pose proof (inv_finished _ _ _ _ _ _ HI HFin HF) as HL.
    destruct (last_with L (report_name w k)) as (w1 & k1 & tb1 & L1 & L2 & E & En & F); [exists w, k, tb; split; [exact HL|reflexivity]|].
    rewrite <- En, (R1 _ _ _ _ _ E F).
    assert (HL1 : In (w1, k1, tb1) L) by (rewrite E; apply in_or_app; right; left; reflexivity).
    destruct (i_L _ _ HI _ _ _ HL1) as (_ & _ & e1 & HF1).
    assert (w1 = w) as ->.
    { destruct HF as (v0 & j & wk & _ & _ & Hj & ->). destruct HF1 as (v1 & j1 & wk1 & _ & _ & Hj1 & ->).
      destruct (Nat.eq_dec j1 j) as [->|N]; [congruence|]. exfalso.
      apply (proj1 (C115_separable_iff _ _) (HS _ _ _ _ Hj1 Hj N) k1 k). exact En. }
    apply report_key in En. subst k1. rewrite (fails_same _ _ _ _ _ _ _ ND HF1 HF). reflexivity.
  - intros n x Hx. destruct (in_dec chars_eq_dec n (map (fun '(w, k, _) => report_name w k) L)) as [Hi|Hi].
    + apply in_map_iff in Hi. destruct Hi as ([[w k] tb] & <- & Hi).
      destruct (last_with L (report_name w k)) as (w1 & k1 & tb1 & L1 & L2 & E & En & F); [exists w, k, tb; split; [exact Hi|reflexivity]|].
      rewrite <- En, (R1 _ _ _ _ _ E F) in Hx. injection Hx as <-.
      assert (HL1 : In (w1, k1, tb1) L) by (rewrite E; apply in_or_app; right; left; reflexivity).
      destruct (i_L _ _ HI _ _ _ HL1) as (_ & _ & e1 & HF1). exists k1, w1, e1, tb1. split; [exact HF1|]. split; [symmetry; exact En|reflexivity].
    + exfalso. rewrite R2 in Hx.
      * destruct HC as (_ & _ & _ & D3). pose proof (D3 [n]) as D. cbn [app] in D. rewrite D in Hx by discriminate. discriminate.
      * intros w k tb H E. apply Hi, in_map_iff. exists (w, k, tb). split; [symmetry; exact (f_equal (hd []) E)|exact H].
      * intros E. apply (f_equal (@List.length _)) in E. cbn in E. lia.
  - intros p Hp. apply R2; [|apply (Hp [])]. intros w k tb _. apply (Hp [report_name w k]).
Qed.

(** Without [stop_if_error], the failure of a work does not stop the execution.  Exactly: an execution which goes until
    everything is treated or an exception escapes ends with an exception if and only if one of the works which fail, or its
    key, has a slash in its name; the exception is then a FileNotFoundError. *)
Theorem C115_slash_iff schedule s x : chained -> clean f0 dir ->
  run V false dir ws (init V f0 items) schedule = (s, x) -> (x = None -> finished s) ->
  (x = None \/ x = Some FileNotFoundError) /\
  (x <> None <-> exists k w e tb, fails_in k w e tb /\ (In slash w \/ In slash k)).
Proof.
  intros HO HC HRun HFin. pose proof (inv_run schedule _ _ HO HC inv_init) as H. rewrite HRun in H.
  destruct x as [e|].
  - destruct H as (-> & H). split; [right; reflexivity|]. split; [intros _; exact H|discriminate].
  - destruct H as (L & HI). split; [left; reflexivity|]. split; [congruence|].
    intros (k & w & e & tb & HF & HS). exfalso.
    destruct (i_L _ _ HI _ _ _ (inv_finished _ _ _ _ _ _ HI (HFin eq_refl) HF)) as (N1 & N2 & _). tauto.
Qed.

(** The last work, if it has no output queue, tells which keys could not be treated because of the failure of a previous
    work, and only them. *)
Theorem C115_messages schedule s : chained -> clean f0 dir ->
  run V false dir ws (init V f0 items) schedule = (s, None) -> finished s ->
  forall w k, In (w, k) (s_msgs _ s) <->
    exists v0 j e tb wl, In (k, v0) items /\ fails_at k v0 j e tb /\ (S j < List.length ws)%nat /\
      nth_error ws (pred (List.length ws)) = Some wl /\ w_out _ wl = false /\ w = name_of wl.
Proof.
  intros HO HC HRun HFin. pose proof (inv_run schedule _ _ HO HC inv_init) as H. rewrite HRun in H.
  destruct H as (L & HI). intros w k. split; [apply (i_msg _ _ HI)|].
  intros (v0 & j & e & tb & wl & Hin & F & Hj & Hwl & Ho & ->).
  destruct (i_all _ _ HI k v0 Hin) as [(i & v & R & Q)|(j' & e' & tb' & wk' & i & F' & Hj' & HL & Hl & Q & M)].
  - pose proof (fails_blocks _ _ _ _ _ _ _ F R). assert (i < List.length ws)%nat as Hi by lia. specialize (Q Hi).
    rewrite (HFin i Hi) in Q. destruct Q.
  - destruct (fails_fun _ _ _ _ _ _ _ _ F F') as (<- & <- & <-).
    destruct (lt_dec i (List.length ws)) as [Hi|Hi]; [specialize (Q Hi); rewrite (HFin i Hi) in Q; destruct Q|].
    assert (i = List.length ws) as -> by lia. destruct (M eq_refl) as [E|M']; [lia|]. apply M'; assumption.
Qed.

(** With [stop_if_error], the execution ends at the first failure, with its exception and its report, which is the only one;
    if it has treated everything, no item has failed. *)
Record inv2 (s : state) : Prop := {
  j_fs : s_fs _ s = f0;
  j_val : forall i k o, In (k, o) (s_queues _ s i) -> exists v0 v, o = inl v /\ In (k, v0) items /\ reached k v0 i v;
  j_all : forall k v0, In (k, v0) items -> exists i v, reached k v0 i v /\ ((i < List.length ws)%nat -> In (k, inl v) (s_queues _ s i))
}.
Theorem C115_stop schedule s x : chained -> clean f0 dir ->
  (forall k w e tb, fails_in k w e tb -> ~ In slash w /\ ~ In slash k) ->
  run V true dir ws (init V f0 items) schedule = (s, x) ->
  match x with
  | Some e => exists k w tb, fails_in k w e tb /\
      forall n, fs_get (s_fs _ s) (n :: dir) =
        (if chars_eq_dec n (report_name w k) then Some (File (content w k tb)) else None)
  | None => s_fs _ s = f0 /\ (finished s -> forall k w e tb, ~ fails_in k w e tb)
  end.
Proof.
  intros HO HC HSl.
  assert (J0 : inv2 (init V f0 items)).
  { constructor; cbn.
    - reflexivity.
    - intros [|i] k o H; [|destruct H]. apply in_map_iff in H. destruct H as ([k' v'] & E & H). injection E as <- <-.
      exists v', v'. split; [reflexivity|]. split; [exact H|constructor].
    - intros k v0 H. exists O, v0. split; [constructor|]. intros _. apply in_map_iff. exists (k, v0). split; [reflexivity|exact H]. }
  revert J0. generalize (init V f0 items). induction schedule as [|i sch IH]; intros s0 J; cbn [run].
  - intros E. injection E as <- <-. split; [apply (j_fs _ J)|]. intros HFin k w e tb (v0 & j & wk & Hin & F & Hj & _).
    destruct (j_all _ J k v0 Hin) as (i & v & R & Q). pose proof (fails_blocks _ _ _ _ _ _ _ F R).
    assert (j < List.length ws)%nat by (apply nth_error_Some; congruence).
    assert (i < List.length ws)%nat as Hi by lia. specialize (Q Hi). rewrite (HFin i Hi) in Q. destruct Q.
  - unfold step. destruct (nth_error ws i) as [w|] eqn:Ew; [|apply (IH _ J)].
    destruct (s_queues _ s0 i) as [|[key obj] q] eqn:Eq; [apply (IH _ J)|].
    destruct (j_val _ J i key obj) as (v0 & v & -> & Hin & HR); [rewrite Eq; left; reflexivity|].
    destruct (w_func _ w key v) as [ret|[error tb]] eqn:Ef.
    + apply IH. destruct (put_in w _ i key (inl v) q (inl ret) Eq) as (P1 & P2 & P3). constructor; cbn [s_fs s_queues].
      * apply (j_fs _ J).
      * intros j k o H. destruct (P1 _ _ H) as [H'|(-> & H')]; [apply (j_val _ J _ _ _ H')|].
        injection H' as -> ->. exists v0, ret. split; [reflexivity|]. split; [exact Hin|]. econstructor; eassumption.
      * intros k u0 Hk. destruct (j_all _ J k u0 Hk) as (i0 & u & R & Q).
        destruct (lt_dec i0 (List.length ws)) as [Hlt|Hge]; [|exists i0, u; split; [exact R|lia]].
        destruct (P2 _ _ (Q Hlt)) as [Q'|(-> & Q')]; [exists i0, u; split; [exact R|intros _; exact Q']|].
        injection Q' as -> ->. exists (S i), ret. split; [econstructor; eassumption|]. intros Hs. apply P3, (HO i w Ew Hs).
    + assert (HFI : fails_in key (name_no_space (w_name _ w)) error tb).
      { exists v0, i, w. split; [exact Hin|]. split; [exists w, v; repeat split; assumption|]. split; [exact Ew|reflexivity]. }
      destruct (HSl _ _ _ _ HFI) as (Sw & Sk). rewrite (j_fs _ J).
      destruct (log_plain f0 dir [] f0 (name_no_space (w_name _ w)) key tb HC (reports_nil f0 dir) Sw Sk) as (f' & -> & (R1 & R2 & R3)).
      intros E. injection E as <- <-. cbn [s_fs]. exists key, (name_no_space (w_name _ w)), tb. split; [exact HFI|].
      intros n. destruct (chars_eq_dec n _) as [->|N].
      * apply (R1 _ _ _ [] []); [reflexivity|]. intros ? ? ? [].
      * rewrite R2; [destruct HC as (_ & _ & _ & D3); apply (D3 [n]); discriminate| |].
        -- intros w' k' tb' [H|[]] E. injection H as <- <- <-. apply N. exact (f_equal (hd []) E).
        -- intros E. apply (f_equal (@List.length _)) in E. cbn in E. lia.
Qed.
End Run.

(** ** The topologies of fluidimage *)

Lemma prefix_nil (a : chars) : is_prefix [] a.
Proof. exists a. reflexivity. Qed.
Fixpoint prefixb (a b : chars) : bool :=
  match a, b with
  | [], _ => true
  | x :: a', y :: b' => Ascii.eqb x y && prefixb a' b'
  | _, [] => false
  end.
Lemma prefixb_spec a b : prefixb a b = true <-> is_prefix a b.
Proof.
  revert b. induction a as [|x a IH]; intros b; [split; [intros _; apply prefix_nil|reflexivity]|].
  destruct b as [|y b]; cbn; [split; [discriminate|intros (c & E); discriminate]|].
  rewrite Bool.andb_true_iff, Ascii.eqb_eq, IH. split.
  - intros (-> & c & ->). exists c. reflexivity.
  - intros (c & E). injection E as <- ->. split; [reflexivity|exists c; reflexivity].
Qed.
Definition separableb (a b : chars) : bool :=
  negb (prefixb (a ++ of_string "_") (b ++ of_string "_")) && negb (prefixb (b ++ of_string "_") (a ++ of_string "_")).
Lemma separableb_spec a b : separableb a b = true -> separable a b.
Proof.
  unfold separableb, separable. rewrite Bool.andb_true_iff, !Bool.negb_true_iff. intros (H1 & H2).
  split; intros H; apply prefixb_spec in H; congruence.
Qed.

(** The works of each topology of fluidimage are separable and without slash. *)
Definition topologies : list (list chars) :=
  [works_bos; works_example; works_image2image; works_mean; works_piv; works_preproc; works_surface_tracking].
Theorem C115_topologies names i j a b : In names topologies -> nth_error names i = Some a -> nth_error names j = Some b ->
  ~ In slash (name_no_space a) /\ (i <> j -> separable (name_no_space a) (name_no_space b)).
Proof.
  set (ok := fun names : list chars => forallb (fun i => forallb (fun j =>
     match nth_error names i, nth_error names j with
     | Some a, Some b => negb (existsb (Ascii.eqb slash) (name_no_space a)) &&
         (Nat.eqb i j || separableb (name_no_space a) (name_no_space b))
     | _, _ => true
     end) (seq 0 (List.length names))) (seq 0 (List.length names))).
  assert (C : forallb ok topologies = true) by (vm_compute; reflexivity).
  intros Hn Ha Hb. rewrite forallb_forall in C. specialize (C _ Hn). unfold ok in C.
  rewrite forallb_forall in C. assert (Hi : In i (seq 0 (List.length names))) by (apply in_seq; split; [lia|]; apply nth_error_Some; congruence).
  assert (Hj : In j (seq 0 (List.length names))) by (apply in_seq; split; [lia|]; apply nth_error_Some; congruence).
  specialize (C _ Hi). rewrite forallb_forall in C. specialize (C _ Hj). rewrite Ha, Hb in C.
  apply Bool.andb_true_iff in C. destruct C as (C1 & C2). split.
  - intros H. apply Bool.negb_true_iff in C1. assert (existsb (Ascii.eqb slash) (name_no_space a) = true) as C3.
    { apply existsb_exists. exists slash. split; [exact H|apply Ascii.eqb_refl]. }
    congruence.
  - intros N. apply Bool.orb_true_iff in C2. destruct C2 as [C2|C2]; [apply Nat.eqb_eq in C2; contradiction|].
    apply separableb_spec. exact C2.
Qed.

(** ** Counterexamples and examples *)

Definition ex_dir : path := [of_string "log_x"; of_string "res"].
Definition ex_fs : fs := [([of_string "res"], Dir)].
Lemma ex_clean : clean ex_fs ex_dir.
Proof.
  split; [discriminate|]. split; [reflexivity|]. split; [left; reflexivity|].
  intros p Hp. destruct p as [|a p]; [congruence|].
  unfold fs_get. cbn [app]. unfold ex_fs, fs_find. destruct (path_eq_dec _ _) as [E|_]; [|reflexivity].
  apply (f_equal (@List.length _)) in E. cbn in E. rewrite app_length in E. cbn in E. lia.
Qed.
(** a work which fails for the keys of a list *)
Definition ex_work (name : string) (bad : list string) (out : bool) : work unit :=
  {| w_name := of_string name; w_out := out;
     w_func := fun k _ => if in_dec chars_eq_dec k (map of_string bad) then inr (ValueError, of_string "tb " ++ of_string name) else inl tt |}.
Definition ex_items (l : list string) : list (chars * unit) := map (fun k => (of_string k, tt)) l.

(** Each failure has its report.  Refuted for works such as "a" and "a b", or two works "a b" and "a_b". *)
Theorem C115_collision_refuted :
  exists s, let ws := [ex_work "a" ["b_k"] true; ex_work "a b" ["k"] false]%string in let items := ex_items ["k"; "b_k"]%string in
    chained unit ws /\ clean ex_fs ex_dir /\ run unit false ex_dir ws (init unit ex_fs items) [0; 0; 1; 1]%nat = (s, None) /\
    finished unit ws s /\
    fails_in unit ws items (of_string "b_k") (of_string "a") ValueError (of_string "tb a") /\
    fails_in unit ws items (of_string "k") (of_string "a_b") ValueError (of_string "tb a b") /\
    exists text, forall n x, fs_get (s_fs _ s) (n :: ex_dir) = Some x -> n = of_string "exception_a_b_k.txt" /\ x = File text.
Proof.
  eexists. cbn zeta. split.
  { intros [|[|i]] w H Hl; cbn in *; [injection H as <-; reflexivity|lia|lia]. }
  split; [apply ex_clean|]. split; [vm_compute; reflexivity|]. split; [intros [|[|i]] H; cbn in H; [reflexivity|reflexivity|lia]|].
  split; [|split].
  - exists tt, 0%nat. eexists. split; [right; left; reflexivity|]. split; [|split; reflexivity].
    eexists _, tt. split; [constructor|]. split; reflexivity.
  - exists tt, 1%nat. eexists. split; [left; reflexivity|]. split; [|split; reflexivity].
    eexists _, tt. split; [econstructor; [constructor|reflexivity|reflexivity]|]. split; reflexivity.
  - eexists. intros n x H. unfold fs_get in H. cbn [s_fs fs_find] in H.
    destruct (path_eq_dec _ _) as [E|_] in H; [|exfalso].
    + injection H as <-. split; [symmetry; exact (f_equal (hd []) E)|reflexivity].
    + destruct (path_eq_dec _ _) as [E|_] in H; [apply (f_equal (@List.length _)) in E; cbn in E; lia|].
      destruct (path_eq_dec _ _) as [E|_] in H; [apply (f_equal (@List.length _)) in E; cbn in E; lia|]. discriminate.
Qed.
(** Without stop_if_error a failure does not stop the execution.  Refuted if the key contains a slash: the other item is not
    treated. *)
Theorem C115_slash_refuted :
  exists s, let ws := [ex_work "a" ["x/y"] false]%string in let items := ex_items ["x/y"; "k"]%string in
    run unit false ex_dir ws (init unit ex_fs items) [0; 0]%nat = (s, Some FileNotFoundError) /\
    In (of_string "k", inl tt) (s_queues _ s 0%nat).
Proof. eexists. cbn zeta. split; [vm_compute; reflexivity|]. left. reflexivity. Qed.

(** The hypotheses of the theorems are met: three works, three items, two of which fail. *)
Example C115_example :
  exists s, let ws := [ex_work "read array" ["im1"] true; ex_work "compute piv" ["im2"] true; ex_work "save piv" [] false]%string in
    let items := ex_items ["im0"; "im1"; "im2"]%string in
    chained unit ws /\ all_separable unit ws /\ NoDup (map fst items) /\
    run unit false ex_dir ws (init unit ex_fs items) [0; 0; 1; 2; 0; 1; 1; 2; 2]%nat = (s, None) /\ finished unit ws s /\
    fs_get (s_fs _ s) (of_string "exception_read_array_im1.txt" :: ex_dir) =
      Some (File (of_string "Exception for work read_array, key im1:" ++ newline :: of_string "tb read array")) /\
    s_msgs _ s = [(of_string "save_piv", of_string "im1"); (of_string "save_piv", of_string "im2")].
Proof.
  eexists. cbn zeta. split; [|split; [|split; [|split; [vm_compute; reflexivity|split; [|split; reflexivity]]]]].
  - intros [|[|[|i]]] w H Hl; cbn in *; try (injection H as <-; reflexivity); lia.
  - intros i j w1 w2 H1 H2 N. apply separableb_spec.
    destruct i as [|[|[|i]]]; [| | |destruct i; discriminate]; (destruct j as [|[|[|j]]]; [| | |destruct j; discriminate]); try congruence;
      injection H1 as <-; injection H2 as <-; vm_compute; reflexivity.
  - repeat constructor; cbn; intuition discriminate.
  - intros [|[|[|i]]] H; cbn in H; try reflexivity; lia.
Qed.

Print Assumptions C115_history.
Print Assumptions C115_separable_iff.
Print Assumptions C115_reports.
Print Assumptions C115_slash_iff.
Print Assumptions C115_messages.
Print Assumptions C115_stop.
Print Assumptions C115_topologies.
Print Assumptions C115_collision_refuted.
Print Assumptions C115_slash_refuted.

(** C87: what the monitor displays, for every history of the job. *)
From Coq Require Import QArith.
From Verif Require Import PyBase StrModel MonitorModel.
Open Scope Z_scope.

(** ** Lists *)
Lemma update_nth_nth {A} (l : list A) : forall i j f, nth_error (update_nth i f l) j =
  if (i =? j)%nat then option_map f (nth_error l j) else nth_error l j.
Proof.
  induction l as [|x l IH]; intros i j f.
  - destruct i, j; cbn; try reflexivity; destruct (_ =? _)%nat; reflexivity.
  - destruct i, j; cbn; try reflexivity. apply IH.
Qed.
Lemma update_nth_len {A} (l : list A) : forall i f, List.length (update_nth i f l) = List.length l.
Proof. induction l as [|x l IH]; intros [|i] f; cbn; try reflexivity. rewrite IH. reflexivity. Qed.

(** ** Invariants of the job *)
Definition known (total : list Z) (j : job) : Prop :=
  List.length (j_len j) = List.length total /\
  forall i f, nth_error (j_len j) i = Some f -> 0 <= counted f <= nth i total 0.
Definition ended (total : list Z) (j : job) : Prop :=
  j_lock j = false -> forall i f, nth_error (j_len j) i = Some f -> f = Has (nth i total 0).

Lemma set_len_nth j i f k g : nth_error (j_len (set_len j i f)) k = Some g ->
  (k = i /\ g = f) \/ (k <> i /\ nth_error (j_len j) k = Some g).
Proof.
  cbn. rewrite update_nth_nth. destruct (Nat.eqb_spec i k) as [<-|N]; intros H.
  - destruct (nth_error (j_len j) i); [|discriminate]. cbn in H. left. split; congruence.
  - right. split; congruence.
Qed.
Lemma set_len_at j i f g : nth_error (j_len j) i = Some g -> nth_error (j_len (set_len j i f)) i = Some f.
Proof. intros H. cbn. rewrite update_nth_nth, Nat.eqb_refl, H. reflexivity. Qed.
Lemma set_len_other j i f k : k <> i -> nth_error (j_len (set_len j i f)) k = nth_error (j_len j) k.
Proof. intros H. cbn. rewrite update_nth_nth. destruct (Nat.eqb_spec i k); congruence. Qed.

Lemma known_step sq total j k : jstep sq total j k -> known total j -> known total k.
Proof.
  intros S (L & K). destruct S as [i j m A B C D|i j n m A B C|i j n A|j A B|j t A B|j t A];
    (split; [cbn; rewrite ?update_nth_len; exact L|]); intros k f F; try exact (K k f F).
  - apply set_len_nth in F. destruct F as [(-> & ->)|(_ & F)]; [cbn; lia|exact (K k f F)].
  - apply set_len_nth in F. destruct F as [(-> & ->)|(_ & F)]; [cbn; pose proof (K _ _ A) as X; cbn in X; lia|exact (K k f F)].
  - apply set_len_nth in F. destruct F as [(-> & ->)|(_ & F)]; [exact (K _ _ A)|exact (K k f F)].
Qed.
Lemma ended_step total j k : jstep false total j k -> ended total j -> ended total k.
Proof.
  intros S E. destruct S as [i j m A B C D|i j n m A B C|i j n A|j A B|j t A B|j t A]; intros Hl; cbn in Hl; try congruence.
  - destruct C; congruence.
  - intros k f F. specialize (E Hl _ _ A). discriminate.
  - intros k f F. exact (B k f F).
  - intros k f F. exact (E A k f F).
  - intros k f F. exact (E Hl k f F).
Qed.
Lemma step_mono sq total j k : jstep sq total j k ->
  (j_lock j = false -> j_lock k = false) /\
  (forall t, j_end j = Has t -> j_end k = Has t) /\ (j_end j <> Absent -> j_end k <> Absent) /\
  (forall i, nth_error (j_len k) i = Some Absent -> nth_error (j_len j) i = Some Absent) /\
  (forall i f, nth_error (j_len j) i = Some f -> exists g, nth_error (j_len k) i = Some g /\ (0 <= counted f -> counted f <= counted g)).
Proof.
  intros S. destruct S as [i j m A B C D|i j n m A B C|i j n A|j A B|j t A B|j t A]; cbn [j_lock j_end];
    (split; [first [exact (fun H => H)|congruence|intros; reflexivity]|]); (split; [first [intros t0 H0; cbn in *; congruence|intros t0 H0; congruence]|]);
    (split; [first [intros H0; cbn in *; congruence|discriminate]|]); split.
  - intros k H. apply set_len_nth in H. destruct H as [(_ & H)|(_ & H)]; [discriminate|exact H].
  - intros k f F. destruct (Nat.eq_dec k i) as [->|N].
    + eexists. split; [exact (set_len_at _ _ _ _ A)|]. rewrite A in F. injection F as <-. cbn. lia.
    + exists f. split; [rewrite set_len_other by exact N; exact F|lia].
  - intros k H. apply set_len_nth in H. destruct H as [(_ & H)|(_ & H)]; [discriminate|exact H].
  - intros k f F. destruct (Nat.eq_dec k i) as [->|N].
    + eexists. split; [exact (set_len_at _ _ _ _ A)|]. rewrite A in F. injection F as <-. cbn. lia.
    + exists f. split; [rewrite set_len_other by exact N; exact F|lia].
  - intros k H. apply set_len_nth in H. destruct H as [(_ & H)|(_ & H)]; [discriminate|exact H].
  - intros k f F. destruct (Nat.eq_dec k i) as [->|N].
    + eexists. split; [exact (set_len_at _ _ _ _ A)|]. rewrite A in F. injection F as <-. cbn. lia.
    + exists f. split; [rewrite set_len_other by exact N; exact F|lia].
  - intros k H. exact H.
  - intros k f F. exists f. split; [exact F|lia].
  - intros k H. exact H.
  - intros k f F. exists f. split; [exact F|lia].
  - intros k H. exact H.
  - intros k f F. exists f. split; [exact F|lia].
Qed.
Lemma steps_mono sq total j k : jsteps sq total j k ->
  (j_lock j = false -> j_lock k = false) /\
  (forall t, j_end j = Has t -> j_end k = Has t) /\ (j_end j <> Absent -> j_end k <> Absent) /\
  (forall i, nth_error (j_len k) i = Some Absent -> nth_error (j_len j) i = Some Absent) /\
  (known total j -> known total k /\ forall i f, nth_error (j_len j) i = Some f -> exists g, nth_error (j_len k) i = Some g /\ counted f <= counted g).
Proof.
  induction 1 as [j|j k l S _ (I1 & I2 & I3 & I4 & I5)].
  - split; [auto|]. split; [auto|]. split; [auto|]. split; [auto|]. intros K. split; [exact K|]. intros i f F. exists f. split; [exact F|lia].
  - destruct (step_mono _ _ _ _ S) as (M1 & M2 & M3 & M4 & M5). split; [auto|]. split; [auto|]. split; [auto|]. split; [auto|].
    + intros K. pose proof (known_step _ _ _ _ S K) as K2. destruct (I5 K2) as (K3 & I6). split; [exact K3|].
      intros i f F. destruct (M5 i f F) as (g & G & C). destruct (I6 i g G) as (g' & G' & C'). exists g'. split; [exact G'|].
      destruct K as (_ & K). specialize (K _ _ F). lia.
Qed.
Lemma ended_steps total j k : jsteps false total j k -> ended total j -> ended total k.
Proof. induction 1 as [j|j k l S _ IH]; intros E; [exact E|]. apply IH. exact (ended_step _ _ _ S E). Qed.

Lemma known_start total : (forall i, 0 <= nth i total 0) -> known total (job_start (List.length total)).
Proof.
  intros P. split; [apply repeat_length|]. intros i f F. cbn in F. apply nth_error_In, repeat_spec in F. subst f. cbn. specialize (P i). lia.
Qed.
Lemma jsteps_app sq total j k l : jsteps sq total j k -> jsteps sq total k l -> jsteps sq total j l.
Proof. induction 1; intros H2; [exact H2|]. eapply jtrans; eauto. Qed.
Lemma history_le sq total h n m : history sq total h -> (n <= m)%nat -> jsteps sq total (h n) (h m).
Proof.
  intros (_ & H) L. induction L as [|m L IH]; [constructor|]. eapply jsteps_app; [exact IH|apply H].
Qed.
Lemma history_known sq total h n : (forall i, 0 <= nth i total 0) -> history sq total h -> known total (h n).
Proof.
  intros P H. assert (K0 : known total (h O)).
  { destruct H as (H & _). destruct (steps_mono _ _ _ _ H) as (_ & _ & _ & _ & K). apply K, known_start, P. }
  pose proof (history_le _ _ _ 0%nat n H ltac:(lia)) as S. destruct (steps_mono _ _ _ _ S) as (_ & _ & _ & _ & K). apply K, K0.
Qed.
Lemma history_ended total h n : history false total h -> ended total (h n).
Proof.
  intros H. assert (E0 : ended total (h O)).
  { destruct H as (H & _). apply (ended_steps _ _ _ H). intros X. discriminate X. }
  exact (ended_steps _ _ _ (history_le _ _ _ 0%nat n H ltac:(lia)) E0).
Qed.

(** ** The reading of the files *)
Definition at_ (j : job) (i : nat) : Z := match nth_error (j_len j) i with Some f => counted f | None => 0 end.
Lemma zsum_app_ l1 l2 : zsum (l1 ++ l2) = zsum l1 + zsum l2.
Proof. unfold zsum. induction l1 as [|x l IH]; cbn; [reflexivity|]. rewrite IH. lia. Qed.
Lemma zsum_le {A} (f g : A -> Z) l : (forall x, In x l -> f x <= g x) -> zsum (map f l) <= zsum (map g l).
Proof. unfold zsum. induction l as [|x l IH]; intros H; cbn; [lia|]. pose proof (H x (or_introl eq_refl)). specialize (IH (fun y Hy => H y (or_intror Hy))). lia. Qed.

Lemma detect_spec sq total h : (forall i, 0 <= nth i total 0) -> history sq total h ->
  forall paths n s n', detect_results h n paths = Ok (s, n') ->
  n' = (n + List.length paths)%nat /\ 0 <= s <= zsum (map (at_ (h n')) paths).
Proof.
  intros P H. induction paths as [|i paths IH]; intros n s n' E; cbn [detect_results] in E.
  - injection E as <- <-. cbn. split; lia.
  - assert (G : exists f s', nth_error (j_len (h n)) i = Some f /\ detect_results h (S n) paths = Ok (s', n') /\ 0 <= s - s' <= counted f).
    { destruct (nth_error (j_len (h n)) i) as [f|] eqn:F; [|discriminate].
      pose proof (proj2 (history_known _ _ _ n P H) _ _ F) as K.
      destruct f as [|m|m]; [discriminate| |]; (destruct (detect_results h (S n) paths) as [(s', n'')|]; [|discriminate]); cbn [bind] in E;
        injection E as <- <-; eexists _, _; (split; [reflexivity|]); (split; [reflexivity|]); cbn in K |- *; lia. }
    destruct G as (f & s' & F & E' & C). destruct (IH _ _ _ E') as (-> & B). split; [cbn; lia|]. cbn [map zsum fold_right].
    pose proof (history_le _ _ _ n (S n + List.length paths)%nat H ltac:(lia)) as S.
    destruct (steps_mono _ _ _ _ S) as (_ & _ & _ & _ & K). destruct (K (history_known _ _ _ n P H)) as (_ & K2).
    destruct (K2 _ _ F) as (g & G & Cg). unfold at_ at 1. rewrite G. unfold zsum in *. cbn [fold_right]. lia.
Qed.

Lemma detect_exact total h n paths : history false total h -> j_lock (h n) = false ->
  (forall i, In i paths -> (i < List.length total)%nat) -> (forall i, 0 <= nth i total 0) ->
  detect_results h n paths = Ok (zsum (map (fun i => nth i total 0) paths), (n + List.length paths)%nat).
Proof.
  intros H. revert n. induction paths as [|i paths IH]; intros n L B P; cbn [detect_results].
  - cbn. rewrite Nat.add_0_r. reflexivity.
  - pose proof (history_known _ _ _ n P H) as (KL & K). assert (I : (i < List.length total)%nat) by (apply B; left; reflexivity).
    destruct (nth_error (j_len (h n)) i) as [f|] eqn:F; [|apply nth_error_None in F; lia].
    rewrite (history_ended _ _ n H L i f F). rewrite IH; [| |intros j J; apply B; right; exact J|exact P].
    + cbn [bind List.length map zsum fold_right]. f_equal. f_equal. lia.
    + apply (proj1 (steps_mono _ _ _ _ (proj2 H n))), L.
Qed.

Lemma glob_spec l : forall i k, In k (glob_from i l) <-> exists f, (i <= k)%nat /\ nth_error l (k - i) = Some f /\ f <> Absent.
Proof.
  induction l as [|f l IH]; intros i k; cbn [glob_from].
  - split; [intros []|]. intros (f & _ & F & _). destruct (k - i)%nat; discriminate.
  - assert (G : In k (glob_from (S i) l) <-> exists g, (i < k)%nat /\ nth_error (f :: l) (k - i) = Some g /\ g <> Absent).
    { rewrite IH. split; intros (g & L & F & N); exists g; (split; [lia|]); (split; [|exact N]).
      - replace (k - i)%nat with (S (k - S i)) by lia. exact F.
      - replace (k - i)%nat with (S (k - S i)) in F by lia. exact F. }
    assert (Q : (exists g, (i <= k)%nat /\ nth_error (f :: l) (k - i) = Some g /\ g <> Absent) <->
                (k = i /\ f <> Absent) \/ exists g, (i < k)%nat /\ nth_error (f :: l) (k - i) = Some g /\ g <> Absent).
    { split.
      - intros (g & L & F & N). destruct (Nat.eq_dec k i) as [->|Nk].
        + rewrite Nat.sub_diag in F. cbn in F. left. split; [reflexivity|congruence].
        + right. exists g. split; [lia|auto].
      - intros [(-> & N)|(g & L & F & N)].
        + exists f. rewrite Nat.sub_diag. auto.
        + exists g. split; [lia|auto]. }
    rewrite Q. destruct f as [|m|m]; cbn [In]; rewrite G.
    + split; [auto|]. intros [(_ & X)|X]; [congruence|exact X].
    + split; intros [X|X]; auto; [left; split; [congruence|discriminate]|destruct X; left; congruence].
    + split; intros [X|X]; auto; [left; split; [congruence|discriminate]|destruct X; left; congruence].
Qed.
Lemma glob_NoDup l : forall i, NoDup (glob_from i l) /\ forall k, In k (glob_from i l) -> (i <= k < i + List.length l)%nat.
Proof.
  induction l as [|f l IH]; intros i; [split; [constructor|intros k []]|]. destruct (IH (S i)) as (N & B).
  assert (B' : forall k, In k (glob_from (S i) l) -> (i <= k < i + List.length (f :: l))%nat) by (intros k K; apply B in K; cbn; lia).
  destruct f; cbn [glob_from]; [split; assumption| |];
    (split; [constructor; [intros X; apply B in X; lia|exact N]|]); intros k [<-|K]; cbn; try (cbn in B'; apply B' in K); lia.
Qed.

(** sum over some of the indices *)
Lemma zsum_incl (f : nat -> Z) : forall m paths, NoDup paths -> (forall i, In i paths -> (i < m)%nat) -> (forall i, (i < m)%nat -> 0 <= f i) ->
  zsum (map f paths) <= zsum (map f (seq 0 m)).
Proof.
  intros m paths ND B P.
  revert paths ND B. induction m as [|m IH]; intros paths ND B.
  - destruct paths as [|i ?]; [cbn; lia|]. specialize (B i (or_introl eq_refl)). lia.
  - rewrite seq_S, map_app, zsum_app_. cbn [map zsum fold_right plus].
    destruct (in_dec Nat.eq_dec m paths) as [I|I].
    + apply in_split in I. destruct I as (a & b & ->). rewrite map_app, zsum_app_. cbn [map].
      assert (E : zsum (f m :: map f b) = f m + zsum (map f b)) by reflexivity. rewrite E.
      assert (X : zsum (map f (a ++ b)) <= zsum (map f (seq 0 m))).
      { apply IH; [intros i Hi; apply P; lia|apply NoDup_remove_1 in ND; exact ND|].
        intros i Hi. apply NoDup_remove_2 in ND. assert (i <> m) by (intros ->; contradiction).
        assert (i < S m)%nat by (apply B; apply in_app_iff in Hi; apply in_app_iff; destruct Hi; [left|right; right]; assumption). lia. }
      rewrite map_app, zsum_app_ in X. lia.
    + assert (X : zsum (map f paths) <= zsum (map f (seq 0 m))).
      { apply IH; [intros i Hi; apply P; lia|exact ND|]. intros i Hi. assert (i <> m) by (intros ->; contradiction). specialize (B i Hi). lia. }
      specialize (P m ltac:(lia)). lia.
Qed.
Lemma zsum_nth l : zsum (map (fun i => nth i l 0) (seq 0 (List.length l))) = zsum l.
Proof.
  assert (E : map (fun i => nth i l 0) (seq 0 (List.length l)) = l); [|rewrite E; reflexivity].
  apply (nth_ext _ _ 0 0); [rewrite map_length, seq_length; reflexivity|]. intros i Hi. rewrite map_length, seq_length in Hi.
  set (g := fun k => nth k l 0). rewrite (nth_indep _ 0 (g 0%nat)) by (rewrite map_length, seq_length; exact Hi). rewrite map_nth, seq_nth by exact Hi. reflexivity.
Qed.

(** ** The sessions *)
Section Sessions.
Variables (time_start nb_cpus : Z) (sq : bool) (total : list Z) (h : nat -> job) (clock : nat -> Z).
Hypothesis Htotal : forall i, 0 <= nth i total 0.
Hypothesis Hh : history sq total h.

Notation start := (start time_start nb_cpus h clock).
Notation update_info := (update_info time_start nb_cpus h clock).
Notation ticks := (ticks time_start nb_cpus h clock).
Notation session := (session time_start nb_cpus h clock).

Lemma load_next n te t te' n' : load_time_max h clock n te = Ok (t, te', n') -> (n <= n')%nat.
Proof.
  unfold load_time_max. destruct te as [x|]; [intros E; injection E as <- <- <-; lia|].
  destruct (j_end (h n)); [intros E; injection E as <- <- <-; lia| |]; (destruct (j_end (h (S n))); [discriminate|discriminate|]); intros E; injection E as <- <- <-; lia.
Qed.

(** what holds of the application at the access n *)
Definition good (paths : list nat) (run0 : bool) (a : app) (n : nat) : Prop :=
  a_paths a = paths /\ 0 <= a_shown_results a <= zsum (map (at_ (h n)) paths) /\
  a_shown_running a = a_running a /\ a_paused a = negb (a_running a) /\
  (a_running a = false -> j_lock (h n) = false) /\
  l_running (a_times a) = run0 /\ (a_running a = true -> run0 = true).

Lemma at_mono i n m : (n <= m)%nat -> at_ (h n) i <= at_ (h m) i.
Proof.
  intros L. unfold at_. pose proof (history_le _ _ _ n m Hh L) as S. destruct (steps_mono _ _ _ _ S) as (_ & _ & _ & _ & K).
  pose proof (history_known _ _ _ n Htotal Hh) as Kn. pose proof (history_known _ _ _ m Htotal Hh) as (_ & Km). destruct (K Kn) as (_ & K2).
  destruct (nth_error (j_len (h n)) i) as [f|] eqn:F.
  - destruct (K2 _ _ F) as (g & G & C). rewrite G. exact C.
  - destruct (nth_error (j_len (h m)) i) as [g|] eqn:G; [|lia]. apply (Km _ _ G).
Qed.
Lemma good_later paths run0 a n m : (n <= m)%nat -> good paths run0 a n -> good paths run0 a m.
Proof.
  intros L (G1 & G2 & G3 & G4 & G5 & G6 & G7). repeat split; auto; try lia.
  - etransitivity; [exact (proj2 G2)|]. apply zsum_le. intros i _. apply at_mono, L.
  - intros R. apply (proj1 (steps_mono _ _ _ _ (history_le _ _ _ n m Hh L))), G5, R.
Qed.

Lemma start_good n a n' : start n = Ok (a, n') ->
  good (glob_from 0 (j_len (h (S n)))) (j_lock (h n)) a n' /\ (S n <= n')%nat.
Proof.
  unfold MonitorModel.start. destruct (glob_from 0 (j_len (h (S n)))) as [|p ps] eqn:G; [discriminate|].
  destruct (detect_results h (S (S n)) (p :: ps)) as [(num, n1)|] eqn:D; [|discriminate]. cbn [bind].
  unfold compute_times_str. destruct (load_time_max h clock n1 None) as [((t, te), n2)|] eqn:T; [|discriminate]. cbn [bind].
  intros E. injection E as <- <-. destruct (detect_spec _ _ _ Htotal Hh _ _ _ _ D) as (-> & B). pose proof (load_next _ _ _ _ _ T) as L.
  split; [|lia]. unfold good. cbn [a_paths a_shown_results a_shown_running a_running a_paused a_times l_running].
  repeat split; try lia; auto.
  - etransitivity; [exact (proj2 B)|]. apply zsum_le. intros i _. apply at_mono, L.
  - intros R. apply (proj1 (steps_mono _ _ _ _ (history_le _ _ _ n n2 Hh ltac:(lia)))), R.
Qed.
Lemma update_good paths a n a' n' : good paths true a n -> a_running a = true -> update_info n a = Ok (a', n') ->
  good paths true a' n' /\ (n <= n')%nat /\ a_running a' = j_lock (h (pred n')).
Proof.
  intros (G1 & G2 & G3 & G4 & G5 & G6 & G7) R. unfold MonitorModel.update_info. rewrite G1, R.
  destruct (detect_results h n paths) as [(num, n1)|] eqn:D; [|discriminate]. cbn [bind].
  unfold compute_times_str. destruct (load_time_max h clock n1 (a_time_end a)) as [((t, te), n2)|] eqn:T; [|discriminate]. cbn [bind].
  intros E. injection E as <- <-. destruct (detect_spec _ _ _ Htotal Hh _ _ _ _ D) as (-> & B). pose proof (load_next _ _ _ _ _ T) as L.
  split; [|split; [lia|reflexivity]]. unfold good. cbn [a_paths a_shown_results a_shown_running a_running a_paused a_times l_running].
  split; [reflexivity|]. split; [split; [lia|]|split; [|split; [reflexivity|split; [|split; [reflexivity|reflexivity]]]]].
  - etransitivity; [exact (proj2 B)|]. apply zsum_le. intros i _. apply at_mono. lia.
  - rewrite G3, R. destruct (j_lock (h n2)); reflexivity.
  - intros X. apply (proj1 (steps_mono _ _ _ _ (proj2 Hh n2))), X.
Qed.
Lemma ticks_good k : forall paths run0 a n a' n', good paths run0 a n -> ticks k n a = Ok (a', n') -> good paths run0 a' n' /\ (n <= n')%nat.
Proof.
  induction k as [|k IH]; intros paths run0 a n a' n' G E; cbn [MonitorModel.ticks] in E.
  - injection E as <- <-. split; [exact G|lia].
  - destruct (a_paused a) eqn:P; [injection E as <- <-; split; [exact G|lia]|].
    destruct (update_info n a) as [(a1, n1)|] eqn:U; [|discriminate]. cbn [bind] in E.
    assert (R : a_running a = true) by (destruct G as (_ & _ & _ & G4 & _); destruct (a_running a); [reflexivity|cbn in G4; congruence]).
    assert (run0 = true) as -> by (apply G, R).
    destruct (update_good _ _ _ _ _ G R U) as (G' & L & _). destruct (IH _ _ _ _ _ _ G' E) as (G'' & L'). split; [exact G''|lia].
Qed.
Lemma session_good k n a n' : session k n = Ok (a, n') ->
  good (glob_from 0 (j_len (h (S n)))) (j_lock (h n)) a n' /\ (S n <= n')%nat.
Proof.
  unfold MonitorModel.session. destruct (start n) as [(a0, n0)|] eqn:S; [|discriminate]. cbn [bind]. intros E.
  destruct (start_good _ _ _ S) as (G & L). destruct (ticks_good _ _ _ _ _ _ _ G E) as (G' & L'). split; [exact G'|lia].
Qed.
End Sessions.

(** ** Theorems *)

(** The number shown is never larger than the number of results counted by the processes, hence than the number of results
    of the job: whatever the moment when the monitor is started and the interleaving. *)
Theorem C87_never_too_many : forall time_start nb_cpus sequential total h clock k n a n',
  (forall i, 0 <= nth i total 0) -> history sequential total h ->
  session time_start nb_cpus h clock k n = Ok (a, n') ->
  0 <= a_shown_results a <= zsum (map counted (j_len (h n'))) /\ zsum (map counted (j_len (h n'))) <= zsum total.
Proof.
  intros ts nb sq total h clock k n a n' P H Se. destruct (session_good _ _ _ _ _ _ P H _ _ _ _ Se) as ((G1 & G2 & _) & L).
  pose proof (history_known _ _ _ n' P H) as (KL & K). pose proof (history_known _ _ _ (S n) P H) as (KL1 & _).
  assert (E : zsum (map (at_ (h n')) (seq 0 (List.length total))) = zsum (map counted (j_len (h n')))).
  { f_equal. apply (nth_ext _ _ 0 0); [rewrite !map_length, seq_length; lia|]. intros i Hi. rewrite map_length, seq_length in Hi.
    rewrite (nth_indep _ 0 (at_ (h n') 0)) by (rewrite map_length, seq_length; exact Hi). rewrite map_nth, seq_nth by exact Hi. cbn [plus].
    rewrite (nth_indep _ 0 (counted Absent)) by (rewrite map_length; lia). rewrite map_nth. unfold at_.
    rewrite (nth_error_nth' (j_len (h n')) Absent) by lia. reflexivity. }
  assert (Nn : forall i, 0 <= at_ (h n') i).
  { intros i. unfold at_. destruct (nth_error (j_len (h n')) i) as [f|] eqn:F; [pose proof (K _ _ F); lia|lia]. }
  split; [split; [lia|]|].
  - rewrite <- E. etransitivity; [exact (proj2 G2)|]. apply zsum_incl.
    + apply glob_NoDup.
    + intros i Hi. apply (proj2 (glob_NoDup _ 0)) in Hi. lia.
    + intros i _. apply Nn.
  - rewrite <- E, <- (zsum_nth total). apply zsum_le. intros i Hi. unfold at_. destruct (nth_error (j_len (h n')) i) as [f|] eqn:F; [pose proof (K _ _ F); lia|apply P].
Qed.
Print Assumptions C87_never_too_many.

(** "Running: False" is only displayed when the lock has been removed, and then the timer is stopped. *)
Theorem C87_running : forall time_start nb_cpus sequential total h clock k n a n',
  (forall i, 0 <= nth i total 0) -> history sequential total h ->
  session time_start nb_cpus h clock k n = Ok (a, n') ->
  a_shown_running a = false -> j_lock (h n') = false /\ a_paused a = true.
Proof.
  intros ts nb sq total h clock k n a n' P H S R. destruct (session_good _ _ _ _ _ _ P H _ _ _ _ S) as ((_ & _ & G3 & G4 & G5 & _) & _).
  rewrite G3 in R. split; [apply G5, R|]. rewrite G4, R. reflexivity.
Qed.
Print Assumptions C87_running.

(** Job ended before the monitor is started: the number of results, the state and the total duration are exact
    (executors based on several processes). *)
Theorem C87_after_end_partial : forall time_start nb_cpus total h clock k n t,
  total <> [] -> (forall i, 0 <= nth i total 0) -> history false total h ->
  j_lock (h n) = false -> j_end (h n) = Has t ->
  exists a n', session time_start nb_cpus h clock k n = Ok (a, n') /\
    a_shown_results a = zsum total /\ a_shown_running a = false /\ a_paused a = true /\
    l_running (a_times a) = false /\ l_duration (a_times a) = t - time_start /\
    l_cost (a_times a) = if zsum total =? 0 then None else Some (inject_Z ((t - time_start) * nb_cpus) / inject_Z (zsum total))%Q.
Proof.
  intros ts nb total h clock k n t NE P H L T.
  assert (L1 : forall m, (n <= m)%nat -> j_lock (h m) = false) by (intros m Hm; apply (proj1 (steps_mono _ _ _ _ (history_le _ _ _ n m H Hm))), L).
  assert (T1 : forall m, (n <= m)%nat -> j_end (h m) = Has t).
  { intros m Hm. destruct (steps_mono _ _ _ _ (history_le _ _ _ n m H Hm)) as (_ & X & _). apply X, T. }
  pose proof (history_known _ _ _ (S n) P H) as (KL & _).
  assert (G : glob_from 0 (j_len (h (S n))) = seq 0 (List.length total)).
  { rewrite <- KL. pose proof (history_ended _ _ (S n) H (L1 (S n) ltac:(lia))) as E. revert E. generalize (j_len (h (S n))) as l. clear.
    intros l E. assert (forall i f, nth_error l i = Some f -> f <> Absent) as E' by (intros i f F; rewrite (E i f F); discriminate). clear E.
    assert (Gn : forall i, glob_from i l = seq i (List.length l)); [|apply Gn]. induction l as [|f l IH]; intros i; [reflexivity|]. cbn [glob_from List.length seq].
    pose proof (E' 0%nat f eq_refl) as N. rewrite (IH (fun i g F => E' (S i) g F) (S i)). destruct f; [congruence|reflexivity|reflexivity]. }
  unfold session, start. rewrite G, L. destruct (seq 0 (List.length total)) as [|p ps] eqn:Es; [destruct total; [congruence|discriminate]|]. rewrite <- Es.
  rewrite (detect_exact total h (S (S n)) _ H); [|apply L1; lia|intros i Hi; apply in_seq in Hi; lia|exact P]. cbn [bind].
  unfold compute_times_str, load_time_max. rewrite (T1 (S (S n) + _)%nat) by lia. rewrite (T1 (S _)) by lia. cbn [bind].
  rewrite zsum_nth. destruct k as [|k]; cbn [ticks a_paused negb]; eexists _, _; (split; [reflexivity|]); cbn; repeat split; reflexivity.
Qed.
Print Assumptions C87_after_end_partial.

(** Monitor started during the job, when the files of all processes existed: an update which starts after the end of the job
    shows the exact number of results and stops the timer. *)
Theorem C87_last_update_partial : forall time_start nb_cpus total h clock n a,
  (forall i, 0 <= nth i total 0) -> history false total h -> j_lock (h n) = false ->
  a_paths a = seq 0 (List.length total) -> (forall m, (n <= m)%nat -> forall t, j_end (h m) <> Empty t) ->
  exists a' n', update_info time_start nb_cpus h clock n a = Ok (a', n') /\
    a_shown_results a' = zsum total /\ a_shown_running a' = false /\ a_paused a' = true.
Proof.
  intros ts nb total h clock n a P H L Pa NEmpty.
  assert (L1 : forall m, (n <= m)%nat -> j_lock (h m) = false) by (intros m Hm; apply (proj1 (steps_mono _ _ _ _ (history_le _ _ _ n m H Hm))), L).
  unfold update_info. rewrite Pa. rewrite (detect_exact total h n _ H L); [|intros i Hi; apply in_seq in Hi; lia|exact P]. cbn [bind].
  rewrite zsum_nth, seq_length. unfold compute_times_str, load_time_max. set (m := (n + List.length total)%nat). assert (Hm : (n <= m)%nat) by (unfold m; lia). clearbody m.
  destruct (a_time_end a) as [t|].
  - cbn [bind]. eexists _, _. split; [reflexivity|]. cbn. rewrite (L1 m) by lia. repeat split; reflexivity.
  - destruct (j_end (h m)) as [|t|t] eqn:E.
    + cbn [bind]. eexists _, _. split; [reflexivity|]. cbn. rewrite (L1 (S m)) by lia. repeat split; reflexivity.
    + exfalso. exact (NEmpty m Hm t E).
    + destruct (steps_mono _ _ _ _ (history_le _ _ _ m (S m) H ltac:(lia))) as (_ & X & _). rewrite (X t E). cbn [bind].
      eexists _, _. split; [reflexivity|]. cbn. rewrite (L1 (S (S m))) by lia. repeat split; reflexivity.
Qed.
Print Assumptions C87_last_update_partial.

(** A process whose file does not exist yet when the monitor is started is never counted, even after the end of the job. *)
Theorem C87_late_process_refuted : forall time_start nb_cpus sequential total h clock k n a n' i,
  (forall i, 0 <= nth i total 0) -> history sequential total h ->
  nth_error (j_len (h (S n))) i = Some Absent ->
  session time_start nb_cpus h clock k n = Ok (a, n') ->
  a_shown_results a <= zsum total - nth i total 0.
Proof.
  intros ts nb sq total h clock k n a n' i P H A Se. destruct (session_good _ _ _ _ _ _ P H _ _ _ _ Se) as ((_ & G2 & _) & _).
  pose proof (history_known _ _ _ n' P H) as (_ & K). pose proof (history_known _ _ _ (S n) P H) as (KL & _).
  assert (I : (i < List.length total)%nat) by (rewrite <- KL; apply nth_error_Some; congruence).
  assert (X : zsum (map (at_ (h n')) (i :: glob_from 0 (j_len (h (S n))))) <= zsum (map (at_ (h n')) (seq 0 (List.length total)))).
  { apply zsum_incl.
    - constructor; [|apply glob_NoDup]. intros X. apply glob_spec in X. destruct X as (f & _ & F & N). rewrite Nat.sub_0_r, A in F. congruence.
    - intros j [<-|J]; [exact I|]. apply (proj2 (glob_NoDup _ 0)) in J. lia.
    - intros j _. unfold at_. destruct (nth_error (j_len (h n')) j) as [f|] eqn:F; [pose proof (K _ _ F); lia|lia]. }
  set (f := fun j => if (j =? i)%nat then 0 else nth j total 0).
  assert (Y : zsum (map (at_ (h n')) (glob_from 0 (j_len (h (S n))))) <= zsum (map f (glob_from 0 (j_len (h (S n)))))).
  { apply zsum_le. intros j J. unfold f. destruct (Nat.eqb_spec j i) as [->|_].
    - exfalso. apply glob_spec in J. destruct J as (g & _ & F & N). rewrite Nat.sub_0_r, A in F. congruence.
    - unfold at_. destruct (nth_error (j_len (h n')) j) as [g|] eqn:F; [pose proof (K _ _ F); lia|apply P]. }
  assert (Z : zsum (map f (glob_from 0 (j_len (h (S n))))) <= zsum (map f (seq 0 (List.length total)))).
  { apply zsum_incl; [apply glob_NoDup| |].
    - intros j J. apply (proj2 (glob_NoDup _ 0)) in J. lia.
    - intros j _. unfold f. destruct (j =? i)%nat; [lia|apply P]. }
  assert (W : zsum (map f (seq 0 (List.length total))) = zsum total - nth i total 0).
  { rewrite <- (zsum_nth total). destruct (in_split i (seq 0 (List.length total))) as (a1 & a2 & E); [apply in_seq; lia|].
    pose proof (seq_NoDup (List.length total) 0) as ND. rewrite E in *. apply NoDup_remove_2 in ND. rewrite !map_app, !zsum_app_. cbn [map].
    assert (Q : forall x l, zsum (x :: l) = x + zsum l) by reflexivity. rewrite !Q.
    assert (M : forall l, ~ In i l -> map f l = map (fun k => nth k total 0) l).
    { intros l N. apply map_ext_in. intros j J. unfold f. destruct (Nat.eqb_spec j i); [congruence|reflexivity]. }
    rewrite !M by (intros X'; apply ND, in_app_iff; auto). unfold f at 1. rewrite Nat.eqb_refl. lia. }
  lia.
Qed.
Print Assumptions C87_late_process_refuted.

(** The label always says "Started since ..." in a session which was started during the job, also once the job is ended and
    "Running: False" is displayed. *)
Theorem C87_label_refuted : forall time_start nb_cpus sequential total h clock k n a n',
  (forall i, 0 <= nth i total 0) -> history sequential total h -> j_lock (h n) = true ->
  session time_start nb_cpus h clock k n = Ok (a, n') -> l_running (a_times a) = true.
Proof.
  intros ts nb sq total h clock k n a n' P H L Se. destruct (session_good _ _ _ _ _ _ P H _ _ _ _ Se) as ((_ & _ & _ & _ & _ & G6 & _) & _).
  rewrite G6. exact L.
Qed.
Print Assumptions C87_label_refuted.

(** No file len_results*.txt yet (start of the job), or never (executors exec_async, exec_async_multi, exec_async_servers...): the
    monitor cannot be used. *)
Theorem C87_no_file_refuted : forall time_start nb_cpus h clock k n,
  (forall i f, nth_error (j_len (h (S n))) i = Some f -> f = Absent) ->
  session time_start nb_cpus h clock k n = Err AssertionError.
Proof.
  intros ts nb h clock k n A. unfold session, start. destruct (glob_from 0 (j_len (h (S n)))) as [|p ps] eqn:G; [reflexivity|].
  assert (I : In p (glob_from 0 (j_len (h (S n))))) by (rewrite G; left; reflexivity). apply glob_spec in I.
  destruct I as (f & _ & F & N). destruct (N (A _ _ F)).
Qed.
Print Assumptions C87_no_file_refuted.

(** *** Histories given by a list of states *)
Definition hist (l : list job) (n : nat) : job := nth n l (last l (job_start 0)).
Lemma hist_history sq total j0 l : jsteps sq total (job_start (List.length total)) j0 ->
  (forall n a b, nth_error (j0 :: l) n = Some a -> nth_error (j0 :: l) (S n) = Some b -> jsteps sq total a b) ->
  history sq total (hist (j0 :: l)).
Proof.
  intros S0 H. split; [exact S0|]. intros n. unfold hist. set (d := last (j0 :: l) (job_start 0)).
  destruct (nth_error (j0 :: l) n) as [a|] eqn:A; destruct (nth_error (j0 :: l) (S n)) as [b|] eqn:B.
  - rewrite (nth_error_nth _ _ _ A), (nth_error_nth _ _ _ B). exact (H n a b A B).
  - rewrite (nth_overflow (n := S n) (j0 :: l) d) by (apply nth_error_None; exact B).
    assert (E : nth n (j0 :: l) d = d); [|rewrite E; constructor].
    apply nth_error_None in B. assert (L : (n < List.length (j0 :: l))%nat) by (apply nth_error_Some; congruence).
    unfold d. assert (n = List.length l) as -> by (cbn in *; lia). clear. generalize (job_start 0). revert j0. induction l as [|x l IH]; intros j0 e; [reflexivity|]. exact (IH x e).
  - exfalso. apply nth_error_None in A. assert (S n < List.length (j0 :: l))%nat by (apply nth_error_Some; congruence). lia.
  - rewrite !nth_overflow; [constructor| |]; apply nth_error_None; assumption.
Qed.

Definition run1 (n : Z) : job := mk_job true Absent [Has n].
Lemma steps_to_1 sq : jsteps sq [2] (job_start 1) (run1 1).
Proof.
  eapply jtrans; [apply (JCreate _ _ 0 _ 0); [reflexivity|reflexivity|cbn; lia|reflexivity]|]. cbn.
  eapply jtrans; [apply (JWrite _ _ 0 _ 0); reflexivity|]. cbn.
  eapply jtrans; [apply (JOpen _ _ 0 _ 0 1); [reflexivity|cbn; lia|left; reflexivity]|]. cbn.
  eapply jtrans; [apply (JWrite _ _ 0 _ 1); reflexivity|]. constructor.
Qed.
Lemma steps_open sq : jsteps sq [2] (run1 1) (mk_job true Absent [Empty 2]).
Proof. eapply jtrans; [apply (JOpen _ _ 0 _ 1 2); [reflexivity|cbn; lia|left; reflexivity]|]. constructor. Qed.
Lemma steps_unlock sq : jsteps sq [2] (mk_job true Absent [Empty 2]) (mk_job false Absent [Has 2]).
Proof.
  eapply jtrans; [apply (JWrite _ _ 0 _ 2); reflexivity|]. cbn.
  eapply jtrans; [apply JUnlock; [reflexivity|]|constructor]. intros i f F. destruct i as [|i]; [cbn in *; congruence|destruct i; discriminate].
Qed.
Lemma steps_end_open sq t : jsteps sq [2] (mk_job false Absent [Has 2]) (mk_job false (Empty t) [Has 2]).
Proof. eapply jtrans; [apply JEndOpen; reflexivity|]. constructor. Qed.
Lemma steps_end_write sq t f : jsteps sq [2] (mk_job false (Empty t) [f]) (mk_job false (Has t) [f]).
Proof. eapply jtrans; [apply JEndWrite; reflexivity|]. constructor. Qed.
Lemma steps_ended sq t : jsteps sq [2] (run1 1) (mk_job false (Has t) [Has 2]).
Proof.
  eapply jsteps_app; [apply steps_open|]. eapply jsteps_app; [apply steps_unlock|]. eapply jsteps_app; [apply steps_end_open|]. apply steps_end_write.
Qed.
Ltac hist_cases n A B := destruct n as [|[|[|[|[|[|[|n]]]]]]]; cbn in A, B; try discriminate; injection A as <-; injection B as <-.

(** The number shown can go down during the job: the file is read while it is being rewritten. *)
Theorem C87_decreasing_refuted : exists total h clock a n1 a' n2,
  history false total h /\ start 0 4 h clock 0 = Ok (a, n1) /\ update_info 0 4 h clock n1 a = Ok (a', n2) /\
  j_lock (h n2) = true /\ a_shown_results a' < a_shown_results a.
Proof.
  exists [2], (hist [run1 1; run1 1; run1 1; run1 1; mk_job true Absent [Empty 2]]), Z.of_nat. eexists _, _, _, _. split.
  - apply hist_history; [apply steps_to_1|]. intros n a b A B. hist_cases n A B; try apply steps_open; constructor.
  - split; [vm_compute; reflexivity|]. split; [vm_compute; reflexivity|]. split; [reflexivity|]. vm_compute. reflexivity.
Qed.
Print Assumptions C87_decreasing_refuted.

(** The job ends between the reading of the numbers and the reading of the lock: the display keeps an old number of results,
    for any number of ticks of the timer. *)
Theorem C87_frozen_refuted : exists total h clock a n',
  history false total h /\ (forall k, session 0 4 h clock (S k) 0 = Ok (a, n')) /\
  j_lock (h n') = false /\ a_shown_running a = false /\ a_shown_results a < zsum total.
Proof.
  set (E := mk_job false (Has 9) [Has 2]).
  exists [2], (hist [run1 1; run1 1; run1 1; run1 1; run1 1; run1 1; E]), Z.of_nat. eexists _, _. split.
  - apply hist_history; [apply steps_to_1|]. intros n a b A B. hist_cases n A B; try apply steps_ended; constructor.
  - split; [intros k; cbn; destruct k; reflexivity|]. split; [reflexivity|]. split; [reflexivity|]. vm_compute. reflexivity.
Qed.
Print Assumptions C87_frozen_refuted.

(** time_end.txt is read while it is being written: ValueError. *)
Theorem C87_crash_refuted : exists total h clock, history false total h /\ forall k, session 0 4 h clock k 0 = Err ValueError.
Proof.
  exists [2], (hist [mk_job false (Empty 9) [Has 2]]), Z.of_nat. split.
  - apply hist_history; [|intros n a b A B; destruct n as [|[|n]]; discriminate].
    eapply jsteps_app; [apply steps_to_1|]. eapply jsteps_app; [apply steps_open|]. eapply jsteps_app; [apply steps_unlock|]. apply steps_end_open.
  - intros k. reflexivity.
Qed.
Print Assumptions C87_crash_refuted.

(** The monitor is started when the lock is removed and time_end.txt not yet written: the duration displayed for ever depends
    on the clock of the monitor, not on the end of the job. *)
Theorem C87_duration_refuted : forall late, 1 <= late -> exists total h clock a n',
  history false total h /\ (forall k, session 0 4 h clock k 0 = Ok (a, n')) /\
  l_running (a_times a) = false /\ l_duration (a_times a) = late /\ j_end (h n') = Has 0.
Proof.
  intros late _. exists [2], (hist (repeat (mk_job false Absent [Has 2]) 4 ++ [mk_job false (Has 0) [Has 2]])), (fun _ => late). eexists _, _. split.
  - apply hist_history; [eapply jsteps_app; [apply steps_to_1|]; eapply jsteps_app; [apply steps_open|apply steps_unlock]|].
    intros n a b A B. hist_cases n A B; try (eapply jsteps_app; [apply steps_end_open|apply steps_end_write]); constructor.
  - split; [intros k; cbn; destruct k; reflexivity|]. cbn. split; [reflexivity|]. split; [apply Z.sub_0_r|reflexivity].
Qed.
Print Assumptions C87_duration_refuted.

(** The sequential executor writes its number of results once more after it has removed the lock: a monitor started then
    shows 0 results for a finished job. *)
Theorem C87_sequential_refuted : exists total h clock a n',
  history true total h /\ j_lock (h 0%nat) = false /\ (forall k, session 0 4 h clock k 0 = Ok (a, n')) /\
  a_shown_results a = 0 /\ a_paused a = true /\ zsum total = 2.
Proof.
  exists [2], (hist [mk_job false (Has 9) [Empty 2]]), Z.of_nat. eexists _, _. split.
  - apply hist_history; [|intros n a b A B; destruct n as [|[|n]]; discriminate].
    eapply jsteps_app; [apply steps_to_1|]. eapply jsteps_app; [apply (steps_ended true 9)|].
    eapply jtrans; [apply (JOpen _ _ 0 _ 2 2); [reflexivity|cbn; lia|right; reflexivity]|]. constructor.
  - split; [reflexivity|]. split; [intros k; cbn; destruct k; reflexivity|]. repeat split; reflexivity.
Qed.
Print Assumptions C87_sequential_refuted.

(** *** Examples: the hypotheses of the theorems above are met *)
Example C87_after_end_example : exists h a n',
  history false [2] h /\ j_lock (h 0%nat) = false /\ j_end (h 0%nat) = Has 9 /\
  session 0 4 h Z.of_nat 3 0 = Ok (a, n') /\ a_shown_results a = 2 /\ l_duration (a_times a) = 9.
Proof.
  exists (hist [mk_job false (Has 9) [Has 2]]). eexists _, _. split; [|repeat split; vm_compute; reflexivity].
  apply hist_history; [eapply jsteps_app; [apply steps_to_1|apply (steps_ended false 9)]|intros n a b A B; destruct n as [|[|n]]; discriminate].
Qed.
(** two processes: the second starts after the monitor *)
Example C87_late_process_example : exists h a n',
  history false [0; 5] h /\ nth_error (j_len (h 1%nat)) 1 = Some Absent /\ session 0 4 h Z.of_nat 3 0 = Ok (a, n') /\
  a_shown_results a = 0.
Proof.
  exists (hist [mk_job true Absent [Has 0; Absent]]). eexists _, _. split.
  - apply hist_history; [|intros n a b A B; destruct n as [|[|n]]; discriminate]. cbn.
    eapply jtrans; [apply (JCreate _ _ 0 _ 0); [reflexivity|reflexivity|cbn; lia|reflexivity]|]. cbn.
    eapply jtrans; [apply (JWrite _ _ 0 _ 0); reflexivity|]. constructor.
  - split; [reflexivity|]. split; vm_compute; reflexivity.
Qed.
Example C87_last_update_example : exists h a n1 a' n2,
  history false [2] h /\ start 0 4 h Z.of_nat 0 = Ok (a, n1) /\ j_lock (h n1) = false /\ a_paths a = seq 0 1 /\
  update_info 0 4 h Z.of_nat n1 a = Ok (a', n2) /\ a_shown_results a = 1 /\ a_shown_results a' = 2.
Proof.
  exists (hist [run1 1; run1 1; run1 1; run1 1; mk_job false (Has 9) [Has 2]]). eexists _, _, _, _. split.
  - apply hist_history; [apply steps_to_1|]. intros n a b A B. hist_cases n A B; try apply steps_ended; constructor.
  - repeat split; vm_compute; reflexivity.
Qed.

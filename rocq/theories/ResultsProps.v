(** C19: the files recording the results of a worker process. *)
From Verif Require Import PyBase StrModel StrProofs FsModel LifeModel ResultsModel.

Section Spec.
Variable path_name : chars -> chars.

(** ** Specification *)

(** The name under which a result is recorded. *)
Definition name_of (r : rval) : chars :=
  match r with RStr s => path_name s | RNamed n => n | ROther s => s end.

(** All results are of the same kind (as in all topologies: paths for PIV, BOS and the
    preprocessing, str for image2image, integers for the mean image). *)
Definition same_kind (l : list rval) : Prop :=
  (forall r, In r l -> exists s, r = RStr s) \/
  (forall r, In r l -> exists s, r = RNamed s) \/
  (forall r, In r l -> exists s, r = ROther s).

(** A file with one name per line. *)
Definition lines (names : list chars) : chars :=
  List.concat (map (fun n => n ++ [newline]) names).

(** No result is appended between the two reads of topology.results by a save. *)
Fixpoint no_race (s : rst) (l : list rstep) : Prop :=
  match l with
  | [] => True
  | e :: l' =>
    match e, r_pc s with
    | RAppend _, Sliced _ => False
    | _, _ => True
    end /\
    match r_do path_name s e with Ok s' => no_race s' l' | Err _ => True end
  end.

(** [sub l1 l2]: l1 is obtained from l2 by deleting elements (same order, nothing repeated). *)
Inductive sub {A} : list A -> list A -> Prop :=
| sub_nil : sub [] []
| sub_skip a l1 l2 : sub l1 l2 -> sub l1 (a :: l2)
| sub_keep a l1 l2 : sub l1 l2 -> sub (a :: l1) (a :: l2).

(** The results appended by a history. *)
Definition appended (l : list rstep) : list rval :=
  flat_map (fun e => match e with RAppend r => [r] | RSave => [] end) l.

(** ** Proofs *)
Lemma text_lines names : names <> [] -> text_of_names names = lines names.
Proof.
  unfold text_of_names, lines. intros H. induction names as [|n [|m names] IH]; [contradiction| |].
  - cbn [join map List.concat]. rewrite app_nil_r. reflexivity.
  - cbn [join map List.concat] in *. rewrite <- IH by discriminate. rewrite <- !app_assoc. reflexivity.
Qed.

Lemma lines_app a b : lines (a ++ b) = lines a ++ lines b.
Proof. unfold lines. rewrite map_app, concat_app. reflexivity. Qed.

Lemma same_kind_incl l l' : incl l' l -> same_kind l -> same_kind l'.
Proof. intros I [H|[H|H]]; [left|right;left|right;right]; intros r Hr; apply H, I, Hr. Qed.

Lemma map_result_ok {A B} (f : A -> result B) (g : A -> B) l :
  (forall a, In a l -> f a = Ok (g a)) -> map_result f l = Ok (map g l).
Proof.
  induction l as [|a l IH]; intros H; [reflexivity|]. cbn [map_result map].
  rewrite H by (left; reflexivity). cbn [bind]. rewrite IH; [reflexivity|].
  intros b Hb. apply H. right; exact Hb.
Qed.

Lemma new_names_ok l : same_kind l -> new_names path_name l = Ok (map name_of l).
Proof.
  intros K. destruct l as [|r l]; [reflexivity|].
  destruct K as [H|[H|H]].
  - destruct (H r (or_introl eq_refl)) as (s & ->). unfold new_names. apply map_result_ok.
    intros a Ha. destruct (H a Ha) as (t & ->). reflexivity.
  - destruct (H r (or_introl eq_refl)) as (s & ->). unfold new_names. apply map_result_ok.
    intros a Ha. destruct (H a Ha) as (t & ->). reflexivity.
  - destruct (H r (or_introl eq_refl)) as (s & ->). unfold new_names. f_equal.
    apply map_ext_in. intros a Ha. destruct (H a Ha) as (t & ->). reflexivity.
Qed.

(** the results being saved *)
Definition pending (s : rst) : list rval :=
  match r_pc s with Idle => [] | Sliced n | Counted n | LenSaved n => n end.

Lemma run_snoc l e s : r_run path_name (l ++ [e]) s =
  do s' <- r_run path_name l s ; r_do path_name s' e.
Proof.
  unfold r_run. revert s. induction l as [|a l IH]; intros s; cbn [app py_for bind].
  - destruct (r_do path_name s e); reflexivity.
  - destruct (r_do path_name s a); [apply IH|reflexivity].
Qed.

Lemma run_results l : forall s s', r_run path_name l s = Ok s' -> r_results s' = r_results s ++ appended l.
Proof.
  induction l as [|e l IH]; intros s s'; cbn [r_run py_for].
  - intros [= <-]. cbn. rewrite app_nil_r. reflexivity.
  - destruct (r_do path_name s e) as [s1|] eqn:E; [|discriminate]. intros H. apply IH in H. rewrite H.
    assert (E1 : r_results s1 = r_results s ++ appended [e]).
    { revert E. unfold r_do. destruct e as [r|]; [intros [= <-]; reflexivity|].
      cbn [appended flat_map app]. rewrite app_nil_r.
      destruct (r_pc s) as [|n|n|[|r n]]; try (intros [= <-]; reflexivity).
      destruct (new_names path_name (r :: n)); cbn [bind]; [|discriminate]. intros [= <-]; reflexivity. }
    rewrite E1, <- app_assoc. f_equal. cbn [appended flat_map]. rewrite app_nil_r. reflexivity.
Qed.

(** Invariant without race. *)
Definition inv (s : rst) : Prop :=
  (r_saved s <= List.length (r_results s))%nat /\
  match r_pc s with
  | Idle => r_names s = lines (map name_of (firstn (r_saved s) (r_results s))) /\
            r_len s = py_str (Z.of_nat (r_saved s)) ++ [newline]
  | Sliced n => n = skipn (r_saved s) (r_results s) /\
                r_names s = lines (map name_of (firstn (r_saved s) (r_results s))) /\
                r_len s = py_str (Z.of_nat (r_saved s)) ++ [newline]
  | Counted n => exists m, (m <= r_saved s)%nat /\ n = skipn m (firstn (r_saved s) (r_results s)) /\
                   r_names s = lines (map name_of (firstn m (r_results s))) /\
                   r_len s = py_str (Z.of_nat m) ++ [newline]
  | LenSaved n => exists m, (m <= r_saved s)%nat /\ n = skipn m (firstn (r_saved s) (r_results s)) /\
                   r_names s = lines (map name_of (firstn m (r_results s))) /\
                   r_len s = py_str (Z.of_nat (r_saved s)) ++ [newline]
  end.

Lemma firstn_snoc_le {A} n (l : list A) r : (n <= List.length l)%nat -> firstn n (l ++ [r]) = firstn n l.
Proof. intros H. rewrite firstn_app. replace (n - List.length l)%nat with O by lia. cbn. apply app_nil_r. Qed.

Lemma inv_do s e s' : same_kind (r_results s) -> inv s ->
  match e, r_pc s with RAppend _, Sliced _ => False | _, _ => True end ->
  r_do path_name s e = Ok s' -> inv s'.
Proof.
  intros K (Le & I) NR. unfold r_do. destruct e as [r|].
  - intros [= <-]. unfold inv. cbn [r_saved r_results r_pc r_names r_len].
    split; [rewrite app_length; lia|].
    destruct (r_pc s) as [|n|n|n]; [| contradiction NR | |].
    + rewrite firstn_snoc_le by exact Le. exact I.
    + destruct I as (m & Hm & Hn & Hf & Hl). exists m. rewrite !firstn_snoc_le by lia. repeat split; assumption.
    + destruct I as (m & Hm & Hn & Hf & Hl). exists m. rewrite !firstn_snoc_le by lia. repeat split; assumption.
  - destruct (r_pc s) as [|n|n|n] eqn:P.
    + intros [= <-]. unfold inv. cbn [r_saved r_results r_pc r_names r_len]. split; [exact Le|].
      split; [reflexivity|exact I].
    + intros [= <-]. unfold inv. cbn [r_saved r_results r_pc r_names r_len]. split; [lia|].
      exists (r_saved s). rewrite firstn_all. destruct I as (A & B & C). repeat split; [exact Le|exact A|exact B|exact C].
    + intros [= <-]. unfold inv. cbn [r_saved r_results r_pc r_names r_len]. split; [exact Le|].
      destruct I as (m & Hm & Hn & Hf & _). exists m. repeat split; assumption.
    + destruct I as (m & Hm & Hn & Hf & Hl).
      assert (Split : firstn (r_saved s) (r_results s) = firstn m (r_results s) ++ n).
      { rewrite Hn. rewrite <- (firstn_skipn m (firstn (r_saved s) (r_results s))) at 1.
        f_equal. rewrite firstn_firstn. f_equal. lia. }
      destruct n as [|r n].
      * intros [= <-]. unfold inv. cbn [r_saved r_results r_pc r_names r_len]. split; [exact Le|].
        rewrite Split, app_nil_r. split; assumption.
      * rewrite new_names_ok.
        2:{ eapply same_kind_incl; [|exact K]. rewrite Hn. intros a Ha.
            rewrite <- (firstn_skipn (r_saved s) (r_results s)). apply in_or_app. left.
            rewrite <- (firstn_skipn m (firstn (r_saved s) (r_results s))). apply in_or_app. right; exact Ha. }
        cbn [bind]. intros [= <-]. unfold inv. cbn [r_saved r_results r_pc r_names r_len]. split; [exact Le|].
        rewrite text_lines by discriminate. rewrite Split, map_app, lines_app, Hf. split; [reflexivity|exact Hl].
Qed.

Lemma inv_run l : forall s s', same_kind (r_results s ++ appended l) -> inv s -> no_race s l ->
  r_run path_name l s = Ok s' -> inv s'.
Proof.
  induction l as [|e l IH]; intros s s' K I NR; cbn [r_run py_for].
  - intros [= <-]. exact I.
  - cbn [no_race] in NR. destruct NR as (N1 & N2).
    destruct (r_do path_name s e) as [s1|] eqn:E; [|discriminate]. intros H.
    assert (R1 : r_results s1 = r_results s ++ appended [e]).
    { apply (run_results [e] s s1). cbn [r_run py_for]. rewrite E. reflexivity. }
    apply (IH s1 s'); [| |exact N2|exact H].
    + rewrite R1, <- app_assoc. cbn [appended flat_map] in *. rewrite app_nil_r. exact K.
    + eapply inv_do; [|exact I|exact N1|exact E].
      eapply same_kind_incl; [|exact K]. intros a Ha. apply in_or_app. left; exact Ha.
Qed.

Lemma inv_init : inv r_init.
Proof. split; [cbn; lia|]. split; reflexivity. Qed.

(** ** Theorems *)

(** Without race, for every history: each time no save is in progress, the file of the names
    records exactly the first [n] results, once and in order, and the other file contains
    [n]; after a save, [n] is the number of results. *)
Theorem C19_no_race_partial : forall l s,
  same_kind (appended l) -> no_race r_init l ->
  r_run path_name l r_init = Ok s -> r_pc s = Idle ->
  exists n, (n <= List.length (appended l))%nat /\
    r_names s = lines (map name_of (firstn n (appended l))) /\
    r_len s = py_str (Z.of_nat n) ++ [newline].
Proof.
  intros l s K NR H P. pose proof (run_results _ _ _ H) as R. cbn [r_init r_results app] in R.
  destruct (inv_run l r_init s K inv_init NR H) as (Le & I). rewrite P in I. rewrite R in *.
  exists (r_saved s). repeat split; [exact Le|apply I|apply I].
Qed.

Theorem C19_save_is_complete : forall l s,
  same_kind (appended l) -> no_race r_init l ->
  r_run path_name l r_init = Ok s -> r_pc s = Idle ->
  exists s', r_run path_name [RSave; RSave; RSave; RSave] s = Ok s' /\ r_pc s' = Idle /\
    r_names s' = lines (map name_of (appended l)) /\
    r_len s' = py_str (Z.of_nat (List.length (appended l))) ++ [newline].
Proof.
  intros l s K NR H P. pose proof (run_results _ _ _ H) as R. cbn [r_init r_results app] in R.
  destruct (inv_run l r_init s K inv_init NR H) as (Le & I). rewrite P in I.
  destruct I as (I1 & I2).
  assert (Full : lines (map name_of (firstn (r_saved s) (r_results s))) ++
                 lines (map name_of (skipn (r_saved s) (r_results s))) = lines (map name_of (r_results s))).
  { rewrite <- lines_app, <- map_app, firstn_skipn. reflexivity. }
  cbn [r_run py_for]. unfold r_do. rewrite P. cbn [r_pc r_results r_saved r_names r_len].
  destruct (skipn (r_saved s) (r_results s)) as [|r n] eqn:Sk.
  - eexists. split; [reflexivity|]. cbn [r_pc r_results r_saved r_names r_len].
    split; [reflexivity|]. rewrite R in *. split; [|reflexivity].
    rewrite I1. rewrite <- Full. cbn. rewrite app_nil_r. reflexivity.
  - rewrite new_names_ok.
    2:{ eapply same_kind_incl; [|exact K]. rewrite <- R. intros a Ha. rewrite <- Sk in Ha.
        rewrite <- (firstn_skipn (r_saved s) (r_results s)). apply in_or_app; right; exact Ha. }
    cbn [bind]. eexists. split; [reflexivity|]. cbn [r_pc r_results r_saved r_names r_len].
    split; [reflexivity|]. rewrite text_lines by discriminate. rewrite I1, Full, R. split; reflexivity.
Qed.

(** Crash: at every instant (also in the middle of a save), without race, the file of the names
    records the first [n] results, once and in order, for some [n]. *)
Theorem C19_crash_prefix_partial : forall l s,
  same_kind (appended l) -> no_race r_init l -> r_run path_name l r_init = Ok s ->
  exists n, (n <= List.length (appended l))%nat /\
    r_names s = lines (map name_of (firstn n (appended l))).
Proof.
  intros l s K NR H. pose proof (run_results _ _ _ H) as R. cbn [r_init r_results app] in R.
  destruct (inv_run l r_init s K inv_init NR H) as (Le & I). rewrite R in *.
  destruct (r_pc s) as [|n|n|n].
  - exists (r_saved s). split; [exact Le|apply I].
  - exists (r_saved s). split; [exact Le|apply I].
  - destruct I as (m & Hm & _ & Hf & _). exists m. split; [lia|exact Hf].
  - destruct I as (m & Hm & _ & Hf & _). exists m. split; [lia|exact Hf].
Qed.

(** For all interleavings (races included) the names in the file are names of results, in
    order, none repeated: names can only be missing. *)
Lemma sub_refl {A} (l : list A) : sub l l.
Proof. induction l; constructor; assumption. Qed.
Lemma sub_app {A} (a b c d : list A) : sub a b -> sub c d -> sub (a ++ c) (b ++ d).
Proof. intros H H2. induction H; cbn [app]; [exact H2|apply sub_skip|apply sub_keep]; assumption. Qed.
Lemma sub_nil_l {A} (l : list A) : sub [] l.
Proof. induction l; constructor; assumption. Qed.

(** Seen from a point of the history where the saved results are [base] and the file of the
    names contains [pre]. *)
Definition inv_race (base : list rval) (pre : chars) (s : rst) : Prop :=
  exists tail m kept,
  r_results s = base ++ tail /\ r_saved s = (List.length base + m)%nat /\
  (m <= List.length tail)%nat /\
  r_names s = pre ++ lines (map name_of kept) /\
  match r_pc s with
  | Idle => sub kept (firstn m tail)
  | Sliced n => sub kept (firstn m tail) /\ exists rest, tail = firstn m tail ++ n ++ rest
  | Counted n | LenSaved n => sub (kept ++ n) (firstn m tail) /\ incl n tail
  end.

Lemma race_do base pre s e s' :
  (forall tail, r_results s = base ++ tail -> same_kind tail) -> inv_race base pre s ->
  r_do path_name s e = Ok s' -> inv_race base pre s'.
Proof.
  intros K (tail & m & kept & R & Sv & Le & Hk & I). specialize (K tail R). unfold r_do. destruct e as [r|].
  - intros [= <-]. unfold inv_race. cbn [r_saved r_results r_pc r_names r_len].
    exists (tail ++ [r]), m, kept. rewrite R, <- app_assoc, app_length.
    split; [reflexivity|]. split; [exact Sv|]. split; [lia|]. split; [exact Hk|].
    destruct (r_pc s) as [|n|n|n]; rewrite ?firstn_snoc_le by exact Le.
    + exact I.
    + destruct I as (A & rest & B). split; [exact A|]. exists (rest ++ [r]). rewrite B at 1.
      rewrite <- !app_assoc. reflexivity.
    + destruct I as (A & B). split; [exact A|]. intros a Ha. apply in_or_app. left. apply B, Ha.
    + destruct I as (A & B). split; [exact A|]. intros a Ha. apply in_or_app. left. apply B, Ha.
  - destruct (r_pc s) as [|n|n|n] eqn:P.
    + intros [= <-]. unfold inv_race. cbn [r_saved r_results r_pc r_names r_len].
      exists tail, m, kept. split; [exact R|]. split; [exact Sv|]. split; [exact Le|]. split; [exact Hk|].
      split; [exact I|]. exists []. rewrite app_nil_r. rewrite R, Sv, skipn_app.
      rewrite skipn_all2 by lia. replace (List.length base + m - List.length base)%nat with m by lia.
      cbn [app]. rewrite firstn_skipn. reflexivity.
    + intros [= <-]. unfold inv_race. cbn [r_saved r_results r_pc r_names r_len].
      exists tail, (List.length tail), kept. split; [exact R|].
      split; [rewrite R, app_length; reflexivity|]. split; [lia|]. split; [exact Hk|].
      destruct I as (A & rest & B). rewrite firstn_all. split.
      * rewrite B. rewrite app_assoc. rewrite <- (app_nil_r (kept ++ n)).
        apply sub_app; [|apply sub_nil_l]. apply sub_app; [exact A|apply sub_refl].
      * rewrite B. intros a Ha. apply in_or_app; right. apply in_or_app; left; exact Ha.
    + intros [= <-]. unfold inv_race. cbn [r_saved r_results r_pc r_names r_len].
      exists tail, m, kept. repeat split; try assumption; apply I.
    + destruct n as [|r n].
      * intros [= <-]. unfold inv_race. cbn [r_saved r_results r_pc r_names r_len].
        exists tail, m, kept. split; [exact R|]. split; [exact Sv|]. split; [exact Le|]. split; [exact Hk|].
        destruct I as (A & _). rewrite app_nil_r in A. exact A.
      * destruct I as (A & B).
        rewrite new_names_ok by (eapply same_kind_incl; [exact B|exact K]). cbn [bind].
        intros [= <-]. unfold inv_race. cbn [r_saved r_results r_pc r_names r_len].
        exists tail, m, (kept ++ r :: n). split; [exact R|]. split; [exact Sv|]. split; [exact Le|].
        split; [|exact A].
        rewrite text_lines by discriminate. rewrite map_app, lines_app, Hk, <- app_assoc. reflexivity.
Qed.

Lemma race_run base pre l : forall s s',
  (forall tail, r_results s = base ++ tail -> same_kind (tail ++ appended l)) -> inv_race base pre s ->
  r_run path_name l s = Ok s' -> inv_race base pre s'.
Proof.
  induction l as [|e l IH]; intros s s' K I; cbn [r_run py_for].
  - intros [= <-]. exact I.
  - destruct (r_do path_name s e) as [s1|] eqn:E; [|discriminate]. intros H.
    assert (R1 : r_results s1 = r_results s ++ appended [e]).
    { apply (run_results [e] s s1). cbn [r_run py_for]. rewrite E. reflexivity. }
    apply (IH s1 s'); [| |exact H].
    + intros tail Ht. destruct I as (tl0 & _ & _ & R & _). specialize (K tl0 R).
      rewrite R1, R, <- app_assoc in Ht. apply app_inv_head in Ht. subst tail.
      rewrite <- app_assoc. cbn [appended flat_map] in *. rewrite app_nil_r. exact K.
    + eapply race_do; [|exact I|exact E]. intros tail Ht.
      eapply same_kind_incl; [|exact (K tail Ht)]. intros a Ha. apply in_or_app. left; exact Ha.
Qed.

Lemma race_init : inv_race [] [] r_init.
Proof. exists [], 0%nat, []. repeat split; try (cbn; lia). constructor. Qed.

Lemma race_kept base pre s : inv_race base pre s ->
  exists tail kept, r_results s = base ++ tail /\ sub kept tail /\ r_names s = pre ++ lines (map name_of kept).
Proof.
  intros (tail & m & kept & R & _ & Le & Hk & I). exists tail, kept. split; [exact R|]. split; [|exact Hk].
  assert (F : sub (firstn m tail) tail).
  { rewrite <- (firstn_skipn m tail) at 2. rewrite <- (app_nil_r (firstn _ _)) at 1.
    apply sub_app; [apply sub_refl|apply sub_nil_l]. }
  assert (Tr : forall a b : list rval, sub a b -> sub b tail -> sub a tail).
  { clear. intros a b H1 H2. revert a H1. induction H2 as [|x l1 l2 H IH|x l1 l2 H IH]; intros a H1.
    - exact H1.
    - apply sub_skip, IH, H1.
    - inversion H1; subst; [apply sub_skip, IH; assumption|apply sub_keep, IH; assumption]. }
  assert (L : forall n, sub kept (kept ++ n)).
  { intros n. rewrite <- (app_nil_r kept) at 1. apply sub_app; [apply sub_refl|apply sub_nil_l]. }
  destruct (r_pc s) as [|n|n|n].
  - eapply Tr; eassumption.
  - eapply Tr; [apply I|exact F].
  - eapply Tr; [apply L|]. eapply Tr; [apply I|exact F].
  - eapply Tr; [apply L|]. eapply Tr; [apply I|exact F].
Qed.

Theorem C19_never_repeats : forall l s,
  same_kind (appended l) -> r_run path_name l r_init = Ok s ->
  exists kept, sub kept (appended l) /\ r_names s = lines (map name_of kept).
Proof.
  intros l s K H. pose proof (run_results _ _ _ H) as R. cbn [r_init r_results app] in R.
  assert (I : inv_race [] [] s).
  { eapply race_run; [|apply race_init|exact H]. cbn. intros tail <-. exact K. }
  destruct (race_kept _ _ _ I) as (tail & kept & R1 & S1 & N1). cbn [app] in R1, N1.
  exists kept. split; [|exact N1]. rewrite <- R, R1. exact S1.
Qed.

(** A result which has not been recorded when the counter has passed it is never recorded:
    what is written afterwards are names of results appended afterwards. *)
Theorem C19_lost_for_ever : forall l s s',
  r_run path_name l s = Ok s' -> r_pc s = Idle -> r_saved s = List.length (r_results s) ->
  same_kind (appended l) ->
  exists kept, sub kept (appended l) /\ r_names s' = r_names s ++ lines (map name_of kept).
Proof.
  intros l s s' H P Sv K. pose proof (run_results _ _ _ H) as R.
  assert (I : inv_race (r_results s) (r_names s) s').
  { eapply race_run; [| |exact H].
    - intros tail Ht. rewrite <- (app_nil_r (r_results s)) in Ht at 1. apply app_inv_head in Ht.
      subst tail. exact K.
    - exists [], 0%nat, []. rewrite P, !app_nil_r, Nat.add_0_r. repeat split; try assumption; try (cbn; lia).
      constructor. }
  destruct (race_kept _ _ _ I) as (tail & kept & R1 & S1 & N1). rewrite R in R1. apply app_inv_head in R1.
  subst tail. exists kept. split; assumption.
Qed.

End Spec.
Print Assumptions C19_no_race_partial.
Print Assumptions C19_save_is_complete.
Print Assumptions C19_crash_prefix_partial.
Print Assumptions C19_never_repeats.
Print Assumptions C19_lost_for_ever.

(** No history stops with an exception when the results are of the same kind. *)
Theorem C19_no_exception : forall path_name l,
  same_kind (appended l) -> exists s, r_run path_name l r_init = Ok s.
Proof.
  intros path_name l. induction l as [|e l IH] using rev_ind; intros K; [eexists; reflexivity|].
  assert (Ka : appended (l ++ [e]) = appended l ++ appended [e]) by (unfold appended; rewrite flat_map_app; reflexivity).
  rewrite Ka in K.
  assert (K1 : same_kind (appended l)).
  { eapply same_kind_incl; [|exact K]; intros a Ha; apply in_or_app; left; exact Ha. }
  destruct (IH K1) as (s & H).
  rewrite run_snoc, H. cbn [bind]. pose proof (run_results _ _ _ _ H) as R. cbn [r_init r_results app] in R.
  unfold r_do. destruct e as [r|]; [eexists; reflexivity|].
  destruct (r_pc s) as [|n|n|[|r n]] eqn:P; try (eexists; reflexivity).
  assert (I : inv_race path_name [] [] s).
  { eapply race_run; [|apply race_init|exact H]. cbn. intros tail <-. exact K1. }
  destruct I as (tail & m & kept & R1 & _ & _ & _ & I). rewrite P in I.
  rewrite new_names_ok; [eexists; reflexivity|]. eapply same_kind_incl; [apply I|].
  cbn [app] in R1. rewrite <- R1, R. exact K1.
Qed.
Print Assumptions C19_no_exception.

(** ** What fails *)

(** Race: a result appended between the two reads is not recorded although two complete
    saves follow, and (previous theorem) never will be. *)
Theorem C19_race_refuted : exists l s,
  r_run (fun x => x) l r_init = Ok s /\ r_pc s = Idle /\ r_saved s = List.length (r_results s) /\
  appended l = [RNamed (of_string "piv_000.h5")] /\
  r_names s = [] /\ r_len s = of_string "1" ++ [newline].
Proof.
  exists [RSave; RAppend (RNamed (of_string "piv_000.h5")); RSave; RSave; RSave;
          RSave; RSave; RSave; RSave; RSave; RSave; RSave; RSave].
  eexists. vm_compute. repeat split; reflexivity.
Qed.
Print Assumptions C19_race_refuted.

(** Crash: killed between the two writes, the number of results is larger than the number of
    names, although no result was appended during the save. *)
Theorem C19_crash_refuted : exists l s,
  no_race (fun x => x) r_init l /\ r_run (fun x => x) l r_init = Ok s /\
  r_len s = of_string "2" ++ [newline] /\ r_names s = [].
Proof.
  exists [RAppend (RNamed (of_string "piv_000.h5")); RAppend (RNamed (of_string "piv_001.h5"));
          RSave; RSave; RSave].
  eexists. vm_compute. repeat split; reflexivity.
Qed.
Print Assumptions C19_crash_refuted.

(** A topology whose results are of two kinds makes the save raise. *)
Theorem C19_mixed_kinds_refuted : exists l,
  r_run (fun x => x) l r_init = Err AttributeError.
Proof.
  exists [RAppend (RNamed (of_string "a")); RAppend (ROther (of_string "1")); RSave; RSave; RSave; RSave].
  vm_compute. reflexivity.
Qed.
Print Assumptions C19_mixed_kinds_refuted.

(** Example for the hypotheses of the positive theorems: two saves, results in between. *)
Definition ex_hist : list rstep :=
  [RAppend (RNamed (of_string "a")); RAppend (RNamed (of_string "b"));
   RSave; RSave; RAppend (RNamed (of_string "c")); RSave; RSave;
   RAppend (RNamed (of_string "d")); RSave; RSave; RSave; RSave].
Example C19_example : same_kind (appended ex_hist) /\ no_race (fun x => x) r_init ex_hist /\
  exists s, r_run (fun x => x) ex_hist r_init = Ok s /\ r_pc s = Idle /\
    r_names s = lines (map of_string ["a"; "b"; "c"; "d"]%string) /\ r_len s = of_string "4" ++ [newline].
Proof.
  split; [|split].
  - right; left. intros r. cbn. intros H.
    repeat destruct H as [<-|H]; try (eexists; reflexivity). destruct H.
  - vm_compute. repeat split.
  - eexists. vm_compute. repeat split; reflexivity.
Qed.

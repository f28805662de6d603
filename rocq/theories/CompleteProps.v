(** C23: "complete" computes exactly what is missing. *)
From Verif Require Import PyBase QueueModel QueueProofs ExecModel ExecSpec ExecProps JoinModel JoinSpec JoinProofs
     JoinHistProofs JoinExecProofs JoinRunProofs JoinRunProps CompleteModel.
Require Import Permutation.

(** *** Specification: the missing items *)
Definition missing {I} (result : I -> file) (files : list file) (l : list I) : list I :=
  filter (fun i => if in_dec Nat.eq_dec (result i) files then false else true) l.

Lemma missing_iff {I} (result : I -> file) files l i :
  In i (missing result files l) <-> In i l /\ ~ In (result i) files.
Proof.
  unfold missing. rewrite filter_In. destruct (in_dec Nat.eq_dec (result i) files); intuition discriminate.
Qed.

(** *** Lemmas *)
Lemma exists_file_iff files n : exists_file files n = true <-> In n files.
Proof.
  unfold exists_file. rewrite existsb_exists. split.
  - intros (x & H & E). apply Nat.eqb_eq in E. subst. exact H.
  - intros H. exists n. split; [exact H|apply Nat.eqb_refl].
Qed.

Lemma exists_file_dec files n :
  exists_file files n = if in_dec Nat.eq_dec n files then true else false.
Proof.
  destruct (in_dec Nat.eq_dec n files) as [H|H]; [apply exists_file_iff, H|].
  destruct (exists_file files n) eqn:E; [|reflexivity]. apply exists_file_iff in E. contradiction.
Qed.

Lemma fold_filter {I} (f : I -> bool) l acc :
  fold_left (fun acc i => if f i then acc ++ [i] else acc) l acc = acc ++ filter f l.
Proof.
  revert acc. induction l as [|i l IH]; intros; cbn; [now rewrite app_nil_r|].
  rewrite IH. destruct (f i); [|reflexivity]. now rewrite <- app_assoc.
Qed.

Lemma list_remove_in x l y : NoDup l -> (In y (list_remove x l) <-> In y l /\ y <> x).
Proof.
  induction l as [|z l IH]; intros ND; cbn; [tauto|]. inversion ND as [|? ? Hz ND']; subst.
  destruct (list_eq_dec Z.eq_dec x z) as [->|N].
  - split; [intros H; split; [auto|congruence]|]. intros [[->|H] H']; [congruence|exact H].
  - cbn. rewrite (IH ND'). split; [intros [->|[H1 H2]]; auto|]. intros [[->|H1] H2]; auto.
Qed.

Lemma list_remove_nodup x l : NoDup l -> NoDup (list_remove x l).
Proof.
  induction l as [|z l IH]; intros ND; cbn; [constructor|]. inversion ND as [|? ? Hz ND']; subst.
  destruct (list_eq_dec Z.eq_dec x z); [exact ND'|]. constructor; [|apply IH, ND'].
  intros H. apply list_remove_in in H; tauto.
Qed.

Lemma fold_ext {A B} (f g : A -> B -> A) l a : (forall a b, f a b = g a b) -> fold_left f l a = fold_left g l a.
Proof. intros H. revert a. induction l as [|b l IH]; intros; cbn; [reflexivity|]. rewrite H. apply IH. Qed.

Lemma indices_eq name_of result_name ref all files :
  indices_to_be_computed name_of result_name ref all files
  = fix_indices ref (missing (fun i => result_name (name_of i)) files all).
Proof.
  unfold indices_to_be_computed, missing. f_equal.
  rewrite (fold_ext _ (fun acc i => if (if in_dec Nat.eq_dec (result_name (name_of i)) files then false else true) then acc ++ [i] else acc)).
  - rewrite fold_filter. reflexivity.
  - intros a b. rewrite exists_file_dec. now destruct (in_dec _ _ _).
Qed.

Lemma series_eq result_of inds files :
  series_to_be_computed result_of inds files = missing result_of files inds.
Proof.
  unfold series_to_be_computed, missing.
  rewrite (fold_ext _ (fun acc i => if (if in_dec Nat.eq_dec (result_of i) files then false else true) then acc ++ [i] else acc)).
  - rewrite fold_filter. reflexivity.
  - intros a b. rewrite exists_file_dec. now destruct (in_dec _ _ _).
Qed.

Lemma fill_keys {I V} (key : I -> nat) (val : I -> V) l q :
  NoDup (keys q ++ map key l) ->
  fold_left (fun q i => q_set (key i) (val i) q) l q = q ++ map (fun i => (key i, val i)) l.
Proof.
  revert q. induction l as [|i l IH]; intros q ND; cbn; [now rewrite app_nil_r|].
  cbn in ND. assert (Hi : ~ In (key i) (keys q)).
  { intros H. apply NoDup_remove_2 in ND. apply ND, in_or_app. auto. }
  rewrite q_set_new by exact Hi. rewrite IH.
  - now rewrite <- app_assoc.
  - unfold keys in *. rewrite map_app, <- app_assoc. exact ND.
Qed.

Lemma filter_filter {A} (f g : A -> bool) l : filter f (filter g l) = filter (fun x => g x && f x) l.
Proof.
  induction l as [|x l IH]; [reflexivity|]. cbn. destruct (g x); cbn; [|exact IH].
  destruct (f x); [now rewrite IH|exact IH].
Qed.

Lemma filter_ext_in' {A} (f g : A -> bool) l : (forall x, In x l -> f x = g x) -> filter f l = filter g l.
Proof.
  induction l as [|x l IH]; intros H; [reflexivity|]. cbn. rewrite (H x) by now left.
  rewrite IH; [reflexivity|]. intros; apply H; now right.
Qed.

Lemma remove_filter x l (f : list Z -> bool) : NoDup l ->
  list_remove x (filter f l) = filter f (list_remove x l).
Proof.
  induction l as [|z l IH]; intros ND; [reflexivity|]. inversion ND as [|? ? Hz ND']; subst. cbn.
  destruct (list_eq_dec Z.eq_dec x z) as [->|N].
  - destruct (f z) eqn:F; cbn.
    + destruct (list_eq_dec Z.eq_dec z z); [reflexivity|congruence].
    + clear IH. assert (H : forall l, ~ In z l -> list_remove z l = l).
      { induction l0 as [|y l0 IH]; intros H; [reflexivity|]. cbn. destruct (list_eq_dec Z.eq_dec z y) as [->|M].
        - exfalso. apply H. now left. - f_equal. apply IH. intros K. apply H. now right. }
      apply H. intros K. apply filter_In in K. tauto.
  - destruct (f z) eqn:F; cbn; rewrite F.
    + destruct (list_eq_dec Z.eq_dec x z); [congruence|]. f_equal. apply IH, ND'.
    + apply IH, ND'.
Qed.

Lemma fix_filter ref l (f : list Z -> bool) : NoDup l ->
  fix_indices ref (filter f l) = filter f (fix_indices ref l).
Proof. intros ND. destruct ref as [r|]; [apply remove_filter, ND|reflexivity]. Qed.

Lemma fix_nodup ref l : NoDup l -> NoDup (fix_indices ref l).
Proof. destruct ref; [apply list_remove_nodup|auto]. Qed.
Lemma fix_in ref l i : NoDup l -> (In i (fix_indices ref l) <-> In i l /\ ref <> Some i).
Proof.
  intros ND. destruct ref as [r|]; cbn; [rewrite list_remove_in by exact ND|].
  - split; intros [H1 H2]; (split; [exact H1|]); congruence.
  - split; [intros H; split; [exact H|discriminate]|tauto].
Qed.

Lemma fill_complete name_of result_name path_of ref all in_file files q :
  fill_queue_paths name_of result_name path_of Complete ref all in_file files q
  = fold_left (fun q i => q_set (name_of i) (path_of (name_of i)) q)
              (indices_to_be_computed name_of result_name ref all files) q.
Proof. destruct all; [destruct ref; reflexivity|reflexivity]. Qed.

(** *** Images *)
Section Images.
Variables (name_of : list Z -> file) (result_name : file -> file) (path_of : file -> nat).
Variables (ref : option (list Z)) (all in_file : list (list Z)).
Hypothesis Hall : NoDup all.
Hypothesis Hname : forall i j, In i all -> In j all -> name_of i = name_of j -> i = j.

Let first_queue files := fill_queue_paths name_of result_name path_of Complete ref all in_file files [].

Lemma first_queue_eq files :
  first_queue files = map (fun i => (name_of i, path_of (name_of i)))
                          (missing (fun i => result_name (name_of i)) files (fix_indices ref all)).
Proof.
  unfold first_queue. rewrite fill_complete, indices_eq.
  rewrite (fill_keys name_of (fun i => path_of (name_of i))).
  - cbn. unfold missing. rewrite fix_filter by exact Hall. reflexivity.
  - cbn. unfold missing. rewrite fix_filter by exact Hall.
    assert (H : NoDup (fix_indices ref all)) by (apply fix_nodup, Hall).
    assert (Hi : forall i, In i (fix_indices ref all) -> In i all) by (intros i Hi; apply fix_in in Hi; tauto).
    revert H Hi. generalize (fix_indices ref all). induction l as [|i l IH]; intros ND Hi; cbn; [constructor|].
    inversion ND as [|? ? Hz ND']; subst. destruct (if in_dec _ _ _ then false else true).
    + cbn. constructor; [|apply IH; [exact ND'|intros; apply Hi; now right]].
      intros K. apply in_map_iff in K. destruct K as (j & E & K). apply filter_In in K. destruct K as [K _].
      apply Hname in E; [subst; contradiction|apply Hi; now right|apply Hi; now left].
    + apply IH; [exact ND'|intros; apply Hi; now right].
Qed.

Lemma first_queue_nodup files : NoDup (map fst (first_queue files)).
Proof.
  rewrite first_queue_eq, map_map. cbn.
  assert (H : NoDup (fix_indices ref all)) by (apply fix_nodup, Hall).
  assert (Hi : forall i, In i (fix_indices ref all) -> In i all) by (intros i Hi; apply fix_in in Hi; tauto).
  revert H Hi. generalize (fix_indices ref all). induction l as [|i l IH]; intros ND Hi; cbn; [constructor|].
  inversion ND as [|? ? Hz ND']; subst. destruct (if in_dec _ _ _ then false else true).
  + cbn. constructor; [|apply IH; [exact ND'|intros; apply Hi; now right]].
    intros K. apply in_map_iff in K. destruct K as (j & E & K). apply filter_In in K. destruct K as [K _].
    apply Hname in E; [subst; contradiction|apply Hi; now right|apply Hi; now left].
  + apply IH; [exact ND'|intros; apply Hi; now right].
Qed.

Lemma images_exact files n p :
  In (n, p) (first_queue files) <->
  exists i, In i all /\ ref <> Some i /\ name_of i = n /\ p = path_of n /\ ~ In (result_name n) files.
Proof.
  rewrite first_queue_eq, in_map_iff. split.
  - intros (i & E & H). injection E as <- <-. apply missing_iff in H. destruct H as [H1 H2]. apply fix_in in H1; [|exact Hall].
    exists i. tauto.
  - intros (i & H1 & H2 & <- & -> & H3). exists i. split; [reflexivity|]. apply missing_iff. split; [|exact H3].
    apply fix_in; tauto.
Qed.

Hypothesis Hres : forall i j, In i all -> In j all -> result_name (name_of i) = result_name (name_of j) -> i = j.

Lemma images_resume files done :
  incl done (map fst (first_queue files)) ->
  first_queue (files ++ map result_name done)
  = filter (fun '(n, _) => if in_dec Nat.eq_dec n done then false else true) (first_queue files).
Proof.
  intros Hd. rewrite first_queue_eq.
  assert (Hd' : forall n, In n done -> exists j, In j all /\ name_of j = n).
  { intros n H. apply Hd in H. apply in_map_iff in H. destruct H as ([n' p] & E & H). cbn in E. subst n'.
    apply images_exact in H. destruct H as (i & H1 & _ & H2 & _). eauto. }
  rewrite first_queue_eq.
  assert (Hi : forall i, In i (fix_indices ref all) -> In i all) by (intros i Hi; apply fix_in in Hi; tauto).
  revert Hi. generalize (fix_indices ref all). clear Hd. induction l as [|i l IH]; intros Hi; [reflexivity|].
  cbn [missing filter map]. unfold missing in *. cbn [filter map].
  assert (IH' := IH ltac:(intros; apply Hi; now right)). clear IH.
  assert (Hin : In i all) by (apply Hi; now left).
  destruct (in_dec Nat.eq_dec (result_name (name_of i)) files) as [H|H].
  - destruct (in_dec Nat.eq_dec (result_name (name_of i)) (files ++ map result_name done)) as [K|K]; [exact IH'|].
    exfalso. apply K, in_or_app. now left.
  - cbn [map filter]. destruct (in_dec Nat.eq_dec (result_name (name_of i)) (files ++ map result_name done)) as [K|K].
    + apply in_app_or in K. destruct K as [K|K]; [contradiction|]. apply in_map_iff in K. destruct K as (n & E & K).
      destruct (Hd' n K) as (j & Hj & Ej). subst n. apply Hres in E; [|exact Hj|exact Hin]. subst j.
      destruct (in_dec Nat.eq_dec (name_of i) done); [exact IH'|contradiction].
    + destruct (in_dec Nat.eq_dec (name_of i) done) as [L|L].
      * exfalso. apply K, in_or_app. right. apply in_map, L.
      * cbn [map]. f_equal. exact IH'.
Qed.
End Images.

(** ** Theorems for topologies on images *)

(** Different images have different names and their results different names (C38). *)
Definition distinct_names (name_of : list Z -> file) (result_name : file -> file) (all : list (list Z)) : Prop :=
  NoDup all /\
  (forall i j, In i all -> In j all -> name_of i = name_of j -> i = j) /\
  (forall i j, In i all -> In j all -> result_name (name_of i) = result_name (name_of j) -> i = j).

(** The first queue contains each image without result, once, and nothing else
    ([ref]: the reference image of BOS, never computed). *)
Theorem C23_images_exact : forall name_of result_name path_of ref all in_file files,
  distinct_names name_of result_name all ->
  let q := fill_queue_paths name_of result_name path_of Complete ref all in_file files [] in
  NoDup (map fst q) /\
  forall n p, In (n, p) q <->
    exists i, In i all /\ ref <> Some i /\ name_of i = n /\ p = path_of n /\ ~ In (result_name n) files.
Proof.
  intros name_of result_name path_of ref all in_file files (H1 & H2 & _) q. split.
  - apply first_queue_nodup; assumption.
  - intros. apply images_exact; assumption.
Qed.
Print Assumptions C23_images_exact.

(** Interruption after any set of results: what remains is what has not been saved. *)
Theorem C23_images_resume : forall name_of result_name path_of ref all in_file files done,
  distinct_names name_of result_name all ->
  let q files := fill_queue_paths name_of result_name path_of Complete ref all in_file files [] in
  incl done (map fst (q files)) ->
  q (files ++ map result_name done)
  = filter (fun '(n, _) => if in_dec Nat.eq_dec n done then false else true) (q files).
Proof. intros name_of result_name path_of ref all in_file files done (H1 & H2 & H3) q Hd. apply images_resume; assumption. Qed.
Print Assumptions C23_images_resume.

(** Histories of interrupted executions: each one saves part of what it had to compute. *)
Fixpoint interrupted (q : list file -> queue nat) (result_name : file -> file) (files : list file)
         (runs : list (list file)) : Prop :=
  match runs with
  | [] => True
  | d :: runs' => NoDup d /\ incl d (map fst (q files)) /\ interrupted q result_name (files ++ map result_name d) runs'
  end.

Lemma filter_keep_all {A} (f : A -> bool) l : (forall x, In x l -> f x = true) -> filter f l = l.
Proof.
  induction l as [|x l IH]; intros H; [reflexivity|]. cbn. rewrite (H x) by now left. f_equal. apply IH.
  intros; apply H; now right.
Qed.

(** Whatever the history, no item is computed twice and what remains is exactly what no
    execution has saved. *)
Theorem C23_images_histories : forall name_of result_name path_of ref all in_file files runs,
  distinct_names name_of result_name all ->
  let q files := fill_queue_paths name_of result_name path_of Complete ref all in_file files [] in
  interrupted q result_name files runs ->
  NoDup (List.concat runs) /\
  incl (List.concat runs) (map fst (q files)) /\
  q (files ++ map result_name (List.concat runs))
  = filter (fun '(n, _) => if in_dec Nat.eq_dec n (List.concat runs) then false else true) (q files).
Proof.
  intros name_of result_name path_of ref all in_file files runs HD q. revert files. induction runs as [|d runs IH]; intros files H.
  - cbn. rewrite app_nil_r. split; [constructor|]. split; [intros x []|]. symmetry. apply filter_keep_all. intros [n p] _. reflexivity.
  - destruct H as (H1 & H2 & H3). destruct (IH _ H3) as (I1 & I2 & I3). cbn [List.concat].
    assert (R : q (files ++ map result_name d)
                = filter (fun '(n, _) => if in_dec Nat.eq_dec n d then false else true) (q files)) by (apply C23_images_resume; assumption).
    assert (Hsub : forall n, In n (map fst (q (files ++ map result_name d))) -> In n (map fst (q files)) /\ ~ In n d).
    { intros n Hn. rewrite R in Hn. apply in_map_iff in Hn. destruct Hn as ([n' p] & E & Hn). cbn in E. subst n'.
      apply filter_In in Hn. destruct Hn as [Hn F]. destruct (in_dec Nat.eq_dec n d); [discriminate|]. split; [|assumption].
      change n with (fst (n, p)). apply in_map, Hn. }
    split; [|split].
    + clear - H1 I1 I2 Hsub.
      assert (HN : forall n, In n d -> ~ In n (List.concat runs)) by (intros n Hn Hc; apply I2, Hsub in Hc; tauto).
      clear I2 Hsub. induction d as [|n d IHd]; [exact I1|]. inversion H1; subst. cbn. constructor.
      * intros K. apply in_app_or in K. destruct K as [K|K]; [contradiction|]. apply (HN n); [now left|exact K].
      * apply IHd; [assumption|]. intros; apply HN; now right.
    + intros n Hn. apply in_app_or in Hn. destruct Hn as [Hn|Hn]; [apply H2, Hn|]. apply I2, Hsub in Hn. tauto.
    + rewrite map_app, app_assoc. rewrite I3, R. rewrite filter_filter. apply filter_ext_in'.
      intros [n p] _. destruct (in_dec Nat.eq_dec n d) as [K|K]; cbn.
      * destruct (in_dec Nat.eq_dec n (d ++ List.concat runs)) as [L|L]; [reflexivity|]. exfalso. apply L, in_or_app. now left.
      * destruct (in_dec Nat.eq_dec n (List.concat runs)) as [M|M];
          destruct (in_dec Nat.eq_dec n (d ++ List.concat runs)) as [L|L]; try reflexivity.
        -- exfalso. apply L, in_or_app. now right.
        -- exfalso. apply in_app_or in L. tauto.
Qed.
Print Assumptions C23_images_histories.

(** *** With the executors *)

(** value of an item given to the works: [obj_of n p] for the name n and the path p *)
Definition inputs_of {V} (obj_of : nat -> nat -> V) (q : queue nat) : list (nat * item V) :=
  map (fun '(n, p) => (n, inl (obj_of n p))) q.

Lemma inputs_keys {V} (obj_of : nat -> nat -> V) q : map fst (inputs_of obj_of q) = map fst q.
Proof. unfold inputs_of. rewrite map_map. apply map_ext. now intros []. Qed.

(** names delivered without exception *)
Definition ok_names {V} (outcomes : list (nat * item V)) : list nat :=
  flat_map (fun '(k, r) => match r with inl _ => [k] | inr _ => [] end) outcomes.

Lemma saved_ok {V} result_name (o : list (nat * item V)) : saved result_name o = map result_name (ok_names o).
Proof.
  unfold saved, ok_names. induction o as [|[k [v|e]] o IH]; [reflexivity| |]; cbn; [f_equal|]; exact IH.
Qed.

Lemma ok_names_in {V} k (o : list (nat * item V)) : In k (ok_names o) <-> exists v, In (k, inl v) o.
Proof.
  unfold ok_names. rewrite in_flat_map. split.
  - intros ([k' [v|e]] & H & K); [|destruct K]. destruct K as [->|[]]. eauto.
  - intros (v & H). exists (k, inl v). split; [exact H|now left].
Qed.

(** Sequential executor: the works are called on the missing images, in order, and after the
    execution only the images for which a work failed remain to be computed. *)
Theorem C23_sequential : forall V name_of result_name path_of ref all in_file files
    (fs : list (bool * (nat -> V -> item V))) obj_of nmax fuel,
  distinct_names name_of result_name all -> fs <> [] ->
  let q files := fill_queue_paths name_of result_name path_of Complete ref all in_file files [] in
  (List.length fs * List.length (q files) <= fuel)%nat ->
  exists st,
    seq_run fuel false nmax (List.length fs) (chain_works fs)
            (mk_sst (chain_queues (inputs_of obj_of (q files))) []) = Some (st, None) /\
    calls 0 (s_tr st) = map (fun '(n, p) => (n, obj_of n p)) (q files) /\
    q (files ++ saved result_name (finals (List.length fs) (s_tr st)))
    = filter (fun '(n, p) => match pipe (map snd fs) n (inl (obj_of n p)) with inl _ => false | inr _ => true end)
             (q files).
Proof.
  intros V name_of result_name path_of ref all in_file files fs obj_of nmax fuel HD Hfs q Hfuel.
  destruct (C23_images_exact name_of result_name path_of ref all in_file files HD) as [ND _]. fold (q files) in ND.
  destruct (C07_sequential_chain V fs (inputs_of obj_of (q files)) nmax fuel Hfs) as (st & E & _ & F & C).
  { rewrite inputs_keys. exact ND. }
  { unfold inputs_of. rewrite map_length. exact Hfuel. }
  exists st. split; [exact E|]. split.
  - rewrite C by (destruct fs; [congruence|cbn; lia]). unfold expected_calls, inputs_of. cbn [firstn pipe].
    clear. induction (q files) as [|[n p] l IH]; [reflexivity|]. cbn. f_equal. exact IH.
  - rewrite F, saved_ok.
    assert (Hin : forall n, In n (ok_names (expected (map snd fs) (inputs_of obj_of (q files)))) <->
              exists p v, In (n, p) (q files) /\ pipe (map snd fs) n (inl (obj_of n p)) = inl v).
    { intros n. rewrite ok_names_in. unfold expected, inputs_of. rewrite map_map. split.
      - intros (v & H). apply in_map_iff in H. destruct H as ([n' p] & H & K). injection H as -> H. eauto.
      - intros (p & v & K & H). exists v. apply in_map_iff. exists (n, p). rewrite H. auto. }
    change (fill_queue_paths name_of result_name path_of Complete ref all in_file
              (files ++ map result_name (ok_names (expected (map snd fs) (inputs_of obj_of (q files))))) []
            = filter (fun '(n, p) => match pipe (map snd fs) n (inl (obj_of n p)) with inl _ => false | inr _ => true end) (q files)).
    rewrite (C23_images_resume name_of result_name path_of ref all in_file files _ HD).
    + fold (q files). apply filter_ext_in'. intros [n p] HI.
      destruct (in_dec Nat.eq_dec n _) as [K|K].
      * apply Hin in K. destruct K as (p' & v & K & H).
        assert (p' = p) as ->; [|now rewrite H].
        clear - ND HI K. induction (q files) as [|[m r] l IH]; [destruct HI|]. inversion ND; subst.
        destruct HI as [HI|HI], K as [K|K].
        -- congruence. 
        -- injection HI as -> ->. exfalso. apply H1. change n with (fst (n, p')). now apply in_map.
        -- injection K as -> ->. exfalso. apply H1. change n with (fst (n, p)). now apply in_map.
        -- now apply IH.
      * destruct (pipe (map snd fs) n (inl (obj_of n p))) as [v|e] eqn:P; [|reflexivity].
        exfalso. apply K, Hin. eauto.
    + intros n Hn. apply Hin in Hn. destruct Hn as (p & v & K & _). fold (q files). change n with (fst (n, p)). now apply in_map.
Qed.
Print Assumptions C23_sequential.

(** Asynchronous executor interrupted in any reachable state: the next execution has exactly
    the images which were not saved. *)
Theorem C23_async_interrupted : forall V name_of result_name path_of ref all in_file files
    (fs : list (bool * (nat -> V -> item V))) obj_of nb lim sie s,
  distinct_names name_of result_name all -> fs <> [] ->
  let q files := fill_queue_paths name_of result_name path_of Complete ref all in_file files [] in
  let p := mk_params nb lim sie (List.length fs) (chain_works fs) in
  reachable p (init (chain_queues (inputs_of obj_of (q files)))) s -> a_raised s = None ->
  let done := ok_names (finals (List.length fs) (a_tr s)) in
  q (files ++ saved result_name (finals (List.length fs) (a_tr s)))
  = filter (fun '(n, _) => if in_dec Nat.eq_dec n done then false else true) (q files).
Proof.
  intros V name_of result_name path_of ref all in_file files fs obj_of nb lim sie s HD Hfs q p HR Hr done.
  destruct (C23_images_exact name_of result_name path_of ref all in_file files HD) as [ND _]. fold (q files) in ND.
  rewrite saved_ok. apply C23_images_resume; [exact HD|]. fold (q files).
  assert (ND' : NoDup (map fst (inputs_of obj_of (q files)))) by (rewrite inputs_keys; exact ND).
  destruct (C08_one_place V fs nb lim sie (inputs_of obj_of (q files)) s Hfs ND' HR Hr) as [_ HN].
  intros n Hn. destruct (in_dec Nat.eq_dec n (map fst (q files))) as [K|K]; [exact K|exfalso].
  rewrite <- inputs_keys with (obj_of := obj_of) in K. apply HN in K.
  apply ok_names_in in Hn. destruct Hn as (v & Hn).
  assert (HI : In (Delivered, inl v) (places (List.length fs) s n)).
  { unfold places. apply in_or_app. right. apply in_or_app. right. apply in_flat_map. exists (n, inl v). split; [exact Hn|].
    rewrite Nat.eqb_refl. now left. }
  rewrite K in HI. destruct HI.
Qed.
Print Assumptions C23_async_interrupted.

(** After a full run without failure nothing is left. *)
Theorem C23_nothing_left : forall V name_of result_name path_of ref all in_file files
    (fs : list (bool * (nat -> V -> item V))) obj_of nb lim sie s,
  distinct_names name_of result_name all -> fs <> [] ->
  (forall f n v, In f (map snd fs) -> exists w, f n v = inl w) ->
  let q files := fill_queue_paths name_of result_name path_of Complete ref all in_file files [] in
  let p := mk_params nb lim sie (List.length fs) (chain_works fs) in
  reachable p (init (chain_queues (inputs_of obj_of (q files)))) s -> a_raised s = None -> ended p s ->
  q (files ++ saved result_name (finals (List.length fs) (a_tr s))) = [].
Proof.
  intros V name_of result_name path_of ref all in_file files fs obj_of nb lim sie s HD Hfs Hok q p HR Hr HE.
  destruct (C23_images_exact name_of result_name path_of ref all in_file files HD) as [ND _]. fold (q files) in ND.
  assert (ND' : NoDup (map fst (inputs_of obj_of (q files)))) by (rewrite inputs_keys; exact ND).
  pose proof (C23_async_interrupted V name_of result_name path_of ref all in_file files fs obj_of nb lim sie s HD Hfs HR Hr) as R.
  unfold q in *. rewrite R. clear R.
  destruct (C09_stops_only_when_done V fs nb lim sie _ s Hfs ND' HR Hr (or_intror HE)) as (_ & _ & P & _).
  assert (Hp : forall n x, exists w, pipe (map snd fs) n (inl x) = inl w).
  { clear - Hok. induction (map snd fs) as [|f l IH]; intros n x; cbn; [eauto|].
    destruct (Hok f n x (or_introl eq_refl)) as (w & ->). apply IH. intros; apply Hok; now right. }
  match goal with |- filter ?f ?l = [] => cut (forall x, In x l -> f x = false) end.
  { intros H. match goal with |- filter ?f ?l = [] => revert H; generalize l end. intros l H. induction l as [|y l IH]; [reflexivity|].
    cbn. rewrite (H y) by now left. apply IH. intros; apply H; now right. }
  intros [n pth] HI. destruct (in_dec Nat.eq_dec n _) as [K|K]; [reflexivity|exfalso]. apply K, ok_names_in.
  destruct (Hp n (obj_of n pth)) as (w & Hw). exists w. apply (Permutation_in _ (Permutation_sym P)).
  unfold expected, inputs_of. rewrite map_map. apply in_map_iff. exists (n, pth). rewrite Hw. auto.
Qed.
Print Assumptions C23_nothing_left.

(** The indices of a process of the multi executors ("from_path_indices") are computed whatever
    the files already saved. *)
Theorem C23_from_path_indices : forall name_of result_name path_of ref all in_file files,
  all <> [] -> NoDup in_file -> (forall i j, In i in_file -> In j in_file -> name_of i = name_of j -> i = j) ->
  fill_queue_paths name_of result_name path_of FromPathIndices ref all in_file files []
  = map (fun i => (name_of i, path_of (name_of i))) in_file.
Proof.
  intros name_of result_name path_of ref all in_file files Hall ND Hinj. unfold fill_queue_paths.
  destruct all; [congruence|]. rewrite (fill_keys name_of (fun i => path_of (name_of i))); [reflexivity|]. cbn.
  clear Hall. induction in_file as [|i l' IH]; [constructor|]. inversion ND; subst. cbn. constructor.
  - intros K. apply in_map_iff in K. destruct K as (j & E & K). apply Hinj in E; [subst; contradiction|now right|now left].
  - apply IH; [assumption|]. intros; apply Hinj; try assumption; now right.
Qed.
Print Assumptions C23_from_path_indices.

(** ** Topologies on series *)

Theorem C23_series_exact : forall result_of inds in_file files,
  NoDup inds ->
  let todo := init_series result_of Complete inds in_file files in
  NoDup todo /\ forall i, In i todo <-> In i inds /\ ~ In (result_of i) files.
Proof.
  intros result_of inds in_file files ND todo.
  assert (E : todo = missing result_of files inds).
  { unfold todo, init_series. destruct inds; [reflexivity|apply series_eq]. }
  rewrite E. split; [apply NoDup_filter, ND|]. intros; apply missing_iff.
Qed.
Print Assumptions C23_series_exact.

(** PIV saves one file for each couple, whose name is the one which is looked for. *)
Theorem C23_series_resume : forall result_of inds in_file files done,
  NoDup inds -> (forall i j, In i inds -> In j inds -> result_of i = result_of j -> i = j) ->
  let todo files := init_series result_of Complete inds in_file files in
  incl done (todo files) ->
  todo (files ++ map result_of done)
  = filter (fun i => if in_dec Nat.eq_dec i done then false else true) (todo files).
Proof.
  intros result_of inds in_file files done ND Hinj todo Hd.
  assert (E : forall files, todo files = missing result_of files inds).
  { intros fl. unfold todo, init_series. destruct inds; [reflexivity|apply series_eq]. }
  rewrite !E. rewrite E in Hd. assert (Hd' : incl done inds) by (intros x Hx; apply Hd in Hx; apply missing_iff in Hx; tauto).
  unfold missing. rewrite filter_filter. apply filter_ext_in'. intros i Hi.
  destruct (in_dec Nat.eq_dec (result_of i) files) as [H|H]; cbn.
  - destruct (in_dec Nat.eq_dec (result_of i) (files ++ map result_of done)) as [K|K]; [reflexivity|]. exfalso. apply K, in_or_app. now left.
  - destruct (in_dec Nat.eq_dec i done) as [L|L]; destruct (in_dec Nat.eq_dec (result_of i) (files ++ map result_of done)) as [K|K]; try reflexivity.
    + exfalso. apply K, in_or_app. right. now apply in_map.
    + exfalso. apply in_app_or in K. destruct K as [K|K]; [contradiction|]. apply in_map_iff in K.
      destruct K as (j & E' & K). apply Hinj in E'; [subst; contradiction|apply Hd', K|exact Hi].
Qed.
Print Assumptions C23_series_resume.

(** The PIV topology in "complete" mode, sequential executor: exactly the missing couples are
    formed and treated, exactly their images are read (each once), then it ends. *)
Theorem C23_piv_sequential :
  forall V (names_of : V -> list nat) mk path (pre post : JoinRunProps.works V) (value : nat -> V)
         result_of inds in_file files nmax,
  (1 <= List.length post)%nat -> NoDup inds -> 0 <= nmax ->
  (forall i, In i inds -> exists a b, names_of (value i) = [a; b] /\ a <> b) ->
  let entries := map (fun i => (i, value i)) (init_series result_of Complete inds in_file files) in
  exists fuel st,
    seq_run fuel false nmax (join_nq pre post) (join_works (make_couples names_of mk) pre post)
            (mk_sst (first_queues names_of path entries) []) = Some (st, None) /\
    (forall q, (q < join_nq pre post)%nat -> s_qs st q = []) /\
    Permutation (item_events (s_tr st))
      (to_do names_of (couple_group names_of mk) path pre post
         (map (fun i => (i, value i)) (missing result_of files inds))).
Proof.
  intros V names_of mk path pre post value result_of inds in_file files nmax Hp ND Hn Hc entries.
  assert (E : init_series result_of Complete inds in_file files = missing result_of files inds).
  { unfold init_series. destruct inds; [reflexivity|apply series_eq]. }
  unfold entries. rewrite E. apply C16_sequential_couples; [exact Hp| |exact Hn]. split.
  - rewrite map_map. cbn. rewrite map_id. apply NoDup_filter, ND.
  - intros k v H. apply in_map_iff in H. destruct H as (i & K & H). injection K as -> <-. apply Hc. apply missing_iff in H. tauto.
Qed.
Print Assumptions C23_piv_sequential.

(** A worker process ("from_path_indices") treats exactly the couples whose indices are in its file, whatever the
    results which exist already. *)
Theorem C23_piv_from_path_indices :
  forall V (names_of : V -> list nat) mk path (pre post : JoinRunProps.works V) (value : nat -> V)
         result_of inds in_file files nmax,
  (1 <= List.length post)%nat -> inds <> [] -> NoDup in_file -> incl in_file inds -> 0 <= nmax ->
  (forall i, In i inds -> exists a b, names_of (value i) = [a; b] /\ a <> b) ->
  let entries := map (fun i => (i, value i)) (init_series result_of FromPathIndices inds in_file files) in
  exists fuel st,
    seq_run fuel false nmax (join_nq pre post) (join_works (make_couples names_of mk) pre post)
            (mk_sst (first_queues names_of path entries) []) = Some (st, None) /\
    (forall q, (q < join_nq pre post)%nat -> s_qs st q = []) /\
    Permutation (item_events (s_tr st))
      (to_do names_of (couple_group names_of mk) path pre post (map (fun i => (i, value i)) in_file)).
Proof.
  intros V names_of mk path pre post value result_of inds in_file files nmax Hp Hi ND Hincl Hn Hc entries.
  assert (E : init_series result_of FromPathIndices inds in_file files = in_file) by (unfold init_series; destruct inds; [congruence|reflexivity]).
  unfold entries. rewrite E. apply C16_sequential_couples; [exact Hp| |exact Hn]. split.
  - rewrite map_map. cbn. rewrite map_id. exact ND.
  - intros k v H. apply in_map_iff in H. destruct H as (i & K & H). injection K as -> <-. apply Hc, Hincl, H.
Qed.
Print Assumptions C23_piv_from_path_indices.

(** ** What "an interruption at any point" does not include *)

(** Preprocessing: a subset is considered as done when the file of its middle image exists, but
    each subset saves all its images (preproc.py of the works, lines 123-138), so that an
    interrupted execution can leave subsets which will never be computed. *)
Definition subset_images (i : nat) : list file := [i; i + 1; i + 2]%nat.
Definition subset_result (i : nat) : file := (i + 1)%nat.
Theorem C23_preproc_refuted :
  exists inds done files',
    NoDup inds /\ incl done (init_series subset_result Complete inds [] []) /\
    files' = flat_map subset_images done /\
    exists i, In i inds /\ ~ In i done /\ ~ In i (init_series subset_result Complete inds [] files').
Proof.
  exists [0;1;2]%nat, [0]%nat, [0;1;2]%nat. split; [repeat constructor; cbn; intuition discriminate|].
  split; [intros x [<-|[]]; cbn; auto|]. split; [reflexivity|].
  exists 1%nat. cbn. intuition discriminate.
Qed.
Print Assumptions C23_preproc_refuted.

(** Files created but not completely written when the program is killed (h5py.File(path, "w") then
    writing, piv.py:393-420): only the existence of the file is tested, so the item is never
    computed again. [content]: the files with a flag "complete". *)
Theorem C23_torn_file_refuted :
  exists name_of result_name path_of all (content : list (file * bool)) i,
    distinct_names name_of result_name all /\ In i all /\
    ~ In (result_name (name_of i), true) content /\
    fill_queue_paths name_of result_name path_of Complete None all [] (map fst content) [] = [].
Proof.
  exists (fun i => Z.to_nat (hd 0 i)), (fun n => n), (fun n => n), [[0]], [(0%nat, false)], [0].
  split; [|split; [now left|split; [intros [H|[]]; discriminate|reflexivity]]].
  repeat split.
  - repeat constructor; intros [].
  - intros i j [<-|[]] [<-|[]]; reflexivity.
  - intros i j [<-|[]] [<-|[]]; reflexivity.
Qed.
Print Assumptions C23_torn_file_refuted.

(** Without distinct names of results (see C38) an item can be skipped for ever. *)
Theorem C23_same_name_refuted :
  exists result_of inds,
    NoDup inds /\ exists i, In i inds /\ ~ In i (init_series result_of Complete inds [] [result_of 0%nat]) /\ i <> 0%nat.
Proof.
  exists (fun _ => 5%nat), [0;1]%nat. split; [repeat constructor; cbn; intuition discriminate|].
  exists 1%nat. cbn. intuition discriminate.
Qed.
Print Assumptions C23_same_name_refuted.

(** *** Example: five images, reference 2, two results already there, one more after a crash. *)
Definition ex_all : list (list Z) := [[0];[1];[2];[3];[4]].
Definition ex_name (i : list Z) : file := Z.to_nat (hd 0 i).
Definition ex_q files := fill_queue_paths ex_name (fun n => n + 100)%nat (fun n => n + 200)%nat Complete (Some [2]) ex_all [] files [].
Example C23_example :
  distinct_names ex_name (fun n => n + 100)%nat ex_all /\
  ex_q [100;104]%nat = [(1, 201); (3, 203)]%nat /\
  ex_q [100;104;103]%nat = [(1, 201)]%nat /\
  interrupted ex_q (fun n => n + 100)%nat [100]%nat [[3];[];[4;1]]%nat.
Proof.
  split; [|split; [reflexivity|split; [reflexivity|]]].
  - assert (H : forall i j, In i ex_all -> In j ex_all -> ex_name i = ex_name j -> i = j).
    { intros i j Hi Hj. cbn in Hi, Hj.
      repeat (destruct Hi as [<-|Hi]; [repeat (destruct Hj as [<-|Hj]; [vm_compute; congruence|]); destruct Hj|]). destruct Hi. }
    split; [repeat constructor; cbn; intuition discriminate|]. split; [exact H|].
    intros i j Hi Hj E. apply H; [assumption|assumption|lia].
  - unfold interrupted. repeat match goal with
    | |- _ /\ _ => split
    | |- True => exact I
    | |- NoDup [] => constructor
    | |- NoDup _ => constructor; [cbn; intuition discriminate|]
    | |- incl _ _ => let x := fresh in let H := fresh in intros x H; vm_compute in H; vm_compute; tauto
    end.
Qed.

(** C102: the reference image of a BOS computation and the images treated. *)
From Coq Require Import Sorting.Sorted.
From Verif Require Import PyBase StrModel StrProofs MonitorJobModel MonitorJobProps CompleteModel CompleteProps BosRefModel.
Local Open Scope Z_scope.

Lemma py_get_nat {A} (l : list A) k x : nth_error l k = Some x -> py_get l (Z.of_nat k) = Ok x.
Proof.
  intros H. assert (k < List.length l)%nat by (apply nth_error_Some; congruence).
  unfold py_get, zlen. replace (Z.of_nat k <? 0) with false by lia.
  replace ((0 <=? Z.of_nat k) && (Z.of_nat k <? Z.of_nat (List.length l))) with true by lia.
  rewrite Nat2Z.id, H. reflexivity.
Qed.
Lemma list_ext {A} : forall (l l' : list A), List.length l = List.length l' ->
  (forall k x, nth_error l k = Some x -> nth_error l' k = Some x) -> l = l'.
Proof.
  induction l as [|x l IH]; intros [|y l'] Hl H; try discriminate; [reflexivity|].
  f_equal; [specialize (H 0%nat x eq_refl); cbn in H; congruence|]. apply IH; [cbn in Hl; lia|].
  intros k z Hk. exact (H (S k) z Hk).
Qed.
Lemma insert_len x l : List.length (insert_str x l) = S (List.length l).
Proof. induction l as [|y l IH]; [reflexivity|]. cbn. destruct (str_le x y); cbn; [reflexivity|]. rewrite IH. reflexivity. Qed.
Lemma sorted_len l : List.length (sorted_str l) = List.length l.
Proof. induction l as [|x l IH]; [reflexivity|]. cbn [sorted_str fold_right]. rewrite insert_len. cbn. f_equal. exact IH. Qed.
Lemma sorted_id l : StronglySorted le_str l -> sorted_str l = l.
Proof.
  induction 1 as [|x l Hs IH Hx]; [reflexivity|]. cbn [sorted_str fold_right]. fold (sorted_str l). rewrite IH.
  destruct l as [|y l]; [reflexivity|]. cbn. apply Forall_inv in Hx. unfold le_str in Hx. unfold str_le.
  destruct (str_compare x y); [reflexivity|reflexivity|congruence].
Qed.
Lemma last_app {A} (l : list A) x d : last (l ++ [x]) d = x.
Proof. induction l as [|y l IH]; [reflexivity|]. cbn. rewrite IH. destruct (l ++ [x]) eqn:E; [destruct l; discriminate|reflexivity]. Qed.
Lemma prefix_app a b : is_prefix a (a ++ b) = true.
Proof. induction a as [|x a IH]; [reflexivity|]. cbn. destruct (list_eq_dec _ x x); [exact IH|congruence]. Qed.
Lemma prefix_spec a b : is_prefix a b = true -> exists r, b = a ++ r.
Proof.
  revert b. induction a as [|x a IH]; intros b H; [exists b; reflexivity|]. destruct b as [|y b]; [discriminate|]. cbn in H.
  destruct (list_eq_dec _ x y) as [->|]; [|discriminate]. destruct (IH b H) as (r & ->). exists r. reflexivity.
Qed.
Lemma starts_refl_app p s : starts p (p ++ s) = true.
Proof. apply starts_app. Qed.

Section Bos.
Variable cwd : path.
Variable is_file : path -> bool.
Variable path_dir : path.
Variable base_name : chars.
Variable indices : list (list Z).
Variable name_of : list Z -> chars.
Variable indices_of : chars -> result (list Z).
(** the directory of the serie is given by an absolute path (fluiddyn) *)
Hypothesis Hdir : p_abs path_dir = true.

Notation ref_path := (init_path_reference cwd is_file path_dir indices name_of).
Notation treated := (images_treated path_dir base_name indices name_of indices_of).
Notation names := (map name_of indices).

(** the file of the source directory with this name *)
Definition source_file (name : chars) : path := mk_path true (p_parts path_dir ++ [name]).

Lemma src_abs : absolute cwd path_dir = path_dir.
Proof. unfold absolute, path_join. rewrite Hdir. reflexivity. Qed.
Lemma src_join n : path_join path_dir (mk_path false [n]) = source_file n.
Proof. unfold path_join. cbn. rewrite Hdir. reflexivity. Qed.
Lemma source_name n : path_name (source_file n) = n.
Proof. apply last_app. Qed.
Lemma source_inj a b : source_file a = source_file b -> a = b.
Proof. intros [= H]. apply app_inj_tail in H. tauto. Qed.

(** *** The index of the reference *)
(** An integer [k] designates the image number [k] of the serie, for every image, exactly when the names of the
    images are in the alphabetic order. *)
Theorem C102_index_iff :
  (forall k name, nth_error names k = Some name -> ref_path (RInt (Z.of_nat k)) = Ok (source_file name)) <->
  StronglySorted (fun a b => str_compare a b <> Gt) names.
Proof.
  clear base_name indices_of.
  unfold init_path_reference. rewrite src_abs. split.
  - intros H. assert (E : names = sorted_str names).
    { apply list_ext; [symmetry; apply sorted_len|]. intros k x Hk. specialize (H k x Hk).
      destruct (nth_error (sorted_str names) k) as [y|] eqn:Ey.
      - rewrite (py_get_nat _ _ _ Ey) in H. cbn [bind] in H. rewrite src_join in H. injection H as H.
        apply app_inj_tail in H. destruct H as (_ & ->). reflexivity.
      - apply nth_error_None in Ey. rewrite sorted_len in Ey. apply nth_error_None in Ey. congruence. }
    rewrite E. apply sorted_sorted.
  - intros H k name Hk. rewrite sorted_id by exact H. rewrite (py_get_nat _ _ _ Hk). cbn [bind]. rewrite src_join. reflexivity.
Qed.

(** which files an integer can designate: always an image of the serie; the others are rejected *)
Theorem C102_index_range : forall i,
  (- zlen indices <= i < zlen indices /\ exists name, In name names /\ ref_path (RInt i) = Ok (source_file name)) \/
  (~ (- zlen indices <= i < zlen indices) /\ ref_path (RInt i) = Err IndexError).
Proof.
  clear base_name indices_of.
  intros i. unfold init_path_reference. rewrite src_abs.
  assert (Hz : zlen (sorted_str names) = zlen indices) by (unfold zlen; rewrite sorted_len, map_length; reflexivity).
  assert (Hn : forall j, 0 <= j < zlen indices -> exists n, nth_error (sorted_str names) (Z.to_nat j) = Some n /\ In n names).
  { intros j Hj. destruct (nth_error (sorted_str names) (Z.to_nat j)) as [n|] eqn:E.
    - exists n. split; [reflexivity|]. apply sorted_in, (nth_error_In _ _ E).
    - exfalso. apply nth_error_None in E. rewrite sorted_len, map_length in E. unfold zlen in Hj. clear - E Hj. lia. }
  assert (0 <= zlen indices) by (unfold zlen; lia).
  unfold py_get. rewrite Hz. destruct (i <? 0) eqn:E0.
  - destruct ((0 <=? i + zlen indices) && (i + zlen indices <? zlen indices)) eqn:E1.
    + left. split; [lia|]. destruct (Hn (i + zlen indices) ltac:(lia)) as (n & -> & Hin). exists n. split; [exact Hin|].
      cbn [bind]. rewrite src_join. reflexivity.
    + right. split; [lia|reflexivity].
  - destruct ((0 <=? i) && (i <? zlen indices)) eqn:E1.
    + left. split; [lia|]. destruct (Hn i ltac:(lia)) as (n & -> & Hin). exists n. split; [exact Hin|].
      cbn [bind]. rewrite src_join. reflexivity.
    + right. split; [lia|reflexivity].
Qed.

(** *** A file *)
Theorem C102_file : forall p,
  (* an existing absolute path *)
  (p_abs p = true -> is_file p = true -> ref_path (RStr p) = Ok p) /\
  (* a file of the source directory, when the current directory has no such file *)
  (p_abs p = false -> is_file (absolute cwd p) = false -> is_file (path_join path_dir p) = true ->
   ref_path (RStr p) = Ok (path_join path_dir p)).
Proof.
  intros p. unfold init_path_reference, file_exists. rewrite src_abs. split.
  - intros Ha Hf. unfold absolute, path_join. rewrite Ha, Hf. reflexivity.
  - intros Ha H1 H2. rewrite H1.
    assert (E : absolute cwd (path_join path_dir p) = path_join path_dir p).
    { unfold absolute. unfold path_join at 1. unfold path_join at 1. rewrite Ha. cbn [p_abs]. rewrite Hdir. reflexivity. }
    rewrite E, H2. reflexivity.
Qed.
(** The current directory is looked at first: a file name can designate a file which is not in the directory of
    the images although this directory has a file with this name. *)
Theorem C102_cwd_refuted : forall name,
  is_file (absolute cwd (mk_path false [name])) = true -> is_file (source_file name) = true ->
  ref_path (RStr (mk_path false [name])) = Ok (mk_path false [name]).
Proof. intros name H1 _. unfold init_path_reference, file_exists. rewrite H1. reflexivity. Qed.
(** When there is no such file the error is not the ValueError of the code but a TypeError. *)
Theorem C102_missing_refuted : forall p,
  is_file (absolute cwd p) = false -> is_file (absolute cwd (path_join path_dir p)) = false ->
  ref_path (RStr p) = Err TypeError.
Proof. intros p H1 H2. unfold init_path_reference, file_exists. rewrite src_abs, H1, H2. reflexivity. Qed.

(** *** The images treated *)
Hypothesis Hnodup : NoDup indices.
Hypothesis Hbase : forall i, In i indices -> exists s, name_of i = base_name ++ s.
Hypothesis Hinv : forall i, In i indices -> indices_of (name_of i) = Ok i.

Lemma name_inj i j : In i indices -> In j indices -> name_of i = name_of j -> i = j.
Proof. intros Hi Hj E. apply Hinv in Hi, Hj. rewrite E in Hi. congruence. Qed.

Lemma ref_source i : In i indices -> indices_ref path_dir base_name indices_of (source_file (name_of i)) = Ok (Some i).
Proof.
  intros Hi. unfold indices_ref. unfold is_relative_to. cbn [source_file p_abs p_parts]. rewrite Hdir, prefix_app. cbn [Bool.eqb andb negb].
  rewrite source_name. destruct (Hbase i Hi) as (s & E). rewrite E at 1. rewrite starts_refl_app. cbn [negb]. rewrite (Hinv i Hi). reflexivity.
Qed.

Lemma treated_ref p i : indices_ref path_dir base_name indices_of p = Ok (Some i) -> In i indices ->
  exists l, treated p = Ok l /\ NoDup l /\ (forall n, In n l <-> In n names /\ n <> name_of i) /\
    S (List.length l) = List.length indices.
Proof.
  intros Hr Hi. unfold images_treated. rewrite Hr. cbn [bind fix_indices].
  eexists. split; [reflexivity|].
  assert (Hin : forall j, In j (list_remove i indices) <-> In j indices /\ j <> i).
  { intros j. pose proof (fix_in (Some i) indices j Hnodup) as F. cbn [fix_indices] in F. rewrite F.
    split; intros (H1 & H2); split; auto; congruence. }
  split; [|split].
  - assert (Hd : NoDup (list_remove i indices)) by (apply (fix_nodup (Some i)), Hnodup).
    revert Hd Hin. generalize (list_remove i indices). intros l Hd Hin.
    assert (Hsub : forall j, In j l -> In j indices) by (intros j Hj; apply Hin in Hj; tauto). clear Hin.
    induction Hd as [|j l Hj Hd IH]; [constructor|]. cbn. constructor.
    + rewrite in_map_iff. intros (k & E & Hk). apply Hj. rewrite <- (name_inj k j); auto using in_cons, in_eq.
    + apply IH. intros k Hk. apply Hsub. right. exact Hk.
  - intros n. rewrite in_map_iff. split.
    + intros (j & <- & Hj). apply Hin in Hj. destruct Hj as (Hj & Hne). split; [apply in_map, Hj|].
      intros E. apply Hne, name_inj; auto.
    + intros (Hn & Hne). apply in_map_iff in Hn. destruct Hn as (j & <- & Hj). exists j. split; [reflexivity|]. apply Hin.
      split; [exact Hj|]. intros ->. congruence.
  - rewrite map_length. clear - Hi Hnodup. induction indices as [|j l IH]; [contradiction|]. cbn.
    destruct (list_eq_dec Z.eq_dec i j) as [->|Hne]; [reflexivity|]. cbn. f_equal. apply IH.
    + inversion Hnodup; assumption.
    + destruct Hi as [->|Hi]; [congruence|exact Hi].
Qed.

(** With an index as reference, a field is computed for each image of the serie except the reference, once. *)
Theorem C102_treated_index : forall i p, ref_path (RInt i) = Ok p ->
  exists l, treated p = Ok l /\ NoDup l /\ (forall n, In n l <-> In n names /\ source_file n <> p) /\
    S (List.length l) = List.length indices.
Proof.
  intros i p Hp. destruct (C102_index_range i) as [(_ & name & Hn & E)|(_ & E)]; [|congruence].
  rewrite Hp in E. injection E as ->. apply in_map_iff in Hn. destruct Hn as (j & <- & Hj).
  destruct (treated_ref _ j (ref_source j Hj) Hj) as (l & H1 & H2 & H3 & H4). exists l. split; [exact H1|]. split; [exact H2|]. split; [|exact H4].
  intros n. rewrite H3. split; intros (Ha & Hb); split; auto; intros E; apply Hb; [apply source_inj, E|subst; reflexivity].
Qed.

(** ... and with a file which is not in the directory of the images, for each image of the serie. *)
Theorem C102_treated_outside : forall p, (forall rest, p <> mk_path (p_abs path_dir) (p_parts path_dir ++ rest)) -> treated p = Ok names.
Proof.
  intros p H. unfold images_treated, indices_ref. destruct (is_relative_to p path_dir) eqn:E; [|reflexivity]. exfalso.
  unfold is_relative_to in E. apply andb_prop in E. destruct E as [E1 E2]. apply Bool.eqb_prop in E1. apply prefix_spec in E2.
  destruct E2 as (r & E2). apply (H r). rewrite <- E1, <- E2. destruct p; reflexivity.
Qed.

(** ... as well as with a file of this directory whose name is not one of a numbered image of the serie. *)
Theorem C102_treated_other : forall p,
  starts base_name (path_name p) = false \/ indices_of (path_name p) = Err ValueError -> treated p = Ok names.
Proof.
  intros p H. unfold images_treated, indices_ref. destruct (is_relative_to p path_dir); [|reflexivity]. cbn [negb].
  destruct H as [H|H]; rewrite H; [reflexivity|]. destruct (starts base_name (path_name p)); reflexivity.
Qed.

(** A reference in a subdirectory, with the name of an image: no field is computed for this image, which is not
    the reference. *)
Theorem C102_subdirectory_refuted : forall i sub, In i indices -> sub <> [] ->
  let p := mk_path true (p_parts path_dir ++ sub ++ [name_of i]) in
  is_file p = true ->
  ref_path (RStr p) = Ok p /\ p <> source_file (name_of i) /\
  exists l, treated p = Ok l /\ In (name_of i) names /\ ~ In (name_of i) l.
Proof.
  intros i sub Hi Hs p Hf. split; [apply (proj1 (C102_file p)); [reflexivity|exact Hf]|]. split.
  - unfold p, source_file. intros [= E]. apply app_inv_head in E.
    destruct sub as [|x sub]; [congruence|]. destruct sub; discriminate.
  - assert (Hr : indices_ref path_dir base_name indices_of p = Ok (Some i)).
    { unfold indices_ref, is_relative_to. cbn [p p_abs p_parts]. rewrite Hdir, prefix_app. cbn [Bool.eqb andb negb].
      assert (En : path_name p = name_of i) by (unfold path_name, p; cbn [p_parts]; rewrite app_assoc; apply last_app).
      rewrite En. destruct (Hbase i Hi) as (s & E). rewrite E at 1. rewrite starts_refl_app. cbn [negb]. rewrite (Hinv i Hi). reflexivity. }
    destruct (treated_ref p i Hr Hi) as (l & H1 & _ & H3 & _). exists l. split; [exact H1|]. split; [apply in_map, Hi|].
    intros Hin. apply H3 in Hin. tauto.
Qed.

(** A reference given by a path relative to the current directory: it is compared with itself. *)
Theorem C102_relative_refuted : forall i p, In i indices -> p_abs p = false -> absolute cwd p = source_file (name_of i) ->
  is_file (source_file (name_of i)) = true ->
  ref_path (RStr p) = Ok p /\ exists l, treated p = Ok l /\ In (name_of i) l.
Proof.
  intros i p Hi Ha E Hf. split.
  - unfold init_path_reference, file_exists. rewrite E, Hf. reflexivity.
  - exists names. split; [|apply in_map, Hi]. apply C102_treated_outside. intros rest ->. cbn [p_abs] in Ha. congruence.
Qed.
End Bos.

(** *** Numbered images *)
(** names with a number of fixed width: [base ++ number ++ ext]; the images are in the order of the numbers *)
Definition padded (base ext : chars) (w : nat) (i : list Z) : chars := base ++ digits w (hd 0 i) ++ ext.
Definition unpadded (base ext : chars) (i : list Z) : chars := base ++ py_str (hd 0 i) ++ ext.

Theorem C102_padded : forall cwd is_file path_dir base ext w (numbers : list Z),
  p_abs path_dir = true -> Forall (fun n => 0 <= n < 10 ^ Z.of_nat w) numbers -> StronglySorted Z.lt numbers ->
  forall k n, nth_error numbers k = Some n ->
  init_path_reference cwd is_file path_dir (map (fun n => [n]) numbers) (padded base ext w) (RInt (Z.of_nat k))
  = Ok (source_file path_dir (padded base ext w [n])).
Proof.
  intros cwd is_file path_dir base ext w numbers Hd Hr Hs k n Hk.
  apply C102_index_iff; [exact Hd| |].
  - rewrite map_map. clear Hk. induction Hs as [|a l Hs IH Ha]; [constructor|]. cbn [map]. constructor.
    + apply IH, (Forall_inv_tail Hr).
    + apply Forall_forall. intros x Hx. apply in_map_iff in Hx. destruct Hx as (b & <- & Hb).
      unfold padded. cbn [hd]. rewrite cmp_prefix, cmp_app by (rewrite !digits_length; reflexivity).
      rewrite Forall_forall in Ha. specialize (Ha b Hb). rewrite digits_cmp.
      * rewrite (proj2 (Z.compare_lt_iff a b) Ha). discriminate.
      * exact (Forall_inv Hr).
      * apply Forall_inv_tail in Hr. rewrite Forall_forall in Hr. apply Hr, Hb.
  - rewrite map_map, nth_error_map, Hk. reflexivity.
Qed.

(** Without the zeros, as soon as the serie has the images 9 and 10 (in this order), an index designates another
    image than the one which has this rank in the serie. *)
Theorem C102_unpadded_refuted : forall cwd is_file path_dir base ext (l1 l2 l3 : list (list Z)),
  p_abs path_dir = true ->
  let indices := l1 ++ [[9]] ++ l2 ++ [[10]] ++ l3 in
  exists k i, nth_error indices k = Some i /\
    init_path_reference cwd is_file path_dir indices (unpadded base ext) (RInt (Z.of_nat k))
    <> Ok (source_file path_dir (unpadded base ext i)).
Proof.
  intros cwd is_file path_dir base ext l1 l2 l3 Hd indices.
  set (names := map (unpadded base ext) indices).
  assert (Hno : ~ StronglySorted (fun a b => str_compare a b <> Gt) names).
  { unfold names, indices. rewrite !map_app. intros H.
    assert (Hskip : forall (u v : list chars), StronglySorted (fun a b => str_compare a b <> Gt) (u ++ v) -> StronglySorted (fun a b => str_compare a b <> Gt) v).
    { clear. induction u as [|x u IH]; intros v H; [exact H|]. inversion H; subst. apply IH. assumption. }
    apply Hskip in H. cbn [map app] in H. inversion H as [|? ? _ HF]; subst.
    rewrite Forall_forall in HF. specialize (HF (unpadded base ext [10]) ltac:(apply in_or_app; right; left; reflexivity)).
    apply HF. unfold unpadded. cbn [hd]. rewrite cmp_prefix. reflexivity. }
  (* search for the first difference *)
  assert (Hdec : forall m, (forall k i, (k < m)%nat -> nth_error indices k = Some i ->
      init_path_reference cwd is_file path_dir indices (unpadded base ext) (RInt (Z.of_nat k)) = Ok (source_file path_dir (unpadded base ext i)))
      \/ exists k i, nth_error indices k = Some i /\ init_path_reference cwd is_file path_dir indices (unpadded base ext) (RInt (Z.of_nat k)) <> Ok (source_file path_dir (unpadded base ext i))).
  { induction m as [|m IH]; [left; intros; lia|]. destruct IH as [IH|IH]; [|right; exact IH].
    destruct (nth_error indices m) as [i|] eqn:Em.
    - destruct (C102_index_range cwd is_file path_dir indices (unpadded base ext) Hd (Z.of_nat m)) as [(_ & n & _ & E)|(_ & E)].
      + destruct (list_eq_dec Ascii.ascii_dec n (unpadded base ext i)) as [->|Hne].
        * left. intros k j Hk Hj. destruct (Nat.eq_dec k m) as [->|]; [|apply IH; [lia|exact Hj]].
          rewrite Em in Hj. injection Hj as <-. exact E.
        * right. exists m, i. split; [exact Em|]. rewrite E. intros [= H]. apply app_inj_tail in H. tauto.
      + right. exists m, i. split; [exact Em|]. rewrite E. discriminate.
    - left. intros k j Hk Hj. apply IH; [|exact Hj]. destruct (Nat.eq_dec k m) as [->|]; [congruence|lia]. }
  destruct (Hdec (List.length indices)) as [H|H]; [|exact H].
  exfalso. apply Hno. apply (C102_index_iff cwd is_file path_dir indices (unpadded base ext) Hd).
  intros k name Hk. rewrite nth_error_map in Hk. destruct (nth_error indices k) as [i|] eqn:Ei; [|discriminate]. injection Hk as <-.
  apply H; [|exact Ei]. apply nth_error_Some. congruence.
Qed.

(** *** Concrete cases *)
Definition ex_dir := mk_path true [of_string "data"; of_string "images"].
Definition ex_name := unpadded (of_string "im") (of_string ".png").
Definition ex_indices := map (fun n => [Z.of_nat n]) (seq 1 10).
Definition ex_indices_of (n : chars) : result (list Z) :=
  match find (fun i => if list_eq_dec Ascii.ascii_dec (ex_name i) n then true else false) ex_indices with Some i => Ok i | None => Err ValueError end.
(** the reference 1 is the image 10 and not the second image; the treated images are the nine others *)
Example C102_case : let p := source_file ex_dir (of_string "im10.png") in
  init_path_reference (mk_path true []) (fun _ => true) ex_dir ex_indices ex_name (RInt 1) = Ok p /\
  (exists l, images_treated ex_dir (of_string "im") ex_indices ex_name ex_indices_of p = Ok l /\ List.length l = 9%nat /\ last l [] = of_string "im9.png").
Proof. split; [reflexivity|]. eexists. split; [reflexivity|]. split; reflexivity. Qed.
Example C102_hypotheses : NoDup ex_indices /\ (forall i, In i ex_indices -> exists s, ex_name i = of_string "im" ++ s) /\
  (forall i, In i ex_indices -> ex_indices_of (ex_name i) = Ok i).
Proof.
  split; [|split].
  - unfold ex_indices. cbn. repeat constructor; cbn; intuition discriminate.
  - intros i _. eexists. reflexivity.
  - intros i Hi. cbn in Hi. intuition (subst; reflexivity).
Qed.
Example C102_subdirectory : let p := mk_path true [of_string "data"; of_string "images"; of_string "ref"; of_string "im3.png"] in
  exists l, images_treated ex_dir (of_string "im") ex_indices ex_name ex_indices_of p = Ok l /\ ~ In (of_string "im3.png") l.
Proof. eexists. split; [reflexivity|]. cbn. intuition discriminate. Qed.

Print Assumptions C102_index_iff.
Print Assumptions C102_index_range.
Print Assumptions C102_file.
Print Assumptions C102_cwd_refuted.
Print Assumptions C102_missing_refuted.
Print Assumptions C102_treated_index.
Print Assumptions C102_treated_outside.
Print Assumptions C102_treated_other.
Print Assumptions C102_subdirectory_refuted.
Print Assumptions C102_relative_refuted.
Print Assumptions C102_padded.
Print Assumptions C102_unpadded_refuted.

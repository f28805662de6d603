(** C22: the directory of the results (topologies/base.py, [prepare_path_dir_result]). *)
From Verif Require Import PyBase StrModel StrProofs FsModel FsProofs ResultDirModel.

(** ** Specification *)

(** The base name of the directory of the results: the path given by the user or the
    directory of the images followed by a dot and the postfix. *)
Definition base_dir (path_dir_input : path) (sp : saving_path) (postfix : chars) : path :=
  match sp with
  | SPNone => match path_dir_input with
              | [] => ["."%char :: postfix]
              | n :: d => (n ++ "."%char :: postfix) :: d
              end
  | SPStr p | SPPath p => p
  end.

(** The name followed by the number [i]. *)
Definition numbered (p : path) (i : Z) : path :=
  match p with [] => [py_str i] | n :: d => (n ++ py_str i) :: d end.

(** [p] is the first free name among the base name and the base name followed by 0, 1, ... *)
Definition first_free_name (f : fs) (base p : path) : Prop :=
  fs_exists f p = false /\
  (p = base \/
   (fs_exists f base = true /\
    exists i, 0 <= i /\ p = numbered base i /\
              forall j, 0 <= j < i -> fs_exists f (numbered base j) = true)).

(** [f'] is [f] with the directory [p] (and everything else as before). *)
Definition only_adds_dir (f f' : fs) (p : path) : Prop :=
  fs_get f' p = Some Dir /\ forall q, q <> p -> fs_get f' q = fs_get f q.

Definition is_dir (f : fs) (p : path) : Prop := fs_get f p = Some Dir.

(** ** Proofs *)
Lemma base_dir_eq i sp s :
  match sp with
  | SPNone => add_suffix i (of_string "." ++ s)
  | SPStr p => p
  | SPPath p => p
  end = base_dir i sp s.
Proof. destruct sp, i; reflexivity. Qed.

Lemma numbered_eq p i : add_suffix p (py_str i) = numbered p i.
Proof. destruct p; reflexivity. Qed.

Lemma numbered_inj p i j : numbered p i = numbered p j -> i = j.
Proof.
  destruct p as [|n d]; cbn [numbered]; intros E; injection E as E.
  - apply py_str_inj; exact E.
  - apply app_inv_head in E. apply py_str_inj; exact E.
Qed.

Lemma first_free_sound fuel f p i k : 0 <= i -> first_free fuel f p i = Ok k ->
  i <= k /\ fs_exists f (numbered p k) = false /\
  forall j, i <= j < k -> fs_exists f (numbered p j) = true.
Proof.
  revert i. induction fuel as [|fuel IH]; intros i Hi; cbn [first_free]; rewrite numbered_eq;
    destruct (fs_exists f (numbered p i)) eqn:E; try discriminate.
  - intros [= <-]. repeat split; [lia|exact E|intros; lia].
  - intros H. apply IH in H; [|lia]. destruct H as (L & F & A).
    repeat split; [lia|exact F|]. intros j Hj.
    destruct (Z.eq_dec j i) as [->|]; [exact E|apply A; lia].
  - intros [= <-]. repeat split; [lia|exact E|intros; lia].
Qed.

Lemma first_free_total fuel f p i m : 0 <= i -> i <= m -> m < i + Z.of_nat fuel + 1 ->
  fs_exists f (numbered p m) = false -> exists k, first_free fuel f p i = Ok k.
Proof.
  revert i. induction fuel as [|fuel IH]; intros i Hi Him Hm F; cbn [first_free]; rewrite numbered_eq.
  - replace m with i in F by lia. rewrite F. eexists; reflexivity.
  - destruct (fs_exists f (numbered p i)) eqn:E; [|eexists; reflexivity].
    assert (m <> i) by congruence. apply IH; (lia || exact F).
Qed.

Lemma first_free_enough f p : exists k, first_free (List.length f) f p 0 = Ok k.
Proof.
  destruct (fresh_index f (fun n => numbered p (Z.of_nat n))) as (i & Hi & F).
  - intros i j E. apply numbered_inj in E. lia.
  - intros i. destruct p; discriminate.
  - apply (first_free_total _ _ _ 0 (Z.of_nat i)); (lia || exact F).
Qed.

Lemma exists_false_get f p : fs_exists f p = false -> fs_get f p = None.
Proof. unfold fs_exists. destruct (fs_get f p); [discriminate|reflexivity]. Qed.

(** With how = "new_dir" the directory did not exist before and is the first free name. *)
Lemma new_dir_sound f answers input sp postfix o f' :
  prepare_path_dir_result f answers input sp postfix NewDir = Ok (o, f') ->
  exists p, o = Dir_ready p NewDir /\
    first_free_name f (base_dir input sp postfix) p /\ only_adds_dir f f' p.
Proof.
  unfold prepare_path_dir_result. rewrite base_dir_eq. set (B := base_dir input sp postfix).
  cbn [bind]. destruct (fs_exists f B) eqn:EB; cbn [negb].
  - destruct sp as [|q|q]; try discriminate; cbn [bind];
      destruct (first_free (List.length f) f B 0) as [i|e] eqn:EF; try discriminate; cbn [bind];
      rewrite numbered_eq;
      destruct (fs_mkdir f (numbered B i) true) as [g|e] eqn:EM; try discriminate; cbn [bind];
      intros [= <- <-]; exists (numbered B i); destruct (first_free_sound _ _ _ 0 i ltac:(lia) EF) as (L & F & A);
      (split; [reflexivity|]); (split; [|apply fs_mkdir_ok in EM; exact EM]);
      (split; [exact F|]); right; (split; [exact EB|]); exists i; repeat split; assumption.
  - destruct (fs_mkdir f B true) as [g|e] eqn:EM; try discriminate. cbn [bind].
    intros [= <- <-]. exists B. split; [reflexivity|]. split; [|apply fs_mkdir_ok in EM; exact EM].
    split; [exact EB|]. left; reflexivity.
Qed.

(** ... and when the parent directory exists and the path is not given as a pathlib.Path,
    the function does return. *)
Lemma new_dir_total f answers input sp postfix :
  is_dir f (parent (base_dir input sp postfix)) -> base_dir input sp postfix <> [] ->
  (match sp with SPPath _ => False | _ => True end) ->
  exists p f', prepare_path_dir_result f answers input sp postfix NewDir = Ok (Dir_ready p NewDir, f').
Proof.
  unfold prepare_path_dir_result, is_dir. rewrite base_dir_eq. set (B := base_dir input sp postfix).
  intros D NE SP. cbn [bind]. destruct (fs_exists f B) eqn:EB; cbn [negb].
  - destruct (first_free_enough f B) as (i & EF).
    assert (FM : exists g, fs_mkdir f (numbered B i) true = Ok g).
    { pose proof (first_free_sound _ _ _ 0 i ltac:(lia) EF) as (_ & F & _).
      apply exists_false_get in F. unfold fs_mkdir. rewrite F.
      destruct B as [|n d]; [contradiction|]. cbn [numbered parent tl] in *. rewrite D. eexists; reflexivity. }
    destruct FM as (g & FM).
    destruct sp; try contradiction; rewrite EF; cbn [bind]; rewrite numbered_eq, FM; cbn [bind];
      eexists; eexists; reflexivity.
  - apply exists_false_get in EB. unfold fs_mkdir. rewrite EB, D. cbn [bind].
    eexists; eexists; reflexivity.
Qed.

(** ** Theorems *)

Theorem C22_new_dir : forall f answers input sp postfix,
  (forall o f', prepare_path_dir_result f answers input sp postfix NewDir = Ok (o, f') ->
     exists p, o = Dir_ready p NewDir /\
       first_free_name f (base_dir input sp postfix) p /\ only_adds_dir f f' p) /\
  (is_dir f (parent (base_dir input sp postfix)) -> base_dir input sp postfix <> [] ->
   (match sp with SPPath _ => False | _ => True end) ->
   exists p f', prepare_path_dir_result f answers input sp postfix NewDir = Ok (Dir_ready p NewDir, f')).
Proof. intros. split; [apply new_dir_sound|apply new_dir_total]. Qed.
Print Assumptions C22_new_dir.

(** "complete", "recompute" and "from_path_indices": the base name itself, the mode asked
    for, nothing else changes; it works exactly when the base name is a directory or can be
    created. *)
Theorem C22_base_name : forall f answers input sp postfix h,
  h = Complete \/ h = Recompute \/ h = FromPathIndices ->
  let B := base_dir input sp postfix in
  (is_dir f B \/ (fs_get f B = None /\ is_dir f (parent B)) ->
   exists f', prepare_path_dir_result f answers input sp postfix h = Ok (Dir_ready B h, f') /\
     only_adds_dir f f' B) /\
  (forall o f', prepare_path_dir_result f answers input sp postfix h = Ok (o, f') ->
     o = Dir_ready B h /\ only_adds_dir f f' B).
Proof.
  intros f answers input sp postfix h Hh B.
  assert (E : prepare_path_dir_result f answers input sp postfix h =
              do f' <- fs_mkdir f B true ; Ok (Dir_ready B h, f')).
  { unfold prepare_path_dir_result. rewrite base_dir_eq. fold B.
    destruct Hh as [->|[->| ->]]; cbn [bind]; destruct (fs_exists f B); reflexivity. }
  rewrite E. split.
  - intros H. assert (M : exists g, fs_mkdir f B true = Ok g).
    { unfold fs_mkdir. destruct H as [->|(-> & ->)]; eexists; reflexivity. }
    destruct M as (g & M). rewrite M. cbn [bind]. exists g. split; [reflexivity|].
    apply fs_mkdir_ok in M. exact M.
  - intros o f'. destruct (fs_mkdir f B true) as [g|e] eqn:M; [|discriminate]. cbn [bind].
    intros [= <- <-]. split; [reflexivity|]. apply fs_mkdir_ok in M. exact M.
Qed.
Print Assumptions C22_base_name.

(** "ask" when the directory does not exist: no question, as "recompute". *)
Theorem C22_ask_no_dir : forall f answers input sp postfix,
  fs_exists f (base_dir input sp postfix) = false ->
  prepare_path_dir_result f answers input sp postfix Ask =
  prepare_path_dir_result f [] input sp postfix Recompute.
Proof.
  intros f answers input sp postfix E. unfold prepare_path_dir_result. rewrite base_dir_eq, E.
  reflexivity.
Qed.
Print Assumptions C22_ask_no_dir.

(** the mode which an answer stands for *)
Definition meaning (answer : chars) : option how :=
  if str_eqb answer (of_string "n") then Some NewDir
  else if str_eqb answer (of_string "c") then Some Complete
  else if str_eqb answer (of_string "r") then Some Recompute
  else None.

Lemma ask_user_skip bad a rest :
  Forall (fun x => accepted x = false) bad -> accepted a = true ->
  ask_user (bad ++ a :: rest) = Ok a.
Proof.
  intros H Ha. induction H as [|x bad Hx Hb IH]; cbn [app ask_user]; [rewrite Ha; reflexivity|].
  rewrite Hx. exact IH.
Qed.

Lemma str_eqb_true a b : str_eqb a b = true <-> a = b.
Proof. unfold str_eqb. destruct chars_eq_dec; split; congruence. Qed.
Lemma str_eqb_refl a : str_eqb a a = true.
Proof. apply str_eqb_true; reflexivity. Qed.

(** An existing directory: after any number of refused answers, the answer "n", "c" or "r"
    has the effect of the corresponding mode and "s" stops without any effect. *)
Theorem C22_ask_partial : forall f bad a rest input sp postfix,
  fs_exists f (base_dir input sp postfix) = true ->
  Forall (fun x => accepted x = false) bad ->
  (forall h, meaning a = Some h ->
     prepare_path_dir_result f (bad ++ a :: rest) input sp postfix Ask =
     prepare_path_dir_result f [] input sp postfix h) /\
  (a = of_string "s" ->
     prepare_path_dir_result f (bad ++ a :: rest) input sp postfix Ask = Ok (Stopped, f)).
Proof.
  intros f bad a rest input sp postfix EB Hbad.
  unfold prepare_path_dir_result. rewrite base_dir_eq, EB. cbn [negb].
  split.
  - intros h Hm. unfold meaning in Hm.
    destruct (str_eqb a (of_string "n")) eqn:En; [apply str_eqb_true in En|
    destruct (str_eqb a (of_string "c")) eqn:Ec; [apply str_eqb_true in Ec|
    destruct (str_eqb a (of_string "r")) eqn:Er; [apply str_eqb_true in Er|discriminate]]];
    injection Hm as <-; subst a; rewrite ask_user_skip by (assumption || reflexivity); reflexivity.
  - intros ->. rewrite ask_user_skip by (assumption || reflexivity). reflexivity.
Qed.
Print Assumptions C22_ask_partial.

(** The property fails for upper case answers: they are accepted but have no effect; the
    existing directory is used, in the mode "ask", even when the answer is "S" (stop) or
    "N" (new directory). *)
Theorem C22_upper_case_refuted : forall a, In a [of_string "N"; of_string "C"; of_string "R"; of_string "S"] ->
  accepted a = true /\
  forall f rest input sp postfix, is_dir f (base_dir input sp postfix) ->
    prepare_path_dir_result f (a :: rest) input sp postfix Ask =
    Ok (Dir_ready (base_dir input sp postfix) Ask, f).
Proof.
  intros a Ha. assert (A : accepted a = true).
  { cbn [In] in Ha. decompose [or] Ha; subst; try reflexivity; contradiction. }
  split; [exact A|].
  intros f rest input sp postfix D. unfold prepare_path_dir_result. rewrite base_dir_eq.
  unfold is_dir in D. unfold fs_exists at 1. rewrite D. cbn [negb ask_user]. rewrite A. cbn [bind].
  cbn [In] in Ha. decompose [or] Ha; subst; try contradiction;
    unfold str_eqb; repeat (destruct chars_eq_dec as [X|_]; [vm_compute in X; discriminate|]);
    unfold fs_mkdir; rewrite D; reflexivity.
Qed.
Print Assumptions C22_upper_case_refuted.

(** The property fails also when the path is a pathlib.Path (in particular for the second
    topology made with the same parameters, since the first one stores a Path). *)
Theorem C22_path_object_refuted : forall f answers input p postfix,
  fs_exists f p = true ->
  prepare_path_dir_result f answers input (SPPath p) postfix NewDir = Err TypeError.
Proof.
  intros f answers input p postfix E. unfold prepare_path_dir_result. rewrite E. reflexivity.
Qed.
Print Assumptions C22_path_object_refuted.

Theorem C22_same_params_twice_refuted : forall f answers answers' input sp postfix p sp' f',
  init_path_dir_result f answers input sp postfix NewDir = Ok (Dir_ready p NewDir, sp', f') ->
  init_path_dir_result f' answers' input sp' postfix NewDir = Err TypeError.
Proof.
  intros f answers answers' input sp postfix p sp' f'. unfold init_path_dir_result.
  destruct (prepare_path_dir_result f answers input sp postfix NewDir) as [[[q h|] g]|e] eqn:E;
    cbn [bind]; try discriminate.
  intros [= -> -> <- ->]. apply new_dir_sound in E. destruct E as (q & Eq & _ & (D & _)).
  injection Eq as <-. rewrite C22_path_object_refuted; [reflexivity|].
  unfold fs_exists. rewrite D. reflexivity.
Qed.
Print Assumptions C22_same_params_twice_refuted.

Theorem C22_unknown_mode : forall f answers input sp postfix,
  prepare_path_dir_result f answers input sp postfix HOther = Err ValueError.
Proof. reflexivity. Qed.

(** ** Examples: the hypotheses are met *)
Definition ex_dir : path := [of_string "images"].
Definition ex_fs : fs :=
  [(ex_dir, Dir); ([of_string "images.piv"], Dir); ([of_string "images.piv0"], Dir)].

Example C22_example_new_dir :
  prepare_path_dir_result ex_fs [] ex_dir SPNone (of_string "piv") NewDir =
  Ok (Dir_ready [of_string "images.piv1"] NewDir, ([of_string "images.piv1"], Dir) :: ex_fs).
Proof. vm_compute. reflexivity. Qed.

Example C22_example_ask :
  prepare_path_dir_result ex_fs [of_string "yes"; of_string "n"] ex_dir SPNone (of_string "piv") Ask =
  Ok (Dir_ready [of_string "images.piv1"] NewDir, ([of_string "images.piv1"], Dir) :: ex_fs).
Proof. vm_compute. reflexivity. Qed.

Example C22_example_stop :
  prepare_path_dir_result ex_fs [of_string "s"] ex_dir SPNone (of_string "piv") Ask = Ok (Stopped, ex_fs).
Proof. vm_compute. reflexivity. Qed.

Example C22_example_upper_case_stop :
  prepare_path_dir_result ex_fs [of_string "S"] ex_dir SPNone (of_string "piv") Ask =
  Ok (Dir_ready [of_string "images.piv"] Ask, ex_fs).
Proof. vm_compute. reflexivity. Qed.

Example C22_example_twice :
  exists p sp f, init_path_dir_result ex_fs [] ex_dir SPNone (of_string "piv") NewDir =
                 Ok (Dir_ready p NewDir, sp, f).
Proof. vm_compute. repeat eexists. Qed.

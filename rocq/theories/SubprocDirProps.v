(** C91: the processes of a computation save their results in the directory of the results of the topology. *)
From Verif Require Import PyBase StrModel StrProofs FsModel FsProofs ResultDirModel ResultDirProps SubprocDirModel.

(** ** Proofs *)
Lemma init_ready f answers src sp postfix h D h' sp' f' :
  init_path_dir_result f answers src sp postfix h = Ok (Dir_ready D h', sp', f') -> sp' = SPPath D /\ is_dir f' D.
Proof.
  unfold init_path_dir_result. destruct (prepare_path_dir_result f answers src sp postfix h) as [[[q k|] g]|e] eqn:E; cbn [bind]; try discriminate.
  intros [= -> -> <- ->]. split; [reflexivity|]. unfold prepare_path_dir_result in E. rewrite base_dir_eq in E. set (B := base_dir src sp postfix) in *.
  assert (M : forall p g, fs_mkdir f p true = Ok g -> is_dir g p).
  { intros p g M. apply fs_mkdir_ok in M. exact (proj1 M). }
  destruct h; try discriminate;
  repeat match type of E with
         | context [if ?b then _ else _] => destruct b; cbn [bind] in E
         | context [match sp with _ => _ end] => destruct sp; cbn [bind] in E; try discriminate
         | context [bind (fs_mkdir f ?p true) _] => let X := fresh "X" in destruct (fs_mkdir f p true) eqn:X; cbn [bind] in E; try discriminate;
             injection E as <- <- <-; exact (M _ _ X)
         | context [bind (first_free ?a ?b ?c ?d) _] => destruct (first_free a b c d); cbn [bind] in E; try discriminate
         | context [bind (ask_user ?a) _] => destruct (ask_user a); cbn [bind] in E; try discriminate
         end; discriminate.
Qed.

(** ** Theorems *)

(** Modes "recompute", "complete" (and "ask" when it means one of them): every process uses the directory of the topology,
    without asking anything, and creates no other directory. *)
Theorem C91_same_directory_partial : forall f0 answers0 src sp postfix h0 D h sp' f1,
  init_path_dir_result f0 answers0 src sp postfix h0 = Ok (Dir_ready D h, sp', f1) ->
  h = Recompute \/ h = Complete \/ h = FromPathIndices ->
  is_dir f1 D /\
  forall as_str aware f answers, is_dir f D ->
    child_init as_str aware f answers src sp' postfix h = Ok (Dir_ready D (child_how aware h), SPPath D, f).
Proof.
  intros f0 answers0 src sp postfix h0 D h sp' f1 I H. destruct (init_ready _ _ _ _ _ _ _ _ _ _ I) as (-> & D1). split; [exact D1|].
  intros as_str aware f answers Df. unfold child_init, init_path_dir_result.
  assert (R : base_dir src (reload as_str (SPPath D)) postfix = D) by (destruct as_str; reflexivity).
  assert (M : fs_mkdir f D true = Ok f) by (unfold fs_mkdir; rewrite Df; reflexivity).
  assert (X : fs_exists f D = true) by (unfold fs_exists; rewrite Df; reflexivity).
  unfold prepare_path_dir_result. rewrite base_dir_eq, R, X. cbn [negb].
  assert (Z : child_how aware h = Recompute \/ child_how aware h = Complete \/ child_how aware h = FromPathIndices).
  { destruct H as [->|[->| ->]]; cbn; auto. destruct aware; auto. }
  destruct Z as [->|[->| ->]]; cbn [bind]; rewrite M; reflexivity.
Qed.
Print Assumptions C91_same_directory_partial.

(** Mode "new_dir" (or the answer "n"): no process uses the directory of the topology.  If the path is read as a Path each process
    raises TypeError; if it is read as a str each process which starts creates another directory, and two processes which start one after the
    other create different directories. *)
Theorem C91_new_dir_refuted : forall f0 answers0 src sp postfix h0 D sp' f1,
  init_path_dir_result f0 answers0 src sp postfix h0 = Ok (Dir_ready D NewDir, sp', f1) ->
  is_dir f1 D /\
  forall aware f answers, is_dir f D ->
    child_init false aware f answers src sp' postfix NewDir = Err TypeError /\
    forall o sp'' f', child_init true aware f answers src sp' postfix NewDir = Ok (o, sp'', f') ->
      exists E, o = Dir_ready E NewDir /\ E <> D /\ fs_exists f E = false /\ is_dir f' E /\ is_dir f' D /\
        forall g o2 sp2 g', is_dir g D -> is_dir g E ->
          child_init true aware g answers src sp' postfix NewDir = Ok (o2, sp2, g') ->
          exists E2, o2 = Dir_ready E2 NewDir /\ E2 <> D /\ E2 <> E.
Proof.
  intros f0 answers0 src sp postfix h0 D sp' f1 I. destruct (init_ready _ _ _ _ _ _ _ _ _ _ I) as (-> & D1). split; [exact D1|].
  assert (K : forall aware f answers o sp'' f', is_dir f D -> child_init true aware f answers src (SPPath D) postfix NewDir = Ok (o, sp'', f') ->
    exists E, o = Dir_ready E NewDir /\ E <> D /\ fs_exists f E = false /\ only_adds_dir f f' E).
  { intros aware f answers o sp'' f' Df H. unfold child_init, init_path_dir_result in H. cbn [reload child_how] in H.
    destruct (prepare_path_dir_result f answers src (SPStr D) postfix NewDir) as [[o' g]|e] eqn:P; cbn [bind] in H; [|discriminate].
    destruct (new_dir_sound _ _ _ _ _ _ _ P) as (E & -> & (F & _) & A). injection H as <- <- <-. exists E. split; [reflexivity|].
    split; [|split; assumption]. intros ->. unfold fs_exists in F. rewrite Df in F. discriminate. }
  intros aware f answers Df. split.
  - unfold child_init, init_path_dir_result. cbn [reload child_how]. rewrite C22_path_object_refuted; [reflexivity|]. unfold fs_exists. rewrite Df. reflexivity.
  - intros o sp'' f' H. destruct (K _ _ _ _ _ _ Df H) as (E & -> & NE & F & (A1 & A2)). exists E. split; [reflexivity|]. split; [exact NE|]. split; [exact F|].
    split; [exact A1|]. split; [unfold is_dir; rewrite A2 by congruence; exact Df|].
    intros g o2 sp2 g' Gd Ge H2. destruct (K _ _ _ _ _ _ Gd H2) as (E2 & -> & NE2 & F2 & _). exists E2. split; [reflexivity|]. split; [exact NE2|].
    intros ->. unfold fs_exists in F2. rewrite Ge in F2. discriminate.
Qed.
Print Assumptions C91_new_dir_refuted.

(** When the topology keeps the mode "ask" (answers in upper case) each process asks the question again: with nothing to read
    it does not go further, and it follows the next answer. *)
Theorem C91_ask_refuted : forall f0 answers0 src sp postfix h0 D sp' f1,
  init_path_dir_result f0 answers0 src sp postfix h0 = Ok (Dir_ready D Ask, sp', f1) ->
  forall as_str aware f, is_dir f D ->
    child_init as_str aware f [] src sp' postfix Ask = Err OutOfFuel /\
    child_init as_str aware f [of_string "s"] src sp' postfix Ask = Ok (Stopped, reload as_str sp', f).
Proof.
  intros f0 answers0 src sp postfix h0 D sp' f1 I as_str aware f Df. destruct (init_ready _ _ _ _ _ _ _ _ _ _ I) as (-> & _).
  assert (R : base_dir src (reload as_str (SPPath D)) postfix = D) by (destruct as_str; reflexivity).
  assert (X : fs_exists f D = true) by (unfold fs_exists; rewrite Df; reflexivity).
  unfold child_init, init_path_dir_result, prepare_path_dir_result. rewrite base_dir_eq, R, X. split; reflexivity.
Qed.
Print Assumptions C91_ask_refuted.

(** ** Examples: the hypotheses are met *)
Example C91_example_recompute : exists sp f,
  init_path_dir_result ex_fs [of_string "r"] ex_dir SPNone (of_string "piv") Ask = Ok (Dir_ready [of_string "images.piv"] Recompute, sp, f) /\
  child_init true true f [] ex_dir sp (of_string "piv") Recompute = Ok (Dir_ready [of_string "images.piv"] Recompute, sp, f).
Proof. eexists _, _. split; vm_compute; reflexivity. Qed.
Example C91_example_new_dir : exists sp f g,
  init_path_dir_result ex_fs [] ex_dir SPNone (of_string "piv") NewDir = Ok (Dir_ready [of_string "images.piv1"] NewDir, sp, f) /\
  child_init true true f [] ex_dir sp (of_string "piv") NewDir =
    Ok (Dir_ready [of_string "images.piv10"] NewDir, SPPath [of_string "images.piv10"], g).
Proof. eexists _, _, _. split; vm_compute; reflexivity. Qed.
Example C91_example_ask : exists sp f,
  init_path_dir_result ex_fs [of_string "N"] ex_dir SPNone (of_string "piv") Ask = Ok (Dir_ready [of_string "images.piv"] Ask, sp, f).
Proof. eexists _, _. vm_compute. reflexivity. Qed.

(** Properties of the computations started from a file (C128). *)
From Verif Require Import PyBase StrModel StrProofs UvmatModel UvmatProps FsModel ResultDirModel ResultDirProps PassModel PassProps RunXmlModel.
Local Open Scope Z_scope.

Section Props.
Context {Others Kwargs : Type}.
Variable abspath : chars -> chars.
Variable import_class : chars -> chars -> result unit.
Variable locate : chars -> path.
Notation xml := (@xml Others Kwargs).
Notation run := (@run_from_xml Others Kwargs abspath import_class).
Notation run_uvmat := (@run_uvmat Others Kwargs abspath import_class locate).

Lemma attr_ok {A} (o : option A) a : attr o = Ok a -> o = Some a.
Proof. destruct o; cbn; congruence. Qed.
Lemma str_eqb_eq a b : str_eqb a b = true <-> a = b.
Proof. unfold str_eqb. destruct (chars_eq_dec a b); split; congruence. Qed.
Lemma action_ok name : in_strs name actions_classes = true <-> name = of_string "civ_series".
Proof. unfold in_strs, actions_classes. cbn [existsb]. rewrite orb_false_r. apply str_eqb_eq. Qed.

(** *** Which program *)
(** A file with an action of UVmat is only a file of UVmat; without action, the program given in the file is used, and a
    file without program (or with another one) is refused. *)
Theorem C128_program mode (x : xml) l : run mode x = Ok l ->
  match l with
  | LUvmat _ => x_action x = Some (of_string "civ_series")
  | LFluid m c _ _ => x_action x = None /\ x_text x = Some (mk_text (Some (of_string "fluidimage")) (Some m) (Some c)) /\
                      import_class m c = Ok tt
  end.
Proof.
  unfold run_from_xml. destruct (x_action x) as [a|] eqn:Ea.
  - change (in_strs (of_string "uvmat") supported_programs) with true. cbn [negb].
    change (str_eqb (of_string "uvmat") (of_string "uvmat")) with true. cbv iota.
    destruct (tidy _ _ _) as [t|]; [|discriminate]. cbn [bind attr].
    destruct (in_strs a actions_classes) eqn:E; cbn [negb]; [|discriminate].
    destruct (params_from_uvmat_xml _ _) as [p|]; [|discriminate]. cbn [bind]. intros [= <-]. apply action_ok in E. congruence.
  - destruct (x_text x) as [[pr m c]|]; [|discriminate]. cbn [t_program]. destruct pr as [pr|]; [|discriminate].
    destruct (in_strs pr supported_programs) eqn:E; cbn [negb]; [|discriminate].
    destruct (str_eqb pr (of_string "uvmat")) eqn:Eu.
    + destruct (tidy _ _ _) as [t|]; cbn [bind attr]; discriminate.
    + unfold in_strs, supported_programs in E. cbn [existsb] in E. rewrite Eu, orb_false_r in E. cbn [orb] in E. apply str_eqb_eq in E.
      cbn [t_module t_class]. destruct m as [m|]; [|discriminate]. destruct c as [c|]; [|discriminate].
      destruct (import_class m c) as [[]|] eqn:Ei; [|discriminate]. cbn [bind]. intros [= <-]. subst pr. repeat split. exact Ei.
Qed.

Theorem C128_refused mode (x : xml) :
  (x_action x = None ->
   match x_text x with Some t => t_program t <> Some (of_string "uvmat") /\ t_program t <> Some (of_string "fluidimage") | None => True end ->
   run mode x = Err ValueError) /\
  (forall name t, x_action x = Some name -> name <> of_string "civ_series" ->
   tidy abspath (input_table (x_uvmat x)) (output_dir_ext (x_uvmat x)) = Ok t -> run mode x = Err NotImplementedError).
Proof.
  split.
  - intros Ha Ht. unfold run_from_xml. rewrite Ha. destruct (x_text x) as [[[pr|] m c]|]; [|reflexivity ..]. cbn [t_program] in *.
    destruct Ht as (H1 & H2). assert (E : in_strs pr supported_programs = false).
    { unfold in_strs, supported_programs. cbn [existsb].
      destruct (str_eqb pr (of_string "uvmat")) eqn:E1; [apply str_eqb_eq in E1; congruence|].
      destruct (str_eqb pr (of_string "fluidimage")) eqn:E2; [apply str_eqb_eq in E2; congruence|]. reflexivity. }
    rewrite E. reflexivity.
  - intros name t Ha Hn Ht. unfold run_from_xml. rewrite Ha.
    change (in_strs (of_string "uvmat") supported_programs) with true. cbn [negb].
    change (str_eqb (of_string "uvmat") (of_string "uvmat")) with true. cbv iota.
    rewrite Ht. cbn [bind attr]. destruct (in_strs name actions_classes) eqn:E; [apply action_ok in E; contradiction|]. reflexivity.
Qed.

(** *** The parameters *)
(** Each parameter of the computation is the one of the instructions, or the default value. *)
Theorem C128_parameters mode (x : xml) p : run mode x = Ok (LUvmat p) ->
  let u := x_uvmat x in let a := u_input u in
  (exists t, tidy abspath (input_table u) (output_dir_ext u) = Ok t /\ saving_path p = path_dir_output t /\ series_path p = path_file_input t) /\
  set_params_series (u_ins u) = Ok (p_series p) /\
  (exists text, civ1 a = Some (Some text) /\ window_size text = Ok (shape_crop_im0 p)) /\
  shape_crop_im1 p = None /\ coeff_zoom p = 2 /\
  number p = (if civ2 a then 2 else 1) /\
  match a_patch2 a with
  | Some p2 => use_tps p = TpsLast /\ sub_domain_size p2 = Some (subdom_size p) /\ field_smooth p2 = Some (smoothing_coef p) /\
               max_diff p2 = Some (threshold_tps p)
  | None => use_tps p = TpsFalse
  end /\
  (exists f1, a_fix1 a = Some f1 /\ min_corr f1 = Some (correl_min p) /\ max_vel f1 = displacement_max p).
Proof.
  intros H u a. unfold run_from_xml in H. pose proof (C128_program mode x _ H) as Ha. cbn beta iota in Ha. rewrite Ha in H.
  change (in_strs (of_string "uvmat") supported_programs) with true in H. cbn [negb] in H.
  change (str_eqb (of_string "uvmat") (of_string "uvmat")) with true in H. cbv iota in H.
  fold u in H. destruct (tidy abspath (input_table u) (output_dir_ext u)) as [t|]; [|discriminate]. cbn [bind attr] in H.
  change (in_strs (of_string "civ_series") actions_classes) with true in H. cbn [negb] in H.
  destruct (params_from_uvmat_xml t u) as [q|] eqn:E; [|discriminate]. cbn [bind] in H. injection H as <-.
  unfold params_from_uvmat_xml in E. fold a in E.
  destruct (set_params_series (u_ins u)) as [s|]; [|discriminate]. cbn [bind] in E.
  destruct (civ1 a) as [c1|]; [|discriminate]. cbn [bind attr] in E. destruct c1 as [text|]; [|discriminate]. cbn [bind attr] in E.
  destruct (window_size text) as [n0|] eqn:En; [|discriminate]. cbn [bind] in E.
  destruct (a_patch2 a) as [p2|].
  - destruct (sub_domain_size p2) as [d|]; [|discriminate]. cbn [bind attr] in E. destruct (field_smooth p2) as [c|]; [|discriminate]. cbn [bind attr] in E.
    destruct (max_diff p2) as [h|]; [|discriminate]. cbn [bind attr] in E.
    destruct (a_fix1 a) as [f1|]; [|discriminate]. cbn [bind attr] in E. destruct (min_corr f1) as [cm|] eqn:Ec; [|discriminate]. cbn [bind attr] in E.
    injection E as <-.
    split; [exists t; destruct mode; repeat split|]. split; [destruct mode; reflexivity|]. split; [exists text; split; [reflexivity|]; destruct mode; exact En|].
    destruct mode; (split; [reflexivity|]; split; [reflexivity|]; split; [cbn; destruct (civ2 a); reflexivity|]; split; [repeat split|];
      exists f1; split; [reflexivity|]; split; [exact Ec|]; cbn; destruct (max_vel f1); reflexivity).
  - cbn [bind] in E.
    destruct (a_fix1 a) as [f1|]; [|discriminate]. cbn [bind attr] in E. destruct (min_corr f1) as [cm|] eqn:Ec; [|discriminate]. cbn [bind attr] in E.
    injection E as <-.
    split; [exists t; destruct mode; repeat split|]. split; [destruct mode; reflexivity|]. split; [exists text; split; [reflexivity|]; destruct mode; exact En|].
    destruct mode; (split; [reflexivity|]; split; [reflexivity|]; split; [cbn; destruct (civ2 a); reflexivity|]; split; [repeat split|];
      exists f1; split; [reflexivity|]; split; [exact Ec|]; cbn; destruct (max_vel f1); reflexivity).
Qed.

(** without element Patch2 the parameters of the splines keep their default values *)
Theorem C128_without_patch mode (x : xml) p : run mode x = Ok (LUvmat p) -> a_patch2 (u_input (x_uvmat x)) = None ->
  (subdom_size p, smoothing_coef p, threshold_tps p) = (200%Q, 5%Q, (3 # 2)%Q).
Proof.
  intros H Hp. unfold run_from_xml in H. pose proof (C128_program mode x _ H) as Ha. cbn beta iota in Ha. rewrite Ha in H.
  change (in_strs (of_string "uvmat") supported_programs) with true in H. cbn [negb] in H.
  change (str_eqb (of_string "uvmat") (of_string "uvmat")) with true in H. cbv iota in H.
  destruct (tidy _ _ _) as [t|]; [|discriminate]. cbn [bind attr] in H.
  change (in_strs (of_string "civ_series") actions_classes) with true in H. cbn [negb] in H.
  destruct (params_from_uvmat_xml t _) as [q|] eqn:E; [|discriminate]. cbn [bind] in H. injection H as <-.
  unfold params_from_uvmat_xml in E. rewrite Hp in E.
  destruct (set_params_series _) as [s|]; [|discriminate]. cbn [bind] in E.
  destruct (civ1 _) as [c1|]; [|discriminate]. cbn [bind attr] in E. destruct c1 as [text|]; [|discriminate]. cbn [bind attr] in E.
  destruct (window_size text) as [n0|]; [|discriminate]. cbn [bind] in E.
  destruct (a_fix1 _) as [f1|]; [|discriminate]. cbn [bind attr] in E. destruct (min_corr f1) as [cm|]; [|discriminate]. cbn [bind attr] in E.
  injection E as <-. destruct mode; reflexivity.
Qed.

(** *** Which files of UVmat are accepted, whatever the mode *)
Theorem C128_accepted_iff mode (x : xml) :
  (exists p, run mode x = Ok (LUvmat p)) <->
  let u := x_uvmat x in let a := u_input u in
  x_action x = Some (of_string "civ_series") /\
  (3 < List.length (split_text (of_string " & ") (input_table u)))%nat /\
  (exists s, set_params_series (u_ins u) = Ok s) /\
  (exists text n, civ1 a = Some (Some text) /\ window_size text = Ok n) /\
  (forall p2, a_patch2 a = Some p2 -> sub_domain_size p2 <> None /\ field_smooth p2 <> None /\ max_diff p2 <> None) /\
  (exists f1, a_fix1 a = Some f1 /\ min_corr f1 <> None).
Proof.
  assert (TL : forall u, (exists t, tidy abspath (input_table u) (output_dir_ext u) = Ok t) <-> (3 < List.length (split_text (of_string " & ") (input_table u)))%nat).
  { intros u. unfold tidy.
    assert (L : List.length (table_cells (input_table u)) = List.length (split_text (of_string " & ") (input_table u))).
    { unfold table_cells. destruct (split_text _ _); [reflexivity|]. cbn [List.length]. rewrite map_length. reflexivity. }
    rewrite L. destruct (_ <=? 3)%nat eqn:E; [apply Nat.leb_le in E|apply Nat.leb_gt in E].
    - split; [intros (t & H); discriminate|lia].
    - split; [intros _; exact E|intros _; eexists; reflexivity]. }
  split.
  - intros (p & H). pose proof (C128_program mode x _ H) as Ha. cbn beta iota in Ha.
    destruct (C128_parameters mode x p H) as ((t & Ht & _) & Hs & (text & Hc & Hw) & _ & _ & _ & Hp & (f1 & Hf & Hm & _)). cbv zeta.
    split; [exact Ha|]. split; [apply TL; exists t; exact Ht|]. split; [eexists; exact Hs|]. split; [exists text; eexists; split; [exact Hc|exact Hw]|].
    split; [|exists f1; split; [exact Hf|congruence]]. intros p2 E. rewrite E in Hp. destruct Hp as (_ & -> & -> & ->). repeat split; discriminate.
  - cbv zeta. intros (Ha & Hl & (s & Hs) & (text & n & Hc & Hw) & Hp & (f1 & Hf & Hm)). apply TL in Hl. destruct Hl as (t & Ht).
    unfold run_from_xml. rewrite Ha. change (in_strs (of_string "uvmat") supported_programs) with true. cbn [negb].
    change (str_eqb (of_string "uvmat") (of_string "uvmat")) with true. cbv iota. rewrite Ht. cbn [bind attr].
    change (in_strs (of_string "civ_series") actions_classes) with true. cbn [negb].
    unfold params_from_uvmat_xml. rewrite Hs, Hc. cbn [bind attr]. rewrite Hw. cbn [bind]. rewrite Hf.
    destruct (min_corr f1) as [cm|] eqn:Em; [|congruence].
    destruct (a_patch2 _) as [p2|].
    + destruct (Hp p2 eq_refl) as (H1 & H2 & H3). destruct (sub_domain_size p2); [|congruence]. destruct (field_smooth p2); [|congruence].
      destruct (max_diff p2); [|congruence]. cbn [bind attr]. rewrite Em. eexists. reflexivity.
    + cbn [bind attr]. rewrite Em. eexists. reflexivity.
Qed.

(** *** The option --mode *)
(** With --mode the way of saving is the one asked for; without it, "recompute" for UVmat and the one of the file for
    fluidimage.  The other parameters of a file of fluidimage and the arguments of compute are those of the file. *)
Theorem C128_mode mode (x : xml) l : run mode x = Ok l ->
  match l with
  | LUvmat p => saving_how p = match mode with Some m => m | None => of_string "recompute" end
  | LFluid _ _ p kwargs =>
    f_how p = match mode, f_how (x_params x) with Some m, Some _ => Some m | _, h => h end /\
    f_others p = f_others (x_params x) /\ kwargs = f_kwargs (x_params x)
  end.
Proof.
  intros H. pose proof (C128_program mode x l H) as P. unfold run_from_xml in H. destruct l as [p|m c p kw].
  - rewrite P in H. change (in_strs (of_string "uvmat") supported_programs) with true in H. cbn [negb] in H.
    change (str_eqb (of_string "uvmat") (of_string "uvmat")) with true in H. cbv iota in H.
    destruct (tidy _ _ _) as [t|]; [|discriminate]. cbn [bind attr] in H.
    change (in_strs (of_string "civ_series") actions_classes) with true in H. cbn [negb] in H.
    destruct (params_from_uvmat_xml t _) as [q|] eqn:E; [|discriminate]. cbn [bind] in H. injection H as <-.
    destruct mode; [reflexivity|]. cbn [modif_uvmat]. unfold params_from_uvmat_xml in E.
    destruct (set_params_series _) as [s|]; [|discriminate]. cbn [bind] in E.
    destruct (attr (civ1 _)) as [c1|]; [|discriminate]. cbn [bind] in E. destruct (attr c1) as [text|]; [|discriminate]. cbn [bind] in E.
    destruct (window_size text) as [n0|]; [|discriminate]. cbn [bind] in E.
    match type of E with (do _ <- ?m ; _) = _ => destruct m as [[[[ut d] c] h]|]; [|discriminate] end. cbn [bind] in E.
    destruct (attr (a_fix1 _)) as [f1|]; [|discriminate]. cbn [bind] in E. destruct (attr (min_corr f1)) as [cm|]; [|discriminate]. cbn [bind] in E.
    injection E as <-. reflexivity.
  - destruct P as (Pa & Pt & Pi). rewrite Pa, Pt in H. cbn [t_program t_module t_class] in H.
    change (in_strs (of_string "fluidimage") supported_programs) with true in H. cbn [negb] in H.
    change (str_eqb (of_string "fluidimage") (of_string "uvmat")) with false in H. cbv iota in H.
    rewrite Pi in H. cbn [bind] in H. injection H as <- <-. destruct mode; cbn [modif_fluid f_how f_others f_kwargs]; destruct (f_how (x_params x)); repeat split.
Qed.

(** *** The windows *)
(** With a search box of n pixels the windows of the first pass have 2 (n / 2) pixels in each direction; there is a second
    pass exactly with the element Civ2, with windows of n / 2 pixels. *)
Theorem C128_windows init_correl mode (x : xml) p n rest works : run mode x = Ok (LUvmat p) ->
  civ1 (u_input (x_uvmat x)) = Some (Some (py_str n ++ tab :: rest)) -> 0 <= n ->
  windows_of init_correl p = Ok works ->
  works = (let w := (2 * (n / 2), 2 * (n / 2)) in (w, w)) ::
          (if civ2 (u_input (x_uvmat x)) then [let w := (n / 2, n / 2) in (w, w)] else []).
Proof.
  intros H Hc Hn Hw. destruct (C128_parameters mode x p H) as (_ & _ & (text & Ec & Et) & E1 & Ez & En & _).
  rewrite Hc in Ec. injection Ec as <-. rewrite C54_window in Et. injection Et as Es.
  unfold windows_of in Hw. rewrite E1, Ez, <- Es, En in Hw.
  assert (Hd : 0 <= n / 2) by (apply Z.div_pos; lia).
  assert (W : forall k, window_at (of_Z (2 * (n / 2)), of_Z (2 * (n / 2))) (map of_Z [2]) k = (2 * (n / 2) / zprod (firstn k [2]), 2 * (n / 2) / zprod (firstn k [2]))).
  { intros k. unfold window_at. cbn [fst snd]. rewrite !C37_integers by (repeat constructor; lia). reflexivity. }
  destruct (civ2 (u_input (x_uvmat x))).
  - destruct (C37_windows _ _ 2 (ZInt 2) (SInt (2 * (n / 2))) SNone works ltac:(lia) Hw) as (cs & s0 & s1 & Hcs & G0 & G1 & L & N).
    cbn [given] in G0, G1. cbn in Hcs. subst s0 s1.
    assert (cs = map of_Z [2]) as -> by (first [exact Hcs|symmetry; exact Hcs|congruence]).
    destruct works as [|w0 [|w1 [|]]]; try (unfold zlen in L; cbn in L; lia).
    pose proof (N 0%nat ltac:(lia)) as N0. pose proof (N 1%nat ltac:(lia)) as N1. cbn [nth_error] in N0, N1. rewrite W in N0, N1.
    change (zprod (firstn 0 [2])) with 1 in N0. change (zprod (firstn 1 [2])) with 2 in N1. apply (f_equal (fun o => match o with Some w => w | None => w0 end)) in N0, N1. cbv beta iota in N0, N1. subst w0 w1.
    rewrite !Z.div_1_r. assert (D2 : 2 * (n / 2) / 2 = n / 2) by (rewrite Z.mul_comm; apply Z.div_mul; lia). rewrite D2. reflexivity.
  - destruct (C37_windows _ _ 1 (ZInt 2) (SInt (2 * (n / 2))) SNone works ltac:(lia) Hw) as (cs & s0 & s1 & Hcs & G0 & G1 & L & N).
    cbn [given] in G0, G1. cbn in Hcs. subst s0 s1.
    destruct works as [|w0 [|]]; try (unfold zlen in L; cbn in L; lia).
    pose proof (N 0%nat ltac:(lia)) as N0. cbn [nth_error] in N0. apply (f_equal (fun o => match o with Some w => w | None => w0 end)) in N0. cbv beta iota in N0. subst w0.
    unfold window_at. cbn [fst snd]. subst cs. change (@nil num) with (map of_Z []). rewrite !C37_integers by (first [lia|constructor]).
    change (zprod (firstn 0 [])) with 1. rewrite Z.div_1_r. reflexivity.
Qed.

(** *** The directory of the results *)
Lemma how_of_texts : how_of (of_string "new_dir") = NewDir /\ how_of (of_string "recompute") = Recompute /\ how_of (of_string "complete") = Complete.
Proof. repeat split. Qed.

(** Runs of UVmat files with --mode new_dir (not always the same one), with other programs at work in between which remove
    nothing. *)
Inductive session : fs -> list path -> fs -> Prop :=
| s_none f : session f [] f
| s_other f f1 l g : (forall p, fs_exists f p = true -> fs_exists f1 p = true) -> session f1 l g -> session f l g
| s_run f x answers images p f1 l g :
    run_uvmat (Some (of_string "new_dir")) x answers images f = Ok (Dir_ready p NewDir, f1) -> session f1 l g -> session f (p :: l) g.

Lemma run_new_dir x answers images f o f1 : run_uvmat (Some (of_string "new_dir")) x answers images f = Ok (o, f1) ->
  exists p, o = Dir_ready p NewDir /\ fs_exists f p = false /\ fs_exists f1 p = true /\ (forall q, fs_exists f q = true -> fs_exists f1 q = true).
Proof.
  unfold run_uvmat. destruct (run _ x) as [[p|m c p kw]|] eqn:E; cbn [bind]; [|discriminate ..].
  pose proof (C128_mode _ _ _ E) as Hm. cbn beta iota in Hm. unfold open_results. rewrite Hm. change (how_of (of_string "new_dir")) with NewDir.
  intros H. apply C22_new_dir in H. destruct H as (q & -> & (F & _) & A). exists q. split; [reflexivity|]. split; [exact F|].
  destruct A as (A1 & A2). split; [unfold fs_exists; rewrite A1; reflexivity|].
  intros r Hr. unfold fs_exists in *. destruct (path_eq_dec r q) as [-> |Hq]; [rewrite A1; reflexivity|rewrite A2 by exact Hq; exact Hr].
Qed.

Lemma session_keeps f l g : session f l g -> forall p, fs_exists f p = true -> fs_exists g p = true.
Proof.
  induction 1 as [f|f f1 l g H _ IH|f x answers images p f1 l g H _ IH]; intros q Hq; [exact Hq|apply IH, H, Hq|].
  apply IH. destruct (run_new_dir _ _ _ _ _ _ H) as (p' & _ & _ & _ & K). apply K, Hq.
Qed.

(** Each run of the session has its own directory, which did not exist before the session. *)
Theorem C128_new_dir f l g : session f l g ->
  NoDup l /\ forall p, In p l -> fs_exists f p = false /\ fs_exists g p = true.
Proof.
  intros H. assert (K : NoDup l /\ forall p, In p l -> fs_exists f p = false).
  { induction H as [f|f f1 l g H _ IH|f x answers images p f1 l g H Hs IH].
    - split; [constructor|intros p []].
    - destruct IH as (I1 & I2). split; [exact I1|]. intros p Hp. specialize (I2 p Hp). destruct (fs_exists f p) eqn:E; [|reflexivity].
      apply H in E. congruence.
    - destruct IH as (I1 & I2). destruct (run_new_dir _ _ _ _ _ _ H) as (p' & E & K1 & K2 & K3). injection E as <-.
      split; [constructor; [|exact I1]|].
      + intros Hp. apply I2 in Hp. congruence.
      + intros q [<-|Hq]; [exact K1|]. apply I2 in Hq. destruct (fs_exists f q) eqn:E; [|reflexivity]. apply K3 in E. congruence. }
  split; [apply K|]. intros p Hp. split; [apply K, Hp|]. clear K. revert Hp.
  induction H as [f|f f1 l g H _ IH|f x answers images q f1 l g H Hs IH]; intros Hp; [destruct Hp|apply IH, Hp|].
  destruct Hp as [<-|Hp]; [|apply IH, Hp]. destruct (run_new_dir _ _ _ _ _ _ H) as (p' & E & K1 & K2 & K3). injection E as <-.
  apply (session_keeps _ _ _ Hs), K2.
Qed.

(** Without --mode, and with --mode recompute or complete, the results go to the directory given by the instructions,
    which is created if needed; nothing else changes in the file system. *)
Theorem C128_same_dir mode (x : xml) answers images f o f1 :
  mode = None \/ mode = Some (of_string "recompute") \/ mode = Some (of_string "complete") ->
  run_uvmat mode x answers images f = Ok (o, f1) ->
  exists t, tidy abspath (input_table (x_uvmat x)) (output_dir_ext (x_uvmat x)) = Ok t /\
    o = Dir_ready (locate (path_dir_output t)) (match mode with Some m => how_of m | None => Recompute end) /\
    only_adds_dir f f1 (locate (path_dir_output t)).
Proof.
  intros Hm. unfold run_uvmat. destruct (run mode x) as [[p|m c p kw]|] eqn:E; cbn [bind]; [|discriminate ..].
  pose proof (C128_mode _ _ _ E) as Hh. cbn beta iota in Hh. destruct (C128_parameters _ _ _ E) as ((t & Ht & Hp & _) & _).
  unfold open_results. rewrite Hh, Hp. intros H. exists t. split; [exact Ht|].
  destruct Hm as [-> |[-> | ->]].
  - change (how_of (of_string "recompute")) with Recompute in H.
    apply (C22_base_name f answers images (SPStr (locate (path_dir_output t))) (of_string "piv") Recompute ltac:(tauto)) in H. exact H.
  - change (how_of (of_string "recompute")) with Recompute in *.
    apply (C22_base_name f answers images (SPStr (locate (path_dir_output t))) (of_string "piv") Recompute ltac:(tauto)) in H. exact H.
  - change (how_of (of_string "complete")) with Complete in *.
    apply (C22_base_name f answers images (SPStr (locate (path_dir_output t))) (of_string "piv") Complete ltac:(tauto)) in H. exact H.
Qed.

(** A mode which does not exist is refused for a file of UVmat. *)
Theorem C128_unknown_mode m (x : xml) answers images f p : run (Some m) x = Ok (LUvmat p) ->
  ~ In m (map of_string ["ask"; "new_dir"; "complete"; "recompute"; "from_path_indices"]%string) ->
  run_uvmat (Some m) x answers images f = Err ValueError.
Proof.
  intros H Hm. unfold run_uvmat. rewrite H. cbn [bind]. unfold open_results. rewrite (C128_mode _ _ _ H).
  assert (E : how_of m = HOther).
  { unfold how_of. cbn [map In] in Hm.
    repeat match goal with |- context [str_eqb m ?t] => destruct (str_eqb m t) eqn:?; [exfalso; apply Hm; match goal with K : str_eqb m _ = true |- _ => apply str_eqb_eq in K; rewrite K end; tauto|] end.
    reflexivity. }
  rewrite E. reflexivity.
Qed.
End Props.

(** ** Example: two passes, splines, no maximal velocity *)
Definition ex_file : @xml unit unit :=
  {| x_action := Some (of_string "civ_series"); x_text := None;
     x_uvmat := {| input_table := of_string "/d & Images & c & 001a & .png"; output_dir_ext := of_string ".civ";
       u_ins := {| irange := mk_range (Some 60) (Some 1) (Some 61) (Some 1) None (Some 2); list_pair_mode := of_string "pair j1-j2";
                   list_pair_civ1 := Some (of_string "j= a-b") |};
       u_input := {| civ1 := Some (Some (py_str 55 ++ tab :: of_string "55")); a_patch2 := Some (mk_patch (Some 250%Q) (Some 2%Q) (Some (3#2)%Q));
                     civ2 := true; a_fix1 := Some (mk_fix1 (Some (1#5)%Q) None) |} |};
     x_params := {| f_how := None; f_others := tt; f_kwargs := None |} |}.
Definition ex_run mode := run_from_xml (fun p => p) (fun _ _ => Ok tt) mode ex_file.
Example C128_example_windows : exists p, ex_run None = Ok (LUvmat p) /\ saving_path p = of_string "/d/Images.civ" /\
  windows_of (fun _ _ => Ok tt) p = Ok [((54, 54), (54, 54)); ((27, 27), (27, 27))] /\ saving_how p = of_string "recompute".
Proof. eexists. split; [vm_compute; reflexivity|]. split; [vm_compute; reflexivity|]. split; vm_compute; reflexivity. Qed.

(** two runs with new_dir: Images.civ then Images.civ0 *)
Definition ex_locate (c : chars) : path := [c; of_string "d"].
Example C128_example_session : exists l g, @session unit unit (fun p => p) (fun _ _ => Ok tt) ex_locate [([of_string "d"], Dir)] l g /\
  l = [ex_locate (of_string "/d/Images.civ"); ex_locate (of_string "/d/Images.civ0")].
Proof.
  eexists _, _. split; [|reflexivity].
  eapply s_run with (x := ex_file) (answers := []) (images := []); [vm_compute; reflexivity|].
  eapply s_run with (x := ex_file) (answers := []) (images := []); [vm_compute; reflexivity|]. apply s_none.
Qed.
(** a file of parameters of fluidimage *)
Example C128_example_fluid : exists p, run_from_xml (fun p => p) (fun _ _ => Ok tt) (Some (of_string "complete"))
    {| x_action := None; x_text := Some (mk_text (Some (of_string "fluidimage")) (Some (of_string "m")) (Some (of_string "C")));
       x_uvmat := x_uvmat ex_file; x_params := {| f_how := Some (of_string "ask"); f_others := tt; f_kwargs := Some tt |} |} =
    Ok (LFluid (of_string "m") (of_string "C") p (Some tt)) /\ f_how p = Some (of_string "complete").
Proof. eexists. split; reflexivity. Qed.

Print Assumptions C128_program.
Print Assumptions C128_refused.
Print Assumptions C128_parameters.
Print Assumptions C128_without_patch.
Print Assumptions C128_accepted_iff.
Print Assumptions C128_mode.
Print Assumptions C128_windows.
Print Assumptions C128_new_dir.
Print Assumptions C128_same_dir.
Print Assumptions C128_unknown_mode.

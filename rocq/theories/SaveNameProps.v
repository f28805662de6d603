(** C137: the file in which a result of PIV is saved. *)
From Coq Require Import String.
From Verif Require Import PyBase StrModel NameModel NameProps UvmatModel SaveNameModel.
From Coq Require Import ZArith List Lia.
Import ListNotations.
Open Scope Z_scope.

(** *** Specification *)

(** [name]: a name of file, in no directory *)
Definition plain (name : chars) : Prop := ~ In slash name.
(** [p]: the path of a file called [name] *)
Definition called (p name : chars) : Prop :=
  plain name /\ exists dir, p = dir ++ name /\ (dir = [] \/ exists d, dir = d ++ [slash]).
(** [p] ends with the extension [e]: the rest of the name has something else than dots *)
Definition has_extension (p e : chars) : Prop :=
  exists stem, called p (stem ++ e) /\ exists c, In c stem /\ c <> dot.
Definition result_file (p : chars) : Prop := has_extension p (of_string ".h5") \/ has_extension p (of_string ".nc").

(** *** Paths *)

Lemma not_char_spec c a : not_char c a = true <-> a <> c.
Proof. unfold not_char. destruct (Ascii.eqb_spec a c); cbn; split; congruence. Qed.

Lemma span_spec {A} (f : A -> bool) l : l = fst (span f l) ++ snd (span f l) /\ Forall (fun a => f a = true) (fst (span f l)) /\
  match snd (span f l) with [] => True | a :: _ => f a = false end.
Proof.
  induction l as [|a l (E & F & N)]; cbn; [repeat constructor|]. destruct (f a) eqn:Ea; cbn; [|repeat split; [constructor|exact Ea]].
  split; [f_equal; exact E|]. split; [constructor; assumption|exact N].
Qed.

Lemma span_app {A} (f : A -> bool) a b : Forall (fun x => f x = true) a -> match b with [] => True | x :: _ => f x = false end ->
  span f (a ++ b) = (a, b).
Proof.
  intros F N. induction F as [|x a Hx F IH]; cbn.
  - destruct b as [|x b]; cbn; [reflexivity|]. rewrite N. reflexivity.
  - rewrite Hx, IH. reflexivity.
Qed.

Lemma plain_forall n : plain n <-> Forall (fun x => not_char slash x = true) (rev n).
Proof.
  unfold plain. rewrite Forall_forall. split.
  - intros H x Hx. apply not_char_spec. intros ->. apply H. apply in_rev. exact Hx.
  - intros H Hi. apply in_rev in Hi. apply H in Hi. apply not_char_spec in Hi. contradiction.
Qed.

Lemma called_iff p name : called p name <-> basename p = name.
Proof.
  unfold called, basename. split.
  - intros (Hp & dir & -> & Hd). rewrite rev_app_distr, span_app; [apply rev_involutive|apply plain_forall; exact Hp|].
    destruct Hd as [->|(d & ->)]; [exact I|]. rewrite rev_app_distr. reflexivity.
  - intros <-. destruct (span_spec (not_char slash) (rev p)) as (E & F & N). set (a := fst _) in *. set (b := snd _) in *.
    split; [apply plain_forall; rewrite rev_involutive; exact F|]. exists (rev b). split.
    + rewrite <- rev_app_distr, <- E, rev_involutive. reflexivity.
    + destruct b as [|x b]; [left; reflexivity|right]. exists (rev b). cbn. f_equal. unfold not_char in N.
      destruct (Ascii.eqb_spec x slash); [congruence|discriminate].
Qed.

Lemma extension_iff p x : ~ In dot x -> extension p = dot :: x <-> has_extension p (dot :: x).
Proof.
  intros Hx. unfold has_extension, extension. split.
  - destruct (span_spec (not_char dot) (rev (basename p))) as (E & F & N). destruct (span _ _) as [a b]. cbn [fst snd] in *.
    destruct b as [|c stem]; [discriminate|]. destruct (existsb (not_char dot) stem) eqn:Ex; [|discriminate].
    intros H. injection H as H. exists (rev stem). split.
    + apply called_iff. rewrite <- (rev_involutive (basename p)), E, rev_app_distr. cbn [rev]. rewrite H, <- app_assoc. cbn. repeat f_equal.
      unfold not_char in N. destruct (Ascii.eqb_spec c dot); [congruence|discriminate].
    + apply existsb_exists in Ex. destruct Ex as (c' & Hi & Hc). exists c'. split; [apply in_rev; rewrite rev_involutive; exact Hi|apply not_char_spec; exact Hc].
  - intros (stem & Hc & c & Hi & Hn). apply called_iff in Hc. rewrite Hc.
    replace (rev (stem ++ dot :: x)) with (rev x ++ dot :: rev stem) by (rewrite rev_app_distr; cbn; rewrite <- app_assoc; reflexivity).
    rewrite span_app.
    + replace (existsb (not_char dot) (rev stem)) with true; [rewrite rev_involutive; reflexivity|].
      symmetry. apply existsb_exists. exists c. split; [apply in_rev; rewrite rev_involutive; exact Hi|apply not_char_spec; exact Hn].
    + apply Forall_forall. intros y Hy. apply in_rev in Hy. apply not_char_spec. intros ->. contradiction.
    + reflexivity.
Qed.

Lemma result_file_iff p : existsb (chars_eqb (extension p)) [of_string ".h5"; of_string ".nc"] = true <-> result_file p.
Proof.
  cbn [existsb]. rewrite !Bool.orb_true_iff, !chars_eqb_spec. unfold result_file.
  change (of_string ".h5") with (dot :: of_string "h5"). change (of_string ".nc") with (dot :: of_string "nc").
  rewrite !extension_iff by (cbn; unfold dot; intuition discriminate).
  intuition discriminate.
Qed.

Lemma join_called d n : plain n -> n <> [] -> called (path_join d n) n.
Proof.
  intros Hp Hn. split; [exact Hp|]. unfold path_join.
  destruct n as [|c n]; [contradiction Hn; reflexivity|].
  replace (startswith [slash] (c :: n)) with false.
  2:{ unfold startswith. destruct (Ascii.eqb_spec slash c) as [<-|]; [exfalso; apply Hp; left; reflexivity|reflexivity]. }
  destruct d as [|x d]; [exists []; auto|]. set (d' := x :: d). unfold ends_with_slash. destruct (rev d') as [|y r] eqn:E.
  - exists (d' ++ [slash]). rewrite <- app_assoc. split; [reflexivity|right; eauto].
  - destruct (Ascii.eqb_spec y slash) as [->|].
    + exists d'. split; [reflexivity|right]. exists (rev r). rewrite <- (rev_involutive d'), E. reflexivity.
    + exists (d' ++ [slash]). rewrite <- app_assoc. split; [reflexivity|right; eauto].
Qed.

Lemma join_inj d n m : plain n -> plain m -> n <> [] -> m <> [] -> path_join d n = path_join d m -> n = m.
Proof.
  intros Hn Hm Hn' Hm' E. apply (join_called d) in Hn; [|exact Hn']. apply (join_called d) in Hm; [|exact Hm'].
  apply called_iff in Hn, Hm. congruence.
Qed.

(** *** Results read in a file *)

(** A result of several passes read in a file can be saved again, for every kind: in the file which is
    given, or in a file of the same name in the directory which is given. *)
Theorem C137_multi_again : forall source name nb kind path, called source name ->
  exists p, save_multi (load_multi source nb) kind path = Ok p /\
    match path with
    | None => p = name
    | Some d => (result_file d -> p = d) /\ (~ result_file d -> p = path_join d name /\ (name <> [] -> called p name))
    end.
Proof.
  intros source name nb kind path Hs. pose proof Hs as [Hp _]. apply called_iff in Hs.
  unfold save_multi, load_multi, multi_name. cbn [m_file_name bind in_directory]. rewrite Hs. destruct path as [d|]; [|eauto].
  pose proof (result_file_iff d) as R. destruct (existsb _ _).
  - eexists. split; [reflexivity|]. split; [reflexivity|]. intros X. contradiction X. apply R. reflexivity.
  - eexists. split; [reflexivity|]. split; [intros X; apply R in X; discriminate|]. intros _. split; [reflexivity|].
    intros Hn. apply join_called; assumption.
Qed.

(** A result of one pass or a light result read in a file cannot be saved. *)
Theorem C137_again_refuted : forall str_inds source kind path,
  save_heavy (load_heavy source) kind path = Err AttributeError /\
  save_light str_inds (load_light source) kind path = Err AttributeError.
Proof. intros. split; reflexivity. Qed.

(** *** Light results *)

Lemma slice_h5 (root e : chars) : List.length e = 3%nat -> py_slice (root ++ e) 0 (-3) = root.
Proof.
  intros He. unfold py_slice, norm_bound, zlen. rewrite app_length, He. cbn [Z.ltb Z.compare skipn].
  rewrite ?Z.sub_0_r.
  match goal with |- firstn ?k _ = _ => replace k with (List.length root) end; [|repeat destruct (_ <? _) eqn:?; try destruct (_ >? _) eqn:?; lia].
  replace (skipn _ (root ++ e)) with (root ++ e); [rewrite firstn_app, firstn_all, Nat.sub_diag; cbn; apply app_nil_r|].
  match goal with |- _ = skipn ?k _ => replace k with 0%nat end; [reflexivity|]. repeat destruct (_ <? _) eqn:?; try destruct (_ >? _) eqn:?; lia.
Qed.

(** The light result made from a file "ROOT.h5" is saved in "ROOT_light.h5" in the directory (or in the
    current directory), and not in the file which has been read. *)
Theorem C137_light : forall str_inds source root nb ind l kind path, called source (root ++ of_string ".h5") ->
  make_light_result (load_multi source nb) ind = Ok l ->
  exists p, save_light str_inds l kind path = Ok p /\
    p = match path with Some d => path_join d (root ++ of_string "_light.h5") | None => root ++ of_string "_light.h5" end /\
    called p (root ++ of_string "_light.h5") /\ p <> source.
Proof.
  intros str_inds source root nb ind l kind path Hs Hl. pose proof Hs as [Hp _]. pose proof Hs as Hs'. apply called_iff in Hs'.
  unfold make_light_result, load_multi in Hl. cbn [m_passes m_file_name] in Hl. destruct (py_get _ _) as [piv|]; [|discriminate].
  cbn [bind] in Hl. injection Hl as <-. unfold save_light, light_name. cbn [l_file_name bind in_directory]. rewrite Hs', slice_h5 by reflexivity.
  assert (Hq : plain (root ++ of_string "_light.h5")).
  { intros X. apply in_app_or in X. destruct X as [X|X]; [apply Hp; apply in_or_app; left; exact X|]. cbn in X. unfold slash in X. intuition discriminate. }
  assert (Hn : root ++ of_string "_light.h5" <> []) by (destruct root; discriminate).
  eexists. split; [reflexivity|]. split; [reflexivity|].
  assert (C : called (match path with Some p => path_join p (root ++ of_string "_light.h5") | None => root ++ of_string "_light.h5" end) (root ++ of_string "_light.h5")).
  { destruct path as [d|]; [apply join_called; assumption|]. split; [exact Hq|]. exists []. auto. }
  split; [exact C|]. intros E. rewrite E in C. apply called_iff in C. rewrite Hs' in C. apply app_inv_head in C. discriminate.
Qed.

(** Two files "ROOT.h5" with different names: different light files in one directory. *)
Theorem C137_light_distinct : forall str_inds s1 s2 r1 r2 nb1 nb2 i1 i2 l1 l2 kind path p,
  called s1 (r1 ++ of_string ".h5") -> called s2 (r2 ++ of_string ".h5") ->
  make_light_result (load_multi s1 nb1) i1 = Ok l1 -> make_light_result (load_multi s2 nb2) i2 = Ok l2 ->
  save_light str_inds l1 kind path = Ok p -> save_light str_inds l2 kind path = Ok p -> r1 = r2.
Proof.
  intros str_inds s1 s2 r1 r2 nb1 nb2 i1 i2 l1 l2 kind path p H1 H2 L1 L2 S1 S2.
  destruct (C137_light str_inds _ _ _ _ _ kind path H1 L1) as (p1 & E1 & _ & C1 & _).
  destruct (C137_light str_inds _ _ _ _ _ kind path H2 L2) as (p2 & E2 & _ & C2 & _).
  rewrite S1 in E1. rewrite S2 in E2. injection E1 as <-. injection E2 as <-. apply called_iff in C1, C2. rewrite C1 in C2.
  apply app_inv_tail in C2. exact C2.
Qed.

(** The light results of two passes of a file, or of the files "ROOT.h5" and "ROOT.nc", are saved in
    the same file: the second save replaces the first one. *)
Theorem C137_light_same_refuted : forall str_inds s1 s2 root e nb1 nb2 i1 i2 l1 l2 kind path,
  called s1 (root ++ of_string ".h5") -> called s2 (root ++ e) -> e = of_string ".h5" \/ e = of_string ".nc" ->
  make_light_result (load_multi s1 nb1) i1 = Ok l1 -> make_light_result (load_multi s2 nb2) i2 = Ok l2 ->
  exists p, save_light str_inds l1 kind path = Ok p /\ save_light str_inds l2 kind path = Ok p.
Proof.
  intros str_inds s1 s2 root e nb1 nb2 i1 i2 l1 l2 kind path H1 H2 He L1 L2. apply called_iff in H1, H2.
  unfold make_light_result, load_multi in L1, L2. cbn [m_passes m_file_name] in L1, L2.
  destruct (py_get _ i1) as [c1|]; [|discriminate]. destruct (py_get _ i2) as [c2|]; [|discriminate]. cbn [bind] in L1, L2.
  injection L1 as <-. injection L2 as <-. unfold save_light, light_name. cbn [l_file_name bind in_directory].
  rewrite H1, H2, !slice_h5 by (destruct He; subst; reflexivity). eauto.
Qed.

(** *** Results which have just been computed *)

(** With two images given without series, called NAME0 and NAME1: the file is NAME0-NAME1.h5 in the
    directory, or the file which is given to a result of several passes. *)
Theorem C137_computed : forall name0 name1 (rest : list heavy) path,
  let c := new_couple name0 name1 in
  let name := name0 ++ of_string "-" ++ name1 ++ of_string ".h5" in
  let p := match path with Some d => path_join d name | None => name end in
  let m := {| m_file_name := None; m_passes := c :: rest |} in
  save_heavy c None path = Ok p /\
  match path with
  | Some d => (result_file d -> save_multi m None path = Ok d) /\ (~ result_file d -> save_multi m None path = Ok p)
  | None => save_multi m None path = Ok p
  end.
Proof.
  intros name0 name1 rest path c name p m.
  assert (N : heavy_name c None = Ok (Some name)).
  { unfold heavy_name, c, new_couple, name. cbn [join]. rewrite <- !app_assoc. reflexivity. }
  assert (M : multi_name m None = Ok (Some name)).
  { unfold multi_name, m. cbn [m_file_name m_passes]. unfold py_get, zlen. cbn [List.length Z.ltb Z.compare].
    replace (0 <? Z.of_nat (S (List.length rest))) with true by lia. exact N. }
  unfold save_heavy, save_multi. rewrite N, M. split; [reflexivity|]. cbn [bind]. destruct path as [d|]; [|reflexivity].
  pose proof (result_file_iff d) as R. destruct (existsb _ _).
  - split; [reflexivity|]. intros X. contradiction X. apply R. reflexivity.
  - split; [|reflexivity]. intros X. apply R in X. discriminate.
Qed.

(** Two couples of images whose names have no "-": different files.  Not in general. *)
Theorem C137_distinct : forall a0 a1 b0 b1 path p,
  plain a0 -> plain a1 -> plain b0 -> plain b1 -> ~ In "-"%char a0 -> ~ In "-"%char b0 ->
  save_heavy (new_couple a0 a1) None path = Ok p -> save_heavy (new_couple b0 b1) None path = Ok p -> a0 = b0 /\ a1 = b1.
Proof.
  intros a0 a1 b0 b1 path p A0 A1 B0 B1 Da Db Ha Hb.
  rewrite (proj1 (C137_computed a0 a1 [] path)) in Ha. rewrite (proj1 (C137_computed b0 b1 [] path)) in Hb.
  assert (P : forall x y, plain x -> plain y -> plain (x ++ of_string "-" ++ y ++ of_string ".h5")).
  { intros x y Hx Hy X. rewrite !in_app_iff in X. cbn in X. unfold slash in *. destruct X as [X|[X|[X|X]]]; auto; intuition discriminate. }
  assert (Z : forall x y : chars, x ++ of_string "-" ++ y <> []) by (intros [|? ?] y; discriminate).
  assert (E : a0 ++ of_string "-" ++ a1 ++ of_string ".h5" = b0 ++ of_string "-" ++ b1 ++ of_string ".h5").
  { destruct path as [d|]; [apply (join_inj d); auto|]; congruence. }
  clear Ha Hb P Z A0 A1 B0 B1. revert b0 Db E. induction a0 as [|x a0 IH]; intros [|y b0] Db E; cbn in E.
  - injection E as E. apply app_inv_tail in E. auto.
  - injection E as <- _. contradiction Db. left. reflexivity.
  - injection E as -> _. contradiction Da. left. reflexivity.
  - injection E as <- E. destruct (IH ltac:(intros X; apply Da; right; exact X) b0 ltac:(intros X; apply Db; right; exact X) E) as [-> ->]. auto.
Qed.

Theorem C137_distinct_refuted : forall x y z path,
  save_heavy (new_couple (x ++ of_string "-" ++ y) z) None path = save_heavy (new_couple x (y ++ of_string "-" ++ z)) None path.
Proof.
  intros x y z path. rewrite (proj1 (C137_computed _ _ [] path)), (proj1 (C137_computed _ _ [] path)). rewrite <- !app_assoc. reflexivity.
Qed.

(** The light result which has just been computed: its name has the first and the last indices of the
    series; without series it cannot be saved. *)
Lemma map_result_map {A B C} (f : B -> result C) (g : A -> B) (h : A -> C) l : (forall a, f (g a) = Ok (h a)) ->
  map_result f (map g l) = Ok (map h l).
Proof. intros H. induction l as [|a l IH]; cbn; [reflexivity|]. rewrite H. cbn. rewrite IH. reflexivity. Qed.

Theorem C137_light_series : forall (str_inds : serie -> list Z -> result chars) name s rest (ts : list (Z * Z * list Z)) first last kind path,
  s_slicing s = map (fun t => fst (fst t) :: snd (fst t) :: snd t) ts ->
  str_inds s (map (fun t => fst (fst t)) ts) = Ok first -> str_inds s (map (fun t => snd (fst t) - 1) ts) = Ok last ->
  exists l, make_light_result {| m_file_name := None; m_passes := Some (name, Some s) :: rest |} 0 = Ok l /\
    let file := of_string "piv_" ++ s_base_name s ++ first ++ of_string "-" ++ last ++ of_string "_light.h5" in
    save_light str_inds l kind path = Ok (match path with Some d => path_join d file | None => file end).
Proof.
  intros str_inds name s rest ts first last kind path Hs H0 H1. unfold make_light_result. cbn [m_passes m_file_name].
  replace (py_get (Some (name, Some s) :: rest) 0) with (@Ok heavy (Some (name, Some s))).
  2:{ unfold py_get, zlen. cbn [List.length Z.ltb Z.compare]. replace (0 <? Z.of_nat (S (List.length rest))) with true by lia. reflexivity. }
  eexists. split; [reflexivity|]. cbv zeta. unfold save_light, light_name. cbn [l_file_name l_couple]. rewrite Hs.
  assert (G : forall (a b : Z) r, py_get (a :: b :: r) 0 = Ok a /\ py_get (a :: b :: r) 1 = Ok b).
  { intros a b r. unfold py_get, zlen. cbn [List.length Z.ltb Z.compare].
    replace (0 <? Z.of_nat (S (S (List.length r)))) with true by lia. replace (1 <? Z.of_nat (S (S (List.length r)))) with true by lia. split; reflexivity. }
  rewrite (map_result_map _ _ (fun t => fst (fst t))) by (intros t; apply G). cbn [bind]. rewrite H0. cbn [bind].
  rewrite (map_result_map _ _ (fun t => snd (fst t) - 1)) by (intros t; rewrite (proj2 (G _ _ _)); reflexivity). cbn [bind]. rewrite H1. reflexivity.
Qed.

Theorem C137_light_no_series_refuted : forall str_inds name0 name1 (rest : list heavy) kind path,
  exists l, make_light_result {| m_file_name := None; m_passes := new_couple name0 name1 :: rest |} 0 = Ok l /\
    save_light str_inds l kind path = Err AttributeError.
Proof.
  intros. unfold make_light_result. cbn [m_passes m_file_name]. unfold py_get, zlen. cbn [List.length Z.ltb Z.compare].
  replace (0 <? Z.of_nat (S (List.length rest))) with true by lia. eexists. split; reflexivity.
Qed.

(** A kind which is neither None nor "bos": TypeError, except when a file is given to a result of
    several passes or when the name is known from the file which has been read. *)
Theorem C137_kind_iff : forall name s rest kind d,
  (forall path, save_heavy (Some (name, Some s)) (Some kind) path = Err TypeError <-> kind <> of_string "bos") /\
  (save_multi {| m_file_name := None; m_passes := Some (name, Some s) :: rest |} (Some kind) (Some d) = Err TypeError <->
   kind <> of_string "bos" /\ ~ result_file d).
Proof.
  intros name s rest kind d. pose proof (result_file_iff d) as R. pose proof (chars_eqb_spec kind (of_string "bos")) as K.
  unfold save_multi, save_heavy, multi_name. cbn [m_file_name m_passes].
  replace (py_get (Some (name, Some s) :: rest) 0) with (@Ok heavy (Some (name, Some s))).
  2:{ unfold py_get, zlen. cbn [List.length Z.ltb Z.compare]. replace (0 <? Z.of_nat (S (List.length rest))) with true by lia. reflexivity. }
  unfold heavy_name. cbn [bind]. destruct (chars_eqb kind (of_string "bos")) eqn:E; cbn [bind in_directory].
  - split.
    + intros d'. split; intros H; [destruct d'; discriminate|]. contradiction H. apply K. reflexivity.
    + split; [|intros [H _]; contradiction H; apply K; reflexivity]. destruct (existsb _ _); discriminate.
  - assert (N : kind <> of_string "bos") by (intros X; apply K in X; discriminate). split.
    + intros d'. split; intros H; [exact N|reflexivity].
    + destruct (existsb _ _); split; intros H; try discriminate.
      * destruct H as [_ H]. contradiction H. apply R. reflexivity.
      * split; [exact N|]. intros X. apply R in X. discriminate.
      * reflexivity.
Qed.

Print Assumptions C137_multi_again.
Print Assumptions C137_again_refuted.
Print Assumptions C137_light.
Print Assumptions C137_light_distinct.
Print Assumptions C137_light_same_refuted.
Print Assumptions C137_computed.
Print Assumptions C137_distinct.
Print Assumptions C137_distinct_refuted.
Print Assumptions C137_light_series.
Print Assumptions C137_light_no_series_refuted.
Print Assumptions C137_kind_iff.

Example C137_ex_source : called (of_string "dir/piv_01-02.h5") (of_string "piv_01-02" ++ of_string ".h5").
Proof. apply called_iff. reflexivity. Qed.
Example C137_ex_light : exists l, make_light_result (load_multi (of_string "dir/piv_01-02.h5") 2) (-1) = Ok l /\
  save_light (fun _ _ => Err TypeError) l None (Some (of_string "out")) = Ok (of_string "out/piv_01-02_light.h5").
Proof. eexists. split; reflexivity. Qed.
(** a directory called ".h5" is a directory, "a.h5" is a file *)
Example C137_ex_ext : ~ result_file (of_string "out/.h5") /\ result_file (of_string "out/a.h5") /\ ~ result_file (of_string "out.h5/a").
Proof. repeat split; try (intros H); try apply result_file_iff; try (apply result_file_iff in H; discriminate); reflexivity. Qed.

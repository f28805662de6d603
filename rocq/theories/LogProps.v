(** C42: analysing a log gives back the works launched and ended.

    Specification: the events logged by the executors (type [event] of LogModel, with the
    lines they produce), without any reference to the parser:
    - [launches], [ends]: what was launched and what ended, in order;
    - [ok_event]: the names and the keys contain no white space, the dates are dates, the
      other lines of the file are not mistaken for lines of the executors. *)
From Coq Require Import QArith.
From Verif Require Import PyBase StrModel StrProofs NameModel NameProps SplitProofs LogModel LogProofs.
Open Scope Z_scope.

Definition launches (evs : list event) : list work :=
  flat_map (fun e => match e with
    | Launch t name key mem => [{| w_name := name; w_key := key; w_mem := decimal 3 mem; w_time := decimal 2 t |}]
    | _ => [] end) evs.
Definition ends (evs : list event) : list ended :=
  flat_map (fun e => match e with
    | End name key d => [{| e_name := name; e_key := key; e_duration := decimal 3 d |}]
    | _ => [] end) evs.

Definition occurs (p : string) (s : chars) : Prop := exists a b, s = a ++ of_string p ++ b.
Definition begins (p : string) (s : chars) : Prop := exists b, s = of_string p ++ b.

Definition harmless (line : chars) : Prop :=
  begins "ERROR: " line \/
  (~ occurs ". mem usage: " line /\ ~ (begins "work " line /\ occurs " done in " line) /\
   (begins "  nb_cpus_allowed = " line -> exists n, line = of_string "  nb_cpus_allowed = " ++ py_str n) /\
   (begins "  nb_max_workers = " line -> exists n, line = of_string "  nb_max_workers = " ++ py_str n)).

Definition one_line (s : chars) : Prop := ~ In newline s /\ ~ In (Ascii.ascii_of_nat 13) s.

Definition ok_event (parse_date : chars -> result Q) (e : event) : Prop :=
  match e with
  | Launch _ name key _ => no_space name /\ name <> [] /\ no_space key
  | End name key _ => no_space name /\ name <> [] /\ no_space key
  | Start date _ | Stop date _ => no_space date /\ exists t, parse_date date = Ok t
  | Other line => one_line line /\ harmless line
  end.

(** the end of an execution comes after its beginning *)
Definition ok_log parse_date (evs : list event) : Prop :=
  Forall (ok_event parse_date) evs /\
  (forall evs1 date mem evs2, evs = evs1 ++ Stop date mem :: evs2 -> exists date' mem', In (Start date' mem') evs1).

Section Step.
Variable parse_date : chars -> result Q.

Lemma begins_iff p s : begins p s <-> startswith (of_string p) s = true.
Proof. unfold begins. rewrite startswith_spec. reflexivity. Qed.
Lemma occurs_iff p s : occurs p s <-> contains (of_string p) s = true.
Proof. unfold occurs. rewrite contains_spec. reflexivity. Qed.

Lemma header_id c rest d : c <> " "%char -> parse_header (c :: rest) d = Ok d.
Proof.
  intros Hc. unfold parse_header.
  assert (H : forall p, startswith (" "%char :: p) (c :: rest) = false).
  { intros p. cbn [startswith]. destruct (Ascii.eqb_spec " " c); [congruence|reflexivity]. }
  cbn [of_string list_ascii_of_string]. cbv zeta. rewrite !H.
  destruct (nb_cpus_allowed d); cbn [bind]; destruct (nb_max_workers d); cbn [bind]; destruct (topology_name d); cbn [bind];
    destruct (executor_name d); reflexivity.
Qed.

Lemma slice_colour (m : chars) : py_slice (okgreen ++ m) 5 (zlen (okgreen ++ m)) = m.
Proof. exact (slice_tail okgreen m). Qed.

(** what a line says about the beginning and the end of the execution *)
Definition same_start (d d' : data) : Prop :=
  v_time_start d' = v_time_start d /\ date_start d' = date_start d /\ mem_start d' = mem_start d.
Definition same_end (d d' : data) : Prop :=
  date_end d' = date_end d /\ mem_end d' = mem_end d /\ duration d' = duration d.
Definition marks (e : event) (d d' : data) : Prop :=
  match e with
  | Start date m => date_start d' = Some date /\ mem_start d' = Some (decimal 3 m) /\
      (forall t, parse_date date = Ok t -> v_time_start d' = Some t) /\ same_end d d'
  | Stop date m => same_start d d' /\ date_end d' = Some date /\ mem_end d' = Some (decimal 3 m) /\
      (forall t t0, parse_date date = Ok t -> v_time_start d = Some t0 -> duration d' = Some (t - t0)%Q)
  | _ => same_start d d' /\ same_end d d'
  end.

Definition after (e : event) (d d' : data) : Prop :=
  works d' = works d ++ launches [e] /\ works_ended d' = works_ended d ++ ends [e] /\
  (v_time_start d <> None -> v_time_start d' <> None) /\ (mem_start d <> None -> mem_start d' <> None) /\
  (match e with Start _ _ => v_time_start d' <> None /\ mem_start d' <> None | _ => True end) /\
  marks e d d'.

Lemma no_done_mem line d ws name : split_ws line = ws -> (forall w, In w ws -> w = of_string "done" \/ w = of_string "in" -> w = name) ->
  parse_done line d = Ok d.
Proof.
  intros E H. unfold parse_done. replace (contains (of_string " done in ") line) with false; [rewrite andb_false_r; reflexivity|].
  symmetry. apply (two_words _ _ [] (of_string "done") (of_string "in ") (of_string " done") (of_string "in") []); try reflexivity;
    try const_word.
  rewrite E. intros H1 H2. pose proof (H _ H1 (or_introl eq_refl)) as K1. pose proof (H _ H2 (or_intror eq_refl)) as K2. rewrite <- K1 in K2. discriminate K2.
Qed.

Ltac find_word H :=
  repeat match type of H with
  | In _ (_ :: _) => destruct H as [H|H]
  | In _ [] => destruct H
  end.

Lemma step_launch t name key m d : word name -> no_space key ->
  exists d', parse_line parse_date (line_of (Launch t name key m)) d = Ok d' /\ after (Launch t name key m) d d'.
Proof.
  intros Hn Hk. destruct (launch_line t name key m) as (sp & EL). rewrite EL.
  set (body := spaced (launch_words t name key) ++ repeat " "%char sp ++ fmt_decimal 3 m ++ of_string " Mb" ++ endc ++ [newline]).
  assert (EW : split_ws body = launch_words t name key ++ [fmt_decimal 3 m; mb]) by (apply split_mem, launch_words_ok; assumption).
  unfold parse_line. change (startswith (of_string "ERROR: ") (okgreen ++ body)) with false. cbv iota.
  change (okgreen ++ body) with (Ascii.ascii_of_nat 27 :: (of_string "[92m" ++ body)) at 1. rewrite header_id by discriminate.
  cbn [bind].
  assert (EM : contains (of_string ". mem usage: ") (okgreen ++ body) = true).
  { apply contains_spec. exists (okgreen ++ spaced (firstn 5 (launch_words t name key)) ++ "("%char :: key ++ [")"%char]).
    eexists. subst body. cbn [launch_words firstn spaced flat_map of_string list_ascii_of_string app].
    repeat (rewrite <- !app_assoc; cbn [app]). reflexivity. }
  rewrite EM. unfold parse_mem. cbv zeta. rewrite slice_colour, EW.
  assert (E2 : py_get (launch_words t name key ++ [fmt_decimal 3 m; mb]) (-2) = Ok (fmt_decimal 3 m)) by reflexivity.
  assert (E4 : py_get (launch_words t name key ++ [fmt_decimal 3 m; mb]) 4 = Ok name) by reflexivity.
  assert (E5 : py_get (launch_words t name key ++ [fmt_decimal 3 m; mb]) 5 = Ok ("("%char :: key ++ of_string ").")) by reflexivity.
  assert (E0 : py_get (launch_words t name key ++ [fmt_decimal 3 m; mb]) 0 = Ok (fmt_decimal 2 t)) by reflexivity.
  rewrite E2. cbn [bind]. rewrite py_float_fmt by (right; reflexivity).
  assert (EC : contains (of_string ". Launch work ") body = true).
  { apply contains_spec. exists (fmt_decimal 2 t ++ of_string " s").
    eexists. subst body. cbn [launch_words firstn spaced flat_map of_string list_ascii_of_string app].
    repeat (rewrite <- !app_assoc; cbn [app]). reflexivity. }
  rewrite EC, E4. cbn [bind]. rewrite E5. cbn [bind]. rewrite E0. cbn [bind].
  rewrite py_float_fmt by (left; reflexivity). cbn [bind get].
  change (-2) with (- zlen (of_string ").")). rewrite slice_word by discriminate.
  replace (contains (of_string ": starting execution. mem usage") body) with false.
  2:{ symmetry. apply (two_words _ _ (of_string ":") (of_string "starting") (of_string "execution. mem usage")
        (of_string ": starting") (of_string "execution.") (of_string "mem usage")); try reflexivity; try const_word.
      rewrite EW. cbn [launch_words app]. intros H1 H2.
      find_word H1; try discriminate H1; find_word H2; try discriminate H2; try (rewrite H1 in H2; discriminate H2).
      all: first [solve [revert H1; apply fmt_not_word; [const_word|reflexivity]] | solve [revert H2; apply fmt_not_word; [const_word|reflexivity]]]. }
  replace (contains (of_string ": end of `compute`. mem usage") body) with false.
  2:{ symmetry. apply (two_words _ _ (of_string ":") (of_string "end") (of_string "of `compute`. mem usage")
        (of_string ": end") (of_string "of") (of_string "`compute`. mem usage")); try reflexivity; try const_word.
      rewrite EW. cbn [launch_words app]. intros H1 H2.
      find_word H1; try discriminate H1; find_word H2; try discriminate H2; try (rewrite H1 in H2; discriminate H2).
      all: first [solve [revert H1; apply fmt_not_word; [const_word|reflexivity]] | solve [revert H2; apply fmt_not_word; [const_word|reflexivity]]]. }
  cbn [bind fst snd].
  rewrite (no_done_mem body _ _ name EW).
  2:{ intros w Hw [-> | ->]; cbn [launch_words app] in Hw; find_word Hw; try discriminate Hw; try (symmetry; exact Hw);
      exfalso; revert Hw; apply fmt_not_word; try const_word; reflexivity. }
  eexists. split; [reflexivity|]. unfold after. cbn. rewrite app_nil_r. repeat split; auto.
Qed.

Lemma step_end name key x d : word name -> no_space key ->
  exists d', parse_line parse_date (line_of (End name key x)) d = Ok d' /\ after (End name key x) d d'.
Proof.
  intros Hn Hk. pose proof (split_done name key x Hn Hk) as EW.
  set (line := line_of (End name key x)) in *.
  unfold parse_line. change (startswith (of_string "ERROR: ") line) with false. cbv iota.
  change line with ("w"%char :: (of_string "ork " ++ name ++ of_string " (" ++ key ++ of_string ") done in " ++ fmt_decimal 3 x ++ of_string " s" ++ [newline])) at 1.
  rewrite header_id by discriminate. cbn [bind].
  replace (contains (of_string ". mem usage: ") line) with false.
  2:{ symmetry. apply (two_words _ _ (of_string ".") (of_string "mem") (of_string "usage: ")
        (of_string ". mem") (of_string "usage:") []); try reflexivity; try const_word.
      rewrite EW. cbn [done_words app]. intros H1 H2.
      find_word H1; try discriminate H1; find_word H2; try discriminate H2; try (rewrite H1 in H2; discriminate H2).
      all: first [solve [revert H1; apply fmt_not_word; [const_word|reflexivity]] | solve [revert H2; apply fmt_not_word; [const_word|reflexivity]]]. }
  cbn [bind fst snd]. unfold parse_done.
  change (startswith (of_string "work ") line) with true. cbn [andb].
  replace (contains (of_string " done in ") line) with true.
  2:{ symmetry. apply contains_spec. exists (of_string "work " ++ name ++ of_string " (" ++ key ++ of_string ")"). eexists.
      subst line. cbn [line_of]. cbn [of_string list_ascii_of_string app]. repeat (rewrite <- !app_assoc; cbn [app]). reflexivity. }
  cbv zeta. rewrite EW.
  assert (E1 : py_get (done_words name key x ++ [of_string "s"]) 1 = Ok name) by reflexivity.
  assert (E2 : py_get (done_words name key x ++ [of_string "s"]) 2 = Ok ("("%char :: key ++ of_string ")")) by reflexivity.
  assert (E3 : py_get (done_words name key x ++ [of_string "s"]) (-2) = Ok (fmt_decimal 3 x)) by reflexivity.
  rewrite E1. cbn [bind]. rewrite E2. cbn [bind]. rewrite E3. cbn [bind].
  rewrite py_float_fmt by (right; reflexivity).
  change (-1) with (- zlen (of_string ")")). rewrite slice_word by discriminate.
  eexists. split; [reflexivity|]. unfold after. cbn. rewrite app_nil_r. repeat split; auto.
Qed.

Lemma slice_date (date : chars) : py_slice (date ++ [":"%char]) 0 (-1) = date.
Proof. exact (slice_head date [":"%char] ltac:(discriminate)). Qed.

Lemma date_word_eq date w c : date ++ [":"%char] = w ++ [c] -> c = ":"%char.
Proof. intros H. apply app_inj_tail in H. destruct H. congruence. Qed.

Lemma not_date (date w : chars) c : c <> ":"%char -> ~ date ++ [":"%char] = w ++ [c].
Proof. intros Hc H. apply date_word_eq in H. congruence. Qed.

Lemma step_start date m t d : no_space date -> parse_date date = Ok t ->
  exists d', parse_line parse_date (line_of (Start date m)) d = Ok d' /\ after (Start date m) d d'.
Proof.
  intros Hd Ht. destruct (start_line date m) as (sp & EL). rewrite EL.
  set (body := spaced (start_words date) ++ repeat " "%char sp ++ fmt_decimal 3 m ++ of_string " Mb" ++ endc ++ [newline]).
  assert (EW : split_ws body = start_words date ++ [fmt_decimal 3 m; mb]) by (apply split_mem, start_words_ok; assumption).
  unfold parse_line. change (startswith (of_string "ERROR: ") (okgreen ++ body)) with false. cbv iota.
  change (okgreen ++ body) with (Ascii.ascii_of_nat 27 :: (of_string "[92m" ++ body)) at 1. rewrite header_id by discriminate.
  cbn [bind].
  assert (EM : contains (of_string ". mem usage: ") (okgreen ++ body) = true).
  { apply contains_spec. exists (okgreen ++ date ++ of_string ": starting execution").
    eexists. subst body. cbn [start_words date_words firstn spaced flat_map of_string list_ascii_of_string app].
    repeat (rewrite <- !app_assoc; cbn [app]). reflexivity. }
  rewrite EM. unfold parse_mem. cbv zeta. rewrite slice_colour, EW.
  assert (E2 : py_get (start_words date ++ [fmt_decimal 3 m; mb]) (-2) = Ok (fmt_decimal 3 m)) by reflexivity.
  assert (E0 : py_get (start_words date ++ [fmt_decimal 3 m; mb]) 0 = Ok (date ++ [":"%char])) by reflexivity.
  rewrite E2. cbn [bind]. rewrite py_float_fmt by (right; reflexivity).
  replace (contains (of_string ". Launch work ") body) with false.
  2:{ symmetry. apply (two_words _ _ (of_string ".") (of_string "Launch") (of_string "work ")
        (of_string ". Launch") (of_string "work") []); try reflexivity; try const_word.
      rewrite EW. cbn [start_words date_words app]. intros H1 H2.
      find_word H1; try discriminate H1; find_word H2; try discriminate H2; try (rewrite H1 in H2; discriminate H2).
      all: first [solve [revert H1; apply fmt_not_word; [const_word|reflexivity]] | solve [revert H2; apply fmt_not_word; [const_word|reflexivity]]]. }
  rewrite E0. cbn [bind]. rewrite slice_date, Ht. cbn [bind].
  assert (EC : contains (of_string ": starting execution. mem usage") body = true).
  { apply contains_spec. exists date. eexists. subst body.
    cbn [start_words date_words firstn spaced flat_map of_string list_ascii_of_string app].
    repeat (rewrite <- !app_assoc; cbn [app]). reflexivity. }
  rewrite EC. cbn [set_locals v_date v_mem v_t get bind fst snd].
  rewrite (no_done_mem body _ _ (date ++ [":"%char]) EW).
  2:{ intros w Hw [-> | ->]; cbn [start_words date_words app] in Hw; find_word Hw; try discriminate Hw; try (symmetry; exact Hw);
      exfalso; revert Hw; apply fmt_not_word; try const_word; reflexivity. }
  eexists. split; [reflexivity|]. unfold after. cbn. rewrite !app_nil_r. repeat split; congruence.
Qed.

Lemma step_stop date m t d : no_space date -> parse_date date = Ok t -> v_time_start d <> None ->
  exists d', parse_line parse_date (line_of (Stop date m)) d = Ok d' /\ after (Stop date m) d d'.
Proof.
  intros Hd Ht Hs. destruct (v_time_start d) as [t0|] eqn:E0t; [|congruence].
  destruct (stop_line date m) as (sp & EL). rewrite EL.
  set (body := spaced (stop_words date) ++ repeat " "%char sp ++ fmt_decimal 3 m ++ of_string " Mb" ++ endc ++ [newline]).
  assert (EW : split_ws body = stop_words date ++ [fmt_decimal 3 m; mb]) by (apply split_mem, stop_words_ok; assumption).
  unfold parse_line. change (startswith (of_string "ERROR: ") (okgreen ++ body)) with false. cbv iota.
  change (okgreen ++ body) with (Ascii.ascii_of_nat 27 :: (of_string "[92m" ++ body)) at 1. rewrite header_id by discriminate.
  cbn [bind].
  assert (EM : contains (of_string ". mem usage: ") (okgreen ++ body) = true).
  { apply contains_spec. exists (okgreen ++ date ++ of_string ": end of `compute`").
    eexists. subst body. cbn [stop_words date_words firstn spaced flat_map of_string list_ascii_of_string app].
    repeat (rewrite <- !app_assoc; cbn [app]). reflexivity. }
  rewrite EM. unfold parse_mem. cbv zeta. rewrite slice_colour, EW.
  assert (E2 : py_get (stop_words date ++ [fmt_decimal 3 m; mb]) (-2) = Ok (fmt_decimal 3 m)) by reflexivity.
  assert (E0 : py_get (stop_words date ++ [fmt_decimal 3 m; mb]) 0 = Ok (date ++ [":"%char])) by reflexivity.
  rewrite E2. cbn [bind]. rewrite py_float_fmt by (right; reflexivity).
  replace (contains (of_string ". Launch work ") body) with false.
  2:{ symmetry. apply (two_words _ _ (of_string ".") (of_string "Launch") (of_string "work ")
        (of_string ". Launch") (of_string "work") []); try reflexivity; try const_word.
      rewrite EW. cbn [stop_words date_words app]. intros H1 H2.
      find_word H1; try discriminate H1; find_word H2; try discriminate H2; try (rewrite H1 in H2; discriminate H2).
      all: first [solve [revert H1; apply fmt_not_word; [const_word|reflexivity]] | solve [revert H2; apply fmt_not_word; [const_word|reflexivity]]]. }
  rewrite E0. cbn [bind]. rewrite slice_date, Ht. cbn [bind].
  replace (contains (of_string ": starting execution. mem usage") body) with false.
  2:{ symmetry. apply (two_words _ _ (of_string ":") (of_string "starting") (of_string "execution. mem usage")
        (of_string ": starting") (of_string "execution.") (of_string "mem usage")); try reflexivity; try const_word.
      rewrite EW. cbn [stop_words date_words app]. intros H1 H2.
      find_word H1; try discriminate H1; find_word H2; try discriminate H2; try (rewrite H1 in H2; discriminate H2).
      all: first [solve [revert H1; apply fmt_not_word; [const_word|reflexivity]] | solve [revert H2; apply fmt_not_word; [const_word|reflexivity]]]. }
  assert (EC : contains (of_string ": end of `compute`. mem usage") body = true).
  { apply contains_spec. exists date. eexists. subst body.
    cbn [stop_words date_words firstn spaced flat_map of_string list_ascii_of_string app].
    repeat (rewrite <- !app_assoc; cbn [app]). reflexivity. }
  rewrite EC. cbn [set_locals v_date v_mem v_t v_time_start get bind fst snd]. rewrite E0t. cbn [get bind fst snd].
  rewrite (no_done_mem body _ _ (date ++ [":"%char]) EW).
  2:{ intros w Hw [-> | ->]; cbn [stop_words date_words app] in Hw; find_word Hw; try discriminate Hw; try (symmetry; exact Hw);
      exfalso; revert Hw; apply fmt_not_word; try const_word; reflexivity. }
  eexists. split; [reflexivity|]. unfold after. cbn. rewrite !app_nil_r. repeat split; try congruence.
  - cbn. congruence.
Qed.

Lemma app_nl (line a p b : chars) c : line ++ [newline] = a ++ (p ++ [c]) ++ b -> c <> newline -> exists b', line = a ++ (p ++ [c]) ++ b'.
Proof.
  intros H Hc. destruct (exists_last (l := b)) as (b' & x & ->).
  - intros ->. rewrite app_nil_r, app_assoc in H. apply app_inj_tail in H. destruct H as [_ H]. congruence.
  - exists b'. rewrite !app_assoc in H. apply app_inj_tail in H. destruct H as [H _]. rewrite !app_assoc. exact H.
Qed.

Lemma contains_nl p c line : c <> newline -> contains (p ++ [c]) (line ++ [newline]) = true -> contains (p ++ [c]) line = true.
Proof.
  intros Hc H. apply contains_spec in H. destruct H as (a & b & H). destruct (app_nl _ _ _ _ _ H Hc) as (b' & ->).
  apply contains_spec. exists a, b'. reflexivity.
Qed.
Lemma startswith_nl p c line : c <> newline -> startswith (p ++ [c]) (line ++ [newline]) = true -> startswith (p ++ [c]) line = true.
Proof.
  intros Hc H. apply startswith_spec in H. destruct H as (b & H). destruct (app_nl _ [] _ _ _ H Hc) as (b' & ->).
  apply startswith_spec. exists b'. reflexivity.
Qed.

Lemma header_int (p : chars) a b n : p = spaced [a; b] -> word a -> word b ->
  py_get (split_ws ((of_string "  " ++ p ++ py_str n) ++ [newline])) 2 = Ok (py_str n).
Proof.
  intros -> Ha Hb. change (of_string "  ") with (repeat " "%char 2). rewrite <- !app_assoc, split_ws_spaces.
  rewrite split_ws_spaced by (constructor; [exact Ha|constructor; [exact Hb|constructor]]).
  rewrite split_ws_word; [reflexivity| |apply py_str_nonnil|reflexivity].
  eapply Forall_impl; [|apply (py_str_chars n)]. intros c. apply int_char_not_space.
Qed.

Lemma step_other line d : harmless line ->
  exists d', parse_line parse_date (line_of (Other line)) d = Ok d' /\ after (Other line) d d'.
Proof.
  intros H. cbn [line_of]. unfold parse_line.
  destruct (startswith (of_string "ERROR: ") (line ++ [newline])) eqn:EE.
  { exists d. split; [reflexivity|]. unfold after. cbn. rewrite !app_nil_r. repeat split; auto. }
  destruct H as [H|(H1 & H2 & H3 & H4)].
  { exfalso. destruct H as (b & ->). rewrite <- !app_assoc in EE. cbn in EE. discriminate. }
  assert (EH : exists d', parse_header (line ++ [newline]) d = Ok d' /\ after (Other line) d d').
  { unfold parse_header.
    assert (E1 : exists d1,
      (match nb_cpus_allowed d with
       | None => if startswith (of_string "  nb_cpus_allowed = ") (line ++ [newline]) then
           do w <- py_get (split_ws (line ++ [newline])) 2; do n <- py_int w;
           Ok {| works := works d; works_ended := works_ended d; nb_cpus_allowed := Some n;
               nb_max_workers := nb_max_workers d; topology_name := topology_name d;
               executor_name := executor_name d; v_mem := v_mem d; v_date := v_date d;
               v_t := v_t d; v_time_start := v_time_start d; mem_start := mem_start d;
               date_start := date_start d; mem_end := mem_end d; date_end := date_end d;
               duration := duration d |} else Ok d
       | Some _ => Ok d end) = Ok d1 /\ after (Other line) d d1).
    { destruct (nb_cpus_allowed d) eqn:En; [exists d; split; [reflexivity|]; unfold after; cbn; rewrite !app_nil_r; repeat split; auto|].
      destruct (startswith (of_string "  nb_cpus_allowed = ") (line ++ [newline])) eqn:Es;
        [|exists d; split; [reflexivity|]; unfold after; cbn; rewrite !app_nil_r; repeat split; auto].
      apply (startswith_nl (of_string "  nb_cpus_allowed =") " "%char) in Es; [|discriminate].
      apply (proj2 (begins_iff "  nb_cpus_allowed = " line)) in Es. destruct (H3 Es) as (n & ->).
      change (of_string "  nb_cpus_allowed = ") with (of_string "  " ++ of_string "nb_cpus_allowed = "). rewrite <- (app_assoc (of_string "  ")).
      rewrite (header_int _ (of_string "nb_cpus_allowed") (of_string "=") n) by (reflexivity || const_word).
      cbn [bind]. rewrite py_int_str. cbn [bind].
      eexists. split; [reflexivity|]. unfold after. cbn. rewrite !app_nil_r. repeat split; auto. }
    destruct E1 as (d1 & -> & A1). cbn [bind].
    assert (E2 : exists d2,
      (match nb_max_workers d1 with
       | None => if startswith (of_string "  nb_max_workers = ") (line ++ [newline]) then
           do w <- py_get (split_ws (line ++ [newline])) 2; do n <- py_int w;
           Ok {| works := works d1; works_ended := works_ended d1; nb_cpus_allowed := nb_cpus_allowed d1;
               nb_max_workers := Some n; topology_name := topology_name d1;
               executor_name := executor_name d1; v_mem := v_mem d1; v_date := v_date d1;
               v_t := v_t d1; v_time_start := v_time_start d1; mem_start := mem_start d1;
               date_start := date_start d1; mem_end := mem_end d1; date_end := date_end d1;
               duration := duration d1 |} else Ok d1
       | Some _ => Ok d1 end) = Ok d2 /\ after (Other line) d d2).
    { destruct (nb_max_workers d1) eqn:En; [exists d1; split; [reflexivity|exact A1]|].
      destruct (startswith (of_string "  nb_max_workers = ") (line ++ [newline])) eqn:Es;
        [|exists d1; split; [reflexivity|exact A1]].
      apply (startswith_nl (of_string "  nb_max_workers =") " "%char) in Es; [|discriminate].
      apply (proj2 (begins_iff "  nb_max_workers = " line)) in Es. destruct (H4 Es) as (n & ->).
      change (of_string "  nb_max_workers = ") with (of_string "  " ++ of_string "nb_max_workers = "). rewrite <- (app_assoc (of_string "  ")).
      rewrite (header_int _ (of_string "nb_max_workers") (of_string "=") n) by (reflexivity || const_word).
      cbn [bind]. rewrite py_int_str. cbn [bind].
      eexists. split; [reflexivity|]. exact A1. }
    destruct E2 as (d2 & -> & A2). cbn [bind].
    assert (E3 : exists d3,
      (match topology_name d2 with
       | None => if startswith (of_string "  topology: ") (line ++ [newline]) then
         Ok {| works := works d2; works_ended := works_ended d2;
               nb_cpus_allowed := nb_cpus_allowed d2;
               nb_max_workers := nb_max_workers d2;
               topology_name := Some (strip (before (of_string "  topology: ") (skipn (List.length (of_string "  topology: ")) (line ++ [newline]))));
               executor_name := executor_name d2; v_mem := v_mem d2; v_date := v_date d2;
               v_t := v_t d2; v_time_start := v_time_start d2; mem_start := mem_start d2;
               date_start := date_start d2; mem_end := mem_end d2; date_end := date_end d2;
               duration := duration d2 |} else Ok d2
       | Some _ => Ok d2 end) = Ok d3 /\ after (Other line) d d3).
    { destruct (topology_name d2) eqn:En; [exists d2; split; [reflexivity|exact A2]|].
      destruct (startswith (of_string "  topology: ") (line ++ [newline])) eqn:Es;
        [|exists d2; split; [reflexivity|exact A2]].
      eexists. split; [reflexivity|exact A2]. }
    destruct E3 as (d3 & -> & A3). cbn [bind].
    destruct (executor_name d3) eqn:En; [exists d3; split; [reflexivity|exact A3]|].
    cbv zeta. destruct (startswith (of_string "  executor: ") (line ++ [newline]));
      [|exists d3; split; [reflexivity|exact A3]].
    eexists. split; [reflexivity|exact A3]. }
  destruct EH as (d' & -> & A). cbn [bind].
  replace (contains (of_string ". mem usage: ") (line ++ [newline])) with false.
  2:{ symmetry. destruct (contains (of_string ". mem usage: ") (line ++ [newline])) eqn:E; [|reflexivity]. exfalso. apply H1.
      apply occurs_iff. apply (contains_nl (of_string ". mem usage:") " "%char); [discriminate|exact E]. }
  cbn [bind fst snd]. exists d'. split; [|exact A]. unfold parse_done.
  destruct (startswith (of_string "work ") (line ++ [newline])) eqn:E1; [|reflexivity].
  destruct (contains (of_string " done in ") (line ++ [newline])) eqn:E2; [|reflexivity].
  exfalso. apply H2. split.
  - apply begins_iff. apply (startswith_nl (of_string "work") " "%char); [discriminate|exact E1].
  - apply occurs_iff. apply (contains_nl (of_string " done in") " "%char); [discriminate|exact E2].
Qed.

Lemma step_event e d : ok_event parse_date e -> (forall date m, e = Stop date m -> v_time_start d <> None) ->
  exists d', parse_line parse_date (line_of e) d = Ok d' /\ after e d d'.
Proof.
  destruct e as [t name key m|name key x|date m|date m|line]; cbn [ok_event]; intros H Hs.
  - destruct H as (Hn & Hn' & Hk). apply step_launch; [split|]; assumption.
  - destruct H as (Hn & Hn' & Hk). apply step_end; [split|]; assumption.
  - destruct H as (Hd & t & Ht). eapply step_start; eassumption.
  - destruct H as (Hd & t & Ht). eapply step_stop; try eassumption. eapply Hs. reflexivity.
  - apply step_other, H.
Qed.

(** a file is read line by line *)
Lemma no_nl_space s : no_space s -> Forall (fun c => Ascii.eqb c newline = false) s.
Proof. intros H. eapply Forall_impl; [|exact H]. intros c Hc. cbn beta in Hc. destruct (Ascii.eqb_spec c newline) as [->|]; [discriminate|reflexivity]. Qed.

Lemma nl_const s : forallb (fun c => negb (Ascii.eqb c newline)) s = true -> Forall (fun c => Ascii.eqb c newline = false) s.
Proof. rewrite forallb_forall, Forall_forall. intros H c Hc. specialize (H c Hc). destruct (Ascii.eqb c newline); [discriminate|reflexivity]. Qed.

Lemma line_of_nl e : ok_event parse_date e -> exists s, line_of e = s ++ [newline] /\ Forall (fun c => Ascii.eqb c newline = false) s.
Proof.
  assert (HM : forall txt m, Forall (fun c => Ascii.eqb c newline = false) txt -> Forall (fun c => Ascii.eqb c newline = false) (get_txt_memory_usage txt m)).
  { intros txt m H. unfold get_txt_memory_usage, ljust.
    repeat first [exact H | solve [apply no_nl_space, fmt_decimal_no_space] | solve [apply nl_const; reflexivity] | apply Forall_app; split].
    apply Forall_forall. intros c Hc. apply repeat_spec in Hc. subst c. reflexivity. }
  intros H. destruct e as [t name key m|name key x|date m|date m|line]; cbn [ok_event line_of] in *.
  - eexists. split; [reflexivity|]. destruct H as (Hn & _ & Hk). apply HM.
    repeat first [solve [apply no_nl_space; assumption] | solve [apply no_nl_space, fmt_decimal_no_space] | solve [apply nl_const; reflexivity] | apply Forall_app; split].
  - rewrite !app_assoc. eexists. split; [reflexivity|]. destruct H as (Hn & _ & Hk).
    repeat first [solve [apply no_nl_space; assumption] | solve [apply no_nl_space, fmt_decimal_no_space] | solve [apply nl_const; reflexivity] | apply Forall_app; split].
  - eexists. split; [reflexivity|]. destruct H as (Hn & _). apply HM.
    repeat first [solve [apply no_nl_space; assumption] | solve [apply no_nl_space, fmt_decimal_no_space] | solve [apply nl_const; reflexivity] | apply Forall_app; split].
  - eexists. split; [reflexivity|]. destruct H as (Hn & _). apply HM.
    repeat first [solve [apply no_nl_space; assumption] | solve [apply no_nl_space, fmt_decimal_no_space] | solve [apply nl_const; reflexivity] | apply Forall_app; split].
  - exists line. split; [reflexivity|]. destruct H as ((H & _) & _). apply Forall_forall. intros c Hc.
    destruct (Ascii.eqb_spec c newline) as [->|]; [contradiction|reflexivity].
Qed.

Lemma file_lines_log evs : Forall (ok_event parse_date) evs -> file_lines (log_text evs) = map line_of evs.
Proof.
  induction 1 as [|e evs He _ IH]; [reflexivity|].
  unfold log_text. cbn [map List.concat]. destruct (line_of_nl e He) as (s & -> & Hs).
  rewrite <- app_assoc. cbn [app]. rewrite file_lines_line by exact Hs. f_equal. exact IH.
Qed.

Lemma parse_events evs : ok_log parse_date evs -> exists d,
  data_log_file parse_date (log_text evs) = Ok d /\ works d = launches evs /\ works_ended d = ends evs /\
  ((exists date m, In (Start date m) evs) -> mem_start d <> None).
Proof.
  intros (HF & HS). unfold data_log_file. rewrite file_lines_log by exact HF.
  assert (H : exists d, py_for (fun d line => parse_line parse_date line d) (map line_of evs) data0 = Ok d /\
     works d = launches evs /\ works_ended d = ends evs /\
     ((exists date m, In (Start date m) evs) -> v_time_start d <> None /\ mem_start d <> None)).
  { revert HF HS. induction evs as [|e evs IH] using rev_ind; intros HF HS.
    - exists data0. repeat split; try reflexivity; destruct H as (? & ? & []).
    - apply Forall_app in HF. destruct HF as [HF He]. inversion He as [|? ? He' _]; subst.
      destruct IH as (d & E & E1 & E2 & E3); [exact HF| |].
      { intros evs1 date mem evs2 ->. apply (HS evs1 date mem (evs2 ++ [e])). rewrite <- app_assoc. reflexivity. }
      rewrite map_app, py_for_app, E. cbn [bind map py_for].
      destruct (step_event e d He') as (d' & -> & A1 & A2 & A3 & A4 & A5).
      { intros date m ->. destruct (HS evs date m [] eq_refl) as (date' & m' & HIn). apply E3. eauto. }
      exists d'. split; [reflexivity|]. unfold launches, ends in *. rewrite !flat_map_app. rewrite A1, A2, E1, E2.
      repeat split.
      + destruct H as (date & m & HIn). apply in_app_iff in HIn. destruct HIn as [HIn|[->|[]]]; [apply A3, E3; eauto|apply A5].
      + destruct H as (date & m & HIn). apply in_app_iff in HIn. destruct HIn as [HIn|[->|[]]]; [apply A4, E3; eauto|apply A5]. }
  destruct H as (d & E & E1 & E2 & E3). exists d. repeat split; try assumption. intros H. apply E3, H.
Qed.
(** lines after the beginning of the execution: the beginning is kept, and the end too unless
    another line of the end is met *)
Lemma run_after evs : forall d, Forall (ok_event parse_date) evs -> v_time_start d <> None ->
  (forall date m, ~ In (Start date m) evs) ->
  exists d', py_for (fun d line => parse_line parse_date line d) (map line_of evs) d = Ok d' /\
    same_start d d' /\ ((forall date m, ~ In (Stop date m) evs) -> same_end d d').
Proof.
  induction evs as [|e evs IH]; intros d HF Hd HS; cbn [map py_for].
  { exists d. repeat split; intros; reflexivity. }
  inversion HF as [|? ? He HF']; subst.
  destruct (step_event e d He) as (d1 & -> & A1 & A2 & A3 & A4 & A5 & A6); [intros; exact Hd|]. cbn [bind].
  destruct (IH d1 HF' (A3 Hd)) as (d' & E & S1 & S2).
  { intros date m HIn. apply (HS date m). right. exact HIn. }
  exists d'. split; [exact E|].
  assert (B : same_start d d1 /\ ((forall date m, e <> Stop date m) -> same_end d d1)).
  { destruct e; cbn [marks] in A6; try (destruct A6 as [A6 A7]; split; [exact A6|intros _; exact A7]).
    - exfalso. eapply HS. left. reflexivity.
    - destruct A6 as [A6 _]. split; [exact A6|]. intros K. exfalso. eapply K. reflexivity. }
  destruct B as [B1 B2]. split.
  - destruct S1 as (? & ? & ?), B1 as (? & ? & ?). repeat split; congruence.
  - intros K. destruct S2 as (? & ? & ?); [intros date m HIn; apply (K date m); right; exact HIn|].
    destruct B2 as (? & ? & ?); [intros date m ->; apply (K date m); left; reflexivity|]. repeat split; congruence.
Qed.

Lemma run_total evs1 date0 m0 evs2 date1 m1 evs3 t0 t1 :
  let evs := evs1 ++ Start date0 m0 :: evs2 ++ Stop date1 m1 :: evs3 in
  ok_log parse_date evs ->
  (forall date m, ~ In (Start date m) (evs2 ++ evs3)) -> (forall date m, ~ In (Stop date m) evs3) ->
  parse_date date0 = Ok t0 -> parse_date date1 = Ok t1 ->
  exists d, data_log_file parse_date (log_text evs) = Ok d /\
    date_start d = Some date0 /\ mem_start d = Some (decimal 3 m0) /\
    date_end d = Some date1 /\ mem_end d = Some (decimal 3 m1) /\ duration d = Some (t1 - t0)%Q.
Proof.
  intros evs HO HS HE Ht0 Ht1. destruct HO as (HF & HSt). pose proof HF as HF0. subst evs.
  apply Forall_app in HF0. destruct HF0 as [F1 F0]. inversion F0 as [|? ? Fs F0']; subst.
  apply Forall_app in F0'. destruct F0' as [F2 F3']. inversion F3' as [|? ? Fe F3]; subst.
  destruct (parse_events evs1) as (d1 & E1 & _).
  { split; [exact F1|]. intros a date mem b ->. apply (HSt a date mem (b ++ Start date0 m0 :: evs2 ++ Stop date1 m1 :: evs3)).
    rewrite <- app_assoc. reflexivity. }
  unfold data_log_file in *. rewrite file_lines_log in E1 by exact F1. rewrite file_lines_log by exact HF.
  rewrite map_app, py_for_app, E1. cbn [bind map py_for].
  destruct (step_event _ d1 Fs) as (d2 & -> & _ & _ & _ & _ & (A5 & _) & (A6 & A7 & A8 & _)); [intros; discriminate|]. cbn [bind].
  destruct (run_after evs2 d2 F2 A5) as (d3 & E3 & (S1 & S2 & S3) & _).
  { intros date m HIn. apply (HS date m). apply in_or_app. left. exact HIn. }
  rewrite map_app, py_for_app, E3. cbn [bind map py_for].
  assert (H3 : v_time_start d3 = Some t0) by (rewrite S1; apply A8; exact Ht0).
  destruct (step_event _ d3 Fe) as (d4 & -> & _ & _ & A9 & _ & _ & ((B0 & B1 & B2) & B3 & B4 & B5));
    [intros; congruence|]. cbn [bind].
  destruct (run_after evs3 d4 F3) as (d5 & E5 & (S4 & S5 & S6) & S7); [apply A9; congruence| |].
  { intros date m HIn. apply (HS date m). apply in_or_app. right. exact HIn. }
  destruct (S7 HE) as (S8 & S9 & S10). exists d5. split; [exact E5|].
  rewrite (B5 _ _ Ht1 H3) in S10. repeat split; congruence.
Qed.
End Step.

(** ** LogTopology *)
Lemma last_assoc_spec key es :
  match last_assoc key (index_vs_keys es) with
  | Some i => exists e, nth_error es i = Some e /\ e_key e = key
  | None => forall e, In e es -> e_key e <> key
  end.
Proof.
  unfold index_vs_keys.
  assert (H : forall es s, match last_assoc key (combine (map e_key es) (seq s (List.length es))) with
    | Some i => exists j e, i = (s + j)%nat /\ nth_error es j = Some e /\ e_key e = key
    | None => forall e, In e es -> e_key e <> key end).
  { clear es. induction es as [|e es IH]; intros s; cbn [map List.length seq combine last_assoc]; [intros e []|].
    specialize (IH (S s)). destruct (last_assoc key _) as [i|].
    - destruct IH as (j & e' & -> & Hj & He). exists (S j), e'. repeat split; [lia|exact Hj|exact He].
    - destruct (chars_eqb (e_key e) key) eqn:E.
      + apply chars_eqb_spec in E. exists 0%nat, e. repeat split; [lia|exact E].
      + intros e' [<-|H]; [|apply IH; exact H]. intros H. apply chars_eqb_spec in H. congruence. }
  specialize (H es 0%nat). destruct (last_assoc key _) as [i|]; [|exact H].
  destruct H as (j & e & -> & Hj & He). exists e. split; assumption.
Qed.

Lemma py_get_nth {A} (l : list A) i a : nth_error l i = Some a -> py_get l (Z.of_nat i) = Ok a.
Proof.
  intros H. assert (i < List.length l)%nat by (apply nth_error_Some; congruence).
  unfold py_get, zlen. replace (Z.of_nat i <? 0) with false by lia.
  replace ((0 <=? Z.of_nat i) && (Z.of_nat i <? Z.of_nat (List.length l))) with true by lia.
  rewrite Nat2Z.id, H. reflexivity.
Qed.

Definition of_name (name : chars) (ws : list work) : list work := filter (fun w => chars_eqb (w_name w) name) ws.

(** the duration reported for a launch is the one of an end with the same name and key *)
Definition reported (es : list ended) (name key : chars) (o : option Q) : Prop :=
  match o with
  | Some x => exists e, In e es /\ e_name e = name /\ e_key e = key /\ e_duration e = x
  | None => forall e, In e es -> e_name e = name -> e_key e <> key
  end.

Lemma durations_spec ws es name : exists du,
  durations_of ws es name = Ok du /\ Forall2 (fun w o => reported es name (w_key w) o) (of_name name ws) du.
Proof.
  unfold durations_of, keys_of, of_name. cbv zeta. induction (filter (fun w => chars_eqb (w_name w) name) ws) as [|w l IH].
  - exists []. split; [reflexivity|constructor].
  - destruct IH as (du & E & HF). cbn [map map_result].
    pose proof (last_assoc_spec (w_key w) (filter (fun e => chars_eqb (e_name e) name) es)) as HL.
    destruct (last_assoc (w_key w) _) as [i|].
    + destruct HL as (e & He & Hk). rewrite (py_get_nth _ _ _ He). cbn [bind]. rewrite E. cbn [bind].
      eexists. split; [reflexivity|]. constructor; [|exact HF].
      apply nth_error_In in He. apply filter_In in He. destruct He as [He Hn]. apply chars_eqb_spec in Hn.
      exists e. auto.
    + cbn [bind]. rewrite E. cbn [bind]. eexists. split; [reflexivity|]. constructor; [|exact HF].
      intros e He Hn. apply HL. apply filter_In. split; [exact He|]. apply chars_eqb_spec. exact Hn.
Qed.

Lemma names_spec ws : NoDup (names_of ws) /\ forall name, In name (names_of ws) <-> exists w, In w ws /\ w_name w = name.
Proof.
  unfold names_of.
  assert (H : forall l acc, NoDup acc ->
    let r := fold_left (fun acc w => if existsb (chars_eqb (w_name w)) acc then acc else acc ++ [w_name w]) l acc in
    NoDup r /\ forall name, In name r <-> In name acc \/ exists w, In w l /\ w_name w = name).
  { induction l as [|w l IH]; intros acc HA; cbn [fold_left]; cbv zeta.
    - split; [exact HA|]. intros name. split; [auto|]. intros [H|(w & [] & _)]. exact H.
    - destruct (existsb (chars_eqb (w_name w)) acc) eqn:E.
      + apply existsb_exists in E. destruct E as (x & Hx & Ex). apply chars_eqb_spec in Ex. subst x.
        destruct (IH acc HA) as [H1 H2]. split; [exact H1|]. intros name. rewrite H2. split.
        * intros [H|(w' & H & Hn)]; [auto|]. right. exists w'. split; [right; exact H|exact Hn].
        * intros [H|(w' & [<-|H] & Hn)]; [auto| |right; eauto]. left. congruence.
      + destruct (IH (acc ++ [w_name w])) as [H1 H2].
        { apply NoDup_rev in HA. rewrite <- (rev_involutive (acc ++ [w_name w])). apply NoDup_rev. rewrite rev_app_distr. cbn.
          constructor; [|exact HA]. rewrite <- in_rev. intros HIn.
          assert (existsb (chars_eqb (w_name w)) acc = true); [|congruence].
          apply existsb_exists. exists (w_name w). split; [exact HIn|apply chars_eqb_spec; reflexivity]. }
        split; [exact H1|]. intros name. rewrite H2, in_app_iff. split.
        * intros [[H|[H|[]]]|(w' & H & Hn)]; [auto| |]; right; [exists w|exists w']; (split; [|exact H || exact Hn]); [left; reflexivity|right; exact H].
        * intros [H|(w' & [<-|H] & Hn)]; [auto|left; right; left; exact Hn|right; eauto]. }
  destruct (H ws [] (NoDup_nil _)) as [H1 H2]. split; [exact H1|]. intros name. rewrite H2. split; [|auto].
  intros [[]|H0]. exact H0.
Qed.

(** What LogTopology reports for the logs of an execution: [main] is the log of the main
    process, [procs] those of the other processes.  The works launched and ended are those
    of the logs; there is one entry per name of work; an entry gives the times and the keys
    of the works launched with this name, and for each of them the duration of an end with
    this name and this key, or nan if there is none.

    Partial: with names and keys without white space. *)
Theorem C42_log_partial parse_date main procs :
  ok_log parse_date main -> Forall (ok_log parse_date) procs -> (exists date m, In (Start date m) main) ->
  let evs := main ++ List.concat procs in
  exists tab,
    log_topology parse_date (log_text main) (map log_text procs) = Ok (launches evs, ends evs, tab) /\
    NoDup (map fst tab) /\
    (forall name, In name (map fst tab) <-> exists w, In w (launches evs) /\ w_name w = name) /\
    (forall name times keys durations, In (name, (times, keys, durations)) tab ->
       times = map w_time (of_name name (launches evs)) /\
       keys = map w_key (of_name name (launches evs)) /\
       Forall2 (fun w o => reported (ends evs) name (w_key w) o) (of_name name (launches evs)) durations).
Proof.
  intros Hm Hp Hst evs. destruct (parse_events _ _ Hm) as (d & E & EW & EE & ES).
  unfold log_topology. rewrite E. cbn [bind]. destruct (mem_start d) as [ms|]; [|exfalso; apply (ES Hst); reflexivity]. cbn [bind].
  assert (HP : exists ds, map_result (data_log_file parse_date) (map log_text procs) = Ok ds /\
     List.concat (map works ds) = launches (List.concat procs) /\ List.concat (map works_ended ds) = ends (List.concat procs)).
  { clear - Hp. induction Hp as [|p procs Hp _ (ds & E1 & E2 & E3)]; [exists []; repeat split|].
    destruct (parse_events _ _ Hp) as (d & E & EW & EE & _). cbn [map map_result]. rewrite E. cbn [bind]. rewrite E1. cbn [bind].
    exists (d :: ds). split; [reflexivity|]. cbn [map List.concat]. unfold launches, ends in *. rewrite !flat_map_app.
    rewrite EW, EE, E2, E3. split; reflexivity. }
  destruct HP as (ds & -> & E2 & E3). cbn [bind]. rewrite EW, EE, E2, E3.
  assert (ELa : launches main ++ launches (List.concat procs) = launches evs) by (unfold evs, launches; rewrite flat_map_app; reflexivity).
  assert (EEn : ends main ++ ends (List.concat procs) = ends evs) by (unfold evs, ends; rewrite flat_map_app; reflexivity).
  rewrite ELa, EEn. cbv zeta.
  set (ws := launches evs). set (es := ends evs).
  assert (HT : forall names, exists tab,
    map_result (fun name => do du <- durations_of ws es name; Ok (name, (times_of ws name, keys_of ws name, du))) names = Ok tab /\
    map fst tab = names /\ forall name times keys durations, In (name, (times, keys, durations)) tab ->
       times = map w_time (of_name name ws) /\ keys = map w_key (of_name name ws) /\
       Forall2 (fun w o => reported es name (w_key w) o) (of_name name ws) durations).
  { induction names as [|n names (tab & E1 & EF & ET)]; [exists []; repeat split; try reflexivity; destruct H|].
    destruct (durations_spec ws es n) as (du & ED & HD). cbn [map_result]. rewrite ED. cbn [bind]. rewrite E1. cbn [bind].
    eexists. split; [reflexivity|]. split; [cbn [map fst]; rewrite EF; reflexivity|].
    intros name times keys durations [H|H]; [|apply ET; exact H].
    injection H as <- <- <- <-. repeat split; try reflexivity. exact HD. }
  destruct (HT (names_of ws)) as (tab & -> & EF & ET). cbn [bind]. exists tab. split; [reflexivity|].
  destruct (names_spec ws) as [HN HI]. rewrite EF. split; [exact HN|]. split; [exact HI|exact ET].
Qed.
Print Assumptions C42_log_partial.

(** When a work is not done several times with the same key, the duration reported for a
    work launched and ended is its duration. *)
Theorem C42_durations_partial parse_date main procs name key t m x :
  ok_log parse_date main -> Forall (ok_log parse_date) procs -> (exists date m, In (Start date m) main) ->
  let evs := main ++ List.concat procs in
  In (Launch t name key m) evs -> In (End name key x) evs ->
  (forall y, In (End name key y) evs -> y = x) ->
  exists ws es tab times keys durations i,
    log_topology parse_date (log_text main) (map log_text procs) = Ok (ws, es, tab) /\
    In (name, (times, keys, durations)) tab /\
    nth_error times i = Some (decimal 2 t) /\ nth_error keys i = Some key /\ nth_error durations i = Some (Some (decimal 3 x)).
Proof.
  intros Hm Hp Hst evs HL HE HU. destruct (C42_log_partial parse_date main procs Hm Hp Hst) as (tab & E & _ & HN & HT).
  fold evs in E, HN, HT. set (w := {| w_name := name; w_key := key; w_mem := decimal 3 m; w_time := decimal 2 t |}).
  assert (Hw : In w (launches evs)) by (apply in_flat_map; exists (Launch t name key m); split; [exact HL|left; reflexivity]).
  assert (HIn : In name (map fst tab)) by (apply HN; exists w; split; [exact Hw|reflexivity]).
  apply in_map_iff in HIn. destruct HIn as ((n & ((times & keys) & durs)) & En & HIn). cbn [fst] in En. subst n.
  destruct (HT _ _ _ _ HIn) as (-> & -> & HD).
  assert (Hw' : In w (of_name name (launches evs))) by (apply filter_In; split; [exact Hw|apply chars_eqb_spec; reflexivity]).
  apply In_nth_error in Hw'. destruct Hw' as (i & Hi).
  exists (launches evs), (ends evs), tab, (map w_time (of_name name (launches evs))), (map w_key (of_name name (launches evs))), durs, i.
  split; [exact E|]. split; [exact HIn|].
  split; [rewrite nth_error_map, Hi; reflexivity|]. split; [rewrite nth_error_map, Hi; reflexivity|].
  assert (HO : exists o, nth_error durs i = Some o /\ reported (ends evs) name key o).
  { clear - HD Hi. revert i Hi. induction HD as [|a o l du Ho _ IH]; intros [|i] Hi; try discriminate.
    - cbn in Hi. injection Hi as ->. exists o. split; [reflexivity|exact Ho].
    - apply IH. exact Hi. }
  destruct HO as (o & -> & HO). destruct o as [y|].
  - destruct HO as (e & He & Hn & Hk & <-). apply in_flat_map in He. destruct He as (ev & Hev & He).
    destruct ev; try destruct He. subst e. cbn in Hn, Hk. subst. cbn. rewrite (HU _ Hev). reflexivity. destruct H.
  - exfalso. apply (HO {| e_name := name; e_key := key; e_duration := decimal 3 x |}); try reflexivity.
    apply in_flat_map. exists (End name key x). split; [exact HE|left; reflexivity].
Qed.
Print Assumptions C42_durations_partial.

(** The beginning, the end and the total duration of an execution: those of the line of the
    beginning and of the line of the end, whatever was logged before (the lines of an earlier
    execution which was stopped or ended), in between and after. *)
Theorem C42_total parse_date evs1 date0 m0 evs2 date1 m1 evs3 t0 t1 :
  let evs := evs1 ++ Start date0 m0 :: evs2 ++ Stop date1 m1 :: evs3 in
  ok_log parse_date evs ->
  (forall date m, ~ In (Start date m) (evs2 ++ evs3)) -> (forall date m, ~ In (Stop date m) evs3) ->
  parse_date date0 = Ok t0 -> parse_date date1 = Ok t1 ->
  exists d, data_log_file parse_date (log_text evs) = Ok d /\
    date_start d = Some date0 /\ mem_start d = Some (decimal 3 m0) /\
    date_end d = Some date1 /\ mem_end d = Some (decimal 3 m1) /\ duration d = Some (t1 - t0)%Q.
Proof. apply run_total. Qed.
Print Assumptions C42_total.


(** A work done several times with the same key (in the asynchronous executors, a work of
    kind "global" is launched again and again with the key "kind='global'"): all its
    durations are said to be the last one. *)
Theorem C42_same_key_refuted name key t1 t2 m1 m2 x1 x2 date m0 parse_date :
  no_space name -> name <> [] -> no_space key -> no_space date -> (exists t, parse_date date = Ok t) ->
  exists ws es,
    log_topology parse_date
      (log_text [Start date m0; Launch t1 name key m1; End name key x1; Launch t2 name key m2; End name key x2]) []
    = Ok (ws, es, [(name, ([decimal 2 t1; decimal 2 t2], [key; key], [Some (decimal 3 x2); Some (decimal 3 x2)]))]).
Proof.
  intros Hn Hn' Hk Hd Ht.
  assert (HO : ok_log parse_date [Start date m0; Launch t1 name key m1; End name key x1; Launch t2 name key m2; End name key x2]).
  { split; [repeat constructor; auto|]. intros evs1 d m evs2 E. exfalso.
    assert (HIn : In (Stop d m) [Start date m0; Launch t1 name key m1; End name key x1; Launch t2 name key m2; End name key x2])
      by (rewrite E; apply in_or_app; right; left; reflexivity).
    cbn in HIn. destruct HIn as [H|[H|[H|[H|[H|[]]]]]]; discriminate. }
  destruct (parse_events _ _ HO) as (d & E & EW & EE & ES). unfold log_topology. rewrite E. cbn [bind].
  destruct (mem_start d) as [ms|]; [|exfalso; apply ES; [exists date, m0; left; reflexivity|reflexivity]]. cbn [bind map_result map List.concat].
  rewrite EW, EE, !app_nil_r. cbv zeta. cbn [launches ends flat_map app].
  assert (RR : forall s, chars_eqb s s = true) by (intros s; apply chars_eqb_spec; reflexivity).
  unfold names_of. cbn [fold_left existsb w_name]. cbn [app existsb]. rewrite RR. cbn [orb map_result bind].
  unfold durations_of, times_of, keys_of, index_vs_keys. cbn [filter e_name w_name]. rewrite !RR.
  cbn [filter map List.length seq combine e_key w_key w_time map_result last_assoc]. rewrite !RR. cbv iota.
  change (py_get _ (Z.of_nat 1)) with (Ok {| e_name := name; e_key := key; e_duration := decimal 3 x2 |}). cbn [bind map_result e_duration].
  eexists _, _. reflexivity.
Qed.
Print Assumptions C42_same_key_refuted.

(** A key with a space (the keys are names of images): the keys found in the two lines are
    not equal and the duration is lost. *)
Definition ex_date := of_string "2024-03-01_12-00-00.25".
Theorem C42_space_refuted :
  exists main ws es,
    In (Launch 120 (of_string "read_array") (of_string "im 1.png") 100000) main /\
    In (End (of_string "read_array") (of_string "im 1.png") 15) main /\
    log_topology (fun _ => Ok 0%Q) (log_text main) []
    = Ok (ws, es, [(of_string "read_array", ([decimal 2 120], [[]], [None]))]).
Proof.
  exists [Start ex_date 90000; Launch 120 (of_string "read_array") (of_string "im 1.png") 100000;
          End (of_string "read_array") (of_string "im 1.png") 15]. eexists _, _.
  split; [right; left; reflexivity|]. split; [right; right; left; reflexivity|]. vm_compute. reflexivity.
Qed.
Print Assumptions C42_space_refuted.

(** Without the line of the beginning (nothing had to be computed): AttributeError. *)
Theorem C42_nothing_refuted parse_date : log_topology parse_date (log_text []) [] = Err AttributeError.
Proof. reflexivity. Qed.
Print Assumptions C42_nothing_refuted.

(** a log which satisfies the hypotheses, with a main log, a log of another process, the
    parameters, an error and a line printed by a work *)
Definition ex_main : list event :=
  [Start ex_date 90000; Other (of_string "  topology: fluidimage.topologies.piv.TopologyPIV");
   Other (of_string "  nb_cpus_allowed = 4"); Other (of_string "  nb_max_workers = 6");
   Launch 1 (of_string "read_array") (of_string "im1.png") 100000; Other (of_string "work in progress");
   End (of_string "read_array") (of_string "im1.png") 15;
   Launch 25 (of_string "compute_PIV") (of_string "im1.png-im2.png") 110000;
   Other (of_string "ERROR: error during work compute_PIV. mem usage: ");
   Stop ex_date 120000].
Definition ex_proc : list event :=
  [Launch 7 (of_string "read_array") (of_string "im2.png") 100000; End (of_string "read_array") (of_string "im2.png") 1234].

Example C42_hyps : ok_log (fun _ => Ok 0%Q) ex_main /\ ok_log (fun _ => Ok 0%Q) ex_proc.
Proof.
  assert (HS : forall s, forallb (fun c => negb (is_space c)) s = true -> no_space s).
  { intros s H. apply Forall_forall. rewrite forallb_forall in H. intros c Hc. specialize (H c Hc). destruct (is_space c); [discriminate|reflexivity]. }
  assert (HL : forall s, forallb (fun c => negb (Ascii.eqb c newline) && negb (Ascii.eqb c (Ascii.ascii_of_nat 13))) s = true -> one_line s).
  { intros s H. rewrite forallb_forall in H. split; intros Hc; specialize (H _ Hc); discriminate. }
  assert (HB : forall p s, startswith (of_string p) s = false -> ~ begins p s).
  { intros p s H Hb. apply begins_iff in Hb. congruence. }
  assert (HC : forall p s, contains (of_string p) s = false -> ~ occurs p s).
  { intros p s H Hb. apply occurs_iff in Hb. congruence. }
  split; split.
  - repeat (apply Forall_cons || apply Forall_nil); cbn [ok_event]; repeat match goal with |- _ /\ _ => split end;
      try (apply HS; reflexivity); try discriminate; try (exists 0%Q; reflexivity); try (apply HL; reflexivity).
    + right. repeat split; try (apply HC; reflexivity); try (intros [H _]; revert H; apply HB; reflexivity); intros H; exfalso; revert H; apply HB; reflexivity.
    + right. split; [apply HC; reflexivity|]. split; [intros [H _]; revert H; apply HB; reflexivity|]. split; intros H.
      * exists 4. reflexivity.
      * exfalso; revert H; apply HB; reflexivity.
    + right. split; [apply HC; reflexivity|]. split; [intros [H _]; revert H; apply HB; reflexivity|]. split; intros H.
      * exfalso; revert H; apply HB; reflexivity.
      * exists 6. reflexivity.
    + right. split; [apply HC; reflexivity|]. split; [intros [_ H]; revert H; apply HC; reflexivity|]. split; intros H; exfalso; revert H; apply HB; reflexivity.
    + left. exists (of_string "error during work compute_PIV. mem usage: "). reflexivity.
  - intros evs1 d m evs2 E. exists ex_date, 90000. destruct evs1 as [|e evs1]; [discriminate|]. left.
    unfold ex_main in E. injection E as E _. symmetry. exact E.
  - repeat constructor; try (apply HS; reflexivity); try discriminate.
  - intros evs1 d m evs2 E. exfalso. assert (HIn : In (Stop d m) ex_proc) by (rewrite E; apply in_or_app; right; left; reflexivity).
    destruct HIn as [H|[H|[]]]; discriminate.
Qed.

Example C42_example :
  log_topology (fun _ => Ok 0%Q) (log_text ex_main) [log_text ex_proc]
  = Ok (launches (ex_main ++ ex_proc), ends (ex_main ++ ex_proc),
        [(of_string "read_array", ([decimal 2 1; decimal 2 7], [of_string "im1.png"; of_string "im2.png"], [Some (decimal 3 15); Some (decimal 3 1234)]));
         (of_string "compute_PIV", ([decimal 2 25], [of_string "im1.png-im2.png"], [None]))]).
Proof. vm_compute. reflexivity. Qed.

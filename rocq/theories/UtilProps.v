(** C43 (arguments shown by the launcher), C44 (text for a duration), C46 (reset_logger). *)
From Coq Require Import QArith Qround Lqa.
From Verif Require Import PyBase StrModel StrProofs NameProps LogModel LogProofs UtilModel.
Open Scope Z_scope.

(** * C43 *)
Section C43.
Variable V : Type.
Implicit Types s : signature V.

(** the default value of the argument number [i] of a signature *)
Definition default_of s (i : nat) : option V :=
  if (i <? List.length (required s))%nat then None
  else option_map snd (nth_error (optional s) (i - List.length (required s))).
Definition name_of s (i : nat) : option chars := nth_error (required s ++ map fst (optional s)) i.

Lemma slice_from {A} (l : list A) (n : nat) : py_slice l (Z.of_nat n) (zlen l) = skipn n l.
Proof.
  unfold py_slice, norm_bound, zlen. replace (Z.of_nat n <? 0) with false by lia.
  replace (Z.of_nat (List.length l) <? 0) with false by lia.
  destruct (Nat.le_gt_cases (List.length l) n) as [H|H].
  - rewrite (skipn_all2 l) by lia. rewrite skipn_all2 by lia. destruct (Z.to_nat _); reflexivity.
  - replace (Z.to_nat (Z.min (Z.of_nat n) (Z.of_nat (List.length l)))) with n by lia.
    apply firstn_all2. rewrite skipn_length. lia.
Qed.

Lemma attribs_eq s : optional s <> [] ->
  launcher_attribs V s = Ok (combine (skipn 2 (spec_args V s)) (skipn 1 (map snd (optional s)))).
Proof.
  intros H. unfold launcher_attribs, get_args_bound_method, spec_defaults. destruct (optional s) as [|o l] eqn:E; [congruence|].
  cbn [bind fst snd]. change 2 with (Z.of_nat 2). change 1 with (Z.of_nat 1). rewrite !slice_from. reflexivity.
Qed.

Lemma nth_skip {A} n i (l : list A) : nth_error (skipn n l) i = nth_error l (n + i).
Proof. revert l. induction n as [|n IH]; intros l; [reflexivity|]. destruct l as [|a l]; [destruct i; reflexivity|]. cbn [skipn Nat.add nth_error]. apply IH. Qed.

Lemma nth_combine {A B} i (l : list A) (m : list B) :
  nth_error (combine l m) i = match nth_error l i, nth_error m i with Some a, Some b => Some (a, b) | _, _ => None end.
Proof.
  revert l m. induction i as [|i IH]; intros [|a l] [|b m]; cbn; try reflexivity.
  - destruct (nth_error l i); reflexivity.
  - apply IH.
Qed.

(** The attribute number [i] is the argument number [i + 2], with the default of the
    argument number [r + i + 1], where [r] is the number of arguments without default. *)
Theorem C43_shift s (i : nat) : optional s <> [] -> exists l, launcher_attribs V s = Ok l /\
  nth_error l i = match name_of s (i + 2), default_of s (List.length (required s) + i + 1) with
                  | Some name, Some v => Some (name, v)
                  | _, _ => None
                  end.
Proof.
  intros H. eexists. split; [apply attribs_eq; exact H|]. rewrite nth_combine, !nth_skip, nth_error_map.
  unfold name_of, default_of, spec_args.
  replace (List.length (required s) + i + 1 <? List.length (required s))%nat with false by (symmetry; apply Nat.ltb_ge; lia).
  replace (List.length (required s) + i + 1 - List.length (required s))%nat with (1 + i)%nat by lia.
  replace (i + 2)%nat with (2 + i)%nat by lia. reflexivity.
Qed.

(** When [self] is the only argument without default (as for TopologyBase.compute): all the
    arguments but the two first are shown, each with its own default. *)
Theorem C43_own_default_partial s self : required s = [self] -> optional s <> [] ->
  launcher_attribs V s = Ok (skipn 1 (optional s)).
Proof.
  intros Hr H. rewrite attribs_eq by exact H. unfold spec_args. rewrite Hr.
  destruct (optional s) as [|o l]; [congruence|]. cbn [app map skipn]. f_equal. clear H.
  induction l as [|(n, v) l IH]; [reflexivity|]. cbn [map combine fst snd]. f_equal. exact IH.
Qed.

(** With [self] and [params] (as for the __init__ of all the topologies): each argument gets
    the default of the next one, and the last argument is missing. *)
Theorem C43_next_default s self params : required s = [self; params] -> optional s <> [] ->
  launcher_attribs V s = Ok (combine (map fst (optional s)) (skipn 1 (map snd (optional s)))).
Proof. intros Hr H. rewrite attribs_eq by exact H. unfold spec_args. rewrite Hr. reflexivity. Qed.

(** Without any default: TypeError. *)
Theorem C43_no_default s : optional s = [] -> launcher_attribs V s = Err TypeError.
Proof. intros H. unfold launcher_attribs, get_args_bound_method, spec_defaults. rewrite H. reflexivity. Qed.
End C43.
Print Assumptions C43_shift.
Print Assumptions C43_own_default_partial.
Print Assumptions C43_next_default.
Print Assumptions C43_no_default.

(** topologies/piv.py:80 and preproc.py:170-172:
    [def __init__(self, params, logging_level="info", nb_max_workers=None)] *)
Definition sig_init : signature (option chars) :=
  {| required := [of_string "self"; of_string "params"];
     optional := [(of_string "logging_level", Some (of_string "info")); (of_string "nb_max_workers", None)] |}.

(** The logging level shown is None instead of "info" and nb_max_workers is not shown. *)
Theorem C43_init_refuted : launcher_attribs _ sig_init = Ok [(of_string "logging_level", None)].
Proof. reflexivity. Qed.
Print Assumptions C43_init_refuted.

(** topologies/base.py:336-344 *)
Definition sig_compute : signature string :=
  {| required := [of_string "self"];
     optional := [(of_string "executor", "None"); (of_string "nb_max_workers", "None"); (of_string "sleep_time", "0.01");
                  (of_string "sequential", "False"); (of_string "stop_if_error", "False"); (of_string "kwargs_executor", "None")]%string |}.
Example C43_compute : launcher_attribs _ sig_compute =
  Ok [(of_string "nb_max_workers", "None"); (of_string "sleep_time", "0.01");
      (of_string "sequential", "False"); (of_string "stop_if_error", "False"); (of_string "kwargs_executor", "None")]%string.
Proof. reflexivity. Qed.

(** * C44 *)

(** Reading "hh:mm:ss": hours, minutes and seconds. *)
Definition read_hms (text : chars) : option (Z * Z * Z) :=
  match map py_int (split_on ":"%char text) with
  | [Ok h; Ok m; Ok s] => Some (h, m, s)
  | _ => None
  end.

Lemma py_int_pad k n : 0 <= n -> py_int (pad_zeros k (py_str n)) = Ok n.
Proof.
  intros Hn. unfold pad_zeros. generalize (k - List.length (py_str n))%nat. intros j.
  unfold py_int. rewrite strip_no_space.
  2:{ apply no_space_app; [apply Forall_forall; intros c Hc; apply repeat_spec in Hc; subst c; reflexivity|].
      eapply Forall_impl; [|apply (py_str_chars n)]. intros c. apply int_char_not_space. }
  unfold py_str. destruct (Z.to_int n) as [u|u] eqn:E.
  - assert (Hu : u <> Decimal.Nil) by (destruct (to_int_cases n) as [(v & Hv & Hv')|(v & Hv & Hv')]; congruence).
    cbn [DecimalString.NilZero.string_of_int]. rewrite string_of_uint_nonnil by exact Hu. rewrite <- iter_D0_string.
    unfold of_string. rewrite string_of_list_ascii_of_string.
    assert (Hu' : Nat.iter j Decimal.D0 u <> Decimal.Nil) by (destruct j; [exact Hu|discriminate]).
    rewrite <- string_of_uint_nonnil by exact Hu'.
    replace (DecimalString.NilZero.string_of_uint (Nat.iter j Decimal.D0 u)) with (DecimalString.NilZero.string_of_int (Decimal.Pos (Nat.iter j Decimal.D0 u))) by reflexivity.
    rewrite DecimalString.NilZero.isi_posnil || rewrite DecimalString.NilZero.isi.
    + f_equal. transitivity (Z.of_int (Decimal.Pos u)); [|rewrite <- E; apply DecimalZ.of_to].
      apply DecimalZ.of_iff. cbn [Decimal.norm]. rewrite DecimalFacts.unorm_iter_D0. reflexivity.
    + intros HE. injection HE. exact Hu'.
    + intros HE. discriminate.
  - exfalso. destruct n; cbn in E; try discriminate; lia.
Qed.

Lemma no_colon_pad k n : Forall (fun c => Ascii.eqb c ":" = false) (pad_zeros k (py_str n)).
Proof.
  unfold pad_zeros. apply Forall_app. split.
  - apply Forall_forall. intros c Hc. apply repeat_spec in Hc. subst c. reflexivity.
  - eapply Forall_impl; [|apply (py_str_chars n)]. intros c Hc. apply int_char_neq; [exact Hc|reflexivity].
Qed.

Lemma floor_spec x n : (inject_Z n <= x)%Q -> (x < inject_Z (n + 1))%Q -> Qfloor x = n.
Proof.
  intros H1 H2. pose proof (Qfloor_le x) as H3. pose proof (Qlt_floor x) as H4.
  assert (A : (inject_Z n < inject_Z (Qfloor x + 1))%Q) by (eapply Qle_lt_trans; eassumption).
  assert (B : (inject_Z (Qfloor x) < inject_Z (n + 1))%Q) by (eapply Qle_lt_trans; eassumption).
  rewrite <- Zlt_Qlt in A, B. lia.
Qed.

(** From one minute on, the text reads as hours, minutes and seconds, with the minutes and
    the seconds in [0, 60), and this is the duration without its fraction of second. *)
Theorem C44_long d : (60 <= d)%Q -> exists h m s,
  read_hms (format_time_in_seconds d) = Some (h, m, s) /\
  0 <= h /\ 0 <= m < 60 /\ 0 <= s < 60 /\ h * 3600 + m * 60 + s = Qfloor d.
Proof.
  intros Hd. unfold format_time_in_seconds.
  replace (Qle_bool 60 d) with true by (symmetry; apply Qle_bool_iff; exact Hd). cbn [negb]. cbv zeta.
  set (h := Qfloor (d / 3600)). set (r := (d - inject_Z h * 3600)%Q). set (m := Qfloor (r / 60)).
  set (sec := (r - inject_Z m * 60)%Q). set (s := Qfloor sec).
  pose proof (Qfloor_le (d / 3600)) as H1. pose proof (Qlt_floor (d / 3600)) as H2. fold h in H1, H2.
  rewrite inject_Z_plus in H2. change (inject_Z 1) with 1%Q in H2.
  assert (Ed : (d == (d / 3600) * 3600)%Q) by field.
  set (dh := (d / 3600)%Q) in *.
  assert (Hr0 : (0 <= r)%Q) by (unfold r; rewrite Ed; lra).
  assert (Hr1 : (r < 3600)%Q) by (unfold r; rewrite Ed; lra).
  pose proof (Qfloor_le (r / 60)) as H3. pose proof (Qlt_floor (r / 60)) as H4. fold m in H3, H4.
  rewrite inject_Z_plus in H4. change (inject_Z 1) with 1%Q in H4.
  assert (Er : (r == (r / 60) * 60)%Q) by field. set (rm := (r / 60)%Q) in *.
  assert (Hs0 : (0 <= sec)%Q) by (unfold sec; rewrite Er; lra).
  assert (Hs1 : (sec < 60)%Q) by (unfold sec; rewrite Er; lra).
  pose proof (Qfloor_le sec) as H5. pose proof (Qlt_floor sec) as H6. fold s in H5, H6.
  rewrite inject_Z_plus in H6. change (inject_Z 1) with 1%Q in H6.
  assert (Hh : 0 <= h).
  { assert (A : (inject_Z (-1) < inject_Z h)%Q) by (change (inject_Z (-1)) with (-1)%Q; lra). rewrite <- Zlt_Qlt in A. lia. }
  assert (Hm : 0 <= m < 60).
  { assert (A : (inject_Z (-1) < inject_Z m)%Q) by (change (inject_Z (-1)) with (-1)%Q; lra).
    assert (B : (inject_Z m < inject_Z 60)%Q) by (change (inject_Z 60) with 60%Q; lra). rewrite <- Zlt_Qlt in A, B. lia. }
  assert (Hs : 0 <= s < 60).
  { assert (A : (inject_Z (-1) < inject_Z s)%Q) by (change (inject_Z (-1)) with (-1)%Q; lra).
    assert (B : (inject_Z s < inject_Z 60)%Q) by (change (inject_Z 60) with 60%Q; lra). rewrite <- Zlt_Qlt in A, B. lia. }
  exists h, m, s. split.
  - unfold read_hms, fmt02. rewrite split_on_app by apply no_colon_pad. rewrite split_on_app by apply no_colon_pad.
    rewrite split_on_none by apply no_colon_pad. cbn [map]. rewrite !py_int_pad by lia. reflexivity.
  - split; [exact Hh|]. split; [exact Hm|]. split; [exact Hs|]. symmetry. apply floor_spec.
    + rewrite !inject_Z_plus, !inject_Z_mult. change (inject_Z 3600) with 3600%Q. change (inject_Z 60) with 60%Q. unfold sec, r in *. lra.
    + rewrite !inject_Z_plus, !inject_Z_mult. change (inject_Z 3600) with 3600%Q. change (inject_Z 60) with 60%Q. change (inject_Z 1) with 1%Q. unfold sec, r in *. lra.
Qed.
Print Assumptions C44_long.

Lemma round_spec x : (inject_Z (round_half_even x) - x <= 1 # 2)%Q /\ (x - inject_Z (round_half_even x) <= 1 # 2)%Q.
Proof.
  unfold round_half_even. pose proof (Qfloor_le x) as H1. pose proof (Qlt_floor x) as H2. set (f := Qfloor x) in *.
  rewrite inject_Z_plus in H2. change (inject_Z 1) with 1%Q in H2.
  destruct (Qcompare_spec (x - inject_Z f) (1 # 2)) as [E|E|E].
  - destruct (Z.even f); [split; lra|]. rewrite inject_Z_plus. change (inject_Z 1) with 1%Q. split; lra.
  - split; lra.
  - rewrite inject_Z_plus. change (inject_Z 1) with 1%Q. split; lra.
Qed.

(** Below one minute, the text is a number of seconds which differs from the duration by
    at most 5 ms. *)
Theorem C44_short d : (0 <= d)%Q -> (d < 60)%Q -> exists number x,
  format_time_in_seconds d = number ++ of_string " s" /\ py_float number = Ok x /\
  (x - d <= 5 # 1000)%Q /\ (d - x <= 5 # 1000)%Q.
Proof.
  intros H0 H1. unfold format_time_in_seconds.
  replace (Qle_bool 60 d) with false.
  2:{ symmetry. destruct (Qle_bool 60 d) eqn:E; [|reflexivity]. apply Qle_bool_iff in E. lra. }
  cbn [negb]. unfold fmt_2f. set (n := round_half_even (d * 100)).
  exists (fmt_decimal 2 n), (decimal 2 n). split; [reflexivity|]. split; [apply py_float_fmt; left; reflexivity|].
  destruct (round_spec (d * 100)) as [A B]. fold n in A, B.
  assert (E : (decimal 2 n == inject_Z n * (1 # 100))%Q) by (unfold decimal, Qeq; cbn; lia).
  rewrite E. split; lra.
Qed.
Print Assumptions C44_short.

(** Just below one minute, the text gives 60 seconds. *)
Theorem C44_sixty_refuted : (59996 # 1000 < 60)%Q /\ format_time_in_seconds (59996 # 1000) = of_string "60.00 s".
Proof. split; [reflexivity|vm_compute; reflexivity]. Qed.
Print Assumptions C44_sixty_refuted.

(** The number of hours is not bounded (there are no days). *)
Theorem C44_hours_refuted h : 0 < h -> read_hms (format_time_in_seconds (inject_Z (h * 3600))) = Some (h, 0, 0).
Proof.
  intros Hh. destruct (C44_long (inject_Z (h * 3600))) as (h' & m & s & E & H1 & H2 & H3 & H4).
  - change 60%Q with (inject_Z 60). rewrite <- Zle_Qle. lia.
  - rewrite Qfloor_Z in H4. rewrite E. repeat f_equal; lia.
Qed.
Print Assumptions C44_hours_refuted.

Example C44_ex1 : format_time_in_seconds (255 # 10) = of_string "25.50 s". Proof. vm_compute. reflexivity. Qed.
Example C44_ex2 : format_time_in_seconds 120 = of_string "00:02:00". Proof. vm_compute. reflexivity. Qed.
Example C44_ex3 : format_time_in_seconds (100 * 3600 + 61) = of_string "100:01:01". Proof. vm_compute. reflexivity. Qed.

(** * C46 *)
Section C46.
Variable handler : Type.
Variable same : forall a b : handler, {a = b} + {a <> b}.

(** the elements at the odd positions *)
Fixpoint odds (l : list handler) : list handler :=
  match l with
  | _ :: b :: l' => b :: odds l'
  | _ => []
  end.

Lemma remove_app h l1 l2 : ~ In h l1 -> remove_handler handler same h (l1 ++ h :: l2) = l1 ++ l2.
Proof.
  induction l1 as [|x l1 IH]; cbn; intros H.
  - destruct (same h h); [reflexivity|congruence].
  - destruct (same x h) as [->|_]; [exfalso; apply H; left; reflexivity|]. f_equal. apply IH. auto.
Qed.

Lemma reset_loop_spec l : forall kept fuel, NoDup (kept ++ l) -> (List.length l <= fuel)%nat ->
  reset_loop handler same fuel (List.length kept) (kept ++ l) = Some (kept ++ odds l).
Proof.
  induction l as [l IH] using (well_founded_induction (Wf_nat.well_founded_ltof _ (@List.length handler))).
  unfold Wf_nat.ltof in IH. intros kept fuel HN HF.
  assert (E : nth_error (kept ++ l) (List.length kept) = nth_error l 0)
    by (rewrite nth_error_app2 by lia; rewrite Nat.sub_diag; reflexivity).
  destruct l as [|a l].
  - cbn in *. rewrite !app_nil_r. rewrite app_nil_r in E. destruct fuel; cbn [reset_loop]; rewrite E; reflexivity.
  - destruct fuel as [|fuel]; [cbn in HF; lia|]. cbn [reset_loop]. rewrite E. cbn [nth_error].
    apply NoDup_remove in HN. destruct HN as [HN HNi]. rewrite remove_app by (intros H; apply HNi, in_or_app; left; exact H).
    destruct l as [|b l].
    + rewrite app_nil_r. cbn [odds]. rewrite app_nil_r.
      assert (E' : nth_error kept (S (List.length kept)) = None) by (apply nth_error_None; lia).
      destruct fuel; cbn [reset_loop]; rewrite E'; reflexivity.
    + cbn [odds]. replace (kept ++ b :: l) with ((kept ++ [b]) ++ l) by (rewrite <- app_assoc; reflexivity).
      replace (S (List.length kept)) with (List.length (kept ++ [b])) by (rewrite app_length; cbn; lia).
      rewrite IH.
      * rewrite <- app_assoc. reflexivity.
      * cbn. lia.
      * rewrite <- app_assoc. exact HN.
      * cbn in HF. lia.
Qed.

(** reset_logger keeps the handlers at the odd positions: one handler out of two. *)
Theorem C46_kept handlers : NoDup handlers -> reset_logger handler same handlers = Some (odds handlers).
Proof. intros H. exact (reset_loop_spec handlers [] _ H (Nat.le_refl _)). Qed.

Lemma odds_length l : (2 * List.length (odds l) <= List.length l <= 2 * List.length (odds l) + 1)%nat.
Proof.
  induction l as [l IH] using (well_founded_induction (Wf_nat.well_founded_ltof _ (@List.length handler))).
  unfold Wf_nat.ltof in IH. destruct l as [|a [|b l]]; cbn [odds List.length]; try lia.
  specialize (IH l). cbn in IH. lia.
Qed.

(** All the handlers are removed if and only if there is at most one of them. *)
Theorem C46_partial handlers : NoDup handlers ->
  (reset_logger handler same handlers = Some [] <-> (List.length handlers <= 1)%nat).
Proof.
  intros H. rewrite C46_kept by exact H. pose proof (odds_length handlers). split.
  - intros E. injection E as E. rewrite E in H0. cbn in H0. lia.
  - intros HL. f_equal. destruct (odds handlers); [reflexivity|]. cbn in H0. lia.
Qed.

(** With two handlers or more, about half of them are still there. *)
Theorem C46_refuted handlers : NoDup handlers -> (2 <= List.length handlers)%nat ->
  exists l, reset_logger handler same handlers = Some l /\ List.length l = (List.length handlers / 2)%nat /\ l <> [].
Proof.
  intros H H2. exists (odds handlers). pose proof (odds_length handlers). split; [apply C46_kept; exact H|].
  split; [|destruct (odds handlers); [cbn in *; lia|discriminate]].
  apply Nat.div_unique with (r := (List.length handlers - 2 * List.length (odds handlers))%nat); lia.
Qed.
End C46.
Print Assumptions C46_kept.
Print Assumptions C46_partial.
Print Assumptions C46_refuted.

Example C46_ex : reset_logger nat Nat.eq_dec [1; 2; 3; 4; 5]%nat = Some [2; 4]%nat. Proof. reflexivity. Qed.

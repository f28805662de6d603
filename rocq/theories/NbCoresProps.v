(** Property C96: number of cores used by default. *)
From Verif Require Import PyBase StrModel StrProofs MonitorJobModel NbCoresModel.

(** *** Specification *)

(** hexadecimal text of the set of the CPUs allowed, as written by Linux: the digits (values from 0 to 15, four CPUs each), with
    commas between groups *)
Definition digit_of (d : Z) : ascii := Ascii.ascii_of_nat (Z.to_nat (if d <? 10 then 48 + d else 87 + d)).
Definition is_digit (d : Z) : Prop := 0 <= d < 16.
(** number of CPUs in a group of four *)
Definition cpus_of_digit (d : Z) : Z :=
  (if Z.testbit d 0 then 1 else 0) + (if Z.testbit d 1 then 1 else 0) + (if Z.testbit d 2 then 1 else 0) + (if Z.testbit d 3 then 1 else 0).
(** [text] is the list of digits with commas anywhere *)
Inductive mask_text : list Z -> chars -> Prop :=
| mt_nil : mask_text [] []
| mt_digit d ds t : is_digit d -> mask_text ds t -> mask_text (d :: ds) (digit_of d :: t)
| mt_comma ds t : mask_text ds t -> mask_text ds (comma :: t).

Definition tab : ascii := Ascii.ascii_of_nat 9.
(** the line of the file status *)
Definition status_line (t : chars) : chars := of_string "Cpus_allowed:" ++ tab :: t.
Definition other_line (l : chars) : Prop := ~ exists rest, l = of_string "Cpus_allowed:" ++ rest.
Definition siblings_line (n : Z) : chars := of_string "siblings" ++ tab :: of_string ": " ++ py_str n.
Definition not_siblings (l : chars) : Prop := ~ exists rest, l = of_string "siblings" ++ rest.

(** *** Lemmas *)
Lemma count_ones_step n d : 0 <= n -> is_digit d -> count_ones (16 * n + d) = count_ones n + cpus_of_digit d.
Proof.
  intros Hn Hd. unfold is_digit in Hd.
  assert (E : d = 0 \/ d = 1 \/ d = 2 \/ d = 3 \/ d = 4 \/ d = 5 \/ d = 6 \/ d = 7 \/ d = 8 \/ d = 9 \/ d = 10 \/ d = 11 \/ d = 12 \/ d = 13 \/ d = 14 \/ d = 15) by lia.
  destruct n as [|p|p]; [|clear Hn|lia].
  - repeat (destruct E as [->|E]); try subst d; reflexivity.
  - change (16 * Zpos p) with (Zpos p~0~0~0~0).
    repeat (destruct E as [->|E]); try subst d;
      match goal with |- count_ones ?x = _ + cpus_of_digit ?d => let v := eval vm_compute in (cpus_of_digit d) in change (cpus_of_digit d) with v;
        let y := eval cbn in x in change x with y end; unfold count_ones; cbn [ones]; lia.
Qed.

Lemma digit_back d : is_digit d -> hex_digit (digit_of d) = Some d /\ is_space (digit_of d) = false /\ Ascii.eqb (digit_of d) comma = false.
Proof.
  unfold is_digit. intros Hd.
  assert (E : d = 0 \/ d = 1 \/ d = 2 \/ d = 3 \/ d = 4 \/ d = 5 \/ d = 6 \/ d = 7 \/ d = 8 \/ d = 9 \/ d = 10 \/ d = 11 \/ d = 12 \/ d = 13 \/ d = 14 \/ d = 15) by lia.
  repeat (destruct E as [->|E]); try subst d; repeat split; reflexivity.
Qed.

(** the digits, in small and in capital letters, and nothing else, have a value *)
Theorem C96_digits : forall c d,
  hex_digit c = Some d <-> is_digit d /\ (c = digit_of d \/ 10 <= d /\ c = Ascii.ascii_of_nat (Z.to_nat (55 + d))).
Proof.
  intros c d. split.
  - unfold is_digit. destruct c as [[] [] [] [] [] [] [] []]; vm_compute; intros H; try discriminate H; injection H as <-;
      (split; [split; [discriminate|reflexivity]|]); first [left; reflexivity|right; split; [discriminate|reflexivity]].
  - intros (Hd & [-> | (T & ->)]); [apply digit_back, Hd|]. unfold is_digit in Hd.
    assert (E : d = 10 \/ d = 11 \/ d = 12 \/ d = 13 \/ d = 14 \/ d = 15) by lia.
    repeat (destruct E as [-> | E]); try subst d; reflexivity.
Qed.

Lemma mask_no_comma ds t : mask_text ds t -> filter (fun c => negb (Ascii.eqb c comma)) t = map digit_of ds /\ Forall is_digit ds.
Proof.
  induction 1 as [|d ds t Hd _ (IH1 & IH2)|ds t _ (IH1 & IH2)]; [split; [reflexivity|constructor]| |].
  - cbn. destruct (digit_back d Hd) as (_ & _ & ->). cbn. rewrite IH1. split; [reflexivity|constructor; assumption].
  - cbn. auto.
Qed.

Lemma hex_value_digits ds : forall acc, 0 <= acc -> Forall is_digit ds ->
  exists n, hex_value acc (map digit_of ds) = Some n /\ 0 <= n /\ count_ones n = count_ones acc + zsum (map cpus_of_digit ds).
Proof.
  induction ds as [|d ds IH]; intros acc Ha F; [exists acc; cbn; split; [reflexivity|split; lia]|].
  inversion F as [|? ? Hd F']; subst. cbn [map hex_value]. destruct (digit_back d Hd) as (-> & _).
  destruct (IH (16 * acc + d)) as (n & E & Hn & C); [unfold is_digit in Hd; lia|exact F'|]. exists n. split; [exact E|]. split; [exact Hn|].
  rewrite C, count_ones_step by assumption. unfold zsum. cbn [fold_right]. lia.
Qed.

Lemma starts_iff p s : starts p s = true <-> exists rest, s = p ++ rest.
Proof.
  split.
  - revert s. induction p as [|a p IH]; intros s; [exists s; reflexivity|]. destruct s as [|b s]; cbn; [discriminate|].
    intros H. apply andb_prop in H. destruct H as (A & B). apply Ascii.eqb_eq in A. subst b. destruct (IH _ B) as (r & ->). exists r. reflexivity.
  - intros (r & ->). induction p as [|a p IH]; [reflexivity|]. cbn. rewrite Ascii.eqb_refl. exact IH.
Qed.
Lemma starts_not p s : (~ exists rest, s = p ++ rest) -> starts p s = false.
Proof. intros H. destruct (starts p s) eqn:E; [|reflexivity]. destruct H. apply starts_iff, E. Qed.

Lemma skipn_app_len {A} (p r : list A) : skipn (List.length p) (p ++ r) = r.
Proof. induction p; [reflexivity|assumption]. Qed.

Lemma search_found before t after ds : Forall other_line before -> ds <> [] -> mask_text ds t ->
  exists text, search_status (before ++ status_line t :: after) = Some text /\ filter (fun c => negb (Ascii.eqb c comma)) text = map digit_of ds.
Proof.
  intros F N M. unfold search_status. rewrite filter_app. assert (filter (starts prefix_status) before = []) as ->.
  { induction F as [|l b H F IH]; [reflexivity|]. cbn [filter]. unfold prefix_status at 1. rewrite (starts_not _ _ H). exact IH. }
  cbn [app filter]. assert (starts prefix_status (status_line t) = true) as -> by (apply starts_iff; eexists; reflexivity).
  exists (lstrip t). split.
  - reflexivity.
  - destruct (mask_no_comma _ _ M) as (E & _). rewrite <- E. destruct M as [|d ds t Hd M|ds t M].
    + congruence.
    + destruct (digit_back d Hd) as (_ & Sp & _). cbn [lstrip]. rewrite Sp. reflexivity.
    + cbn [lstrip]. assert (is_space comma = false) as -> by reflexivity. reflexivity.
Qed.

Lemma int16_digits ds : ds <> [] -> Forall is_digit ds -> exists n, int16 (map digit_of ds) = Ok n /\ count_ones n = zsum (map cpus_of_digit ds).
Proof.
  intros N F. unfold int16. assert (strip (map digit_of ds) = map digit_of ds) as ->.
  { assert (S : Forall (fun c => is_space c = false) (map digit_of ds)).
    { rewrite Forall_forall in *. intros c Hc. apply in_map_iff in Hc. destruct Hc as (d & <- & Hd). apply digit_back, F, Hd. }
    unfold strip, rstrip. rewrite (lstrip_id (map digit_of ds)) by exact S. rewrite lstrip_id by (apply Forall_rev, S). apply rev_involutive. }
  destruct (hex_value_digits ds 0) as (n & E & _ & C); [lia|exact F|]. destruct (map digit_of ds) as [|c cs] eqn:D; [destruct ds; [congruence|discriminate]|].
  rewrite E. exists n. split; [reflexivity|]. rewrite C. reflexivity.
Qed.

Lemma words_aux_word s : forall cur, Forall (fun c => is_space c = false) s -> words_aux cur s = match rev cur ++ s with [] => [] | w => [w] end.
Proof.
  induction s as [|c s IH]; intros cur F.
  - rewrite app_nil_r. cbn [words_aux]. destruct cur as [|a cur]; [reflexivity|]. destruct (rev (a :: cur)) eqn:E; [apply (f_equal (@List.length _)) in E; rewrite rev_length in E; discriminate|reflexivity].
  - inversion F as [|? ? H F']; subst. cbn [words_aux]. rewrite H, IH by exact F'. cbn [rev]. rewrite <- app_assoc. reflexivity.
Qed.

Lemma siblings_words n : py_get (words (siblings_line n)) (-1) = Ok (py_str n).
Proof.
  assert (S : Forall (fun c => is_space c = false) (py_str n)) by (apply Forall_int_not_space, py_str_chars).
  unfold siblings_line, words. cbn [of_string list_ascii_of_string app].
  repeat (cbn [words_aux]; match goal with |- context [is_space ?c] => let b := eval vm_compute in (is_space c) in change (is_space c) with b; cbn iota end).
  rewrite words_aux_word by exact S. cbn [rev app]. destruct (py_str n) as [|c w] eqn:E; [destruct (py_str_nonnil n E)|]. reflexivity.
Qed.

Lemma find_later lines : forall n, find_siblings lines (Some n) = Ok (Some n).
Proof. induction lines as [|l lines IH]; intros n; [reflexivity|]. cbn [find_siblings]. destruct (starts (of_string "siblings") l); apply IH. Qed.

Lemma find_first before n after : Forall not_siblings before -> find_siblings (before ++ siblings_line n :: after) None = Ok (Some n).
Proof.
  induction 1 as [|l b H F IH]; cbn [app find_siblings].
  - assert (starts (of_string "siblings") (siblings_line n) = true) as -> by (apply starts_iff; eexists; reflexivity).
    rewrite siblings_words. cbn [bind]. rewrite py_int_str. cbn [bind]. apply find_later.
  - rewrite (starts_not _ _ H). exact IH.
Qed.

(** ** Theorems *)

(** On Linux the number of cores is the number of CPUs allowed for the process, except when it is twice the number of
    threads of one processor and hyperthreading is not allowed by the configuration: then it is divided by two. *)
Theorem C96_cores : forall cpu_count option_text allow before t after ds before' siblings after',
  config_flag option_text = Ok allow ->
  Forall other_line before -> mask_text ds t -> 0 < zsum (map cpus_of_digit ds) -> Forall not_siblings before' ->
  nb_cores cpu_count option_text (Some (before ++ status_line t :: after)) (Some (before' ++ siblings_line siblings :: after')) =
  let allowed := zsum (map cpus_of_digit ds) in
  Ok (if (allowed =? 2 * siblings) && negb allow then siblings else allowed).
Proof.
  intros cc opt allow before t after ds before' sib after' Hc F M Pos F'. unfold nb_cores. rewrite Hc. cbn [bind].
  assert (N : ds <> []) by (intros ->; cbn in Pos; lia).
  destruct (search_found before t after ds F N M) as (text & -> & ->).
  destruct (int16_digits ds N (proj2 (mask_no_comma _ _ M))) as (n & -> & C). cbn [bind]. rewrite C. cbv zeta.
  replace (0 <? zsum (map cpus_of_digit ds)) with true by lia. rewrite (find_first before' sib after' F'). cbn [bind].
  replace (sib * 2) with (2 * sib) by lia. destruct (Z.eqb_spec (zsum (map cpus_of_digit ds)) (2 * sib)) as [E|E]; cbn [andb]; [|reflexivity].
  destruct allow; cbn [negb]; [reflexivity|]. rewrite E. f_equal. rewrite Z.mul_comm, Z.div_mul by lia. reflexivity.
Qed.
Print Assumptions C96_cores.

(** A machine with [p] processors, [c] cores per processor and [t] threads per core, all allowed: the number of cores used by
    default (without hyperthreading) is the number of physical cores if and only if there is no hyperthreading and not two
    processors, or two processors with two threads per core. *)
Theorem C96_physical_iff : forall cpu_count before text after ds before' after' p c t,
  1 <= p -> 1 <= c -> 1 <= t ->
  Forall other_line before -> mask_text ds text -> zsum (map cpus_of_digit ds) = p * c * t -> Forall not_siblings before' ->
  nb_cores cpu_count None (Some (before ++ status_line text :: after)) (Some (before' ++ siblings_line (c * t) :: after')) = Ok (p * c) <->
  (p <> 2 /\ t = 1) \/ (p = 2 /\ t = 2).
Proof.
  intros cc before text after ds before' after' p c t Hp Hc Ht F M E F'.
  rewrite (C96_cores cc None false before text after ds before' (c * t) after' eq_refl F M) by (first [nia|assumption]). cbv zeta. rewrite E, andb_true_r.
  destruct (Z.eqb_spec (p * c * t) (2 * (c * t))) as [Q|Q].
  - assert (p = 2) by nia. subst p. split.
    + intros H. right. split; [reflexivity|]. assert (c * t = 2 * c) by congruence. nia.
    + intros [(N & _)|(_ & ->)]; [congruence|]. f_equal. lia.
  - assert (p <> 2) by (intros ->; apply Q; lia). split.
    + intros H0. left. split; [assumption|]. assert (p * c * t = p * c) by congruence. nia.
    + intros [(_ & ->)|(N & _)]; [f_equal; lia|congruence].
Qed.
Print Assumptions C96_physical_iff.

(** Two processors without hyperthreading: half of the cores are not used; one processor with hyperthreading: all threads are
    used although hyperthreading is not allowed. *)
Theorem C96_refuted :
  (exists ds text, mask_text ds text /\ zsum (map cpus_of_digit ds) = 2 * 8 * 1 /\
     nb_cores 16 None (Some [status_line text]) (Some [siblings_line (8 * 1)]) = Ok 8) /\
  (exists ds text, mask_text ds text /\ zsum (map cpus_of_digit ds) = 1 * 4 * 2 /\
     nb_cores 8 None (Some [status_line text]) (Some [siblings_line (4 * 2)]) = Ok 8).
Proof.
  split; [exists [15; 15; 15; 15], (of_string "ffff")|exists [15; 15], (of_string "ff")];
    (split; [repeat (apply (mt_digit 15); [unfold is_digit; lia|]); constructor|]); split; vm_compute; reflexivity.
Qed.
Print Assumptions C96_refuted.

(** The import fails when the file status can be read but has no line with the allowed CPUs, and when the option of the
    configuration is written in lower case. *)
Theorem C96_import_refuted :
  (forall cpu_count lines cpuinfo, Forall other_line lines -> nb_cores cpu_count None (Some lines) cpuinfo = Err NameError) /\
  (forall cpu_count status cpuinfo, nb_cores cpu_count (Some (of_string "true")) status cpuinfo = Err NameNotDefined /\
     nb_cores cpu_count (Some (of_string "false")) status cpuinfo = Err NameNotDefined).
Proof.
  split; [|intros; split; reflexivity]. intros cc lines cpuinfo F. unfold nb_cores. cbn [config_flag bind].
  assert (search_status lines = None) as ->; [|reflexivity]. unfold search_status. assert (filter (starts prefix_status) lines = []) as ->; [|reflexivity].
  induction F as [|l b H F IH]; [reflexivity|]. cbn [filter]. unfold prefix_status at 1. rewrite (starts_not _ _ H). exact IH.
Qed.
Print Assumptions C96_import_refuted.

(** Without the files (other systems) the number of CPUs is used.  The number of workers: the argument, or else the option, or
    else the number of cores, plus two below 16 cores. *)
Theorem C96_workers : forall cpu_count cpuinfo n arg opt, 1 <= n ->
  nb_cores cpu_count None None cpuinfo = Ok cpu_count /\
  nb_max_workers n (Some arg) opt = arg /\ (forall o, nb_max_workers n None (Some o) = o) /\
  nb_max_workers n None None = (if n <? 16 then n + 2 else n) /\ n <= nb_max_workers n None None <= n + 2.
Proof. intros. repeat split; try reflexivity; unfold nb_max_workers; destruct (n <? 16); lia. Qed.
Print Assumptions C96_workers.

Example C96_example :
  nb_cores 64 None (Some [of_string "Name: python"; status_line (of_string "ff,ffffffff"); of_string "Cpus_allowed_list: 0-39"])
    (Some [of_string "processor : 0"; siblings_line 20; of_string "cpu cores : 10"]) = Ok 20 /\
  mask_text [15; 15; 15; 15; 15; 15; 15; 15; 15; 15] (of_string "ff,ffffffff") /\ other_line (of_string "Name: python") /\
  not_siblings (of_string "processor : 0").
Proof.
  split; [vm_compute; reflexivity|]. split.
  - change (of_string "ff,ffffffff") with (digit_of 15 :: digit_of 15 :: comma :: repeat (digit_of 15) 8). cbn [repeat].
    repeat (first [apply mt_comma | apply mt_digit; [unfold is_digit; lia|] | constructor]).
  - split; intros (r & E); discriminate.
Qed.
Print Assumptions C96_digits.

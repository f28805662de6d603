(** C88: the monitor looks at the job started last. *)
From Coq Require Import Permutation Sorted.
From Verif Require Import PyBase StrModel MonitorJobModel.
Open Scope Z_scope.

(** ** Specification: the order of the times, field by field *)
Definition later (t u : time) : Prop :=
  t_year u < t_year t \/ (t_year u = t_year t /\ (t_month u < t_month t \/ (t_month u = t_month t /\
  (t_day u < t_day t \/ (t_day u = t_day t /\ (t_hour u < t_hour t \/ (t_hour u = t_hour t /\
  (t_min u < t_min t \/ (t_min u = t_min t /\ t_sec u < t_sec t))))))))).
Definition valid (t : time) : Prop :=
  1000 <= t_year t <= 9999 /\ 1 <= t_month t <= 12 /\ 1 <= t_day t <= 31 /\ 0 <= t_hour t <= 23 /\ 0 <= t_min t <= 59 /\ 0 <= t_sec t <= 61.

(** ** The order of the texts *)
Lemma cmp_refl s : str_compare s s = Eq.
Proof. induction s as [|a s IH]; [reflexivity|]. cbn. rewrite Nat.compare_refl. exact IH. Qed.
Lemma cmp_eq s : forall t, str_compare s t = Eq -> s = t.
Proof.
  induction s as [|a s IH]; intros [|b t] H; cbn in H; try discriminate; [reflexivity|].
  destruct (Nat.compare_spec (Ascii.nat_of_ascii a) (Ascii.nat_of_ascii b)) as [E|E|E]; try discriminate.
  f_equal; [|apply IH, H]. rewrite <- (Ascii.ascii_nat_embedding a), <- (Ascii.ascii_nat_embedding b), E. reflexivity.
Qed.
Lemma cmp_antisym s : forall t, str_compare t s = CompOpp (str_compare s t).
Proof.
  induction s as [|a s IH]; intros [|b t]; cbn; try reflexivity. rewrite (Nat.compare_antisym (Ascii.nat_of_ascii a)).
  destruct (Nat.compare (Ascii.nat_of_ascii a) (Ascii.nat_of_ascii b)); cbn; [apply IH|reflexivity|reflexivity].
Qed.
Lemma cmp_trans s : forall t u, str_compare s t <> Gt -> str_compare t u <> Gt -> str_compare s u <> Gt.
Proof.
  induction s as [|a s IH]; intros [|b t] [|c u] H1 H2; cbn in *; try congruence.
  destruct (Nat.compare_spec (Ascii.nat_of_ascii a) (Ascii.nat_of_ascii b)) as [E1|E1|E1]; [| |congruence];
  (destruct (Nat.compare_spec (Ascii.nat_of_ascii b) (Ascii.nat_of_ascii c)) as [E2|E2|E2]; [| |congruence]);
  destruct (Nat.compare_spec (Ascii.nat_of_ascii a) (Ascii.nat_of_ascii c)) as [E3|E3|E3]; try lia; try congruence.
  exact (IH t u H1 H2).
Qed.
Lemma cmp_app a : forall b c d, List.length a = List.length c ->
  str_compare (a ++ b) (c ++ d) = match str_compare a c with Eq => str_compare b d | x => x end.
Proof.
  induction a as [|x a IH]; intros b [|y c] d L; cbn in L; try discriminate; [reflexivity|]. cbn.
  destruct (Nat.compare _ _); [apply IH; lia|reflexivity|reflexivity].
Qed.
Lemma cmp_prefix p b d : str_compare (p ++ b) (p ++ d) = str_compare b d.
Proof. rewrite cmp_app by reflexivity. rewrite cmp_refl. reflexivity. Qed.

Lemma digits_length w : forall n, List.length (digits w n) = w.
Proof. induction w as [|w IH]; intros n; [reflexivity|]. cbn. rewrite IH. reflexivity. Qed.
Lemma digits_cmp w : forall a b, 0 <= a < 10 ^ Z.of_nat w -> 0 <= b < 10 ^ Z.of_nat w -> str_compare (digits w a) (digits w b) = (a ?= b).
Proof.
  induction w as [|w IH]; intros a b Ha Hb.
  - cbn in Ha, Hb. assert (a = 0) as -> by lia. assert (b = 0) as -> by lia. reflexivity.
  - assert (E10 : 10 ^ Z.of_nat (S w) = 10 * 10 ^ Z.of_nat w) by (rewrite Nat2Z.inj_succ, Z.pow_succ_r by lia; lia).
    set (p := 10 ^ Z.of_nat w) in *. assert (Hp : 0 < p) by (apply Z.pow_pos_nonneg; lia). rewrite E10 in Ha, Hb.
    assert (Da : 0 <= a / p < 10) by (split; [apply Z.div_pos; lia|apply Z.div_lt_upper_bound; lia]).
    assert (Db : 0 <= b / p < 10) by (split; [apply Z.div_pos; lia|apply Z.div_lt_upper_bound; lia]).
    cbn [digits]. fold p. cbn [str_compare]. unfold digit_char. rewrite !Ascii.nat_ascii_embedding by lia.
    pose proof (Z.div_mod a p ltac:(lia)) as Ea. pose proof (Z.div_mod b p ltac:(lia)) as Eb.
    pose proof (Z.mod_pos_bound a p Hp) as Ma. pose proof (Z.mod_pos_bound b p Hp) as Mb.
    destruct (Nat.compare_spec (48 + Z.to_nat (a / p)) (48 + Z.to_nat (b / p))) as [E|E|E].
    + rewrite IH by lia. assert (a / p = b / p) as Q by lia.
      destruct (Z.compare_spec (a mod p) (b mod p)); symmetry; [apply Z.compare_eq_iff|apply Z.compare_lt_iff|apply Z.compare_gt_iff]; nia.
    + symmetry. apply Z.compare_lt_iff. assert (a / p < b / p) by lia. nia.
    + symmetry. apply Z.compare_gt_iff. assert (b / p < a / p) by lia. nia.
Qed.

Lemma field w a b s t : 0 <= a < 10 ^ Z.of_nat w -> 0 <= b < 10 ^ Z.of_nat w ->
  str_compare (digits w a ++ s) (digits w b ++ t) = match a ?= b with Eq => str_compare s t | x => x end.
Proof. intros Ha Hb. rewrite cmp_app by (rewrite !digits_length; reflexivity). rewrite digits_cmp by assumption. reflexivity. Qed.
Lemma time_length t : List.length (time_as_str t) = 19%nat.
Proof. unfold time_as_str. rewrite !app_length, !digits_length. reflexivity. Qed.
Lemma time_cmp t u : valid t -> valid u -> later t u -> str_compare (time_as_str u) (time_as_str t) = Lt.
Proof.
  intros (V1 & V2 & V3 & V4 & V5 & V6) (W1 & W2 & W3 & W4 & W5 & W6) L. unfold time_as_str.
  rewrite <- (app_nil_r (digits 2 (t_sec u))), <- (app_nil_r (digits 2 (t_sec t))).
  do 6 (rewrite field by (cbn; lia); rewrite ?cmp_prefix). cbn [str_compare].
  unfold later in L. repeat match goal with |- match ?x ?= ?y with _ => _ end = _ => destruct (Z.compare_spec x y) as [?E|?E|?E] end; try reflexivity; lia.
Qed.

(** ** The choice *)
Lemma insert_in x l y : In y (insert_str x l) <-> x = y \/ In y l.
Proof.
  induction l as [|z l IH]; cbn [insert_str]; [reflexivity|]. destruct (str_le x z); [reflexivity|]. cbn [In]. rewrite IH. tauto.
Qed.
Lemma sorted_in l y : In y (sorted_str l) <-> In y l.
Proof. induction l as [|x l IH]; [reflexivity|]. cbn [sorted_str fold_right]. fold (sorted_str l). rewrite insert_in, IH. reflexivity. Qed.
Definition le_str (s t : chars) : Prop := str_compare s t <> Gt.
Lemma insert_sorted x l : StronglySorted le_str l -> StronglySorted le_str (insert_str x l).
Proof.
  induction 1 as [|y l Hs IH Hy]; cbn [insert_str]; [repeat constructor|]. unfold str_le. destruct (str_compare x y) eqn:C.
  1,2: constructor; [constructor; assumption|]; assert (le_str x y) by (unfold le_str; congruence);
    constructor; [assumption|]; rewrite Forall_forall in *; intros z Hz; exact (cmp_trans _ _ _ H (Hy z Hz)).
  constructor; [exact IH|]. rewrite Forall_forall in *. intros z Hz. apply insert_in in Hz. destruct Hz as [<-|Hz]; [|auto].
  unfold le_str. rewrite cmp_antisym, C. discriminate.
Qed.
Lemma sorted_sorted l : StronglySorted le_str (sorted_str l).
Proof. induction l as [|x l IH]; [constructor|]. cbn [sorted_str fold_right]. apply insert_sorted, IH. Qed.
Lemma sorted_last l m r : StronglySorted le_str l -> rev l = m :: r -> forall y, In y l -> le_str y m.
Proof.
  intros S E. assert (l = rev r ++ [m]) as -> by (rewrite <- (rev_involutive l), E; reflexivity). clear E.
  revert S. generalize (rev r) as a. induction a as [|x a IH]; intros S y Y; cbn [app] in *.
  - destruct Y as [<-|[]]. unfold le_str. rewrite cmp_refl. discriminate.
  - inversion S as [|? ? S1 S2]; subst. destruct Y as [<-|Y]; [|exact (IH S1 y Y)]. rewrite Forall_forall in S2. apply S2, in_app_iff. right. left. reflexivity.
Qed.
Lemma starts_app p s : starts p (p ++ s) = true.
Proof. induction p as [|a p IH]; [reflexivity|]. cbn. rewrite Ascii.eqb_refl. exact IH. Qed.

Lemma starts_spec p s : starts p s = true <-> exists rest, s = p ++ rest.
Proof.
  split; [|intros (rest & ->); apply starts_app]. revert s. induction p as [|a p IH]; intros s; [exists s; reflexivity|].
  destruct s as [|b s]; cbn; [discriminate|]. intros H. apply andb_prop in H. destruct H as (A & B). apply Ascii.eqb_eq in A. subst b.
  destruct (IH _ B) as (r & ->). exists r. reflexivity.
Qed.
Lemma starts_false p s : (~ exists rest, s = p ++ rest) -> starts p s = false.
Proof. intros H. destruct (starts p s) eqn:E; [|reflexivity]. destruct H. apply starts_spec, E. Qed.

(** the name of an entry starts with "job_" *)
Definition job_entry (e : chars) : Prop := exists rest, e = of_string "job_" ++ rest.

(** ** Theorems *)

(** The job chosen is an entry of the directory whose name starts with "job_", and the largest one for the order of the
    names; nothing is chosen only when there is no such entry. *)
Theorem C88_largest_name : forall entries,
  match chosen_job entries with
  | Some j => In j entries /\ job_entry j /\ forall e, In e entries -> job_entry e -> str_compare e j <> Gt
  | None => forall e, In e entries -> ~ job_entry e
  end.
Proof.
  intros entries. unfold chosen_job. set (jobs := filter (starts (of_string "job_")) entries).
  assert (F : forall e, In e (sorted_str jobs) <-> In e entries /\ starts (of_string "job_") e = true).
  { intros e. rewrite sorted_in. unfold jobs. apply filter_In. }
  destruct (rev (sorted_str jobs)) as [|j r] eqn:E.
  - assert (sorted_str jobs = []) as Z by (rewrite <- (rev_involutive (sorted_str jobs)), E; reflexivity). rewrite Z in F.
    intros e I S. apply starts_spec in S. destruct (proj2 (F e) (conj I S)).
  - assert (J : In j (sorted_str jobs)) by (apply in_rev; rewrite E; left; reflexivity). apply F in J. destruct J as (J1 & J2).
    split; [exact J1|]. split; [apply starts_spec, J2|]. intros e I S. apply starts_spec in S. apply (sorted_last _ _ _ (sorted_sorted jobs) E). apply F. split; assumption.
Qed.
Print Assumptions C88_largest_name.

(** In a directory with jobs started at different seconds, the job chosen is the one started last, whatever the process
    numbers (and the other entries, which do not start with "job_"). *)
Theorem C88_last_started_partial : forall (jobs : list (time * Z * chars)) others t pid index,
  (forall e, In e others -> ~ job_entry e) ->
  Forall (fun '(u, _, _) => valid u) jobs -> In (t, pid, index) jobs ->
  (forall u pid' index', In (u, pid', index') jobs -> (u, pid', index') <> (t, pid, index) -> later t u) ->
  forall entries, Permutation entries (others ++ map (fun '(u, p, i) => job_dir u p i) jobs) ->
  chosen_job entries = Some (job_dir t pid index).
Proof.
  intros jobs others t pid index O V I L entries P.
  pose proof (C88_largest_name entries) as C.
  assert (J0 : forall u p i, job_entry (job_dir u p i)) by (intros; eexists; reflexivity).
  assert (I0 : In (job_dir t pid index) entries).
  { apply (Permutation_in _ (Permutation_sym P)), in_app_iff. right. apply (in_map (fun '(u, p, i) => job_dir u p i)) in I. exact I. }
  destruct (chosen_job entries) as [j|].
  - destruct C as (C1 & C2 & C3). apply (Permutation_in _ P), in_app_iff in C1. destruct C1 as [C1|C1]; [destruct (O _ C1 C2)|].
    apply in_map_iff in C1. destruct C1 as (((u & p) & i) & <- & C1). pose proof (C3 _ I0 (J0 _ _ _)) as G.
    destruct (list_eq_dec Ascii.ascii_dec (job_dir u p i) (job_dir t pid index)) as [E|N]; [rewrite E; reflexivity|]. exfalso. apply G.
    assert (T : later t u) by (apply (L u p i C1); intros E; injection E as -> -> ->; congruence).
    rewrite Forall_forall in V. pose proof (V _ I) as Vt. pose proof (V _ C1) as Vu. cbn in Vt, Vu.
    unfold job_dir. rewrite cmp_prefix, cmp_app by (rewrite !time_length; reflexivity).
    rewrite cmp_antisym, (time_cmp t u Vt Vu T). reflexivity.
  - destruct (C _ I0 (J0 _ _ _)).
Qed.
Print Assumptions C88_last_started_partial.

(** Jobs started in the same second are ordered by the texts of their process numbers: the job of the process 999 is chosen
    and not the one of the process 1000, whichever started first. *)
Theorem C88_same_second_refuted : forall t,
  chosen_job [job_dir t 999 []; job_dir t 1000 []] = Some (job_dir t 999 []) /\
  chosen_job [job_dir t 1000 []; job_dir t 999 []] = Some (job_dir t 999 []).
Proof.
  intros t. unfold chosen_job. cbn [filter]. unfold job_dir; rewrite !starts_app. cbn [sorted_str fold_right insert_str].
  unfold str_le. rewrite !cmp_prefix. cbn. split; reflexivity.
Qed.
Print Assumptions C88_same_second_refuted.

(** Any other entry which starts with "job_" and a letter hides all the jobs. *)
Theorem C88_other_entry_refuted : forall t pid index, valid t ->
  chosen_job [of_string "job_notes.txt"; job_dir t pid index] = Some (of_string "job_notes.txt").
Proof.
  intros t pid index V.
  unfold chosen_job. cbn [filter]. unfold job_dir at 1 2. rewrite starts_app. change (starts (of_string "job_") (of_string "job_notes.txt")) with true. cbn iota.
  cbn [sorted_str fold_right insert_str]. unfold str_le.
  change (of_string "job_notes.txt") with (of_string "job_" ++ of_string "notes.txt"). rewrite cmp_prefix.
  assert (E : str_compare (of_string "notes.txt") (time_as_str t ++ of_string "_" ++ py_str pid ++ index) = Gt).
  { unfold time_as_str. cbn [digits]. cbn [app of_string list_ascii_of_string str_compare]. unfold digit_char at 1. destruct V as (V & _).
    set (d := t_year t / 10 ^ Z.of_nat 3). assert (0 <= d < 10).
    { unfold d. change (10 ^ Z.of_nat 3) with 1000. split; [apply Z.div_pos; lia|apply Z.div_lt_upper_bound; lia]. }
    rewrite Ascii.nat_ascii_embedding by lia. assert (N : Ascii.nat_of_ascii "n" = 110%nat) by reflexivity. rewrite N.
    assert (G : (110 ?= 48 + Z.to_nat d)%nat = Gt) by (apply Nat.compare_gt_iff; lia). rewrite G. reflexivity. }
  rewrite E. reflexivity.
Qed.
Print Assumptions C88_other_entry_refuted.

(** Example: three jobs and other entries, in the order of a file system *)
Example C88_example :
  let t1 := mk_time 2023 12 31 23 59 59 in let t2 := mk_time 2024 1 2 3 4 5 in let t3 := mk_time 2024 1 2 3 4 12 in
  valid t1 /\ valid t2 /\ valid t3 /\ later t3 t1 /\ later t3 t2 /\
  chosen_job [job_dir t2 99999 []; of_string "log_x.txt"; job_dir t3 12 []; job_dir t1 5 []; of_string "piv_0.h5"] = Some (job_dir t3 12 []) /\
  job_dir t3 12 [] = of_string "job_2024-01-02_03-04-12_12".
Proof.
  cbn zeta. unfold valid, later. cbn [t_year t_month t_day t_hour t_min t_sec].
  repeat (split; [lia|]). split; vm_compute; reflexivity.
Qed.

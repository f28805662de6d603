(** Proofs on the parsing of the log files. *)
From Coq Require Import Decimal DecimalString DecimalZ QArith.
From Verif Require Import PyBase StrModel StrProofs NameModel NameProps LogModel.
Open Scope Z_scope.

Definition no_space (s : chars) : Prop := Forall (fun c => is_space c = false) s.

(** ** substrings *)
Lemma startswith_spec p s : startswith p s = true <-> exists b, s = p ++ b.
Proof.
  revert s. induction p as [|a p IH]; intros s; cbn [startswith].
  - split; [exists s; reflexivity|reflexivity].
  - destruct s as [|b s].
    + split; [discriminate|]. intros (c & H). discriminate.
    + rewrite andb_true_iff, Ascii.eqb_eq, IH. split.
      * intros (-> & c & ->). exists c. reflexivity.
      * intros (c & H). cbn in H. injection H as -> ->. split; [reflexivity|exists c; reflexivity].
Qed.

Lemma contains_spec p s : contains p s = true <-> exists a b, s = a ++ p ++ b.
Proof.
  induction s as [|c s IH]; cbn [contains]; rewrite orb_true_iff, startswith_spec.
  - split.
    + intros [(b & H)|H]; [|discriminate]. exists [], b. exact H.
    + intros (a & b & H). left. destruct a; [|discriminate]. exists b. exact H.
  - rewrite IH. split.
    + intros [(b & H)|(a & b & H)]; [exists [], b; exact H|]. exists (c :: a), b. cbn. congruence.
    + intros (a & b & H). destruct a as [|x a]; [left; exists b; exact H|].
      cbn in H. injection H as -> ->. right. exists a, b. reflexivity.
Qed.

Lemma contains_false p s : (~ exists a b, s = a ++ p ++ b) -> contains p s = false.
Proof. intros H. destruct (contains p s) eqn:E; [|reflexivity]. exfalso. apply H, contains_spec. exact E. Qed.

(** ** words *)
Lemma split_ws_word w sp rest : no_space w -> w <> [] -> is_space sp = true ->
  split_ws (w ++ sp :: rest) = w :: split_ws rest.
Proof.
  intros Hw Hn Hsp. induction Hw as [|c w Hc Hw IH]; [congruence|].
  cbn [app split_ws]. rewrite Hc. destruct w as [|d w].
  - cbn [app]. rewrite Hsp. cbn [split_ws]. rewrite Hsp. reflexivity.
  - cbn [app]. inversion Hw; subst. rewrite H1. cbn [app] in IH. rewrite IH by congruence. reflexivity.
Qed.

Lemma split_ws_end w : no_space w -> w <> [] -> split_ws w = [w].
Proof.
  intros Hw Hn. induction Hw as [|c w Hc Hw IH]; [congruence|].
  cbn [split_ws]. rewrite Hc. destruct w as [|d w]; [reflexivity|].
  inversion Hw; subst. rewrite H1. rewrite IH by congruence. reflexivity.
Qed.

Lemma split_ws_spaces n s : split_ws (repeat " "%char n ++ s) = split_ws s.
Proof. induction n as [|n IH]; [reflexivity|]. exact IH. Qed.

Lemma split_ws_sp sp s : is_space sp = true -> split_ws (sp :: s) = split_ws s.
Proof. intros H. cbn [split_ws]. rewrite H. reflexivity. Qed.

Lemma split_ws_app x sp y : is_space sp = true -> split_ws (x ++ sp :: y) = split_ws x ++ split_ws y.
Proof.
  intros Hsp. induction x as [|c x IH].
  - cbn [app]. apply split_ws_sp. exact Hsp.
  - cbn [app split_ws]. destruct (is_space c) eqn:Hc; [exact IH|].
    destruct x as [|d x].
    + cbn [app]. rewrite Hsp. cbn [split_ws]. rewrite Hsp. reflexivity.
    + cbn [app] in *. destruct (is_space d) eqn:Hd; [cbn [app]; f_equal; exact IH|].
      rewrite IH. destruct (split_ws (d :: x)) as [|w ws] eqn:E; [|reflexivity].
      exfalso. cbn [split_ws] in E. rewrite Hd in E. destruct x as [|e x]; [discriminate|].
      destruct (is_space e); [discriminate|]. destruct (split_ws (e :: x)); discriminate.
Qed.

(** a word surrounded by spaces in the text searched for is a word of the line *)
Lemma contains_word p s x w y :
  contains p s = true -> p = x ++ " "%char :: w ++ " "%char :: y -> no_space w -> w <> [] -> In w (split_ws s).
Proof.
  intros H -> Hw Hn. apply contains_spec in H. destruct H as (a & b & ->).
  replace (a ++ (x ++ " "%char :: w ++ " "%char :: y) ++ b)
    with ((a ++ x) ++ " "%char :: w ++ " "%char :: (y ++ b))
    by (rewrite <- !app_assoc; cbn [app]; rewrite <- !app_assoc; reflexivity).
  rewrite split_ws_app by reflexivity. rewrite split_ws_word by (try assumption; reflexivity).
  apply in_or_app. right. left. reflexivity.
Qed.

(** ** numbers *)
Lemma digits_value_str n : 0 <= n -> digits_value (py_str n) = Some n.
Proof.
  intros Hn. unfold digits_value. destruct (py_str n) as [|c s] eqn:E; [exfalso; exact (py_str_nonnil n E)|].
  rewrite <- E. unfold py_str, of_string. rewrite string_of_list_ascii_of_string.
  destruct (Z.to_int n) as [u|u] eqn:EI.
  - assert (u <> Nil) as Hu by (destruct (to_int_cases n) as [(v & Hv & Hv')|(v & Hv & Hv')]; congruence).
    cbn [NilZero.string_of_int]. rewrite string_of_uint_nonnil by exact Hu. rewrite NilEmpty.usu.
    f_equal. change (Z.of_uint u) with (Z.of_int (Decimal.Pos u)). rewrite <- EI. apply of_to.
  - exfalso. destruct n; cbn in EI; try discriminate; lia.
Qed.

(** the decimals, for the numbers of decimals used by the code (2 and 3) *)
Definition decimals_ok (k : nat) (r : Z) : bool :=
  let b := pad_zeros k (py_str r) in
  (List.length b =? k)%nat && (match digits_value b with Some x => x =? r | None => false end).

Lemma decimals_2_3 k r : k = 2%nat \/ k = 3%nat -> 0 <= r < 10 ^ Z.of_nat k -> decimals_ok k r = true.
Proof.
  intros Hk Hr.
  assert (H : forallb (decimals_ok k) (map Z.of_nat (seq 0 (Z.to_nat (10 ^ Z.of_nat k)))) = true)
    by (destruct Hk as [-> | ->]; vm_compute; reflexivity).
  rewrite forallb_forall in H. apply H. apply in_map_iff. exists (Z.to_nat r). split; [lia|].
  apply in_seq. lia.
Qed.

Definition float_char (c : ascii) : bool := int_char c || Ascii.eqb c "."%char.

Lemma fmt_decimal_chars k m : Forall (fun c => float_char c = true) (fmt_decimal k m).
Proof.
  assert (HP : forall n, Forall (fun c => float_char c = true) (py_str n)).
  { intros n. eapply Forall_impl; [|apply py_str_chars]. intros c Hc. unfold float_char. rewrite Hc. reflexivity. }
  unfold fmt_decimal. apply Forall_app. split; [destruct (m <? 0); repeat constructor|].
  apply Forall_app. split; [apply HP|]. constructor; [reflexivity|].
  unfold pad_zeros. apply Forall_app. split; [|apply HP].
  apply Forall_forall. intros c Hc. apply repeat_spec in Hc. subst c. reflexivity.
Qed.

Lemma float_char_not_space c : float_char c = true -> is_space c = false.
Proof. destruct c as [[] [] [] [] [] [] [] []]; vm_compute; congruence. Qed.

Lemma fmt_decimal_no_space k m : no_space (fmt_decimal k m).
Proof. eapply Forall_impl; [|apply (fmt_decimal_chars k m)]. intros c. apply float_char_not_space. Qed.

Lemma fmt_decimal_nonnil k m : fmt_decimal k m <> [].
Proof.
  unfold fmt_decimal. intros H. apply app_eq_nil in H. destruct H as [_ H]. apply app_eq_nil in H. destruct H as [_ H]. discriminate.
Qed.

Lemma no_dot_str n : Forall (fun c => Ascii.eqb c "." = false) (py_str n).
Proof. eapply Forall_impl; [|apply (py_str_chars n)]. intros c Hc. apply int_char_neq; [exact Hc|reflexivity]. Qed.

Lemma no_dot_pad k n : Forall (fun c => Ascii.eqb c "." = false) (pad_zeros k (py_str n)).
Proof.
  unfold pad_zeros. apply Forall_app. split; [|apply no_dot_str].
  apply Forall_forall. intros c Hc. apply repeat_spec in Hc. subst c. reflexivity.
Qed.

Lemma float_abs_fmt k m : k = 2%nat \/ k = 3%nat -> 0 <= m ->
  float_abs (py_str (m / 10 ^ Z.of_nat k) ++ "."%char :: pad_zeros k (py_str (m mod 10 ^ Z.of_nat k))) = Some (k, m).
Proof.
  intros Hk Hm. assert (Hp : 0 < 10 ^ Z.of_nat k) by (apply Z.pow_pos_nonneg; lia).
  pose proof (Z.mod_pos_bound m _ Hp) as Hr. pose proof (Z.div_pos m _ Hm Hp) as Hq.
  pose proof (decimals_2_3 k _ Hk Hr) as HD. unfold decimals_ok in HD. apply andb_true_iff in HD. destruct HD as [HL HV].
  apply Nat.eqb_eq in HL.
  unfold float_abs. rewrite split_on_app by apply no_dot_str. rewrite split_on_none by apply no_dot_pad.
  rewrite digits_value_str by exact Hq.
  destruct (digits_value (pad_zeros k _)) as [x|]; [|discriminate]. apply Z.eqb_eq in HV. subst x.
  destruct (py_str (m / 10 ^ Z.of_nat k) ++ pad_zeros k (py_str (m mod 10 ^ Z.of_nat k))) eqn:E.
  - apply app_eq_nil in E. destruct E as [E _]. exfalso. exact (py_str_nonnil _ E).
  - unfold zlen. rewrite HL. f_equal. f_equal. rewrite (Z.div_mod m (10 ^ Z.of_nat k)) at 3 by lia. lia.
Qed.

Lemma strip_no_space s : no_space s -> strip s = s.
Proof.
  intros H. pose proof (strip_spaces [] s [] (Forall_nil _) (Forall_nil _) H) as E.
  cbn [app] in E. rewrite app_nil_r in E. exact E.
Qed.

Lemma py_float_fmt k m : k = 2%nat \/ k = 3%nat -> py_float (fmt_decimal k m) = Ok (decimal k m).
Proof.
  intros Hk. unfold py_float. rewrite strip_no_space by apply fmt_decimal_no_space.
  unfold fmt_decimal. destruct (m <? 0) eqn:Em.
  - cbn [app]. rewrite Ascii.eqb_refl. rewrite float_abs_fmt by (try exact Hk; lia). replace (- Z.abs m) with m by lia.
    destruct Hk as [-> | ->]; reflexivity.
  - cbn [app]. replace (Z.abs m) with m by lia.
    pose proof (float_abs_fmt k m Hk ltac:(lia)) as E.
    assert (Hq : 0 <= m / 10 ^ Z.of_nat k) by (apply Z.div_pos; [lia|apply Z.pow_pos_nonneg; lia]).
    destruct (py_str (m / 10 ^ Z.of_nat k)) as [|c s] eqn:Es; [exfalso; exact (py_str_nonnil _ Es)|].
    assert (Hc : c <> "-"%char).
    { destruct (P_digits 0 _ Hq) as [HP _]. unfold P, pad_zeros in HP. cbn in HP. rewrite Es in HP. inversion HP; subst.
      apply digit_not_dash. assumption. }
    cbn [app] in *. destruct (Ascii.eqb_spec c "-"%char) as [->|_]; [congruence|].
    rewrite E. destruct Hk as [-> | ->]; reflexivity.
Qed.

(** ** the words of the lines *)
Definition word (w : chars) : Prop := no_space w /\ w <> [].
Definition spaced (l : list chars) : chars := flat_map (fun w => w ++ [" "%char]) l.

Lemma split_ws_spaced l rest : Forall word l -> split_ws (spaced l ++ rest) = l ++ split_ws rest.
Proof.
  induction 1 as [|w l (Hw & Hn) _ IH]; [reflexivity|].
  cbn [spaced flat_map]. rewrite <- !app_assoc. cbn [app].
  rewrite split_ws_word by (try assumption; reflexivity). f_equal. exact IH.
Qed.

Lemma slice_word c (s m : chars) : m <> [] -> py_slice (c :: s ++ m) 1 (- zlen m) = s.
Proof.
  intros Hm. unfold py_slice, norm_bound, zlen. cbn [List.length]. rewrite app_length.
  assert (0 < List.length m)%nat by (destruct m; [congruence|cbn; lia]).
  replace (1 <? 0) with false by reflexivity. replace (- Z.of_nat (List.length m) <? 0) with true by lia.
  replace (Z.to_nat (Z.min 1 _)) with 1%nat by lia.
  cbn [skipn].
  match goal with |- firstn ?n _ = _ => replace n with (List.length s + 0)%nat by lia end.
  rewrite firstn_app_2. cbn. apply app_nil_r.
Qed.

(** a word of the line, among words of which only one is unknown *)
Lemma two_words p s x1 w1 y1 x2 w2 y2 :
  p = x1 ++ " "%char :: w1 ++ " "%char :: y1 -> p = x2 ++ " "%char :: w2 ++ " "%char :: y2 ->
  word w1 -> word w2 -> (In w1 (split_ws s) -> In w2 (split_ws s) -> False) -> contains p s = false.
Proof.
  intros E1 E2 (H1 & N1) (H2 & N2) H. destruct (contains p s) eqn:E; [|reflexivity]. exfalso.
  apply H; [eapply contains_word; [exact E|exact E1| |]; assumption|eapply contains_word; [exact E|exact E2| |]; assumption].
Qed.

Ltac const_word := split; [repeat constructor|discriminate].

Lemma no_space_app a b : no_space a -> no_space b -> no_space (a ++ b).
Proof. intros. apply Forall_app. split; assumption. Qed.

Definition mb : chars := of_string "Mb" ++ endc.

Lemma split_mem sp (l : list chars) m : Forall word l ->
  split_ws (spaced l ++ repeat " "%char sp ++ fmt_decimal 3 m ++ of_string " Mb" ++ endc ++ [newline])
  = l ++ [fmt_decimal 3 m; mb].
Proof.
  intros Hl. rewrite split_ws_spaced by exact Hl. f_equal. rewrite split_ws_spaces.
  change (of_string " Mb" ++ endc ++ [newline]) with (" "%char :: mb ++ [newline]).
  rewrite split_ws_word; [|apply fmt_decimal_no_space|apply fmt_decimal_nonnil|reflexivity].
  f_equal. 
Qed.

Lemma fmt_not_word k m w : word w -> existsb (fun c => negb (float_char c)) w = true -> fmt_decimal k m <> w.
Proof.
  intros _ H E. apply existsb_exists in H. destruct H as (c & Hc & Hf).
  pose proof (fmt_decimal_chars k m) as HF. rewrite E in HF. rewrite Forall_forall in HF. rewrite (HF c Hc) in Hf. discriminate.
Qed.

(** the line without its colour *)
Definition launch_words (t : Z) (name key : chars) : list chars :=
  [fmt_decimal 2 t; of_string "s."; of_string "Launch"; of_string "work"; name;
   "("%char :: key ++ of_string ")."; of_string "mem"; of_string "usage:"].

Lemma launch_words_ok t name key : word name -> no_space key -> Forall word (launch_words t name key).
Proof.
  intros Hn Hk. repeat constructor; try discriminate; try apply fmt_decimal_no_space; try apply fmt_decimal_nonnil; try apply Hn.
  apply no_space_app; [exact Hk|]. repeat constructor.
Qed.

Lemma launch_line t name key m : exists sp,
  line_of (Launch t name key m)
  = okgreen ++ (spaced (launch_words t name key) ++ repeat " "%char sp ++ fmt_decimal 3 m ++ of_string " Mb" ++ endc ++ [newline]).
Proof.
  eexists. cbn [line_of]. unfold get_txt_memory_usage, ljust. cbn [launch_words spaced flat_map].
  rewrite <- !app_assoc. f_equal. f_equal. cbn [of_string list_ascii_of_string app]. repeat (rewrite <- !app_assoc; cbn [app]).
  reflexivity.
Qed.

Definition date_words (date : chars) (l : list chars) : list chars := (date ++ [":"%char]) :: l.
Definition start_words date := date_words date [of_string "starting"; of_string "execution."; of_string "mem"; of_string "usage:"].
Definition stop_words date := date_words date [of_string "end"; of_string "of"; of_string "`compute`."; of_string "mem"; of_string "usage:"].

Lemma start_words_ok date : no_space date -> Forall word (start_words date).
Proof.
  intros Hd. constructor.
  - split; [apply no_space_app; [exact Hd|repeat constructor]|destruct date; discriminate].
  - repeat constructor; discriminate.
Qed.
Lemma stop_words_ok date : no_space date -> Forall word (stop_words date).
Proof.
  intros Hd. constructor.
  - split; [apply no_space_app; [exact Hd|repeat constructor]|destruct date; discriminate].
  - repeat constructor; discriminate.
Qed.

Lemma start_line date m : exists sp,
  line_of (Start date m)
  = okgreen ++ (spaced (start_words date) ++ repeat " "%char sp ++ fmt_decimal 3 m ++ of_string " Mb" ++ endc ++ [newline]).
Proof.
  eexists. cbn [line_of]. unfold get_txt_memory_usage, ljust. cbn [start_words date_words spaced flat_map].
  rewrite <- !app_assoc. f_equal. f_equal. cbn [of_string list_ascii_of_string app]. repeat (rewrite <- !app_assoc; cbn [app]).
  reflexivity.
Qed.
Lemma stop_line date m : exists sp,
  line_of (Stop date m)
  = okgreen ++ (spaced (stop_words date) ++ repeat " "%char sp ++ fmt_decimal 3 m ++ of_string " Mb" ++ endc ++ [newline]).
Proof.
  eexists. cbn [line_of]. unfold get_txt_memory_usage, ljust. cbn [stop_words date_words spaced flat_map].
  rewrite <- !app_assoc. f_equal. f_equal. cbn [of_string list_ascii_of_string app]. repeat (rewrite <- !app_assoc; cbn [app]).
  reflexivity.
Qed.

Definition done_words name key d : list chars :=
  [of_string "work"; name; "("%char :: key ++ of_string ")"; of_string "done"; of_string "in"; fmt_decimal 3 d].

Lemma done_line name key d :
  line_of (End name key d) = spaced (done_words name key d) ++ of_string "s" ++ [newline].
Proof.
  cbn [line_of done_words spaced flat_map].
  cbn [of_string list_ascii_of_string app]. repeat (rewrite <- !app_assoc; cbn [app]). reflexivity.
Qed.

Lemma done_words_ok name key d : word name -> no_space key -> Forall word (done_words name key d).
Proof.
  intros Hn Hk. repeat constructor; try discriminate; try apply fmt_decimal_no_space; try apply fmt_decimal_nonnil; try apply Hn.
  apply no_space_app; [exact Hk|]. repeat constructor.
Qed.

Lemma split_done name key d : word name -> no_space key ->
  split_ws (line_of (End name key d)) = done_words name key d ++ [of_string "s"].
Proof. intros Hn Hk. rewrite done_line, split_ws_spaced by (apply done_words_ok; assumption). reflexivity. Qed.

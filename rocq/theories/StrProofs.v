(** Proofs about printing and parsing. *)
From Coq Require Import Decimal DecimalString DecimalFacts DecimalZ DecimalPos DecimalN FinFun.
From Verif Require Import PyBase StrModel.

(** characters used in a printed integer *)
Definition int_char (c : ascii) : bool :=
  (Ascii.eqb c "-"%char) || ((48 <=? Ascii.nat_of_ascii c)%nat && (Ascii.nat_of_ascii c <=? 57)%nat).

Lemma int_char_uint u : Forall (fun c => int_char c = true) (of_string (NilEmpty.string_of_uint u)).
Proof. induction u; cbn; constructor; try exact IHu; reflexivity. Qed.

Lemma to_int_cases n :
  (exists u, u <> Nil /\ Z.to_int n = Pos u) \/ (exists u, u <> Nil /\ Z.to_int n = Neg u).
Proof.
  destruct n as [|p|p]; cbn.
  - left. exists Decimal.zero. split; [discriminate|reflexivity].
  - left. exists (Pos.to_uint p). split; [apply Unsigned.to_uint_nonnil|reflexivity].
  - right. exists (Pos.to_uint p). split; [apply Unsigned.to_uint_nonnil|reflexivity].
Qed.

Lemma string_of_uint_nonnil u : u <> Nil -> NilZero.string_of_uint u = NilEmpty.string_of_uint u.
Proof. destruct u; try reflexivity. congruence. Qed.

Lemma py_str_chars n : Forall (fun c => int_char c = true) (py_str n).
Proof.
  unfold py_str. destruct (to_int_cases n) as [(u & Hu & ->)|(u & Hu & ->)]; cbn [NilZero.string_of_int];
    rewrite string_of_uint_nonnil by exact Hu.
  - apply int_char_uint.
  - cbn. constructor; [reflexivity|]. apply int_char_uint.
Qed.

Lemma py_str_nonnil n : py_str n <> [].
Proof.
  unfold py_str. destruct (to_int_cases n) as [(u & Hu & ->)|(u & Hu & ->)]; cbn [NilZero.string_of_int].
  - rewrite string_of_uint_nonnil by exact Hu. destruct u; cbn; congruence.
  - cbn. congruence.
Qed.

Lemma int_char_not_space c : int_char c = true -> is_space c = false.
Proof. destruct c as [[] [] [] [] [] [] [] []]; vm_compute; congruence. Qed.

Lemma int_char_neq c d : int_char c = true -> int_char d = false -> Ascii.eqb c d = false.
Proof.
  intros H1 H2. destruct (Ascii.eqb_spec c d) as [->|]; [congruence|reflexivity].
Qed.

Lemma lstrip_id s : Forall (fun c => is_space c = false) s -> lstrip s = s.
Proof. destruct 1 as [|c s Hc _]; cbn; [reflexivity|]. rewrite Hc. reflexivity. Qed.

Lemma lstrip_spaces sp s : Forall (fun c => is_space c = true) sp -> lstrip (sp ++ s) = lstrip s.
Proof. induction 1 as [|c sp Hc _ IH]; cbn; [reflexivity|]. rewrite Hc. exact IH. Qed.

Lemma lstrip_cons c s : is_space c = false -> lstrip (c :: s) = c :: s.
Proof. cbn. intros ->. reflexivity. Qed.

(** [strip] of a text surrounded by spaces, whose first and last characters are not spaces *)
Lemma strip_spaces sp1 s sp2 :
  Forall (fun c => is_space c = true) sp1 -> Forall (fun c => is_space c = true) sp2 ->
  Forall (fun c => is_space c = false) s -> strip (sp1 ++ s ++ sp2) = s.
Proof.
  intros H1 H2 Hs. unfold strip. rewrite lstrip_spaces by exact H1.
  unfold rstrip. destruct s as [|c s].
  - cbn. rewrite <- (app_nil_r sp2), lstrip_spaces by exact H2. reflexivity.
  - inversion Hs; subst. rewrite <- app_comm_cons, lstrip_cons by assumption.
    rewrite app_comm_cons, rev_app_distr, lstrip_spaces by (apply Forall_rev; exact H2).
    rewrite lstrip_id by (apply Forall_rev; exact Hs). apply rev_involutive.
Qed.

Lemma strip_ends c s d sp :
  is_space c = false -> is_space d = false -> Forall (fun c => is_space c = true) sp ->
  strip (c :: s ++ d :: sp) = c :: s ++ [d].
Proof.
  intros Hc Hd Hsp. unfold strip. rewrite lstrip_cons by exact Hc. unfold rstrip.
  replace (c :: s ++ d :: sp) with ((c :: s ++ [d]) ++ sp) by (cbn; rewrite <- app_assoc; reflexivity).
  rewrite rev_app_distr, lstrip_spaces by (apply Forall_rev; exact Hsp).
  rewrite app_comm_cons, rev_app_distr. cbn [rev app]. rewrite lstrip_cons by exact Hd.
  cbn [rev app]. rewrite rev_app_distr, rev_involutive. reflexivity.
Qed.

Lemma Forall_int_not_space s :
  Forall (fun c => int_char c = true) s -> Forall (fun c => is_space c = false) s.
Proof. apply Forall_impl. apply int_char_not_space. Qed.

Lemma py_int_str_spaces sp1 n sp2 :
  Forall (fun c => is_space c = true) sp1 -> Forall (fun c => is_space c = true) sp2 ->
  py_int (sp1 ++ py_str n ++ sp2) = Ok n.
Proof.
  intros H1 H2. unfold py_int. rewrite strip_spaces;
    [|exact H1|exact H2|apply Forall_int_not_space, py_str_chars].
  unfold py_str, of_string. rewrite string_of_list_ascii_of_string.
  rewrite NilZero.isi, of_to; [reflexivity| |];
    destruct (to_int_cases n) as [(u & Hu & ->)|(u & Hu & ->)]; congruence.
Qed.

Lemma py_int_str n : py_int (py_str n) = Ok n.
Proof.
  rewrite <- (app_nil_r (py_str n)).
  apply (py_int_str_spaces [] n []); constructor.
Qed.

Lemma py_str_inj n m : py_str n = py_str m -> n = m.
Proof.
  intros H. assert (Ok n = Ok m) as HO by (rewrite <- !py_int_str, H; reflexivity). congruence.
Qed.

(** ** lines of a file *)
Lemma file_lines_line s rest :
  Forall (fun c => Ascii.eqb c newline = false) s ->
  file_lines (s ++ newline :: rest) = (s ++ [newline]) :: file_lines rest.
Proof.
  induction 1 as [|c s Hc Hs IH]; [reflexivity|].
  cbn [app file_lines]. rewrite Hc, IH. reflexivity.
Qed.

Lemma file_lines_join l :
  l <> [] -> Forall (Forall (fun c => Ascii.eqb c newline = false)) l ->
  file_lines (join [newline] l ++ [newline]) = map (fun s => s ++ [newline]) l.
Proof.
  intros Hl H. induction H as [|s l Hs H IH]; [congruence|].
  destruct l as [|s' l].
  - cbn [join map]. rewrite file_lines_line by exact Hs. reflexivity.
  - cbn [join]. rewrite <- !app_assoc. cbn [app]. rewrite file_lines_line by exact Hs.
    cbn [map]. f_equal. apply IH. congruence.
Qed.

Lemma map_result_all {A B} (f : A -> result B) (g : B -> A) l :
  (forall b, In b l -> f (g b) = Ok b) -> map_result f (map g l) = Ok l.
Proof.
  induction l as [|b l IH]; intros H; [reflexivity|].
  cbn [map map_result]. rewrite H by (left; reflexivity). cbn [bind].
  rewrite IH by (intros; apply H; right; assumption). reflexivity.
Qed.

Lemma newline_space : Forall (fun c => is_space c = true) [newline].
Proof. repeat constructor. Qed.

Lemma read_series_roundtrip l :
  l <> [] -> read_indices_series (indices_file_text py_str l) = Ok l.
Proof.
  intros Hl. unfold read_indices_series, indices_file_text.
  rewrite file_lines_join.
  - rewrite map_map. apply map_result_all. intros n _.
    apply (py_int_str_spaces [] n [newline]); [constructor|apply newline_space].
  - destruct l; cbn; congruence.
  - apply Forall_forall. intros s Hs. apply in_map_iff in Hs. destruct Hs as (n & <- & _).
    eapply Forall_impl; [|apply py_str_chars]. intros c Hc. apply int_char_neq; [exact Hc|reflexivity].
Qed.

(** ** tuples *)
Lemma split_on_nonnil c s : split_on c s <> [].
Proof. induction s as [|x s IH]; cbn; [congruence|]. destruct (Ascii.eqb x c); [congruence|]. destruct (split_on c s); congruence. Qed.

Lemma split_on_none c s :
  Forall (fun x => Ascii.eqb x c = false) s -> split_on c s = [s].
Proof. induction 1 as [|x s Hx _ IH]; cbn; [reflexivity|]. rewrite Hx, IH. reflexivity. Qed.

Lemma split_on_app c s rest :
  Forall (fun x => Ascii.eqb x c = false) s -> split_on c (s ++ c :: rest) = s :: split_on c rest.
Proof.
  induction 1 as [|x s Hx _ IH]; cbn.
  - rewrite Ascii.eqb_refl. reflexivity.
  - rewrite Hx, IH. reflexivity.
Qed.

Definition not_comma (s : chars) := Forall (fun x => Ascii.eqb x comma = false) s.

Lemma split_join_tail s l :
  not_comma s -> Forall not_comma l ->
  split_on comma (join (of_string ", ") (s :: l)) = s :: map (fun w => " "%char :: w) l.
Proof.
  intros Hs Hl. revert s Hs. induction Hl as [|s' l Hs' Hl IH]; intros s Hs.
  - cbn. apply split_on_none. exact Hs.
  - change (join (of_string ", ") (s :: s' :: l))
      with (s ++ comma :: " "%char :: join (of_string ", ") (s' :: l)).
    rewrite split_on_app by exact Hs. cbn [map]. f_equal.
    cbn [split_on]. replace (Ascii.eqb " " comma) with false by reflexivity.
    rewrite IH by exact Hs'. reflexivity.
Qed.

Lemma py_str_not_comma n : not_comma (py_str n).
Proof.
  eapply Forall_impl; [|apply py_str_chars]. intros c Hc. apply int_char_neq; [exact Hc|reflexivity].
Qed.

Lemma filter_id {A} (f : A -> bool) l : Forall (fun x => f x = true) l -> filter f l = l.
Proof. induction 1 as [|x l Hx Hl IH]; cbn; [reflexivity|]. rewrite Hx, IH. reflexivity. Qed.

Lemma strip_int_spaces sp1 n :
  Forall (fun c => is_space c = true) sp1 -> strip (sp1 ++ py_str n) = py_str n.
Proof.
  intros H. rewrite <- (app_nil_r (py_str n)) at 1.
  apply strip_spaces; [exact H|constructor|apply Forall_int_not_space, py_str_chars].
Qed.

Lemma py_slice_1_m1 {A} c (s : list A) d : py_slice (c :: s ++ [d]) 1 (-1) = s.
Proof.
  unfold py_slice, norm_bound, zlen. cbn [List.length]. rewrite app_length. cbn [List.length].
  change (1 <? 0) with false. change (-1 <? 0) with true. cbv iota.
  rewrite Z.min_l by lia. change (Z.to_nat 1) with 1%nat. cbn [skipn].
  rewrite Z.max_r by lia.
  replace (Z.to_nat _) with (List.length s) by lia.
  rewrite firstn_app, firstn_all, Nat.sub_diag. cbn. apply app_nil_r.
Qed.

Definition nonnil (c : chars) : bool := match c with [] => false | _ => true end.

Lemma tuple_inner_roundtrip n l :
  map_result (fun c => py_int (strip c))
    (filter nonnil (split_on comma (join (of_string ", ") (map py_str (n :: l))))) = Ok (n :: l).
Proof.
  cbn [map]. rewrite split_join_tail.
  2: apply py_str_not_comma.
  2: { apply Forall_forall. intros s Hs. apply in_map_iff in Hs. destruct Hs as (m & <- & _). apply py_str_not_comma. }
  rewrite filter_id.
  2: { constructor.
       - pose proof (py_str_nonnil n). destruct (py_str n); cbn; congruence.
       - apply Forall_forall. intros s Hs. rewrite map_map in Hs. apply in_map_iff in Hs.
         destruct Hs as (m & <- & _). reflexivity. }
  cbn [map_result].
  pose proof (strip_int_spaces [] n ltac:(constructor)) as HS. cbn [app] in HS. rewrite HS, py_int_str.
  cbn [bind]. rewrite map_map.
  match goal with |- context [map_result ?f ?x] => replace (map_result f x) with (Ok l) end; [reflexivity|].
  symmetry. apply map_result_all.
  intros m _. pose proof (strip_int_spaces [" "%char] m ltac:(repeat constructor)) as HS'.
  cbn [app] in HS'. rewrite HS'. apply py_int_str.
Qed.

Lemma tuple_roundtrip t sp :
  Forall (fun c => is_space c = true) sp -> tuple_ints_from_str (str_tuple t ++ sp) = Ok t.
Proof.
  intros Hsp. unfold tuple_ints_from_str, str_tuple.
  change (fun c : list ascii => match c with [] => false | _ :: _ => true end) with nonnil.
  destruct t as [|n [|m t]].
  - cbn [of_string list_ascii_of_string app].
    change ("("%char :: ")"%char :: sp) with ("("%char :: [] ++ ")"%char :: sp).
    rewrite strip_ends by (reflexivity || exact Hsp).
    rewrite py_slice_1_m1. reflexivity.
  - cbn [of_string list_ascii_of_string app].
    replace ("("%char :: (py_str n ++ [","%char; ")"%char]) ++ sp)
      with ("("%char :: (py_str n ++ [","%char]) ++ ")"%char :: sp)
      by (rewrite <- !app_assoc; reflexivity).
    rewrite strip_ends by (reflexivity || exact Hsp).
    rewrite py_slice_1_m1. rewrite split_on_app by apply py_str_not_comma.
    cbn [split_on filter nonnil].
    pose proof (py_str_nonnil n) as Hn. destruct (py_str n) eqn:En; [congruence|]. cbn [nonnil].
    rewrite <- En. cbn [map_result].
    pose proof (strip_int_spaces [] n ltac:(constructor)) as HS. cbn [app] in HS. rewrite HS, py_int_str.
    reflexivity.
  - cbn [of_string list_ascii_of_string]. set (body := join _ _).
    replace ((["("%char] ++ body ++ [")"%char]) ++ sp) with ("("%char :: body ++ ")"%char :: sp)
      by (cbn [app]; rewrite <- app_assoc; reflexivity).
    rewrite strip_ends by (reflexivity || exact Hsp). rewrite py_slice_1_m1.
    apply tuple_inner_roundtrip.
Qed.

Lemma Forall_join (P : ascii -> Prop) sep l :
  Forall P sep -> Forall (Forall P) l -> Forall P (join sep l).
Proof.
  intros Hsep Hl. induction Hl as [|s l Hs Hl IH]; [constructor|].
  cbn [join]. destruct l; [exact Hs|]. apply Forall_app. split; [exact Hs|].
  apply Forall_app. split; [exact Hsep|exact IH].
Qed.

Lemma str_tuple_no_newline t : Forall (fun c => Ascii.eqb c newline = false) (str_tuple t).
Proof.
  assert (HP : forall n, Forall (fun c => Ascii.eqb c newline = false) (py_str n)).
  { intros n. eapply Forall_impl; [|apply py_str_chars]. intros c Hc. apply int_char_neq; [exact Hc|reflexivity]. }
  unfold str_tuple. destruct t as [|n [|m t]].
  - repeat constructor.
  - apply Forall_app; split; [repeat constructor|]. apply Forall_app; split; [apply HP|repeat constructor].
  - apply Forall_app; split; [repeat constructor|]. apply Forall_app; split; [|repeat constructor].
    apply Forall_join; [repeat constructor|]. apply Forall_forall. intros s Hs.
    apply in_map_iff in Hs. destruct Hs as (k & <- & _). apply HP.
Qed.

Lemma read_images_roundtrip l :
  l <> [] -> read_indices_images (indices_file_text str_tuple l) = Ok l.
Proof.
  intros Hl. unfold read_indices_images, indices_file_text.
  rewrite file_lines_join.
  - rewrite map_map. apply map_result_all. intros t _. apply tuple_roundtrip, newline_space.
  - destruct l; cbn; congruence.
  - apply Forall_forall. intros s Hs. apply in_map_iff in Hs. destruct Hs as (t & <- & _).
    apply str_tuple_no_newline.
Qed.

(** ** file names *)
Lemma list_ascii_inj s t : list_ascii_of_string s = list_ascii_of_string t -> s = t.
Proof.
  intros H. rewrite <- (string_of_list_ascii_of_string s), H. apply string_of_list_ascii_of_string.
Qed.

Lemma iter_D0_string k u :
  of_string (NilEmpty.string_of_uint (Nat.iter k D0 u)) = repeat "0"%char k ++ of_string (NilEmpty.string_of_uint u).
Proof. induction k as [|k IH]; [reflexivity|]. cbn [Nat.iter nat_rect]. cbn. f_equal. exact IH. Qed.

Lemma string_of_uint_inj u v : NilEmpty.string_of_uint u = NilEmpty.string_of_uint v -> u = v.
Proof.
  intros H. assert (Some u = Some v) as HS by (rewrite <- !NilEmpty.usu, H; reflexivity). congruence.
Qed.

Lemma pad_inj k k' n n' :
  repeat "0"%char k ++ py_str (Z.of_nat n) = repeat "0"%char k' ++ py_str (Z.of_nat n') -> n = n'.
Proof.
  assert (HZ : forall m, exists u, py_str (Z.of_nat m) = of_string (NilEmpty.string_of_uint u) /\ Z.of_int (Pos u) = Z.of_nat m).
  { intros m. unfold py_str. destruct (Z.to_int (Z.of_nat m)) as [u|u] eqn:E.
    - assert (u <> Nil) as Hu.
      { destruct (to_int_cases (Z.of_nat m)) as [(v & Hv & Hv')|(v & Hv & Hv')]; congruence. }
      exists u. cbn [NilZero.string_of_int]. rewrite string_of_uint_nonnil by exact Hu.
      split; [reflexivity|]. rewrite <- E. apply of_to.
    - exfalso. destruct m; cbn in E; discriminate. }
  destruct (HZ n) as (u & -> & Hu). destruct (HZ n') as (v & -> & Hv).
  rewrite <- !iter_D0_string. intros H. apply list_ascii_inj, string_of_uint_inj in H.
  assert (Hn : forall k w, Z.of_int (Pos (Nat.iter k D0 w)) = Z.of_int (Pos w)).
  { intros j w. apply of_iff. cbn [norm]. rewrite unorm_iter_D0. reflexivity. }
  pose proof (Hn k u) as H1. pose proof (Hn k' v) as H2. rewrite H in H1. lia.
Qed.

Lemma fmt03_inj i j : fmt03 i = fmt03 j -> i = j.
Proof. unfold fmt03, pad_zeros. apply pad_inj. Qed.

Lemma indices_file_name_inj i j : indices_file_name i = indices_file_name j -> i = j.
Proof.
  unfold indices_file_name. intros H. apply app_inv_head in H. apply app_inv_tail in H.
  apply fmt03_inj, H.
Qed.
Lemma results_file_name_inj i j : results_file_name i = results_file_name j -> i = j.
Proof.
  unfold results_file_name. intros H. apply app_inv_head in H. apply app_inv_tail in H.
  apply fmt03_inj, H.
Qed.
Lemma len_results_file_name_inj i j : len_results_file_name i = len_results_file_name j -> i = j.
Proof.
  unfold len_results_file_name. intros H. apply app_inv_head in H. apply app_inv_tail in H.
  apply fmt03_inj, H.
Qed.

Lemma saved_files_names {A} (str_index : A -> chars) lists :
  NoDup (map fst (saved_indices_files str_index lists)).
Proof.
  unfold saved_indices_files. rewrite map_map.
  assert (Hgen : forall o ls, NoDup (map (fun x : nat * list A => fst (let '(i, l) := x in (indices_file_name i, indices_file_text str_index l)))
     (filter (fun '(_, l) => match l with [] => false | _ => true end) (combine (seq o (List.length ls)) ls))) /\
     forall i l, In (i, l) (combine (seq o (List.length ls)) ls) -> (o <= i)%nat).
  { intros o ls. revert o. induction ls as [|l ls IH]; intros o.
    - split; [constructor|intros ? ? []].
    - destruct (IH (S o)) as [H1 H2]. cbn [List.length seq combine filter]. split.
      + destruct l as [|a l]; [exact H1|]. cbn [map]. constructor; [|exact H1].
        intros HI. apply in_map_iff in HI. destruct HI as ([i l'] & Heq & HI).
        cbn in Heq. apply indices_file_name_inj in Heq. apply filter_In in HI. destruct HI as [HI _].
        apply H2 in HI. lia.
      + intros i l' [Heq|HI]; [injection Heq as <- _; lia|]. apply H2 in HI. lia. }
  apply Hgen.
Qed.

Lemma saved_file_content {A} (str_index : A -> chars) (read : chars -> result (list A)) lists i l :
  (forall l, l <> [] -> read (indices_file_text str_index l) = Ok l) ->
  nth_error lists i = Some l -> l <> [] ->
  exists text, In (indices_file_name i, text) (saved_indices_files str_index lists) /\ read text = Ok l.
Proof.
  intros Hr Hi Hl. exists (indices_file_text str_index l). split; [|apply Hr, Hl].
  unfold saved_indices_files. apply in_map_iff. exists (i, l). split; [reflexivity|].
  apply filter_In. split; [|destruct l; congruence].
  assert (Hgen : forall o ls k, nth_error ls k = Some l -> In ((o + k)%nat, l) (combine (seq o (List.length ls)) ls)).
  { intros o ls. revert o. induction ls as [|x ls IH]; intros o [|k] Hk; cbn in Hk; try discriminate.
    - injection Hk as ->. cbn. left. f_equal. lia.
    - cbn. right. replace (o + S k)%nat with (S o + k)%nat by lia. apply IH, Hk. }
  apply (Hgen 0%nat), Hi.
Qed.

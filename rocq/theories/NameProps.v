(** C38: names of the files of the results. *)
From Verif Require Import PyBase StrModel StrProofs NameModel.
Local Open Scope Z_scope.

(** Specification: the images of a couple, for its slicing tuples. *)
Definition indices (inds : list Z) : list Z :=
  match inds with
  | [] => []
  | [s] => [s]
  | [s; e] => range_list s e 1
  | s :: e :: st :: _ => range_list s e st
  end.
Fixpoint images (slicing : list (list Z)) : list (list Z) :=
  match slicing with
  | [] => [[]]
  | inds :: l => flat_map (fun i => map (cons i) (images l)) (indices inds)
  end.
(** slices of step 1 which are not empty *)
Definition unit_step (inds : list Z) : Prop :=
  match inds with
  | [s] => 0 <= s
  | [s; e] => 0 <= s < e
  | [s; e; st] => 0 <= s < e /\ st = 1
  | _ => False
  end.

Definition first_ (inds : list Z) : Z := match inds with s :: _ => s | [] => 0 end.
Definition last_ (inds : list Z) : Z := match inds with s :: e :: _ => e - 1 | s :: _ => s | [] => 0 end.
Lemma unit_bounds inds : unit_step inds -> 0 <= first_ inds <= last_ inds.
Proof. destruct inds as [|s [|e [|st [|]]]]; cbn; lia. Qed.
Lemma unit_indices inds : unit_step inds -> indices inds = range_list (first_ inds) (last_ inds + 1) 1.
Proof.
  destruct inds as [|s [|e [|st [|]]]]; cbn -[range_list]; intros H; try lia.
  - unfold range_list, range_len. replace ((0 <? 1) && (s <? s + 1)) with true by lia. replace (s + 1 - s - 1) with 0 by lia. change (Z.to_nat (0 / 1 + 1)) with 1%nat. cbn [seq map]. f_equal. change (Z.of_nat 0 * 1) with 0. lia.
  - f_equal. lia.
  - destruct H as [_ ->]. f_equal. lia.
Qed.

Lemma chars_eqb_spec s t : chars_eqb s t = true <-> s = t.
Proof.
  revert t. induction s as [|a s IH]; intros [|b t]; cbn; split; intros H; try congruence; try reflexivity.
  - apply andb_true_iff in H. destruct H as [H1 H2]. apply Ascii.eqb_eq in H1. apply IH in H2. congruence.
  - assert (a = b) as -> by congruence. assert (s = t) as -> by congruence. rewrite Ascii.eqb_refl. apply IH. reflexivity.
Qed.

Definition P (w : nat) (n : Z) : chars := pad_zeros w (py_str n).
Definition L (n : Z) : ascii := Ascii.ascii_of_nat (97 + Z.to_nat n).

Lemma P_inj w a b : 0 <= a -> 0 <= b -> P w a = P w b -> a = b.
Proof.
  intros Ha Hb E. unfold P, pad_zeros in E. replace a with (Z.of_nat (Z.to_nat a)) in E by lia. replace b with (Z.of_nat (Z.to_nat b)) in E by lia.
  apply pad_inj in E. lia.
Qed.
Lemma L_inj a b : 0 <= a <= 25 -> 0 <= b <= 25 -> L a = L b -> a = b.
Proof.
  intros Ha Hb E. unfold L in E. apply (f_equal Ascii.nat_of_ascii) in E. rewrite !Ascii.nat_ascii_embedding in E by lia. lia.
Qed.

Definition digit (c : ascii) : bool := ((48 <=? Ascii.nat_of_ascii c) && (Ascii.nat_of_ascii c <=? 57))%nat.
Lemma digit_uint u : Forall (fun c => digit c = true) (of_string (DecimalString.NilEmpty.string_of_uint u)).
Proof. induction u; cbn; constructor; try exact IHu; reflexivity. Qed.
Lemma P_digits w n : 0 <= n -> Forall (fun c => digit c = true) (P w n) /\ P w n <> [].
Proof.
  intros Hn. assert (Hs : Forall (fun c => digit c = true) (py_str n)).
  { unfold py_str. destruct (to_int_cases n) as [(u & Hu & E)|(u & Hu & E)].
    - rewrite E. cbn [DecimalString.NilZero.string_of_int]. rewrite string_of_uint_nonnil by exact Hu. apply digit_uint.
    - exfalso. destruct n; cbn in E; try discriminate. lia. }
  unfold P, pad_zeros. split.
  - apply Forall_app. split; [|exact Hs]. apply Forall_forall. intros c Hc. apply repeat_spec in Hc. subst. reflexivity.
  - intros E. apply app_eq_nil in E. destruct E as [_ E]. exact (py_str_nonnil n E).
Qed.
(** the letters *)
Lemma is_letter_meaning c : is_letter c = true <-> In c (of_string "abcdefghijklmnopqrstuvwxyzABCDEFGHIJKLMNOPQRSTUVWXYZ").
Proof.
  destruct c as [[] [] [] [] [] [] [] []]; (split; [intros H; first [discriminate H|vm_compute; tauto]|
    intros H; first [reflexivity|exfalso; vm_compute in H; repeat (destruct H as [H|H]; [discriminate H|]); exact H]]).
Qed.
Lemma L_letter n : 0 <= n <= 25 -> is_letter (L n) = true.
Proof. intros Hn. unfold is_letter, L. rewrite Ascii.nat_ascii_embedding by lia. lia. Qed.
Lemma digit_not_letter c : digit c = true -> is_letter c = false.
Proof. unfold digit, is_letter. lia. Qed.
Lemma digit_not_dash c : digit c = true -> c <> "-"%char.
Proof. intros H ->. discriminate. Qed.

(** closed form of the part of one index *)
Definition code (d : dim) (a b : Z) : chars :=
  match d with
  | Digits w => if a =? b then P w a else P w a ++ "-"%char :: P w b
  | Alpha => if a =? b then [L a] else [L a; L b]
  end.
Definition in_dim (d : dim) (n : Z) : Prop := match d with Digits _ => 0 <= n | Alpha => 0 <= n <= 25 end.

Lemma one_index_code d inds s : unit_step inds -> one_index d inds = Ok s ->
  s = code d (first_ inds) (last_ inds) /\ in_dim d (first_ inds) /\ in_dim d (last_ inds).
Proof.
  intros Hu. pose proof (unit_bounds _ Hu) as B.
  assert (G : forall a b, 0 <= a <= b ->
    (do s <- str_index d a ; do last <- str_index d b ;
      if chars_eqb last s then Ok s
      else Ok (s ++ match s with [c] => if is_letter c then [] else ["-"%char] | _ => ["-"%char] end ++ last)) = Ok s ->
    s = code d a b /\ in_dim d a /\ in_dim d b).
  { intros a b Hab. unfold str_index. destruct d as [w|].
    - cbn [bind]. fold (P w a). fold (P w b). cbn [in_dim code]. destruct (chars_eqb (P w b) (P w a)) eqn:E.
      + apply chars_eqb_spec in E. apply P_inj in E; [|lia|lia]. subst b. rewrite Z.eqb_refl. intros H. repeat split; try lia. congruence.
      + destruct (a =? b) eqn:Eab.
        { assert (a = b) as <- by lia. assert (chars_eqb (P w a) (P w a) = true) by (apply chars_eqb_spec; reflexivity). congruence. }
        intros H. repeat split; try lia. assert (Hsep : match P w a with [c] => if is_letter c then [] else ["-"%char] | _ => ["-"%char] end = ["-"%char]).
        { destruct (P w a) as [|c [|]] eqn:Ep; try reflexivity. destruct (P_digits w a) as [Hd _]; [lia|]. rewrite Ep in Hd.
          inversion Hd as [|? ? Hc]; subst. rewrite (digit_not_letter c Hc). reflexivity. }
        rewrite Hsep in H. cbn [app] in H. congruence.
    - destruct (25 <? a) eqn:Ea; [discriminate|]. cbn [bind]. destruct (25 <? b) eqn:Eb; [discriminate|]. cbn [bind]. fold (L a). fold (L b).
      cbn [in_dim code]. destruct (chars_eqb [L b] [L a]) eqn:E.
      + apply chars_eqb_spec in E. assert (L b = L a) as E' by congruence. apply L_inj in E'; [|lia|lia]. subst b. rewrite Z.eqb_refl.
        intros H. repeat split; try lia. congruence.
      + destruct (a =? b) eqn:Eab.
        { assert (a = b) as <- by lia. assert (chars_eqb [L a] [L a] = true) by (apply chars_eqb_spec; reflexivity). congruence. }
        rewrite L_letter by lia. intros H. repeat split; try lia. cbn [app] in H. congruence. }
  destruct inds as [|a [|e l]]; cbn [unit_step] in Hu; [contradiction| |].
  - cbn [one_index first_ last_] in *. intros H.
    assert (X : s = code d a a /\ in_dim d a).
    { unfold str_index in H. destruct d as [w|]; cbn [code in_dim]; rewrite Z.eqb_refl.
      - fold (P w a) in H. split; [congruence|lia].
      - destruct (25 <? a) eqn:Ea; [discriminate|]. fold (L a) in H. split; [congruence|lia]. }
    tauto.
  - cbn [first_ last_] in *. intros H. apply G; [exact B|exact H].
Qed.

Lemma span_inj (Q : ascii -> bool) u v x y :
  Forall (fun c => Q c = true) u -> Forall (fun c => Q c = true) v ->
  (match x with [] => True | c :: _ => Q c = false end) -> (match y with [] => True | c :: _ => Q c = false end) ->
  u ++ x = v ++ y -> u = v /\ x = y.
Proof.
  revert v. induction u as [|a u IH]; intros [|b v] Hu Hv Hx Hy E; cbn [app] in E.
  - split; [reflexivity|exact E].
  - exfalso. subst x. inversion Hv; subst. congruence.
  - exfalso. subst y. inversion Hu; subst. congruence.
  - inversion Hu; subst. inversion Hv; subst. assert (a = b) as -> by congruence.
    destruct (IH v) as [-> ->]; try assumption; [congruence|]. split; reflexivity.
Qed.

Lemma code_digits_inj w a b a' b' : 0 <= a -> 0 <= b -> 0 <= a' -> 0 <= b' ->
  code (Digits w) a b = code (Digits w) a' b' -> a = a' /\ b = b'.
Proof.
  intros Ha Hb Ha' Hb' E.
  assert (S : forall a b, 0 <= a -> exists x, code (Digits w) a b = P w a ++ x /\ x = (if a =? b then [] else "-"%char :: P w b)).
  { intros c d Hc. cbn [code]. eexists. split; [|reflexivity]. destruct (c =? d); [rewrite app_nil_r|]; reflexivity. }
  destruct (S a b Ha) as (x & Ex & Hx). destruct (S a' b' Ha') as (x' & Ex' & Hx'). rewrite Ex, Ex' in E.
  apply (span_inj digit) in E; [|apply P_digits; lia|apply P_digits; lia| |].
  - destruct E as [E1 E2]. apply P_inj in E1; [|lia|lia]. split; [exact E1|]. subst a' x x'.
    destruct (a =? b) eqn:E3, (a =? b') eqn:E4; try discriminate; [lia|].
    assert (P w b = P w b') as E5 by congruence. apply P_inj in E5; lia.
  - subst x. destruct (a =? b); [exact Logic.I|reflexivity].
  - subst x'. destruct (a' =? b'); [exact Logic.I|reflexivity].
Qed.
Lemma code_alpha_inj a b a' b' : 0 <= a <= 25 -> 0 <= b <= 25 -> 0 <= a' <= 25 -> 0 <= b' <= 25 ->
  code Alpha a b = code Alpha a' b' -> a = a' /\ b = b'.
Proof.
  intros Ha Hb Ha' Hb' E. cbn [code] in E. destruct (a =? b) eqn:E1, (a' =? b') eqn:E2; try discriminate.
  - assert (L a = L a') as E3 by congruence. apply L_inj in E3; lia.
  - assert (L a = L a') as E3 by congruence. assert (L b = L b') as E4 by congruence. apply L_inj in E3; [|lia|lia]. apply L_inj in E4; [|lia|lia]. lia.
Qed.
Lemma code_inj d a b a' b' : in_dim d a -> in_dim d b -> in_dim d a' -> in_dim d b' -> code d a b = code d a' b' -> a = a' /\ b = b'.
Proof. destruct d; [apply code_digits_inj|apply code_alpha_inj]. Qed.

Lemma code_digits_chars w a b : 0 <= a -> 0 <= b -> Forall (fun c => is_letter c = false) (code (Digits w) a b) /\ code (Digits w) a b <> [].
Proof.
  intros Ha Hb. destruct (P_digits w a Ha) as [D1 N1], (P_digits w b Hb) as [D2 N2].
  assert (X : forall l, Forall (fun c => digit c = true) l -> Forall (fun c => is_letter c = false) l).
  { intros l H. eapply Forall_impl; [|exact H]. apply digit_not_letter. }
  cbn [code]. destruct (a =? b); [split; [apply X; exact D1|exact N1]|]. split.
  - apply Forall_app. split; [apply X; exact D1|]. constructor; [reflexivity|apply X; exact D2].
  - intros E. apply app_eq_nil in E. destruct E. contradiction.
Qed.
Lemma code_alpha_chars a b : in_dim Alpha a -> in_dim Alpha b -> Forall (fun c => is_letter c = true) (code Alpha a b) /\ code Alpha a b <> [].
Proof.
  cbn [in_dim]. intros Ha Hb. cbn [code]. destruct (a =? b); (split; [|discriminate]); repeat constructor; apply L_letter; assumption.
Qed.

(** [P w n] has exactly [w] characters *)
Definition fits (w : nat) (n : Z) : Prop := List.length (P w n) = w.
Definition fits_slice (d : dim) (inds : list Z) : Prop :=
  match d with Digits w => fits w (first_ inds) /\ fits w (last_ inds) | Alpha => True end.

Lemma str_indices_1 d i s : unit_step i -> str_indices 0 [(d, i)] = Ok s ->
  s = code d (first_ i) (last_ i) /\ in_dim d (first_ i) /\ in_dim d (last_ i).
Proof.
  intros Hu. cbn [str_indices]. destruct (one_index d i) as [s'|] eqn:E; [|discriminate]. cbn [bind]. cbn [Z.ltb Z.compare].
  cbn [bind]. rewrite app_nil_r. intros H. assert (s' = s) as -> by congruence. apply one_index_code; assumption.
Qed.
Lemma str_indices_2 d i d' i' s : unit_step i -> unit_step i' -> str_indices 0 [(d, i); (d', i')] = Ok s ->
  s = code d (first_ i) (last_ i) ++ code d' (first_ i') (last_ i') /\
  in_dim d (first_ i) /\ in_dim d (last_ i) /\ in_dim d' (first_ i') /\ in_dim d' (last_ i').
Proof.
  intros Hu Hu'. cbn [str_indices]. destruct (one_index d i) as [s1|] eqn:E1; [|discriminate]. cbn [bind].
  change (1 <? 0) with false. cbv iota. destruct (one_index d' i') as [s2|] eqn:E2; [|discriminate]. cbn [bind].
  change (1 <? 0 + 1) with false. cbv iota. cbn [bind]. rewrite app_nil_r. intros H.
  apply one_index_code in E1; [|exact Hu]. apply one_index_code in E2; [|exact Hu']. destruct E1 as (-> & ? & ?), E2 as (-> & ? & ?).
  repeat split; try assumption. congruence.
Qed.

(** series for which the names identify the couples *)
Definition good_dims (dims : list dim) (sl1 sl2 : list (list Z)) : Prop :=
  match dims with
  | [_] => True
  | [Digits w; Alpha] => True
  | [Alpha; Digits w] => True
  | [Digits w1; Digits w2] => (forall i, In i (firstn 1 sl1 ++ firstn 1 sl2) -> fits_slice (Digits w1) i) /\ (0 < w1)%nat
  | _ => False
  end.

Lemma bounds_images i j : unit_step i -> unit_step j -> first_ i = first_ j -> last_ i = last_ j -> indices i = indices j.
Proof. intros Hi Hj E1 E2. rewrite !unit_indices by assumption. rewrite E1, E2. reflexivity. Qed.

Lemma code_fixed w a b x a' b' x' : fits w a -> fits w a' -> fits w b -> fits w b' -> (0 < w)%nat ->
  0 <= a -> 0 <= b -> 0 <= a' -> 0 <= b' ->
  (match x with [] => False | c :: _ => digit c = true end) -> (match x' with [] => False | c :: _ => digit c = true end) ->
  code (Digits w) a b ++ x = code (Digits w) a' b' ++ x' -> a = a' /\ b = b' /\ x = x'.
Proof.
  intros Fa Fa' Fb Fb' Hw Ha Hb Ha' Hb' Hx Hx' E. unfold fits in *.
  assert (S : forall a b x, code (Digits w) a b ++ x = P w a ++ (if a =? b then [] else "-"%char :: P w b) ++ x).
  { intros c d y. cbn [code]. destruct (c =? d); [reflexivity|]. rewrite <- app_assoc. reflexivity. }
  rewrite !S in E.
  assert (E1 : P w a = P w a').
  { apply (f_equal (firstn w)) in E. rewrite !firstn_app, Fa, Fa', Nat.sub_diag in E. cbn [firstn] in E. rewrite !app_nil_r in E.
    rewrite !firstn_all2 in E by lia. exact E. }
  rewrite E1 in E. apply app_inv_head in E. apply P_inj in E1; [|lia|lia]. subst a'. split; [reflexivity|].
  destruct (a =? b) eqn:E2, (a =? b') eqn:E3; cbn [app] in E.
  - split; [lia|exact E].
  - exfalso. subst x. cbn in Hx. discriminate.
  - exfalso. subst x'. cbn in Hx'. discriminate.
  - assert (E4 : P w b ++ x = P w b' ++ x') by congruence.
    assert (E5 : P w b = P w b').
    { apply (f_equal (firstn w)) in E4. rewrite !firstn_app, Fb, Fb', Nat.sub_diag in E4. cbn [firstn] in E4. rewrite !app_nil_r in E4.
      rewrite !firstn_all2 in E4 by lia. exact E4. }
    rewrite E5 in E4. apply app_inv_head in E4. apply P_inj in E5; [|lia|lia]. split; assumption.
Qed.

(** C38, for slices without step: one index, a number and a letter, or two numbers with a fixed number of digits *)
Theorem C38_names_partial prefix dims sl1 sl2 n :
  List.length sl1 = List.length dims -> List.length sl2 = List.length dims ->
  Forall unit_step sl1 -> Forall unit_step sl2 -> good_dims dims sl1 sl2 ->
  get_name_piv prefix dims sl1 = Ok n -> get_name_piv prefix dims sl2 = Ok n ->
  images sl1 = images sl2.
Proof.
  intros L1 L2 U1 U2 G N1 N2. unfold get_name_piv in N1, N2.
  destruct (str_indices 0 (combine dims sl1)) as [s1|] eqn:S1; [|discriminate]. destruct (str_indices 0 (combine dims sl2)) as [s2|] eqn:S2; [|discriminate].
  cbn [bind] in N1, N2. assert (Es : s1 = s2).
  { assert (X : prefix ++ of_string "_" ++ s1 ++ of_string ".h5" = prefix ++ of_string "_" ++ s2 ++ of_string ".h5") by congruence.
    apply app_inv_head, app_inv_head, app_inv_tail in X. exact X. }
  subst s2. clear N1 N2.
  destruct dims as [|d [|d' [|]]]; cbn [good_dims] in G.
  - contradiction.
  - destruct sl1 as [|i [|]]; try discriminate. destruct sl2 as [|j [|]]; try discriminate. cbn [combine] in S1, S2.
    apply Forall_inv in U1. apply Forall_inv in U2.
    apply str_indices_1 in S1; [|exact U1]. apply str_indices_1 in S2; [|exact U2].
    destruct S1 as (E1 & A1 & B1), S2 as (E2 & A2 & B2). rewrite E1 in E2. apply code_inj in E2; try assumption.
    cbn [images]. rewrite (bounds_images i j) by tauto. reflexivity.
  - destruct sl1 as [|i [|i' [|]]]; try discriminate. destruct sl2 as [|j [|j' [|]]]; try discriminate. cbn [combine] in S1, S2.
    inversion U1 as [|? ? Ui Ui' ]; subst. apply Forall_inv in Ui'. inversion U2 as [|? ? Uj Uj']; subst. apply Forall_inv in Uj'.
    apply str_indices_2 in S1; [|assumption|assumption]. apply str_indices_2 in S2; [|assumption|assumption].
    destruct S1 as (E1 & A1 & B1 & C1 & D1), S2 as (E2 & A2 & B2 & C2 & D2). rewrite E1 in E2.
    assert (K : (first_ i = first_ j /\ last_ i = last_ j) /\ (first_ i' = first_ j' /\ last_ i' = last_ j')).
    { destruct d as [w|], d' as [w'|]; try contradiction.
      - destruct G as [Gf Gw]. cbn [firstn app] in Gf. cbn [in_dim] in *.
        destruct (Gf i) as [F1 F2]; [left; reflexivity|]. destruct (Gf j) as [F3 F4]; [right; left; reflexivity|].
        assert (Hd : forall a b, 0 <= a -> match code (Digits w') a b with [] => False | c :: _ => digit c = true end).
        { intros a b Ha. destruct (P_digits w' a Ha) as [Dg Dn]. cbn [code]. destruct (P w' a) as [|c l]; [contradiction|].
          inversion Dg; subst. destruct (a =? b); cbn [app]; assumption. }
        apply code_fixed in E2; try assumption; try (apply Hd; assumption).
        destruct E2 as (X1 & X2 & X3). apply code_inj in X3; try assumption. tauto.
      - cbn [in_dim] in A1, B1, A2, B2. apply (span_inj (fun c => negb (is_letter c))) in E2.
        + destruct E2 as [X1 X2]. apply code_inj in X1; try assumption. apply code_inj in X2; try assumption. tauto.
        + eapply Forall_impl; [|apply (code_digits_chars w (first_ i) (last_ i) A1 B1)]. intros c Hc. cbn. rewrite Hc. reflexivity.
        + eapply Forall_impl; [|apply (code_digits_chars w (first_ j) (last_ j) A2 B2)]. intros c Hc. cbn. rewrite Hc. reflexivity.
        + destruct (code_alpha_chars _ _ C1 D1) as [Hc _]. destruct (code Alpha (first_ i') (last_ i')); [exact Logic.I|]. inversion Hc; subst. rewrite H1. reflexivity.
        + destruct (code_alpha_chars _ _ C2 D2) as [Hc _]. destruct (code Alpha (first_ j') (last_ j')); [exact Logic.I|]. inversion Hc; subst. rewrite H1. reflexivity.
      - cbn [in_dim] in C1, D1, C2, D2. apply (span_inj is_letter) in E2.
        + destruct E2 as [X1 X2]. apply code_inj in X1; try assumption. apply code_inj in X2; try assumption. tauto.
        + apply code_alpha_chars; assumption.
        + apply code_alpha_chars; assumption.
        + destruct (code_digits_chars w' _ _ C1 D1) as [Hc _]. destruct (code (Digits w') (first_ i') (last_ i')); [exact Logic.I|]. inversion Hc; subst. assumption.
        + destruct (code_digits_chars w' _ _ C2 D2) as [Hc _]. destruct (code (Digits w') (first_ j') (last_ j')); [exact Logic.I|]. inversion Hc; subst. assumption. }
    cbn [images]. rewrite (bounds_images i j) by tauto. rewrite (bounds_images i' j') by tauto. reflexivity.
  - destruct d as [w|], d0 as [w'|]; destruct d' as [w''|]; contradiction.
Qed.

(** *** Refutations *)
Definition collision (dims : list dim) (sl1 sl2 : list (list Z)) : Prop :=
  images sl1 <> images sl2 /\ exists n, get_name_piv (of_string "piv") dims sl1 = Ok n /\ get_name_piv (of_string "piv") dims sl2 = Ok n.
(** two numbers: the separator of the names of the images is forgotten in the name of the result; the couples
    (1_11, 1_12) and (11_1, 11_12) are both saved in piv_111-12.h5 *)
Theorem C38_two_numbers_refuted : collision [Digits 1; Digits 1] [[1; 2; 1]; [11; 13; 1]] [[11; 12; 1]; [1; 13; 11]].
Proof. split; [discriminate|]. eexists. split; reflexivity. Qed.

(** two letters: the couples (ac, bc) and (ab, ac) are saved in piv_abc.h5 *)
Theorem C38_two_letters_refuted : collision [Alpha; Alpha] [[0; 2; 1]; [2; 3; 1]] [[0; 1; 1]; [1; 3; 1]].
Proof. split; [discriminate|]. eexists. split; reflexivity. Qed.

(** steps: the couples of the images 0, 2 and 0, 3 (slices 0:4:2 and 0:4:3) *)
Theorem C38_step_refuted : collision [Digits 1] [[0; 4; 2]] [[0; 4; 3]].
Proof. split; [discriminate|]. eexists. split; reflexivity. Qed.

(** *** Couples of the same shape: the two images differ by [k] along one index.  This is what a given params.series.str_subset
    produces: different couples of a run have different names, also when there are two numbers without padding. *)
Definition pair_of (a k : Z) : list Z := [a; a + k + 1; k].
Definition single (a : Z) : list Z := [a; a + 1; 1].

Lemma one_pair w a k : 0 <= a -> 0 < k -> one_index (Digits w) (pair_of a k) = Ok (P w a ++ "-"%char :: P w (a + k)).
Proof.
  intros Ha Hk. unfold pair_of. cbn [one_index str_index bind]. replace (a + k + 1 - 1) with (a + k) by lia. fold (P w a). fold (P w (a + k)).
  destruct (chars_eqb (P w (a + k)) (P w a)) eqn:E.
  { apply chars_eqb_spec in E. apply P_inj in E; lia. }
  assert (Hsep : match P w a with [c] => if is_letter c then [] else ["-"%char] | _ => ["-"%char] end = ["-"%char]).
  { destruct (P w a) as [|c [|]] eqn:Ep; try reflexivity. destruct (P_digits w a) as [Hd _]; [lia|]. rewrite Ep in Hd.
    inversion Hd as [|? ? Hc]; subst. rewrite (digit_not_letter c Hc). reflexivity. }
  rewrite Hsep. reflexivity.
Qed.
Lemma one_single w a : 0 <= a -> one_index (Digits w) (single a) = Ok (P w a).
Proof.
  intros Ha. unfold single. cbn [one_index str_index bind]. replace (a + 1 - 1) with a by lia. fold (P w a).
  assert (chars_eqb (P w a) (P w a) = true) as -> by (apply chars_eqb_spec; reflexivity). reflexivity.
Qed.

Theorem C38_same_shape_one prefix w k a a' n : 0 <= a -> 0 <= a' -> 0 < k ->
  get_name_piv prefix [Digits w] [pair_of a k] = Ok n -> get_name_piv prefix [Digits w] [pair_of a' k] = Ok n -> a = a'.
Proof.
  intros Ha Ha' Hk. unfold get_name_piv. cbn [combine str_indices]. rewrite !one_pair by assumption. cbn [bind]. change (1 <? 0) with false. cbv iota.
  cbn [bind]. intros N1 N2.
  assert (X : prefix ++ of_string "_" ++ ((P w a ++ "-"%char :: P w (a + k)) ++ []) ++ of_string ".h5" = prefix ++ of_string "_" ++ ((P w a' ++ "-"%char :: P w (a' + k)) ++ []) ++ of_string ".h5") by congruence.
  apply app_inv_head, app_inv_head, app_inv_tail in X. rewrite !app_nil_r in X.
  apply (span_inj digit) in X; [|apply P_digits; lia|apply P_digits; lia|reflexivity|reflexivity]. destruct X as [X _]. apply P_inj in X; lia.
Qed.
Theorem C38_same_shape_second prefix w1 w2 k s a s' a' n : 0 <= a -> 0 <= a' -> 0 <= s -> 0 <= s' -> 0 < k ->
  get_name_piv prefix [Digits w1; Digits w2] [single s; pair_of a k] = Ok n ->
  get_name_piv prefix [Digits w1; Digits w2] [single s'; pair_of a' k] = Ok n -> s = s' /\ a = a'.
Proof.
  intros Ha Ha' Hs Hs' Hk. unfold get_name_piv. cbn [combine str_indices]. rewrite !one_pair, !one_single by assumption. cbn [bind].
  change (1 <? 0) with false. change (1 <? 0 + 1) with false. cbv iota. cbn [bind]. rewrite !app_nil_r. intros N1 N2.
  assert (X : prefix ++ of_string "_" ++ (P w1 s ++ P w2 a ++ "-"%char :: P w2 (a + k)) ++ of_string ".h5" = prefix ++ of_string "_" ++ (P w1 s' ++ P w2 a' ++ "-"%char :: P w2 (a' + k)) ++ of_string ".h5") by congruence.
  apply app_inv_head, app_inv_head, app_inv_tail in X. rewrite !app_assoc in X.
  apply (span_inj digit) in X; [|apply Forall_app; split; apply P_digits; lia|apply Forall_app; split; apply P_digits; lia|reflexivity|reflexivity].
  destruct X as [X1 X2]. assert (X3 : P w2 (a + k) = P w2 (a' + k)) by congruence. apply P_inj in X3; [|lia|lia]. assert (a = a') by lia. subst a'.
  apply app_inv_tail in X1. apply P_inj in X1; [|lia|lia]. split; [assumption|reflexivity].
Qed.
Theorem C38_same_shape_first prefix w1 w2 k s a s' a' n : 0 <= a -> 0 <= a' -> 0 <= s -> 0 <= s' -> 0 < k ->
  get_name_piv prefix [Digits w1; Digits w2] [pair_of a k; single s] = Ok n ->
  get_name_piv prefix [Digits w1; Digits w2] [pair_of a' k; single s'] = Ok n -> s = s' /\ a = a'.
Proof.
  intros Ha Ha' Hs Hs' Hk. unfold get_name_piv. cbn [combine str_indices]. rewrite !one_pair, !one_single by assumption. cbn [bind].
  change (1 <? 0) with false. change (1 <? 0 + 1) with false. cbv iota. cbn [bind]. rewrite !app_nil_r. intros N1 N2.
  assert (X : prefix ++ of_string "_" ++ ((P w1 a ++ "-"%char :: P w1 (a + k)) ++ P w2 s) ++ of_string ".h5" = prefix ++ of_string "_" ++ ((P w1 a' ++ "-"%char :: P w1 (a' + k)) ++ P w2 s') ++ of_string ".h5") by congruence.
  apply app_inv_head, app_inv_head, app_inv_tail in X. rewrite <- !app_assoc in X.
  apply (span_inj digit) in X; [|apply P_digits; lia|apply P_digits; lia|reflexivity|reflexivity].
  destruct X as [X1 X2]. apply P_inj in X1; [|lia|lia]. subst a'. cbn [app] in X2.
  assert (X3 : P w1 (a + k) ++ P w2 s = P w1 (a + k) ++ P w2 s') by congruence. apply app_inv_head in X3. apply P_inj in X3; [|lia|lia].
  split; [assumption|reflexivity].
Qed.
Lemma pair_images a k : 0 <= a -> 0 < k -> indices (pair_of a k) = [a; a + k].
Proof.
  intros Ha Hk. unfold pair_of, indices, range_list, range_len. replace ((0 <? k) && (a <? a + k + 1)) with true by lia.
  replace (a + k + 1 - a - 1) with (1 * k) by lia. rewrite Z.div_mul by lia. change (Z.to_nat (1 + 1)) with 2%nat. cbn [seq map].
  change (Z.of_nat 0 * k) with 0. replace (Z.of_nat 1 * k) with k by lia. rewrite Z.add_0_r. reflexivity.
Qed.

(** three indices: no name at all *)
Theorem C38_three_indices prefix d1 d2 d3 dims i1 i2 i3 sl n :
  get_name_piv prefix (d1 :: d2 :: d3 :: dims) (i1 :: i2 :: i3 :: sl) <> Ok n.
Proof.
  unfold get_name_piv. cbn [combine str_indices]. destruct (one_index d1 i1); [|discriminate]. cbn [bind].
  change (1 <? 0) with false. cbv iota. destruct (one_index d2 i2); [|discriminate]. cbn [bind]. change (1 <? 0 + 1) with false. cbv iota.
  destruct (one_index d3 i3); [|discriminate]. cbn [bind]. change (1 <? 0 + 1 + 1) with true. discriminate.
Qed.

(** the result for indices which can be formatted: a name is given *)
Theorem C38_defined prefix w (inds : list Z) : inds <> [] -> exists n, get_name_piv prefix [Digits w] [inds] = Ok n.
Proof.
  intros H. unfold get_name_piv. cbn [combine str_indices]. destruct inds as [|s [|e l]]; [contradiction| |].
  - eexists. reflexivity.
  - cbn [one_index str_index bind]. destruct (chars_eqb _ _); eexists; reflexivity.
Qed.

(** *** BOS: the name of the result contains the part of the name of the image between the base and the extension *)
Definition image_name (base mid : chars) (extension : option chars) : chars :=
  base ++ mid ++ match extension with Some e => "."%char :: e | None => [] end.

Lemma slice_tail (l m : chars) : py_slice (l ++ m) (zlen l) (zlen (l ++ m)) = m.
Proof.
  unfold py_slice, norm_bound, zlen. rewrite app_length, Nat2Z.inj_add.
  set (a := Z.of_nat (List.length l)). set (b := Z.of_nat (List.length m)).
  assert (0 <= a) by lia. assert (0 <= b) by lia.
  replace (a <? 0) with false by lia. replace (a + b <? 0) with false by lia.
  rewrite !Z.min_l by lia. replace (Z.to_nat a) with (List.length l) by lia.
  rewrite skipn_app, skipn_all, Nat.sub_diag. cbn [app skipn]. apply firstn_all2. lia.
Qed.
Lemma slice_head (l m : chars) : m <> [] -> py_slice (l ++ m) 0 (- zlen m) = l.
Proof.
  intros Hm. unfold py_slice, norm_bound, zlen. rewrite app_length, Nat2Z.inj_add.
  set (a := Z.of_nat (List.length l)). set (b := Z.of_nat (List.length m)).
  assert (0 <= a) by lia. assert (0 < b) by (destruct m; [contradiction|cbn in *; lia]).
  change (0 <? 0) with false. replace (- b <? 0) with true by lia. cbv iota. rewrite Z.min_l by lia. cbn [Z.to_nat skipn].
  rewrite Z.max_r by lia.
  replace (Z.to_nat (- b + (a + b) - 0)) with (List.length l) by lia. rewrite firstn_app, firstn_all, Nat.sub_diag, firstn_O, app_nil_r. reflexivity.
Qed.

Theorem C38_bos_name base mid extension :
  get_name_bos base extension (image_name base mid extension) = of_string "bos" ++ mid ++ of_string ".h5".
Proof.
  unfold get_name_bos, image_name. rewrite slice_tail. destruct extension as [e|].
  - replace (- zlen e - 1) with (- zlen ("."%char :: e)) by (unfold zlen; cbn [List.length]; lia). rewrite slice_head by discriminate. reflexivity.
  - rewrite app_nil_r. reflexivity.
Qed.
Theorem C38_bos base extension mid1 mid2 :
  image_name base mid1 extension <> image_name base mid2 extension ->
  get_name_bos base extension (image_name base mid1 extension) <> get_name_bos base extension (image_name base mid2 extension).
Proof.
  intros H E. apply H. rewrite !C38_bos_name in E. apply app_inv_head, app_inv_tail in E. rewrite E. reflexivity.
Qed.

(** [in the repository's tests: couple of images Karman_01.bmp, Karman_02.bmp and im060a, im060b] *)
Example C38_ex : get_name_piv (of_string "piv") [Digits 3; Alpha] [[60; 61; 1]; [0; 2; 1]] = Ok (of_string "piv_060ab.h5").
Proof. reflexivity. Qed.
Example C38_ex2 : get_name_piv (of_string "piv") [Digits 2] [[1; 3; 1]] = Ok (of_string "piv_01-02.h5").
Proof. reflexivity. Qed.
Example C38_ex_hyp : good_dims [Digits 3; Digits 2] [[60; 61; 1]; [0; 2; 1]] [[61; 62]; [0; 2]] /\
  Forall unit_step [[60; 61; 1]; [0; 2; 1]] /\ images [[60; 61; 1]; [0; 2; 1]] = [[60; 0]; [60; 1]].
Proof.
  split; [|split].
  - split; [|lia]. intros i Hi. cbn in Hi. destruct Hi as [<-|[<-|[]]]; split; reflexivity.
  - repeat constructor; cbn; lia.
  - reflexivity.
Qed.
Example C38_ex_bos : get_name_bos (of_string "im") (Some (of_string "png")) (of_string "im05.png") = of_string "bos05.h5".
Proof. reflexivity. Qed.

Print Assumptions C38_names_partial. Print Assumptions C38_two_numbers_refuted. Print Assumptions C38_two_letters_refuted.
Print Assumptions C38_step_refuted. Print Assumptions C38_same_shape_one. Print Assumptions C38_same_shape_second. Print Assumptions C38_same_shape_first.
 Print Assumptions C38_three_indices. Print Assumptions C38_defined. Print Assumptions C38_bos_name.
Print Assumptions C38_bos.

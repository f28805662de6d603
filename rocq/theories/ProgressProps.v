(** C92: the progress displayed by the multi-process executors. *)
From Coq Require Import Sorted Permutation.
From Verif Require Import PyBase StrModel StrProofs MultiModel MultiProps ResultsProps MonitorProps ProgressModel.
Open Scope Z_scope.

(** ** Specification *)
Definition values (l : list shown) : list Z := flat_map (fun s => match s with SFirst => [] | SCompleted n => [n] end) l.
Definition is_first (s : shown) : bool := match s with SFirst => true | _ => false end.

(** The file of the number of results of process [i] read in the turn [r] does not exist, is empty (being written) or contains
    the number [count r i], which never decreases. *)
Definition counters (len_file : nat -> nat -> option chars) (count : nat -> nat -> Z) : Prop :=
  (forall r i, 0 <= count r i <= count (S r) i) /\
  forall r i text, len_file r i = Some text -> text = [] \/ text = py_str (count r i) ++ [newline].
(** When the exit of a process is seen, its file contains its final number of results. *)
Definition final_numbers (poll : nat -> nat -> option Z) (len_file : nat -> nat -> option chars) (total : nat -> Z) : Prop :=
  forall r i c, poll r i = Some c -> len_file r i = Some (py_str (total i) ++ [newline]).

(** ** Proofs *)
Section P.
Variable poll : nat -> nat -> option Z.
Variable len_file : nat -> nat -> option chars.
Variable count : nat -> nat -> Z.
Hypothesis C : counters len_file count.

Definition num (st : mstate) (i : nat) : Z := nth i (m_nums st) 0.

(** the numbers after one process *)
Lemma poll_one_num r up st idx out st' : (idx < List.length (m_nums st))%nat ->
  poll_one poll len_file r (up, st) idx = Ok (out, st') ->
  List.length (m_nums st') = List.length (m_nums st) /\
  (forall j, j <> idx -> num st' j = num st j) /\
  num st' idx = match len_file r idx with None | Some [] => num st idx | Some _ => count r idx end.
Proof.
  intros Hi. unfold poll_one.
  set (p := match poll r idx with Some code => _ | None => _ end).
  assert (N : m_nums (snd p) = m_nums st) by (unfold p; destruct (poll r idx); reflexivity).
  destruct p as [up' st1]. cbn [snd] in N.
  destruct (len_file r idx) as [text|] eqn:L; [|intros [= <- <-]; unfold num; rewrite N; repeat split; reflexivity].
  destruct (proj2 C r idx text L) as [->|E]; [intros [= <- <-]; unfold num; rewrite N; repeat split; reflexivity|].
  destruct text as [|x l]; [destruct (py_str (count r idx)); discriminate|]. rewrite E.
  pose proof (py_int_str_spaces [] (count r idx) [newline] (Forall_nil _) newline_space) as PI. cbn [app] in PI. rewrite PI. cbn [bind].
  unfold py_update. rewrite N. unfold zlen.
  replace (Z.of_nat idx <? 0) with false by lia.
  replace (Z.of_nat idx <? Z.of_nat (List.length (m_nums st))) with true by lia.
  replace (0 <=? Z.of_nat idx) with true by lia. cbn [andb bind]. intros [= <- <-]. unfold num. cbn [m_nums].
  rewrite Nat2Z.id. split; [apply update_nth_len|].
  assert (G : forall j, nth j (update_nth idx (fun _ => count r idx) (m_nums st)) 0 = if (idx =? j)%nat then count r idx else nth j (m_nums st) 0).
  { intros j. destruct (nth_error (m_nums st) j) as [z|] eqn:Ej.
    - rewrite (nth_error_nth _ _ 0 Ej). destruct (Nat.eqb_spec idx j) as [<-|D].
      + apply nth_error_nth. rewrite update_nth_nth, Nat.eqb_refl, Ej. reflexivity.
      + apply nth_error_nth. rewrite update_nth_nth. destruct (Nat.eqb_spec idx j); [congruence|]. exact Ej.
    - apply nth_error_None in Ej. rewrite !nth_overflow by (rewrite ?update_nth_len; lia). destruct (Nat.eqb_spec idx j); [lia|reflexivity]. }
  split.
  - intros j D. rewrite G. destruct (Nat.eqb_spec idx j); [congruence|reflexivity].
  - rewrite G, Nat.eqb_refl. reflexivity.
Qed.

Lemma round_num r : forall l up st out st', (forall i, In i l -> (i < List.length (m_nums st))%nat) ->
  py_for (poll_one poll len_file r) l (up, st) = Ok (out, st') ->
  List.length (m_nums st') = List.length (m_nums st) /\
  (forall j, num st' j = num st j \/ (In j l /\ num st' j = count r j)) /\
  (forall j text, In j l -> len_file r j = Some text -> text <> [] -> num st' j = count r j).
Proof.
  induction l as [|i l IH]; intros up st out st' B; cbn [py_for].
  - intros [= <- <-]. split; [reflexivity|]. split; [intros j; left; reflexivity|intros j t []].
  - destruct (poll_one poll len_file r (up, st) i) as [[up1 st1]|] eqn:E; [|discriminate]. intros H.
    destruct (poll_one_num _ _ _ _ _ _ (B i (or_introl eq_refl)) E) as (L1 & O1 & N1).
    destruct (IH up1 st1 out st' ltac:(intros k Hk; rewrite L1; apply B; right; exact Hk) H) as (L2 & O2 & N2).
    split; [congruence|].
    assert (K : num st1 i = num st i \/ num st1 i = count r i) by (rewrite N1; destruct (len_file r i) as [[|]|]; auto).
    split.
    + intros j. destruct (O2 j) as [Ej|(Ij & Ej)]; [|right; split; [right; exact Ij|exact Ej]].
      destruct (Nat.eq_dec j i) as [->|D]; [|left; rewrite Ej; apply O1, D].
      destruct K as [K|K]; [left; congruence|right; split; [left; reflexivity|congruence]].
    + intros j text Ij T NE. destruct (in_dec Nat.eq_dec j l) as [Il|Nl]; [exact (N2 j text Il T NE)|].
      destruct Ij as [->|Ij]; [|contradiction]. rewrite T in N1. destruct text; [congruence|].
      destruct (O2 j) as [Ej|(Ij & _)]; [congruence|contradiction].
Qed.

Lemma last_cons (l : list Z) : forall v d, last (v :: l) d = last l v.
Proof. induction l as [|x l IH]; intros v d; [reflexivity|]. change (last (v :: x :: l) d) with (last (x :: l) d). rewrite IH. symmetry. apply IH. Qed.

(** state of the loop *)
Definition bounded (nb r : nat) (st : mstate) : Prop :=
  List.length (m_nums st) = nb /\ forall i, 0 <= num st i <= count r i.

Lemma sum_le nb (f g : list Z) : List.length f = nb -> List.length g = nb -> (forall i, nth i f 0 <= nth i g 0) -> zsum f <= zsum g.
Proof.
  revert f g. induction nb as [|nb IH]; intros [|x f] [|y g] Lf Lg H; cbn in Lf, Lg; try discriminate; try (unfold zsum; cbn; lia).
  pose proof (H 0%nat) as H0. cbn in H0. assert (zsum f <= zsum g) by (apply IH; [lia|lia|intros i; exact (H (S i))]). unfold zsum in *. cbn. lia.
Qed.

Lemma sum_bound nb (f : list Z) (g : nat -> Z) : List.length f = nb -> (forall i, nth i f 0 <= g i) -> zsum f <= zsum (map g (seq 0 nb)).
Proof.
  intros L H. apply (sum_le nb); [exact L|rewrite map_length, seq_length; reflexivity|]. intros i.
  destruct (Nat.lt_ge_cases i nb) as [I|I].
  - rewrite (nth_indep (map g _) 0 (g 0%nat)) by (rewrite map_length, seq_length; exact I). rewrite map_nth, seq_nth by exact I. apply H.
  - rewrite (nth_overflow f) by lia. rewrite nth_overflow by (rewrite map_length, seq_length; exact I). lia.
Qed.

Lemma shown_spec nb total : (forall r i, count r i <= total i) -> forall fuel r running st previous l st2,
  (forall i, In i running -> (i < nb)%nat) -> bounded nb r st -> previous = zsum (m_nums st) ->
  wait_shown poll len_file fuel r running st previous = Ok (l, st2) ->
  StronglySorted Z.lt (values l) /\ Forall (fun v => previous < v <= zsum (map total (seq 0 nb))) (values l) /\
  zsum (m_nums st2) = last (values l) previous /\
  match l with
  | [] => True
  | s :: l' => (previous = 0 -> s = SFirst) /\ (0 < previous -> is_first s = false) /\ existsb is_first l' = false
  end.
Proof.
  intros T. induction fuel as [|fuel IH]; intros r running st previous l st2 Br B P; cbn [wait_shown].
  - destruct running; [|discriminate]. intros [= <- <-]. cbn. repeat split; try constructor. congruence.
  - destruct running as [|i0 running']; [intros [= <- <-]; cbn; repeat split; try constructor; congruence|].
    set (running := i0 :: running') in *. destruct (py_for _ running ([], st)) as [[out st1]|] eqn:E; [|discriminate]. cbn [bind].
    destruct B as (BL & BN).
    destruct (round_num r running [] st out st1) as (L1 & O1 & _); [intros i Hi; rewrite BL; apply Br, Hi|exact E|].
    assert (M : forall i, num st i <= num st1 i <= count r i).
    { intros i. pose proof (BN i). destruct (O1 i) as [->|(_ & ->)]; lia. }
    assert (B1 : bounded nb (S r) st1).
    { split; [lia|]. intros i. pose proof (BN i). pose proof (M i). pose proof (proj1 C r i). lia. }
    assert (Br1 : forall i, In i out -> (i < nb)%nat).
    { assert (G : forall l0 up s o s', py_for (poll_one poll len_file r) l0 (up, s) = Ok (o, s') -> forall i, In i o -> In i up \/ In i l0).
      { clear. induction l0 as [|x l0 IH]; intros up s o s'; cbn [py_for]; [intros [= <- <-] i I; left; exact I|].
        destruct (poll_one poll len_file r (up, s) x) as [[up1 s1]|] eqn:E; [|discriminate]. intros H i I. specialize (IH _ _ _ _ H i I).
        assert (X : up1 = up \/ up1 = up ++ [x]).
        { clear - E. unfold poll_one in E. destruct (poll r x); cbn iota beta zeta in E; destruct (len_file r x) as [[|]|]; 
          repeat match type of E with context [bind ?y _] => destruct y; [cbn [bind] in E|discriminate] end; injection E as <- _; auto. }
        destruct IH as [IH|IH]; [|right; right; exact IH]. destruct X as [->| ->]; [left; exact IH|].
        apply in_app_iff in IH. destruct IH as [IH|[->|[]]]; [left; exact IH|right; left; reflexivity]. }
      intros i I. destruct (G _ _ _ _ _ E i I) as [[]|I']. apply Br, I'. }
    assert (Le : previous <= zsum (m_nums st1)) by (rewrite P; apply (sum_le nb); [exact BL|lia|intros i; apply M]).
    assert (Nn : 0 <= previous).
    { rewrite P. assert (0 <= zsum (m_nums st)); [|lia]. assert (X : zsum (repeat 0 nb) = 0) by (clear; unfold zsum; induction nb; cbn; lia).
      rewrite <- X. apply (sum_le nb); [apply repeat_length|exact BL|]. intros i. pose proof (BN i) as Y. unfold num in Y. rewrite nth_repeat. lia. }
    destruct (Z.eqb_spec (zsum (m_nums st1)) previous) as [Eq|Ne].
    + intros H. apply (IH _ _ _ _ _ _ Br1 B1 (eq_sym Eq) H).
    + destruct (wait_shown poll len_file fuel (S r) out st1 (zsum (m_nums st1))) as [[l1 st3]|] eqn:W; [|discriminate]. cbn [bind].
      intros [= <- <-]. destruct (IH _ _ _ _ _ _ Br1 B1 eq_refl W) as (I1 & I2 & I3 & I4).
      set (v := zsum (m_nums st1)) in *.
      assert (V : values ((if previous =? 0 then [SFirst] else []) ++ SCompleted v :: l1) = v :: values l1) by (destruct (previous =? 0); reflexivity).
      rewrite V. split; [|split; [|split]].
      * constructor; [exact I1|]. revert I2. apply Forall_impl. lia.
      * constructor.
        { split; [lia|]. unfold v. apply sum_bound; [lia|]. intros i. pose proof (M i). pose proof (T r i). unfold num in *. lia. }
        revert I2. apply Forall_impl. lia.
      * rewrite I3. symmetry. apply last_cons.
      * assert (NF : existsb is_first l1 = false).
        { clear - I4 Nn Le Ne. destruct l1 as [|s l1]; [reflexivity|]. destruct I4 as (_ & A & B). cbn. rewrite A, B by lia. reflexivity. }
        destruct (Z.eqb_spec previous 0); cbn [app]; repeat split; intros; try lia; cbn; try reflexivity; exact NF.
Qed.

(** at the end of the loop each number is the final one *)
Lemma final_nums nb total : (forall r i, count r i <= total i) -> final_numbers poll len_file total ->
  forall fuel r running st previous l st2,
  (forall i, In i running -> (i < nb)%nat) -> List.length (m_nums st) = nb ->
  (forall i, (i < nb)%nat -> In i running \/ num st i = total i) ->
  wait_shown poll len_file fuel r running st previous = Ok (l, st2) ->
  List.length (m_nums st2) = nb /\ forall i, (i < nb)%nat -> num st2 i = total i.
Proof.
  intros T F. assert (CT : forall r i c, poll r i = Some c -> count r i = total i).
  { intros r i c H. pose proof (F r i c H) as L. destruct (proj2 C r i _ L) as [X|X]; [destruct (py_str (total i)); discriminate|].
    apply (f_equal py_int) in X.
    pose proof (py_int_str_spaces [] (count r i) [newline] (Forall_nil _) newline_space) as P1.
    pose proof (py_int_str_spaces [] (total i) [newline] (Forall_nil _) newline_space) as P2. cbn [app] in P1, P2. congruence. }
  induction fuel as [|fuel IH]; intros r running st previous l st2 Br BL Q; cbn [wait_shown].
  - destruct running; [|discriminate]. intros [= <- <-]. split; [exact BL|]. intros i Hi. destruct (Q i Hi) as [[]|X]; exact X.
  - destruct running as [|i0 running']; [intros [= <- <-]; split; [exact BL|]; intros i Hi; destruct (Q i Hi) as [[]|X]; exact X|].
    set (running := i0 :: running') in *. 
    destruct (py_for _ running ([], st)) as [[out st1]|] eqn:E; [|discriminate]. cbn [bind].
    destruct (round_num r running [] st out st1) as (L1 & O1 & N1); [intros i Hi; rewrite BL; apply Br, Hi|exact E|].
    assert (OUT : out = still poll r running).
    { clear - E. 
      assert (G : forall l up s o s', py_for (poll_one poll len_file r) l (up, s) = Ok (o, s') -> o = up ++ still poll r l).
      { clear. induction l as [|x l IH]; intros up s o s'; cbn [py_for]; [intros [= <- <-]; cbn; rewrite app_nil_r; reflexivity|].
        destruct (poll_one poll len_file r (up, s) x) as [[up1 s1]|] eqn:E; [|discriminate]. intros H. rewrite (IH _ _ _ _ H).
        assert (X : up1 = match poll r x with None => up ++ [x] | Some _ => up end).
        { clear - E. unfold poll_one in E. destruct (poll r x); cbn iota beta zeta in E; destruct (len_file r x) as [[|]|];
          repeat match type of E with context [bind ?y _] => destruct y; [cbn [bind] in E|discriminate] end; injection E as <- _; reflexivity. }
        rewrite X. cbn [still filter]. destruct (poll r x); [reflexivity|]. rewrite <- app_assoc. reflexivity. }
      exact (G _ _ _ _ _ E). }
    assert (NX : forall p l2 st3, wait_shown poll len_file fuel (S r) out st1 p = Ok (l2, st3) -> List.length (m_nums st3) = nb /\ forall i, (i < nb)%nat -> num st3 i = total i).
    { intros p l2 st3 W. apply (IH (S r) out st1 p l2 st3).
      - intros i I. rewrite OUT in I. apply filter_In in I. apply Br, I.
      - lia.
      - intros i Hi. rewrite OUT. destruct (in_dec Nat.eq_dec i running) as [I|NI].
        + destruct (poll r i) as [c|] eqn:Pi.
          * right. rewrite (N1 i (py_str (total i) ++ [newline]) I (F r i c Pi)); [exact (CT r i c Pi)|]. destruct (py_str (total i)); discriminate.
          * left. apply filter_In. split; [exact I|]. rewrite Pi. reflexivity.
        + right. destruct (Q i Hi) as [X|X]; [contradiction|]. destruct (O1 i) as [->|(I & _)]; [exact X|contradiction].
      - exact W. }
    destruct (_ =? _); [intros H; exact (NX _ _ _ H)|].
    destruct (wait_shown poll len_file fuel (S r) out st1 _) as [[l1 st3]|] eqn:W; [|discriminate]. cbn [bind]. intros [= <- <-]. exact (NX _ _ _ W).
Qed.
End P.

(** ** Theorems *)

(** While the processes run the number of results displayed only goes up, it is never larger than the number of results of the
    processes, and "first result detected" is displayed once, just before the first number.  At the end the number is the
    number of names read in the files of results. *)
Theorem C92_progress : forall poll len_file count total fuel nb files l,
  counters len_file count -> (forall r i, count r i <= total i) ->
  compute_shown poll len_file fuel nb files = Ok l ->
  exists before, l = before ++ [SCompleted (zlen (read_results files))] /\
    StronglySorted Z.lt (values before) /\
    Forall (fun v => 0 < v <= zsum (map total (seq 0 nb))) (values before) /\
    (before = [] \/ exists rest, before = SFirst :: rest /\ existsb is_first rest = false).
Proof.
  intros poll len_file count total fuel nb files l C T H. unfold compute_shown in H.
  destruct (wait_shown poll len_file fuel 0 (seq 0 nb) (mk_mstate [] [] (repeat 0 nb)) 0) as [[before st]|] eqn:W; [|discriminate].
  cbn [bind] in H. injection H as <-. exists before. split; [reflexivity|].
  assert (Z0 : zsum (repeat 0 nb) = 0) by (clear; unfold zsum; induction nb; cbn; lia).
  destruct (shown_spec poll len_file count C nb total T fuel 0 (seq 0 nb) (mk_mstate [] [] (repeat 0 nb)) 0 before st) as (S1 & S2 & _ & S4).
  - intros i I. apply in_seq in I. lia.
  - split; [apply repeat_length|]. intros i. unfold num. cbn [m_nums]. rewrite nth_repeat. pose proof (proj1 C 0%nat i). lia.
  - cbn [m_nums]. lia.
  - exact W.
  - split; [exact S1|]. split; [exact S2|]. destruct before as [|s rest]; [left; reflexivity|]. right. exists rest.
    destruct S4 as (A & _ & B). rewrite (A eq_refl). split; [reflexivity|exact B].
Qed.
Print Assumptions C92_progress.

(** The last number displayed before the reading of the results is the exact total when each process has written its final
    number before it exits. *)
Theorem C92_exact : forall poll len_file count total fuel nb files l,
  counters len_file count -> (forall r i, count r i <= total i) -> final_numbers poll len_file total ->
  compute_shown poll len_file fuel nb files = Ok l ->
  exists before, l = before ++ [SCompleted (zlen (read_results files))] /\
    last (values before) 0 = zsum (map total (seq 0 nb)).
Proof.
  intros poll len_file count total fuel nb files l C T F H. unfold compute_shown in H.
  destruct (wait_shown poll len_file fuel 0 (seq 0 nb) (mk_mstate [] [] (repeat 0 nb)) 0) as [[before st]|] eqn:W; [|discriminate].
  cbn [bind] in H. injection H as <-. exists before. split; [reflexivity|].
  assert (Z0 : zsum (repeat 0 nb) = 0) by (clear; unfold zsum; induction nb; cbn; lia).
  destruct (shown_spec poll len_file count C nb total T fuel 0 (seq 0 nb) (mk_mstate [] [] (repeat 0 nb)) 0 before st) as (_ & _ & S3 & _).
  - intros i I. apply in_seq in I. lia.
  - split; [apply repeat_length|]. intros i. unfold num. cbn [m_nums]. rewrite nth_repeat. pose proof (proj1 C 0%nat i). lia.
  - cbn [m_nums]. lia.
  - exact W.
  - rewrite <- S3. destruct (final_nums poll len_file count C nb total T F fuel 0 (seq 0 nb) (mk_mstate [] [] (repeat 0 nb)) 0 before st) as (L & N).
    + intros i I. apply in_seq in I. lia.
    + apply repeat_length.
    + intros i I. left. apply in_seq. lia.
    + exact W.
    + f_equal. apply (nth_ext _ _ 0 0); [rewrite map_length, seq_length; exact L|]. intros i I. rewrite L in I.
      rewrite (nth_indep (map total _) 0 (total 0%nat)) by (rewrite map_length, seq_length; exact I). rewrite map_nth, seq_nth by exact I. apply N, I.
Qed.
Print Assumptions C92_exact.

(** A process which dies between the two writes of [_save_results_names] has counted results whose names are not in its file:
    the number goes down at the end. *)
Theorem C92_crash_refuted : exists poll len_file count files,
  counters len_file count /\ compute_shown poll len_file 2 1 files = Ok [SFirst; SCompleted 2; SCompleted 1].
Proof.
  exists (fun r _ => if (r =? 0)%nat then None else Some (-9)), (fun _ _ => Some (py_str 2 ++ [newline])), (fun _ _ => 2), [of_string "a" ++ [newline]].
  split; [|vm_compute; reflexivity]. split; [intros; lia|]. intros r i text [= <-]. right. reflexivity.
Qed.
Print Assumptions C92_crash_refuted.

(** Example: two processes, a file being written in the second turn. *)
Example C92_example : exists poll len_file count total files,
  counters len_file count /\ (forall r i, count r i <= total i) /\ final_numbers poll len_file total /\
  compute_shown poll len_file 5 2 files = Ok [SFirst; SCompleted 1; SCompleted 2; SCompleted 3; SCompleted 3].
Proof.
  set (cnt := fun (r i : nat) => match i with 0%nat => if (r =? 0)%nat then 1 else 2 | 1%nat => if (r <? 3)%nat then 0 else 1 | _ => 0 end).
  exists (fun r i => if (r <? 3)%nat then None else Some 0),
         (fun r i => if ((r =? 1) && (i =? 0))%nat then Some [] else Some (py_str (cnt r i) ++ [newline])), cnt,
         (fun i => match i with 0%nat => 2 | 1%nat => 1 | _ => 0 end), [of_string "a" ++ [newline] ++ of_string "b" ++ [newline]; of_string "c" ++ [newline]].
  assert (Cb : forall r i, 0 <= cnt r i <= cnt (S r) i).
  { intros r i. unfold cnt. destruct i as [|[|i]]; [destruct r; cbn; lia| |lia]. destruct (Nat.ltb_spec r 3), (Nat.ltb_spec (S r) 3); lia. }
  split; [|split; [|split]].
  - split; [exact Cb|]. intros r i text. destruct ((r =? 1)%nat && (i =? 0)%nat); intros [= <-]; [left|right]; reflexivity.
  - intros r i. unfold cnt. destruct i as [|[|i]]; [destruct (r =? 0)%nat; lia|destruct (r <? 3)%nat; lia|lia].
  - intros r i c. destruct (Nat.ltb_spec r 3) as [|G]; [discriminate|]. intros _. destruct (Nat.eqb_spec r 1); [lia|]. cbn [andb]. f_equal. f_equal. unfold cnt.
    destruct i as [|[|i]]; [destruct (Nat.eqb_spec r 0); [lia|reflexivity]|destruct (Nat.ltb_spec r 3); [lia|reflexivity]|reflexivity].
  - vm_compute. reflexivity.
Qed.

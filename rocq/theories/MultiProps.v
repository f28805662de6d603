(** C21: the multi-process executor. *)
From Coq Require Import Permutation.
From Verif Require Import PyBase StrModel StrProofs MultiModel ResultsProps.

Section Props.
Variable poll : nat -> nat -> option Z.
Variable len_file : nat -> nat -> option chars.

(** ** Specification *)

(** Process [i] exits with the code [c] (at some turn of the loop). *)
Definition exits (i : nat) (c : Z) : Prop := exists r, poll r i = Some c.

(** An exit code does not change. *)
Definition stable : Prop := forall r i c, poll r i = Some c -> poll (S r) i = Some c.

(** The file of the number of results of a process is empty (being written) or contains an
    integer (ResultsProps.v, C19). *)
Definition len_files_ok : Prop := forall r i text,
  len_file r i = Some text -> text = [] \/ exists k, text = py_str k ++ [newline].

(** ** Proofs *)
Hypothesis Len : len_files_ok.

Lemma poll_one_ok r up st idx : (idx < List.length (m_nums st))%nat ->
  exists st', poll_one poll len_file r (up, st) idx =
    Ok (match poll r idx with None => up ++ [idx] | Some _ => up end, st') /\
    m_codes st' = m_codes st ++ match poll r idx with None => [] | Some c => [(idx, c)] end /\
    m_errors st' = m_errors st ++ match poll r idx with Some c => if c =? 0 then [] else [idx] | None => [] end /\
    List.length (m_nums st') = List.length (m_nums st).
Proof.
  intros Hi. unfold poll_one.
  set (st1 := match poll r idx with None => st | Some c => mk_mstate (m_codes st ++ [(idx, c)])
      (if c =? 0 then m_errors st else m_errors st ++ [idx]) (m_nums st) end).
  assert (E : (match poll r idx with
    | Some code => (up, mk_mstate (m_codes st ++ [(idx, code)])
        (if code =? 0 then m_errors st else m_errors st ++ [idx]) (m_nums st))
    | None => (up ++ [idx], st) end) = (match poll r idx with None => up ++ [idx] | Some _ => up end, st1)).
  { unfold st1. destruct (poll r idx); reflexivity. }
  rewrite E.
  assert (P : m_codes st1 = m_codes st ++ match poll r idx with None => [] | Some c => [(idx, c)] end /\
    m_errors st1 = m_errors st ++ match poll r idx with Some c => if c =? 0 then [] else [idx] | None => [] end /\
    m_nums st1 = m_nums st).
  { unfold st1. destruct (poll r idx) as [c|]; [|rewrite !app_nil_r; repeat split].
    cbn [m_codes m_errors m_nums]. destruct (c =? 0); rewrite ?app_nil_r; repeat split. }
  destruct P as (P1 & P2 & P3).
  destruct (len_file r idx) as [text|] eqn:L.
  - destruct (Len r idx text L) as [->|(k & ->)].
    + exists st1. rewrite P1, P2, P3. repeat split.
    + destruct (py_str k ++ [newline]) as [|x l] eqn:Ek; [destruct (py_str k); discriminate|].
      rewrite <- Ek. pose proof (py_int_str_spaces [] k [newline] (Forall_nil _) newline_space) as PI.
      cbn [app] in PI. rewrite PI. cbn [bind].
      unfold py_update. rewrite P3. unfold zlen.
      replace (Z.of_nat idx <? 0) with false by lia.
      replace (Z.of_nat idx <? Z.of_nat (List.length (m_nums st))) with true by lia.
      replace (0 <=? Z.of_nat idx) with true by lia. cbn [andb bind].
      eexists. split; [reflexivity|]. cbn [m_codes m_errors m_nums]. rewrite P1, P2. repeat split.
      generalize (Z.to_nat (Z.of_nat idx)). generalize (m_nums st). clear.
      intros l n. revert l. induction n as [|n IH]; intros [|x l]; cbn; congruence.
  - exists st1. rewrite P1, P2, P3. repeat split.
Qed.

Definition still r (l : list nat) := filter (fun i => match poll r i with None => true | Some _ => false end) l.
Definition ended r (l : list nat) : list (nat * Z) :=
  flat_map (fun i => match poll r i with None => [] | Some c => [(i, c)] end) l.
Definition failed (l : list (nat * Z)) : list nat :=
  flat_map (fun '(i, c) => if c =? 0 then [] else [i]) l.

Lemma round_ok r l : forall up st, (forall i, In i l -> (i < List.length (m_nums st))%nat) ->
  m_errors st = failed (m_codes st) ->
  exists st', py_for (poll_one poll len_file r) l (up, st) = Ok (up ++ still r l, st') /\
    m_codes st' = m_codes st ++ ended r l /\ m_errors st' = failed (m_codes st') /\
    List.length (m_nums st') = List.length (m_nums st).
Proof.
  induction l as [|i l IH]; intros up st Hl He.
  - exists st. cbn. rewrite !app_nil_r. repeat split; assumption.
  - destruct (poll_one_ok r up st i (Hl i (or_introl eq_refl))) as (st1 & E1 & C1 & R1 & N1).
    cbn [py_for]. rewrite E1.
    assert (He1 : m_errors st1 = failed (m_codes st1)).
    { rewrite R1, C1, He. unfold failed. rewrite flat_map_app. f_equal.
      destruct (poll r i) as [c|]; [|reflexivity]. cbn. rewrite app_nil_r. reflexivity. }
    destruct (IH (match poll r i with None => up ++ [i] | Some _ => up end) st1) as (st2 & E2 & C2 & R2 & N2).
    { intros j Hj. rewrite N1. apply Hl. right; exact Hj. }
    { exact He1. }
    exists st2. rewrite E2. split; [|split; [|split]].
    + f_equal. f_equal. cbn [still filter]. destruct (poll r i); [reflexivity|]. rewrite <- app_assoc. reflexivity.
    + rewrite C2, C1, <- app_assoc. reflexivity.
    + exact R2.
    + rewrite N2, N1. reflexivity.
Qed.

(** state of the loop: each process is running or has its code recorded *)
Definition wait_inv (nb r : nat) (running : list nat) (st : mstate) : Prop :=
  m_errors st = failed (m_codes st) /\ List.length (m_nums st) = nb /\
  Permutation (running ++ map fst (m_codes st)) (seq 0 nb) /\
  (forall i c, In (i, c) (m_codes st) -> exists r', (r' < r)%nat /\ poll r' i = Some c) /\
  (forall i, In i running -> forall r', (r' < r)%nat -> poll r' i = None).

Lemma still_ended r l : Permutation (still r l ++ map fst (ended r l)) l.
Proof.
  induction l as [|i l IH]; [constructor|]. cbn [still filter ended flat_map].
  destruct (poll r i) as [c|]; cbn [app map fst].
  - rewrite <- Permutation_middle. constructor. exact IH.
  - constructor. exact IH.
Qed.

Lemma wait_step nb r running st : wait_inv nb r running st ->
  exists st', py_for (poll_one poll len_file r) running ([], st) = Ok (still r running, st') /\
    wait_inv nb (S r) (still r running) st'.
Proof.
  intros (He & Hn & Hp & Hc & Hr).
  assert (B : forall i, In i running -> (i < List.length (m_nums st))%nat).
  { intros i Hi. rewrite Hn. assert (In i (seq 0 nb)) as I.
    { eapply Permutation_in; [exact Hp|]. apply in_or_app. left; exact Hi. }
    apply in_seq in I. lia. }
  destruct (round_ok r running [] st B He) as (st' & E & C & R & N).
  exists st'. split; [exact E|]. repeat split.
  - exact R.
  - rewrite N. exact Hn.
  - rewrite C, map_app. rewrite <- Hp. rewrite app_assoc.
    rewrite (Permutation_app_comm (still r running)). rewrite <- app_assoc.
    rewrite still_ended. apply Permutation_app_comm.
  - intros i c Hi. rewrite C in Hi. apply in_app_or in Hi. destruct Hi as [Hi|Hi].
    + destruct (Hc i c Hi) as (r' & L & P). exists r'. split; [lia|exact P].
    + unfold ended in Hi. apply in_flat_map in Hi. destruct Hi as (j & Hj & Hi).
      destruct (poll r j) as [d|] eqn:P; [|destruct Hi]. destruct Hi as [[= <- <-]|[]].
      exists r. split; [lia|exact P].
  - intros i Hi r' Hr'. apply filter_In in Hi. destruct Hi as (Hi & Hs).
    destruct (Nat.eq_dec r' r) as [->|]; [destruct (poll r i); [discriminate|reflexivity]|].
    apply Hr; [exact Hi|lia].
Qed.

Lemma wait_loop_inv nb fuel : forall r running st R st',
  wait_inv nb r running st -> wait_loop poll len_file fuel r running st = Ok (R, st') ->
  wait_inv nb R [] st'.
Proof.
  induction fuel as [|fuel IH]; intros r running st R st' I; cbn [wait_loop].
  - destruct running; [|discriminate]. intros [= <- <-]. exact I.
  - destruct running as [|i running]; [intros [= <- <-]; exact I|].
    destruct (wait_step _ _ _ _ I) as (st1 & E & I1). rewrite E. cbn [bind]. apply IH. exact I1.
Qed.

Lemma wait_init nb : wait_inv nb 0 (seq 0 nb) (mk_mstate [] [] (repeat 0 nb)).
Proof.
  repeat split.
  - apply repeat_length.
  - cbn. rewrite app_nil_r. reflexivity.
  - intros i c [].
  - intros i Hi r' Hr'. lia.
Qed.

(** the loop ends when all processes have exited *)
Lemma wait_loop_ends nb (Q : nat -> nat) : forall n r running st,
  wait_inv nb r running st ->
  (forall i, In i running -> (exists c, poll (Q i) i = Some c) /\ (Q i < r + n)%nat) ->
  exists R st', wait_loop poll len_file n r running st = Ok (R, st') /\ (R <= r + n)%nat.
Proof.
  induction n as [|n IH]; intros r running st I H.
  - destruct running as [|i running]; cbn [wait_loop]; [eexists _, _; split; [reflexivity|lia]|].
    destruct (H i (or_introl eq_refl)) as ((c & P) & L).
    destruct I as (_ & _ & _ & _ & Hr). rewrite (Hr i (or_introl eq_refl)) in P; [discriminate|lia].
  - destruct running as [|i running]; [cbn [wait_loop]; eexists _, _; split; [reflexivity|lia]|].
    destruct (wait_step _ _ _ _ I) as (st1 & E & I1). cbn [wait_loop]. rewrite E. cbn [bind].
    destruct (IH (S r) (still r (i :: running)) st1 I1) as (R & st2 & E2 & L2).
    + intros j Hj. apply filter_In in Hj. destruct Hj as (Hj & _).
      destruct (H j Hj) as (Pj & Lj). split; [exact Pj|lia].
    + exists R, st2. split; [exact E2|lia].
Qed.

Lemma stable_le : stable -> forall r r' i c, (r <= r')%nat -> poll r i = Some c -> poll r' i = Some c.
Proof. intros S r r' i c L P. induction L; [exact P|]. apply S. exact IHL. Qed.

Lemma exits_unique : stable -> forall i c d, exits i c -> exits i d -> c = d.
Proof.
  intros S i c d (r & P) (r' & P'). 
  pose proof (stable_le S r (Nat.max r r') i c (Nat.le_max_l _ _) P) as A.
  pose proof (stable_le S r' (Nat.max r r') i d (Nat.le_max_r _ _) P') as B. congruence.
Qed.

(** ** Theorems *)

(** [compute] ends with every process exited (at the latest in the last turn of the loop). *)
Theorem C21_waits : forall fuel num nb files final o,
  num <> 0%nat -> multi_compute poll len_file fuel num nb files final = Ok o ->
  forall i, (i < nb)%nat -> exists r c, (r < o_rounds o)%nat /\ poll r i = Some c.
Proof.
  intros fuel num nb files final o Hn H i Hi. unfold multi_compute in H.
  apply Nat.eqb_neq in Hn. rewrite Hn in H.
  destruct (wait_loop poll len_file fuel 0 (seq 0 nb) (mk_mstate [] [] (repeat 0 nb))) as [[R st]|] eqn:W; [|discriminate].
  pose proof (wait_loop_inv _ _ _ _ _ _ _ (wait_init nb) W) as (_ & _ & P & C & _). cbn [app bind] in *.
  assert (R0 : o_rounds o = R).
  { destruct (run_final final false) as [[ev run] [e|]]; [injection H as <-; reflexivity|].
    destruct (run_final final run) as [[ev2 run2] [e|]]; injection H as <-; reflexivity. }
  assert (In i (map fst (m_codes st))) as I.
  { eapply Permutation_in; [symmetry; exact P|]. apply in_seq. lia. }
  apply in_map_iff in I. destruct I as ([j c] & E & I). cbn in E. subst j.
  destruct (C i c I) as (r & L & Pr). exists r, c. rewrite R0. split; assumption.
Qed.

(** A RuntimeError is raised exactly when some process has a non-zero exit code (the final
    work raising nothing), and only after finalisation. *)
Theorem C21_reports_failures : forall fuel num nb files final o,
  stable -> num <> 0%nat -> (final = None \/ final = Some None) ->
  multi_compute poll len_file fuel num nb files final = Ok o ->
  (o_exn o = Some RuntimeError \/ o_exn o = None) /\
  (o_exn o = Some RuntimeError <-> exists i c, (i < nb)%nat /\ exits i c /\ c <> 0) /\
  exists before, o_events o = before ++ [MRelease].
Proof.
  intros fuel num nb files final o S Hn F H. unfold multi_compute in H.
  apply Nat.eqb_neq in Hn. rewrite Hn in H.
  destruct (wait_loop poll len_file fuel 0 (seq 0 nb) (mk_mstate [] [] (repeat 0 nb))) as [[R st]|] eqn:W; [|discriminate].
  pose proof (wait_loop_inv _ _ _ _ _ _ _ (wait_init nb) W) as (E & _ & P & C & _). cbn [app bind] in *.
  assert (O : o_exn o = match m_errors st with [] => None | _ => Some RuntimeError end /\
              exists before, o_events o = before ++ [MRelease]).
  { destruct F as [->| ->]; cbn [run_final] in H; injection H as <-; (split; [reflexivity|]).
    - exists []. reflexivity.
    - exists [MFinal]. reflexivity. }
  destruct O as (O & B). rewrite O. split; [destruct (m_errors st); [right|left]; reflexivity|].
  split; [|exact B]. rewrite E. split.
  - intros H1. destruct (failed (m_codes st)) as [|i l] eqn:Fl; [discriminate|].
    assert (In i (failed (m_codes st))) as I by (rewrite Fl; left; reflexivity).
    unfold failed in I. apply in_flat_map in I. destruct I as ([j c] & I & Hj).
    destruct (Z.eqb_spec c 0); [destruct Hj|]. destruct Hj as [<-|[]].
    destruct (C _ _ I) as (r & _ & Pr). exists j, c. split; [|split; [exists r; exact Pr|assumption]].
    assert (In j (seq 0 nb)) as J.
    { eapply Permutation_in; [exact P|]. apply in_map_iff. exists (j, c). split; [reflexivity|exact I]. }
    apply in_seq in J. lia.
  - intros (i & c & Hi & X & Nc).
    assert (In i (map fst (m_codes st))) as I.
    { eapply Permutation_in; [symmetry; exact P|]. apply in_seq. lia. }
    apply in_map_iff in I. destruct I as ([j d] & Ej & I). cbn in Ej. subst j.
    destruct (C i d I) as (r & _ & Pr).
    assert (d = c) by (eapply exits_unique; [exact S|exists r; exact Pr|exact X]). subst d.
    assert (In i (failed (m_codes st))) as K.
    { unfold failed. apply in_flat_map. exists (i, c). split; [exact I|].
      destruct (Z.eqb_spec c 0); [contradiction|]. left; reflexivity. }
    destruct (failed (m_codes st)); [destruct K|reflexivity].
Qed.

(** The list of results: the names recorded by the processes, the files being read in some
    order.  [names i]: the names recorded by the process [i]. *)
Definition clean (n : chars) : Prop :=
  Forall (fun c => Ascii.eqb c newline = false) n /\ strip n = n.

Lemma strip_newline n : strip n = n -> strip (n ++ [newline]) = n.
Proof.
  intros H. unfold strip, rstrip in *.
  destruct n as [|c n]; [reflexivity|].
  cbn [app]. destruct (is_space c) eqn:Sp.
  - exfalso. cbn [lstrip] in H. rewrite Sp in H.
    assert (L : forall s, (List.length (lstrip s) <= List.length s)%nat).
    { clear. induction s as [|x s IH]; [reflexivity|]. cbn. destruct (is_space x); cbn; lia. }
    apply (f_equal (@List.length _)) in H. rewrite rev_length in H. cbn [List.length] in H.
    pose proof (L (rev (lstrip n))) as A. pose proof (L n) as B. rewrite rev_length in A. lia.
  - cbn [lstrip] in *. rewrite Sp in *. rewrite app_comm_cons, rev_unit. cbn [lstrip].
    change (is_space newline) with true. cbv iota. exact H.
Qed.

Lemma read_lines ns : Forall clean ns -> map strip (file_lines (lines ns)) = ns.
Proof.
  induction 1 as [|n ns (H1 & H2) _ IH]; [reflexivity|]. unfold lines in *. cbn [map List.concat].
  rewrite <- app_assoc. cbn [app]. rewrite file_lines_line by exact H1. cbn [map].
  rewrite strip_newline by exact H2. rewrite IH. reflexivity.
Qed.

Theorem C21_results : forall fuel num nb names files final o,
  num <> 0%nat -> multi_compute poll len_file fuel num nb files final = Ok o ->
  (forall i, (i < nb)%nat -> Forall clean (names i)) ->
  Permutation files (map (fun i => lines (names i)) (seq 0 nb)) ->
  exists order, Permutation order (seq 0 nb) /\ o_results o = flat_map names order.
Proof.
  intros fuel num nb names files final o Hn H Cl P. unfold multi_compute in H.
  apply Nat.eqb_neq in Hn. rewrite Hn in H.
  destruct (wait_loop poll len_file fuel 0 (seq 0 nb) (mk_mstate [] [] (repeat 0 nb))) as [[R st]|]; [|discriminate].
  cbn [bind] in H.
  assert (O : o_results o = read_results files).
  { destruct (run_final final false) as [[ev run] [e|]]; [injection H as <-; reflexivity|].
    destruct (run_final final run) as [[ev2 run2] [e|]]; injection H as <-; reflexivity. }
  rewrite O. apply Permutation_map_inv in P. destruct P as (order & -> & Po).
  exists order. split; [symmetry; exact Po|]. unfold read_results.
  assert (In_order : forall i, In i order -> (i < nb)%nat).
  { intros i Hi. apply (Permutation_in _ (Permutation_sym Po)) in Hi. apply in_seq in Hi. lia. }
  clear - Cl In_order. induction order as [|i order IH]; [reflexivity|].
  cbn [map flat_map]. rewrite read_lines by (apply Cl, In_order; left; reflexivity).
  f_equal. apply IH. intros j Hj. apply In_order. right; exact Hj.
Qed.

(** It ends if and only if every process exits. *)
Theorem C21_ends_iff : forall num nb files final, num <> 0%nat ->
  ((exists fuel o, multi_compute poll len_file fuel num nb files final = Ok o) <->
   (forall i, (i < nb)%nat -> exists c, exits i c)).
Proof.
  intros num nb files final Hn. split.
  - intros (fuel & o & H) i Hi. destruct (C21_waits _ _ _ _ _ _ Hn H i Hi) as (r & c & _ & P).
    exists c, r. exact P.
  - intros H. 
    assert (B : exists (Q : nat -> nat) n, forall i, (i < nb)%nat ->
        (exists c, poll (Q i) i = Some c) /\ (Q i < n)%nat).
    { clear - H. induction nb as [|nb IH]; [exists (fun _ => O), O; lia|].
      destruct IH as (Q & n & I); [intros i Hi; apply H; lia|].
      destruct (H nb (Nat.lt_succ_diag_r nb)) as (c & r & P).
      exists (fun i => if Nat.eqb i nb then r else Q i), (Nat.max n (S r)). intros i Hi.
      destruct (Nat.eqb_spec i nb) as [->|].
      - split; [exists c; exact P|lia].
      - destruct (I i ltac:(lia)) as (A & L). split; [exact A|lia]. }
    destruct B as (Q & n & B).
    destruct (wait_loop_ends nb Q n 0 (seq 0 nb) _ (wait_init nb)) as (R & st & E & _).
    { intros i Hi. apply in_seq in Hi. destruct (B i ltac:(lia)) as (A & L). split; [exact A|lia]. }
    exists n. unfold multi_compute. apply Nat.eqb_neq in Hn. rewrite Hn, E. cbn [bind].
    destruct (run_final final false) as [[ev run] [e|]]; [eexists; reflexivity|].
    destruct (run_final final run) as [[ev2 run2] [e|]]; eexists; reflexivity.
Qed.

(** The final work is called exactly once (in the main process), before finalisation. *)
Theorem C21_final_once : forall fuel num nb files o,
  num <> 0%nat -> multi_compute poll len_file fuel num nb files (Some None) = Ok o ->
  o_events o = [MFinal; MRelease].
Proof.
  intros fuel num nb files o Hn H. unfold multi_compute in H. apply Nat.eqb_neq in Hn. rewrite Hn in H.
  destruct (wait_loop poll len_file fuel 0 (seq 0 nb) (mk_mstate [] [] (repeat 0 nb))) as [[R st]|]; [|discriminate].
  injection H as <-. reflexivity.
Qed.

End Props.
Print Assumptions C21_waits.
Print Assumptions C21_reports_failures.
Print Assumptions C21_results.
Print Assumptions C21_ends_iff.
Print Assumptions C21_final_once.

(** A final work which raises hides the failures of the processes, and the executor is not
    finalised (the lock stays until the interpreter exits). *)
Theorem C21_final_raises_refuted : exists poll len_file o,
  stable poll /\ len_files_ok len_file /\ exits poll 0 1 /\
  multi_compute poll len_file 1 1 1 [] (Some (Some ValueError)) = Ok o /\
  o_exn o = Some ValueError /\ o_events o = [MFinal].
Proof.
  exists (fun _ _ => Some 1), (fun _ _ => None). eexists.
  split; [intros r i c H; exact H|]. split; [intros r i t [=]|]. split; [exists 0%nat; reflexivity|].
  repeat split; reflexivity.
Qed.
Print Assumptions C21_final_raises_refuted.

(** When there is nothing to compute, the executor returns without finalisation: the standard
    streams stay redirected to the log file. *)
Theorem C21_nothing_to_do_not_finalised : forall poll len_file fuel nb files final,
  multi_compute poll len_file fuel 0 nb files final = Ok (mk_moutcome 0 [] [] None).
Proof. reflexivity. Qed.
Print Assumptions C21_nothing_to_do_not_finalised.

(** Example: three processes exiting in the order 2, 0, 1; process 2 fails. *)
Definition ex_poll (r i : nat) : option Z :=
  match i with
  | 0%nat => if (2 <=? r)%nat then Some 0 else None
  | 1%nat => if (4 <=? r)%nat then Some 0 else None
  | _ => if (1 <=? r)%nat then Some (-9) else None
  end.
Definition ex_len (r i : nat) : option chars :=
  if (r =? 0)%nat then Some [] else Some (py_str (Z.of_nat r) ++ [newline]).
Definition ex_names (i : nat) : list chars :=
  match i with
  | 0%nat => [of_string "a.h5"; of_string "b.h5"]
  | 1%nat => []
  | _ => [of_string "c d.h5"]
  end.
Example C21_example :
  stable ex_poll /\ len_files_ok ex_len /\ exits ex_poll 2 (-9) /\
  (forall i, (i < 3)%nat -> Forall clean (ex_names i)) /\
  exists o, multi_compute ex_poll ex_len 5 10 3
      [lines (ex_names 2); lines (ex_names 0); lines (ex_names 1)] (Some None) = Ok o /\
    o_rounds o = 5%nat /\ o_exn o = Some RuntimeError /\ o_events o = [MFinal; MRelease] /\
    o_results o = map of_string ["c d.h5"; "a.h5"; "b.h5"]%string.
Proof.
  split; [|split; [|split; [|split]]].
  - intros r [|[|i]] c; unfold ex_poll.
    + destruct (Nat.leb_spec 2 r), (Nat.leb_spec 2 (S r)); try discriminate; try lia; auto.
    + destruct (Nat.leb_spec 4 r), (Nat.leb_spec 4 (S r)); try discriminate; try lia; auto.
    + destruct (Nat.leb_spec 1 r), (Nat.leb_spec 1 (S r)); try discriminate; try lia; auto.
  - intros r i t. unfold ex_len. destruct (r =? 0)%nat; intros [= <-]; [left; reflexivity|].
    right. eexists; reflexivity.
  - exists 1%nat. reflexivity.
  - intros [|[|[|i]]] Hi; cbn [ex_names]; [| | |lia].
    + repeat constructor.
    + constructor.
    + repeat constructor.
  - eexists. vm_compute. repeat split; reflexivity.
Qed.

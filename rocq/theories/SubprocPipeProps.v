(** The outputs of the processes of multi_exec_subproc (C129). *)
From Verif Require Import PyBase SubprocPipeModel.
Local Open Scope nat_scope.

(** ** Specification: the bytes which a program sends to the pipes *)
(** on stderr: all of them *)
Definition err_bytes (p : list action) : nat := list_sum (map (fun a => match a with PrintErr n => n | _ => 0 end) p).
(** on stdout: what is printed while sys.stdout is the pipe; [b]: it is at the beginning; [old]: it was before the executor *)
Fixpoint out_bytes (b old : bool) (p : list action) : nat :=
  match p with
  | [] => 0
  | Print n :: l => (if b then n else 0) + out_bytes b old l
  | PrintErr _ :: l => out_bytes b old l
  | NewExecutor r :: l => out_bytes (if r then false else b) b l
  | EndCompute :: l => out_bytes old old l
  end.
Definition fits (cap : nat) (p : list action) : Prop := out_bytes true true p <= cap /\ err_bytes p <= cap.

Section Props.
Variable cap : nat.
Notation cstep := (cstep cap).
Notation step := (step cap).
Notation reach := (reach cap).

(** what is and will be in the pipes *)
Definition tot_out (c : child) : nat := c_out c + out_bytes (c_stdout c) (c_old c) (c_todo c).
Definition tot_err (c : child) : nat := c_err c + err_bytes (c_todo c).
Definition below (c : child) : Prop := c_out c <= cap /\ c_err c <= cap.
Definition size (a : action) : nat := match a with Print n | PrintErr n => S n | _ => 1 end.
Definition work (c : child) : nat := list_sum (map size (c_todo c)).

Lemma cstep_tot c c' : cstep c = Some c' -> tot_out c' = tot_out c /\ tot_err c' = tot_err c /\ (below c -> below c') /\ work c' < work c.
Proof.
  unfold SubprocPipeModel.cstep, tot_out, tot_err, below, work, err_bytes. destruct c as [todo b old o e]. cbn [c_todo c_stdout c_old c_out c_err].
  destruct todo as [|[n|n|r|] l]; [discriminate|..]; cbn [out_bytes map list_sum fold_right size].
  - destruct b.
    + destruct n as [|n].
      * intros [= <-]. cbn. lia.
      * destruct (o <? cap) eqn:E; [|discriminate]. apply Nat.ltb_lt in E. intros [= <-]. cbn. lia.
    + intros [= <-]. cbn. lia.
  - destruct n as [|n].
    + intros [= <-]. cbn. lia.
    + destruct (e <? cap) eqn:E; [|discriminate]. apply Nat.ltb_lt in E. intros [= <-]. cbn. lia.
  - intros [= <-]. cbn. lia.
  - intros [= <-]. cbn. lia.
Qed.

(** a process which has not ended is blocked only by a pipe which is full *)
Lemma cstep_enabled c : ended c = false -> tot_out c <= cap -> tot_err c <= cap -> exists c', cstep c = Some c'.
Proof.
  unfold SubprocPipeModel.cstep, ended, tot_out, tot_err, err_bytes. destruct c as [todo b old o e]. cbn [c_todo c_stdout c_old c_out c_err].
  destruct todo as [|[n|n|r|] l]; [discriminate|..]; cbn [out_bytes map list_sum fold_right]; intros _ Ho He.
  - destruct b; [|eexists; reflexivity]. destruct n as [|n]; [eexists; reflexivity|].
    destruct (o <? cap) eqn:E; [eexists; reflexivity|]. apply Nat.ltb_ge in E. lia.
  - destruct n as [|n]; [eexists; reflexivity|]. destruct (e <? cap) eqn:E; [eexists; reflexivity|]. apply Nat.ltb_ge in E. lia.
  - eexists; reflexivity.
  - eexists; reflexivity.
Qed.

(** the invariant: the k-th process is an execution of the k-th program *)
Definition runs (p : list action) (c : child) : Prop := tot_out c = out_bytes true true p /\ tot_err c = err_bytes p /\ below c.
Definition inv (ps : list (list action)) (s : system) : Prop :=
  List.length (s_children s) = List.length ps /\
  (forall k p c, nth_error ps k = Some p -> nth_error (s_children s) k = Some c -> runs p c) /\
  (s_returned s = true -> forallb ended (s_children s) = true).

Lemma nth_set {A} (l : list A) k c c' j : nth_error l k = Some c -> nth_error (firstn k l ++ c' :: skipn (S k) l) j = if j =? k then Some c' else nth_error l j.
Proof.
  revert k j. induction l as [|a l IH]; intros [|k] j H; try discriminate.
  - cbn [firstn app skipn]. destruct j; reflexivity.
  - destruct j as [|j]; [reflexivity|]. cbn [firstn app skipn nth_error Nat.eqb]. apply (IH k j H).
Qed.
Lemma len_set {A} (l : list A) k c c' : nth_error l k = Some c -> List.length (firstn k l ++ c' :: skipn (S k) l) = List.length l.
Proof.
  revert k. induction l as [|a l IH]; intros [|k] H; try discriminate; [reflexivity|]. cbn [firstn app skipn List.length]. f_equal. apply (IH k H).
Qed.

Lemma inv_start ps : inv ps (start ps).
Proof.
  unfold inv, start. cbn [s_children s_returned]. split; [apply map_length|]. split; [|discriminate].
  intros k p c Hp Hc. rewrite nth_error_map, Hp in Hc. injection Hc as <-. unfold runs, tot_out, tot_err, below. cbn. repeat split; lia.
Qed.
Lemma inv_step ps s s' : inv ps s -> step s s' -> inv ps s'.
Proof.
  intros (L & R & D) H. inversion H as [cs k c c' Hk Hc|cs He]; subst; unfold inv; cbn [s_children s_returned] in *.
  - split; [rewrite (len_set _ _ _ _ Hk); exact L|]. split; [|discriminate].
    intros j p d Hp Hd. cbn [s_children] in Hd. rewrite (nth_set _ _ _ _ _ Hk) in Hd. destruct (j =? k) eqn:E; [|apply (R j p d Hp Hd)].
    apply Nat.eqb_eq in E. subst j. injection Hd as <-. destruct (R k p c Hp Hk) as (R1 & R2 & R3).
    destruct (cstep_tot _ _ Hc) as (T1 & T2 & T3 & _). unfold runs. rewrite T1, T2. auto.
  - split; [exact L|]. split; [exact R|]. intros _. exact He.
Qed.
Lemma inv_reach ps s : reach (start ps) s -> inv ps s.
Proof. intros H. remember (start ps) as s0 eqn:E. induction H as [s|s s' s2 _ IH H2]; [subst; apply inv_start|]. eapply inv_step; [apply IH, E|exact H2]. Qed.

(** a process which has ended has written everything *)
Lemma ended_fits p c : runs p c -> ended c = true -> fits cap p.
Proof.
  unfold runs, ended, fits, tot_out, tot_err, below. destruct (c_todo c); [|discriminate]. cbn. lia.
Qed.

(** ** A program which writes too much *)
(** It never ends, whatever the others do, and the method compute never returns. *)
Theorem C129_blocked programs k p s : nth_error programs k = Some p -> ~ fits cap p -> reach (start programs) s ->
  s_returned s = false /\ exists c, nth_error (s_children s) k = Some c /\ ended c = false.
Proof.
  intros Hp Hf H. destruct (inv_reach _ _ H) as (L & R & D).
  destruct (nth_error (s_children s) k) as [c|] eqn:Hc.
  2:{ apply nth_error_None in Hc. assert (k < List.length programs) by (apply nth_error_Some; congruence). lia. }
  assert (Ec : ended c = false).
  { destruct (ended c) eqn:E; [|reflexivity]. exfalso. apply Hf. apply (ended_fits p c (R k p c Hp Hc) E). }
  split; [|exists c; split; [reflexivity|exact Ec]]. destruct (s_returned s) eqn:Er; [|reflexivity]. specialize (D eq_refl).
  rewrite forallb_forall in D. apply nth_error_In in Hc. rewrite (D c Hc) in Ec. discriminate.
Qed.

(** ** Programs which write little *)
Definition todo (s : system) : nat := list_sum (map work (s_children s)) + (if s_returned s then 0 else 1).

Lemma sum_set (l : list child) k c c' : nth_error l k = Some c -> work c' < work c ->
  list_sum (map work (firstn k l ++ c' :: skipn (S k) l)) < list_sum (map work l).
Proof.
  revert k. induction l as [|a l IH]; intros [|k] H W; try discriminate.
  - injection H as ->. cbn [firstn app skipn map list_sum fold_right]. lia.
  - cbn [firstn app skipn map list_sum fold_right]. specialize (IH k H W). cbn [skipn] in IH. unfold list_sum in *. cbn [skipn]. apply Nat.add_lt_mono_l. exact IH.
Qed.

(** Every step brings the end nearer (whatever the programs), and as long as compute has not returned some step is
    possible: every execution which is not stopped ends with the return of compute. *)
Theorem C129_ends programs s : Forall (fits cap) programs -> reach (start programs) s ->
  (forall s', step s s' -> todo s' < todo s) /\ (s_returned s = false -> exists s', step s s').
Proof.
  intros HF H. split.
  - intros s' Hs. inversion Hs as [cs k c c' Hk Hc|cs He]; subst; unfold todo; cbn [s_children s_returned].
    + destruct (cstep_tot _ _ Hc) as (_ & _ & _ & W). pose proof (sum_set _ _ _ _ Hk W). lia.
    + lia.
  - intros Er. destruct (inv_reach _ _ H) as (L & R & _). destruct s as [cs r]. cbn [s_children s_returned] in *. subst r.
    destruct (forallb ended cs) eqn:E; [exists (mk_system cs true); constructor; exact E|].
    assert (N : exists k c, nth_error cs k = Some c /\ ended c = false).
    { clear -E. induction cs as [|c cs IH]; [discriminate|]. cbn [forallb] in E. destruct (ended c) eqn:Ec; cbn [andb] in E.
      - destruct (IH E) as (k & d & H1 & H2). exists (S k), d. split; assumption.
      - exists 0, c. split; [reflexivity|exact Ec]. }
    destruct N as (k & c & Hk & Hc).
    assert (P : exists p, nth_error programs k = Some p).
    { destruct (nth_error programs k) as [p|] eqn:Ep; [exists p; reflexivity|]. apply nth_error_None in Ep.
      assert (k < List.length cs) by (apply nth_error_Some; congruence). lia. }
    destruct P as (p & Hp). destruct (R k p c Hp Hk) as (T1 & T2 & _).
    rewrite Forall_forall in HF. destruct (HF p (nth_error_In _ _ Hp)) as (F1 & F2).
    destruct (cstep_enabled c Hc) as (c' & Hc'); [rewrite T1; exact F1|rewrite T2; exact F2|].
    eexists. eapply SChild; [exact Hk|exact Hc'].
Qed.

(** ** compute can return exactly when each process writes at most the capacity of a pipe on each stream *)
Theorem C129_ends_iff programs : (exists s, reach (start programs) s /\ s_returned s = true) <-> Forall (fits cap) programs.
Proof.
  split.
  - intros (s & H & Er). apply Forall_forall. intros p Hp. apply In_nth_error in Hp. destruct Hp as (k & Hk).
    assert (D : fits cap p \/ ~ fits cap p). { unfold fits. destruct (le_dec (out_bytes true true p) cap), (le_dec (err_bytes p) cap); tauto. }
    destruct D as [D|D]; [exact D|]. destruct (C129_blocked programs k p s Hk D H) as (E & _). congruence.
  - intros HF. assert (G : forall n s, todo s <= n -> reach (start programs) s -> exists s', reach (start programs) s' /\ s_returned s' = true).
    { induction n as [|n IH]; intros s Hn H; destruct (s_returned s) eqn:Er; try (exists s; split; assumption).
      - unfold todo in Hn. rewrite Er in Hn. lia.
      - destruct (C129_ends programs s HF H) as (M & N). destruct (N Er) as (s' & Hs). apply (IH s').
        + specialize (M s' Hs). lia.
        + eapply r_step; [exact H|exact Hs]. }
    apply (G (todo (start programs)) (start programs)); [lia|constructor].
Qed.
End Props.

(** ** What is printed by the works *)
Lemma out_app_prints b old works rest : Forall (fun a => match a with Print _ | PrintErr _ => True | _ => False end) works ->
  out_bytes b old (works ++ rest) = (if b then list_sum (map (fun a => match a with Print n => n | _ => 0 end) works) else 0) + out_bytes b old rest.
Proof.
  induction 1 as [|a works Ha _ IH]; [destruct b; reflexivity|]. destruct a as [n|n|r|]; try contradiction; cbn [app out_bytes map list_sum fold_right]; rewrite IH; destruct b; unfold list_sum; lia.
Qed.
Lemma err_app p q : err_bytes (p ++ q) = err_bytes p + err_bytes q.
Proof. unfold err_bytes. rewrite map_app, list_sum_app. reflexivity. Qed.

(** what a process does: before the executor, the works, the end *)
Definition program (has_results : bool) (before works after : list action) : list action :=
  before ++ NewExecutor has_results :: works ++ EndCompute :: after.
Definition prints (l : list action) : Prop := Forall (fun a => match a with Print _ | PrintErr _ => True | _ => False end) l.
Definition printed (l : list action) : nat := list_sum (map (fun a => match a with Print n => n | _ => 0 end) l).

(** With a topology which has a list of results, what the works print on stdout never blocks; what they print on stderr
    counts.  Without list of results both count. *)
Theorem C129_works cap has_results before works after : prints before -> prints works -> prints after ->
  fits cap (program has_results before works after) <->
  printed before + (if has_results then 0 else printed works) + printed after <= cap /\
  err_bytes before + err_bytes works + err_bytes after <= cap.
Proof.
  intros H1 H2 H3. unfold fits, program. rewrite out_app_prints by exact H1. cbn [out_bytes]. rewrite out_app_prints by exact H2. cbn [out_bytes].
  rewrite <- (app_nil_r after), out_app_prints by exact H3. cbn [out_bytes]. rewrite app_nil_r. fold (printed before) (printed works) (printed after).
  assert (E : err_bytes (before ++ NewExecutor has_results :: works ++ EndCompute :: after) = err_bytes before + err_bytes works + err_bytes after).
  { rewrite err_app. change (NewExecutor has_results :: works ++ EndCompute :: after) with ([NewExecutor has_results] ++ works ++ [EndCompute] ++ after).
    rewrite !err_app. unfold err_bytes at 2 4. cbn. lia. }
  rewrite E. destruct has_results; lia.
Qed.

(** "compute returns once the items are treated": refuted.  With a message of at least one byte on stderr for each item (for
    a topology without list of results: on stdout), a process with more items than the capacity of a pipe never ends,
    whatever the capacity, and compute never returns. *)
Theorem C129_refuted cap has_results n b s : 1 <= b -> cap < n ->
  (reach cap (start [program has_results [] (repeat (PrintErr b) n) []]) s -> s_returned s = false) /\
  (reach cap (start [program false [] (repeat (Print b) n) []]) s -> s_returned s = false).
Proof.
  intros Hb Hn. assert (P : forall a, (match a with Print _ | PrintErr _ => True | _ => False end) -> prints (repeat a n)).
  { intros a Ha. unfold prints. apply Forall_forall. intros x Hx. apply repeat_spec in Hx. subst x. exact Ha. }
  assert (S : forall f : action -> nat, forall a, list_sum (map f (repeat a n)) = n * f a).
  { intros f a. clear. induction n as [|n IH]; [reflexivity|]. cbn [repeat map list_sum fold_right Nat.mul]. unfold list_sum in IH. lia. }
  split; intros H.
  - destruct (C129_blocked cap [program has_results [] (repeat (PrintErr b) n) []] 0 (program has_results [] (repeat (PrintErr b) n) []) s eq_refl) as (E & _); [|exact H|exact E].
    rewrite C129_works; [|constructor|apply P; exact I|constructor].
    intros (_ & K). unfold err_bytes in K. rewrite S in K. cbn in K. nia.
  - destruct (C129_blocked cap [program false [] (repeat (Print b) n) []] 0 (program false [] (repeat (Print b) n) []) s eq_refl) as (E & _); [|exact H|exact E].
    rewrite C129_works; [|constructor|apply P; exact I|constructor].
    intros (K & _). unfold printed in K. rewrite S in K. cbn in K. nia.
Qed.

(** ** Examples *)
(** a process which writes less than the capacity: compute returns; one byte more: it does not *)
Example C129_example_ends : exists s, reach 5 (start [program true [Print 2] [Print 9; PrintErr 3; Print 9] [Print 3]; []]) s /\ s_returned s = true.
Proof. apply C129_ends_iff. repeat constructor; cbn; lia. Qed.
Example C129_example_blocked s : reach 5 (start [program true [Print 2] [Print 9; PrintErr 6] [Print 3]; []]) s -> s_returned s = false.
Proof. intros H. destruct (C129_blocked 5 [program true [Print 2] [Print 9; PrintErr 6] [Print 3]; []] 0 (program true [Print 2] [Print 9; PrintErr 6] [Print 3]) s eq_refl) as (E & _); [|exact H|exact E]. intros (_ & K). cbn in K. lia. Qed.

Print Assumptions C129_blocked.
Print Assumptions C129_ends.
Print Assumptions C129_ends_iff.
Print Assumptions C129_works.
Print Assumptions C129_refuted.

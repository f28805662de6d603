(** C127: the request to stop sent with the signal 12.

    Chains of works as in [ExecProps]; [places], [finals], [calls], [expected], [pipe] are the
    vocabulary of [ExecSpec]: where a key is, what the last work has delivered, the calls of
    the function of a work, what the composed functions give. *)
From Coq Require Import Permutation.
From Verif Require Import PyBase QueueModel ExecModel ExecSpec ExecProofs ExecAsyncProofs
     ExecGenProofs ExecBoundProofs ExecEndProofs ExecLiveProofs ExecProps SignalModel SignalProofs.

(** ** Specification *)

(** An infinite execution with signals: at each instant a step of the program, the reception
    of a signal, or nothing. *)
Definition is_signalled_execution {V} (p : params V) (s0 : ast V) (st : nat -> ast V)
           (lab : nat -> option slabel) : Prop :=
  st 0%nat = s0 /\
  forall t, match lab t with
            | Some (Prog l) => step p (st t) l = Some (st (S t))
            | Some Signal => st (S t) = receive (st t)
            | None => st (S t) = st t
            end.

(** Fairness as for C10: every loop which has not returned is run again and again, every task
    which has been spawned is eventually started, every thread eventually finishes. *)
Definition signalled_fair {V} (p : params V) (st : nat -> ast V) (lab : nat -> option slabel) : Prop :=
  (forall t i, (i < List.length (p_works p))%nat ->
     exists t', (t <= t')%nat /\ (lab t' = Some (Prog (LCheck i)) \/ a_exited (st t') i = true)) /\
  (forall t, exists t', (t <= t')%nat /\ (lab t' = Some (Prog LPoll) \/ a_poll_done (st t') = true)) /\
  (forall t tk, In tk (a_tasks (st t)) -> t_st tk = Spawned ->
     exists t', (t <= t')%nat /\ lab t' = Some (Prog (LStart (t_id tk)))) /\
  (forall t tk k v, In tk (a_tasks (st t)) -> t_st tk = Running k v ->
     exists t', (t <= t')%nat /\ lab t' = Some (Prog (LFinish (t_id tk)))).

(** ** The items *)

(** Whatever the signals, each item is at one place, transformed by the functions of the works
    before this place: nothing is computed twice, mixed up or corrupted. *)
Theorem C127_one_place :
  forall (V : Type) (fs : list (bool * (nat -> V -> item V))) (nb lim : Z) (sie : bool)
         (inputs : list (nat * item V)) (s : ast V),
  let p := mk_params nb lim sie (List.length fs) (chain_works fs) in
  fs <> [] -> NoDup (map fst inputs) ->
  sreachable p (init (chain_queues inputs)) s -> a_raised s = None ->
  (forall k x, In (k, x) inputs ->
     exists pl, places (List.length fs) s k
                = [(pl, pipe (firstn (passed (List.length fs) pl) (map snd fs)) k x)]) /\
  (forall k, ~ In k (map fst inputs) -> places (List.length fs) s k = []).
Proof.
  intros V fs nb lim sie inputs s p Hne Hk HR Hr.
  pose proof (sreach_erase fs p eq_refl _ _ HR) as HE.
  exact (C08_one_place V fs nb lim sie inputs (erase s) Hne Hk HE Hr).
Qed.
Print Assumptions C127_one_place.

(** At the end an item is delivered with its result, or it has been left before a work. *)
Theorem C127_end :
  forall (V : Type) (fs : list (bool * (nat -> V -> item V))) (nb lim : Z) (sie : bool)
         (inputs : list (nat * item V)) (s : ast V),
  let p := mk_params nb lim sie (List.length fs) (chain_works fs) in
  fs <> [] -> NoDup (map fst inputs) ->
  sreachable p (init (chain_queues inputs)) s -> a_raised s = None -> ended p s ->
  forall k x, In (k, x) inputs ->
    places (List.length fs) s k = [(Delivered, pipe (map snd fs) k x)] \/
    exists i, (i < List.length fs)%nat /\
      places (List.length fs) s k = [(Waiting i, pipe (firstn i (map snd fs)) k x)].
Proof.
  intros V fs nb lim sie inputs s p Hne Hk HR Hr (He & Ht & Hp) k x HI.
  destruct (proj1 (C127_one_place V fs nb lim sie inputs s Hne Hk HR Hr) k x HI) as [pl HP].
  assert (HIn : In (pl, pipe (firstn (passed (List.length fs) pl) (map snd fs)) k x) (places (List.length fs) s k))
    by (rewrite HP; left; reflexivity).
  destruct pl as [i|i|].
  - right. exists i. split; [|exact HP]. unfold places in HIn. apply in_app_iff in HIn. destruct HIn as [HIn|HIn].
    + apply in_flat_map in HIn. destruct HIn as (j & Hj & HIn). apply in_seq in Hj. apply in_flat_map in HIn.
      destruct HIn as ([k' it] & _ & HIn). destruct (Nat.eqb k' k); [|destruct HIn]. destruct HIn as [HIn|[]]. injection HIn as <- _. lia.
    + exfalso. rewrite Ht in HIn. cbn [flat_map app] in HIn. apply in_flat_map in HIn.
      destruct HIn as ([k' it] & _ & HIn). destruct (Nat.eqb k' k); [|destruct HIn]. destruct HIn as [HIn|[]]. discriminate.
  - exfalso. unfold places in HIn. apply in_app_iff in HIn. destruct HIn as [HIn|HIn].
    + apply in_flat_map in HIn. destruct HIn as (j & Hj & HIn). apply in_flat_map in HIn.
      destruct HIn as ([k' it] & _ & HIn). destruct (Nat.eqb k' k); [|destruct HIn]. destruct HIn as [HIn|[]]. discriminate.
    + rewrite Ht in HIn. cbn [flat_map app] in HIn. apply in_flat_map in HIn.
      destruct HIn as ([k' it] & _ & HIn). destruct (Nat.eqb k' k); [|destruct HIn]. destruct HIn as [HIn|[]]. discriminate.
  - left. rewrite HP. cbn [passed]. rewrite firstn_all2; [reflexivity|]. rewrite map_length. lia.
Qed.
Print Assumptions C127_end.

(** The functions which are being executed when the signal is received are executed to their
    end (whatever the topology). *)
Theorem C127_running_functions_finish :
  forall (V : Type) (p : params V) (qs : queues V) (s s' : ast V) (tk : task V) (k : nat) (v : V),
  p_stop_if_error p = false ->
  sreachable p (init qs) s -> In tk (a_tasks s) -> t_st tk = Running k v ->
  sreachable p (receive s) s' -> ended p s' ->
  In (k, v) (calls (t_work tk) (a_tr s')).
Proof.
  intros V p qs s s' tk k v Hsie H0 HI Hst HR (_ & Ht & _).
  assert (GS : forall s1 l s2, G p s1 -> sstep p s1 l = Some s2 -> G p s2).
  { intros s1 [l|] s2 HG HS; [eapply G_step; eassumption|]. injection HS as <-. destruct HG. constructor; try assumption. }
  assert (G0 : G p (receive s)).
  { apply (GS s Signal); [|reflexivity]. clear -H0 GS. induction H0; [apply G_init|eapply GS; eassumption]. }
  assert (HG : G p s' /\ (In tk (a_tasks s') \/ In (k, v) (calls (t_work tk) (a_tr s')))).
  { clear Ht H0. induction HR as [|s1 l s2 HR [GI IH] HS]; [split; [exact G0|left; exact HI]|].
    split; [eapply GS; eassumption|].
    assert (Hgrow : exists evs, a_tr s2 = a_tr s1 ++ evs).
    { destruct l as [l|]; [|injection HS as <-; exists []; cbn; rewrite app_nil_r; reflexivity].
      cbn [sstep] in HS. unfold step in HS. destruct (a_raised s1); [discriminate|]. destruct l as [i|id|id|].
      - unfold check in HS. destruct (a_exited s1 i); [discriminate|]. destruct (nth_error (p_works p) i) as [w|]; [|discriminate].
        destruct (w_body w) as [inq f|ready g].
        + match type of HS with context [if ?c then _ else _] => destruct c end; [destruct (a_stop s1)|]; injection HS as <-; exists []; cbn; rewrite app_nil_r; reflexivity.
        + destruct (ready (a_qs s1)).
          * destruct (g (a_qs s1)); [destruct (a_stop s1)|]; injection HS as <-; cbn; eexists; try reflexivity. symmetry; apply app_nil_r.
          * destruct (a_stop s1); injection HS as <-; exists []; cbn; rewrite app_nil_r; reflexivity.
      - unfold start in HS. destruct (find_task id s1) as [[id0 i s0]|]; [|discriminate]. destruct s0; [|discriminate].
        destruct (nth_error (p_works p) i) as [w|]; [|discriminate]. destruct (w_body w) as [inq f|]; [|discriminate]. cbv zeta in HS.
        destruct (q_pop_first _) as [[[k0 [v0|e0]] q']|]; injection HS as <-; [|destruct (w_out w)|]; destruct (w_io w); cbn;
          first [exists []; rewrite app_nil_r; reflexivity|eexists; reflexivity].
      - unfold finish in HS. destruct (find_task id s1) as [[id0 i s0]|]; [|discriminate]. destruct s0 as [|k0 v0]; [discriminate|].
        destruct (nth_error (p_works p) i) as [w|]; [|discriminate]. destruct (w_body w) as [inq f|]; [|discriminate]. cbv zeta in HS. rewrite Hsie in HS.
        destruct (f k0 v0); injection HS as <-; destruct (w_io w); cbn; eexists; reflexivity.
      - unfold poll in HS. destruct (a_poll_done s1); [discriminate|]. destruct (a_stop s1); injection HS as <-; exists []; cbn; rewrite app_nil_r; reflexivity. }
    destruct IH as [IH|IH].
    2:{ right. destruct Hgrow as [evs ->]. unfold calls. rewrite flat_map_app. apply in_or_app. left. exact IH. }
    destruct l as [l|]; [|injection HS as <-; left; exact IH].
    cbn [sstep] in HS. unfold step in HS. destruct (a_raised s1); [discriminate|]. destruct l as [i|id|id|].
    - left. unfold check in HS. destruct (a_exited s1 i); [discriminate|]. destruct (nth_error (p_works p) i) as [w|]; [|discriminate].
      destruct (w_body w) as [inq f|ready g].
      + match type of HS with context [if ?c then _ else _] => destruct c end; [destruct (a_stop s1)|]; injection HS as <-; cbn; auto.
        apply in_or_app. left. exact IH.
      + destruct (ready (a_qs s1)); [destruct (g (a_qs s1))|]; try destruct (a_stop s1); injection HS as <-; exact IH.
    - unfold start in HS. destruct (find_task id s1) as [[id0 i s0]|] eqn:Ef; [|discriminate]. destruct s0; [|discriminate].
      destruct (Nat.eq_dec (t_id tk) id) as [Hid|Hid].
      + (* two tasks with the same identifier, one spawned and one running *)
        exfalso. pose proof (find_In p s1 tk GI IH) as HF. rewrite Hid, Ef in HF. injection HF as <-. discriminate.
      + left. destruct (nth_error (p_works p) i) as [w|]; [|discriminate]. destruct (w_body w) as [inq f|]; [|discriminate]. cbv zeta in HS.
        assert (HFI : In tk (filter (fun t => negb (Nat.eqb (t_id t) id)) (a_tasks s1))).
        { apply filter_In. split; [exact IH|]. destruct (Nat.eqb_spec (t_id tk) id); [contradiction|reflexivity]. }
        assert (HMI : forall k v, In tk (map (fun t => if Nat.eqb (t_id t) id then mk_task id (t_work t) (Running k v) else t) (a_tasks s1))).
        { intros k1 v1. apply in_map_iff. exists tk. split; [|exact IH]. destruct (Nat.eqb_spec (t_id tk) id); [contradiction|reflexivity]. }
        destruct (q_pop_first _) as [[[k0 [v0|e0]] q']|]; injection HS as <-; [|destruct (w_out w)|]; destruct (w_io w); cbn; first [apply HMI|exact HFI].
    - unfold finish in HS. destruct (find_task id s1) as [[id0 i s0]|] eqn:Ef; [|discriminate]. destruct s0 as [|k0 v0]; [discriminate|].
      destruct (nth_error (p_works p) i) as [w|]; [|discriminate]. destruct (w_body w) as [inq f|]; [|discriminate]. cbv zeta in HS. rewrite Hsie in HS.
      destruct (Nat.eq_dec (t_id tk) id) as [Hid|Hid].
      + right. pose proof (find_In p s1 tk GI IH) as HF. rewrite Hid, Ef in HF. injection HF as <-. cbn [t_st t_work] in *. injection Hst as -> ->.
        assert (HT : a_tr s2 = a_tr s1 ++ [ECall i k v (f k v)]).
        { destruct (f k v); injection HS as <-; destruct (w_io w); reflexivity. }
        rewrite HT. unfold calls. rewrite flat_map_app. apply in_or_app. right. cbn. rewrite Nat.eqb_refl. left. reflexivity.
      + left. assert (HFI : In tk (filter (fun t => negb (Nat.eqb (t_id t) id)) (a_tasks s1))).
        { apply filter_In. split; [exact IH|]. destruct (Nat.eqb_spec (t_id tk) id); [contradiction|reflexivity]. }
        destruct (f k0 v0); injection HS as <-; destruct (w_io w); cbn; exact HFI.
    - left. unfold poll in HS. destruct (a_poll_done s1); [discriminate|]. destruct (a_stop s1); injection HS as <-; exact IH. }
  rewrite Ht in HG. destruct HG as [_ [[]|HG]]. exact HG.
Qed.
Print Assumptions C127_running_functions_finish.

(** ** The end *)

(** An execution which receives the signal ends, for any limits (even null) of the numbers of
    workers and of items in the queues. *)
Theorem C127_ends :
  forall (V : Type) (fs : list (bool * (nat -> V -> item V))) (nb lim : Z)
         (inputs : list (nat * item V)) (st : nat -> ast V) (lab : nat -> option slabel) (t0 : nat),
  let p := mk_params nb lim false (List.length fs) (chain_works fs) in
  fs <> [] -> NoDup (map fst inputs) ->
  is_signalled_execution p (init (chain_queues inputs)) st lab -> signalled_fair p st lab ->
  lab t0 = Some Signal ->
  exists t, (t0 < t)%nat /\ ended p (st t).
Proof.
  intros V fs nb lim inputs st lab t0 p Hne Hk [H0 Hex] (Fc & Fp & Fs & Ff) Hl.
  assert (Hstep : forall t, match lab t with
    | Some l => sstep p (st t) l = Some (st (S t)) | None => st (S t) = st t end).
  { intros t. specialize (Hex t). destruct (lab t) as [[l|]|]; [exact Hex| |exact Hex]. cbn. rewrite Hex. reflexivity. }
  assert (Hn : (1 <= List.length fs)%nat) by (destruct fs; [congruence|cbn; lia]).
  assert (Hs : a_stop (st (S t0)) = true).
  { specialize (Hex t0). rewrite Hl in Hex. rewrite Hex. reflexivity. }
  destruct (signal_ends fs p eq_refl eq_refl inputs eq_refl Hn Hk st lab H0 Hstep) with (t := S t0)
    as (t & Hle & HE); try assumption.
  - intros t i Hi. apply Fc. cbn [p p_works]. rewrite chain_works_length. exact Hi.
  - exists t. split; [lia|exact HE].
Qed.
Print Assumptions C127_ends.

(** REFUTED: after the signal no new item is begun.  For any chain and any inputs, with the
    signal received before the first step, all the items can be treated by all the works. *)
Theorem C127_no_new_item_refuted :
  forall (V : Type) (fs : list (bool * (nat -> V -> item V))) (nb lim : Z)
         (inputs : list (nat * item V)),
  let p := mk_params nb lim false (List.length fs) (chain_works fs) in
  fs <> [] -> NoDup (map fst inputs) -> 1 <= nb -> 1 <= lim ->
  exists s, sreachable p (receive (init (chain_queues inputs))) s /\ ended p s /\
    Permutation (finals (List.length fs) (a_tr s)) (expected (map snd fs) inputs) /\
    forall j, (j < List.length fs)%nat ->
      Permutation (calls j (a_tr s)) (expected_calls (map snd fs) j inputs).
Proof.
  intros V fs nb lim inputs p Hne Hk Hnb Hlim.
  assert (Hn : (1 <= List.length fs)%nat) by (destruct fs; [congruence|cbn; lia]).
  destruct (C10_can_always_finish V fs nb lim inputs (init (chain_queues inputs)) Hne Hk Hnb Hlim) as (s & HR & HE);
    [constructor|].
  assert (Hr : a_raised s = None).
  { apply (async_errors p _ s (chain_only_item fs p eq_refl) HR). reflexivity. }
  destruct (C09_stops_only_when_done V fs nb lim false inputs s Hne Hk HR Hr (or_intror HE)) as (Hq & _ & H1 & H2).
  destruct HE as (_ & Ht & _).
  pose proof (reach_flag fs p eq_refl _ _ HR) as HF. change (flag (init (chain_queues inputs))) with (receive (@init V (chain_queues inputs))) in HF.
  assert (HP : step p (flag s) LPoll = Some (set_poll true true (flag s))).
  { unfold step. cbn [flag a_raised]. rewrite Hr. reflexivity. }
  assert (HX : exists s2, reachable p (set_poll true true (flag s)) s2 /\ a_tr s2 = a_tr s /\ ended p s2).
  { assert (HG : forall m, (m <= List.length fs)%nat -> exists s2, reachable p (set_poll true true (flag s)) s2 /\ a_tr s2 = a_tr s /\
        a_raised s2 = None /\ a_stop s2 = true /\ a_qs s2 = a_qs s /\ a_tasks s2 = [] /\ a_poll_done s2 = true /\
        forall i, (i < m)%nat -> a_exited s2 i = true).
    { induction m as [|m IH]; intros Hm.
      - exists (set_poll true true (flag s)). split; [constructor|]. cbn. repeat split; auto. intros; lia.
      - destruct (IH ltac:(lia)) as (s2 & R2 & T2 & Ra2 & St2 & Q2 & Ts2 & P2 & E2).
        destruct (a_exited s2 m) eqn:Ee.
        + exists s2. repeat split; try assumption. intros i Hi. destruct (Nat.eq_dec i m) as [->|]; [exact Ee|apply E2; lia].
        + exists (exit_work m s2). split.
          * econstructor; [exact R2|]. apply (check_exits fs p eq_refl eq_refl Hn m s2); try assumption; try lia. rewrite Q2. apply Hq. lia.
          * cbn [exit_work a_tr a_raised a_stop a_qs a_tasks a_poll_done a_exited]. repeat split; try assumption.
            intros i Hi. unfold upd. destruct (Nat.eqb_spec i m) as [->|]; [reflexivity|apply E2; lia]. }
    destruct (HG (List.length fs) (Nat.le_refl _)) as (s2 & R2 & T2 & _ & _ & _ & Ts2 & P2 & E2).
    exists s2. split; [exact R2|]. split; [exact T2|]. split; [|split; assumption].
    intros i Hi. apply E2. cbn [p p_works] in Hi. rewrite chain_works_length in Hi. exact Hi. }
  destruct HX as (s2 & R2 & T2 & E2). exists s2. split.
  - apply reach_sreach. apply (reach_tr p _ (flag s)); [exact HF|]. apply (reach_tr p _ (set_poll true true (flag s))); [|exact R2].
    econstructor; [constructor|exact HP].
  - rewrite T2. split; [exact E2|]. split; assumption.
Qed.
Print Assumptions C127_no_new_item_refuted.

(** REFUTED: the results which are computed are saved.  With two works, the second one can
    return (its input queue is empty when it reads the flag) while the first one is running:
    the result is left in the queue. *)
Theorem C127_computed_saved_refuted :
  forall (V : Type) (io1 io2 : bool) (f g : nat -> V -> item V) (nb lim : Z) (k : nat) (v r : V),
  let p := mk_params nb lim false 2 (chain_works [(io1, f); (io2, g)]) in
  1 <= nb -> 1 <= lim -> f k v = inl r ->
  exists s, sreachable p (init (chain_queues [(k, inl v)])) s /\ ended p s /\ a_raised s = None /\
    calls 0 (a_tr s) = [(k, v)] /\ calls 1 (a_tr s) = [] /\ finals 2 (a_tr s) = [] /\
    a_qs s 1%nat = [(k, inl r)].
Proof.
  intros V io1 io2 f g nb lim k v r p Hnb Hlim Hf.
  assert (E1 : (nb <=? 0) = false) by (apply Z.leb_gt; lia).
  assert (E2 : (lim <=? 0) = false) by (apply Z.leb_gt; lia).
  pose (labs := [Prog (LCheck 0); Prog (LStart 0); Signal; Prog (LCheck 1); Prog (LFinish 0); Prog (LCheck 0); Prog LPoll]).
  pose (run := fix run (ls : list slabel) (s : ast V) : option (ast V) :=
    match ls with [] => Some s | l :: ls => match sstep p s l with Some s' => run ls s' | None => None end end).
  assert (HS : forall ls s s', run ls s = Some s' -> sreachable p s s').
  { induction ls as [|l ls IH]; intros s s' H; cbn in H.
    - injection H as <-. constructor.
    - destruct (sstep p s l) as [s1|] eqn:E; [|discriminate]. apply (sreach_trans p s s1).
      + econstructor; [constructor|exact E].
      + apply IH, H. }
  assert (HX : exists s, run labs (init (chain_queues [(k, inl v)])) = Some s /\ ended p s /\ a_raised s = None /\
    calls 0 (a_tr s) = [(k, v)] /\ calls 1 (a_tr s) = [] /\ finals 2 (a_tr s) = [] /\ a_qs s 1%nat = [(k, inl r)]).
  { assert (E3 : (nb <=? 1) = true \/ (nb <=? 1) = false) by (destruct (nb <=? 1); auto).
    unfold ended. destruct io1, io2; cbn; rewrite E1; cbn; unfold full; cbn; rewrite E2; cbn; rewrite Hf; cbn;
      (eexists; split; [reflexivity|]; cbn; split; [split; [|split; reflexivity]|repeat split; reflexivity]);
      intros [|[|i]] Hi; cbn; try reflexivity; lia. }
  destruct HX as (s & H1 & H2). exists s. split; [apply (HS labs), H1|exact H2].
Qed.
Print Assumptions C127_computed_saved_refuted.

(** ** Several processes *)

(** The state of the process [i] after a history. *)
Definition st_of (h : list mevent) (i : nat) : pstate :=
  fold_left (fun p e => match e with
                        | Ends j => if Nat.eqb j i then (match p with PRuns => PEnded | _ => p end) else p
                        | Turn => reap p
                        | Sig => p
                        end) h PRuns.

Lemma st_of_app h e i : st_of (h ++ [e]) i =
  match e with
  | Ends j => if Nat.eqb j i then (match st_of h i with PRuns => PEnded | p => p end) else st_of h i
  | Turn => reap (st_of h i)
  | Sig => st_of h i
  end.
Proof. unfold st_of at 1. rewrite fold_left_app. cbn [fold_left]. fold (st_of h i). destruct e as [j| |]; [|reflexivity|reflexivity]. destruct (Nat.eqb j i), (st_of h i); reflexivity. Qed.

Lemma st_of_runs h i : st_of h i = PRuns <-> ~ In (Ends i) h.
Proof.
  induction h as [|e h IH] using rev_ind; [split; [intros _ []|reflexivity]|].
  rewrite st_of_app, in_app_iff. destruct e as [j| |]; cbn [In].
  - destruct (Nat.eqb_spec j i) as [->|Hne].
    + split; [destruct (st_of h i); discriminate|intros H; exfalso; apply H; auto].
    + rewrite IH. intuition congruence.
  - destruct (st_of h i) eqn:E; cbn [reap].
    + split; [intros _|reflexivity]. intros [H|[H|[]]]; [|discriminate]. apply (proj1 IH eq_refl), H.
    + split; [discriminate|]. intros H. exfalso. destruct IH as [_ IH]. discriminate IH. intros HC. apply H. auto.
    + split; [discriminate|]. intros H. exfalso. destruct IH as [_ IH]. discriminate IH. intros HC. apply H. auto.
  - rewrite IH. intuition congruence.
Qed.

Lemma st_of_reaped h i : st_of h i = PReaped <-> exists h1 h2, h = h1 ++ Ends i :: h2 /\ In Turn h2.
Proof.
  induction h as [|e h IH] using rev_ind.
  { split; [discriminate|]. intros (h1 & h2 & H & _). destruct h1; discriminate. }
  rewrite st_of_app.
  assert (HD : (exists h1 h2, h ++ [e] = h1 ++ Ends i :: h2 /\ In Turn h2) <->
               (exists h1 h2, h = h1 ++ Ends i :: h2 /\ In Turn h2) \/ (e = Turn /\ In (Ends i) h)).
  { split.
    - intros (h1 & h2 & H & HT). destruct h2 as [|x h2 _] using rev_ind; [destruct HT|].
      rewrite app_comm_cons, app_assoc in H. apply app_inj_tail in H. destruct H as [H ->].
      apply in_app_iff in HT. destruct HT as [HT|[->|[]]].
      + left. eauto.
      + right. split; [reflexivity|]. rewrite H. apply in_or_app. right. left. reflexivity.
    - intros [(h1 & h2 & -> & HT)|[-> HI]].
      + exists h1, (h2 ++ [e]). rewrite <- app_assoc. split; [reflexivity|apply in_or_app; left; exact HT].
      + apply in_split in HI. destruct HI as (h1 & h2 & ->). exists h1, (h2 ++ [Turn]). rewrite <- app_assoc.
        split; [reflexivity|apply in_or_app; right; left; reflexivity]. }
  rewrite HD, <- IH. destruct e as [j| |].
  - destruct (Nat.eqb j i); destruct (st_of h i); intuition congruence.
  - pose proof (st_of_runs h i) as HR. destruct (st_of h i) eqn:E; cbn [reap].
    + split; [discriminate|]. intros [H|[_ H]]; [discriminate|]. exfalso. apply (proj1 HR eq_refl), H.
    + split; [|reflexivity]. intros _. right. split; [reflexivity|].
      assert (Hdec : forall x y : mevent, {x = y} + {x <> y}) by (decide equality; apply Nat.eq_dec).
      destruct (in_dec Hdec (Ends i) h) as [H|H]; [exact H|].
      apply HR in H. discriminate.
    + tauto.
  - intuition congruence.
Qed.

Lemma ends_map n (g : nat -> pstate) j : ends j (map g (seq 0 n)) =
  map (fun i => if Nat.eqb j i then (match g i with PRuns => PEnded | p => p end) else g i) (seq 0 n).
Proof.
  unfold ends. destruct (Nat.lt_ge_cases j n) as [Hj|Hj].
  - assert (HN : nth_error (map g (seq 0 n)) j = Some (g j)).
    { rewrite nth_error_map. rewrite (nth_error_nth' (seq 0 n) 0%nat) by (rewrite seq_length; exact Hj). rewrite seq_nth by exact Hj. reflexivity. }
    rewrite HN.
    assert (HS : seq 0 n = seq 0 j ++ j :: seq (S j) (n - S j)).
    { replace n with (j + (1 + (n - S j)))%nat at 1 by lia. rewrite seq_app. reflexivity. }
    assert (HM : forall (h : pstate -> pstate), map (fun i => if Nat.eqb j i then h (g i) else g i) (seq 0 n)
                 = map g (seq 0 j) ++ h (g j) :: map g (seq (S j) (n - S j))).
    { intros h. rewrite HS, map_app. cbn [map]. rewrite Nat.eqb_refl. f_equal; [|f_equal].
      - apply map_ext_in. intros i Hi. apply in_seq in Hi. destruct (Nat.eqb_spec j i); [lia|reflexivity].
      - apply map_ext_in. intros i Hi. apply in_seq in Hi. destruct (Nat.eqb_spec j i); [lia|reflexivity]. }
    pose (hh := fun x => match x with PRuns => PEnded | PEnded => PEnded | PReaped => PReaped end).
    symmetry. transitivity (map (fun i => if Nat.eqb j i then hh (g i) else g i) (seq 0 n)).
    { apply map_ext. intros i. destruct (Nat.eqb j i); [destruct (g i)|]; reflexivity. }
    rewrite (HM hh). symmetry.
    assert (HG : map g (seq 0 n) = map g (seq 0 j) ++ g j :: map g (seq (S j) (n - S j))) by (rewrite HS, map_app; reflexivity).
    assert (HL : List.length (map g (seq 0 j)) = j) by (rewrite map_length, seq_length; reflexivity).
    destruct (g j) eqn:E; [|rewrite HG; reflexivity|rewrite HG; reflexivity].
    rewrite HG. rewrite firstn_app, HL, Nat.sub_diag, firstn_all2 by lia. cbn [firstn]. rewrite app_nil_r. f_equal. f_equal.
    rewrite skipn_app, HL, skipn_all2 by lia. replace (S j - j)%nat with 1%nat by lia. reflexivity.
  - rewrite (proj2 (nth_error_None _ _)) by (rewrite map_length, seq_length; exact Hj).
    apply map_ext_in. intros i Hi. apply in_seq in Hi. destruct (Nat.eqb_spec j i); [lia|reflexivity].
Qed.

Lemma mrun_state n h : ~ In Sig h ->
  mrun n h = mk_mstate (map (st_of h) (seq 0 n)) (List.repeat false n) None.
Proof.
  induction h as [|e h IH] using rev_ind; intros Hs.
  - unfold mrun. cbn [fold_left]. f_equal. clear. generalize 0%nat as o. induction n as [|n IH]; intros o; [reflexivity|]. cbn. f_equal. apply IH.
  - unfold mrun in *. rewrite fold_left_app. cbn [fold_left]. rewrite IH by (intros HC; apply Hs, in_or_app; auto).
    destruct e as [j| |]; cbn [mstep m_procs m_asked m_raised].
    + f_equal. rewrite ends_map. apply map_ext. intros i. rewrite st_of_app. reflexivity.
    + f_equal. rewrite map_map. apply map_ext. intros i. rewrite st_of_app. reflexivity.
    + exfalso. apply Hs, in_or_app. right. left. reflexivity.
Qed.

Lemma kill_all_ok l : (forall p, In p l -> p <> PReaped) ->
  kill_all l = (map (fun p => match p with PRuns => true | _ => false end) l, None).
Proof.
  induction l as [|a l IH]; intros H; [reflexivity|]. cbn [kill_all map]. rewrite IH by (intros p Hp; apply H; right; exact Hp).
  destruct a; cbn [os_kill]; try reflexivity. exfalso. apply (H PReaped); [left; reflexivity|reflexivity].
Qed.

Lemma kill_all_err l j : nth_error l j = Some PReaped ->
  snd (kill_all l) = Some (UserError 64) /\ List.length (fst (kill_all l)) = List.length l /\
  forall i, (j <= i < List.length l)%nat -> nth_error (fst (kill_all l)) i = Some false.
Proof.
  revert j. induction l as [|a l IH]; intros j H; [destruct j; discriminate|]. cbn [kill_all].
  destruct (os_kill a) as [b|e] eqn:E.
  - destruct j as [|j]; cbn [nth_error] in H; [injection H as ->; discriminate|].
    destruct (IH j H) as (H1 & H2 & H3). destruct (kill_all l) as [bs e]. cbn [fst snd] in *.
    split; [exact H1|]. split; [cbn; lia|]. intros [|i] Hi; [lia|]. cbn [nth_error]. apply H3. cbn in Hi. lia.
  - assert (e = UserError 64) by (destruct a; cbn in E; congruence). subst e. cbn [fst snd]. split; [reflexivity|].
    split; [cbn; rewrite map_length; reflexivity|]. intros [|i] Hi; [reflexivity|]. cbn [nth_error]. cbn in Hi.
    rewrite nth_error_map. destruct (nth_error l i) eqn:En; [reflexivity|]. apply nth_error_None in En. lia.
Qed.

Lemma combine_false bs n : List.length bs = n ->
  map (fun '(a, b) => orb a b) (combine (List.repeat false n) bs) = bs.
Proof.
  intros <-. induction bs as [|b bs IH]; [reflexivity|]. cbn. f_equal. exact IH.
Qed.

(** The signal sent to the parent after the history [h] is transmitted to all the processes
    which run, without exception, if the loop of the parent has not made a turn after the end
    of a process ... *)
Theorem C127_children :
  forall (n : nat) (h : list mevent), ~ In Sig h ->
  (forall i h1 h2, (i < n)%nat -> h = h1 ++ Ends i :: h2 -> ~ In Turn h2) ->
  m_raised (mrun n (h ++ [Sig])) = None /\
  forall i, (i < n)%nat -> ~ In (Ends i) h -> nth_error (m_asked (mrun n (h ++ [Sig]))) i = Some true.
Proof.
  intros n h Hs Hno. unfold mrun. rewrite fold_left_app. cbn [fold_left]. fold (mrun n h). rewrite (mrun_state n h Hs).
  cbn [mstep m_procs m_asked m_raised]. rewrite kill_all_ok.
  2:{ intros p Hp ->. apply in_map_iff in Hp. destruct Hp as (i & Hp & Hi). apply in_seq in Hi.
      apply st_of_reaped in Hp. destruct Hp as (h1 & h2 & He & HT). apply (Hno i h1 h2); [lia|exact He|exact HT]. }
  cbn [m_raised m_asked]. split; [reflexivity|]. intros i Hi HE.
  rewrite combine_false by (rewrite !map_length, seq_length; reflexivity).
  rewrite !nth_error_map. rewrite (nth_error_nth' (seq 0 n) 0%nat) by (rewrite seq_length; exact Hi). rewrite seq_nth by exact Hi.
  cbn [option_map plus]. rewrite (proj2 (st_of_runs h i) HE). reflexivity.
Qed.
Print Assumptions C127_children.

(** ... and REFUTED in general: if a process has ended before a turn of the loop, [compute] is
    left with ProcessLookupError and the processes which come after this one do not receive
    the signal. *)
Theorem C127_children_refuted :
  forall (n : nat) (h : list mevent) (j : nat) (h1 h2 : list mevent), ~ In Sig h ->
  (j < n)%nat -> h = h1 ++ Ends j :: h2 -> In Turn h2 ->
  m_raised (mrun n (h ++ [Sig])) = Some (UserError 64) /\
  forall i, (j < i < n)%nat -> nth_error (m_asked (mrun n (h ++ [Sig]))) i = Some false.
Proof.
  intros n h j h1 h2 Hs Hj He HT. unfold mrun. rewrite fold_left_app. cbn [fold_left]. fold (mrun n h). rewrite (mrun_state n h Hs).
  cbn [mstep m_procs m_asked m_raised].
  assert (HN : nth_error (map (st_of h) (seq 0 n)) j = Some PReaped).
  { rewrite nth_error_map. rewrite (nth_error_nth' (seq 0 n) 0%nat) by (rewrite seq_length; exact Hj). rewrite seq_nth by exact Hj.
    cbn [option_map plus]. f_equal. apply st_of_reaped. eauto. }
  destruct (kill_all_err _ j HN) as (H1 & H2 & H3). destruct (kill_all (map (st_of h) (seq 0 n))) as [bs e]. cbn [fst snd] in *.
  cbn [m_raised m_asked]. rewrite map_length, seq_length in H2, H3. split; [exact H1|]. intros i Hi.
  rewrite combine_false by exact H2. apply H3. lia.
Qed.
Print Assumptions C127_children_refuted.

(** ** Examples *)
Example C127_children_example :
  m_asked (mrun 3 [Turn; Ends 1; Sig]) = [true; false; true] /\
  mrun 3 [Ends 1; Turn; Sig] = mk_mstate [PRuns; PReaped; PRuns] [true; false; false] (Some (UserError 64)).
Proof. split; reflexivity. Qed.

Definition sig_fs : list (bool * (nat -> Z -> item Z)) :=
  [(true, fun _ v => inl (v + 1)); (false, fun _ v => inl (v * 10))].
Definition sig_p := mk_params 1 1 false 2 (chain_works sig_fs).
Fixpoint sig_run (ls : list slabel) (s : ast Z) : option (ast Z) :=
  match ls with
  | [] => Some s
  | l :: ls => match sstep sig_p s l with Some s' => sig_run ls s' | None => None end
  end.
Lemma sig_run_reach ls s s' : sig_run ls s = Some s' -> sreachable sig_p s s'.
Proof.
  revert s. induction ls as [|l ls IH]; intros s H; cbn [sig_run] in H; [injection H as <-; constructor|].
  destruct (sstep sig_p s l) as [s1|] eqn:E; [|discriminate]. apply (sreach_trans sig_p s s1); [|apply IH, H].
  econstructor; [constructor|exact E].
Qed.

(** three items, the signal is received while the first one is in the first work: the first
    item is delivered, the two other ones are left *)
Definition sig_labels : list slabel :=
  [Prog (LCheck 0); Prog (LStart 0); Signal; Prog (LCheck 0); Prog (LFinish 0);
   Prog (LCheck 1); Prog (LStart 1); Prog (LCheck 1); Prog (LFinish 1); Prog LPoll].
Example C127_example :
  exists s, sreachable sig_p (init (chain_queues [(0%nat, inl 1); (1%nat, inl 5); (2%nat, inl 7)])) s /\
    ended sig_p s /\ a_raised s = None /\
    finals 2 (a_tr s) = [(0%nat, inl 20)] /\ a_qs s 0%nat = [(1%nat, inl 5); (2%nat, inl 7)] /\
    places 2 s 0 = [(Delivered, inl 20)] /\ places 2 s 2 = [(Waiting 0, inl 7)].
Proof.
  destruct (sig_run sig_labels (init (chain_queues [(0%nat, inl 1); (1%nat, inl 5); (2%nat, inl 7)]))) as [s|] eqn:E;
    [|vm_compute in E; discriminate].
  exists s. split; [apply (sig_run_reach sig_labels), E|]. vm_compute in E. injection E as <-.
  split; [|repeat split; vm_compute; reflexivity]. split; [|split; reflexivity].
  intros [|[|i]] Hi; [reflexivity|reflexivity|]. cbn in Hi. lia.
Qed.

(** the hypotheses of [C127_ends] are met by the same execution *)
Definition sig_state (t : nat) : ast Z :=
  match sig_run (firstn t sig_labels) (init (chain_queues [(0%nat, inl 1); (1%nat, inl 5); (2%nat, inl 7)])) with
  | Some s => s | None => init (chain_queues []) end.
Definition sig_lab (t : nat) : option slabel := nth_error sig_labels t.
Example C127_ends_example :
  is_signalled_execution sig_p (init (chain_queues [(0%nat, inl 1); (1%nat, inl 5); (2%nat, inl 7)])) sig_state sig_lab /\
  signalled_fair sig_p sig_state sig_lab /\ sig_lab 2 = Some Signal.
Proof.
  assert (Hlate : forall t, (10 <= t)%nat -> sig_state t = sig_state 10).
  { intros t Ht. unfold sig_state. rewrite firstn_all2 by exact Ht. reflexivity. }
  assert (Htasks : forall t, (10 <= t)%nat -> a_tasks (sig_state t) = []).
  { intros t Ht. rewrite Hlate by exact Ht. vm_compute. reflexivity. }
  split; [split; [reflexivity|]|split; [|reflexivity]].
  - intros t. do 10 (destruct t as [|t]; [vm_compute; reflexivity|]).
    unfold sig_lab. rewrite (proj2 (nth_error_None _ _)) by (cbn; lia). transitivity (sig_state 10); [apply Hlate; lia|symmetry; apply Hlate; lia].
  - repeat split.
    + intros t i Hi. exists (Nat.max t 10). split; [lia|]. right. rewrite Hlate by lia. cbn in Hi. destruct i as [|[|i]]; [vm_compute; reflexivity|vm_compute; reflexivity|lia].
    + intros t. exists (Nat.max t 10). split; [lia|]. right. rewrite Hlate by lia. vm_compute. reflexivity.
    + intros t tk HI Hsp. do 10 (destruct t as [|t]; [vm_compute in HI; (repeat destruct HI as [HI|HI]); try contradiction; subst tk; try discriminate Hsp;
        first [exists 1%nat; split; [lia|reflexivity]|exists 6%nat; split; [lia|reflexivity]]|]).
      rewrite Htasks in HI by lia. destruct HI.
    + intros t tk k v HI Hsp. do 10 (destruct t as [|t]; [vm_compute in HI; (repeat destruct HI as [HI|HI]); try contradiction; subst tk; try discriminate Hsp;
        first [exists 4%nat; split; [lia|reflexivity]|exists 8%nat; split; [lia|reflexivity]]|]).
      rewrite Htasks in HI by lia. destruct HI.
Qed.

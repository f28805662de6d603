(** C90: the processes started by multi_exec_async for a topology without series. *)
From Verif Require Import PyBase QueueModel QueueProofs SplitModel SplitProofs SplitProps FirstQueueModel.

(** ** Specification *)
(** the queues of a reference, in the order *)
Definition refs (r : qref) : list nat := match r with QNone => [] | QOne q => [q] | QTuple l | QList l => l end.
(** [r'] is [r] where [new] replaces [first]; a tuple or a list may become a list *)
Definition same_ref (first new : nat) (r r' : qref) : Prop :=
  Forall2 (fun q q' => (q = first -> q' = new) /\ (q <> first -> q' = q)) (refs r) (refs r') /\
  match r with
  | QNone => r' = QNone
  | QOne _ => exists q, r' = QOne q
  | QTuple _ | QList _ => exists l, r' = QTuple l \/ r' = QList l
  end.
Definition same_work (first new : nat) (w w' : fwork) : Prop :=
  fw_name w' = fw_name w /\ same_ref first new (fw_in w) (fw_in w') /\ same_ref first new (fw_out w) (fw_out w').
(** the memory [m'] holds the topology of [m] without its first work, whose queue [first] is a new queue with the items [items];
    the other queues are those of [m] *)
Definition process_with {V} (m : mem V) (first : nat) (items : queue V) (m' : mem V) : Prop :=
  exists new, (List.length (mem_heap m) <= new)%nat /\ heap_get m' new = items /\
    (forall q, (q < List.length (mem_heap m))%nat -> q <> first -> heap_get m' q = heap_get m q) /\
    Forall2 (fun q q' => (q = first -> q' = new) /\ (q <> first -> q' = q)) (mem_queues m) (mem_queues m') /\
    Forall2 (same_work first new) (tl (mem_works m)) (mem_works m').
(** references to existing queues *)
Definition wf {V} (m : mem V) : Prop :=
  let ok := Forall (fun q => (q < List.length (mem_heap m))%nat) in
  ok (mem_queues m) /\ Forall (fun w => ok (refs (fw_in w)) /\ ok (refs (fw_out w))) (mem_works m).

(** ** Proofs *)
Section P.
Context {V : Type}.
Implicit Types (m : mem V) (q : queue V).

Lemma fill_items (fq : queue V) : NoDup (map fst fq) -> forall items, incl items fq -> NoDup (map fst items) ->
  forall acc, (forall k, In k (map fst acc) -> ~ In k (map fst items)) -> fill fq (map fst items) acc = Ok (acc ++ items).
Proof.
  intros N items. induction items as [|[k v] items IH]; intros I ND acc D; [cbn; rewrite app_nil_r; reflexivity|].
  cbn [map fst fill]. rewrite (q_get_In k v) by (exact N || (apply I; left; reflexivity)). cbn [bind].
  inversion ND as [|? ? N1 N2]; subst.
  rewrite q_set_new by (intros H; apply (D k H); left; reflexivity).
  rewrite IH.
  - rewrite <- app_assoc. reflexivity.
  - intros x X. apply I. right. exact X.
  - exact N2.
  - intros k' H. rewrite map_app, in_app_iff in H. destruct H as [H|[H|[]]].
    + intros X. apply (D k' H). right. exact X.
    + cbn in H. subst k'. exact N1.
Qed.

Lemma split_items : forall (parts : list (list nat)) (fq : queue V), List.concat parts = map fst fq ->
  exists contents, List.concat contents = fq /\ map (map fst) contents = parts.
Proof.
  induction parts as [|p parts IH]; intros fq E.
  - exists []. cbn in E. destruct fq; [split; reflexivity|discriminate].
  - cbn in E. set (n := List.length p).
    assert (E1 : map fst (firstn n fq) = p /\ List.concat parts = map fst (skipn n fq)).
    { rewrite <- firstn_map, <- skipn_map, <- E. unfold n. rewrite firstn_app, Nat.sub_diag, firstn_all, skipn_app, Nat.sub_diag, skipn_all. cbn.
      rewrite app_nil_r. split; reflexivity. }
    destruct E1 as (E1 & E2). destruct (IH _ E2) as (c & C1 & C2). exists (firstn n fq :: c). cbn. rewrite C1, C2, E1, firstn_skipn. split; reflexivity.
Qed.

Lemma NoDup_app_both {A} (a b : list A) : NoDup (a ++ b) -> NoDup a /\ NoDup b.
Proof.
  induction a as [|x a IH]; cbn; intros N; [split; [constructor|exact N]|]. inversion N as [|? ? N1 N2]; subst. destruct (IH N2) as (A1 & A2).
  split; [constructor; [intros H; apply N1, in_app_iff; left; exact H|exact A1]|exact A2].
Qed.
Lemma subst_comp old new new' x : x <> new -> subst_id new new' (subst_id old new x) = subst_id old new' x.
Proof. unfold subst_id. intros H. destruct (Nat.eqb_spec x old); [rewrite Nat.eqb_refl; reflexivity|]. destruct (Nat.eqb_spec x new); [congruence|reflexivity]. Qed.
Lemma map_comp old new new' l : Forall (fun x => x <> new) l -> map (subst_id new new') (map (subst_id old new) l) = map (subst_id old new') l.
Proof. intros F. rewrite map_map. apply map_ext_Forall. revert F. apply Forall_impl. intros x. apply subst_comp. Qed.
Lemma ref_comp old new new' r : Forall (fun x => x <> new) (refs r) -> subst_ref new new' (subst_ref old new r) = subst_ref old new' r.
Proof.
  destruct r as [|x|l|l]; cbn; intros F; [reflexivity| |rewrite map_comp by exact F; reflexivity|rewrite map_comp by exact F; reflexivity].
  inversion F; subst. rewrite subst_comp by assumption. reflexivity.
Qed.
Lemma work_comp old new new' w : Forall (fun x => x <> new) (refs (fw_in w)) -> Forall (fun x => x <> new) (refs (fw_out w)) ->
  subst_work new new' (subst_work old new w) = subst_work old new' w.
Proof. intros A B. unfold subst_work. cbn. rewrite !ref_comp by assumption. reflexivity. Qed.

Lemma subst_id_low old new x n : (x < n)%nat -> (new < n)%nat -> (subst_id old new x < n)%nat.
Proof. unfold subst_id. destruct (Nat.eqb x old); auto. Qed.

(** the launches: the k-th memory *)
Lemma launch_spec fq first : forall contents old m,
  (forall c, In c contents -> fill fq (map fst c) (q_copy (heap_get m first)) = Ok c) ->
  (first < List.length (mem_heap m))%nat -> wf m ->
  exists ms, launch fq first (map (map fst) contents) old m = Ok ms /\ List.length ms = List.length contents /\
    forall k m' c, nth_error ms k = Some m' -> nth_error contents k = Some c ->
      let new := (List.length (mem_heap m) + k)%nat in
      heap_get m' new = c /\ (forall x, (x < List.length (mem_heap m))%nat -> heap_get m' x = heap_get m x) /\
      mem_queues m' = map (subst_id old new) (mem_queues m) /\ mem_works m' = map (subst_work old new) (mem_works m).
Proof.
  induction contents as [|c contents IH]; intros old m F L W.
  - exists []. cbn. split; [reflexivity|]. split; [reflexivity|]. intros [|k] ? ? H; discriminate.
  - cbn [map launch]. rewrite (F c (or_introl eq_refl)). cbn [bind]. set (n := List.length (mem_heap m)) in *.
    set (m1 := mk_mem (mem_heap m ++ [c]) (map (subst_work old n) (mem_works m)) (map (subst_id old n) (mem_queues m))).
    assert (L1 : List.length (mem_heap m1) = S n) by (cbn; rewrite app_length; cbn; unfold n; lia).
    assert (H1 : forall x, (x < n)%nat -> heap_get m1 x = heap_get m x) by (intros x X; unfold heap_get; cbn; apply app_nth1; exact X).
    assert (H2 : heap_get m1 n = c) by (unfold heap_get; cbn; rewrite app_nth2 by (unfold n; lia); unfold n; rewrite Nat.sub_diag; reflexivity).
    destruct W as (W1 & W2).
    assert (W' : wf m1).
    { split; cbn -[mem_heap].
      - rewrite L1. cbn. apply Forall_map. revert W1. apply Forall_impl. intros x X. fold n in X. apply subst_id_low; lia.
      - rewrite L1. cbn. apply Forall_map. revert W2. apply Forall_impl. intros w (A & B). cbn.
        assert (R : forall r, Forall (fun x => (x < n)%nat) (refs r) -> Forall (fun x => (x < S n)%nat) (refs (subst_ref old n r))).
        { intros r R. destruct r as [|x|l|l]; cbn in *; [constructor| | |].
          - inversion R; subst. constructor; [apply subst_id_low; lia|constructor].
          - apply Forall_map. revert R. apply Forall_impl. intros x X. apply subst_id_low; lia.
          - apply Forall_map. revert R. apply Forall_impl. intros x X. apply subst_id_low; lia. }
        split; apply R; assumption. }
    destruct (IH n m1) as (ms & E & Len & K).
    { intros d D. rewrite H1 by exact L. apply F. right. exact D. }
    { rewrite L1. lia. }
    { exact W'. }
    fold m1. change (mk_mem (mem_heap m ++ [c]) (map (subst_work old n) (mem_works m)) (map (subst_id old n) (mem_queues m))) with m1.
    rewrite E. cbn [bind]. exists (m1 :: ms). split; [reflexivity|]. split; [cbn; rewrite Len; reflexivity|].
    intros k m' d Hm Hc. cbn zeta. destruct k as [|k].
    + injection Hm as <-. injection Hc as <-. rewrite Nat.add_0_r. repeat split; assumption.
    + cbn in Hm, Hc. destruct (K _ _ _ Hm Hc) as (K1 & K2 & K3 & K4). rewrite L1 in *.
      replace (n + S k)%nat with (S n + k)%nat by lia. split; [exact K1|]. split.
      { intros x X. rewrite K2 by lia. apply H1. exact X. }
      split.
      * rewrite K3. cbn [mem_queues m1]. apply map_comp. revert W1. apply Forall_impl. intros x X. fold n in X. lia.
      * rewrite K4. cbn [mem_works m1]. rewrite map_map. apply map_ext_Forall. revert W2. apply Forall_impl. intros w (A & B).
        apply work_comp; [revert A|revert B]; apply Forall_impl; intros x X; fold n in X; lia.
Qed.

Lemma ids_same first new l : Forall2 (fun x x' => (x = first -> x' = new) /\ (x <> first -> x' = x)) l (map (subst_id first new) l).
Proof.
  induction l as [|x l IH]; cbn; constructor; [|exact IH]. unfold subst_id. destruct (Nat.eqb_spec x first); split; intros; congruence || reflexivity || (exfalso; auto).
Qed.
Lemma ref_same first new r : same_ref first new r (subst_ref first new r).
Proof.
  split.
  - destruct r as [|x|l|l]; cbn; [constructor|exact (ids_same first new [x])|apply ids_same|apply ids_same].
  - destruct r as [|x|l|l]; cbn; eauto.
Qed.
End P.

(** ** Theorems *)

(** The items of the first queue are shared between the processes, in the order, as equally as possible; each process has the
    topology with its items in the first queue and all other queues as they were. *)
Theorem C90_processes : forall V (m : mem V) n w works first,
  mem_works m = w :: works -> fw_in w = QNone -> fw_out w = QOne first ->
  wf m -> NoDup (map fst (heap_get m first)) -> 1 <= n ->
  exists contents ms, start_first_queue n m = Ok ms /\ List.concat contents = heap_get m first /\
    (heap_get m first <> [] -> Forall (fun c => c <> []) contents /\ zlen contents = Z.min n (zlen (heap_get m first))) /\
    (forall i j c d, (i <= j)%nat -> nth_error contents i = Some c -> nth_error contents j = Some d -> zlen d <= zlen c <= zlen d + 1) /\
    Forall2 (process_with m first) contents ms.
Proof.
  intros V m n w works first Hw Hi Ho W ND Hn. unfold start_first_queue. rewrite Hw, Hi, Ho.
  rewrite q_copy_id by exact ND. set (fq := heap_get m first) in *.
  destruct (C02_split_list nat (map fst fq) n Hn) as (parts & Sp & Cc & Len & NE & Bal). rewrite Sp. cbn [bind].
  destruct (split_items parts fq Cc) as (contents & C1 & C2).
  assert (Lf : (first < List.length (mem_heap m))%nat).
  { destruct W as (_ & W2). rewrite Hw in W2. inversion W2 as [|? ? (A & B) C]; subst. rewrite Ho in B. inversion B; assumption. }
  set (m0 := mk_mem (update_nth first (fun _ => []) (mem_heap m)) works (mem_queues m)).
  assert (UL : forall (l : list (queue V)) i f, List.length (update_nth i f l) = List.length l) by (intros l; induction l as [|x l IH]; intros [|i] f; cbn; auto).
  assert (UN : forall (l : list (queue V)) i j f, nth j (update_nth i f l) [] = if Nat.eqb j i then (if Nat.ltb i (List.length l) then f (nth i l []) else []) else nth j l []).
  { intros l. induction l as [|x l IH]; intros i j f; [destruct i, j; cbn; try destruct (Nat.eqb _ _); reflexivity|].
    destruct i as [|i], j as [|j]; cbn -[Nat.ltb]; [reflexivity|reflexivity|reflexivity|]. rewrite IH. reflexivity. }
  assert (L0 : List.length (mem_heap m0) = List.length (mem_heap m)) by (cbn; apply UL).
  assert (G0 : heap_get m0 first = []).
  { unfold heap_get. cbn. rewrite UN, Nat.eqb_refl. destruct (Nat.ltb _ _); reflexivity. }
  assert (G1 : forall x, x <> first -> heap_get m0 x = heap_get m x).
  { intros x X. unfold heap_get. cbn. rewrite UN. destruct (Nat.eqb_spec x first); [congruence|reflexivity]. }
  assert (W0 : wf m0).
  { destruct W as (W1 & W2). rewrite Hw in W2. unfold wf. rewrite L0. split; [exact W1|]. inversion W2; assumption. }
  destruct (launch_spec fq first contents first m0) as (ms & E & Lms & K).
  - intros c Hc. rewrite G0. change (q_copy []) with (@nil (nat * V)). rewrite (fill_items fq ND); [reflexivity| | |intros k []].
    + rewrite <- C1. intros x X. apply in_concat. exists c. split; assumption.
    + clear - C1 Hc ND. rewrite <- C1 in ND. clear C1. induction contents as [|d contents IH]; [destruct Hc|]. cbn in ND. rewrite map_app in ND.
      destruct Hc as [->|Hc]; [exact (proj1 (NoDup_app_both _ _ ND))|exact (IH (proj2 (NoDup_app_both _ _ ND)) Hc)].
  - rewrite L0. exact Lf.
  - exact W0.
  - fold m0. rewrite <- C2, E. exists contents, ms. split; [reflexivity|]. split; [exact C1|]. split; [|split].
    + intros NEq. assert (NEk : map fst fq <> []) by (destruct fq; [congruence|discriminate]).
      split.
      * pose proof (NE NEk) as X. rewrite <- C2, Forall_forall in X. apply Forall_forall. intros c Hc ->. apply (X []); [exact (in_map (map fst) _ _ Hc)|reflexivity].
      * assert (ZL : zlen contents = zlen parts) by (rewrite <- C2; unfold zlen; rewrite map_length; reflexivity). rewrite ZL, Len.
        destruct (map fst fq) eqn:Em; [congruence|]. rewrite <- Em. unfold zlen. rewrite map_length. reflexivity.
    + intros i j c d Hij Hc Hd. pose proof (Bal i j (map fst c) (map fst d) Hij) as B. rewrite <- C2 in B.
      unfold zlen in *. rewrite !map_length in B. apply B; apply map_nth_error; assumption.
    + assert (PW : forall k m' c, nth_error ms k = Some m' -> nth_error contents k = Some c -> process_with m first c m').
      { intros k m' c Hm Hc. destruct (K _ _ _ Hm Hc) as (K1 & K2 & K3 & K4). rewrite L0 in *. exists (List.length (mem_heap m) + k)%nat.
        split; [lia|]. split; [exact K1|]. split; [intros x X1 X2; rewrite K2 by exact X1; apply G1, X2|]. split.
        - rewrite K3. apply ids_same.
        - rewrite K4, Hw. cbn [tl mem_works m0]. clear. induction works as [|v works IH]; constructor; [|exact IH].
          split; [reflexivity|]. split; apply ref_same. }
      clear - Lms PW. revert contents Lms PW. induction ms as [|m1 ms IH]; intros [|c contents] L PW; cbn in L; try discriminate; constructor.
      * apply (PW 0%nat); reflexivity.
      * apply IH; [lia|]. intros k m' d A B. apply (PW (S k)); assumption.
Qed.
Print Assumptions C90_processes.

(** Topologies whose first work has an input queue, or not exactly one output queue: no process is started. *)
Theorem C90_errors : forall V (m : mem V) n w works, mem_works m = w :: works ->
  (fw_in w <> QNone -> start_first_queue n m = Err NotImplementedError) /\
  (fw_in w = QNone -> forall l, fw_out w = QTuple l -> start_first_queue n m = Err NotImplementedError) /\
  (fw_in w = QNone -> fw_out w = QNone -> start_first_queue n m = Err AttributeError).
Proof.
  intros V m n w works H. unfold start_first_queue. rewrite H. split; [|split].
  - intros N. destruct (fw_in w); [congruence|reflexivity..].
  - intros -> l ->. reflexivity.
  - intros -> ->. reflexivity.
Qed.
Print Assumptions C90_errors.

(** In these processes a "global" work with several input queues does not wait for an item: its function is called whatever the
    contents of the queues, although it waits in the same topology run in one process. *)
Theorem C90_global_refuted : forall V (m : mem V) n ms, start_first_queue n m = Ok ms ->
  forall v, In v (tl (mem_works m)) -> forall q l, fw_in v = QTuple (q :: l) ->
  (global_waits m (fw_in v) = true <-> forall x, In x (q :: l) -> heap_get m x = []) /\
  (forall m', In m' ms -> exists v', In v' (mem_works m') /\ fw_name v' = fw_name v /\
     List.length (refs (fw_in v')) = List.length (q :: l) /\ forall m'' : mem V, global_waits m'' (fw_in v') = false).
Proof.
  intros V m n ms E v Hv q l Hl. split.
  - rewrite Hl. unfold global_waits. rewrite orb_false_r, forallb_forall. unfold is_empty.
    split; intros H x X; specialize (H x X); destruct (heap_get m x); congruence.
  - unfold start_first_queue in E. destruct (mem_works m) as [|w works]; [discriminate|]. cbn [tl] in Hv.
    destruct (fw_in w); try discriminate. destruct (fw_out w) as [|first| |]; try discriminate.
    destruct (split_list _ n) as [parts|]; [|discriminate]. cbn [bind] in E.
    remember (mk_mem _ works _) as m0 eqn:Em0. assert (I0 : In v (mem_works m0)) by (subst m0; exact Hv). clear Em0 Hv.
    set (fq := q_copy (heap_get m first)) in E. clearbody fq.
    assert (I1 : exists v', In v' (mem_works m0) /\ fw_name v' = fw_name v /\ List.length (refs (fw_in v')) = List.length (q :: l) /\
                 (fw_in v' = QTuple (refs (fw_in v')) \/ fw_in v' = QList (refs (fw_in v')))).
    { exists v. split; [exact I0|]. rewrite Hl. cbn. auto. }
    clear I0 Hl. set (old := first) in E at 2. clearbody old. revert old m0 ms E I1. induction parts as [|p parts IH]; intros old m0 ms E I1.
    + injection E as <-. intros m' [].
    + cbn [launch] in E. set (new := List.length (mem_heap m0)) in *. destruct (fill fq p _) as [c|]; [|discriminate]. cbn [bind] in E.
      destruct (launch _ _ parts new _) as [rest|] eqn:R; [|discriminate]. cbn [bind] in E. injection E as <-.
      destruct I1 as (v' & J1 & J2 & J3 & J4).
      assert (J5 : exists l', fw_in (subst_work old new v') = QList l' /\ List.length l' = List.length (q :: l)).
      { destruct J4 as [J4|J4]; cbn [subst_work fw_in]; rewrite J4; cbn [subst_ref]; eexists; (split; [reflexivity|]); rewrite map_length; exact J3. }
      destruct J5 as (l' & J5 & J6).
      intros m' [<-|M].
      * exists (subst_work old new v'). split; [cbn; apply in_map, J1|]. split; [exact J2|]. rewrite J5. split; [exact J6|].
        intros m''. destruct l'; [discriminate|reflexivity].
      * apply (IH _ _ _ R); [|exact M]. exists (subst_work old new v'). split; [cbn; apply in_map, J1|]. split; [exact J2|].
        rewrite J5. split; [exact J6|]. right. reflexivity.
Qed.
Print Assumptions C90_global_refuted.

(** Exactly when a "global" work waits: without input queue, with one empty queue, with a tuple of queues which are all empty, or
    with an empty list of queues. *)
Theorem C90_global_waits : forall V (m : mem V) r,
  global_waits m r = true <->
  match r with
  | QNone => True
  | QOne q => heap_get m q = []
  | QTuple l => forall q, In q l -> heap_get m q = []
  | QList l => l = []
  end.
Proof.
  intros V m r.
  assert (G : forall q, is_empty m q = true <-> heap_get m q = []) by (intros q; unfold is_empty; destruct (heap_get m q); split; congruence).
  destruct r as [|q|l|l]; unfold global_waits; cbn [orb].
  - tauto.
  - apply G.
  - destruct l as [|q l]; [cbn; split; [intros _ q []|reflexivity]|]. rewrite orb_false_r, forallb_forall. split; intros H x X; apply G, H, X.
  - destruct l; split; congruence.
Qed.
Print Assumptions C90_global_waits.

(** The topology TopologyExample (topologies/example.py:110-160) with five images and two processes. *)
Definition example : mem Z :=
  mk_mem [[(1%nat, 10); (2%nat, 20); (3%nat, 30); (4%nat, 40); (5%nat, 50)]; []; []; []; []]
    [mk_fwork 0 QNone (QOne 0); mk_fwork 1 (QOne 0) (QOne 1); mk_fwork 2 (QOne 0) (QOne 2);
     mk_fwork 3 (QTuple [1; 2]%nat) (QOne 3); mk_fwork 4 (QOne 3) (QOne 4); mk_fwork 5 (QOne 4) QNone] [0; 1; 2; 3; 4]%nat.
Example C90_example : wf example /\ NoDup (map fst (heap_get example 0)) /\
  (exists a b, start_first_queue 2 example = Ok [a; b] /\
    mem_queues a = [5; 1; 2; 3; 4]%nat /\ heap_get a 5 = [(1%nat, 10); (2%nat, 20); (3%nat, 30)] /\
    mem_queues b = [6; 1; 2; 3; 4]%nat /\ heap_get b 6 = [(4%nat, 40); (5%nat, 50)] /\
    mem_works b = [mk_fwork 1 (QOne 6) (QOne 1); mk_fwork 2 (QOne 6) (QOne 2); mk_fwork 3 (QList [1; 2]%nat) (QOne 3);
                   mk_fwork 4 (QOne 3) (QOne 4); mk_fwork 5 (QOne 4) QNone]) /\
  global_waits example (QTuple [1; 2]%nat) = true.
Proof.
  split; [split; cbn; repeat constructor|]. split; [cbn; repeat (constructor; [cbn; lia|]); constructor|]. split; [|reflexivity].
  eexists _, _. split; [vm_compute; reflexivity|]. repeat split; reflexivity.
Qed.

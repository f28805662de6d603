(** C14, C15, C16: runs of the PIV and preprocessing topologies, from the series of images.

    [pre]: works on images (reading, im2im), [post]: works on groups (computation, saving),
    both arbitrary and possibly failing; [path x]: path of the image x; [entries]: index and
    value (whose names are [names_of]) of each serie. *)
From Coq Require Import Permutation.
From Verif Require Import PyBase QueueModel QueueProofs ExecModel ExecSpec ExecAsyncProofs JoinModel JoinSpec JoinProofs
     JoinHistProofs JoinExecProofs JoinRunProofs.

Definition works V := list (bool * (nat -> V -> item V)).

(** parameters of the asynchronous executors for the two topologies *)
Definition piv_params {V} (names_of : V -> list nat) mk (nw limit : Z) (pre post : works V) : params V :=
  mk_params nw limit false (join_nq pre post) (join_works (make_couples names_of mk) pre post).
Definition preproc_params {V} (names_of : V -> list nat) mk (nw limit : Z) (pre post : works V) : params V :=
  mk_params nw limit false (join_nq pre post) (join_works (make_subsets names_of mk) pre post).

(** state of the queues after the first work of the topology *)
Definition first_queues {V} (names_of : V -> list nat) path entries : queues V :=
  join_queues (fill (series_of names_of path entries)).

(** the series are couples of different images *)
Definition couples {V} (names_of : V -> list nat) (entries : list (nat * V)) : Prop :=
  NoDup (map fst entries) /\
  forall k v, In (k, v) entries -> exists a b, names_of v = [a; b] /\ a <> b.

(** everything which has to be done: reading of each image once, treatment of each group *)
Definition to_do {V} (names_of : V -> list nat) group path (pre post : works V) entries : list (event V) :=
  expected_events names_of group (fun x => pipe (map snd pre) x (inl (path x))) (map snd pre) (map snd post)
    (map (fun x => (x, inl (path x))) (reading_order (groups_of names_of entries))) entries.

Lemma couples_wf {V} (names_of : V -> list nat) entries : couples names_of entries ->
  forall k v, In (k, v) entries -> wf_couple names_of (inl v).
Proof. intros [_ H] k v HI. destruct (H k v HI) as (a & b & E & Hab). exists a, b. auto. Qed.
Lemma couple_group_ok {V} (names_of : V -> list nat) mk k v its :
  couple_group names_of mk k v its = grp_couple names_of mk k v its.
Proof. reflexivity. Qed.

(** ** The sequential executor always ends, everything done exactly once *)
Theorem C16_sequential_couples :
  forall V (names_of : V -> list nat) mk path (pre post : works V) entries nmax,
  (1 <= List.length post)%nat -> couples names_of entries -> 0 <= nmax ->
  exists fuel st,
    seq_run fuel false nmax (join_nq pre post) (join_works (make_couples names_of mk) pre post)
            (mk_sst (first_queues names_of path entries) []) = Some (st, None) /\
    (forall q, (q < join_nq pre post)%nat -> s_qs st q = []) /\
    Permutation (item_events (s_tr st)) (to_do names_of (couple_group names_of mk) path pre post entries).
Proof.
  intros V names_of mk path pre post entries nmax Hb HC Hn. eexists.
  destruct (run_sequential names_of path _ _ _ (make_couples_ok names_of mk) pre post Hb entries (proj1 HC) (couples_wf _ _ HC) nmax _ Hn (le_n _)) as (st & E & H1 & H2).
  exists st. unfold first_queues. rewrite (run_queues names_of path entries (proj1 HC)). split; [exact E|]. split; [exact H1|].
  rewrite H2. rewrite (run_events names_of path _ pre post entries (couple_group names_of mk)); [reflexivity|]. intros. apply couple_group_ok.
Qed.
Print Assumptions C16_sequential_couples.

Theorem C16_sequential_subsets :
  forall V (names_of : V -> list nat) mk path (pre post : works V) entries nmax,
  (1 <= List.length post)%nat -> NoDup (map fst entries) -> 0 <= nmax ->
  exists fuel st,
    seq_run fuel false nmax (join_nq pre post) (join_works (make_subsets names_of mk) pre post)
            (mk_sst (first_queues names_of path entries) []) = Some (st, None) /\
    (forall q, (q < join_nq pre post)%nat -> s_qs st q = []) /\
    Permutation (item_events (s_tr st)) (to_do names_of (subset_group names_of mk) path pre post entries).
Proof.
  intros V names_of mk path pre post entries nmax Hb HC Hn. eexists.
  destruct (run_sequential names_of path _ _ _ (make_subsets_ok names_of mk) pre post Hb entries HC (fun k v _ => ex_intro _ v eq_refl) nmax _ Hn (le_n _)) as (st & E & H1 & H2).
  exists st. unfold first_queues. rewrite (run_queues names_of path entries HC). split; [exact E|]. split; [exact H1|].
  rewrite H2. rewrite (run_events names_of path _ pre post entries (subset_group names_of mk)); reflexivity.
Qed.
Print Assumptions C16_sequential_subsets.

(** ** The asynchronous executors never end before everything is done, exactly once *)
Theorem C14_async_delivers :
  forall V (names_of : V -> list nat) mk path (pre post : works V) entries nw limit s,
  (1 <= List.length post)%nat -> couples names_of entries ->
  reachable (piv_params names_of mk nw limit pre post) (init (first_queues names_of path entries)) s ->
  a_raised s = None /\
  (ended (piv_params names_of mk nw limit pre post) s ->
   (forall q, (q < join_nq pre post)%nat -> a_qs s q = []) /\
   Permutation (item_events (a_tr s)) (to_do names_of (couple_group names_of mk) path pre post entries)).
Proof.
  intros V names_of mk path pre post entries nw limit s Hb HC HR. unfold first_queues in HR. rewrite (run_queues names_of path entries (proj1 HC)) in HR.
  destruct (run_async_done names_of path _ _ _ (make_couples_ok names_of mk) pre post Hb entries (proj1 HC) (couples_wf _ _ HC) nw limit s HR) as (H1 & H2 & H3).
  split; [exact H1|]. intros HE. destruct (H2 (H3 HE)) as [H4 H5]. split; [exact H4|].
  rewrite H5. rewrite (run_events names_of path _ pre post entries (couple_group names_of mk)); [reflexivity|]. intros. apply couple_group_ok.
Qed.
Print Assumptions C14_async_delivers.

Theorem C15_async_delivers :
  forall V (names_of : V -> list nat) mk path (pre post : works V) entries nw limit s,
  (1 <= List.length post)%nat -> NoDup (map fst entries) ->
  reachable (preproc_params names_of mk nw limit pre post) (init (first_queues names_of path entries)) s ->
  a_raised s = None /\
  (ended (preproc_params names_of mk nw limit pre post) s ->
   (forall q, (q < join_nq pre post)%nat -> a_qs s q = []) /\
   Permutation (item_events (a_tr s)) (to_do names_of (subset_group names_of mk) path pre post entries)).
Proof.
  intros V names_of mk path pre post entries nw limit s Hb HC HR. unfold first_queues in HR. rewrite (run_queues names_of path entries HC) in HR.
  destruct (run_async_done names_of path _ _ _ (make_subsets_ok names_of mk) pre post Hb entries HC (fun k v _ => ex_intro _ v eq_refl) nw limit s HR) as (H1 & H2 & H3).
  split; [exact H1|]. intros HE. destruct (H2 (H3 HE)) as [H4 H5]. split; [exact H4|].
  rewrite H5. rewrite (run_events names_of path _ pre post entries (subset_group names_of mk)); reflexivity.
Qed.
Print Assumptions C15_async_delivers.

(** ** Exactly when the asynchronous executors can always end (one work on images: reading) *)
Definition always_can_end {V} (p : params V) (s0 : ast V) : Prop :=
  forall s, reachable p s0 s -> exists s', reachable p s s' /\ ended p s'.

Theorem C16_async_couples_iff :
  forall V (names_of : V -> list nat) mk path (pre post : works V) entries nw limit,
  List.length pre = 1%nat -> (1 <= List.length post)%nat -> couples names_of entries -> 1 <= nw -> 1 <= limit ->
  let groups := groups_of names_of entries in
  (always_can_end (piv_params names_of mk nw limit pre post) (init (first_queues names_of path entries)) <->
   forall n, (n < List.length (reading_order groups))%nat ->
     Z.of_nat (List.length (waiting groups (firstn n (reading_order groups)))) < limit).
Proof.
  intros V names_of mk path pre post entries nw limit Ha Hb HC Hw Hl groups. unfold always_can_end, first_queues. rewrite (run_queues names_of path entries (proj1 HC)).
  exact (run_ends_iff names_of path _ _ _ (make_couples_ok names_of mk) pre post Hb entries (proj1 HC) (couples_wf _ _ HC) nw limit Hw Hl Ha).
Qed.
Print Assumptions C16_async_couples_iff.

Theorem C16_async_subsets_iff :
  forall V (names_of : V -> list nat) mk path (pre post : works V) entries nw limit,
  List.length pre = 1%nat -> (1 <= List.length post)%nat -> NoDup (map fst entries) -> 1 <= nw -> 1 <= limit ->
  let groups := groups_of names_of entries in
  (always_can_end (preproc_params names_of mk nw limit pre post) (init (first_queues names_of path entries)) <->
   forall n, (n < List.length (reading_order groups))%nat ->
     Z.of_nat (List.length (waiting groups (firstn n (reading_order groups)))) < limit).
Proof.
  intros V names_of mk path pre post entries nw limit Ha Hb HC Hw Hl groups. unfold always_can_end, first_queues. rewrite (run_queues names_of path entries HC).
  exact (run_ends_iff names_of path _ _ _ (make_subsets_ok names_of mk) pre post Hb entries HC (fun k v _ => ex_intro _ v eq_refl) nw limit Hw Hl Ha).
Qed.
Print Assumptions C16_async_subsets_iff.

(** Groups whose images are less than [limit] apart in the reading order: it always ends. *)
Theorem C16_async_close_couples_partial :
  forall V (names_of : V -> list nat) mk path (pre post : works V) entries nw limit d,
  List.length pre = 1%nat -> (1 <= List.length post)%nat -> couples names_of entries -> 1 <= nw ->
  Z.of_nat d < limit -> close_by d (groups_of names_of entries) ->
  always_can_end (piv_params names_of mk nw limit pre post) (init (first_queues names_of path entries)).
Proof.
  intros V names_of mk path pre post entries nw limit d Ha Hb HC Hw Hl Hd. apply C16_async_couples_iff; try assumption; [lia|].
  intros n Hn. pose proof (close_waiting d _ n Hd ltac:(lia)). lia.
Qed.
Print Assumptions C16_async_close_couples_partial.

Theorem C16_async_close_subsets_partial :
  forall V (names_of : V -> list nat) mk path (pre post : works V) entries nw limit d,
  List.length pre = 1%nat -> (1 <= List.length post)%nat -> NoDup (map fst entries) -> 1 <= nw ->
  Z.of_nat d < limit -> close_by d (groups_of names_of entries) ->
  always_can_end (preproc_params names_of mk nw limit pre post) (init (first_queues names_of path entries)).
Proof.
  intros V names_of mk path pre post entries nw limit d Ha Hb HC Hw Hl Hd. apply C16_async_subsets_iff; try assumption; [lia|].
  intros n Hn. pose proof (close_waiting d _ n Hd ltac:(lia)). lia.
Qed.
Print Assumptions C16_async_close_subsets_partial.

(** With any number of works on the images (image2image): too many waiting images lead to a
    state from which the executor never ends... *)
Theorem C16_async_couples_blocked :
  forall V (names_of : V -> list nat) mk path (pre post : works V) entries nw limit n,
  (1 <= List.length pre)%nat -> (1 <= List.length post)%nat -> couples names_of entries -> 1 <= nw -> 1 <= limit ->
  let groups := groups_of names_of entries in
  (n < List.length (reading_order groups))%nat ->
  limit <= Z.of_nat (List.length (waiting groups (firstn n (reading_order groups)))) ->
  let p := piv_params names_of mk nw limit pre post in
  exists s, reachable p (init (first_queues names_of path entries)) s /\ forall s', reachable p s s' -> ~ ended p s'.
Proof.
  intros V names_of mk path pre post entries nw limit n Ha Hb HC Hw Hl groups Hn Hbad p. unfold p, first_queues. rewrite (run_queues names_of path entries (proj1 HC)).
  exact (run_deadlock names_of path _ _ _ (make_couples_ok names_of mk) pre post Hb entries (proj1 HC) (couples_wf _ _ HC) nw limit Hw Hl n Ha Hn Hbad).
Qed.
Print Assumptions C16_async_couples_blocked.

Theorem C16_async_subsets_blocked :
  forall V (names_of : V -> list nat) mk path (pre post : works V) entries nw limit n,
  (1 <= List.length pre)%nat -> (1 <= List.length post)%nat -> NoDup (map fst entries) -> 1 <= nw -> 1 <= limit ->
  let groups := groups_of names_of entries in
  (n < List.length (reading_order groups))%nat ->
  limit <= Z.of_nat (List.length (waiting groups (firstn n (reading_order groups)))) ->
  let p := preproc_params names_of mk nw limit pre post in
  exists s, reachable p (init (first_queues names_of path entries)) s /\ forall s', reachable p s s' -> ~ ended p s'.
Proof.
  intros V names_of mk path pre post entries nw limit n Ha Hb HC Hw Hl groups Hn Hbad p. unfold p, first_queues. rewrite (run_queues names_of path entries HC).
  exact (run_deadlock names_of path _ _ _ (make_subsets_ok names_of mk) pre post Hb entries HC (fun k v _ => ex_intro _ v eq_refl) nw limit Hw Hl n Ha Hn Hbad).
Qed.
Print Assumptions C16_async_subsets_blocked.

(** ... and if the images waiting are less than [limit] for every part of the images already
    read, it always ends. *)
Theorem C16_async_couples_ends_partial :
  forall V (names_of : V -> list nat) mk path (pre post : works V) entries nw limit,
  (1 <= List.length post)%nat -> couples names_of entries -> 1 <= nw -> 1 <= limit ->
  let groups := groups_of names_of entries in
  (forall read : nat -> bool, (exists x, In x (reading_order groups) /\ read x = false) ->
     Z.of_nat (List.length (waiting groups (filter read (reading_order groups)))) < limit) ->
  always_can_end (piv_params names_of mk nw limit pre post) (init (first_queues names_of path entries)).
Proof.
  intros V names_of mk path pre post entries nw limit Hb HC Hw Hl groups HS. unfold always_can_end, first_queues. rewrite (run_queues names_of path entries (proj1 HC)).
  exact (run_ends_subsets names_of path _ _ _ (make_couples_ok names_of mk) pre post Hb entries (proj1 HC) (couples_wf _ _ HC) nw limit Hw Hl HS).
Qed.
Print Assumptions C16_async_couples_ends_partial.

(** ** C16 is false: images 8 indices apart, with the limits of the executor used by the
    multi executors (8 items, 1 worker: exec_async_seq_for_multi.py) *)
Definition ex_read : works (list nat) := [(true, fun k v => inl v)].
Definition ex_post : works (list nat) := [(false, fun k v => inl (k :: v)); (true, fun k v => inl v)].
Definition ex_couples (d n : nat) : list (nat * list nat) := map (fun i => (i, [i; i + d]%nat)) (seq 0 n).

Lemma ex_couples_ok d n : (1 <= d)%nat -> couples (fun v => v) (ex_couples d n).
Proof.
  intros Hd. split.
  - unfold ex_couples. rewrite map_map. cbn. rewrite map_id. apply seq_NoDup.
  - intros k v HI. unfold ex_couples in HI. apply in_map_iff in HI. destruct HI as (i & E & _). injection E as <- <-. exists i, (i + d)%nat. split; [reflexivity|lia].
Qed.

Theorem C16_refuted :
  exists s, reachable (piv_params (fun v => v) (fun k a b x y => k :: x ++ y) 1 8 ex_read ex_post)
              (init (first_queues (fun v => v) (fun x => [x]) (ex_couples 8 16))) s /\
    forall s', reachable (piv_params (fun v => v) (fun k a b x y => k :: x ++ y) 1 8 ex_read ex_post) s s' ->
      ~ ended (piv_params (fun v => v) (fun k a b x y => k :: x ++ y) 1 8 ex_read ex_post) s'.
Proof.
  apply (C16_async_couples_blocked _ (fun v : list nat => v) _ _ _ _ _ 1 8 16); try (first [lia | vm_compute; lia | vm_compute; discriminate]).
  apply ex_couples_ok. lia.
Qed.
Print Assumptions C16_refuted.

(** Preprocessing with subsets of 9 images. *)
Theorem C16_subsets_refuted :
  let p := preproc_params (fun v => v) (fun k l its => k :: l) 1 8 ex_read ex_post in
  exists s, reachable p (init (first_queues (fun v => v) (fun x => [x]) [(0%nat, seq 0 9)])) s /\
    forall s', reachable p s s' -> ~ ended p s'.
Proof.
  apply (C16_async_subsets_blocked _ (fun v : list nat => v) _ _ _ _ _ 1 8 8); try (first [lia | vm_compute; lia | vm_compute; discriminate]).
  repeat constructor; cbn; auto.
Qed.

(** The usual couples (i, i+1) and 7 indices apart: the hypothesis of the positive theorems
    is met. *)
Example C16_example_ends :
  always_can_end (piv_params (fun v => v) (fun k a b x y => k :: x ++ y) 1 8 ex_read ex_post)
    (init (first_queues (fun v => v) (fun x => [x]) (ex_couples 7 12))).
Proof.
  apply C16_async_couples_iff; try (first [lia | vm_compute; lia | vm_compute; discriminate]); [apply ex_couples_ok; lia|].
  assert (H : forallb (fun n => Z.of_nat (List.length (waiting (groups_of (fun v => v) (ex_couples 7 12)) (firstn n (reading_order (groups_of (fun v => v) (ex_couples 7 12)))))) <? 8) (seq 0 19) = true) by (vm_compute; reflexivity).
  rewrite forallb_forall in H. intros n Hn. apply Z.ltb_lt, H. apply in_seq. change (List.length (reading_order (groups_of (fun v => v) (ex_couples 7 12)))) with 19%nat in Hn. lia.
Qed.

(** consecutive couples, any number of images *)
Lemma order_consecutive n : reading_order (groups_of (fun v => v) (ex_couples 1 (S n))) = seq 0 (S (S n)).
Proof.
  assert (HG : forall k m, fold_left addn (List.concat (map (fun i => [i; i + 1]%nat) (seq m k))) (seq 0 (S m)) = seq 0 (S (m + k))).
  { induction k as [|k IH]; intros m; [cbn [seq map List.concat fold_left]; rewrite Nat.add_0_r; reflexivity|].
    cbn [seq map List.concat app]. cbn [fold_left]. 
    assert (E1 : addn (seq 0 (S m)) m = seq 0 (S m)). { unfold addn. rewrite (proj2 (among_In m _)); [reflexivity|]. apply in_seq. lia. }
    assert (E2 : addn (seq 0 (S m)) (m + 1) = seq 0 (S (S m))).
    { unfold addn. destruct (among (m + 1) (seq 0 (S m))) eqn:E; [apply among_In, in_seq in E; lia|]. rewrite (seq_S (S m) 0). replace (0 + S m)%nat with (m + 1)%nat by lia. reflexivity. }
    change (0 :: seq 1 m)%nat with (seq 0 (S m)). rewrite E1, E2. rewrite IH. replace (S m + k)%nat with (m + S k)%nat by lia. reflexivity. }
  unfold reading_order, groups_of, ex_couples. fold addn. rewrite map_map.
  change (fold_left addn (List.concat (map (fun i => [i; i + 1]%nat) (seq 0 (S n)))) [] = seq 0 (S (S n))).
  cbn [seq map List.concat app fold_left]. change (addn (addn [] 0) (0 + 1)) with (seq 0 2). rewrite (HG n 1%nat). reflexivity.
Qed.

Theorem C16_consecutive_couples_end :
  forall mk path (pre post : works (list nat)) n nw limit,
  List.length pre = 1%nat -> (1 <= List.length post)%nat -> 1 <= nw -> 2 <= limit ->
  always_can_end (piv_params (fun v => v) mk nw limit pre post) (init (first_queues (fun v => v) path (ex_couples 1 n))).
Proof.
  intros mk path pre post n nw limit Ha Hb Hw Hl. apply (C16_async_close_couples_partial _ _ _ _ _ _ _ _ _ 1); try assumption; [apply ex_couples_ok; lia|lia|].
  destruct n as [|n]; [intros names i j x y []|]. intros names i j x y HI Hx Hy Hi Hj. rewrite order_consecutive in Hi, Hj.
  assert (HN : forall i x, nth_error (seq 0 (S (S n))) i = Some x -> x = i).
  { intros i0 x0 H. assert (Hlt : (i0 < S (S n))%nat). { rewrite <- (seq_length (S (S n)) 0). apply nth_error_Some. rewrite H. discriminate. }
    rewrite (nth_error_nth' _ 0%nat) in H by (rewrite seq_length; exact Hlt). rewrite seq_nth in H by exact Hlt. injection H as <-. reflexivity. }
  apply HN in Hi, Hj. subst x y. unfold groups_of, ex_couples in HI. rewrite map_map in HI. apply in_map_iff in HI. destruct HI as (m & <- & _).
  destruct Hx as [<-|[<-|[]]], Hy as [<-|[<-|[]]]; lia.
Qed.
Print Assumptions C16_consecutive_couples_end.

Example C16_example_sequential :
  exists fuel st, seq_run fuel false 8 5 (join_works (make_couples (fun v => v) (fun k a b x y => k :: x ++ y)) ex_read ex_post)
     (mk_sst (first_queues (fun v => v) (fun x => [x]) (ex_couples 8 2)) []) = Some (st, None) /\ List.length (item_events (s_tr st)) = 8%nat.
Proof. exists 40%nat. eexists. split; [vm_compute; reflexivity|vm_compute; reflexivity]. Qed.

(** From the series of images to the runs of the executors. *)
From Coq Require Import Permutation.
From Verif Require Import PyBase QueueModel QueueProofs ExecModel ExecSpec ExecAsyncProofs JoinModel JoinSpec JoinProofs JoinHistProofs JoinExecProofs.

Definition addn (acc : list nat) (x : nat) : list nat := if among x acc then acc else acc ++ [x].

Lemma addn_NoDup l acc : NoDup acc -> NoDup (fold_left addn l acc).
Proof.
  revert acc. induction l as [|x l IH]; intros acc H; [exact H|]. cbn [fold_left]. apply IH. unfold addn.
  destruct (among x acc) eqn:E; [exact H|]. apply NoDup_app_conv; [exact H|repeat constructor; auto|].
  intros y Hy [<-|[]]. apply among_In in Hy. congruence.
Qed.
Lemma addn_In l acc y : In y (fold_left addn l acc) <-> In y acc \/ In y l.
Proof.
  revert acc. induction l as [|x l IH]; intros acc; cbn [fold_left]; [cbn; tauto|]. rewrite IH. unfold addn. cbn [In].
  destruct (among x acc) eqn:E; [apply among_In in E; split; intuition (subst; auto)|]. rewrite in_app_iff. cbn. tauto.
Qed.
Lemma order_NoDup g : NoDup (reading_order g).
Proof. apply (addn_NoDup (List.concat g) []). constructor. Qed.
Lemma order_In g y : In y (reading_order g) <-> exists names, In names g /\ In y names.
Proof. unfold reading_order. fold addn. rewrite (addn_In (List.concat g) [] y), in_concat. cbn. clear. firstorder. Qed.

Section Fill.
Context {V : Type}.
Variable names_of : V -> list nat.
Variable path : nat -> V.

Definition P_of (l : list nat) : queue (item V) := map (fun x => (x, inl (path x))) l.
Lemma keys_P_of l : keys (P_of l) = l.
Proof. unfold keys, P_of. rewrite map_map. cbn. apply map_id. Qed.

Lemma q_set_same k (l : list nat) : In k l -> q_set k (inl (path k)) (P_of l) = P_of l.
Proof.
  intros H. induction l as [|y l IH]; [destruct H|]. cbn. destruct (Nat.eqb_spec k y) as [->|]; [reflexivity|].
  f_equal. apply IH. destruct H; [congruence|assumption].
Qed.
Lemma fill_paths names l :
  fold_left (fun q1 '(name, p) => q_set name (inl p) q1) (map (fun x => (x, path x)) names) (P_of l) = P_of (fold_left addn names l).
Proof.
  revert l. induction names as [|x names IH]; intros l; [reflexivity|]. cbn [map fold_left]. rewrite <- IH. f_equal. unfold addn.
  destruct (among x l) eqn:E; [apply (q_set_same x l (proj1 (among_In x l) E))|].
  unfold item. rewrite q_set_new; [unfold P_of; rewrite map_app; reflexivity|]. rewrite keys_P_of. intros HI. apply among_In in HI. congruence.
Qed.

Definition K_of (entries : list (nat * V)) : queue (item V) := map (fun '(k, v) => (k, inl v)) entries.
Lemma keys_K_of entries : keys (K_of entries) = map fst entries.
Proof. unfold keys, K_of. rewrite map_map. apply map_ext. intros [k v]. reflexivity. Qed.

Lemma fill_gen entries done l : NoDup (map fst (done ++ entries)) ->
  fold_left fill_one (series_of names_of path entries) (K_of done, P_of l)
  = (K_of (done ++ entries), P_of (fold_left addn (List.concat (groups_of names_of entries)) l)).
Proof.
  revert done l. induction entries as [|[k v] entries IH]; intros done l Hnd.
  - cbn. rewrite app_nil_r. reflexivity.
  - cbn [series_of map fold_left]. unfold fill_one at 2. rewrite fill_paths. unfold item. rewrite q_set_new.
    + change (K_of done ++ [(k, inl v)]) with (K_of done ++ K_of [(k, v)]). unfold K_of at 1 2. rewrite <- map_app. fold (K_of (done ++ [(k, v)])).
      change (fold_left fill_one (series_of names_of path entries) (K_of (done ++ [(k, v)]), P_of (fold_left addn (names_of v) l))
        = (K_of (done ++ (k, v) :: entries), P_of (fold_left addn (names_of v ++ List.concat (groups_of names_of entries)) l))).
      rewrite IH; rewrite <- app_assoc; cbn [app]; [|exact Hnd]. rewrite fold_left_app. reflexivity.
    + rewrite keys_K_of. rewrite map_app in Hnd. cbn [map fst] in Hnd. apply NoDup_remove_2 in Hnd. intros HI. apply Hnd, in_or_app. auto.
Qed.

Lemma fill_spec entries : NoDup (map fst entries) ->
  fill (series_of names_of path entries) = (K_of entries, P_of (reading_order (groups_of names_of entries))).
Proof. intros H. apply (fill_gen entries [] [] H). Qed.

Lemma HPK_of entries x : In x (keys (P_of (reading_order (groups_of names_of entries)))) <-> in_values names_of x (K_of entries) = true.
Proof.
  rewrite keys_P_of, order_In, in_values_spec. unfold groups_of, K_of. split.
  - intros (names & HI & Hx). apply in_map_iff in HI. destruct HI as ([k v] & <- & HI). exists k, (inl v). split; [|exact Hx].
    apply in_map_iff. exists (k, v). auto.
  - intros (k & it & HI & Hx). apply in_map_iff in HI. destruct HI as ([k' v] & E & HI). injection E as -> <-. exists (names_of v). split; [|exact Hx].
    apply in_map_iff. exists (k, v). auto.
Qed.
Lemma entry_names_of entries : entry_names names_of (K_of entries) = groups_of names_of entries.
Proof. unfold entry_names, K_of, groups_of. rewrite map_map. apply map_ext. intros [k v]. reflexivity. Qed.
Lemma K_of_In entries k it : In (k, it) (K_of entries) -> exists v, it = inl v /\ In (k, v) entries.
Proof. unfold K_of. intros HI. apply in_map_iff in HI. destruct HI as ([k' v] & E & HI). injection E as -> <-. eauto. Qed.

(** ** Runs *)
Section Run.
Variable wf : item V -> Prop.
Variable grp : nat -> V -> list (item V) -> item V.
Variable make : queue (item V) -> queue (item V) -> queue (item V) -> result (st3 V).
Hypothesis Hmake : make_ok names_of wf grp make.
Variables pre post : list (bool * (nat -> V -> item V)).
Hypothesis Hb : (1 <= List.length post)%nat.
Variable entries : list (nat * V).
Hypothesis Hnd : NoDup (map fst entries).
Hypothesis Hwf : forall k v, In (k, v) entries -> wf (inl v).

Let K := K_of entries.
Let order := reading_order (groups_of names_of entries).
Let P := P_of order.
Let img x := pipe (map snd pre) x (inl (path x)).

Lemma run_HK : NoDup (keys K). Proof. unfold K. rewrite keys_K_of. exact Hnd. Qed.
Lemma run_wf k it : In (k, it) K -> wf it. Proof. intros HI. apply K_of_In in HI. destruct HI as (v & -> & HI). apply (Hwf k v HI). Qed.
Lemma run_HP : NoDup (keys P). Proof. unfold P. rewrite keys_P_of. apply order_NoDup. Qed.
Lemma run_img x it : In (x, it) P -> img x = pipe (map snd pre) x it.
Proof. unfold P, P_of. intros HI. apply in_map_iff in HI. destruct HI as (y & E & _). injection E as <- <-. reflexivity. Qed.
Definition run_HPK x := HPK_of entries x.

Lemma run_events grp' : (forall k v its, In (k, v) entries -> grp' k v its = grp k v its) ->
  all_events names_of grp pre post K P img
  = expected_events names_of grp' img (map snd pre) (map snd post) (map (fun x => (x, inl (path x))) order) entries.
Proof.
  intros Hg. unfold all_events, expected_events. rewrite map_length. f_equal. unfold K, K_of. rewrite !flat_map_concat_map, map_map. f_equal.
  apply map_ext_in. intros [k v] HI. cbn [fst snd]. rewrite Hg by exact HI. reflexivity.
Qed.

Lemma run_queues : join_queues (fill (series_of names_of path entries)) = jq K P.
Proof. rewrite (fill_spec entries Hnd). reflexivity. Qed.

Lemma run_sequential nmax fuel : 0 <= nmax ->
  ((2 * List.length post + 1) * List.length entries + 2 * List.length pre * List.length order <= fuel)%nat ->
  exists st', seq_run fuel false nmax (join_nq pre post) (join_works make pre post) (mk_sst (jq K P) []) = Some (st', None) /\
    (forall q, (q < join_nq pre post)%nat -> s_qs st' q = []) /\ Permutation (item_events (s_tr st')) (all_events names_of grp pre post K P img).
Proof.
  intros Hn Hf. apply (join_sequential names_of wf grp make Hmake pre post Hb K P img run_HK run_wf run_HP run_img run_HPK nmax fuel Hn).
  unfold K, P, K_of, P_of. rewrite !map_length. exact Hf.
Qed.

Variables nw limit : Z.
Let p := mk_params nw limit false (join_nq pre post) (join_works make pre post).

Lemma run_async_done s : reachable p (init (jq K P)) s -> a_raised s = None /\
  (a_stop s = true -> (forall q, (q < join_nq pre post)%nat -> a_qs s q = []) /\ Permutation (item_events (a_tr s)) (all_events names_of grp pre post K P img)) /\
  (ended p s -> a_stop s = true).
Proof.
  intros HR. assert (Hr : a_raised s = None).
  { apply (async_no_raise names_of wf grp make Hmake pre post Hb K P img run_HK run_wf run_HP run_img run_HPK p eq_refl s eq_refl HR). }
  split; [exact Hr|]. split.
  - apply (async_stop_done names_of wf grp make Hmake pre post Hb K P img run_HK run_wf run_HP run_img run_HPK p eq_refl eq_refl s HR Hr).
  - apply (async_ended_stop names_of wf make pre post Hb K P img run_wf run_img run_HPK p eq_refl eq_refl s HR).
Qed.

Hypothesis Hnw : 1 <= nw.
Hypothesis Hlim : 1 <= limit.

Lemma run_ends_iff : List.length pre = 1%nat ->
  ((forall s, reachable p (init (jq K P)) s -> exists s', reachable p s s' /\ ended p s') <->
   (forall n, (n < List.length order)%nat -> zlen (waiting (groups_of names_of entries) (firstn n order)) < limit)).
Proof.
  intros Ha. pose proof (join_ends_iff names_of wf grp make Hmake pre post Hb K P img run_HK run_wf run_HP run_img run_HPK p eq_refl eq_refl Ha eq_refl Hnw Hlim) as H.
  unfold K at 2 in H. rewrite entry_names_of in H. unfold P at 2 3 in H. rewrite keys_P_of in H. unfold P_of at 1 in H. rewrite map_length in H. exact H.
Qed.

Lemma run_deadlock n : (1 <= List.length pre)%nat -> (n < List.length order)%nat ->
  limit <= zlen (waiting (groups_of names_of entries) (firstn n order)) ->
  exists s, reachable p (init (jq K P)) s /\ forall s', reachable p s s' -> ~ ended p s'.
Proof.
  intros Ha Hn Hbad. apply (join_deadlock names_of wf grp make Hmake pre post Hb K P img run_HK run_wf run_HP run_img run_HPK p eq_refl eq_refl n eq_refl Hnw Hlim Ha).
  - unfold P, P_of. rewrite map_length. exact Hn.
  - unfold K, P. rewrite entry_names_of, keys_P_of. exact Hbad.
Qed.

Lemma run_ends_subsets :
  (forall read, (exists x, In x order /\ read x = false) -> zlen (waiting (groups_of names_of entries) (filter read order)) < limit) ->
  forall s, reachable p (init (jq K P)) s -> exists s', reachable p s s' /\ ended p s'.
Proof.
  intros HS. apply (join_finish_subsets names_of wf grp make Hmake pre post Hb K P img run_HK run_wf run_HP run_img run_HPK p eq_refl eq_refl eq_refl Hnw Hlim).
  intros read Hr. unfold K, P. rewrite entry_names_of, keys_P_of. apply HS. unfold P in Hr. rewrite keys_P_of in Hr. exact Hr.
Qed.
End Run.
End Fill.

(** ** Groups whose images are close in the reading order *)
Definition close_by (d : nat) (groups : list (list nat)) : Prop :=
  forall names i j x y, In names groups -> In x names -> In y names ->
    nth_error (reading_order groups) i = Some x -> nth_error (reading_order groups) j = Some y -> (j <= i + d)%nat.

Lemma NoDup_incl_len {A} (l l' : list A) : NoDup l -> incl l l' -> (List.length l <= List.length l')%nat.
Proof. apply NoDup_incl_length. Qed.

Lemma close_waiting d groups n : close_by d groups -> (n <= List.length (reading_order groups))%nat ->
  (List.length (waiting groups (firstn n (reading_order groups))) <= d)%nat.
Proof.
  intros HC Hn. set (order := reading_order groups) in *.
  assert (Hnd : NoDup (firstn n order)). { pose proof (order_NoDup groups) as H. fold order in H. rewrite <- (firstn_skipn n order) in H. apply (NoDup_app_l _ _ H). }
  assert (HI : incl (waiting groups (firstn n order)) (skipn (n - d) (firstn n order))).
  { intros x Hx. unfold waiting in Hx. apply filter_In in Hx. destruct Hx as [Hx HE]. apply existsb_exists in HE. destruct HE as (names & Hg & HE).
    apply andb_prop in HE. destruct HE as [HE1 HE2]. apply among_In in HE1. apply negb_true_iff in HE2.
    assert (HY : exists y, In y names /\ ~ In y (firstn n order)).
    { clear -HE2. induction names as [|y l IH]; [discriminate|]. cbn in HE2. destruct (among y (firstn n order)) eqn:Ey.
      - destruct (IH HE2) as (z & H1 & H2). exists z. split; [right; exact H1|exact H2].
      - exists y. split; [left; reflexivity|]. intros HI. apply among_In in HI. congruence. }
    destruct HY as (y & Hy & Hyn). apply In_nth_error in Hx. destruct Hx as (i & Hi).
    assert (Hi' : (i < n)%nat). { assert (i < List.length (firstn n order))%nat by (apply nth_error_Some; congruence). rewrite firstn_length in H. lia. }
    assert (Hio : nth_error order i = Some x). { rewrite <- (firstn_skipn n order). rewrite nth_error_app1 by (rewrite firstn_length; lia). exact Hi. }
    assert (HyO : In y order). { apply order_In. exists names. auto. } apply In_nth_error in HyO. destruct HyO as (j & Hj).
    pose proof (HC names i j x y Hg HE1 Hy Hio Hj) as HD.
    assert (Hjn : (n <= j)%nat). { destruct (le_lt_dec n j); [assumption|]. exfalso. apply Hyn. apply (nth_error_In _ j).
      rewrite <- (firstn_skipn n order) in Hj. rewrite nth_error_app1 in Hj by (rewrite firstn_length; lia). exact Hj. }
    apply (nth_error_In _ (i - (n - d))).
    rewrite <- (firstn_skipn (n - d) (firstn n order)) in Hi. rewrite nth_error_app2 in Hi by (rewrite firstn_length, firstn_length; lia).
    rewrite firstn_length, firstn_length in Hi. replace (i - Nat.min (n - d) (Nat.min n (List.length order)))%nat with (i - (n - d))%nat in Hi by lia. exact Hi. }
  pose proof (NoDup_incl_len _ _ (NoDup_filter _ Hnd) HI) as HL. rewrite skipn_length, firstn_length in HL. unfold waiting. lia.
Qed.

(** Chains of works, asynchronous executor: places of the keys, end of the execution. *)
From Coq Require Import Permutation.
From Verif Require Import PyBase QueueModel QueueProofs ExecModel ExecSpec SplitProofs ExecProofs
     ExecAsyncProofs ExecGenProofs ExecBoundProofs.

Section Live.
Context {V : Type}.
Variable fs : list (bool * (nat -> V -> item V)).
Let n := List.length fs.
Let gs := map snd fs.
Variable p : params V.
Hypothesis Hworks : p_works p = chain_works fs.
Hypothesis Hnq : p_nq p = n.

Lemma chain_only_item : only_item_works (p_works p).
Proof.
  intros w HI. rewrite Hworks in HI. apply In_nth_error in HI. destruct HI as [i Hi].
  rewrite chain_works_nth in Hi. destruct (nth_error fs i) as [[io f]|]; [|discriminate].
  injection Hi as <-. exists i, f. reflexivity.
Qed.

(** ** Places *)
Definition hit (k : nat) (x : nat * item V) : list unit := if Nat.eqb (fst x) k then [tt] else [].
Definition hits (k : nat) (l : list (nat * item V)) : nat := List.length (flat_map (hit k) l).

Lemma hits_app k l1 l2 : hits k (l1 ++ l2) = (hits k l1 + hits k l2)%nat.
Proof. unfold hits. rewrite flat_map_app, app_length. reflexivity. Qed.
Lemma hits_perm k l1 l2 : Permutation l1 l2 -> hits k l1 = hits k l2.
Proof. intros H. unfold hits. apply Permutation_length, Permutation_flat_map, H. Qed.
Lemma hits_none k l : ~ In k (map fst l) -> hits k l = 0%nat.
Proof.
  unfold hits. induction l as [|[k' x] l IH]; intros H; [reflexivity|]. cbn in H.
  cbn [flat_map]. unfold hit at 1. cbn [fst]. destruct (Nat.eqb_spec k' k); [tauto|]. cbn [app]. apply IH. tauto.
Qed.
Lemma hits_one k l : NoDup (map fst l) -> In k (map fst l) -> hits k l = 1%nat.
Proof.
  induction l as [|[k' x] l IH]; intros Hnd HI; [destruct HI|]. cbn in Hnd, HI. inversion Hnd as [|? ? H1 H2]; subst.
  change ((k', x) :: l) with ([(k', x)] ++ l). rewrite hits_app. unfold hits at 1. cbn [flat_map]. unfold hit. cbn [fst].
  destruct (Nat.eqb_spec k' k) as [->|Hne]; cbn [app List.length].
  - rewrite hits_none by exact H1. reflexivity.
  - rewrite IH; [reflexivity|exact H2|tauto].
Qed.

Lemma fm_length {A B C} (f : A -> list B) (g : A -> list C) l :
  (forall x, In x l -> List.length (f x) = List.length (g x)) ->
  List.length (flat_map f l) = List.length (flat_map g l).
Proof.
  induction l as [|a l IH]; intros H; [reflexivity|]. cbn. rewrite !app_length, (H a) by (left; reflexivity).
  rewrite IH; [reflexivity|]. intros x Hx. apply H. right. exact Hx.
Qed.

Lemma qhits i (q : queue (item V)) k :
  List.length (flat_map (fun '(k', it) => if Nat.eqb k' k then [(Waiting i, it)] else []) q)
  = hits k (flat_map (obs_fin fs i) q).
Proof.
  induction q as [|[k' it] q IH]; [reflexivity|]. cbn [flat_map]. rewrite app_length, IH, hits_app. f_equal.
  unfold hits, obs_fin. cbn [flat_map hit fst app]. unfold hit. cbn [fst]. destruct (Nat.eqb k' k); reflexivity.
Qed.

Lemma waiting_hits m (qs : queues V) k :
  List.length (flat_map (fun i => flat_map (fun '(k', it) => if Nat.eqb k' k then [(Waiting i, it)] else []) (qs i)) (seq 0 m))
  = hits k (down (obs_fin fs) m qs).
Proof.
  induction m as [|m IH]; [reflexivity|]. rewrite seq_S, flat_map_app, app_length, IH. cbn [down flat_map].
  rewrite hits_app, app_nil_r, Nat.add_comm. f_equal. apply qhits.
Qed.

Lemma flight_hits (ts : list (task V)) k :
  List.length (flat_map (fun t => match t_st t with
                        | Running k' v => if Nat.eqb k' k then [(InFlight (t_work t), inl v)] else []
                        | Spawned => []
                        end) ts : list (place * item V)) = hits k (tks (obs_fin fs) ts).
Proof.
  induction ts as [|t ts IH]; [reflexivity|]. change (tks (obs_fin fs) (t :: ts)) with (tk (obs_fin fs) t ++ tks (obs_fin fs) ts).
  cbn [flat_map]. rewrite app_length, hits_app. f_equal; [|exact IH].
  unfold tk. destruct (t_st t) as [|k' v]; [reflexivity|]. unfold hits, obs_fin. cbn [flat_map fst app]. unfold hit. cbn [fst].
  destruct (Nat.eqb k' k); reflexivity.
Qed.

Lemma delivered_hits l k :
  List.length (flat_map (fun '(k', r) => if Nat.eqb k' k then [(Delivered, r)] else []) l : list (place * item V)) = hits k l.
Proof.
  induction l as [|[k' r] l IH]; [reflexivity|]. change ((k', r) :: l) with ([(k', r)] ++ l). rewrite flat_map_app, app_length, IH, hits_app.
  f_equal. unfold hits. cbn [flat_map]. unfold hit. cbn [fst]. destruct (Nat.eqb k' k); reflexivity.
Qed.

Lemma places_length s k : List.length (places n s k) = hits k (total fs (obs_fin fs) (tobs_fin fs) s).
Proof.
  unfold places, total. rewrite !app_length, !hits_app, waiting_hits, flight_hits, delivered_hits. fold n.
  change (Tobs (tobs_fin fs) (a_tr s)) with (finals n (a_tr s)). lia.
Qed.

Lemma places_values inputs s k pl it : AInv fs inputs s -> In (pl, it) (places n s k) ->
  exists x, In (k, x) inputs /\ it = pipe (firstn (passed n pl) gs) k x.
Proof.
  intros H HI. unfold places in HI. rewrite !in_app_iff in HI. destruct HI as [HI|[HI|HI]].
  - apply in_flat_map in HI. destruct HI as (i & Hi & HI). apply in_seq in Hi. apply in_flat_map in HI.
    destruct HI as ([k' it'] & HIq & HI). destruct (Nat.eqb_spec k' k) as [->|]; [|destruct HI].
    destruct HI as [HI|[]]. injection HI as <- <-. cbn [passed]. apply (inv_qval _ _ _ H i k it'); [fold n; lia|exact HIq].
  - apply in_flat_map in HI. destruct HI as (t & Ht & HI). destruct (t_st t) as [|k' v] eqn:E; [destruct HI|].
    destruct (Nat.eqb_spec k' k) as [->|]; [|destruct HI].
    destruct HI as [HI|[]]. injection HI as <- <-. cbn [passed]. apply (inv_tval _ _ _ H t k v Ht E).
  - apply in_flat_map in HI. destruct HI as ([k' r] & Hf & HI). destruct (Nat.eqb_spec k' k) as [->|]; [|destruct HI].
    destruct HI as [HI|[]]. injection HI as <- <-. cbn [passed].
    assert (HE : In (k, r) (expected gs inputs)).
    { apply (Permutation_in _ (inv_fin _ _ _ H)). unfold total. apply in_or_app. left. exact Hf. }
    unfold expected in HE. apply in_map_iff in HE. destruct HE as ([k' x] & HE & HIn). injection HE as -> <-.
    exists x. split; [exact HIn|]. rewrite firstn_all2; [reflexivity|]. unfold gs. rewrite map_length. fold n. lia.
Qed.

Lemma one_place inputs s : (1 <= n)%nat -> NoDup (map fst inputs) ->
  reachable p (init (chain_queues inputs)) s -> a_raised s = None ->
  (forall k x, In (k, x) inputs ->
     exists pl, places n s k = [(pl, pipe (firstn (passed n pl) gs) k x)]) /\
  (forall k, ~ In k (map fst inputs) -> places n s k = []).
Proof.
  intros Hn Hk HR Hr. pose proof (reachable_inv fs p Hworks Hnq inputs s Hn Hk HR Hr) as H.
  assert (HK : forall k, hits k (total fs (obs_fin fs) (tobs_fin fs) s) = hits k (expected gs inputs)).
  { intros k. apply hits_perm, H. }
  split.
  - intros k x HI. pose proof (places_length s k) as HL. rewrite HK, hits_one in HL.
    + destruct (places n s k) as [|[pl it] [|? ?]] eqn:E; cbn in HL; try lia.
      exists pl. destruct (places_values inputs s k pl it H) as (x' & HI' & ->); [rewrite E; left; reflexivity|].
      assert (x' = x); [|subst; reflexivity].
      clear -Hk HI HI'. induction inputs as [|[k0 x0] l IH]; [destruct HI|]. cbn in Hk. inversion Hk as [|? ? H1 H2]; subst.
      destruct HI as [HI|HI], HI' as [HI'|HI'].
      * congruence.
      * injection HI as -> ->. exfalso. apply H1. apply in_map_iff. exists (k, x'). auto.
      * injection HI' as -> ->. exfalso. apply H1. apply in_map_iff. exists (k, x). auto.
      * apply IH; assumption.
    + rewrite (expected_keys fs). exact Hk.
    + rewrite (expected_keys fs). apply in_map_iff. exists (k, x). auto.
  - intros k HI. pose proof (places_length s k) as HL. rewrite HK, hits_none in HL by (rewrite (expected_keys fs); exact HI).
    destruct (places n s k); [reflexivity|discriminate].
Qed.

(** ** The decision to stop *)
Lemma tks_nil {X} (obs : nat -> nat * item V -> list X) ts :
  (forall t k v, In t ts -> t_st t = Running k v -> False) -> tks obs ts = [].
Proof.
  intros H. induction ts as [|t ts IH]; [reflexivity|]. unfold tks. cbn [flat_map]. unfold tk at 1.
  destruct (t_st t) as [|k v] eqn:E; [|exfalso; eapply (H t k v); [left; reflexivity|exact E]].
  apply IH. intros t' k v Ht. apply H. right. exact Ht.
Qed.

Lemma stopped_all_done inputs s : AInv fs inputs s -> a_stop s = true ->
  (forall i, (i < n)%nat -> a_qs s i = []) /\
  (forall t, In t (a_tasks s) -> t_st t = Spawned) /\
  Permutation (finals n (a_tr s)) (expected gs inputs) /\
  forall j, (j < n)%nat -> Permutation (calls j (a_tr s)) (expected_calls gs j inputs).
Proof.
  intros H Hs. destruct (inv_stop _ _ _ H Hs) as (HE & _). rewrite all_empty_spec in HE.
  pose proof (stop_run fs p Hnq _ _ H Hs) as HR. split; [exact HE|]. split.
  { intros t Ht. destruct (t_st t) as [|k v] eqn:E; [reflexivity|]. exfalso. eapply HR; eassumption. }
  split.
  - pose proof (inv_fin _ _ _ H) as HP. unfold total in HP. rewrite tks_nil, (down_empty fs) in HP by (exact HR || exact HE).
    rewrite !app_nil_r in HP. exact HP.
  - intros j Hj. pose proof (inv_call _ _ _ H j Hj) as HP. unfold total in HP. rewrite tks_nil, (down_empty fs) in HP by (exact HR || exact HE).
    rewrite !app_nil_r in HP. exact HP.
Qed.

(** ** Progress *)
Definition run_w (t : task V) : nat := match t_st t with Spawned => 0 | Running _ _ => 2 * (n - t_work t) - 1 end.
Definition mu (s : ast V) : nat := (2 * wsum fs n (a_qs s) + list_sum (map run_w (a_tasks s)))%nat.

Lemma list_sum_perm l l' : Permutation l l' -> list_sum l = list_sum l'.
Proof. unfold list_sum. induction 1; cbn [fold_right]; lia. Qed.
Lemma run_w_perm ts ts' : Permutation ts ts' -> list_sum (map run_w ts) = list_sum (map run_w ts').
Proof. intros H. apply list_sum_perm, Permutation_map, H. Qed.

Lemma put_wsum (qs : queues V) i k it : (i < n)%nat -> ((S i < n)%nat -> ~ In k (keys (qs (S i)))) ->
  (wsum fs n (put (next_q fs i) k it qs) = wsum fs n qs + (n - S i))%nat.
Proof.
  intros Hi Hf. unfold put, next_q. fold n. destruct (Nat.eqb_spec (S i) n) as [Hn|Hn]; [lia|].
  rewrite q_set_new by (apply Hf; lia). apply wsum_push. lia.
Qed.

Lemma fresh_task inputs s id i k v : AInv fs inputs s -> NoDup (map fst inputs) ->
  In (mk_task id i (Running k v)) (a_tasks s) -> (S i < n)%nat -> ~ In k (keys (a_qs s (S i))).
Proof.
  intros H Hkeys HIn HSi. pose proof (total_keys fs _ _ H Hkeys) as HND. unfold total in HND.
  apply (fresh_down fs); [exact HSi|].
  rewrite !map_app in HND. apply NoDup_app_disjoint in HND. destruct HND as (_ & HND & _).
  apply NoDup_app_disjoint in HND. destruct HND as (_ & _ & HND). intros HC. apply (HND k); [|exact HC].
  apply in_map_iff. exists (k, pipe (skipn i gs) k (inl v)). split; [reflexivity|].
  apply in_flat_map. exists (mk_task id i (Running k v)). split; [exact HIn|]. left. reflexivity.
Qed.
Lemma fresh_queue inputs s i k it q' : AInv fs inputs s -> NoDup (map fst inputs) ->
  a_qs s i = (k, it) :: q' -> (S i < n)%nat -> ~ In k (keys (upd (a_qs s) i q' (S i))).
Proof.
  intros H Hkeys Eq HSi. pose proof (total_keys fs _ _ H Hkeys) as HND. unfold total in HND.
  rewrite upd_other by lia. eapply (fresh_next fs n); [exact HSi| |exact Eq].
  rewrite !map_app in HND. apply NoDup_app_disjoint in HND. destruct HND as (_ & HND & _).
  apply NoDup_app_disjoint in HND. apply HND.
Qed.

Lemma others_sum id s t : NoDup (map (@t_id V) (a_tasks s)) -> find_task id s = Some t ->
  list_sum (map run_w (a_tasks s)) = (run_w t + list_sum (map run_w (others id (a_tasks s))))%nat.
Proof.
  intros Hnd Hf. destruct (find_perm id (a_tasks s) t Hnd Hf) as [_ HP]. rewrite (run_w_perm _ _ HP). reflexivity.
Qed.

(** what a step does *)
Definition quiet (s s' : ast V) : Prop := a_qs s' = a_qs s /\ (forall io, counter io s' = counter io s) /\ mu s' = mu s.

Lemma start_productive inputs id i s s' : AInv fs inputs s -> NoDup (map fst inputs) ->
  find_task id s = Some (mk_task id i Spawned) -> start p id s = Some s' ->
  if match a_qs s i with [] => true | _ => false end then quiet s s' else (mu s' < mu s)%nat.
Proof.
  intros H Hk Hf HS. unfold start in HS. rewrite Hf in HS.
  destruct (nth_error (p_works p) i) as [w|] eqn:Ew; [|discriminate].
  destruct (nth_work fs p Hworks i w Ew) as (io & f & Hfi & ->). cbn [chain_work w_body w_io w_out] in HS.
  assert (Hi : (i < n)%nat). { apply nth_error_Some. congruence. }
  cbv zeta in HS. rewrite qs_add_counter in HS. unfold q_pop_first in HS.
  pose proof (others_sum id s _ (inv_ids _ _ _ H) Hf) as Hsum.
  change (run_w (mk_task id i Spawned)) with 0%nat in Hsum.
  destruct (a_qs s i) as [|[k obj] q'] eqn:Eq.
  - injection HS as <-. split; [unfold remove_task, set_tasks; cbn [a_qs]; rewrite !qs_add_counter; reflexivity|].
    split; [intros io'; destruct io, io'; cbn; lia|]. unfold mu, remove_task, set_tasks. cbn [a_qs a_tasks]. rewrite !qs_add_counter.
    replace (a_tasks (add_counter io (-1) (add_counter io 1 s))) with (a_tasks s) by (destruct io; reflexivity).
    fold (others id (a_tasks s)). lia.
  - pose proof (wsum_pop fs n (a_qs s) i _ q' Hi Eq) as HW0.
    assert (HW : (wsum fs n (upd (a_qs s) i (q' : queue (item V))) + (n - i) = wsum fs n (a_qs s))%nat) by exact HW0.
    destruct obj as [v|e].
    + injection HS as <-. unfold mu, set_running, set_tasks, set_qs. cbn [a_qs a_tasks].
      replace (a_tasks (add_counter io 1 s)) with (a_tasks s) by (destruct io; reflexivity).
      rewrite (run_w_perm _ _ (set_running_perm id k v (a_tasks s) _ (inv_ids _ _ _ H) Hf)). cbn [map].
      match goal with |- context [list_sum (?a :: ?l)] => change (list_sum (a :: l)) with (a + list_sum l)%nat end. cbn [t_work]. change (run_w (mk_task id i (Running k v))) with (2 * (n - i) - 1)%nat. lia.
    + fold n in HS. change (if Nat.eqb (S i) n then None else Some (S i)) with (next_q fs i) in HS. injection HS as <-.
      pose proof (put_wsum (upd (a_qs s) i q') i k (inr e) Hi (fresh_queue _ _ _ _ _ _ H Hk Eq)) as HP.
      match goal with |- context [remove_task id (add_counter io (-1) ?x)] => set (s3 := x) end.
      assert (HQ : a_qs s3 = put (next_q fs i) k (inr e) (upd (a_qs s) i q') /\ a_tasks s3 = a_tasks s).
      { unfold s3. destruct (next_q fs i), io; split; reflexivity. }
      destruct HQ as [HQ1 HQ2]. unfold mu, remove_task, set_tasks. cbn [a_qs a_tasks]. rewrite !qs_add_counter, HQ1, HP.
      replace (a_tasks (add_counter io (-1) s3)) with (a_tasks s) by (rewrite <- HQ2; destruct io; reflexivity).
      fold (others id (a_tasks s)). lia.
Qed.

Lemma finish_productive inputs id i k v s s' : AInv fs inputs s -> NoDup (map fst inputs) -> a_raised s' = None ->
  a_raised s = None ->
  find_task id s = Some (mk_task id i (Running k v)) -> finish p id s = Some s' -> (mu s' < mu s)%nat.
Proof.
  intros H Hk Hr Hr0 Hf HS. unfold finish in HS. rewrite Hf in HS.
  destruct (nth_error (p_works p) i) as [w|] eqn:Ew; [|discriminate].
  destruct (nth_work fs p Hworks i w Ew) as (io & f & Hfi & ->). cbn [chain_work w_body w_io w_out] in HS.
  assert (Hi : (i < n)%nat). { apply nth_error_Some. congruence. }
  pose proof (others_sum id s _ (inv_ids _ _ _ H) Hf) as Hsum.
  assert (HIn : In (mk_task id i (Running k v)) (a_tasks s)).
  { unfold find_task in Hf. apply find_some in Hf. apply Hf. }
  pose proof (put_wsum (a_qs s) i k (f k v) Hi (fresh_task _ _ _ _ _ _ H Hk HIn)) as HP.
  fold n in HS. change (if Nat.eqb (S i) n then None else Some (S i)) with (next_q fs i) in HS.
  assert (HQ : a_qs s' = put (next_q fs i) k (f k v) (a_qs s) /\ a_tasks s' = others id (a_tasks s)).
  { cbv zeta in HS. destruct (f k v) as [v'|e]; [|destruct (p_stop_if_error p)]; injection HS as <-;
      try discriminate; unfold remove_task, set_tasks; cbn [a_qs a_tasks]; rewrite qs_add_counter; (split; [reflexivity|]); destruct io; reflexivity. }
  destruct HQ as [HQ1 HQ2]. unfold mu. rewrite HQ1, HQ2, HP. change (run_w (mk_task id i (Running k v))) with (2 * (n - i) - 1)%nat in Hsum. lia.
Qed.

Lemma step_progress inputs s l s' : AInv fs inputs s -> NoDup (map fst inputs) -> step p s l = Some s' -> a_raised s' = None ->
  quiet s s' \/ (mu s' < mu s)%nat.
Proof.
  intros H Hk HS Hr. pose proof (step_raised p _ _ _ HS) as Hr0. unfold step in HS. rewrite Hr0 in HS.
  destruct l as [i|id|id|].
  - left. unfold check in HS. destruct (a_exited s i); [discriminate|].
    destruct (nth_error (p_works p) i) as [w|] eqn:Ew; [|discriminate].
    destruct (nth_work fs p Hworks i w Ew) as (io & f & Hfi & ->). cbn [chain_work w_body w_io w_out] in HS.
    match type of HS with context [if ?c then _ else _] => destruct c end; [destruct (a_stop s)|]; injection HS as <-;
      (split; [reflexivity|]; split; [intros []; reflexivity|]); try reflexivity.
    unfold mu, spawn. cbn [a_qs a_tasks]. rewrite map_app. rewrite list_sum_app. cbn. lia.
  - assert (Hf : exists i, find_task id s = Some (mk_task id i Spawned)).
    { unfold start in HS. destruct (find_task id s) as [[id0 i st]|] eqn:Et; [|discriminate].
      unfold find_task in Et. pose proof (find_some _ _ Et) as [_ Hid]. cbn in Hid. apply Nat.eqb_eq in Hid. subst id0.
      destruct st; [|discriminate]. eauto. }
    destruct Hf as [i Hf]. pose proof (start_productive inputs id i s s' H Hk Hf HS) as HP.
    destruct (a_qs s i); [left|right]; exact HP.
  - right. assert (Hf : exists i k v, find_task id s = Some (mk_task id i (Running k v))).
    { unfold finish in HS. destruct (find_task id s) as [[id0 i st]|] eqn:Et; [|discriminate].
      unfold find_task in Et. pose proof (find_some _ _ Et) as [_ Hid]. cbn in Hid. apply Nat.eqb_eq in Hid. subst id0.
      destruct st; [discriminate|]. eauto. }
    destruct Hf as (i & k & v & Hf). eapply finish_productive; eassumption.
  - left. unfold poll in HS. destruct (a_poll_done s); [discriminate|]. destruct (a_stop s); injection HS as <-;
      (split; [reflexivity|]; split; [intros []; reflexivity|reflexivity]).
Qed.

(** the last non empty queue *)
Lemma last_nonempty m (qs : queues V) : (forall i, (i < m)%nat -> qs i = []) \/
  exists i, (i < m)%nat /\ qs i <> [] /\ forall j, (i < j < m)%nat -> qs j = [].
Proof.
  induction m as [|m IH]; [left; intros; lia|]. destruct (qs m) eqn:E.
  - destruct IH as [IH|(i & Hi & Hne & Hl)].
    + left. intros i Hi. destruct (Nat.eq_dec i m) as [->|]; [exact E|apply IH; lia].
    + right. exists i. split; [lia|]. split; [exact Hne|]. intros j Hj. destruct (Nat.eq_dec j m) as [->|]; [exact E|apply Hl; lia].
  - right. exists m. split; [lia|]. split; [congruence|]. intros; lia.
Qed.

Lemma check_spawns i s : 1 <= p_nb_max_workers p -> 1 <= p_nb_items_queue_max p -> (i < n)%nat ->
  a_raised s = None -> a_exited s i = false -> (forall io, counter io s = 0) -> a_qs s i <> [] ->
  (forall j, (i < j < n)%nat -> a_qs s j = []) -> step p s (LCheck i) = Some (spawn i s).
Proof.
  intros Hnb Hl Hi Hr He Hc Hq Hnext. unfold step. rewrite Hr. unfold check. rewrite He.
  rewrite Hworks, chain_works_nth. destruct (nth_error fs i) as [[io f]|] eqn:Ef; [|apply nth_error_None in Ef; fold n in Ef; lia].
  cbn [chain_work w_body w_io w_out]. fold n. destruct (a_qs s i) as [|x q] eqn:Eq; [congruence|].
  rewrite Hc. destruct (Z.leb_spec (p_nb_max_workers p) 0); [lia|]. cbn [orb].
  unfold full. destruct (Nat.eqb_spec (S i) n) as [HS|HS]; [reflexivity|].
  rewrite Hnext by lia. unfold zlen. cbn [List.length]. destruct (Z.leb_spec (p_nb_items_queue_max p) (Z.of_nat 0)); [lia|reflexivity].
Qed.

Lemma AInv_step inputs s l s' : NoDup (map fst inputs) -> p_stop_if_error p = false -> a_raised s = None ->
  AInv fs inputs s -> step p s l = Some s' -> AInv fs inputs s' /\ a_raised s' = None.
Proof.
  intros Hk Hsie Hr H HS. pose proof (proj2 (step_errors p s l s' chain_only_item Hr HS) Hsie) as Hr'.
  split; [|exact Hr']. eapply (step_inv fs p Hworks Hnq); eassumption.
Qed.

Lemma find_task_In inputs s t : AInv fs inputs s -> In t (a_tasks s) -> find_task (t_id t) s = Some t.
Proof.
  intros H. unfold find_task. pose proof (inv_ids _ _ _ H) as Hnd. revert Hnd. generalize (a_tasks s). intros l.
  induction l as [|t0 l IH]; intros Hnd HI; [destruct HI|]. cbn in Hnd |- *. inversion Hnd as [|? ? H1 H2]; subst.
  destruct HI as [->|HI]; [rewrite Nat.eqb_refl; reflexivity|].
  destruct (Nat.eqb_spec (t_id t0) (t_id t)) as [E|E]; [|apply IH; assumption].
  exfalso. apply H1. rewrite E. apply in_map, HI.
Qed.

Lemma start_enabled inputs s t : AInv fs inputs s -> In t (a_tasks s) -> t_st t = Spawned -> a_raised s = None ->
  exists s', step p s (LStart (t_id t)) = Some s' /\
    if match a_qs s (t_work t) with [] => true | _ => false end
    then a_tasks s' = others (t_id t) (a_tasks s)
    else (List.length (a_tasks s') <= List.length (a_tasks s))%nat.
Proof.
  intros H HI Hst Hr. unfold step. rewrite Hr. unfold start. rewrite (find_task_In inputs s t H HI).
  pose proof (inv_twork _ _ _ H t HI) as Hw. destruct t as [id i st]. cbn [t_id t_work t_st] in *. subst st.
  rewrite Hworks, chain_works_nth. destruct (nth_error fs i) as [[io f]|] eqn:Ef; [|apply nth_error_None in Ef; fold n in Ef, Hw; lia].
  cbn [chain_work w_body w_io w_out]. cbv zeta. rewrite qs_add_counter. unfold q_pop_first.
  destruct (a_qs s i) as [|[k [v|e]] q'].
  - eexists. split; [reflexivity|]. destruct io; reflexivity.
  - eexists. split; [reflexivity|]. unfold set_running, set_tasks, set_qs. cbn [a_tasks]. rewrite map_length. destruct io; reflexivity.
  - eexists. split; [reflexivity|]. unfold remove_task, set_tasks. cbn [a_tasks].
    match goal with |- context [a_tasks ?x] => match x with add_counter _ _ _ => replace (a_tasks x) with (a_tasks s) by (destruct io; destruct (Nat.eqb _ _); reflexivity) end end.
    apply filter_length_le.
Qed.

Lemma finish_enabled inputs s t k v : p_stop_if_error p = false -> AInv fs inputs s -> In t (a_tasks s) -> t_st t = Running k v -> a_raised s = None ->
  exists s', step p s (LFinish (t_id t)) = Some s' /\ a_tasks s' = others (t_id t) (a_tasks s).
Proof.
  intros Hsie H HI Hst Hr. unfold step. rewrite Hr. unfold finish. rewrite (find_task_In inputs s t H HI).
  pose proof (inv_twork _ _ _ H t HI) as Hw. destruct t as [id i st]. cbn [t_id t_work t_st] in *. subst st.
  rewrite Hworks, chain_works_nth. destruct (nth_error fs i) as [[io f]|] eqn:Ef; [|apply nth_error_None in Ef; fold n in Ef, Hw; lia].
  cbn [chain_work w_body w_io w_out]. cbv zeta. rewrite Hsie.
  destruct (f k v); eexists; (split; [reflexivity|]); destruct io; reflexivity.
Qed.

Lemma others_length id ts : In id (map (@t_id V) ts) -> (List.length (others id ts) < List.length ts)%nat.
Proof.
  induction ts as [|t ts IH]; intros H; [destruct H|]. rewrite others_cons. cbn in H.
  pose proof (filter_length_le (fun t => negb (Nat.eqb (t_id (V:=V) t) id)) ts) as HL. fold (others id ts) in HL.
  destruct (Nat.eqb_spec (t_id t) id); cbn [List.length]; [lia|]. specialize (IH ltac:(tauto)). lia.
Qed.

Lemma reach_trans s0 s1 s2 : reachable p s0 s1 -> reachable p s1 s2 -> reachable p s0 s2.
Proof. intros H1 H2. induction H2; [exact H1|econstructor; eassumption]. Qed.
Lemma reach_one s l s' : step p s l = Some s' -> reachable p s s'.
Proof. intros H. econstructor; [constructor|exact H]. Qed.

Section Ends.
Variable inputs : list (nat * item V).
Hypothesis Hn : (1 <= n)%nat.
Hypothesis Hk : NoDup (map fst inputs).
Hypothesis Hsie : p_stop_if_error p = false.
Hypothesis Hnb : 1 <= p_nb_max_workers p.
Hypothesis Hlim : 1 <= p_nb_items_queue_max p.

(** phase 1: everything can be delivered *)
Lemma can_drain m s : AInv fs inputs s -> a_raised s = None -> (2 * mu s + List.length (a_tasks s) <= m)%nat ->
  exists s', reachable p s s' /\ AInv fs inputs s' /\ a_raised s' = None /\ a_tasks s' = [] /\
             forall i, (i < n)%nat -> a_qs s' i = [].
Proof.
  revert s. induction m as [m IH] using (well_founded_induction lt_wf). intros s H Hr Hm.
  destruct (a_tasks s) as [|t ts] eqn:Et.
  - destruct (last_nonempty n (a_qs s)) as [HE|(i & Hi & Hne & Hl)].
    + exists s. split; [constructor|]. auto.
    + assert (Hc : forall io, counter io s = 0).
      { intros io. rewrite (counter_inv fs inputs s io H), Et. reflexivity. }
      assert (He : a_exited s i = false).
      { destruct (a_exited s i) eqn:Ee; [|reflexivity]. exfalso. apply (inv_exit _ _ _ H) in Ee.
        destruct (inv_stop _ _ _ H Ee) as [HE _]. rewrite all_empty_spec in HE. apply Hne, HE, Hi. }
      pose proof (check_spawns i s Hnb Hlim Hi Hr He Hc Hne Hl) as HS1.
      destruct (AInv_step inputs s _ _ Hk Hsie Hr H HS1) as [H1 Hr1].
      assert (HI1 : In (mk_task (a_next s) i Spawned) (a_tasks (spawn i s))).
      { cbn [spawn a_tasks]. apply in_or_app. right. left. reflexivity. }
      destruct (start_enabled inputs (spawn i s) _ H1 HI1 eq_refl Hr1) as (s2 & HS2 & HL2).
      cbn [t_id t_work spawn a_qs] in HS2, HL2.
      destruct (AInv_step inputs _ _ _ Hk Hsie Hr1 H1 HS2) as [H2 Hr2].
      assert (Hmu1 : mu (spawn i s) = mu s).
      { unfold mu, spawn. cbn [a_qs a_tasks]. rewrite map_app, list_sum_app. cbn. lia. }
      assert (Hmu2 : (mu s2 < mu (spawn i s))%nat).
      { pose proof HS2 as HS2'. unfold step in HS2'. rewrite Hr1 in HS2'.
        pose proof (start_productive inputs (a_next s) i (spawn i s) s2 H1 Hk (find_task_In inputs _ _ H1 HI1) HS2') as HP.
        cbn [spawn a_qs] in HP. destruct (a_qs s i); [congruence|exact HP]. }
      destruct (a_qs s i) eqn:Eq; [congruence|]. cbn [spawn a_tasks] in HL2. rewrite Et in HL2. cbn [app List.length] in HL2. cbn [List.length] in Hm.
      destruct (IH (2 * mu s2 + List.length (a_tasks s2))%nat) with (s := s2) as (s3 & HR3 & HX); try assumption; try lia.
      exists s3. split; [|exact HX]. eapply reach_trans; [apply (reach_one _ _ _ HS1)|].
      eapply reach_trans; [apply (reach_one _ _ _ HS2)|exact HR3].
  - assert (HI : In t (a_tasks s)) by (rewrite Et; left; reflexivity).
    assert (HIid : In (t_id t) (map (@t_id V) (a_tasks s))) by (apply in_map, HI).
    destruct (t_st t) as [|k v] eqn:Est.
    + destruct (start_enabled inputs s t H HI Est Hr) as (s2 & HS2 & HL2).
      destruct (AInv_step inputs _ _ _ Hk Hsie Hr H HS2) as [H2 Hr2].
      pose proof HS2 as HS2'. unfold step in HS2'. rewrite Hr in HS2'.
      assert (Hf : find_task (t_id t) s = Some (mk_task (t_id t) (t_work t) Spawned)).
      { rewrite (find_task_In inputs s t H HI). destruct t; cbn in Est |- *; congruence. }
      pose proof (start_productive inputs _ _ s s2 H Hk Hf HS2') as HP.
      assert (HM : (2 * mu s2 + List.length (a_tasks s2) < m)%nat).
      { destruct (a_qs s (t_work t)).
        - destruct HP as (_ & _ & HP). rewrite HP, HL2. pose proof (others_length _ _ HIid). rewrite Et in *. lia.
        - rewrite Et in *. lia. }
      destruct (IH _ HM s2 H2 Hr2 ltac:(lia)) as (s3 & HR3 & HX).
      exists s3. split; [|exact HX]. eapply reach_trans; [apply (reach_one _ _ _ HS2)|exact HR3].
    + destruct (finish_enabled inputs s t k v Hsie H HI Est Hr) as (s2 & HS2 & HL2).
      destruct (AInv_step inputs _ _ _ Hk Hsie Hr H HS2) as [H2 Hr2].
      pose proof HS2 as HS2'. unfold step in HS2'. rewrite Hr in HS2'.
      assert (Hf : find_task (t_id t) s = Some (mk_task (t_id t) (t_work t) (Running k v))).
      { rewrite (find_task_In inputs s t H HI). destruct t; cbn in Est |- *; congruence. }
      pose proof (finish_productive inputs _ _ k v s s2 H Hk Hr2 Hr Hf HS2') as HP.
      assert (HM : (2 * mu s2 + List.length (a_tasks s2) < m)%nat).
      { rewrite HL2. pose proof (others_length _ _ HIid). rewrite Et in *. lia. }
      destruct (IH _ HM s2 H2 Hr2 ltac:(lia)) as (s3 & HR3 & HX).
      exists s3. split; [|exact HX]. eapply reach_trans; [apply (reach_one _ _ _ HS2)|exact HR3].
Qed.

Lemma check_exits i s : (i < n)%nat -> a_raised s = None -> a_exited s i = false -> a_stop s = true -> a_qs s i = [] ->
  step p s (LCheck i) = Some (exit_work i s).
Proof.
  intros Hi Hr He Hs Hq. unfold step. rewrite Hr. unfold check. rewrite He, Hworks, chain_works_nth.
  destruct (nth_error fs i) as [[io f]|] eqn:Ef; [|apply nth_error_None in Ef; fold n in Ef; lia].
  cbn [chain_work w_body w_io w_out]. rewrite Hq, Hs. reflexivity.
Qed.

(** phase 2: the works see the flag *)
Lemma can_exit m s : (m <= n)%nat -> a_raised s = None -> a_stop s = true -> (forall i, (i < n)%nat -> a_qs s i = []) ->
  exists s', reachable p s s' /\ a_raised s' = None /\ a_stop s' = true /\ a_tasks s' = a_tasks s /\
    a_poll_done s' = a_poll_done s /\ (forall i, (i < n)%nat -> a_qs s' i = []) /\
    (forall i, (i < m)%nat -> a_exited s' i = true).
Proof.
  intros Hm Hr Hs Hq. induction m as [|m IH].
  - exists s. split; [constructor|]. repeat split; try assumption; try reflexivity. intros; lia.
  - destruct (IH ltac:(lia)) as (s1 & HR1 & Hr1 & Hs1 & Ht1 & Hp1 & Hq1 & He1).
    destruct (a_exited s1 m) eqn:Ee.
    + exists s1. repeat split; try assumption. intros i Hi. destruct (Nat.eq_dec i m) as [->|]; [exact Ee|apply He1; lia].
    + exists (exit_work m s1). split; [eapply reach_trans; [exact HR1|]; apply (reach_one _ (LCheck m)), check_exits; try assumption; try lia; apply Hq1; lia|].
      cbn [exit_work a_raised a_stop a_tasks a_poll_done a_qs a_exited]. repeat split; try assumption.
      intros i Hi. unfold upd. destruct (Nat.eqb_spec i m) as [->|]; [reflexivity|apply He1; lia].
Qed.

Lemma can_finish s : reachable p (init (chain_queues inputs)) s -> exists s', reachable p s s' /\ ended p s'.
Proof.
  intros HR. pose proof (proj2 (async_errors p _ s chain_only_item HR) Hsie) as Hr.
  pose proof (reachable_inv fs p Hworks Hnq inputs s Hn Hk HR Hr) as H.
  destruct (can_drain _ s H Hr (Nat.le_refl _)) as (s1 & HR1 & H1 & Hr1 & Ht1 & Hq1).
  assert (HS : exists s2, reachable p s1 s2 /\ a_raised s2 = None /\ a_stop s2 = true /\ a_tasks s2 = [] /\
                 a_poll_done s2 = true /\ forall i, (i < n)%nat -> a_qs s2 i = []).
  { destruct (a_stop s1) eqn:Es.
    - destruct (a_poll_done s1) eqn:Ep.
      + exists s1. split; [constructor|]. auto.
      + exists (set_poll true true s1). split; [|cbn; auto]. apply (reach_one _ LPoll). unfold step. rewrite Hr1. unfold poll.
        rewrite Ep, Es. reflexivity.
    - assert (Ep : a_poll_done s1 = false).
      { destruct (a_poll_done s1) eqn:Ep; [|reflexivity]. apply (inv_poll _ _ _ H1) in Ep. congruence. }
      exists (set_poll true true (set_poll true false s1)). split; [|cbn; auto].
      eapply reach_trans; [apply (reach_one _ LPoll (set_poll true false s1))|apply (reach_one _ LPoll)].
      + unfold step. rewrite Hr1. unfold poll. rewrite Ep, Es, Hnq.
        rewrite (proj2 (all_empty_spec n (a_qs s1)) Hq1), (inv_cpu _ _ _ H1), (inv_io _ _ _ H1), Ht1. reflexivity.
      + unfold step. cbn [set_poll a_raised]. rewrite Hr1. unfold poll. cbn [set_poll a_poll_done a_stop]. reflexivity. }
  destruct HS as (s2 & HR2 & Hr2 & Hs2 & Ht2 & Hp2 & Hq2).
  destruct (can_exit n s2 (Nat.le_refl _) Hr2 Hs2 Hq2) as (s3 & HR3 & Hr3 & Hs3 & Ht3 & Hp3 & Hq3 & He3).
  exists s3. split; [eapply reach_trans; [exact HR1|]; eapply reach_trans; eassumption|].
  split; [|split; [congruence|congruence]]. intros i Hi. apply He3. rewrite Hworks, chain_works_length in Hi. exact Hi.
Qed.

(** ** Fair executions *)
Variables (st : nat -> ast V) (lab : nat -> option label).
Hypothesis Hex : is_execution p (init (chain_queues inputs)) st lab.
Hypothesis Hfair : fair p st lab.

Lemma ex_inv t : AInv fs inputs (st t) /\ a_raised (st t) = None.
Proof.
  induction t as [|t [H Hr]].
  - rewrite (proj1 Hex). split; [apply AInv_init, Hn|reflexivity].
  - pose proof (proj2 Hex t) as HS. destruct (lab t) as [l|].
    + eapply AInv_step; eassumption.
    + rewrite HS. auto.
Qed.

Lemma ex_step t : quiet (st t) (st (S t)) \/ (mu (st (S t)) < mu (st t))%nat.
Proof.
  destruct (ex_inv t) as [H Hr]. destruct (ex_inv (S t)) as [_ Hr']. pose proof (proj2 Hex t) as HS. destruct (lab t) as [l|].
  - eapply step_progress; eassumption.
  - left. rewrite HS. split; [reflexivity|]. split; reflexivity.
Qed.

Lemma quiet_trans s1 s2 s3 : quiet s1 s2 -> quiet s2 s3 -> quiet s1 s3.
Proof.
  intros (H1 & H2 & H3) (H4 & H5 & H6). split; [congruence|]. split; [intros io; rewrite H5; apply H2|congruence].
Qed.

Lemma ex_steps t d : quiet (st t) (st (t + d)%nat) \/ (mu (st (t + d)%nat) < mu (st t))%nat.
Proof.
  induction d as [|d IH].
  - rewrite Nat.add_0_r. left. split; [reflexivity|]. split; reflexivity.
  - rewrite Nat.add_succ_r. destruct (ex_step (t + d)%nat) as [HQ|HQ], IH as [IH|IH].
    + left. eapply quiet_trans; eassumption.
    + right. destruct HQ as (_ & _ & ->). exact IH.
    + right. destruct IH as (_ & _ & <-). exact HQ.
    + right. lia.
Qed.
Lemma ex_le t t' : (t <= t')%nat -> quiet (st t) (st t') \/ (mu (st t') < mu (st t))%nat.
Proof. intros H. replace t' with (t + (t' - t))%nat by lia. apply ex_steps. Qed.

Lemma mu_zero s : AInv fs inputs s -> mu s = 0%nat ->
  (forall i, (i < n)%nat -> a_qs s i = []) /\ (forall t, In t (a_tasks s) -> t_st t = Spawned).
Proof.
  intros H Hm. unfold mu in Hm. split.
  - intros i Hi. destruct (a_qs s i) as [|x q] eqn:E; [reflexivity|].
    pose proof (wsum_pop fs n (a_qs s) i x q Hi E). lia.
  - intros t Ht. destruct (t_st t) as [|k v] eqn:E; [reflexivity|]. exfalso.
    assert (HL : (run_w t <= list_sum (map run_w (a_tasks s)))%nat).
    { clear -Ht. induction (a_tasks s) as [|t0 l IH]; [destruct Ht|]. unfold list_sum in *. cbn [map fold_right]. destruct Ht as [->|Ht]; [lia|specialize (IH Ht); lia]. }
    pose proof (inv_twork _ _ _ H t Ht) as Hw. unfold run_w in HL at 1. rewrite E in HL. fold n in Hw. lia.
Qed.

Lemma mu_pos_decreases t : mu (st t) <> 0%nat -> exists t', (t <= t')%nat /\ (mu (st t') < mu (st t))%nat.
Proof.
  intros Hm. destruct Hfair as (Fc & Fp & Fs & Ff). destruct (ex_inv t) as [H Hr].
  (* a running task? *)
  assert (Hdec : (exists tk k v, In tk (a_tasks (st t)) /\ t_st tk = Running k v) \/
                 (forall tk, In tk (a_tasks (st t)) -> t_st tk = Spawned)).
  { induction (a_tasks (st t)) as [|tk l IH]; [right; intros tk []|].
    destruct (t_st tk) as [|k v] eqn:E.
    - destruct IH as [(tk' & k & v & HI & HE)|IH]; [left; exists tk', k, v; split; [right; exact HI|exact HE]|].
      right. intros tk' [<-|HI]; [exact E|apply IH, HI].
    - left. exists tk, k, v. split; [left; reflexivity|exact E]. }
  destruct Hdec as [(tk & k & v & HI & HE)|Hsp].
  - destruct (Ff t tk k v HI HE) as (t' & Hle & Hl). destruct (ex_inv t') as [H' Hr']. destruct (ex_inv (S t')) as [_ Hr''].
    pose proof (proj2 Hex t') as HS. rewrite Hl in HS. pose proof HS as HS0. unfold step in HS. rewrite Hr' in HS.
    exists (S t'). split; [lia|].
    assert (Hlt : (mu (st (S t')) < mu (st t'))%nat).
    { unfold finish in HS. destruct (find_task (t_id tk) (st t')) as [[id0 i s0]|] eqn:Et; [|discriminate].
      assert (id0 = t_id tk). { unfold find_task in Et. apply find_some in Et. cbn in Et. apply Nat.eqb_eq. tauto. } subst id0.
      destruct s0 as [|k' v']; [discriminate|]. eapply finish_productive; try eassumption.
      unfold step in HS0. rewrite Hr' in HS0. exact HS0. }
    destruct (ex_le t t' Hle) as [(_ & _ & HQ)|HQ]; lia.
  - destruct (last_nonempty n (a_qs (st t))) as [HE|(i & Hi & Hne & Hl)].
    { exfalso. apply Hm. unfold mu. replace (wsum fs n (a_qs (st t))) with 0%nat.
      - cbn. clear -Hsp. induction (a_tasks (st t)) as [|tk l IH]; [reflexivity|]. cbn. unfold run_w at 1.
        rewrite (Hsp tk) by (left; reflexivity). cbn. apply IH. intros tk' Htk'. apply Hsp. right. exact Htk'.
      - symmetry. clear -HE. assert (HG : forall m, (m <= n)%nat -> wsum fs m (a_qs (st t)) = 0%nat).
        { induction m as [|m IH]; intros Hm; [reflexivity|]. cbn [wsum]. rewrite HE by lia. rewrite IH by lia. cbn. lia. }
        apply HG. lia. }
    assert (Hc : forall io, counter io (st t) = 0).
    { intros io. rewrite (counter_inv fs inputs _ io H). unfold nrun. rewrite tks_nil; [reflexivity|].
      intros tk k v HI HE. rewrite (Hsp tk HI) in HE. discriminate. }
    destruct (Fc t i) as (t1 & Hle1 & Hl1); [rewrite Hworks, chain_works_length; exact Hi|].
    destruct (ex_le t t1 Hle1) as [HQ1|HQ1]; [|exists t1; auto]. destruct HQ1 as (Hq1 & Hc1 & Hmu1).
    destruct (ex_inv t1) as [H1 Hr1].
    assert (He : a_exited (st t1) i = false).
    { destruct (a_exited (st t1) i) eqn:Ee; [|reflexivity]. exfalso. apply (inv_exit _ _ _ H1) in Ee.
      destruct (inv_stop _ _ _ H1 Ee) as [HE _]. rewrite all_empty_spec in HE. apply Hne. rewrite <- Hq1. apply HE, Hi. }
    destruct Hl1 as [Hl1|Hl1]; [|congruence].
    pose proof (proj2 Hex t1) as HS1. rewrite Hl1 in HS1.
    rewrite (check_spawns i (st t1) Hnb Hlim Hi Hr1 He) in HS1.
    2:{ intros io. rewrite Hc1. apply Hc. } 2:{ rewrite Hq1. exact Hne. } 2:{ intros j Hj. rewrite Hq1. apply Hl, Hj. }
    injection HS1 as HS1.
    assert (HI : In (mk_task (a_next (st t1)) i Spawned) (a_tasks (st (S t1)))).
    { rewrite <- HS1. cbn [spawn a_tasks]. apply in_or_app. right. left. reflexivity. }
    destruct (Fs (S t1) _ HI eq_refl) as (t2 & Hle2 & Hl2). cbn [t_id] in Hl2.
    destruct (ex_le t t2 ltac:(lia)) as [HQ2|HQ2]; [|exists t2; split; [lia|exact HQ2]]. destruct HQ2 as (Hq2 & Hc2 & Hmu2).
    destruct (ex_inv t2) as [H2 Hr2]. pose proof (proj2 Hex t2) as HS2. rewrite Hl2 in HS2.
    exists (S t2). split; [lia|].
    pose proof HS2 as HS2'. unfold step in HS2'. rewrite Hr2 in HS2'.
    (* the task started at t2 is the one spawned at t1 *)
    assert (Hfind : exists w, find_task (a_next (st t1)) (st t2) = Some (mk_task (a_next (st t1)) w Spawned)).
    { unfold start in HS2'. destruct (find_task (a_next (st t1)) (st t2)) as [[id0 w s0]|] eqn:Et; [|discriminate].
      assert (id0 = a_next (st t1)). { unfold find_task in Et. apply find_some in Et. cbn in Et. apply Nat.eqb_eq. tauto. } subst id0.
      destruct s0; [|discriminate]. exists w. reflexivity. }
    destruct Hfind as [w Hfind].
    assert (Hw : w = i).
    { (* works of tasks never change *)
      assert (HT : forall t0, (S t1 <= t0)%nat -> forall tk, In tk (a_tasks (st t0)) -> t_id tk = a_next (st t1) -> t_work tk = i).
      { intros t0 Hle0. assert (HA : (a_next (st (S t1)) = S (a_next (st t1)))%nat) by (rewrite <- HS1; reflexivity).
        assert (HB : (a_next (st t1) < a_next (st t0))%nat /\ forall tk, In tk (a_tasks (st t0)) -> t_id tk = a_next (st t1) -> t_work tk = i); [|apply HB].
        induction Hle0 as [|t0 Hle0 IH0].
        - split; [lia|]. rewrite <- HS1. cbn [spawn a_tasks]. intros tk HIk Hid. apply in_app_iff in HIk. destruct HIk as [HIk|[<-|[]]]; [|reflexivity].
          pose proof (inv_next _ _ _ H1 tk HIk). lia.
        - destruct IH0 as [IHa IHb]. pose proof (proj2 Hex t0) as HS. destruct (lab t0) as [l0|]; [|rewrite HS; auto].
          destruct (ex_inv t0) as [H0 _].
          destruct (step_change p (st t0) l0 (st (S t0)) (inv_ids _ _ _ H0) HS) as
            [HP Hid Hnx Hcx Hqx|j w' Hwx Ht Hnx Hcx Hlt Hfull Hqs Hlx|id j w' k v Hwx HP HP' Hid Hnx Hcx Hqx|id j w' Hwx HP Ht Hnx Hcx Hqx|id j w' k v Hwx HP Ht Hnx Hcx Hqx].
          + split; [lia|]. intros tk HIk. apply IHb, (Permutation_in _ HP), HIk.
          + split; [lia|]. intros tk HIk Hidk. rewrite Ht, in_app_iff in HIk. destruct HIk as [HIk|[<-|[]]]; [apply IHb; assumption|].
            cbn [t_id] in Hidk. lia.
          + split; [lia|]. intros tk HIk Hidk. apply (Permutation_in _ HP') in HIk. destruct HIk as [<-|HIk].
            * cbn [t_id t_work] in *. apply (IHb (mk_task id j Spawned)); [|exact Hidk].
              apply (Permutation_in _ (Permutation_sym HP)). left. reflexivity.
            * apply IHb; [apply (In_others id), HIk|exact Hidk].
          + split; [lia|]. intros tk HIk. rewrite Ht in HIk. apply IHb, (In_others id), HIk.
          + split; [lia|]. intros tk HIk. rewrite Ht in HIk. apply IHb, (In_others id), HIk. }
      apply (HT t2 Hle2 (mk_task (a_next (st t1)) w Spawned)); [|reflexivity].
      unfold find_task in Hfind. apply find_some in Hfind. apply Hfind. }
    subst w. pose proof (start_productive inputs _ i (st t2) (st (S t2)) H2 Hk Hfind HS2') as HP.
    rewrite Hq2 in HP. destruct (a_qs (st t) i); [congruence|]. lia.
Qed.

Lemma eventually_drained : exists t, mu (st t) = 0%nat.
Proof.
  assert (HG : forall m t, mu (st t) = m -> exists t', mu (st t') = 0%nat).
  { induction m as [m IH] using (well_founded_induction lt_wf). intros t Hm.
    destruct (Nat.eq_dec m 0) as [->|Hne]; [exists t; exact Hm|].
    destruct (mu_pos_decreases t) as (t' & _ & Hlt); [congruence|]. eapply (IH (mu (st t'))); [lia|reflexivity]. }
  apply (HG _ 0%nat eq_refl).
Qed.

Lemma mu_stable t t' : (t <= t')%nat -> mu (st t) = 0%nat -> mu (st t') = 0%nat.
Proof. intros Hle Hm. destruct (ex_le t t' Hle) as [(_ & _ & HQ)|HQ]; lia. Qed.

(** flags never go back *)
Lemma flags_step t : (a_stop (st t) = true -> a_stop (st (S t)) = true) /\
  (a_poll_done (st t) = true -> a_poll_done (st (S t)) = true) /\
  (forall i, a_exited (st t) i = true -> a_exited (st (S t)) i = true).
Proof.
  pose proof (proj2 Hex t) as HS. destruct (lab t) as [l|]; [|rewrite HS; auto].
  destruct (ex_inv t) as [_ Hr]. unfold step in HS. rewrite Hr in HS. destruct l as [i|id|id|].
  - unfold check in HS. destruct (a_exited (st t) i) eqn:Ee; [discriminate|].
    destruct (nth_error (p_works p) i) as [w|] eqn:Ew; [|discriminate].
    destruct (nth_work fs p Hworks i w Ew) as (io & f & Hfi & ->). cbn [chain_work w_body w_io w_out] in HS.
    match type of HS with context [if ?c then _ else _] => destruct c end; [destruct (a_stop (st t)) eqn:Es|]; injection HS as <-; cbn; auto.
    all: split; [congruence || auto|]; split; [auto|]; intros i' Hi'; unfold upd; try destruct (Nat.eqb i' i); auto.
  - unfold start in HS. destruct (find_task id (st t)) as [[id0 i s0]|]; [|discriminate]. destruct s0; [|discriminate].
    destruct (nth_error (p_works p) i) as [w|] eqn:Ew; [|discriminate].
    destruct (nth_work fs p Hworks i w Ew) as (io & f & Hfi & ->). cbn [chain_work w_body w_io w_out] in HS. cbv zeta in HS.
    fold n in HS. change (if Nat.eqb (S i) n then None else Some (S i)) with (next_q fs i) in HS.
    destruct (q_pop_first _) as [[[k [v|e]] q']|]; injection HS as <-; [|destruct (next_q fs i)|]; destruct io; cbn; auto.
  - unfold finish in HS. destruct (find_task id (st t)) as [[id0 i s0]|]; [|discriminate]. destruct s0; [discriminate|].
    destruct (nth_error (p_works p) i) as [w|] eqn:Ew; [|discriminate].
    destruct (nth_work fs p Hworks i w Ew) as (io & f & Hfi & ->). cbn [chain_work w_body w_io w_out] in HS. cbv zeta in HS. rewrite Hsie in HS.
    destruct (f k v); injection HS as <-; destruct io; cbn; auto.
  - unfold poll in HS. destruct (a_poll_done (st t)) eqn:Ep; [discriminate|]. destruct (a_stop (st t)) eqn:Es; injection HS as <-; cbn; auto.
    split; [congruence|]. split; [congruence|auto].
Qed.
Lemma flags_le t t' : (t <= t')%nat -> (a_stop (st t) = true -> a_stop (st t') = true) /\
  (a_poll_done (st t) = true -> a_poll_done (st t') = true) /\
  (forall i, a_exited (st t) i = true -> a_exited (st t') i = true).
Proof.
  induction 1 as [|t' Hle IH]; [auto|]. pose proof (flags_step t') as (H1 & H2 & H3). destruct IH as (I1 & I2 & I3).
  split; [auto|]. split; [auto|]. intros i Hi. apply H3, I3, Hi.
Qed.

Lemma eventually_stop : exists t, mu (st t) = 0%nat /\ a_stop (st t) = true.
Proof.
  destruct eventually_drained as [t0 Hm]. destruct Hfair as (_ & Fp & _ & _).
  destruct (Fp t0) as (t1 & Hle & Hl). destruct (ex_inv t1) as [H1 Hr1]. pose proof (mu_stable _ _ Hle Hm) as Hm1.
  destruct (a_stop (st t1)) eqn:Es; [exists t1; auto|].
  destruct Hl as [Hl|Hl]; [|apply (inv_poll _ _ _ H1) in Hl; congruence].
  pose proof (proj2 Hex t1) as HS. rewrite Hl in HS. unfold step in HS. rewrite Hr1 in HS. unfold poll in HS.
  destruct (a_poll_done (st t1)); [discriminate|]. rewrite Es, Hnq in HS. injection HS as HS.
  exists (S t1). split; [apply (mu_stable t0); [lia|exact Hm]|]. rewrite <- HS. cbn [set_poll a_stop].
  destruct (mu_zero _ H1 Hm1) as [HE Hsp]. rewrite (proj2 (all_empty_spec n _) HE).
  rewrite (inv_cpu _ _ _ H1), (inv_io _ _ _ H1). unfold nrun. rewrite !tks_nil; [reflexivity| |];
    intros tk k v HI HR; rewrite (Hsp tk HI) in HR; discriminate.
Qed.

Lemma eventually_polled : exists t, mu (st t) = 0%nat /\ a_stop (st t) = true /\ a_poll_done (st t) = true.
Proof.
  destruct eventually_stop as (t0 & Hm & Hs). destruct Hfair as (_ & Fp & _ & _).
  destruct (Fp t0) as (t1 & Hle & Hl). destruct (flags_le t0 t1 Hle) as (F1 & F2 & F3).
  pose proof (mu_stable _ _ Hle Hm) as Hm1. destruct (ex_inv t1) as [H1 Hr1].
  destruct (a_poll_done (st t1)) eqn:Ep; [exists t1; auto|].
  destruct Hl as [Hl|Hl]; [|congruence].
  pose proof (proj2 Hex t1) as HS. rewrite Hl in HS. unfold step in HS. rewrite Hr1 in HS. unfold poll in HS. rewrite Ep, (F1 Hs) in HS.
  injection HS as HS. exists (S t1). split; [apply (mu_stable t0); [lia|exact Hm]|]. rewrite <- HS. auto.
Qed.

Lemma eventually_exited m : (m <= n)%nat -> exists t, mu (st t) = 0%nat /\ a_stop (st t) = true /\ a_poll_done (st t) = true /\
  forall i, (i < m)%nat -> a_exited (st t) i = true.
Proof.
  induction m as [|m IH]; intros Hm.
  - destruct eventually_polled as (t & H1 & H2 & H3). exists t. repeat split; auto. intros; lia.
  - destruct (IH ltac:(lia)) as (t0 & Hm0 & Hs0 & Hp0 & He0). destruct Hfair as (Fc & _ & _ & _).
    destruct (Fc t0 m) as (t1 & Hle & Hl); [rewrite Hworks, chain_works_length; fold n; lia|].
    destruct (flags_le t0 t1 Hle) as (F1 & F2 & F3). pose proof (mu_stable _ _ Hle Hm0) as Hm1. destruct (ex_inv t1) as [H1 Hr1].
    destruct (a_exited (st t1) m) eqn:Ee.
    + exists t1. repeat split; auto. intros i Hi. destruct (Nat.eq_dec i m) as [->|]; [exact Ee|apply F3, He0; lia].
    + destruct Hl as [Hl|Hl]; [|congruence]. pose proof (proj2 Hex t1) as HS. rewrite Hl in HS.
      destruct (mu_zero _ H1 Hm1) as [HE _].
      rewrite (check_exits m (st t1)) in HS; try assumption; try lia; try (apply F1, Hs0); try (apply HE; lia).
      injection HS as HS. exists (S t1). split; [apply (mu_stable t0); [lia|exact Hm0]|]. rewrite <- HS. cbn [exit_work a_stop a_poll_done a_exited].
      repeat split; auto. intros i Hi. unfold upd. destruct (Nat.eqb_spec i m) as [->|]; [reflexivity|apply F3, He0; lia].
Qed.

(** once all loops have returned the remaining tasks disappear one after the other *)
Lemma tasks_shrink t : mu (st t) = 0%nat -> (forall i, (i < n)%nat -> a_exited (st t) i = true) ->
  (exists id, a_tasks (st (S t)) = others id (a_tasks (st t)) /\ lab t = Some (LStart id)) \/ (a_tasks (st (S t)) = a_tasks (st t) /\ forall id, lab t <> Some (LStart id)).
Proof.
  intros Hm He. pose proof (proj2 Hex t) as HS. destruct (lab t) as [l|]; [|right; rewrite HS; split; [reflexivity|discriminate]].
  destruct (ex_inv t) as [H Hr]. destruct (mu_zero _ H Hm) as [HE Hsp]. pose proof HS as HS0. unfold step in HS. rewrite Hr in HS. destruct l as [i|id|id|].
  - right. split; [|discriminate]. unfold check in HS. destruct (a_exited (st t) i) eqn:Ee; [discriminate|].
    destruct (nth_error (p_works p) i) as [w|] eqn:Ew; [|discriminate].
    assert (i < n)%nat by (rewrite Hworks in Ew; apply (f_equal (fun o => match o with Some _ => true | None => false end)) in Ew; cbn in Ew; unfold n; rewrite <- chain_works_length; apply nth_error_Some; intros HC; rewrite HC in Ew; discriminate).
    rewrite He in Ee by assumption. discriminate.
  - left. exists id. split; [|reflexivity]. unfold start in HS. destruct (find_task id (st t)) as [tk|] eqn:Ef; [|discriminate].
    assert (Htk : In tk (a_tasks (st t)) /\ t_id tk = id). { unfold find_task in Ef. apply find_some in Ef. cbn in Ef. rewrite Nat.eqb_eq in Ef. exact Ef. }
    destruct Htk as [HI <-]. destruct (start_enabled inputs (st t) tk H HI (Hsp tk HI) Hr) as (s' & HS' & HL).
    assert (s' = st (S t)) by congruence. subst s'. rewrite HE in HL by (apply (inv_twork _ _ _ H tk HI)). exact HL.
  - exfalso. unfold finish in HS. destruct (find_task id (st t)) as [tk|] eqn:Ef; [|discriminate].
    assert (HI : In tk (a_tasks (st t))). { unfold find_task in Ef. apply find_some in Ef. tauto. }
    specialize (Hsp tk HI). destruct tk as [id0 i0 s0]. cbn in Hsp. subst s0. discriminate.
  - right. split; [|discriminate]. unfold poll in HS. destruct (a_poll_done (st t)); [discriminate|]. destruct (a_stop (st t)); injection HS as <-; reflexivity.
Qed.

Lemma tasks_shrink_le t t' : (t <= t')%nat -> mu (st t) = 0%nat -> (forall i, (i < n)%nat -> a_exited (st t) i = true) ->
  (List.length (a_tasks (st t')) <= List.length (a_tasks (st t)))%nat.
Proof.
  intros Hle Hm He. induction Hle as [|t' Hle IH]; [lia|].
  destruct (flags_le t t' Hle) as (_ & _ & F3).
  destruct (tasks_shrink t' (mu_stable _ _ Hle Hm) (fun i Hi => F3 i (He i Hi))) as [(id & HT & _)|(HT & _)]; rewrite HT; [|exact IH].
  pose proof (filter_length_le (fun t => negb (Nat.eqb (t_id (V:=V) t) id)) (a_tasks (st t'))) as HL. fold (others id (a_tasks (st t'))) in HL. lia.
Qed.

Theorem fair_ends : exists t, ended p (st t).
Proof.
  destruct (eventually_exited n (Nat.le_refl _)) as (t0 & Hm0 & Hs0 & Hp0 & He0).
  assert (HG : forall m t, (t0 <= t)%nat -> List.length (a_tasks (st t)) = m -> exists t', ended p (st t')).
  { induction m as [m IH] using (well_founded_induction lt_wf). intros t Hle HL.
    destruct (flags_le t0 t Hle) as (F1 & F2 & F3). pose proof (mu_stable _ _ Hle Hm0) as Hm.
    destruct (a_tasks (st t)) as [|tk ts] eqn:Et.
    - exists t. split; [|split; [exact Et|apply F2, Hp0]]. intros i Hi. apply F3, He0. rewrite Hworks, chain_works_length in Hi. exact Hi.
    - destruct (ex_inv t) as [H Hr]. destruct (mu_zero _ H Hm) as [HE Hsp].
      assert (HI : In tk (a_tasks (st t))) by (rewrite Et; left; reflexivity).
      destruct Hfair as (_ & _ & Fs & _). destruct (Fs t tk HI (Hsp tk HI)) as (t1 & Hle1 & Hl1).
      destruct (flags_le t0 t1 ltac:(lia)) as (_ & _ & F3').
      pose proof (mu_stable t0 t1 ltac:(lia) Hm0) as Hm1.
      destruct (tasks_shrink t1 Hm1 (fun i Hi => F3' i (He0 i Hi))) as [(id & HT & Hl')|(_ & HC)]; [|exfalso; eapply HC, Hl1].
      assert (id = t_id tk) by congruence. subst id.
      pose proof (tasks_shrink_le t t1 Hle1 Hm (fun i Hi => F3 i (He0 i Hi))) as HL1. rewrite Et in HL1.
      assert (HI1 : In (t_id tk) (map (@t_id V) (a_tasks (st t1)))).
      { pose proof (proj2 Hex t1) as HS. rewrite Hl1 in HS. unfold step in HS. destruct (ex_inv t1) as [_ Hr1]. rewrite Hr1 in HS. unfold start in HS.
        destruct (find_task (t_id tk) (st t1)) as [tk1|] eqn:Ef; [|discriminate]. unfold find_task in Ef. apply find_some in Ef.
        destruct Ef as [Ef1 Ef2]. cbn in Ef2. apply Nat.eqb_eq in Ef2. rewrite <- Ef2. apply in_map, Ef1. }
      pose proof (others_length _ _ HI1) as HL2. rewrite <- HT in HL2.
      apply (IH (List.length (a_tasks (st (S t1)))) ltac:(cbn [List.length] in *; lia) (S t1)); [lia|reflexivity]. }
  eapply (HG _ t0 (Nat.le_refl _) eq_refl).
Qed.

End Ends.
End Live.

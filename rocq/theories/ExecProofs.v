(** Proofs about chains of works: sequential executor. *)
From Coq Require Import Permutation.
From Verif Require Import PyBase QueueModel QueueProofs ExecModel ExecSpec SplitProofs.

Lemma upd_same {A} (f : nat -> A) i x : upd f i x i = x.
Proof. unfold upd. rewrite Nat.eqb_refl. reflexivity. Qed.
Lemma upd_other {A} (f : nat -> A) i x j : j <> i -> upd f i x j = f j.
Proof. unfold upd. intros H. destruct (Nat.eqb_spec j i); [congruence|reflexivity]. Qed.

Lemma nth_error_combine_seq {A} (l : list A) o i :
  nth_error (combine (seq o (List.length l)) l) i =
  match nth_error l i with Some x => Some ((o + i)%nat, x) | None => None end.
Proof.
  revert o i. induction l as [|a l IH]; intros o [|i]; cbn; try reflexivity.
  - rewrite Nat.add_0_r. reflexivity.
  - rewrite IH. destruct (nth_error l i); [|reflexivity]. do 2 f_equal. lia.
Qed.

Lemma all_empty_spec {V} nq (qs : queues V) : all_empty (V:=V) nq qs = true <-> forall i, (i < nq)%nat -> qs i = [].
Proof.
  unfold all_empty. rewrite forallb_forall. split.
  - intros H i Hi. specialize (H i). rewrite in_seq in H. specialize (H ltac:(lia)).
    destruct (qs i); [reflexivity|discriminate].
  - intros H i Hi. apply in_seq in Hi. rewrite H by lia. reflexivity.
Qed.

Section Chain.
Context {V : Type}.
Variable fs : list (bool * (nat -> V -> item V)).
Let n := List.length fs.
Let gs := map snd fs.

Lemma chain_works_nth i :
  nth_error (chain_works fs) i =
  match nth_error fs i with Some (io, f) => Some (chain_work n i io f) | None => None end.
Proof.
  unfold chain_works. rewrite nth_error_map, nth_error_combine_seq.
  destruct (nth_error fs i) as [[io f]|]; reflexivity.
Qed.
Lemma chain_works_length : List.length (chain_works fs) = n.
Proof. unfold chain_works. rewrite map_length, combine_length, seq_length. apply Nat.min_id. Qed.

Definition apply1 (f : nat -> V -> item V) (k : nat) (it : item V) : item V :=
  match it with inl v => f k v | inr e => inr e end.

(** events emitted when work i treats an item *)
Definition ev (i : nat) (f : nat -> V -> item V) (k : nat) (it : item V) : list (event V) :=
  match it with
  | inl v => [ECall i k v (f k v)]
  | inr e => if Nat.eqb (S i) n then [ELost i k e] else []
  end.

Definition next_q (i : nat) : option nat := if Nat.eqb (S i) n then None else Some (S i).

(** ** A generic conserved quantity *)
Section Obs.
Context {X : Type}.
Variable obs : nat -> nat * item V -> list X.
Variable tobs : event V -> list X.

Definition Tobs (tr : list (event V)) : list X := flat_map tobs tr.
Fixpoint down (m : nat) (qs : queues V) : list X :=
  match m with
  | O => []
  | S m' => flat_map (obs m') (qs m') ++ down m' qs
  end.

Definition conserved : Prop := forall i io f k it, nth_error fs i = Some (io, f) ->
  Tobs (ev i f k it) ++ (if Nat.eqb (S i) n then [] else obs (S i) (k, apply1 f k it)) = obs i (k, it).
Definition ordered : Prop := forall i io f k it, nth_error fs i = Some (io, f) ->
  Tobs (ev i f k it) = [] \/ (forall m x, (i < m < n)%nat -> obs m x = []).

Lemma down_ext m qs qs' : (forall i, (i < m)%nat -> qs i = qs' i) -> down m qs = down m qs'.
Proof.
  induction m as [|m IH]; intros H; [reflexivity|]. cbn. rewrite (H m) by lia. rewrite IH; [reflexivity|].
  intros i Hi. apply H. lia.
Qed.

Lemma down_pop m qs i k it q' : (i < m)%nat -> qs i = (k, it) :: q' -> obs i (k, it) = [] ->
  down m (upd qs i q') = down m qs.
Proof.
  intros Him Hq Ho. induction m as [|m IH]; [lia|]. cbn. destruct (Nat.eq_dec i m) as [<-|Hne].
  - rewrite upd_same, Hq. cbn [flat_map]. rewrite Ho. cbn [app].
    rewrite (down_ext i (upd qs i q') qs); [reflexivity|]. intros j Hj. apply upd_other. lia.
  - rewrite upd_other by lia. rewrite IH by lia. reflexivity.
Qed.

Lemma down_move m qs i k it q' it' : (S i < m)%nat -> qs i = (k, it) :: q' ->
  obs (S i) (k, it') = obs i (k, it) ->
  down m (upd (upd qs i q') (S i) (qs (S i) ++ [(k, it')])) = down m qs.
Proof.
  intros Him Hq Ho. induction m as [|m IH]; [lia|]. destruct (Nat.eq_dec (S i) m) as [<-|Hne].
  - cbn [down]. rewrite upd_same, flat_map_app. cbn [flat_map]. rewrite upd_other by lia. rewrite upd_same, Hq.
    cbn [flat_map]. rewrite Ho, app_nil_r, <- !app_assoc. do 3 f_equal.
    apply down_ext. intros j Hj. rewrite !upd_other by lia. reflexivity.
  - cbn [down]. rewrite !upd_other by lia. rewrite IH by lia. reflexivity.
Qed.

Lemma flat_map_nil {A B} (f : A -> list B) l : (forall x, f x = []) -> flat_map f l = [].
Proof. intros H. induction l as [|a l IH]; cbn; [reflexivity|]. rewrite H, IH. reflexivity. Qed.

Lemma down_above m qs i : (i < m <= n)%nat -> (forall j x, (i < j < n)%nat -> obs j x = []) ->
  down m qs = flat_map (obs i) (qs i) ++ down i qs.
Proof.
  intros Him H. induction m as [|m IH]; [lia|]. cbn. destruct (Nat.eq_dec i m) as [<-|Hne]; [reflexivity|].
  rewrite flat_map_nil by (intros x; apply H; lia). cbn. apply IH. lia.
Qed.

(** treatment of the first item of queue i, ordered version *)
Lemma treat_ordered (HC : conserved) (HO : ordered) qs i io f k it q' :
  nth_error fs i = Some (io, f) -> qs i = (k, it) :: q' ->
  ((S i < n)%nat -> ~ In k (keys (qs (S i)))) ->
  Tobs (ev i f k it) ++ down n (put (next_q i) k (apply1 f k it) (upd qs i q')) = down n qs /\
  (Tobs (ev i f k it) <> [] -> forall m x, (i < m < n)%nat -> obs m x = []).
Proof.
  intros Hf Hq Hfresh. pose proof (HC i io f k it Hf) as Hc. pose proof (HO i io f k it Hf) as Ho.
  assert (Hi : (i < n)%nat). { apply nth_error_Some. congruence. }
  split; [|intros Hne; destruct Ho as [Ho|Ho]; [congruence|exact Ho]].
  unfold put, next_q. destruct (Nat.eqb_spec (S i) n) as [Hn|Hn].
  - rewrite app_nil_r in Hc. rewrite (down_above n qs i) by lia. rewrite (down_above n (upd qs i q') i) by lia.
    rewrite upd_same, Hq. cbn [flat_map]. rewrite Hc, <- app_assoc. do 2 f_equal.
    apply down_ext. intros j Hj. apply upd_other. lia.
  - rewrite upd_other by lia. rewrite q_set_new by (apply Hfresh; lia).
    destruct Ho as [Ho|Ho].
    + rewrite Ho in Hc |- *. cbn [app] in *. apply down_move with (it := it); [lia|exact Hq|exact Hc].
    + rewrite Ho in Hc by lia. rewrite app_nil_r in Hc.
      rewrite !(down_above n _ i) by (lia || exact Ho). rewrite upd_other by lia. rewrite upd_same, Hq.
      cbn [flat_map]. rewrite Hc, <- app_assoc. do 2 f_equal.
      apply down_ext. intros j Hj. rewrite !upd_other by lia. reflexivity.
Qed.

(** unordered version *)
Lemma down_pop_perm m qs i k it q' : (i < m)%nat -> qs i = (k, it) :: q' ->
  Permutation (obs i (k, it) ++ down m (upd qs i q')) (down m qs).
Proof.
  intros Him Hq. induction m as [|m IH]; [lia|]. cbn. destruct (Nat.eq_dec i m) as [<-|Hne].
  - rewrite upd_same, Hq. cbn [flat_map]. rewrite <- app_assoc.
    rewrite (down_ext i (upd qs i q') qs); [reflexivity|]. intros j Hj. apply upd_other. lia.
  - rewrite upd_other by lia. rewrite <- IH by lia. rewrite !app_assoc.
    apply Permutation_app_tail. apply Permutation_app_comm.
Qed.

Lemma down_push_perm m qs i x : (i < m)%nat ->
  Permutation (down m (upd qs i (qs i ++ [x]))) (obs i x ++ down m qs).
Proof.
  intros Him. induction m as [|m IH]; [lia|]. cbn. destruct (Nat.eq_dec i m) as [<-|Hne].
  - rewrite upd_same, flat_map_app. cbn [flat_map]. rewrite app_nil_r.
    rewrite (down_ext i (upd qs i _) qs) by (intros j Hj; apply upd_other; lia).
    rewrite !app_assoc. apply Permutation_app_tail, Permutation_app_comm.
  - rewrite upd_other by lia. rewrite IH by lia. rewrite !app_assoc.
    apply Permutation_app_tail, Permutation_app_comm.
Qed.

End Obs.

(** ** The two observations *)
Definition obs_fin (i : nat) (x : nat * item V) : list (nat * item V) :=
  [(fst x, pipe (skipn i gs) (fst x) (snd x))].
Definition tobs_fin (e : event V) : list (nat * item V) :=
  match e with
  | ECall i k _ r => if Nat.eqb (S i) n then [(k, r)] else []
  | ELost _ k e => [(k, inr e)]
  | EGlobal _ => []
  end.
Definition obs_call (j i : nat) (x : nat * item V) : list (nat * V) :=
  if (i <=? j)%nat then
    match pipe (firstn (j - i) (skipn i gs)) (fst x) (snd x) with
    | inl v => [(fst x, v)]
    | inr _ => []
    end
  else [].
Definition tobs_call (j : nat) (e : event V) : list (nat * V) :=
  match e with
  | ECall i k v _ => if Nat.eqb i j then [(k, v)] else []
  | _ => []
  end.

Lemma pipe_inr fs0 k e : pipe (V:=V) fs0 k (inr e) = inr e.
Proof. destruct fs0; reflexivity. Qed.

Lemma skipn_nth i io f : nth_error fs i = Some (io, f) -> skipn i gs = f :: skipn (S i) gs.
Proof.
  unfold gs. generalize fs. intros l. revert i. induction l as [|[a b] l IH]; intros [|i] H; cbn in H; try discriminate.
  - injection H as -> ->. reflexivity.
  - cbn [map skipn]. rewrite (IH i H). cbn. reflexivity.
Qed.

Lemma pipe_skipn i io f k it : nth_error fs i = Some (io, f) ->
  pipe (skipn i gs) k it = pipe (skipn (S i) gs) k (apply1 f k it).
Proof.
  intros H. rewrite (skipn_nth _ _ _ H). destruct it as [v|e]; [reflexivity|].
  rewrite pipe_inr. cbn [apply1]. rewrite pipe_inr. reflexivity.
Qed.

Lemma gs_length : List.length gs = n.
Proof. unfold gs. apply map_length. Qed.

Lemma conserved_fin : conserved obs_fin tobs_fin.
Proof.
  intros i io f k it Hf. unfold obs_fin. cbn [fst snd]. rewrite (pipe_skipn _ _ _ _ _ Hf).
  unfold Tobs, ev. destruct (Nat.eqb_spec (S i) n) as [Hn|Hn].
  - rewrite skipn_all2 by (rewrite gs_length; lia). cbn [pipe].
    destruct it as [v|e]; cbn [flat_map tobs_fin app apply1].
    + rewrite (proj2 (Nat.eqb_eq _ _) Hn). reflexivity.
    + reflexivity.
  - destruct it as [v|e]; cbn [flat_map tobs_fin app apply1]; [|reflexivity].
    rewrite (proj2 (Nat.eqb_neq _ _) Hn). reflexivity.
Qed.

Lemma ordered_fin : ordered obs_fin tobs_fin.
Proof.
  intros i io f k it Hf. destruct (Nat.eqb_spec (S i) n) as [Hn|Hn]; [right; intros; lia|].
  left. unfold Tobs, ev. rewrite (proj2 (Nat.eqb_neq _ _) Hn).
  destruct it; cbn [flat_map tobs_fin app]; [|reflexivity].
  rewrite (proj2 (Nat.eqb_neq _ _) Hn). reflexivity.
Qed.

Lemma conserved_call j : (j < n)%nat -> conserved (obs_call j) (tobs_call j).
Proof.
  intros Hj i io f k it Hf. assert (Hi : (i < n)%nat). { apply nth_error_Some. congruence. }
  unfold obs_call, Tobs, ev. cbn [fst snd].
  destruct (Nat.leb_spec i j) as [Hij|Hij].
  - destruct (Nat.eq_dec i j) as [<-|Hne].
    + rewrite Nat.sub_diag. cbn [firstn pipe].
      replace (if Nat.eqb (S i) n then [] else _) with (@nil (nat * V)).
      2:{ destruct (Nat.eqb (S i) n); [reflexivity|]. destruct (Nat.leb_spec (S i) i); [lia|reflexivity]. }
      destruct it as [v|e]; cbn [flat_map tobs_call app]; [rewrite Nat.eqb_refl; reflexivity|].
      destruct (Nat.eqb (S i) n); reflexivity.
    + assert (HT : flat_map (tobs_call j) (match it with inl v => [ECall i k v (f k v)] | inr e => if Nat.eqb (S i) n then [ELost i k e] else [] end) = []).
      { destruct it; cbn [flat_map tobs_call app]; [destruct (Nat.eqb_spec i j); [congruence|reflexivity]|]. destruct (Nat.eqb (S i) n); reflexivity. }
      rewrite HT. cbn [app].
      destruct (Nat.eqb_spec (S i) n) as [Hn|Hn]; [lia|].
      destruct (Nat.leb_spec (S i) j); [|lia].
      rewrite (skipn_nth _ _ _ Hf). replace (j - i)%nat with (S (j - S i))%nat by lia.
      cbn [firstn]. destruct it as [v|e]; [reflexivity|]. cbn [apply1 pipe]. rewrite pipe_inr. reflexivity.
  - destruct (Nat.leb_spec (S i) j); [lia|].
    assert (HT : flat_map (tobs_call j) (match it with inl v => [ECall i k v (f k v)] | inr e => if Nat.eqb (S i) n then [ELost i k e] else [] end) = []).
    { destruct it; cbn [flat_map tobs_call app]; [destruct (Nat.eqb_spec i j); [lia|reflexivity]|]. destruct (Nat.eqb (S i) n); reflexivity. }
    rewrite HT. destruct (Nat.eqb (S i) n); reflexivity.
Qed.

Lemma ordered_call j : ordered (obs_call j) (tobs_call j).
Proof.
  intros i io f k it Hf. destruct (Nat.eq_dec i j) as [<-|Hne].
  - right. intros m x Hm. unfold obs_call. destruct (Nat.leb_spec m i); [lia|reflexivity].
  - left. unfold Tobs, ev. destruct it; cbn [flat_map tobs_call app].
    + destruct (Nat.eqb_spec i j); [congruence|reflexivity].
    + destruct (Nat.eqb (S i) n); reflexivity.
Qed.

(** ** keys are distinct everywhere *)
Lemma keys_down m qs i x : (i < m)%nat -> In x (qs i) -> In (fst x) (map fst (down obs_fin m qs)).
Proof.
  intros Him HI. induction m as [|m IH]; [lia|]. cbn [down]. rewrite map_app. apply in_or_app.
  destruct (Nat.eq_dec i m) as [<-|Hne]; [left|right; apply IH; lia].
  apply in_map_iff. exists (fst x, pipe (skipn i gs) (fst x) (snd x)). split; [reflexivity|].
  apply in_flat_map. exists x. split; [exact HI|left; reflexivity].
Qed.

Lemma fresh_next m qs i k it q' : (S i < m)%nat -> NoDup (map fst (down obs_fin m qs)) ->
  qs i = (k, it) :: q' -> ~ In k (keys (qs (S i))).
Proof.
  intros Him Hnd Hq HI. induction m as [|m IH]; [lia|]. cbn [down] in Hnd. rewrite map_app in Hnd.
  apply NoDup_app_disjoint in Hnd. destruct Hnd as (H1 & H2 & H3).
  destruct (Nat.eq_dec (S i) m) as [<-|Hne]; [|apply IH; [lia|exact H2]].
  apply (H3 k).
  - unfold keys in HI. apply in_map_iff in HI. destruct HI as ([k' it'] & Hk & HI). cbn in Hk. subst k'.
    apply in_map_iff. exists (k, pipe (skipn (S i) gs) k it'). split; [reflexivity|].
    apply in_flat_map. exists (k, it'). split; [exact HI|left; reflexivity].
  - apply (keys_down (S i) qs i (k, it)); [lia|]. rewrite Hq. left. reflexivity.
Qed.

Lemma down_init {X} (obs : nat -> nat * item V -> list X) m inputs : (1 <= m)%nat ->
  down obs m (chain_queues inputs) = flat_map (obs 0%nat) inputs.
Proof.
  induction m as [|m IH]; [lia|]. intros _. cbn. destruct m as [|m]; [apply app_nil_r|].
  cbn [chain_queues flat_map app]. apply IH. lia.
Qed.

Lemma down_fin_init inputs : (1 <= n)%nat ->
  down obs_fin n (chain_queues inputs) = expected gs inputs.
Proof.
  intros Hn. rewrite down_init by exact Hn. unfold expected, obs_fin. cbn [skipn].
  induction inputs as [|[k x] l IH]; [reflexivity|]. cbn. f_equal. exact IH.
Qed.

Lemma down_call_init j inputs : (1 <= n)%nat ->
  down (obs_call j) n (chain_queues inputs) = expected_calls gs j inputs.
Proof.
  intros Hn. rewrite down_init by exact Hn. unfold expected_calls, obs_call. cbn [skipn Nat.leb].
  rewrite Nat.sub_0_r. induction inputs as [|[k x] l IH]; [reflexivity|]. cbn [flat_map fst snd].
  rewrite IH. reflexivity.
Qed.

(** ** Sequential executor *)
Lemma seq_work_chain nmax i io f st :
  seq_work false nmax i (chain_work n i io f) st =
  match s_qs st i with
  | [] => (st, None)
  | (k, it) :: q' =>
    (mk_sst (put (next_q i) k (apply1 f k it) (upd (s_qs st) i q')) (s_tr st ++ ev i f k it), None)
  end.
Proof.
  unfold seq_work, chain_work. cbn [w_body w_out]. unfold q_pop_first.
  destruct (s_qs st i) as [|[k it] q']; [reflexivity|].
  fold (next_q i). destruct it as [v|e]; cbn [apply1 ev].
  - destruct (f k v); reflexivity.
  - unfold next_q. destruct (Nat.eqb (S i) n); [reflexivity|]. rewrite app_nil_r. reflexivity.
Qed.

Definition Inv (inputs : list (nat * item V)) (st : sst V) : Prop :=
  Tobs tobs_fin (s_tr st) ++ down obs_fin n (s_qs st) = expected gs inputs /\
    forall j, (j < n)%nat ->
    Tobs (tobs_call j) (s_tr st) ++ down (obs_call j) n (s_qs st) = expected_calls gs j inputs.

Lemma expected_keys inputs : map fst (expected gs inputs) = map fst inputs.
Proof. unfold expected. rewrite map_map. apply map_ext. intros [k x]. reflexivity. Qed.

Lemma Tobs_app {X} (tobs : event V -> list X) t1 t2 : Tobs tobs (t1 ++ t2) = Tobs tobs t1 ++ Tobs tobs t2.
Proof. apply flat_map_app. Qed.

Lemma seq_work_inv inputs nmax i io f st st' :
  NoDup (map fst inputs) -> nth_error fs i = Some (io, f) -> Inv inputs st ->
  seq_work false nmax i (chain_work n i io f) st = (st', None) -> Inv inputs st'.
Proof.
  intros Hnd Hf [HI1 HI2] H. rewrite seq_work_chain in H.
  destruct (s_qs st i) as [|[k it] q'] eqn:Eq; [injection H as <-; split; assumption|].
  injection H as <-.
  assert (Hfresh : (S i < n)%nat -> ~ In k (keys (s_qs st (S i)))).
  { intros Hi. eapply fresh_next; [exact Hi| |exact Eq].
    rewrite <- (expected_keys inputs), <- HI1, map_app in Hnd.
    apply NoDup_app_disjoint in Hnd. apply Hnd. }
  split; cbn [s_tr s_qs].
  - rewrite Tobs_app, <- app_assoc.
    destruct (treat_ordered obs_fin tobs_fin conserved_fin ordered_fin (s_qs st) i io f k it q' Hf Eq Hfresh) as [HT _].
    etransitivity; [|exact HI1]. f_equal. exact HT.
  - intros j Hj. rewrite Tobs_app, <- app_assoc.
    destruct (treat_ordered (obs_call j) (tobs_call j) (conserved_call j Hj) (ordered_call j) (s_qs st) i io f k it q' Hf Eq Hfresh) as [HT _].
    etransitivity; [|apply HI2, Hj]. f_equal. exact HT.
Qed.

(** measure *)
Fixpoint wsum (m : nat) (qs : queues V) : nat :=
  match m with O => 0 | S m' => (n - m') * List.length (qs m') + wsum m' qs end%nat.

Lemma wsum_ext m qs qs' : (forall i, (i < m)%nat -> qs i = qs' i) -> wsum m qs = wsum m qs'.
Proof.
  induction m as [|m IH]; intros H; [reflexivity|]. cbn. rewrite (H m) by lia. rewrite IH; [reflexivity|].
  intros i Hi. apply H. lia.
Qed.
Lemma wsum_pop m qs i x q' : (i < m)%nat -> qs i = x :: q' ->
  (wsum m (upd qs i q') + (n - i) = wsum m qs)%nat.
Proof.
  intros Him Hq. induction m as [|m IH]; [lia|]. cbn [wsum]. destruct (Nat.eq_dec i m) as [<-|Hne].
  - rewrite upd_same, Hq. rewrite (wsum_ext i (upd qs i q') qs) by (intros; apply upd_other; lia).
    cbn [List.length]. lia.
  - rewrite upd_other by lia. specialize (IH ltac:(lia)). lia.
Qed.
Lemma wsum_push m qs i x : (i < m)%nat ->
  (wsum m (upd qs i (qs i ++ [x])) = wsum m qs + (n - i))%nat.
Proof.
  intros Him. induction m as [|m IH]; [lia|]. cbn [wsum]. destruct (Nat.eq_dec i m) as [<-|Hne].
  - rewrite upd_same. rewrite (wsum_ext i (upd qs i _) qs) by (intros; apply upd_other; lia).
    rewrite app_length. cbn [List.length]. lia.
  - rewrite upd_other by lia. specialize (IH ltac:(lia)). lia.
Qed.

Lemma treat_weight qs i k it q' it' : (i < n)%nat -> qs i = (k, it) :: q' ->
  ((S i < n)%nat -> ~ In k (keys (qs (S i)))) ->
  (wsum n (put (next_q i) k it' (upd qs i q')) + 1 = wsum n qs)%nat.
Proof.
  intros Hi Hq Hfresh. unfold put, next_q. destruct (Nat.eqb_spec (S i) n) as [Hn|Hn].
  - pose proof (wsum_pop n qs i _ _ Hi Hq). lia.
  - rewrite (upd_other qs i q' (S i)) by lia.
    rewrite q_set_new by (apply Hfresh; lia).
    replace (qs (S i)) with (upd qs i q' (S i)) by (apply upd_other; lia).
    rewrite wsum_push by lia. pose proof (wsum_pop n qs i _ _ Hi Hq). lia.
Qed.

Lemma seq_sweep_inv inputs nmax l st :
  NoDup (map fst inputs) ->
  (forall i w, In (i, w) l -> exists io f, nth_error fs i = Some (io, f) /\ w = chain_work n i io f) ->
  Inv inputs st ->
  exists st', seq_sweep false nmax l st = (st', None) /\ Inv inputs st' /\
    ((st' = st /\ forall i w, In (i, w) l -> s_qs st i = []) \/ (wsum n (s_qs st') < wsum n (s_qs st))%nat).
Proof.
  intros Hnd. revert st. induction l as [|[i w] l IH]; intros st Hl HI.
  - exists st. split; [reflexivity|]. split; [exact HI|]. left. split; [reflexivity|]. intros ? ? [].
  - cbn [seq_sweep]. destruct (Hl i w (or_introl eq_refl)) as (io & f & Hf & ->).
    destruct (seq_work false nmax i (chain_work n i io f) st) as [st1 r] eqn:E.
    assert (Hr : r = None).
    { rewrite seq_work_chain in E. destruct (s_qs st i) as [|[k it] q']; congruence. }
    subst r. pose proof (seq_work_inv inputs nmax i io f st st1 Hnd Hf HI E) as HI1.
    destruct (IH st1) as (st2 & H2 & HI2 & HW2).
    { intros i' w' HIn. apply Hl. right. exact HIn. }
    { exact HI1. }
    rewrite H2. exists st2. split; [reflexivity|]. split; [exact HI2|].
    rewrite seq_work_chain in E. destruct (s_qs st i) as [|[k it] q'] eqn:Eq.
    + injection E as <-. destruct HW2 as [[-> HW2]|HW2]; [left|right; exact HW2].
      split; [reflexivity|]. intros i' w' [Heq|HIn]; [injection Heq as <- _; exact Eq|eapply HW2, HIn].
    + right. assert (HW1 : (wsum n (s_qs st1) + 1 = wsum n (s_qs st))%nat).
      { injection E as <-. cbn [s_qs]. eapply treat_weight; [apply nth_error_Some; unfold n; congruence|exact Eq|].
        intros Hi. eapply fresh_next; [exact Hi| |exact Eq].
        destruct HI as [HIa _]. rewrite <- (expected_keys inputs), <- HIa, map_app in Hnd.
        apply NoDup_app_disjoint in Hnd. apply Hnd. }
      destruct HW2 as [[-> _]|HW2]; lia.
Qed.

Lemma In_chain_works i w : In (i, w) (combine (seq 0 (List.length (chain_works fs))) (chain_works fs)) ->
  exists io f, nth_error fs i = Some (io, f) /\ w = chain_work n i io f.
Proof.
  intros HI. apply In_nth_error in HI. destruct HI as [j Hj].
  rewrite nth_error_combine_seq, chain_works_nth in Hj.
  destruct (nth_error fs j) as [[io f]|] eqn:E; [|discriminate].
  cbn in Hj. injection Hj as <- <-. exists io, f. auto.
Qed.

Lemma down_empty {X} (obs : nat -> nat * item V -> list X) m qs :
  (forall i, (i < m)%nat -> qs i = []) -> down obs m qs = [].
Proof.
  induction m as [|m IH]; intros H; [reflexivity|]. cbn. rewrite (H m) by lia. cbn. apply IH.
  intros i Hi. apply H. lia.
Qed.

Lemma seq_run_chain inputs nmax fuel st :
  NoDup (map fst inputs) -> Inv inputs st -> (wsum n (s_qs st) <= fuel)%nat ->
  exists st', seq_run fuel false nmax n (chain_works fs) st = Some (st', None) /\
    (forall i, (i < n)%nat -> s_qs st' i = []) /\
    Tobs tobs_fin (s_tr st') = expected gs inputs /\
    forall j, (j < n)%nat -> Tobs (tobs_call j) (s_tr st') = expected_calls gs j inputs.
Proof.
  intros Hnd. revert st. induction fuel as [|fuel IH]; intros st HI Hw.
  - cbn [seq_run]. assert (HE : all_empty n (s_qs st) = true).
    { apply all_empty_spec. intros i Hi. destruct (s_qs st i) as [|x q] eqn:E; [reflexivity|].
      pose proof (wsum_pop n (s_qs st) i x q Hi E). lia. }
    rewrite HE. exists st. split; [reflexivity|]. rewrite all_empty_spec in HE. split; [exact HE|].
    destruct HI as [HI1 HI2]. rewrite down_empty, app_nil_r in HI1 by exact HE. split; [exact HI1|].
    intros j Hj. specialize (HI2 j Hj). rewrite down_empty, app_nil_r in HI2 by exact HE. exact HI2.
  - cbn [seq_run]. destruct (all_empty n (s_qs st)) eqn:HE.
    + exists st. split; [reflexivity|]. rewrite all_empty_spec in HE. split; [exact HE|].
      destruct HI as [HI1 HI2]. rewrite down_empty, app_nil_r in HI1 by exact HE. split; [exact HI1|].
      intros j Hj. specialize (HI2 j Hj). rewrite down_empty, app_nil_r in HI2 by exact HE. exact HI2.
    + destruct (seq_sweep_inv inputs nmax _ st Hnd In_chain_works HI) as (st' & HS & HI' & HW).
      rewrite HS. apply IH; [exact HI'|]. destruct HW as [[-> HW]|HW]; [|lia].
      exfalso. assert (HE' : all_empty n (s_qs st) = true); [|congruence].
      apply all_empty_spec. intros i Hi.
      assert (Hn : nth_error (combine (seq 0 (List.length (chain_works fs))) (chain_works fs)) i <> None).
      { apply nth_error_Some. rewrite combine_length, seq_length, chain_works_length. lia. }
      destruct (nth_error (combine _ _) i) as [[i' w]|] eqn:En; [|congruence].
      assert (i' = i). { rewrite nth_error_combine_seq in En. destruct (nth_error (chain_works fs) i); [|discriminate]. cbn in En. congruence. }
      subst i'. eapply HW. eapply nth_error_In, En.
Qed.

Lemma Inv_init inputs : (1 <= n)%nat -> Inv inputs (mk_sst (chain_queues inputs) []).
Proof.
  intros Hn. split; cbn [s_tr s_qs Tobs flat_map app].
  - apply down_fin_init, Hn.
  - intros j _. apply down_call_init, Hn.
Qed.

Lemma wsum_init inputs : (1 <= n)%nat -> wsum n (chain_queues inputs) = (n * List.length inputs)%nat.
Proof.
  intros Hn. assert (Hg : forall m, (1 <= m)%nat -> wsum m (chain_queues inputs) = (n * List.length inputs)%nat).
  { induction m as [|m IH]; [lia|]. intros _. cbn [wsum]. destruct m as [|m].
    - cbn [chain_queues wsum]. rewrite Nat.sub_0_r. lia.
    - rewrite IH by lia. cbn [chain_queues List.length]. lia. }
  apply Hg, Hn.
Qed.

Theorem seq_chain_correct inputs nmax fuel :
  fs <> [] -> NoDup (map fst inputs) -> (n * List.length inputs <= fuel)%nat ->
  exists st', seq_run fuel false nmax n (chain_works fs) (mk_sst (chain_queues inputs) []) = Some (st', None) /\
    (forall i, (i < n)%nat -> s_qs st' i = []) /\
    finals n (s_tr st') = expected gs inputs /\
    forall j, (j < n)%nat -> calls j (s_tr st') = expected_calls gs j inputs.
Proof.
  intros Hne Hnd Hfuel. assert (Hn : (1 <= n)%nat). { unfold n. destruct fs; [congruence|]. cbn. lia. }
  apply (seq_run_chain inputs nmax fuel); [exact Hnd|apply Inv_init, Hn|].
  cbn [s_qs]. rewrite wsum_init by exact Hn. exact Hfuel.
Qed.

End Chain.

(** Number of running works and length of the queues, for arbitrary topologies. *)
From Coq Require Import Permutation.
From Verif Require Import PyBase QueueModel QueueProofs ExecModel ExecSpec ExecProofs ExecAsyncProofs ExecGenProofs.

Lemma filter_perm {A} (P : A -> bool) l l' : Permutation l l' -> Permutation (filter P l) (filter P l').
Proof.
  induction 1; cbn; try reflexivity.
  - destruct (P x); [constructor|]; assumption.
  - destruct (P x), (P y); try reflexivity. apply perm_swap.
  - etransitivity; eassumption.
Qed.

Lemma filter_length_le {A} (P : A -> bool) l : (List.length (filter P l) <= List.length l)%nat.
Proof. induction l as [|a l IH]; cbn; [lia|]. destruct (P a); cbn; lia. Qed.

Lemma filter_filter_len {A} (P Q : A -> bool) l : (forall x, In x l -> P x = true -> Q x = true) ->
  (List.length (filter P l) <= List.length (filter Q l))%nat.
Proof.
  induction l as [|a l IH]; intros H; cbn; [lia|].
  specialize (IH ltac:(intros x Hx; apply H; right; exact Hx)).
  pose proof (H a (or_introl eq_refl)) as Ha.
  destruct (P a); [rewrite Ha by reflexivity|destruct (Q a)]; cbn; lia.
Qed.

Section Bound.
Context {V : Type}.
Variable p : params V.

Definition isrun (io : bool) (t : task V) : bool :=
  match t_st t, nth_error (p_works p) (t_work t) with
  | Running _ _, Some w => Bool.eqb (w_io w) io
  | _, _ => false
  end.
Definition isspawn (t : task V) : bool := match t_st t with Spawned => true | _ => false end.
Definition cnt (P : task V -> bool) (ts : list (task V)) : Z := zlen (filter P ts).

Lemma cnt_perm P t1 t2 : Permutation t1 t2 -> cnt P t1 = cnt P t2.
Proof. intros H. unfold cnt, zlen. f_equal. apply Permutation_length, filter_perm, H. Qed.
Lemma cnt_cons P t ts : cnt P (t :: ts) = (if P t then 1 else 0) + cnt P ts.
Proof. unfold cnt, zlen. cbn [filter]. destruct (P t); cbn [List.length]; lia. Qed.
Lemma cnt_app P t1 t2 : cnt P (t1 ++ t2) = cnt P t1 + cnt P t2.
Proof. unfold cnt, zlen. rewrite filter_app, app_length. lia. Qed.
Lemma cnt_nonneg P ts : 0 <= cnt P ts.
Proof. unfold cnt, zlen. lia. Qed.
Lemma cnt_le P Q ts : (forall t, In t ts -> P t = true -> Q t = true) -> cnt P ts <= cnt Q ts.
Proof. intros H. unfold cnt, zlen. pose proof (filter_filter_len P Q ts H). lia. Qed.

Lemma isrun_spawned io id i : isrun io (mk_task id i Spawned) = false.
Proof. reflexivity. Qed.
Lemma isrun_running io id i k v w : nth_error (p_works p) i = Some w ->
  isrun io (mk_task id i (Running k v)) = Bool.eqb (w_io w) io.
Proof. intros H. unfold isrun. cbn [t_st t_work]. rewrite H. reflexivity. Qed.

Lemma zlen_q_set k (x : item V) q : zlen (q_set k x q) <= zlen q + 1.
Proof.
  assert (H : (List.length (q_set k x q) <= S (List.length q))%nat).
  { induction q as [|[k' y] q IH]; cbn [q_set List.length]; [lia|].
    destruct (Nat.eqb k k'); cbn [List.length]; lia. }
  unfold zlen. lia.
Qed.

(** the global works do not lengthen queue o *)
Definition glob_le (o : nat) : Prop := forall w ready g qs qs', In w (p_works p) ->
  w_body w = GlobalWork ready g -> g qs = Ok qs' -> zlen (qs' o) <= zlen (qs o).

Lemma zlen_put (w : work V) k it (qs : queues V) o : zlen (put (w_out w) k it qs o) <= zlen (qs o) +
  (match w_out w with Some o' => if Nat.eqb o' o then 1 else 0 | None => 0 end).
Proof.
  unfold put. destruct (w_out (V:=V) w) as [o'|]; [|lia]. unfold upd. rewrite Nat.eqb_sym.
  destruct (Nat.eqb_spec o' o) as [->|]; [apply zlen_q_set|lia].
Qed.
Lemma zlen_pop (qs : queues V) inq x q' o : q_pop_first (qs inq) = Ok (x, q') -> zlen (upd qs inq q' o) <= zlen (qs o).
Proof.
  intros H. unfold upd. destruct (Nat.eqb_spec o inq) as [->|]; [|lia].
  unfold q_pop_first in H. destruct (qs inq); [discriminate|]. injection H as _ <-. unfold zlen. cbn [List.length]. lia.
Qed.

(** effect of a step on the tasks and counters *)
Inductive change (s : ast V) (l : label) (s' : ast V) : Prop :=
| ch_same : Permutation (a_tasks s') (a_tasks s) -> map (@t_id V) (a_tasks s') = map (@t_id V) (a_tasks s) ->
    a_next s' = a_next s -> (forall io, counter io s' = counter io s) ->
    (forall o, glob_le o -> zlen (a_qs s' o) <= zlen (a_qs s o)) -> change s l s'
| ch_spawn i w : nth_error (p_works p) i = Some w -> a_tasks s' = a_tasks s ++ [mk_task (a_next s) i Spawned] ->
    a_next s' = S (a_next s) -> (forall io, counter io s' = counter io s) ->
    counter (w_io w) s < p_nb_max_workers p -> full p (w_out w) (a_qs s) = false -> a_qs s' = a_qs s ->
    l = LCheck i -> change s l s'
| ch_start id i w k v : nth_error (p_works p) i = Some w ->
    Permutation (a_tasks s) (mk_task id i Spawned :: others id (a_tasks s)) ->
    Permutation (a_tasks s') (mk_task id i (Running k v) :: others id (a_tasks s)) ->
    map (@t_id V) (a_tasks s') = map (@t_id V) (a_tasks s) ->
    a_next s' = a_next s ->
    (forall io, counter io s' = counter io s + if Bool.eqb (w_io w) io then 1 else 0) ->
    (forall o, zlen (a_qs s' o) <= zlen (a_qs s o)) -> change s l s'
| ch_drop id i w : nth_error (p_works p) i = Some w ->
    Permutation (a_tasks s) (mk_task id i Spawned :: others id (a_tasks s)) ->
    a_tasks s' = others id (a_tasks s) -> a_next s' = a_next s -> (forall io, counter io s' = counter io s) ->
    (forall o, zlen (a_qs s' o) <= zlen (a_qs s o) + match w_out w with Some o' => if Nat.eqb o' o then 1 else 0 | None => 0 end) -> change s l s'
| ch_finish id i w k v : nth_error (p_works p) i = Some w ->
    Permutation (a_tasks s) (mk_task id i (Running k v) :: others id (a_tasks s)) ->
    a_tasks s' = others id (a_tasks s) -> a_next s' = a_next s ->
    (forall io, counter io s' = counter io s - if Bool.eqb (w_io w) io then 1 else 0) ->
    (forall o, zlen (a_qs s' o) <= zlen (a_qs s o) + match w_out w with Some o' => if Nat.eqb o' o then 1 else 0 | None => 0 end) -> change s l s'.

Lemma qs_add_counter io d (s : ast V) : a_qs (add_counter io d s) = a_qs s.
Proof. destruct io; reflexivity. Qed.

Lemma step_change s l s' : NoDup (map (@t_id V) (a_tasks s)) -> step p s l = Some s' -> change s l s'.
Proof.
  intros Hnd HS0. pose proof HS0 as HS. unfold step in HS. destruct (a_raised s) as [|]; [discriminate|].
  destruct l as [i|id|id|].
  - unfold check in HS. destruct (a_exited s i); [discriminate|].
    destruct (nth_error (p_works p) i) as [w|] eqn:Ew; [|discriminate].
    destruct (w_body w) as [inq f|ready g] eqn:Eb.
    + match type of HS with context [if ?c then _ else _] => destruct c eqn:Ec end.
      * apply ch_same; try (destruct (a_stop s); injection HS as <-; reflexivity).
      * rewrite !orb_false_iff in Ec. destruct Ec as [[_ Ec1] Ec2]. apply Z.leb_gt in Ec1.
        pose proof HS as HS1. injection HS as Hs. apply (ch_spawn s _ s' i w); try (subst s'; reflexivity); try assumption.
    + apply ch_same; try (destruct (ready (a_qs s)); [destruct (g (a_qs s)); [destruct (a_stop s)|]|destruct (a_stop s)]; injection HS as <-; reflexivity).
      intros o Ho. destruct (ready (a_qs s)); [destruct (g (a_qs s)) eqn:Eg; [|injection HS as <-; apply Z.le_refl]|destruct (a_stop s); injection HS as <-; apply Z.le_refl].
      pose proof (Ho w ready g (a_qs s) _ (nth_error_In _ _ Ew) Eb Eg) as HL.
      destruct (a_stop s); injection HS as <-; exact HL.
  - unfold start in HS. destruct (find_task id s) as [[id0 i st]|] eqn:Et; [|discriminate].
    destruct st; [|discriminate]. destruct (nth_error (p_works p) i) as [w|] eqn:Ew; [|discriminate].
    unfold find_task in Et. destruct (find_perm id (a_tasks s) _ Hnd Et) as [Hid HP]. cbn in Hid. subst id0.
    destruct (w_body w) as [inq f|ready g]; [|discriminate]. cbv zeta in HS. rewrite qs_add_counter in HS.
    destruct (q_pop_first _) as [[[k [v|e]] q']|] eqn:Eq.
    + apply (ch_start s _ s' id i w k v); try assumption.
      * injection HS as <-. unfold set_running, set_tasks, set_qs. cbn [a_tasks].
        replace (a_tasks (add_counter (w_io w) 1 s)) with (a_tasks s) by (destruct (w_io w); reflexivity).
        apply (set_running_perm id k v (a_tasks s) _ Hnd Et).
      * injection HS as <-. unfold set_running, set_tasks, set_qs. cbn [a_tasks].
        rewrite set_running_ids. destruct (w_io w); reflexivity.
      * injection HS as <-. destruct (w_io w); reflexivity.
      * intros io. injection HS as <-. destruct (w_io w), io; cbn; lia.
      * intros o. injection HS as <-. unfold set_running, set_tasks, set_qs. cbn [a_qs]. eapply zlen_pop, Eq.
    + apply (ch_drop s _ s' id i w); try assumption; injection HS as <-.
      * destruct (w_out w), (w_io w); reflexivity.
      * destruct (w_out w), (w_io w); reflexivity.
      * intros io. destruct (w_out w), (w_io w), io; cbn; lia.
      * intros o. unfold remove_task, set_tasks. cbn [a_qs]. rewrite qs_add_counter.
        pose proof (zlen_put w k (inr e) (upd (a_qs s) inq q') o) as HL. pose proof (zlen_pop (a_qs s) inq _ q' o Eq) as HL2.
        destruct (w_out w); unfold set_qs, add_tr; cbn [a_qs] in *; [|cbn [put] in HL]; lia.
    + apply (ch_drop s _ s' id i w); try assumption; injection HS as <-.
      * destruct (w_io w); reflexivity.
      * destruct (w_io w); reflexivity.
      * intros io. destruct (w_io w), io; cbn; lia.
      * intros o. unfold remove_task, set_tasks. cbn [a_qs]. rewrite !qs_add_counter.
        destruct (w_out w); [destruct (Nat.eqb _ _)|]; lia.
  - unfold finish in HS. destruct (find_task id s) as [[id0 i st]|] eqn:Et; [|discriminate].
    destruct st as [|k v]; [discriminate|]. destruct (nth_error (p_works p) i) as [w|] eqn:Ew; [|discriminate].
    unfold find_task in Et. destruct (find_perm id (a_tasks s) _ Hnd Et) as [Hid HP]. cbn in Hid. subst id0.
    destruct (w_body w) as [inq f|ready g]; [|discriminate]. cbv zeta in HS.
    destruct (f k v) as [v'|e]; [|destruct (p_stop_if_error p)].
    + apply (ch_finish s _ s' id i w k v); try assumption; injection HS as <-.
      * destruct (w_io w); reflexivity.
      * destruct (w_io w); reflexivity.
      * intros io. destruct (w_io w), io; cbn; lia.
      * intros o. unfold remove_task, set_tasks. cbn [a_qs]. rewrite !qs_add_counter. apply zlen_put.
    + apply ch_same; try (injection HS as <-; reflexivity).
    + apply (ch_finish s _ s' id i w k v); try assumption; injection HS as <-.
      * destruct (w_io w); reflexivity.
      * destruct (w_io w); reflexivity.
      * intros io. destruct (w_io w), io; cbn; lia.
      * intros o. unfold remove_task, set_tasks. cbn [a_qs]. rewrite !qs_add_counter. apply zlen_put.
  - unfold poll in HS. destruct (a_poll_done s); [discriminate|].
    apply ch_same; try (destruct (a_stop s); injection HS as <-; reflexivity).
Qed.

Record G (s : ast V) : Prop := mk_G {
  g_ids : NoDup (map (@t_id V) (a_tasks s));
  g_next : forall t, In t (a_tasks s) -> (t_id t < a_next s)%nat;
  g_cnt : forall io, counter io s = cnt (isrun io) (a_tasks s);
  g_work : forall t, In t (a_tasks s) -> exists w, nth_error (p_works p) (t_work t) = Some w
}.

Lemma G_step s l s' : G s -> step p s l = Some s' -> G s'.
Proof.
  intros [H1 H2 H3 H4] HS. destruct (step_change s l s' H1 HS) as
    [HP Hid Hn Hc Hq|i w Hw Ht Hn Hc _ _ _ _|id i w k v Hw HP HP' Hid Hn Hc Hq|id i w Hw HP Ht Hn Hc Hq|id i w k v Hw HP Ht Hn Hc Hq].
  - constructor.
    + rewrite Hid. exact H1.
    + intros t Ht. rewrite Hn. apply H2, (Permutation_in _ HP), Ht.
    + intros io. rewrite Hc, H3. symmetry. apply cnt_perm, HP.
    + intros t Ht. apply H4, (Permutation_in _ HP), Ht.
  - constructor.
    + rewrite Ht, map_app. apply NoDup_app_conv; [exact H1|repeat constructor; intros []|].
      intros x Hx [<-|[]]. apply in_map_iff in Hx. destruct Hx as (t & Ht1 & Ht2). specialize (H2 t Ht2). cbn in Ht1. lia.
    + intros t HI. rewrite Ht, in_app_iff in HI. rewrite Hn. destruct HI as [HI|[<-|[]]]; [specialize (H2 t HI); lia|cbn; lia].
    + intros io. rewrite Hc, H3, Ht, cnt_app. cbn. lia.
    + intros t HI. rewrite Ht, in_app_iff in HI. destruct HI as [HI|[<-|[]]]; [apply H4, HI|]. exists w. exact Hw.
  - assert (HIn : In (mk_task id i Spawned) (a_tasks s)) by (apply (Permutation_in _ (Permutation_sym HP)); left; reflexivity).
    constructor.
    + rewrite Hid. exact H1.
    + intros t Ht. rewrite Hn. apply (Permutation_in _ HP') in Ht. destruct Ht as [<-|Ht]; [apply (H2 _ HIn)|apply H2, (In_others id), Ht].
    + intros io. rewrite Hc, H3, (cnt_perm _ _ _ HP), (cnt_perm _ _ _ HP'), !cnt_cons, isrun_spawned, (isrun_running io _ _ _ _ w Hw). lia.
    + intros t Ht. apply (Permutation_in _ HP') in Ht. destruct Ht as [<-|Ht]; [exists w; exact Hw|apply H4, (In_others id), Ht].
  - constructor.
    + rewrite Ht. apply others_ids, H1.
    + intros t HI. rewrite Ht in HI. rewrite Hn. apply H2, (In_others id), HI.
    + intros io. rewrite Hc, H3, (cnt_perm _ _ _ HP), Ht, cnt_cons, isrun_spawned. lia.
    + intros t HI. rewrite Ht in HI. apply H4, (In_others id), HI.
  - constructor.
    + rewrite Ht. apply others_ids, H1.
    + intros t HI. rewrite Ht in HI. rewrite Hn. apply H2, (In_others id), HI.
    + intros io. rewrite Hc, H3, (cnt_perm _ _ _ HP), Ht, cnt_cons, (isrun_running io _ _ _ _ w Hw). lia.
    + intros t HI. rewrite Ht in HI. apply H4, (In_others id), HI.
Qed.

Lemma G_init qs : G (init qs).
Proof. constructor; cbn; try constructor; try (intros t []). intros []; reflexivity. Qed.

Lemma reachable_G qs s : reachable p (init qs) s -> G s.
Proof. intros HR. induction HR; [apply G_init|eapply G_step; eassumption]. Qed.

Lemma running_cnt io s : running p io s = cnt (isrun io) (a_tasks s).
Proof. reflexivity. Qed.

Lemma prompt_reachable s0 s : reachable_prompt p s0 s -> reachable p s0 s.
Proof. intros H. induction H; [constructor|econstructor; eassumption]. Qed.

(** ** number of running works *)
Definition spw (ts : list (task V)) : list nat := map (@t_work V) (filter isspawn ts).
Definition isspawn_io (io : bool) (t : task V) : bool :=
  isspawn t && match nth_error (p_works p) (t_work t) with Some w => Bool.eqb (w_io w) io | None => false end.
Definition nworks (io : bool) : Z := zlen (filter (fun w => Bool.eqb (w_io w) io) (p_works p)).
Definition idx (io : bool) : list nat :=
  filter (fun i => match nth_error (p_works p) i with Some w => Bool.eqb (w_io w) io | None => false end)
         (seq 0 (List.length (p_works p))).

Lemma isspawn_io_spawned io id i w : nth_error (p_works p) i = Some w ->
  isspawn_io io (mk_task id i Spawned) = Bool.eqb (w_io w) io.
Proof. intros H. unfold isspawn_io. cbn [isspawn t_st t_work andb]. rewrite H. reflexivity. Qed.
Lemma isspawn_io_running io id i k v : isspawn_io io (mk_task id i (Running k v)) = false.
Proof. reflexivity. Qed.

Lemma idx_length_gen io (ws : list (work V)) o all :
  (forall i, nth_error all (o + i)%nat = nth_error ws i) ->
  List.length (filter (fun i => match nth_error all i with Some w => Bool.eqb (w_io w) io | None => false end) (seq o (List.length ws)))
  = List.length (filter (fun w => Bool.eqb (w_io w) io) ws).
Proof.
  revert o. induction ws as [|w ws IH]; intros o H; [reflexivity|]. cbn [List.length seq filter].
  pose proof (H 0%nat) as H0. rewrite Nat.add_0_r in H0. cbn in H0. rewrite H0.
  assert (HI : forall i, nth_error all (S o + i)%nat = nth_error ws i).
  { intros i. specialize (H (S i)). cbn [nth_error] in H. rewrite <- H. f_equal. lia. }
  specialize (IH (S o) HI). destruct (Bool.eqb (w_io w) io); cbn [List.length]; rewrite IH; reflexivity.
Qed.
Lemma idx_length io : zlen (idx io) = nworks io.
Proof. unfold zlen, idx, nworks, zlen. f_equal. apply idx_length_gen. reflexivity. Qed.

Lemma spw_perm t1 t2 : Permutation t1 t2 -> Permutation (spw t1) (spw t2).
Proof. intros H. apply Permutation_map, filter_perm, H. Qed.

Lemma spawn_le io s : NoDup (spw (a_tasks s)) -> cnt (isspawn_io io) (a_tasks s) <= nworks io.
Proof.
  intros Hnd. rewrite <- idx_length. unfold cnt, zlen. apply inj_le.
  rewrite <- (map_length (@t_work V)). apply NoDup_incl_length.
  - unfold spw in Hnd. revert Hnd. generalize (a_tasks s). intros ts. induction ts as [|t ts IH]; intros Hnd; [constructor|].
    cbn in *. unfold isspawn_io at 1. destruct (isspawn t); cbn [andb].
    + cbn in Hnd. inversion Hnd as [|? ? Hni Hnd']; subst. match goal with |- context [if ?c then _ else _] => destruct c end; [|apply IH, Hnd'].
      cbn. constructor; [|apply IH, Hnd'].
      intros HI. apply Hni. apply in_map_iff in HI. destruct HI as (t' & Ht' & HI). rewrite <- Ht'. apply in_map.
      apply filter_In in HI. apply filter_In. unfold isspawn_io in HI. rewrite andb_true_iff in HI. tauto.
    + apply IH, Hnd.
  - intros i Hi. apply in_map_iff in Hi. destruct Hi as (t & <- & Ht). apply filter_In in Ht. destruct Ht as [_ Ht].
    unfold isspawn_io in Ht. apply andb_true_iff in Ht. destruct Ht as [_ Ht]. unfold idx. apply filter_In. split; [|exact Ht].
    apply in_seq. destruct (nth_error (p_works p) (t_work t)) eqn:E; [|discriminate].
    assert (t_work t < List.length (p_works p))%nat by (apply nth_error_Some; congruence). lia.
Qed.

Record J (s : ast V) : Prop := mk_J {
  j_g : G s;
  j_sp : NoDup (spw (a_tasks s));
  j_le : forall io, counter io s + cnt (isspawn_io io) (a_tasks s) <= p_nb_max_workers p - 1 + nworks io
}.

Lemma J_step s l s' : J s -> step p s l = Some s' ->
  (forall i, l = LCheck i -> forall t, In t (a_tasks s) -> t_work t = i -> t_st t <> Spawned) -> J s'.
Proof.
  intros [HG Hsp Hle] HS Hpr. pose proof (G_step s l s' HG HS) as HG'.
  assert (Hnd' : forall i (w : work V), l = LCheck i -> a_tasks s' = a_tasks s ++ [mk_task (a_next s) i Spawned] -> NoDup (spw (a_tasks s'))).
  { intros i w Hl Ht. rewrite Ht. unfold spw. rewrite filter_app, map_app. cbn. apply NoDup_app_conv; [exact Hsp|repeat constructor; intros []|].
    intros x Hx [<-|[]]. apply in_map_iff in Hx. destruct Hx as (t & Ht1 & Ht2). apply filter_In in Ht2. destruct Ht2 as [Ht2 Ht3].
    apply (Hpr i Hl t Ht2 Ht1). unfold isspawn in Ht3. destruct (t_st t); [reflexivity|discriminate]. }
  destruct (step_change s l s' (g_ids _ HG) HS) as
    [HP Hid Hn Hc Hq|i w Hw Ht Hn Hc Hlt _ _ ->|id i w k v Hw HP HP' Hid Hn Hc Hq|id i w Hw HP Ht Hn Hc Hq|id i w k v Hw HP Ht Hn Hc Hq]; constructor; try exact HG'.
  - eapply Permutation_NoDup; [apply Permutation_sym, spw_perm, HP|exact Hsp].
  - intros io. rewrite Hc, (cnt_perm _ _ _ HP). apply Hle.
  - eapply (Hnd' i w); [reflexivity|exact Ht].
  - intros io. specialize (Hnd' i w eq_refl Ht). pose proof (spawn_le io s' Hnd') as Hsl.
    rewrite Hc. destruct (Bool.eqb (w_io w) io) eqn:Eio.
    + apply eqb_prop in Eio. subst io. lia.
    + specialize (Hle io). rewrite Ht, cnt_app. rewrite cnt_cons, (isspawn_io_spawned io _ _ w Hw), Eio. cbn. lia.
  - apply (Permutation_NoDup (Permutation_sym (spw_perm _ _ HP'))). apply (Permutation_NoDup (spw_perm _ _ HP)) in Hsp.
    cbn in Hsp |- *. inversion Hsp; assumption.
  - intros io. specialize (Hle io). rewrite (cnt_perm _ _ _ HP), cnt_cons in Hle. rewrite Hc, (cnt_perm _ _ _ HP'), cnt_cons.
    rewrite (isspawn_io_spawned io _ _ w Hw) in Hle. rewrite isspawn_io_running. lia.
  - rewrite Ht. apply (Permutation_NoDup (spw_perm _ _ HP)) in Hsp. cbn in Hsp. inversion Hsp; assumption.
  - intros io. specialize (Hle io). rewrite (cnt_perm _ _ _ HP), cnt_cons in Hle. rewrite Hc, Ht.
    destruct (isspawn_io io _); lia.
  - rewrite Ht. apply (Permutation_NoDup (spw_perm _ _ HP)) in Hsp. exact Hsp.
  - intros io. specialize (Hle io). rewrite (cnt_perm _ _ _ HP), cnt_cons in Hle. rewrite Hc, Ht.
    rewrite isspawn_io_running in Hle. destruct (Bool.eqb (w_io w) io); lia.
Qed.

Lemma nworks_nonneg io : 0 <= nworks io.
Proof. unfold nworks, zlen. lia. Qed.

Lemma prompt_J qs s : 1 <= p_nb_max_workers p -> reachable_prompt p (init qs) s -> J s.
Proof.
  intros Hnb HR. induction HR as [|s l s' HR IH HS Hpr].
  - constructor; [apply G_init|constructor|]. intros io. pose proof (nworks_nonneg io). destruct io; cbn; lia.
  - eapply J_step; eassumption.
Qed.

Lemma prompt_running qs s io : 1 <= p_nb_max_workers p -> reachable_prompt p (init qs) s ->
  running p io s <= p_nb_max_workers p + nworks io - 1.
Proof.
  intros Hnb HR. destruct (prompt_J qs s Hnb HR) as [HG _ Hle]. rewrite running_cnt, <- (g_cnt _ HG).
  specialize (Hle io). pose proof (cnt_nonneg (isspawn_io io) (a_tasks s)). lia.
Qed.

(** ** length of a queue *)
Definition oftask (i : nat) (t : task V) : bool := Nat.eqb (t_work t) i.
Lemma oftask_mk i id j st : oftask i (mk_task id j st) = Nat.eqb j i.
Proof. reflexivity. Qed.


Section QueueLen.
Variables (o i : nat) (w0 : work V).
Hypothesis Hw0 : nth_error (p_works p) i = Some w0.
Hypothesis Hw0o : w_out w0 = Some o.
Hypothesis Hone : forall j w, nth_error (p_works p) j = Some w -> w_out w = Some o -> j = i.
Hypothesis Hglob : glob_le o.

Lemma add_out j w : nth_error (p_works p) j = Some w ->
  match w_out w with Some o' => if Nat.eqb o' o then 1 else 0 | None => 0 end <= if Nat.eqb j i then 1 else 0.
Proof.
  intros Hw. destruct (w_out w) as [o'|] eqn:E; [|destruct (Nat.eqb j i); lia].
  destruct (Nat.eqb_spec o' o) as [->|]; [|destruct (Nat.eqb j i); lia].
  rewrite (Hone j w Hw E), Nat.eqb_refl. lia.
Qed.

Lemma qlen_step B s l s' : G s -> step p s l = Some s' ->
  (forall i, l = LCheck i -> forall t, In t (a_tasks s) -> t_work t = i -> t_st t <> Spawned) ->
  p_nb_items_queue_max p - 1 + p_nb_max_workers p <= B ->
  zlen (a_qs s o) + cnt (oftask i) (a_tasks s) <= B -> zlen (a_qs s' o) + cnt (oftask i) (a_tasks s') <= B.
Proof.
  intros HG HS Hpr HB HI.
  destruct (step_change s l s' (g_ids _ HG) HS) as
    [HP Hid Hn Hc Hq|j w Hw Ht Hn Hc Hlt Hfull Hqs ->|id j w k v Hw HP HP' Hid Hn Hc Hq|id j w Hw HP Ht Hn Hc Hq|id j w k v Hw HP Ht Hn Hc Hq].
  - rewrite (cnt_perm _ _ _ HP). specialize (Hq o Hglob). lia.
  - rewrite Ht, cnt_app, cnt_cons, oftask_mk, Hqs. change (cnt (oftask i) []) with 0.
    destruct (Nat.eqb_spec j i) as [->|]; [|lia].
    assert (w = w0) by congruence. subst w. unfold full in Hfull. rewrite Hw0o in Hfull. apply Z.leb_gt in Hfull.
    assert (HR : cnt (oftask i) (a_tasks s) <= cnt (isrun (w_io w0)) (a_tasks s)).
    { apply cnt_le. intros t HIt Hof. unfold oftask in Hof. apply Nat.eqb_eq in Hof.
      specialize (Hpr i eq_refl t HIt Hof). unfold isrun. destruct (t_st t); [congruence|].
      rewrite Hof, Hw0. apply Bool.eqb_reflx. }
    rewrite <- (g_cnt _ HG) in HR. lia.
  - rewrite (cnt_perm _ _ _ HP), cnt_cons in HI. rewrite (cnt_perm _ _ _ HP'), cnt_cons.
    rewrite oftask_mk in *. specialize (Hq o). lia.
  - rewrite (cnt_perm _ _ _ HP), cnt_cons in HI. rewrite oftask_mk in HI. rewrite Ht.
    specialize (Hq o). pose proof (add_out j w Hw). lia.
  - rewrite (cnt_perm _ _ _ HP), cnt_cons in HI. rewrite oftask_mk in HI. rewrite Ht.
    specialize (Hq o). pose proof (add_out j w Hw). lia.
Qed.

Lemma prompt_qlen qs s : reachable_prompt p (init qs) s ->
  zlen (a_qs s o) <= Z.max (zlen (qs o)) (p_nb_items_queue_max p + p_nb_max_workers p - 1).
Proof.
  intros HR. set (B := Z.max _ _).
  assert (H : G s /\ zlen (a_qs s o) + cnt (oftask i) (a_tasks s) <= B).
  { induction HR as [|s l s' HR IH HS Hpr].
    - split; [apply G_init|]. cbn [init a_tasks a_qs]. change (cnt (oftask i) []) with 0. unfold B. lia.
    - destruct IH as [HG HI]. split; [eapply G_step; eassumption|].
      eapply qlen_step; try eassumption. unfold B. lia. }
  pose proof (cnt_nonneg (oftask i) (a_tasks s)). lia.
Qed.
End QueueLen.

End Bound.

(** to show that concrete schedules are possible *)
Section RunPrompt.
Context {V : Type}.
Variable p : params V.

Fixpoint run_prompt (ls : list label) (s : ast V) : option (ast V) :=
  match ls with
  | [] => Some s
  | l :: ls' =>
    if match l with
       | LCheck i => existsb (fun t => Nat.eqb (t_work t) i && match t_st t with Spawned => true | _ => false end) (a_tasks s)
       | _ => false
       end
    then None
    else match step p s l with Some s' => run_prompt ls' s' | None => None end
  end.

Lemma run_prompt_sound_from ls s0 s s' : reachable_prompt p s0 s -> run_prompt ls s = Some s' ->
  reachable_prompt p s0 s'.
Proof.
  revert s. induction ls as [|l ls IH]; intros s HR H; cbn [run_prompt] in H; [injection H as <-; exact HR|].
  destruct (match l with LCheck i => _ | _ => false end) eqn:El; [discriminate|].
  destruct (step p s l) as [s1|] eqn:Es; [|discriminate].
  apply (IH s1); [|exact H]. apply (rp_step _ _ s l s1 HR Es).
  intros i -> t Ht Hw Hs.
  assert (E : existsb (fun t => Nat.eqb (t_work t) i && match t_st t with Spawned => true | _ => false end) (a_tasks s) = true).
  { apply existsb_exists. exists t. split; [exact Ht|]. rewrite Hw, Nat.eqb_refl, Hs. reflexivity. }
  rewrite E in El. discriminate.
Qed.

Lemma run_prompt_sound ls s s' : run_prompt ls s = Some s' -> reachable_prompt p s s'.
Proof. apply run_prompt_sound_from, rp_init. Qed.

Fixpoint run_labels (ls : list label) (s : ast V) : option (ast V) :=
  match ls with
  | [] => Some s
  | l :: ls' => match step p s l with Some s' => run_labels ls' s' | None => None end
  end.

Lemma run_labels_sound ls s0 s s' : reachable p s0 s -> run_labels ls s = Some s' -> reachable p s0 s'.
Proof.
  revert s. induction ls as [|l ls IH]; intros s HR H; cbn [run_labels] in H; [injection H as <-; exact HR|].
  destruct (step p s l) as [s1|] eqn:Es; [|discriminate]. apply (IH s1); [|exact H].
  eapply reach_step; eassumption.
Qed.
End RunPrompt.

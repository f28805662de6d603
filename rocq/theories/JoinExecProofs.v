(** The complete topologies PIV / preprocessing run by the executors: invariant. *)
From Coq Require Import Permutation.
From Verif Require Import PyBase QueueModel QueueProofs ExecModel ExecSpec SplitProofs ExecProofs
     ExecAsyncProofs ExecBoundProofs ExecAbsProofs ExecEndProofs JoinModel JoinSpec JoinProofs JoinHistProofs.

Lemma map_flat_map {A B C} (f : B -> C) (g : A -> list B) l : map f (flat_map g l) = flat_map (fun x => map f (g x)) l.
Proof. induction l as [|a l IH]; [reflexivity|]. cbn. rewrite map_app, IH. reflexivity. Qed.

Lemma filter_flat_map {A} (f : A -> bool) l : filter f l = flat_map (fun x => if f x then [x] else []) l.
Proof. induction l as [|a l IH]; [reflexivity|]. cbn. rewrite IH. destruct (f a); reflexivity. Qed.

Lemma down_In {V X} (obs : nat -> nat * item V -> list X) m (qs : queues V) x :
  In x (down obs m qs) <-> exists q y, (q < m)%nat /\ In y (qs q) /\ In x (obs q y).
Proof.
  induction m as [|m IH]; cbn.
  - split; [tauto|]. intros (q & y & H & _). lia.
  - rewrite in_app_iff, IH, in_flat_map. split.
    + intros [(y & H1 & H2)|(q & y & H1 & H2)]; [exists m, y; auto|exists q, y; split; [lia|exact H2]].
    + intros (q & y & H1 & H2 & H3). destruct (Nat.eq_dec q m) as [->|Hne]; [left; eauto|right; exists q, y; split; [lia|auto]].
Qed.

Section JoinExec.
Context {V : Type}.
Variable names_of : V -> list nat.
Notation names_in := (names_in names_of).
Notation in_values := (in_values names_of).
Variable wf : item V -> Prop.
Variable grp : nat -> V -> list (item V) -> item V.
Variable make : queue (item V) -> queue (item V) -> queue (item V) -> result (st3 V).
Hypothesis Hmake : make_ok names_of wf grp make.
Variables pre post : list (bool * (nat -> V -> item V)).
Let a := List.length pre.
Let b := List.length post.
Let ws := join_works make pre post.
Let nq := join_nq pre post.
Let gpre := map snd pre.
Let gpost := map snd post.
Hypothesis Hb : (1 <= b)%nat.
Variable K : queue (item V).
Variable P : queue (item V).
Variable img : nat -> item V.
Hypothesis HK : NoDup (keys K).
Hypothesis Hwf : forall k it, In (k, it) K -> wf it.
Hypothesis HP : NoDup (keys P).
Hypothesis Himg : forall x it, In (x, it) P -> img x = pipe gpre x it.
Hypothesis HPK : forall x, In x (keys P) <-> in_values x K = true.

(** ** the works *)
Lemma combine_seq_length {A} (l : list A) : List.length (combine (seq 0 (List.length l)) l) = List.length l.
Proof. rewrite combine_length, seq_length. apply Nat.min_id. Qed.

Lemma jw_pre i io f : nth_error pre i = Some (io, f) ->
  nth_error ws i = Some (mk_work (ItemWork (S i) f) (Some (S (S i))) io).
Proof.
  intros H. unfold ws, join_works. rewrite nth_error_app1.
  - rewrite nth_error_map, nth_error_combine_seq, H. reflexivity.
  - rewrite map_length, combine_seq_length. apply nth_error_Some. congruence.
Qed.

Lemma jw_glob : nth_error ws a = Some (mk_work (GlobalWork (make_ready a) (make_glob make a)) (Some (S (S a))) false).
Proof.
  unfold ws, join_works. rewrite nth_error_app2; rewrite map_length, combine_seq_length; fold a; [|lia].
  rewrite Nat.sub_diag. reflexivity.
Qed.

Lemma jw_post j io f : nth_error post j = Some (io, f) ->
  nth_error ws (S (a + j)) = Some (mk_work (ItemWork (2 + a + j) f) (if Nat.eqb (S j) b then None else Some (3 + a + j)%nat) io).
Proof.
  intros H. unfold ws, join_works. rewrite nth_error_app2; rewrite map_length, combine_seq_length; fold a; [|lia].
  replace (S (a + j) - a)%nat with (S j) by lia. cbn [nth_error app].
  rewrite nth_error_map, nth_error_combine_seq, H. reflexivity.
Qed.

Lemma jw_length : List.length ws = (a + 1 + b)%nat.
Proof. unfold ws, join_works. rewrite !app_length, !map_length, !combine_seq_length. cbn. fold a b. lia. Qed.

Lemma jw_inv i w : nth_error ws i = Some w ->
  (exists io f, nth_error pre i = Some (io, f) /\ w = mk_work (ItemWork (S i) f) (Some (S (S i))) io) \/
  (i = a /\ w = mk_work (GlobalWork (make_ready a) (make_glob make a)) (Some (S (S a))) false) \/
  (exists j io f, i = S (a + j) /\ nth_error post j = Some (io, f) /\
     w = mk_work (ItemWork (2 + a + j) f) (if Nat.eqb (S j) b then None else Some (3 + a + j)%nat) io).
Proof.
  intros H. assert (Hi : (i < a + 1 + b)%nat). { rewrite <- jw_length. apply nth_error_Some. congruence. }
  destruct (lt_eq_lt_dec i a) as [[Hlt|Heq]|Hgt].
  - left. destruct (nth_error pre i) as [[io f]|] eqn:E; [|apply nth_error_None in E; fold a in E; lia].
    rewrite (jw_pre _ _ _ E) in H. injection H as <-. eauto.
  - right. left. subst i. rewrite jw_glob in H. injection H as <-. auto.
  - right. right. exists (i - S a)%nat. destruct (nth_error post (i - S a)) as [[io f]|] eqn:E; [|apply nth_error_None in E; fold b in E; lia].
    replace i with (S (a + (i - S a))) in H by lia. rewrite (jw_post _ _ _ E) in H. injection H as <-.
    exists io, f. split; [lia|]. auto.
Qed.

Lemma pre_lt i io f : nth_error pre i = Some (io, f) -> (i < a)%nat.
Proof. intros H. unfold a. apply nth_error_Some. congruence. Qed.
Lemma post_lt j io f : nth_error post j = Some (io, f) -> (j < b)%nat.
Proof. intros H. unfold b. apply nth_error_Some. congruence. Qed.

(** ** observations *)
Definition group (kv : nat * item V) : item V := grp_of grp (fst kv) (snd kv) (map img (names_in (snd kv))).

(** which stage is a queue: 0 names; 1..a+1 images; then groups *)
Definition obs_pre (q : nat) (x : nat * item V) : list (nat * item V) :=
  if (1 <=? q)%nat && (q <=? S a)%nat then [(fst x, pipe (skipn (q - 1) gpre) (fst x) (snd x))] else [].
Definition tobs_pre (e : event V) : list (nat * item V) := [].

Definition obs_key (q : nat) (x : nat * item V) : list nat :=
  if (1 <=? q)%nat && (q <=? S a)%nat then [] else [fst x].
Definition tobs_key (e : event V) : list nat :=
  match e with
  | ECall i k _ _ => if Nat.eqb i (a + b) then [k] else []
  | ELost i k _ => [k]
  | EGlobal _ => []
  end.

Definition obs_ev (q : nat) (x : nat * item V) : list (event V) :=
  if Nat.eqb q 0 then events_of true (S a) gpost (fst x) (group x)
  else if (q <=? S a)%nat then events_of false (q - 1) (skipn (q - 1) gpre) (fst x) (snd x)
  else events_of true (q - 1) (skipn (q - 2 - a) gpost) (fst x) (snd x).
Definition tobs_ev (e : event V) : list (event V) := match e with EGlobal _ => [] | _ => [e] end.

Lemma skipn_pre i io f : nth_error pre i = Some (io, f) -> skipn i gpre = f :: skipn (S i) gpre.
Proof. apply (skipn_nth pre). Qed.
Lemma skipn_post j io f : nth_error post j = Some (io, f) -> skipn j gpost = f :: skipn (S j) gpost.
Proof. apply (skipn_nth post). Qed.

Lemma cons_pre : conservedW ws nq obs_pre tobs_pre.
Proof.
  intros i w inq f Hw Hbd. destruct (jw_inv i w Hw) as [(io & f' & Hf & ->)|[(-> & ->)|(j & io & f' & -> & Hf & ->)]];
    cbn [w_body w_out] in *; try discriminate Hbd; injection Hbd as <- <-.
  - pose proof (pre_lt _ _ _ Hf). unfold nq, join_nq. fold a b. split; [lia|]. split; [intros o E; injection E as <-; lia|].
    unfold obs_pre. rewrite !(proj2 (Nat.leb_le _ _)) by lia. cbn [andb].
    replace (S (S i) - 1)%nat with (S i) by lia. replace (S i - 1)%nat with i by lia. cbn [fst snd]. rewrite (skipn_pre _ _ _ Hf).
    split; intros k; [reflexivity|]. intros e. cbn [pipe]. rewrite !pipe_inr. reflexivity.
  - pose proof (post_lt _ _ _ Hf). unfold nq, join_nq. fold a b. split; [lia|]. split.
    + intros o. destruct (Nat.eqb_spec (S j) b); [discriminate|]. intros E; injection E as <-; lia.
    + assert (E : forall q y, (S a < q)%nat -> obs_pre q y = []).
      { intros q y Hq. unfold obs_pre. rewrite (proj2 (Nat.leb_gt q (S a)) Hq), andb_false_r. reflexivity. }
      destruct (Nat.eqb (S j) b); split; intros; rewrite ?E by lia; reflexivity.
Qed.

Lemma cons_key : conservedW ws nq obs_key tobs_key.
Proof.
  intros i w inq f Hw Hbd. destruct (jw_inv i w Hw) as [(io & f' & Hf & ->)|[(-> & ->)|(j & io & f' & -> & Hf & ->)]];
    cbn [w_body w_out] in *; try discriminate Hbd; injection Hbd as <- <-.
  - pose proof (pre_lt _ _ _ Hf). unfold nq, join_nq. fold a b. split; [lia|]. split; [intros o E; injection E as <-; lia|].
    unfold obs_key. rewrite !(proj2 (Nat.leb_le _ _)) by lia. cbn [andb tobs_key].
    destruct (Nat.eqb_spec i (a + b)); [lia|]. split; reflexivity.
  - pose proof (post_lt _ _ _ Hf). unfold nq, join_nq. fold a b. split; [lia|]. split.
    + intros o. destruct (Nat.eqb_spec (S j) b); [discriminate|]. intros E; injection E as <-; lia.
    + assert (E : forall q y, (S a < q)%nat -> obs_key q y = [fst y]).
      { intros q y Hq. unfold obs_key. rewrite (proj2 (Nat.leb_gt q (S a)) Hq), andb_false_r. reflexivity. }
      cbn [tobs_key]. destruct (Nat.eqb_spec (S j) b), (Nat.eqb_spec (S (a + j)) (a + b)); try lia;
        split; intros; rewrite ?E by lia; reflexivity.
Qed.

Lemma cons_ev : conservedW ws nq obs_ev tobs_ev.
Proof.
  intros i w inq f Hw Hbd. destruct (jw_inv i w Hw) as [(io & f' & Hf & ->)|[(-> & ->)|(j & io & f' & -> & Hf & ->)]];
    cbn [w_body w_out] in *; try discriminate Hbd; injection Hbd as <- <-.
  - pose proof (pre_lt _ _ _ Hf). unfold nq, join_nq. fold a b. split; [lia|]. split; [intros o E; injection E as <-; lia|].
    unfold obs_ev. cbn [Nat.eqb fst snd]. rewrite !(proj2 (Nat.leb_le _ _)) by lia.
    replace (S (S i) - 1)%nat with (S i) by lia. replace (S i - 1)%nat with i by lia. rewrite (skipn_pre _ _ _ Hf).
    split; intros k; [reflexivity|]. intros e. cbn [events_of]. destruct (skipn (S i) gpre); reflexivity.
  - pose proof (post_lt _ _ _ Hf) as Hj. unfold nq, join_nq. fold a b. split; [lia|]. split.
    + intros o. destruct (Nat.eqb_spec (S j) b); [discriminate|]. intros E; injection E as <-; lia.
    + assert (HL : List.length (skipn (S j) gpost) = (b - S j)%nat). { rewrite skipn_length. unfold gpost. rewrite map_length. reflexivity. }
      assert (E : forall q k it, (S a < q)%nat -> obs_ev q (k, it) = events_of true (q - 1) (skipn (q - 2 - a) gpost) k it).
      { intros q k it Hq. unfold obs_ev. destruct (Nat.eqb_spec q 0); [lia|]. rewrite (proj2 (Nat.leb_gt q (S a)) Hq). reflexivity. }
      assert (E2 : forall k it, obs_ev (2 + a + j) (k, it) = events_of true (S (a + j)) (f' :: skipn (S j) gpost) k it).
      { intros k it. rewrite E by lia. replace (2 + a + j - 1)%nat with (S (a + j)) by lia. replace (2 + a + j - 2 - a)%nat with j by lia.
        rewrite (skipn_post _ _ _ Hf). reflexivity. }
      assert (E3 : forall k it, obs_ev (3 + a + j) (k, it) = events_of true (S (S (a + j))) (skipn (S j) gpost) k it).
      { intros k it. rewrite E by lia. replace (3 + a + j - 1)%nat with (S (S (a + j))) by lia. replace (3 + a + j - 2 - a)%nat with (S j) by lia. reflexivity. }
      destruct (Nat.eqb_spec (S j) b) as [Ej|Ej].
      * replace (skipn (S j) gpost) with (@nil (nat -> V -> item V)) in * by (destruct (skipn (S j) gpost); [reflexivity|cbn in HL; lia]).
        split; intros; rewrite E2; [reflexivity|]. cbn. rewrite Nat.add_0_r. reflexivity.
      * split; intros; rewrite E2, E3; [reflexivity|]. cbn [events_of]. destruct (skipn (S j) gpost) as [|g l]; [cbn in HL; lia|].
        cbn [events_of List.length]. do 2 f_equal. lia.
Qed.

(** ** Invariant *)
Notation totpre := (tot ws nq obs_pre tobs_pre).
Notation totkey := (tot ws nq obs_key tobs_key).
Notation totev := (tot ws nq obs_ev tobs_ev).

Definition all_events : list (event V) :=
  flat_map (fun '(x, it) => events_of false 0 gpre x it) P
  ++ flat_map (fun kv => events_of true (S a) gpost (fst kv) (group kv)) K.

Record JInv (c : cfg V) : Prop := {
  j_img : forall x it, In (x, it) (totpre c) -> it = img x;
  j_nd : NoDup (map fst (totpre c));
  j_need : forall x, In x (map fst (totpre c)) <-> in_values x (c_qs c 0%nat) = true;
  j_key : Permutation (totkey c) (keys K);
  j_ev : Permutation (totev c) all_events;
  j_q0 : forall kv, In kv (c_qs c 0%nat) -> In kv K
}.

Lemma perm_map_fst {A B} (l l' : list (A * B)) : Permutation l l' -> Permutation (map fst l) (map fst l').
Proof. apply Permutation_map. Qed.

(** where a key of a pre (post) queue is counted *)
Lemma pre_in c q k it : (1 <= q <= S a)%nat -> In (k, it) (c_qs c q) ->
  In (k, pipe (skipn (q - 1) gpre) k it) (down obs_pre nq (c_qs c)).
Proof.
  intros Hq HI. apply down_In. exists q, (k, it). unfold nq, join_nq. fold a b. split; [lia|]. split; [exact HI|].
  unfold obs_pre. rewrite !(proj2 (Nat.leb_le _ _)) by lia. left. reflexivity.
Qed.
Lemma key_in c q k it : (q = 0 \/ (S a < q < nq))%nat -> In (k, it) (c_qs c q) -> In k (down obs_key nq (c_qs c)).
Proof.
  intros Hq HI. apply down_In. exists q, (k, it). unfold nq, join_nq in Hq |- *. fold a b in Hq |- *. split; [lia|]. split; [exact HI|].
  unfold obs_key. destruct Hq as [->|Hq]; [left; reflexivity|]. rewrite (proj2 (Nat.leb_gt q (S a))), andb_false_r by lia. left. reflexivity.
Qed.

Lemma fresh_two {X} (l : list X) (l1 l2 : list X) x : Permutation l (l1 ++ l2) -> NoDup l -> In x l1 -> ~ In x l2.
Proof. intros H1 H2 H3. exact (proj2 (proj2 (NoDup_app_disjoint l1 l2 (Permutation_NoDup H1 H2))) x H3). Qed.

Lemma fl_obs_pre i io f k v : nth_error pre i = Some (io, f) ->
  fl_obs ws obs_pre (i, k, v) = [(k, pipe (skipn i gpre) k (inl v))].
Proof.
  intros H. unfold fl_obs. rewrite (jw_pre _ _ _ H). cbn [w_body]. unfold obs_pre. pose proof (pre_lt _ _ _ H).
  rewrite !(proj2 (Nat.leb_le _ _)) by lia. replace (S i - 1)%nat with i by lia. reflexivity.
Qed.
Lemma fl_obs_key j io f k v : nth_error post j = Some (io, f) -> fl_obs ws obs_key (S (a + j), k, v) = [k].
Proof.
  intros H. unfold fl_obs. rewrite (jw_post _ _ _ H). cbn [w_body]. unfold obs_key.
  rewrite (proj2 (Nat.leb_gt (2 + a + j) (S a))), andb_false_r by lia. reflexivity.
Qed.

Lemma totkey_nd c : JInv c -> NoDup (totkey c).
Proof. intros H. apply (Permutation_NoDup (Permutation_sym (j_key _ H)) HK). Qed.

(** the key treated by a work is not in its output queue *)
Lemma item_fresh c c' i k : JInv c -> item_trans ws i k c c' ->
  forall w o, nth_error ws i = Some w -> w_out w = Some o ->
  (forall inq f, w_body w = ItemWork inq f -> inq <> o) /\ ~ In k (keys (c_qs c o)).
Proof.
  intros HJ HT w o Hw Ho.
  assert (HG : exists inq f, w_body w = ItemWork inq f /\
     ((exists it q', c_qs c inq = (k, it) :: q') \/ exists v, Permutation (c_fl c) ((i, k, v) :: c_fl c'))).
  { destruct HT as [w' inq f v q' Hw' Hb' Hq Hq' Hf Ht|w' inq f e q' Hw' Hb' Hq Hq' Hf Ht|w' inq f v Hw' Hb' Hf Hq' Ht];
      rewrite Hw in Hw'; injection Hw' as <-; exists inq, f; (split; [exact Hb'|]); [left|left|right]; eauto. }
  destruct HG as (inq & f & Hbd & HG).
  destruct (jw_inv i w Hw) as [(io & f' & Hf & ->)|[(-> & ->)|(j & io & f' & -> & Hf & ->)]]; cbn [w_body w_out] in *; try discriminate Hbd.
  - injection Hbd as <- <-. injection Ho as <-. split; [intros inq0 f0 E; injection E as <- _; lia|].
    pose proof (pre_lt _ _ _ Hf) as Hi. intros HI. apply keys_In in HI. destruct HI as (it' & HI).
    pose proof (pre_in c (S (S i)) k it' ltac:(lia) HI) as HD. pose proof (j_nd _ HJ) as Hnd. unfold tot in Hnd.
    rewrite !map_app in Hnd. apply NoDup_app_r in Hnd.
    destruct HG as [(it & q' & Hq)|(v & Hfl)].
    + apply NoDup_app_r in Hnd.
      assert (Hinq : (S i < nq)%nat) by (unfold nq, join_nq; fold a b; lia).
      pose proof (down_pop_perm [] obs_pre nq (c_qs c) (S i) k it q' Hinq Hq) as HPm. apply Permutation_sym, perm_map_fst in HPm. rewrite map_app in HPm.
      eapply (fresh_two _ _ _ k HPm Hnd).
      * unfold obs_pre. rewrite !(proj2 (Nat.leb_le _ _)) by lia. left. reflexivity.
      * apply (in_map fst _ (k, pipe (skipn (S (S i) - 1) gpre) k it')).
        apply (pre_in (mk_cfg (upd (c_qs c) (S i) q') [] []) (S (S i)) k it'); [lia|]. cbn [c_qs]. rewrite upd_other by lia. exact HI.
    + apply (proj2 (proj2 (NoDup_app_disjoint _ _ Hnd)) k).
      * apply (Permutation_in k (Permutation_sym (perm_map_fst _ _ (Permutation_flat_map _ Hfl)))). cbn [flat_map].
        rewrite (fl_obs_pre _ _ _ _ _ Hf). left. reflexivity.
      * apply (in_map fst) in HD. exact HD.
  - injection Hbd as <- <-. destruct (Nat.eqb_spec (S j) b) as [|Hj]; [discriminate Ho|]. injection Ho as <-.
    split; [intros inq0 f0 E; injection E as <- _; lia|].
    pose proof (post_lt _ _ _ Hf) as Hi. intros HI. apply keys_In in HI. destruct HI as (it' & HI).
    assert (Hnq' : (S a < 3 + a + j < nq)%nat) by (unfold nq, join_nq; fold a b; lia).
    pose proof (key_in c (3 + a + j) k it' (or_intror Hnq') HI) as HD. pose proof (totkey_nd _ HJ) as Hnd. unfold tot in Hnd.
    apply NoDup_app_r in Hnd.
    destruct HG as [(it & q' & Hq)|(v & Hfl)].
    + apply NoDup_app_r in Hnd.
      pose proof (down_pop_perm [] obs_key nq (c_qs c) (2 + a + j) k it q' ltac:(lia) Hq) as HPm. apply Permutation_sym in HPm.
      eapply (fresh_two _ _ _ k HPm Hnd).
      * unfold obs_key. rewrite (proj2 (Nat.leb_gt (2 + a + j) (S a))), andb_false_r by lia. left. reflexivity.
      * apply (key_in (mk_cfg (upd (c_qs c) (2 + a + j) q') [] []) (3 + a + j) k it'); [right; exact Hnq'|]. cbn [c_qs]. rewrite upd_other by lia. exact HI.
    + apply (proj2 (proj2 (NoDup_app_disjoint _ _ Hnd)) k).
      * apply (Permutation_in k (Permutation_sym (Permutation_flat_map _ Hfl))). cbn [flat_map].
        rewrite (fl_obs_key _ _ _ _ _ Hf). left. reflexivity.
      * exact HD.
Qed.

Lemma item_q0 c c' i k : item_trans ws i k c c' -> c_qs c' 0%nat = c_qs c 0%nat.
Proof.
  intros HT. destruct HT as [w inq f v q' Hw Hb' Hq Hq' Hf Ht|w inq f e q' Hw Hb' Hq Hq' Hf Ht|w inq f v Hw Hb' Hf Hq' Ht]; rewrite Hq';
    destruct (jw_inv i w Hw) as [(io & f' & Hf' & ->)|[(-> & ->)|(j & io & f' & -> & Hf' & ->)]]; cbn [w_body w_out] in *; try discriminate Hb';
    injection Hb' as <- <-; unfold put; try destruct (Nat.eqb _ b); rewrite ?upd_other by lia; reflexivity.
Qed.

Lemma item_JInv c c' i k : JInv c -> item_trans ws i k c c' -> JInv c'.
Proof.
  intros HJ HT. pose proof (item_fresh _ _ _ _ HJ HT) as Hfr.
  pose proof (item_tot ws nq obs_pre tobs_pre i k c c' cons_pre HT Hfr) as H1.
  pose proof (item_tot ws nq obs_key tobs_key i k c c' cons_key HT Hfr) as H2.
  pose proof (item_tot ws nq obs_ev tobs_ev i k c c' cons_ev HT Hfr) as H3.
  pose proof (item_q0 _ _ _ _ HT) as H0.
  constructor.
  - intros x it HI. apply (j_img _ HJ). apply (Permutation_in _ H1 HI).
  - apply (Permutation_NoDup (Permutation_sym (perm_map_fst _ _ H1)) (j_nd _ HJ)).
  - intros x. rewrite H0, <- (j_need _ HJ). split; apply Permutation_in; [|symmetry]; apply perm_map_fst, H1.
  - rewrite H2. apply HJ.
  - rewrite H3. apply HJ.
  - rewrite H0. apply HJ.
Qed.

Lemma ext_JInv c c' : JInv c -> c_qs c' = c_qs c -> Permutation (c_fl c') (c_fl c) -> c_tr c' = c_tr c -> JInv c'.
Proof.
  intros HJ E1 E2 E3.
  pose proof (tot_ext ws nq obs_pre tobs_pre c c' E1 E2 E3) as H1.
  pose proof (tot_ext ws nq obs_key tobs_key c c' E1 E2 E3) as H2.
  pose proof (tot_ext ws nq obs_ev tobs_ev c c' E1 E2 E3) as H3.
  constructor.
  - intros x it HI. apply (j_img _ HJ). apply (Permutation_in _ H1 HI).
  - apply (Permutation_NoDup (Permutation_sym (perm_map_fst _ _ H1)) (j_nd _ HJ)).
  - intros x. rewrite E1, <- (j_need _ HJ). split; apply Permutation_in; [|symmetry]; apply perm_map_fst, H1.
  - rewrite H2. apply HJ.
  - rewrite H3. apply HJ.
  - rewrite E1. apply HJ.
Qed.

(** ** the global work *)
(** content of the queues, the three queues of the global work apart *)
Definition rest {X} (obs : nat -> nat * item V -> list X) (qs : queues V) : list X :=
  down (fun q x => if Nat.eqb q 0 || Nat.eqb q (S a) || Nat.eqb q (S (S a)) then [] else obs q x) nq qs.

Lemma down_split_one {X} (obs : nat -> nat * item V -> list X) m (qs : queues V) i : (i < m)%nat ->
  Permutation (down obs m qs) (flat_map (obs i) (qs i) ++ down (fun q x => if Nat.eqb q i then [] else obs q x) m qs).
Proof.
  intros Hi. induction m as [|m IH]; [lia|]. cbn. destruct (Nat.eq_dec i m) as [<-|Hne].
  - rewrite Nat.eqb_refl. rewrite (flat_map_nil (fun _ => [])) by reflexivity. cbn. apply Permutation_app_head.
    assert (E : down obs i qs = down (fun q x => if Nat.eqb q i then [] else obs q x) i qs); [|rewrite E; reflexivity].
    clear. assert (H : forall m, (m <= i)%nat -> down obs m qs = down (fun q x => if Nat.eqb q i then [] else obs q x) m qs).
    { induction m as [|m IH]; intros Hm; [reflexivity|]. cbn. rewrite IH by lia. destruct (Nat.eqb_spec m i); [lia|]. reflexivity. }
    apply H. lia.
  - rewrite IH by lia. destruct (Nat.eqb_spec m i); [lia|]. rewrite !app_assoc. apply Permutation_app_tail. apply Permutation_app_comm.
Qed.

Lemma down_obs_ext {X} (o1 o2 : nat -> nat * item V -> list X) m (qs : queues V) :
  (forall q x, o1 q x = o2 q x) -> down o1 m qs = down o2 m qs.
Proof. intros H. induction m as [|m IH]; [reflexivity|]. cbn. rewrite IH. f_equal. apply flat_map_ext. intros x. apply H. Qed.

Lemma down_split {X} (obs : nat -> nat * item V -> list X) (qs : queues V) :
  Permutation (down obs nq qs)
    (flat_map (obs 0%nat) (qs 0%nat) ++ flat_map (obs (S a)) (qs (S a)) ++ flat_map (obs (S (S a))) (qs (S (S a))) ++ rest obs qs).
Proof.
  assert (Hn : (S (S a) < nq)%nat) by (unfold nq, join_nq; fold a b; lia).
  rewrite (down_split_one obs nq qs 0) by lia. apply Permutation_app_head.
  rewrite (down_split_one _ nq qs (S a)) by lia. cbn [Nat.eqb]. apply Permutation_app_head.
  rewrite (down_split_one _ nq qs (S (S a))) by lia. 
  replace (Nat.eqb (S (S a)) (S a)) with false by (symmetry; apply Nat.eqb_neq; lia). change (Nat.eqb (S (S a)) 0) with false. cbv iota. apply Permutation_app_head.
  unfold rest. rewrite (down_obs_ext _ (fun q x => if Nat.eqb q 0 || Nat.eqb q (S a) || Nat.eqb q (S (S a)) then [] else obs q x)); [reflexivity|].
  intros q x. destruct (Nat.eqb q (S (S a))), (Nat.eqb q (S a)), (Nat.eqb q 0); reflexivity.
Qed.

Lemma rest_ext {X} (obs : nat -> nat * item V -> list X) (qs qs' : queues V) :
  (forall q, q <> 0%nat -> q <> S a -> q <> S (S a) -> qs' q = qs q) -> rest obs qs' = rest obs qs.
Proof.
  intros H. unfold rest. generalize nq. intros n. induction n as [|n IH]; [reflexivity|]. cbn [down]. rewrite IH. f_equal.
  destruct (Nat.eqb_spec n 0); [cbn [orb]; rewrite (flat_map_nil _ (qs n)), (flat_map_nil _ (qs' n)) by reflexivity; reflexivity|].
  destruct (Nat.eqb_spec n (S a)); [cbn [orb]; rewrite (flat_map_nil _ (qs n)), (flat_map_nil _ (qs' n)) by reflexivity; reflexivity|].
  destruct (Nat.eqb_spec n (S (S a))); [cbn [orb]; rewrite (flat_map_nil _ (qs n)), (flat_map_nil _ (qs' n)) by reflexivity; reflexivity|].
  rewrite H by assumption. reflexivity.
Qed.

(** facts about the three queues in a state which satisfies the invariant *)
Lemma J_three c : JInv c ->
  NoDup (keys (c_qs c 0%nat)) /\ NoDup (keys (c_qs c (S a))) /\
  (forall k it, In (k, it) (c_qs c 0%nat) -> wf it) /\
  (forall x, In x (keys (c_qs c (S a))) -> in_values x (c_qs c 0%nat) = true) /\
  (forall k, In k (keys (c_qs c 0%nat)) -> ~ In k (keys (c_qs c (S (S a))))) /\
  (forall x it, In (x, it) (c_qs c (S a)) -> it = img x).
Proof.
  intros HJ. assert (Hpa : forall l : list (nat * item V), flat_map (obs_pre (S a)) l = l).
  { intros l. induction l as [|[x it] l IH]; [reflexivity|]. cbn [flat_map]. rewrite IH. unfold obs_pre.
    rewrite !(proj2 (Nat.leb_le _ _)) by lia. cbn [andb fst snd app]. replace (S a - 1)%nat with a by lia.
    rewrite skipn_all2 by (unfold gpre; rewrite map_length; fold a; lia). reflexivity. }
  assert (Hk0 : forall (q : nat) (l : list (nat * item V)), q = 0%nat \/ q = S (S a) -> flat_map (obs_key q) l = keys l).
  { intros q l Hq. induction l as [|[x it] l IH]; [reflexivity|]. cbn [flat_map]. rewrite IH. unfold obs_key.
    destruct Hq as [->| ->]; [reflexivity|]. rewrite (proj2 (Nat.leb_gt (S (S a)) (S a))), andb_false_r by lia. reflexivity. }
  pose proof (totkey_nd _ HJ) as Hnk. unfold tot in Hnk. apply NoDup_app_r, NoDup_app_r in Hnk.
  apply (Permutation_NoDup (down_split obs_key (c_qs c))) in Hnk. rewrite (Hk0 0%nat), (Hk0 (S (S a))) in Hnk by auto.
  pose proof (j_nd _ HJ) as Hnp. unfold tot in Hnp. rewrite !map_app in Hnp. apply NoDup_app_r, NoDup_app_r in Hnp.
  apply (Permutation_NoDup (perm_map_fst _ _ (down_split obs_pre (c_qs c)))) in Hnp. rewrite !map_app, Hpa in Hnp.
  assert (HIa : forall kv, In kv (c_qs c (S a)) -> In kv (totpre c)).
  { intros kv HI. unfold tot. rewrite !in_app_iff. right. right. apply (Permutation_in _ (Permutation_sym (down_split obs_pre (c_qs c)))).
    rewrite !in_app_iff, Hpa. auto. }
  split; [|split; [|split; [|split; [|split]]]].
  - apply (NoDup_app_l _ _ Hnk).
  - apply NoDup_app_r, NoDup_app_l in Hnp. exact Hnp.
  - intros k it HI. apply (Hwf k), (j_q0 _ HJ), HI.
  - intros x HI. apply keys_In in HI. destruct HI as (it & HI). apply (j_need _ HJ). apply (in_map fst _ _ (HIa _ HI)).
  - intros k H1 H2. apply (proj2 (proj2 (NoDup_app_disjoint _ _ Hnk)) k H1). rewrite !in_app_iff. right. left. exact H2.
  - intros x it HI. apply (j_img _ HJ), HIa, HI.
Qed.

Lemma lookup_img c x : JInv c -> In x (keys (c_qs c (S a))) -> lookup (c_qs c (S a)) x = img x.
Proof.
  intros HJ HI. destruct (J_three _ HJ) as (_ & H2 & _ & _ & _ & H6). apply keys_In in HI. destruct HI as (it & HI).
  unfold lookup. rewrite (q_get_In x it _ H2 HI). apply (H6 x), HI.
Qed.

Lemma formed_groups c : JInv c ->
  formed names_of grp (c_qs c (S a)) (c_qs c 0%nat)
  = map (fun kv => (fst kv, group kv)) (filter (ready names_of (c_qs c (S a))) (c_qs c 0%nat)).
Proof.
  intros HJ. unfold formed. apply map_ext_in. intros [k it] HI. cbn [fst]. f_equal. unfold group. cbn [fst snd]. f_equal.
  apply map_ext_in. intros x Hx. apply filter_In in HI. destruct HI as [_ HR]. unfold ready in HR. rewrite forallb_forall in HR.
  apply lookup_img; [exact HJ|]. apply q_mem_In, HR, Hx.
Qed.

(** what the global work does *)
Definition glob_result (qs : queues V) : queues V :=
  upd (upd (upd qs 0%nat (rem names_of (qs (S a)) (qs 0%nat))) (S a)
       (keep names_of (rem names_of (qs (S a)) (qs 0%nat)) (qs (S a))))
      (S (S a)) (qs (S (S a)) ++ formed names_of grp (qs (S a)) (qs 0%nat)).

Lemma glob_ok c : JInv c -> make_glob make a (c_qs c) = Ok (glob_result (c_qs c)).
Proof.
  intros HJ. destruct (J_three _ HJ) as (H1 & H2 & H3 & H4 & H5 & _). unfold make_glob.
  rewrite Hmake by assumption. reflexivity.
Qed.

Lemma in_values_rem x qa q0 : ~ In x (keys qa) -> in_values x q0 = true -> in_values x (rem names_of qa q0) = true.
Proof.
  intros H1 H2. apply in_values_spec in H2. destruct H2 as (k & it & H2 & H3). apply in_values_spec. exists k, it. split; [|exact H3].
  apply filter_In. split; [exact H2|]. unfold ready. cbn [snd]. apply negb_true_iff. apply not_true_is_false. intros E.
  rewrite forallb_forall in E. apply H1. apply q_mem_In, E, H3.
Qed.
Lemma in_values_incl x q q' : (forall kv, In kv q -> In kv q') -> in_values x q = true -> in_values x q' = true.
Proof. intros H HI. apply in_values_spec in HI. destruct HI as (k & it & H1 & H2). apply in_values_spec. exists k, it. auto. Qed.

Lemma glob_JInv c c' : JInv c -> c_qs c' = glob_result (c_qs c) -> Permutation (c_fl c') (c_fl c) ->
  flat_map tobs_pre (c_tr c') = flat_map tobs_pre (c_tr c) -> flat_map tobs_key (c_tr c') = flat_map tobs_key (c_tr c) ->
  flat_map tobs_ev (c_tr c') = flat_map tobs_ev (c_tr c) -> JInv c'.
Proof.
  intros HJ Hq Hf Ht1 Ht2 Ht3. destruct (J_three _ HJ) as (H1 & H2 & H3 & H4 & H5 & H6).
  set (q0 := c_qs c 0%nat) in *. set (qa := c_qs c (S a)) in *. set (qo := c_qs c (S (S a))) in *.
  assert (E0 : c_qs c' 0%nat = rem names_of qa q0). { rewrite Hq. unfold glob_result. rewrite !upd_other by lia. apply upd_same. }
  assert (Ea : c_qs c' (S a) = keep names_of (rem names_of qa q0) qa). { rewrite Hq. unfold glob_result. rewrite upd_other by lia. apply upd_same. }
  assert (Eo : c_qs c' (S (S a)) = qo ++ formed names_of grp qa q0). { rewrite Hq. unfold glob_result. apply upd_same. }
  assert (Er : forall X (obs : nat -> nat * item V -> list X), rest obs (c_qs c') = rest obs (c_qs c)).
  { intros X obs. apply rest_ext. intros q Q1 Q2 Q3. rewrite Hq. unfold glob_result. rewrite !upd_other by assumption. reflexivity. }
  assert (Hrem : forall kv, In kv (rem names_of qa q0) -> In kv q0). { intros kv HI. apply filter_In in HI. apply HI. }
  assert (HD : forall X (obs : nat -> nat * item V -> list X) tobs, flat_map tobs (c_tr c') = flat_map tobs (c_tr c) ->
    Permutation (tot ws nq obs tobs c') (flat_map (obs 0%nat) (rem names_of qa q0) ++ flat_map (obs (S a)) (keep names_of (rem names_of qa q0) qa)
      ++ flat_map (obs (S (S a))) (qo ++ formed names_of grp qa q0) ++ (flat_map tobs (c_tr c) ++ flat_map (fl_obs ws obs) (c_fl c) ++ rest obs (c_qs c)))).
  { intros X obs tobs Et. unfold tot. rewrite Et, (Permutation_flat_map _ Hf), (down_split obs), E0, Ea, Eo, Er.
    set (x1 := flat_map (obs 0%nat) _). set (x2 := flat_map (obs (S a)) _). set (x3 := flat_map (obs (S (S a))) _).
    set (x4 := flat_map tobs _). set (x5 := flat_map (fl_obs ws obs) _). set (x6 := rest obs _).
    rewrite !app_assoc. rewrite (Permutation_app_comm (x4 ++ x5) x1). rewrite <- !app_assoc. apply Permutation_app_head.
    rewrite !app_assoc. rewrite (Permutation_app_comm (x4 ++ x5) x2). rewrite <- !app_assoc. apply Permutation_app_head.
    rewrite !app_assoc. rewrite (Permutation_app_comm (x4 ++ x5) x3). rewrite <- !app_assoc. reflexivity. }
  assert (HD0 : forall X (obs : nat -> nat * item V -> list X) tobs,
    Permutation (tot ws nq obs tobs c) (flat_map (obs 0%nat) q0 ++ flat_map (obs (S a)) qa
      ++ flat_map (obs (S (S a))) qo ++ (flat_map tobs (c_tr c) ++ flat_map (fl_obs ws obs) (c_fl c) ++ rest obs (c_qs c)))).
  { intros X obs tobs. unfold tot. rewrite (down_split obs). fold q0 qa qo.
    set (x1 := flat_map (obs 0%nat) _). set (x2 := flat_map (obs (S a)) _). set (x3 := flat_map (obs (S (S a))) _).
    set (x4 := flat_map tobs _). set (x5 := flat_map (fl_obs ws obs) _). set (x6 := rest obs _).
    rewrite !app_assoc. rewrite (Permutation_app_comm (x4 ++ x5) x1). rewrite <- !app_assoc. apply Permutation_app_head.
    rewrite !app_assoc. rewrite (Permutation_app_comm (x4 ++ x5) x2). rewrite <- !app_assoc. apply Permutation_app_head.
    rewrite !app_assoc. rewrite (Permutation_app_comm (x4 ++ x5) x3). rewrite <- !app_assoc. reflexivity. }
  assert (Hpa : forall l : list (nat * item V), flat_map (obs_pre (S a)) l = l).
  { intros l. induction l as [|[x it] l IH]; [reflexivity|]. cbn [flat_map]. rewrite IH. unfold obs_pre.
    rewrite !(proj2 (Nat.leb_le _ _)) by lia. cbn [andb fst snd app]. replace (S a - 1)%nat with a by lia.
    rewrite skipn_all2 by (unfold gpre; rewrite map_length; fold a; lia). reflexivity. }
  assert (Hp0 : forall l, flat_map (obs_pre 0) l = []) by (intros l; apply flat_map_nil; reflexivity).
  assert (Hpo : forall l, flat_map (obs_pre (S (S a))) l = []).
  { intros l. apply flat_map_nil. intros x. unfold obs_pre. rewrite (proj2 (Nat.leb_gt (S (S a)) (S a))), andb_false_r by lia. reflexivity. }
  pose proof (HD _ obs_pre tobs_pre Ht1) as Dp. pose proof (HD0 _ obs_pre tobs_pre) as Dp0.
  rewrite Hp0, Hpo, Hpa in Dp, Dp0. cbn [app] in Dp, Dp0.
  set (R := flat_map tobs_pre (c_tr c) ++ flat_map (fl_obs ws obs_pre) (c_fl c) ++ rest obs_pre (c_qs c)) in *.
  assert (HkeepIn : forall kv, In kv (keep names_of (rem names_of qa q0) qa) -> In kv qa) by (intros kv HI; apply filter_In in HI; apply HI).
  assert (Hsub : forall kv, In kv (totpre c') -> In kv (totpre c)).
  { intros kv HI. apply (Permutation_in _ Dp) in HI. apply (Permutation_in _ (Permutation_sym Dp0)). rewrite in_app_iff in *.
    destruct HI as [HI|HI]; [left; apply HkeepIn, HI|right; exact HI]. }
  assert (Hnd0 : NoDup (keys qa ++ map fst R)).
  { change (keys qa) with (map fst qa). rewrite <- map_app. apply (Permutation_NoDup (perm_map_fst _ _ Dp0)). apply (j_nd _ HJ). }
  assert (Hall : forall kv, In kv K -> True) by auto.
  constructor.
  - intros x it HI. apply (j_img _ HJ), Hsub, HI.
  - apply (Permutation_NoDup (Permutation_sym (perm_map_fst _ _ Dp))). rewrite map_app. apply NoDup_filter_app. exact Hnd0.
  - intros x. rewrite E0. split.
    + intros HI. apply (Permutation_in _ (perm_map_fst _ _ Dp)) in HI. rewrite map_app, in_app_iff in HI. destruct HI as [HI|HI].
      * apply in_map_iff in HI. destruct HI as ([x' it] & E & HI). cbn in E. subst x'. apply filter_In in HI. apply HI.
      * apply in_values_rem.
        -- intros HI2. apply (proj2 (proj2 (NoDup_app_disjoint _ _ Hnd0)) x HI2 HI).
        -- apply (j_need _ HJ). apply (Permutation_in _ (Permutation_sym (perm_map_fst _ _ Dp0))). rewrite map_app, in_app_iff. right. exact HI.
    + intros HI. apply (Permutation_in _ (Permutation_sym (perm_map_fst _ _ Dp))). rewrite map_app, in_app_iff.
      pose proof (in_values_incl x _ _ Hrem HI) as HI0. apply (j_need _ HJ) in HI0.
      apply (Permutation_in _ (perm_map_fst _ _ Dp0)) in HI0. rewrite map_app, in_app_iff in HI0. destruct HI0 as [HI0|HI0]; [left|right; exact HI0].
      apply in_map_iff in HI0. destruct HI0 as ([x' it] & E & HI0). cbn in E. subst x'. apply in_map_iff. exists (x, it). split; [reflexivity|].
      apply filter_In. split; [exact HI0|exact HI].
  - rewrite (HD _ obs_key tobs_key Ht2). rewrite <- (j_key _ HJ). rewrite (HD0 _ obs_key tobs_key).
    assert (Hk : forall (q : nat) (l : list (nat * item V)), q = 0%nat \/ q = S (S a) -> flat_map (obs_key q) l = keys l).
    { intros q l Hq0. induction l as [|[x it] l IH]; [reflexivity|]. cbn [flat_map]. rewrite IH. unfold obs_key.
      destruct Hq0 as [->| ->]; [reflexivity|]. rewrite (proj2 (Nat.leb_gt (S (S a)) (S a))), andb_false_r by lia. reflexivity. }
    assert (Hka : forall l, flat_map (obs_key (S a)) l = []).
    { intros l. apply flat_map_nil. intros x. unfold obs_key. rewrite !(proj2 (Nat.leb_le _ _)) by lia. reflexivity. }
    rewrite !(Hk 0%nat), !(Hk (S (S a))), !Hka by auto. cbn [app]. rewrite !app_assoc. do 3 apply Permutation_app_tail.
    rewrite keys_app. replace (keys (formed names_of grp qa q0)) with (keys (filter (ready names_of qa) q0)).
    2: { unfold formed, keys. rewrite map_map. apply map_ext. intros [k it]. reflexivity. }
    rewrite (Permutation_app_comm (keys qo)), app_assoc. apply Permutation_app_tail. unfold keys. rewrite <- map_app. apply Permutation_map, filter_partition.
  - rewrite (HD _ obs_ev tobs_ev Ht3). rewrite <- (j_ev _ HJ). rewrite (HD0 _ obs_ev tobs_ev).
    assert (Hea : forall l, flat_map (obs_ev (S a)) l = []).
    { intros l. apply flat_map_nil. intros x. unfold obs_ev. cbn [Nat.eqb]. rewrite (proj2 (Nat.leb_le _ _)) by lia.
      replace (S a - 1)%nat with a by lia. rewrite skipn_all2 by (unfold gpre; rewrite map_length; fold a; lia). reflexivity. }
    rewrite !Hea. cbn [app]. rewrite !app_assoc. do 3 apply Permutation_app_tail.
    rewrite flat_map_app. replace (flat_map (obs_ev (S (S a))) (formed names_of grp qa q0)) with (flat_map (obs_ev 0) (filter (ready names_of qa) q0)).
    2: { pose proof (formed_groups c HJ) as EF. fold q0 qa in EF. rewrite EF. rewrite !flat_map_concat_map, map_map. f_equal. apply map_ext. intros kv.
         unfold obs_ev. cbn [Nat.eqb fst snd]. rewrite (proj2 (Nat.leb_gt (S (S a)) (S a))) by lia.
         replace (S (S a) - 2 - a)%nat with 0%nat by lia. replace (S (S a) - 1)%nat with (S a) by lia. reflexivity. }
    rewrite (Permutation_app_comm (flat_map (obs_ev (S (S a))) qo)), app_assoc. apply Permutation_app_tail.
    rewrite <- flat_map_app. apply Permutation_flat_map, filter_partition.
  - rewrite E0. intros kv HI. apply (j_q0 _ HJ), Hrem, HI.
Qed.

Lemma trans_JInv c c' : JInv c -> atrans ws c c' -> JInv c'.
Proof.
  intros HJ [(i & k & HT)|(i & HT)]; [eapply item_JInv; eassumption|].
  destruct HT as [w rd g Hw Hbd Hg Hf Ht].
  destruct (jw_inv i w Hw) as [(io & f' & Hf' & ->)|[(-> & ->)|(j & io & f' & -> & Hf' & ->)]]; cbn [w_body] in Hbd; try discriminate Hbd.
  injection Hbd as <- <-. rewrite (glob_ok _ HJ) in Hg. injection Hg as Hg.
  eapply (glob_JInv c c' HJ (eq_sym Hg) Hf); rewrite Ht, flat_map_app; cbn; apply app_nil_r.
Qed.

Lemma steps_JInv c c' : JInv c -> steps ws c c' -> JInv c'.
Proof. intros HJ HS. induction HS; [exact HJ|]. eapply trans_JInv; eassumption. Qed.

Definition jq : queues V := join_queues (K, P).

Lemma init_JInv : JInv (mk_cfg jq [] []).
Proof.
  assert (HD : forall X (obs : nat -> nat * item V -> list X) tobs, Permutation (tot ws nq obs tobs (mk_cfg jq [] [])) (flat_map (obs 0%nat) K ++ flat_map (obs 1%nat) P)).
  { intros X obs tobs. unfold tot. cbn [c_tr c_fl c_qs flat_map app].
    rewrite (down_split_one obs nq jq 0) by (unfold nq, join_nq; lia). cbn [jq join_queues fst]. apply Permutation_app_head.
    rewrite (down_split_one _ nq jq 1) by (unfold nq, join_nq; fold a b; lia). cbn [jq join_queues snd Nat.eqb].
    rewrite <- app_nil_r. apply Permutation_app_head.
    assert (E : forall m, down (fun q x => if Nat.eqb q 1 then [] else if Nat.eqb q 0 then [] else obs q x) m jq = []).
    { induction m as [|m IH]; [reflexivity|]. cbn [down]. rewrite IH, app_nil_r. destruct m as [|[|m]]; [apply flat_map_nil; reflexivity|apply flat_map_nil; reflexivity|reflexivity]. }
    rewrite E. constructor. }
  assert (Hp0 : forall l, flat_map (obs_pre 0) l = []) by (intros l; apply flat_map_nil; reflexivity).
  assert (Hp1 : forall l, flat_map (obs_pre 1) l = map (fun kv => (fst kv, pipe gpre (fst kv) (snd kv))) l).
  { intros l. induction l as [|[x it] l IH]; [reflexivity|]. cbn [flat_map map]. rewrite IH. reflexivity. }
  assert (Hk1 : forall l, flat_map (obs_key 1) l = []) by (intros l; apply flat_map_nil; reflexivity).
  pose proof (HD _ obs_pre tobs_pre) as D1. rewrite Hp0, Hp1 in D1. cbn [app] in D1.
  assert (Ek : map fst (map (fun kv : nat * item V => (fst kv, pipe gpre (fst kv) (snd kv))) P) = keys P) by (rewrite map_map; reflexivity).
  constructor.
  - intros x it HI. apply (Permutation_in _ D1) in HI. apply in_map_iff in HI. destruct HI as ([x' it'] & E & HI). cbn in E. injection E as -> <-. symmetry. apply Himg, HI.
  - apply (Permutation_NoDup (Permutation_sym (perm_map_fst _ _ D1))). rewrite Ek. exact HP.
  - intros x. cbn [c_qs jq join_queues fst]. rewrite <- HPK, <- Ek. split; apply Permutation_in; [|symmetry]; apply perm_map_fst, D1.
  - rewrite (HD _ obs_key tobs_key), Hk1, app_nil_r. assert (E : forall l, flat_map (obs_key 0) l = keys l); [|rewrite E; reflexivity].
    intros l. induction l as [|x l IH]; [reflexivity|]. cbn [flat_map]. rewrite IH. reflexivity.
  - rewrite (HD _ obs_ev tobs_ev). unfold all_events. rewrite Permutation_app_comm.
    assert (E1 : flat_map (obs_ev 1) P = flat_map (fun '(x, it) => events_of false 0 gpre x it) P) by (apply flat_map_ext; intros [x it]; reflexivity).
    assert (E2 : flat_map (obs_ev 0) K = flat_map (fun kv => events_of true (S a) gpost (fst kv) (group kv)) K) by (apply flat_map_ext; intros [x it]; reflexivity).
    rewrite E1, E2. reflexivity.
  - cbn. auto.
Qed.

(** ** end: nothing is left *)
Lemma empty_done c : JInv c -> c_fl c = [] -> all_empty nq (c_qs c) = true ->
  Permutation (item_events (c_tr c)) all_events.
Proof.
  intros HJ Hf HE. rewrite <- (j_ev _ HJ). unfold tot. rewrite Hf. cbn [flat_map app].
  rewrite (down_empty []) by (intros i Hi; apply (proj1 (all_empty_spec nq _) HE i Hi)). rewrite app_nil_r.
  unfold item_events. rewrite filter_flat_map. erewrite flat_map_ext; [reflexivity|]. intros [| |]; reflexivity.
Qed.

(** ** Measure *)
Definition wt (q : nat) : nat :=
  if Nat.eqb q 0 then 2 * b + 1 else if (q <=? S a)%nat then 2 * (S a - q) else 2 * (nq - q).
Definition wobs (q : nat) (x : nat * item V) : list unit := repeat tt (wt q).
Definition flw (x : nat * nat * V) : nat := (wt (S (fst (fst x))) - 1)%nat.
Definition mu (c : cfg V) : nat := (List.length (down wobs nq (c_qs c)) + list_sum (map flw (c_fl c)))%nat.

Lemma jw_weights i w inq f : nth_error ws i = Some w -> w_body w = ItemWork inq f ->
  inq = S i /\ (S i < nq)%nat /\
  ((w_out w = None /\ (2 <= wt (S i))%nat) \/ exists o, w_out w = Some o /\ (o < nq)%nat /\ (wt o + 2 = wt (S i))%nat).
Proof.
  intros Hw Hbd. destruct (jw_inv i w Hw) as [(io & f' & Hf & ->)|[(-> & ->)|(j & io & f' & -> & Hf & ->)]]; cbn [w_body w_out] in *; try discriminate Hbd; injection Hbd as <- <-.
  - pose proof (pre_lt _ _ _ Hf). split; [reflexivity|]. split; [unfold nq, join_nq; fold a b; lia|]. right. exists (S (S i)). split; [reflexivity|].
    split; [unfold nq, join_nq; fold a b; lia|]. unfold wt. cbn [Nat.eqb]. rewrite !(proj2 (Nat.leb_le _ _)) by lia. lia.
  - pose proof (post_lt _ _ _ Hf). split; [reflexivity|]. split; [unfold nq, join_nq; fold a b; lia|].
    assert (EW : forall q, (S a < q)%nat -> wt q = (2 * (nq - q))%nat).
    { intros q Hq. unfold wt. destruct (Nat.eqb_spec q 0); [lia|]. rewrite (proj2 (Nat.leb_gt q (S a)) Hq). reflexivity. }
    rewrite (EW (S (S (a + j)))) by lia. destruct (Nat.eqb_spec (S j) b) as [Ej|Ej].
    + left. split; [reflexivity|]. unfold nq, join_nq. fold a b. lia.
    + right. exists (3 + a + j)%nat. split; [reflexivity|]. rewrite EW by lia. unfold nq, join_nq. fold a b. lia.
Qed.

Lemma list_sum_perm l l' : Permutation l l' -> list_sum l = list_sum l'.
Proof. unfold list_sum. induction 1; cbn [fold_right]; lia. Qed.
Lemma flw_perm l l' : Permutation l l' -> list_sum (map flw l) = list_sum (map flw l').
Proof. intros H. apply list_sum_perm, Permutation_map, H. Qed.
Lemma flw_cons x l : list_sum (map flw (x :: l)) = (flw x + list_sum (map flw l))%nat.
Proof. reflexivity. Qed.
Lemma wobs_length q x : List.length (wobs q x) = wt q.
Proof. apply repeat_length. Qed.

Lemma item_mu c c' i k : JInv c -> item_trans ws i k c c' -> (mu c' < mu c)%nat.
Proof.
  intros HJ HT. pose proof (item_fresh _ _ _ _ HJ HT) as Hfr. unfold mu.
  destruct HT as [w inq f v q' Hw Hb' Hq Hq' Hf Ht|w inq f e q' Hw Hb' Hq Hq' Hf Ht|w inq f v Hw Hb' Hf Hq' Ht];
    destruct (jw_weights i w inq f Hw Hb') as (-> & Hnq & HW).
  - rewrite Hq'. pose proof (Permutation_length (down_pop_perm [] wobs nq (c_qs c) (S i) k (inl v) q' Hnq Hq)) as HL.
    rewrite app_length, wobs_length in HL. rewrite (flw_perm _ _ Hf), flw_cons. unfold flw at 1. cbn [fst].
    assert (2 <= wt (S i))%nat by (destruct HW as [[_ HW]|(o & _ & _ & HW)]; lia). unfold queue, item in *. lia.
  - rewrite Hq'. pose proof (Permutation_length (down_pop_perm [] wobs nq (c_qs c) (S i) k (inr e) q' Hnq Hq)) as HL.
    rewrite app_length, wobs_length in HL.
    assert (HF : forall o, w_out w = Some o -> (o < nq)%nat /\ ~ In k (keys (upd (c_qs c) (S i) q' o))).
    { intros o Eo. destruct HW as [[Eo' HW]|(o' & Eo' & Ho & HW)]; [congruence|]. split; [congruence|].
      destruct (Hfr w o Hw Eo) as [F1 F2]. specialize (F1 _ _ Hb'). rewrite upd_other by congruence. exact F2. }
    pose proof (Permutation_length (put_down nq wobs (w_out w) k (inr e) (upd (c_qs c) (S i) q') HF)) as HL2.
    rewrite app_length in HL2. rewrite (flw_perm _ _ Hf).
    destruct HW as [[Eo HW]|(o & Eo & Ho & HW)]; rewrite Eo in HL2 |- *; [cbn [List.length] in HL2|rewrite wobs_length in HL2]; unfold queue, item in *; lia.
  - rewrite Hq'.
    assert (HF : forall o, w_out w = Some o -> (o < nq)%nat /\ ~ In k (keys (c_qs c o))).
    { intros o Eo. destruct HW as [[Eo' HW]|(o' & Eo' & Ho & HW)]; [congruence|]. split; [congruence|]. apply (Hfr w o Hw Eo). }
    pose proof (Permutation_length (put_down nq wobs (w_out w) k (f k v) (c_qs c) HF)) as HL2.
    rewrite app_length in HL2. rewrite (flw_perm _ _ Hf), flw_cons. unfold flw at 2. cbn [fst].
    destruct HW as [[Eo HW]|(o & Eo & Ho & HW)]; rewrite Eo in HL2 |- *; [cbn [List.length] in HL2|rewrite wobs_length in HL2]; unfold queue, item in *; lia.
Qed.

Lemma wobs_flat q (l : list (nat * item V)) : List.length (flat_map (wobs q) l) = (wt q * List.length l)%nat.
Proof. induction l as [|x l IH]; [cbn; lia|]. cbn [flat_map List.length]. rewrite app_length, IH, wobs_length. lia. Qed.

Lemma glob_mu c c' : c_qs c' = glob_result (c_qs c) -> Permutation (c_fl c') (c_fl c) ->
  (mu c' + List.length (filter (ready names_of (c_qs c (S a))) (c_qs c 0%nat)) = mu c)%nat.
Proof.
  intros Hq Hf. unfold mu. rewrite (flw_perm _ _ Hf).
  rewrite (Permutation_length (down_split wobs (c_qs c'))), (Permutation_length (down_split wobs (c_qs c))).
  set (q0 := c_qs c 0%nat) in *. set (qa := c_qs c (S a)) in *. set (qo := c_qs c (S (S a))) in *.
  assert (E0 : c_qs c' 0%nat = rem names_of qa q0). { rewrite Hq. unfold glob_result. rewrite !upd_other by lia. apply upd_same. }
  assert (Eo : c_qs c' (S (S a)) = qo ++ formed names_of grp qa q0). { rewrite Hq. unfold glob_result. apply upd_same. }
  assert (Er : rest wobs (c_qs c') = rest wobs (c_qs c)).
  { apply rest_ext. intros q Q1 Q2 Q3. rewrite Hq. unfold glob_result. rewrite !upd_other by assumption. reflexivity. }
  rewrite E0, Eo, Er, !app_length, !wobs_flat.
  assert (Wa : wt (S a) = 0%nat). { unfold wt. cbn [Nat.eqb]. rewrite (proj2 (Nat.leb_le _ _)) by lia. lia. }
  assert (W0 : wt 0 = (2 * b + 1)%nat) by reflexivity.
  assert (Wo : wt (S (S a)) = (2 * b)%nat). { unfold wt. cbn [Nat.eqb]. rewrite (proj2 (Nat.leb_gt _ _)) by lia. unfold nq, join_nq. fold a b. lia. }
  rewrite Wa, W0, Wo, app_length. unfold formed. rewrite map_length.
  pose proof (Permutation_length (filter_partition (ready names_of qa) q0)) as HL. rewrite app_length in HL. fold (rem names_of qa q0) in HL.
  nia.
Qed.

(** ** When no work can do anything *)
Definition idle (c : cfg V) : Prop :=
  (forall q, (1 <= q < nq)%nat -> q <> S a -> c_qs c q = []) /\
  filter (ready names_of (c_qs c (S a))) (c_qs c 0%nat) = [].

Lemma idle_empty c : JInv c -> c_fl c = [] -> idle c -> all_empty nq (c_qs c) = true.
Proof.
  intros HJ Hf [H1 H2]. apply all_empty_spec.
  assert (Hq0 : c_qs c 0%nat = []).
  { destruct (c_qs c 0%nat) as [|[k it] q] eqn:E; [reflexivity|]. exfalso.
    assert (HI : In (k, it) (filter (ready names_of (c_qs c (S a))) ((k, it) :: q))); [|rewrite H2 in HI; exact HI].
    apply filter_In. split; [left; reflexivity|]. unfold ready. cbn [snd]. apply forallb_forall. intros x Hx. apply q_mem_In.
    assert (HV : in_values x (c_qs c 0%nat) = true). { rewrite E. apply in_values_spec. exists k, it. split; [left; reflexivity|exact Hx]. }
    apply (j_need _ HJ) in HV. apply in_map_iff in HV. destruct HV as ([x' y] & Ex & HV). cbn in Ex. subst x'.
    unfold tot in HV. rewrite Hf in HV. cbn [flat_map app] in HV. rewrite in_app_iff in HV. destruct HV as [HV|HV].
    - apply in_flat_map in HV. destruct HV as (e & _ & []).
    - apply down_In in HV. destruct HV as (qq & [x' y'] & Hqq & HV & HO). unfold obs_pre in HO.
      destruct (Nat.leb_spec 1 qq); [|destruct HO]. destruct (Nat.leb_spec qq (S a)); [|destruct HO]. cbn [andb fst snd] in HO.
      destruct HO as [HO|[]]. injection HO as -> _. destruct (Nat.eq_dec qq (S a)) as [->|Hne]; [apply (In_keys x y'), HV|].
      rewrite H1 in HV by lia. destruct HV. }
  intros i Hi. destruct (Nat.eq_dec i 0) as [->|H0]; [exact Hq0|]. destruct (Nat.eq_dec i (S a)) as [->|Hne]; [|apply H1; lia].
  destruct (J_three _ HJ) as (_ & _ & _ & H4 & _). destruct (c_qs c (S a)) as [|[x it] q] eqn:E; [reflexivity|]. exfalso.
  specialize (H4 x ltac:(left; reflexivity)). rewrite Hq0 in H4. discriminate.
Qed.

(** ** sequential executor *)
Definition idle_work (nmax : Z) (w : work V) (qs : queues V) : Prop :=
  match w_body w with
  | ItemWork inq _ => qs inq = []
  | GlobalWork _ _ => nmax < zlen (qs (S (S a))) \/ filter (ready names_of (qs (S a))) (qs 0%nat) = []
  end.

Lemma rem_all qa q0 : filter (ready names_of qa) q0 = [] -> rem names_of qa q0 = q0.
Proof.
  intros H. apply filter_all_in. intros kv HI. apply negb_true_iff. destruct (ready names_of qa kv) eqn:E; [|reflexivity].
  exfalso. assert (In kv (filter (ready names_of qa) q0)) by (apply filter_In; auto). rewrite H in *. auto.
Qed.

Lemma glob_nothing c q : JInv c -> filter (ready names_of (c_qs c (S a))) (c_qs c 0%nat) = [] -> glob_result (c_qs c) q = c_qs c q.
Proof.
  intros HJ H. destruct (J_three _ HJ) as (_ & _ & _ & H4 & _). unfold glob_result. rewrite (rem_all _ _ H). rewrite (keep_all _ _ _ H4).
  unfold formed. rewrite H. cbn [map]. rewrite app_nil_r. unfold upd.
  destruct (Nat.eqb_spec q (S (S a))) as [->|]; [reflexivity|]. destruct (Nat.eqb_spec q (S a)) as [->|]; [reflexivity|].
  destruct (Nat.eqb_spec q 0) as [->|]; reflexivity.
Qed.

Lemma seq_work_join nmax i w st : JInv (cfg_of st) -> nth_error ws i = Some w ->
  exists st', seq_work false nmax i w st = (st', None) /\ JInv (cfg_of st') /\
    ((idle_work nmax w (s_qs st) /\ (forall q, s_qs st' q = s_qs st q) /\ mu (cfg_of st') = mu (cfg_of st)) \/ (mu (cfg_of st') < mu (cfg_of st))%nat).
Proof.
  intros HJ Hw.
  assert (HX : exists st', seq_work false nmax i w st = (st', None)).
  { unfold seq_work. destruct (w_body w) as [inq f|rd g] eqn:Eb.
    - destruct (q_pop_first (s_qs st inq)) as [[[k [v|e]] q']|]; [|destruct (w_out w); eauto|eauto]. cbv zeta. destruct (f k v); eauto.
    - destruct (match w_out w with Some o => _ | None => _ end); [eauto|].
      destruct (jw_inv i w Hw) as [(io & f' & Hf' & ->)|[(-> & ->)|(j & io & f' & -> & Hf' & ->)]]; cbn [w_body] in Eb; try discriminate Eb.
      injection Eb as <- <-. change (s_qs st) with (c_qs (cfg_of st)). rewrite (glob_ok _ HJ). eauto. }
  destruct HX as (st' & HX). exists st'. split; [exact HX|]. split.
  { apply (steps_JInv (cfg_of st)); [exact HJ|]. eapply seq_work_abs; eassumption. }
  unfold seq_work in HX. unfold idle_work. destruct (w_body w) as [inq f|rd g] eqn:Eb.
  - unfold q_pop_first in HX. destruct (s_qs st inq) as [|[k obj] q'] eqn:Eq.
    + left. injection HX as <-. auto.
    + right. destruct obj as [v|e].
      * assert (Hst : st' = mk_sst (put (w_out w) k (f k v) (upd (s_qs st) inq q')) (s_tr st ++ [ECall i k v (f k v)])).
        { cbv zeta in HX. destruct (f k v); injection HX as <-; reflexivity. } subst st'.
        set (c1 := mk_cfg (upd (s_qs st) inq q') [(i, k, v)] (s_tr st)).
        assert (T1 : item_trans ws i k (cfg_of st) c1) by (apply (at_pop _ _ _ _ c1 w inq f v q'); try assumption; reflexivity).
        pose proof (item_JInv _ _ _ _ HJ T1) as HJ1.
        match goal with |- (mu ?c2 < _)%nat => assert (T2 : item_trans ws i k c1 c2) by (apply (at_fin _ _ _ _ _ w inq f v); try assumption; reflexivity) end.
        exact (Nat.lt_trans _ _ _ (item_mu _ _ _ _ HJ1 T2) (item_mu _ _ _ _ HJ T1)).
      * apply (item_mu _ _ i k HJ). apply (at_exc _ _ _ _ _ w inq f e q'); try assumption; destruct (w_out w); injection HX as <-; try reflexivity.
        symmetry. apply app_nil_r.
  - destruct (jw_inv i w Hw) as [(io & f' & Hf' & ->)|[(-> & ->)|(j & io & f' & -> & Hf' & ->)]]; cbn [w_body] in Eb; try discriminate Eb.
    injection Eb as <- <-. cbn [w_out] in HX. destruct (Z.ltb_spec nmax (zlen (s_qs st (S (S a))))) as [Hlt|Hge].
    + left. injection HX as <-. auto.
    + change (s_qs st) with (c_qs (cfg_of st)) in HX. rewrite (glob_ok _ HJ) in HX. injection HX as <-.
      pose proof (glob_mu (cfg_of st) (cfg_of (mk_sst (glob_result (s_qs st)) (s_tr st ++ [EGlobal a]))) eq_refl (Permutation_refl _)) as HM.
      destruct (filter (ready names_of (c_qs (cfg_of st) (S a))) (c_qs (cfg_of st) 0%nat)) as [|x l] eqn:EF.
      * left. split; [right; exact EF|]. cbn [List.length] in HM. split; [|lia]. intros q. apply (glob_nothing _ q HJ EF).
      * right. cbn [List.length] in HM. lia.
Qed.

Lemma idle_work_ext nmax w (qs qs' : queues V) : (forall q, qs' q = qs q) -> idle_work nmax w qs' -> idle_work nmax w qs.
Proof. intros H. unfold idle_work. destruct (w_body w); rewrite !H; auto. Qed.

Lemma seq_sweep_join nmax l : (forall i w, In (i, w) l -> nth_error ws i = Some w) -> forall st, JInv (cfg_of st) ->
  exists st', seq_sweep false nmax l st = (st', None) /\ JInv (cfg_of st') /\
    (((forall i w, In (i, w) l -> idle_work nmax w (s_qs st)) /\ mu (cfg_of st') = mu (cfg_of st)) \/ (mu (cfg_of st') < mu (cfg_of st))%nat) /\
    (mu (cfg_of st') = mu (cfg_of st) -> forall q, s_qs st' q = s_qs st q).
Proof.
  intros Hl. induction l as [|[i w] l IH]; intros st HJ.
  - exists st. split; [reflexivity|]. split; [exact HJ|]. split; [|reflexivity]. left. split; [|reflexivity]. intros i w [].
  - destruct (seq_work_join nmax i w st HJ (Hl i w ltac:(left; reflexivity))) as (st1 & E1 & HJ1 & HC1).
    destruct (IH ltac:(intros i' w' HI; apply Hl; right; exact HI) st1 HJ1) as (st2 & E2 & HJ2 & HC2 & HQ2).
    exists st2. split; [cbn [seq_sweep]; rewrite E1; exact E2|]. split; [exact HJ2|]. split.
    + destruct HC1 as [(I1 & Q1 & M1)|M1]; [|right; destruct HC2 as [(_ & M2)|M2]; lia].
      destruct HC2 as [(I2 & M2)|M2]; [|right; lia]. left. split; [|lia]. intros i' w' [E|HI].
      * injection E as <- <-. exact I1.
      * apply (idle_work_ext _ _ _ _ Q1), (I2 i' w' HI).
    + intros EM q. destruct HC1 as [(I1 & Q1 & M1)|M1].
      * rewrite HQ2 by lia. apply Q1.
      * exfalso. destruct HC2 as [(_ & M2)|M2]; lia.
Qed.

Lemma all_works_idle nmax st : 0 <= nmax -> (forall i w, nth_error ws i = Some w -> idle_work nmax w (s_qs st)) -> idle (cfg_of st).
Proof.
  intros Hn H. assert (Hq : forall q, (1 <= q < nq)%nat -> q <> S a -> s_qs st q = []).
  { intros q Hq Hne. unfold nq, join_nq in Hq. fold a b in Hq. destruct (le_lt_dec q a) as [Hle|Hlt].
    - destruct (nth_error pre (q - 1)) as [[io f]|] eqn:E; [|apply nth_error_None in E; fold a in E; lia].
      specialize (H _ _ (jw_pre _ _ _ E)). unfold idle_work in H. cbn [w_body] in H. replace (S (q - 1)) with q in H by lia. exact H.
    - destruct (nth_error post (q - 2 - a)) as [[io f]|] eqn:E; [|apply nth_error_None in E; fold b in E; lia].
      specialize (H _ _ (jw_post _ _ _ E)). unfold idle_work in H. cbn [w_body] in H. replace (2 + a + (q - 2 - a))%nat with q in H by lia. exact H. }
  split; [exact Hq|]. specialize (H _ _ jw_glob). unfold idle_work in H. cbn [w_body] in H. destruct H as [H|H]; [|exact H].
  exfalso. rewrite Hq in H by (unfold nq, join_nq; fold a b; lia). unfold zlen in H. cbn in H. lia.
Qed.

Lemma seq_run_join nmax fuel : 0 <= nmax -> forall st, JInv (cfg_of st) -> (mu (cfg_of st) <= fuel)%nat ->
  exists st', seq_run fuel false nmax nq ws st = Some (st', None) /\ JInv (cfg_of st') /\ all_empty nq (s_qs st') = true.
Proof.
  intros Hn. induction fuel as [|fuel IH]; intros st HJ Hm.
  - exists st. assert (HE : all_empty nq (s_qs st) = true).
    { destruct (seq_sweep_join nmax (combine (seq 0 (List.length ws)) ws)) with (st := st) as (st' & _ & _ & HC & _); [|exact HJ|].
      - intros i w HI. apply In_nth_error in HI. destruct HI as (m & HI). rewrite nth_error_combine_seq in HI.
        destruct (nth_error ws m) eqn:E; [|discriminate]. injection HI as <- <-. exact E.
      - destruct HC as [(HC & _)|HC]; [|lia]. apply (idle_empty (cfg_of st) HJ eq_refl). apply (all_works_idle nmax st Hn).
        intros i w Hw. apply (HC i w). apply (nth_error_In _ i). rewrite nth_error_combine_seq, Hw. reflexivity. }
    split; [cbn [seq_run]; rewrite HE; reflexivity|]. auto.
  - cbn [seq_run]. destruct (all_empty nq (s_qs st)) eqn:HE; [exists st; auto|].
    destruct (seq_sweep_join nmax (combine (seq 0 (List.length ws)) ws)) with (st := st) as (st' & E & HJ' & HC & _); [|exact HJ|].
    { intros i w HI. apply In_nth_error in HI. destruct HI as (m & HI). rewrite nth_error_combine_seq in HI.
      destruct (nth_error ws m) eqn:E; [|discriminate]. injection HI as <- <-. exact E. }
    rewrite E. apply IH; [exact HJ'|]. destruct HC as [(HC & _)|HC]; [|lia]. exfalso.
    assert (HE' : all_empty nq (s_qs st) = true); [|congruence].
    apply (idle_empty (cfg_of st) HJ eq_refl). apply (all_works_idle nmax st Hn).
    intros i w Hw. apply (HC i w). apply (nth_error_In _ i). rewrite nth_error_combine_seq, Hw. reflexivity.
Qed.

Lemma mu_init : mu (mk_cfg jq [] []) = ((2 * b + 1) * List.length K + 2 * a * List.length P)%nat.
Proof.
  unfold mu. cbn [c_qs c_fl map list_sum fold_right]. change (list_sum (map flw [])) with 0%nat.
  rewrite (Permutation_length (down_split_one wobs nq jq 0 ltac:(unfold nq, join_nq; lia))), app_length, wobs_flat. cbn [jq join_queues fst].
  rewrite (Permutation_length (down_split_one _ nq jq 1 ltac:(unfold nq, join_nq; fold a b; lia))), app_length. cbn [jq join_queues snd Nat.eqb].
  change (List.length (flat_map (fun x => wobs 1 x) P)) with (List.length (flat_map (wobs 1) P)). rewrite wobs_flat.
  assert (E : forall m, down (fun q x => if Nat.eqb q 1 then [] else if Nat.eqb q 0 then [] else wobs q x) m jq = []).
  { induction m as [|m IH]; [reflexivity|]. cbn [down]. rewrite IH, app_nil_r. destruct m as [|[|m]]; [apply flat_map_nil; reflexivity|apply flat_map_nil; reflexivity|reflexivity]. }
  rewrite E. cbn [List.length]. change (wt 0) with (2 * b + 1)%nat. replace (wt 1) with (2 * a)%nat; [lia|].
  unfold wt. cbn [Nat.eqb]. rewrite (proj2 (Nat.leb_le 1 (S a))) by lia. lia.
Qed.

Lemma join_sequential nmax fuel : 0 <= nmax -> ((2 * b + 1) * List.length K + 2 * a * List.length P <= fuel)%nat ->
  exists st', seq_run fuel false nmax nq ws (mk_sst jq []) = Some (st', None) /\
    (forall q, (q < nq)%nat -> s_qs st' q = []) /\ Permutation (item_events (s_tr st')) all_events.
Proof.
  intros Hn Hf. destruct (seq_run_join nmax fuel Hn (mk_sst jq []) init_JInv) as (st' & E & HJ & HE).
  - change (cfg_of (mk_sst jq [])) with (@mk_cfg V jq [] []). rewrite mu_init. exact Hf.
  - exists st'. split; [exact E|]. split; [apply all_empty_spec, HE|]. apply (empty_done _ HJ eq_refl HE).
Qed.

(** ** Images not yet read *)
Definition upstream (c : cfg V) (x : nat) : Prop :=
  (exists q, (1 <= q <= a)%nat /\ In x (keys (c_qs c q))) \/ (exists i v, (i < a)%nat /\ In (i, x, v) (c_fl c)).
Definition JW (c : cfg V) : Prop :=
  forall x, upstream c x -> forall k it, In (k, it) K -> In x (names_in it) -> In (k, it) (c_qs c 0%nat).

Lemma upstream_fresh c x : JInv c -> upstream c x -> ~ In x (keys (c_qs c (S a))).
Proof.
  intros HJ HU HI. apply keys_In in HI. destruct HI as (it' & HI).
  pose proof (j_nd _ HJ) as Hnd. unfold tot in Hnd. rewrite !map_app in Hnd. apply NoDup_app_r in Hnd.
  destruct HU as [(q & Hq & HU)|(i & v & Hi & HU)].
  - apply NoDup_app_r in Hnd. apply keys_In in HU. destruct HU as (it & HU).
    assert (Hq' : (q < nq)%nat) by (unfold nq, join_nq; fold a b; lia).
    apply (Permutation_NoDup (perm_map_fst _ _ (down_split_one obs_pre nq (c_qs c) q Hq'))) in Hnd. rewrite map_app in Hnd.
    apply (proj2 (proj2 (NoDup_app_disjoint _ _ Hnd)) x).
    + apply (in_map fst _ (x, pipe (skipn (q - 1) gpre) x it)). apply in_flat_map. exists (x, it). split; [exact HU|].
      unfold obs_pre. rewrite !(proj2 (Nat.leb_le _ _)) by lia. left. reflexivity.
    + apply (in_map fst _ (x, pipe (skipn (S a - 1) gpre) x it')). apply down_In. exists (S a), (x, it').
      split; [unfold nq, join_nq; fold a b; lia|]. split; [exact HI|]. destruct (Nat.eqb_spec (S a) q); [lia|].
      unfold obs_pre. rewrite !(proj2 (Nat.leb_le _ _)) by lia. left. reflexivity.
  - apply (proj2 (proj2 (NoDup_app_disjoint _ _ Hnd)) x).
    + destruct (nth_error pre i) as [[io f]|] eqn:E; [|apply nth_error_None in E; fold a in E; lia].
      apply (in_map fst _ (x, pipe (skipn i gpre) x (inl v))). apply in_flat_map. exists (i, x, v). split; [exact HU|].
      rewrite (fl_obs_pre _ _ _ _ _ E). left. reflexivity.
    + apply (in_map fst _ _ (pre_in c (S a) x it' ltac:(lia) HI)).
Qed.

Lemma pre_tot_cases c x : JInv c -> In x (map fst (totpre c)) -> upstream c x \/ In x (keys (c_qs c (S a))).
Proof.
  intros HJ HV. apply in_map_iff in HV. destruct HV as ([x' y] & Ex & HV). cbn in Ex. subst x'.
  unfold tot in HV. rewrite !in_app_iff in HV. destruct HV as [HV|[HV|HV]].
  - apply in_flat_map in HV. destruct HV as (e & _ & []).
  - apply in_flat_map in HV. destruct HV as ([[i k] v] & HV & HO). left. right. exists i, v.
    unfold fl_obs in HO. destruct (nth_error ws i) as [w|] eqn:Ew; [|destruct HO].
    destruct (jw_inv i w Ew) as [(io & f & Hf & ->)|[(-> & ->)|(j & io & f & -> & Hf & ->)]]; cbn [w_body] in HO; [| destruct HO |].
    + pose proof (pre_lt _ _ _ Hf) as Hi. split; [exact Hi|]. unfold obs_pre in HO. destruct (_ && _); [|destruct HO]. destruct HO as [HO|[]]. injection HO as <- _. exact HV.
    + unfold obs_pre in HO. rewrite (proj2 (Nat.leb_gt (2 + a + j) (S a))), andb_false_r in HO by lia. destruct HO.
  - apply down_In in HV. destruct HV as (qq & [x' y'] & Hqq & HV & HO). unfold obs_pre in HO.
    destruct (Nat.leb_spec 1 qq); [|destruct HO]. destruct (Nat.leb_spec qq (S a)); [|destruct HO]. cbn [andb fst snd] in HO.
    destruct HO as [HO|[]]. injection HO as -> _. apply In_keys in HV. destruct (Nat.eq_dec qq (S a)) as [->|Hne]; [right; exact HV|].
    left. left. exists qq. split; [lia|exact HV].
Qed.

Definition upstreamb (c : cfg V) (x : nat) : bool :=
  existsb (fun q => among x (keys (c_qs c q))) (seq 1 a) || existsb (fun '(i, k, _) => (i <? a)%nat && Nat.eqb k x) (c_fl c).
Lemma among_In x l : among x l = true <-> In x l.
Proof.
  unfold among. rewrite existsb_exists. split; [intros (y & HI & E); apply Nat.eqb_eq in E; congruence|].
  intros HI. exists x. split; [exact HI|apply Nat.eqb_refl].
Qed.
Lemma upstreamb_spec c x : upstreamb c x = true <-> upstream c x.
Proof.
  unfold upstreamb. rewrite orb_true_iff, !existsb_exists. split; intros [H|H].
  - left. destruct H as (q & Hq & E). apply in_seq in Hq. apply among_In in E. exists q. split; [lia|exact E].
  - right. destruct H as ([[i k] v] & HI & E). apply andb_prop in E. destruct E as [E1 E2]. apply Nat.ltb_lt in E1. apply Nat.eqb_eq in E2. subst. exists i, v. auto.
  - left. destruct H as (q & Hq & E). exists q. split; [apply in_seq; lia|apply among_In, E].
  - right. destruct H as (i & v & Hi & HI). exists (i, x, v). split; [exact HI|]. rewrite (proj2 (Nat.ltb_lt _ _) Hi), Nat.eqb_refl. reflexivity.
Qed.
Lemma upstream_dec c x : upstream c x \/ ~ upstream c x.
Proof. destruct (upstreamb c x) eqn:E; [left; apply upstreamb_spec, E|right; intros H; apply upstreamb_spec in H; congruence]. Qed.

Lemma keys_put_In k it (l : queue (item V)) x : In x (keys (q_set k it l)) -> x = k \/ In x (keys l).
Proof.
  intros H. induction l as [|[k0 v0] l IH]; cbn in H; [destruct H as [->|[]]; auto|].
  destruct (Nat.eqb_spec k k0); cbn in H |- *; [destruct H as [->|H]; auto|]. destruct H as [->|H]; [auto|]. destruct (IH H); auto.
Qed.

Lemma item_upstream c c' i k x : item_trans ws i k c c' -> upstream c' x -> upstream c x.
Proof.
  intros HT HU.
  assert (HP1 : forall w q o it (qs : queues V), nth_error ws i = Some w -> w_out w = Some o -> (exists inq f, w_body w = ItemWork inq f) -> (1 <= q <= a)%nat ->
            In x (keys (put (Some o) k it qs q)) -> (x = k /\ (S i < a)%nat) \/ In x (keys (qs q))).
  { intros w q o it qs Hw Ho (inq & f & Hbd) Hq HI. cbn [put] in HI. unfold upd in HI. destruct (Nat.eqb_spec q o) as [->|]; [|right; exact HI].
    apply keys_put_In in HI. destruct HI as [->|HI]; [|right; exact HI]. left. split; [reflexivity|].
    destruct (jw_inv i w Hw) as [(io & f' & Hf' & ->)|[(-> & ->)|(j & io & f' & -> & Hf' & ->)]]; cbn [w_body w_out] in *; try discriminate Hbd.
    - injection Ho as <-. lia.
    - destruct (Nat.eqb (S j) b); [discriminate Ho|]. injection Ho as <-. lia. }
  destruct HT as [w inq f v q' Hw Hb' Hq Hq' Hf Ht|w inq f e q' Hw Hb' Hq Hq' Hf Ht|w inq f v Hw Hb' Hf Hq' Ht];
    destruct (jw_weights i w inq f Hw Hb') as (-> & Hnq0 & _).
  - destruct HU as [(q & Hqr & HU)|(i' & v' & Hi & HU)].
    + left. exists q. split; [exact Hqr|]. rewrite Hq' in HU. unfold upd in HU. destruct (Nat.eqb_spec q (S i)) as [->|]; [|exact HU].
      rewrite Hq. right. exact HU.
    + apply (Permutation_in _ Hf) in HU. destruct HU as [HU|HU]; [|right; exists i', v'; auto]. injection HU as <- <- <-.
      left. exists (S i). split; [lia|]. rewrite Hq. left. reflexivity.
  - destruct HU as [(q & Hqr & HU)|(i' & v' & Hi & HU)].
    + left. rewrite Hq' in HU. assert (HU' : (x = k /\ (S i < a)%nat) \/ In x (keys (upd (c_qs c) (S i) q' q))).
      { destruct (w_out w) as [o|] eqn:Eo; [|right; exact HU]. eapply (HP1 w); eauto. }
      destruct HU' as [(-> & Hi)|HU']; [exists (S i); split; [lia|]; rewrite Hq; left; reflexivity|].
      exists q. split; [exact Hqr|]. unfold upd in HU'. destruct (Nat.eqb_spec q (S i)) as [->|]; [|exact HU']. rewrite Hq. right. exact HU'.
    + right. exists i', v'. split; [exact Hi|]. apply (Permutation_in _ Hf HU).
  - destruct HU as [(q & Hqr & HU)|(i' & v' & Hi & HU)].
    + rewrite Hq' in HU. assert (HU' : (x = k /\ (S i < a)%nat) \/ In x (keys (c_qs c q))).
      { destruct (w_out w) as [o|] eqn:Eo; [|right; exact HU]. eapply (HP1 w); eauto. }
      destruct HU' as [(-> & Hi)|HU']; [|left; exists q; auto].
      right. exists i, v. split; [lia|]. apply (Permutation_in _ (Permutation_sym Hf)). left. reflexivity.
    + right. exists i', v'. split; [exact Hi|]. apply (Permutation_in _ (Permutation_sym Hf)). right. exact HU.
Qed.

Lemma glob_upstream c c' x : c_qs c' = glob_result (c_qs c) -> Permutation (c_fl c') (c_fl c) -> upstream c' x -> upstream c x.
Proof.
  intros Hq Hf [(q & Hqr & HU)|(i' & v' & Hi & HU)].
  - left. exists q. split; [exact Hqr|]. rewrite Hq in HU. unfold glob_result in HU. rewrite !upd_other in HU by lia. exact HU.
  - right. exists i', v'. split; [exact Hi|]. apply (Permutation_in _ Hf HU).
Qed.

Lemma glob_inv c c' i : JInv c -> glob_trans ws i c c' -> i = a /\ c_qs c' = glob_result (c_qs c) /\ Permutation (c_fl c') (c_fl c).
Proof.
  intros HJ [w rd g Hw Hb' Hg Hf Ht].
  destruct (jw_inv i w Hw) as [(io & f & Hf' & ->)|[(-> & ->)|(j & io & f & -> & Hf' & ->)]]; cbn [w_body] in Hb'; try discriminate Hb'.
  injection Hb' as <- <-. rewrite (glob_ok _ HJ) in Hg. injection Hg as Hg. auto.
Qed.

Lemma trans_JW c c' : JInv c -> JW c -> atrans ws c c' -> JW c'.
Proof.
  intros HJ HW [(i & k & HT)|(i & HT)] x HU k' it HK' Hx.
  - rewrite (item_q0 _ _ _ _ HT). apply (HW x); try assumption. eapply item_upstream; eassumption.
  - destruct (glob_inv _ _ _ HJ HT) as (-> & Hq & Hf). pose proof (glob_upstream _ _ _ Hq Hf HU) as HU'.
    assert (E0 : c_qs c' 0%nat = rem names_of (c_qs c (S a)) (c_qs c 0%nat)). { rewrite Hq. unfold glob_result. rewrite !upd_other by lia. apply upd_same. }
    rewrite E0. apply filter_In. split; [apply (HW x); assumption|]. apply negb_true_iff. destruct (ready _ _ _) eqn:E; [|reflexivity].
    exfalso. unfold ready in E. cbn [snd] in E. rewrite forallb_forall in E. apply (upstream_fresh c x HJ HU'). apply q_mem_In, E, Hx.
Qed.

Lemma init_JW : JW (mk_cfg jq [] []).
Proof. intros x _ k it HI _. exact HI. Qed.

Lemma ext_JW c c' : JW c -> c_qs c' = c_qs c -> Permutation (c_fl c') (c_fl c) -> JW c'.
Proof.
  intros HW E1 E2 x HU. rewrite E1. apply HW. destruct HU as [HU|(i & v & Hi & HU)]; [left; rewrite E1 in HU; exact HU|].
  right. exists i, v. split; [exact Hi|]. apply (Permutation_in _ E2 HU).
Qed.

Definition entry_names : list (list nat) := map (fun '(_, it) => names_in it) K.

Lemma waiting_In x read : In x (waiting entry_names read) <->
  In x read /\ exists k it y, In (k, it) K /\ In x (names_in it) /\ In y (names_in it) /\ ~ In y read.
Proof.
  unfold waiting. rewrite filter_In, existsb_exists. apply and_iff_compat_l. split.
  - intros (names & HI & E). unfold entry_names in HI. apply in_map_iff in HI. destruct HI as ([k it] & <- & HI).
    apply andb_prop in E. destruct E as [E1 E2]. apply among_In in E1. apply negb_true_iff in E2.
    assert (HY : exists y, In y (names_in it) /\ ~ In y read).
    { clear -E2. induction (names_in it) as [|y l IH]; [discriminate|]. cbn in E2. destruct (among y read) eqn:Ey.
      - destruct (IH E2) as (z & H1 & H2). exists z. split; [right; exact H1|exact H2].
      - exists y. split; [left; reflexivity|]. intros HI. apply among_In in HI. congruence. }
    destruct HY as (y & H1 & H2). exists k, it, y. auto.
  - intros (k & it & y & HI & Hx & Hy & Hn). exists (names_in it). split; [apply in_map_iff; exists (k, it); auto|].
    apply andb_true_iff. split; [apply among_In, Hx|]. apply negb_true_iff. destruct (forallb _ _) eqn:E; [|reflexivity].
    rewrite forallb_forall in E. exfalso. apply Hn, among_In, E, Hy.
Qed.

(** the images kept in a state where no group can be formed *)
Lemma stuck_keys c read : JInv c -> JW c -> (forall x, In x read <-> In x (keys P) /\ ~ upstream c x) -> NoDup read ->
  filter (ready names_of (c_qs c (S a))) (c_qs c 0%nat) = [] ->
  Permutation (keys (c_qs c (S a))) (waiting entry_names read).
Proof.
  intros HJ HW HR Hnd Hrd. destruct (J_three _ HJ) as (_ & H2 & _ & H4 & _ & _).
  assert (HKP : forall k it x, In (k, it) K -> In x (names_in it) -> In x (keys P)).
  { intros k it x HI Hx. apply HPK. apply in_values_spec. exists k, it. auto. }
  apply NoDup_Permutation; [exact H2|apply NoDup_filter, Hnd|]. intros x. rewrite waiting_In. split.
  - intros HI. pose proof (H4 x HI) as HV. apply in_values_spec in HV. destruct HV as (k & it & HV & Hx).
    split.
    + apply HR. split; [apply (HKP k it); [apply (j_q0 _ HJ), HV|exact Hx]|]. intros HU. apply (upstream_fresh c x HJ HU HI).
    + assert (HY : exists y, In y (names_in it) /\ ~ In y (keys (c_qs c (S a)))).
      { assert (E : ready names_of (c_qs c (S a)) (k, it) = false).
        { destruct (ready _ _ _) eqn:E; [|reflexivity]. exfalso. assert (HF : In (k, it) (filter (ready names_of (c_qs c (S a))) (c_qs c 0%nat))) by (apply filter_In; auto).
          rewrite Hrd in HF. exact HF. }
        unfold ready in E. cbn [snd] in E. clear -E. induction (names_in it) as [|y l IH]; [discriminate|]. cbn in E.
        destruct (q_mem y (c_qs c (S a))) eqn:Ey.
        - destruct (IH E) as (z & A1 & A2). exists z. split; [right; exact A1|exact A2].
        - exists y. split; [left; reflexivity|]. intros HI. apply q_mem_In in HI. congruence. }
      destruct HY as (y & Hy & Hyn). exists k, it, y. split; [apply (j_q0 _ HJ), HV|]. split; [exact Hx|]. split; [exact Hy|].
      intros HyR. apply HR in HyR. destruct HyR as [_ HyU].
      assert (HyV : In y (map fst (totpre c))) by (apply (j_need _ HJ); apply in_values_spec; exists k, it; auto).
      destruct (pre_tot_cases c y HJ HyV); contradiction.
  - intros (HxR & k & it & y & HI & Hx & Hy & Hyn). apply HR in HxR. destruct HxR as [_ HxU].
    assert (HyU : upstream c y).
    { destruct (upstream_dec c y) as [HU|HU]; [exact HU|]. exfalso. apply Hyn, HR. split; [apply (HKP k it); assumption|exact HU]. }
    pose proof (HW y HyU k it HI Hy) as H0.
    assert (HxV : In x (map fst (totpre c))) by (apply (j_need _ HJ); apply in_values_spec; exists k, it; auto).
    destruct (pre_tot_cases c x HJ HxV); [contradiction|assumption].
Qed.

(** ** asynchronous executor *)
Section Async.
Variable p : params V.
Hypothesis Hworks : p_works p = ws.
Hypothesis Hnq : p_nq p = nq.

Lemma join_wf : well_formed p.
Proof.
  intros i w Hw. rewrite Hworks in Hw. destruct (jw_inv i w Hw) as [(io & f' & Hf' & ->)|[(-> & ->)|(j & io & f' & -> & Hf' & ->)]]; cbn [w_body].
  - pose proof (pre_lt _ _ _ Hf'). rewrite Hnq. unfold nq, join_nq. fold a b. lia.
  - intros qs HE. rewrite Hnq in HE. rewrite all_empty_spec in HE. unfold make_ready. rewrite !HE by (unfold nq, join_nq; fold a b; lia). reflexivity.
  - pose proof (post_lt _ _ _ Hf'). rewrite Hnq. unfold nq, join_nq. fold a b. lia.
Qed.

Lemma async_JInv s : reachable p (init jq) s -> a_raised s = None -> JInv (abs s).
Proof.
  intros HR. apply (async_invariant p JInv jq); try assumption.
  - intros c c' HJ E1 E2 E3. eapply ext_JInv; eassumption.
  - intros c c' HJ HT. rewrite Hworks in HT. eapply trans_JInv; eassumption.
  - apply init_JInv.
Qed.

Lemma async_stop_done s : reachable p (init jq) s -> a_raised s = None -> a_stop s = true ->
  (forall q, (q < nq)%nat -> a_qs s q = []) /\ Permutation (item_events (a_tr s)) all_events.
Proof.
  intros HR Hr Hs. destruct (f_stop _ _ (reachable_flags p jq s join_wf HR) Hs) as [HE HL]. rewrite Hnq in HE.
  split; [apply all_empty_spec, HE|]. apply (empty_done (abs s) (async_JInv s HR Hr)); assumption.
Qed.

Lemma async_ended_stop s : reachable p (init jq) s -> ended p s -> a_stop s = true.
Proof. intros HR (_ & _ & He). apply (f_poll _ _ (reachable_flags p jq s join_wf HR) He). Qed.

Lemma async_no_raise s : p_stop_if_error p = false -> reachable p (init jq) s -> a_raised s = None.
Proof.
  intros Hsie HR. induction HR as [|s l s' HR IH HS]; [reflexivity|].
  pose proof (async_JInv s HR IH) as HJ. unfold step in HS. rewrite IH in HS. destruct l as [i|id|id|].
  - unfold check in HS. destruct (a_exited s i); [discriminate|]. destruct (nth_error (p_works p) i) as [w|] eqn:Ew; [|discriminate].
    rewrite Hworks in Ew. destruct (w_body w) as [inq f|rd g] eqn:Eb.
    + match type of HS with context [if ?c then _ else _] => destruct c end; [destruct (a_stop s)|]; injection HS as <-; exact IH.
    + destruct (rd (a_qs s)); [|destruct (a_stop s); injection HS as <-; exact IH].
      destruct (jw_inv i w Ew) as [(io & f' & Hf' & ->)|[(-> & ->)|(j & io & f' & -> & Hf' & ->)]]; cbn [w_body] in Eb; try discriminate Eb.
      injection Eb as <- <-. pose proof (glob_ok _ HJ) as HG. cbn [abs c_qs] in HG. rewrite HG in HS. destruct (a_stop s); injection HS as <-; exact IH.
  - unfold start in HS. destruct (find_task id s) as [[id0 i st]|]; [|discriminate]. destruct st; [|discriminate].
    destruct (nth_error (p_works p) i) as [w|]; [|discriminate]. destruct (w_body w) as [inq f|]; [|discriminate]. cbv zeta in HS.
    destruct (q_pop_first _) as [[[k [v|e]] q']|]; [|destruct (w_out w)|]; injection HS as <-; destruct (w_io w); exact IH.
  - unfold finish in HS. destruct (find_task id s) as [[id0 i st]|]; [|discriminate]. destruct st as [|k v]; [discriminate|].
    destruct (nth_error (p_works p) i) as [w|]; [|discriminate]. destruct (w_body w) as [inq f|]; [|discriminate]. cbv zeta in HS. rewrite Hsie in HS.
    destruct (f k v); injection HS as <-; destruct (w_io w); exact IH.
  - unfold poll in HS. destruct (a_poll_done s); [discriminate|]. destruct (a_stop s); injection HS as <-; exact IH.
Qed.

Lemma mu_same s s' : same_abs s s' -> mu (abs s') = mu (abs s).
Proof. intros (H1 & H2 & _). unfold mu. cbn [abs c_qs c_fl]. rewrite H1, (flw_perm _ _ H2). reflexivity. Qed.

Lemma largest (P0 : nat -> Prop) (dec : forall q, P0 q \/ ~ P0 q) hi :
  (exists q, (q < hi)%nat /\ P0 q) -> exists q, (q < hi)%nat /\ P0 q /\ forall r, (q < r < hi)%nat -> ~ P0 r.
Proof.
  induction hi as [|hi IH]; intros (q & Hq & HP0); [lia|]. destruct (dec hi) as [Hh|Hh].
  - exists hi. split; [lia|]. split; [exact Hh|]. intros; lia.
  - destruct IH as (q' & H1 & H2 & H3).
    + exists q. split; [|exact HP0]. destruct (Nat.eq_dec q hi) as [->|]; [contradiction|lia].
    + exists q'. split; [lia|]. split; [exact H2|]. intros r Hr. destruct (Nat.eq_dec r hi) as [->|]; [exact Hh|]. apply H3. lia.
Qed.

Definition nonempty (l : queue (item V)) : Prop := l <> [].
Lemma nonempty_dec l : nonempty l \/ ~ nonempty l.
Proof. unfold nonempty. destruct l; [right; congruence|left; discriminate]. Qed.
Lemma not_nonempty l : ~ nonempty l -> l = [].
Proof. unfold nonempty. destruct l; [reflexivity|]. intros H. exfalso. apply H. discriminate. Qed.

(** The states in which the executor may be blocked: no task, every formed group has been
    treated, no group can be formed and there are images to be treated. *)
Definition waiting_state (s : ast V) : Prop :=
  a_tasks s = [] /\ (forall q, (S a < q < nq)%nat -> a_qs s q = []) /\
  filter (ready names_of (a_qs s (S a))) (a_qs s 0%nat) = [] /\ (1 <= a)%nat /\ a_qs s a <> [].

Lemma empty_not_full o s : 1 <= p_nb_items_queue_max p -> a_qs s o = [] -> full p (Some o) (a_qs s) = false.
Proof. intros Hl E. cbn [full]. rewrite E. unfold zlen. cbn. apply Z.leb_gt. lia. Qed.

Lemma join_can_finish : p_stop_if_error p = false -> 1 <= p_nb_max_workers p -> 1 <= p_nb_items_queue_max p ->
  (forall s, reachable p (init jq) s -> waiting_state s -> zlen (a_qs s (S a)) < p_nb_items_queue_max p) ->
  forall s, reachable p (init jq) s -> exists s', reachable p s s' /\ ended p s'.
Proof.
  intros Hsie Hnb Hl Hsafe.
  assert (HX : forall m s, reachable p (init jq) s -> (2 * mu (abs s) + List.length (a_tasks s) <= m)%nat -> exists s', reachable p s s' /\ ended p s').
  2:{ intros s HR. apply (HX _ s HR (le_n _)). }
  induction m as [m IH] using lt_wf_ind. intros s HR Hm.
  pose proof (async_no_raise s Hsie HR) as Hr. pose proof (async_JInv s HR Hr) as HJ.
  pose proof (reachable_G p jq s HR) as HG. pose proof (reachable_TW p jq s HR) as HT.
  pose proof (reachable_flags p jq s join_wf HR) as HF.
  assert (IH' : forall s1, reachable p s s1 -> (2 * mu (abs s1) + List.length (a_tasks s1) < m)%nat -> exists s', reachable p s s' /\ ended p s').
  { intros s1 HR1 Hm1. destruct (IH _ Hm1 s1 (reach_tr p _ _ _ HR HR1) (le_n _)) as (s' & HR' & HE). exists s'. split; [|exact HE]. eapply reach_tr; eassumption. }
  destruct (a_tasks s) as [|t ts] eqn:Et.
  - destruct (all_empty nq (a_qs s)) eqn:HE. { apply end_gen; try assumption. - apply join_wf. - rewrite Hnq. exact HE. }
    assert (Hst : a_stop s = false). { destruct (a_stop s) eqn:E; [|reflexivity]. destruct (f_stop _ _ HF E) as [HE' _]. rewrite Hnq in HE'. congruence. }
    assert (Hex : forall i, a_exited s i = false). { intros i. destruct (a_exited s i) eqn:E; [|reflexivity]. rewrite (f_exit _ _ HF i E) in Hst. discriminate. }
    assert (Hfl : c_fl (abs s) = []) by (cbn [abs c_fl]; rewrite Et; reflexivity).
    assert (Htake : forall i w inq f, nth_error ws i = Some w -> w_body w = ItemWork inq f -> a_qs s inq <> [] -> full p (w_out w) (a_qs s) = false ->
              exists s', reachable p s s' /\ ended p s').
    { intros i w inq f Hw Hbd Hq Hfu. rewrite <- Hworks in Hw.
      destruct (take_gen p s i w inq f Hw Hbd Hnb HG HT Et Hr (Hex i) Hq Hfu) as (s1 & HR1 & _ & (k & Hk) & Hl1).
      apply (IH' s1 HR1). rewrite Hworks in Hk. pose proof (item_mu _ _ _ _ HJ Hk). cbn [List.length] in Hm. lia. }
    destruct (nonempty_dec (flat_map (fun q => a_qs s q) (seq (2 + a) b))) as [Hpost|Hpost].
    { destruct (largest (fun q => (S a < q)%nat /\ nonempty (a_qs s q))) with (hi := nq) as (q & Hq & (Hq1 & Hne) & Hq2).
      - intros q. destruct (le_lt_dec q (S a)); [right; intros [? _]; lia|]. destruct (nonempty_dec (a_qs s q)); [left; auto|right; tauto].
      - unfold nonempty in Hpost. destruct (flat_map _ _) as [|x l] eqn:E in Hpost; [congruence|].
        assert (HI : In x (flat_map (fun q => a_qs s q) (seq (2 + a) b))) by (rewrite E; left; reflexivity).
        apply in_flat_map in HI. destruct HI as (q & Hq & HI). apply in_seq in Hq. exists q. unfold nq, join_nq. fold a b. split; [lia|]. split; [lia|].
        intros E'. rewrite E' in HI. destruct HI.
      - assert (exists j io f, q = (2 + a + j)%nat /\ nth_error post j = Some (io, f)) as (j & io & f & -> & Hj).
        { unfold nq, join_nq in Hq. fold a b in Hq. destruct (nth_error post (q - 2 - a)) as [[io f]|] eqn:E.
          - exists (q - 2 - a)%nat, io, f. split; [lia|exact E].
          - apply nth_error_None in E. fold b in E. lia. }
        apply (Htake _ _ _ _ (jw_post _ _ _ Hj) eq_refl Hne). cbn [w_out]. destruct (Nat.eqb_spec (S j) b) as [Ej|Ej]; [reflexivity|].
        apply empty_not_full; [exact Hl|]. apply not_nonempty. intros HN. pose proof (post_lt _ _ _ Hj).
        apply (Hq2 (3 + a + j)%nat); [unfold nq, join_nq; fold a b; lia|]. split; [lia|exact HN]. }
    assert (Hpe : forall q, (S a < q < nq)%nat -> a_qs s q = []).
    { intros q Hq. apply not_nonempty in Hpost. destruct (a_qs s q) as [|x l] eqn:E; [reflexivity|]. exfalso.
      assert (HI : In x (flat_map (fun q => a_qs s q) (seq (2 + a) b))); [|rewrite Hpost in HI; exact HI].
      apply in_flat_map. exists q. split; [apply in_seq; unfold nq, join_nq in Hq; fold a b in Hq; lia|rewrite E; left; reflexivity]. }
    destruct (filter (ready names_of (a_qs s (S a))) (a_qs s 0%nat)) as [|e el] eqn:Erd.
    2:{ assert (HS : step p s (LCheck a) = Some (add_tr (EGlobal a) (set_qs (glob_result (a_qs s)) s))).
        { unfold step. rewrite Hr. unfold check. rewrite Hex, Hworks, jw_glob. cbn [w_body].
          assert (Hmr : make_ready a (a_qs s) = true). { unfold make_ready. destruct (a_qs s 0%nat); [discriminate|reflexivity]. } rewrite Hmr.
          pose proof (glob_ok _ HJ) as HGl. cbn [abs c_qs] in HGl. rewrite HGl, Hst. reflexivity. }
        apply (IH' _ (reach_1 p _ _ _ HS)). cbn [add_tr set_qs a_tasks]. rewrite Et.
        pose proof (glob_mu (abs s) (abs (add_tr (EGlobal a) (set_qs (glob_result (a_qs s)) s))) eq_refl (Permutation_refl _)) as HM.
        change (c_qs (abs s)) with (a_qs s) in HM. rewrite Erd in HM. cbn [List.length] in HM, Hm |- *. lia. }
    destruct (largest (fun q => (1 <= q)%nat /\ nonempty (a_qs s q))) with (hi := S a) as (q & Hq & (Hq1 & Hne) & Hq2).
    + intros q. destruct (le_lt_dec 1 q); [|right; intros [? _]; lia]. destruct (nonempty_dec (a_qs s q)); [left; auto|right; tauto].
    + destruct (nonempty_dec (flat_map (fun q => a_qs s q) (seq 1 a))) as [Hp|Hp].
      * unfold nonempty in Hp. destruct (flat_map _ _) as [|x l] eqn:E in Hp; [congruence|].
        assert (HI : In x (flat_map (fun q => a_qs s q) (seq 1 a))) by (rewrite E; left; reflexivity).
        apply in_flat_map in HI. destruct HI as (q & Hq & HI). apply in_seq in Hq. exists q. split; [lia|]. split; [lia|].
        intros E'. rewrite E' in HI. destruct HI.
      * exfalso. apply not_nonempty in Hp.
        assert (HE' : all_empty nq (a_qs s) = true); [|congruence].
        apply (idle_empty (abs s) HJ Hfl). split; [|exact Erd]. intros q Hq Hqa. cbn [abs c_qs].
        destruct (le_lt_dec q a); [|apply Hpe; lia]. destruct (a_qs s q) as [|x l'] eqn:E; [reflexivity|]. exfalso.
        assert (HI : In x (flat_map (fun q => a_qs s q) (seq 1 a))); [|rewrite Hp in HI; exact HI].
        apply in_flat_map. exists q. split; [apply in_seq; lia|rewrite E; left; reflexivity].
    + destruct (nth_error pre (q - 1)) as [[io f]|] eqn:E; [|apply nth_error_None in E; fold a in E; lia].
      apply (Htake _ _ _ _ (jw_pre _ _ _ E) eq_refl); [replace (S (q - 1)) with q by lia; exact Hne|]. cbn [w_out].
      replace (S (S (q - 1))) with (S q) by lia. destruct (Nat.eq_dec q a) as [->|Hqa].
      * cbn [full]. apply Z.leb_gt. apply Hsafe; [exact HR|]. split; [exact Et|]. split; [exact Hpe|]. split; [exact Erd|]. split; [lia|exact Hne].
      * apply empty_not_full; [exact Hl|]. apply not_nonempty. intros HN. apply (Hq2 (S q)); [lia|]. split; [lia|exact HN].
  - assert (HI : In t (a_tasks s)) by (rewrite Et; left; reflexivity). rewrite <- Et in Hm. destruct (t_st t) as [|k v] eqn:Est.
    + destruct (start_gen p s t HG HT HI Est Hr) as (s1 & HS & _ & [(HC & HL)|((k & Hk) & HL)] & _); apply (IH' s1 (reach_1 p _ _ _ HS)).
      * rewrite (mu_same _ _ HC). lia.
      * rewrite Hworks in Hk. pose proof (item_mu _ _ _ _ HJ Hk). lia.
    + destruct (finish_gen p s t k v Hsie HG HT HI Est Hr) as (s1 & HS & _ & Hk & HL). apply (IH' s1 (reach_1 p _ _ _ HS)).
      rewrite Hworks in Hk. pose proof (item_mu _ _ _ _ HJ Hk). lia.
Qed.

(** *** Sufficient condition *)
Lemma async_JW s : reachable p (init jq) s -> a_raised s = None -> JInv (abs s) /\ JW (abs s).
Proof.
  intros HR. apply (async_invariant p (fun c => JInv c /\ JW c) jq); try assumption.
  - intros c c' [HJ HW] E1 E2 E3. split; [eapply ext_JInv; eassumption|eapply ext_JW; eassumption].
  - intros c c' [HJ HW] HT. rewrite Hworks in HT. split; [eapply trans_JInv; eassumption|eapply trans_JW; eassumption].
  - split; [apply init_JInv|apply init_JW].
Qed.

Lemma upstream_P c x : JInv c -> upstream c x -> In x (keys P).
Proof.
  intros HJ HU. assert (HV : In x (map fst (totpre c))).
  { unfold tot. rewrite !map_app, !in_app_iff. destruct HU as [(q & Hq & HU)|(i & v & Hi & HU)].
    - right. right. apply keys_In in HU. destruct HU as (it & HU). apply (in_map fst _ _ (pre_in c q x it ltac:(lia) HU)).
    - right. left. destruct (nth_error pre i) as [[io f]|] eqn:E; [|apply nth_error_None in E; fold a in E; lia].
      apply (in_map fst _ (x, pipe (skipn i gpre) x (inl v))). apply in_flat_map. exists (i, x, v). split; [exact HU|].
      rewrite (fl_obs_pre _ _ _ _ _ E). left. reflexivity. }
  apply (j_need _ HJ) in HV. apply in_values_spec in HV. destruct HV as (k & it & HV & Hx). apply HPK, in_values_spec.
  exists k, it. split; [apply (j_q0 _ HJ), HV|exact Hx].
Qed.

Lemma zlen_keys_perm (l : queue (item V)) l' : Permutation (keys l) l' -> zlen l = zlen l'.
Proof. intros H. apply Permutation_length in H. unfold keys in H. rewrite map_length in H. unfold zlen. rewrite H. reflexivity. Qed.

Lemma join_finish_subsets : p_stop_if_error p = false -> 1 <= p_nb_max_workers p -> 1 <= p_nb_items_queue_max p ->
  (forall read, (exists x, In x (keys P) /\ read x = false) -> zlen (waiting entry_names (filter read (keys P))) < p_nb_items_queue_max p) ->
  forall s, reachable p (init jq) s -> exists s', reachable p s s' /\ ended p s'.
Proof.
  intros Hsie Hnb Hl Hsafe. apply join_can_finish; try assumption. intros s HR (Ht & _ & Hrd & Ha & Hqa).
  destruct (async_JW s HR (async_no_raise s Hsie HR)) as [HJ HW].
  assert (HPm : Permutation (keys (a_qs s (S a))) (waiting entry_names (filter (fun x => negb (upstreamb (abs s) x)) (keys P)))).
  { apply (stuck_keys (abs s)); try assumption; [|apply NoDup_filter, HP]. intros x. rewrite filter_In. apply and_iff_compat_l. rewrite negb_true_iff.
    rewrite <- upstreamb_spec. destruct (upstreamb (abs s) x); split; congruence. }
  rewrite (zlen_keys_perm _ _ HPm). apply Hsafe. destruct (a_qs s a) as [|[x it] q] eqn:E; [congruence|]. exists x.
  assert (HU : upstream (abs s) x). { left. exists a. cbn [abs c_qs]. rewrite E. split; [lia|left; reflexivity]. }
  split; [apply (upstream_P _ _ HJ HU)|]. apply negb_false_iff, upstreamb_spec, HU.
Qed.

(** *** Images are read in the order of the queue *)
Definition PInv (c : cfg V) : Prop := exists d, P = d ++ c_qs c 1%nat.

Lemma trans_PInv c c' : (1 <= a)%nat -> JInv c -> PInv c -> atrans ws c c' -> PInv c'.
Proof.
  intros Ha HJ (d & HP1) [(i & k & HT)|(i & HT)].
  - assert (HQ : c_qs c' 1%nat = c_qs c 1%nat \/ exists x, c_qs c 1%nat = x :: c_qs c' 1%nat).
    { destruct HT as [w inq f v q' Hw Hb' Hq Hq' Hf Ht|w inq f e q' Hw Hb' Hq Hq' Hf Ht|w inq f v Hw Hb' Hf Hq' Ht];
        assert (HO : forall o, w_out w = Some o -> (2 <= o)%nat) by
          (intros o Ho; destruct (jw_inv i w Hw) as [(io & f' & Hf' & ->)|[(-> & ->)|(j & io & f' & -> & Hf' & ->)]]; cbn [w_out] in Ho;
           [|discriminate Hb'|destruct (Nat.eqb (S j) b); [discriminate Ho|]]; injection Ho as <-; lia);
        rewrite Hq'.
      - unfold upd. destruct (Nat.eqb_spec 1 inq) as [<-|]; [right; eauto|left; reflexivity].
      - assert (E : put (w_out w) k (inr e) (upd (c_qs c) inq q') 1%nat = upd (c_qs c) inq q' 1%nat).
        { destruct (w_out w) as [o|]; [|reflexivity]. specialize (HO o eq_refl). cbn [put]. apply upd_other. lia. }
        rewrite E. unfold upd. destruct (Nat.eqb_spec 1 inq) as [<-|]; [right; eauto|left; reflexivity].
      - left. destruct (w_out w) as [o|]; [|reflexivity]. specialize (HO o eq_refl). cbn [put]. apply upd_other. lia. }
    destruct HQ as [E|(x & E)]; [exists d; rewrite E; exact HP1|]. exists (d ++ [x]). rewrite <- app_assoc. cbn [app]. rewrite <- E. exact HP1.
  - destruct (glob_inv _ _ _ HJ HT) as (-> & Hq & _). exists d. rewrite Hq. unfold glob_result. rewrite !upd_other by lia. exact HP1.
Qed.

Lemma async_PInv s : (1 <= a)%nat -> reachable p (init jq) s -> a_raised s = None -> JInv (abs s) /\ PInv (abs s).
Proof.
  intros Ha HR. apply (async_invariant p (fun c => JInv c /\ PInv c) jq); try assumption.
  - intros c c' [HJ (d & Hd)] E1 E2 E3. split; [eapply ext_JInv; eassumption|]. exists d. rewrite E1. exact Hd.
  - intros c c' [HJ HW] HT. rewrite Hworks in HT. split; [eapply trans_JInv; eassumption|eapply trans_PInv; eassumption].
  - split; [apply init_JInv|]. exists []. reflexivity.
Qed.

Lemma keys_skipn n : keys (skipn n P) = skipn n (keys P).
Proof. unfold keys. symmetry. apply skipn_map. Qed.

(** state with no task and with the queues between the paths and the images empty *)
Lemma read_prefix s n : (1 <= a)%nat -> a_tasks s = [] -> a_qs s 1%nat = skipn n P -> (forall q, (2 <= q <= a)%nat -> a_qs s q = []) ->
  forall x, In x (firstn n (keys P)) <-> In x (keys P) /\ ~ upstream (abs s) x.
Proof.
  intros Ha Ht H1 H2 x.
  assert (HU : upstream (abs s) x <-> In x (skipn n (keys P))).
  { split.
    - intros [(q & Hq & HU)|(i & v & Hi & HU)]; cbn [abs c_qs c_fl] in HU.
      + destruct (Nat.eq_dec q 1) as [->|]; [rewrite H1, keys_skipn in HU; exact HU|]. rewrite H2 in HU by lia. destruct HU.
      + rewrite Ht in HU. destruct HU.
    - intros HI. left. exists 1%nat. split; [lia|]. cbn [abs c_qs]. rewrite H1, keys_skipn. exact HI. }
  rewrite HU. pose proof HP as Hnd. rewrite <- (firstn_skipn n (keys P)) in Hnd. destruct (NoDup_app_disjoint _ _ Hnd) as (_ & _ & Hd). split.
  - intros HI. split; [rewrite <- (firstn_skipn n (keys P)); apply in_or_app; auto|]. exact (Hd x HI).
  - intros [HI Hn]. rewrite <- (firstn_skipn n (keys P)) in HI. apply in_app_or in HI. tauto.
Qed.

Lemma join_finish_prefixes : a = 1%nat -> p_stop_if_error p = false -> 1 <= p_nb_max_workers p -> 1 <= p_nb_items_queue_max p ->
  (forall n, (n < List.length P)%nat -> zlen (waiting entry_names (firstn n (keys P))) < p_nb_items_queue_max p) ->
  forall s, reachable p (init jq) s -> exists s', reachable p s s' /\ ended p s'.
Proof.
  intros Ea Hsie Hnb Hl Hsafe. apply join_can_finish; try assumption. intros s HR (Ht & _ & Hrd & Ha & Hqa).
  pose proof (async_no_raise s Hsie HR) as Hr. destruct (async_JW s HR Hr) as [HJ HW].
  destruct (async_PInv s Ha HR Hr) as [_ (d & Hd)]. cbn [abs c_qs] in Hd.
  assert (Hs1 : a_qs s 1%nat = skipn (List.length d) P). { rewrite Hd at 1. rewrite skipn_app, skipn_all, Nat.sub_diag. reflexivity. }
  assert (HPm : Permutation (keys (a_qs s (S a))) (waiting entry_names (firstn (List.length d) (keys P)))).
  { apply (stuck_keys (abs s)); try assumption.
    - apply read_prefix; try assumption. intros q Hq. lia.
    - apply (NoDup_app_l _ (skipn (List.length d) (keys P))). rewrite firstn_skipn. exact HP. }
  rewrite (zlen_keys_perm _ _ HPm). apply Hsafe. rewrite Ea in Hqa. pose proof (f_equal (@List.length _) Hd) as HL. rewrite app_length in HL. unfold item, queue in *. rewrite HL.
  destruct (a_qs s 1%nat) as [|x0 l0] eqn:Eq1; [exfalso; apply Hqa; reflexivity|cbn [List.length]; lia].
Qed.

(** *** Necessary condition: a reachable state from which the executor never ends *)
Record Dead (s : ast V) : Prop := {
  d_raised : a_raised s = None;
  d_stop : a_stop s = false;
  d_tasks : forall t, In t (a_tasks s) -> S (t_work t) <> a;
  d_full : p_nb_items_queue_max p <= zlen (a_qs s (S a));
  d_ready : filter (ready names_of (a_qs s (S a))) (a_qs s 0%nat) = []
}.

Lemma filter_sub {A} (f : A -> bool) l x : In x (filter f l) -> In x l.
Proof. rewrite filter_In. tauto. Qed.

Lemma dead_step s l s' : 1 <= p_nb_items_queue_max p -> p_stop_if_error p = false -> (1 <= a)%nat ->
  reachable p (init jq) s -> Dead s -> step p s l = Some s' -> Dead s'.
Proof.
  intros Hl Hsie Ha HR [Dr Ds Dt Df Dy] HS.
  pose proof (async_JInv s HR Dr) as HJ. pose proof (reachable_TW p jq s HR) as HT.
  pose proof (async_no_raise s' Hsie (reach_step _ _ _ _ _ HR HS)) as Hr'.
  assert (Hqne : a_qs s (S a) <> []). { intros E. rewrite E in Df. unfold zlen in Df. cbn in Df. lia. }
  assert (HQ : forall i w inq f, nth_error ws i = Some w -> w_body w = ItemWork inq f -> S i <> a ->
            inq <> S a /\ inq <> 0%nat /\ forall o, w_out w = Some o -> o <> S a /\ o <> 0%nat).
  { intros i w inq f Hw Hbd Hi. destruct (jw_inv i w Hw) as [(io & f' & Hf' & ->)|[(-> & ->)|(j & io & f' & -> & Hf' & ->)]]; cbn [w_body w_out] in *; try discriminate Hbd; injection Hbd as <- <-.
    - pose proof (pre_lt _ _ _ Hf'). split; [lia|]. split; [lia|]. intros o E. injection E as <-. lia.
    - split; [lia|]. split; [lia|]. intros o E. destruct (Nat.eqb (S j) b); [discriminate|]. injection E as <-. lia. }
  assert (HP' : forall out k it (qs : queues V), (forall o, out = Some o -> o <> S a /\ o <> 0%nat) ->
            put out k it qs (S a) = qs (S a) /\ put out k it qs 0%nat = qs 0%nat).
  { intros [o|] k it qs Ho; [|auto]. destruct (Ho o eq_refl). cbn [put]. rewrite !upd_other by congruence. auto. }
  unfold step in HS. rewrite Dr in HS. destruct l as [i|id|id|].
  - unfold check in HS. destruct (a_exited s i); [discriminate|]. destruct (nth_error (p_works p) i) as [w|] eqn:Ew; [|discriminate].
    rewrite Hworks in Ew. rewrite Ds in HS. destruct (w_body w) as [inq f|rd g] eqn:Eb.
    + destruct (Nat.eq_dec (S i) a) as [Ei|Ei].
      * assert (Hfull : full p (w_out w) (a_qs s) = true).
        { destruct (jw_inv i w Ew) as [(io & f' & Hf' & ->)|[(-> & ->)|(j & io & f' & -> & Hf' & ->)]]; [|discriminate Eb|lia].
          cbn [w_out full]. rewrite Ei. apply Z.leb_le, Df. }
        rewrite Hfull, orb_true_r in HS. injection HS as <-. constructor; assumption.
      * match type of HS with context [if ?c then _ else _] => destruct c end; injection HS as <-; [constructor; assumption|].
        constructor; try assumption. cbn [spawn a_tasks]. intros t HI. apply in_app_or in HI. destruct HI as [HI|[<-|[]]]; [apply Dt, HI|exact Ei].
    + destruct (rd (a_qs s)); [|injection HS as <-; constructor; assumption].
      destruct (jw_inv i w Ew) as [(io & f' & Hf' & ->)|[(-> & ->)|(j & io & f' & -> & Hf' & ->)]]; cbn [w_body] in Eb; try discriminate Eb.
      injection Eb as <- <-. pose proof (glob_ok _ HJ) as HG. cbn [abs c_qs] in HG. rewrite HG in HS. injection HS as <-.
      pose proof (fun q => glob_nothing (abs s) q HJ Dy) as HN. cbn [abs c_qs] in HN.
      constructor; cbn [add_tr set_qs a_raised a_stop a_tasks a_qs]; try assumption; rewrite ?HN; assumption.
  - unfold start in HS. destruct (find_task id s) as [[id0 i st]|] eqn:Eft; [|discriminate]. destruct st; [|discriminate].
    apply find_some in Eft. destruct Eft as [HI _]. pose proof (Dt _ HI) as Hi. cbn [t_work] in Hi.
    destruct (nth_error (p_works p) i) as [w|] eqn:Ew; [|discriminate]. rewrite Hworks in Ew. destruct (w_body w) as [inq f|] eqn:Eb; [|discriminate]. cbv zeta in HS.
    destruct (HQ i w inq f Ew Eb Hi) as (Q1 & Q2 & Q3).
    assert (Hrem : forall ts t, In t (filter (fun t => negb (Nat.eqb (t_id (V:=V) t) id)) ts) -> In t ts) by (intros; eapply filter_sub; eassumption).
    destruct (q_pop_first _) as [[[k [v|e]] q']|].
    + injection HS as <-.
      constructor; cbn [set_running set_tasks set_qs a_raised a_stop a_tasks a_qs] in *; rewrite ?a_raised_ac, ?a_tasks_ac, ?a_qs_ac in *; rewrite ?upd_other by congruence; try assumption.
      * destruct (w_io w); exact Ds.
      * intros t HI'. apply in_map_iff in HI'. destruct HI' as (t0 & <- & HI'). destruct (Nat.eqb (t_id t0) id); cbn [t_work]; apply Dt, HI'.
    + destruct (w_out w) as [o|] eqn:Eo; injection HS as <-;
        constructor; cbn [remove_task set_tasks set_qs add_tr a_raised a_stop a_tasks a_qs] in *; rewrite ?a_raised_ac, ?a_tasks_ac, ?a_qs_ac in *;
        cbn [remove_task set_tasks set_qs add_tr a_raised a_stop a_tasks a_qs] in *; rewrite ?a_raised_ac, ?a_tasks_ac, ?a_qs_ac in *; try assumption;
        try (destruct (w_io w); exact Ds); try (intros t HI'; apply Dt, (Hrem _ _ HI'));
        try (destruct (Q3 o eq_refl); rewrite !upd_other by congruence; assumption); rewrite !upd_other by congruence; assumption.
    + injection HS as <-. constructor; cbn [remove_task set_tasks a_raised a_stop a_tasks a_qs] in *; rewrite ?a_raised_ac, ?a_tasks_ac, ?a_qs_ac in *; try assumption.
      * destruct (w_io w); exact Ds.
      * intros t HI'. apply Dt, (Hrem _ _ HI').
  - unfold finish in HS. destruct (find_task id s) as [[id0 i st]|] eqn:Eft; [|discriminate]. destruct st as [|k v]; [discriminate|].
    apply find_some in Eft. destruct Eft as [HI _]. pose proof (Dt _ HI) as Hi. cbn [t_work] in Hi.
    destruct (nth_error (p_works p) i) as [w|] eqn:Ew; [|discriminate]. rewrite Hworks in Ew. destruct (w_body w) as [inq f|] eqn:Eb; [|discriminate]. cbv zeta in HS. rewrite Hsie in HS.
    destruct (HQ i w inq f Ew Eb Hi) as (Q1 & Q2 & Q3). destruct (HP' (w_out w) k (f k v) (a_qs s) Q3) as [P1 P2].
    assert (HS' : remove_task id (add_counter (w_io w) (-1) (set_qs (put (w_out w) k (f k v) (a_qs s)) (add_tr (ECall i k v (f k v)) s))) = s').
    { destruct (f k v); injection HS as <-; reflexivity. }
    subst s'. constructor; cbn [remove_task set_tasks a_raised a_stop a_tasks a_qs] in *; rewrite ?a_raised_ac, ?a_tasks_ac, ?a_qs_ac in *;
      cbn [set_qs add_tr a_raised a_stop a_tasks a_qs] in *; rewrite ?P1, ?P2; try assumption.
    + destruct (w_io w); exact Ds.
    + intros t HI'. apply Dt. eapply filter_sub, HI'.
  - unfold poll in HS. destruct (a_poll_done s); [discriminate|]. rewrite Ds in HS. injection HS as <-.
    assert (HE : all_empty (p_nq p) (a_qs s) = false).
    { destruct (all_empty (p_nq p) (a_qs s)) eqn:E; [|reflexivity]. exfalso. apply Hqne. rewrite Hnq in E. apply (proj1 (all_empty_spec _ _) E). unfold nq, join_nq. fold a b. lia. }
    rewrite HE. cbn [andb]. constructor; cbn [set_poll a_raised a_stop a_tasks a_qs]; assumption || reflexivity.
Qed.

Lemma dead_forever s s' : 1 <= p_nb_items_queue_max p -> p_stop_if_error p = false -> (1 <= a)%nat ->
  reachable p (init jq) s -> Dead s -> reachable p s s' -> Dead s' /\ ~ ended p s'.
Proof.
  intros Hl Hsie Ha HR HD HR'.
  assert (HD' : Dead s').
  { induction HR' as [|s1 l s2 HR1 IH HS]; [exact HD|]. apply (dead_step s1 l s2 Hl Hsie Ha (reach_tr p _ _ _ HR HR1) IH HS). }
  split; [exact HD'|]. intros HE. pose proof (async_ended_stop s' (reach_tr p _ _ _ HR HR') HE) as E. rewrite (d_stop _ HD') in E. discriminate.
Qed.

(** *** the schedule which leads there *)
Lemma not_stopped s q : reachable p (init jq) s -> (q < nq)%nat -> a_qs s q <> [] -> a_stop s = false /\ forall i, a_exited s i = false.
Proof.
  intros HR Hq Hne. pose proof (reachable_flags p jq s join_wf HR) as HF.
  assert (Hst : a_stop s = false).
  { destruct (a_stop s) eqn:E; [|reflexivity]. exfalso. apply Hne. destruct (f_stop _ _ HF E) as [HE _]. rewrite Hnq in HE. apply (proj1 (all_empty_spec _ _) HE q Hq). }
  split; [exact Hst|]. intros i. destruct (a_exited s i) eqn:E; [|reflexivity]. rewrite (f_exit _ _ HF i E) in Hst. discriminate.
Qed.

Lemma push_image : p_stop_if_error p = false -> 1 <= p_nb_max_workers p -> 1 <= p_nb_items_queue_max p ->
  forall d m s k it r, (d + m = a)%nat -> (1 <= m)%nat -> reachable p (init jq) s -> a_tasks s = [] -> a_qs s m = (k, it) :: r ->
  (forall q, (m < q <= a)%nat -> a_qs s q = []) -> zlen (a_qs s (S a)) < p_nb_items_queue_max p ->
  exists s', reachable p s s' /\ a_tasks s' = [] /\ a_qs s' m = r /\ forall q, q <> m -> q <> S a -> a_qs s' q = a_qs s q.
Proof.
  intros Hsie Hnb Hl. induction d as [|d IH]; intros m s k it r Hdm Hm HR Ht Hq Hemp Hlen;
    (assert (Hmq : (m < nq)%nat) by (unfold nq, join_nq; fold a b; lia));
    (assert (Hne : a_qs s m <> []) by (rewrite Hq; discriminate));
    destruct (not_stopped s m HR Hmq Hne) as [_ Hex];
    (destruct (nth_error pre (m - 1)) as [[io f]|] eqn:E; [|apply nth_error_None in E; fold a in E; lia]);
    pose proof (jw_pre _ _ _ E) as Hw; rewrite <- Hworks in Hw; replace (S (m - 1)) with m in Hw by lia.
  - assert (Hf : full p (Some (S m)) (a_qs s) = false). { cbn [full]. replace (S m) with (S a) by lia. apply Z.leb_gt, Hlen. }
    destruct (through p s (m - 1) _ m f (S m) k it r Hw eq_refl eq_refl Hsie Hnb (reachable_G p jq s HR) Ht (async_no_raise s Hsie HR) (Hex _) Hq Hf) as (s' & HR' & Ht' & Hq').
    exists s'. split; [exact HR'|]. split; [exact Ht'|]. rewrite Hq'. cbn [put]. split; [rewrite upd_other by lia; apply upd_same|].
    intros q Q1 Q2. rewrite !upd_other by lia. reflexivity.
  - assert (HeS : a_qs s (S m) = []) by (apply Hemp; lia).
    assert (Hf : full p (Some (S m)) (a_qs s) = false) by (apply empty_not_full; assumption).
    destruct (through p s (m - 1) _ m f (S m) k it r Hw eq_refl eq_refl Hsie Hnb (reachable_G p jq s HR) Ht (async_no_raise s Hsie HR) (Hex _) Hq Hf) as (s1 & HR1 & Ht1 & Hq1).
    set (it' := match it with inl v => f k v | inr e => inr e end) in *.
    assert (HqS : a_qs s1 (S m) = [(k, it')]). { rewrite Hq1. cbn [put]. rewrite upd_same, upd_other by lia. rewrite HeS. reflexivity. }
    destruct (IH (S m) s1 k it' [] ltac:(lia) ltac:(lia) (reach_tr p _ _ _ HR HR1) Ht1 HqS) as (s2 & HR2 & Ht2 & Hq2 & Hoth).
    + intros q Hqr. rewrite Hq1. cbn [put]. rewrite !upd_other by lia. apply Hemp. lia.
    + rewrite Hq1. cbn [put]. rewrite !upd_other by lia. exact Hlen.
    + exists s2. split; [eapply reach_tr; eassumption|]. split; [exact Ht2|]. split.
      * rewrite Hoth by lia. rewrite Hq1. cbn [put]. rewrite upd_other by lia. apply upd_same.
      * intros q Q1 Q2. destruct (Nat.eq_dec q (S m)) as [->|Hne']; [rewrite Hq2, HeS; reflexivity|]. rewrite Hoth by assumption.
        rewrite Hq1. cbn [put]. rewrite !upd_other by congruence. reflexivity.
Qed.

Lemma glob_once s : p_stop_if_error p = false -> (1 <= a)%nat -> reachable p (init jq) s -> a_tasks s = [] ->
  exists s', reachable p s s' /\ a_tasks s' = [] /\ (forall q, (1 <= q <= a)%nat -> a_qs s' q = a_qs s q) /\
    filter (ready names_of (a_qs s' (S a))) (a_qs s' 0%nat) = [].
Proof.
  intros Hsie Ha HR Ht. destruct (a_qs s 0%nat) as [|e q0] eqn:E0.
  { exists s. split; [constructor|]. split; [exact Ht|]. split; [reflexivity|]. rewrite E0. reflexivity. }
  assert (Hne : a_qs s 0%nat <> []) by (rewrite E0; discriminate).
  destruct (not_stopped s 0 HR ltac:(unfold nq, join_nq; lia) Hne) as [Hst Hex].
  pose proof (async_no_raise s Hsie HR) as Hr. pose proof (async_JInv s HR Hr) as HJ.
  assert (HS : step p s (LCheck a) = Some (add_tr (EGlobal a) (set_qs (glob_result (a_qs s)) s))).
  { unfold step. rewrite Hr. unfold check. rewrite Hex, Hworks, jw_glob. cbn [w_body].
    assert (Hmr : make_ready a (a_qs s) = true). { unfold make_ready. rewrite E0. reflexivity. } rewrite Hmr.
    pose proof (glob_ok _ HJ) as HGl. cbn [abs c_qs] in HGl. rewrite HGl, Hst. reflexivity. }
  eexists. split; [apply (reach_1 p _ _ _ HS)|]. cbn [add_tr set_qs a_tasks a_qs]. split; [exact Ht|]. split.
  - intros q Hq. unfold glob_result. rewrite !upd_other by lia. reflexivity.
  - assert (E0' : glob_result (a_qs s) 0%nat = rem names_of (a_qs s (S a)) (a_qs s 0%nat)). { unfold glob_result. rewrite !upd_other by lia. apply upd_same. }
    assert (Ea' : glob_result (a_qs s) (S a) = keep names_of (rem names_of (a_qs s (S a)) (a_qs s 0%nat)) (a_qs s (S a))). { unfold glob_result. rewrite upd_other by lia. apply upd_same. }
    rewrite E0', Ea'. set (qa := a_qs s (S a)). set (r0 := rem names_of qa (a_qs s 0%nat)).
    destruct (filter (ready names_of (keep names_of r0 qa)) r0) as [|kv l] eqn:EF; [reflexivity|]. exfalso.
    assert (HI : In kv (filter (ready names_of (keep names_of r0 qa)) r0)) by (rewrite EF; left; reflexivity).
    apply filter_In in HI. destruct HI as [HI Hrd]. unfold r0, rem in HI. apply filter_In in HI. destruct HI as [_ Hn]. apply negb_true_iff in Hn.
    assert (HR1 : ready names_of qa kv = true); [|congruence]. unfold ready in *. rewrite forallb_forall in Hrd |- *. intros x Hx.
    specialize (Hrd x Hx). apply q_mem_In in Hrd. apply q_mem_In. apply keys_In in Hrd. destruct Hrd as (it & Hit). apply filter_sub in Hit. apply (In_keys x it), Hit.
Qed.

Record Shape (n : nat) (s : ast V) : Prop := {
  sh_reach : reachable p (init jq) s;
  sh_tasks : a_tasks s = [];
  sh_paths : a_qs s 1%nat = skipn n P;
  sh_empty : forall q, (2 <= q <= a)%nat -> a_qs s q = [];
  sh_ready : filter (ready names_of (a_qs s (S a))) (a_qs s 0%nat) = []
}.

Lemma Shape_len n s : p_stop_if_error p = false -> (1 <= a)%nat -> Shape n s -> zlen (a_qs s (S a)) = zlen (waiting entry_names (firstn n (keys P))).
Proof.
  intros Hsie Ha [H1 H2 H3 H4 H5]. destruct (async_JW s H1 (async_no_raise s Hsie H1)) as [HJ HW]. apply zlen_keys_perm.
  apply (stuck_keys (abs s)); try assumption.
  - apply read_prefix; assumption.
  - apply (NoDup_app_l _ (skipn n (keys P))). rewrite firstn_skipn. exact HP.
Qed.

Lemma Shape_reach : p_stop_if_error p = false -> 1 <= p_nb_max_workers p -> 1 <= p_nb_items_queue_max p -> (1 <= a)%nat ->
  forall n, (n <= List.length P)%nat -> (forall m, (m < n)%nat -> zlen (waiting entry_names (firstn m (keys P))) < p_nb_items_queue_max p) ->
  exists s, Shape n s.
Proof.
  intros Hsie Hnb Hl Ha. induction n as [|n IH]; intros Hn Hsafe.
  - destruct (glob_once (init jq) Hsie Ha (reach_init _ _) eq_refl) as (s & HR & Ht & Hq & Hrd). exists s. constructor; try assumption.
    + rewrite Hq by lia. reflexivity.
    + intros q Hqr. rewrite Hq by lia. cbn [init a_qs]. destruct q as [|[|q]]; [lia|lia|reflexivity].
  - destruct IH as (s & HS); [lia|intros m Hm; apply Hsafe; lia|]. pose proof (Shape_len n s Hsie Ha HS) as HL. destruct HS as [H1 H2 H3 H4 H5].
    assert (Hex : exists k it, skipn n P = (k, it) :: skipn (S n) P).
    { clear -Hn. revert Hn. generalize P. intros l. revert n. induction l as [|[k it] l IH]; intros n Hn; cbn [List.length] in Hn; [lia|].
      destruct n as [|n]; [exists k, it; reflexivity|]. cbn [skipn]. apply IH. lia. }
    destruct Hex as (k & it & Hsk). rewrite Hsk in H3.
    destruct (push_image Hsie Hnb Hl (a - 1) 1 s k it (skipn (S n) P) ltac:(lia) ltac:(lia) H1 H2 H3) as (s1 & HR1 & Ht1 & Hq1 & Hoth).
    + intros q Hqr. apply H4. lia.
    + rewrite HL. apply Hsafe. lia.
    + destruct (glob_once s1 Hsie Ha (reach_tr p _ _ _ H1 HR1) Ht1) as (s2 & HR2 & Ht2 & Hq2 & Hrd). exists s2. constructor; try assumption.
      * eapply reach_tr; [exact H1|]. eapply reach_tr; eassumption.
      * rewrite Hq2 by lia. exact Hq1.
      * intros q Hqr. rewrite Hq2 by lia. rewrite Hoth by lia. apply H4, Hqr.
Qed.

Lemma join_deadlock n : p_stop_if_error p = false -> 1 <= p_nb_max_workers p -> 1 <= p_nb_items_queue_max p -> (1 <= a)%nat ->
  (n < List.length P)%nat -> p_nb_items_queue_max p <= zlen (waiting entry_names (firstn n (keys P))) ->
  exists s, reachable p (init jq) s /\ forall s', reachable p s s' -> ~ ended p s'.
Proof.
  intros Hsie Hnb Hl Ha. induction n as [n IH] using lt_wf_ind. intros Hn Hbad.
  destruct (existsb (fun m => p_nb_items_queue_max p <=? zlen (waiting entry_names (firstn m (keys P)))) (seq 0 n)) eqn:E.
  - apply existsb_exists in E. destruct E as (m & Hm & E). apply in_seq in Hm. apply Z.leb_le in E. apply (IH m); try assumption; lia.
  - destruct (Shape_reach Hsie Hnb Hl Ha n) as (s & HS); [lia| |].
    + intros m Hm. apply Z.nle_gt. intros HB. assert (HE : existsb (fun m => p_nb_items_queue_max p <=? zlen (waiting entry_names (firstn m (keys P)))) (seq 0 n) = true); [|congruence].
      apply existsb_exists. exists m. split; [apply in_seq; lia|apply Z.leb_le, HB].
    + pose proof (Shape_len n s Hsie Ha HS) as HL. destruct HS as [H1 H2 H3 H4 H5]. exists s. split; [exact H1|]. intros s' HR'.
      assert (HD : Dead s).
      { assert (Hne : a_qs s (S a) <> []). { intros E1. rewrite E1 in HL. unfold zlen in HL. cbn in HL. unfold zlen in Hbad. lia. }
        constructor; try assumption.
        - apply (async_no_raise s Hsie H1).
        - apply (not_stopped s (S a) H1); [unfold nq, join_nq; fold a b; lia|exact Hne].
        - rewrite H2. intros t [].
        - rewrite HL. exact Hbad. }
      apply (proj2 (dead_forever s s' Hl Hsie Ha H1 HD HR')).
Qed.

Lemma join_ends_iff : a = 1%nat -> p_stop_if_error p = false -> 1 <= p_nb_max_workers p -> 1 <= p_nb_items_queue_max p ->
  ((forall s, reachable p (init jq) s -> exists s', reachable p s s' /\ ended p s') <->
   (forall n, (n < List.length P)%nat -> zlen (waiting entry_names (firstn n (keys P))) < p_nb_items_queue_max p)).
Proof.
  intros Ea Hsie Hnb Hl. split.
  - intros HF n Hn. apply Z.nle_gt. intros HB. destruct (join_deadlock n Hsie Hnb Hl ltac:(lia) Hn HB) as (s & HR & HN).
    destruct (HF s HR) as (s' & HR' & HE). apply (HN s' HR' HE).
  - apply join_finish_prefixes; assumption.
Qed.
End Async.
End JoinExec.

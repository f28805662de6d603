(** C81: surface tracking.  Every image is read and processed once, corrected once against the
    corrected angle of its predecessor, then its height is computed and saved once; the computation
    ends.  True with the sequential executor and, with the asynchronous one, when there are not more
    images than the limit of the queues; refuted beyond (the images are read concurrently: if the
    first one is overtaken by as many images as the limit, the queue of the angles is full, the first
    image cannot enter it and nothing can leave it). *)
From Coq Require Import Permutation Compare_dec.
From Verif Require Import PyBase QueueModel QueueProofs ExecModel ExecSpec ExecProofs ExecAsyncProofs ExecBoundProofs ExecAbsProofs
     ExecEndProofs JoinSpec JoinRunProps SurfModel SurfProps SurfRunProofs.

(** ** Specification *)
Section Spec.
Context {V : Type}.
Variables (mk_pair : item V -> item V -> V) (path_of : nat -> V).
Variables (pre post : list (bool * (nat -> V -> item V))) (correct : nat -> V -> item V).

(** the angle computed from an image alone *)
Definition angle (x : nat) : item V := pipe (map snd pre) x (inl (path_of x)).

(** The couples to correct: each image with the corrected angle of the image before it. *)
Fixpoint corrections (previous : item V) (names : list nat) : list (nat * V) :=
  match names with
  | [] => []
  | x :: rest => let couple := mk_pair previous (angle x) in (x, couple) :: corrections (correct x couple) rest
  end.

(** All the calls of works: on each image; then for each couple its correction, and the works on its
    result.  The first image is corrected with itself. *)
Definition surf_expected (names : list nat) : list (event V) :=
  flat_map (fun x => events_of false 0 (map snd pre) x (inl (path_of x))) names ++
  flat_map (fun '(x, couple) =>
              ECall (List.length pre + 1) x couple (correct x couple) ::
              events_of true (List.length pre + 2) (map snd post) x (correct x couple))
           (corrections (match names with [] => inr ValueError | x :: _ => angle x end) names).
End Spec.

(** ** Proofs *)
Section Glue.
Context {V : Type}.

Lemma flat_map_nil {X Y} (f : X -> list Y) l : (forall x, In x l -> f x = []) -> flat_map f l = [].
Proof. induction l as [|x l IH]; intros H; [reflexivity|]. cbn [flat_map]. rewrite (H x (or_introl eq_refl)), IH by (intros; apply H; right; assumption). reflexivity. Qed.

Lemma seq_from s m : map (fun j => s + j)%nat (seq 0 m) = seq s m.
Proof. apply (nth_ext _ _ (s + 0)%nat 0%nat); [rewrite map_length, !seq_length; reflexivity|]. intros i Hi. rewrite map_length, seq_length in Hi. rewrite (map_nth (fun j => s + j)%nat), !seq_nth by exact Hi. reflexivity. Qed.

Lemma q_set_from {A} k (v : A) q x : In x (q_set k v q) -> x = (k, v) \/ In x q.
Proof.
  induction q as [|[k' w] q IH]; cbn [q_set]; intros H; [destruct H as [<-|[]]; auto|].
  destruct (Nat.eqb k k'); destruct H as [<-|H]; cbn [In]; auto. destruct (IH H); auto.
Qed.

Lemma events_pipe (d : nat -> V -> item V) lost k : forall fs i0 it,
  flat_map (fun j => match pipe (firstn j fs) k it with
                     | inl v => [ECall (i0 + j) k v (nth j fs d k v)]
                     | inr e => if lost && (S j =? List.length fs)%nat then [ELost (i0 + j)%nat k e] else []
                     end) (seq 0 (List.length fs)) = events_of lost i0 fs k it.
Proof.
  induction fs as [|f fs IH]; intros i0 it; [reflexivity|]. cbn [List.length events_of].
  rewrite <- cons_seq. cbn [flat_map firstn pipe]. rewrite <- seq_shift, flat_map_concat_map, map_map, <- flat_map_concat_map.
  destruct it as [v|e].
  - rewrite Nat.add_0_r. cbn [nth app]. f_equal. rewrite <- (IH (S i0) (f k v)). rewrite !flat_map_concat_map. f_equal. apply map_ext. intros j.
    cbn [firstn pipe nth]. destruct (pipe (firstn j fs) k (f k v)); replace (i0 + S j)%nat with (S i0 + j)%nat by lia; reflexivity.
  - destruct lost; cbn [andb].
    2: { cbn [app]. apply flat_map_nil. intros j _. destruct j; reflexivity. }
    clear IH. destruct fs as [|g fs]; [cbn; reflexivity|]. set (m := List.length (g :: fs)).
    assert (Hm : (1 <= m)%nat) by (unfold m; cbn; lia). destruct (Nat.eqb_spec 1 (S m)); [lia|]. cbn [app].
    replace (seq 0 m) with (seq 0 (pred m) ++ [pred m]).
    2: { replace m with (pred m + 1)%nat at 3 by lia. rewrite seq_app. reflexivity. }
    rewrite flat_map_app, flat_map_nil.
    2: { intros j Hj. apply in_seq in Hj. cbn [firstn pipe]. destruct (Nat.eqb_spec (S (S j)) (S m)); [lia|reflexivity]. }
    cbn [flat_map firstn pipe app]. replace (S (S (pred m)) =? S m)%nat with true by (symmetry; apply Nat.eqb_eq; lia).
    cbn [app]. do 2 f_equal.
Qed.

Variables (names_of : V -> list nat) (mk_pair : item V -> item V -> V) (mk_names : nat -> nat -> V) (path_of : nat -> V).
Hypothesis Hnames : forall x y, names_of (mk_names x y) = [x; y].
Variables (pre post : list (bool * (nat -> V -> item V))) (correct : nat -> V -> item V).
Hypothesis Hb : (1 <= List.length post)%nat.
Variables (names saved : list nat) (complete : bool) (start step : nat).
Hypothesis Hstep : (1 <= step)%nat.
Hypothesis Hlen : (2 <= List.length names)%nat.
Hypothesis HND : NoDup names.
Hypothesis Hsv : complete = true -> forall x, In x names -> ~ In x saved.

Let n := List.length names.
Let nm i := nth i names 0%nat.
Let kn i := match i with O => start | S j => S (start + j * step) end.
Let a := List.length pre.
Let b := List.length post.
Let ev' := evs mk_pair path_of pre post correct nm.
Let fin' := fin pre post.

Lemma names_map : names = map nm (seq 0 n).
Proof. apply (nth_ext _ _ 0%nat (nm 0%nat)); [rewrite map_length, seq_length; reflexivity|]. intros i Hi. rewrite map_nth, seq_nth by exact Hi. reflexivity. Qed.

Lemma evs_spec i : ev' i fin' = events_of false 0 (map snd pre) (nm i) (inl (path_of (nm i))) ++
  ECall (a + 1) (nm i) (pr mk_pair path_of pre correct nm i) (cor mk_pair path_of pre correct nm i) ::
  events_of true (a + 2) (map snd post) (nm i) (cor mk_pair path_of pre correct nm i).
Proof.
  unfold ev', evs, fin', fin. fold a b.
  replace (seq 0 (a + 3 + b)) with (seq 0 a ++ [a; (a + 1)%nat; (a + 2)%nat] ++ seq (a + 3) b).
  2: { rewrite (seq_app (a + 3) b 0), (seq_app a 3 0), <- app_assoc. cbn [seq Nat.add]. repeat f_equal; lia. }
  rewrite !flat_map_app. f_equal; [|cbn [flat_map]; rewrite app_nil_r].
  - rewrite <- (events_pipe (snd dflt) false (nm i) (map snd pre) 0 (inl (path_of (nm i)))). rewrite map_length. fold a. rewrite !flat_map_concat_map. f_equal. apply map_ext_in. intros j Hj. apply in_seq in Hj.
    unfold ev, val, wof, hop_f. fold a. destruct (Nat.eqb_spec j a), (Nat.eqb_spec j (a + 2)), (Nat.leb_spec j a), (Nat.ltb_spec j a); try lia.
    cbn [Nat.add andb]. destruct (pipe _ _ _); [rewrite (map_nth snd); reflexivity|]. destruct (Nat.eqb_spec (S j) (fin pre post)); [unfold fin, a, b in *; lia|reflexivity].
  - unfold a at 1. rewrite ev_a. unfold a at 2. rewrite ev_a2. cbn [app].
    change (ECall (a + 1) (nm i) (pr mk_pair path_of pre correct nm i) (cor mk_pair path_of pre correct nm i) :: events_of true (a + 2) (map snd post) (nm i) (cor mk_pair path_of pre correct nm i))
      with ([ECall (a + 1) (nm i) (pr mk_pair path_of pre correct nm i) (cor mk_pair path_of pre correct nm i)] ++ events_of true (a + 2) (map snd post) (nm i) (cor mk_pair path_of pre correct nm i)).
    rewrite app_nil_r. f_equal.
    + unfold ev, val, wof, hop_f. fold a. destruct (Nat.eqb_spec (a + 1) a), (Nat.eqb_spec (a + 1) (a + 2)), (Nat.leb_spec (a + 1) a), (Nat.ltb_spec (a + 1) a); try lia. rewrite Nat.eqb_refl. reflexivity.
    + rewrite <- (events_pipe (snd dflt) true (nm i) (map snd post) (a + 2) (cor mk_pair path_of pre correct nm i)). rewrite map_length. fold b.
      replace (seq (a + 3) b) with (map (fun j => a + 3 + j)%nat (seq 0 b)).
      2: { apply seq_from. }
      rewrite !flat_map_concat_map, map_map. f_equal. apply map_ext_in. intros j Hj. apply in_seq in Hj.
      unfold ev, val, wof, hop_f. fold a. destruct (Nat.eqb_spec (a + 3 + j) a), (Nat.eqb_spec (a + 3 + j) (a + 2)), (Nat.leb_spec (a + 3 + j) a), (Nat.ltb_spec (a + 3 + j) a), (Nat.eqb_spec (a + 3 + j) (a + 1)); try lia.
      replace (a + 3 + j - (a + 3))%nat with j by lia. replace (pred (a + 3 + j)) with (a + 2 + j)%nat by lia. cbn [andb].
      destruct (pipe _ _ _); [rewrite (map_nth snd); reflexivity|].
      destruct (Nat.eqb_spec (S (a + 3 + j)) (fin pre post)), (Nat.eqb_spec (S j) b); unfold fin, a, b in *; try lia; reflexivity.
Qed.

Lemma flat_map_two {X Y} (f g : X -> list Y) l : Permutation (flat_map (fun x => f x ++ g x) l) (flat_map f l ++ flat_map g l).
Proof.
  induction l as [|x l IH]; [constructor|]. cbn [flat_map]. rewrite IH, <- !app_assoc. apply Permutation_app_head. rewrite !app_assoc. apply Permutation_app_tail, Permutation_app_comm.
Qed.

Let prevc i := match i with O => ang path_of pre (nm 0%nat) | S j => cor mk_pair path_of pre correct nm j end.

Lemma corrections_seq m : forall i, map (fun i => (nm i, pr mk_pair path_of pre correct nm i)) (seq i m) = corrections mk_pair path_of pre correct (prevc i) (map nm (seq i m)).
Proof.
  induction m as [|m IH]; intros i; [reflexivity|]. cbn [seq map corrections]. cbv zeta.
  assert (E : pr mk_pair path_of pre correct nm i = mk_pair (prevc i) (angle path_of pre (nm i))) by (destruct i; reflexivity).
  rewrite <- E. f_equal. rewrite IH. reflexivity.
Qed.

Lemma events_spec : Permutation (flat_map (fun i => ev' i fin') (seq 0 n)) (surf_expected mk_pair path_of pre post correct names).
Proof.
  unfold surf_expected. fold a. set (A := fun x => events_of false 0 (map snd pre) x (inl (path_of x))).
  set (B := fun xc : nat * V => let '(x, couple) := xc in ECall (a + 1) x couple (correct x couple) :: events_of true (a + 2) (map snd post) x (correct x couple)).
  rewrite (flat_map_ext _ (fun i => A (nm i) ++ B (nm i, pr mk_pair path_of pre correct nm i))) by (intros i; apply evs_spec).
  rewrite flat_map_two. match goal with |- context [corrections _ _ _ _ ?x names] => replace x with (prevc 0%nat) end.
  2: { unfold prevc, nm. destruct names; [cbn in Hlen; lia|reflexivity]. }
  pose proof (corrections_seq n 0) as C. rewrite <- names_map in C. rewrite <- C. clear C.
  assert (C : flat_map A names = flat_map (fun i => A (nm i)) (seq 0 n)).
  { transitivity (flat_map A (map nm (seq 0 n))); [f_equal; exact names_map|]. rewrite !flat_map_concat_map, map_map. reflexivity. }
  rewrite C. rewrite !flat_map_concat_map, !map_map. reflexivity.
Qed.

Lemma nm_inj i j : (i < n)%nat -> (j < n)%nat -> nm i = nm j -> i = j.
Proof. intros Hi Hj. apply (proj1 (NoDup_nth names 0%nat) HND); assumption. Qed.
Lemma kn_inj i j : (i < n)%nat -> (j < n)%nat -> kn i = kn j -> i = j.
Proof. intros _ _. unfold kn. destruct i, j; try nia. Qed.

Let qs := surf_queues mk_names path_of a complete names saved (surf_series start step names).

Lemma fill_fold_from l : forall (q : queue (item V)) x, In x (fold_left (fun q '(i, (u, v)) => q_set (S i) (inl (mk_names u v)) q) l q) ->
  In x q \/ exists i u v, In (i, (u, v)) l /\ x = (S i, inl (mk_names u v)).
Proof.
  induction l as [|[i [u v]] l IH]; intros q x H; [left; exact H|]. cbn [fold_left] in H. destruct (IH _ _ H) as [H1|(i' & u' & v' & H1 & E)].
  - assert (D : x = (S i, inl (mk_names u v)) \/ In x q).
    { apply q_set_from, H1. }
    destruct D as [->|D]; [right; exists i, u, v; split; [left|]; reflexivity|left; exact D].
  - right. exists i', u', v'. split; [right; exact H1|exact E].
Qed.

Lemma series_In i u v : In (i, (u, v)) (surf_series start step names) <-> exists j, (S j < n)%nat /\ i = (start + j * step)%nat /\ u = nm j /\ v = nm (S j).
Proof.
  unfold surf_series. rewrite in_map_iff. split.
  - intros ([j [u' v']] & E & H). injection E as <- <- <-. apply In_nth_error in H. destruct H as [z Hz].
    assert (H1 : nth_error (seq 0 (List.length names)) z = Some j /\ nth_error names z = Some u' /\ nth_error (tl names) z = Some v').
    { clear -Hz. revert Hz. assert (K : forall X Y (l : list X) (l' : list Y) z x y, nth_error (combine l l') z = Some (x, y) -> nth_error l z = Some x /\ nth_error l' z = Some y).
      { induction l as [|x0 l IH]; intros [|y0 l'] [|z'] x y E; cbn in E |- *; try discriminate; [injection E as -> ->; auto|apply (IH _ _ _ _ E)]. }
      intros Hz. destruct (K _ _ _ _ _ _ _ Hz) as [H1 H2]. destruct (K _ _ _ _ _ _ _ H2). auto. }
    destruct H1 as (H1 & H2 & H3). assert (Hz' : (z < n)%nat) by (apply nth_error_Some; congruence).
    rewrite (nth_error_nth' _ 0%nat) in H1 by (rewrite seq_length; exact Hz'). rewrite seq_nth in H1 by exact Hz'. injection H1 as <-.
    assert (E3 : nth_error names (S z) = Some v'). { destruct names; [destruct z; discriminate|exact H3]. }
    exists z. split; [apply nth_error_Some; congruence|]. split; [reflexivity|]. unfold nm. split; symmetry; apply nth_error_nth; assumption.
  - intros (j & Hj & -> & -> & ->). exists (j, (nm j, nm (S j))). split; [reflexivity|]. apply (nth_error_In _ j).
    apply combine_In_nth; [|apply combine_In_nth].
    + rewrite (nth_error_nth' _ 0%nat) by (rewrite seq_length; unfold n in Hj; lia). rewrite seq_nth by (unfold n in Hj; lia). reflexivity.
    + apply nth_error_nth'. unfold n in Hj. lia.
    + assert (E : nth_error names (S j) = Some (nm (S j))) by (apply nth_error_nth'; exact Hj). destruct names; [cbn in Hlen; lia|exact E].
Qed.

Lemma names_queue : NR mk_names n nm kn 0 (fill_names mk_names (surf_series start step names)).
Proof.
  pose proof (surf_series_keys names_of mk_names path_of Hnames start step names Hstep) as Hnd.
  assert (H0 : In (start, (nm 0%nat, nm 1%nat)) (surf_series start step names)) by (apply series_In; exists 0%nat; split; [exact Hlen|]; split; [lia|auto]).
  assert (E : exists r, surf_series start step names = (start, (nm 0%nat, nm 1%nat)) :: r).
  { unfold surf_series, nm. destruct names as [|n0 [|n1 r]]; [cbn in Hlen; lia|cbn in Hlen; lia|]. cbn [List.length seq tl combine map nth]. rewrite Nat.mul_0_l, Nat.add_0_r. eexists. reflexivity. }
  destruct E as [r E].
  assert (HF : fill_names mk_names (surf_series start step names) =
     fold_left (fun q '(i, (a, b)) => q_set (S i) (inl (mk_names a b)) q) (surf_series start step names) (q_set start (inl (mk_names (nm 0%nat) (nm 0%nat))) [])).
  { rewrite E. reflexivity. }
  rewrite HF. split; [apply fill_fold_nodup, sq_set_nodup; constructor|]. intros x. split.
  - intros H. apply fill_fold_from in H. destruct H as [[<-|[]]|(i & u & v & H & ->)].
    + exists 0%nat. split; [unfold n; lia|reflexivity].
    + apply series_In in H. destruct H as (j & Hj & -> & -> & ->). exists (S j). split; [lia|reflexivity].
  - intros (i & Hi & ->). destruct i as [|j].
    + unfold entry. cbn [pred kn]. apply fill_fold_keep; [left; reflexivity|]. intros i [u v] Hin Ei. apply series_In in Hin. destruct Hin as (j & _ & -> & _). cbn [fst kn] in Ei. unfold kn in Ei. lia.
    + unfold entry. cbn [pred kn]. apply (fill_fold_In mk_names); [exact Hnd|]. apply series_In. exists j. split; [lia|auto].
Qed.

Lemma paths_queue : QR mk_pair path_of pre post correct n nm 0 (fun _ => (0%nat, false)) (fill_paths path_of complete names saved).
Proof.
  assert (HK : forall l (q : queue (item V)), NoDup (keys q) -> NoDup (keys (fold_left (fun q name => if complete && existsb (Nat.eqb name) saved then q else q_set name (inl (path_of name)) q) l q))).
  { induction l as [|x l IH]; intros q Hq; [exact Hq|]. cbn [fold_left]. apply IH. destruct (_ && _); [exact Hq|apply sq_set_nodup, Hq]. }
  assert (HV : forall l (q : queue (item V)), (forall k it, In (k, it) q -> it = inl (path_of k)) ->
     forall k it, In (k, it) (fold_left (fun q name => if complete && existsb (Nat.eqb name) saved then q else q_set name (inl (path_of name)) q) l q) -> it = inl (path_of k)).
  { induction l as [|x l IH]; intros q Hq k it H; [apply Hq, H|]. cbn [fold_left] in H. refine (IH _ _ k it H). intros k' it' H'. destruct (_ && _); [apply Hq, H'|].
    destruct (q_set_from _ _ _ _ H') as [E|H2]; [injection E as -> ->; reflexivity|apply Hq, H2]. }
  assert (Ev : forall i, val mk_pair path_of pre post correct nm i 0 = inl (path_of (nm i))) by reflexivity.
  split; [apply HK; constructor|]. intros k it. split.
  - intros H. pose proof (HV names [] ltac:(intros ? ? []) k it H) as ->.
    assert (Hk : In k (keys (fill_paths path_of complete names saved))) by (apply (in_map fst) in H; exact H).
    apply fill_paths_keys in Hk. destruct Hk as [Hk _]. apply (In_nth _ _ 0%nat) in Hk. destruct Hk as (i & Hi & <-). exists i. rewrite Ev. repeat split. exact Hi.
  - intros (i & Hi & _ & -> & ->). assert (Hk : In (nm i) names) by (apply nth_In; exact Hi).
    assert (HkI : In (nm i) (keys (fill_paths path_of complete names saved))) by (apply fill_paths_In; [exact Hk|intros Ec; apply Hsv; assumption]).
    apply in_map_iff in HkI. destruct HkI as ([k it] & Ek & H). cbn in Ek. subst k. rewrite Ev. pose proof (HV names [] ltac:(intros ? ? []) _ it H) as ->. exact H.
Qed.

Lemma init_inv : Inv mk_pair mk_names path_of pre post correct n nm kn (mk_cfg qs [] []) (fun _ => (0%nat, false)) 0.
Proof.
  assert (Hne : names <> []) by (destruct names; [cbn in Hlen; lia|discriminate]).
  assert (Eqs : forall i, qs i = if Nat.eqb i 0 then fill_paths path_of complete names saved else if Nat.eqb i (a + 1) then fill_names mk_names (surf_series start step names) else []).
  { intros i. unfold qs, surf_queues. destruct names; [contradiction|reflexivity]. }
  constructor; cbn [c_qs c_fl c_tr].
  - intros p Hp. rewrite Eqs. destruct (Nat.eq_dec p 0) as [->|D].
    + replace (qof pre 0) with 0%nat by (unfold qof; reflexivity). cbn [Nat.eqb]. exact paths_queue.
    + assert (Hq : qof pre p <> 0%nat). { unfold qof. fold a. destruct (Nat.leb_spec p a), (Nat.eqb_spec p (a + 1)), (Nat.eqb_spec p (a + 2)); lia. }
      assert (Hq2 : qof pre p <> (a + 1)%nat) by (unfold qof; fold a; clear; destruct (Nat.leb_spec p a), (Nat.eqb_spec p (a + 1)), (Nat.eqb_spec p (a + 2)); lia).
      destruct (Nat.eqb_spec (qof pre p) 0); [contradiction|]. destruct (Nat.eqb_spec (qof pre p) (a + 1)); [contradiction|].
      split; [constructor|]. intros k it. split; [intros []|]. intros (i & _ & C & _). injection C. lia.
  - fold a. rewrite Eqs. destruct (Nat.eqb_spec (a + 1) 0); [lia|]. rewrite Nat.eqb_refl. exact names_queue.
  - split; [constructor|]. intros w x v. split; [intros []|]. intros (i & p & _ & C & _). discriminate.
  - cbn [item_events filter]. cbn [fst]. assert (E : forall l : list nat, flat_map (fun i => evs mk_pair path_of pre post correct nm i 0) l = []) by (induction l; [reflexivity|cbn; assumption]). rewrite E. constructor.
  - intros i Hi. cbn [fst snd]. split; [lia|discriminate].
  - split; [lia|]. intros i Hi. cbn [fst]. split; [|split]; lia.
Qed.

Lemma n_pos : (1 <= n)%nat. Proof. unfold n. lia. Qed.

Lemma Mp_init : Mp pre post n (fun _ => (0%nat, false)) = (n * (2 * (a + b + 3) + 1))%nat.
Proof.
  unfold Mp, wt, fin. fold a b. cbn [fst snd]. generalize n. intros m. assert (E : forall l : list nat, list_sum (map (fun _ => 2 * (a + 3 + b - 0) + 1)%nat l) = (List.length l * (2 * (a + b + 3) + 1))%nat).
  { induction l as [|x l IH]; [reflexivity|]. cbn [map list_sum fold_right List.length]. unfold list_sum in IH. rewrite IH. lia. }
  rewrite E, seq_length. reflexivity.
Qed.

Lemma glue_seq nmax : exists st,
  seq_run (n * (2 * (a + b + 3) + 1)) false nmax (surf_nq pre post) (surf_works names_of mk_pair pre correct post) (mk_sst qs []) = Some (st, None) /\
  (forall q, (q < surf_nq pre post)%nat -> s_qs st q = []) /\
  Permutation (item_events (s_tr st)) (surf_expected mk_pair path_of pre post correct names).
Proof.
  destruct (seq_run_inv names_of mk_pair mk_names path_of Hnames pre post correct Hb n nm kn n_pos nm_inj kn_inj nmax (n * (2 * (a + b + 3) + 1)) (mk_sst qs []) (fun _ => (0%nat, false)) 0) as (st & E & H1 & H2).
  - exact init_inv.
  - rewrite Mp_init. apply le_n.
  - exists st. split; [exact E|]. split; [exact H1|]. rewrite H2. exact events_spec.
Qed.

Variables (nw limit : Z).
Let p := mk_params nw limit false (surf_nq pre post) (surf_works names_of mk_pair pre correct post).

Lemma glue_async s : reachable p (init qs) s -> a_raised s = None /\
  (ended p s -> (forall q, (q < surf_nq pre post)%nat -> a_qs s q = []) /\ Permutation (item_events (a_tr s)) (surf_expected mk_pair path_of pre post correct names)).
Proof.
  intros HR. pose proof (async_ok names_of mk_pair mk_names path_of Hnames pre post correct Hb n nm kn n_pos nm_inj kn_inj p eq_refl qs _ _ init_inv s eq_refl HR) as Hr.
  split; [exact Hr|]. intros HE.
  destruct (async_done names_of mk_pair mk_names path_of Hnames pre post correct Hb n nm kn n_pos nm_inj kn_inj p eq_refl eq_refl qs _ _ init_inv s HR Hr HE) as [H1 H2].
  split; [exact H1|]. rewrite H2. exact events_spec.
Qed.

Lemma glue_ends : 1 <= nw -> zlen names <= limit -> always_can_end p (init qs).
Proof.
  intros Hw Hl s HR. apply (async_can_finish names_of mk_pair mk_names path_of Hnames pre post correct Hb n nm kn n_pos nm_inj kn_inj p eq_refl eq_refl qs _ _ init_inv eq_refl Hw Hl s HR).
Qed.

Lemma glue_blocked s : (1 <= a)%nat -> reachable p (init qs) s ->
  q_mem (nth 0 names 0%nat) (a_qs s (pred a)) = true -> limit <= zlen (a_qs s a) -> (forall t, In t (a_tasks s) -> t_work t <> pred a) ->
  forall s', reachable p s s' -> ~ ended p s'.
Proof.
  intros Ha HR Hm Hl Ht s' HR'. pose proof (proj1 (glue_async s HR)) as Hr.
  apply (blocked_stuck names_of mk_pair mk_names path_of Hnames pre post correct Hb n nm kn n_pos nm_inj kn_inj p eq_refl eq_refl qs _ _ init_inv s s' Ha eq_refl HR); [|exact HR'].
  destruct (async_inv names_of mk_pair mk_names path_of Hnames pre post correct Hb n nm kn n_pos nm_inj kn_inj p eq_refl qs _ _ init_inv s HR Hr) as (pos & cc & HI).
  split; [|split; [exact Hl|exact Ht]]. exists pos, cc. split; [exact HI|].
  assert (Hp : (pred a < fin pre post)%nat) by (unfold fin; fold a; lia). pose proof (i_q _ _ _ _ _ _ _ _ _ _ _ _ HI _ Hp) as Q.
  replace (qof pre (pred a)) with (pred a) in Q by (unfold qof; fold a; destruct (Nat.leb_spec (pred a) a); [reflexivity|lia]).
  apply (QR_mem mk_pair path_of pre post correct n nm nm_inj (pred a) pos (a_qs s (pred a)) 0 Q); [apply n_pos|exact Hm].
Qed.
End Glue.

(** ** Theorems *)
Definition surf_params {V} names_of mk_pair (nw limit : Z) pre correct (post : list (bool * (nat -> V -> item V))) : params V :=
  mk_params nw limit false (surf_nq pre post) (surf_works names_of mk_pair pre correct post).

(** the queues as filled by [fill_queue_paths] *)
Definition surf_first {V} mk_names path_of (pre : list (bool * (nat -> V -> item V))) complete names saved start step : queues V :=
  surf_queues mk_names path_of (List.length pre) complete names saved (surf_series start step names).

(** a computation on at least two images, none of which is already saved *)
Definition fresh_series (complete : bool) (names saved : list nat) (step : nat) : Prop :=
  (1 <= step)%nat /\ (2 <= List.length names)%nat /\ NoDup names /\ (complete = true -> forall x, In x names -> ~ In x saved).

Theorem C81_sequential :
  forall V (names_of : V -> list nat) mk_pair mk_names path_of pre post correct names saved complete start step nmax,
  (forall x y, names_of (mk_names x y) = [x; y]) -> (1 <= List.length post)%nat -> fresh_series complete names saved step ->
  exists fuel st,
    seq_run fuel false nmax (surf_nq pre post) (surf_works names_of mk_pair pre correct post)
            (mk_sst (surf_first mk_names path_of pre complete names saved start step) []) = Some (st, None) /\
    (forall q, (q < surf_nq pre post)%nat -> s_qs st q = []) /\
    Permutation (item_events (s_tr st)) (surf_expected mk_pair path_of pre post correct names).
Proof.
  intros V names_of mk_pair mk_names path_of pre post correct names saved complete start step nmax Hn Hb (H1 & H2 & H3 & H4). eexists.
  apply (glue_seq names_of mk_pair mk_names path_of Hn pre post correct Hb names saved complete start step H1 H2 H3 H4 nmax).
Qed.
Print Assumptions C81_sequential.

Theorem C81_async_delivers :
  forall V (names_of : V -> list nat) mk_pair mk_names path_of pre post correct names saved complete start step nw limit s,
  (forall x y, names_of (mk_names x y) = [x; y]) -> (1 <= List.length post)%nat -> fresh_series complete names saved step ->
  reachable (surf_params names_of mk_pair nw limit pre correct post) (init (surf_first mk_names path_of pre complete names saved start step)) s ->
  a_raised s = None /\
  (ended (surf_params names_of mk_pair nw limit pre correct post) s ->
   (forall q, (q < surf_nq pre post)%nat -> a_qs s q = []) /\
   Permutation (item_events (a_tr s)) (surf_expected mk_pair path_of pre post correct names)).
Proof.
  intros V names_of mk_pair mk_names path_of pre post correct names saved complete start step nw limit s Hn Hb (H1 & H2 & H3 & H4).
  apply (glue_async names_of mk_pair mk_names path_of Hn pre post correct Hb names saved complete start step H1 H2 H3 H4).
Qed.
Print Assumptions C81_async_delivers.

(** Missing for the full statement: more images than the limit (false, see below). *)
Theorem C81_async_ends_partial :
  forall V (names_of : V -> list nat) mk_pair mk_names path_of pre post correct names saved complete start step nw limit,
  (forall x y, names_of (mk_names x y) = [x; y]) -> (1 <= List.length post)%nat -> fresh_series complete names saved step ->
  1 <= nw -> zlen names <= limit ->
  always_can_end (surf_params names_of mk_pair nw limit pre correct post) (init (surf_first mk_names path_of pre complete names saved start step)).
Proof.
  intros V names_of mk_pair mk_names path_of pre post correct names saved complete start step nw limit Hn Hb (H1 & H2 & H3 & H4).
  apply (glue_ends names_of mk_pair mk_names path_of Hn pre post correct Hb names saved complete start step H1 H2 H3 H4).
Qed.
Print Assumptions C81_async_ends_partial.

(** The first image read has been overtaken by [limit] images whose angles are computed: blocked. *)
Theorem C81_async_blocked :
  forall V (names_of : V -> list nat) mk_pair mk_names path_of pre post correct names saved complete start step nw limit s,
  (forall x y, names_of (mk_names x y) = [x; y]) -> (1 <= List.length pre)%nat -> (1 <= List.length post)%nat -> fresh_series complete names saved step ->
  reachable (surf_params names_of mk_pair nw limit pre correct post) (init (surf_first mk_names path_of pre complete names saved start step)) s ->
  q_mem (nth 0 names 0%nat) (a_qs s (List.length pre - 1)%nat) = true -> limit <= zlen (a_qs s (List.length pre)) ->
  (forall t, In t (a_tasks s) -> t_work t <> (List.length pre - 1)%nat) ->
  forall s', reachable (surf_params names_of mk_pair nw limit pre correct post) s s' -> ~ ended (surf_params names_of mk_pair nw limit pre correct post) s'.
Proof.
  intros V names_of mk_pair mk_names path_of pre post correct names saved complete start step nw limit s Hn Ha Hb (H1 & H2 & H3 & H4).
  rewrite Nat.sub_1_r.
  apply (glue_blocked names_of mk_pair mk_names path_of Hn pre post correct Hb names saved complete start step H1 H2 H3 H4 nw limit s Ha).
Qed.
Print Assumptions C81_async_blocked.

Fixpoint run_labels {V} (p : params V) (ls : list label) (s : ast V) : option (ast V) :=
  match ls with [] => Some s | l :: ls' => match step p s l with Some s' => run_labels p ls' s' | None => None end end.
Lemma run_labels_reach {V} (p : params V) ls s0 : forall s s', reachable p s0 s -> run_labels p ls s = Some s' -> reachable p s0 s'.
Proof.
  induction ls as [|l ls IH]; intros s s' HR E; cbn in E; [injection E as <-; exact HR|].
  destruct (step p s l) eqn:ES; [|discriminate]. eapply IH; [eapply reach_step; eassumption|exact E].
Qed.

(** Nine images, two workers, the default limit 8: the reading of the first image is slow; meanwhile
    the eight other images are read and processed. *)
Definition overtaken : list label :=
  [LCheck 0; LStart 0] ++
  flat_map (fun j => [LCheck 0; LStart (2 * j + 1); LFinish (2 * j + 1); LCheck 1; LStart (2 * j + 2); LFinish (2 * j + 2)]%nat) (seq 0 8) ++
  [LFinish 0].
Definition sx_params := surf_params (fun v => v) sx_pair 2 8 sx_pre (fun k v => inl v) sx_post.
Definition sx_first names := surf_first (fun x y => [x; y]) (fun x => [x]) sx_pre false names [] 0 1.

Theorem C81_async_refuted :
  exists s, reachable sx_params (init (sx_first (seq 10 9))) s /\
    forall s', reachable sx_params s s' -> ~ ended sx_params s'.
Proof.
  destruct (run_labels sx_params overtaken (init (sx_first (seq 10 9)))) as [s|] eqn:E; [|vm_compute in E; discriminate].
  assert (HR : reachable sx_params (init (sx_first (seq 10 9))) s) by (eapply run_labels_reach; [apply reach_init|exact E]).
  exists s. split; [exact HR|].
  apply (C81_async_blocked _ (fun v => v) sx_pair (fun x y => [x; y]) (fun x => [x]) sx_pre sx_post (fun k v => inl v) (seq 10 9) [] false 0 1 2 8 s); try exact HR.
  - reflexivity.
  - cbn; lia.
  - cbn; lia.
  - split; [lia|]. split; [cbn; lia|]. split; [apply seq_NoDup|]. intros _ x _ [].
  - apply (f_equal (option_map (fun s => q_mem 10 (a_qs s 1%nat)))) in E. cbn [option_map] in E. assert (E2 : Some true = Some (q_mem 10 (a_qs s 1%nat))) by (rewrite <- E; vm_compute; reflexivity). injection E2 as E2. symmetry. exact E2.
  - apply (f_equal (option_map (fun s => zlen (a_qs s 2%nat)))) in E. cbn [option_map] in E. assert (E2 : Some 8 = Some (zlen (a_qs s 2%nat))) by (rewrite <- E; vm_compute; reflexivity). injection E2 as E2. cbn [sx_pre List.length]. lia.
  - apply (f_equal (option_map a_tasks)) in E. assert (E2 : Some [] = Some (a_tasks s)) by (change (Some (a_tasks s)) with (option_map a_tasks (Some s)); rewrite <- E; vm_compute; reflexivity). injection E2 as <-. intros t [].
Qed.
Print Assumptions C81_async_refuted.

(** Three images; the expected calls and those of the sequential executor. *)
Example C81_example :
  fresh_series true [10; 11; 12]%nat [9%nat] 1 /\
  zlen (surf_expected sx_pair (fun x => [x]) sx_pre sx_post (fun k v => inl v) [10; 11; 12]%nat) = 15 /\
  corrections sx_pair (fun x => [x]) sx_pre (fun k v => inl v) (inl [10%nat]) [10; 11; 12]%nat = [(10, [10; 10]); (11, [10; 10; 11]); (12, [10; 10; 11; 12])]%nat.
Proof.
  split; [|split; vm_compute; reflexivity]. split; [lia|]. split; [cbn; lia|]. split.
  - repeat constructor; cbn; intuition congruence.
  - intros _ x Hx [<-|[]]. cbn in Hx. intuition congruence.
Qed.

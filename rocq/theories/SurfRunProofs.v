(** Surface tracking: where each image is during an execution. *)
From Coq Require Import Permutation Compare_dec.
From Verif Require Import PyBase QueueModel QueueProofs ExecModel ExecSpec ExecProofs ExecAsyncProofs ExecBoundProofs ExecAbsProofs
     ExecEndProofs JoinSpec SurfModel SurfProps.

Section Run.
Context {V : Type}.
Variables (names_of : V -> list nat) (mk_pair : item V -> item V -> V) (mk_names : nat -> nat -> V) (path_of : nat -> V).
Hypothesis Hnames : forall x y, names_of (mk_names x y) = [x; y].
Variables (pre post : list (bool * (nat -> V -> item V))) (correct : nat -> V -> item V).
Hypothesis Hb : (1 <= List.length post)%nat.
Let ws := surf_works names_of mk_pair pre correct post.
Let nq := surf_nq pre post.
Let a := List.length pre.
Let b := List.length post.

(** images 0, ..., n-1: [nm i] their names, [kn i] the keys of the couples of names *)
Variables (n : nat) (nm kn : nat -> nat).
Hypothesis Hn : (1 <= n)%nat.
Hypothesis Hnm : forall i j, (i < n)%nat -> (j < n)%nat -> nm i = nm j -> i = j.
Hypothesis Hkn : forall i j, (i < n)%nat -> (j < n)%nat -> kn i = kn j -> i = j.

Definition entry (i : nat) : nat * item V := (kn i, inl (mk_names (nm (pred i)) (nm i))).
Definition ang (x : nat) : item V := pipe (map snd pre) x (inl (path_of x)).
Fixpoint pr (i : nat) : V :=
  match i with
  | O => mk_pair (ang (nm 0)) (ang (nm 0))
  | S i' => mk_pair (correct (nm i') (pr i')) (ang (nm i))
  end.
Definition cor (i : nat) : item V := correct (nm i) (pr i).

(** The places of an image: 0, ..., a-1: waiting for a work of [pre]; a: angle; a+1: waiting for
    [correct] in a couple; a+2: corrected, copy; a+3, ...: waiting for a work of [post]; [fin]. *)
Definition fin : nat := (a + 3 + b)%nat.
Definition hop (p : nat) : Prop := (p < a \/ p = a + 1 \/ a + 3 <= p < fin)%nat.
Definition qof (p : nat) : nat := if (p <=? a)%nat then p else if (p =? a + 1)%nat then (a + 3)%nat else if (p =? a + 2)%nat then (a + 2)%nat else S p.
Definition wof (p : nat) : nat := if (p <? a)%nat then p else if (p =? a + 1)%nat then (a + 1)%nat else pred p.
Definition dflt : bool * (nat -> V -> item V) := (false, fun _ v => inl v).
Definition hop_f (p : nat) : nat -> V -> item V :=
  if (p <? a)%nat then snd (nth p pre dflt) else if (p =? a + 1)%nat then correct else snd (nth (p - (a + 3)) post dflt).
Definition val (i p : nat) : item V :=
  if (p <=? a)%nat then pipe (firstn p (map snd pre)) (nm i) (inl (path_of (nm i)))
  else if (p =? a + 1)%nat then inl (pr i)
  else pipe (firstn (p - (a + 3)) (map snd post)) (nm i) (cor i).
Definition ev (i p : nat) : list (event V) :=
  if (p =? a)%nat then [] else if (p =? a + 2)%nat then [] else
  match val i p with
  | inl v => [ECall (wof p) (nm i) v (hop_f p (nm i) v)]
  | inr e => if (S p =? fin)%nat then [ELost (wof p) (nm i) e] else []
  end.
Definition evs (i p : nat) : list (event V) := flat_map (ev i) (seq 0 p).

Definition app1 (f : nat -> V -> item V) (k : nat) (it : item V) : item V := match it with inl v => f k v | inr e => inr e end.

Lemma pipe_snoc fs f k it : pipe (fs ++ [f]) k it = app1 f k (pipe fs k it).
Proof.
  revert it. induction fs as [|g fs IH]; intros it; cbn [app pipe]; [destruct it; reflexivity|].
  destruct it as [v|e]; [apply IH|reflexivity].
Qed.
Lemma firstn_snoc {A} k (l : list A) d : (k < List.length l)%nat -> firstn (S k) l = firstn k l ++ [nth k l d].
Proof.
  revert l. induction k as [|k IH]; intros [|x l] H; cbn [List.length] in H; try lia; [reflexivity|].
  cbn [firstn nth app]. rewrite <- IH by lia. reflexivity.
Qed.

Lemma val_hop i p : hop p -> val i (S p) = app1 (hop_f p) (nm i) (val i p).
Proof.
  unfold hop, val, hop_f, fin. intros H.
  destruct (Nat.leb_spec (S p) a), (Nat.leb_spec p a), (Nat.ltb_spec p a); try lia.
  - rewrite (firstn_snoc p (map snd pre) (snd dflt)) by (rewrite map_length; exact H2). rewrite pipe_snoc, map_nth. reflexivity.
  - destruct (Nat.eqb_spec (S p) (a + 1)), (Nat.eqb_spec p (a + 1)); try lia.
    + subst p. replace (S (a + 1) - (a + 3))%nat with 0%nat by lia. reflexivity.
    + replace (S p - (a + 3))%nat with (S (p - (a + 3))) by lia.
      rewrite (firstn_snoc (p - (a + 3)) (map snd post) (snd dflt)) by (rewrite map_length; fold b; lia). rewrite pipe_snoc, map_nth. reflexivity.
Qed.
Lemma val_a i : val i a = ang (nm i).
Proof. unfold val, ang. rewrite Nat.leb_refl. rewrite firstn_all2; [reflexivity|]. rewrite map_length. unfold a. lia. Qed.
Lemma val_a1 i : val i (a + 1) = inl (pr i).
Proof. unfold val. destruct (Nat.leb_spec (a + 1) a); [lia|]. rewrite Nat.eqb_refl. reflexivity. Qed.
Lemma val_a2 i : val i (a + 2) = cor i.
Proof. unfold val. destruct (Nat.leb_spec (a + 2) a); [lia|]. destruct (Nat.eqb_spec (a + 2) (a + 1)); [lia|]. replace (a + 2 - (a + 3))%nat with 0%nat by lia. reflexivity. Qed.
Lemma val_a3 i : val i (a + 3) = cor i.
Proof. unfold val. destruct (Nat.leb_spec (a + 3) a); [lia|]. destruct (Nat.eqb_spec (a + 3) (a + 1)); [lia|]. replace (a + 3 - (a + 3))%nat with 0%nat by lia. reflexivity. Qed.

Lemma qof_inj p p' : (p < fin)%nat -> (p' < fin)%nat -> qof p = qof p' -> p = p'.
Proof.
  unfold qof. destruct (Nat.leb_spec p a), (Nat.leb_spec p' a), (Nat.eqb_spec p (a+1)), (Nat.eqb_spec p' (a+1)), (Nat.eqb_spec p (a+2)), (Nat.eqb_spec p' (a+2)); lia.
Qed.
Lemma qof_names p : qof p <> (a + 1)%nat.
Proof. unfold qof. destruct (Nat.leb_spec p a), (Nat.eqb_spec p (a+1)), (Nat.eqb_spec p (a+2)); lia. Qed.
Lemma qof_nq p : (p < fin)%nat -> (qof p < nq)%nat.
Proof. unfold qof, fin, nq, surf_nq. fold a b. destruct (Nat.leb_spec p a), (Nat.eqb_spec p (a+1)), (Nat.eqb_spec p (a+2)); lia. Qed.
Lemma nq_qof q : (q < nq)%nat -> q = (a + 1)%nat \/ exists p, (p < fin)%nat /\ q = qof p.
Proof.
  unfold nq, surf_nq. fold a b. intros H. destruct (Nat.eq_dec q (a + 1)) as [->|N]; [left; reflexivity|]. right.
  destruct (Nat.le_gt_cases q a); [exists q|destruct (Nat.eq_dec q (a + 2)); [exists q|destruct (Nat.eq_dec q (a + 3)); [exists (a + 1)%nat|exists (pred q)]]];
    (split; [unfold fin; lia|]); unfold qof;
    match goal with |- q = if (?x <=? a)%nat then _ else _ => destruct (Nat.leb_spec x a), (Nat.eqb_spec x (a+1)), (Nat.eqb_spec x (a+2)); lia end.
Qed.

Lemma combine_seq_nth {A} (l : list A) i s x : nth_error (combine (seq s (List.length l)) l) i = Some x -> fst x = (s + i)%nat /\ nth_error l i = Some (snd x).
Proof.
  revert i s. induction l as [|y l IH]; intros [|i] s H; cbn in H; try discriminate.
  - injection H as <-. cbn. split; [lia|reflexivity].
  - apply IH in H. cbn. destruct H as [-> H]. split; [lia|exact H].
Qed.

Lemma work_hop i w inq f : nth_error ws i = Some w -> w_body w = ItemWork inq f ->
  exists p, hop p /\ i = wof p /\ inq = qof p /\ f = hop_f p /\ w_out w = (if (S p =? fin)%nat then None else Some (qof (S p))).
Proof.
  intros H Hbody. unfold ws, surf_works in H. fold a in H. destruct (Nat.lt_ge_cases i a) as [Hi|Hi].
  - rewrite nth_error_app1 in H by (rewrite map_length, combine_length, seq_length; unfold a in *; lia).
    rewrite nth_error_map in H. destruct (nth_error (combine (seq 0 a) pre) i) as [[i' [io g]]|] eqn:E; [|discriminate].
    apply combine_seq_nth in E. cbn in E. destruct E as [-> E]. injection H as <-. cbn in Hbody. injection Hbody as <- <-. exists i.
    split; [left; exact Hi|]. unfold wof, qof, hop_f, fin. destruct (Nat.ltb_spec i a), (Nat.leb_spec i a), (Nat.leb_spec (S i) a); try lia.
    repeat (split; [reflexivity|]). split; [rewrite (nth_error_nth _ _ _ E); reflexivity|].
    cbn [w_out]. destruct (Nat.eqb_spec (S i) (a + 3 + b)); [lia|]. reflexivity.
  - rewrite nth_error_app2 in H by (rewrite map_length, combine_length, seq_length; unfold a in *; lia).
    rewrite map_length, combine_length, seq_length in H. replace (i - Nat.min a (List.length pre))%nat with (i - a)%nat in H by (unfold a; lia).
    destruct (i - a)%nat as [|[|j]] eqn:Ej; cbn [app nth_error] in H.
    + injection H as <-. discriminate.
    + injection H as <-. cbn in Hbody. injection Hbody as <- <-. exists (a + 1)%nat. split; [right; left; reflexivity|].
      unfold wof, qof, hop_f, fin. destruct (Nat.ltb_spec (a + 1) a), (Nat.leb_spec (a + 1) a), (Nat.eqb_spec (a+1) (a+1)), (Nat.leb_spec (S (a + 1)) a), (Nat.eqb_spec (S (a+1)) (a+1)), (Nat.eqb_spec (S (a+1)) (a+2)); try lia.
      split; [lia|]. repeat (split; [reflexivity|]). cbn [w_out]. destruct (Nat.eqb_spec (S (a+1)) (a + 3 + b)); [lia|]. reflexivity.
    + rewrite nth_error_map in H.
      destruct (nth_error (combine (seq 0 (List.length post)) post) j) as [[j' [io g]]|] eqn:E; [|discriminate].
      assert (Hj : (j < b)%nat).
      { assert (N : nth_error (combine (seq 0 (List.length post)) post) j <> None) by congruence. apply nth_error_Some in N.
        rewrite combine_length, seq_length in N. unfold b. lia. }
      apply combine_seq_nth in E. cbn in E. destruct E as [-> E].
      assert (Hw : w = mk_work (ItemWork (a + 4 + j) g) (if Nat.eqb (S j) b then None else Some (a + 5 + j)%nat) io) by (cbn [option_map] in H; unfold b; congruence).
      clear H. subst w. cbn [w_body] in Hbody. assert (inq = (a + 4 + j)%nat /\ f = g) as [-> ->] by (split; congruence). exists (a + 3 + j)%nat.
      split; [right; right; unfold fin; lia|]. unfold wof, qof, hop_f, fin.
      destruct (Nat.ltb_spec (a + 3 + j) a), (Nat.leb_spec (a + 3 + j) a), (Nat.eqb_spec (a+3+j) (a+1)), (Nat.eqb_spec (a+3+j) (a+2)), (Nat.leb_spec (S (a + 3 + j)) a), (Nat.eqb_spec (S (a+3+j)) (a+1)), (Nat.eqb_spec (S (a+3+j)) (a+2)); try lia.
      split; [lia|]. split; [lia|]. split; [replace (a + 3 + j - (a + 3))%nat with j by lia; rewrite (nth_error_nth _ _ _ E); reflexivity|].
      cbn [w_out]. destruct (Nat.eqb_spec (S j) b), (Nat.eqb_spec (S (a + 3 + j)) (a + 3 + b)); try lia; [reflexivity|]. f_equal. lia.
Qed.

Lemma hop_work p : hop p -> exists w, nth_error ws (wof p) = Some w /\ w_body w = ItemWork (qof p) (hop_f p) /\ w_out w = (if (S p =? fin)%nat then None else Some (qof (S p))).
Proof.
  intros Hp.
  assert (Hl : (wof p < List.length ws)%nat).
  { unfold ws, surf_works. rewrite !app_length, !map_length, !combine_length, !seq_length. cbn [List.length]. fold a b.
    unfold wof, hop, fin in *. destruct (Nat.ltb_spec p a), (Nat.eqb_spec p (a + 1)); unfold a, b in *; lia. }
  destruct (nth_error ws (wof p)) as [w|] eqn:Ew; [|apply nth_error_None in Ew; lia]. exists w. split; [reflexivity|].
  assert (Hg : exists inq f, w_body w = ItemWork inq f).
  { destruct (ws_cases_surf names_of mk_pair pre post correct _ _ Ew) as [(_ & io & f & ->)|[(H & ->)|[(_ & ->)|(j & io & f & _ & _ & ->)]]]; cbn; eauto.
    exfalso. unfold wof, hop, fin in *. fold a in H. destruct (Nat.ltb_spec p a), (Nat.eqb_spec p (a + 1)); lia. }
  destruct Hg as (inq & f & Hg). destruct (work_hop _ _ _ _ Ew Hg) as (p' & Hp' & E & -> & -> & Ho).
  assert (p = p').
  { unfold wof, hop, fin in *. destruct (Nat.ltb_spec p a), (Nat.eqb_spec p (a + 1)), (Nat.ltb_spec p' a), (Nat.eqb_spec p' (a + 1)); lia. }
  subst p'. split; [exact Hg|exact Ho].
Qed.

(** ** positions *)
Definition place := (nat * bool)%type.
Definition mv (pos : nat -> place) (j : nat) (pl : place) : nat -> place := fun i => if Nat.eqb i j then pl else pos i.

Definition QR (p : nat) (pos : nat -> place) (q : queue (item V)) : Prop :=
  NoDup (keys q) /\ forall k it, In (k, it) q <-> exists i, (i < n)%nat /\ pos i = (p, false) /\ k = nm i /\ it = val i p.

Lemma QR_head p pos k it q : QR p pos ((k, it) :: q) -> exists j, (j < n)%nat /\ pos j = (p, false) /\ k = nm j /\ it = val j p.
Proof. intros [_ H]. apply (proj1 (H k it)). left. reflexivity. Qed.

Lemma QR_ext p pos pos' q : (forall i, (i < n)%nat -> (pos' i = (p, false) <-> pos i = (p, false))) -> QR p pos q -> QR p pos' q.
Proof.
  intros He [H1 H2]. split; [exact H1|]. intros k it. rewrite H2. split; intros (i & Hi & Hp & H); exists i; (split; [exact Hi|]); (split; [apply He; assumption|exact H]).
Qed.
Lemma QR_other p pos j pl q : pos j <> (p, false) -> pl <> (p, false) -> QR p pos q -> QR p (mv pos j pl) q.
Proof.
  intros H1 H2. apply QR_ext. intros i _. unfold mv. destruct (Nat.eqb_spec i j) as [->|]; [|tauto]. split; intros E; congruence.
Qed.
Lemma QR_out p pos j pl q q' : (j < n)%nat -> pl <> (p, false) -> NoDup (keys q') -> (forall x, In x q' <-> In x q /\ fst x <> nm j) -> QR p pos q -> QR p (mv pos j pl) q'.
Proof.
  intros Hj Hpl Hnd Hq [H1 H2]. split; [exact Hnd|]. intros k it. rewrite Hq, H2. cbn [fst]. unfold mv. split.
  - intros ((i & Hi & Hp & -> & ->) & N). exists i. destruct (Nat.eqb_spec i j) as [->|]; [congruence|]. auto.
  - intros (i & Hi & Hp & -> & ->). destruct (Nat.eqb_spec i j) as [->|N]; [congruence|]. split; [exists i; auto|]. intros E. apply N, Hnm; assumption.
Qed.
Lemma QR_pop p pos j pl it q : (j < n)%nat -> pl <> (p, false) -> QR p pos ((nm j, it) :: q) -> QR p (mv pos j pl) q.
Proof.
  intros Hj Hpl H. pose proof H as [H1 H2]. cbn in H1. inversion H1 as [|? ? N1 N2]; subst.
  apply (QR_out p pos j pl ((nm j, it) :: q)); try assumption. intros [k v]. cbn [fst In]. split.
  - intros Hx. split; [right; exact Hx|]. intros ->. apply N1. apply (in_map fst) in Hx. exact Hx.
  - intros [[E|Hx] N]; [congruence|exact Hx].
Qed.
Lemma QR_push p pos j q : (j < n)%nat -> pos j <> (p, false) -> QR p pos q -> QR p (mv pos j (p, false)) (q_set (nm j) (val j p) q).
Proof.
  intros Hj Hp [H1 H2].
  assert (N : ~ In (nm j) (keys q)).
  { intros C. unfold keys in C. apply in_map_iff in C. destruct C as ([k it] & E & C). cbn in E. subst k. apply H2 in C. destruct C as (i & Hi & Hpi & E & _).
    apply (Hnm j i Hj Hi) in E. subst i. contradiction. }
  split; [apply sq_set_nodup; exact H1|]. intros k it. rewrite q_set_new by exact N. rewrite in_app_iff, H2. unfold mv. cbn [In]. split.
  - intros [(i & Hi & Hpi & -> & ->)|[E|[]]].
    + exists i. destruct (Nat.eqb_spec i j) as [->|]; [congruence|]. auto.
    + injection E as <- <-. exists j. rewrite Nat.eqb_refl. auto.
  - intros (i & Hi & Hpi & -> & ->). destruct (Nat.eqb_spec i j) as [->|]; [right; left; reflexivity|]. left. exists i. auto.
Qed.
Lemma QR_in p pos q j : QR p pos q -> (j < n)%nat -> pos j = (p, false) -> In (nm j, val j p) q.
Proof. intros [_ H] Hj Hp. apply H. exists j. auto. Qed.
Lemma QR_mem p pos q j : QR p pos q -> (j < n)%nat -> (q_mem (nm j) q = true <-> pos j = (p, false)).
Proof.
  intros H Hj. rewrite q_mem_In. split.
  - intros C. unfold keys in C. apply in_map_iff in C. destruct C as ([k it] & E & C). cbn in E. subst k. apply H in C. destruct C as (i & Hi & Hpi & E & _).
    apply (Hnm j i Hj Hi) in E. subst i. exact Hpi.
  - intros Hp. apply (QR_in p pos q j H Hj) in Hp. apply (in_map fst) in Hp. exact Hp.
Qed.
Lemma QR_nil p pos q : QR p pos q -> (q = [] <-> forall j, (j < n)%nat -> pos j <> (p, false)).
Proof.
  intros H. split.
  - intros -> j Hj Hp. apply (QR_in p pos [] j H Hj) in Hp. destruct Hp.
  - intros Hp. destruct q as [|[k it] q]; [reflexivity|]. apply QR_head in H. destruct H as (j & Hj & Hpj & _). destruct (Hp j Hj Hpj).
Qed.

Lemma q_del_spec {A} k v (q : queue A) : NoDup (keys q) -> In (k, v) q ->
  exists q', q_del k q = Ok q' /\ NoDup (keys q') /\ forall x, In x q' <-> In x q /\ fst x <> k.
Proof.
  intros Hnd Hin. induction q as [|[k' v'] q IH]; [destruct Hin|]. cbn [q_del]. cbn in Hnd. inversion Hnd as [|? ? N1 N2]; subst.
  destruct (Nat.eqb_spec k k') as [->|Nk].
  - exists q. split; [reflexivity|]. split; [exact N2|]. intros [k0 v0]. cbn [In fst]. split.
    + intros Hx. split; [right; exact Hx|]. intros ->. apply N1. apply (in_map fst) in Hx. exact Hx.
    + intros [[E|Hx] N]; [congruence|exact Hx].
  - destruct Hin as [E|Hin]; [congruence|]. destruct (IH N2 Hin) as (q' & E & H1 & H2). rewrite E. cbn [bind]. eexists. split; [reflexivity|]. split.
    + cbn. constructor; [|exact H1]. intros C. apply N1. unfold keys in *. apply in_map_iff in C. destruct C as (x & <- & Hx). apply in_map. apply H2 in Hx. tauto.
    + intros x. cbn [In]. rewrite H2. split; [intros [<-|[Hx N]]; [split; [left; reflexivity|cbn; congruence]|tauto]|tauto].
Qed.

(** names waiting *)
Definition NR (cc : nat) (q : queue (item V)) : Prop :=
  NoDup (keys q) /\ forall x, In x q <-> exists i, (cc <= i < n)%nat /\ x = entry i.

(** chain of the corrections: [cc] images are in couples or further *)
Definition Chain (pos : nat -> place) (cc : nat) : Prop :=
  (cc <= n)%nat /\ forall i, (i < n)%nat ->
    ((i < cc)%nat <-> (a < fst (pos i))%nat) /\ ((S i < cc)%nat -> (a + 2 < fst (pos i))%nat) /\ (S i = cc -> (cc < n)%nat -> (fst (pos i) <= a + 2)%nat).

Definition Okpos (pos : nat -> place) : Prop :=
  forall i, (i < n)%nat -> (fst (pos i) <= fin)%nat /\ (snd (pos i) = true -> hop (fst (pos i)) /\ exists v, val i (fst (pos i)) = inl v).

Definition fl_key (y : nat * nat * V) : nat := snd (fst y).
Definition FR (pos : nat -> place) (fl : list (nat * nat * V)) : Prop :=
  NoDup (map fl_key fl) /\ forall w x v, In (w, x, v) fl <-> exists i p, (i < n)%nat /\ pos i = (p, true) /\ w = wof p /\ x = nm i /\ val i p = inl v.

Record Inv (c : cfg V) (pos : nat -> place) (cc : nat) : Prop := {
  i_q : forall p, (p < fin)%nat -> QR p pos (c_qs c (qof p));
  i_names : NR cc (c_qs c (a + 1)%nat);
  i_fl : FR pos (c_fl c);
  i_tr : Permutation (item_events (c_tr c)) (flat_map (fun i => evs i (fst (pos i))) (seq 0 n));
  i_ok : Okpos pos;
  i_c : Chain pos cc
}.

Definition wt (pl : place) : nat := (2 * (fin - fst pl) + if snd pl then 0 else 1)%nat.
Definition Mp (pos : nat -> place) : nat := list_sum (map (fun i => wt (pos i)) (seq 0 n)).

Lemma flat_map_mv {X} (g : nat -> place -> list X) pos j pl extra : (j < n)%nat -> g j pl = g j (pos j) ++ extra ->
  Permutation (flat_map (fun i => g i (mv pos j pl i)) (seq 0 n)) (flat_map (fun i => g i (pos i)) (seq 0 n) ++ extra).
Proof.
  intros Hj He. assert (Hin : In j (seq 0 n)) by (apply in_seq; lia). pose proof (seq_NoDup n 0) as Hnd. revert Hin Hnd. generalize (seq 0 n). clear Hj.
  induction l as [|i l IH]; intros Hin Hnd; [destruct Hin|]. inversion Hnd as [|? ? N1 N2]; subst. cbn [flat_map]. unfold mv at 1. destruct (Nat.eqb_spec i j) as [->|N].
  - rewrite He, <- !app_assoc. apply Permutation_app_head. rewrite Permutation_app_comm. apply Permutation_app_tail.
    assert (E : flat_map (fun i => g i (mv pos j pl i)) l = flat_map (fun i => g i (pos i)) l).
    { clear IH Hin Hnd N2. induction l as [|z l IHl]; [reflexivity|]. cbn [flat_map]. unfold mv at 1. destruct (Nat.eqb_spec z j) as [->|]; [destruct N1; left; reflexivity|].
      rewrite IHl; [reflexivity|]. intros C. apply N1. right. exact C. }
    rewrite E. reflexivity.
  - destruct Hin as [C|Hin]; [congruence|]. rewrite <- app_assoc. apply Permutation_app_head. apply IH; assumption.
Qed.
Lemma Mp_mv pos j pl : (j < n)%nat -> (Mp (mv pos j pl) + wt (pos j) = Mp pos + wt pl)%nat.
Proof.
  intros Hj. unfold Mp. assert (Hin : In j (seq 0 n)) by (apply in_seq; lia). pose proof (seq_NoDup n 0) as Hnd. revert Hin Hnd. generalize (seq 0 n). clear Hj.
  induction l as [|i l IH]; intros Hin Hnd; [destruct Hin|]. inversion Hnd as [|? ? N1 N2]; subst. cbn [map list_sum fold_right]. unfold mv at 1. destruct (Nat.eqb_spec i j) as [->|N].
  - assert (E : map (fun i => wt (mv pos j pl i)) l = map (fun i => wt (pos i)) l).
    { apply map_ext_in. intros z Hz. unfold mv. destruct (Nat.eqb_spec z j) as [->|]; [contradiction|reflexivity]. }
    unfold list_sum in *. rewrite E. lia.
  - destruct Hin as [C|Hin]; [congruence|]. specialize (IH Hin N2). unfold list_sum in *. lia.
Qed.

Lemma evs_S i p : evs i (S p) = evs i p ++ ev i p.
Proof. unfold evs. rewrite seq_S, flat_map_app. cbn. rewrite app_nil_r. reflexivity. Qed.

(** ** works on one image *)
Lemma mv_same pos j pl : mv pos j pl j = pl. Proof. unfold mv. rewrite Nat.eqb_refl. reflexivity. Qed.
Lemma mv_other pos j pl i : i <> j -> mv pos j pl i = pos i. Proof. unfold mv. destruct (Nat.eqb_spec i j); congruence. Qed.

Lemma Chain_same pos cc j pl : fst pl = fst (pos j) -> Chain pos cc -> Chain (mv pos j pl) cc.
Proof.
  intros E [H1 H2]. split; [exact H1|]. intros i Hi. specialize (H2 i Hi). unfold mv. destruct (Nat.eqb_spec i j) as [->|]; [rewrite E|]; exact H2.
Qed.
Lemma Chain_hop pos cc j p x : (j < n)%nat -> hop p -> fst (pos j) = p -> Chain pos cc -> Chain (mv pos j (S p, x)) cc.
Proof.
  intros Hj Hp E [H1 H2]. split; [exact H1|]. intros i Hi. specialize (H2 i Hi). unfold mv. destruct (Nat.eqb_spec i j) as [->|]; [|exact H2].
  rewrite E in H2. cbn [fst]. unfold hop in Hp. lia.
Qed.

Lemma queues_pop pos qs j p it q' : (j < n)%nat -> (p < fin)%nat -> pos j = (p, false) -> qs (qof p) = (nm j, it) :: q' ->
  (forall p', (p' < fin)%nat -> QR p' pos (qs (qof p'))) -> forall p', (p' < fin)%nat -> QR p' (mv pos j (p, true)) (upd qs (qof p) q' (qof p')).
Proof.
  intros Hj Hp Hpos Eq HQ p' Hp'. unfold upd. destruct (Nat.eqb_spec (qof p') (qof p)) as [E|N].
  - apply qof_inj in E; try assumption. subst p'. apply (QR_pop p pos j _ it); [exact Hj|discriminate|]. rewrite <- Eq. apply HQ, Hp.
  - apply QR_other; [|discriminate|apply HQ, Hp']. rewrite Hpos. intros C. injection C as <-. congruence.
Qed.
Lemma queues_push pos qs j p : (j < n)%nat -> (p < fin)%nat -> pos j = (p, true) ->
  (forall p', (p' < fin)%nat -> QR p' pos (qs (qof p'))) ->
  forall p', (p' < fin)%nat -> QR p' (mv pos j (S p, false)) (put (if (S p =? fin)%nat then None else Some (qof (S p))) (nm j) (val j (S p)) qs (qof p')).
Proof.
  intros Hj Hp Hpos HQ p' Hp'. unfold put. destruct (Nat.eqb_spec (S p) fin) as [E|N].
  - apply QR_other; [congruence| |apply HQ, Hp']. intros C. injection C as <-. lia.
  - unfold upd. destruct (Nat.eqb_spec (qof p') (qof (S p))) as [E|N'].
    + apply qof_inj in E; [|lia|lia]. subst p'. apply QR_push; [exact Hj|congruence|apply HQ; lia].
    + apply QR_other; [congruence| |apply HQ, Hp']. intros C. injection C as <-. congruence.
Qed.
Lemma put_names p k (it : item V) (qs : queues V) : put (if (S p =? fin)%nat then None else Some (qof (S p))) k it qs (a + 1)%nat = qs (a + 1)%nat.
Proof.
  unfold put. destruct (S p =? fin)%nat; [reflexivity|]. unfold upd. destruct (Nat.eqb_spec (a + 1) (qof (S p))) as [E|]; [|reflexivity].
  symmetry in E. destruct (qof_names _ E).
Qed.

Lemma FR_perm pos fl fl' : Permutation fl' fl -> FR pos fl -> FR pos fl'.
Proof.
  intros HP [H1 H2]. split; [apply (Permutation_NoDup (Permutation_map fl_key (Permutation_sym HP)) H1)|].
  intros w x v. rewrite <- H2. split; apply Permutation_in; [|apply Permutation_sym]; exact HP.
Qed.
Lemma FR_keep pos j pl fl : snd (pos j) = false -> snd pl = false -> FR pos fl -> FR (mv pos j pl) fl.
Proof.
  intros E1 E2 [H1 H2]. split; [exact H1|]. intros w x v. rewrite H2. unfold mv. split; intros (i & p & Hi & Hp & H); exists i, p; (split; [exact Hi|]); (split; [|exact H]).
  - destruct (Nat.eqb_spec i j) as [->|]; [rewrite Hp in E1; discriminate|exact Hp].
  - destruct (Nat.eqb_spec i j) as [->|]; [rewrite Hp in E2; discriminate|exact Hp].
Qed.
Lemma FR_add pos j p v fl : (j < n)%nat -> snd (pos j) = false -> val j p = inl v -> FR pos fl -> FR (mv pos j (p, true)) ((wof p, nm j, v) :: fl).
Proof.
  intros Hj E Hv [H1 H2].
  assert (N : ~ In (nm j) (map fl_key fl)).
  { intros C. apply in_map_iff in C. destruct C as ([[w x] v'] & Ek & C). cbn in Ek. subst x. apply H2 in C. destruct C as (i & p' & Hi & Hp & _ & Ek & _).
    apply (Hnm j i Hj Hi) in Ek. subst i. rewrite Hp in E. discriminate. }
  split; [cbn; constructor; assumption|]. intros w x v'. cbn [In]. rewrite H2. unfold mv. split.
  - intros [C|(i & p' & Hi & Hp & H)].
    + injection C as <- <- <-. exists j, p. rewrite Nat.eqb_refl. auto.
    + exists i, p'. split; [exact Hi|]. destruct (Nat.eqb_spec i j) as [->|]; [rewrite Hp in E; discriminate|]. auto.
  - intros (i & p' & Hi & Hp & -> & -> & Hv'). destruct (Nat.eqb_spec i j) as [->|]; [|right; exists i, p'; auto].
    left. injection Hp as <-. rewrite Hv in Hv'. injection Hv' as <-. reflexivity.
Qed.
Lemma FR_del pos j p w v pl fl : (j < n)%nat -> snd pl = false -> FR pos ((w, nm j, v) :: fl) -> pos j = (p, true) -> FR (mv pos j pl) fl.
Proof.
  intros Hj E [H1 H2] Hpos. cbn in H1. inversion H1 as [|? ? N1 N2]; subst. split; [exact N2|]. intros w' x v'. unfold mv. split.
  - intros Hx. destruct (proj1 (H2 w' x v') (or_intror Hx)) as (i & p' & Hi & Hp & -> & -> & Hv). exists i, p'. split; [exact Hi|].
    destruct (Nat.eqb_spec i j) as [->|]; [|auto]. exfalso. apply N1. apply (in_map fl_key) in Hx. exact Hx.
  - intros (i & p' & Hi & Hp & -> & -> & Hv). destruct (Nat.eqb_spec i j) as [->|N]; [rewrite Hp in E; discriminate|].
    destruct (proj2 (H2 (wof p') (nm i) v')) as [C|Hx]; [exists i, p'; auto| |exact Hx]. injection C as _ C _. destruct N. apply Hnm; congruence.
Qed.

Lemma item_events_app (t1 t2 : list (event V)) : item_events (t1 ++ t2) = item_events t1 ++ item_events t2.
Proof. apply filter_app. Qed.

Lemma hop_lt p : hop p -> (p < fin)%nat. Proof. unfold hop, fin. lia. Qed.
Lemma ev_hop j p : hop p -> ev j p = match val j p with inl v => [ECall (wof p) (nm j) v (hop_f p (nm j) v)] | inr e => if (S p =? fin)%nat then [ELost (wof p) (nm j) e] else [] end.
Proof. unfold ev, hop. intros H. destruct (Nat.eqb_spec p a); [lia|]. destruct (Nat.eqb_spec p (a + 2)); [lia|]. reflexivity. Qed.

Lemma tr_step c tr' pos j p pl : (j < n)%nat -> fst (pos j) = p -> fst pl = S p ->
  Permutation (item_events (c_tr c)) (flat_map (fun i => evs i (fst (pos i))) (seq 0 n)) -> item_events tr' = item_events (c_tr c) ++ ev j p ->
  Permutation (item_events tr') (flat_map (fun i => evs i (fst (mv pos j pl i))) (seq 0 n)).
Proof.
  intros Hj E1 E2 H Ht. rewrite Ht. rewrite (flat_map_mv (fun i pl => evs i (fst pl)) pos j pl (ev j p) Hj); [apply Permutation_app_tail, H|].
  rewrite E1, E2. apply evs_S.
Qed.
Lemma tr_keep pos j pl (L : list (event V)) : fst pl = fst (pos j) -> Permutation L (flat_map (fun i => evs i (fst (pos i))) (seq 0 n)) ->
  Permutation L (flat_map (fun i => evs i (fst (mv pos j pl i))) (seq 0 n)).
Proof.
  intros E H. rewrite H. erewrite (flat_map_ext (fun i => evs i (fst (mv pos j pl i)))); [reflexivity|]. intros i. unfold mv. destruct (Nat.eqb_spec i j) as [->|]; [rewrite E|]; reflexivity.
Qed.

Lemma item_inv c c' i k pos cc : Inv c pos cc -> item_trans ws i k c c' ->
  exists j p pl, (j < n)%nat /\ hop p /\ i = wof p /\ Inv c' (mv pos j pl) cc /\
    ((pos j = (p, false) /\ pl = (p, true)) \/ (pos j = (p, false) /\ pl = (S p, false)) \/ (pos j = (p, true) /\ pl = (S p, false))).
Proof.
  intros HI HT. destruct HT as [w inq f v q' Hw Hbd Hq Hq' Hf Ht|w inq f e q' Hw Hbd Hq Hq' Hf Ht|w inq f v Hw Hbd Hf Hq' Ht];
    destruct (work_hop i w inq f Hw Hbd) as (p & Hp & -> & -> & -> & Ho); pose proof (hop_lt p Hp) as Hpf; destruct HI as [I1 I2 I3 I4 I5 I6].
  - pose proof (I1 p Hpf) as HQ. rewrite Hq in HQ. destruct (QR_head _ _ _ _ _ HQ) as (j & Hj & Hpos & -> & Hv).
    exists j, p, (p, true). repeat (split; [assumption || reflexivity|]). split; [|left; auto]. constructor.
    + rewrite Hq'. intros p' Hp'. eapply queues_pop; eassumption.
    + rewrite Hq'. unfold upd. destruct (Nat.eqb_spec (a + 1) (qof p)) as [E|]; [symmetry in E; destruct (qof_names _ E)|]. exact I2.
    + apply (FR_perm _ ((wof p, nm j, v) :: c_fl c)); [exact Hf|]. apply FR_add; try assumption; [rewrite Hpos; reflexivity|congruence].
    + rewrite Ht. apply tr_keep; [rewrite Hpos; reflexivity|exact I4].
    + intros z Hz. unfold mv. destruct (Nat.eqb_spec z j) as [->|]; [|apply I5, Hz]. cbn. split; [lia|]. intros _. split; [exact Hp|]. exists v. congruence.
    + apply Chain_same; [rewrite Hpos; reflexivity|exact I6].
  - pose proof (I1 p Hpf) as HQ. rewrite Hq in HQ. destruct (QR_head _ _ _ _ _ HQ) as (j & Hj & Hpos & -> & Hv).
    exists j, p, (S p, false). repeat (split; [assumption || reflexivity|]). split; [|right; left; auto].
    assert (Hv' : @inr V exn e = val j (S p)) by (rewrite val_hop, <- Hv by exact Hp; reflexivity). constructor.
    + rewrite Hq', Ho. intros p' Hp'. rewrite Hv'.
      apply (QR_ext p' (mv (mv pos j (p, true)) j (S p, false))).
      { intros z _. unfold mv. destruct (Nat.eqb_spec z j); tauto. }
      apply queues_push; try assumption; [apply mv_same|]. eapply queues_pop; eassumption.
    + rewrite Hq', Ho, put_names. unfold upd. destruct (Nat.eqb_spec (a + 1) (qof p)) as [E|]; [symmetry in E; destruct (qof_names _ E)|]. exact I2.
    + apply (FR_perm _ (c_fl c)); [exact Hf|]. apply FR_keep; [rewrite Hpos; reflexivity|reflexivity|exact I3].
    + apply (tr_step c _ pos j p (S p, false)); try assumption; try reflexivity; [rewrite Hpos; reflexivity|]. rewrite Ht, item_events_app. f_equal.
      rewrite ev_hop, <- Hv, Ho by exact Hp. destruct (S p =? fin)%nat; reflexivity.
    + intros z Hz. unfold mv. destruct (Nat.eqb_spec z j) as [->|]; [|apply I5, Hz]. cbn. split; [lia|discriminate].
    + apply Chain_hop; try assumption. rewrite Hpos. reflexivity.
  - pose proof (FR_perm _ _ _ (Permutation_sym Hf) I3) as HF. destruct (proj1 (proj2 HF (wof p) k v)) as (j & p' & Hj & Hpos & Ew & -> & Hv); [left; reflexivity|].
    assert (p' = p).
    { destruct (I5 j Hj) as [_ I]. rewrite Hpos in I. destruct (I eq_refl) as [Hp' _]. cbn in Hp'. clear -Ew Hp Hp'.
      unfold wof, hop, fin in *. destruct (Nat.ltb_spec p a), (Nat.eqb_spec p (a + 1)), (Nat.ltb_spec p' a), (Nat.eqb_spec p' (a + 1)); lia. }
    subst p'. exists j, p, (S p, false). repeat (split; [assumption || reflexivity|]). split; [|right; right; auto].
    assert (Hv' : hop_f p (nm j) v = val j (S p)) by (rewrite val_hop, Hv by exact Hp; reflexivity). constructor.
    + rewrite Hq', Ho, Hv'. apply queues_push; try assumption.
    + rewrite Hq', Ho, put_names. exact I2.
    + eapply FR_del; try eassumption. reflexivity.
    + apply (tr_step c _ pos j p (S p, false)); try assumption; try reflexivity; [rewrite Hpos; reflexivity|]. rewrite Ht, item_events_app. f_equal.
      rewrite ev_hop, Hv by exact Hp. reflexivity.
    + intros z Hz. unfold mv. destruct (Nat.eqb_spec z j) as [->|]; [|apply I5, Hz]. cbn. split; [lia|discriminate].
    + apply Chain_hop; try assumption. rewrite Hpos. reflexivity.
Qed.

(** ** make_couples *)
Definition SI (s : st5 V) (pos : nat -> place) (cc : nat) : Prop :=
  QR (a + 2) pos (q_mod0 s) /\ QR a pos (q_angles s) /\ NR cc (q_names s) /\ QR (a + 3) pos (q_mod s) /\ QR (a + 1) pos (q_couples s) /\ Chain pos cc.

Definition Moved (pos pos' : nat -> place) : Prop := forall i, (i < n)%nat ->
  pos' i = pos i \/ (pos i = (a, false) /\ pos' i = (a + 1, false)%nat) \/ (pos i = (a + 2, false)%nat /\ pos' i = (a + 3, false)%nat).
Definition able (pos : nat -> place) (cc : nat) : Prop := (cc < n)%nat /\ pos cc = (a, false) /\ (cc = 0%nat \/ pos (pred cc) = (a + 2, false)%nat).

Lemma NR_del cc q : (cc < n)%nat -> NR cc q -> exists q', q_del (kn cc) q = Ok q' /\ NR (S cc) q'.
Proof.
  intros Hc [H1 H2]. destruct (q_del_spec (kn cc) (snd (entry cc)) q H1) as (q' & E & N & Hq').
  - apply H2. exists cc. split; [lia|reflexivity].
  - exists q'. split; [exact E|]. split; [exact N|]. intros x. rewrite Hq', H2. split.
    + intros ((i & Hi & ->) & Hx). exists i. split; [|reflexivity]. cbn [entry fst] in Hx. assert (i <> cc) by congruence. lia.
    + intros (i & Hi & ->). split; [exists i; split; [lia|reflexivity]|]. cbn [entry fst]. intros Ek. apply Hkn in Ek; lia.
Qed.
Lemma QR_take p pos q j : (j < n)%nat -> QR p pos q -> pos j = (p, false) ->
  q_get (nm j) q = Ok (val j p) /\ exists q', q_del (nm j) q = Ok q' /\ forall pl, pl <> (p, false) -> QR p (mv pos j pl) q'.
Proof.
  intros Hj HQ Hp. pose proof (QR_in p pos q j HQ Hj Hp) as Hin. pose proof HQ as [H1 _]. split; [apply q_get_In; assumption|].
  destruct (q_del_spec (nm j) (val j p) q H1 Hin) as (q' & E & N & Hq'). exists q'. split; [exact E|]. intros pl Hpl. eapply QR_out; eassumption.
Qed.

Lemma pos_dec (x y : place) : {x = y} + {x <> y}.
Proof. decide equality; [apply Bool.bool_dec|apply Nat.eq_dec]. Qed.
Lemma able_dec pos cc : {able pos cc} + {~ able pos cc}.
Proof.
  unfold able. destruct (Compare_dec.lt_dec cc n) as [H1|H1]; [|right; tauto]. destruct (pos_dec (pos cc) (a, false)) as [H2|H2]; [|right; tauto].
  destruct (Nat.eq_dec cc 0) as [H3|H3]; [left; tauto|]. destruct (pos_dec (pos (pred cc)) (a + 2, false)%nat); [left|right]; tauto.
Qed.

Lemma couple1 s pos cc i : SI s pos cc -> (cc <= i < n)%nat ->
  (i = cc /\ able pos cc /\ exists s' pos', make_couple1 names_of mk_pair s (entry i) = Ok s' /\ SI s' pos' (S cc) /\ Moved pos pos' /\ (Mp pos' < Mp pos)%nat)
  \/ (make_couple1 names_of mk_pair s (entry i) = Ok s /\ ~ (i = cc /\ able pos cc)).
Proof.
  intros (S0 & Sa & Sn & Sm & Sc & HC) Hi. unfold make_couple1, entry, names_in. rewrite Hnames.
  pose proof HC as [Hcn HC2].
  destruct (Nat.eq_dec i 0) as [->|Ni].
  - assert (cc = 0%nat) by lia. subst cc. cbn [pred]. rewrite Nat.eqb_refl.
    destruct (q_mem (nm 0) (q_angles s)) eqn:Em.
    + left. apply (QR_mem a pos) in Em; try assumption; try lia. split; [reflexivity|]. split; [unfold able; auto|].
      destruct (QR_take a pos (q_angles s) 0 ltac:(lia) Sa Em) as (Eg & qa & Ea & Ha). destruct (NR_del 0 _ ltac:(lia) Sn) as (qn & En & HN).
      rewrite Eg. cbn [bind]. rewrite Ea. cbn [bind]. rewrite En. cbn [bind]. eexists. exists (mv pos 0 (a + 1, false)%nat). split; [reflexivity|]. split; [|split].
      * unfold SI. cbn [q_mod0 q_angles q_names q_mod q_couples]. split; [|split; [|split; [|split; [|split]]]].
        -- apply QR_other; [rewrite Em|..]; try assumption; intros C; injection C; lia.
        -- apply Ha. intros C; injection C; lia.
        -- exact HN.
        -- apply QR_other; [rewrite Em|..]; try assumption; intros C; injection C; lia.
        -- rewrite val_a. change (inl (mk_pair (ang (nm 0)) (ang (nm 0)))) with (@inl V exn (pr 0)). rewrite <- val_a1.
           apply QR_push; [lia|rewrite Em; intros C; injection C; lia|exact Sc].
        -- split; [lia|]. intros z Hz. unfold mv. destruct (Nat.eqb_spec z 0) as [->|]; cbn [fst]; [lia|]. specialize (HC2 z Hz). lia.
      * intros z Hz. unfold mv. destruct (Nat.eqb_spec z 0) as [->|]; [right; left; auto|left; reflexivity].
      * pose proof (Mp_mv pos 0 (a + 1, false)%nat ltac:(lia)) as HM. rewrite Em in HM. unfold wt, fin in HM. cbn [fst snd] in HM. lia.
    + right. split; [reflexivity|]. intros [_ (_ & Hp & _)]. apply (QR_mem a pos (q_angles s)) in Hp; try assumption; try lia; congruence.
  - destruct (Nat.eqb_spec (nm (pred i)) (nm i)) as [E|_]; [apply Hnm in E; lia|].
    destruct (q_mem (nm (pred i)) (q_mod0 s) && q_mem (nm i) (q_angles s)) eqn:Em.
    + left. apply andb_true_iff in Em. destruct Em as [E0 Ea]. apply (QR_mem (a + 2) pos) in E0; try assumption; try lia. apply (QR_mem a pos) in Ea; try assumption; try lia.
      assert (i = cc). { pose proof (HC2 (pred i) ltac:(lia)) as [Hx _]. rewrite E0 in Hx. cbn [fst] in Hx. lia. } subst i.
      split; [reflexivity|]. split; [unfold able; split; [lia|auto]|].
      destruct (QR_take (a + 2) pos (q_mod0 s) (pred cc) ltac:(lia) S0 E0) as (Eg0 & q0 & Ed0 & H0).
      destruct (QR_take a pos (q_angles s) cc ltac:(lia) Sa Ea) as (Eg & qa & Eda & Ha). destruct (NR_del cc _ ltac:(lia) Sn) as (qn & En & HN).
      rewrite Eg0. cbn [bind]. rewrite Eg. cbn [bind]. rewrite Eda. cbn [bind]. rewrite En. cbn [bind]. rewrite Ed0. cbn [bind].
      assert (Nc : pred cc <> cc) by lia.
      eexists. exists (mv (mv pos (pred cc) (a + 3, false)%nat) cc (a + 1, false)%nat). split; [reflexivity|]. split; [|split].
      * unfold SI. cbn [q_mod0 q_angles q_names q_mod q_couples]. split; [|split; [|split; [|split; [|split]]]].
        -- apply QR_other; [rewrite mv_other by lia; rewrite Ea; intros C; injection C; lia|intros C; injection C; lia|]. apply H0. intros C; injection C; lia.
        -- assert (HX : QR a (mv pos cc (a + 1, false)%nat) qa) by (apply Ha; intros C; injection C; lia). revert HX. apply QR_ext.
           intros z Hz. unfold mv. destruct (Nat.eqb_spec z cc) as [->|]; [tauto|]. destruct (Nat.eqb_spec z (pred cc)) as [->|]; [|tauto].
           rewrite E0. split; intros C; injection C; lia.
        -- exact HN.
        -- apply QR_other; [rewrite mv_other by lia; rewrite Ea; intros C; injection C; lia|intros C; injection C; lia|].
           rewrite val_a2, <- val_a3. apply QR_push; [lia|rewrite E0; intros C; injection C; lia|exact Sm].
        -- replace (@inl V exn (mk_pair (val (pred cc) (a + 2)) (val cc a))) with (val cc (a + 1)).
           2: { rewrite val_a1, val_a2, val_a. destruct cc as [|cc']; [lia|]. reflexivity. }
           apply QR_push; [lia|rewrite mv_other by lia; rewrite Ea; intros C; injection C; lia|].
           apply QR_other; [rewrite E0; intros C; injection C; lia|intros C; injection C; lia|exact Sc].
        -- split; [lia|]. intros z Hz. specialize (HC2 z Hz). unfold mv. destruct (Nat.eqb_spec z cc) as [->|]; cbn [fst]; [lia|].
           destruct (Nat.eqb_spec z (pred cc)) as [->|]; cbn [fst]; [lia|]. lia.
      * intros z Hz. unfold mv. destruct (Nat.eqb_spec z cc) as [->|]; [right; left; auto|]. destruct (Nat.eqb_spec z (pred cc)) as [->|]; [right; right; auto|left; reflexivity].
      * pose proof (Mp_mv pos (pred cc) (a + 3, false)%nat ltac:(lia)) as HM. rewrite E0 in HM.
        pose proof (Mp_mv (mv pos (pred cc) (a + 3, false)%nat) cc (a + 1, false)%nat ltac:(lia)) as HM2. rewrite mv_other in HM2 by lia. rewrite Ea in HM2.
        unfold wt, fin in HM, HM2. cbn [fst snd] in HM, HM2. lia.
    + right. split; [reflexivity|]. intros [-> (Hc & Hp & [?|Hp2])]; [lia|].
      apply (QR_mem a pos (q_angles s)) in Hp; [|assumption|lia]. apply (QR_mem (a + 2) pos (q_mod0 s)) in Hp2; [|assumption|lia]. rewrite Hp, Hp2 in Em. discriminate.
Qed.

Lemma Moved_refl pos : Moved pos pos. Proof. intros i _. left. reflexivity. Qed.
Lemma Moved_trans pos1 pos2 pos3 : Moved pos1 pos2 -> Moved pos2 pos3 -> Moved pos1 pos3.
Proof.
  intros H1 H2 i Hi. specialize (H1 i Hi). specialize (H2 i Hi).
  destruct H1 as [E1|[[E1 E1']|[E1 E1']]], H2 as [E2|[[E2 E2']|[E2 E2']]]; rewrite ?E1, ?E1', ?E2, ?E2' in *; auto;
    try (exfalso; first [injection E2; lia | injection E1'; lia]).
Qed.

Lemma couple_loop l : forall s pos cc, SI s pos cc -> NoDup (keys l) -> (forall x, In x l -> exists i, (cc <= i < n)%nat /\ x = entry i) ->
  exists s' pos' cc', py_for (make_couple1 names_of mk_pair) l s = Ok s' /\ SI s' pos' cc' /\ Moved pos pos' /\
    ((s' = s /\ pos' = pos /\ cc' = cc /\ (In (entry cc) l -> ~ able pos cc)) \/ (Mp pos' < Mp pos)%nat).
Proof.
  induction l as [|x l IH]; intros s pos cc HS Hnd Hl.
  - exists s, pos, cc. split; [reflexivity|]. split; [exact HS|]. split; [apply Moved_refl|]. left. auto.
  - cbn in Hnd. inversion Hnd as [|? ? N1 N2]; subst. destruct (Hl x (or_introl eq_refl)) as (i & Hi & ->). cbn [py_for].
    destruct (couple1 s pos cc i HS Hi) as [(-> & Hab & s1 & pos1 & E & HS1 & HM & HMp)|(E & Hab)]; rewrite E.
    + destruct (IH s1 pos1 (S cc) HS1 N2) as (s' & pos' & cc' & E' & HS' & HM' & HP).
      { intros x Hx. destruct (Hl x (or_intror Hx)) as (z & Hz & ->). exists z. split; [|reflexivity]. assert (z <> cc); [|lia]. intros ->. apply N1. apply (in_map fst) in Hx. exact Hx. }
      exists s', pos', cc'. split; [exact E'|]. split; [exact HS'|]. split; [eapply Moved_trans; eassumption|]. right. destruct HP as [(_ & -> & _)|HP]; lia.
    + destruct (IH s pos cc HS N2 (fun x Hx => Hl x (or_intror Hx))) as (s' & pos' & cc' & E' & HS' & HM' & HP).
      exists s', pos', cc'. split; [exact E'|]. split; [exact HS'|]. split; [exact HM'|]. destruct HP as [(-> & -> & -> & HP)|HP]; [left|right; exact HP].
      repeat split. intros [C|C]; [|apply HP, C]. intros Hab'. apply Hab. split; [|exact Hab']. unfold entry in C. injection C as C _.
      apply Hkn; try assumption; destruct Hab' as (? & _); lia.
Qed.

(** the last image can be moved *)
Definition movable (pos : nat -> place) (cc : nat) : Prop := cc = n /\ pos (pred n) = (a + 2, false)%nat.

Lemma glob_couples s pos cc : SI s pos cc ->
  exists s' pos' cc', make_couples names_of mk_pair s = Ok s' /\ SI s' pos' cc' /\ Moved pos pos' /\
    ((s' = s /\ pos' = pos /\ cc' = cc /\ ~ able pos cc /\ ~ movable pos cc) \/ (Mp pos' < Mp pos)%nat).
Proof.
  intros HS. pose proof HS as (S0 & Sa & Sn & Sm & Sc & HC). pose proof HC as [Hcn HC2]. unfold make_couples.
  destruct (Nat.eq_dec cc n) as [->|Nc].
  - assert (En : q_names s = []).
    { destruct (q_names s) as [|x q]; [reflexivity|]. destruct (proj1 (proj2 Sn x) (or_introl eq_refl)) as (i & Hi & _). lia. }
    assert (Hmod : forall j, (j < n)%nat -> pos j = (a + 2, false)%nat -> j = pred n).
    { intros j Hj Hp. specialize (HC2 j Hj). rewrite Hp in HC2. cbn [fst] in HC2. lia. }
    assert (HE : exists s1 pos1, move_all s = Ok s1 /\ SI s1 pos1 n /\ Moved pos pos1 /\ ((s1 = s /\ pos1 = pos /\ ~ movable pos n) \/ (Mp pos1 < Mp pos)%nat)).
    { destruct (q_mod0 s) as [|[k it] q] eqn:E0.
      - exists s, pos. unfold move_all. rewrite E0. split; [reflexivity|]. split; [exact HS|]. split; [apply Moved_refl|].
        left. repeat split. intros [_ Hp]. apply (proj1 (QR_nil _ _ _ S0) eq_refl (pred n)); [lia|exact Hp].
      - pose proof S0 as S0'. apply QR_head in S0'. destruct S0' as (j & Hj & Hp & -> & ->). pose proof (Hmod j Hj Hp). subst j.
        assert (q = []).
        { pose proof S0 as [N1 N2]. cbn in N1. inversion N1 as [|? ? N3 N4]; subst. destruct q as [|[k2 it2] q]; [reflexivity|]. exfalso.
          destruct (proj1 (N2 k2 it2)) as (i & Hi & Hpi & -> & _); [right; left; reflexivity|]. apply Hmod in Hpi; [|exact Hi]. subst i. apply N3. left. reflexivity. }
        subst q. unfold move_all. rewrite E0. cbn [map fst py_for]. rewrite E0. cbn [q_get q_del]. rewrite !Nat.eqb_refl. cbn [bind].
        eexists. exists (mv pos (pred n) (a + 3, false)%nat). split; [reflexivity|]. split; [|split].
        + unfold SI. cbn [q_mod0 q_angles q_names q_mod q_couples]. split; [|split; [|split; [|split; [|split]]]].
          * eapply QR_pop; [exact Hj|intros C; injection C; lia|exact S0].
          * apply QR_other; [rewrite Hp; intros C; injection C; lia|intros C; injection C; lia|exact Sa].
          * exact Sn.
          * rewrite val_a2, <- val_a3. apply QR_push; [lia|rewrite Hp; intros C; injection C; lia|exact Sm].
          * apply QR_other; [rewrite Hp; intros C; injection C; lia|intros C; injection C; lia|exact Sc].
          * split; [lia|]. intros z Hz. specialize (HC2 z Hz). unfold mv. destruct (Nat.eqb_spec z (pred n)) as [->|]; cbn [fst]; lia.
        + intros z Hz. unfold mv. destruct (Nat.eqb_spec z (pred n)) as [->|]; [right; right; auto|left; reflexivity].
        + right. pose proof (Mp_mv pos (pred n) (a + 3, false)%nat Hj) as HM. rewrite Hp in HM. unfold wt, fin in HM. cbn [fst snd] in HM. lia. }
    destruct HE as (s1 & pos1 & E & HS1 & HM & HP). rewrite En, E. cbn [bind].
    assert (Ea : q_angles s1 = []).
    { destruct HS1 as (_ & Sa1 & _ & _ & _ & HC1). apply (QR_nil _ _ _ Sa1). intros j Hj Hpj. destruct HC1 as [_ HC1]. specialize (HC1 j Hj). rewrite Hpj in HC1. cbn [fst] in HC1. lia. }
    rewrite Ea. exists s1, pos1, n. split; [reflexivity|]. split; [exact HS1|]. split; [exact HM|].
    destruct HP as [(-> & -> & HP)|HP]; [left|right; exact HP]. repeat split; try assumption. intros (? & _). lia.
  - assert (En : q_names s <> []).
    { intros E. assert (HIn : In (entry cc) (q_names s)) by (apply Sn; exists cc; split; [lia|reflexivity]). rewrite E in HIn. destruct HIn. }
    destruct (q_names s) as [|x q] eqn:Eq; [congruence|]. cbn [bind]. rewrite Eq.
    destruct (q_angles s) as [|y qa] eqn:Ea.
    + exists s, pos, cc. split; [reflexivity|]. split; [exact HS|]. split; [apply Moved_refl|]. left. repeat split.
      * intros (Hc & Hp & _). apply (proj1 (QR_nil _ _ _ Sa) eq_refl cc Hc Hp).
      * intros [C _]. lia.
    + destruct (couple_loop (x :: q) s pos cc HS) as (s' & pos' & cc' & E & HS' & HM & HP).
      * apply Sn.
      * intros z Hz. apply Sn in Hz. exact Hz.
      * exists s', pos', cc'. split; [exact E|]. split; [exact HS'|]. split; [exact HM|]. destruct HP as [(-> & -> & -> & HP)|HP]; [left|right; exact HP].
        repeat split; [|intros [C _]; lia]. apply HP. apply Sn. exists cc. split; [lia|reflexivity].
Qed.

Definition pos_eqq (qs qs' : queues V) : Prop := forall q, (q < nq)%nat -> qs' q = qs q.

Lemma ev_a i : ev i a = []. Proof. unfold ev. rewrite Nat.eqb_refl. reflexivity. Qed.
Lemma ev_a2 i : ev i (a + 2) = []. Proof. unfold ev. destruct (Nat.eqb_spec (a + 2) a); [reflexivity|]. rewrite Nat.eqb_refl. reflexivity. Qed.

Lemma Moved_evs pos pos' : Moved pos pos' -> flat_map (fun i => evs i (fst (pos' i))) (seq 0 n) = flat_map (fun i => evs i (fst (pos i))) (seq 0 n).
Proof.
  intros H. rewrite !flat_map_concat_map. f_equal. apply map_ext_in. intros i Hi. apply in_seq in Hi. destruct (H i ltac:(lia)) as [->|[[-> ->]|[-> ->]]]; cbn [fst].
  - reflexivity.
  - replace (a + 1)%nat with (S a) by lia. rewrite evs_S, ev_a, app_nil_r. reflexivity.
  - replace (a + 3)%nat with (S (a + 2)) by lia. rewrite evs_S, ev_a2, app_nil_r. reflexivity.
Qed.
Lemma Moved_FR pos pos' fl : Moved pos pos' -> FR pos fl -> FR pos' fl.
Proof.
  intros H [H1 H2]. split; [exact H1|]. intros w x v. rewrite H2. split; intros (i & p & Hi & Hp & HH); exists i, p; (split; [exact Hi|]); (split; [|exact HH]);
    destruct (H i Hi) as [E|[[E E']|[E E']]]; congruence.
Qed.
Lemma Moved_ok pos pos' : Moved pos pos' -> Okpos pos -> Okpos pos'.
Proof.
  intros H HO i Hi. specialize (HO i Hi). destruct (H i Hi) as [E|[[E E']|[E E']]]; [rewrite E; exact HO|rewrite E'..]; cbn [fst snd]; (split; [unfold fin; lia|discriminate]).
Qed.

Lemma glob_inv qs fl tr pos cc : Inv (mk_cfg qs fl tr) pos cc ->
  exists qs' pos' cc', surf_glob names_of mk_pair a qs = Ok qs' /\ (forall fl' i, Permutation fl' fl -> Inv (mk_cfg qs' fl' (tr ++ [EGlobal i])) pos' cc') /\ Moved pos pos' /\
    ((pos' = pos /\ cc' = cc /\ pos_eqq qs qs' /\ ~ able pos cc /\ ~ movable pos cc) \/ (Mp pos' < Mp pos)%nat).
Proof.
  intros [I1 I2 I3 I4 I5 I6]. cbn [c_qs c_fl c_tr] in *. unfold surf_glob.
  assert (F : (a + 3 < fin)%nat) by (unfold fin, b; lia).
  assert (E0 : qof a = a) by (unfold qof; rewrite Nat.leb_refl; reflexivity).
  assert (E1 : qof (a + 1) = (a + 3)%nat) by (unfold qof; destruct (Nat.leb_spec (a + 1) a); [lia|]; rewrite Nat.eqb_refl; reflexivity).
  assert (E2 : qof (a + 2) = (a + 2)%nat) by (unfold qof; destruct (Nat.leb_spec (a + 2) a), (Nat.eqb_spec (a + 2) (a + 1)); try lia; rewrite Nat.eqb_refl; reflexivity).
  assert (E3 : qof (a + 3) = (a + 4)%nat) by (unfold qof; destruct (Nat.leb_spec (a + 3) a), (Nat.eqb_spec (a + 3) (a + 1)), (Nat.eqb_spec (a + 3) (a + 2)); lia).
  destruct (glob_couples (mk_st5 (qs (a + 2)%nat) (qs a) (qs (a + 1)%nat) (qs (a + 4)%nat) (qs (a + 3)%nat)) pos cc) as (s' & pos' & cc' & E & HS' & HM & HP).
  { pose proof (I1 a ltac:(lia)) as J0. pose proof (I1 (a + 1)%nat ltac:(lia)) as J1. pose proof (I1 (a + 2)%nat ltac:(lia)) as J2. pose proof (I1 (a + 3)%nat ltac:(lia)) as J3.
    rewrite E0 in J0. rewrite E1 in J1. rewrite E2 in J2. rewrite E3 in J3. unfold SI. cbn [q_mod0 q_angles q_names q_mod q_couples]. tauto. }
  rewrite E. cbn [bind]. eexists. exists pos', cc'. split; [reflexivity|]. split; [|split; [exact HM|]].
  - intros fl' i Hfl. destruct HS' as (S0 & Sa & Sn & Sm & Sc & HC). constructor; cbn [c_qs c_fl c_tr].
    + intros p Hp. destruct (Nat.eq_dec p a) as [->|D0]; [rewrite E0|destruct (Nat.eq_dec p (a + 1)) as [->|D1]; [rewrite E1|destruct (Nat.eq_dec p (a + 2)) as [->|D2]; [rewrite E2|destruct (Nat.eq_dec p (a + 3)) as [->|D3]; [rewrite E3|]]]].
      1-4: unfold upd; repeat match goal with |- context [Nat.eqb ?x ?y] => destruct (Nat.eqb_spec x y); try lia end; assumption.
      assert (K : (qof p <> a /\ qof p <> a + 1 /\ qof p <> a + 2 /\ qof p <> a + 3 /\ qof p <> a + 4)%nat).
      { clear -D0 D1 D2 D3. unfold qof. destruct (Nat.leb_spec p a), (Nat.eqb_spec p (a+1)), (Nat.eqb_spec p (a+2)); lia. }
      destruct K as (K0 & K1 & K2 & K3 & K4). unfold upd.
      repeat match goal with |- context [Nat.eqb ?x ?y] => destruct (Nat.eqb_spec x y); [contradiction|] end.
      apply (QR_ext p pos); [|apply I1, Hp]. intros i0 Hi0. destruct (HM i0 Hi0) as [->|[[-> ->]|[-> ->]]]; [tauto|split; intros C; injection C; lia..].
    + unfold upd. repeat match goal with |- context [Nat.eqb ?x ?y] => destruct (Nat.eqb_spec x y); try lia end. exact Sn.
    + apply (Moved_FR pos); [exact HM|]. eapply FR_perm; eassumption.
    + rewrite item_events_app. cbn. rewrite app_nil_r, (Moved_evs _ _ HM). exact I4.
    + apply (Moved_ok pos); assumption.
    + exact HC.
  - destruct HP as [(-> & -> & -> & H1 & H2)|HP]; [left|right; exact HP]. repeat split; try assumption.
    intros q _. cbn [q_mod0 q_angles q_names q_mod q_couples]. unfold upd.
    repeat match goal with |- context [Nat.eqb ?x ?y] => destruct (Nat.eqb_spec x y); [subst; reflexivity|] end. reflexivity.
Qed.

(** ** executions *)
Lemma inv_trans c c' pos cc : Inv c pos cc -> atrans ws c c' -> exists pos' cc', Inv c' pos' cc' /\ (Mp pos' <= Mp pos)%nat.
Proof.
  intros HI [(i & k & HT)|(i & HT)].
  - destruct (item_inv c c' i k pos cc HI HT) as (j & p & pl & Hj & Hp & _ & HI' & HC). exists (mv pos j pl), cc. split; [exact HI'|].
    pose proof (Mp_mv pos j pl Hj) as HM. pose proof (hop_lt p Hp). unfold wt in HM. destruct HC as [(E1 & ->)|[(E1 & ->)|(E1 & ->)]]; rewrite E1 in HM; cbn [fst snd] in HM; lia.
  - destruct HT as [w ready g Hw Hbd Hg Hf Ht].
    destruct (ws_cases_surf names_of mk_pair pre post correct _ _ Hw) as [(_ & io & f & ->)|[(-> & ->)|[(_ & ->)|(j & io & f & _ & _ & ->)]]]; cbn in Hbd; try discriminate.
    injection Hbd as <- <-. destruct c as [qs fl tr]. destruct c' as [qs' fl' tr']. cbn [c_qs c_fl c_tr] in *.
    destruct (glob_inv qs fl tr pos cc HI) as (qs2 & pos' & cc' & E & HI' & _ & HP). fold a in Hg. rewrite E in Hg. injection Hg as ->. subst tr'.
    exists pos', cc'. split; [apply HI', Hf|]. destruct HP as [(-> & _)|HP]; lia.
Qed.
Lemma item_lt c c' i k pos cc : Inv c pos cc -> item_trans ws i k c c' -> exists pos', Inv c' pos' cc /\ (Mp pos' < Mp pos)%nat.
Proof.
  intros HI HT. destruct (item_inv c c' i k pos cc HI HT) as (j & p & pl & Hj & Hp & _ & HI' & HC). exists (mv pos j pl). split; [exact HI'|].
  pose proof (Mp_mv pos j pl Hj) as HM. pose proof (hop_lt p Hp). unfold wt in HM. destruct HC as [(E1 & ->)|[(E1 & ->)|(E1 & ->)]]; rewrite E1 in HM; cbn [fst snd] in HM; lia.
Qed.
Lemma inv_ext c c' pos cc : Inv c pos cc -> c_qs c' = c_qs c -> Permutation (c_fl c') (c_fl c) -> c_tr c' = c_tr c -> Inv c' pos cc.
Proof. intros [I1 I2 I3 I4 I5 I6] E1 E2 E3. constructor; rewrite ?E1, ?E3; try assumption. eapply FR_perm; eassumption. Qed.

Definition idle (i : nat) (pos : nat -> place) (cc : nat) : Prop :=
  if Nat.eqb i a then ~ able pos cc /\ ~ movable pos cc else forall p, hop p -> wof p = i -> forall j, (j < n)%nat -> pos j <> (p, false).

Lemma fl_nil c pos cc : Inv c pos cc -> c_fl c = [] -> forall i, (i < n)%nat -> snd (pos i) = false.
Proof.
  intros HI Hfl i Hi. destruct (snd (pos i)) eqn:E; [|reflexivity]. exfalso. destruct (i_ok _ _ _ HI i Hi) as [_ HO]. destruct (HO E) as [Hp (v & Hv)].
  destruct (i_fl _ _ _ HI) as [_ HF]. rewrite Hfl in HF. apply (proj2 (HF (wof (fst (pos i))) (nm i) v)). exists i, (fst (pos i)). repeat split; try assumption.
  rewrite (surjective_pairing (pos i)), E. reflexivity.
Qed.

Lemma all_idle_fin c pos cc : Inv c pos cc -> c_fl c = [] -> (forall i, (i < List.length ws)%nat -> idle i pos cc) -> cc = n /\ forall i, (i < n)%nat -> fst (pos i) = fin.
Proof.
  intros HI Hfl Hid. pose proof (fl_nil c pos cc HI Hfl) as Hsnd.
  assert (Hlen : List.length ws = (a + 2 + b)%nat).
  { unfold ws, surf_works. rewrite !app_length, !map_length, !combine_length, !seq_length. cbn [List.length]. unfold a, b. lia. }
  assert (Hhop : forall p, hop p -> forall j, (j < n)%nat -> fst (pos j) <> p).
  { intros p Hp j Hj E. destruct (hop_work p Hp) as (w & Hw & Hbd & _).
    assert (Hlt : (wof p < List.length ws)%nat) by (apply nth_error_Some; congruence). specialize (Hid _ Hlt). unfold idle in Hid.
    destruct (Nat.eqb_spec (wof p) a) as [Ea|_].
    - clear -Ea Hp. unfold wof, hop in *. destruct (Nat.ltb_spec p a), (Nat.eqb_spec p (a + 1)); lia.
    - apply (Hid p Hp eq_refl j Hj). rewrite (surjective_pairing (pos j)), E, (Hsnd j Hj). reflexivity. }
  assert (Hg : ~ able pos cc /\ ~ movable pos cc).
  { specialize (Hid a ltac:(lia)). unfold idle in Hid. rewrite Nat.eqb_refl in Hid. exact Hid. }
  destruct Hg as [Hab Hmv]. destruct (i_c _ _ _ HI) as [Hcn HC]. pose proof (i_ok _ _ _ HI) as HO.
  assert (Hcases : forall j, (j < n)%nat -> fst (pos j) = a \/ fst (pos j) = (a + 2)%nat \/ fst (pos j) = fin).
  { intros j Hj. destruct (HO j Hj) as [Hle _]. assert (~ hop (fst (pos j))) by (intros Hp; apply (Hhop _ Hp j Hj); reflexivity). unfold hop in H. unfold fin in *. lia. }
  assert (Epos : forall j, (j < n)%nat -> pos j = (fst (pos j), false)) by (intros j Hj; rewrite <- (Hsnd j Hj); apply surjective_pairing).
  assert (cc = n).
  { destruct (Nat.eq_dec cc n) as [E|N]; [exact E|]. exfalso. apply Hab. assert (Hc : (cc < n)%nat) by lia. split; [exact Hc|]. split.
    - rewrite (Epos cc Hc). pose proof (HC cc Hc). destruct (Hcases cc Hc) as [->|[E|E]]; [reflexivity|exfalso; lia|exfalso; unfold fin in E; lia].
    - destruct (Nat.eq_dec cc 0) as [|N0]; [left; assumption|right]. rewrite (Epos (pred cc) ltac:(lia)). pose proof (HC (pred cc) ltac:(lia)).
      destruct (Hcases (pred cc) ltac:(lia)) as [E|[->|E]]; [exfalso; lia|reflexivity|exfalso; unfold fin in E; lia]. }
  subst cc. split; [reflexivity|]. intros j Hj. pose proof (HC j Hj) as H. destruct (Hcases j Hj) as [E|[E|E]]; [lia| |exact E]. exfalso.
  assert (j = pred n) by lia. subst j. apply Hmv. split; [reflexivity|]. rewrite (Epos (pred n) Hj), E. reflexivity.
Qed.

Lemma fin_empty c pos cc : Inv c pos cc -> cc = n -> (forall i, (i < n)%nat -> fst (pos i) = fin) -> all_empty nq (c_qs c) = true.
Proof.
  intros HI -> Hf. apply all_empty_spec. intros q Hq. destruct (nq_qof q Hq) as [->|(p & Hp & ->)].
  - destruct (c_qs c (a + 1)%nat) as [|x l] eqn:E; [reflexivity|]. destruct (i_names _ _ _ HI) as [_ HN]. rewrite E in HN.
    destruct (proj1 (HN x) (or_introl eq_refl)) as (i & Hi & _). lia.
  - apply (QR_nil _ _ _ (i_q _ _ _ HI p Hp)). intros j Hj E. specialize (Hf j Hj). rewrite E in Hf. cbn in Hf. lia.
Qed.
Lemma empty_fin c pos cc : Inv c pos cc -> c_fl c = [] -> all_empty nq (c_qs c) = true -> forall i, (i < n)%nat -> fst (pos i) = fin.
Proof.
  intros HI Hfl HE i Hi. pose proof (fl_nil c pos cc HI Hfl i Hi) as Hsnd. destruct (i_ok _ _ _ HI i Hi) as [Hle _].
  destruct (Nat.eq_dec (fst (pos i)) fin) as [|N]; [assumption|]. exfalso. assert (Hp : (fst (pos i) < fin)%nat) by lia.
  pose proof (i_q _ _ _ HI _ Hp) as HQ. rewrite (proj1 (all_empty_spec _ _) HE _ (qof_nq _ Hp)) in HQ.
  apply (proj1 (QR_nil _ _ _ HQ) eq_refl i Hi). rewrite <- Hsnd. apply surjective_pairing.
Qed.

Lemma fin_events c pos cc : Inv c pos cc -> (forall i, (i < n)%nat -> fst (pos i) = fin) -> Permutation (item_events (c_tr c)) (flat_map (fun i => evs i fin) (seq 0 n)).
Proof.
  intros HI Hf. rewrite (i_tr _ _ _ HI). rewrite !flat_map_concat_map. erewrite map_ext_in; [reflexivity|]. intros i Hi. apply in_seq in Hi. rewrite Hf by lia. reflexivity.
Qed.

(** *** sequential executor *)
Lemma seq_work_inv nmax i w st pos cc : nth_error ws i = Some w -> Inv (cfg_of st) pos cc ->
  exists st' pos' cc', seq_work false nmax i w st = (st', None) /\ Inv (cfg_of st') pos' cc' /\
    ((Mp pos' < Mp pos)%nat \/ (pos' = pos /\ cc' = cc /\ idle i pos cc)).
Proof.
  intros Hw HI. unfold seq_work. destruct (w_body w) as [inq f|ready g] eqn:Eb.
  - destruct (work_hop i w inq f Hw Eb) as (p & Hp & Ei & Eq & Ef & Ho).
    assert (Hia : Nat.eqb i a = false). { subst i. clear -Hp. apply Nat.eqb_neq. unfold wof, hop in *. destruct (Nat.ltb_spec p a), (Nat.eqb_spec p (a + 1)); lia. }
    unfold q_pop_first. destruct (s_qs st inq) as [|[k obj] q'] eqn:Eqs.
    + exists st, pos, cc. split; [reflexivity|]. split; [exact HI|]. right. repeat split. unfold idle. rewrite Hia. intros p' Hp' E j Hj.
      assert (p' = p). { rewrite <- E in Ei. clear -Ei Hp Hp'. unfold wof, hop, fin in *. destruct (Nat.ltb_spec p a), (Nat.eqb_spec p (a + 1)), (Nat.ltb_spec p' a), (Nat.eqb_spec p' (a + 1)); lia. }
      subst p'. apply (proj1 (QR_nil _ _ _ (i_q _ _ _ HI p (hop_lt p Hp)))); [|exact Hj]. cbn [cfg_of c_qs]. rewrite <- Eq. exact Eqs.
    + destruct obj as [v|e].
      * set (c1 := mk_cfg (upd (s_qs st) inq q') [(i, k, v)] (s_tr st)).
        set (st2 := mk_sst (put (w_out w) k (f k v) (upd (s_qs st) inq q')) (s_tr st ++ [ECall i k v (f k v)])).
        assert (T1 : item_trans ws i k (cfg_of st) c1) by (apply (at_pop _ _ _ _ _ w inq f v q'); try assumption; reflexivity).
        assert (T2 : item_trans ws i k c1 (cfg_of st2)) by (apply (at_fin _ _ _ _ _ w inq f v); try assumption; reflexivity).
        destruct (item_lt _ _ _ _ _ _ HI T1) as (pos1 & HI1 & HM1). destruct (item_lt _ _ _ _ _ _ HI1 T2) as (pos2 & HI2 & HM2).
        exists st2, pos2, cc. split; [destruct (f k v); reflexivity|]. split; [exact HI2|]. left. lia.
      * set (st2 := mk_sst (put (w_out w) k (inr e) (upd (s_qs st) inq q')) (s_tr st ++ match w_out w with None => [ELost i k e] | Some _ => [] end)).
        assert (T : item_trans ws i k (cfg_of st) (cfg_of st2)) by (apply (at_exc _ _ _ _ _ w inq f e q'); try assumption; reflexivity).
        destruct (item_lt _ _ _ _ _ _ HI T) as (pos1 & HI1 & HM1). exists st2, pos1, cc. split; [|split; [exact HI1|left; exact HM1]].
        unfold st2. destruct (w_out w); [rewrite app_nil_r|]; reflexivity.
  - destruct (ws_cases_surf names_of mk_pair pre post correct _ _ Hw) as [(_ & io & f & ->)|[(-> & ->)|[(_ & ->)|(j & io & f & _ & _ & ->)]]]; cbn in Eb; try discriminate.
    assert (ready = surf_ready a /\ g = surf_glob names_of mk_pair a) as [-> ->] by (unfold a; split; congruence). cbn [w_out].
    destruct (glob_inv (s_qs st) [] (s_tr st) pos cc HI) as (qs' & pos' & cc' & E & HI' & _ & HP). rewrite E.
    eexists. exists pos', cc'. split; [reflexivity|]. split; [apply HI', Permutation_refl|]. destruct HP as [(-> & -> & _ & H1 & H2)|HP]; [right|left; exact HP].
    repeat split. unfold idle. fold a. rewrite Nat.eqb_refl. split; assumption.
Qed.

Lemma seq_sweep_inv nmax l : forall st pos cc, (forall i w, In (i, w) l -> nth_error ws i = Some w) -> Inv (cfg_of st) pos cc ->
  exists st' pos' cc', seq_sweep false nmax l st = (st', None) /\ Inv (cfg_of st') pos' cc' /\
    ((Mp pos' < Mp pos)%nat \/ (pos' = pos /\ cc' = cc /\ forall i w, In (i, w) l -> idle i pos cc)).
Proof.
  induction l as [|[i w] l IH]; intros st pos cc Hl HI.
  - exists st, pos, cc. split; [reflexivity|]. split; [exact HI|]. right. repeat split. intros i w [].
  - cbn [seq_sweep]. destruct (seq_work_inv nmax i w st pos cc (Hl i w (or_introl eq_refl)) HI) as (st1 & pos1 & cc1 & E1 & HI1 & HP1). rewrite E1.
    destruct (IH st1 pos1 cc1 (fun i w H => Hl i w (or_intror H)) HI1) as (st2 & pos2 & cc2 & E2 & HI2 & HP2). exists st2, pos2, cc2. split; [exact E2|]. split; [exact HI2|].
    destruct HP1 as [HP1|(-> & -> & HP1)], HP2 as [HP2|(-> & -> & HP2)]; try (left; lia).
    right. repeat split. intros i' w' [E|Hin]; [injection E as <- <-; exact HP1|eauto].
Qed.

Lemma seq_run_inv nmax fuel : forall st pos cc, Inv (cfg_of st) pos cc -> (Mp pos <= fuel)%nat ->
  exists st', seq_run fuel false nmax nq ws st = Some (st', None) /\ (forall q, (q < nq)%nat -> s_qs st' q = []) /\
    Permutation (item_events (s_tr st')) (flat_map (fun i => evs i fin) (seq 0 n)).
Proof.
  assert (Hend : forall st pos cc, Inv (cfg_of st) pos cc -> all_empty nq (s_qs st) = true ->
    (forall q, (q < nq)%nat -> s_qs st q = []) /\ Permutation (item_events (s_tr st)) (flat_map (fun i => evs i fin) (seq 0 n))).
  { intros st pos cc HI HE. split; [apply all_empty_spec, HE|]. apply (fin_events (cfg_of st) pos cc HI). apply (empty_fin (cfg_of st) pos cc HI eq_refl HE). }
  assert (Hprog : forall st pos cc, Inv (cfg_of st) pos cc -> all_empty nq (s_qs st) = false ->
    exists st' pos' cc', seq_sweep false nmax (combine (seq 0 (List.length ws)) ws) st = (st', None) /\ Inv (cfg_of st') pos' cc' /\ (Mp pos' < Mp pos)%nat).
  { intros st pos cc HI HE. destruct (seq_sweep_inv nmax (combine (seq 0 (List.length ws)) ws) st pos cc) as (st' & pos' & cc' & E & HI' & HP); [|exact HI|].
    - intros i w Hin. apply (ws_in names_of mk_pair pre post correct i w Hin).
    - exists st', pos', cc'. split; [exact E|]. split; [exact HI'|]. destruct HP as [HP|(-> & -> & HP)]; [exact HP|]. exfalso.
      destruct (all_idle_fin (cfg_of st) pos cc HI eq_refl) as [Ec Ef].
      + intros i Hi. destruct (nth_error ws i) as [w|] eqn:Ew; [|apply nth_error_None in Ew; lia]. apply (HP i w).
        apply (nth_error_In (combine (seq 0 (List.length ws)) ws) i). apply combine_In_nth; [|exact Ew].
        rewrite (nth_error_nth' (seq 0 (List.length ws)) 0%nat) by (rewrite seq_length; exact Hi). rewrite seq_nth by exact Hi. reflexivity.
      + pose proof (fin_empty (cfg_of st) pos cc HI Ec Ef) as HE'. cbn [cfg_of c_qs] in HE'. congruence. }
  induction fuel as [|fuel IH]; intros st pos cc HI Hf; cbn [seq_run]; destruct (all_empty nq (s_qs st)) eqn:HE.
  - exists st. split; [reflexivity|]. eapply Hend; eassumption.
  - destruct (Hprog st pos cc HI HE) as (st' & pos' & cc' & _ & _ & HM). lia.
  - exists st. split; [reflexivity|]. eapply Hend; eassumption.
  - destruct (Hprog st pos cc HI HE) as (st' & pos' & cc' & E & HI' & HM). rewrite E. apply (IH st' pos' cc' HI'). lia.
Qed.

(** *** asynchronous executor *)
Section Async.
Variable p : params V.
Hypothesis Hworks : p_works p = ws.
Hypothesis Hnq : p_nq p = nq.
Variable qs0 : queues V.
Variables (pos0 : nat -> place) (cc0 : nat).
Hypothesis Hinit : Inv (mk_cfg qs0 [] []) pos0 cc0.

Lemma async_inv s : reachable p (init qs0) s -> a_raised s = None -> exists pos cc, Inv (abs s) pos cc.
Proof.
  intros HR. apply (async_invariant p (fun c => exists pos cc, Inv c pos cc) qs0); try assumption.
  - intros c c' (pos & cc & HI) E1 E2 E3. exists pos, cc. eapply inv_ext; eassumption.
  - intros c c' (pos & cc & HI) HT. rewrite Hworks in HT. destruct (inv_trans c c' pos cc HI HT) as (pos' & cc' & HI' & _). eauto.
  - eauto.
Qed.
Lemma async_wf : well_formed p.
Proof.
  pose proof (surf_wf names_of mk_pair pre post correct 0 0 false) as HW. unfold well_formed in *. rewrite Hworks, Hnq. exact HW.
Qed.

Lemma async_ok s : p_stop_if_error p = false -> reachable p (init qs0) s -> a_raised s = None.
Proof.
  intros Hsie HR. induction HR as [|s l s' HR IH HS]; [reflexivity|].
  destruct (async_inv s HR IH) as (pos & cc & HI). unfold step in HS. rewrite IH in HS. destruct l as [i|id|id|].
  - unfold check in HS. destruct (a_exited s i); [discriminate|]. destruct (nth_error (p_works p) i) as [w|] eqn:Ew; [|discriminate].
    rewrite Hworks in Ew. destruct (w_body w) as [inq f|rd g] eqn:Eb.
    + match type of HS with context [if ?c then _ else _] => destruct c end; [destruct (a_stop s)|]; injection HS as <-; exact IH.
    + destruct (rd (a_qs s)); [|destruct (a_stop s); injection HS as <-; exact IH].
      destruct (ws_cases_surf names_of mk_pair pre post correct _ _ Ew) as [(_ & io & f & ->)|[(-> & ->)|[(_ & ->)|(j & io & f & _ & _ & ->)]]]; cbn in Eb; try discriminate.
      assert (g = surf_glob names_of mk_pair a) as -> by (unfold a; congruence).
      destruct (glob_inv (a_qs s) _ (a_tr s) pos cc HI) as (qs' & pos' & cc' & E & _). rewrite E in HS. destruct (a_stop s); injection HS as <-; exact IH.
  - unfold start in HS. destruct (find_task id s) as [[id0 i st]|]; [|discriminate]. destruct st; [|discriminate].
    destruct (nth_error (p_works p) i) as [w|]; [|discriminate]. destruct (w_body w) as [inq f|]; [|discriminate]. cbv zeta in HS.
    destruct (q_pop_first _) as [[[k [v|e]] q']|]; [|destruct (w_out w)|]; injection HS as <-; destruct (w_io w); exact IH.
  - unfold finish in HS. destruct (find_task id s) as [[id0 i st]|]; [|discriminate]. destruct st as [|k v]; [discriminate|].
    destruct (nth_error (p_works p) i) as [w|]; [|discriminate]. destruct (w_body w) as [inq f|]; [|discriminate]. cbv zeta in HS. rewrite Hsie in HS.
    destruct (f k v); injection HS as <-; destruct (w_io w); exact IH.
  - unfold poll in HS. destruct (a_poll_done s); [discriminate|]. destruct (a_stop s); injection HS as <-; exact IH.
Qed.

Lemma async_done s : reachable p (init qs0) s -> a_raised s = None -> ended p s ->
  (forall q, (q < nq)%nat -> a_qs s q = []) /\ Permutation (item_events (a_tr s)) (flat_map (fun i => evs i fin) (seq 0 n)).
Proof.
  intros HR Hr (_ & Ht & Hpd). destruct (async_inv s HR Hr) as (pos & cc & HI).
  pose proof (reachable_flags p qs0 s async_wf HR) as HF. destruct (f_stop _ _ HF (f_poll _ _ HF Hpd)) as [HE _]. rewrite Hnq in HE.
  split; [apply all_empty_spec, HE|]. apply (fin_events (abs s) pos cc HI). apply (empty_fin (abs s) pos cc HI); [|exact HE].
  cbn [abs c_fl]. rewrite Ht. reflexivity.
Qed.

Lemma largest_p (P0 : nat -> Prop) (dec : forall q, P0 q \/ ~ P0 q) hi :
  (exists q, (q < hi)%nat /\ P0 q) -> exists q, (q < hi)%nat /\ P0 q /\ forall r, (q < r < hi)%nat -> ~ P0 r.
Proof.
  induction hi as [|hi IH]; intros (q & Hq & HP0); [lia|]. destruct (dec hi) as [Hh|Hh].
  - exists hi. split; [lia|]. split; [exact Hh|]. intros; lia.
  - destruct IH as (q' & H1 & H2 & H3).
    + exists q. split; [|exact HP0]. destruct (Nat.eq_dec q hi) as [->|]; [contradiction|lia].
    + exists q'. split; [lia|]. split; [exact H2|]. intros r Hr. destruct (Nat.eq_dec r hi) as [->|]; [exact Hh|]. apply H3. lia.
Qed.
Lemma hop_dec q : {hop q} + {~ hop q}.
Proof. unfold hop. destruct (lt_dec q a); [left; lia|]. destruct (Nat.eq_dec q (a + 1)); [left; lia|]. destruct (le_dec (a + 3) q), (lt_dec q fin); (left; lia) || (right; lia). Qed.

Lemma QR_length q pos l j : QR q pos l -> (j < n)%nat -> pos j <> (q, false) -> (List.length l < n)%nat.
Proof.
  intros [H1 H2] Hj Hp.
  assert (HL : (List.length (nm j :: keys l) <= List.length (map nm (seq 0 n)))%nat).
  { apply NoDup_incl_length.
    - constructor; [|exact H1]. intros C. unfold keys in C. apply in_map_iff in C. destruct C as ([k it] & E & C). cbn in E. subst k.
      apply H2 in C. destruct C as (i & Hi & Hpi & E & _). apply Hnm in E; try assumption. subst i. contradiction.
    - intros x [<-|Hx]; [apply (in_map nm), in_seq; lia|]. unfold keys in Hx. apply in_map_iff in Hx. destruct Hx as ([k it] & <- & C).
      apply H2 in C. destruct C as (i & Hi & _ & -> & _). cbn [fst]. apply (in_map nm), in_seq. lia. }
  unfold keys in HL. cbn [List.length] in HL. rewrite !map_length, seq_length in HL. lia.
Qed.

Lemma async_can_finish : p_stop_if_error p = false -> 1 <= p_nb_max_workers p -> Z.of_nat n <= p_nb_items_queue_max p ->
  forall s, reachable p (init qs0) s -> exists s', reachable p s s' /\ ended p s'.
Proof.
  intros Hsie Hnb Hl.
  assert (HX : forall m s, reachable p (init qs0) s -> (forall pos cc, Inv (abs s) pos cc -> True) -> (exists pos cc, Inv (abs s) pos cc /\ (2 * Mp pos + List.length (a_tasks s) <= m)%nat) -> exists s', reachable p s s' /\ ended p s').
  2:{ intros s HR. destruct (async_inv s HR (async_ok s Hsie HR)) as (pos & cc & HI). apply (HX (2 * Mp pos + List.length (a_tasks s))%nat s HR ltac:(auto)). eauto. }
  induction m as [m IH] using lt_wf_ind. intros s HR _ (pos & cc & HI & Hm).
  pose proof (async_ok s Hsie HR) as Hr.
  pose proof (reachable_G p qs0 s HR) as HG. pose proof (reachable_TW p qs0 s HR) as HT.
  pose proof (reachable_flags p qs0 s async_wf HR) as HF.
  assert (IH' : forall s1 pos1 cc1, reachable p s s1 -> Inv (abs s1) pos1 cc1 -> (2 * Mp pos1 + List.length (a_tasks s1) < m)%nat -> exists s', reachable p s s' /\ ended p s').
  { intros s1 pos1 cc1 HR1 HI1 Hm1. destruct (IH _ Hm1 s1 (reach_tr p _ _ _ HR HR1) ltac:(auto)) as (s' & HR' & HE); [exists pos1, cc1; auto|]. exists s'. split; [|exact HE]. eapply reach_tr; eassumption. }
  destruct (a_tasks s) as [|t ts] eqn:Et.
  - destruct (all_empty nq (a_qs s)) eqn:HE. { apply end_gen; try assumption. - apply async_wf. - rewrite Hnq. exact HE. }
    assert (Hst : a_stop s = false). { destruct (a_stop s) eqn:E; [|reflexivity]. destruct (f_stop _ _ HF E) as [HE' _]. rewrite Hnq in HE'. congruence. }
    assert (Hex : forall i, a_exited s i = false). { intros i. destruct (a_exited s i) eqn:E; [|reflexivity]. rewrite (f_exit _ _ HF i E) in Hst. discriminate. }
    assert (Hfl : c_fl (abs s) = []) by (cbn [abs c_fl]; rewrite Et; reflexivity).
    destruct (glob_inv (a_qs s) _ (a_tr s) pos cc HI) as (qs' & pos' & cc' & Eg & HI' & HMv & HP).
    destruct HP as [(_ & _ & _ & Hab & Hmo)|HP].
    + destruct (largest_p (fun q => hop q /\ a_qs s (qof q) <> [])) with (hi := fin) as (q & Hq & (Hh & Hne) & Hmax).
      * intros q. destruct (hop_dec q); [|right; tauto]. destruct (a_qs s (qof q)); [right; intros [_ C]; congruence|left; split; [assumption|discriminate]].
      * assert (D : (exists q, (q < fin)%nat /\ hop q /\ a_qs s (qof q) <> []) \/ forall q, (q < fin)%nat -> hop q -> a_qs s (qof q) = []).
        { generalize fin. intros m0. induction m0 as [|m0 [(q & Hq & H)|IHm]]; [right; intros; lia|left; exists q; split; [lia|exact H]|].
          destruct (hop_dec m0) as [Hh|Hh]; [destruct (a_qs s (qof m0)) eqn:Em|].
          - right. intros q Hq Hhq. destruct (Nat.eq_dec q m0) as [->|]; [exact Em|apply IHm; [lia|exact Hhq]].
          - left. exists m0. split; [lia|]. split; [exact Hh|congruence].
          - right. intros q Hq Hhq. destruct (Nat.eq_dec q m0) as [->|]; [contradiction|apply IHm; [lia|exact Hhq]]. }
        destruct D as [D|D]; [exact D|]. exfalso.
        destruct (all_idle_fin (abs s) pos cc HI Hfl) as [Ec Ef].
        -- intros i _. unfold idle. destruct (Nat.eqb i a); [split; assumption|]. intros q Hhq _ j Hj.
           apply (proj1 (QR_nil _ _ _ (i_q _ _ _ HI q (hop_lt q Hhq)))); [|exact Hj]. apply D; [apply hop_lt|]; assumption.
        -- pose proof (fin_empty (abs s) pos cc HI Ec Ef) as HE'. cbn [abs c_qs] in HE'. congruence.
      * destruct (hop_work q Hh) as (w & Hw & Hbd & Ho). rewrite <- Hworks in Hw.
        assert (Hhd : exists j, (j < n)%nat /\ pos j = (q, false)).
        { pose proof (i_q _ _ _ HI q Hq) as HQ. cbn [abs c_qs] in HQ. destruct (a_qs s (qof q)) as [|[k it] l]; [congruence|]. apply QR_head in HQ. destruct HQ as (j & Hj & Hpj & _). eauto. }
        destruct Hhd as (j & Hj & Hpj).
        assert (Hfu : full p (w_out w) (a_qs s) = false).
        { rewrite Ho. destruct (Nat.eqb_spec (S q) fin) as [|Nf]; [reflexivity|]. cbn [full]. apply Z.leb_gt.
          assert (HSq : (S q < fin)%nat) by lia. pose proof (i_q _ _ _ HI (S q) HSq) as HQ. cbn [abs c_qs] in HQ.
          apply (Z.lt_le_trans _ (Z.of_nat n)); [|exact Hl]. unfold zlen. apply inj_lt. apply (QR_length _ _ _ j HQ Hj). rewrite Hpj. intros C. injection C. lia. }
        destruct (take_gen p s _ w _ _ Hw Hbd Hnb HG HT Et Hr (Hex _) Hne Hfu) as (s1 & HR1 & _ & (k & Hk) & Hl1).
        rewrite Hworks in Hk. destruct (item_lt _ _ _ _ _ _ HI Hk) as (pos1 & HI1 & HM1). apply (IH' s1 pos1 cc HR1 HI1). cbn [List.length] in Hm. lia.
    + assert (Hrd : surf_ready a (a_qs s) = true).
      { unfold surf_ready. destruct (is_nil (a_qs s (a + 2)%nat)) eqn:E2; [|reflexivity]. destruct (is_nil (a_qs s a)) eqn:Ea; [|reflexivity]. exfalso.
        assert (Na : a_qs s a = []) by (destruct (a_qs s a); [reflexivity|discriminate]). assert (N2 : a_qs s (a + 2)%nat = []) by (destruct (a_qs s (a + 2)%nat); [reflexivity|discriminate]).
        assert (HPos : forall i, (i < n)%nat -> pos' i = pos i).
        { intros i Hi. destruct (HMv i Hi) as [E|[[E _]|[E _]]]; [exact E|exfalso..].
          - assert (F : (a < fin)%nat) by (unfold fin; lia). pose proof (i_q _ _ _ HI a F) as HQ. cbn [abs c_qs] in HQ.
            replace (qof a) with a in HQ by (unfold qof; rewrite Nat.leb_refl; reflexivity). apply (proj1 (QR_nil _ _ _ HQ) Na i Hi E).
          - assert (F : (a + 2 < fin)%nat) by (unfold fin; lia). pose proof (i_q _ _ _ HI _ F) as HQ. cbn [abs c_qs] in HQ.
            replace (qof (a + 2)) with (a + 2)%nat in HQ by (unfold qof; destruct (Nat.leb_spec (a + 2) a), (Nat.eqb_spec (a + 2) (a + 1)); try lia; rewrite Nat.eqb_refl; reflexivity).
            apply (proj1 (QR_nil _ _ _ HQ) N2 i Hi E). }
        assert (Mp pos' = Mp pos); [|lia]. unfold Mp. f_equal. apply map_ext_in. intros i Hi. apply in_seq in Hi. rewrite HPos by lia. reflexivity. }
      assert (HS : step p s (LCheck a) = Some (add_tr (EGlobal a) (set_qs qs' s))).
      { unfold step. rewrite Hr. unfold check. rewrite Hex, Hworks.
        assert (Ew : nth_error ws a = Some (mk_work (GlobalWork (surf_ready a) (surf_glob names_of mk_pair a)) None false)).
        { unfold ws, surf_works. fold a. rewrite nth_error_app2 by (rewrite map_length, combine_length, seq_length; unfold a; lia).
          rewrite map_length, combine_length, seq_length. replace (a - Nat.min a (List.length pre))%nat with 0%nat by (unfold a; lia). reflexivity. }
        rewrite Ew. cbn [w_body]. rewrite Hrd, Eg, Hst. reflexivity. }
      apply (IH' _ pos' cc' (reach_1 p _ _ _ HS)); [apply (HI' _ a (Permutation_refl _))|]. cbn [add_tr set_qs a_tasks]. rewrite Et. cbn [List.length] in *. lia.
  - assert (HI0 : In t (a_tasks s)) by (rewrite Et; left; reflexivity). rewrite <- Et in Hm. destruct (t_st t) as [|k v] eqn:Est.
    + destruct (start_gen p s t HG HT HI0 Est Hr) as (s1 & HS & _ & [((C1 & C2 & C3) & HL)|((k & Hk) & HL)] & _).
      * apply (IH' s1 pos cc (reach_1 p _ _ _ HS)); [eapply inv_ext; try exact HI; assumption|lia].
      * rewrite Hworks in Hk. destruct (item_lt _ _ _ _ _ _ HI Hk) as (pos1 & HI1 & HM1). apply (IH' s1 pos1 cc (reach_1 p _ _ _ HS) HI1). lia.
    + destruct (finish_gen p s t k v Hsie HG HT HI0 Est Hr) as (s1 & HS & _ & Hk & HL).
      rewrite Hworks in Hk. destruct (item_lt _ _ _ _ _ _ HI Hk) as (pos1 & HI1 & HM1). apply (IH' s1 pos1 cc (reach_1 p _ _ _ HS) HI1). lia.
Qed.

(** *** a blocked state: the first image has been overtaken *)
Lemma task_origin s l s' t' : step p s l = Some s' -> In t' (a_tasks s') ->
  (exists t, In t (a_tasks s) /\ t_work t = t_work t') \/ (l = LCheck (t_work t') /\ s' = spawn (t_work t') s).
Proof.
  intros HS Ht. unfold step in HS. destruct (a_raised s); [discriminate|]. destruct l as [i|id|id|].
  - unfold check in HS. destruct (a_exited s i); [discriminate|]. destruct (nth_error (p_works p) i) as [w|] eqn:Ew; [|discriminate]. destruct (w_body w) as [inq f|rd g].
    + match type of HS with context [if ?c then _ else _] => destruct c end; [destruct (a_stop s); injection HS as <-; left; exists t'; auto|].
      injection HS as <-. cbn [spawn a_tasks] in Ht. apply in_app_iff in Ht. destruct Ht as [Ht|[<-|[]]]; [left; exists t'; auto|right; cbn [t_work]; auto].
    + left. exists t'. split; [|reflexivity]. destruct (rd (a_qs s)); [destruct (g (a_qs s))|]; [destruct (a_stop s)|..|destruct (a_stop s)]; injection HS as <-; exact Ht.
  - left. unfold start in HS. destruct (find_task id s) as [[id0 i st]|] eqn:Ef; [|discriminate]. destruct st; [|discriminate].
    destruct (nth_error (p_works p) i) as [w|]; [|discriminate]. destruct (w_body w) as [inq f|]; [|discriminate]. cbv zeta in HS.
    destruct (q_pop_first _) as [[[k [v|e]] q']|]; injection HS as <-.
    + cbn [set_running set_tasks set_qs a_tasks] in Ht. apply in_map_iff in Ht. destruct Ht as (t & E & Ht). rewrite a_tasks_ac in Ht. exists t. split; [exact Ht|].
      destruct (Nat.eqb (t_id t) id); subst t'; reflexivity.
    + cbn [remove_task set_tasks a_tasks] in Ht. apply filter_In in Ht. destruct Ht as [Ht _]. rewrite a_tasks_ac in Ht. exists t'. split; [|reflexivity].
      destruct (w_out w); cbn [set_qs add_tr a_tasks] in Ht; rewrite a_tasks_ac in Ht; exact Ht.
    + cbn [remove_task set_tasks a_tasks] in Ht. apply filter_In in Ht. destruct Ht as [Ht _]. rewrite !a_tasks_ac in Ht. exists t'. auto.
  - left. unfold finish in HS. destruct (find_task id s) as [[id0 i st]|]; [|discriminate]. destruct st as [|k v]; [discriminate|].
    destruct (nth_error (p_works p) i) as [w|]; [|discriminate]. destruct (w_body w) as [inq f|]; [|discriminate]. cbv zeta in HS. exists t'. split; [|reflexivity].
    destruct (f k v); [|destruct (p_stop_if_error p)]; injection HS as <-; cbn [remove_task set_tasks raise add_tr a_tasks] in Ht; try exact Ht;
      apply filter_In in Ht; destruct Ht as [Ht _]; rewrite a_tasks_ac in Ht; exact Ht.
  - left. exists t'. split; [|reflexivity]. unfold poll in HS. destruct (a_poll_done s); [discriminate|]. destruct (a_stop s); injection HS as <-; exact Ht.
Qed.

Definition Blocked (s : ast V) : Prop :=
  (exists pos cc, Inv (abs s) pos cc /\ pos 0%nat = (pred a, false)) /\ p_nb_items_queue_max p <= zlen (a_qs s a) /\ (forall t, In t (a_tasks s) -> t_work t <> pred a).

Lemma blocked_item s s' i k : (1 <= a)%nat -> Blocked s -> i <> pred a -> item_trans ws i k (abs s) (abs s') -> (forall t, In t (a_tasks s') -> t_work t <> pred a) -> Blocked s'.
Proof.
  intros Ha ((pos & cc & HI & Hp0) & Hlen & _) Hi HT Htk. destruct (item_inv _ _ _ _ pos cc HI HT) as (j & q & pl & Hj & Hh & -> & HI' & HC).
  assert (Nq : q <> pred a). { intros ->. apply Hi. unfold wof. destruct (Nat.ltb_spec (pred a) a); [reflexivity|lia]. }
  assert (j <> 0%nat). { intros ->. rewrite Hp0 in HC. destruct HC as [(C & _)|[(C & _)|(C & _)]]; injection C; congruence. }
  split; [exists (mv pos j pl), cc; split; [exact HI'|rewrite mv_other by auto; exact Hp0]|]. split; [|exact Htk].
  assert (E : a_qs s' a = a_qs s a); [|rewrite E; exact Hlen].
  assert (Eqa : qof a = a) by (unfold qof; rewrite Nat.leb_refl; reflexivity).
  assert (Hin : qof q <> a). { intros C. rewrite <- Eqa in C. apply qof_inj in C; [|apply hop_lt, Hh|unfold fin; lia]. subst q. unfold hop in Hh. lia. }
  assert (Hout : forall kk (it : item V) (qq : queues V), put (if (S q =? fin)%nat then None else Some (qof (S q))) kk it qq a = qq a).
  { intros kk it qq. unfold put. destruct (Nat.eqb_spec (S q) fin) as [|N]; [reflexivity|]. apply upd_other. intros C. assert (C2 : qof (S q) = qof a) by congruence.
    apply qof_inj in C2; [|pose proof (hop_lt q Hh); lia|unfold fin; lia]. apply Nq. lia. }
  assert (Hwi : forall w inq f, nth_error ws (wof q) = Some w -> w_body w = ItemWork inq f -> inq = qof q /\ w_out w = (if (S q =? fin)%nat then None else Some (qof (S q)))).
  { intros w inq f Hw Hbd. destruct (hop_work q Hh) as (w' & Hw' & Hbd' & Ho). rewrite Hw in Hw'. injection Hw' as <-. rewrite Hbd in Hbd'. injection Hbd' as -> _. auto. }
  destruct HT as [w inq f v q' Hw Hbd Hq Hq' Hf Ht|w inq f e q' Hw Hbd Hq Hq' Hf Ht|w inq f v Hw Hbd Hf Hq' Ht]; destruct (Hwi w inq f Hw Hbd) as [-> Ho]; cbn [abs c_qs] in Hq'; rewrite Hq', ?Ho, ?Hout;
    rewrite ?upd_other by auto; reflexivity.
Qed.

Lemma blocked_step s l s' : (1 <= a)%nat -> p_stop_if_error p = false -> reachable p (init qs0) s -> Blocked s -> step p s l = Some s' -> Blocked s'.
Proof.
  intros Ha Hsie HR HB HS. pose proof HB as ((pos & cc & HI & Hp0) & Hlen & Htk).
  pose proof (async_ok s Hsie HR) as Hr. pose proof (async_ok s' Hsie (reach_step _ _ _ _ _ HR HS)) as Hr'. pose proof (reachable_G p qs0 s HR) as HG.
  assert (Hw1 : exists w, nth_error ws (pred a) = Some w /\ (exists f, w_body w = ItemWork (pred a) f) /\ w_out w = Some a).
  { assert (Hh : hop (pred a)) by (left; lia). destruct (hop_work _ Hh) as (w & Hw & Hbd & Ho). unfold wof, qof in *.
    destruct (Nat.ltb_spec (pred a) a); [|lia]. destruct (Nat.leb_spec (pred a) a); [|lia]. exists w. split; [exact Hw|]. split; [eauto|]. rewrite Ho.
    replace (S (pred a)) with a by lia. rewrite Nat.leb_refl. destruct (Nat.eqb_spec a fin); [unfold fin in *; lia|reflexivity]. }
  assert (Htk' : forall t, In t (a_tasks s') -> t_work t <> pred a).
  { intros t Ht Et. destruct (task_origin s l s' t HS Ht) as [(t0 & Ht0 & E)|(-> & Es)]; [apply (Htk t0 Ht0); congruence|].
    unfold step in HS. rewrite Hr in HS. unfold check in HS. destruct (a_exited s (t_work t)); [discriminate|]. rewrite Et, Hworks in HS.
    destruct Hw1 as (w & Hw & (f & Hbd) & Ho). rewrite Hw, Hbd, Ho in HS. cbn [full] in HS. replace (p_nb_items_queue_max p <=? zlen (a_qs s a)) with true in HS by (symmetry; apply Z.leb_le, Hlen).
    rewrite orb_true_r in HS. apply (f_equal (option_map (fun s => List.length (a_tasks s)))) in HS. rewrite Es in HS. cbn [option_map spawn a_tasks] in HS. rewrite app_length in HS. cbn [List.length] in HS.
    destruct (a_stop s); cbn [exit_work a_tasks] in HS; injection HS; lia. }
  unfold step in HS. rewrite Hr in HS. destruct l as [i|id|id|].
  - unfold check in HS. destruct (a_exited s i); [discriminate|]. destruct (nth_error (p_works p) i) as [w|] eqn:Ew; [|discriminate]. rewrite Hworks in Ew. destruct (w_body w) as [inq f|rd g] eqn:Eb.
    + match type of HS with context [if ?c then _ else _] => destruct c end; [destruct (a_stop s)|]; injection HS as <-; (split; [|split; [exact Hlen|exact Htk']]); exists pos, cc; (split; [|exact Hp0]);
        eapply inv_ext; try exact HI; try reflexivity. cbn [abs c_fl spawn a_tasks]. rewrite running_list_app. cbn. rewrite app_nil_r. reflexivity.
    + destruct (ws_cases_surf names_of mk_pair pre post correct _ _ Ew) as [(_ & io & f & ->)|[(-> & ->)|[(_ & ->)|(j & io & f & _ & _ & ->)]]]; cbn in Eb; try discriminate.
      assert (rd = surf_ready a /\ g = surf_glob names_of mk_pair a) as [-> ->] by (unfold a; split; congruence).
      destruct (surf_ready a (a_qs s)).
      2: { destruct (a_stop s); injection HS as <-; (split; [|split; [exact Hlen|exact Htk']]); exists pos, cc; auto. }
      destruct (glob_inv (a_qs s) _ (a_tr s) pos cc HI) as (qs' & pos' & cc' & E & HI' & HMv & HP). rewrite E in HS.
      assert (E0 : pos' 0%nat = (pred a, false)). { destruct (HMv 0%nat ltac:(lia)) as [E0|[[E0 _]|[E0 _]]]; [congruence|rewrite Hp0 in E0; injection E0; lia..]. }
      assert (HC0 : (0 < cc)%nat <-> (a < pred a)%nat). { destruct (i_c _ _ _ HI) as [_ HC]. specialize (HC 0%nat ltac:(lia)). rewrite Hp0 in HC. cbn [fst] in HC. tauto. }
      assert (cc = 0%nat) by lia. subst cc.
      assert (Hsame : forall z, (z < n)%nat -> pos' z = pos z).
      { intros z Hz. destruct (HMv z Hz) as [Ez|[[Ez Ez']|[Ez Ez']]]; [exact Ez|exfalso..].
        - destruct (i_c _ _ _ (HI' _ 0%nat (Permutation_refl _))) as [_ HC']. pose proof (HC' 0%nat ltac:(lia)) as H0. rewrite E0 in H0. cbn [fst] in H0.
          pose proof (HC' z Hz) as H1. rewrite Ez' in H1. cbn [fst] in H1. lia.
        - destruct (i_c _ _ _ HI) as [_ HC]. specialize (HC z Hz). rewrite Ez in HC. cbn [fst] in HC. lia. }
      destruct HP as [(_ & _ & HQ & _)|HP].
      2: { exfalso. assert (Mp pos' = Mp pos); [|lia]. unfold Mp. f_equal. apply map_ext_in. intros z Hz. apply in_seq in Hz. rewrite Hsame by lia. reflexivity. }
      injection HS as <-. split; [|split; [|exact Htk']]; destruct (a_stop s); clear Htk'.
      1-2: exists pos', cc'; (split; [|exact E0]); apply (HI' _ a); apply Permutation_refl.
      1-2: cbn [exit_work add_tr set_qs a_qs]; rewrite HQ; [exact Hlen|unfold nq, surf_nq; fold a b; lia].
  - pose proof HS as HS2. unfold start in HS2. destruct (find_task id s) as [[id0 i st]|] eqn:Et; [|discriminate].
    destruct st; [|discriminate]. destruct (nth_error (p_works p) i) as [w|] eqn:Ew; [|discriminate].
    destruct (w_body w) as [inq f|] eqn:Eb; [|discriminate]. clear HS2.
    pose proof Et as Et2. unfold find_task in Et2. destruct (find_perm id (a_tasks s) _ (g_ids _ _ HG) Et2) as [Hid HP]. cbn in Hid. subst id0.
    assert (Hin : In (mk_task id i Spawned) (a_tasks s)) by (apply find_some in Et2; tauto).
    destruct (start_abs p s id i w inq f s' (g_ids _ _ HG) Et Ew Eb HS) as [_ [(_ & (C1 & C2 & C3) & _)|(_ & (k & H) & _)]].
    + split; [|split; [rewrite C1; exact Hlen|exact Htk']]. exists pos, cc. split; [|exact Hp0]. eapply inv_ext; try exact HI; assumption.
    + rewrite Hworks in H. apply (blocked_item s s' i k Ha HB); [apply (Htk _ Hin)|exact H|exact Htk'].
  - pose proof HS as HS2. unfold finish in HS2. destruct (find_task id s) as [[id0 i st]|] eqn:Et; [|discriminate].
    destruct st as [|k v]; [discriminate|]. destruct (nth_error (p_works p) i) as [w|] eqn:Ew; [|discriminate].
    destruct (w_body w) as [inq f|] eqn:Eb; [|discriminate]. clear HS2.
    pose proof Et as Et2. unfold find_task in Et2. destruct (find_perm id (a_tasks s) _ (g_ids _ _ HG) Et2) as [Hid HP]. cbn in Hid. subst id0.
    assert (Hin : In (mk_task id i (Running k v)) (a_tasks s)) by (apply find_some in Et2; tauto).
    destruct (finish_abs p s id i k v w inq f s' (g_ids _ _ HG) Et Ew Eb HS Hr') as [H _]. rewrite Hworks in H. apply (blocked_item s s' i k Ha HB); [apply (Htk _ Hin)|exact H|exact Htk'].
  - unfold poll in HS. destruct (a_poll_done s); [discriminate|]. destruct (a_stop s); injection HS as <-; (split; [|split; [exact Hlen|exact Htk']]); exists pos, cc; auto.
Qed.

Lemma blocked_never s s' : (1 <= a)%nat -> p_stop_if_error p = false -> reachable p (init qs0) s -> Blocked s -> reachable p s s' -> reachable p (init qs0) s' /\ Blocked s'.
Proof.
  intros Ha Hsie HR HB HR'. induction HR' as [|s1 l s2 HR1 IH HS]; [auto|]. destruct IH as [IH1 IH2]. split; [eapply reach_step; eassumption|]. eapply blocked_step; eassumption.
Qed.

Lemma blocked_stuck s s' : (1 <= a)%nat -> p_stop_if_error p = false -> reachable p (init qs0) s -> Blocked s -> reachable p s s' -> ~ ended p s'.
Proof.
  intros Ha Hsie HR HB HR' HE. destruct (blocked_never s s' Ha Hsie HR HB HR') as [HR2 ((pos & cc & HI & Hp0) & _)].
  pose proof (async_ok s' Hsie HR2) as Hr. destruct (async_done s' HR2 Hr HE) as [Hq _].
  assert (Hf : (pred a < fin)%nat) by (unfold fin; lia).
  pose proof (i_q _ _ _ HI _ Hf) as Q. assert (E : c_qs (abs s') (qof (pred a)) = []) by (apply Hq, qof_nq, Hf). rewrite E in Q.
  apply (proj1 (QR_nil _ _ _ Q) eq_refl 0%nat); [lia|exact Hp0].
Qed.
End Async.
End Run.

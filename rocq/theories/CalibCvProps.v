(** C131: detection of a target of circles; C132: the file of a calibration with OpenCV.

    C131: the circles of a target of nx by ny circles around the origin are given row by row,
    with small errors of position, if the origin is not close to a half multiple of the spacing
    (C131_rows).  REFUTED in general: exact conditions for a perfect target (C131_order_iff), and
    for a target with other circles around (C131_larger_iff).
    C132: the file keeps the first calibration (C132_first, C132_new_object), the object has the
    last one (C132_object), and nothing can be saved with a path without directory, as the
    default one (C132_no_directory_refuted). *)
From Verif Require Import PyBase UtilModel CalibCvModel.
From Coq Require Import QArith Qround Qabs Lqa Permutation Sorted.
Local Open Scope Z_scope.

(** ** Specification *)

(** a, a + 1, ..., b *)
Definition interval (a b : Z) : list Z := map (fun k => a + Z.of_nat k) (seq 0 (Z.to_nat (b - a + 1))).

(** circles of the rows mb, ..., mt and, in each row, of the columns ml, ..., mr; [P i j] is the
    position of the circle of column i and row j *)
Definition box (P : Z -> Z -> point) (ml mr mb mt : Z) : list point :=
  map (fun ji => P (snd ji) (fst ji)) (list_prod (interval mb mt) (interval ml mr)).

(** the target of 2 hx + 1 by 2 hy + 1 circles around the circle (0, 0), row by row *)
Definition rows (P : Z -> Z -> point) (hx hy : Z) : list point := box P (- hx) hx (- hy) hy.

(** a perfect target: spacing ds, circle (0, 0) at (ox, oy) *)
Definition perfect (ox oy ds : Q) (i j : Z) : point := ((ox + inject_Z i * ds)%Q, (oy + inject_Z j * ds)%Q).

(** the coordinate [o] is a half multiple of [ds] *)
Definition half (o ds : Q) : Prop := exists c : Z, (o == (inject_Z c + (1 # 2)) * ds)%Q.

Definition is_integer (q : Q) : Prop := exists c : Z, (q == inject_Z c)%Q.

(** ** Proofs *)

Lemma in_interval a b x : In x (interval a b) <-> a <= x <= b.
Proof.
  unfold interval. rewrite in_map_iff. split.
  - intros (k & <- & Hk). apply in_seq in Hk. lia.
  - intros H. exists (Z.to_nat (x - a)). split; [lia|]. apply in_seq. lia.
Qed.

Lemma length_interval a b : List.length (interval a b) = Z.to_nat (b - a + 1).
Proof. unfold interval. rewrite map_length, seq_length. reflexivity. Qed.

Lemma StronglySorted_map {A B} (R : A -> A -> Prop) (R' : B -> B -> Prop) (f : A -> B) l :
  StronglySorted R l -> (forall a b, In a l -> In b l -> R a b -> R' (f a) (f b)) -> StronglySorted R' (map f l).
Proof.
  induction l as [|a l IH]; intros HS H; [constructor|]. apply StronglySorted_inv in HS. destruct HS as [HS HF]. cbn. constructor.
  - apply IH; [exact HS|]. intros x y Hx Hy. apply H; right; assumption.
  - apply Forall_forall. intros b Hb. apply in_map_iff in Hb. destruct Hb as (x & <- & Hx). apply H; [left; reflexivity|right; exact Hx|].
    rewrite Forall_forall in HF. apply HF, Hx.
Qed.

Lemma sorted_seq a n : StronglySorted lt (seq a n).
Proof.
  revert a. induction n as [|n IH]; intros a; [constructor|]. cbn. constructor; [apply IH|]. apply Forall_forall. intros x Hx. apply in_seq in Hx. lia.
Qed.

Lemma sorted_interval a b : StronglySorted Z.lt (interval a b).
Proof. apply (StronglySorted_map lt); [apply sorted_seq|]. intros. lia. Qed.

Definition lex (a b : Z * Z) : Prop := fst a < fst b \/ (fst a = fst b /\ snd a < snd b).

Lemma StronglySorted_app {A} (R : A -> A -> Prop) l1 l2 : StronglySorted R l1 -> StronglySorted R l2 ->
  (forall a b, In a l1 -> In b l2 -> R a b) -> StronglySorted R (l1 ++ l2).
Proof.
  induction l1 as [|a l1 IH]; intros H1 H2 H; [exact H2|]. apply StronglySorted_inv in H1. destruct H1 as [H1 HF]. cbn. constructor.
  - apply IH; [exact H1|exact H2|]. intros; apply H; [right|]; assumption.
  - apply Forall_app. split; [exact HF|]. apply Forall_forall. intros b Hb. apply H; [left; reflexivity|exact Hb].
Qed.

Lemma sorted_prod l1 l2 : StronglySorted Z.lt l1 -> StronglySorted Z.lt l2 -> StronglySorted lex (list_prod l1 l2).
Proof.
  intros H1 H2. induction H1 as [|a l1 H1 IH HF]; [constructor|]. cbn. apply StronglySorted_app.
  - apply (StronglySorted_map Z.lt); [exact H2|]. intros x y _ _ Hxy. right. cbn. auto.
  - exact IH.
  - intros x y Hx Hy. apply in_map_iff in Hx. destruct Hx as (b & <- & _). destruct y as [c d]. apply in_prod_iff in Hy. left. cbn.
    rewrite Forall_forall in HF. apply HF, Hy.
Qed.

Lemma sorted_NoDup {A} (R : A -> A -> Prop) l : (forall a, ~ R a a) -> StronglySorted R l -> NoDup l.
Proof.
  intros HR. induction 1 as [|a l _ IH HF]; constructor; [|exact IH]. intros Hin. rewrite Forall_forall in HF. apply (HR a), HF, Hin.
Qed.

Lemma NoDup_index a b c d : NoDup (list_prod (interval a b) (interval c d)).
Proof. apply (sorted_NoDup lex); [unfold lex; lia|]. apply sorted_prod; apply sorted_interval. Qed.

Lemma Injective_map_NoDup_in {A B} (f : A -> B) l : (forall a b, In a l -> In b l -> f a = f b -> a = b) -> NoDup l -> NoDup (map f l).
Proof.
  intros Hf. induction 1 as [|a l Ha HN IH]; [constructor|]. cbn. constructor.
  - intros Hin. apply in_map_iff in Hin. destruct Hin as (b & Hb & Hin). apply Hf in Hb; [congruence|right; exact Hin|left; reflexivity].
  - apply IH. intros x y Hx Hy. apply Hf; right; assumption.
Qed.

(** sorting *)
Definition kle (ds : Q) (p q : point) : Prop := key_leb (grid_key ds p) (grid_key ds q) = true.

Lemma key_leb_iff a b : key_leb a b = true <-> fst a < fst b \/ (fst a = fst b /\ snd a <= snd b).
Proof. unfold key_leb. rewrite Bool.orb_true_iff, Bool.andb_true_iff, Z.ltb_lt, Z.eqb_eq, Z.leb_le. reflexivity. Qed.

Lemma insert_perm ds p l : Permutation (p :: l) (insert_point ds p l).
Proof.
  induction l as [|q l IH]; [reflexivity|]. cbn. destruct (key_leb _ _); [reflexivity|]. rewrite perm_swap. constructor. exact IH.
Qed.

Lemma lexsort_perm ds l : Permutation l (lexsort ds l).
Proof. induction l as [|p l IH]; [constructor|]. cbn. rewrite <- insert_perm. constructor. exact IH. Qed.

Lemma insert_sorted ds p l : StronglySorted (kle ds) l -> StronglySorted (kle ds) (insert_point ds p l).
Proof.
  induction 1 as [|q l HS IH HF]; [repeat constructor|]. cbn. destruct (key_leb (grid_key ds p) (grid_key ds q)) eqn:E.
  - constructor; [constructor; assumption|]. constructor; [exact E|]. rewrite Forall_forall in HF |- *. intros x Hx. specialize (HF x Hx).
    unfold kle in *. rewrite key_leb_iff in *. lia.
  - constructor; [exact IH|]. apply Forall_forall. intros x Hx. apply (Permutation_in _ (Permutation_sym (insert_perm ds p l))) in Hx.
    destruct Hx as [<-|Hx]; [|rewrite Forall_forall in HF; apply HF, Hx].
    unfold kle. rewrite key_leb_iff. assert (~ (fst (grid_key ds p) < fst (grid_key ds q) \/ (fst (grid_key ds p) = fst (grid_key ds q) /\ snd (grid_key ds p) <= snd (grid_key ds q)))) by (rewrite <- key_leb_iff, E; discriminate). lia.
Qed.

Lemma lexsort_sorted ds l : StronglySorted (kle ds) (lexsort ds l).
Proof. induction l as [|p l IH]; [constructor|]. cbn. apply insert_sorted, IH. Qed.

Lemma sorted_unique (ds : Q) l1 : forall l2, StronglySorted (kle ds) l1 ->
  StronglySorted (fun p q => kle ds p q /\ ~ kle ds q p) l2 -> Permutation l1 l2 -> l1 = l2.
Proof.
  induction l1 as [|a l1 IH]; intros l2 H1 H2 HP.
  - symmetry. apply Permutation_nil, HP.
  - destruct l2 as [|b l2]; [apply Permutation_sym, Permutation_nil in HP; discriminate|].
    apply StronglySorted_inv in H1. destruct H1 as [H1 F1]. apply StronglySorted_inv in H2. destruct H2 as [H2 F2].
    rewrite Forall_forall in F1, F2.
    assert (a = b).
    { assert (Ha : In a (b :: l2)) by (eapply Permutation_in; [exact HP|left; reflexivity]).
      assert (Hb : In b (a :: l1)) by (eapply Permutation_in; [symmetry; exact HP|left; reflexivity]).
      destruct Ha as [Ha|Ha]; [congruence|]. destruct Hb as [Hb|Hb]; [congruence|].
      destruct (F2 a Ha) as [_ Hn]. exfalso. apply Hn, F1, Hb. }
    subst b. f_equal. apply IH; [exact H1|exact H2|]. eapply Permutation_cons_inv, HP.
Qed.

(** the sort is stable *)
Definition same_key (ds : Q) (k : Z * Z) (p : point) : bool := (fst (grid_key ds p) =? fst k) && (snd (grid_key ds p) =? snd k).

Lemma insert_stable ds k p l : filter (same_key ds k) (insert_point ds p l) = filter (same_key ds k) (p :: l).
Proof.
  induction l as [|q l IH]; [reflexivity|]. cbn [insert_point]. destruct (key_leb (grid_key ds p) (grid_key ds q)) eqn:E; [reflexivity|].
  cbn [filter] in *. rewrite IH. destruct (same_key ds k q) eqn:Eq; destruct (same_key ds k p) eqn:Ep; try reflexivity. exfalso.
  unfold same_key in Eq, Ep. rewrite Bool.andb_true_iff, !Z.eqb_eq in Eq, Ep.
  assert (H : key_leb (grid_key ds p) (grid_key ds q) = true) by (apply key_leb_iff; lia). congruence.
Qed.

Lemma lexsort_stable ds k l : filter (same_key ds k) (lexsort ds l) = filter (same_key ds k) l.
Proof. induction l as [|p l IH]; [reflexivity|]. cbn [lexsort fold_right]. rewrite insert_stable. cbn [filter]. fold (lexsort ds l). rewrite IH. reflexivity. Qed.

(** rounding *)
Lemma inject_lt1 m n : (inject_Z m - inject_Z n < 1)%Q -> m - n < 1.
Proof. intros H. rewrite Zlt_Qlt. unfold Z.sub. rewrite inject_Z_plus, inject_Z_opp. exact H. Qed.

Lemma round_spec x : (inject_Z (round_half_even x) - x <= 1 # 2)%Q /\ (x - inject_Z (round_half_even x) <= 1 # 2)%Q.
Proof.
  unfold round_half_even. pose proof (Qfloor_le x) as H1. pose proof (Qlt_floor x) as H2. set (f := Qfloor x) in *.
  rewrite inject_Z_plus in H2. change (inject_Z 1) with 1%Q in H2.
  destruct (Qcompare_spec (x - inject_Z f) (1 # 2)) as [H|H|H]; [destruct (Z.even f)|..]; try rewrite inject_Z_plus; change (inject_Z 1) with 1%Q; lra.
Qed.

Lemma round_near x n : (x - inject_Z n < 1 # 2)%Q -> (inject_Z n - x < 1 # 2)%Q -> round_half_even x = n.
Proof.
  intros H1 H2. destruct (round_spec x) as [H3 H4].
  assert (round_half_even x - n < 1) by (apply inject_lt1; lra). assert (n - round_half_even x < 1) by (apply inject_lt1; lra). lia.
Qed.

Lemma round_half x n : (x == inject_Z n + (1 # 2))%Q -> round_half_even x = if Z.even n then n else n + 1.
Proof.
  intros H. unfold round_half_even.
  assert (Hf : Qfloor x = n).
  { assert (H1 := Qfloor_le x). assert (H2 := Qlt_floor x). rewrite inject_Z_plus in H2. change (inject_Z 1) with 1%Q in H2.
    assert (Qfloor x - n < 1) by (apply inject_lt1; lra). assert (n - Qfloor x < 1) by (apply inject_lt1; lra). lia. }
  rewrite Hf. assert (HC : ((x - inject_Z n) ?= 1 # 2)%Q = Eq) by (apply Qeq_alt; lra). rewrite HC. reflexivity.
Qed.

Lemma div_bound a b c ds : (0 < ds)%Q -> (a - c * ds < b * ds)%Q -> (a / ds - c < b)%Q.
Proof.
  intros Hd H. apply (Qmult_lt_r _ _ ds Hd). assert (E : ((a / ds - c) * ds == a - c * ds)%Q) by (field; lra). rewrite E. exact H.
Qed.
Lemma div_bound' a b c ds : (0 < ds)%Q -> (c * ds - a < b * ds)%Q -> (c - a / ds < b)%Q.
Proof.
  intros Hd H. apply (Qmult_lt_r _ _ ds Hd). assert (E : ((c - a / ds) * ds == c * ds - a)%Q) by (field; lra). rewrite E. exact H.
Qed.

(** one coordinate: which multiples of ds are in the box *)
Definition in1 (o w ds : Q) (x : Q) : bool := (Qle_bool (o - inject_Z (Qfloor (w / 2))) x && Qle_bool x (o - inject_Z (Qfloor (w / 2)) + w))%bool.

Lemma contains_in1 ox oy w h ds p : bbox_contains (ox - inject_Z (Qfloor (w / 2))) (oy - inject_Z (Qfloor (h / 2))) w h p
  = (in1 ox w ds (fst p) && in1 oy h ds (snd p))%bool.
Proof. unfold bbox_contains, in1. rewrite Bool.andb_assoc. reflexivity. Qed.

Lemma width h ds : (inject_Z (2 * h + 1 + 1) * ds / 2 == inject_Z (h + 1) * ds)%Q.
Proof. replace (2 * h + 1 + 1) with (2 * (h + 1)) by lia. rewrite inject_Z_mult. change (inject_Z 2) with 2%Q. field. Qed.

Lemma floor_bounds a : (inject_Z (Qfloor a) <= a)%Q /\ (a - 1 < inject_Z (Qfloor a))%Q.
Proof.
  split; [apply Qfloor_le|]. assert (H := Qlt_floor a). rewrite inject_Z_plus in H. change (inject_Z 1) with 1%Q in H. lra.
Qed.

(** a coordinate close to a multiple of ds inside the target *)
Lemma in1_near o h i ds e x : 0 <= h -> - h <= i <= h -> (e <= ds - 1)%Q -> (0 <= e)%Q ->
  (x - (o + inject_Z i * ds) <= e)%Q -> (o + inject_Z i * ds - x <= e)%Q ->
  in1 o (inject_Z (2 * h + 1 + 1) * ds) ds x = true.
Proof.
  intros Hh Hi He He0 H1 H2. unfold in1. rewrite Bool.andb_true_iff, !Qle_bool_iff.
  destruct (floor_bounds (inject_Z (2 * h + 1 + 1) * ds / 2)) as [F1 F2]. set (F := inject_Z (Qfloor _)) in *. clearbody F.
  assert (HW := width h ds). assert (HW2 : (inject_Z (2 * h + 1 + 1) * ds == 2 * (inject_Z (h + 1) * ds))%Q) by (rewrite <- HW; field).
  rewrite HW in F1, F2. rewrite HW2. clear HW HW2. rewrite inject_Z_plus in *. change (inject_Z 1) with 1%Q in *.
  assert (Hi1 : (inject_Z i <= inject_Z h)%Q) by (rewrite <- Zle_Qle; lia).
  assert (Hi2 : (- inject_Z h <= inject_Z i)%Q) by (rewrite <- inject_Z_opp, <- Zle_Qle; lia).
  assert (M1 : (inject_Z i * ds <= inject_Z h * ds)%Q) by (apply Qmult_le_compat_r; lra).
  assert (M2 : (- inject_Z h * ds <= inject_Z i * ds)%Q) by (apply Qmult_le_compat_r; lra).
  split; lra.
Qed.

(** exact multiples *)
Definition left_limit (h : Z) (ds : Q) : Z := if Qeq_bool (inject_Z (h + 1) * ds) (inject_Z (Qfloor (inject_Z (h + 1) * ds))) then h + 1 else h.

Lemma in1_exact o h i ds : 0 <= h -> (1 <= ds)%Q ->
  in1 o (inject_Z (2 * h + 1 + 1) * ds) ds (o + inject_Z i * ds) = true <-> - left_limit h ds <= i <= h + 1.
Proof.
  intros Hh Hds. unfold in1. rewrite Bool.andb_true_iff, !Qle_bool_iff.
  rewrite (Qfloor_comp _ _ (width h ds)). assert (HW2 : (inject_Z (2 * h + 1 + 1) * ds == 2 * (inject_Z (h + 1) * ds))%Q) by (rewrite <- (width h ds); field).
  rewrite HW2. clear HW2. unfold left_limit. destruct (floor_bounds (inject_Z (h + 1) * ds)) as [F1 F2].
  destruct (Qeq_bool _ _) eqn:E.
  - apply Qeq_bool_eq in E. set (F := inject_Z (Qfloor _)) in *. clearbody F. rewrite inject_Z_plus in *. change (inject_Z 1) with 1%Q in *. split.
    + intros [H1 H2]. split.
      * destruct (Z_le_gt_dec (- (h + 1)) i) as [|Hgt]; [assumption|exfalso].
        assert (Hq : (inject_Z i <= - inject_Z h - 2)%Q) by (change (- inject_Z h - 2)%Q with (- inject_Z h + - inject_Z 2)%Q; rewrite <- !inject_Z_opp, <- inject_Z_plus, <- Zle_Qle; lia).
        assert ((inject_Z i * ds <= (- inject_Z h - 2) * ds)%Q) by (apply Qmult_le_compat_r; lra). lra.
      * destruct (Z_le_gt_dec i (h + 1)) as [|Hgt]; [assumption|exfalso].
        assert (Hq : (inject_Z h + 2 <= inject_Z i)%Q) by (change 2%Q with (inject_Z 2); rewrite <- inject_Z_plus, <- Zle_Qle; lia).
        assert (((inject_Z h + 2) * ds <= inject_Z i * ds)%Q) by (apply Qmult_le_compat_r; lra). lra.
    + intros [H1 H2].
      assert (Hq1 : (inject_Z i <= inject_Z h + 1)%Q) by (change 1%Q with (inject_Z 1); rewrite <- inject_Z_plus, <- Zle_Qle; lia).
      assert (Hq2 : (- (inject_Z h + 1) <= inject_Z i)%Q) by (change 1%Q with (inject_Z 1); rewrite <- inject_Z_plus, <- inject_Z_opp, <- Zle_Qle; lia).
      assert ((inject_Z i * ds <= (inject_Z h + 1) * ds)%Q) by (apply Qmult_le_compat_r; lra).
      assert ((- (inject_Z h + 1) * ds <= inject_Z i * ds)%Q) by (apply Qmult_le_compat_r; lra). split; lra.
  - assert (HF : (inject_Z (Qfloor (inject_Z (h + 1) * ds)) < inject_Z (h + 1) * ds)%Q).
    { destruct (Qlt_le_dec (inject_Z (Qfloor (inject_Z (h + 1) * ds))) (inject_Z (h + 1) * ds)) as [H|H]; [exact H|exfalso].
      assert (HE : Qeq_bool (inject_Z (h + 1) * ds) (inject_Z (Qfloor (inject_Z (h + 1) * ds))) = true) by (apply Qeq_eq_bool; lra). congruence. }
    clear E F1. set (F := inject_Z (Qfloor _)) in *. clearbody F. rewrite inject_Z_plus in *. change (inject_Z 1) with 1%Q in *. split.
    + intros [H1 H2]. split.
      * destruct (Z_le_gt_dec (- h) i) as [|Hgt]; [assumption|exfalso].
        assert (Hq : (inject_Z i <= - inject_Z h - 1)%Q) by (change (- inject_Z h - 1)%Q with (- inject_Z h + - inject_Z 1)%Q; rewrite <- !inject_Z_opp, <- inject_Z_plus, <- Zle_Qle; lia).
        assert ((inject_Z i * ds <= (- inject_Z h - 1) * ds)%Q) by (apply Qmult_le_compat_r; lra). lra.
      * destruct (Z_le_gt_dec i (h + 1)) as [|Hgt]; [assumption|exfalso].
        assert (Hq : (inject_Z h + 2 <= inject_Z i)%Q) by (change 2%Q with (inject_Z 2); rewrite <- inject_Z_plus, <- Zle_Qle; lia).
        assert (((inject_Z h + 2) * ds <= inject_Z i * ds)%Q) by (apply Qmult_le_compat_r; lra). lra.
    + intros [H1 H2].
      assert (Hq1 : (inject_Z i <= inject_Z h + 1)%Q) by (change 1%Q with (inject_Z 1); rewrite <- inject_Z_plus, <- Zle_Qle; lia).
      assert (Hq2 : (- inject_Z h <= inject_Z i)%Q) by (rewrite <- inject_Z_opp, <- Zle_Qle; lia).
      assert ((inject_Z i * ds <= (inject_Z h + 1) * ds)%Q) by (apply Qmult_le_compat_r; lra).
      assert ((- inject_Z h * ds <= inject_Z i * ds)%Q) by (apply Qmult_le_compat_r; lra). split; lra.
Qed.

(** what detect_grid does with a permutation of positions *)
Lemma detect_perm kps l o nx ny ds : Permutation kps l ->
  let w := (inject_Z (nx + 1) * ds)%Q in let h := (inject_Z (ny + 1) * ds)%Q in
  let c := filter (bbox_contains (fst o - inject_Z (Qfloor (w / 2))) (snd o - inject_Z (Qfloor (h / 2))) w h) l in
  c <> [] ->
  exists l', Permutation l' c /\ StronglySorted (kle ds) l' /\
    detect_grid kps o nx ny ds = if zlen c =? nx * ny then Ok l' else Err AssertionError.
Proof.
  intros HP w h c Hc. set (b := bbox_contains _ _ _ _) in c.
  assert (HPf : Permutation (filter b kps) c).
  { unfold c. clear -HP. induction HP as [|x l l' _ IH|x y l|l1 l2 l3 _ IH1 _ IH2]; [constructor| | |etransitivity; eassumption].
    - cbn. destruct (b x); [constructor|]; exact IH.
    - cbn. destruct (b x), (b y); try reflexivity. apply perm_swap. }
  exists (lexsort ds (filter b kps)). split; [rewrite <- lexsort_perm; exact HPf|]. split; [apply lexsort_sorted|].
  unfold detect_grid. destruct kps as [|k kps]; [exfalso; apply Permutation_nil in HPf; contradiction|].
  fold w h b. remember (filter b (k :: kps)) as f eqn:Ef. destruct f as [|p f]; [exfalso; apply Permutation_nil in HPf; contradiction|].
  rewrite Ef in *. assert (HL : zlen (lexsort ds (filter b (k :: kps))) = zlen c).
  { unfold zlen. rewrite <- (Permutation_length (lexsort_perm ds _)), (Permutation_length HPf). reflexivity. }
  cbv zeta. rewrite HL. reflexivity.
Qed.

Lemma zlen_box P ml mr mb mt : ml <= mr + 1 -> mb <= mt + 1 -> zlen (box P ml mr mb mt) = (mr - ml + 1) * (mt - mb + 1).
Proof. intros H1 H2. unfold zlen, box. rewrite map_length, prod_length, !length_interval. nia. Qed.

Lemma filter_all {A} (f : A -> bool) l : (forall x, In x l -> f x = true) -> filter f l = l.
Proof. induction l as [|a l IH]; intros H; [reflexivity|]. cbn. rewrite (H a (or_introl eq_refl)), IH; [reflexivity|]. intros x Hx. apply H. right. exact Hx. Qed.

Lemma in_box P ml mr mb mt p : In p (box P ml mr mb mt) <-> exists i j, ml <= i <= mr /\ mb <= j <= mt /\ p = P i j.
Proof.
  unfold box. rewrite in_map_iff. split.
  - intros ([j i] & <- & H). apply in_prod_iff in H. rewrite !in_interval in H. exists i, j. cbn. tauto.
  - intros (i & j & Hi & Hj & ->). exists (j, i). split; [reflexivity|]. apply in_prod_iff. rewrite !in_interval. tauto.
Qed.

(** ** C131 *)

(** The target of 2 hx + 1 by 2 hy + 1 circles, each found at most at a distance e of its right
    place (in x and in y): if the origin is near multiples cx ds, cy ds of the spacing, at a
    distance smaller than ds / 2 - e, the positions are given row by row, whatever the order in
    which the blobs are detected. *)
Theorem C131_rows (P : Z -> Z -> point) hx hy ox oy ds e cx cy kps :
  0 <= hx -> 0 <= hy -> (0 <= e)%Q -> (e <= ds - 1)%Q ->
  (forall i j, - hx <= i <= hx -> - hy <= j <= hy ->
     (Qabs (fst (P i j) - (ox + inject_Z i * ds)) <= e)%Q /\ (Qabs (snd (P i j) - (oy + inject_Z j * ds)) <= e)%Q) ->
  (Qabs (ox - inject_Z cx * ds) + e < (1 # 2) * ds)%Q -> (Qabs (oy - inject_Z cy * ds) + e < (1 # 2) * ds)%Q ->
  Permutation kps (rows P hx hy) ->
  detect_grid kps (ox, oy) (2 * hx + 1) (2 * hy + 1) ds = Ok (rows P hx hy).
Proof.
  intros Hx Hy He0 He HPo Hcx Hcy HP.
  assert (Habs : forall a b : Q, (Qabs a <= b)%Q -> (a <= b)%Q /\ (- a <= b)%Q).
  { intros a b H. apply Qabs_Qle_condition in H. lra. }
  assert (Hds : (0 < ds)%Q) by lra.
  assert (Hall : forall p, In p (rows P hx hy) -> bbox_contains (fst (ox, oy) - inject_Z (Qfloor (inject_Z (2 * hx + 1 + 1) * ds / 2))) (snd (ox, oy) - inject_Z (Qfloor (inject_Z (2 * hy + 1 + 1) * ds / 2))) (inject_Z (2 * hx + 1 + 1) * ds) (inject_Z (2 * hy + 1 + 1) * ds) p = true).
  { intros p Hp. apply in_box in Hp. destruct Hp as (i & j & Hi & Hj & ->). destruct (HPo i j Hi Hj) as [H1 H2]. apply Habs in H1, H2.
    rewrite (contains_in1 _ _ _ _ ds). cbn [fst snd]. rewrite (in1_near ox hx i ds e), (in1_near oy hy j ds e); [reflexivity|..]; try assumption; lra. }
  assert (Hlen : zlen (rows P hx hy) = (2 * hx + 1) * (2 * hy + 1)) by (unfold rows; rewrite zlen_box by lia; lia).
  destruct (detect_perm kps (rows P hx hy) (ox, oy) (2 * hx + 1) (2 * hy + 1) ds HP) as (l' & HP' & HS & HD).
  { rewrite filter_all by exact Hall. intros Hn. rewrite Hn in Hlen. change (zlen (@nil point)) with 0 in Hlen. nia. }
  rewrite filter_all in HP', HD by exact Hall. rewrite HD, Hlen, Z.eqb_refl. f_equal. apply (sorted_unique ds); [exact HS| |exact HP'].
  unfold rows, box. apply (StronglySorted_map lex); [apply sorted_prod; apply sorted_interval|].
  assert (HK : forall j i, In (j, i) (list_prod (interval (- hy) hy) (interval (- hx) hx)) -> grid_key ds (P i j) = (cy + j, cx + i)).
  { intros j i Hin. apply in_prod_iff in Hin. rewrite !in_interval in Hin. destruct Hin as [Hj Hi]. destruct (HPo i j Hi Hj) as [H1 H2]. apply Habs in H1, H2.
    assert (H3 : (Qabs (ox - inject_Z cx * ds) <= Qabs (ox - inject_Z cx * ds))%Q) by lra. assert (H4 : (Qabs (oy - inject_Z cy * ds) <= Qabs (oy - inject_Z cy * ds))%Q) by lra.
    apply Habs in H3, H4. set (ax := Qabs (ox - _)) in *. set (ay := Qabs (oy - _)) in *. clearbody ax ay.
    unfold grid_key. f_equal; apply round_near.
    - apply div_bound; [exact Hds|]. rewrite inject_Z_plus. lra.
    - apply div_bound'; [exact Hds|]. rewrite inject_Z_plus. lra.
    - apply div_bound; [exact Hds|]. rewrite inject_Z_plus. lra.
    - apply div_bound'; [exact Hds|]. rewrite inject_Z_plus. lra. }
  intros [j i] [j' i'] H1 H2 Hlex. cbn [fst snd]. unfold kle. rewrite (HK _ _ H1), (HK _ _ H2), !key_leb_iff. unfold lex in Hlex. cbn [fst snd] in *. lia.
Qed.
Print Assumptions C131_rows.

Lemma key_perfect ox oy ds i j cx cy : (0 < ds)%Q ->
  grid_key ds (perfect ox oy ds i j) = (cy, cx) -> round_half_even ((oy + inject_Z j * ds) / ds) = cy /\ round_half_even ((ox + inject_Z i * ds) / ds) = cx.
Proof. intros _ H. unfold grid_key, perfect in H. cbn [fst snd] in H. injection H as -> ->. auto. Qed.

Lemma half_round o ds c i : (0 < ds)%Q -> (o == (inject_Z c + (1 # 2)) * ds)%Q ->
  round_half_even ((o + inject_Z i * ds) / ds) = if Z.even (c + i) then c + i else c + i + 1.
Proof.
  intros Hd Ho. apply round_half. rewrite Ho, inject_Z_plus. field. lra.
Qed.

Lemma not_half_near o ds : (0 < ds)%Q -> ~ half o ds -> exists c, (Qabs (o - inject_Z c * ds) + 0 < (1 # 2) * ds)%Q.
Proof.
  intros Hd Hh. exists (round_half_even (o / ds)). destruct (round_spec (o / ds)) as [H1 H2]. set (c := round_half_even (o / ds)) in *. clearbody c.
  assert (Ho : (o == (o / ds) * ds)%Q) by (field; lra). set (q := (o / ds)%Q) in *. clearbody q.
  assert (N1 : ~ (q - inject_Z c == 1 # 2)%Q).
  { intros H. apply Hh. exists c. rewrite Ho. assert (E : (q == inject_Z c + (1 # 2))%Q) by lra. rewrite E. reflexivity. }
  assert (N2 : ~ (inject_Z c - q == 1 # 2)%Q).
  { intros H. apply Hh. exists (c - 1). rewrite Ho. unfold Z.sub. rewrite inject_Z_plus. change (inject_Z (- (1))) with (- (1))%Q. assert (E : (q == inject_Z c + - (1) + (1 # 2))%Q) by lra. rewrite E. reflexivity. }
  assert (L1 : (q - inject_Z c < 1 # 2)%Q) by (destruct (Qlt_le_dec (q - inject_Z c) (1 # 2)); [assumption|exfalso; apply N1; lra]).
  assert (L2 : (inject_Z c - q < 1 # 2)%Q) by (destruct (Qlt_le_dec (inject_Z c - q) (1 # 2)); [assumption|exfalso; apply N2; lra]).
  assert (E : (Qabs (o - inject_Z c * ds) == Qabs (q - inject_Z c) * ds)%Q).
  { assert (E1 : (o - inject_Z c * ds == (q - inject_Z c) * ds)%Q) by (rewrite Ho; ring). rewrite E1, Qabs_Qmult. rewrite (Qabs_pos ds) by lra. reflexivity. }
  rewrite E. assert (HA : (Qabs (q - inject_Z c) < 1 # 2)%Q) by (apply Qabs_case; lra).
  assert ((Qabs (q - inject_Z c) * ds < (1 # 2) * ds)%Q) by (apply Qmult_lt_r; assumption). lra.
Qed.

(** For a perfect target: the circles are given row by row, for all the orders of detection, if
    and only if no coordinate of the origin is a half multiple of the spacing.  (np.round rounds
    the halves to even numbers: two rows, or two columns, are then mixed.) *)
Theorem C131_order_iff hx hy ox oy ds :
  1 <= hx -> 1 <= hy -> (1 <= ds)%Q ->
  ((forall kps, Permutation kps (rows (perfect ox oy ds) hx hy) ->
      detect_grid kps (ox, oy) (2 * hx + 1) (2 * hy + 1) ds = Ok (rows (perfect ox oy ds) hx hy))
   <-> ~ half ox ds /\ ~ half oy ds).
Proof.
  intros Hx Hy Hds. assert (Hd : (0 < ds)%Q) by lra. split.
  - intros H.
    assert (Hsort : forall kps, Permutation kps (rows (perfect ox oy ds) hx hy) -> lexsort ds kps = rows (perfect ox oy ds) hx hy).
    { intros kps HP. specialize (H kps HP). unfold detect_grid in H. destruct kps as [|k kps]; [discriminate|]. cbv zeta in H.
      destruct (filter _ (k :: kps)) as [|p f] eqn:Ef; [discriminate|]. rewrite <- Ef in H.
      destruct (_ =? _); [|discriminate]. assert (H' := f_equal (fun r => match r with Ok l => l | Err _ => [] end) H). cbn beta iota in H'.
      rewrite <- H'. f_equal. symmetry.
      assert (HL : List.length (filter (bbox_contains (fst (ox, oy) - inject_Z (Qfloor (inject_Z (2 * hx + 1 + 1) * ds / 2))) (snd (ox, oy) - inject_Z (Qfloor (inject_Z (2 * hy + 1 + 1) * ds / 2))) (inject_Z (2 * hx + 1 + 1) * ds) (inject_Z (2 * hy + 1 + 1) * ds)) (k :: kps)) = List.length (k :: kps)).
      { rewrite (Permutation_length HP), <- H'. apply Permutation_length, lexsort_perm. }
      revert HL. generalize (k :: kps). clear. intros l. induction l as [|a l IH]; [reflexivity|]. cbn [filter].
      destruct (bbox_contains _ _ _ _ a); cbn [List.length]; intros HL; [f_equal; apply IH; lia|].
      exfalso. assert (Hle : forall (f : point -> bool) l, (List.length (filter f l) <= List.length l)%nat) by (intros f l0; induction l0 as [|b l0 IH0]; [apply le_n|cbn; destruct (f b); cbn; lia]).
      specialize (Hle (bbox_contains (fst (ox, oy) - inject_Z (Qfloor (inject_Z (2 * hx + 1 + 1) * ds / 2))) (snd (ox, oy) - inject_Z (Qfloor (inject_Z (2 * hy + 1 + 1) * ds / 2))) (inject_Z (2 * hx + 1 + 1) * ds) (inject_Z (2 * hy + 1 + 1) * ds)) l). lia. }
    split.
    + intros [c Hc].
      (* two columns with the same key *)
      assert (Hi : exists i, - hx <= i /\ i + 1 <= hx /\ Z.even (c + i) = false).
      { destruct (Z.even (c + 0)) eqn:E; [exists (-1)|exists 0]; (split; [lia|]; split; [lia|]); [|exact E].
        replace (c + -1) with (Z.pred (c + 0)) by lia. rewrite Z.even_pred, <- Z.negb_even, E. reflexivity. }
      destruct Hi as (i & Hi1 & Hi2 & Ei).
      set (R := rows (perfect ox oy ds) hx hy) in *.
      pose proof (Hsort (rev R) (Permutation_sym (Permutation_rev R))) as HR.
      set (k := grid_key ds (perfect ox oy ds i 0)).
      pose proof (lexsort_stable ds k (rev R)) as HSt. rewrite HR in HSt.
      assert (Hrev : forall (f : point -> bool) l, filter f (rev l) = rev (filter f l)).
      { intros f l. induction l as [|a l IH]; [reflexivity|]. cbn. rewrite filter_app, IH. cbn. destruct (f a); [reflexivity|apply app_nil_r]. }
      rewrite Hrev in HSt.
      assert (Hk2 : grid_key ds (perfect ox oy ds (i + 1) 0) = k).
      { unfold k, grid_key, perfect. cbn [fst snd]. f_equal. rewrite !(half_round ox ds c) by assumption.
        replace (c + (i + 1)) with (Z.succ (c + i)) by lia. rewrite Z.even_succ, <- Z.negb_even, Ei. cbn. lia. }
      assert (HN : NoDup (filter (same_key ds k) R)).
      { apply NoDup_filter. unfold R, rows, box. apply Injective_map_NoDup_in; [|apply NoDup_index].
        intros [j1 i1] [j2 i2] _ _ Heq. unfold perfect in Heq. pose proof (f_equal fst Heq) as E1; pose proof (f_equal snd Heq) as E2; cbn [fst snd] in E1, E2.
        assert (inject_Z i1 * ds == inject_Z i2 * ds)%Q by (assert (Q1 : (ox + inject_Z i1 * ds == ox + inject_Z i2 * ds)%Q) by (rewrite E1; reflexivity); lra).
        assert (inject_Z j1 * ds == inject_Z j2 * ds)%Q by (assert (Q1 : (oy + inject_Z j1 * ds == oy + inject_Z j2 * ds)%Q) by (rewrite E2; reflexivity); lra).
        assert (Hinj : forall a b : Z, (inject_Z a * ds == inject_Z b * ds)%Q -> a = b).
        { intros a b Hab. apply Qmult_inj_r in Hab; [|lra]. unfold Qeq, inject_Z in Hab. cbn in Hab. lia. }
        f_equal; apply Hinj; assumption. }
      assert (HI1 : In (perfect ox oy ds i 0) (filter (same_key ds k) R)).
      { apply filter_In. split; [apply in_box; exists i, 0; repeat split; lia|]. unfold same_key. fold k. rewrite !Z.eqb_refl. reflexivity. }
      assert (HI2 : In (perfect ox oy ds (i + 1) 0) (filter (same_key ds k) R)).
      { apply filter_In. split; [apply in_box; exists (i + 1), 0; repeat split; lia|]. unfold same_key. rewrite Hk2, !Z.eqb_refl. reflexivity. }
      assert (Hne : perfect ox oy ds i 0 <> perfect ox oy ds (i + 1) 0).
      { intros Heq. unfold perfect in Heq. pose proof (f_equal fst Heq) as E1; cbn [fst snd] in E1. assert (Q1 : (ox + inject_Z i * ds == ox + inject_Z (i + 1) * ds)%Q) by (rewrite E1; reflexivity).
        rewrite inject_Z_plus in Q1. change (inject_Z 1) with 1%Q in Q1. lra. }
      set (F := filter (same_key ds k) R) in *. clearbody F.
      destruct F as [|a F]; [destruct HI1|]. destruct F as [|b F].
      { destruct HI1 as [E1|[]]. destruct HI2 as [E2|[]]. apply Hne. congruence. }
      cbn [rev] in HSt.
      assert (Hlast : In a (b :: F)).
      { assert (Hl : last (a :: b :: F) a = a) by (rewrite HSt; apply last_last). change (last (a :: b :: F) a) with (last (b :: F) a) in Hl.
        rewrite <- Hl. clear. revert b. induction F as [|x F IH]; intros b; [left; reflexivity|]. right. change (last (b :: x :: F) a) with (last (x :: F) a). apply IH. }
      inversion HN; contradiction.
    + intros [c Hc].
      (* two rows with the same key *)
      assert (Hj : exists j, - hy <= j /\ j + 1 <= hy /\ Z.even (c + j) = false).
      { destruct (Z.even (c + 0)) eqn:E; [exists (-1)|exists 0]; (split; [lia|]; split; [lia|]); [|exact E].
        replace (c + -1) with (Z.pred (c + 0)) by lia. rewrite Z.even_pred, <- Z.negb_even, E. reflexivity. }
      destruct Hj as (j & Hj1 & Hj2 & Ej).
      pose proof (Hsort _ (Permutation_refl (rows (perfect ox oy ds) hx hy))) as HR.
      pose proof (lexsort_sorted ds (rows (perfect ox oy ds) hx hy)) as HSo. rewrite HR in HSo. clear HR Hsort H.
      assert (HRel : forall a b, lex a b -> In a (list_prod (interval (- hy) hy) (interval (- hx) hx)) -> In b (list_prod (interval (- hy) hy) (interval (- hx) hx)) ->
        kle ds (perfect ox oy ds (snd a) (fst a)) (perfect ox oy ds (snd b) (fst b))).
      { intros a b Hab Ha Hb. assert (Hs := sorted_prod _ _ (sorted_interval (- hy) hy) (sorted_interval (- hx) hx)).
        unfold rows, box in HSo. set (L := list_prod _ _) in *. clearbody L. clear -Hs HSo Hab Ha Hb.
        induction L as [|x L IH]; [destruct Ha|]. apply StronglySorted_inv in Hs. destruct Hs as [Hs Hf]. cbn in HSo. apply StronglySorted_inv in HSo. destruct HSo as [HSo HF].
        rewrite Forall_forall in Hf, HF. destruct Ha as [->|Ha].
        - destruct Hb as [->|Hb]; [unfold lex in Hab; lia|]. apply HF. apply in_map_iff. exists b. auto.
        - destruct Hb as [->|Hb]; [specialize (Hf a Ha); unfold lex in *; lia|]. apply IH; assumption. }
      specialize (HRel (j, hx) (j + 1, - hx)). cbn [fst snd] in HRel.
      assert (HK : kle ds (perfect ox oy ds hx j) (perfect ox oy ds (- hx) (j + 1))).
      { apply HRel; [left; cbn; lia| |]; apply in_prod_iff; rewrite !in_interval; lia. }
      unfold kle in HK. rewrite key_leb_iff in HK. unfold grid_key, perfect in HK. cbn [fst snd] in HK.
      rewrite !(half_round oy ds c) in HK by assumption. replace (c + (j + 1)) with (Z.succ (c + j)) in HK by lia. rewrite Z.even_succ, <- Z.negb_even, Ej in HK. cbn [negb] in HK.
      destruct HK as [HK|[_ HK]]; [lia|].
      assert (Hmono : round_half_even ((ox + inject_Z (- hx) * ds) / ds) < round_half_even ((ox + inject_Z hx * ds) / ds)).
      { destruct (round_spec ((ox + inject_Z (- hx) * ds) / ds)) as [A1 A2]. destruct (round_spec ((ox + inject_Z hx * ds) / ds)) as [B1 B2].
        assert (E1 : ((ox + inject_Z (- hx) * ds) / ds == ox / ds - inject_Z hx)%Q) by (rewrite inject_Z_opp; field; lra).
        assert (E2 : ((ox + inject_Z hx * ds) / ds == ox / ds + inject_Z hx)%Q) by (field; lra).
        rewrite E1 in A1 at 2. rewrite E2 in B2 at 1. set (a := round_half_even _) in *. set (b := round_half_even _) in *. clearbody a b.
        assert (Hh : (1 <= inject_Z hx)%Q) by (change 1%Q with (inject_Z 1); rewrite <- Zle_Qle; exact Hx).
        rewrite Zlt_Qlt. lra. }
      lia.
  - intros [H1 H2] kps HP. destruct (not_half_near ox ds Hd H1) as [cx Hcx]. destruct (not_half_near oy ds Hd H2) as [cy Hcy].
    apply (C131_rows (perfect ox oy ds) hx hy ox oy ds 0 cx cy); try assumption; try lia; try lra.
    intros i j _ _. cbn [perfect fst snd].
    assert (E1 : (ox + inject_Z i * ds - (ox + inject_Z i * ds) == 0)%Q) by ring. assert (E2 : (oy + inject_Z j * ds - (oy + inject_Z j * ds) == 0)%Q) by ring.
    rewrite E1, E2. cbn. split; apply Qle_refl.
Qed.
Print Assumptions C131_order_iff.

(** The condition of the left (and bottom) neighbours. *)
Lemma left_limit_spec h ds : (left_limit h ds = h + 1 /\ is_integer (inject_Z (h + 1) * ds)) \/ (left_limit h ds = h /\ ~ is_integer (inject_Z (h + 1) * ds)).
Proof.
  unfold left_limit. destruct (Qeq_bool _ _) eqn:E.
  - left. split; [reflexivity|]. apply Qeq_bool_eq in E. eexists. exact E.
  - right. split; [reflexivity|]. intros [c Hc]. assert (HE : Qeq_bool (inject_Z (h + 1) * ds) (inject_Z (Qfloor (inject_Z (h + 1) * ds))) = true); [|congruence].
    apply Qeq_eq_bool. rewrite (Qfloor_comp _ _ Hc), Qfloor_Z. exact Hc.
Qed.

(** The grid of 2 hx + 1 by 2 hy + 1 circles around the origin, in a perfect target with possibly
    more circles: it is found if and only if there is no circle further on the right nor on the
    side of the large y, and, on the left (resp. the side of the small y), no circle or
    (hx + 1) ds (resp. (hy + 1) ds) is not an integer.  Otherwise AssertionError. *)
Theorem C131_larger_iff hx hy ml mr mb mt ox oy ds kps :
  0 <= hx -> 0 <= hy -> (1 <= ds)%Q -> hx <= ml -> hx <= mr -> hy <= mb -> hy <= mt ->
  Permutation kps (box (perfect ox oy ds) (- ml) mr (- mb) mt) ->
  let found := mr = hx /\ mt = hy /\ (ml = hx \/ ~ is_integer (inject_Z (hx + 1) * ds)) /\ (mb = hy \/ ~ is_integer (inject_Z (hy + 1) * ds)) in
  (found -> exists l, detect_grid kps (ox, oy) (2 * hx + 1) (2 * hy + 1) ds = Ok l /\ Permutation l (rows (perfect ox oy ds) hx hy)) /\
  (~ found -> detect_grid kps (ox, oy) (2 * hx + 1) (2 * hy + 1) ds = Err AssertionError).
Proof.
  intros Hx Hy Hds Hml Hmr Hmb Hmt HP found.
  set (L := left_limit hx ds). set (B := left_limit hy ds).
  assert (HC : Permutation (filter (bbox_contains (fst (ox, oy) - inject_Z (Qfloor (inject_Z (2 * hx + 1 + 1) * ds / 2))) (snd (ox, oy) - inject_Z (Qfloor (inject_Z (2 * hy + 1 + 1) * ds / 2))) (inject_Z (2 * hx + 1 + 1) * ds) (inject_Z (2 * hy + 1 + 1) * ds)) (box (perfect ox oy ds) (- ml) mr (- mb) mt))
     (box (perfect ox oy ds) (- Z.min ml L) (Z.min mr (hx + 1)) (- Z.min mb B) (Z.min mt (hy + 1)))).
  { assert (HN : forall a b c d, NoDup (box (perfect ox oy ds) a b c d)).
    { intros a b c d. unfold box. apply Injective_map_NoDup_in; [|apply NoDup_index].
      intros [j1 i1] [j2 i2] _ _ Heq. unfold perfect in Heq. pose proof (f_equal fst Heq) as E1; pose proof (f_equal snd Heq) as E2; cbn [fst snd] in E1, E2.
      assert (inject_Z i1 * ds == inject_Z i2 * ds)%Q by (assert (Q1 : (ox + inject_Z i1 * ds == ox + inject_Z i2 * ds)%Q) by (rewrite E1; reflexivity); lra).
      assert (inject_Z j1 * ds == inject_Z j2 * ds)%Q by (assert (Q1 : (oy + inject_Z j1 * ds == oy + inject_Z j2 * ds)%Q) by (rewrite E2; reflexivity); lra).
      assert (Hinj : forall a b : Z, (inject_Z a * ds == inject_Z b * ds)%Q -> a = b).
      { intros a' b' Hab. apply Qmult_inj_r in Hab; [|lra]. unfold Qeq, inject_Z in Hab. cbn in Hab. lia. }
      f_equal; apply Hinj; assumption. }
    apply NoDup_Permutation; [apply NoDup_filter, HN|apply HN|]. intros p. rewrite filter_In, !in_box. split.
    - intros [(i & j & Hi & Hj & ->) Hc]. rewrite (contains_in1 _ _ _ _ ds) in Hc. cbn [perfect fst snd] in Hc. apply andb_prop in Hc. destruct Hc as [C1 C2].
      apply in1_exact in C1; [|assumption..]. apply in1_exact in C2; [|assumption..]. fold L in C1. fold B in C2. exists i, j. repeat split; lia.
    - intros (i & j & Hi & Hj & ->). split; [exists i, j; repeat split; lia|]. rewrite (contains_in1 _ _ _ _ ds). cbn [perfect fst snd].
      apply andb_true_intro. split; apply in1_exact; try assumption; fold L B; lia. }
  assert (HL : L = hx \/ L = hx + 1) by (unfold L; destruct (left_limit_spec hx ds) as [[-> _]|[-> _]]; auto).
  assert (HB : B = hy \/ B = hy + 1) by (unfold B; destruct (left_limit_spec hy ds) as [[-> _]|[-> _]]; auto).
  assert (Hlen : zlen (box (perfect ox oy ds) (- Z.min ml L) (Z.min mr (hx + 1)) (- Z.min mb B) (Z.min mt (hy + 1))) = (Z.min mr (hx + 1) + Z.min ml L + 1) * (Z.min mt (hy + 1) + Z.min mb B + 1)) by (rewrite zlen_box by lia; f_equal; lia).
  destruct (detect_perm kps _ (ox, oy) (2 * hx + 1) (2 * hy + 1) ds HP) as (l' & HP' & _ & HD).
  { intros Hn. rewrite Hn in HC. apply Permutation_nil in HC. rewrite HC in Hlen. change (zlen (@nil point)) with 0 in Hlen.
    assert (Z1 : 0 < Z.min mr (hx + 1) + Z.min ml L + 1) by (clear -Hx Hml Hmr HL; lia). assert (Z2 : 0 < Z.min mt (hy + 1) + Z.min mb B + 1) by (clear -Hy Hmb Hmt HB; lia).
    pose proof (Z.mul_pos_pos _ _ Z1 Z2) as Z3. rewrite <- Hlen in Z3. exact (Z.lt_irrefl _ Z3). }
  rewrite HC in HP'.
  assert (Hz : zlen (filter (bbox_contains (fst (ox, oy) - inject_Z (Qfloor (inject_Z (2 * hx + 1 + 1) * ds / 2))) (snd (ox, oy) - inject_Z (Qfloor (inject_Z (2 * hy + 1 + 1) * ds / 2))) (inject_Z (2 * hx + 1 + 1) * ds) (inject_Z (2 * hy + 1 + 1) * ds)) (box (perfect ox oy ds) (- ml) mr (- mb) mt)) = (Z.min mr (hx + 1) + Z.min ml L + 1) * (Z.min mt (hy + 1) + Z.min mb B + 1)) by (rewrite <- Hlen; unfold zlen; rewrite (Permutation_length HC); reflexivity).
  rewrite Hz in HD. split.
  - intros (H1 & H2 & H3 & H4).
    assert (E1 : Z.min ml L = hx) by (unfold L; destruct (left_limit_spec hx ds) as [[-> HI]|[-> HI]]; destruct H3; try contradiction; lia).
    assert (E2 : Z.min mb B = hy) by (unfold B; destruct (left_limit_spec hy ds) as [[-> HI]|[-> HI]]; destruct H4; try contradiction; lia).
    rewrite E1, E2 in *. replace (Z.min mr (hx + 1)) with hx in * by lia. replace (Z.min mt (hy + 1)) with hy in * by lia.
    exists l'. split; [|exact HP']. rewrite HD. replace ((hx + hx + 1) * (hy + hy + 1) =? (2 * hx + 1) * (2 * hy + 1)) with true; [reflexivity|]. symmetry. apply Z.eqb_eq. lia.
  - intros Hnf. rewrite HD. match goal with |- (if ?a =? ?b then _ else _) = _ => destruct (Z.eqb_spec a b) as [E|_] end; [|reflexivity]. exfalso. apply Hnf.
    set (cx := Z.min mr (hx + 1) + Z.min ml L + 1) in *. set (cy := Z.min mt (hy + 1) + Z.min mb B + 1) in *.
    assert (2 * hx + 1 <= cx) by (unfold cx; lia). assert (2 * hy + 1 <= cy) by (unfold cy; lia).
    assert (EX : cx = 2 * hx + 1 /\ cy = 2 * hy + 1) by (clearbody cx cy; clear -E H H0 Hx Hy; nia).
    destruct EX as [EX EY]. unfold cx, cy, found in *. clear HD Hz Hlen E.
    split; [lia|]. split; [lia|]. split.
    + unfold L in *. destruct (left_limit_spec hx ds) as [[EL HI]|[EL HI]]; [left; lia|right; exact HI].
    + unfold B in *. destruct (left_limit_spec hy ds) as [[EL HI]|[EL HI]]; [left; lia|right; exact HI].
Qed.
Print Assumptions C131_larger_iff.

(** REFUTED: the nx by ny circles around the origin are found in a larger target.  With circles
    beyond on all sides, never. *)
Theorem C131_larger_refuted hx hy ml mr mb mt ox oy ds kps :
  0 <= hx -> 0 <= hy -> (1 <= ds)%Q -> hx < ml -> hx < mr -> hy < mb -> hy < mt ->
  Permutation kps (box (perfect ox oy ds) (- ml) mr (- mb) mt) ->
  detect_grid kps (ox, oy) (2 * hx + 1) (2 * hy + 1) ds = Err AssertionError.
Proof.
  intros Hx Hy Hds H1 H2 H3 H4 HP. apply (C131_larger_iff hx hy ml mr mb mt ox oy ds kps); try lia; try assumption.
Qed.
Print Assumptions C131_larger_refuted.

(** ** C132 *)

(** When something has been saved in a path, nothing changes it: after any calibrations (with
    any objects), the file still contains the same thing. *)
Theorem C132_first (A : Type) (fs : files A) l p a :
  fs p = Some a -> calibrations fs l p = Some a.
Proof.
  revert fs. induction l as [|[[q debug] b] l IH]; intros fs H; [exact H|]. cbn [calibrations]. apply IH.
  unfold calibrate. destruct debug; [exact H|]. unfold save. cbn [new_calib_cv cv_path]. destruct (negb (has_dirname q)); [exact H|].
  destruct (fs (path_id q)) eqn:E; [exact H|]. cbn. destruct (Z.eqb_spec p (path_id q)) as [->|]; [congruence|exact H].
Qed.
Print Assumptions C132_first.

(** What a new object gives after several calibrations: the first one of those which are not in
    debug mode. *)
Theorem C132_new_object (A : Type) (fs : files A) p l a l' :
  has_dirname p = true -> fs (path_id p) = None ->
  Forall (fun x => fst (fst x) <> p -> path_id (fst (fst x)) <> path_id p) (l ++ l') ->
  Forall (fun x => fst (fst x) = p -> snd (fst x) = true) l ->
  cv_params (new_calib_cv (calibrations fs (l ++ (p, false, a) :: l')) p) = Some a.
Proof.
  intros Hd Hf HF HD. cbn. revert fs Hf. induction l as [|[[q debug] b] l IH]; intros fs Hf.
  - cbn [app calibrations]. apply C132_first. unfold calibrate, save. cbn [new_calib_cv cv_path]. rewrite Hd, Hf. cbn. rewrite Z.eqb_refl. reflexivity.
  - cbn [app calibrations]. cbn [app] in HF. inversion_clear HF as [|? ? H1 H2]. inversion_clear HD as [|? ? H3 H4]. apply IH; [exact H2|exact H4|]. cbn in H1, H3.
    unfold calibrate. destruct debug; [exact Hf|]. unfold save. cbn [new_calib_cv cv_path]. destruct (negb (has_dirname q)); [exact Hf|].
    destruct (fs (path_id q)); [exact Hf|]. cbn. destruct (Z.eqb_spec (path_id p) (path_id q)) as [E|]; [|exact Hf].
    exfalso. apply H1; [intros Hq; specialize (H3 Hq); discriminate|congruence].
Qed.
Print Assumptions C132_new_object.

(** The object used for the calibration has the last one. *)
Theorem C132_object (A : Type) (fs : files A) c a : cv_params (snd (fst (calibrate false fs c a))) = Some a.
Proof.
  unfold calibrate, save. destruct (negb _); [reflexivity|]. destruct (fs _); reflexivity.
Qed.
Print Assumptions C132_object.

(** REFUTED: the object and the file agree after a calibration: a second different calibration is
    not saved. *)
Theorem C132_saved_refuted (A : Type) (fs : files A) p a b :
  has_dirname p = true -> fs (path_id p) = Some a -> a <> b ->
  let '(fs', c', e) := calibrate false fs (new_calib_cv fs p) b in
  e = None /\ cv_params c' = Some b /\ cv_params (new_calib_cv fs' p) = Some a.
Proof. intros Hd Hf _. unfold calibrate, save. cbn [new_calib_cv cv_path]. rewrite Hd, Hf. cbn. auto. Qed.
Print Assumptions C132_saved_refuted.

(** REFUTED: a calibration can be saved with the default path (cam.h5) or any path without
    directory. *)
Theorem C132_no_directory_refuted (A : Type) (fs : files A) p a :
  has_dirname p = false ->
  let '(fs', c', e) := calibrate false fs (new_calib_cv fs p) a in e = Some FileNotFoundError /\ forall q, fs' q = fs q.
Proof. intros Hd. unfold calibrate, save. cbn [new_calib_cv cv_path]. rewrite Hd. cbn. auto. Qed.
Print Assumptions C132_no_directory_refuted.

(** ** Examples *)
Example C131_ex_rows : detect_grid (rev (rows (perfect 100 100 50) 1 1)) (100, 100)%Q 3 3 50 = Ok (rows (perfect 100 100 50) 1 1).
Proof. vm_compute. reflexivity. Qed.
(** origin at 75: three rows, two of them are mixed *)
Example C131_ex_half : exists l, detect_grid (rows (perfect 100 75 50) 1 1) (100, 75)%Q 3 3 50 = Ok l /\ l <> rows (perfect 100 75 50) 1 1.
Proof. eexists. split; [vm_compute; reflexivity|vm_compute; discriminate]. Qed.
Example C131_ex_half_hyp : half 75 50 /\ ~ half 100 50.
Proof. split; [exists 1; reflexivity|]. intros [c Hc]. unfold Qeq in Hc. cbn in Hc. lia. Qed.
Example C131_ex_larger : detect_grid (box (perfect 200 200 50) (-2) 2 (-2) 2) (200, 200)%Q 3 3 50 = Err AssertionError.
Proof. vm_compute. reflexivity. Qed.
Example C132_ex : cv_params (new_calib_cv (calibrations (fun _ => None) [(mk_path true 3, true, 10); (mk_path true 3, false, 11); (mk_path true 3, false, 12)]) (mk_path true 3)) = Some 11.
Proof. reflexivity. Qed.

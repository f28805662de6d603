(** Proofs about the splitters. *)
From Coq Require Import FinFun.
From Verif Require Import PyBase SplitModel.
Ltac Zify.zify_post_hook ::= Z.div_mod_to_equations.

Lemma range_len_nonneg a b s : s <> 0 -> 0 <= range_len a b s.
Proof.
  intros Hs. unfold range_len.
  destruct (0 <? s) eqn:E1; destruct (a <? b) eqn:E2; cbn [andb].
  - assert (0 <= (b - a - 1) / s) by (apply Z.div_pos; lia). lia.
  - destruct (s <? 0) eqn:E3; cbn [andb]; [lia|]. lia.
  - destruct (s <? 0) eqn:E3; destruct (b <? a) eqn:E4; cbn [andb]; lia.
  - destruct (s <? 0) eqn:E3; destruct (b <? a) eqn:E4; cbn [andb]; try lia.
    assert (0 <= (a - b - 1) / - s) by (apply Z.div_pos; lia). lia.
Qed.

(** a range of [n] elements *)
Lemma range_len_exact a n s : s <> 0 -> 0 <= n -> range_len a (a + n * s) s = n.
Proof.
  intros Hs Hn. unfold range_len.
  destruct (Z.eq_dec n 0) as [->|Hn0].
  - replace (a + 0 * s) with a by lia.
    rewrite Z.ltb_irrefl, !andb_false_r. reflexivity.
  - destruct (0 <? s) eqn:E1.
    + assert (Hlt : a <? a + n * s = true) by nia. rewrite Hlt. cbn [andb].
      replace (a + n * s - a - 1) with (s - 1 + (n - 1) * s) by ring.
      rewrite Z.div_add by lia. rewrite Z.div_small by lia. lia.
    + assert (Hs' : s <? 0 = true) by lia.
      assert (Hlt : a + n * s <? a = true) by nia.
      rewrite Hs', Hlt. cbn [andb].
      replace (a - (a + n * s) - 1) with (- s - 1 + (n - 1) * - s) by ring.
      rewrite Z.div_add by lia. rewrite Z.div_small by lia. lia.
Qed.

Definition arith (a s : Z) (n : nat) : list Z :=
  map (fun k => a + Z.of_nat k * s) (seq 0 n).

Lemma range_list_arith a b s : range_list a b s = arith a s (Z.to_nat (range_len a b s)).
Proof. reflexivity. Qed.

Lemma map_seq_shift {A} (f : nat -> A) n m :
  map f (seq n m) = map (fun k => f (n + k)%nat) (seq 0 m).
Proof.
  revert n. induction m as [|m IH]; intros n; [reflexivity|].
  cbn [seq map]. rewrite Nat.add_0_r. f_equal.
  rewrite IH. rewrite <- seq_shift, map_map. apply map_ext. intros k. f_equal. lia.
Qed.

Lemma arith_app a s n m :
  arith a s (n + m) = arith a s n ++ arith (a + Z.of_nat n * s) s m.
Proof.
  unfold arith. rewrite seq_app, map_app. f_equal.
  rewrite map_seq_shift. apply map_ext. intros k. lia.
Qed.

(** Sizes of the parts *)
Definition sizes (q : Z) (r : nat) (n : nat) : list Z :=
  repeat (q + 1) r ++ repeat q (n - r).

Lemma update_nth_sizes q r n :
  (r < n)%nat -> update_nth r (fun x => x + 1) (sizes q r n) = sizes q (S r) n.
Proof.
  unfold sizes. revert n. induction r as [|r IH]; intros n Hr.
  - destruct n as [|n]; [lia|]. cbn. rewrite Nat.sub_0_r. reflexivity.
  - destruct n as [|n]; [lia|]. cbn [repeat app update_nth]. f_equal.
    replace (S n - S r)%nat with (n - r)%nat by lia.
    replace (S n - S (S r))%nat with (n - S r)%nat by lia.
    rewrite IH by lia. reflexivity.
Qed.

Lemma length_sizes q r n : (r <= n)%nat -> List.length (sizes q r n) = n.
Proof. intros H. unfold sizes. rewrite app_length, !repeat_length. lia. Qed.

Lemma py_for_app {A S} (f : S -> A -> result S) l1 l2 s :
  py_for f (l1 ++ l2) s = do s' <- py_for f l1 s ; py_for f l2 s'.
Proof.
  revert s. induction l1 as [|a l1 IH]; intros s; cbn; [reflexivity|].
  destruct (f s a); cbn; auto.
Qed.

Lemma py_for_sizes q r n :
  (r <= n)%nat ->
  py_for (fun l ipart => py_update l ipart (fun x => x + 1)) (map Z.of_nat (seq 0 r))
         (repeat q n) = Ok (sizes q r n).
Proof.
  induction r as [|r IH]; intros Hr.
  - cbn. unfold sizes. cbn. rewrite Nat.sub_0_r. reflexivity.
  - replace (S r) with (r + 1)%nat at 1 by lia.
    rewrite seq_app, map_app, py_for_app, IH by lia.
    cbn [bind]. cbn [Nat.add seq map py_for]. unfold py_update, zlen.
    rewrite length_sizes by lia.
    destruct (Z.of_nat r <? 0) eqn:E; [lia|].
    destruct (0 <=? Z.of_nat r) eqn:E1; [|lia].
    destruct (Z.of_nat r <? Z.of_nat n) eqn:E2; [|lia].
    cbn [andb]. rewrite Nat2Z.id, update_nth_sizes by lia. reflexivity.
Qed.

Lemma zsum_app l1 l2 : zsum (l1 ++ l2) = zsum l1 + zsum l2.
Proof. unfold zsum. induction l1 as [|a l IH]; cbn; lia. Qed.
Lemma zsum_repeat x n : zsum (repeat x n) = Z.of_nat n * x.
Proof. unfold zsum. induction n as [|n IH]; cbn [repeat fold_right]; lia. Qed.
Lemma zsum_sizes q r n : (r <= n)%nat -> zsum (sizes q r n) = q * Z.of_nat n + Z.of_nat r.
Proof. intros H. unfold sizes. rewrite zsum_app, !zsum_repeat, Nat2Z.inj_sub by lia. ring. Qed.

(** the ranges built from the sizes *)
Fixpoint build (start step : Z) (l : list Z) : list (Z * Z * Z) :=
  match l with
  | [] => []
  | n :: l' => (start, start + n * step, step) :: build (start + n * step) step l'
  end.

Lemma fold_build l step start acc :
  snd (fold_left (fun '(start, ranges) num_elems_ipart =>
                 let stop := start + num_elems_ipart * step in
                 (stop, ranges ++ [(start, stop, step)])) l (start, acc))
  = acc ++ build start step l.
Proof.
  revert start acc. induction l as [|n l IH]; intros start acc; cbn [fold_left build].
  - cbn. rewrite app_nil_r. reflexivity.
  - rewrite IH, <- app_assoc. reflexivity.
Qed.

Lemma split_range_eq start stop step n :
  step <> 0 -> 1 <= n ->
  split_range start stop step n =
  Ok (build start step (sizes (range_len start stop step / n)
                              (Z.to_nat (range_len start stop step mod n)) (Z.to_nat n))).
Proof.
  intros Hs Hn. unfold split_range.
  destruct (step =? 0) eqn:E; [lia|].
  destruct (n =? 0) eqn:E0; [lia|].
  pose proof (range_len_nonneg start stop step Hs) as HL.
  set (L := range_len start stop step) in *.
  assert (Hdm := Z.div_mod L n ltac:(lia)).
  assert (Hm := Z.mod_pos_bound L n ltac:(lia)).
  assert (Hq : 0 <= L / n) by (apply Z.div_pos; lia).
  set (q := L / n) in *. set (r := L mod n) in *.
  destruct (L =? q * n + r) eqn:E1; [|lia]. cbn [negb].
  unfold range0, py_repeat.
  rewrite py_for_sizes by lia. cbn [bind].
  rewrite zsum_sizes by lia.
  destruct (q * Z.of_nat (Z.to_nat n) + Z.of_nat (Z.to_nat r) =? L) eqn:E2; [|lia].
  cbn [negb].
  pose proof (fold_build (sizes q (Z.to_nat r) (Z.to_nat n)) step start []) as HF.
  destruct (fold_left _ _ _) as [x ranges]. cbn [snd] in HF. rewrite HF. reflexivity.
Qed.

Lemma build_elems l start step :
  step <> 0 -> Forall (fun n => 0 <= n) l ->
  map part_elems (build start step l) =
  match l with [] => [] | n :: l' =>
    arith start step (Z.to_nat n) :: map part_elems (build (start + n * step) step l') end.
Proof.
  intros Hs H. destruct l as [|n l]; [reflexivity|].
  inversion H; subst. cbn [build map part_elems]. f_equal.
  rewrite range_list_arith, range_len_exact by lia. reflexivity.
Qed.

Lemma build_concat l start step :
  step <> 0 -> Forall (fun n => 0 <= n) l ->
  List.concat (map part_elems (build start step l)) = arith start step (Z.to_nat (zsum l)).
Proof.
  intros Hs. revert start. induction l as [|n l IH]; intros start H; [reflexivity|].
  rewrite build_elems by assumption. inversion H as [|? ? Hn Hl]; subst.
  cbn [List.concat zsum fold_right]. rewrite IH by assumption.
  fold (zsum l).
  assert (0 <= zsum l). { clear -Hl. induction Hl; cbn [zsum fold_right]; [reflexivity|]. fold (zsum l). lia. }
  rewrite Z2Nat.inj_add by lia. rewrite arith_app. do 2 f_equal. lia.
Qed.

Lemma sizes_nonneg q r n : 0 <= q -> Forall (fun x => 0 <= x) (sizes q r n).
Proof.
  intros H. unfold sizes. apply Forall_app. split; apply Forall_forall; intros x Hx;
    apply repeat_spec in Hx; lia.
Qed.

Lemma length_build l start step : List.length (build start step l) = List.length l.
Proof. revert start. induction l; intros; cbn; auto. Qed.

Lemma length_arith a s n : List.length (arith a s n) = n.
Proof. unfold arith. rewrite map_length, seq_length. reflexivity. Qed.

Lemma build_sizes l start step :
  step <> 0 -> Forall (fun n => 0 <= n) l ->
  map (fun p => zlen (part_elems p)) (build start step l) = l.
Proof.
  intros Hs. revert start. induction l as [|n l IH]; intros start H; [reflexivity|].
  inversion H as [|? ? Hn Hl]; subst. cbn [build map]. rewrite IH by assumption. f_equal.
  cbn [part_elems]. rewrite range_list_arith, range_len_exact by lia.
  unfold zlen. rewrite length_arith. lia.
Qed.

Lemma nth_sizes q r n i : (r <= n)%nat -> (i < n)%nat ->
  nth_error (sizes q r n) i = Some (if (i <? r)%nat then q + 1 else q).
Proof.
  intros H Hi. unfold sizes. destruct (Nat.ltb_spec i r) as [Hlt|Hge].
  - rewrite nth_error_app1 by (rewrite repeat_length; lia).
    rewrite nth_error_repeat by lia. reflexivity.
  - rewrite nth_error_app2 by (rewrite repeat_length; lia).
    rewrite repeat_length, nth_error_repeat by lia. reflexivity.
Qed.

Lemma split_range_sizes start stop step n ranges :
  step <> 0 -> 1 <= n -> split_range start stop step n = Ok ranges ->
  map (fun p => zlen (part_elems p)) ranges =
  sizes (range_len start stop step / n) (Z.to_nat (range_len start stop step mod n)) (Z.to_nat n).
Proof.
  intros Hs Hn H. rewrite split_range_eq in H by assumption. injection H as <-.
  apply build_sizes; [assumption|]. apply sizes_nonneg.
  apply Z.div_pos; [apply range_len_nonneg; assumption|lia].
Qed.

Lemma split_range_spec start stop step n :
  step <> 0 -> 1 <= n ->
  exists ranges,
    split_range start stop step n = Ok ranges /\
    zlen ranges = n /\
    Forall (fun '(_, _, s) => s = step) ranges /\
    List.concat (map part_elems ranges) = range_list start stop step /\
    (forall i j pi pj, (i <= j)%nat ->
       nth_error ranges i = Some pi -> nth_error ranges j = Some pj ->
       zlen (part_elems pj) <= zlen (part_elems pi) <= zlen (part_elems pj) + 1).
Proof.
  intros Hs Hn. eexists. split; [apply split_range_eq; assumption|].
  pose proof (range_len_nonneg start stop step Hs) as HL.
  set (L := range_len start stop step) in *.
  assert (Hdm := Z.div_mod L n ltac:(lia)).
  assert (Hm := Z.mod_pos_bound L n ltac:(lia)).
  assert (Hq : 0 <= L / n) by (apply Z.div_pos; lia).
  assert (Hr : (Z.to_nat (L mod n) <= Z.to_nat n)%nat) by lia.
  set (l := sizes _ _ _).
  assert (Hl : Forall (fun x => 0 <= x) l) by (apply sizes_nonneg; lia).
  split; [|split; [|split]].
  - unfold zlen. rewrite length_build. unfold l. rewrite length_sizes by assumption. lia.
  - clear. generalize start. induction l as [|x l IH]; intros start0; cbn [build]; constructor; auto.
  - rewrite build_concat by assumption. rewrite range_list_arith. unfold l.
    rewrite zsum_sizes by assumption. fold L. do 2 f_equal. lia.
  - intros i j pi pj Hij H0 H1. pose proof (build_sizes l start step Hs Hl) as HS.
    assert (Hi : nth_error l i = Some (zlen (part_elems pi))).
    { rewrite <- HS, nth_error_map, H0. reflexivity. }
    assert (Hj : nth_error l j = Some (zlen (part_elems pj))).
    { rewrite <- HS, nth_error_map, H1. reflexivity. }
    assert (Hjn : (j < Z.to_nat n)%nat).
    { assert (nth_error l j <> None) as HN by congruence. apply nth_error_Some in HN.
      unfold l in HN. rewrite length_sizes in HN by assumption. exact HN. }
    unfold l in Hi, Hj. rewrite nth_sizes in Hi by lia. rewrite nth_sizes in Hj by lia.
    injection Hi as Hi. injection Hj as Hj.
    destruct (Nat.ltb_spec i (Z.to_nat (L mod n))); destruct (Nat.ltb_spec j (Z.to_nat (L mod n))); lia.
Qed.

(** ** Independent characterisation of [range] *)
Lemma range_list_In a b s x :
  s <> 0 ->
  (In x (range_list a b s) <->
   exists k, 0 <= k /\ x = a + k * s /\ (if 0 <? s then x < b else b < x)).
Proof.
  intros Hs. unfold range_list. rewrite in_map_iff. split.
  - intros (k & Hk & HIn). apply in_seq in HIn. exists (Z.of_nat k).
    split; [lia|]. split; [lia|]. unfold range_len in HIn.
    destruct (0 <? s) eqn:E1.
    + destruct (a <? b) eqn:E2; cbn [andb] in HIn.
      * assert (Z.of_nat k <= (b - a - 1) / s) by lia.
        assert (s * ((b - a - 1) / s) <= b - a - 1) by (apply Z.mul_div_le; lia). nia.
      * destruct (s <? 0) eqn:E3; cbn [andb] in HIn; [lia|]. cbn in HIn; lia.
    + cbn [andb] in HIn. destruct (s <? 0) eqn:E3; [|lia]. destruct (b <? a) eqn:E4; cbn [andb] in HIn.
      * assert (Z.of_nat k <= (a - b - 1) / - s) by lia.
        assert (- s * ((a - b - 1) / - s) <= a - b - 1) by (apply Z.mul_div_le; lia). nia.
      * cbn in HIn. lia.
  - intros (k & Hk & -> & Hx). exists (Z.to_nat k). split; [lia|]. apply in_seq.
    split; [lia|]. unfold range_len. destruct (0 <? s) eqn:E1.
    + destruct (a <? b) eqn:E2; cbn [andb]; [|nia].
      assert (k <= (b - a - 1) / s) by (apply Z.div_le_lower_bound; nia). lia.
    + cbn [andb]. destruct (s <? 0) eqn:E3; [|lia]. destruct (b <? a) eqn:E4; cbn [andb]; [|nia].
      assert (k <= (a - b - 1) / - s) by (apply Z.div_le_lower_bound; nia). lia.
Qed.

Lemma NoDup_arith a s n : s <> 0 -> NoDup (arith a s n).
Proof.
  intros Hs. unfold arith. apply Injective_map_NoDup; [|apply seq_NoDup].
  intros x y H. nia.
Qed.

Lemma range_list_NoDup a b s : s <> 0 -> NoDup (range_list a b s).
Proof. intros; apply NoDup_arith; assumption. Qed.

Lemma zlen_range_list a b s : s <> 0 -> zlen (range_list a b s) = range_len a b s.
Proof.
  intros Hs. unfold zlen. rewrite range_list_arith, length_arith.
  pose proof (range_len_nonneg a b s Hs). lia.
Qed.

(** ** split_list *)
Definition cut (k m i : Z) : Z := i * k + Z.min i m.

Lemma py_slice_firstn {A} (l : list A) a b :
  0 <= a <= b -> b <= zlen l ->
  py_slice l a b = firstn (Z.to_nat (b - a)) (skipn (Z.to_nat a) l).
Proof.
  intros Hab Hb. unfold py_slice, norm_bound.
  destruct (a <? 0) eqn:E1; [lia|]. destruct (b <? 0) eqn:E2; [lia|].
  rewrite !Z.min_l by lia. reflexivity.
Qed.

Lemma zlen_py_slice {A} (l : list A) a b :
  0 <= a <= b -> b <= zlen l -> zlen (py_slice l a b) = b - a.
Proof.
  intros Hab Hb. rewrite py_slice_firstn by assumption.
  unfold zlen in *. rewrite firstn_length, skipn_length. lia.
Qed.

Lemma firstn_add {A} (l : list A) n m :
  firstn (n + m) l = firstn n l ++ firstn m (skipn n l).
Proof.
  revert l. induction n as [|n IH]; intros l; [reflexivity|].
  destruct l as [|a l]; cbn [firstn skipn Nat.add app].
  - rewrite firstn_nil. reflexivity.
  - rewrite IH. reflexivity.
Qed.

Lemma concat_cuts {A} (l : list A) k m n :
  0 <= k -> 0 <= m -> cut k m (Z.of_nat n) <= zlen l ->
  List.concat (map (fun i => py_slice l (cut k m i) (cut k m (i + 1))) (map Z.of_nat (seq 0 n)))
  = firstn (Z.to_nat (cut k m (Z.of_nat n))) l.
Proof.
  intros Hk Hm. induction n as [|n IH]; intros Hn.
  - unfold cut. cbn [seq map List.concat]. replace (_ * k + _) with 0 by lia. reflexivity.
  - replace (S n) with (n + 1)%nat at 1 by lia.
    rewrite seq_app, !map_app, concat_app, IH by (unfold cut in *; nia).
    cbn [Nat.add seq map List.concat]. rewrite app_nil_r.
    rewrite py_slice_firstn by (unfold cut in *; nia).
    replace (Z.of_nat n + 1) with (Z.of_nat (S n)) by lia.
    rewrite <- firstn_add. f_equal. unfold cut. nia.
Qed.

Lemma split_list_nonempty {A} (l : list A) n :
  l <> [] -> 1 <= n ->
  exists parts,
    split_list l n = Ok parts /\
    zlen parts = Z.min n (zlen l) /\
    List.concat parts = l /\
    Forall (fun p => p <> []) parts /\
    (forall i j p q, (i <= j)%nat ->
       nth_error parts i = Some p -> nth_error parts j = Some q ->
       zlen q <= zlen p <= zlen q + 1).
Proof.
  intros Hl Hn. unfold split_list.
  destruct l as [|a0 l0]; [congruence|]. set (l := a0 :: l0) in *. clearbody l.
  assert (HL : 1 <= zlen l). { unfold zlen. destruct l; [congruence|]. cbn [List.length]. lia. }
  set (np := Z.min n (zlen l)).
  assert (Hnp : 1 <= np <= zlen l) by lia.
  destruct (np =? 0) eqn:E; [lia|].
  set (k := zlen l / np). set (m := zlen l mod np).
  assert (Hdm : zlen l = np * k + m) by (apply Z.div_mod; lia).
  assert (Hm : 0 <= m < np) by (apply Z.mod_pos_bound; lia).
  assert (Hk : 1 <= k) by (apply Z.div_le_lower_bound; lia).
  fold (cut k m). change (fun i => py_slice l (i * k + Z.min i m) ((i + 1) * k + Z.min (i + 1) m))
    with (fun i => py_slice l (cut k m i) (cut k m (i + 1))).
  assert (Hcut : cut k m np = zlen l) by (unfold cut; nia).
  assert (Hb : forall i, 0 <= i < np -> 0 <= cut k m i <= cut k m (i + 1) /\ cut k m (i + 1) <= zlen l).
  { intros i Hi. unfold cut in *. nia. }
  assert (Hlen : forall i p, nth_error (map (fun i => py_slice l (cut k m i) (cut k m (i + 1))) (range0 np)) i = Some p ->
                 zlen p = k + (if Z.of_nat i <? m then 1 else 0)).
  { intros i p Hi. unfold range0 in Hi. rewrite nth_error_map, nth_error_map in Hi.
    destruct (nth_error (seq 0 (Z.to_nat np)) i) as [x|] eqn:Ex; cbn in Hi; [|discriminate].
    assert (Hx : (i < Z.to_nat np)%nat).
    { assert (nth_error (seq 0 (Z.to_nat np)) i <> None) as HN by congruence.
      apply nth_error_Some in HN. rewrite seq_length in HN. exact HN. }
    rewrite (nth_error_nth' _ 0%nat) in Ex by (rewrite seq_length; exact Hx).
    rewrite seq_nth in Ex by exact Hx. injection Ex as <-. injection Hi as <-.
    cbn [Nat.add]. destruct (Hb (Z.of_nat i)) as [Hb1 Hb2]; [lia|].
    rewrite zlen_py_slice by assumption. unfold cut.
    destruct (Z.of_nat i <? m) eqn:Em; lia. }
  eexists. split; [reflexivity|]. split; [|split; [|split]].
  - unfold zlen, range0. rewrite !map_length, seq_length. lia.
  - unfold range0. rewrite concat_cuts by (try lia; replace (Z.of_nat (Z.to_nat np)) with np by lia; lia).
    replace (Z.of_nat (Z.to_nat np)) with np by lia. rewrite Hcut.
    unfold zlen. rewrite Nat2Z.id, firstn_all. reflexivity.
  - apply Forall_forall. intros p Hp. apply In_nth_error in Hp. destruct Hp as [i Hi].
    apply Hlen in Hi. intros ->. cbn in Hi. destruct (Z.of_nat i <? m); lia.
  - intros i j p q Hij Hp Hq. apply Hlen in Hp. apply Hlen in Hq. rewrite Hp, Hq.
    destruct (Z.of_nat i <? m) eqn:E1; destruct (Z.of_nat j <? m) eqn:E2; lia.
Qed.

Lemma split_list_empty {A} n :
  1 <= n -> exists parts, @split_list A [] n = Ok parts /\ zlen parts = n /\ Forall (fun p => p = []) parts.
Proof.
  intros Hn. unfold split_list. eexists. split; [reflexivity|]. split.
  - unfold zlen, range0. rewrite !map_length, seq_length. lia.
  - apply Forall_forall. intros p Hp. apply in_map_iff in Hp. destruct Hp as (? & <- & _). reflexivity.
Qed.

(** ** numbering *)
Lemma filter_all {A} (f : A -> bool) l : Forall (fun x => f x = true) l -> filter f l = l.
Proof. induction 1 as [|x l Hx Hl IH]; cbn; [reflexivity|]. rewrite Hx, IH. reflexivity. Qed.
Lemma filter_none {A} (f : A -> bool) l : Forall (fun x => f x = false) l -> filter f l = [].
Proof. induction 1 as [|x l Hx Hl IH]; cbn; [reflexivity|]. rewrite Hx, IH. reflexivity. Qed.

(** if sizes are non increasing the non empty elements form a prefix *)
Lemma filter_prefix {A} (f : A -> bool) (l : list A) :
  (forall i j p q, (i <= j)%nat -> nth_error l i = Some p -> nth_error l j = Some q ->
                   f q = true -> f p = true) ->
  exists n, (n <= List.length l)%nat /\
    filter f l = firstn n l /\
    filter (fun '(_, x) => f x) (combine (seq 0 (List.length l)) l) = combine (seq 0 n) (firstn n l).
Proof.
  intros H.
  assert (Hgen : forall o, exists n, (n <= List.length l)%nat /\ filter f l = firstn n l /\
     filter (fun '(_, x) => f x) (combine (seq o (List.length l)) l) = combine (seq o n) (firstn n l)).
  { revert H. induction l as [|a l IH]; intros H o.
    - exists 0%nat. repeat split; reflexivity.
    - destruct (f a) eqn:Ea.
      + assert (Hl : forall i j p q, (i <= j)%nat -> nth_error l i = Some p -> nth_error l j = Some q ->
                   f q = true -> f p = true).
        { intros i j p q Hij Hp Hq Hfq. apply (H (S i) (S j) p q); [lia|assumption..]. }
        destruct (IH Hl (S o)) as (n & Hn & H1 & H2).
        exists (S n). cbn [List.length]. split; [lia|]. cbn [filter firstn seq combine].
        rewrite Ea, H1, H2. split; reflexivity.
      + exists 0%nat. split; [lia|].
        assert (HF : forall x, In x (a :: l) -> f x = false).
        { intros x Hx. apply In_nth_error in Hx. destruct Hx as [j Hj].
          destruct (f x) eqn:Ex; [|reflexivity].
          rewrite (H 0%nat j a x) in Ea; [discriminate|lia|reflexivity|exact Hj|exact Ex]. }
        split; [apply filter_none; apply Forall_forall; exact HF|].
        apply filter_none. apply Forall_forall. intros [i x] Hx. apply in_combine_r in Hx.
        apply HF; exact Hx. }
  apply Hgen.
Qed.

Definition nonempty_range (p : Z * Z * Z) : bool :=
  let '(a, b, c) := p in negb (range_len a b c =? 0).

Lemma nonempty_range_elems p :
  (let '(_, _, s) := p in s <> 0) -> nonempty_range p = negb (zlen (part_elems p) =? 0).
Proof.
  destruct p as [[a b] c]. intros Hc. cbn. rewrite zlen_range_list by assumption. reflexivity.
Qed.

Lemma started_ranges_numbers start stop step n ranges :
  step <> 0 -> 1 <= n -> split_range start stop step n = Ok ranges ->
  started_ranges ranges =
    combine (seq 0 (List.length (yielded_ranges ranges))) (yielded_ranges ranges).
Proof.
  intros Hs Hn H.
  destruct (split_range_spec start stop step n Hs Hn) as (r & Hr & _ & Hstep & _ & Hsz).
  rewrite H in Hr. injection Hr as <-.
  assert (HE : forall p, In p ranges -> nonempty_range p = negb (zlen (part_elems p) =? 0)).
  { intros p Hp. apply nonempty_range_elems. rewrite Forall_forall in Hstep.
    specialize (Hstep p Hp). destruct p as [[? ?] ?]. congruence. }
  destruct (filter_prefix nonempty_range ranges) as (k & Hk & H1 & H2).
  { intros i j p q Hij Hp Hq Hfq.
    rewrite HE by (eapply nth_error_In; eassumption).
    rewrite HE in Hfq by (eapply nth_error_In; eassumption).
    specialize (Hsz i j p q Hij Hp Hq). unfold zlen in *. lia. }
  unfold started_ranges, yielded_ranges. 
  change (fun '(_, (a, b, c)) => negb (range_len a b c =? 0))
    with (fun '((_, x) : nat * (Z * Z * Z)) => nonempty_range x).
  change (fun '(a, b, c) => negb (range_len a b c =? 0)) with nonempty_range.
  replace (filter (fun '(_, (a, b, c)) => negb (range_len a b c =? 0)) (combine (seq 0 (List.length ranges)) ranges))
    with (filter (fun '((_, x) : nat * (Z * Z * Z)) => nonempty_range x) (combine (seq 0 (List.length ranges)) ranges)).
  2:{ apply filter_ext. intros [i [[a b] c]]. reflexivity. }
  rewrite H2, H1. rewrite firstn_length, Nat.min_l by exact Hk. reflexivity.
Qed.

Lemma numbered_lists_numbers {A} (indices : list A) n lists :
  1 <= n -> split_list indices n = Ok lists ->
  exists k, map fst (numbered_lists lists) = seq 0 k /\
            numbered_lists lists = combine (seq 0 k) (firstn k lists).
Proof.
  intros Hn H. unfold numbered_lists.
  destruct (filter_prefix (fun l : list A => match l with [] => false | _ => true end) lists)
    as (k & Hk & H1 & H2).
  - destruct indices as [|a l].
    + destruct (@split_list_empty A n Hn) as (p & Hp & _ & HF). rewrite H in Hp. injection Hp as <-.
      intros i j p q _ Hp Hq Hfq. rewrite Forall_forall in HF.
      apply nth_error_In in Hq. rewrite (HF q Hq) in Hfq. discriminate.
    + destruct (split_list_nonempty (a :: l) n) as (p & Hp & _ & _ & HF & _); [discriminate|assumption|].
      rewrite H in Hp. injection Hp as <-.
      intros i j p q _ Hp Hq Hfq. rewrite Forall_forall in HF.
      apply nth_error_In in Hp. specialize (HF p Hp). destruct p; [congruence|reflexivity].
  - exists k. rewrite H2. split; [|reflexivity].
    assert (HL : List.length (seq 0 k) = List.length (firstn k lists)).
    { rewrite seq_length, firstn_length. lia. }
    clear -HL. revert HL. generalize (seq 0 k) (firstn k lists).
    intros l1. induction l1 as [|x l1 IH]; intros [|y l2] HL; cbn in *; try congruence.
    rewrite IH by lia. reflexivity.
Qed.

Lemma concat_filter_map {A B} (f : A -> bool) (g : A -> list B) (l : list A) :
  (forall x, In x l -> f x = false -> g x = []) ->
  List.concat (map g (filter f l)) = List.concat (map g l).
Proof.
  induction l as [|a l IH]; intros H; [reflexivity|].
  cbn [filter map List.concat]. destruct (f a) eqn:Ea; cbn [map List.concat].
  - rewrite IH; [reflexivity|]. intros x Hx; apply H; right; exact Hx.
  - rewrite (H a (or_introl eq_refl) Ea). cbn. apply IH. intros x Hx; apply H; right; exact Hx.
Qed.

Lemma map_snd_filter_combine {A} (lists : list (list A)) o :
  List.concat (map snd (filter (fun '(_, l) => match l with [] => false | _ => true end)
                          (combine (seq o (List.length lists)) lists))) = List.concat lists.
Proof.
  revert o. induction lists as [|l lists IH]; intros o; [reflexivity|].
  cbn [List.length seq combine filter List.concat]. destruct l as [|a l]; [apply IH|].
  cbn [map snd List.concat]. rewrite IH. reflexivity.
Qed.

Lemma series_processes_concat complete indices a b s n sr :
  s <> 0 -> 1 <= n -> splitter_init complete indices a b s n = Ok sr ->
  List.concat (series_processes sr) = (if complete then indices else range_list a b s) /\
  zlen (series_processes sr) <= n /\
  Forall (fun p => p <> []) (series_processes sr).
Proof.
  intros Hs Hn H. unfold splitter_init in H. destruct complete.
  - destruct (split_list indices n) as [lists|e] eqn:E; cbn in H; [|discriminate].
    injection H as <-. cbn [series_processes]. unfold numbered_lists.
    split; [|split].
    + rewrite map_snd_filter_combine. destruct indices as [|x l].
      * destruct (@split_list_empty Z n Hn) as (p & Hp & _ & HF). rewrite E in Hp. injection Hp as <-.
        clear -HF. induction HF as [|x l Hx HF IH]; [reflexivity|]. subst x. exact IH.
      * destruct (split_list_nonempty (x :: l) n) as (p & Hp & _ & HC & _); [discriminate|assumption|].
        rewrite E in Hp. injection Hp as <-. exact HC.
    + assert (HL : zlen lists <= n).
      { destruct indices as [|x l].
        - destruct (@split_list_empty Z n Hn) as (p & Hp & HL & HF). rewrite E in Hp. injection Hp as <-. lia.
        - destruct (split_list_nonempty (x :: l) n) as (p & Hp & HL & _); [discriminate|assumption|].
          rewrite E in Hp. injection Hp as <-. lia. }
      assert (Hf : forall (B : Type) (f : B -> bool) l, (List.length (filter f l) <= List.length l)%nat).
      { clear. intros B f l. induction l as [|y l IH]; cbn; [lia|]. destruct (f y); cbn; lia. }
      unfold zlen in *. rewrite map_length.
      eapply Z.le_trans; [apply Nat2Z.inj_le, Hf|]. rewrite combine_length, seq_length. lia.
    + apply Forall_forall. intros p Hp. apply in_map_iff in Hp. destruct Hp as ([i q] & <- & Hq).
      apply filter_In in Hq. destruct Hq as [_ Hq]. cbn. destruct q; [discriminate|congruence].
  - destruct (split_range_spec a b s n Hs Hn) as (r & Hr & HL & Hst & HC & _).
    rewrite Hr in H. cbn in H. injection H as <-. cbn [series_processes].
    assert (HE : forall p, In p r -> nonempty_range p = negb (zlen (part_elems p) =? 0)).
    { intros p Hp. apply nonempty_range_elems. rewrite Forall_forall in Hst.
      specialize (Hst p Hp). destruct p as [[? ?] ?]. congruence. }
    split; [|split].
    + unfold yielded_ranges. change (fun '(a, b, c) => negb (range_len a b c =? 0)) with nonempty_range.
      rewrite concat_filter_map; [exact HC|].
      intros x Hx Hf. rewrite HE in Hf by exact Hx. destruct (part_elems x); [reflexivity|].
      unfold zlen in Hf. cbn [List.length] in Hf. lia.
    + assert (Hf : forall (B : Type) (f : B -> bool) l, (List.length (filter f l) <= List.length l)%nat).
      { clear. intros B f l. induction l as [|y l IH]; cbn; [lia|]. destruct (f y); cbn; lia. }
      unfold zlen in *. rewrite map_length. specialize (Hf _ nonempty_range r).
      unfold yielded_ranges. change (fun '(a, b, c) => negb (range_len a b c =? 0)) with nonempty_range. lia.
    + apply Forall_forall. intros p Hp. apply in_map_iff in Hp. destruct Hp as (q & <- & Hq).
      apply filter_In in Hq. destruct Hq as [Hq1 Hq]. change (nonempty_range q = true) in Hq.
      rewrite HE in Hq by exact Hq1. intros HN. rewrite HN in Hq. discriminate.
Qed.

Lemma splitter_init_ok {A} complete (indices : list A) a b s n :
  s <> 0 -> 1 <= n -> exists sr, splitter_init complete indices a b s n = Ok sr.
Proof.
  intros Hs Hn. unfold splitter_init. destruct complete.
  - destruct indices as [|x l].
    + destruct (@split_list_empty A n Hn) as (p & Hp & _). rewrite Hp. eexists; reflexivity.
    + destruct (split_list_nonempty (x :: l) n) as (p & Hp & _); [discriminate|assumption|].
      rewrite Hp. eexists; reflexivity.
  - destruct (split_range_spec a b s n Hs Hn) as (r & Hr & _). rewrite Hr. eexists; reflexivity.
Qed.

Lemma images_processes_concat complete indices post a b s n sr :
  s <> 0 -> 1 <= n -> splitter_init complete indices a b s n = Ok sr ->
  List.concat (images_processes sr post) =
    (if complete then indices else images_indices (a, b, s) post).
Proof.
  intros Hs Hn H. unfold splitter_init in H. destruct complete.
  - destruct (split_list indices n) as [lists|e] eqn:E; cbn in H; [|discriminate].
    injection H as <-. cbn [images_processes]. unfold numbered_lists.
    rewrite map_snd_filter_combine. destruct indices as [|x l].
    * destruct (@split_list_empty (list Z) n Hn) as (p & Hp & _ & HF). rewrite E in Hp. injection Hp as <-.
      clear -HF. induction HF as [|x l Hx HF IH]; [reflexivity|]. subst x. exact IH.
    * destruct (split_list_nonempty (x :: l) n) as (p & Hp & _ & HC & _); [discriminate|assumption|].
      rewrite E in Hp. injection Hp as <-. exact HC.
  - destruct (split_range_spec a b s n Hs Hn) as (r & Hr & HL & Hst & HC & _).
    rewrite Hr in H. cbn in H. injection H as <-. cbn [images_processes].
    assert (HE : forall p, In p r -> nonempty_range p = negb (zlen (part_elems p) =? 0)).
    { intros p Hp. apply nonempty_range_elems. rewrite Forall_forall in Hst.
      specialize (Hst p Hp). destruct p as [[? ?] ?]. congruence. }
    unfold yielded_ranges. change (fun '(a, b, c) => negb (range_len a b c =? 0)) with nonempty_range.
    rewrite concat_filter_map.
    + unfold images_indices. cbn [part_elems]. rewrite <- HC. clear.
      induction r as [|p r IH]; [reflexivity|]. cbn [map List.concat].
      rewrite flat_map_app, IH. reflexivity.
    + intros x Hx Hf. rewrite HE in Hf by exact Hx. unfold images_indices.
      destruct (part_elems x); [reflexivity|].
      unfold zlen in Hf. cbn [List.length] in Hf. lia.
Qed.

Lemma NoDup_app_disjoint {A} (l1 l2 : list A) :
  NoDup (l1 ++ l2) -> NoDup l1 /\ NoDup l2 /\ forall x, In x l1 -> In x l2 -> False.
Proof.
  induction l1 as [|a l1 IH]; cbn; intros H.
  - repeat split; [constructor|exact H|contradiction].
  - inversion H as [|? ? Hn Hd]; subst. destruct (IH Hd) as (H1 & H2 & H3).
    repeat split; [constructor; [intros HI; apply Hn, in_or_app; left; exact HI|exact H1]|exact H2|].
    intros x [->|Hx] Hx2; [apply Hn, in_or_app; right; exact Hx2|eapply H3; eassumption].
Qed.

Lemma concat_disjoint {A} (ls : list (list A)) :
  NoDup (List.concat ls) ->
  forall i j p q x, nth_error ls i = Some p -> nth_error ls j = Some q ->
    In x p -> In x q -> i = j.
Proof.
  induction ls as [|l ls IH]; intros H i j p q x Hi Hj Hp Hq.
  - destruct i; discriminate.
  - cbn [List.concat] in H. apply NoDup_app_disjoint in H. destruct H as (H1 & H2 & H3).
    destruct i as [|i]; destruct j as [|j]; cbn in Hi, Hj.
    + reflexivity.
    + injection Hi as <-. exfalso. eapply H3; [exact Hp|]. apply in_concat.
      exists q. split; [eapply nth_error_In; exact Hj|exact Hq].
    + injection Hj as <-. exfalso. eapply H3; [exact Hq|]. apply in_concat.
      exists p. split; [eapply nth_error_In; exact Hi|exact Hp].
    + f_equal. eapply IH; eassumption.
Qed.

Lemma series_processes_cover complete indices a b s n sr :
  s <> 0 -> 1 <= n -> NoDup indices -> splitter_init complete indices a b s n = Ok sr ->
  (forall x, (exists p, In p (series_processes sr) /\ In x p) <->
             (if complete then In x indices else
                exists k, 0 <= k /\ x = a + k * s /\ (if 0 <? s then x < b else b < x))) /\
  (forall i j p q x, nth_error (series_processes sr) i = Some p ->
     nth_error (series_processes sr) j = Some q -> In x p -> In x q -> i = j) /\
  Forall (fun p => p <> [] /\ NoDup p) (series_processes sr) /\
  zlen (series_processes sr) <= n.
Proof.
  intros Hs Hn Hnd H. destruct (series_processes_concat _ _ _ _ _ _ _ Hs Hn H) as (HC & HL & HF).
  assert (HND : NoDup (List.concat (series_processes sr))).
  { rewrite HC. destruct complete; [exact Hnd|apply range_list_NoDup; exact Hs]. }
  split; [|split; [|split]].
  - intros x. transitivity (In x (List.concat (series_processes sr))).
    + rewrite in_concat. reflexivity.
    + rewrite HC. destruct complete; [reflexivity|]. apply range_list_In. exact Hs.
  - apply concat_disjoint. exact HND.
  - rewrite Forall_forall in *. intros p Hp. split; [apply HF; exact Hp|].
    clear -HND Hp. induction (series_processes sr) as [|l ls IH]; [contradiction|].
    cbn [List.concat] in HND. apply NoDup_app_disjoint in HND. destruct HND as (H1 & H2 & _).
    destruct Hp as [->|Hp]; [exact H1|apply IH; assumption].
  - exact HL.
Qed.

Lemma range_list_meaning_lemma start stop step : step <> 0 ->
  NoDup (range_list start stop step) /\
  (forall i x, nth_error (range_list start stop step) i = Some x -> x = start + Z.of_nat i * step) /\
  (forall x, In x (range_list start stop step) <->
     exists k, 0 <= k /\ x = start + k * step /\ (if 0 <? step then x < stop else stop < x)).
Proof.
  intros Hs. split; [apply range_list_NoDup; exact Hs|]. split.
  - intros i x H. unfold range_list in H. rewrite nth_error_map in H.
    destruct (nth_error (seq _ _) i) as [k|] eqn:E; cbn in H; [|discriminate].
    injection H as <-. 
    assert (Hx : (i < Z.to_nat (range_len start stop step))%nat).
    { assert (nth_error (seq 0 (Z.to_nat (range_len start stop step))) i <> None) as HN by congruence.
      apply nth_error_Some in HN. rewrite seq_length in HN. exact HN. }
    rewrite (nth_error_nth' _ 0%nat) in E by (rewrite seq_length; exact Hx).
    rewrite seq_nth in E by exact Hx. injection E as <-. reflexivity.
  - intros x. apply range_list_In. exact Hs.
Qed.

Lemma split_range_errors start stop step n :
  (step = 0 -> split_range start stop step n = Err ValueError) /\
  (step <> 0 -> n = 0 -> split_range start stop step n = Err ZeroDivisionError) /\
  (step <> 0 -> n < 0 -> range_list start stop step <> [] ->
     split_range start stop step n = Err AssertionError).
Proof.
  unfold split_range. split; [|split].
  - intros ->. reflexivity.
  - intros Hs ->. destruct (step =? 0) eqn:E; [lia|]. reflexivity.
  - intros Hs Hn Hr. destruct (step =? 0) eqn:E; [lia|]. destruct (n =? 0) eqn:E0; [lia|].
    assert (HL : range_len start stop step <> 0).
    { intros HN. apply Hr. unfold range_list. rewrite HN. reflexivity. }
    set (L := range_len start stop step) in *.
    destruct (negb _) eqn:E1; [reflexivity|].
    assert (Hm : n < L mod n <= 0) by (apply Z.mod_neg_bound; lia).
    unfold range0, py_repeat.
    replace (Z.to_nat (L mod n)) with 0%nat by lia.
    replace (Z.to_nat n) with 0%nat by lia. cbn [seq map py_for repeat bind zsum fold_right].
    destruct (0 =? L) eqn:E2; [lia|]. reflexivity.
Qed.

Lemma split_list_spec {A : Type} (l : list A) n : 1 <= n ->
  exists parts,
    split_list l n = Ok parts /\
    List.concat parts = l /\
    zlen parts = (match l with [] => n | _ => Z.min n (zlen l) end) /\
    (l <> [] -> Forall (fun p => p <> []) parts) /\
    (forall i j p q, (i <= j)%nat ->
       nth_error parts i = Some p -> nth_error parts j = Some q ->
       zlen q <= zlen p <= zlen q + 1).
Proof.
  intros Hn. destruct l as [|a l].
  - destruct (@split_list_empty A n Hn) as (p & Hp & HL & HF). exists p.
    split; [exact Hp|]. split; [|split; [exact HL|split; [congruence|]]].
    + clear -HF. induction HF as [|x l Hx HF IH]; [reflexivity|]. subst x. exact IH.
    + intros i j x y _ Hx Hy. rewrite Forall_forall in HF.
      apply nth_error_In in Hx, Hy. rewrite (HF _ Hx), (HF _ Hy). lia.
  - destruct (split_list_nonempty (a :: l) n) as (p & Hp & HL & HC & HF & HS);
      [discriminate|exact Hn|]. exists p. repeat split; try assumption.
    + intros _. exact HF.
    + apply (HS i j p0 q); assumption.
    + apply (HS i j p0 q); assumption.
Qed.

Lemma map_fst_combine {A B} (l1 : list A) (l2 : list B) :
  List.length l1 = List.length l2 -> map fst (combine l1 l2) = l1.
Proof.
  revert l2. induction l1 as [|x l1 IH]; intros [|y l2] H; cbn in *; try congruence.
  rewrite IH by lia. reflexivity.
Qed.
Lemma map_snd_combine {A B} (l1 : list A) (l2 : list B) :
  List.length l1 = List.length l2 -> map snd (combine l1 l2) = l2.
Proof.
  revert l2. induction l1 as [|x l1 IH]; intros [|y l2] H; cbn in *; try congruence.
  rewrite IH by lia. reflexivity.
Qed.

Lemma filter_firstn_skipn {A} (f : A -> bool) l n :
  filter f l = firstn n l -> (n <= List.length l)%nat -> Forall (fun x => f x = false) (skipn n l).
Proof.
  revert n. induction l as [|a l IH]; intros n H Hn; cbn in *.
  - rewrite skipn_nil. constructor.
  - destruct n as [|n].
    + cbn in *. destruct (f a) eqn:E; [discriminate|]. constructor; [exact E|].
      apply (IH 0%nat); [rewrite H; reflexivity|lia].
    + cbn in *. destruct (f a) eqn:E.
      * injection H as H. apply IH; [exact H|lia].
      * exfalso. assert (In a (filter f l)) by (rewrite H; left; reflexivity).
        apply filter_In in H0. destruct H0. congruence.
Qed.

Lemma started_ranges_prefix start stop step n ranges :
  step <> 0 -> 1 <= n -> split_range start stop step n = Ok ranges ->
  exists k, map fst (started_ranges ranges) = seq 0 k /\
            map snd (started_ranges ranges) = firstn k ranges /\
            Forall (fun p => part_elems p = []) (skipn k ranges).
Proof.
  intros Hs Hn H.
  destruct (split_range_spec start stop step n Hs Hn) as (r & Hr & _ & Hstep & _ & Hsz).
  rewrite H in Hr. injection Hr as <-.
  assert (HE : forall p, In p ranges -> nonempty_range p = negb (zlen (part_elems p) =? 0)).
  { intros p Hp. apply nonempty_range_elems. rewrite Forall_forall in Hstep.
    specialize (Hstep p Hp). destruct p as [[? ?] ?]. congruence. }
  destruct (filter_prefix nonempty_range ranges) as (k & Hk & H1 & H2).
  { intros i j p q Hij Hp Hq Hfq.
    rewrite HE by (eapply nth_error_In; eassumption).
    rewrite HE in Hfq by (eapply nth_error_In; eassumption).
    specialize (Hsz i j p q Hij Hp Hq). unfold zlen in *. lia. }
  assert (Hst : started_ranges ranges = combine (seq 0 k) (firstn k ranges)).
  { rewrite <- H2. unfold started_ranges. apply filter_ext. intros [i [[a b] c]]. reflexivity. }
  rewrite Hst. exists k.
  assert (HL : List.length (seq 0 k) = List.length (firstn k ranges)).
  { rewrite seq_length, firstn_length. lia. }
  split; [apply map_fst_combine; exact HL|]. split; [apply map_snd_combine; exact HL|].
  pose proof (filter_firstn_skipn _ _ _ H1 Hk) as HF.
  rewrite Forall_forall in *. intros p Hp. specialize (HF p Hp).
  assert (HI : In p ranges). { rewrite <- (firstn_skipn k ranges). apply in_or_app. right. exact Hp. }
  rewrite HE in HF by exact HI. destruct (part_elems p); [reflexivity|].
  unfold zlen in HF. cbn [List.length] in HF. lia.
Qed.

Lemma numbered_lists_prefix {A} (indices : list A) n lists :
  1 <= n -> split_list indices n = Ok lists ->
  exists k, map fst (numbered_lists lists) = seq 0 k /\
            map snd (numbered_lists lists) = firstn k lists /\
            Forall (fun p => p = []) (skipn k lists).
Proof.
  intros Hn H. unfold numbered_lists.
  destruct (filter_prefix (fun l : list A => match l with [] => false | _ => true end) lists)
    as (k & Hk & H1 & H2).
  - destruct (split_list_spec indices n Hn) as (p & Hp & _ & _ & _ & HS).
    rewrite H in Hp. injection Hp as <-.
    intros i j p q Hij Hp Hq Hfq. specialize (HS i j p q Hij Hp Hq).
    destruct q as [|? q]; [discriminate|]. destruct p; [|reflexivity].
    unfold zlen in HS. cbn [List.length] in HS. lia.
  - exists k. rewrite H2.
    assert (HL : List.length (seq 0 k) = List.length (firstn k lists)).
    { rewrite seq_length, firstn_length. lia. }
    split; [apply map_fst_combine; exact HL|]. split; [apply map_snd_combine; exact HL|].
    pose proof (filter_firstn_skipn _ _ _ H1 Hk) as HF.
    rewrite Forall_forall in *. intros p Hp. specialize (HF p Hp). destruct p; [reflexivity|discriminate].
Qed.

Lemma started_first_queue_spec {A} (keys : list A) n :
  keys <> [] -> 1 <= n ->
  exists started, started_first_queue keys n = Ok started /\
    map fst started = seq 0 (List.length started) /\
    Forall (fun p => snd p <> []) started /\
    List.concat (map snd started) = keys.
Proof.
  intros Hk Hn. destruct (split_list_spec keys n Hn) as (p & Hp & HC & _ & HF & _).
  unfold started_first_queue. rewrite Hp. cbn [bind]. eexists. split; [reflexivity|].
  assert (HL : List.length (seq 0 (List.length p)) = List.length p) by apply seq_length.
  rewrite map_fst_combine, map_snd_combine by exact HL.
  rewrite combine_length, seq_length, Nat.min_id. split; [reflexivity|]. split; [|exact HC].
  specialize (HF Hk). rewrite Forall_forall in *. intros [i q] Hq. apply HF.
  apply in_combine_r in Hq. exact Hq.
Qed.

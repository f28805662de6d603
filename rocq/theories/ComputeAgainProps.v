(** C112: a topology can be computed again. *)
From Verif Require Import PyBase SplitModel SplitProofs SplitProps ComputeAgainModel.
Open Scope Z_scope.

(** ** Specification *)

(** the indices of the series of the topology, as the user defined them *)
Definition the_series (a b c : Z) : list Z := range_list a b c.
Definition new_series (a b c : Z) : series := mk_series a b c None.
(** what has no result *)
Definition missing (all done : list Z) : list Z := filter (fun i => negb (existsb (Z.eqb i) done)) all.
Definition good (e : executor) : Prop := match e with InProcess => True | MultiAsync n | Subproc n => 1 <= n end.
Definition good_event (ev : event) : Prop := match ev with Compute e _ => good e | Remove _ => True end.
(** no call with multi_exec_async, no result removed *)
Definition not_multi (ev : event) : Prop := match ev with Compute (MultiAsync _) _ => False | _ => True end.
Definition not_removed (ev : event) : Prop := match ev with Remove _ => False | _ => True end.
(** what the next call treats, all processes together, in order *)
Definition treated (complete : bool) (e : executor) (st : series * list Z) : result (list Z) :=
  do (_, l) <- compute complete e (fst st) (snd st) ; Ok (List.concat l).

(** ** Balanced parts *)

Lemma concat_last {A} (front : list (list A)) p : List.concat (front ++ [p]) = List.concat front ++ p.
Proof. rewrite concat_app. cbn. rewrite app_nil_r. reflexivity. Qed.

Lemma balanced_sum {A} (p : list A) : forall front : list (list A), Forall (fun q => zlen p <= zlen q <= zlen p + 1) front ->
  zlen front * zlen p <= zlen (List.concat front) <= zlen front * zlen p + zlen front.
Proof.
  unfold zlen. induction front as [|q front IH]; intros H; [cbn; lia|]. inversion H; subst. specialize (IH H3). cbn [List.concat List.length].
  rewrite app_length. nia.
Qed.

Lemma last_part {A} (l : list A) (front : list (list A)) (p : list A) : List.concat (front ++ [p]) = l -> Forall (fun q => zlen p <= zlen q <= zlen p + 1) front ->
  zlen p = zlen l / zlen (front ++ [p]) /\ p = skipn (List.length l - List.length p) l.
Proof.
  intros E H. rewrite concat_last in E. pose proof (balanced_sum p front H) as B. split.
  - assert (zlen l = zlen (List.concat front) + zlen p) by (rewrite <- E; unfold zlen; rewrite app_length; lia).
    assert (zlen (front ++ [p]) = zlen front + 1) by (unfold zlen; rewrite app_length; cbn; lia).
    assert (0 <= zlen front) by (unfold zlen; lia). rewrite H0, H1.
    apply (Z.div_unique _ _ _ (zlen (List.concat front) - zlen front * zlen p)); [left; lia|ring].
  - rewrite <- E at 2. rewrite <- E, app_length. replace (_ - _)%nat with (List.length (List.concat front)) by lia. rewrite skipn_app, skipn_all, Nat.sub_diag. reflexivity.
Qed.

(** the number of elements of the last part when [N] elements are given to [n] processes *)
Definition last_size (N n : Z) : Z := Z.max 1 (N / n).

Lemma last_size_parts N n k : 1 <= n -> 1 <= N -> k = Z.min n N -> N / k = last_size N n.
Proof.
  intros Hn HN ->. unfold last_size. destruct (Z.leb_spec n N).
  - rewrite Z.min_l by lia. assert (1 <= N / n) by (apply Z.div_le_lower_bound; lia). lia.
  - rewrite Z.min_r by lia. rewrite Z.div_same by lia. rewrite Z.div_small by lia. lia.
Qed.

(** ** The loops of multi_exec_async *)

Definition nonempty {A} (l : list A) : bool := match l with [] => false | _ => true end.

Lemma launch_lists_spec lists : forall s, launch_lists s lists =
  (match rev (filter nonempty lists) with [] => s | l :: _ => set_index_series s l end, filter nonempty lists).
Proof.
  unfold launch_lists. intros s0. assert (H : forall lists s acc, fold_left (fun '(s, launched) index_series =>
      match index_series with [] => (s, launched) | _ => let s' := set_index_series s index_series in (s', launched ++ [items s']) end) lists (s, acc) =
    (match rev (filter nonempty lists) with [] => s | l :: _ => set_index_series s l end, acc ++ filter nonempty lists)).
  { clear. induction lists as [|l lists IH]; intros s acc; [cbn; rewrite app_nil_r; reflexivity|]. cbn [fold_left filter]. destruct l as [|x l]; cbn [nonempty]; [apply IH|].
    cbv zeta. rewrite IH. cbn [rev items s_index set_index_series]. rewrite <- app_assoc. cbn [app]. f_equal.
    destruct (rev (filter nonempty lists)); reflexivity. }
  rewrite H. reflexivity.
Qed.

Lemma launch_ranges_spec ranges : forall s, s_index s = None -> launch_ranges s ranges =
  (match rev (yielded_ranges ranges) with [] => s | r :: _ => set_range s r end, map part_elems (yielded_ranges ranges)).
Proof.
  unfold launch_ranges, yielded_ranges. intros s0 H0. assert (H : forall ranges s acc, s_index s = None -> fold_left (fun '(s, launched) start_stop_step =>
    let '(a, b, c) := start_stop_step in
    if range_len a b c =? 0 then (s, launched) else let s' := set_range s start_stop_step in (s', launched ++ [items s'])) ranges (s, acc) =
    (match rev (filter (fun '(a, b, c) => negb (range_len a b c =? 0)) ranges) with [] => s | r :: _ => set_range s r end,
     acc ++ map part_elems (filter (fun '(a, b, c) => negb (range_len a b c =? 0)) ranges))).
  { clear. induction ranges as [|[[a b] c] ranges IH]; intros s acc Hs; [cbn; rewrite app_nil_r; reflexivity|]. cbn [fold_left filter].
    destruct (range_len a b c =? 0) eqn:E; cbn [negb]; [apply IH; exact Hs|]. cbv zeta. rewrite IH by exact Hs. cbn [rev map].
    rewrite <- app_assoc. cbn [app]. assert (items (set_range s (a, b, c)) = part_elems (a, b, c)) as -> by (unfold items; cbn [set_range s_index s_start s_stop s_step]; rewrite Hs; reflexivity). f_equal.
    destruct (rev (filter _ ranges)) as [|[[a' b'] c'] r]; reflexivity. }
  rewrite H by exact H0. reflexivity.
Qed.

Lemma range_len_list a b c : c <> 0 -> range_len a b c = zlen (range_list a b c).
Proof. intros H. unfold range_list, zlen, range0. rewrite !map_length, seq_length. pose proof (range_len_nonneg a b c). lia. Qed.

Lemma filter_all {A} (f : A -> bool) l : Forall (fun x => f x = true) l -> filter f l = l.
Proof. induction 1 as [|x l Hx _ IH]; [reflexivity|]. cbn. rewrite Hx, IH. reflexivity. Qed.
Lemma filter_none {A} (f : A -> bool) l : Forall (fun x => f x = false) l -> filter f l = [].
Proof. induction 1 as [|x l Hx _ IH]; [reflexivity|]. cbn. rewrite Hx. exact IH. Qed.

Lemma split_front {A} (l : list A) : l <> [] -> exists front p, l = front ++ [p].
Proof. intros H. destruct (exists_last H) as (front & p & E). eauto. Qed.

(** the non empty parts of a range *)
Lemma yielded_spec a b c n ranges : c <> 0 -> 1 <= n -> range_list a b c <> [] -> split_range a b c n = Ok ranges ->
  exists front r, yielded_ranges ranges = front ++ [r] /\ List.concat (map part_elems (yielded_ranges ranges)) = range_list a b c /\
    let N := zlen (range_list a b c) in
    zlen (part_elems r) = last_size N n /\ part_elems r = skipn (List.length (range_list a b c) - Z.to_nat (last_size N n)) (range_list a b c).
Proof.
  intros Hc Hn Hne E. destruct (C01_split_range a b c n Hc Hn) as (ranges' & E' & L & HS & HC & HB). rewrite E in E'. injection E' as <-.
  assert (HF : forall r, In r ranges -> nonempty (part_elems r) = (let '(x, y, z) := r in negb (range_len x y z =? 0))).
  { intros [[x y] z] Hr. rewrite Forall_forall in HS. specialize (HS _ Hr). cbn in HS. subst z. cbn [part_elems]. rewrite range_len_list by exact Hc.
    destruct (range_list x y c); [reflexivity|]. cbn [nonempty]. unfold zlen. cbn [List.length]. destruct (Z.eqb_spec (Z.of_nat (S (List.length l))) 0); [lia|reflexivity]. }
  assert (HY : map part_elems (yielded_ranges ranges) = filter nonempty (map part_elems ranges)).
  { unfold yielded_ranges. clear -HF. induction ranges as [|r ranges IH]; [reflexivity|]. cbn [filter map]. rewrite (HF r) by (left; reflexivity).
    destruct r as [[x y] z]. destruct (negb _); cbn [map]; rewrite IH by (intros; apply HF; right; assumption); reflexivity. }
  assert (HCY : List.concat (map part_elems (yielded_ranges ranges)) = range_list a b c).
  { rewrite HY, <- HC. clear. induction (map part_elems ranges) as [|p l IH]; [reflexivity|]. cbn [filter]. destruct p; cbn [nonempty List.concat]; rewrite ?IH; cbn [List.concat]; rewrite ?IH; reflexivity. }
  assert (NE : yielded_ranges ranges <> []). { intros H. rewrite H in HCY. cbn in HCY. congruence. }
  destruct (split_front _ NE) as (front & r & EF). exists front, r. split; [exact EF|]. split; [exact HCY|]. cbv zeta.
  pose (parts := map part_elems (yielded_ranges ranges)). fold parts in HCY, HY.
  assert (EP : parts = map part_elems front ++ [part_elems r]) by (unfold parts; rewrite EF, map_app; reflexivity).
  (* the non empty parts are the first ones *)
  destruct (C03_process_numbers_ranges a b c n ranges Hc Hn E) as (k & _ & HK & HE).
  assert (HSt : map snd (started_ranges ranges) = yielded_ranges ranges).
  { unfold started_ranges, yielded_ranges. assert (G : forall (l : list (Z*Z*Z)) m, map snd (filter (fun '(_, (a0, b0, c0)) => negb (range_len a0 b0 c0 =? 0)) (combine (seq m (List.length l)) l)) = filter (fun '(a0, b0, c0) => negb (range_len a0 b0 c0 =? 0)) l).
    { clear. induction l as [|[[x y] z] l IH]; intros m; [reflexivity|]. cbn [List.length seq combine filter]. destruct (negb _); cbn [map snd]; rewrite IH; reflexivity. }
    apply G. }
  rewrite HSt in HK.
  assert (Hk : (List.length (yielded_ranges ranges) <= k)%nat) by (rewrite HK, firstn_length; lia).
  assert (HKn : nth_error ranges (List.length front) = Some r).
  { assert (nth_error (yielded_ranges ranges) (List.length front) = Some r) by (rewrite EF, nth_error_app2, Nat.sub_diag by lia; reflexivity).
    rewrite HK in H. rewrite <- (firstn_skipn k ranges). rewrite nth_error_app1; [exact H|]. apply nth_error_Some. congruence. }
  assert (HBal : Forall (fun q => zlen (part_elems r) <= zlen q <= zlen (part_elems r) + 1) (map part_elems front)).
  { apply Forall_map. apply Forall_forall. intros q Hq. apply In_nth_error in Hq. destruct Hq as [i Hi].
    assert (Li : (i < List.length front)%nat) by (apply nth_error_Some; congruence).
    apply (HB i (List.length front)); [lia| |exact HKn].
    assert (Hy : nth_error (yielded_ranges ranges) i = Some q) by (rewrite EF, nth_error_app1 by exact Li; exact Hi). rewrite HK in Hy.
    rewrite <- (firstn_skipn k ranges). rewrite nth_error_app1; [exact Hy|]. apply nth_error_Some. congruence. }
  rewrite EP in HCY. destruct (last_part _ _ _ HCY HBal) as [HL HS'].
  assert (HN : 1 <= zlen (range_list a b c)) by (destruct (range_list a b c); [contradiction|]; unfold zlen; cbn [List.length]; lia).
  assert (HP : 1 <= zlen (part_elems r)).
  { assert (In r (yielded_ranges ranges)) by (rewrite EF; apply in_or_app; right; left; reflexivity). unfold yielded_ranges in H. apply filter_In in H. destruct H as [Hi Hr].
    rewrite <- (HF r Hi) in Hr. destruct (part_elems r); [discriminate|]. unfold zlen. cbn [List.length]. lia. }
  assert (HM : zlen (map part_elems front ++ [part_elems r]) = Z.min n (zlen (range_list a b c))).
  { rewrite <- EP. unfold parts, zlen at 1. rewrite map_length.
    assert (LY : (List.length (yielded_ranges ranges) = Nat.min k (List.length ranges))%nat) by (rewrite HK; apply firstn_length).
    destruct (Nat.le_gt_cases (List.length ranges) k) as [Hle|Hgt].
    - (* every part has elements *)
      assert (zlen (yielded_ranges ranges) = n) by (unfold zlen in *; lia).
      assert (zlen (yielded_ranges ranges) <= zlen (range_list a b c)).
      { rewrite <- HCY, <- EP. unfold parts. rewrite EF in *. clear -HF EF. 
        assert (HA : Forall (fun q => 1 <= zlen (part_elems q)) (front ++ [r])).
        { rewrite <- EF. apply Forall_forall. intros q Hq. unfold yielded_ranges in Hq. apply filter_In in Hq. destruct Hq as [Hi Hr]. rewrite <- (HF q Hi) in Hr. destruct (part_elems q); [discriminate|]. unfold zlen; cbn [List.length]; lia. }
        clear -HA. induction HA as [|q l Hq _ IH]; [unfold zlen; cbn; lia|]. unfold zlen in *. cbn [map List.concat List.length]. rewrite app_length. lia. }
      unfold zlen in *. lia.
    - (* an empty part: the others have one element *)
      destruct (nth_error ranges k) as [e|] eqn:Ee; [|apply nth_error_None in Ee; lia].
      assert (He : part_elems e = []). { rewrite Forall_forall in HE. apply HE. apply (nth_error_In _ 0). rewrite <- (firstn_skipn k ranges) in Ee. rewrite nth_error_app2 in Ee by (rewrite firstn_length; lia). rewrite firstn_length in Ee. replace (k - Nat.min k (List.length ranges))%nat with 0%nat in Ee by lia. exact Ee. }
      assert (HA : Forall (fun q => zlen q = 1) (map part_elems (yielded_ranges ranges))).
      { apply Forall_map. apply Forall_forall. intros q Hq. pose proof Hq as Hq'. unfold yielded_ranges in Hq'. apply filter_In in Hq'. destruct Hq' as [Hi Hr]. rewrite <- (HF q Hi) in Hr.
        rewrite HK in Hq. apply In_nth_error in Hq. destruct Hq as [i Hq]. assert (Li : (i < k)%nat) by (assert (i < List.length (firstn k ranges))%nat by (apply nth_error_Some; congruence); rewrite firstn_length in *; lia).
        assert (Hq2 : nth_error ranges i = Some q). { rewrite <- (firstn_skipn k ranges), nth_error_app1; [exact Hq|]. rewrite firstn_length; lia. }
        pose proof (HB i k q e (Nat.lt_le_incl _ _ Li) Hq2 Ee) as HBq. rewrite He in HBq. destruct (part_elems q); [discriminate|]. unfold zlen in *. cbn [List.length] in *. lia. }
      assert (HC1 : zlen (List.concat (map part_elems (yielded_ranges ranges))) = zlen (yielded_ranges ranges)).
      { clear -HA. induction (yielded_ranges ranges) as [|q l IH]; [reflexivity|]. cbn [map] in HA. inversion HA; subst. specialize (IH H2). unfold zlen in *. cbn [map List.concat List.length]. rewrite app_length. lia. }
      fold parts in HC1. rewrite EP in HC1. rewrite HCY in HC1. unfold zlen in *. lia. }
  rewrite HM in HL. rewrite (last_size_parts _ n _ Hn HN eq_refl) in HL. split; [exact HL|]. rewrite HS' at 1. f_equal. rewrite <- HL. unfold zlen. rewrite Nat2Z.id. reflexivity.
Qed.

Lemma launch_ranges_filter_lists (lists : list (list Z)) : map snd (numbered_lists lists) = filter nonempty lists.
Proof.
  unfold numbered_lists. assert (G : forall (l : list (list Z)) m, map snd (filter (fun '(_, l0) => match l0 with [] => false | _ => true end) (combine (seq m (List.length l)) l)) = filter nonempty l).
  { clear. induction l as [|x l IH]; intros m; [reflexivity|]. cbn [List.length seq combine filter]. destruct x; cbn [nonempty map snd]; rewrite IH; reflexivity. }
  apply G.
Qed.

Lemma concat_nonempty {A} (l : list (list A)) : List.concat (filter nonempty l) = List.concat l.
Proof. induction l as [|p l IH]; [reflexivity|]. cbn [filter]. destruct p; cbn [nonempty List.concat]; rewrite ?IH; cbn; rewrite ?IH; reflexivity. Qed.

(** ** One call *)

Lemma treated_plain a b c e done : c <> 0 -> good e -> exists s' l, compute false e (new_series a b c) done = Ok (s', l) /\ List.concat l = range_list a b c.
Proof.
  intros Hc Hg. destruct e as [|n|n]; cbn [compute new_series s_start s_stop s_step].
  - unfold init_series. destruct (items _) eqn:E; do 2 eexists; (split; [reflexivity|]); cbn [List.concat]; rewrite app_nil_r; reflexivity.
  - rewrite range_len_list by exact Hc. destruct (range_list a b c) as [|x l] eqn:E.
    + cbn. do 2 eexists. split; reflexivity.
    + replace (zlen (x :: l) =? 0) with false by (unfold zlen; cbn [List.length]; lia).
      destruct (C01_split_range a b c n Hc Hg) as (ranges & ER & _). rewrite ER. cbn [bind]. rewrite launch_ranges_spec by reflexivity. do 2 eexists. split; [reflexivity|].
      destruct (yielded_spec a b c n ranges Hc Hg) as (_ & _ & _ & HC & _); [congruence|exact ER|]. rewrite HC. exact E.
  - unfold splitter_init. destruct (C01_split_range a b c n Hc Hg) as (ranges & -> & _ & HS & HC & _). cbn [bind]. do 2 eexists. split; [reflexivity|]. cbn [series_processes].
    rewrite <- HC. unfold yielded_ranges. clear -HS Hc. induction HS as [|[[x y] z] l Hz _ IH]; [reflexivity|]. subst z. cbn [filter]. rewrite range_len_list by exact Hc.
    cbn [map List.concat part_elems]. destruct (range_list x y c) eqn:Er; [cbn; exact IH|]. replace (zlen _ =? 0) with false by (unfold zlen; cbn [List.length]; lia). cbn [negb map List.concat part_elems]. rewrite Er, IH. reflexivity.
Qed.

Lemma treated_complete e s done : good e -> exists s' l, compute true e s done = Ok (s', l) /\ List.concat l = missing (items s) done.
Proof.
  intros Hg. destruct e as [|n|n]; cbn [compute].
  - unfold init_series. destruct (items s) as [|x r] eqn:E.
    + do 2 eexists. split; [reflexivity|]. rewrite E. reflexivity.
    + do 2 eexists. split; [reflexivity|]. cbn [List.concat]. rewrite app_nil_r. cbn [items set_index_series s_index]. unfold compute_indices_to_be_computed. rewrite E. reflexivity.
  - unfold compute_indices_to_be_computed. fold (missing (items s) done). change (filter _ (items s)) with (missing (items s) done).
    destruct (missing (items s) done) as [|x r] eqn:E; [do 2 eexists; split; reflexivity|]. replace (zlen (x :: r) =? 0) with false by (unfold zlen; cbn [List.length]; lia).
    destruct (C02_split_list Z (x :: r) n Hg) as (parts & -> & HC & _). cbn [bind]. rewrite launch_lists_spec. do 2 eexists. split; [reflexivity|]. rewrite concat_nonempty. exact HC.
  - unfold splitter_init. change (compute_indices_to_be_computed s done) with (missing (items s) done).
    destruct (C02_split_list Z (missing (items s) done) n Hg) as (parts & -> & HC & _). cbn [bind]. do 2 eexists. split; [reflexivity|]. cbn [series_processes].
    rewrite launch_ranges_filter_lists, concat_nonempty. exact HC.
Qed.

(** The first call for a topology treats every serie, or with "complete" those without
    result, once and in order, with every executor. *)
Theorem C112_first complete a b c e done : c <> 0 -> good e ->
  treated complete e (new_series a b c, done) = Ok (if complete then missing (the_series a b c) done else the_series a b c).
Proof.
  intros Hc Hg. unfold treated. cbn [fst snd]. destruct complete.
  - destruct (treated_complete e (new_series a b c) done Hg) as (s' & l & -> & HL). cbn [bind]. rewrite HL. reflexivity.
  - destruct (treated_plain a b c e done Hc Hg) as (s' & l & -> & HL). cbn [bind]. rewrite HL. reflexivity.
Qed.
Print Assumptions C112_first.

(** ** Further calls without "complete" *)

Lemma keeps_plain e s done s' l : (match e with MultiAsync _ => False | _ => True end) -> compute false e s done = Ok (s', l) -> s' = s.
Proof.
  destruct e as [|n|n]; cbn [compute]; [|contradiction|].
  - intros _ H. injection H as <- _. unfold init_series. destruct (items s); reflexivity.
  - intros _. destruct (splitter_init _ _ _ _ _ _); [|discriminate]. cbn [bind]. intros H. injection H as <- _. reflexivity.
Qed.

(** After any history of calls and failures in which multi_exec_async was not used, a call
    treats the whole series again. *)
Theorem C112_again_partial a b c done0 evs st e : c <> 0 -> Forall not_multi evs -> history false (new_series a b c, done0) evs = Ok st -> good e ->
  treated false e st = Ok (the_series a b c).
Proof.
  intros Hc HN HH Hg. assert (HS : fst st = new_series a b c).
  { revert HH. generalize done0. clear Hg. induction HN as [|ev evs Hev _ IH]; intros d HH; [injection HH as <-; reflexivity|]. cbn [history] in HH.
    destruct (after false (new_series a b c, d) ev) as [[s' d']|] eqn:E; [|discriminate]. cbn [bind] in HH. assert (s' = new_series a b c) as ->.
    { destruct ev as [e' fails|i]; cbn [after] in E.
      - destruct (compute false e' (new_series a b c) d) as [[s1 l]|] eqn:Ec; [|discriminate]. cbn [bind] in E. injection E as <- _.
        apply (keeps_plain e' _ d _ l); [destruct e'; auto|exact Ec].
      - injection E as <- _. reflexivity. }
    eapply IH. exact HH. }
  destruct st as [s d]. cbn [fst] in HS. subst s. apply (C112_first false a b c e d Hc Hg).
Qed.
Print Assumptions C112_again_partial.

(** After a call with multi_exec_async and [n] processes, the next call (with any executor)
    treats only what the last process had: [max 1 (N / n)] series over [N]. *)
Theorem C112_multi_async_refuted a b c n done0 fails st e : c <> 0 -> 1 <= n -> the_series a b c <> [] -> good e ->
  history false (new_series a b c, done0) [Compute (MultiAsync n) fails] = Ok st ->
  treated false e st = Ok (skipn (List.length (the_series a b c) - Z.to_nat (Z.max 1 (zlen (the_series a b c) / n))) (the_series a b c)).
Proof.
  unfold the_series. intros Hc Hn Hne Hg. cbn [history after compute new_series s_start s_stop s_step]. rewrite range_len_list by exact Hc.
  destruct (Z.eqb_spec (zlen (range_list a b c)) 0) as [E|E]; [exfalso; apply Hne; unfold zlen in E; destruct (range_list a b c); [reflexivity|cbn in E; lia]|].
  destruct (C01_split_range a b c n Hc Hn) as (ranges & ER & _ & HS & _). rewrite ER. cbn [bind]. rewrite launch_ranges_spec by reflexivity. cbn [bind].
  destruct (yielded_spec a b c n ranges Hc Hn Hne ER) as (front & r & EF & _ & _ & HP). rewrite EF at 1. rewrite rev_unit.
  destruct r as [[x y] z]. assert (z = c) as ->.
  { rewrite Forall_forall in HS. assert (In (x, y, z) ranges). { assert (In (x, y, z) (yielded_ranges ranges)) by (rewrite EF; apply in_or_app; right; left; reflexivity). unfold yielded_ranges in H. apply filter_In in H. apply H. } apply HS in H. exact H. }
  intros H. injection H as <-. cbn [set_range s_index]. change (mk_series x y c None) with (new_series x y c).
  rewrite (C112_first false x y c e _ Hc Hg). unfold the_series, last_size in *. cbn [part_elems] in HP. rewrite HP. reflexivity.
Qed.
Print Assumptions C112_multi_async_refuted.

(** It is the whole series exactly when there was one process or one serie. *)
Theorem C112_multi_async_iff a b c n done0 fails st e : c <> 0 -> 1 <= n -> the_series a b c <> [] -> good e ->
  history false (new_series a b c, done0) [Compute (MultiAsync n) fails] = Ok st ->
  treated false e st = Ok (the_series a b c) <-> n = 1 \/ zlen (the_series a b c) = 1.
Proof.
  intros Hc Hn Hne Hg HH. rewrite (C112_multi_async_refuted a b c n done0 fails st e Hc Hn Hne Hg HH).
  pose (N := zlen (the_series a b c)). assert (HN : 1 <= N) by (unfold N, zlen; destruct (the_series a b c); [contradiction|cbn [List.length]; lia]). fold N. split.
  - intros H. injection H as H. apply (f_equal (@List.length Z)) in H. rewrite skipn_length in H.
    assert (HM : Z.max 1 (N / n) = N). { assert (N / n <= N) by (apply Z.div_le_upper_bound; nia). unfold N, zlen in *. lia. }
    destruct (Z.eq_dec n 1); [left; assumption|]. right. fold N. destruct (Z.eq_dec N 1); [assumption|]. exfalso.
    assert (N / n < N) by (apply Z.div_lt; lia). lia.
  - intros H. f_equal. assert (HM : Z.max 1 (N / n) = N) by (destruct H as [-> | H]; [rewrite Z.div_1_r; lia|fold N in H; rewrite H; destruct (Z.eq_dec n 1) as [-> |]; [reflexivity|rewrite Z.div_small by lia; reflexivity]]).
    rewrite HM. unfold N, zlen. rewrite Nat2Z.id, Nat.sub_diag. reflexivity.
Qed.

(** ** Further calls with "complete" *)

Lemma missing_app all d1 d2 : missing all (d1 ++ d2) = missing (missing all d2) d1.
Proof.
  unfold missing. induction all as [|i all IH]; [reflexivity|]. cbn [filter]. rewrite existsb_app, IH. destruct (existsb (Z.eqb i) d2) eqn:E2; cbn [negb filter]; rewrite ?orb_true_r, ?orb_false_r; [reflexivity|].
  destruct (existsb (Z.eqb i) d1); reflexivity.
Qed.
Lemma missing_comm all d1 d2 : missing (missing all d1) d2 = missing (missing all d2) d1.
Proof. unfold missing. induction all as [|i all IH]; [reflexivity|]. cbn [filter]. destruct (negb (existsb (Z.eqb i) d1)) eqn:E1, (negb (existsb (Z.eqb i) d2)) eqn:E2; cbn [filter]; rewrite ?E1, ?E2, ?IH; reflexivity. Qed.
Lemma missing_idem all d : missing (missing all d) d = missing all d.
Proof. unfold missing. induction all as [|i all IH]; [reflexivity|]. cbn [filter]. destruct (negb (existsb (Z.eqb i) d)) eqn:E1; cbn [filter]; rewrite ?E1, ?IH; reflexivity. Qed.
Lemma missing_later all d d1 : missing (missing all d) (d1 ++ d) = missing all (d1 ++ d).
Proof. rewrite missing_app, missing_idem, <- missing_app. reflexivity. Qed.

(** With executors other than multi_exec_async, and if no result is removed, each call treats
    exactly the series without result, whatever failed before. *)
Theorem C112_complete_partial a b c done0 evs s done e : c <> 0 -> Forall not_multi evs -> Forall not_removed evs -> Forall good_event evs ->
  history true (new_series a b c, done0) evs = Ok (s, done) -> good e ->
  treated true e (s, done) = Ok (missing (the_series a b c) done).
Proof.
  intros Hc HN HR HG HH Hg. unfold treated. cbn [fst snd]. destruct (treated_complete e s done Hg) as (s' & l & -> & HL). cbn [bind]. rewrite HL. f_equal. clear s' l HL Hg e.
  assert (H0 : missing (items (new_series a b c)) done0 = missing (the_series a b c) done0) by reflexivity. revert H0 HH. generalize done0 (new_series a b c). clear done0.
  revert HR HG. induction HN as [|ev evs Hev _ IH]; intros HR HG d s0 H0 HH; [injection HH as <- <-; exact H0|]. inversion HR; subst. inversion HG; subst. cbn [history] in HH.
  destruct ev as [e fails|i]; [|contradiction]. cbn [after] in HH. destruct (compute true e s0 d) as [[s1 l]|] eqn:Ec; [|discriminate]. cbn [bind] in HH.
  eapply IH; [assumption|assumption| |exact HH]. clear HH IH. destruct e as [|n|n]; [|contradiction|].
  - cbn [compute] in Ec. injection Ec as <- _. unfold init_series. destruct (items s0) as [|x r] eqn:E0.
    + rewrite E0. rewrite !missing_app, <- H0. reflexivity.
    + cbn [items set_index_series s_index]. unfold compute_indices_to_be_computed. rewrite E0. change (filter _ (x :: r)) with (missing (x :: r) d). rewrite missing_later, !missing_app, H0. reflexivity.
  - cbn [compute] in Ec. destruct (splitter_init _ _ _ _ _ _); [|discriminate]. cbn [bind] in Ec. injection Ec as <- _. rewrite !missing_app, H0. reflexivity.
Qed.
Print Assumptions C112_complete_partial.

(** Only subprocesses: exactly the series without result, even when results were removed. *)
Theorem C112_complete_subproc a b c done0 evs s done e : Forall (fun ev => match ev with Compute (Subproc _) _ | Remove _ => True | _ => False end) evs ->
  history true (new_series a b c, done0) evs = Ok (s, done) -> good e -> treated true e (s, done) = Ok (missing (the_series a b c) done).
Proof.
  intros HN HH Hg. assert (s = new_series a b c) as ->.
  { revert HH. generalize done0. induction HN as [|ev evs Hev _ IH]; intros d HH; [injection HH as <- _; reflexivity|]. cbn [history] in HH.
    destruct ev as [e' fails|i]; cbn [after] in HH; [|cbn [bind] in HH; eapply IH; exact HH]. destruct e' as [|n|n]; try contradiction.
    cbn [compute] in HH. destruct (splitter_init _ _ _ _ _ _); [|discriminate]. cbn [bind] in HH. eapply IH; exact HH. }
  unfold treated. cbn [fst snd]. destruct (treated_complete e (new_series a b c) done Hg) as (s' & l & -> & HL). cbn [bind]. rewrite HL. reflexivity.
Qed.

(** With multi_exec_subproc, a result removed from the directory is computed again by the next call, and this is the only
    effect of its removal. *)
Theorem C112_removed_again a b c done0 evs s done l s' done' i e :
  Forall (fun ev => match ev with Compute (Subproc _) _ | Remove _ => True | _ => False end) evs -> good e ->
  history true (new_series a b c, done0) evs = Ok (s, done) -> treated true e (s, done) = Ok l ->
  history true (new_series a b c, done0) (evs ++ [Remove i]) = Ok (s', done') ->
  exists l', treated true e (s', done') = Ok l' /\ forall j, In j l' <-> In j l \/ (j = i /\ In i (the_series a b c)).
Proof.
  intros HN Hg HH HT HH'.
  rewrite (C112_complete_subproc a b c done0 evs s done e HN HH Hg) in HT. injection HT as <-.
  assert (HN' : Forall (fun ev => match ev with Compute (Subproc _) _ | Remove _ => True | _ => False end) (evs ++ [Remove i])).
  { apply Forall_app. split; [exact HN|repeat constructor]. }
  exists (missing (the_series a b c) done'). split; [apply (C112_complete_subproc a b c done0 _ s' done' e HN' HH' Hg)|].
  assert (HD : done' = filter (fun j => negb (j =? i)) done).
  { clear -HH HH'. revert HH HH'. generalize (new_series a b c, done0). induction evs as [|ev evs IH]; intros st HH HH'.
    - injection HH as ->. cbn [app history after bind] in HH'. injection HH' as _ <-. reflexivity.
    - cbn [app history] in HH, HH'. destruct (after true st ev) as [st1|]; [|discriminate]. cbn [bind] in HH, HH'. apply (IH st1); assumption. }
  subst done'. intros j. unfold missing. rewrite !filter_In.
  assert (E : existsb (Z.eqb j) (filter (fun j0 => negb (j0 =? i)) done) = existsb (Z.eqb j) done && negb (j =? i)).
  { clear. induction done as [|x d IH]; [reflexivity|]. cbn [filter existsb]. destruct (Z.eqb_spec x i) as [-> |Hx]; cbn [negb existsb].
    - rewrite IH. destruct (Z.eqb_spec j i); cbn [orb andb negb]; [rewrite andb_false_r; reflexivity|reflexivity].
    - rewrite IH. destruct (Z.eqb_spec j x) as [-> |]; cbn [orb andb]; [|reflexivity]. destruct (Z.eqb_spec x i); [contradiction|reflexivity]. }
  rewrite E. clear E. destruct (Z.eqb_spec j i) as [Hj|Hj]; cbn [negb]; [rewrite andb_false_r; cbn [negb]; subst j|rewrite andb_true_r]; intuition congruence.
Qed.
Print Assumptions C112_removed_again.

(** In every history, what is treated belongs to what the series gave before: a serie which
    left the list never comes back. *)
Lemma items_shrink complete e s d s' l i : good e -> s_step s <> 0 -> (complete = true \/ s_index s = None) -> compute complete e s d = Ok (s', l) -> In i (items s') ->
  In i (items s) .
Proof.
  intros Hg Hc Hi Ec Hin. destruct complete.
  - destruct e as [|n|n]; cbn [compute] in Ec.
    + injection Ec as <- _. unfold init_series in Hin. destruct (items s) eqn:E; [rewrite E in Hin; exact Hin|]. cbn [items set_index_series s_index] in Hin. unfold compute_indices_to_be_computed in Hin. rewrite E in Hin. apply filter_In in Hin. apply Hin.
    + destruct (zlen _ =? 0); [injection Ec as <- _; exact Hin|]. destruct (C02_split_list Z (compute_indices_to_be_computed s d) n Hg) as (parts & EP & HC & _). rewrite EP in Ec. cbn [bind] in Ec.
      rewrite launch_lists_spec in Ec. injection Ec as <- _. destruct (rev (filter nonempty parts)) as [|p r] eqn:Er; [exact Hin|]. cbn [items set_index_series s_index] in Hin.
      assert (In p parts). { assert (In p (filter nonempty parts)) by (apply in_rev; rewrite Er; left; reflexivity). apply filter_In in H. apply H. }
      assert (In i (compute_indices_to_be_computed s d)) by (rewrite <- HC; apply in_concat; exists p; split; assumption). apply filter_In in H0. apply H0.
    + destruct (splitter_init _ _ _ _ _ _); [|discriminate]. cbn [bind] in Ec. injection Ec as <- _. exact Hin.
  - destruct Hi as [Hi|Hi]; [discriminate|]. destruct e as [|n|n]; cbn [compute] in Ec.
    + injection Ec as <- _. unfold init_series in Hin. destruct (items s) eqn:E; rewrite E in Hin; exact Hin.
    + destruct (range_len _ _ _ =? 0); [injection Ec as <- _; exact Hin|]. destruct (C01_split_range (s_start s) (s_stop s) (s_step s) n Hc Hg) as (ranges & EP & _ & HS & HC & _). rewrite EP in Ec. cbn [bind] in Ec.
      rewrite launch_ranges_spec in Ec by exact Hi. injection Ec as <- _. destruct (rev (yielded_ranges ranges)) as [|p r] eqn:Er; [exact Hin|].
      assert (In p ranges). { assert (In p (yielded_ranges ranges)) by (apply in_rev; rewrite Er; left; reflexivity). unfold yielded_ranges in H. apply filter_In in H. apply H. }
      destruct p as [[x y] z]. unfold items in *. cbn [set_range s_index s_start s_stop s_step] in Hin. rewrite Hi in *. rewrite <- HC. apply in_concat. exists (part_elems (x, y, z)). split; [apply in_map; exact H|exact Hin].
    + destruct (splitter_init _ _ _ _ _ _); [|discriminate]. cbn [bind] in Ec. injection Ec as <- _. exact Hin.
Qed.

Lemma compute_keeps complete e s d s' l : good e -> s_step s <> 0 -> (complete = true \/ s_index s = None) -> compute complete e s d = Ok (s', l) ->
  s_step s' <> 0 /\ (complete = true \/ s_index s' = None).
Proof.
  intros Hg Hc Hi Ec. destruct complete.
  - split; [|left; reflexivity]. destruct e as [|n|n]; cbn [compute] in Ec.
    + injection Ec as <- _. unfold init_series. destruct (items s); exact Hc.
    + destruct (zlen _ =? 0); [injection Ec as <- _; exact Hc|]. destruct (split_list _ _); [|discriminate]. cbn [bind] in Ec. rewrite launch_lists_spec in Ec. injection Ec as <- _. destruct (rev _); exact Hc.
    + destruct (splitter_init _ _ _ _ _ _); [|discriminate]. cbn [bind] in Ec. injection Ec as <- _. exact Hc.
  - destruct Hi as [Hi|Hi]; [discriminate|]. destruct e as [|n|n]; cbn [compute] in Ec.
    + injection Ec as <- _. unfold init_series. destruct (items s); split; auto.
    + destruct (range_len _ _ _ =? 0); [injection Ec as <- _; auto|]. destruct (C01_split_range (s_start s) (s_stop s) (s_step s) n Hc Hg) as (ranges & EP & _ & HS & HC & _). rewrite EP in Ec. cbn [bind] in Ec.
      rewrite launch_ranges_spec in Ec by exact Hi. injection Ec as <- _. destruct (rev (yielded_ranges ranges)) as [|[[x y] z] r] eqn:Er; [auto|]. cbn [set_range s_step s_index]. split; [|right; exact Hi].
      rewrite Forall_forall in HS. assert (In (x, y, z) ranges). { assert (In (x, y, z) (yielded_ranges ranges)) by (apply in_rev; rewrite Er; left; reflexivity). unfold yielded_ranges in H. apply filter_In in H. apply H. }
      apply HS in H. lia.
    + destruct (splitter_init _ _ _ _ _ _); [|discriminate]. cbn [bind] in Ec. injection Ec as <- _. auto.
Qed.

Theorem C112_never_back complete evs : forall s d s' d' i, s_step s <> 0 -> (complete = true \/ s_index s = None) -> Forall good_event evs ->
  history complete (s, d) evs = Ok (s', d') -> In i (items s') -> In i (items s).
Proof.
  induction evs as [|ev evs IH]; intros s d s' d' i Hc Hi HG HH Hin; [injection HH as <- <-; exact Hin|]. inversion HG; subst. cbn [history] in HH.
  destruct ev as [e fails|j]; cbn [after] in HH; [|cbn [bind] in HH; eapply IH; eassumption].
  destruct (compute complete e s d) as [[s1 l]|] eqn:Ec; [|discriminate]. cbn [bind] in HH. destruct (compute_keeps complete e s d s1 l H1 Hc Hi Ec) as [Hc1 Hi1].
  eapply items_shrink; try eassumption. eapply IH; eassumption.
Qed.
Print Assumptions C112_never_back.

(** With "complete" and the queues filled in the main process: a result which existed at the
    first call and is removed later is never computed again by this topology. *)
Theorem C112_removed_refuted a b c done0 fails evs s done i e : c <> 0 -> In i done0 -> Forall good_event evs -> good e -> the_series a b c <> [] ->
  history true (new_series a b c, done0) (Compute InProcess fails :: evs) = Ok (s, done) ->
  exists l, treated true e (s, done) = Ok l /\ ~ In i l.
Proof.
  intros Hc Hi HG Hg Hne HH. cbn [history after compute] in HH. cbn [bind] in HH.
  unfold treated. cbn [fst snd]. destruct (treated_complete e s done Hg) as (s' & l & -> & HL). cbn [bind]. exists (List.concat l). split; [reflexivity|]. rewrite HL. intros Hin.
  unfold missing in Hin. apply filter_In in Hin. destruct Hin as [Hin _].
  assert (Hs : s_step (init_series true (new_series a b c) done0) <> 0) by (clear -Hc; unfold init_series; destruct (items (new_series a b c)); cbn; assumption).
  pose proof (C112_never_back true evs _ _ s done i Hs (or_introl eq_refl) HG HH Hin) as H. unfold init_series in H. change (items (new_series a b c)) with (the_series a b c) in H.
  destruct (the_series a b c) as [|x r] eqn:E; [contradiction|]. cbn [items set_index_series s_index] in H. unfold compute_indices_to_be_computed in H. apply filter_In in H. destruct H as [_ H].
  assert (existsb (Z.eqb i) done0 = true) by (apply existsb_exists; exists i; split; [exact Hi|apply Z.eqb_refl]). unfold result_exists in H. rewrite H0 in H. discriminate.
Qed.
Print Assumptions C112_removed_refuted.

(** With "complete" and multi_exec_async, the failures are treated again only if they were in
    the part of the last process. *)
Theorem C112_retry_refuted a b c n done0 fails s done e : c <> 0 -> 1 <= n -> good e -> missing (the_series a b c) done0 <> [] ->
  history true (new_series a b c, done0) [Compute (MultiAsync n) fails] = Ok (s, done) ->
  treated true e (s, done) = Ok (let todo := missing (the_series a b c) done0 in
    filter fails (skipn (List.length todo - Z.to_nat (Z.max 1 (zlen todo / n))) todo)).
Proof.
  intros Hc Hn Hg Hne HH. cbn [history after compute] in HH. change (compute_indices_to_be_computed (new_series a b c) done0) with (missing (the_series a b c) done0) in HH.
  cbv zeta. remember (missing (the_series a b c) done0) as todo eqn:ET.
  destruct (C02_split_list Z todo n Hn) as (parts & EP & HC & HLen & HNE & HB). specialize (HNE Hne).
  replace (zlen todo =? 0) with false in HH by (unfold zlen; destruct todo; [contradiction|cbn [List.length]; lia]). rewrite EP in HH. cbn [bind] in HH. rewrite launch_lists_spec in HH.
  rewrite (filter_all nonempty) in HH by (eapply Forall_impl; [|exact HNE]; intros q Hq; destruct q; [contradiction|reflexivity]).
  assert (NP : parts <> []) by (intros ->; cbn in HC; congruence). destruct (split_front parts NP) as (front & p & EF). rewrite EF in HH. rewrite rev_unit in HH. cbn [bind] in HH. injection HH as <- <-.
  unfold treated. cbn [fst snd]. match goal with |- context [compute true e ?s ?d] => destruct (treated_complete e s d Hg) as (s' & l & -> & HL) end. cbn [bind]. rewrite HL. f_equal. cbn [items set_index_series s_index].
  rewrite <- EF, HC.
  assert (HBal : Forall (fun q => zlen p <= zlen q <= zlen p + 1) front).
  { apply Forall_forall. intros q Hq. apply In_nth_error in Hq. destruct Hq as [i Hi]. assert (Li : (i < List.length front)%nat) by (apply nth_error_Some; congruence).
    apply (HB i (List.length front)); [lia|rewrite EF, nth_error_app1 by exact Li; exact Hi|rewrite EF, nth_error_app2, Nat.sub_diag by lia; reflexivity]. }
  pose proof HC as HC'. rewrite EF in HC'. destruct (last_part todo front p HC' HBal) as [HS1 HS2]. rewrite <- EF, HLen in HS1.
  assert (HN : 1 <= zlen todo) by (unfold zlen; destruct todo; [contradiction|cbn [List.length]; lia]).
  assert (HS3 : zlen p = last_size (zlen todo) n) by (rewrite HS1; apply last_size_parts; [exact Hn|exact HN|destruct todo; [contradiction|reflexivity]]).
  assert (HSk : skipn (List.length todo - Z.to_nat (Z.max 1 (zlen todo / n))) todo = p).
  { transitivity (skipn (List.length todo - List.length p) todo); [|symmetry; exact HS2]. f_equal. fold (last_size (zlen todo) n). rewrite <- HS3. unfold zlen. rewrite Nat2Z.id. reflexivity. }
  rewrite HSk. unfold missing. assert (Hin : forall i, In i p -> In i todo) by (intros i Hi; rewrite <- HC'; apply in_concat; exists p; split; [apply in_or_app; right; left; reflexivity|exact Hi]).
  assert (HD : forall i, In i todo -> existsb (Z.eqb i) done0 = false) by (intros i Hi; rewrite ET in Hi; unfold missing in Hi; apply filter_In in Hi; destruct Hi as [_ Hi]; destruct (existsb (Z.eqb i) done0); [discriminate|reflexivity]).
  apply filter_ext_in. intros i Hi. rewrite existsb_app, (HD i (Hin i Hi)), orb_false_r. destruct (fails i) eqn:EfI.
  - destruct (existsb (Z.eqb i) (filter (fun i0 => negb (fails i0)) todo)) eqn:Ex; [|reflexivity]. apply existsb_exists in Ex. destruct Ex as (j & Hj & Ej). apply Z.eqb_eq in Ej. subst j. apply filter_In in Hj. destruct Hj as [_ Hj]. rewrite EfI in Hj. discriminate.
  - replace (existsb (Z.eqb i) _) with true; [reflexivity|]. symmetry. apply existsb_exists. exists i. split; [apply filter_In; split; [apply Hin; exact Hi|rewrite EfI; reflexivity]|apply Z.eqb_refl].
Qed.
Print Assumptions C112_retry_refuted.

(** ** Topologies on images *)

(** After a call with multi_exec_async the topology has lost its first work: another call
    with the queues filled in the main process or with multi_exec_async fails.  With the other
    executors the works are kept. *)
Theorem C112_images_refuted has_splitter n w2 works works' e : compute_first_queue has_splitter (MultiAsync n) (false :: w2 :: works) = Ok works' ->
  w2 = true -> (match e with Subproc _ => False | _ => True end) -> compute_first_queue has_splitter e works' = Err NotImplementedError.
Proof. intros H -> He. cbn in H. injection H as <-. destruct e; [reflexivity|reflexivity|contradiction]. Qed.

Theorem C112_images has_splitter works es works' : Forall (fun e => match e with MultiAsync _ => False | _ => True end) es ->
  py_for (fun w e => compute_first_queue has_splitter e w) es works = Ok works' -> works' = works.
Proof.
  intros H. revert works. induction H as [|e es He _ IH]; intros works HH; [injection HH as <-; reflexivity|]. cbn [py_for] in HH.
  destruct e as [|n|n]; [|contradiction|]; cbn [compute_first_queue] in HH.
  - destruct (init_first_queue works); [|discriminate]. cbn [bind] in HH. apply IH. exact HH.
  - destruct has_splitter; [|discriminate]. cbn [bind] in HH. apply IH. exact HH.
Qed.

(** ** Examples *)
Example C112_example :
  treated false (MultiAsync 3) (new_series 0 10 1, []) = Ok [0;1;2;3;4;5;6;7;8;9] /\
  (exists st, history false (new_series 0 10 1, []) [Compute (MultiAsync 3) (fun _ => false)] = Ok st /\ treated false InProcess st = Ok [7;8;9]) /\
  (exists st, history true (new_series 0 10 1, [4]) [Compute (MultiAsync 3) (fun i => (i =? 0) || (i =? 8))] = Ok st /\ treated true InProcess st = Ok [8]) /\
  (exists st, history true (new_series 0 4 1, [2]) [Compute InProcess (fun i => i =? 0); Remove 2] = Ok st /\ treated true InProcess st = Ok [0]) /\
  (exists st, history true (new_series 0 4 1, [2]) [Compute (Subproc 2) (fun i => i =? 0); Remove 2] = Ok st /\ treated true InProcess st = Ok [0; 2]).
Proof. repeat split; try (eexists; split; reflexivity). Qed.

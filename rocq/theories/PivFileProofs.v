(** Lemmas on the files of PIV results. *)
From Coq Require Import Permutation Sorted.
From Verif Require Import PyBase StrModel StrProofs PivFileModel.
Local Open Scope Z_scope.

Lemma name_eqb_spec s t : name_eqb s t = true <-> s = t.
Proof.
  revert t. induction s as [|a s IH]; intros [|b t]; cbn; split; intros H; try congruence; try reflexivity.
  - apply andb_true_iff in H. destruct H as [H1 H2]. apply Ascii.eqb_eq in H1. apply IH in H2. congruence.
  - assert (a = b) as -> by congruence. assert (s = t) as -> by congruence. rewrite Ascii.eqb_refl. apply IH. reflexivity.
Qed.
Lemma name_eqb_refl s : name_eqb s s = true. Proof. apply name_eqb_spec. reflexivity. Qed.
Lemma name_eqb_neq s t : s <> t -> name_eqb s t = false.
Proof. intros H. destruct (name_eqb s t) eqn:E; [|reflexivity]. apply name_eqb_spec in E. contradiction. Qed.

Lemma ltb_irrefl s : name_ltb s s = false.
Proof. induction s as [|a s IH]; [reflexivity|]. cbn [name_ltb]. cbv zeta. rewrite Nat.ltb_irrefl. exact IH. Qed.
Lemma ascii_eq a b : Ascii.nat_of_ascii a = Ascii.nat_of_ascii b -> a = b.
Proof. intros H. rewrite <- (Ascii.ascii_nat_embedding a), <- (Ascii.ascii_nat_embedding b), H. reflexivity. Qed.
Lemma ltb_trans s t u : name_ltb s t = true -> name_ltb t u = true -> name_ltb s u = true.
Proof.
  revert t u. induction s as [|a s IH]; intros [|b t] [|c u]; cbn [name_ltb]; cbv zeta; try congruence.
  destruct (Nat.ltb_spec (Ascii.nat_of_ascii a) (Ascii.nat_of_ascii b)); destruct (Nat.ltb_spec (Ascii.nat_of_ascii b) (Ascii.nat_of_ascii c));
    destruct (Nat.ltb_spec (Ascii.nat_of_ascii a) (Ascii.nat_of_ascii c)); try reflexivity; try lia;
    destruct (Nat.ltb_spec (Ascii.nat_of_ascii b) (Ascii.nat_of_ascii a)); destruct (Nat.ltb_spec (Ascii.nat_of_ascii c) (Ascii.nat_of_ascii b));
    destruct (Nat.ltb_spec (Ascii.nat_of_ascii c) (Ascii.nat_of_ascii a)); try congruence; try lia.
  apply IH.
Qed.
Lemma ltb_total s t : s <> t -> name_ltb s t = false -> name_ltb t s = true.
Proof.
  revert t. induction s as [|a s IH]; intros [|b t]; cbn [name_ltb]; cbv zeta; try congruence. intros Hn.
  destruct (Nat.ltb_spec (Ascii.nat_of_ascii a) (Ascii.nat_of_ascii b)); [congruence|].
  destruct (Nat.ltb_spec (Ascii.nat_of_ascii b) (Ascii.nat_of_ascii a)); [reflexivity|].
  intros H1. apply IH; [|exact H1]. intros ->. apply Hn. f_equal. apply ascii_eq. lia.
Qed.

Section Groups.
Context {A : Type}.
Implicit Types g : list (chars * A).
Definition klt (x y : chars * A) : Prop := name_ltb (fst x) (fst y) = true.

Lemma lookup_None k g : lookup k g = None <-> ~ In k (keys g).
Proof.
  induction g as [|[k' v] g IH]; cbn [lookup keys map fst In]; [tauto|]. destruct (name_eqb k k') eqn:E.
  - apply name_eqb_spec in E. subst. split; [discriminate|]. intros H. exfalso. apply H. left. reflexivity.
  - rewrite IH. assert (k' <> k) by (intros ->; rewrite name_eqb_refl in E; discriminate). unfold keys. tauto.
Qed.
Lemma lookup_In k v g : NoDup (keys g) -> In (k, v) g -> lookup k g = Some v.
Proof.
  induction g as [|[k' v'] g IH]; cbn [lookup keys map fst]; intros Hn Hi; [contradiction|].
  inversion Hn as [|? ? Hx Hn']; subst. destruct Hi as [Hi|Hi].
  - apply pair_equal_spec in Hi. destruct Hi as [-> ->]. rewrite name_eqb_refl. reflexivity.
  - rewrite name_eqb_neq; [apply IH; assumption|]. intros ->. apply Hx. apply in_map_iff. exists (k', v). split; [reflexivity|exact Hi].
Qed.
Lemma insert_perm k v g : Permutation (insert k v g) ((k, v) :: g).
Proof.
  induction g as [|[k' v'] g IH]; cbn [insert]; [reflexivity|]. destruct (name_ltb k k'); [reflexivity|].
  rewrite IH. apply perm_swap.
Qed.
Lemma insert_sorted k v g : ~ In k (keys g) -> StronglySorted klt g -> StronglySorted klt (insert k v g).
Proof.
  induction g as [|[k' v'] g IH]; cbn [insert keys map fst]; intros Hn Hs; [repeat constructor|].
  inversion Hs as [|? ? Hs' Hf]; subst. destruct (name_ltb k k') eqn:E.
  - constructor; [exact Hs|]. constructor; [exact E|]. eapply Forall_impl; [|exact Hf]. intros [k2 v2] H. unfold klt in *. cbn [fst] in *. eapply ltb_trans; eassumption.
  - constructor; [apply IH; [|exact Hs']; intros H; apply Hn; right; exact H|].
    apply Forall_forall. intros x Hx. apply (Permutation_in _ (insert_perm k v g)) in Hx. destruct Hx as [<-|Hx].
    + unfold klt. cbn [fst]. apply ltb_total; [|exact E]. intros ->. apply Hn. left. reflexivity.
    + rewrite Forall_forall in Hf. apply Hf. exact Hx.
Qed.
Lemma sorted_NoDup g : StronglySorted klt g -> NoDup (keys g).
Proof.
  induction 1 as [|x g Hs IH Hf]; cbn [keys map]; constructor; [|exact IH].
  intros Hi. apply in_map_iff in Hi. destruct Hi as (y & Ey & Hy). rewrite Forall_forall in Hf. specialize (Hf y Hy). unfold klt in Hf.
  rewrite Ey, ltb_irrefl in Hf. discriminate.
Qed.
Lemma insert_last k v g : Forall (fun x => name_ltb (fst x) k = true) g -> insert k v g = g ++ [(k, v)].
Proof.
  induction g as [|[k' v'] g IH]; intros H; [reflexivity|]. inversion H as [|? ? H1 H2]; subst. cbn [insert]. cbn [fst] in H1.
  destruct (name_ltb k k') eqn:E.
  { pose proof (ltb_trans _ _ _ E H1) as X. rewrite ltb_irrefl in X. discriminate. }
  rewrite IH by exact H2. reflexivity.
Qed.
Lemma lookup_insert j k v g : ~ In k (keys g) -> lookup j (insert k v g) = if name_eqb j k then Some v else lookup j g.
Proof.
  induction g as [|[k' v'] g IH]; cbn [insert keys map fst]; intros Hn; [reflexivity|].
  destruct (name_ltb k k'); [reflexivity|]. cbn [lookup]. rewrite IH by (intros H; apply Hn; right; exact H).
  destruct (name_eqb j k') eqn:E1; [|reflexivity]. destruct (name_eqb j k) eqn:E2; [|reflexivity].
  apply name_eqb_spec in E1, E2. subst. exfalso. apply Hn. left. reflexivity.
Qed.
Lemma create_ok k v g : ~ In k (keys g) -> create k v g = Ok (insert k v g).
Proof. intros H. unfold create. rewrite (proj2 (lookup_None k g) H). reflexivity. Qed.
Lemma keys_insert k v g j : In j (keys (insert k v g)) <-> j = k \/ In j (keys g).
Proof.
  assert (P : Permutation (keys (insert k v g)) (k :: keys g)) by (apply (Permutation_map fst (insert_perm k v g))).
  split; intros H.
  - apply (Permutation_in _ P) in H. destruct H as [->|H]; tauto.
  - apply (Permutation_in _ (Permutation_sym P)). destruct H as [->|H]; [left; reflexivity|right; exact H].
Qed.

(** a loop which creates at most one node for each name *)
Lemma save_loop (step : list (chars * A) -> chars -> result (list (chars * A))) (f : chars -> option A) ks :
  NoDup ks ->
  (forall g k, In k ks -> step g k = match f k with Some n => create k n g | None => Ok g end) ->
  forall g, (forall k, In k ks -> ~ In k (keys g)) ->
  exists g', py_for step ks g = Ok g' /\
    (forall j, lookup j g' = if existsb (name_eqb j) ks then f j else lookup j g) /\ (forall j, In j (keys g') <-> (In j ks /\ f j <> None) \/ In j (keys g)).
Proof.
  intros Hn. induction ks as [|k ks IH]; intros Hstep g Hg.
  - exists g. cbn. repeat split; try tauto.
  - inversion Hn as [|? ? Hk Hn']; subst. cbn [py_for]. rewrite Hstep by (left; reflexivity).
    assert (Hstep' : forall g k, In k ks -> step g k = match f k with Some n => create k n g | None => Ok g end) by (intros; apply Hstep; right; assumption).
    destruct (f k) as [n|] eqn:Ef.
    + rewrite create_ok by (apply Hg; left; reflexivity).
      destruct (IH Hn' Hstep' (insert k n g)) as (g' & E1 & E2 & E3).
      { intros k' Hk' Hi. apply keys_insert in Hi. destruct Hi as [->|Hi]; [contradiction|]. apply (Hg k'); [right; exact Hk'|exact Hi]. }
      exists g'. split; [exact E1|]. split.
      * intros j. rewrite E2. cbn [existsb]. rewrite lookup_insert by (apply Hg; left; reflexivity).
        destruct (name_eqb j k) eqn:Ej; [|reflexivity]. apply name_eqb_spec in Ej. subst j. cbn [orb]. rewrite Ef. destruct (existsb (name_eqb k) ks); reflexivity.
      * intros j. rewrite E3, keys_insert. cbn [In]. split; [|].
        -- intros [H|[->|H]]; [left; tauto| |tauto]. left. rewrite Ef. split; [left; reflexivity|discriminate].
        -- intros [[[<-|H] H2]|H]; tauto.
    + destruct (IH Hn' Hstep' g) as (g' & E1 & E2 & E3).
      { intros k' Hk'. apply Hg. right. exact Hk'. }
      exists g'. split; [exact E1|]. split.
      * intros j. rewrite E2. cbn [existsb]. destruct (name_eqb j k) eqn:Ej; [|reflexivity]. apply name_eqb_spec in Ej. subst j. cbn [orb].
        rewrite Ef. destruct (existsb (name_eqb k) ks) eqn:Eb; [reflexivity|]. apply lookup_None, Hg. left. reflexivity.
      * intros j. rewrite E3. cbn [In]. split; [tauto|]. intros [[[<-|H] H2]|H]; tauto.
Qed.
End Groups.

Lemma existsb_In j ks : existsb (name_eqb j) ks = true <-> In j ks.
Proof.
  rewrite existsb_exists. split.
  - intros (x & Hx & E). apply name_eqb_spec in E. subst. exact Hx.
  - intros H. exists j. split; [exact H|apply name_eqb_refl].
Qed.

(** *** The subdomains *)
Lemma subdom_inj i j : subdom_name i = subdom_name j -> i = j.
Proof. intros H. apply app_inv_head in H. apply py_str_inj. exact H. Qed.
Lemma tag_inj i j : tag i = tag j -> i = j.
Proof. intros H. apply app_inv_head in H. apply py_str_inj. exact H. Qed.

Section Subdoms.
Context {V : Type}.
(** the nodes to be created *)
Fixpoint pairs_from (i : Z) (l : list (array V)) : list (chars * node V) :=
  match l with [] => [] | a :: l' => (subdom_name i, NArr a) :: pairs_from (i + 1) l' end.
Lemma pairs_keys l i k : In k (keys (pairs_from i l)) -> exists j, i <= j < i + zlen l /\ k = subdom_name j.
Proof.
  revert i. induction l as [|a l IH]; intros i H; cbn [pairs_from keys map fst In] in H; [contradiction|].
  unfold zlen in *. cbn [List.length]. destruct H as [<-|H]; [exists i; split; [lia|reflexivity]|].
  destruct (IH (i + 1) H) as (j & Hj & ->). exists j. split; [lia|reflexivity].
Qed.
Lemma save_subdoms_spec l : forall i g, StronglySorted klt g -> (forall j, i <= j -> ~ In (subdom_name j) (keys g)) ->
  exists g', save_subdoms i l g = Ok g' /\ StronglySorted klt g' /\ Permutation g' (pairs_from i l ++ g).
Proof.
  induction l as [|a l IH]; intros i g Hs Hg; cbn [save_subdoms pairs_from app].
  - exists g. split; [reflexivity|]. split; [exact Hs|reflexivity].
  - rewrite create_ok by (apply Hg; lia). cbn [bind].
    destruct (IH (i + 1) (insert (subdom_name i) (NArr a) g)) as (g' & E1 & E2 & E3).
    + apply insert_sorted; [apply Hg; lia|exact Hs].
    + intros j Hj Hi. apply keys_insert in Hi. destruct Hi as [Hi|Hi]; [apply subdom_inj in Hi; lia|]. apply (Hg j); [lia|exact Hi].
    + exists g'. split; [exact E1|]. split; [exact E2|]. rewrite E3, insert_perm. symmetry. apply Permutation_middle.
Qed.
Definition arr_of (x : chars * node V) : list (array V) := match snd x with NArr a => [a] | _ => [] end.
Lemma load_subdoms_spec (g : list (chars * node V)) : NoDup (keys g) -> (forall x, In x g -> exists a, snd x = NArr a) ->
  load_subdoms (NGroup g) = Ok (flat_map arr_of g).
Proof.
  intros Hn Ha. unfold load_subdoms. unfold keys at 1.
  assert (X : forall l acc, (forall x, In x l -> In x g) ->
     py_for (fun acc k => do n <- getitem k g ; match n with NArr a => Ok (acc ++ [a]) | _ => Err TypeError end) (map fst l) acc = Ok (acc ++ flat_map arr_of l)).
  { induction l as [|[k n] l IH]; intros acc Hl; cbn [map fst py_for flat_map]; [rewrite app_nil_r; reflexivity|].
    unfold getitem. rewrite (lookup_In k n g Hn) by (apply Hl; left; reflexivity). cbn [bind].
    destruct (Ha (k, n)) as (a & Ea); [apply Hl; left; reflexivity|]. cbn [snd] in Ea. subst n. fold (@getitem (node V)).
    rewrite IH by (intros; apply Hl; right; assumption). unfold arr_of at 2. cbn [snd]. rewrite <- app_assoc. reflexivity. }
  rewrite X by (intros; assumption). reflexivity.
Qed.
Lemma pairs_arr i l : flat_map arr_of (pairs_from i l) = l.
Proof. revert i. induction l as [|a l IH]; intros i; cbn [pairs_from flat_map]; [reflexivity|]. rewrite IH. reflexivity. Qed.
Lemma pairs_nodes i l x : In x (pairs_from i l) -> exists a, snd x = NArr a.
Proof. revert i. induction l as [|a l IH]; intros i H; cbn [pairs_from] in H; [contradiction|]. destruct H as [<-|H]; [exists a; reflexivity|]. eapply IH. exact H. Qed.
Lemma pairs_nth i l n d d' : (n < List.length l)%nat -> nth n (pairs_from i l) (d, NArr d') = (subdom_name (i + Z.of_nat n), NArr (nth n l d')).
Proof.
  revert i n. induction l as [|a l IH]; intros i [|n] H; cbn [List.length] in H; [lia|lia| |].
  - cbn [pairs_from nth]. rewrite Z.add_0_r. reflexivity.
  - cbn [pairs_from nth]. rewrite IH by lia. do 2 f_equal. lia.
Qed.
Lemma pairs_len i l : List.length (pairs_from i l) = List.length l.
Proof. revert i. induction l as [|a l IH]; intros i; cbn [pairs_from List.length]; [reflexivity|]. rewrite IH. reflexivity. Qed.

(** what is loaded for the subdomains [l]: the data in the alphabetical order of the names *)
Lemma subdoms_roundtrip l : exists g l', save_subdoms 0 l [] = Ok g /\ load_subdoms (NGroup g) = Ok l' /\
  StronglySorted klt g /\ Permutation g (pairs_from 0 l) /\ l' = flat_map arr_of g.
Proof.
  destruct (save_subdoms_spec l 0 []) as (g & E1 & E2 & E3); [constructor|intros j _ []|]. rewrite app_nil_r in E3.
  exists g, (flat_map arr_of g). split; [exact E1|]. split.
  - apply load_subdoms_spec; [apply sorted_NoDup; exact E2|]. intros x Hx. apply (Permutation_in _ E3) in Hx. eapply pairs_nodes. exact Hx.
  - repeat split; assumption.
Qed.
Lemma subdoms_perm l g l' : Permutation g (pairs_from 0 l) -> l' = flat_map arr_of g -> Permutation l' l.
Proof. intros P ->. rewrite <- (pairs_arr 0 l). apply Permutation_flat_map. exact P. Qed.

Lemma klt_antisym (x y : chars * node V) : klt x y -> klt y x -> False.
Proof. unfold klt. intros H1 H2. pose proof (ltb_trans _ _ _ H1 H2) as X. rewrite ltb_irrefl in X. discriminate. Qed.
Lemma sorted_perm_eq (g h : list (chars * node V)) : StronglySorted klt g -> StronglySorted klt h -> Permutation g h -> g = h.
Proof.
  revert h. induction g as [|x g IH]; intros h Hg Hh P.
  - apply Permutation_nil in P. subst. reflexivity.
  - destruct h as [|y h]; [apply Permutation_sym, Permutation_nil in P; discriminate|].
    inversion Hg as [|? ? Hg' Fg]; subst. inversion Hh as [|? ? Hh' Fh]; subst. rewrite Forall_forall in Fg, Fh.
    assert (x = y).
    { pose proof (Permutation_in x P (or_introl eq_refl)) as Hx. pose proof (Permutation_in y (Permutation_sym P) (or_introl eq_refl)) as Hy.
      destruct Hx as [Hx|Hx]; [symmetry; exact Hx|]. destruct Hy as [Hy|Hy]; [exact Hy|].
      exfalso. exact (klt_antisym x y (Fg y Hy) (Fh x Hx)). }
    subst y. f_equal. apply IH; try assumption. apply Permutation_cons_inv in P. exact P.
Qed.

Lemma small_sorted l i : 0 <= i -> i + zlen l <= 10 -> StronglySorted klt (pairs_from i l).
Proof.
  revert i. induction l as [|a l IH]; intros i Hi Hl; cbn [pairs_from]; [constructor|].
  unfold zlen in Hl. cbn [List.length] in Hl. constructor; [apply IH; unfold zlen; lia|].
  apply Forall_forall. intros x Hx. unfold klt. cbn [fst].
  assert (Hk : In (fst x) (keys (pairs_from (i + 1) l))) by (apply in_map; exact Hx). apply pairs_keys in Hk. destruct Hk as (j & Hj & ->).
  unfold zlen in Hj.
  assert (C : forallb (fun p => let '(a, b) := p in implb (a <? b) (name_ltb (subdom_name a) (subdom_name b))) (list_prod (range0 10) (range0 10)) = true) by (vm_compute; reflexivity).
  rewrite forallb_forall in C. specialize (C (i, j)).
  assert (R : forall z, 0 <= z < 10 -> In z (range0 10)).
  { intros z Hz. unfold range0. apply in_map_iff. exists (Z.to_nat z). split; [lia|]. apply in_seq. lia. }
  specialize (C (proj2 (in_prod_iff _ _ _ _) (conj (R i ltac:(lia)) (R j ltac:(lia))))). cbn in C.
  replace (i <? j) with true in C by lia. exact C.
Qed.

Lemma StronglySorted_nth (l : list (chars * node V)) i j d : StronglySorted klt l -> (i < j < List.length l)%nat -> klt (nth i l d) (nth j l d).
Proof.
  intros Hs. revert i j. induction Hs as [|x l Hs IH Hf]; intros i j H; [cbn in H; lia|].
  destruct j as [|j]; [lia|]. cbn [List.length] in H. destruct i as [|i]; cbn [nth].
  - rewrite Forall_forall in Hf. apply Hf. apply nth_In. lia.
  - apply IH. lia.
Qed.
Lemma flat_arr_map (g : list (chars * node V)) (d : array V) : (forall x, In x g -> exists a, snd x = NArr a) ->
  List.length (flat_map arr_of g) = List.length g /\
  forall n, (n < List.length g)%nat -> snd (nth n g ([], NArr d)) = NArr (nth n (flat_map arr_of g) d).
Proof.
  induction g as [|[k nd] g IH]; intros H; [split; [reflexivity|cbn; lia]|].
  destruct (H (k, nd)) as (a & Ea); [left; reflexivity|]. cbn [snd] in Ea. subst nd.
  destruct IH as [I1 I2]; [intros; apply H; right; assumption|]. cbn [flat_map arr_of snd app List.length]. split; [lia|].
  intros [|n] Hn; cbn [nth]; [reflexivity|]. apply I2. lia.
Qed.
(** with eleven subdomains or more, the order is not the initial one *)
Lemma large_scrambled l g : (11 <= List.length l)%nat -> NoDup l -> StronglySorted klt g -> Permutation g (pairs_from 0 l) -> flat_map arr_of g <> l.
Proof.
  intros Hl Hn Hs P E. destruct l as [|d l0] eqn:El; [cbn in Hl; lia|]. rewrite <- El in *. clear El l0.
  assert (Hnodes : forall x, In x g -> exists a, snd x = NArr a).
  { intros x Hx. apply (Permutation_in _ P) in Hx. eapply pairs_nodes. exact Hx. }
  destruct (flat_arr_map g d Hnodes) as [L1 L2]. rewrite E in L1, L2.
  assert (K : forall n, (n < List.length l)%nat -> fst (nth n g ([], NArr d)) = subdom_name (Z.of_nat n)).
  { intros n Hlt. assert (Hin : In (nth n g ([], NArr d)) g) by (apply nth_In; lia).
    apply (Permutation_in _ P) in Hin. apply (In_nth _ _ (([], NArr d) : chars * node V)) in Hin. destruct Hin as (m & Hm & Em).
    rewrite pairs_len in Hm. rewrite pairs_nth in Em by exact Hm.
    assert (E2 : NArr (nth m l d) = NArr (nth n l d)).
    { rewrite <- (L2 n) by lia. rewrite <- Em. reflexivity. }
    assert (E3 : nth m l d = nth n l d) by congruence. apply (NoDup_nth l d) in E3; [|assumption|lia|lia]. subst m. rewrite <- Em. cbn [fst]. f_equal. }
  pose proof (StronglySorted_nth g 2 10 ([], NArr d) Hs ltac:(lia)) as H. unfold klt in H. rewrite !K in H by lia. vm_compute in H. discriminate.
Qed.
End Subdoms.

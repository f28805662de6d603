(** C39, C40: saving and loading the results of a PIV computation. *)
From Coq Require Import Permutation Sorted.
From Verif Require Import PyBase StrModel StrProofs PivFileModel PivFileProofs.
From Verif Require GridProps.
Local Open Scope Z_scope.

Section Props.
Context {V Params Couple : Type}.
Variable f32 : V -> V.
Notation heavy := (heavy V Params Couple).
Notation file := (file V Params Couple).
Notation pydict := (pydict V).

(** *** Specification *)
(** an attribute with an array, if it exists and is not None *)
Definition attr (h : heavy) (k : chars) : option (array V) :=
  match lookup k (h_arrays h) with Some (Some a) => Some a | _ => None end.
Definition dict_attr (h : heavy) (name : chars) : option pydict :=
  match lookup name (h_dicts h) with Some (Some d) => Some d | _ => None end.
(** single precision for the floats *)
Definition single_precision (a : array V) : array V := match a with AF64 l => AF32 (map f32 l) | AF32 l => AF32 l | AInt l => AInt l end.

Definition ends_with_nul (s : chars) : Prop := exists s', s = s' ++ ["000"%char].
(** the dictionaries produced by the computation: the keys are indices of vectors, the values are messages or numbers *)
Definition index_key (k : pyval V) : Prop := exists n, k = VInt n.
Definition message (v : pyval V) : Prop := exists s, v = VStr s /\ ~ ends_with_nul s.
Definition number (v : pyval V) : Prop := exists x, v = VNum x.
Definition good_dict (name : chars) (d : pydict) : Prop :=
  NoDup (map fst d) /\ Forall index_key (map fst d) /\
  (Forall message (map snd d) \/ (name <> of_string "errors" /\ Forall number (map snd d))).
Definition good_result (h : heavy) : Prop := forall name d, In name dict_to_be_saved -> dict_attr h name = Some d -> good_dict name d.

(** the subdomains: nothing is lost or changed; same order for ten subdomains or less *)
Definition subdomains_kept (l l' : list (array V)) : Prop :=
  Permutation l' l /\ ((List.length l <= 10)%nat -> l' = l) /\ ((11 <= List.length l)%nat -> NoDup l -> l' <> l).
Definition restored (h h' : heavy) : Prop :=
  (forall k, In k keys_to_be_saved -> attr h' k = option_map single_precision (attr h k)) /\
  (forall name, In name dict_to_be_saved -> dict_attr h' name = dict_attr h name) /\
  match h_tps h with
  | None => h_tps h' = None
  | Some (tx, ty) => exists tx' ty', h_tps h' = Some (tx', ty') /\ subdomains_kept tx tx' /\ subdomains_kept ty ty'
  end.

(** *** Dictionaries *)
Lemma strip_id s : ~ ends_with_nul s -> strip_nul s = s.
Proof.
  intros H. unfold strip_nul. destruct (rev s) as [|c l] eqn:E.
  - cbn. rewrite <- (rev_involutive s), E. reflexivity.
  - assert (c <> "000"%char).
    { intros ->. apply H. exists (rev l). rewrite <- (rev_involutive s), E. reflexivity. }
    assert (strip_nul_rev (c :: l) = c :: l) as ->.
    { destruct c as [[] [] [] [] [] [] [] []]; try reflexivity. contradiction. }
    rewrite <- E. apply rev_involutive.
Qed.
Definition to_bytes (v : pyval V) : pyval V := match v with VStr s => VBytes s | _ => v end.
Lemma encode_messages l : Forall message l -> encode_list l = map to_bytes l.
Proof. induction 1 as [|v l (s & -> & Hs) _ IH]; cbn [encode_list map]; [reflexivity|]. rewrite IH. reflexivity. Qed.
Lemma encode_other l : (Forall index_key l \/ Forall number l) -> encode_list l = l.
Proof. intros [H|H]; destruct H as [|v l (x & ->) _]; reflexivity. Qed.
Lemma dataset_bytes l : Forall message l -> dataset_of_list (map to_bytes l) = Ok (map to_bytes l).
Proof.
  intros H. unfold dataset_of_list. assert (forallb is_bytes (map to_bytes l) = true) as ->.
  { apply forallb_forall. intros x Hx. apply in_map_iff in Hx. destruct Hx as (y & <- & Hy). rewrite Forall_forall in H. destruct (H y Hy) as (s & -> & _). reflexivity. }
  f_equal. rewrite map_map. apply map_ext_in. intros x Hx. rewrite Forall_forall in H. destruct (H x Hx) as (s & -> & Hs). cbn. rewrite strip_id by exact Hs. reflexivity.
Qed.
Lemma dataset_other l : (Forall index_key l \/ Forall number l) -> dataset_of_list l = Ok l.
Proof.
  intros H. unfold dataset_of_list. destruct l as [|v l].
  { reflexivity. }
  assert (forallb is_bytes (v :: l) = false) as ->.
  { destruct H as [H|H]; apply Forall_inv in H; destruct H as (x & ->); reflexivity. }
  assert (forallb is_int (v :: l) || forallb is_num (v :: l) = true) as ->; [|reflexivity].
  apply orb_true_iff. destruct H as [H|H]; [left|right]; apply forallb_forall; intros x Hx; rewrite Forall_forall in H; destruct (H x Hx) as (y & ->); reflexivity.
Qed.
Lemma codes_ok l : Forall message l -> exists c, map_res error_code (map to_bytes l) = Ok c.
Proof.
  induction 1 as [|v l (s & -> & _) _ [c IH]]; [exists []; reflexivity|]. cbn [map to_bytes map_res error_code bind]. rewrite IH. cbn [bind]. eexists. reflexivity.
Qed.
Definition dict_contents (d : pydict) (g : list (chars * node V)) : Prop :=
  lookup (of_string "keys") g = Some (NList (map fst d)) /\ exists vs, lookup (of_string "values") g = Some (NList vs) /\ map decode vs = map snd d.
Lemma dict_set_new (k v : pyval V) d : ~ In k (map fst d) -> Forall index_key (k :: map fst d) -> dict_set k v d = d ++ [(k, v)].
Proof.
  induction d as [|[k' v'] d IH]; intros Hn Hf; [reflexivity|]. cbn [dict_set map fst] in *.
  inversion Hf as [|? ? (n & ->) Hf']; subst. inversion Hf' as [|? ? (m & ->) Hf'']; subst.
  cbn [val_eqb]. assert (n <> m) by (intros ->; apply Hn; left; reflexivity). replace (n =? m) with false by lia.
  rewrite IH; [reflexivity|intros H2; apply Hn; right; exact H2|]. constructor; [exists n; reflexivity|exact Hf''].
Qed.
Lemma load_pairs_ok d vs : NoDup (map fst d) -> Forall index_key (map fst d) -> map decode vs = map snd d -> load_pairs (map fst d) vs = d.
Proof.
  intros Hn Hf Hv. unfold load_pairs.
  assert (X : forall d vs acc, NoDup (map fst (acc ++ d)) -> Forall index_key (map fst (acc ++ d)) -> map decode vs = map snd d ->
    fold_left (fun d kv => dict_set (fst kv) (decode (snd kv)) d) (combine (map fst d) vs) acc = acc ++ d).
  { clear. induction d as [|[k v] d IH]; intros vs acc Hn Hf Hv.
    - rewrite app_nil_r. destruct vs; reflexivity.
    - destruct vs as [|w vs]; [discriminate|]. cbn [map fst snd] in *. cbn [combine fold_left fst snd].
      assert (decode w = v) as -> by congruence. rewrite map_app in Hn, Hf. cbn [map fst] in Hn, Hf.
      pose proof (NoDup_remove_2 _ _ _ Hn) as Hk. rewrite Forall_app in Hf. destruct Hf as [Hf1 Hf2]. inversion Hf2 as [|? ? Hk1 Hf3]; subst.
      rewrite dict_set_new; [|intros H; apply Hk; apply in_or_app; left; exact H|constructor; assumption].
      rewrite IH; [rewrite <- app_assoc; reflexivity| | |congruence].
      + rewrite <- app_assoc. rewrite map_app. exact Hn.
      + rewrite <- app_assoc, map_app. rewrite Forall_app. split; [exact Hf1|exact Hf2]. }
  apply (X d vs []); assumption.
Qed.

Lemma save_dict_ok (h : heavy) name d : dict_attr h name = Some d -> good_dict name d ->
  exists gd, dict_contents d gd /\ forall g, save_dict h g name = create name (NGroup gd) g.
Proof.
  unfold dict_attr. intros Hl (Hn & Hk & Hv). destruct (lookup name (h_dicts h)) as [[d'|]|] eqn:E; try discriminate. assert (d' = d) as -> by congruence. clear Hl.
  set (vs := encode_list (map snd d)).
  assert (V1 : dataset_of_list vs = Ok vs /\ map decode vs = map snd d).
  { unfold vs. destruct Hv as [Hv|[_ Hv]].
    - rewrite encode_messages by exact Hv. split; [apply dataset_bytes; exact Hv|]. rewrite map_map. rewrite <- (map_id (map snd d)) at 2. apply map_ext_in.
      intros x Hx. rewrite Forall_forall in Hv. destruct (Hv x Hx) as (s & -> & _). reflexivity.
    - rewrite encode_other by (right; exact Hv). split; [apply dataset_other; right; exact Hv|]. rewrite <- (map_id (map snd d)) at 2. apply map_ext_in.
      intros x Hx. rewrite Forall_forall in Hv. destruct (Hv x Hx) as (s & ->). reflexivity. }
  destruct V1 as [V1 V2].
  assert (K1 : dataset_of_list (encode_list (map fst d)) = Ok (map fst d)).
  { rewrite encode_other by (left; exact Hk). apply dataset_other. left. exact Hk. }
  destruct (name_eqb name (of_string "errors")) eqn:En.
  - apply name_eqb_spec in En. destruct Hv as [Hv|[Hv _]]; [|contradiction]. destruct (codes_ok _ Hv) as (c & Hc).
    eexists. split; [|intros g; unfold save_dict; rewrite E, En; fold vs; rewrite K1; cbn [bind]; change (create (of_string "keys") (NList (map fst d)) []) with (Ok [(of_string "keys", NList (V:=V) (map fst d))]);
      cbn [bind]; rewrite V1; cbn [bind]; rewrite name_eqb_refl; unfold vs; rewrite (encode_messages _ Hv), Hc; cbn; reflexivity].
    split; [reflexivity|]. eexists. split; [reflexivity|]. unfold vs in V2. rewrite (encode_messages _ Hv) in V2. exact V2.
  - eexists. split; [|intros g; unfold save_dict; rewrite E, En; fold vs; rewrite K1; cbn [bind]; change (create (of_string "keys") (NList (map fst d)) []) with (Ok [(of_string "keys", NList (V:=V) (map fst d))]);
      cbn [bind]; rewrite V1; cbn; reflexivity].
    split; [reflexivity|]. exists vs. split; [reflexivity|exact V2].
Qed.

(** *** A group *)
Lemma names_nodup : NoDup (keys_to_be_saved ++ dict_to_be_saved ++ [of_string "deltaxs_tps"; of_string "deltays_tps"]).
Proof.
  assert (X : forall l, (fix nd l := match l with [] => true | a :: l' => negb (existsb (name_eqb a) l') && nd l' end) l = true -> NoDup l).
  { induction l as [|a l IH]; intros H; constructor.
    - apply andb_true_iff in H. destruct H as [H _]. intros Hi. apply existsb_In in Hi. rewrite Hi in H. discriminate.
    - apply IH. apply andb_true_iff in H. tauto. }
  apply X. vm_compute. reflexivity.
Qed.

Definition arr_node (h : heavy) (k : chars) : option (node V) := option_map (fun a => NArr (single_precision a)) (attr h k).
Lemma cast_single a : cast f32 a = single_precision a.
Proof. destruct a; reflexivity. Qed.
Lemma save_array_step (h : heavy) g k : save_array f32 h g k = match arr_node h k with Some n => create k n g | None => Ok g end.
Proof.
  unfold save_array, arr_node, attr. destruct (lookup k (h_arrays h)) as [[a|]|]; try reflexivity. cbn [option_map]. rewrite cast_single. reflexivity.
Qed.

Lemma list_choice {A B} (eqd : A -> A -> bool) (Heq : forall a b, eqd a b = true <-> a = b) (l : list A) (R : A -> B -> Prop) :
  (forall a, In a l -> exists b, R a b) -> exists f : A -> option B, forall a, In a l -> exists b, f a = Some b /\ R a b.
Proof.
  induction l as [|a l IH]; intros H; [exists (fun _ => None); intros ? []|].
  destruct IH as (f & Hf); [intros; apply H; right; assumption|]. destruct (H a) as (b & Hb); [left; reflexivity|].
  exists (fun x => if eqd x a then Some b else f x). intros x Hx. destruct (eqd x a) eqn:E.
  - apply Heq in E. subst. exists b. split; [reflexivity|exact Hb].
  - destruct Hx as [<-|Hx]; [|apply Hf; exact Hx]. assert (eqd a a = true) by (apply Heq; reflexivity). congruence.
Qed.

Lemma NoDup_app_inv {A} (l m : list A) : NoDup (l ++ m) -> NoDup l /\ NoDup m /\ forall x, In x l -> ~ In x m.
Proof.
  induction l as [|a l IH]; cbn [app]; intros H; [repeat split; [constructor|exact H|intros x []]|].
  inversion H as [|? ? H1 H2]; subst. destruct (IH H2) as (I1 & I2 & I3). repeat split; [|exact I2|].
  - constructor; [|exact I1]. intros Hi. apply H1. apply in_or_app. left. exact Hi.
  - intros x [<-|Hx] Hm; [apply H1; apply in_or_app; right; exact Hm|exact (I3 x Hx Hm)].
Qed.
Lemma save_group (h : heavy) : good_result h ->
  exists g, (do g <- py_for (save_array f32 h) keys_to_be_saved [] ; do g <- py_for (save_dict h) dict_to_be_saved g ; save_tps h g) = Ok g /\
  (forall k, In k keys_to_be_saved -> lookup k g = arr_node h k) /\
  (forall name, In name dict_to_be_saved -> match dict_attr h name with
     | Some d => good_dict name d /\ exists gd, lookup name g = Some (NGroup gd) /\ dict_contents d gd | None => lookup name g = None end) /\
  match h_tps h with
  | None => lookup (of_string "deltaxs_tps") g = None
  | Some (tx, ty) => exists gx gy, lookup (of_string "deltaxs_tps") g = Some (NGroup gx) /\ lookup (of_string "deltays_tps") g = Some (NGroup gy) /\
       save_subdoms 0 tx [] = Ok gx /\ save_subdoms 0 ty [] = Ok gy
  end.
Proof.
  intros Hg. pose proof names_nodup as ND.
  assert (D1 : NoDup keys_to_be_saved /\ NoDup dict_to_be_saved /\ (forall k, In k keys_to_be_saved -> In k dict_to_be_saved -> False)).
  { destruct (NoDup_app_inv _ _ ND) as (X1 & X2 & X3). destruct (NoDup_app_inv _ _ X2) as (X4 & _ & _). repeat split; [exact X1|exact X4|].
    intros k H1 H2. apply (X3 k H1). apply in_or_app. left. exact H2. }
  destruct D1 as (N1 & N2 & N3).
  assert (T1 : forall k, In k (keys_to_be_saved ++ dict_to_be_saved) -> k <> of_string "deltaxs_tps" /\ k <> of_string "deltays_tps").
  { intros k Hk. assert (ND' : NoDup ((keys_to_be_saved ++ dict_to_be_saved) ++ [of_string "deltaxs_tps"; of_string "deltays_tps"])) by (rewrite <- app_assoc; exact ND).
    apply in_split in Hk. destruct Hk as (l1 & l2 & E). rewrite E, <- app_assoc in ND'. cbn [app] in ND'. apply NoDup_remove_2 in ND'.
    split; intros ->; apply ND'; apply in_or_app; right; apply in_or_app; right; cbn; tauto. }
  destruct (save_loop (save_array f32 h) (arr_node h) keys_to_be_saved N1) with (g := @nil (chars * node V)) as (g1 & E1 & L1 & K1).
  { intros g k _. apply save_array_step. }
  { intros k _ []. }
  destruct (list_choice name_eqb name_eqb_spec dict_to_be_saved (fun name (o : option (node V)) =>
      match dict_attr h name with Some d => exists gd, o = Some (NGroup gd) /\ dict_contents d gd /\ forall g, save_dict h g name = create name (NGroup gd) g
                                | None => o = None end)) as (fd & Hfd).
  { intros name Hname. destruct (dict_attr h name) as [d|] eqn:Ed; [|exists None; reflexivity].
    destruct (save_dict_ok h name d Ed (Hg name d Hname Ed)) as (gd & H1 & H2). exists (Some (NGroup gd)). exists gd. split; [reflexivity|]. split; [exact H1|exact H2]. }
  set (fd' := fun name => match fd name with Some o => o | None => None end).
  destruct (save_loop (save_dict h) fd' dict_to_be_saved N2) with (g := g1) as (g2 & E2 & L2 & K2).
  { intros g name Hname. destruct (Hfd name Hname) as (o & Eo & Ho). unfold fd'. rewrite Eo. destruct (dict_attr h name) as [d|] eqn:Ed.
    - destruct Ho as (gd & -> & _ & H). apply H.
    - subst o. unfold save_dict. unfold dict_attr in Ed. destruct (lookup name (h_dicts h)) as [[d|]|]; try reflexivity. discriminate. }
  { intros k Hk Hi. apply K1 in Hi. destruct Hi as [[Hi _]|[]]. exact (N3 k Hi Hk). }
  assert (KK : forall k, In k (keys g2) -> In k (keys_to_be_saved ++ dict_to_be_saved)).
  { intros k Hk. apply K2 in Hk. apply in_or_app. destruct Hk as [[Hk _]|Hk]; [right; exact Hk|]. apply K1 in Hk. destruct Hk as [[Hk _]|[]]. left. exact Hk. }
  assert (P1 : forall k, In k keys_to_be_saved -> lookup k g2 = arr_node h k).
  { intros k Hk. rewrite L2. destruct (existsb (name_eqb k) dict_to_be_saved) eqn:Ex; [apply existsb_In in Ex; destruct (N3 k Hk Ex)|].
    rewrite L1. rewrite (proj2 (existsb_In k _) Hk). reflexivity. }
  assert (P2 : forall name, In name dict_to_be_saved -> match dict_attr h name with
     | Some d => good_dict name d /\ exists gd, lookup name g2 = Some (NGroup gd) /\ dict_contents d gd | None => lookup name g2 = None end).
  { intros name Hname. rewrite L2, (proj2 (existsb_In name _) Hname). unfold fd'. destruct (Hfd name Hname) as (o & Eo & Ho). rewrite Eo.
    destruct (dict_attr h name) as [d|] eqn:Ed; [|exact Ho]. destruct Ho as (gd & -> & Hc & _). split; [apply Hg; assumption|]. exists gd. split; [reflexivity|exact Hc]. }
  assert (E1' : py_for (save_array f32 h) keys_to_be_saved [] = Ok g1) by exact E1. assert (E2' : py_for (save_dict h) dict_to_be_saved g1 = Ok g2) by exact E2.
  rewrite E1'. cbn [bind]. rewrite E2'. cbn [bind]. unfold save_tps. destruct (h_tps h) as [[tx ty]|].
  - destruct (subdoms_roundtrip tx) as (gx & ? & Sx & _). destruct (subdoms_roundtrip ty) as (gy & ? & Sy & _). rewrite Sx, Sy. cbn [bind].
    assert (Nx : ~ In (of_string "deltaxs_tps") (keys g2)).
    { intros Hi. apply KK, T1 in Hi. destruct Hi as [Hi _]. apply Hi. reflexivity. }
    rewrite create_ok by exact Nx. cbn [bind].
    assert (Ny : ~ In (of_string "deltays_tps") (keys (insert (of_string "deltaxs_tps") (NGroup gx) g2))).
    { intros Hi. apply keys_insert in Hi. destruct Hi as [Hi|Hi]; [discriminate|]. apply KK, T1 in Hi. destruct Hi as [_ Hi]. apply Hi. reflexivity. }
    rewrite create_ok by exact Ny. eexists. split; [reflexivity|].
    assert (LL : forall k, In k (keys_to_be_saved ++ dict_to_be_saved) -> lookup k (insert (of_string "deltays_tps") (NGroup gy) (insert (of_string "deltaxs_tps") (NGroup gx) g2)) = lookup k g2).
    { intros k Hk. rewrite lookup_insert by exact Ny. rewrite lookup_insert by exact Nx. destruct (T1 k Hk) as [H1 H2]. rewrite !name_eqb_neq by assumption. reflexivity. }
    split; [|split].
    + intros k Hk. rewrite LL by (apply in_or_app; left; exact Hk). apply P1. exact Hk.
    + intros name Hname. rewrite LL by (apply in_or_app; right; exact Hname). apply P2. exact Hname.
    + exists gx, gy. rewrite !lookup_insert by assumption. repeat split; reflexivity.
  - eexists. split; [reflexivity|]. split; [exact P1|]. split; [exact P2|]. apply lookup_None. intros Hi. apply KK, T1 in Hi. destruct Hi as [Hi _]. apply Hi. reflexivity.
Qed.

(** loading: the closed form of the loops *)
Lemma load_arrays_ok (g : list (chars * node V)) ks : (forall k, In k ks -> match lookup k g with Some (NArr _) => True | None => True | _ => False end) ->
  forall acc, py_for (load_array g) ks acc = Ok (acc ++ flat_map (fun k => match lookup k g with Some (NArr a) => [(k, Some a)] | _ => [] end) ks).
Proof.
  induction ks as [|k ks IH]; intros H acc; cbn [py_for flat_map]; [rewrite app_nil_r; reflexivity|].
  pose proof (H k (or_introl eq_refl)) as Hk. unfold load_array at 1. destruct (lookup k g) as [[a| |]|]; try contradiction.
  - rewrite IH by (intros; apply H; right; assumption). rewrite <- app_assoc. reflexivity.
  - rewrite IH by (intros; apply H; right; assumption). reflexivity.
Qed.
Lemma lookup_flat {B} (f : chars -> option B) ks k : In k ks -> lookup k (flat_map (fun k => match f k with Some a => [(k, a)] | None => [] end) ks) = f k.
Proof.
  induction ks as [|k' ks IH]; intros H; [contradiction|]. cbn [flat_map]. destruct (name_eqb k k') eqn:E.
  - apply name_eqb_spec in E. subst k'. destruct (f k) as [b|] eqn:Ef.
    + cbn [app lookup]. rewrite name_eqb_refl. reflexivity.
    + cbn [app]. destruct (existsb (name_eqb k) ks) eqn:Ex; [apply existsb_In in Ex; rewrite IH by exact Ex; reflexivity|].
      apply lookup_None. intros Hi. unfold keys in Hi. apply in_map_iff in Hi. destruct Hi as ([k2 v2] & E2 & Hi). cbn [fst] in E2. subst k2.
      apply in_flat_map in Hi. destruct Hi as (k3 & Hk3 & Hi). destruct (f k3); [|contradiction]. destruct Hi as [Hi|[]]. apply pair_equal_spec in Hi. destruct Hi as [-> _].
      apply existsb_In in Hk3. congruence.
  - assert (Hin : In k ks) by (destruct H as [->|H]; [rewrite name_eqb_refl in E; discriminate|exact H]).
    destruct (f k') as [b|]; cbn [app lookup]; [rewrite E|]; apply IH; exact Hin.
Qed.
Definition loaded_dict (g : list (chars * node V)) (name : chars) : option (option pydict) :=
  match lookup name g with
  | Some (NGroup gd) => match lookup (of_string "keys") gd, lookup (of_string "values") gd with Some (NList ks), Some (NList vs) => Some (Some (load_pairs ks vs)) | _, _ => None end
  | _ => None end.
Lemma load_dicts_ok (g : list (chars * node V)) ks : (forall k, In k ks -> lookup k g = None \/ loaded_dict g k <> None) ->
  forall acc, py_for (load_dict g) ks acc = Ok (acc ++ flat_map (fun k => match loaded_dict g k with Some a => [(k, a)] | _ => [] end) ks).
Proof.
  induction ks as [|k ks IH]; intros H acc; cbn [py_for flat_map]; [rewrite app_nil_r; reflexivity|].
  pose proof (H k (or_introl eq_refl)) as Hk. unfold load_dict at 1. unfold loaded_dict at 1. unfold loaded_dict in Hk at 1.
  destruct (lookup k g) as [n|].
  - destruct Hk as [Hk|Hk]; [discriminate|]. destruct n as [| |gd]; [contradiction|contradiction|].
    destruct (lookup (of_string "keys") gd) as [[]|]; try contradiction. destruct (lookup (of_string "values") gd) as [[]|]; try contradiction.
    rewrite IH by (intros; apply H; right; assumption). rewrite <- app_assoc. reflexivity.
  - rewrite IH by (intros; apply H; right; assumption). reflexivity.
Qed.

Lemma subdoms_kept tx gx : save_subdoms 0 tx [] = Ok gx -> exists tx', load_subdoms (NGroup gx) = Ok tx' /\ subdomains_kept tx tx'.
Proof.
  intros E. destruct (subdoms_roundtrip tx) as (g & l' & S1 & S2 & S3 & S4 & S5). assert (gx = g) as -> by congruence.
  exists l'. split; [exact S2|]. split; [eapply subdoms_perm; eassumption|]. split.
  - intros Hl. subst l'. rewrite (sorted_perm_eq g (pairs_from 0 tx)); [apply pairs_arr|exact S3| |exact S4]. apply small_sorted; [lia|unfold zlen; lia].
  - intros Hl Hn. subst l'. apply large_scrambled; assumption.
Qed.

Lemma load_group (h : heavy) g p c : good_result h ->
  (do g <- py_for (save_array f32 h) keys_to_be_saved [] ; do g <- py_for (save_dict h) dict_to_be_saved g ; save_tps h g) = Ok g ->
  exists h', load_from_hdf5_object p c (NGroup g) = Ok h' /\ restored h h' /\ h_params h' = p /\ h_couple h' = c.
Proof.
  intros Hg E. destruct (save_group h Hg) as (g' & E' & P1 & P2 & P3). assert (g' = g) as -> by congruence. clear E E'.
  unfold load_from_hdf5_object. rewrite load_arrays_ok.
  2:{ intros k Hk. rewrite P1 by exact Hk. unfold arr_node. destruct (attr h k); exact Logic.I. }
  cbn [bind app]. rewrite load_dicts_ok.
  2:{ intros name Hname. specialize (P2 name Hname). destruct (dict_attr h name) as [d|]; [|left; exact P2]. right.
      destruct P2 as (_ & gd & E1 & E2 & vs & E3 & _). unfold loaded_dict. rewrite E1, E2, E3. discriminate. }
  cbn [bind app].
  assert (T : exists t, load_tps g = Ok t /\ match h_tps h with None => t = None | Some (tx, ty) => exists tx' ty', t = Some (tx', ty') /\ subdomains_kept tx tx' /\ subdomains_kept ty ty' end).
  { unfold load_tps. destruct (h_tps h) as [[tx ty]|].
    - destruct P3 as (gx & gy & Ex & Ey & Sx & Sy). rewrite Ex. destruct (subdoms_kept tx gx Sx) as (tx' & Lx & Kx). destruct (subdoms_kept ty gy Sy) as (ty' & Ly & Ky).
      rewrite Lx. cbn [bind]. unfold getitem. rewrite Ey. cbn [bind]. rewrite Ly. cbn [bind]. eexists. split; [reflexivity|]. exists tx', ty'. split; [reflexivity|]. split; assumption.
    - rewrite P3. eexists. split; reflexivity. }
  destruct T as (t & -> & Ht). cbn [bind]. eexists. split; [reflexivity|]. split; [|split; reflexivity]. split; [|split].
  - intros k Hk. unfold attr at 1. cbn [h_arrays].
    rewrite (flat_map_ext _ (fun k => match (match lookup k g with Some (NArr a) => Some (Some a) | _ => None end) with Some a => [(k, a)] | None => [] end)).
    2:{ intros x. destruct (lookup x g) as [[]|]; reflexivity. }
    rewrite (lookup_flat (fun k => match lookup k g with Some (NArr a) => Some (Some a) | _ => None end)) by exact Hk. rewrite P1 by exact Hk.
    unfold arr_node. destruct (attr h k); reflexivity.
  - intros name Hname. unfold dict_attr at 1. cbn [h_dicts]. rewrite (lookup_flat (loaded_dict g)) by exact Hname. specialize (P2 name Hname).
    destruct (dict_attr h name) as [d|].
    + destruct P2 as ((Hn & Hk & _) & gd & E1 & E2 & vs & E3 & E4). unfold loaded_dict. rewrite E1, E2, E3. rewrite load_pairs_ok by assumption. reflexivity.
    + unfold loaded_dict. rewrite P2. reflexivity.
  - exact Ht.
Qed.

(** *** C39 *)
Lemma save_object (h : heavy) tg f : good_result h -> ~ In tg (keys (f_groups f)) ->
  exists g, (forall p c, exists h', load_from_hdf5_object p c (NGroup g) = Ok h' /\ restored h h' /\ h_params h' = p /\ h_couple h' = c) /\
  save_in_hdf5_object f32 h tg f = Ok (mk_file (f_class f) (f_nb_passes f)
    (Some (match f_params f with Some p => p | None => h_params h end)) (Some (match f_couple f with Some c => c | None => h_couple h end))
    (insert tg (NGroup g) (f_groups f))).
Proof.
  intros Hg Ht. destruct (save_group h Hg) as (g & E & _). exists g. split; [intros p c; apply load_group; assumption|].
  unfold save_in_hdf5_object. destruct (py_for (save_array f32 h) keys_to_be_saved []) as [g1|] eqn:E1; [|discriminate]. cbn [bind] in *.
  destruct (py_for (save_dict h) dict_to_be_saved g1) as [g2|] eqn:E2; [|discriminate]. cbn [bind] in *. rewrite E. cbn [bind].
  rewrite create_ok by exact Ht. reflexivity.
Qed.

Theorem C39_heavy_partial h : good_result h ->
  exists f h', save_heavy f32 h = Ok f /\ load_heavy f = Ok h' /\ restored h h' /\ h_params h' = h_params h /\ h_couple h' = h_couple h.
Proof.
  intros Hg. unfold save_heavy. destruct (save_object h (tag 0) (mk_file (of_string "HeavyPIVResults") None None None []) Hg) as (g & L & E); [intros []|].
  rewrite E. destruct (L (h_params h) (h_couple h)) as (h' & E1 & E2 & E3 & E4). eexists. exists h'. split; [reflexivity|]. split; [|split; [exact E2|split; assumption]].
  unfold load_heavy, getitem. cbn [f_groups insert lookup]. rewrite name_eqb_refl. exact E1.
Qed.

Lemma firstn_S_nth {A} (l : list A) k a : nth_error l k = Some a -> firstn (S k) l = firstn k l ++ [a].
Proof.
  revert k. induction l as [|b l IH]; intros [|k] H; cbn in H; try discriminate.
  - assert (a = b) as -> by congruence. reflexivity.
  - cbn [firstn app]. f_equal. apply IH. exact H.
Qed.

(** several passes: any number of passes, each one is restored, in the same order; the parameters and the couple are those of the first pass *)
Lemma save_passes_ok passes : Forall good_result passes -> forall i f, 0 <= i -> (forall j, i <= j -> ~ In (tag j) (keys (f_groups f))) ->
  exists f', save_passes f32 i passes f = Ok f' /\
   f_class f' = f_class f /\ f_nb_passes f' = f_nb_passes f /\
   f_params f' = match f_params f with Some p => Some p | None => option_map h_params (hd_error passes) end /\
   f_couple f' = match f_couple f with Some c => Some c | None => option_map h_couple (hd_error passes) end /\
   (forall k, In k (keys (f_groups f)) -> lookup k (f_groups f') = lookup k (f_groups f)) /\
   Permutation (keys (f_groups f')) (map (fun j => tag (i + Z.of_nat j)) (seq 0 (List.length passes)) ++ keys (f_groups f)) /\
   (forall n h, nth_error passes n = Some h -> exists g, lookup (tag (i + Z.of_nat n)) (f_groups f') = Some (NGroup g) /\
      forall p c, exists h', load_from_hdf5_object p c (NGroup g) = Ok h' /\ restored h h' /\ h_params h' = p /\ h_couple h' = c).
Proof.
  induction 1 as [|h passes Hh Hp IH]; intros i f Hi Hf.
  - exists f. cbn [save_passes]. repeat split; try reflexivity.
    + destruct (f_params f); reflexivity.
    + destruct (f_couple f); reflexivity.
    + intros [|n] h Hn; discriminate.
  - destruct (save_object h (tag i) f Hh) as (g & L & E); [apply Hf; lia|]. cbn [save_passes]. rewrite E. cbn [bind].
    set (f1 := mk_file _ _ _ _ _).
    destruct (IH (i + 1) f1) as (f' & E1 & C1 & N1 & P1 & Q1 & K1 & M1 & R1).
    + lia.
    + intros j Hj Hin. unfold f1 in Hin. cbn [f_groups] in Hin. apply keys_insert in Hin. destruct Hin as [Hin|Hin]; [apply tag_inj in Hin; lia|]. apply (Hf j); [lia|exact Hin].
    + exists f'. split; [exact E1|]. split; [exact C1|]. split; [exact N1|]. unfold f1 in P1, Q1, K1, M1. cbn [f_params f_couple f_groups] in P1, Q1, K1, M1. cbn [hd_error option_map].
      split; [destruct (f_params f); exact P1|]. split; [destruct (f_couple f); exact Q1|]. split; [|split].
      * intros k Hk. rewrite K1 by (apply keys_insert; right; exact Hk). rewrite lookup_insert by (apply Hf; lia). rewrite name_eqb_neq; [reflexivity|].
        intros ->. apply (Hf i); [lia|exact Hk].
      * rewrite M1. cbn [List.length seq map app]. rewrite <- seq_shift, map_map. cbn [Z.of_nat]. rewrite Z.add_0_r.
        rewrite (map_ext (fun j => tag (i + Z.of_nat (S j))) (fun j => tag (i + 1 + Z.of_nat j))) by (intros j; f_equal; lia).
        etransitivity; [apply Permutation_app_head; apply (Permutation_map fst (insert_perm (tag i) (NGroup g) (f_groups f)))|]. symmetry. apply Permutation_middle.
      * intros [|n] h2 Hn; cbn [nth_error] in Hn.
        -- assert (h2 = h) as -> by congruence. exists g. split; [|exact L]. cbn [Z.of_nat]. rewrite Z.add_0_r. rewrite K1 by (apply keys_insert; left; reflexivity).
           rewrite lookup_insert by (apply Hf; lia). rewrite name_eqb_refl. reflexivity.
        -- replace (i + Z.of_nat (S n)) with (i + 1 + Z.of_nat n) by lia. apply R1. exact Hn.
Qed.

Lemma range0_S n : range0 (Z.of_nat (S n)) = range0 (Z.of_nat n) ++ [Z.of_nat n].
Proof. unfold range0. rewrite !Nat2Z.id. rewrite seq_S, map_app. reflexivity. Qed.

Lemma py_for_app' {A S} (f : S -> A -> result S) l1 l2 s : py_for f (l1 ++ l2) s = match py_for f l1 s with Ok s' => py_for f l2 s' | Err e => Err e end.
Proof. revert s. induction l1 as [|a l1 IH]; intros s; cbn [app py_for]; [reflexivity|]. destruct (f s a); [apply IH|reflexivity]. Qed.
Lemma load_passes_ok (f : file) p c passes :
  (forall n h, nth_error passes n = Some h -> exists g, lookup (tag (Z.of_nat n)) (f_groups f) = Some (NGroup g) /\
      forall p c, exists h', load_from_hdf5_object p c (NGroup g) = Ok h' /\ restored h h' /\ h_params h' = p /\ h_couple h' = c) ->
  forall k, (k <= List.length passes)%nat ->
  exists l, py_for (fun acc ip => do g <- getitem (tag ip) (f_groups f) ; do h <- load_from_hdf5_object p c g ; Ok (acc ++ [h])) (range0 (Z.of_nat k)) [] = Ok l /\
   Forall2 (fun h h' => restored h h' /\ h_params h' = p /\ h_couple h' = c) (firstn k passes) l.
Proof.
  intros H. induction k as [|k IH]; intros Hk; [exists []; split; [reflexivity|constructor]|].
  destruct IH as (l & E & F); [lia|]. destruct (nth_error passes k) as [h|] eqn:En; [|apply nth_error_None in En; lia].
  destruct (H k h En) as (g & Eg & L). destruct (L p c) as (h' & E1 & E2).
  exists (l ++ [h']). split.
  - rewrite range0_S. rewrite py_for_app'. rewrite E. cbn [py_for]. unfold getitem. rewrite Eg. cbn [bind]. rewrite E1. reflexivity.
  - rewrite (firstn_S_nth passes k h En). apply Forall2_app; [exact F|]. constructor; [exact E2|constructor].
Qed.

Theorem C39_multipass_partial h0 passes : Forall good_result (h0 :: passes) ->
  exists f l, save_multipass f32 (h0 :: passes) = Ok f /\ load_multipass f = Ok l /\
    Forall2 (fun h h' => restored h h' /\ h_params h' = h_params h0 /\ h_couple h' = h_couple h0) (h0 :: passes) l.
Proof.
  intros Hg. unfold save_multipass. set (f0 := mk_file _ _ _ _ _).
  destruct (save_passes_ok (h0 :: passes) Hg 0 f0) as (f & E & _ & N & P & Q & _ & _ & R); [lia|intros j _ []|].
  rewrite E. exists f. unfold load_multipass. rewrite P, Q, N. unfold f0. cbn [f_params f_couple f_nb_passes hd_error option_map].
  destruct (load_passes_ok f (h_params h0) (h_couple h0) (h0 :: passes) R (List.length (h0 :: passes))) as (l & E1 & F); [lia|].
  exists l. split; [reflexivity|]. split; [exact E1|]. rewrite firstn_all in F. exact F.
Qed.

(** no pass: the file cannot be loaded *)
Theorem C39_no_pass : exists f : file, save_multipass f32 [] = Ok f /\ load_multipass f = Err KeyError.
Proof. eexists. split; reflexivity. Qed.

(** saving again what has been loaded changes nothing (ten subdomains or less) *)
Lemma single_idem a : single_precision (single_precision a) = single_precision a.
Proof. destruct a; reflexivity. Qed.
Theorem C39_stable h h' : good_result h -> restored h h' -> match h_tps h with Some (tx, ty) => (List.length tx <= 10)%nat /\ (List.length ty <= 10)%nat | None => True end ->
  exists f h'', save_heavy f32 h' = Ok f /\ load_heavy f = Ok h'' /\
    (forall k, In k keys_to_be_saved -> attr h'' k = attr h' k) /\ (forall name, In name dict_to_be_saved -> dict_attr h'' name = dict_attr h' name) /\ h_tps h'' = h_tps h'.
Proof.
  intros Hg (R1 & R2 & R3) Ht. assert (Hg' : good_result h').
  { intros name d Hn Hd. rewrite R2 in Hd by exact Hn. exact (Hg name d Hn Hd). }
  destruct (C39_heavy_partial h' Hg') as (f & h'' & S1 & S2 & (A1 & A2 & A3) & _). exists f, h''. split; [exact S1|]. split; [exact S2|]. split; [|split].
  - intros k Hk. rewrite A1, R1 by exact Hk. destruct (attr h k); cbn [option_map]; [rewrite single_idem|]; reflexivity.
  - exact A2.
  - destruct (h_tps h) as [[tx ty]|].
    + destruct R3 as (tx' & ty' & E & (K1 & K2 & _) & (K3 & K4 & _)). rewrite E in A3 |- *. destruct A3 as (tx2 & ty2 & E2 & (L1 & L2 & _) & (L3 & L4 & _)).
      rewrite E2. rewrite K2 in L2 |- * by tauto. rewrite K4 in L4 |- * by tauto. rewrite L2, L4 by tauto. reflexivity.
    + rewrite R3 in A3 |- *. exact A3.
Qed.

(** the error codes are aligned with the keys *)
Theorem C39_codes h d : dict_attr h (of_string "errors") = Some d -> good_dict (of_string "errors") d ->
  forall g g', save_dict h g (of_string "errors") = Ok g' ->
  exists gd codes, lookup (of_string "errors") g' = Some (NGroup gd) /\ lookup (of_string "keys") gd = Some (NList (map fst d)) /\
   lookup (of_string "codes") gd = Some (NList codes) /\
   Forall2 (fun kv code => exists s n, snd kv = VStr s /\ code = VInt n /\ (n = 4 <-> startswith s (of_string "diff neighbour too large") = true) /\
      (n = 1 <-> startswith s (of_string "Correlation peak touching") = true) /\ (n = 2 <-> startswith s (of_string "correl < correl_min") = true) /\
      (n = 3 <-> startswith s (of_string "delta2 < displacement_max2") = true)) d codes.
Proof.
  intros Hd (Hn & Hk & Hv) g g' E. destruct Hv as [Hv|[Hv _]]; [|contradiction].
  unfold dict_attr in Hd. unfold save_dict in E. destruct (lookup (of_string "errors") (h_dicts h)) as [[d'|]|]; try discriminate. assert (d' = d) as -> by congruence.
  rewrite (encode_messages _ Hv) in E. rewrite (encode_other (map fst d)) in E by (left; exact Hk). rewrite (dataset_other (map fst d)) in E by (left; exact Hk).
  cbn [bind] in E. change (create (of_string "keys") (NList (map fst d)) []) with (Ok [(of_string "keys", NList (V:=V) (map fst d))]) in E. cbn [bind] in E.
  rewrite (dataset_bytes _ Hv) in E. cbn [bind] in E. rewrite name_eqb_refl in E. destruct (codes_ok _ Hv) as (codes & Hc). rewrite Hc in E. cbn [bind] in E.
  cbn [create lookup name_eqb insert] in E.
  match type of E with bind (create ?a ?b ?c) _ = _ => destruct (create a b c) as [gk|] eqn:Ek; [|discriminate] end. cbn [bind] in E.
  match type of E with bind (create ?a ?b ?c) _ = _ => destruct (create a b c) as [gd|] eqn:Eg; [|discriminate] end. cbn [bind] in E.
  assert (C : forall k n (x y : list (chars * node V)), create k n x = Ok y -> forall j, lookup j y = if name_eqb j k then Some n else lookup j x).
  { intros k n x y H j. unfold create in H. destruct (lookup k x) eqn:El; [discriminate|]. assert (y = insert k n x) as -> by congruence. apply lookup_insert. apply lookup_None. exact El. }
  exists gd, codes. split; [rewrite (C _ _ _ _ E), name_eqb_refl; reflexivity|].
  split; [rewrite (C _ _ _ _ Eg), (C _ _ _ _ Ek); reflexivity|]. split; [rewrite (C _ _ _ _ Eg); reflexivity|].
  clear - Hv Hc. revert codes Hc. induction d as [|[k v] d IH]; intros codes Hc.
  - cbn in Hc. assert (codes = []) as -> by congruence. constructor.
  - cbn [map snd] in Hv. inversion Hv as [|? ? (s & -> & Hs) Hv']; subst. cbn [map snd to_bytes map_res error_code bind] in Hc.
    destruct (map_res error_code (map to_bytes (map snd d))) as [cs|] eqn:Ecs; [|discriminate]. cbn [bind] in Hc.
    set (n := if startswith s (of_string "Correlation peak touching") then 1 else _) in Hc.
    assert (codes = VInt n :: cs) as -> by congruence. constructor; [|apply IH; [exact Hv'|reflexivity]].
    exists s, n. split; [reflexivity|]. split; [reflexivity|]. clear. unfold n. clear n.
    assert (X : forall a b t u, a <> b -> startswith s (a :: t) = true -> startswith s (b :: u) = true -> False).
    { intros a b t u Hab H1 H2. destruct s as [|c s']; [discriminate|]. cbn in H1, H2. apply andb_true_iff in H1, H2. destruct H1 as [H1 _], H2 as [H2 _].
      apply Ascii.eqb_eq in H1, H2. congruence. }
    assert (Y : startswith s (of_string "delta2 < displacement_max2") = true -> startswith s (of_string "diff neighbour too large") = true -> False).
    { intros H1 H2. destruct s as [|c1 [|c2 s']]; [discriminate|cbn in H1; rewrite andb_false_r in H1; discriminate|]. cbn in H1, H2.
      apply andb_true_iff in H1, H2. destruct H1 as [_ H1], H2 as [_ H2]. apply andb_true_iff in H1, H2. destruct H1 as [H1 _], H2 as [H2 _]. apply Ascii.eqb_eq in H1, H2. congruence. }
    destruct (startswith s (of_string "Correlation peak touching")) eqn:C1; destruct (startswith s (of_string "correl < correl_min")) eqn:C2;
    destruct (startswith s (of_string "delta2 < displacement_max2")) eqn:C3; destruct (startswith s (of_string "diff neighbour too large")) eqn:C4;
      try (exfalso; eapply (X "C"%char "c"%char); [discriminate|eassumption|eassumption]);
      try (exfalso; eapply (X "C"%char "d"%char); [discriminate|eassumption|eassumption]);
      try (exfalso; eapply (X "c"%char "d"%char); [discriminate|eassumption|eassumption]);
      try (exfalso; apply Y; reflexivity); repeat split; intros; try lia; try discriminate.
Qed.

(** keys which are strings are not decoded: they come back as bytes *)
Theorem C39_string_keys_refuted : exists h : Params -> Couple -> heavy, forall p c, exists f h', save_heavy f32 (h p c) = Ok f /\ load_heavy f = Ok h' /\
  dict_attr (h p c) (of_string "errors") = Some [(VStr (of_string "a"), VStr (of_string "e"))] /\
  dict_attr h' (of_string "errors") = Some [(VBytes (of_string "a"), VStr (of_string "e"))].
Proof.
  exists (mk_heavy [] [(of_string "errors", Some [(VStr (of_string "a"), VStr (of_string "e"))])] None). intros p c. eexists. eexists.
  split; [reflexivity|]. split; [reflexivity|]. split; reflexivity.
Qed.

(** eleven subdomains: the data of the subdomain 10 is read as the data of the subdomain 2 *)
Theorem C39_subdomains_refuted h tx ty : good_result h -> h_tps h = Some (tx, ty) -> (11 <= List.length tx)%nat -> NoDup tx ->
  exists f h' tx' ty', save_heavy f32 h = Ok f /\ load_heavy f = Ok h' /\ h_tps h' = Some (tx', ty') /\ tx' <> tx /\ Permutation tx' tx.
Proof.
  intros Hg Ht Hl Hn. destruct (C39_heavy_partial h Hg) as (f & h' & S1 & S2 & (_ & _ & R) & _). rewrite Ht in R.
  destruct R as (tx' & ty' & E & (K1 & _ & K3) & _). exists f, h', tx', ty'. repeat split; try assumption. apply K3; assumption.
Qed.

(** *** C40: the light result *)
Definition four (h : heavy) (suffix : string) : option (array V) * option (array V) * option (array V) * option (array V) :=
  (attr h (of_string ("ixvecs_" ++ suffix)%string), attr h (of_string ("iyvecs_" ++ suffix)%string),
   attr h (of_string ("deltaxs_" ++ suffix)%string), attr h (of_string ("deltays_" ++ suffix)%string)).

Lemma getattr_attr (h : heavy) k a : attr h k = Some a -> getattr h k = Ok (Some a).
Proof. unfold attr, getattr. destruct (lookup k (h_arrays h)) as [[b|]|]; congruence. Qed.

(** the last pass: the light result has the positions and the displacements of each vector *)
Theorem C40_final passes h ix iy dx dy :
  four h "final" = (Some ix, Some iy, Some dx, Some dy) ->
  make_light_result (passes ++ [h]) (-1) = Ok (mk_light (Some dx) (Some dy) (Some ix) (Some iy) (h_params h) (h_couple h)).
Proof.
  intros H. unfold four in H. assert (H1 : attr h (of_string "ixvecs_final") = Some ix) by (apply (f_equal (fun q => fst (fst (fst q)))) in H; exact H). assert (H2 : attr h (of_string "iyvecs_final") = Some iy) by (apply (f_equal (fun q => snd (fst (fst q)))) in H; exact H).
  assert (H3 : attr h (of_string "deltaxs_final") = Some dx) by (apply (f_equal (fun q => snd (fst q))) in H; exact H). assert (H4 : attr h (of_string "deltays_final") = Some dy) by (apply (f_equal (fun q => snd q)) in H; exact H).
  unfold make_light_result. rewrite GridProps.py_get_last. cbn [bind]. change (-1 =? -1) with true. cbv iota.
  rewrite (getattr_attr _ _ _ H1), (getattr_attr _ _ _ H2), (getattr_attr _ _ _ H3), (getattr_attr _ _ _ H4). reflexivity.
Qed.
(** another pass: x, dx, dy are kept, but y is a copy of x *)
Theorem C40_other_passes passes i h ix iy dx dy : i <> -1 -> py_get passes i = Ok h ->
  four h "approx" = (Some ix, Some iy, Some dx, Some dy) ->
  make_light_result passes i = Ok (mk_light (Some dx) (Some dy) (Some ix) (Some ix) (h_params h) (h_couple h)).
Proof.
  intros Hi Hh H. unfold four in H. assert (H1 : attr h (of_string "ixvecs_approx") = Some ix) by (apply (f_equal (fun q => fst (fst (fst q)))) in H; exact H).
  assert (H3 : attr h (of_string "deltaxs_approx") = Some dx) by (apply (f_equal (fun q => snd (fst q))) in H; exact H). assert (H4 : attr h (of_string "deltays_approx") = Some dy) by (apply (f_equal (fun q => snd q)) in H; exact H).
  unfold make_light_result. rewrite Hh. cbn [bind]. replace (i =? -1) with false by lia.
  rewrite (getattr_attr _ _ _ H1), (getattr_attr _ _ _ H3), (getattr_attr _ _ _ H4). reflexivity.
Qed.
Theorem C40_refuted passes i h ix iy dx dy : i <> -1 -> py_get passes i = Ok h ->
  four h "approx" = (Some ix, Some iy, Some dx, Some dy) -> iy <> ix ->
  exists l, make_light_result passes i = Ok l /\ l_iy l <> Some iy.
Proof.
  intros Hi Hh H Hn. eexists. split; [eapply C40_other_passes; eassumption|]. cbn [l_iy]. congruence.
Qed.
(** the last pass designated by its index, not -1: it has no approximate displacements *)
Theorem C40_last_by_index passes (h : heavy) i : i <> -1 -> py_get passes i = Ok h -> lookup (of_string "deltaxs_approx") (h_arrays h) = None ->
  make_light_result passes i = Err AttributeError.
Proof.
  intros Hi Hh Hl. unfold make_light_result. rewrite Hh. cbn [bind]. replace (i =? -1) with false by lia. unfold getattr at 1. rewrite Hl. reflexivity.
Qed.

(** the file of a light result *)
Theorem C40_file dx dy ix iy (p : Params) (c : Couple) : let l := mk_light (Some dx) (Some dy) (Some ix) (Some iy) p c in
  exists f : file, save_light l = Ok f /\ load_light f = Ok l.
Proof. cbv zeta. eexists. split; reflexivity. Qed.

(** *** The last pass read in the file of a multipass result *)
Lemma max_key_spec (ks : list chars) m : In m ks -> (forall k, In k ks -> k = m \/ name_ltb k m = true) -> max_key ks = Ok m.
Proof.
  assert (X : forall l x, (x = m \/ In m l) -> (forall k, In k (x :: l) -> k = m \/ name_ltb k m = true) -> fold_left (fun m x => if name_ltb m x then x else m) l x = m).
  { induction l as [|y l IH]; intros x Hx Hall; cbn [fold_left].
    - destruct Hx as [Hx|[]]. exact Hx.
    - apply IH.
      + destruct (name_ltb x y) eqn:E.
        * destruct Hx as [->|[<-|Hx]]; [|left; reflexivity|right; exact Hx].
          destruct (Hall y) as [->|Hy]; [right; left; reflexivity|left; reflexivity|]. pose proof (ltb_trans _ _ _ E Hy) as Z. rewrite ltb_irrefl in Z. discriminate.
        * destruct Hx as [->|[->|Hx]]; [left; reflexivity| |right; exact Hx]. destruct (Hall x) as [->|Hy]; [left; reflexivity|left; reflexivity|]. congruence.
      + intros k [<-|Hk]; [|apply Hall; right; right; exact Hk]. destruct (name_ltb x y); apply Hall; [right; left; reflexivity|left; reflexivity]. }
  intros Hm Hall. destruct ks as [|k ks]; [contradiction|]. unfold max_key. f_equal. apply X; [destruct Hm as [Hm|Hm]; tauto|exact Hall].
Qed.
Lemma tag_contains i : contains (tag i) (of_string "piv") = true.
Proof. unfold tag. destruct (py_str i); reflexivity. Qed.

Lemma load_light_multipass h0 passes m (h : heavy) : Forall good_result (h0 :: passes) -> nth_error (h0 :: passes) m = Some h ->
  (forall j, (j < List.length (h0 :: passes))%nat -> j <> m -> name_ltb (tag (Z.of_nat j)) (tag (Z.of_nat m)) = true) ->
  exists f, save_multipass f32 (h0 :: passes) = Ok f /\
   load_light f = Ok (mk_light (option_map single_precision (attr h (of_string "deltaxs_final"))) (option_map single_precision (attr h (of_string "deltays_final")))
     (option_map single_precision (attr h (of_string "ixvecs_final"))) (option_map single_precision (attr h (of_string "iyvecs_final"))) (h_params h0) (h_couple h0)).
Proof.
  intros Hg Hm Hmax. unfold save_multipass. set (f0 := mk_file _ _ _ _ _).
  destruct (save_passes_ok (h0 :: passes) Hg 0 f0) as (f & E & _ & N & P & Q & _ & M & R); [lia|intros j _ []|].
  rewrite E. exists f. split; [reflexivity|]. unfold load_light. rewrite P, Q. unfold f0. cbn [f_params f_couple hd_error option_map].
  unfold f0 in M. cbn [f_groups keys map] in M. rewrite app_nil_r in M.
  rewrite (max_key_spec _ (tag (Z.of_nat m))).
  - cbn [bind]. unfold getitem. destruct (R m h Hm) as (g & Eg & _). cbn [Z.add] in Eg. rewrite Eg. cbn [bind].
    rewrite Forall_forall in Hg. pose proof (Hg h (nth_error_In _ _ Hm)) as Hh.
    assert (X : forall k, In k keys_to_be_saved -> (match lookup k g with Some (NArr a) => Some a | _ => None end) = option_map single_precision (attr h k)).
    { destruct (R m h Hm) as (g' & Eg' & L). cbn [Z.add] in Eg'. assert (g' = g) as -> by congruence.
      destruct (L (h_params h0) (h_couple h0)) as (h' & E1 & (A & _) & _). intros k Hk. rewrite <- A by exact Hk. clear - E1 Hk.
      unfold load_from_hdf5_object in E1. destruct (py_for (load_array g) keys_to_be_saved []) as [arrays|] eqn:Ea; [|discriminate]. cbn [bind] in E1.
      destruct (py_for (load_dict g) dict_to_be_saved []) as [dd|]; [|discriminate]. cbn [bind] in E1. destruct (load_tps g) as [tt0|]; [|discriminate]. cbn [bind] in E1.
      assert (h' = mk_heavy arrays dd tt0 (h_params h0) (h_couple h0)) as -> by congruence. unfold attr. cbn [h_arrays].
      assert (Hall : forall ks acc r, py_for (load_array g) ks acc = Ok r -> forall k, In k ks -> match lookup k g with Some (NArr _) => True | None => True | _ => False end).
      { clear. induction ks as [|x ks IH]; intros acc r Hr k Hk; [contradiction|]. destruct Hk as [<-|Hk].
        - cbn [py_for] in Hr. unfold load_array at 1 in Hr. destruct (lookup x g) as [[]|]; try exact Logic.I; discriminate.
        - cbn [py_for] in Hr. destruct (load_array g acc x); [|discriminate]. eapply IH; eassumption. }
      rewrite load_arrays_ok in Ea by (eapply Hall; exact Ea). cbn [app] in Ea.
      assert (arrays = flat_map (fun k => match (match lookup k g with Some (NArr a) => Some (Some a) | _ => None end) with Some a => [(k, a)] | None => [] end) keys_to_be_saved) as ->.
      { assert (Y : arrays = flat_map (fun k => match lookup k g with Some (NArr a) => [(k, Some a)] | _ => [] end) keys_to_be_saved) by congruence. rewrite Y. apply flat_map_ext.
        intros x. destruct (lookup x g) as [[]|]; reflexivity. }
      rewrite (lookup_flat (fun k => match lookup k g with Some (NArr a) => Some (Some a) | _ => None end)) by exact Hk.
      destruct (lookup k g) as [[]|]; reflexivity. }
    rewrite !X by (cbn; tauto). reflexivity.
  - apply filter_In. split; [|apply tag_contains]. apply (Permutation_in _ (Permutation_sym M)). apply in_map_iff. exists m. split; [reflexivity|]. apply in_seq.
    assert (m < List.length (h0 :: passes))%nat by (apply nth_error_Some; congruence). lia.
  - intros k Hk. apply filter_In in Hk. destruct Hk as [Hk _]. apply (Permutation_in _ M) in Hk. apply in_map_iff in Hk. destruct Hk as (j & <- & Hj). apply in_seq in Hj.
    cbn [Z.add]. destruct (Nat.eq_dec j m) as [->|Hjm]; [left; reflexivity|right]. apply Hmax; [lia|exact Hjm].
Qed.

Definition final_light (h h0 : heavy) := mk_light (option_map single_precision (attr h (of_string "deltaxs_final"))) (option_map single_precision (attr h (of_string "deltays_final")))
     (option_map single_precision (attr h (of_string "ixvecs_final"))) (option_map single_precision (attr h (of_string "iyvecs_final"))) (h_params h0) (h_couple h0).
(** ten passes or less: the last one is read *)
Theorem C40_multipass_file_partial h0 passes : Forall good_result (h0 :: passes) -> (List.length (h0 :: passes) <= 10)%nat ->
  exists f, save_multipass f32 (h0 :: passes) = Ok f /\ load_light f = Ok (final_light (last (h0 :: passes) h0) h0).
Proof.
  intros Hg Hl. apply load_light_multipass with (m := List.length passes); [exact Hg| |].
  - rewrite nth_error_nth' with (d := h0) by (cbn; lia). f_equal. rewrite <- (Nat.sub_0_r (List.length passes)) at 1. change (List.length passes - 0)%nat with (List.length (h0 :: passes) - 1)%nat.
    generalize (h0 :: passes) at 1 2 3. intros l. rewrite <- (rev_involutive l). destruct (rev l) as [|x r]; [reflexivity|]. cbn [rev]. rewrite last_last, app_length. cbn [List.length].
    rewrite app_nth2 by lia. replace (List.length (rev r) + 1 - 1 - List.length (rev r))%nat with 0%nat by lia. reflexivity.
  - intros j Hj Hjm. cbn [List.length] in *.
    assert (C : forallb (fun p => let '(a, b) := p in implb (a <? b) (name_ltb (tag a) (tag b))) (list_prod (range0 10) (range0 10)) = true) by (vm_compute; reflexivity).
    rewrite forallb_forall in C. specialize (C (Z.of_nat j, Z.of_nat (List.length passes))).
    assert (R : forall z, 0 <= z < 10 -> In z (range0 10)).
    { intros z Hz. unfold range0. apply in_map_iff. exists (Z.to_nat z). split; [lia|]. apply in_seq. lia. }
    specialize (C (proj2 (in_prod_iff _ _ _ _) (conj (R (Z.of_nat j) ltac:(lia)) (R (Z.of_nat (List.length passes)) ltac:(lia))))). cbn beta iota in C.
    replace (Z.of_nat j <? Z.of_nat (List.length passes)) with true in C by lia. exact C.
Qed.
(** from eleven to ninety passes: the tenth pass is read instead of the last one *)
Theorem C40_multipass_file_refuted h0 passes h : Forall good_result (h0 :: passes) -> (11 <= List.length (h0 :: passes) <= 90)%nat ->
  nth_error (h0 :: passes) 9 = Some h ->
  exists f, save_multipass f32 (h0 :: passes) = Ok f /\ load_light f = Ok (final_light h h0).
Proof.
  intros Hg Hl Hh. apply load_light_multipass with (m := 9%nat); [exact Hg|exact Hh|].
  intros j Hj Hjm.
  assert (C : forallb (fun a => (a =? 9) || name_ltb (tag a) (tag 9)) (range0 90) = true) by (vm_compute; reflexivity).
  rewrite forallb_forall in C. specialize (C (Z.of_nat j)). rewrite orb_true_iff in C. destruct C as [C|C]; [|lia|exact C].
  unfold range0. apply in_map_iff. exists j. split; [reflexivity|]. apply in_seq. lia.
Qed.
End Props.

(** *** Examples *)
Definition ex_heavy : heavy Z unit unit := mk_heavy
  [(of_string "xs", Some (AInt [1; 2])); (of_string "deltaxs", Some (AF64 [10; 21])); (of_string "ys", None); (of_string "correls", Some (AInt [4]))]
  [(of_string "errors", Some [(VInt 1, VStr (of_string "diff neighbour too large")); (VInt 0, VStr (of_string "correl < correl_min"))]); (of_string "deltaxs_wrong", Some [(VInt 1, VNum 5)])]
  (Some ([AF64 [1]; AF64 [2]], [AF64 [3]; AF64 [4]])) tt tt.
Example C39_ex_good : good_result ex_heavy.
Proof.
  assert (X : forall l : string, l <> ""%string -> forall c, last (of_string l) "a"%char = c -> c <> "000"%char -> ~ ends_with_nul (of_string l)).
  { intros l _ c Hc Hn (s' & E). rewrite E, last_last in Hc. congruence. }
  intros name d Hn Hd. cbn [dict_to_be_saved map In] in Hn. destruct Hn as [<-|[<-|[<-|[]]]].
  - assert (Hd' : Some d = Some [(VInt 1, VStr (of_string "diff neighbour too large")); (VInt 0, VStr (of_string "correl < correl_min"))]) by (rewrite <- Hd; reflexivity).
    apply (f_equal (fun o => match o with Some x => x | None => d end)) in Hd'. rewrite Hd'. clear Hd Hd'.
    split; [|split].
    + cbn. constructor; [cbn; intros [H|[]]; discriminate|]. constructor; [intros []|constructor].
    + repeat constructor; [exists 1; reflexivity|exists 0; reflexivity].
    + left. constructor; [|constructor; [|constructor]]; (eexists; split; [reflexivity|]); eapply X; try reflexivity; discriminate.
  - assert (Hd' : Some d = Some [(VInt 1, VNum 5)]) by (rewrite <- Hd; reflexivity).
    apply (f_equal (fun o => match o with Some x => x | None => d end)) in Hd'. rewrite Hd'. clear Hd Hd'. split; [|split].
    + cbn. constructor; [intros []|constructor].
    + repeat constructor. exists 1. reflexivity.
    + right. split; [discriminate|]. repeat constructor. exists 5. reflexivity.
  - cbn in Hd. discriminate.
Qed.
Example C39_ex : exists f h', save_heavy (fun v => v - v mod 10) ex_heavy = Ok f /\ load_heavy f = Ok h' /\
  attr h' (of_string "deltaxs") = Some (AF32 [10; 20]) /\ attr h' (of_string "xs") = Some (AInt [1; 2]) /\ attr h' (of_string "correls") = None.
Proof. eexists. eexists. split; [vm_compute; reflexivity|]. split; [vm_compute; reflexivity|]. repeat split; reflexivity. Qed.
Example C39_ex_eleven : let l := map (fun n => AInt (V:=Z) [n]) (range0 12) in
  (do g <- save_subdoms 0 l [] ; load_subdoms (NGroup g)) = Ok (map (fun n => AInt [n]) [0; 1; 10; 11; 2; 3; 4; 5; 6; 7; 8; 9]).
Proof. vm_compute. reflexivity. Qed.

Print Assumptions C39_heavy_partial. Print Assumptions C39_multipass_partial. Print Assumptions C39_no_pass. Print Assumptions C39_stable. Print Assumptions C39_codes.
Print Assumptions C39_string_keys_refuted. Print Assumptions C39_subdomains_refuted.
Print Assumptions C40_final. Print Assumptions C40_other_passes. Print Assumptions C40_refuted. Print Assumptions C40_last_by_index. Print Assumptions C40_file.
Print Assumptions C40_multipass_file_partial. Print Assumptions C40_multipass_file_refuted.

(** C41: images saved by the preprocessing. *)
From Coq Require Import Permutation.
From Verif Require Import PyBase StrModel PivFileModel PivFileProofs PreprocModel.
Local Open Scope Z_scope.

Section Props.
Context {image : Type}.
Variable tools : list image -> list image.
Hypothesis tools_length : forall l, List.length (tools l) = List.length l.
Notation subset := (subset image).

(** *** Specification *)
(** the result for the n-th image of a subset *)
Definition result_of (s : subset) (n : nat) : option image := nth_error (tools (su_arrays s)) n.
Definition content (d : list (chars * image)) (name : chars) : option image := lookup name d.
(** one array for each name, slices with one or two indices *)
Definition well_formed (s : subset) : Prop :=
  List.length (su_names s) = List.length (su_arrays s) /\ exists m, get_ind_middle (su_slices s) = Ok m.
(** the files written for a subset *)
Definition outputs (s : subset) : list (chars * image) := combine (su_names s) (tools (su_arrays s)).
(** a sequence of writes is an execution for [subsets] *)
Definition execution (subsets : list subset) (ws : list (chars * image)) : Prop := Permutation ws (flat_map outputs subsets).

Lemma keys_combine {A B} (l : list A) (m : list B) : List.length l = List.length m -> map fst (combine l m) = l.
Proof.
  revert m. induction l as [|a l IH]; intros [|b m] H; cbn in *; try discriminate; [reflexivity|]. rewrite IH by lia. reflexivity.
Qed.
Lemma combine_nth_error {A B} (l : list A) (m : list B) n a b : nth_error l n = Some a -> nth_error m n = Some b -> In (a, b) (combine l m).
Proof.
  revert m n. induction l as [|x l IH]; intros [|y m] [|n] H1 H2; cbn in *; try discriminate.
  - left. congruence.
  - right. eapply IH; eassumption.
Qed.
Lemma combine_In_nth {A B} (l : list A) (m : list B) a b : In (a, b) (combine l m) -> exists n, nth_error l n = Some a /\ nth_error m n = Some b.
Proof.
  revert m. induction l as [|x l IH]; intros [|y m] H; cbn in H; try contradiction. destruct H as [H|H].
  - exists 0%nat. cbn. split; congruence.
  - destruct (IH m H) as (n & H1 & H2). exists (S n). split; assumption.
Qed.

(** the whole subset is saved *)
Theorem C41_calcul s : well_formed s -> calcul tools s = Ok (outputs s).
Proof.
  intros (Hl & m & Hm). unfold calcul, make_dict_to_save. rewrite Hm. reflexivity.
Qed.

Lemma run_rev ws (d : list (chars * image)) : run ws d = rev ws ++ d.
Proof.
  unfold run. revert d. induction ws as [|w ws IH]; intros d; cbn [fold_left rev app]; [reflexivity|]. rewrite IH. unfold write. rewrite <- app_assoc. reflexivity.
Qed.
Lemma lookup_app k (g h : list (chars * image)) : lookup k (g ++ h) = match lookup k g with Some v => Some v | None => lookup k h end.
Proof. induction g as [|[k' v] g IH]; cbn [app lookup]; [reflexivity|]. destruct (name_eqb k k'); [reflexivity|exact IH]. Qed.
Lemma lookup_Some_In k v (g : list (chars * image)) : lookup k g = Some v -> In (k, v) g.
Proof.
  induction g as [|[k' v'] g IH]; cbn [lookup]; [discriminate|]. destruct (name_eqb k k') eqn:E; intros H; [|right; apply IH; exact H].
  apply name_eqb_spec in E. left. congruence.
Qed.

Definition all_names (subsets : list subset) : list chars := flat_map su_names subsets.
Lemma keys_outputs subsets : Forall well_formed subsets -> map fst (flat_map outputs subsets) = all_names subsets.
Proof.
  induction 1 as [|s l (Hl & _) _ IH]; [reflexivity|]. cbn [flat_map all_names]. rewrite map_app, IH. f_equal. unfold outputs. apply keys_combine. rewrite tools_length. exact Hl.
Qed.

(** subsets without common images: whatever the order of the writes, the files only depend on the images *)
Theorem C41_disjoint_partial subsets ws : Forall well_formed subsets -> NoDup (all_names subsets) -> execution subsets ws ->
  (forall s n name, In s subsets -> nth_error (su_names s) n = Some name -> content (run ws []) name = result_of s n) /\
  (forall name, ~ In name (all_names subsets) -> content (run ws []) name = None).
Proof.
  intros Hw Hn Hp. rewrite run_rev, app_nil_r.
  assert (P : Permutation (rev ws) (flat_map outputs subsets)) by (rewrite <- Permutation_rev; exact Hp).
  assert (K : Permutation (keys (rev ws)) (all_names subsets)) by (rewrite <- keys_outputs by exact Hw; apply Permutation_map; exact P).
  assert (N : NoDup (keys (rev ws))) by (eapply Permutation_NoDup; [symmetry; exact K|exact Hn]).
  split.
  - intros s n name Hs Hname. rewrite Forall_forall in Hw. destruct (Hw s Hs) as (Hl & _). unfold result_of.
    destruct (nth_error (tools (su_arrays s)) n) as [im|] eqn:E.
    + apply lookup_In; [exact N|]. apply (Permutation_in _ (Permutation_sym P)). apply in_flat_map. exists s. split; [exact Hs|]. eapply combine_nth_error; eassumption.
    + exfalso. apply nth_error_None in E. rewrite tools_length in E. assert (n < List.length (su_names s))%nat by (apply nth_error_Some; congruence). lia.
  - intros name Hname. apply lookup_None. intros Hi. apply Hname. apply (Permutation_in _ K). exact Hi.
Qed.

(** two subsets with a common image, with different results for this image: the file depends on the order *)
Theorem C41_order_refuted s1 s2 n1 n2 name : well_formed s1 -> well_formed s2 -> NoDup (su_names s1) -> NoDup (su_names s2) ->
  nth_error (su_names s1) n1 = Some name -> nth_error (su_names s2) n2 = Some name -> result_of s1 n1 <> result_of s2 n2 ->
  exists ws1 ws2, execution [s1; s2] ws1 /\ execution [s1; s2] ws2 /\ content (run ws1 []) name <> content (run ws2 []) name.
Proof.
  intros (L1 & _) (L2 & _) N1 N2 H1 H2 Hd.
  assert (X : forall s n, List.length (su_names s) = List.length (su_arrays s) -> NoDup (su_names s) -> nth_error (su_names s) n = Some name ->
     exists im, lookup name (rev (outputs s)) = Some im /\ result_of s n = Some im).
  { intros s n L N H. unfold result_of. destruct (nth_error (tools (su_arrays s)) n) as [im|] eqn:E.
    - exists im. split; [|reflexivity]. apply lookup_In.
      + unfold keys. rewrite map_rev. apply NoDup_rev. unfold outputs. rewrite keys_combine by (rewrite tools_length; exact L). exact N.
      + rewrite <- in_rev. eapply combine_nth_error; eassumption.
    - exfalso. apply nth_error_None in E. rewrite tools_length in E. assert (n < List.length (su_names s))%nat by (apply nth_error_Some; congruence). lia. }
  destruct (X s1 n1 L1 N1 H1) as (im1 & E1 & R1). destruct (X s2 n2 L2 N2 H2) as (im2 & E2 & R2).
  exists (outputs s1 ++ outputs s2), (outputs s2 ++ outputs s1). split; [|split].
  - unfold execution. cbn [flat_map]. rewrite app_nil_r. reflexivity.
  - unfold execution. cbn [flat_map]. rewrite app_nil_r. apply Permutation_app_comm.
  - unfold content. rewrite !run_rev, !app_nil_r, !rev_app_distr, !lookup_app, E1, E2. congruence.
Qed.

(** *** Mode complete *)
Definition missing (d : list (chars * image)) (name : chars) : bool := match lookup name d with Some _ => false | None => true end.
Lemma compute_indices_spec d nb series (f : Z * subset -> chars) :
  (forall x, In x series -> get_name_preproc (snd x) (fst x) nb = Ok (f x)) ->
  compute_indices d nb series = Ok (map fst (filter (fun x => missing d (f x)) series)).
Proof.
  intros H. unfold compute_indices.
  assert (X : forall l acc, (forall x, In x l -> In x series) -> py_for (fun acc (x : Z * subset) => do name <- get_name_preproc (snd x) (fst x) nb ;
            Ok (match lookup name d with Some _ => acc | None => acc ++ [fst x] end)) l acc = Ok (acc ++ map fst (filter (fun x => missing d (f x)) l))).
  { induction l as [|x l IH]; intros acc Hl; cbn [py_for filter map]; [rewrite app_nil_r; reflexivity|].
    rewrite H by (apply Hl; left; reflexivity). cbn [bind]. rewrite IH by (intros; apply Hl; right; assumption). unfold missing at 2.
    destruct (lookup (f x) d); [reflexivity|]. cbn [map]. rewrite <- app_assoc. reflexivity. }
  apply X. intros; assumption.
Qed.

(** subsets of one image (the default value of params.series.str_subset) *)
Definition single (s : subset) (name : chars) : Prop :=
  su_names s = [name] /\ List.length (su_arrays s) = 1%nat /\ get_Ni_Nj (su_slices s) = Ok (1, 1).
Lemma single_wf s name : single s name -> well_formed s.
Proof.
  intros (H1 & H2 & H3). split; [rewrite H1, H2; reflexivity|]. unfold get_ind_middle. rewrite H3. cbn. eexists. reflexivity.
Qed.
Lemma single_name s name i nb : single s name -> get_name_preproc s i nb = Ok name.
Proof.
  intros (H1 & H2 & H3). unfold get_name_preproc, get_ind_middle. rewrite H3, H1. cbn [bind]. change (1 mod 2 =? 0) with false. change (1 / 2 * 1) with 0. cbn [fst].
  destruct ((i =? 0) && (nb =? 1)); [reflexivity|]. destruct (i =? 0); [reflexivity|]. destruct (i =? nb - 1); reflexivity.
Qed.

(** after any part of the writes, the indices computed are those of the images which have not been saved *)
Theorem C41_complete_singletons nb series name ws : (forall x, In x series -> single (snd x) (name x)) ->
  compute_indices (run ws []) nb series = Ok (map fst (filter (fun x => negb (existsb (fun w => name_eqb (name x) (fst w)) ws)) series)).
Proof.
  intros H. rewrite (compute_indices_spec _ nb series name) by (intros x Hx; apply single_name, H, Hx). f_equal. f_equal. apply filter_ext. intros x.
  unfold missing. rewrite run_rev, app_nil_r. destruct (lookup (name x) (rev ws)) as [im|] eqn:E.
  - apply lookup_Some_In in E. rewrite <- in_rev in E. symmetry. apply negb_false_iff. apply existsb_exists. exists (name x, im). split; [exact E|apply name_eqb_refl].
  - symmetry. apply negb_true_iff. apply lookup_None in E. destruct (existsb _ ws) eqn:Ex; [|reflexivity]. exfalso. apply E. apply existsb_exists in Ex. destruct Ex as ([k v] & Hi & Hk).
    apply name_eqb_spec in Hk. cbn [fst] in Hk. subst k. unfold keys. apply in_map_iff. exists (name x, v). split; [reflexivity|]. rewrite <- in_rev. exact Hi.
Qed.

(** interruption after any part of the writes, then mode complete: at the end the files are those of an execution without interruption *)
Theorem C41_resume_singletons nb series name ws1 inds ws2 : (forall x, In x series -> single (snd x) (name x)) -> NoDup (all_names (map snd series)) -> NoDup (map fst series) ->
  incl ws1 (flat_map outputs (map snd series)) ->
  compute_indices (run ws1 []) nb series = Ok inds ->
  execution (map snd (filter (fun x => existsb (Z.eqb (fst x)) inds) series)) ws2 ->
  forall s n nm, In s (map snd series) -> nth_error (su_names s) n = Some nm -> content (run ws2 (run ws1 [])) nm = result_of s n.
Proof.
  intros H Hn Hf Hi Hc He s n nm Hs Hnm.
  assert (Hw : Forall well_formed (map snd series)).
  { apply Forall_forall. intros y Hy. apply in_map_iff in Hy. destruct Hy as (x & <- & Hx). eapply single_wf. apply H. exact Hx. }
  (* every write of the file nm writes the expected image *)
  assert (Hval : forall im, In (nm, im) (flat_map outputs (map snd series)) -> result_of s n = Some im).
  { intros im Him. destruct (C41_disjoint_partial (map snd series) (flat_map outputs (map snd series)) Hw Hn (Permutation_refl _)) as [D _].
    rewrite <- (D s n nm Hs Hnm). unfold content. rewrite run_rev, app_nil_r. apply lookup_In; [|rewrite <- in_rev; exact Him].
    unfold keys. rewrite map_rev. apply NoDup_rev. rewrite keys_outputs by exact Hw. exact Hn. }
  assert (Hsub : forall im, In (nm, im) ws2 -> In (nm, im) (flat_map outputs (map snd series))).
  { intros im Him. apply (Permutation_in _ He) in Him. apply in_flat_map in Him. destruct Him as (t & Ht & Him). apply in_flat_map. exists t. split; [|exact Him].
    apply in_map_iff in Ht. destruct Ht as (x & <- & Hx). apply filter_In in Hx. apply in_map. tauto. }
  unfold content. rewrite !run_rev, app_nil_r, lookup_app. destruct (lookup nm (rev ws2)) as [im|] eqn:E2.
  { apply lookup_Some_In in E2. rewrite <- in_rev in E2. symmetry. apply Hval, Hsub, E2. }
  destruct (lookup nm (rev ws1)) as [im|] eqn:E1.
  { apply lookup_Some_In in E1. rewrite <- in_rev in E1. symmetry. apply Hval, Hi, E1. }
  exfalso. apply in_map_iff in Hs. destruct Hs as (x & <- & Hx). pose proof (H x Hx) as Hsg. destruct Hsg as (Hnames & Harr & _).
  assert (name x = nm /\ n = 0%nat) as [Enm ->].
  { rewrite Hnames in Hnm. destruct n as [|[|n]]; cbn in Hnm; try discriminate. split; [congruence|reflexivity]. }
  rewrite (compute_indices_spec _ nb series name) in Hc by (intros y Hy; apply single_name, H, Hy).
  assert (Hin : In (fst x) inds).
  { assert (E : map fst (filter (fun x => missing (run ws1 []) (name x)) series) = inds) by congruence. rewrite <- E. apply in_map. apply filter_In. split; [exact Hx|].
    unfold missing. rewrite run_rev, app_nil_r, Enm, E1. reflexivity. }
  destruct (nth_error (tools (su_arrays (snd x))) 0) as [im|] eqn:Et.
  2:{ apply nth_error_None in Et. rewrite tools_length in Et. lia. }
  apply lookup_None in E2. apply E2. unfold keys. apply in_map_iff. exists (nm, im). split; [reflexivity|]. rewrite <- in_rev.
  apply (Permutation_in _ (Permutation_sym He)). apply in_flat_map. exists (snd x). split.
  - apply in_map. apply filter_In. split; [exact Hx|]. apply existsb_exists. exists (fst x). split; [exact Hin|]. apply Z.eqb_refl.
  - unfold outputs. eapply combine_nth_error; eassumption.
Qed.

(** disjoint subsets: a subset entirely saved is recognised, a subset not processed at all is computed *)
Theorem C41_complete_disjoint nb series (name : Z * subset -> chars) ws inds :
  (forall x, In x series -> get_name_preproc (snd x) (fst x) nb = Ok (name x)) ->
  NoDup (map fst series) -> NoDup (all_names (map snd series)) -> Forall well_formed (map snd series) ->
  incl ws (flat_map outputs (map snd series)) -> compute_indices (run ws []) nb series = Ok inds ->
  forall x, In x series ->
   (incl (outputs (snd x)) ws -> ~ In (fst x) inds) /\ ((forall w, In w (outputs (snd x)) -> ~ In w ws) -> In (fst x) inds).
Proof.
  intros H Hf Hn Hw Hi Hc x Hx. rewrite (compute_indices_spec _ nb series name H) in Hc.
  assert (E : inds = map fst (filter (fun x => missing (run ws []) (name x)) series)) by congruence. clear Hc. subst inds.
  assert (Hname : In (name x) (su_names (snd x))).
  { pose proof (H x Hx) as E. unfold get_name_preproc in E. destruct (get_ind_middle (su_slices (snd x))); [|discriminate]. cbn [bind] in E. unfold py_get in E.
    destruct ((0 <=? _) && _); [|discriminate]. match type of E with match ?o with _ => _ end = _ => destruct o as [y|] eqn:Eo; [|discriminate] end. apply nth_error_In in Eo. congruence. }
  apply In_nth_error in Hname. destruct Hname as (n & Hname).
  assert (Hwx : well_formed (snd x)) by (rewrite Forall_forall in Hw; apply Hw; apply in_map; exact Hx). destruct Hwx as (Hl & _).
  destruct (nth_error (tools (su_arrays (snd x))) n) as [im|] eqn:Et.
  2:{ apply nth_error_None in Et. rewrite tools_length in Et. assert (n < List.length (su_names (snd x)))%nat by (apply nth_error_Some; congruence). lia. }
  assert (Hout : In (name x, im) (outputs (snd x))) by (unfold outputs; eapply combine_nth_error; eassumption).
  assert (Hmiss : In (fst x) (map fst (filter (fun x => missing (run ws []) (name x)) series)) <-> missing (run ws []) (name x) = true).
  { split.
    - intros Hin. apply in_map_iff in Hin. destruct Hin as (y & Ey & Hy). apply filter_In in Hy. destruct Hy as [Hy Hm].
      assert (y = x) as ->; [|exact Hm]. clear - Hf Hx Hy Ey. induction series as [|z l IH]; [contradiction|]. cbn [map] in Hf. inversion Hf as [|? ? Hz Hf']; subst.
      destruct Hx as [->|Hx], Hy as [->|Hy].
      + reflexivity.
      + exfalso. apply Hz. rewrite <- Ey. apply in_map. exact Hy.
      + exfalso. apply Hz. rewrite Ey. apply in_map. exact Hx.
      + apply IH; assumption.
    - intros Hm. apply in_map. apply filter_In. split; assumption. }
  rewrite Hmiss. unfold missing. rewrite run_rev, app_nil_r. split.
  - intros Hall. destruct (lookup (name x) (rev ws)) eqn:El; [discriminate|]. exfalso. apply lookup_None in El. apply El. unfold keys. apply in_map_iff. exists (name x, im).
    split; [reflexivity|]. rewrite <- in_rev. apply Hall. exact Hout.
  - intros Hno. destruct (lookup (name x) (rev ws)) as [im'|] eqn:El; [|reflexivity]. exfalso. apply lookup_Some_In in El. rewrite <- in_rev in El.
    apply (Hno (name x, im')); [|exact El]. assert (im' = im) as ->; [|exact Hout].
    pose proof (Hi _ El) as H1. assert (H2 : In (name x, im) (flat_map outputs (map snd series))) by (apply in_flat_map; exists (snd x); split; [apply in_map; exact Hx|exact Hout]).
    assert (N : NoDup (keys (flat_map outputs (map snd series)))) by (unfold keys; rewrite keys_outputs by exact Hw; exact Hn).
    apply lookup_In in H1; [|exact N]. apply lookup_In in H2; [|exact N]. congruence.
Qed.
End Props.

(** *** Refutations of the mode complete *)
Definition nm (n : Z) : chars := of_string "im" ++ py_str n.
Definition triple (i : Z) : subset Z := mk_subset [[i; i + 3; 1]] [nm i; nm (i + 1); nm (i + 2)] [i; i + 1; i + 2].
(** overlapping subsets: the subset 1 has not been processed, but it is considered as done *)
Theorem C41_overlap_complete_refuted : exists series ws, execution (fun l => l) [triple 0] ws /\ series = [(0, triple 0); (1, triple 1); (2, triple 2)] /\
  compute_indices (run ws []) 3 series = Ok [2].
Proof. eexists. eexists. split; [apply Permutation_refl|]. split; [reflexivity|]. vm_compute. reflexivity. Qed.
(** interruption between the files of a subset: the third image is missing, but the subset is considered as done *)
Theorem C41_interruption_refuted : exists series ws ws', series = [(0, triple 0); (1, triple 3)] /\ execution (fun l => l) (map snd series) (ws ++ ws') /\
  compute_indices (run ws []) 2 series = Ok [1] /\ content (run ws []) (nm 2) = None.
Proof.
  eexists. exists [(nm 0, 0); (nm 1, 1)], [(nm 2, 2); (nm 3, 3); (nm 4, 4); (nm 5, 5)]. split; [reflexivity|]. split; [vm_compute; apply Permutation_refl|].
  split; vm_compute; reflexivity.
Qed.
(** a step of 3 or more (three images or more): the middle image is computed from the bounds of the slice, it does not exist *)
Theorem C41_step_refuted start step n names (arrays : list Z) nb : 3 <= step -> 3 <= n -> zlen names = n -> 1 < nb ->
  get_name_preproc (mk_subset [[start; start + step * (n - 1) + 1; step]] names arrays) 0 nb = Err IndexError.
Proof.
  intros Hs Hn Hl Hb. unfold get_name_preproc. cbn [su_slices su_names]. unfold get_ind_middle, get_Ni_Nj. 
  change (py_get [[start; start + step * (n - 1) + 1; step]] 0) with (Ok [start; start + step * (n - 1) + 1; step]). cbn [bind].
  change (py_get [start; start + step * (n - 1) + 1; step] 1) with (Ok (start + step * (n - 1) + 1)). cbn [bind].
  change (py_get [start; start + step * (n - 1) + 1; step] 0) with (Ok start). cbn [bind].
  replace (start + step * (n - 1) + 1 - start) with (step * (n - 1) + 1) by lia. set (Ni := step * (n - 1) + 1).
  assert (HN : 3 * n - 2 <= Ni) by (unfold Ni; nia). cbn [fst]. replace (nb =? 1) with false by lia. rewrite andb_false_r. change (0 =? 0) with true. cbv iota.
  rewrite Z.mul_1_r. assert (X : n <= (if Ni mod 2 =? 0 then Ni / 2 - 1 else Ni / 2)).
  { pose proof (Z.div_mod Ni 2 ltac:(lia)) as D. pose proof (Z.mod_pos_bound Ni 2 ltac:(lia)) as B. destruct (Ni mod 2 =? 0) eqn:E; lia. }
  unfold py_get. set (i := if Ni mod 2 =? 0 then _ else _) in *. replace (i <? 0) with false by lia. replace ((0 <=? i) && (i <? zlen names)) with false by lia. reflexivity.
Qed.

Example C41_ex : execution (fun l => map (Z.mul 2) l) [triple 0; triple 3] [(nm 3, 6); (nm 0, 0); (nm 1, 2); (nm 4, 8); (nm 5, 10); (nm 2, 4)] /\
  NoDup (all_names [triple 0; triple 3]).
Proof.
  split.
  - unfold execution. change (flat_map (outputs (fun l => map (Z.mul 2) l)) [triple 0; triple 3]) with [(nm 0, 0); (nm 1, 2); (nm 2, 4); (nm 3, 6); (nm 4, 8); (nm 5, 10)].
    etransitivity; [apply perm_skip; do 2 apply perm_skip; apply Permutation_refl|].
    apply (Permutation_cons_app [(nm 0, 0); (nm 1, 2); (nm 2, 4)]). cbn [app]. do 2 apply perm_skip. apply (Permutation_cons_app [(nm 2, 4)]). cbn [app].
    apply perm_swap.
  - cbn. repeat constructor; vm_compute; intuition discriminate.
Qed.
Example C41_ex_single : single (mk_subset [[5; 6; 1]] [nm 5] [7]) (nm 5) /\ single (mk_subset [[5; 6; 1]; [0; 1; 1]] [nm 5] [7]) (nm 5).
Proof. repeat split. Qed.
Example C41_ex_overlap : well_formed (triple 0) /\ nth_error (su_names (triple 0)) 1 = nth_error (su_names (triple 1)) 0 /\
  result_of (fun l => map (fun x => fold_left Z.add l 0) l) (triple 0) 1 <> result_of (fun l => map (fun x => fold_left Z.add l 0) l) (triple 1) 0.
Proof. split; [split; [reflexivity|eexists; reflexivity]|]. split; [reflexivity|]. vm_compute. discriminate. Qed.

Print Assumptions C41_calcul. Print Assumptions C41_disjoint_partial. Print Assumptions C41_order_refuted. Print Assumptions C41_complete_singletons.
Print Assumptions C41_resume_singletons. Print Assumptions C41_complete_disjoint. Print Assumptions C41_overlap_complete_refuted. Print Assumptions C41_interruption_refuted. Print Assumptions C41_step_refuted.

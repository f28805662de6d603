(** C25: mean image. *)
From Coq Require Import Permutation.
From Verif Require Import PyBase MeanModel.

(** *** Specification *)
(** sum of the pixels number k *)
Fixpoint sum_px (k : nat) (l : list img) : Z :=
  match l with [] => 0 | a :: l' => nth k a 0 + sum_px k l' end.

(** *** Lemmas *)
Lemma sum_px_app k l1 l2 : sum_px k (l1 ++ l2) = sum_px k l1 + sum_px k l2.
Proof. induction l1 as [|a l1 IH]; cbn; [reflexivity|]. rewrite IH. ring. Qed.

Lemma add32_ok L a b : List.length a = L -> List.length b = L ->
  exists c, add32 a b = Ok c /\ List.length c = L /\
    (forall k, (k < L)%nat -> nth k c 0 = (nth k a 0 + nth k b 0) mod two32).
Proof.
  intros Ha Hb. unfold add32. rewrite Ha, Hb, Nat.eqb_refl. eexists. split; [reflexivity|]. split.
  - rewrite map_length, combine_length. lia.
  - intros k Hk. set (f := fun '(x, y) => (x + y) mod two32). rewrite nth_indep with (d' := f (0, 0)).
    + rewrite (map_nth f), combine_nth by congruence. reflexivity.
    + rewrite map_length, combine_length. lia.
Qed.

(** a temporary array: shape, values in range, and what it represents *)
Definition good (L : nat) (x : img * Z) : Prop :=
  List.length (fst x) = L /\ forall k, (k < L)%nat -> 0 <= nth k (fst x) 0 < two32.

Lemma add32_good L a b na nb n : good L (a, na) -> good L (b, nb) ->
  exists c, add32 a b = Ok c /\ good L (c, n) /\
    (forall k, (k < L)%nat -> exists z, nth k c 0 = nth k a 0 + nth k b 0 + z * two32).
Proof.
  intros [Ha Ha'] [Hb Hb']. cbn [fst] in *. destruct (add32_ok L a b Ha Hb) as (c & E & Hl & Hc). exists c.
  split; [exact E|]. split.
  - split; [exact Hl|]. intros k Hk. cbn [fst]. rewrite Hc by exact Hk. apply Z.mod_pos_bound. reflexivity.
  - intros k Hk. rewrite Hc by exact Hk. exists (- ((nth k a 0 + nth k b 0) / two32)).
    pose proof (Z.div_mod (nth k a 0 + nth k b 0) two32 ltac:(discriminate)). lia.
Qed.

Fixpoint cnt (q : tmps) : Z := match q with [] => 0 | x :: q' => snd x + cnt q' end.
Lemma cnt_app q1 q2 : cnt (q1 ++ q2) = cnt q1 + cnt q2.
Proof. induction q1 as [|a q1 IH]; cbn; [reflexivity|]. rewrite IH. ring. Qed.

(** equality modulo 2^32 of all the pixels *)
Definition same_sum (L : nat) (l1 l2 : list img) : Prop :=
  forall k, (k < L)%nat -> exists z, sum_px k l1 = sum_px k l2 + z * two32.

Lemma same_sum_refl L l : same_sum L l l.
Proof. intros k _. exists 0. ring. Qed.
Lemma same_sum_trans L l1 l2 l3 : same_sum L l1 l2 -> same_sum L l2 l3 -> same_sum L l1 l3.
Proof. intros H1 H2 k Hk. destruct (H1 k Hk) as [z1 E1], (H2 k Hk) as [z2 E2]. exists (z1 + z2). lia. Qed.

Lemma reduce4_ok L fuel : forall q res, Forall (good L) q -> (List.length q <= fuel)%nat ->
  exists q' d, reduce4 fuel q res = Ok (q', res ++ d) /\ Forall (good L) q' /\
    (List.length q' < 4)%nat /\ (q <> [] -> q' <> []) /\ cnt q' = cnt q /\
    (List.length d + List.length q' = List.length q)%nat /\ same_sum L (map fst q') (map fst q).
Proof.
  induction fuel as [|fuel IH]; intros q res Hg Hl.
  - destruct q; [|cbn in Hl; lia]. exists [], []. cbn. rewrite app_nil_r. repeat split; auto; try lia. apply same_sum_refl.
  - destruct q as [|[a0 n0] [|[a1 n1] [|[a2 n2] [|[a3 n3] q]]]];
      try (eexists; exists []; rewrite app_nil_r; cbn [reduce4]; split; [reflexivity|];
           repeat split; cbn; auto; try lia; apply same_sum_refl).
    cbn [reduce4].
    inversion Hg as [|? ? G0 Hg0]; subst. inversion Hg0 as [|? ? G1 Hg1]; subst.
    inversion Hg1 as [|? ? G2 Hg2]; subst. inversion Hg2 as [|? ? G3 Hg3]; subst.
    destruct (add32_good L a0 a1 n0 n1 0 G0 G1) as (s1 & E1 & S1 & V1). rewrite E1. cbn [bind].
    destruct (add32_good L s1 a2 0 n2 0 S1 G2) as (s2 & E2 & S2 & V2). rewrite E2. cbn [bind].
    destruct (add32_good L s2 a3 0 n3 (n0 + n1 + n2 + n3) S2 G3) as (s3 & E3 & S3 & V3). rewrite E3. cbn [bind].
    destruct (IH (q ++ [(s3, n0 + n1 + n2 + n3)]) (res ++ [n0 + n1 + n2 + n3; n0 + n1 + n2 + n3; n0 + n1 + n2 + n3]))
      as (q' & d & E & H1 & H2 & H3 & H4 & H5 & H6).
    { apply Forall_app. split; [exact Hg3|]. constructor; [exact S3|constructor]. }
    { rewrite app_length. cbn in *. lia. }
    exists q', ([n0 + n1 + n2 + n3; n0 + n1 + n2 + n3; n0 + n1 + n2 + n3] ++ d). split; [rewrite E, <- app_assoc; reflexivity|].
    split; [exact H1|]. split; [exact H2|]. split; [intros _; apply H3; destruct q; discriminate|].
    split; [rewrite H4, cnt_app; cbn; ring|]. split; [rewrite app_length in *; cbn in *; lia|].
    eapply same_sum_trans; [exact H6|]. intros k Hk. rewrite map_app, sum_px_app. cbn.
    destruct (V1 k Hk) as [z1 W1], (V2 k Hk) as [z2 W2], (V3 k Hk) as [z3 W3].
    exists (z1 + z2 + z3). rewrite W3, W2, W1. ring.
Qed.

Lemma reduce2_ok L fuel : forall q res, Forall (good L) q -> (List.length q <= fuel)%nat ->
  exists q' d, reduce2 fuel q res = Ok (q', res ++ d) /\ Forall (good L) q' /\
    (List.length q' < 2)%nat /\ (q <> [] -> q' <> []) /\ cnt q' = cnt q /\
    (List.length d + List.length q' = List.length q)%nat /\ same_sum L (map fst q') (map fst q).
Proof.
  induction fuel as [|fuel IH]; intros q res Hg Hl.
  - destruct q; [|cbn in Hl; lia]. exists [], []. cbn. rewrite app_nil_r. repeat split; auto; try lia. apply same_sum_refl.
  - destruct q as [|[a0 n0] [|[a1 n1] q]];
      try (eexists; exists []; rewrite app_nil_r; cbn [reduce2]; split; [reflexivity|];
           repeat split; cbn; auto; try lia; apply same_sum_refl).
    cbn [reduce2].
    inversion Hg as [|? ? G0 Hg0]; subst. inversion Hg0 as [|? ? G1 Hg1]; subst.
    destruct (add32_good L a0 a1 n0 n1 (n0 + n1) G0 G1) as (s1 & E1 & S1 & V1). rewrite E1. cbn [bind].
    destruct (IH (q ++ [(s1, n0 + n1)]) (res ++ [n0 + n1])) as (q' & d & E & H1 & H2 & H3 & H4 & H5 & H6).
    { apply Forall_app. split; [exact Hg1|]. constructor; [exact S1|constructor]. }
    { rewrite app_length. cbn in *. lia. }
    exists q', ([n0 + n1] ++ d). split; [rewrite E, <- app_assoc; reflexivity|].
    split; [exact H1|]. split; [exact H2|]. split; [intros _; apply H3; destruct q; discriminate|].
    split; [rewrite H4, cnt_app; cbn; ring|]. split; [rewrite app_length in *; cbn in *; lia|].
    eapply same_sum_trans; [exact H6|]. intros k Hk. rewrite map_app, sum_px_app. cbn.
    destruct (V1 k Hk) as [z1 W1]. exists z1. rewrite W1. ring.
Qed.

(** *** Invariant of the executions in one process *)
Definition images (l : list (img + exn)) : list img :=
  flat_map (fun x => match x with inl a => [a] | inr _ => [] end) l.
Lemma images_app l1 l2 : images (l1 ++ l2) = images l1 ++ images l2.
Proof. apply flat_map_app. Qed.

Definition of_file (f : option (img * Z)) : tmps := match f with Some x => [x] | None => [] end.

Record inv (L : nat) (paths : list (img + exn)) (s : mst) : Prop := {
  i_ok : forall x, In x (m_paths s ++ m_reading s ++ m_arrays s) -> exists a, x = inl a /\ List.length a = L;
  i_good : Forall (good L) (m_tmp s ++ of_file (m_file s));
  i_sum : same_sum L (images (m_paths s ++ m_reading s ++ m_arrays s) ++ map fst (m_tmp s ++ of_file (m_file s))) (images paths);
  i_cnt : zlen (m_paths s ++ m_reading s ++ m_arrays s) + cnt (m_tmp s ++ of_file (m_file s)) = zlen paths;
  i_file : m_file s <> None -> m_paths s = [] /\ m_reading s = [] /\ m_arrays s = [] /\ m_tmp s = [];
  i_res : zlen (m_paths s ++ m_reading s ++ m_arrays s) + zlen (m_tmp s ++ of_file (m_file s)) + zlen (m_results s) = zlen paths;
  i_raised : m_raised s = None }.

Lemma take_arrays_ok L arrays : forall q,
  (forall x, In x arrays -> exists a, x = inl a /\ List.length a = L) -> Forall (good L) q ->
  exists q', take_arrays arrays q = Ok q' /\ Forall (good L) q' /\
    same_sum L (map fst q') (images arrays ++ map fst q) /\ cnt q' = zlen arrays + cnt q /\
    zlen q' = zlen arrays + zlen q.
Proof.
  induction arrays as [|x arrays IH]; intros q Ha Hq.
  - exists q. split; [reflexivity|]. split; [exact Hq|]. split; [apply same_sum_refl|]. cbn. split; reflexivity.
  - destruct (Ha x (or_introl eq_refl)) as (a & -> & Hl). cbn [take_arrays].
    destruct (IH ((to_uint32 a, 1) :: q)) as (q' & E & G & S & C & N).
    { intros y Hy. apply Ha. now right. }
    { constructor; [|exact Hq]. split; cbn [fst]; unfold to_uint32; [rewrite map_length; exact Hl|].
      intros k Hk. rewrite nth_indep with (d' := 0 mod two32) by (rewrite map_length; lia).
      rewrite (map_nth (fun x => x mod two32)). apply Z.mod_pos_bound. reflexivity. }
    exists q'. split; [exact E|]. split; [exact G|]. split; [|split].
    + eapply same_sum_trans; [exact S|]. intros k Hk. cbn. rewrite !sum_px_app. cbn. unfold to_uint32.
      rewrite nth_indep with (d' := 0 mod two32) by (rewrite map_length; lia).
      rewrite (map_nth (fun x => x mod two32)). exists (- (nth k a 0 / two32)).
      pose proof (Z.div_mod (nth k a 0) two32 ltac:(discriminate)). fold (images arrays). lia.
    + rewrite C. unfold zlen. cbn [cnt snd List.length]. lia.
    + rewrite N. unfold zlen. cbn [List.length]. lia.
Qed.

Lemma zlen_app {A} (l1 l2 : list A) : zlen (l1 ++ l2) = zlen l1 + zlen l2.
Proof. unfold zlen. rewrite app_length. lia. Qed.

Ltac zl := rewrite ?zlen_app, ?cnt_app, ?app_nil_r in *; unfold zlen in *;
  cbn [cnt snd List.length app of_file] in *; unfold tmps, img in *; lia.

Lemma inv_main L paths s : inv L paths s -> exists s', main_body s = Ok s' /\ inv L paths s' /\
  m_paths s' = m_paths s /\ m_reading s' = m_reading s /\ m_arrays s' = [] /\
  (m_paths s = [] -> m_reading s = [] -> m_tmp s' = []).
Proof.
  intros I. destruct s as [ps rd ar tmp f res rs]. destruct I as [Iok Ig Is Ic If Ir Ira]. cbn in *.
  apply Forall_app in Ig. destruct Ig as [Ig1 Ig2].
  destruct (take_arrays_ok L ar tmp) as (q & E & G & S & C & N).
  { intros x Hx. apply Iok. apply in_or_app. right. apply in_or_app. now right. }
  { exact Ig1. }
  unfold main_body. cbn. rewrite E. cbn.
  destruct (reduce4_ok L (List.length q) q res G (le_n _)) as (q4 & d4 & E4 & G4 & L4 & N4 & C4 & D4 & S4). rewrite E4. cbn.
  assert (Hno : forall x, In x (ps ++ rd ++ []) -> exists a, x = inl a /\ List.length a = L).
  { intros x Hx. apply Iok. rewrite app_nil_r in Hx. rewrite app_assoc. apply in_or_app. now left. }
  assert (Hs4 : same_sum L (images (ps ++ rd ++ []) ++ map fst (q4 ++ of_file f)) (images paths)).
  { eapply same_sum_trans; [|exact Is]. intros k Hk. destruct (S4 k Hk) as [z4 W4], (S k Hk) as [z W].
    exists (z4 + z). rewrite !map_app, !images_app, !sum_px_app in *. cbn. rewrite W4, W. ring. }
  assert (Hd4 : zlen d4 + zlen q4 = zlen q) by (unfold zlen; lia).
  destruct (is_nil ps && is_nil rd) eqn:F.
  - apply andb_true_iff in F. destruct F as [F1 F2]. destruct ps; [|discriminate]. destruct rd; [|discriminate].
    destruct (reduce2_ok L (List.length q4) q4 (res ++ d4) G4 (le_n _)) as (q2 & d2 & E2 & G2 & L2 & N2 & C2 & D2 & S2). rewrite E2. cbn.
    assert (Hd2 : zlen d2 + zlen q2 = zlen q4) by (unfold zlen; lia).
    destruct q2 as [|x [|y q2]]; [| |cbn in L2; lia].
    + eexists. split; [reflexivity|]. split; [|cbn; auto].
      assert (q4 = []) by (destruct q4; [reflexivity|exfalso; apply N2; [discriminate|reflexivity]]). subst q4.
      assert (q = []) by (destruct q; [reflexivity|exfalso; apply N4; [discriminate|reflexivity]]). subst q.
      constructor; cbn [m_paths m_reading m_arrays m_tmp m_file m_results m_raised app of_file map images flat_map]; auto.
      * zl.
      * zl.
    + eexists. split; [reflexivity|]. split; [|cbn; auto].
      assert (Hf : f = None).
      { destruct f as [x'|]; [|reflexivity]. destruct If as (_ & _ & H3 & H4); [discriminate|]. subst.
        cbn in E. injection E as <-. cbn in *. injection E4 as E4 _. subst q4. cbn in E2. discriminate. }
      subst f. constructor; cbn [m_paths m_reading m_arrays m_tmp m_file m_results m_raised app of_file map images flat_map]; auto.
      * intros k Hk. destruct (S2 k Hk) as [z2 W2], (Hs4 k Hk) as [z4 W4]. exists (z2 + z4).
        cbn in W2, W4. rewrite app_nil_r in W4. cbn. rewrite W2, W4. ring.
      * zl.
      * zl.
  - eexists. split; [reflexivity|]. cbn. split; [|repeat split].
    + constructor; cbn [m_paths m_reading m_arrays m_tmp m_file m_results m_raised app of_file map images flat_map]; auto.
      * apply Forall_app. split; assumption.
      * zl.
      * intros H. destruct (If H) as (-> & -> & _). discriminate.
      * zl.
    + intros -> ->. discriminate.
Qed.

(** all the images can be read and have the same shape *)
Definition readable (L : nat) (paths : list (img + exn)) : Prop :=
  forall x, In x paths -> exists a, x = inl a /\ List.length a = L.

Lemma inv_init L paths : readable L paths -> inv L paths (m_init paths).
Proof.
  intros H. constructor; cbn [m_init m_paths m_reading m_arrays m_tmp m_file m_results m_raised of_file].
  - rewrite !app_nil_r. exact H.
  - constructor.
  - cbn. rewrite !app_nil_r. apply same_sum_refl.
  - zl.
  - congruence.
  - zl.
  - reflexivity.
Qed.

Lemma same_sum_perm L l1 l2 : Permutation l1 l2 -> same_sum L l1 l2.
Proof.
  intros P k Hk. exists 0. ring_simplify. induction P; cbn; lia.
Qed.

Lemma inv_step L paths s s' : inv L paths s -> mstep s s' -> inv L paths s'.
Proof.
  intros I H. destruct H as [p ps rd ar q f res|ps rd1 p rd2 ar q f res|s s' Hr E|s e Hr E].
  - destruct I as [Iok Ig Is Ic If Ir Ira].
    assert (Hf : f = None) by (destruct f; [|reflexivity]; destruct If as (H & _); [discriminate|discriminate H]).
    constructor; cbn [m_paths m_reading m_arrays m_tmp m_file m_results m_raised] in *; try assumption.
    + intros x Hx. apply Iok. rewrite !in_app_iff in *. cbn in *. tauto.
    + eapply same_sum_trans; [|exact Is]. apply same_sum_perm. apply Permutation_app_tail.
      unfold images. apply Permutation_flat_map. cbn. rewrite <- app_assoc. cbn. symmetry. apply Permutation_middle with (l1 := ps) (l2 := rd ++ ar) || idtac.
      transitivity (ps ++ p :: rd ++ ar); [apply Permutation_middle|]. apply Permutation_app_head. apply Permutation_middle.
    + zl.
    + intros H. congruence.
    + zl.
  - destruct I as [Iok Ig Is Ic If Ir Ira].
    constructor; cbn [m_paths m_reading m_arrays m_tmp m_file m_results m_raised] in *; try assumption.
    + intros x Hx. apply Iok. rewrite !in_app_iff in *. cbn in *. tauto.
    + eapply same_sum_trans; [|exact Is]. apply same_sum_perm. apply Permutation_app_tail.
      unfold images. apply Permutation_flat_map. apply Permutation_app_head. rewrite <- !app_assoc. apply Permutation_app_head.
      cbn. rewrite app_assoc. symmetry. apply Permutation_cons_append.
    + zl.
    + intros H. destruct (If H) as (_ & K & _). exfalso. destruct rd1; discriminate K.
    + zl.
  - destruct (inv_main L paths s I) as (s'' & E' & I' & _). rewrite E in E'. injection E' as ->. exact I'.
  - destruct (inv_main L paths s I) as (s'' & E' & I' & _). rewrite E in E'. discriminate.
Qed.

Lemma inv_steps L paths s : readable L paths -> msteps (m_init paths) s -> inv L paths s.
Proof.
  intros HR H. remember (m_init paths) as s0 eqn:E0. induction H as [s|s1 s2 s3 H IH H'].
  - subst. apply inv_init, HR.
  - eapply inv_step; [apply IH, E0|exact H'].
Qed.

(** the sum of the images of a process, modulo 2^32 *)
Definition partial_sum (L : nat) (l : list img) (f : img * Z) : Prop :=
  List.length (fst f) = L /\ snd f = zlen l /\
  forall k, (k < L)%nat -> nth k (fst f) 0 = sum_px k l mod two32.

Lemma images_zlen L paths : readable L paths -> zlen (images paths) = zlen paths.
Proof.
  intros H. unfold zlen. f_equal. induction paths as [|x l IH]; [reflexivity|].
  destruct (H x (or_introl eq_refl)) as (a & -> & _). cbn. f_equal. apply IH. intros y Hy. apply H. now right.
Qed.

(** ** One process, any schedule *)
Theorem C25_process : forall L paths s,
  readable L paths -> paths <> [] -> msteps (m_init paths) s ->
  m_raised s = None /\
  (m_ended s -> exists f, m_file s = Some f /\ partial_sum L (images paths) f /\
                          zlen (m_results s) = zlen paths - 1).
Proof.
  intros L paths s HR Hne HS. pose proof (inv_steps L paths s HR HS) as I. split; [apply (i_raised _ _ _ I)|].
  intros (E1 & E2 & E3 & E4 & _). destruct I as [Iok Ig Is Ic If Ir Ira]. rewrite E1, E2, E3, E4 in *. cbn [app] in *.
  destruct (m_file s) as [f|]; cbn [of_file app] in *.
  - exists f. split; [reflexivity|]. apply Forall_inv in Ig. destruct Ig as [G1 G2]. split; [split; [exact G1|split]|].
    + rewrite (images_zlen L paths HR). zl.
    + intros k Hk. destruct (Is k Hk) as [z W]. cbn in W. rewrite <- (Z.mod_small (nth k (fst f) 0) two32) by (apply G2, Hk).
      replace (nth k (fst f) 0) with (sum_px k (images paths) + z * two32) by lia. apply Z.mod_add. discriminate.
    + zl.
  - exfalso. apply Hne. unfold zlen in Ic. cbn in Ic. destruct paths; [reflexivity|cbn in Ic; lia].
Qed.
Print Assumptions C25_process.

(** The executions can always be finished. *)
Theorem C25_can_end : forall L paths s,
  readable L paths -> msteps (m_init paths) s -> exists s', msteps s s' /\ m_ended s'.
Proof.
  intros L paths s HR HS. pose proof (inv_steps L paths s HR HS) as I. clear HS.
  remember (List.length (m_paths s) * 2 + List.length (m_reading s))%nat as n eqn:En. revert s I En.
  induction n as [n IH] using lt_wf_ind. intros s I En.
  assert (trans : forall a b c, msteps a b -> msteps b c -> msteps a c).
  { intros a b c H1 H2. induction H2; [assumption|]. econstructor; [apply IHmsteps, H1|assumption]. }
  destruct s as [ps rd ar q f res rs]. pose proof (i_raised _ _ _ I) as Hr. cbn in Hr. subst rs. cbn in En.
  destruct rd as [|p rd].
  - destruct ps as [|p ps].
    + destruct (inv_main L paths _ I) as (s' & E & I' & H1 & H2 & H3 & H4). exists s'. split.
      * econstructor; [constructor|]. apply step_main; [reflexivity|exact E].
      * cbn in *. split; [exact H1|]. split; [exact H2|]. split; [exact H3|]. split; [auto|apply (i_raised _ _ _ I')].
    + assert (St : mstep (mk_mst (p :: ps) [] ar q f res None) (mk_mst ps ([] ++ [p]) ar q f res None)) by constructor.
      destruct (IH (List.length ps * 2 + 1)%nat) with (s := mk_mst ps ([] ++ [p]) ar q f res None) as (s' & H1 & H2).
      * cbn in En. lia. * eapply inv_step; eassumption. * reflexivity.
      * exists s'. split; [|exact H2]. eapply trans; [|exact H1]. econstructor; [constructor|exact St].
  - assert (St : mstep (mk_mst ps ([] ++ p :: rd) ar q f res None) (mk_mst ps ([] ++ rd) (ar ++ [p]) q f res None)) by constructor.
    destruct (IH (List.length ps * 2 + List.length rd)%nat) with (s := mk_mst ps ([] ++ rd) (ar ++ [p]) q f res None) as (s' & H1 & H2).
    * cbn in En. lia. * eapply inv_step; eassumption. * reflexivity.
    * exists s'. split; [|exact H2]. eapply trans; [|exact H1]. econstructor; [constructor|exact St].
Qed.
Print Assumptions C25_can_end.

(** ** Any number of processes *)

(** [parts]: the images of each process (with at least one image); [files]: what each process
    has written; [results]: all the results recorded by the processes. *)
Theorem C25_mean : forall L (parts : list (list (img + exn))) (states : list mst),
  parts <> [] ->
  Forall2 (fun paths s => readable L paths /\ paths <> [] /\ msteps (m_init paths) s /\ m_ended s) parts states ->
  let all := images (List.concat parts) in
  let files := flat_map (fun s => of_file (m_file s)) states in
  let results := flat_map m_results states in
  exists mean res,
    final_seq_work files results = Ok (mean, res) /\
    List.length mean = L /\ zlen res = zlen all /\
    forall k, (k < L)%nat ->
      nth k mean 0 = (sum_px k all mod two32) / zlen all /\
      (0 <= sum_px k all < two32 -> nth k mean 0 = sum_px k all / zlen all).
Proof.
  intros L parts states Hne HF all files results.
  assert (H : Forall (good L) files /\ cnt files = zlen all /\ same_sum L (map fst files) all /\
              zlen results + zlen files = zlen all /\ (parts <> [] -> files <> [])).
  { unfold all, files, results. clear all files results Hne.
    induction HF as [|paths s parts states (HR & Hn & HS & HE) HF IH].
    - repeat split; try constructor; cbn; auto. apply same_sum_refl.
    - destruct IH as (G & C & S & N & _). destruct (C25_process L paths s HR Hn HS) as [_ HP].
      destruct (HP HE) as (f & Ef & (F1 & F2 & F3) & Hres). cbn [flat_map List.concat]. rewrite Ef. cbn [of_file app].
      rewrite images_app. split; [|split; [|split; [|split]]].
      + constructor; [|exact G]. split; [exact F1|]. intros k Hk. rewrite F3 by exact Hk. apply Z.mod_pos_bound. reflexivity.
      + cbn [cnt]. rewrite zlen_app, C, F2. reflexivity.
      + intros k Hk. destruct (S k Hk) as [z W]. cbn [map sum_px]. rewrite sum_px_app, W, (F3 k Hk).
        exists (z - sum_px k (images paths) / two32).
        pose proof (Z.div_mod (sum_px k (images paths)) two32 ltac:(discriminate)). lia.
      + rewrite !zlen_app, <- N, (images_zlen L paths HR), Hres. unfold zlen. cbn [List.length]. lia.
      + discriminate. }
  destruct H as (G & C & S & N & Hf). specialize (Hf Hne).
  unfold final_seq_work.
  assert (G' : Forall (good L) (rev files)) by (apply Forall_rev, G).
  destruct (reduce4_ok L (List.length (rev files)) (rev files) results G' (le_n _)) as (q4 & d4 & E4 & G4 & L4 & N4 & C4 & D4 & S4).
  rewrite E4. cbn [bind].
  destruct (reduce2_ok L (List.length q4) q4 (results ++ d4) G4 (le_n _)) as (q2 & d2 & E2 & G2 & L2 & N2 & C2 & D2 & S2).
  rewrite E2. cbn [bind].
  assert (rev files <> []) by (intros K; apply Hf; rewrite <- (rev_involutive files), K; reflexivity).
  destruct q2 as [|[arr n] [|y q2]]; [exfalso; apply N2; auto| |cbn in L2; lia].
  assert (Hcr : forall q, cnt (rev q) = cnt q).
  { induction q as [|x q IHq]; [reflexivity|]. cbn. rewrite cnt_app. cbn. lia. }
  assert (Hn : n = zlen all). { cbn in C2. rewrite <- C, <- (Hcr files), <- C4, <- C2. lia. }
  apply Forall_inv in G2. destruct G2 as [GA GB]. subst n. cbn [fst] in *.
  assert (HV : forall k, (k < L)%nat -> nth k arr 0 = sum_px k all mod two32).
  { intros k Hk. destruct (S2 k Hk) as [z2 W2], (S4 k Hk) as [z4 W4], (S k Hk) as [z W].
    assert (P : sum_px k (map fst (rev files)) = sum_px k (map fst files)).
    { destruct (same_sum_perm L (map fst (rev files)) (map fst files)) with (k := k) as [z' _]; [|exact Hk|].
      - apply Permutation_map. symmetry. apply Permutation_rev.
      - clear. rewrite map_rev. induction (map fst files) as [|a l IHl]; [reflexivity|]. cbn. rewrite sum_px_app. cbn. lia. }
    cbn in W2. rewrite <- (Z.mod_small (nth k arr 0) two32) by (apply GB, Hk).
    replace (nth k arr 0) with (sum_px k all + (z2 + z4 + z) * two32) by lia. apply Z.mod_add. discriminate. }
  eexists. eexists. split; [reflexivity|]. split; [rewrite map_length; exact GA|]. split.
  - rewrite rev_length in D4. rewrite !zlen_app. unfold zlen in *. cbn in *. lia.
  - intros k Hk. rewrite nth_indep with (d' := 0 / zlen all) by (rewrite map_length, GA; exact Hk).
    rewrite (map_nth (fun x => x / zlen all)), HV by exact Hk. split; [reflexivity|].
    intros H'. rewrite (Z.mod_small (sum_px k all)) by exact H'. reflexivity.
Qed.
Print Assumptions C25_mean.

(** Two ways to distribute the same images give the same mean image. *)
Theorem C25_independent : forall L parts1 states1 parts2 states2 m1 r1 m2 r2,
  parts1 <> [] -> parts2 <> [] -> Permutation (List.concat parts1) (List.concat parts2) ->
  Forall2 (fun paths s => readable L paths /\ paths <> [] /\ msteps (m_init paths) s /\ m_ended s) parts1 states1 ->
  Forall2 (fun paths s => readable L paths /\ paths <> [] /\ msteps (m_init paths) s /\ m_ended s) parts2 states2 ->
  final_seq_work (flat_map (fun s => of_file (m_file s)) states1) (flat_map m_results states1) = Ok (m1, r1) ->
  final_seq_work (flat_map (fun s => of_file (m_file s)) states2) (flat_map m_results states2) = Ok (m2, r2) ->
  m1 = m2 /\ List.length r1 = List.length r2.
Proof.
  intros L parts1 states1 parts2 states2 m1 r1 m2 r2 H1 H2 P F1 F2 E1 E2.
  destruct (C25_mean L parts1 states1 H1 F1) as (m1' & r1' & E1' & L1 & R1 & V1).
  destruct (C25_mean L parts2 states2 H2 F2) as (m2' & r2' & E2' & L2 & R2 & V2).
  rewrite E1 in E1'. injection E1' as <- <-. rewrite E2 in E2'. injection E2' as <- <-.
  assert (PI : Permutation (images (List.concat parts1)) (images (List.concat parts2))) by (apply Permutation_flat_map, P).
  assert (Hz : zlen (images (List.concat parts1)) = zlen (images (List.concat parts2))) by (unfold zlen; f_equal; apply Permutation_length, PI).
  split.
  - apply nth_ext with (d := 0) (d' := 0); [congruence|]. intros k Hk. rewrite L1 in Hk.
    destruct (V1 k Hk) as [-> _], (V2 k Hk) as [-> _].
    assert (S : forall l1 l2, Permutation l1 l2 -> sum_px k l1 = sum_px k l2) by (clear; intros l1 l2 P; induction P; cbn; lia).
    rewrite (S _ _ PI), Hz. reflexivity.
  - unfold zlen in *. lia.
Qed.
Print Assumptions C25_independent.

(** ** What does not hold *)

(** Sums are computed with 32 bits: 65538 images of value 65535 (uint16) have 0 for mean. *)
Theorem C25_overflow_refuted :
  exists n v, 0 <= v < 65536 /\
    (sum_px 0 (repeat [v] n) mod two32) / Z.of_nat n <> sum_px 0 (repeat [v] n) / Z.of_nat n.
Proof.
  assert (S : forall v n, sum_px 0 (repeat [v] n) = v * Z.of_nat n).
  { intros v. induction n as [|n IH]; [cbn; lia|]. cbn [repeat sum_px nth]. rewrite IH. lia. }
  exists (Z.to_nat 65538), 65535. split; [lia|]. rewrite S, Z2Nat.id by lia. vm_compute. discriminate.
Qed.
Print Assumptions C25_overflow_refuted.

(** An image which cannot be read: "main" raises AttributeError, the whole execution stops. *)
Theorem C25_failed_read_refuted : exists s,
  msteps (m_init [inl [1]; inr (UserError 0); inl [3]]) s /\ m_raised s = Some AttributeError.
Proof.
  eexists. split.
  - eapply msteps_more; [eapply msteps_more; [eapply msteps_more; [eapply msteps_more; [eapply msteps_more; [apply msteps_refl|]|]|]|]|].
    + apply step_start.
    + apply (step_read _ [] _ []).
    + apply step_start.
    + apply (step_read _ [] _ []).
    + apply step_main_raises; [reflexivity|]. reflexivity.
  - reflexivity.
Qed.
Print Assumptions C25_failed_read_refuted.

(** No file: assertion error. *)
Theorem C25_no_file : forall res, final_seq_work [] res = Err AssertionError.
Proof. reflexivity. Qed.

Lemma msteps_cons a b c : mstep a b -> msteps b c -> msteps a c.
Proof.
  intros H1 H2. revert H1. induction H2 as [s|s1 s2 s3 H IH H']; intros H1.
  - eapply msteps_more; [apply msteps_refl|exact H1].
  - eapply msteps_more; [apply IH, H1|exact H'].
Qed.

(** *** Example: seven images of two pixels in two processes *)
Definition ex_part1 : list (img + exn) := [inl [1; 10]; inl [2; 20]; inl [3; 30]; inl [4; 40]; inl [5; 50]].
Definition ex_part2 : list (img + exn) := [inl [6; 60]; inl [7; 73]].
Example C25_example :
  readable 2 ex_part1 /\ readable 2 ex_part2 /\
  exists s1 s2, msteps (m_init ex_part1) s1 /\ m_ended s1 /\ msteps (m_init ex_part2) s2 /\ m_ended s2 /\
    m_file s1 = Some ([15; 150], 5) /\ m_results s1 = [4; 4; 4; 5] /\
    final_seq_work (of_file (m_file s1) ++ of_file (m_file s2)) (m_results s1 ++ m_results s2)
    = Ok ([4; 40], [4; 4; 4; 5; 2; 7; 7]).
Proof.
  assert (R1 : readable 2 ex_part1) by (intros x Hx; cbn in Hx; repeat (destruct Hx as [<-|Hx]; [eexists; split; reflexivity|]); destruct Hx).
  assert (R2 : readable 2 ex_part2) by (intros x Hx; cbn in Hx; repeat (destruct Hx as [<-|Hx]; [eexists; split; reflexivity|]); destruct Hx).
  split; [exact R1|]. split; [exact R2|].
  Ltac rd := eapply msteps_cons; [apply step_start|]; cbn [app]; eapply msteps_cons; [apply (step_read _ [] _ [])|]; cbn [app].
  eexists. eexists. split; [|split; [|split; [|split]]].
  - unfold ex_part1, m_init. rd. rd. rd. rd.
    eapply msteps_cons; [apply step_main; [reflexivity|vm_compute; reflexivity]|]. rd.
    eapply msteps_cons; [apply step_main; [reflexivity|vm_compute; reflexivity]|]. apply msteps_refl.
  - repeat split.
  - unfold ex_part2, m_init. rd. rd.
    eapply msteps_cons; [apply step_main; [reflexivity|vm_compute; reflexivity]|]. apply msteps_refl.
  - repeat split.
  - repeat split.
Qed.

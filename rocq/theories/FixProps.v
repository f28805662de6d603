(** C35: detection of the false vectors and replacement by secondary peaks. *)
From Coq Require Import Ring_theory ZArithRing InitialRing.
From Verif Require Import PyBase NeighModel NeighProps FixModel FixProofs PeakProps.
Open Scope string_scope.
Open Scope Z_scope.

Section C35.
Context {F : Type}.
Variables (zero one : F) (add mul sub : F -> F -> F) (opp : F -> F).
Hypothesis Fring : ring_theory zero one add mul sub opp eq.
Variables (div : F -> F -> F) (ltb : F -> F -> bool) (sqrt : F -> F).
Variable divc : F -> Z -> F.
Variable fmt_diff : F -> string.
Variable ratio : F.
Variable P : params (F := F).
Variables n0 n1 : Z.
Hypothesis H0 : 2 <= n0.
Hypothesis H1 : 2 <= n1.

(** results given to the fix step: arrays with one value per vector of the grid; the keys of the dictionary of the errors
    are different indices of vectors *)
Definition input_ok (r : res (F := F)) : Prop :=
  zlen (dxs r) = n0 * n1 /\ zlen (dys r) = n0 * n1 /\ zlen (cmax r) = n0 * n1 /\
  NoDup (map fst (errs r)) /\ forall k, In k (map fst (errs r)) -> 0 <= k < n0 * n1.

(** Specification: the reasons to remove a vector. *)
Section Reasons.
Variable r : res (F := F).
Definition has_error (i : Z) : bool := match dget (errs r) i with Some _ => true | None => false end.
Definition low_correl (i : Z) : bool := lt ltb (at_ (cmax r) i) (Some (correl_min P)).
Definition norm2 (x y : option F) : option F := lift2 add (lift2 mul x x) (lift2 mul y y).
Definition too_large (i : Z) : bool :=
  match displacement_max P with Some m => lt ltb (Some (mul m m)) (norm2 (at_ (dxs r) i) (at_ (dys r) i)) | None => false end.
(** vectors kept by the first criteria, whose neighbours are then compared *)
Definition kept (i : Z) : bool := negb (has_error i || low_correl i || too_large i).
Definition restrict (l : list (option F)) : list (option F) := map (fun i => if kept i then at_ l i else None) (range0 (n0 * n1)).
(** squared distance to the mean of the neighbours *)
Definition distance2 (mx my : list (option F)) (i : Z) : option F :=
  norm2 (lift2 sub (at_ mx i) (at_ (dxs r) i)) (lift2 sub (at_ my i) (at_ (dys r) i)).
Definition too_different (t : F) (mx my : list (option F)) (i : Z) : bool :=
  kept i && lt ltb (Some (mul t t)) (distance2 mx my i).
End Reasons.

Lemma in_range_mask (r : res) i : input_ok r -> has_error r i = true -> 0 <= i < n0 * n1.
Proof.
  intros (_ & _ & _ & _ & Hk) He. apply Hk. unfold has_error in He. apply dget_In.
  destruct (dget (errs r) i); [eauto|discriminate].
Qed.

(** the message of a vector after the first two criteria *)
Definition message2 (r : res) (i : Z) : option string :=
  match dget (errs r) i with
  | Some e => Some (if low_correl r i then e ++ " + correl < correl_min" else e)
  | None => if low_correl r i then Some "correl < correl_min"
            else if too_large r i then Some "delta2 < displacement_max2" else None
  end.

Definition inr (i : Z) : bool := (0 <=? i) && (i <? n0 * n1).

Lemma stage12 r : input_ok r ->
  exists s s2, stage_correl ltb P r = Ok s /\ stage_displacement add mul ltb P s = Ok s2 /\
    good (n0 * n1) (at_ (dxs r)) (at_ (dys r)) (fun i => inr i && negb (kept r i)) (fun i => if inr i then message2 r i else None) s2.
Proof.
  intros I. pose proof I as (Lx & Ly & Lc & Hd & Hk). unfold stage_correl.
  set (s0 := {| lx := dxs r; ly := dys r; wx := []; wy := []; le := errs r |}).
  assert (G0 : good (n0 * n1) (at_ (dxs r)) (at_ (dys r)) (fun _ => false) (dget (errs r)) s0).
  { constructor; cbn [lx ly wx wy le s0 dget]; intros; try reflexivity; try assumption; discriminate. }
  destruct (remove_loop _ _ _ (map fst (errs r)) _ _ _ G0 Hd) as (s1 & E1 & G1).
  { intros k Hin. split; [apply Hk; exact Hin|]. split; [reflexivity|]. apply dget_In in Hin. destruct Hin as (v & ->). discriminate. }
  rewrite E1. cbn [bind].
  assert (M1 : forall i, mem i (map fst (errs r)) = has_error r i).
  { intros i. unfold has_error. destruct (dget (errs r) i) eqn:E.
    - apply mem_In, dget_In. eauto.
    - destruct (mem i (map fst (errs r))) eqn:Em; [|reflexivity]. apply mem_In, dget_In in Em. destruct Em. congruence. }
  set (inds := nonzero _).
  destruct (put_ok _ _ _ inds "correl < correl_min" _ _ _ G1 (nonzero_NoDup _)) as (s2 & E2 & G2).
  { intros k Hin. apply nonzero_In in Hin. rewrite map_zlen in Hin. lia. }
  rewrite E2.
  assert (M2 : forall i, mem i inds = inr i && low_correl r i).
  { intros i. destruct (inr i) eqn:Ei; cbn [andb]; unfold inr in Ei.
    - unfold inds. rewrite mem_nonzero by (rewrite map_zlen; lia). rewrite map_at by lia. reflexivity.
    - destruct (mem i inds) eqn:Em; [|reflexivity]. apply mem_In, nonzero_In in Em. rewrite map_zlen in Em. lia. }
  assert (G2' : good (n0 * n1) (at_ (dxs r)) (at_ (dys r)) (fun i => inr i && (has_error r i || low_correl r i))
     (fun i => if inr i then match dget (errs r) i with
                 | Some e => Some (if low_correl r i then e ++ " + correl < correl_min" else e)
                 | None => if low_correl r i then Some "correl < correl_min" else None end else None) s2).
  { apply (good_ext _ _ _ _ _ _ _ _ G2); intros i; unfold add_msg; rewrite M2, ?M1.
    - destruct (has_error r i) eqn:Eh.
      + apply in_range_mask in Eh; [|exact I]. unfold inr. destruct (0 <=? i) eqn:?, (i <? n0 * n1) eqn:?; try lia; destruct (low_correl r i); reflexivity.
      + destruct (inr i), (low_correl r i); reflexivity.
    - destruct (inr i) eqn:Ei; cbn [andb].
      + unfold has_error. destruct (low_correl r i), (dget (errs r) i); reflexivity.
      + destruct (dget (errs r) i) eqn:Ee; [|reflexivity]. exfalso.
        assert (has_error r i = true) as Hh by (unfold has_error; rewrite Ee; reflexivity).
        apply in_range_mask in Hh; [|exact I]. unfold inr in Ei. lia. }
  clear G2 M2 inds E2.
  assert (Eh : forall i, has_error r i = match dget (errs r) i with Some _ => true | None => false end) by reflexivity.
  exists s2. unfold stage_displacement. destruct (displacement_max P) as [m|] eqn:Em.
  - set (d2 := map2 _ _ _). set (inds := nonzero _).
    assert (Ld : zlen d2 = n0 * n1) by (unfold d2; rewrite map2_zlen; rewrite (g_lx _ _ _ _ _ _ G2'); [reflexivity|symmetry; apply (g_ly _ _ _ _ _ _ G2')]).
    destruct (put_ok _ _ _ inds "delta2 < displacement_max2" _ _ _ G2' (nonzero_NoDup _)) as (s3 & E3 & G3).
    { intros k Hin. apply nonzero_In in Hin. rewrite map_zlen, Ld in Hin. lia. }
    exists s3. split; [reflexivity|]. split; [exact E3|].
    assert (M3 : forall i, mem i inds = inr i && negb (has_error r i || low_correl r i) && too_large r i).
    { intros i. destruct (inr i) eqn:Ei; cbn [andb]; unfold inr in Ei.
      - unfold inds. rewrite mem_nonzero by (rewrite map_zlen; lia). rewrite map_at by lia.
        unfold d2. rewrite map2_at by (rewrite (g_lx _ _ _ _ _ _ G2'), ?(g_ly _ _ _ _ _ _ G2'); lia).
        rewrite (g_x _ _ _ _ _ _ G2'), (g_y _ _ _ _ _ _ G2') by lia. unfold inr. rewrite Ei. cbn [andb].
        unfold too_large. rewrite Em. destruct (has_error r i || low_correl r i); reflexivity.
      - destruct (mem i inds) eqn:Emm; [|reflexivity]. apply mem_In, nonzero_In in Emm. rewrite map_zlen, Ld in Emm. lia. }
    apply (good_ext _ _ _ _ _ _ _ _ G3); intros i; unfold add_msg; rewrite M3.
    + unfold kept. destruct (inr i), (has_error r i), (low_correl r i), (too_large r i); reflexivity.
    + unfold message2. rewrite Eh. destruct (inr i); cbn [andb]; [|reflexivity].
      destruct (dget (errs r) i), (low_correl r i), (too_large r i); reflexivity.
  - exists s2. split; [reflexivity|]. split; [reflexivity|].
    assert (Tl : forall i, too_large r i = false) by (intros; unfold too_large; rewrite Em; reflexivity).
    apply (good_ext _ _ _ _ _ _ _ _ G2'); intros i; unfold kept, message2; rewrite Tl.
    + destruct (inr i), (has_error r i), (low_correl r i); reflexivity.
    + destruct (inr i), (dget (errs r) i), (low_correl r i); reflexivity.
Qed.

Lemma range0_nth n i : 0 <= i < n -> nth (Z.to_nat i) (range0 n) 0 = i.
Proof.
  intros Hi. unfold range0. rewrite (nth_indep _ 0 (Z.of_nat 0)) by (rewrite map_length, seq_length; lia).
  rewrite map_nth, seq_nth by lia. lia.
Qed.
Lemma restrict_at r l i : 0 <= i < n0 * n1 -> at_ (restrict r l) i = if kept r i then at_ l i else None.
Proof.
  intros Hi. unfold restrict, at_ at 1. set (f := fun i => _).
  rewrite (nth_indep _ None (f 0)) by (rewrite map_length; unfold range0; rewrite map_length, seq_length; lia).
  rewrite map_nth, range0_nth by exact Hi. reflexivity.
Qed.
Lemma restrict_zlen r l : zlen (restrict r l) = n0 * n1.
Proof. unfold restrict, zlen, range0. rewrite !map_length, seq_length. nia. Qed.
Lemma at_ext (l m : list (option F)) : zlen l = zlen m -> (forall i, 0 <= i < zlen l -> at_ l i = at_ m i) -> l = m.
Proof.
  unfold zlen. intros Hl H. apply nth_ext with (d := None) (d' := None); [lia|].
  intros k Hk. specialize (H (Z.of_nat k) ltac:(lia)). unfold at_ in H. rewrite Nat2Z.id in H. exact H.
Qed.

(** What the detection does, when a threshold is given: the vectors removed are exactly those with a reason; each one is
    recorded, with its message and its values, and nothing else changes. *)
Definition removed (r : res) (t : F) (mx my : list (option F)) (i : Z) : bool :=
  negb (kept r i) || too_different r t mx my i.
Definition message (r : res) (t : F) (mx my : list (option F)) (i : Z) : option string :=
  if too_different r t mx my i
  then Some ("diff neighbour too large" ++ match distance2 r mx my i with Some d => fmt_diff (sqrt d) | None => " (diff = nan)" end)
  else message2 r i.

Definition fix_spec (r : res) (t : F) (mx my : list (option F)) (r' : res) : Prop :=
  zlen (dxs r') = n0 * n1 /\ zlen (dys r') = n0 * n1 /\ cmax r' = cmax r /\ replaced r' = replaced r /\
  exists w_x w_y, wrong r' = Some (w_x, w_y) /\
  (forall i, 0 <= i < n0 * n1 ->
     at_ (dxs r') i = (if removed r t mx my i then None else at_ (dxs r) i) /\
     at_ (dys r') i = (if removed r t mx my i then None else at_ (dys r) i) /\
     dget w_x i = (if removed r t mx my i then Some (at_ (dxs r) i) else None) /\
     dget w_y i = (if removed r t mx my i then Some (at_ (dys r) i) else None) /\
     dget (errs r') i = message r t mx my i /\
     (removed r t mx my i = true <-> dget (errs r') i <> None)) /\
  (forall i, ~ 0 <= i < n0 * n1 -> dget (errs r') i = None /\ dget w_x i = None /\ dget w_y i = None).

Lemma removed_message r t mx my i : removed r t mx my i = true <-> message r t mx my i <> None.
Proof.
  unfold removed, message, kept, message2, has_error. destruct (too_different r t mx my i).
  - rewrite orb_true_r. split; [discriminate|reflexivity].
  - rewrite orb_false_r, negb_involutive. destruct (dget (errs r) i), (low_correl r i), (too_large r i); cbn; split; congruence.
Qed.

Lemma detect_ok r t : input_ok r -> threshold P = Some t ->
  exists r' mx my d2,
    mean_neighbors_xy zero add divc n0 n1 (restrict r (dxs r)) (restrict r (dys r)) = Ok (mx, my) /\
    detect zero add sub mul ltb sqrt divc fmt_diff P n0 n1 r = Ok (r', Some (mx, my, d2)) /\
    fix_spec r t mx my r' /\ zlen mx = n0 * n1 /\ zlen my = n0 * n1 /\ zlen d2 = n0 * n1 /\
    (forall i, 0 <= i < n0 * n1 -> at_ d2 i = if kept r i then distance2 r mx my i else None).
Proof.
  intros I Ht. destruct (stage12 r I) as (s & s2 & E1 & E2 & G). unfold detect. rewrite E1. cbn [bind]. rewrite E2. cbn [bind]. rewrite Ht.
  pose proof I as (Lx & Ly & Lc & Hd & Hk).
  assert (Rx : lx s2 = restrict r (dxs r)).
  { apply at_ext; [rewrite (g_lx _ _ _ _ _ _ G), restrict_zlen; reflexivity|]. rewrite (g_lx _ _ _ _ _ _ G). intros i Hi.
    rewrite (g_x _ _ _ _ _ _ G), restrict_at by exact Hi. unfold inr. destruct (0 <=? i) eqn:?, (i <? n0 * n1) eqn:?; try lia.
    destruct (kept r i); reflexivity. }
  assert (Ry : ly s2 = restrict r (dys r)).
  { apply at_ext; [rewrite (g_ly _ _ _ _ _ _ G), restrict_zlen; reflexivity|]. rewrite (g_ly _ _ _ _ _ _ G). intros i Hi.
    rewrite (g_y _ _ _ _ _ _ G), restrict_at by exact Hi. unfold inr. destruct (0 <=? i) eqn:?, (i <? n0 * n1) eqn:?; try lia.
    destruct (kept r i); reflexivity. }
  destruct (C34_mean zero one add mul sub opp Fring divc n0 n1 H0 H1 (restrict r (dxs r)) (restrict r (dys r))
      (restrict_zlen _ _) (restrict_zlen _ _)) as (mx & my & Em & Lmx & Lmy & Hm).
  unfold stage_neighbours. rewrite Rx, Ry, Em. cbn [bind].
  set (d2 := map2 _ _ _). set (inds := nonzero _).
  assert (Ld1 : zlen (map2 (lift2 sub) mx (restrict r (dxs r))) = n0 * n1) by (rewrite map2_zlen; [exact Lmx|rewrite restrict_zlen; exact Lmx]).
  assert (Ld2 : zlen (map2 (lift2 sub) my (restrict r (dys r))) = n0 * n1) by (rewrite map2_zlen; [exact Lmy|rewrite restrict_zlen; exact Lmy]).
  assert (Ld : zlen d2 = n0 * n1) by (unfold d2; rewrite map2_zlen; [exact Ld1|lia]).
  assert (Ad : forall i, 0 <= i < n0 * n1 -> at_ d2 i = if kept r i then distance2 r mx my i else None).
  { intros i Hi. unfold d2. rewrite map2_at by lia.
    rewrite (map2_at (lift2 sub) mx) by (rewrite ?restrict_zlen; lia).
    rewrite (map2_at (lift2 sub) my) by (rewrite ?restrict_zlen; lia).
    rewrite !restrict_at by exact Hi. unfold distance2, norm2, sq. destruct (kept r i); [reflexivity|].
    destruct (at_ mx i), (at_ my i); reflexivity. }
  destruct (put_ok _ _ _ inds "diff neighbour too large" _ _ _ G (nonzero_NoDup _)) as (s3 & E3 & G3).
  { intros k Hin. apply nonzero_In in Hin. rewrite map_zlen, Ld in Hin. lia. }
  rewrite E3. cbn [bind].
  assert (M : forall i, mem i inds = inr i && too_different r t mx my i).
  { intros i. destruct (inr i) eqn:Ei; cbn [andb]; unfold inr in Ei.
    - unfold inds. rewrite mem_nonzero by (rewrite map_zlen; lia). rewrite map_at by lia. rewrite Ad by lia.
      unfold too_different. destruct (kept r i); reflexivity.
    - destruct (mem i inds) eqn:Emm; [|reflexivity]. apply mem_In, nonzero_In in Emm. rewrite map_zlen, Ld in Emm. lia. }
  set (txt := fun i => match at_ d2 i with Some x => fmt_diff (sqrt x) | None => " (diff = nan)" end).
  set (f := fun s ivec => do e <- dget_err (le s) ivec ; _).
  destruct (suffix_loop (n0 * n1) (at_ (dxs r)) (at_ (dys r)) txt f inds) with (fl := fun i => mem i inds || inr i && negb (kept r i))
     (ms := add_msg inds "diff neighbour too large" (fun i => inr i && negb (kept r i)) (fun i => if inr i then message2 r i else None))
     (s := s3) as (s4 & E4 & G4).
  { intros s' k e Hin He. unfold f. unfold dget_err. rewrite He. cbn [bind].
    apply nonzero_In in Hin. rewrite map_zlen in Hin. rewrite (py_get_at d2 k None) by lia. reflexivity. }
  { exact G3. }
  { apply nonzero_NoDup. }
  { intros k Hin. unfold add_msg. assert (Hm' : mem k inds = true) by (apply mem_In; exact Hin). rewrite Hm'.
    rewrite M in Hm'. unfold too_different in Hm'. destruct (inr k), (kept r k); cbn in Hm'; try discriminate. }
  rewrite E4. cbn [bind].
  eexists _, mx, my, d2. split; [reflexivity|]. split; [reflexivity|].
  assert (Mi : forall i, 0 <= i < n0 * n1 -> mem i inds = too_different r t mx my i).
  { intros i Hi. rewrite M. unfold inr. destruct (0 <=? i) eqn:?, (i <? n0 * n1) eqn:?; try lia. reflexivity. }
  assert (Ri : forall i, 0 <= i < n0 * n1 -> inr i = true) by (intros; unfold inr; lia).
  split; [|split; [exact Lmx|split; [exact Lmy|split; [exact Ld|exact Ad]]]].
  - unfold fix_spec. cbn [dxs dys cmax errs wrong replaced].
    split; [apply (g_lx _ _ _ _ _ _ G4)|]. split; [apply (g_ly _ _ _ _ _ _ G4)|]. split; [reflexivity|]. split; [reflexivity|].
    exists (wx s4), (wy s4). split; [reflexivity|]. split.
    + intros i Hi.
      assert (Rm : mem i inds || inr i && negb (kept r i) = removed r t mx my i).
      { rewrite Mi, Ri by exact Hi. unfold removed. apply orb_comm. }
      assert (Em4 : dget (le s4) i = message r t mx my i).
      { rewrite (g_e _ _ _ _ _ _ G4). unfold add_msg. rewrite Mi, Ri by exact Hi. unfold message.
        destruct (too_different r t mx my i) eqn:Etd; [|reflexivity].
        assert (Kt : kept r i = true) by (unfold too_different in Etd; destruct (kept r i); [reflexivity|discriminate]).
        rewrite Kt. cbn [negb andb]. unfold txt. rewrite Ad, Kt by exact Hi. reflexivity. }
      rewrite (g_x _ _ _ _ _ _ G4), (g_y _ _ _ _ _ _ G4), (g_wx _ _ _ _ _ _ G4), (g_wy _ _ _ _ _ _ G4), Em4, !Rm by exact Hi.
      repeat (split; [reflexivity|]). apply removed_message.
    + intros i Hi. assert (Ni : inr i = false) by (unfold inr; lia).
      assert (Nm : mem i inds = false) by (rewrite M, Ni; reflexivity).
      rewrite (g_wx _ _ _ _ _ _ G4), (g_wy _ _ _ _ _ _ G4), (g_e _ _ _ _ _ _ G4). unfold add_msg. rewrite Nm, Ni. auto.
Qed.

(** C35, one peak *)
Theorem C35_fix r t peaks inputs subpix :
  input_ok r -> threshold P = Some t -> nb_peaks P < 2 ->
  exists r' mx my,
    mean_neighbors_xy zero add divc n0 n1 (restrict r (dxs r)) (restrict r (dys r)) = Ok (mx, my) /\
    calcul zero add sub mul div ltb sqrt divc fmt_diff ratio P n0 n1 peaks inputs subpix r = Ok r' /\
    fix_spec r t mx my r'.
Proof.
  intros I Ht Hn. destruct (detect_ok r t I Ht) as (r' & mx & my & d2 & Em & Ed & Hs & _).
  exists r', mx, my. split; [exact Em|]. split; [|exact Hs]. unfold calcul. rewrite Ed. cbn [bind].
  destruct (nb_peaks P <? 2) eqn:E; [reflexivity|lia].
Qed.

(** Without threshold: the vectors removed are those with one of the first reasons and the errors are recorded, but not
    the values of the vectors which are removed. *)
Theorem C35_no_threshold_refuted r peaks inputs subpix :
  input_ok r -> threshold P = None -> nb_peaks P < 2 ->
  exists r', calcul zero add sub mul div ltb sqrt divc fmt_diff ratio P n0 n1 peaks inputs subpix r = Ok r' /\
    wrong r' = wrong r /\
    forall i, 0 <= i < n0 * n1 ->
      at_ (dxs r') i = (if kept r i then at_ (dxs r) i else None) /\
      at_ (dys r') i = (if kept r i then at_ (dys r) i else None) /\
      (kept r i = false <-> dget (errs r') i <> None).
Proof.
  intros I Ht Hn. destruct (stage12 r I) as (s & s2 & E1 & E2 & G). unfold calcul, detect. rewrite E1. cbn [bind]. rewrite E2. cbn [bind].
  rewrite Ht. cbn [bind]. destruct (nb_peaks P <? 2) eqn:E; [|lia]. eexists. split; [reflexivity|]. cbn [wrong dxs dys errs]. split; [reflexivity|].
  intros i Hi. assert (Ri : inr i = true) by (unfold inr; lia).
  rewrite (g_x _ _ _ _ _ _ G), (g_y _ _ _ _ _ _ G), (g_e _ _ _ _ _ _ G), Ri by exact Hi.
  split; [destruct (kept r i); reflexivity|]. split; [destruct (kept r i); reflexivity|].
  unfold kept, message2, has_error. destruct (dget (errs r) i), (low_correl r i), (too_large r i); cbn; split; congruence.
Qed.

(** *** Secondary peaks *)
Section Peaks.
Variable peaks : list (option (list (F * F * F))).
Variable inputs : option (list F * list F).
Variable subpix : Z -> F -> F -> result (F * F).
Definition input_of (i : Z) : F * F :=
  match inputs with Some (ix, iy) => (nth (Z.to_nat i) ix zero, nth (Z.to_nat i) iy zero) | None => (zero, zero) end.
Definition inputs_ok : Prop :=
  zlen peaks = n0 * n1 /\ match inputs with Some (ix, iy) => zlen ix = n0 * n1 /\ zlen iy = n0 * n1 | None => True end.
(** the subpixel estimator raises no other exception than PIVError *)
Definition subpix_ok : Prop := forall i x y e, subpix i x y = Err e -> e = PIVError.

(** a secondary peak which is good enough *)
Definition good_peak (c0 : option F) (p : F * F * F) : bool :=
  let '(_, _, corr) := p in lt ltb (Some ratio) (lift2 div (Some corr) c0) && ltb (correl_min P) corr.

(** Without threshold, a good secondary peak makes the computation fail. *)
Theorem C35_peaks_no_threshold_refuted r i l p :
  input_ok r -> inputs_ok -> threshold P = None -> 2 <= nb_peaks P ->
  0 <= i < n0 * n1 -> nth (Z.to_nat i) peaks None = Some l -> In p l -> good_peak (at_ (cmax r) i) p = true ->
  calcul zero add sub mul div ltb sqrt divc fmt_diff ratio P n0 n1 peaks inputs subpix r = Err UnboundLocalError.
Proof.
  intros I [Lp Li] Ht Hn Hi El Hp Hg. destruct (stage12 r I) as (s & s2 & E1 & E2 & G). unfold calcul, detect.
  rewrite E1. cbn [bind]. rewrite E2. cbn [bind]. rewrite Ht. cbn [bind]. destruct (nb_peaks P <? 2) eqn:E; [lia|].
  rewrite Lp. pose proof I as (_ & _ & Lc & _).
  set (r1 := {| dxs := lx s2; dys := ly s2; cmax := cmax r; errs := le s2; wrong := wrong r; replaced := replaced r |}).
  assert (Cs : forall j, 0 <= j < n0 * n1 -> one_vector zero add sub mul div ltb sqrt ratio P peaks inputs subpix None r1 j = Ok r1 \/
      one_vector zero add sub mul div ltb sqrt ratio P peaks inputs subpix None r1 j = Err UnboundLocalError).
  { intros j Hj. unfold one_vector. rewrite (py_get_at peaks j None) by lia. cbn [bind].
    destruct (nth (Z.to_nat j) peaks None) as [[|q l']|]; [left; reflexivity| |left; reflexivity].
    cbn [cmax r1]. rewrite (py_get_at (cmax r) j None) by lia. cbn [bind].
    destruct inputs as [[ix iy]|].
    - rewrite (py_get_at ix j zero), (py_get_at iy j zero) by lia. cbn [bind]. destruct (map _ _); [left|right]; reflexivity.
    - cbn [bind]. destruct (map _ _); [left|right]; reflexivity. }
  assert (Ci : one_vector zero add sub mul div ltb sqrt ratio P peaks inputs subpix None r1 i = Err UnboundLocalError).
  { unfold one_vector. rewrite (py_get_at peaks i None) by lia. cbn [bind]. rewrite El. destruct l as [|q l']; [destruct Hp|].
    cbn [cmax r1]. rewrite (py_get_at (cmax r) i None) by lia. cbn [bind]. fold (at_ (cmax r) i).
    assert (X : forall dxi dyi : F, map (fun p0 : F * F * F => let '(dx, dy, corr) := p0 in (add dx dxi, add dy dyi, corr))
       (filter (fun p0 : F * F * F => let '(dx, dy, corr) := p0 in
          (lt ltb (Some ratio) (lift2 div (Some corr) (at_ (cmax r) i)) && ltb (correl_min P) corr)%bool) (q :: l')) <> []).
    { intros dxi dyi Hnil. apply map_eq_nil in Hnil. assert (In p []) as []. rewrite <- Hnil. apply filter_In. split; [exact Hp|exact Hg]. }
    destruct inputs as [[ix iy]|].
    - rewrite (py_get_at ix i zero), (py_get_at iy i zero) by lia. cbn [bind].
      destruct (map _ _) eqn:Em; [exfalso; eapply X; exact Em|reflexivity].
    - cbn [bind]. destruct (map _ _) eqn:Em; [exfalso; eapply X; exact Em|reflexivity]. }
  assert (Lp' : forall l0, (forall j, In j l0 -> 0 <= j < n0 * n1) -> In i l0 ->
      py_for (one_vector zero add sub mul div ltb sqrt ratio P peaks inputs subpix None) l0 r1 = Err UnboundLocalError).
  { induction l0 as [|j l0 IH]; intros Hl Hin; [destruct Hin|]. cbn [py_for]. destruct Hin as [->|Hin]; [rewrite Ci; reflexivity|].
    destruct (Cs j (Hl j (or_introl eq_refl))) as [-> | ->]; [|reflexivity]. apply IH; [|exact Hin]. intros; apply Hl; right; assumption. }
  apply Lp'; [intros j Hj; apply range0_In; exact Hj|apply range0_In; exact Hi].
Qed.

(** view of one vector *)
Definition view (r : res (F := F)) (i : Z) :=
  (at_ (dxs r) i, at_ (dys r) i, at_ (cmax r) i, dget (errs r) i,
   match wrong r with Some (a, b) => Some (dget a i, dget b i) | None => None end, dget (replaced r) i).

Record shape_ok (r : res (F := F)) : Prop := {
  so_x : zlen (dxs r) = n0 * n1; so_y : zlen (dys r) = n0 * n1; so_c : zlen (cmax r) = n0 * n1;
  so_w : exists a b, wrong r = Some (a, b) /\ forall i, dget (errs r) i <> None -> dget a i <> None /\ dget b i <> None
}.

(** [r'] after the replacement of the vector [i] by a secondary peak *)
Definition replaced_by (mx my : list (option F)) (r r' : res (F := F)) (i : Z) : Prop :=
  exists l dx dy corr sx sy,
    nth (Z.to_nat i) peaks None = Some l /\ In (dx, dy, corr) l /\ good_peak (at_ (cmax r) i) (dx, dy, corr) = true /\
    (exists ax ay, at_ mx i = Some ax /\ at_ my i = Some ay) /\
    match displacement_max P with
    | Some m => ltb m (add (mul (add dx (fst (input_of i))) (add dx (fst (input_of i))))
                           (mul (add dy (snd (input_of i))) (add dy (snd (input_of i))))) = false
    | None => True end /\
    subpix i (sub (add dx (fst (input_of i))) (fst (input_of i))) (sub (add dy (snd (input_of i))) (snd (input_of i))) = Ok (sx, sy) /\
    at_ (dxs r') i = Some (add sx (fst (input_of i))) /\ at_ (dys r') i = Some (add sy (snd (input_of i))) /\
    at_ (cmax r') i = Some corr /\ dget (errs r') i = None /\
    exists a b, wrong r' = Some (a, b) /\ (dget (errs r) i <> None -> dget a i = None /\ dget b i = None) /\
    dget (replaced r') i = Some
      (match wrong r with
       | Some (a, b) => match dget a i, dget b i with Some x, Some y => (x, y) | _, _ => (at_ (dxs r) i, at_ (dys r) i) end
       | None => (at_ (dxs r) i, at_ (dys r) i) end, at_ (cmax r) i).

Lemma argmin_from_bounds l : forall k best v, argmin_from ltb k best v l = best \/ k <= argmin_from ltb k best v l < k + zlen l.
Proof.
  induction l as [|x l IH]; intros k best v; cbn [argmin_from]; destruct v as [y|]; try (left; reflexivity).
  unfold zlen in *. destruct x as [z|].
  - destruct (ltb z y).
    + destruct (IH (k + 1) k (Some z)) as [E|E]; [rewrite E|]; right; cbn [List.length]; lia.
    + destruct (IH (k + 1) best (Some y)) as [E|E]; [left; exact E|right; cbn [List.length]; lia].
  - right. cbn [List.length]. lia.
Qed.
Lemma argmin_bounds v l : 0 <= argmin ltb (v :: l) <= zlen l.
Proof. unfold argmin. destruct (argmin_from_bounds l 1 0 v) as [-> |]; unfold zlen in *; lia. Qed.
Lemma argmin_nan l : argmin ltb (None :: l) = 0.
Proof. unfold argmin. destruct l; reflexivity. Qed.

Lemma one_vector_spec mx my d2 r i :
  shape_ok r -> inputs_ok -> subpix_ok -> 0 <= i < n0 * n1 ->
  zlen mx = n0 * n1 -> zlen my = n0 * n1 -> zlen d2 = n0 * n1 ->
  (at_ mx i = None \/ at_ my i = None -> at_ d2 i = None) ->
  exists r', one_vector zero add sub mul div ltb sqrt ratio P peaks inputs subpix (Some (mx, my, d2)) r i = Ok r' /\ shape_ok r' /\
    (forall j, 0 <= j -> j <> i -> view r' j = view r j) /\
    (r' = r \/ at_ d2 i <> None /\ replaced_by mx my r r' i).
Proof.
  intros Hs [Lp Li] Sp Hi Lmx Lmy Ld Hnan. unfold one_vector. rewrite (py_get_at peaks i None) by lia. cbn [bind].
  assert (Same : exists r', Ok r = Ok r' /\ shape_ok r' /\ (forall j, 0 <= j -> j <> i -> view r' j = view r j) /\
                   (r' = r \/ at_ d2 i <> None /\ replaced_by mx my r r' i)).
  { exists r. split; [reflexivity|]. split; [exact Hs|]. split; [reflexivity|left; reflexivity]. }
  destruct (nth (Z.to_nat i) peaks None) as [[|q l]|] eqn:El; [exact Same| |exact Same].
  rewrite (py_get_at (cmax r) i None) by (rewrite (so_c r Hs); lia). cbn [bind]. fold (at_ (cmax r) i).
  assert (Einp : match inputs with
     | Some (ix, iy) => do a <- py_get ix i ; do b <- py_get iy i ; Ok (a, b)
     | None => Ok (zero, zero) end = Ok (input_of i)).
  { unfold input_of. destruct inputs as [[ix iy]|]; [|reflexivity].
    rewrite (py_get_at ix i zero), (py_get_at iy i zero) by lia. reflexivity. }
  rewrite Einp. cbn [bind]. destruct (input_of i) as [dxi dyi] eqn:Ei.
  set (good := map _ _). destruct good as [|g0 gs] eqn:Eg; [exact Same|].
  rewrite (py_get_at d2 i None) by lia. cbn [bind]. fold (at_ d2 i).
  rewrite (py_get_at mx i None), (py_get_at my i None) by lia. cbn [bind]. fold (at_ mx i). fold (at_ my i).
  set (diffs := _ :: map _ _). set (k := argmin ltb diffs).
  destruct (at_ d2 i) as [dd|] eqn:Ed2.
  2:{ replace k with 0; [exact Same|]. unfold k, diffs. cbn [option_map]. rewrite argmin_nan. reflexivity. }
  assert (Hnn : exists ax ay, at_ mx i = Some ax /\ at_ my i = Some ay).
  { destruct (at_ mx i), (at_ my i); eauto; exfalso; (assert (Some dd = None) by (apply Hnan; tauto)); discriminate. }
  assert (Kb : 0 <= k <= zlen (g0 :: gs)).
  { unfold k, diffs. match goal with |- context[argmin ltb (?v :: ?m)] => pose proof (argmin_bounds v m) as B end.
    rewrite map_zlen in B. exact B. }
  destruct (k =? 0) eqn:Ek; [exact Same|].
  rewrite (py_get_at (g0 :: gs) (k - 1) g0) by lia. cbn [bind].
  destruct (nth (Z.to_nat (k - 1)) (g0 :: gs) g0) as [[dx dy] corr] eqn:Epk.
  rewrite (py_get_at diffs k None).
  2:{ unfold diffs. unfold zlen in *. cbn [List.length] in *. rewrite map_length. cbn [List.length]. lia. }
  cbn [bind]. destruct (match threshold P with Some t => _ | None => false end); [exact Same|].
  destruct (match displacement_max P with Some m => ltb m (add (mul dx dx) (mul dy dy)) | None => false end) eqn:Edm; [exact Same|].
  destruct (subpix i (sub dx dxi) (sub dy dyi)) as [[sx sy]|e] eqn:Es.
  2:{ rewrite (Sp _ _ _ _ Es). exact Same. }
  destruct Hs as [Sx Sy Sc (a & b & Ew & Hw)]. rewrite Ew. cbn [bind].
  rewrite (py_get_at (dxs r) i None), (py_get_at (dys r) i None) by lia. cbn [bind].
  fold (at_ (dxs r) i). fold (at_ (dys r) i).
  destruct (py_update_at (dxs r) i (Some (add sx dxi))) as (dxs' & -> & Lx' & Ax); [lia|]. cbn [bind].
  destruct (py_update_at (dys r) i (Some (add sy dyi))) as (dys' & -> & Ly' & Ay); [lia|]. cbn [bind].
  destruct (py_update_at (cmax r) i (Some corr)) as (cmax' & -> & Lc' & Ac); [lia|]. cbn [bind].
  assert (Hin : exists dx0 dy0, In (dx0, dy0, corr) (q :: l) /\ good_peak (at_ (cmax r) i) (dx0, dy0, corr) = true /\
                  dx = add dx0 dxi /\ dy = add dy0 dyi).
  { assert (Hi' : In (dx, dy, corr) good).
    { rewrite Eg, <- Epk. apply nth_In. unfold zlen in Kb. lia. }
    unfold good in Hi'. apply in_map_iff in Hi'. destruct Hi' as ([[dx0 dy0] c0] & E & Hf). apply filter_In in Hf.
    apply pair_equal_spec in E. destruct E as [E <-]. apply pair_equal_spec in E. destruct E as [<- <-].
    exists dx0, dy0. split; [apply Hf|]. split; [apply Hf|]. split; reflexivity. }
  destruct Hin as (dx0 & dy0 & Hin & Hgp & -> & ->).
  destruct (dget (errs r) i) as [e|] eqn:Ee.
  - destruct (Hw i) as [Wa Wb]; [rewrite Ee; discriminate|]. unfold ddel_err.
    destruct (dget a i) as [va|] eqn:Ea; [|contradiction]. destruct (dget b i) as [vb|] eqn:Eb; [|contradiction].
    rewrite Ee. cbn [bind]. eexists. split; [reflexivity|]. split; [|split].
    + constructor; cbn [dxs dys cmax errs wrong]; try lia. eexists _, _. split; [reflexivity|].
      intros j. rewrite !dget_ddel. destruct (j =? i); [intros X; contradiction|]. apply Hw.
    + intros j Hj Hne. unfold view. cbn [dxs dys cmax errs wrong replaced]. rewrite Ew, Ax, Ay, Ac, !dget_ddel, dget_dset by lia.
      destruct (j =? i) eqn:Ej; [lia|reflexivity].
    + right. split; [discriminate|]. exists (q :: l), dx0, dy0, corr, sx, sy. rewrite Ei. cbn [fst snd dxs dys cmax errs wrong replaced].
      rewrite Ax, Ay, Ac, !dget_ddel, dget_dset, Z.eqb_refl by lia. rewrite Ew, Ea, Eb.
      repeat (split; [first [reflexivity|assumption]|]).
      split; [destruct (displacement_max P); [exact Edm|exact Logic.I]|]. split; [exact Es|]. repeat (split; [reflexivity|]).
      eexists _, _. split; [reflexivity|]. split; [|reflexivity]. intros _. rewrite !dget_ddel, Z.eqb_refl. split; reflexivity.
  - cbn [bind]. eexists. split; [reflexivity|]. split; [|split].
    + constructor; cbn [dxs dys cmax errs wrong]; try lia. exists a, b. split; [reflexivity|]. exact Hw.
    + intros j Hj Hne. unfold view. cbn [dxs dys cmax errs wrong replaced]. rewrite Ew, Ax, Ay, Ac, dget_dset by lia.
      destruct (j =? i) eqn:Ej; [lia|reflexivity].
    + right. split; [discriminate|]. exists (q :: l), dx0, dy0, corr, sx, sy. rewrite Ei. cbn [fst snd dxs dys cmax errs wrong replaced].
      rewrite Ax, Ay, Ac, dget_dset, Z.eqb_refl by lia. rewrite Ew, Ee.
      repeat (split; [first [reflexivity|assumption]|]).
      split; [destruct (displacement_max P); [exact Edm|exact Logic.I]|]. split; [exact Es|]. repeat (split; [reflexivity|]).
      exists a, b. split; [reflexivity|]. split; [intros X; contradiction|].
      f_equal. f_equal. destruct (dget a i), (dget b i); reflexivity.
Qed.

Lemma replaced_by_view mx my r r1 r2 r3 i : replaced_by mx my r r1 i -> view r2 i = view r i -> view r3 i = view r1 i ->
  wrong r2 <> None -> wrong r3 <> None -> wrong r <> None -> replaced_by mx my r2 r3 i.
Proof.
  intros (l & dx & dy & corr & sx & sy & A1 & A2 & A3 & A4 & A5 & A6 & A7 & A8 & A9 & A10 & a & b & A11 & A12 & A13) V2 V3 N2 N3 N.
  unfold view in V2, V3. rewrite A11 in V3.
  destruct (wrong r2) as [[a2 b2]|] eqn:W2; [|contradiction]. destruct (wrong r3) as [[a3 b3]|] eqn:W3; [|contradiction].
  destruct (wrong r) as [[a0 b0]|] eqn:W0; [|contradiction].
  assert (at_ (dxs r2) i = at_ (dxs r) i /\ at_ (dys r2) i = at_ (dys r) i /\ at_ (cmax r2) i = at_ (cmax r) i /\
          dget (errs r2) i = dget (errs r) i /\ dget a2 i = dget a0 i /\ dget b2 i = dget b0 i) as (B1 & B2 & B3 & B4 & B5 & B6).
  { repeat split; congruence. }
  assert (at_ (dxs r3) i = at_ (dxs r1) i /\ at_ (dys r3) i = at_ (dys r1) i /\ at_ (cmax r3) i = at_ (cmax r1) i /\
          dget (errs r3) i = dget (errs r1) i /\ dget a3 i = dget a i /\ dget b3 i = dget b i /\
          dget (replaced r3) i = dget (replaced r1) i) as (C1 & C2 & C3 & C4 & C5 & C6 & C7).
  { repeat split; congruence. }
  exists l, dx, dy, corr, sx, sy. rewrite W2, B1, B2, B3, B4, B5, B6, C1, C2, C3, C4.
  repeat (split; [assumption|]). exists a3, b3. split; [exact W3|]. rewrite C5, C6, C7. split; assumption.
Qed.

Lemma peaks_loop mx my d2 : inputs_ok -> subpix_ok -> zlen mx = n0 * n1 -> zlen my = n0 * n1 -> zlen d2 = n0 * n1 ->
  (forall i, 0 <= i < n0 * n1 -> at_ mx i = None \/ at_ my i = None -> at_ d2 i = None) ->
  forall l r, NoDup l -> (forall i, In i l -> 0 <= i < n0 * n1) -> shape_ok r ->
  exists r', py_for (one_vector zero add sub mul div ltb sqrt ratio P peaks inputs subpix (Some (mx, my, d2))) l r = Ok r' /\ shape_ok r' /\
    forall i, 0 <= i -> (In i l /\ at_ d2 i <> None /\ replaced_by mx my r r' i) \/ view r' i = view r i.
Proof.
  intros Ip Sp Lmx Lmy Ld Hnan. induction l as [|k l IH]; intros r Hd Hl Hs.
  - exists r. split; [reflexivity|]. split; [exact Hs|]. intros; right; reflexivity.
  - inversion Hd as [|? ? Hk Hd']; subst. cbn [py_for]. pose proof (Hl k (or_introl eq_refl)) as Kb.
    destruct (one_vector_spec mx my d2 r k Hs Ip Sp Kb Lmx Lmy Ld (Hnan k Kb)) as (r1 & E1 & S1 & V1 & C1). rewrite E1.
    destruct (IH r1 Hd') as (r2 & E2 & S2 & V2); [intros; apply Hl; right; assumption|exact S1|].
    exists r2. split; [exact E2|]. split; [exact S2|]. intros i Hi.
    assert (Nw : forall x, shape_ok x -> wrong x <> None) by (intros x [_ _ _ (u & v & -> & _)]; discriminate).
    destruct (Z.eq_dec i k) as [->|Hne].
    + destruct (V2 k Hi) as [(Hin & _)|V2k]; [contradiction|]. destruct C1 as [->|[Dn C1]].
      * right. exact V2k.
      * left. split; [left; reflexivity|]. split; [exact Dn|].
        apply (replaced_by_view mx my r r1 r r2 k C1); auto.
    + destruct (V2 i Hi) as [(Hin & Dn & R2)|V2i].
      * left. split; [right; exact Hin|]. split; [exact Dn|].
        apply (replaced_by_view mx my r1 r2 r r2 i R2); auto. symmetry. apply V1; assumption.
      * right. rewrite V2i. apply V1; assumption.
Qed.

(** With secondary peaks: [r1] is the result of the detection (fix_spec); then each vector is either unchanged or
    replaced by one of its good secondary peaks. A vector removed by one of the first criteria is never replaced. *)
Theorem C35_peaks r t :
  input_ok r -> inputs_ok -> subpix_ok -> threshold P = Some t -> 2 <= nb_peaks P ->
  exists r1 r' mx my,
    mean_neighbors_xy zero add divc n0 n1 (restrict r (dxs r)) (restrict r (dys r)) = Ok (mx, my) /\
    fix_spec r t mx my r1 /\
    calcul zero add sub mul div ltb sqrt divc fmt_diff ratio P n0 n1 peaks inputs subpix r = Ok r' /\
    forall i, 0 <= i < n0 * n1 ->
      view r' i = view r1 i \/
      kept r i = true /\ replaced_by mx my r1 r' i /\ dget (replaced r') i = Some (at_ (dxs r) i, at_ (dys r) i, at_ (cmax r) i).
Proof.
  intros I Ip Sp Ht Hn. destruct (detect_ok r t I Ht) as (r1 & mx & my & d2 & Em & Ed & Hs & Lmx & Lmy & Ld & Ad).
  assert (S1 : shape_ok r1).
  { destruct Hs as (Lx & Ly & Ec & _ & a & b & Ew & Hi & Ho). pose proof I as (_ & _ & Lc & _).
    constructor; try assumption; [rewrite Ec; exact Lc|]. exists a, b. split; [exact Ew|]. intros i He.
    destruct (Z_le_dec 0 i) as [B1|B1]; [destruct (Z_lt_dec i (n0 * n1)) as [B2|B2]|].
    - destruct (Hi i) as (_ & _ & Wa & Wb & _ & Hiff); [lia|]. apply Hiff in He. rewrite He in Wa, Wb. rewrite Wa, Wb. split; discriminate.
    - destruct (Ho i) as (X & _); [lia|]. contradiction.
    - destruct (Ho i) as (X & _); [lia|]. contradiction. }
  assert (Hnan : forall i, 0 <= i < n0 * n1 -> at_ mx i = None \/ at_ my i = None -> at_ d2 i = None).
  { intros i Hi Hn'. rewrite Ad by exact Hi. destruct (kept r i); [|reflexivity]. unfold distance2, norm2, lift2.
    destruct Hn' as [-> | ->]; [reflexivity|]. destruct (at_ mx i), (at_ (dxs r) i); reflexivity. }
  destruct (peaks_loop mx my d2 Ip Sp Lmx Lmy Ld Hnan (range0 (n0 * n1)) r1 (NoDup_range0 _)) as (r' & E' & S' & V').
  { intros i Hi. apply range0_In. exact Hi. } { exact S1. }
  exists r1, r', mx, my. split; [exact Em|]. split; [exact Hs|]. split.
  { unfold calcul. rewrite Ed. cbn [bind]. destruct (nb_peaks P <? 2) eqn:E; [lia|]. destruct Ip as [-> _]. exact E'. }
  intros i Hi. destruct (V' i) as [(_ & Dn & R)|V]; [lia| |left; exact V]. right.
  assert (K : kept r i = true) by (rewrite Ad in Dn by exact Hi; destruct (kept r i); [reflexivity|contradiction]).
  split; [exact K|]. split; [exact R|].
  destruct R as (l & dx & dy & corr & sx & sy & _ & _ & _ & _ & _ & _ & _ & _ & _ & _ & a & b & _ & _ & Rr). rewrite Rr.
  destruct Hs as (_ & _ & Ec & _ & w_x & w_y & Ew & Hi' & _). rewrite Ew.
  destruct (Hi' i Hi) as (Ax & Ay & Wx & Wy & _). rewrite Wx, Wy, Ec. 
  destruct (removed r t mx my i); [reflexivity|]. rewrite Ax, Ay. reflexivity.
Qed.

(** In particular, at the end: a vector recorded as an error is NaN, and a vector which is not recorded has its original
    value or the value of a secondary peak. *)
Corollary C35_final r t :
  input_ok r -> inputs_ok -> subpix_ok -> threshold P = Some t -> 2 <= nb_peaks P ->
  exists r', calcul zero add sub mul div ltb sqrt divc fmt_diff ratio P n0 n1 peaks inputs subpix r = Ok r' /\
    forall i, 0 <= i < n0 * n1 ->
      (dget (errs r') i <> None -> at_ (dxs r') i = None /\ at_ (dys r') i = None) /\
      (dget (errs r') i = None -> (at_ (dxs r') i = at_ (dxs r) i /\ at_ (dys r') i = at_ (dys r) i) \/
         dget (replaced r') i = Some (at_ (dxs r) i, at_ (dys r) i, at_ (cmax r) i)).
Proof.
  intros I Ip Sp Ht Hn. destruct (C35_peaks r t I Ip Sp Ht Hn) as (r1 & r' & mx & my & _ & Hs & E & H).
  exists r'. split; [exact E|]. intros i Hi.
  destruct Hs as (_ & _ & _ & _ & w_x & w_y & Ew & Hi' & _). destruct (Hi' i Hi) as (Ax & Ay & _ & _ & _ & Hiff).
  destruct (H i Hi) as [V|(_ & R & Er)].
  - unfold view in V. assert (at_ (dxs r') i = at_ (dxs r1) i /\ at_ (dys r') i = at_ (dys r1) i /\ dget (errs r') i = dget (errs r1) i)
      as (-> & -> & ->) by (repeat split; congruence). rewrite Ax, Ay. split.
    + intros Hne. apply Hiff in Hne. rewrite Hne. split; reflexivity.
    + intros Hne. destruct (removed r t mx my i) eqn:Er; [|left; split; reflexivity].
      exfalso. destruct Hiff as [Hf _]. apply Hf; [reflexivity|exact Hne].
  - destruct R as (l & dx & dy & corr & sx & sy & _ & _ & _ & _ & _ & _ & _ & _ & _ & R & _). split; [intros X; contradiction|].
    intros _. right. exact Er.
Qed.
End Peaks.
End C35.

(** Concrete cases, integer values. *)
Definition exP (d t : option Z) (nb : Z) : params (F := Z) :=
  {| correl_min := 2; displacement_max := d; threshold := t; nb_peaks := nb |}.
(** vector 1: error in the input; 3: low correlation; 5: too large displacement; 8: too different from its neighbours *)
Definition exr : res (F := Z) :=
  {| dxs := [Some 1; Some 7; Some 1; Some 1; Some 1; Some 50; Some 1; Some 1; Some 9];
     dys := [Some 0; Some 0; Some 0; Some 0; Some 0; Some 0; Some 0; Some 0; Some 0];
     cmax := [Some 5; Some 5; Some 5; Some 1; Some 5; Some 5; Some 5; Some 5; Some 5];
     errs := [(1, "e")]; wrong := None; replaced := [] |}.
Definition exrun d t nb peaks := calcul 0 Z.add Z.sub Z.mul Z.div Z.ltb Z.sqrt Z.div (fun _ => "!") 0 (exP d t nb) 3 3 peaks None
  (fun _ x y => if x =? 1 then Ok (x, y) else Err PIVError) exr.
Example C35_input_ok : input_ok 3 3 exr.
Proof.
  repeat split; try reflexivity.
  - repeat constructor; cbn; intuition discriminate.
  - cbn in H. lia.
  - cbn in H. lia.
Qed.
Example C35_example : exists r', exrun (Some 20) (Some 3) 1 [] = Ok r' /\
  dxs r' = [Some 1; None; Some 1; None; Some 1; None; Some 1; Some 1; None] /\
  wrong r' = Some ([(1, Some 7); (3, Some 1); (5, Some 50); (8, Some 9)], [(1, Some 0); (3, Some 0); (5, Some 0); (8, Some 0)]) /\
  errs r' = [(1, "e"); (3, "correl < correl_min"); (5, "delta2 < displacement_max2"); (8, "diff neighbour too large!")].
Proof. eexists. split; [vm_compute; reflexivity|]. repeat split. Qed.
Definition expeaks : list (option (list (Z * Z * Z))) :=
  [None; Some []; None; None; None; Some [(1, 0, 5)]; None; Some [(2, 0, 1)]; Some [(3, 0, 5); (1, 0, 6)]].
(** the vector 8 is replaced by its second peak; the vector 5, whose peak is perfect, is not *)
Example C35_example_peaks : inputs_ok 3 3 expeaks None /\ exists r', exrun (Some 20) (Some 3) 3 expeaks = Ok r' /\
  dxs r' = [Some 1; None; Some 1; None; Some 1; None; Some 1; Some 1; Some 1] /\
  replaced r' = [(8, (Some 9, Some 0, Some 5))] /\
  errs r' = [(1, "e"); (3, "correl < correl_min"); (5, "delta2 < displacement_max2")].
Proof. split; [split; [reflexivity|exact Logic.I]|]. eexists. split; [vm_compute; reflexivity|]. repeat split. Qed.
Example C35_example_none : exrun (Some 20) None 3 expeaks = Err UnboundLocalError.
Proof. vm_compute. reflexivity. Qed.
Example C35_example_ring : forall t r, input_ok 3 3 r ->
  exists r' mx my, mean_neighbors_xy 0 Z.add Z.div 3 3 (restrict Z.add Z.mul Z.ltb (exP (Some 20) (Some t) 1) 3 3 r (dxs r))
      (restrict Z.add Z.mul Z.ltb (exP (Some 20) (Some t) 1) 3 3 r (dys r)) = Ok (mx, my) /\
    calcul 0 Z.add Z.sub Z.mul Z.div Z.ltb Z.sqrt Z.div (fun _ => "!") 0 (exP (Some 20) (Some t) 1) 3 3 [] None (fun _ _ _ => Err PIVError) r = Ok r' /\
    fix_spec Z.add Z.mul Z.sub Z.ltb Z.sqrt (fun _ => "!") (exP (Some 20) (Some t) 1) 3 3 r t mx my r'.
Proof. intros t r I. apply (C35_fix 0 1 Z.add Z.mul Z.sub Z.opp Zth); try lia; try reflexivity; assumption. Qed.

(** The same squared criterion is not used for the secondary peaks: with displacement_max = 20, a peak of displacement 5
    (25 > 20) is refused. *)
Definition exr2 : res (F := Z) :=
  {| dxs := [Some 5; Some 5; Some 5; Some 19]; dys := [Some 0; Some 0; Some 0; Some 0];
     cmax := [Some 5; Some 5; Some 5; Some 5]; errs := []; wrong := None; replaced := [] |}.
Definition exrun2 (m : Z) := calcul 0 Z.add Z.sub Z.mul Z.div Z.ltb Z.sqrt Z.div (fun _ => "!") 0 (exP (Some m) (Some 5) 2) 2 2
   [None; None; None; Some [(5, 0, 5)]] None (fun _ x y => Ok (x, y)) exr2.
Theorem C35_displacement_max_refuted :
  (exists r', exrun2 20 = Ok r' /\ dxs r' = [Some 5; Some 5; Some 5; None]) /\
  (exists r', exrun2 30 = Ok r' /\ dxs r' = [Some 5; Some 5; Some 5; Some 5]).
Proof. split; eexists; (split; [vm_compute; reflexivity|reflexivity]). Qed.

Print Assumptions C35_fix.
Print Assumptions C35_no_threshold_refuted.
Print Assumptions C35_peaks_no_threshold_refuted.
Print Assumptions C35_peaks.
Print Assumptions C35_final.

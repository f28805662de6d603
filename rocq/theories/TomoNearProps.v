(** C133: in the reconstruction of a volume, a camera gives to a voxel the intensity of its image
    at the pixel of the voxel.

    Specification: [pixel im r c v]: the image has a pixel of row [r] and column [c], of value [v];
    [kept threshold v]: the value once the intensities below the threshold are put to zero;
    [at_pixel x y r c]: the point (x, y) is in the pixel of row [r] and column [c]. *)
From Coq Require Import Reals Lra ZArith List Lia Bool.
From Verif Require Import PyBase TomoModel TomoProps TomoNearModel.
Import ListNotations.
Local Open Scope R_scope.

Definition pixel (im : image) (r c : nat) (v : R) : Prop :=
  exists row, nth_error im r = Some row /\ nth_error row c = Some v.
Definition kept (threshold : option R) (v w : R) : Prop :=
  match threshold with
  | None => w = v
  | Some t => (v < t /\ w = 0) \/ (t <= v /\ w = v)
  end.
Definition at_pixel (x y : R) (r c : nat) : Prop :=
  Rabs (x - INR c) < 1 / 2 /\ Rabs (y - INR r) < 1 / 2.
(** a pixel which is not dark once the threshold is applied *)
Definition bright (im : image) (threshold : option R) (r c : nat) (v : R) : Prop :=
  exists w, pixel im r c w /\ kept threshold w v /\ v <> 0.

(** ** The elements of the sparse matrix *)
Lemma in_enumerate {A} (l : list A) i a : In (i, a) (enumerate l) <-> nth_error l i = Some a.
Proof.
  unfold enumerate.
  assert (H : forall l s, In (i, a) (combine (seq s (List.length l)) l) <-> (s <= i)%nat /\ nth_error l (i - s) = Some a).
  { clear l. induction l as [|b l IH]; intros s; cbn [List.length seq combine].
    - split; [intros []|]. intros [_ H]. destruct (i - s)%nat; discriminate.
    - cbn [In]. rewrite IH. split.
      + intros [E|[H1 H2]].
        * injection E as -> ->. rewrite Nat.sub_diag. split; [lia|reflexivity].
        * split; [lia|]. replace (i - s)%nat with (S (i - S s)) by lia. exact H2.
      + intros [H1 H2]. destruct (Nat.eq_dec i s) as [->|Hne].
        * rewrite Nat.sub_diag in H2. injection H2 as ->. left. reflexivity.
        * right. split; [lia|]. replace (i - s)%nat with (S (i - S s)) in H2 by lia. exact H2. }
  rewrite H, Nat.sub_0_r. split; [tauto|]. intros E. split; [lia|exact E].
Qed.

Lemma is_zero_spec v : is_zero v = true <-> v = 0.
Proof. unfold is_zero. destruct (Req_EM_T v 0); split; intros; congruence. Qed.

Lemma in_coo im e : In e (coo_matrix im) <-> pixel im (e_row e) (e_col e) (e_data e) /\ e_data e <> 0.
Proof.
  unfold coo_matrix, pixel. rewrite in_flat_map. split.
  - intros ((r & row) & Hr & He). apply in_enumerate in Hr. cbn [fst snd] in He. apply in_flat_map in He.
    destruct He as ((c & v) & Hc & He). apply in_enumerate in Hc. cbn [fst snd] in He.
    destruct (is_zero v) eqn:Ez; [destruct He|]. destruct He as [<-|[]]. cbn [e_row e_col e_data]. split.
    + exists row. split; assumption.
    + intros H. apply is_zero_spec in H. congruence.
  - intros ((row & Hr & Hc) & Hv). exists (e_row e, row). split; [apply in_enumerate; exact Hr|].
    cbn [fst snd]. apply in_flat_map. exists (e_col e, e_data e). split; [apply in_enumerate; exact Hc|].
    cbn [fst snd]. destruct (is_zero (e_data e)) eqn:Ez; [apply is_zero_spec in Ez; contradiction|]. left. destruct e. reflexivity.
Qed.

Lemma pixel_threshold im t r c w : pixel (apply_threshold t im) r c w <-> exists v, pixel im r c v /\ kept t v w.
Proof.
  unfold apply_threshold, pixel, kept. destruct t as [t|].
  - split.
    + intros (row & Hr & Hc). rewrite nth_error_map in Hr. destruct (nth_error im r) as [row'|]; [|discriminate].
      injection Hr as <-. rewrite nth_error_map in Hc. destruct (nth_error row' c) as [v|] eqn:Ev; [|discriminate].
      injection Hc as <-. exists v. split; [exists row'; auto|]. unfold below. destruct (Rlt_dec v t); [left|right]; split; lra.
    + intros (v & (row & Hr & Hc) & Hk). exists (map (fun v => if below v t then 0 else v) row).
      rewrite !nth_error_map, Hr, Hc. cbn. split; [reflexivity|]. unfold below. f_equal.
      destruct (Rlt_dec v t); destruct Hk as [[? ?]|[? ?]]; lra.
  - split; [intros H; exists w; auto|]. intros (v & H & ->). exact H.
Qed.

Lemma in_bright im t e : In e (coo_matrix (apply_threshold t im)) <-> bright im t (e_row e) (e_col e) (e_data e).
Proof.
  rewrite in_coo, pixel_threshold. unfold bright. split.
  - intros ((w & H1 & H2) & H3). exists w. auto.
  - intros (w & H1 & H2 & H3). split; [exists w; auto|exact H3].
Qed.

(** ** One voxel and one camera *)

(** The intensity given is the one of a bright pixel nearest to the point: no other bright pixel is
    nearer. *)
Theorem C133_nearest : forall im t x y v, interpolated im t x y (Some v) ->
  exists r c, bright im t r c v /\
    forall r' c' v', bright im t r' c' v' ->
      (x - INR c) * (x - INR c) + (y - INR r) * (y - INR r) <= (x - INR c') * (x - INR c') + (y - INR r') * (y - INR r').
Proof.
  intros im t x y v H. inversion H as [e He Hmin Ev|]; subst. exists (e_row e), (e_col e). split; [apply in_bright; exact He|].
  intros r' c' v' Hb. apply (Hmin {| e_col := c'; e_row := r'; e_data := v' |}). apply in_bright. exact Hb.
Qed.

(** There is always a result. *)
Theorem C133_defined : forall im t x y, exists v, interpolated im t x y v.
Proof.
  intros im t x y. unfold interpolated. set (es := coo_matrix _). clearbody es.
  assert (H : es = [] \/ exists e, In e es /\ forall e', In e' es -> dist2 x y e <= dist2 x y e').
  { induction es as [|e es IH]; [left; reflexivity|]. right. destruct IH as [->|(m & Hm & Hmin)].
    - exists e. split; [left; reflexivity|]. intros e' [<-|[]]. lra.
    - destruct (Rle_dec (dist2 x y e) (dist2 x y m)) as [L|L].
      + exists e. split; [left; reflexivity|]. intros e' [<-|H]; [lra|]. specialize (Hmin e' H). lra.
      + exists m. split; [right; exact Hm|]. intros e' [<-|H]; [lra|]. apply Hmin, H. }
  destruct H as [->|(e & He & Hmin)]; [exists None; constructor; reflexivity|]. exists (Some (e_data e)). constructor; assumption.
Qed.

Lemma far x (c c' : nat) : Rabs (x - INR c) < 1 / 2 -> c' <> c -> (x - INR c) * (x - INR c) < (x - INR c') * (x - INR c').
Proof.
  intros H Hne. apply Rabs_def2 in H. destruct H as [H1 H2].
  assert (D : INR c' <= INR c - 1 \/ INR c + 1 <= INR c').
  { destruct (Nat.lt_ge_cases c' c) as [L|L].
    - left. apply le_INR in L. rewrite S_INR in L. lra.
    - right. assert (L' : (S c <= c')%nat) by lia. apply le_INR in L'. rewrite S_INR in L'. lra. }
  destruct D; nra.
Qed.

(** The point is in a pixel of the image: the intensity of this pixel is given if this pixel is
    bright. *)
Theorem C133_bright : forall im t x y r c v, at_pixel x y r c -> bright im t r c v ->
  forall o, interpolated im t x y o <-> o = Some v.
Proof.
  intros im t x y r c v [Hx Hy] Hb. pose (e0 := {| e_col := c; e_row := r; e_data := v |}).
  assert (H0 : In e0 (coo_matrix (apply_threshold t im))) by (apply in_bright; exact Hb).
  assert (U : forall e, In e (coo_matrix (apply_threshold t im)) -> dist2 x y e <= dist2 x y e0 -> e_data e = v).
  { intros e He Hd. unfold dist2 in Hd. cbn [e0 e_col e_row] in Hd.
    destruct (Nat.eq_dec (e_col e) c) as [Ec|Ec]; [destruct (Nat.eq_dec (e_row e) r) as [Er|Er]|].
    - apply in_bright in He. rewrite Ec, Er in He. destruct He as (w & (row & R1 & R2) & K & _), Hb as (w' & (row' & R1' & R2') & K' & _).
      rewrite R1 in R1'. injection R1' as <-. rewrite R2 in R2'. injection R2' as <-.
      unfold kept in *. destruct t; [destruct K as [[? ?]|[? ?]], K' as [[? ?]|[? ?]]; lra|congruence].
    - pose proof (far y r (e_row e) Hy Er). rewrite Ec in Hd. lra.
    - pose proof (far x c (e_col e) Hx Ec). destruct (Nat.eq_dec (e_row e) r) as [Er|Er]; [rewrite Er in Hd; lra|].
      pose proof (far y r (e_row e) Hy Er). lra. }
  intros o. split.
  - intros H. inversion H as [e He Hmin Ev|Ee]; subst.
    + f_equal. apply U; [exact He|]. apply Hmin, H0.
    + rewrite Ee in H0. destruct H0.
  - intros ->. change v with (e_data e0). constructor; [exact H0|]. intros e' He'. unfold dist2. cbn [e0 e_col e_row].
    assert (G : forall a (m m' : nat), Rabs (a - INR m) < 1 / 2 -> (a - INR m) * (a - INR m) <= (a - INR m') * (a - INR m')).
    { intros a m m' Hm. destruct (Nat.eq_dec m' m) as [->|Hne]; [lra|]. pose proof (far a m m' Hm Hne). lra. }
    pose proof (G x c (e_col e') Hx). pose proof (G y r (e_row e') Hy). lra.
Qed.

(** An image without bright pixel gives nan, and not a dark voxel. *)
Theorem C133_dark_image_refuted : forall im t x y, (forall r c v, ~ bright im t r c v) ->
  forall o, interpolated im t x y o <-> o = None.
Proof.
  intros im t x y H. assert (E : coo_matrix (apply_threshold t im) = []).
  { destruct (coo_matrix (apply_threshold t im)) as [|e es] eqn:E; [reflexivity|]. exfalso.
    apply (H (e_row e) (e_col e) (e_data e)). apply in_bright. rewrite E. left. reflexivity. }
  intros o. unfold interpolated. rewrite E. split; [intros K; inversion K as [e []|]; reflexivity|]. intros ->. constructor. reflexivity.
Qed.

(** As soon as one pixel of the image is bright, every point gets an intensity which is not zero:
    also a point in a dark pixel or out of the image. *)
Theorem C133_dark_refuted : forall im t r c v x y o, bright im t r c v -> interpolated im t x y o ->
  exists w, o = Some w /\ w <> 0.
Proof.
  intros im t r c v x y o Hb H. inversion H as [e He Hmin Ev|Ee]; subst.
  - exists (e_data e). split; [reflexivity|]. apply in_bright in He. destruct He as (_ & _ & _ & Hv). exact Hv.
  - exfalso. assert (K : In {| e_col := c; e_row := r; e_data := v |} (coo_matrix (apply_threshold t im))) by (apply in_bright; exact Hb).
    rewrite Ee in K. destruct K.
Qed.

(** The exact condition: in a pixel of the image, the intensity of the pixel (once the threshold is
    applied) is given if and only if it is not zero. *)
Theorem C133_seen_iff : forall im t x y r c u v o, at_pixel x y r c -> pixel im r c u -> kept t u v ->
  interpolated im t x y o -> (o = Some v <-> v <> 0).
Proof.
  intros im t x y r c u v o Ha Hp Hk Ho. split.
  - intros ->. destruct (C133_nearest _ _ _ _ _ Ho) as (r' & c' & (_ & _ & _ & Hv) & _). exact Hv.
  - intros Hv. apply (C133_bright im t x y r c v Ha); [|exact Ho]. exists u. auto.
Qed.

(** The intensities below the threshold are never given. *)
Theorem C133_threshold : forall im t x y v, interpolated im (Some t) x y (Some v) -> t <= v.
Proof.
  intros im t x y v H. destruct (C133_nearest _ _ _ _ _ H) as (r & c & (w & _ & Hk & Hv) & _).
  cbn in Hk. destruct Hk as [[_ ->]|[Hk ->]]; [contradiction Hv; reflexivity|exact Hk].
Qed.

(** ** The volume *)

(** The images of the cameras have at least one bright pixel and no negative intensity: after one
    call of reconstruct for each camera, no voxel is dark, even if all the cameras see nothing at
    its pixel. *)
Lemma line_pos nb (cams : list (list R)) d j :
  (forall c, In c cams -> 0 < nth j c d) -> 0 < line_of_sight Rmult 1 (root nb) cams d j.
Proof.
  unfold line_of_sight. induction cams as [|c cams IH]; intros H; cbn [map fold_right]; [lra|].
  apply Rmult_lt_0_compat; [|apply IH; intros c' Hc; apply H; right; exact Hc].
  unfold root. pose proof (H c (or_introl eq_refl)) as Hc. destruct (is_zero (nth j c d)) eqn:E; [apply is_zero_spec in E; lra|].
  unfold Rpower. apply exp_pos.
Qed.

Theorem C133_volume_refuted : forall (n : nat) (cams : list (image * option R * list (R * R) * list R)),
  (forall im t pix values, In (im, t, pix, values) cams ->
     (exists r c v, bright im t r c v) /\ (forall r c v, pixel im r c v -> 0 <= v) /\
     List.length pix = n /\ Forall2 (fun p v => interpolated im t (fst p) (snd p) (Some v)) pix values) ->
  exists s, reconstruct_all R Rmult (root (List.length cams)) false {| mem := new_array R 1 n; file := None |} (map snd cams) = Ok s /\
    List.length (mem s) = n /\ forall j, (j < n)%nat -> 0 < nth j (mem s) 0.
Proof.
  intros n cams H.
  assert (FL : forall A B (P : A -> B -> Prop) l l', Forall2 P l l' -> List.length l = List.length l').
  { intros A B P l l' F. induction F; cbn; congruence. }
  assert (FN : forall A B (P : A -> B -> Prop) l l', Forall2 P l l' -> forall j b, nth_error l' j = Some b -> exists a, P a b).
  { intros A B P l l' F. induction F as [|a b l l' Hab F IH]; intros [|j] b' Hb; cbn in Hb; try discriminate; [injection Hb as <-; eauto|eauto]. }
  destruct (C71_memory Rmult 1 (root (List.length cams))) with (n := n) (d := 0) (cams := map snd cams) (f := @None (list R))
    as (s & E & _ & L & V); try (intros; ring).
  { apply Forall_forall. intros c Hc. apply in_map_iff in Hc. destruct Hc as ((((im & t) & pix) & values) & <- & Hin).
    destruct (H _ _ _ _ Hin) as (_ & _ & Hl & HF). cbn [snd]. rewrite <- (FL _ _ _ _ _ HF). exact Hl. }
  exists s. split; [exact E|]. split; [exact L|]. intros j Hj. rewrite (V j Hj). apply line_pos.
  intros c Hc. apply in_map_iff in Hc. destruct Hc as ((((im & t) & pix) & values) & <- & Hin). cbn [snd].
  destruct (H _ _ _ _ Hin) as (_ & Hpos & Hl & HF).
  destruct (nth_error values j) as [v|] eqn:Ev.
  2:{ apply nth_error_None in Ev. rewrite <- (FL _ _ _ _ _ HF), Hl in Ev. lia. }
  rewrite (nth_error_nth _ _ _ Ev). destruct (FN _ _ _ _ _ HF j v Ev) as (p & Hp).
  destruct (C133_nearest _ _ _ _ _ Hp) as (r & c & (w & Hw & Hk & Hv) & _). pose proof (Hpos _ _ _ Hw).
  unfold kept in Hk. destruct t as [t|]; [destruct Hk as [[_ ->]|[_ ->]]; [contradiction Hv; reflexivity|]|subst v]; lra.
Qed.

(** ** The blocks *)
Lemma cut_blocks_concat {A} n : (0 < n)%nat -> forall fuel (l : list A), (List.length l <= fuel)%nat -> List.concat (cut_blocks fuel n l) = l.
Proof.
  intros Hn. induction fuel as [|fuel IH]; intros l Hl; [destruct l; [reflexivity|cbn in Hl; lia]|].
  cbn [cut_blocks]. destruct l as [|a l]; [reflexivity|]. cbn [List.concat]. rewrite IH; [apply firstn_skipn|].
  rewrite skipn_length. cbn [List.length] in *. lia.
Qed.

(** The size of the blocks does not change the result, whatever the number of CPUs and the memory
    available. *)
Theorem C133_blocks : forall (A B : Type) (interp : A -> B) n l, (0 < n)%Z -> map_blocks interp n l = Ok (map interp l).
Proof.
  intros A B interp n l Hn. unfold map_blocks, from_array. destruct l as [|a l]; [reflexivity|].
  replace (n =? 0)%Z with false by lia. cbn [bind]. rewrite <- concat_map, cut_blocks_concat by lia. reflexivity.
Qed.

(** With the default size: the reconstruction succeeds if and only if there are at least as many
    voxels as CPUs (or none). *)
Theorem C133_default_iff : forall (A B : Type) (interp : A -> B) l cpu nmax, (0 < cpu)%Z -> (0 < nmax)%Z ->
  let r := map_blocks interp (default_chunks (zlen l) cpu nmax) l in
  (r = Ok (map interp l) <-> l = [] \/ (cpu <= zlen l)%Z) /\
  (r = Err ZeroDivisionError <-> l <> [] /\ (zlen l < cpu)%Z).
Proof.
  intros A B interp l cpu nmax Hc Hm. cbv zeta. destruct l as [|a l].
  { split; split; intros H; try (left; reflexivity); try reflexivity; try discriminate. destruct H as [H _]. contradiction H. reflexivity. }
  set (l' := a :: l). assert (Hl : (0 < zlen l')%Z) by (unfold l', zlen; cbn; lia).
  unfold default_chunks. destruct (Z_lt_le_dec (zlen l') cpu) as [L|L].
  - rewrite Z.div_small by lia. replace (0 >? nmax)%Z with false by lia. unfold map_blocks, from_array. cbn [bind Z.eqb l'].
    split; split; intros H; try discriminate; try reflexivity.
    + destruct H as [H|H]; [discriminate|]. fold l' in H. lia.
    + split; [discriminate|exact L].
  - assert (Hd : (1 <= zlen l' / cpu)%Z) by (apply Z.div_le_lower_bound; lia).
    rewrite C133_blocks by (destruct (_ >? _)%Z; lia). split; split; intros H; try reflexivity; try discriminate.
    + right. exact L.
    + destruct H. lia.
Qed.

(** The volume is the geometric mean of the intensities seen by the cameras: to the power of the
    number of cameras, a voxel is their product; it is dark if one camera sees nothing. *)
Lemma root_pow nb v : (0 < nb)%nat -> 0 <= v -> root nb v ^ nb = v.
Proof.
  intros Hn Hv. unfold root. destruct (is_zero v) eqn:E.
  - apply is_zero_spec in E. subst v. apply pow_i. exact Hn.
  - assert (Hz : 0 < v). { destruct Hv as [Hv|Hv]; [exact Hv|]. subst v. unfold is_zero in E. destruct (Req_EM_T 0 0); [discriminate|contradiction]. }
    rewrite <- Rpower_pow by (unfold Rpower; apply exp_pos). rewrite Rpower_mult.
    replace (1 / INR nb * INR nb) with 1; [apply Rpower_1; exact Hz|]. field. apply not_0_INR. lia.
Qed.

Theorem C133_mean : forall (n : nat) (cams : list (list R)), cams <> [] ->
  (forall c, In c cams -> List.length c = n /\ forall v, In v c -> 0 <= v) ->
  exists s, reconstruct_all R Rmult (root (List.length cams)) false {| mem := new_array R 1 n; file := None |} cams = Ok s /\
    List.length (mem s) = n /\
    forall j, (j < n)%nat ->
      nth j (mem s) 0 ^ List.length cams = fold_right Rmult 1 (map (fun c => nth j c 0) cams) /\
      0 <= nth j (mem s) 0.
Proof.
  intros n cams Hc H.
  destruct (C71_memory Rmult 1 (root (List.length cams))) with (n := n) (d := 0) (cams := cams) (f := @None (list R))
    as (s & E & _ & L & V); try (intros; ring).
  { apply Forall_forall. intros c Hin. apply H. exact Hin. }
  exists s. split; [exact E|]. split; [exact L|]. intros j Hj. rewrite (V j Hj).
  assert (Hn : (0 < List.length cams)%nat) by (destruct cams; [contradiction Hc; reflexivity|cbn; lia]).
  assert (P : forall c, In c cams -> 0 <= nth j c 0).
  { intros c Hin. destruct (H c Hin) as [Hl Hv]. apply Hv. apply nth_In. lia. }
  clear V L E H Hc. revert Hn P. generalize (List.length cams) as nb. unfold line_of_sight. intros nb Hn P.
  assert (Q : fold_right Rmult 1 (map (fun c => root nb (nth j c 0)) cams) ^ nb = fold_right Rmult 1 (map (fun c => nth j c 0) cams)
     /\ 0 <= fold_right Rmult 1 (map (fun c => root nb (nth j c 0)) cams)).
  { induction cams as [|c cams IH]; cbn [map fold_right]; [split; [apply pow1|lra]|].
    destruct IH as [I1 I2]; [intros c' H'; apply P; right; exact H'|].
    split.
    - rewrite Rpow_mult_distr, I1, root_pow; [reflexivity|exact Hn|apply P; left; reflexivity].
    - apply Rmult_le_pos; [|exact I2]. unfold root. destruct (is_zero _); [lra|]. left. unfold Rpower. apply exp_pos. }
  exact Q.
Qed.

Example C133_ex_mean : (forall c, In c [[4; 0]; [9; 5]] -> List.length c = 2%nat /\ forall v, In v c -> 0 <= v) /\
  fold_right Rmult 1 (map (fun c => nth 0 c 0) [[4; 0]; [9; 5]]) = 6 ^ 2.
Proof.
  split; [|cbn; ring]. intros c [<-|[<-|[]]]; (split; [reflexivity|]); intros v [<-|[<-|[]]]; lra.
Qed.

Print Assumptions C133_nearest.
Print Assumptions C133_defined.
Print Assumptions C133_bright.
Print Assumptions C133_dark_image_refuted.
Print Assumptions C133_dark_refuted.
Print Assumptions C133_seen_iff.
Print Assumptions C133_threshold.
Print Assumptions C133_volume_refuted.
Print Assumptions C133_mean.
Print Assumptions C133_blocks.
Print Assumptions C133_default_iff.

(** an image of five pixels with one particle in the first one, threshold 2: the voxel seen in the
    last pixel, which is dark, gets the intensity of the particle *)
Definition ex_im : image := [[7; 1; 0; 0; 0]].
Example C133_ex_bright : bright ex_im (Some 2) 0 0 7.
Proof. exists 7. split; [exists [7; 1; 0; 0; 0]; split; reflexivity|]. split; [right; split; lra|lra]. Qed.
Example C133_ex_dark : at_pixel 4 (1 / 4) 0 4 /\ pixel ex_im 0 4 0 /\ kept (Some 2) 0 0 /\
  forall o, interpolated ex_im (Some 2) 4 (1 / 4) o <-> o = Some 7.
Proof.
  assert (U : forall r c v, bright ex_im (Some 2) r c v -> v = 7 /\ r = 0%nat /\ c = 0%nat).
  { intros r c v (w & (row & Hr & Hc) & Hk & Hv). destruct r as [|[|r]]; cbn in Hr; try discriminate. injection Hr as <-.
    cbn in Hk. do 5 (destruct c as [|c]; [cbn in Hc; injection Hc as <-; destruct Hk as [[? ?]|[? ?]]; try lra; auto|]).
    cbn in Hc. destruct c; discriminate. }
  split; [split; apply Rabs_def1; cbn; lra|]. split; [exists [7; 1; 0; 0; 0]; split; reflexivity|].
  split; [left; split; lra|]. intros o. split.
  - intros H. destruct (C133_dark_refuted _ _ _ _ _ _ _ _ C133_ex_bright H) as (w & -> & _).
    destruct (C133_nearest _ _ _ _ _ H) as (r & c & Hb & _). destruct (U _ _ _ Hb) as (-> & _). reflexivity.
  - intros ->. change 7 with (e_data {| e_col := 0; e_row := 0; e_data := 7 |}). constructor.
    + apply in_bright. apply C133_ex_bright.
    + intros e' He'. apply in_bright in He'. destruct (U _ _ _ He') as (_ & Er & Ec). unfold dist2. cbn [e_col e_row]. rewrite Er, Ec. lra.
Qed.
Example C133_ex_blocks : map_blocks (fun k : Z => (k * 2)%Z) 2 [1; 2; 3; 4; 5]%Z = Ok [2; 4; 6; 8; 10]%Z /\
  default_chunks 5 2 100 = 2%Z /\ default_chunks 5 8 100 = 0%Z.
Proof. repeat split; reflexivity. Qed.

(** C125: the synthetic images. *)
From Coq Require Import Reals ZArith List Lia Lra Bool.
From Coq Require Import ZifyNat ZifyBool.
From Verif Require Import PyBase SurfFrameProps SyntheticModel.
Import ListNotations.
Local Open Scope R_scope.

(** ** Specification *)
(** the pixel of the line [i] and of the column [j] *)
Definition pixel (im : list (list R)) (i j : nat) : option R := match nth_error im i with Some row => nth_error row j | None => None end.
(** an image of [h] lines and [w] columns *)
Definition sized (im : list (list R)) (h w : nat) : Prop := List.length im = h /\ forall row, In row im -> List.length row = w.
(** the sum of the Gaussian spots of the particles *)
Fixpoint brightness (s : R) (parts : list (R * R)) (x y : R) : R :=
  match parts with [] => 0 | (px, py) :: rest => exp (- ((x - px) ^ 2 + (y - py) ^ 2) / s ^ 2) + brightness s rest x y end.
(** the shape of the second image, and the position of its first pixel in the frame of the first image *)
Definition second_shape (ny nx : Z) (shape1 : option (Z * Z)) : Z * Z := match shape1 with None => (ny, nx) | Some s => s end.
Definition centred (n n1 o : Z) : Prop := (0 <= o /\ 0 <= n - (o + n1) - o <= 1)%Z.
Definition noise (epsilon : R) (randn : nat -> R) (k : nat) : R := if Rlt_dec 0 epsilon then epsilon * randn k else 0.

(** ** Lemmas *)
Lemma light_brightness s parts x y : s <> 0 -> light s parts x y = brightness s parts x y.
Proof.
  intros Hs. unfold light.
  assert (G : forall acc, fold_left (fun result '(xpart, ypart) => result + exp (- (1 / s ^ 2) * ((x - xpart) ^ 2 + (y - ypart) ^ 2))) parts acc
                          = acc + brightness s parts x y).
  { induction parts as [|(px, py) parts IH]; intros acc; cbn [fold_left brightness]; [ring|]. rewrite IH.
    replace (- (1 / s ^ 2) * ((x - px) ^ 2 + (y - py) ^ 2)) with (- ((x - px) ^ 2 + (y - py) ^ 2) / s ^ 2) by (field; exact Hs). ring. }
  rewrite G. ring.
Qed.

Lemma arange_nth n j : (j < Z.to_nat n)%nat -> nth_error (arange n) j = Some (INR j).
Proof.
  intros H. unfold arange. rewrite nth_error_map. rewrite (nth_error_nth' _ 0%nat) by (rewrite seq_length; exact H). rewrite seq_nth by exact H. reflexivity.
Qed.
Lemma arange_length n : List.length (arange n) = Z.to_nat n.
Proof. unfold arange. rewrite map_length, seq_length. reflexivity. Qed.

Lemma max_seq k m a : a <= INR k -> (0 < m)%nat -> fold_left Rmax (map INR (seq k m)) a = INR (k + m - 1).
Proof.
  revert k a. induction m as [|m IH]; intros k a Ha Hm; [lia|]. cbn [seq map fold_left]. rewrite Rmax_right by exact Ha.
  destruct m as [|m].
  - cbn [seq map fold_left]. f_equal. lia.
  - rewrite IH; [f_equal; lia|apply le_INR; lia|lia].
Qed.
Lemma min_seq k m a : a <= INR k -> fold_left Rmin (map INR (seq k m)) a = a.
Proof.
  revert k. induction m as [|m IH]; intros k Ha; [reflexivity|]. cbn [seq map fold_left]. rewrite Rmin_left by exact Ha.
  apply IH. rewrite S_INR. lra.
Qed.
Lemma max_arange n : (0 < n)%Z -> np_max (arange n) = Ok (IZR (n - 1)) /\ np_min (arange n) = Ok 0.
Proof.
  intros Hn. unfold arange. destruct (Z.to_nat n) as [|m] eqn:E; [lia|]. cbn [seq map np_max np_min]. split; f_equal.
  - destruct m as [|m]; [cbn [seq map fold_left]; replace (n - 1)%Z with 0%Z by lia; reflexivity|].
    rewrite max_seq; [rewrite INR_IZR_INZ; f_equal; lia|cbn; lra|lia].
  - apply min_seq. cbn. lra.
Qed.
Lemma arange_empty n : (n <= 0)%Z -> arange n = [].
Proof. intros H. unfold arange. replace (Z.to_nat n) with 0%nat by lia. reflexivity. Qed.

Lemma render_pixel s parts nx ny dx dy i j : s <> 0 -> (i < Z.to_nat ny)%nat -> (j < Z.to_nat nx)%nat ->
  pixel (render s parts nx ny dx dy) i j = Some (brightness s parts (INR j - dx) (INR i - dy)).
Proof.
  intros Hs Hi Hj. unfold pixel, render. rewrite nth_error_map, arange_nth by exact Hi. cbn [option_map].
  rewrite nth_error_map, arange_nth by exact Hj. cbn [option_map]. rewrite light_brightness by exact Hs. reflexivity.
Qed.
Lemma render_sized s parts nx ny dx dy : sized (render s parts nx ny dx dy) (Z.to_nat ny) (Z.to_nat nx).
Proof.
  unfold sized, render. rewrite map_length, arange_length. split; [reflexivity|].
  intros row H. apply in_map_iff in H. destruct H as (y & <- & _). rewrite map_length. apply arange_length.
Qed.

Lemma combine_seq_nth {X} (l : list X) k i : nth_error (combine (seq k (List.length l)) l) i = option_map (fun x => ((k + i)%nat, x)) (nth_error l i).
Proof.
  revert k i. induction l as [|a l IH]; intros k i; [destruct i; reflexivity|]. cbn [List.length seq combine].
  destruct i as [|i]; cbn [nth_error option_map]; [rewrite Nat.add_0_r; reflexivity|]. rewrite IH, Nat.add_succ_comm. reflexivity.
Qed.
Lemma noise_pixel e randn k nx im i j v : pixel im i j = Some v ->
  pixel (add_noise e randn k nx im) i j = Some (v + e * randn (k + i * Z.to_nat nx + j)%nat).
Proof.
  unfold pixel, add_noise. rewrite nth_error_map, combine_seq_nth. destruct (nth_error im i) as [row|]; [|discriminate].
  cbn [option_map]. intros H. rewrite nth_error_map, combine_seq_nth, H. reflexivity.
Qed.
Lemma noise_sized e randn k nx im h w : sized im h w -> sized (add_noise e randn k nx im) h w.
Proof.
  intros (<- & H2). unfold sized, add_noise. split.
  - rewrite map_length, combine_length, seq_length. lia.
  - intros row Hr. apply in_map_iff in Hr. destruct Hr as ((i & r) & <- & Hi). apply in_combine_r in Hi.
    rewrite map_length, combine_length, seq_length. rewrite (H2 r Hi). lia.
Qed.

Lemma crop_spec im h w ny1 nx1 : sized im (Z.to_nat h) (Z.to_nat w) -> (0 <= ny1 <= h)%Z -> (0 <= nx1 <= w)%Z ->
  let iy := ((h - ny1) / 2)%Z in let ix := ((w - nx1) / 2)%Z in
  let out := map (fun row => py_slice row ix (ix + nx1)%Z) (py_slice im iy (iy + ny1)%Z) in
  sized out (Z.to_nat ny1) (Z.to_nat nx1) /\
  forall i j, (i < Z.to_nat ny1)%nat -> (j < Z.to_nat nx1)%nat -> pixel out i j = pixel im (Z.to_nat iy + i) (Z.to_nat ix + j).
Proof.
  intros (S1 & S2) Hy Hx iy ix out.
  assert (Biy : (0 <= iy /\ iy + ny1 <= h)%Z) by (unfold iy; pose proof (Z.mul_div_le (h - ny1) 2); pose proof (Z.div_pos (h - ny1) 2); lia).
  assert (Bix : (0 <= ix /\ ix + nx1 <= w)%Z) by (unfold ix; pose proof (Z.mul_div_le (w - nx1) 2); pose proof (Z.div_pos (w - nx1) 2); lia).
  assert (Zl : zlen im = h) by (unfold zlen; lia).
  split; [split|].
  - unfold out. rewrite map_length. pose proof (py_slice_length im iy (iy + ny1)%Z ltac:(lia) ltac:(lia) ltac:(lia)) as E. unfold zlen in E at 1. lia.
  - intros row Hr. unfold out in Hr. apply in_map_iff in Hr. destruct Hr as (r & <- & Hr).
    assert (Hr' : In r im).
    { unfold py_slice in Hr.
      revert Hr. generalize (Z.to_nat (norm_bound (zlen im) (iy + ny1) - norm_bound (zlen im) iy)), (Z.to_nat (norm_bound (zlen im) iy)).
      intros a b Hr. rewrite <- (firstn_skipn b im). apply in_or_app. right. rewrite <- (firstn_skipn a (skipn b im)). apply in_or_app. left. exact Hr. }
    assert (Zr : zlen r = w) by (unfold zlen; rewrite (S2 r Hr'); lia).
    pose proof (py_slice_length r ix (ix + nx1)%Z ltac:(lia) ltac:(lia) ltac:(lia)) as E. unfold zlen in E at 1. lia.
  - intros i j Hi Hj. unfold pixel, out. rewrite nth_error_map, py_slice_nth by lia.
    destruct (nth_error im (Z.to_nat iy + i)) as [r|] eqn:Er; [|reflexivity]. cbn [option_map].
    assert (Zr : zlen r = w) by (unfold zlen; rewrite (S2 r (nth_error_In _ _ Er)); lia).
    rewrite py_slice_nth by lia. reflexivity.
Qed.

(** ** Theorems *)
(** C125: exactly when there are images *)
Theorem C125_ok_iff : forall rand randn dx dy nb ny nx shape1 e s,
  (exists ims, make_synthetic_images rand randn dx dy nb ny nx shape1 e s = Ok ims) <->
  (0 < ny /\ 0 < nx /\ fst (second_shape ny nx shape1) <= ny /\ snd (second_shape ny nx shape1) <= nx)%Z.
Proof.
  intros rand randn dx dy nb ny nx shape1 e s. unfold make_synthetic_images.
  destruct (Z_lt_le_dec 0 nx) as [Hx|Hx]; [|rewrite (arange_empty nx Hx); split; [intros (r & E); discriminate|lia]].
  destruct (max_arange nx Hx) as (-> & ->). cbn [bind].
  destruct (Z_lt_le_dec 0 ny) as [Hy|Hy]; [|rewrite (arange_empty ny Hy); split; [intros (r & E); discriminate|lia]].
  destruct (max_arange ny Hy) as (-> & ->). cbn [bind].
  destruct shape1 as [(ny1, nx1)|]; cbn [second_shape fst snd].
  - destruct ((ny1 >? ny)%Z || (nx1 >? nx)%Z) eqn:E; split; intros H; try (destruct H; discriminate); try lia. eexists. reflexivity.
  - split; [lia|]. intros _. eexists. reflexivity.
Qed.

(** C125: the two images are views of one pattern of particles, drawn in the rectangle of the first image enlarged by the
    displacement; the second view is shifted by the displacement and centred in the first one *)
Theorem C125_images : forall rand randn dx dy nb ny nx shape1 e s im0 im1,
  make_synthetic_images rand randn dx dy nb ny nx shape1 e s = Ok (im0, im1) -> s <> 0 ->
  let (ny1, nx1) := second_shape ny nx shape1 in (0 <= ny1)%Z -> (0 <= nx1)%Z ->
  exists parts oy ox, List.length parts = Z.to_nat nb /\ centred ny ny1 oy /\ centred nx nx1 ox /\
    (forall k p, nth_error parts k = Some p ->
       fst p = - Rabs dx + (IZR (nx - 1) + 2 * Rabs dx) * rand k /\
       snd p = - Rabs dy + (IZR (ny - 1) + 2 * Rabs dy) * rand (Z.to_nat nb + k)%nat) /\
    ((forall k, 0 <= rand k <= 1) -> forall p, In p parts ->
       - Rabs dx <= fst p <= IZR (nx - 1) + Rabs dx /\ - Rabs dy <= snd p <= IZR (ny - 1) + Rabs dy) /\
    sized im0 (Z.to_nat ny) (Z.to_nat nx) /\ sized im1 (Z.to_nat ny1) (Z.to_nat nx1) /\
    (forall i j, (i < Z.to_nat ny)%nat -> (j < Z.to_nat nx)%nat ->
       pixel im0 i j = Some (brightness s parts (INR j) (INR i) + noise e randn (i * Z.to_nat nx + j))) /\
    (forall i j, (i < Z.to_nat ny1)%nat -> (j < Z.to_nat nx1)%nat ->
       pixel im1 i j = Some (brightness s parts (INR j + IZR ox - dx) (INR i + IZR oy - dy)
                             + noise e randn (Z.to_nat ny * Z.to_nat nx + (Z.to_nat oy + i) * Z.to_nat nx + (Z.to_nat ox + j)))).
Proof.
  intros rand randn dx dy nb ny nx shape1 e s im0 im1 E Hs.
  assert (Hok : (exists ims, make_synthetic_images rand randn dx dy nb ny nx shape1 e s = Ok ims)) by eauto.
  apply C125_ok_iff in Hok. destruct Hok as (Hny & Hnx & H1 & H2). unfold make_synthetic_images in E.
  destruct (max_arange nx Hnx) as (Ex1 & Ex2). destruct (max_arange ny Hny) as (Ey1 & Ey2). rewrite Ex1, Ex2, Ey1, Ey2 in E. cbn [bind] in E.
  set (xparts := positions rand nb 0 (0 - Rabs dx) (IZR (nx - 1) + Rabs dx)) in E.
  set (yparts := positions rand nb (Z.to_nat nb) (0 - Rabs dy) (IZR (ny - 1) + Rabs dy)) in E.
  set (parts := combine xparts yparts) in E.
  assert (Lp : List.length parts = Z.to_nat nb).
  { unfold parts, xparts, yparts, positions. rewrite combine_length, !map_length, !seq_length. lia. }
  assert (Hp : forall k p, nth_error parts k = Some p ->
       fst p = - Rabs dx + (IZR (nx - 1) + 2 * Rabs dx) * rand k /\ snd p = - Rabs dy + (IZR (ny - 1) + 2 * Rabs dy) * rand (Z.to_nat nb + k)%nat).
  { intros k p Ek. assert (Hk : (k < Z.to_nat nb)%nat) by (rewrite <- Lp; apply nth_error_Some; congruence).
    assert (Q : forall m lo hi, nth_error (positions rand nb m lo hi) k = Some (lo + (hi - lo) * rand (m + k)%nat)).
    { intros m lo hi. unfold positions. rewrite nth_error_map, (nth_error_nth' _ 0%nat) by (rewrite seq_length; exact Hk). rewrite seq_nth by exact Hk. reflexivity. }
    assert (P : nth_error parts k = Some ((0 - Rabs dx) + (IZR (nx - 1) + Rabs dx - (0 - Rabs dx)) * rand (0 + k)%nat,
                                          (0 - Rabs dy) + (IZR (ny - 1) + Rabs dy - (0 - Rabs dy)) * rand (Z.to_nat nb + k)%nat)).
    { unfold parts. specialize (Q 0%nat (0 - Rabs dx) (IZR (nx - 1) + Rabs dx)) as Q1. specialize (Q (Z.to_nat nb) (0 - Rabs dy) (IZR (ny - 1) + Rabs dy)) as Q2.
      fold xparts in Q1. fold yparts in Q2. clear - Q1 Q2. revert Q1 Q2. generalize xparts yparts. intros l l'.
      generalize ((0 - Rabs dx) + (IZR (nx - 1) + Rabs dx - (0 - Rabs dx)) * rand (0 + k)%nat) as u.
      generalize ((0 - Rabs dy) + (IZR (ny - 1) + Rabs dy - (0 - Rabs dy)) * rand (Z.to_nat nb + k)%nat) as v. intros v u. revert l' k.
      induction l as [|a l IH]; intros [|b l'] [|k]; cbn [nth_error combine]; try discriminate; [congruence|apply IH]. }
    rewrite P in Ek. injection Ek as <-. cbn [fst snd Nat.add]. split; ring. }
  assert (Hrect : (forall k, 0 <= rand k <= 1) -> forall p, In p parts ->
       - Rabs dx <= fst p <= IZR (nx - 1) + Rabs dx /\ - Rabs dy <= snd p <= IZR (ny - 1) + Rabs dy).
  { intros Hr p Hin. apply In_nth_error in Hin. destruct Hin as (k & Hk). destruct (Hp k p Hk) as (-> & ->).
    assert (G : forall n d m, (0 < n)%Z -> - Rabs d <= - Rabs d + (IZR (n - 1) + 2 * Rabs d) * rand m <= IZR (n - 1) + Rabs d).
    { intros n d m Hn. pose proof (IZR_le 0 (n - 1) ltac:(lia)) as Hn1. pose proof (Rabs_pos d). specialize (Hr m). set (r := rand m) in *.
      set (L := IZR (n - 1) + 2 * Rabs d). assert (0 <= L) by (unfold L; lra). assert (0 <= L * r <= L) by (split; [apply Rmult_le_pos; lra|nra]).
      unfold L in *. lra. }
    split; apply G; assumption. }
  set (R0 := render s parts nx ny 0 0) in E. set (R1 := render s parts nx ny dx dy) in E.
  set (N0 := if Rlt_dec 0 e then add_noise e randn 0 nx R0 else R0) in E.
  set (N1 := if Rlt_dec 0 e then add_noise e randn (Z.to_nat ny * Z.to_nat nx) nx R1 else R1) in E.
  assert (S0 : sized N0 (Z.to_nat ny) (Z.to_nat nx)) by (unfold N0; destruct (Rlt_dec 0 e); [apply noise_sized|]; apply render_sized).
  assert (S1 : sized N1 (Z.to_nat ny) (Z.to_nat nx)) by (unfold N1; destruct (Rlt_dec 0 e); [apply noise_sized|]; apply render_sized).
  assert (P0 : forall i j, (i < Z.to_nat ny)%nat -> (j < Z.to_nat nx)%nat ->
       pixel N0 i j = Some (brightness s parts (INR j) (INR i) + noise e randn (i * Z.to_nat nx + j))).
  { intros i j Hi Hj. pose proof (render_pixel s parts nx ny 0 0 i j Hs Hi Hj) as P. rewrite !Rminus_0_r in P. unfold N0, noise.
    destruct (Rlt_dec 0 e); [|fold R0 in P; rewrite P; f_equal; ring]. exact (noise_pixel e randn 0 nx R0 i j _ P). }
  assert (P1 : forall i j, (i < Z.to_nat ny)%nat -> (j < Z.to_nat nx)%nat ->
       pixel N1 i j = Some (brightness s parts (INR j - dx) (INR i - dy) + noise e randn (Z.to_nat ny * Z.to_nat nx + i * Z.to_nat nx + j))).
  { intros i j Hi Hj. pose proof (render_pixel s parts nx ny dx dy i j Hs Hi Hj) as P. unfold N1, noise.
    destruct (Rlt_dec 0 e); [|fold R1 in P; rewrite P; f_equal; ring]. exact (noise_pixel e randn _ nx R1 i j _ P). }
  clearbody N0 N1.
  destruct shape1 as [(ny1, nx1)|]; cbn [second_shape fst snd] in *.
  - destruct ((ny1 >? ny)%Z || (nx1 >? nx)%Z); [discriminate|]. injection E as <- <-. intros Hy1 Hx1.
    destruct (crop_spec N1 ny nx ny1 nx1 S1 ltac:(lia) ltac:(lia)) as (Sz & Px).
    set (iy := ((ny - ny1) / 2)%Z) in *. set (ix := ((nx - nx1) / 2)%Z) in *.
    assert (By : (0 <= ny - ny1 - 2 * iy <= 1 /\ 0 <= iy)%Z).
    { unfold iy. pose proof (Z.div_mod (ny - ny1) 2). pose proof (Z.mod_pos_bound (ny - ny1) 2). pose proof (Z.div_pos (ny - ny1) 2). lia. }
    assert (Bx : (0 <= nx - nx1 - 2 * ix <= 1 /\ 0 <= ix)%Z).
    { unfold ix. pose proof (Z.div_mod (nx - nx1) 2). pose proof (Z.mod_pos_bound (nx - nx1) 2). pose proof (Z.div_pos (nx - nx1) 2). lia. }
    clearbody iy ix. exists parts, iy, ix. split; [exact Lp|]. split; [unfold centred; lia|]. split; [unfold centred; lia|]. split; [exact Hp|]. split; [exact Hrect|].
    split; [exact S0|]. split; [exact Sz|]. split; [exact P0|].
    intros i j Hi Hj. rewrite Px by assumption. rewrite P1 by lia. f_equal. f_equal.
    f_equal; rewrite plus_INR, (INR_IZR_INZ (Z.to_nat _)), Z2Nat.id by lia; ring.
  - injection E as <- <-. intros _ _. exists parts, 0%Z, 0%Z. split; [exact Lp|]. split; [unfold centred; lia|]. split; [unfold centred; lia|].
    split; [exact Hp|]. split; [exact Hrect|]. split; [exact S0|]. split; [exact S1|]. split; [exact P0|].
    intros i j Hi Hj. rewrite P1 by assumption. f_equal. f_equal. f_equal; ring.
Qed.

(** C125: for a displacement of whole pixels and without noise, each pixel of the second image is the pixel of the first image
    from which it has been displaced *)
Theorem C125_displaced : forall rand randn (dx dy : Z) nb ny nx shape1 e s im0 im1,
  make_synthetic_images rand randn (IZR dx) (IZR dy) nb ny nx shape1 e s = Ok (im0, im1) -> s <> 0 -> e <= 0 ->
  let (ny1, nx1) := second_shape ny nx shape1 in (0 <= ny1)%Z -> (0 <= nx1)%Z ->
  exists oy ox, centred ny ny1 oy /\ centred nx nx1 ox /\
    forall i j i1 j1, (i < Z.to_nat ny)%nat -> (j < Z.to_nat nx)%nat -> (i1 < Z.to_nat ny1)%nat -> (j1 < Z.to_nat nx1)%nat ->
      (Z.of_nat i1 + oy = Z.of_nat i + dy)%Z -> (Z.of_nat j1 + ox = Z.of_nat j + dx)%Z ->
      exists v, pixel im0 i j = Some v /\ pixel im1 i1 j1 = Some v.
Proof.
  intros rand randn dx dy nb ny nx shape1 e s im0 im1 E Hs He.
  pose proof (C125_images _ _ _ _ _ _ _ _ _ _ _ _ E Hs) as H. destruct (second_shape ny nx shape1) as (ny1, nx1). intros Hy Hx.
  destruct (H Hy Hx) as (parts & oy & ox & _ & Cy & Cx & _ & _ & _ & _ & P0 & P1). exists oy, ox. split; [exact Cy|]. split; [exact Cx|].
  intros i j i1 j1 Hi Hj Hi1 Hj1 E1 E2. exists (brightness s parts (INR j) (INR i)).
  rewrite P0, P1 by assumption. unfold noise. destruct (Rlt_dec 0 e); [lra|]. split; f_equal; [ring|].
  rewrite !INR_IZR_INZ. replace (IZR (Z.of_nat j1) + IZR ox - IZR dx) with (IZR (Z.of_nat j)) by (rewrite <- plus_IZR, <- minus_IZR; f_equal; lia).
  replace (IZR (Z.of_nat i1) + IZR oy - IZR dy) with (IZR (Z.of_nat i)) by (rewrite <- plus_IZR, <- minus_IZR; f_equal; lia). ring.
Qed.

Print Assumptions C125_ok_iff. Print Assumptions C125_images. Print Assumptions C125_displaced.

(** ** Examples *)
Example C125_ex_ok : exists ims, make_synthetic_images (fun _ => 1 / 2) (fun _ => 0) (IZR 2) (IZR (-1)) 3 5 6 (Some (3%Z, 4%Z)) 0 1 = Ok ims.
Proof. apply C125_ok_iff. cbn. lia. Qed.
Example C125_ex_large : ~ exists ims, make_synthetic_images (fun _ => 1 / 2) (fun _ => 0) 2 1 3 5 6 (Some (7%Z, 4%Z)) 0 1 = Ok ims.
Proof. rewrite C125_ok_iff. cbn. lia. Qed.

(** C126: the Tsai calibration with arrays of points and with displacements. *)
From Coq Require Import Reals ZArith List Lia Lra Bool.
From Verif Require Import PyBase CalibModel CalibProps CalibArrayModel.
Import ListNotations.
Local Open Scope R_scope.

(** ** Specification *)
(** [us] and [vs] are, point by point, the pixels of the points (in metres) [xs], [ys] and [zs] *)
Definition pixels_of (p : tsai) (xs ys zs us vs : list R) : Prop :=
  List.length us = List.length xs /\ List.length vs = List.length xs /\
  forall k, (k < List.length xs)%nat ->
    tsai_phys2pix p (nth k xs 0) (nth k ys 0) (nth k zs 0) = Ok (nth k us 0, nth k vs 0).

(** ** Lemmas *)
Lemma phys2pix_project p x y z M : get_matrix (rot p) = Ok M ->
  tsai_phys2pix p x y z = Ok (project p M (x * 100) (y * 100) (apparent p (z * 100))).
Proof.
  intros HM. unfold tsai_phys2pix, project, apparent, gt. rewrite HM. cbn [bind].
  destruct (interface_z p) as [H|]; [|reflexivity]. destruct (refraction_index p) as [n|]; [|reflexivity].
  destruct (Rlt_dec (z * 100) H); reflexivity.
Qed.
Lemma item_nth l n k : List.length l = n -> (k < n)%nat -> item l k = nth k l 0.
Proof. intros <- Hk. unfold item. destruct (Nat.eqb_spec (List.length l) 1) as [E|E]; [|reflexivity]. replace k with 0%nat by lia. reflexivity. Qed.
Lemma nth_times l k : nth k (map (fun x => x * 100) l) 0 = nth k l 0 * 100.
Proof. change 0 with ((fun x => x * 100) 0) at 1 || idtac. rewrite <- (map_nth (fun x => x * 100) l 0 k). f_equal. ring. Qed.
Lemma nth_tab {X} (f : nat -> X) n k d : (k < n)%nat -> nth k (map f (seq 0 n)) d = f k.
Proof.
  intros Hk. rewrite (nth_indep _ d (f 0%nat)) by (rewrite map_length, seq_length; exact Hk). rewrite (map_nth f), seq_nth by exact Hk. reflexivity.
Qed.
Lemma common_same n : common n n = Ok n.
Proof. unfold common. rewrite Nat.eqb_refl. reflexivity. Qed.

(** the values at the time of the projection *)
Lemma projected p st vx vy vz xs ys zs M :
  get_matrix (rot p) = Ok M ->
  let st' := times100 (times100 (times100 st vx) vy) vz in
  List.length xs = List.length ys -> List.length xs = List.length zs ->
  value st' vx = map (fun x => x * 100) xs -> value st' vy = map (fun x => x * 100) ys ->
  (exists zc, correct_z p (value st' vz) = Ok zc /\ (List.length zc = 1%nat \/ List.length zc = List.length xs) /\
     forall k, (k < List.length xs)%nat -> item zc k = apparent p (nth k zs 0 * 100)) ->
  xs <> [] ->
  exists us vs, snd (phys2pix_arrays p st vx vy vz) = Ok (us, vs) /\ pixels_of p xs ys zs us vs.
Proof.
  intros HM st' L1 L2 Ex Ey (zc & Ez & Lz & Hz) Hne. unfold phys2pix_arrays. cbv zeta. fold st'. cbn [snd].
  rewrite Ez, HM, Ex, Ey. cbn [bind]. rewrite !map_length, <- L1, common_same. cbn [bind].
  set (n := List.length xs) in *.
  assert (Hn : (0 < n)%nat) by (unfold n; destruct xs; [congruence|cbn [List.length]; lia]).
  assert (Cn : common n (List.length zc) = Ok n).
  { unfold common. destruct Lz as [-> | ->]; [|rewrite Nat.eqb_refl; reflexivity].
    destruct (Nat.eqb_spec n 1) as [E|E]; [reflexivity|]. replace (1 =? 1)%nat with true by reflexivity. reflexivity. }
  rewrite Cn. cbn [bind]. do 2 eexists. split; [reflexivity|]. split; [rewrite map_length, seq_length; reflexivity|].
  split; [rewrite map_length, seq_length; reflexivity|]. fold n. intros k Hk.
  rewrite (nth_tab _ n k 0 Hk), (nth_tab _ n k 0 Hk), (phys2pix_project _ _ _ _ _ HM), <- surjective_pairing.
  rewrite (item_nth (map _ xs) n k), (item_nth (map _ ys) n k), !nth_times, Hz by (try (rewrite map_length); first [assumption | reflexivity | lia]). reflexivity.
Qed.

(** ** Theorems *)
(** C126: with three different arrays of one length (and no interface), or a number for z, the pixels are those of the points *)
Theorem C126_pixels : forall p M st kx ky vz zs, get_matrix (rot p) = Ok M -> kx <> ky -> st kx <> [] ->
  List.length (st ky) = List.length (st kx) ->
  (exists z, vz = Num z /\ zs = repeat z (List.length (st kx))) \/
  (exists kz, vz = Ref kz /\ kz <> kx /\ kz <> ky /\ zs = st kz /\ List.length zs = List.length (st kx) /\
     (interface_z p = None \/ refraction_index p = None)) ->
  exists us vs, snd (phys2pix_arrays p st (Ref kx) (Ref ky) vz) = Ok (us, vs) /\ pixels_of p (st kx) (st ky) zs us vs.
Proof.
  intros p M st kx ky vz zs HM Hxy Hne Hl Hz.
  destruct Hz as [(z & -> & ->)|(kz & -> & H1 & H2 & -> & Hlz & Hi)].
  - apply (projected p st _ _ _ _ _ _ M HM); [congruence|rewrite repeat_length; reflexivity| | | |exact Hne]; cbn [times100 value].
    + destruct (Nat.eqb_spec kx ky); [congruence|]. rewrite Nat.eqb_refl. reflexivity.
    + rewrite Nat.eqb_refl. destruct (Nat.eqb_spec ky kx); [congruence|]. reflexivity.
    + exists [apparent p (z * 100)]. split; [|split; [left; reflexivity|]].
      * unfold correct_z, apparent, gt. destruct (interface_z p); [|reflexivity]. destruct (refraction_index p); [|reflexivity].
        destruct (Rlt_dec (z * 100) r); reflexivity.
      * intros k Hk. unfold item. cbn [List.length Nat.eqb nth]. do 2 f_equal. symmetry. 
        assert (G : forall m, (k < m)%nat -> nth k (repeat z m) 0 = z).
        { clear. revert k. intros k m. revert k. induction m as [|m IH]; intros k H; [lia|]. cbn [repeat]. destruct k; [reflexivity|]. cbn [nth]. apply IH. lia. }
        apply G. exact Hk.
  - apply (projected p st _ _ _ _ _ _ M HM); [congruence|congruence| | | |exact Hne]; cbn [times100 value].
    + destruct (Nat.eqb_spec kx kz); [congruence|]. destruct (Nat.eqb_spec kx ky); [congruence|]. rewrite Nat.eqb_refl. reflexivity.
    + destruct (Nat.eqb_spec ky kz); [congruence|]. rewrite Nat.eqb_refl. destruct (Nat.eqb_spec ky kx); [congruence|]. reflexivity.
    + rewrite Nat.eqb_refl. destruct (Nat.eqb_spec kz ky); [congruence|]. destruct (Nat.eqb_spec kz kx); [congruence|].
      exists (map (fun x => x * 100) (st kz)). split; [|split; [right; rewrite map_length; congruence|]].
      * unfold correct_z. destruct Hi as [-> | ->]; [reflexivity|]. destruct (interface_z p); reflexivity.
      * intros k Hk. rewrite (item_nth _ (List.length (st kx))) by (try rewrite map_length; assumption). rewrite nth_times.
        unfold apparent. destruct Hi as [-> | ->]; [reflexivity|]. destruct (interface_z p); reflexivity.
Qed.

(** C126 is refuted as stated: the arrays given to phys2pix are multiplied by 100, whatever the result; the other arrays are
    left as they are *)
Theorem C126_arguments_refuted : forall p st kx ky kz, kx <> ky -> kz <> kx -> kz <> ky ->
  let st' := fst (phys2pix_arrays p st (Ref kx) (Ref ky) (Ref kz)) in
  st' kx = map (fun x => x * 100) (st kx) /\ st' ky = map (fun x => x * 100) (st ky) /\ st' kz = map (fun x => x * 100) (st kz) /\
  forall k, k <> kx -> k <> ky -> k <> kz -> st' k = st k.
Proof.
  intros p st kx ky kz H1 H2 H3. unfold phys2pix_arrays. cbn [fst times100].
  repeat match goal with |- context [Nat.eqb ?a ?b] => destruct (Nat.eqb_spec a b); try congruence end.
  repeat split. intros k A B C. repeat match goal with |- context [Nat.eqb ?a ?b] => destruct (Nat.eqb_spec a b); try congruence end.
Qed.

(** C126 is refuted as stated: called a second time with the same arrays, phys2pix returns the pixels of points a hundred
    times further *)
Theorem C126_again_refuted : forall p M st kx ky z, get_matrix (rot p) = Ok M -> kx <> ky -> st kx <> [] ->
  List.length (st ky) = List.length (st kx) ->
  exists us vs, snd (phys2pix_arrays p (fst (phys2pix_arrays p st (Ref kx) (Ref ky) (Num z))) (Ref kx) (Ref ky) (Num z)) = Ok (us, vs) /\
    pixels_of p (map (fun x => x * 100) (st kx)) (map (fun x => x * 100) (st ky)) (repeat z (List.length (st kx))) us vs.
Proof.
  intros p M st kx ky z HM Hxy Hne Hl. set (st' := fst (phys2pix_arrays p st (Ref kx) (Ref ky) (Num z))).
  assert (Ex : st' kx = map (fun x => x * 100) (st kx)).
  { unfold st', phys2pix_arrays. cbn [fst times100]. destruct (Nat.eqb_spec kx ky); [congruence|]. rewrite Nat.eqb_refl. reflexivity. }
  assert (Ey : st' ky = map (fun x => x * 100) (st ky)).
  { unfold st', phys2pix_arrays. cbn [fst times100]. rewrite Nat.eqb_refl. destruct (Nat.eqb_spec ky kx); [congruence|]. reflexivity. }
  rewrite <- Ex, <- Ey. apply (C126_pixels p M); [exact HM|exact Hxy| | |].
  - rewrite Ex. destruct (st kx); [congruence|discriminate].
  - rewrite Ex, Ey, !map_length. exact Hl.
  - left. exists z. split; [reflexivity|]. rewrite Ex, map_length. reflexivity.
Qed.

(** C126 is refuted as stated: the same array given for x and for y is multiplied twice before it is used *)
Theorem C126_same_array_refuted : forall p M st k z, get_matrix (rot p) = Ok M -> st k <> [] ->
  exists us vs, snd (phys2pix_arrays p st (Ref k) (Ref k) (Num z)) = Ok (us, vs) /\
    pixels_of p (map (fun x => x * 100) (st k)) (map (fun x => x * 100) (st k)) (repeat z (List.length (st k))) us vs.
Proof.
  intros p M st k z HM Hne.
  apply (projected p st _ _ _ _ _ _ M HM); [reflexivity|rewrite repeat_length, map_length; reflexivity| | | |destruct (st k); [congruence|discriminate]]; cbn [times100 value].
  - rewrite Nat.eqb_refl. reflexivity.
  - rewrite Nat.eqb_refl. reflexivity.
  - exists [apparent p (z * 100)]. split; [|split; [left; reflexivity|]].
    + unfold correct_z, apparent, gt. destruct (interface_z p); [|reflexivity]. destruct (refraction_index p); [|reflexivity].
      destruct (Rlt_dec (z * 100) r); reflexivity.
    + intros i Hi. rewrite map_length in Hi. unfold item. cbn [List.length Nat.eqb nth]. do 2 f_equal. symmetry.
      assert (G : forall m j, (j < m)%nat -> nth j (repeat z m) 0 = z).
      { clear. induction m as [|m IH]; intros j H; [lia|]. cbn [repeat]. destruct j; [reflexivity|]. cbn [nth]. apply IH. lia. }
      apply G. exact Hi.
Qed.

(** C126 is refuted as stated: with an interface, an array of several heights raises ValueError *)
Theorem C126_interface_refuted : forall p st vx vy kz H n, interface_z p = Some H -> refraction_index p = Some n ->
  (2 <= List.length (st kz))%nat -> snd (phys2pix_arrays p st vx vy (Ref kz)) = Err ValueError.
Proof.
  intros p st vx vy kz H n E1 E2 Hl. unfold phys2pix_arrays. cbn [snd value]. unfold correct_z. rewrite E1, E2.
  assert (L : forall s v, List.length (times100 s v kz) = List.length (s kz)).
  { intros s [r|k]; cbn [times100]; [reflexivity|]. destruct (Nat.eqb_spec kz k) as [->|]; [apply map_length|reflexivity]. }
  pose proof (L (times100 (times100 st vx) vy) (Ref kz)) as L3. pose proof (L (times100 st vx) vy) as L2. pose proof (L st vx) as L1. rewrite L2, L1 in L3.
  destruct (times100 (times100 (times100 st vx) vy) (Ref kz) kz) as [|a [|b l]]; cbn [List.length] in L3; [lia|lia|reflexivity].
Qed.

(** C126: the displacement given by pix2phys_UV goes from the point of the slice seen half a displacement before the
    position to the one seen half a displacement after, and remains in the slice *)
Theorem C126_displacement : forall p X Y dx dy i nby angle Z0 M x y z ux uy uz,
  level p i angle Z0 -> get_matrix (rot p) = Ok M -> kc p = 0 -> fst (foc p) <> 0 -> snd (foc p) <> 0 ->
  centre_out_of_plane M (tra p) (apparent p Z0) ->
  (forall X' Y', (X' = X /\ Y' = Y) \/ (X' = X + dx / 2 /\ Y' = Y + dy / 2) \/ (X' = X - dx / 2 /\ Y' = Y - dy / 2) ->
     path_crosses_plane M ((X' - fst (cen p)) / fst (foc p)) ((nby - Y' - snd (cen p)) / snd (foc p))) ->
  pix2phys_UV p X Y dx dy i nby angle = Ok ((x, y, z), (ux, uy, uz)) ->
  z = Z0 / 100 /\ uz = 0 /\ tsai_phys2pix p x y z = Ok (X, nby - Y) /\
  exists xa ya, tsai_phys2pix p xa ya z = Ok (X - dx / 2, nby - (Y - dy / 2)) /\
    tsai_phys2pix p (xa + ux) (ya + uy) z = Ok (X + dx / 2, nby - (Y + dy / 2)).
Proof.
  intros p X Y dx dy i nby angle Z0 M x y z ux uy uz Hl HM Hk Hf0 Hf1 Hc Hp H. unfold pix2phys_UV in H.
  destruct (tsai_pix2phys p X Y i nby angle) as [[[x1 y1] z1]|] eqn:E1; [|discriminate]. cbn [bind] in H.
  destruct (tsai_pix2phys p (X + dx / 2) (Y + dy / 2) i nby angle) as [[[xb yb] zb]|] eqn:E2; [|discriminate]. cbn [bind] in H.
  destruct (tsai_pix2phys p (X - dx / 2) (Y - dy / 2) i nby angle) as [[[xa ya] za]|] eqn:E3; [|discriminate]. cbn [bind] in H.
  destruct (C50_roundtrip_flipped _ _ _ _ _ _ _ _ _ _ _ Hl HM Hk Hf0 Hf1 (Hp X Y (or_introl (conj eq_refl eq_refl))) Hc E1) as (F1 & G1).
  destruct (C50_roundtrip_flipped _ _ _ _ _ _ _ _ _ _ _ Hl HM Hk Hf0 Hf1 (Hp _ _ (or_intror (or_introl (conj eq_refl eq_refl)))) Hc E2) as (F2 & G2).
  destruct (C50_roundtrip_flipped _ _ _ _ _ _ _ _ _ _ _ Hl HM Hk Hf0 Hf1 (Hp _ _ (or_intror (or_intror (conj eq_refl eq_refl)))) Hc E3) as (F3 & G3).
  unfold v0, v1, v2 in H. cbn [fst snd] in H. injection H as <- <- <- <- <- <-. subst z1 zb za.
  split; [reflexivity|]. split; [ring|]. split; [exact G1|]. exists xa, ya. split; [exact G3|].
  replace (xa + (xb - xa)) with xb by ring. replace (ya + (yb - ya)) with yb by ring. exact G2.
Qed.

(** C126: for a camera which faces the slice, without distortion, the displacement is that of the pixels times the size of a
    pixel, the vertical one changed of sign *)
Theorem C126_facing : forall p X Y dx dy i nby angle Z0,
  level p i angle Z0 -> rot p = [1; 0; 0; 0; 1; 0; 0; 0; 1] -> kc p = 0 -> fst (foc p) <> 0 -> snd (foc p) <> 0 ->
  exists phys, pix2phys_UV p X Y dx dy i nby angle =
    Ok (phys, (dx * ((apparent p Z0 + v2 (tra p)) / (100 * fst (foc p))), - dy * ((apparent p Z0 + v2 (tra p)) / (100 * snd (foc p))), 0)).
Proof.
  intros p X Y dx dy i nby angle Z0 Hl HR Hk Hf0 Hf1.
  assert (HM : get_matrix (rot p) = Ok id3) by (rewrite HR; reflexivity).
  unfold pix2phys_UV. rewrite !(pix2phys_flat _ _ _ _ _ _ _ _ Hl HM). cbn [bind].
  unfold undistort. rewrite Hk. unfold inverse_projection. cbn [m0 m1 m2 m3 m4 m5 m6 m7 m8 id3].
  destruct (tra p) as [[Tx Ty] Tz]. cbv beta iota zeta. eexists. do 2 f_equal. unfold v0, v1, v2. cbn [fst snd].
  apply pair_equal_spec. split; [apply pair_equal_spec; split|ring].
  - field. repeat split; try lra.
  - field. repeat split; try lra.
Qed.

(** C126: no displacement of the pixels gives no displacement, and the opposite displacement the opposite one, for every
    calibration *)
Theorem C126_opposite : forall p X Y dx dy i nby angle phys ux uy uz,
  pix2phys_UV p X Y dx dy i nby angle = Ok (phys, (ux, uy, uz)) ->
  pix2phys_UV p X Y (- dx) (- dy) i nby angle = Ok (phys, (- ux, - uy, - uz)) /\
  pix2phys_UV p X Y 0 0 i nby angle = Ok (phys, (0, 0, 0)).
Proof.
  intros p X Y dx dy i nby angle phys ux uy uz. unfold pix2phys_UV.
  replace (X + - dx / 2) with (X - dx / 2) by field. replace (Y + - dy / 2) with (Y - dy / 2) by field.
  replace (X - - dx / 2) with (X + dx / 2) by field. replace (Y - - dy / 2) with (Y + dy / 2) by field.
  replace (X + 0 / 2) with X by field. replace (Y + 0 / 2) with Y by field. replace (X - 0 / 2) with X by field. replace (Y - 0 / 2) with Y by field.
  destruct (tsai_pix2phys p X Y i nby angle) as [c|]; [|discriminate]. cbn [bind].
  destruct (tsai_pix2phys p (X + dx / 2) (Y + dy / 2) i nby angle) as [b|]; [|discriminate]. cbn [bind].
  destruct (tsai_pix2phys p (X - dx / 2) (Y - dy / 2) i nby angle) as [a|]; [|discriminate]. cbn [bind].
  intros H. injection H as <- <- <- <-. split; f_equal; f_equal; f_equal; try f_equal; ring.
Qed.
Print Assumptions C126_pixels. Print Assumptions C126_arguments_refuted. Print Assumptions C126_again_refuted. Print Assumptions C126_same_array_refuted.
Print Assumptions C126_interface_refuted. Print Assumptions C126_displacement. Print Assumptions C126_facing. Print Assumptions C126_opposite.

(** ** Examples *)
(** the point x = 0.1 m seen at the pixel 600 by the camera of CalibProps is, for the second call, at the pixel 10500 *)
Example C126_ex_again : tsai_phys2pix cam_example (1 / 10) 0 0 = Ok (600, 500) /\ tsai_phys2pix cam_example (1 / 10 * 100) (0 * 100) 0 = Ok (10500, 500).
Proof. unfold tsai_phys2pix. cbn. unfold v0, v1, v2. cbn. split; f_equal; f_equal; field. Qed.
Example C126_ex_displacement : exists phys, pix2phys_UV cam_example 600 300 10 20 0 1000 true = Ok (phys, (1 / 100, - (2 / 100), 0)).
Proof.
  assert (Hl : level cam_example 0 true 0).
  { exists [(0, 0, 0)], NoAngle, (0, 0, 0), None. repeat split; try reflexivity. right; reflexivity. }
  destruct (C126_facing cam_example 600 300 10 20 0 1000 true 0 Hl eq_refl eq_refl ltac:(cbn; lra) ltac:(cbn; lra)) as (phys & E).
  exists phys. rewrite E. unfold apparent, v2. cbn [cam_example interface_z tra foc fst snd]. do 3 f_equal. f_equal; field.
Qed.
Example C126_ex_crosses : forall X Y, path_crosses_plane id3 X Y.
Proof. intros X Y. unfold path_crosses_plane, id3. cbn. lra. Qed.

(** C73, C74: the thin plate splines. *)
From Coq Require Import Reals ZArith List Bool Lra Lia.
From Verif Require Import PyBase StrModel CalibModel CalibProps TpsModel.
Import ListNotations.
Local Open Scope R_scope.

(** ** Specification *)

(** What [np.linalg.solve] gives in exact arithmetic: the solution of the system, whose matrix
    is not singular (LinAlgError otherwise). *)
Definition solve_contract (solve : matrix -> list R -> result (list R)) : Prop :=
  forall M v w, solve M v = Ok w ->
    List.length w = List.length v /\ mul_mv M w = v /\
    (forall u u', List.length u = List.length v -> List.length u' = List.length v -> mul_mv M u = mul_mv M u' -> u = u').

(** The spline with sources [ws] at the centers and the affine part a + b p0 + c p1 *)
Definition spline (centers : list pos) (ws : list R) (a b c : R) (p : pos) : R :=
  rsum (map (fun q => snd q * kernel (dist2 p (fst q))) (combine centers ws)) + (a + b * fst p + c * snd p).
Definition affine (a b c : R) (p : pos) : R := a + b * fst p + c * snd p.

(** ** Sums and products *)

Lemma rsum_app : forall l l', rsum (l ++ l') = rsum l + rsum l'.
Proof. induction l as [ | x l IH ]; intros l'; cbn [app]; [ cbn; ring | ]. unfold rsum in *. cbn [fold_right]. rewrite IH. ring. Qed.
Lemma rsum_cons : forall x l, rsum (x :: l) = x + rsum l. Proof. reflexivity. Qed.

Lemma dotv_cons : forall x u y v, dotv (x :: u) (y :: v) = x * y + dotv u v. Proof. reflexivity. Qed.
Lemma dotv_nil : forall v, dotv [] v = 0. Proof. reflexivity. Qed.

Lemma dotv_comm : forall u v, dotv u v = dotv v u.
Proof.
  induction u as [ | x u IH ]; intros [ | y v ]; try reflexivity.
  rewrite !dotv_cons, IH. ring.
Qed.

Lemma dotv_app : forall u v u' v', List.length u = List.length v -> dotv (u ++ u') (v ++ v') = dotv u v + dotv u' v'.
Proof.
  induction u as [ | x u IH ]; intros [ | y v ] u' v' H; try discriminate.
  - cbn [app]. rewrite dotv_nil. ring.
  - cbn [app]. rewrite !dotv_cons, IH by (injection H; auto). ring.
Qed.

Lemma add_lists_cons : forall x u y v, add_lists (x :: u) (y :: v) = (x + y) :: add_lists u v. Proof. reflexivity. Qed.
Lemma dotv_add : forall u v w, List.length u = List.length v -> dotv (add_lists u v) w = dotv u w + dotv v w.
Proof.
  induction u as [ | x u IH ]; intros [ | y v ] w H; try discriminate.
  - change (add_lists [] []) with (@nil R). rewrite !dotv_nil. ring.
  - rewrite add_lists_cons. destruct w as [ | z w ]; [ cbn; ring | ].
    rewrite !dotv_cons, IH by (injection H; auto). ring.
Qed.

Lemma dotv_zero : forall u v, (forall x, In x v -> x = 0) -> dotv u v = 0.
Proof.
  induction u as [ | x u IH ]; intros [ | y v ] H; try reflexivity.
  rewrite dotv_cons, IH by (intros; apply H; right; auto). rewrite (H y) by (left; auto). ring.
Qed.

Lemma dotv_ones : forall {A} (l : list A) v, List.length v = List.length l -> dotv (map (fun _ => 1) l) v = rsum v.
Proof.
  induction l as [ | x l IH ]; intros [ | y v ] H; try discriminate; try reflexivity.
  cbn [map]. rewrite dotv_cons, rsum_cons, IH by (injection H; auto). ring.
Qed.

Lemma split3 : forall {A} (n : nat) (w : list A), List.length w = (n + 3)%nat ->
  exists ws a b c, w = ws ++ [a; b; c] /\ List.length ws = n.
Proof.
  intros A n w H. exists (firstn n w).
  assert (Hs : List.length (skipn n w) = 3%nat) by (rewrite skipn_length; lia).
  destruct (skipn n w) as [ | a [ | b [ | c [ | ] ] ] ] eqn:E; try discriminate.
  exists a, b, c. split; [ rewrite <- E; symmetry; apply firstn_skipn | rewrite firstn_length; lia ].
Qed.

(** ** The lines of the matrices *)

Definition line_of (centers : list pos) (p : pos) : list R :=
  map (fun c => kernel (dist2 p c)) centers ++ [1; fst p; snd p].

Lemma nth_map_error : forall {A} (f : A -> R) l j a, nth_error l j = Some a -> nth j (map f l) 0 = f a.
Proof. intros A f l j a H. apply nth_error_nth with (d := 0). apply map_nth_error. exact H. Qed.

Lemma column_matrix : forall ps centers j p, nth_error ps j = Some p ->
  column (compute_tps_matrix ps centers) j = line_of centers p.
Proof.
  intros ps centers j p H. unfold column, compute_tps_matrix, line_of. rewrite map_app. f_equal.
  - rewrite map_map. apply map_ext. intros c. rewrite (nth_map_error _ _ _ _ H). reflexivity.
  - cbn [map]. rewrite !(nth_map_error _ _ _ _ H). reflexivity.
Qed.

Lemma map_seq_error : forall {A B} (f : nat -> B) (g : A -> B) (l : list A),
  (forall i a, nth_error l i = Some a -> f i = g a) -> map f (seq 0 (List.length l)) = map g l.
Proof.
  intros A B f g l. assert (G : forall l k, (forall i a, nth_error l i = Some a -> f (k + i)%nat = g a) -> map f (seq k (List.length l)) = map g l).
  { clear. induction l as [ | a l IH ]; intros k H; [ reflexivity | ]. cbn [List.length seq map]. f_equal.
    - rewrite <- (H 0%nat a eq_refl). f_equal. lia.
    - apply IH. intros i b Hi. rewrite <- (H (S i) b Hi). f_equal. lia. }
  intros H. apply G. exact H.
Qed.

Lemma transpose_matrix : forall ps centers, transpose (List.length ps) (compute_tps_matrix ps centers) = map (line_of centers) ps.
Proof. intros ps centers. apply map_seq_error. intros i a H. apply column_matrix. exact H. Qed.

Lemma line_of_length : forall centers p, List.length (line_of centers p) = (List.length centers + 3)%nat.
Proof. intros. unfold line_of. rewrite app_length, map_length. reflexivity. Qed.

Lemma dotv_map_combine : forall (f : pos -> R) centers ws,
  dotv (map f centers) ws = rsum (map (fun q => snd q * f (fst q)) (combine centers ws)).
Proof.
  induction centers as [ | c centers IH ]; intros [ | w ws ]; try reflexivity.
  cbn [map combine]. rewrite dotv_cons, rsum_cons, IH. cbn [fst snd]. ring.
Qed.

Lemma dotv_line : forall centers ws a b c p, List.length ws = List.length centers ->
  dotv (line_of centers p) (ws ++ [a; b; c]) = spline centers ws a b c p.
Proof.
  intros centers ws a b c p H. unfold line_of, spline.
  rewrite dotv_app by (rewrite map_length; auto). rewrite (dotv_map_combine (fun c => kernel (dist2 p c))).
  rewrite !dotv_cons, dotv_nil. ring.
Qed.

Lemma compute_field_lines : forall new centers w, compute_field new centers w = map (fun p => dotv w (line_of centers p)) new.
Proof.
  intros new centers w. unfold compute_field, mul_vm. apply map_seq_error. intros i a H. rewrite (column_matrix _ _ _ _ H). reflexivity.
Qed.

Lemma smoothing_dot : forall n i s ws a b c, List.length ws = n ->
  dotv (smoothing_line n i s) (ws ++ [a; b; c]) = s * nth i ws 0.
Proof.
  intros n i s ws a b c H. unfold smoothing_line. rewrite dotv_app by (rewrite map_length, seq_length; auto).
  rewrite !dotv_cons, dotv_nil.
  assert (G : forall ws k, dotv (map (fun j => s * (if (i =? j)%nat then 1 else 0)) (seq k (List.length ws))) ws
                           = s * (if (i <? k)%nat then 0 else nth (i - k) ws 0)).
  { clear. induction ws as [ | w ws IH ]; intros k; cbn [List.length seq map].
    - rewrite dotv_nil. destruct (i <? k)%nat; [ ring | ]. destruct (i - k)%nat; cbn; ring.
    - rewrite dotv_cons, IH. destruct (Nat.eqb_spec i k) as [ -> | Hn ].
      + replace (k <? S k)%nat with true by (symmetry; apply Nat.ltb_lt; lia).
        rewrite Nat.ltb_irrefl, Nat.sub_diag. cbn [nth]. ring.
      + destruct (Nat.ltb_spec i (S k)) as [ H1 | H1 ].
        * replace (i <? k)%nat with true by (symmetry; apply Nat.ltb_lt; lia). ring.
        * replace (i <? k)%nat with false by (symmetry; apply Nat.ltb_ge; lia).
          replace (i - k)%nat with (S (i - S k)) by lia. cbn [nth]. ring. }
  subst n. rewrite G. rewrite Nat.sub_0_r. cbn [Nat.ltb Nat.leb]. ring.
Qed.

(** the product of the matrix of the system with a vector *)
Lemma combine_map_seq : forall {A B C} (f : A -> B) (g : nat -> C) (l : list A),
  combine (map f l) (map g (seq 0 (List.length l))) = map (fun ia => (f (snd ia), g (fst ia))) (combine (seq 0 (List.length l)) l).
Proof.
  intros A B C f g l. generalize 0%nat. induction l as [ | a l IH ]; intros k; [ reflexivity | ].
  cbn [List.length seq map combine]. rewrite IH. reflexivity.
Qed.

Lemma system_mul : forall centers s ws a b c, List.length ws = List.length centers ->
  mul_mv (tps_system centers s) (ws ++ [a; b; c]) =
  map (fun ip => spline centers ws a b c (snd ip) + s * nth (fst ip) ws 0) (combine (seq 0 (List.length centers)) centers)
  ++ [rsum ws; dotv (map fst centers) ws; dotv (map snd centers) ws].
Proof.
  intros centers s ws a b c H. unfold mul_mv, tps_system. rewrite map_app, transpose_matrix, combine_map_seq. f_equal.
  - rewrite !map_map. apply map_ext_in. intros (i, p) Hi. cbn [fst snd].
    rewrite dotv_add, dotv_line, smoothing_dot; auto.
    rewrite line_of_length. unfold smoothing_line. rewrite app_length, map_length, seq_length. reflexivity.
  - cbn [map]. rewrite !dotv_app by (rewrite map_length; auto). rewrite !dotv_cons, !dotv_nil, dotv_ones by exact H.
    repeat (f_equal; try ring).
Qed.

(** the smoothed values are those of the spline at the centers *)
Lemma weights_spec : forall solve centers values s smoothed w,
  solve_contract solve -> List.length values = List.length centers ->
  compute_tps_weights solve centers values s = Ok (smoothed, w) ->
  exists ws a b c, w = ws ++ [a; b; c] /\ List.length ws = List.length centers /\
    smoothed = map (spline centers ws a b c) centers /\
    values = map (fun ip => spline centers ws a b c (snd ip) + s * nth (fst ip) ws 0) (combine (seq 0 (List.length centers)) centers) /\
    rsum ws = 0 /\ dotv (map fst centers) ws = 0 /\ dotv (map snd centers) ws = 0 /\
    (forall u u', List.length u = List.length w -> List.length u' = List.length w ->
       mul_mv (tps_system centers s) u = mul_mv (tps_system centers s) u' -> u = u').
Proof.
  intros solve centers values s smoothed w Hs Hl H. unfold compute_tps_weights in H.
  destruct (solve (tps_system centers s) (values ++ [0; 0; 0])) as [ w' | ] eqn:E; [ | discriminate ].
  cbn [bind] in H. injection H as H1 H2. subst w'. apply Hs in E. destruct E as (E1 & E2 & E3).
  rewrite app_length in E1. cbn [List.length] in E1. rewrite Hl in E1.
  destruct (split3 _ _ E1) as (ws & a & b & c & -> & Hw). exists ws, a, b, c.
  split; [ reflexivity | split; [ exact Hw | ] ]. split.
  { rewrite <- H1, transpose_matrix. unfold mul_mv. rewrite map_map. apply map_ext. intros p. apply dotv_line. exact Hw. }
  rewrite system_mul in E2 by exact Hw.
  assert (Hlen : List.length (map (fun ip => spline centers ws a b c (snd ip) + s * nth (fst ip) ws 0) (combine (seq 0 (List.length centers)) centers)) = List.length values).
  { rewrite map_length, combine_length, seq_length, Nat.min_id. auto. }
  assert (E4 : forall (u u' t t' : list R), List.length u = List.length u' -> u ++ t = u' ++ t' -> u = u' /\ t = t').
  { clear. induction u as [ | x u IH ]; intros [ | x' u' ] t t' Hl H; try discriminate; [ auto | ].
    cbn in H. injection H as -> H. apply IH in H; [ | injection Hl; auto ]. destruct H as [ -> -> ]. auto. }
  apply E4 in E2; [ | exact Hlen ]. destruct E2 as [ E2 E5 ]. injection E5 as E5 E6 E7.
  split; [ symmetry; exact E2 | ]. split; [ exact E5 | ]. split; [ exact E6 | ]. split; [ exact E7 | ].
  intros u u' Hu Hu'. apply E3; rewrite app_length in *; cbn [List.length] in *; lia.
Qed.

Lemma map_combine_seq : forall {A B} (f : A -> B) (l : list A) k, map (fun ip => f (snd ip)) (combine (seq k (List.length l)) l) = map f l.
Proof. induction l as [ | a l IH ]; intros k; [ reflexivity | ]. cbn [List.length seq combine map snd]. rewrite IH. reflexivity. Qed.

(** ** C73 *)

(** With no smoothing the spline goes through the data. *)
Theorem C73_interpolation : forall solve centers values smoothed w,
  solve_contract solve -> List.length values = List.length centers ->
  compute_tps_weights solve centers values 0 = Ok (smoothed, w) ->
  smoothed = values.
Proof.
  intros solve centers values smoothed w Hs Hl H.
  destruct (weights_spec _ _ _ _ _ _ Hs Hl H) as (ws & a & b & c & _ & _ & E1 & E2 & _).
  rewrite E1, E2. rewrite <- (map_combine_seq (spline centers ws a b c) centers 0). apply map_ext. intros ip. ring.
Qed.
Print Assumptions C73_interpolation.

(** The field computed at the centers is the smoothed field. *)
Theorem C73_field_at_centers : forall solve centers values s smoothed w,
  solve_contract solve -> List.length values = List.length centers ->
  compute_tps_weights solve centers values s = Ok (smoothed, w) ->
  compute_field centers centers w = smoothed.
Proof.
  intros solve centers values s smoothed w Hs Hl H.
  destruct (weights_spec _ _ _ _ _ _ Hs Hl H) as (ws & a & b & c & E0 & Hw & E1 & _).
  rewrite compute_field_lines, E1, E0. apply map_ext. intros p. rewrite dotv_comm. apply dotv_line. exact Hw.
Qed.
Print Assumptions C73_field_at_centers.

(** The smoothing conserves the mean and the first moments of the data. *)
Theorem C73_moments : forall solve centers values s smoothed w,
  solve_contract solve -> List.length values = List.length centers ->
  compute_tps_weights solve centers values s = Ok (smoothed, w) ->
  rsum smoothed = rsum values /\
  rsum (map (fun q => fst (fst q) * snd q) (combine centers smoothed)) = rsum (map (fun q => fst (fst q) * snd q) (combine centers values)) /\
  rsum (map (fun q => snd (fst q) * snd q) (combine centers smoothed)) = rsum (map (fun q => snd (fst q) * snd q) (combine centers values)).
Proof.
  intros solve centers values s smoothed w Hs Hl H.
  destruct (weights_spec _ _ _ _ _ _ Hs Hl H) as (ws & a & b & c & _ & Hw & E1 & E2 & Z0 & Z1 & Z2 & _).
  set (F := spline centers ws a b c) in *. clearbody F.
  (* for any weight g: the difference of the two sums is s * sum of g ws *)
  assert (G : forall (g : pos -> R) l k vs, vs = map (fun ip => F (snd ip) + s * nth (fst ip - k) ws 0) (combine (seq k (List.length l)) l) ->
            forall ws', List.length ws' = List.length l -> (forall i, (i < List.length l)%nat -> nth i ws 0 = nth i ws' 0) ->
            rsum (map (fun q => g (fst q) * snd q) (combine l vs)) =
            rsum (map (fun q => g (fst q) * snd q) (combine l (map F l))) + s * dotv (map g l) ws').
  { clear. intros g l. revert ws. induction l as [ | p l IH ]; intros ws k vs -> ws' Hw' Hn.
    - cbn. ring.
    - destruct ws' as [ | w' ws' ]; [ discriminate | ]. cbn [List.length seq combine map fst snd].
      rewrite !rsum_cons, dotv_cons. rewrite Nat.sub_diag. cbn [fst snd].
      rewrite (Hn 0%nat) by (cbn; lia). cbn [nth].
      rewrite (map_ext_in (fun ip => F (snd ip) + s * nth (fst ip - k) ws 0) (fun ip => F (snd ip) + s * nth (fst ip - S k) (tl ws) 0)).
      + rewrite (IH (tl ws) (S k) _ eq_refl ws').
        * ring.
        * injection Hw'; auto.
        * intros i Hi. specialize (Hn (S i)). cbn [List.length nth] in Hn. rewrite <- Hn by lia. destruct ws; [ destruct i; reflexivity | reflexivity ].
      + intros (i, q) Hi. cbn [fst snd]. apply in_combine_l in Hi. apply in_seq in Hi.
        replace (i - k)%nat with (S (i - S k)) by lia. destruct ws; [ destruct (i - S k)%nat; reflexivity | reflexivity ]. }
  assert (E2' : values = map (fun ip => F (snd ip) + s * nth (fst ip - 0) ws 0) (combine (seq 0 (List.length centers)) centers)).
  { rewrite E2. apply map_ext. intros ip. rewrite Nat.sub_0_r. reflexivity. }
  pose proof (fun g => G g centers 0%nat values E2' ws Hw (fun i _ => eq_refl)) as G'. rewrite <- E1 in G'.
  split; [ | split ].
  - assert (Hone : forall l, List.length l = List.length centers -> rsum (map (fun q : pos * R => 1 * snd q) (combine centers l)) = rsum l).
    { clear. induction centers as [ | p ps IH ]; intros [ | x l ] H; try discriminate; [ reflexivity | ].
      cbn [combine map snd]. rewrite !rsum_cons, IH by (injection H; auto). ring. }
    specialize (G' (fun _ => 1)). cbn beta in G'. rewrite !Hone in G' by (rewrite ?E1, ?map_length; auto).
    rewrite dotv_ones, Z0 in G' by exact Hw. lra.
  - specialize (G' (fun p => fst p)). change (fun p : pos => fst p) with (@fst R R) in G'. cbn beta in G'. change (@map pos R (@fst R R)) with (@map (R * R) R fst) in G'. rewrite Z1 in G'. rewrite Rmult_0_r, Rplus_0_r in G'. symmetry. exact G'.
  - specialize (G' (fun p => snd p)). change (fun p : pos => snd p) with (@snd R R) in G'. cbn beta in G'. change (@map pos R (@snd R R)) with (@map (R * R) R snd) in G'. rewrite Z2 in G'. rewrite Rmult_0_r, Rplus_0_r in G'. symmetry. exact G'.
Qed.
Print Assumptions C73_moments.

(** Affine fields are reproduced exactly, at the centers and everywhere, whatever the
    smoothing coefficient. *)
Theorem C73_affine : forall solve centers s a b c smoothed w new_positions,
  solve_contract solve ->
  compute_tps_weights solve centers (map (affine a b c) centers) s = Ok (smoothed, w) ->
  smoothed = map (affine a b c) centers /\
  compute_field new_positions centers w = map (affine a b c) new_positions /\
  w = repeat 0 (List.length centers) ++ [a; b; c].
Proof.
  intros solve centers s a b c smoothed w new Hs H.
  assert (Hl : List.length (map (affine a b c) centers) = List.length centers) by apply map_length.
  pose proof (weights_spec _ _ _ _ _ _ Hs Hl H) as (ws & a' & b' & c' & E0 & Hw & E1 & E2 & Z0 & Z1 & Z2 & U).
  assert (Hz : List.length (repeat 0 (List.length centers)) = List.length centers) by apply repeat_length.
  assert (Hsp : forall p, spline centers (repeat 0 (List.length centers)) a b c p = affine a b c p).
  { intros p. rewrite <- dotv_line by exact Hz. unfold line_of. rewrite dotv_app by (rewrite map_length; auto).
    rewrite dotv_zero by (intros x Hx; apply repeat_spec in Hx; exact Hx). rewrite !dotv_cons, dotv_nil. unfold affine. ring. }
  assert (Hw' : w = repeat 0 (List.length centers) ++ [a; b; c]).
  { apply U.
    - reflexivity.
    - rewrite E0, !app_length, Hz, Hw. reflexivity.
    - rewrite E0. rewrite !system_mul by auto. rewrite <- E2, Z0, Z1, Z2. f_equal.
      + rewrite <- (map_combine_seq (affine a b c) centers 0). apply map_ext. intros ip. rewrite Hsp.
        rewrite (nth_repeat 0). ring.
      + rewrite !dotv_zero by (intros x Hx; apply repeat_spec in Hx; exact Hx).
        assert (Hr : forall n, rsum (repeat 0 n) = 0) by (induction n as [ | n IH ]; [ reflexivity | cbn [repeat]; rewrite rsum_cons, IH; ring ]).
        rewrite Hr. reflexivity. }
  split; [ | split; [ | exact Hw' ] ].
  - rewrite Hw' in E0. assert (E3 : ws = repeat 0 (List.length centers) /\ [a'; b'; c'] = [a; b; c]).
    { assert (E4 : forall (u u' t t' : list R), List.length u = List.length u' -> u ++ t = u' ++ t' -> u = u' /\ t = t').
      { clear. induction u as [ | x u IH ]; intros [ | x' u' ] t t' Hl H; try discriminate; [ auto | ].
        cbn in H. injection H as -> H. apply IH in H; [ | injection Hl; auto ]. destruct H as [ -> -> ]. auto. }
      apply E4; [ rewrite Hz; exact Hw | symmetry; exact E0 ]. }
    destruct E3 as [ -> E3 ]. injection E3 as -> -> ->. rewrite E1. apply map_ext. exact Hsp.
  - rewrite compute_field_lines, Hw'. apply map_ext. intros p. rewrite dotv_comm, dotv_line by exact Hz. apply Hsp.
Qed.
Print Assumptions C73_affine.

(** ** C74: the gradient *)

Lemma lim_ext : forall f g z l, (forall x, f x = g x) -> derivable_pt_lim f z l -> derivable_pt_lim g z l.
Proof. intros f g z l H D eps He. destruct (D eps He) as [ d Hd ]. exists d. intros h Hh Hl. rewrite <- !H. auto. Qed.

(** the kernel is d2 ln(d2) / 2, also for d2 = 0 *)
Lemma kernel_eq : forall d, kernel d = d * ln d / 2.
Proof. intros d. unfold kernel. destruct (is_zero d) eqn:E; [ | reflexivity ]. apply is_zero_true in E. subst d. lra. Qed.

Lemma lnx_le : forall u, 0 < u -> ln u < u.
Proof. intros u Hu. rewrite <- (ln_exp u) at 2. apply ln_increasing; [ exact Hu | ]. pose proof (exp_ineq1 u). lra. Qed.

(** |x ln x| <= 2 sqrt x for x <= 1 *)
Lemma xlnx_small : forall x, 0 < x -> x < 1 -> Rabs (x * ln x) <= 2 * sqrt x.
Proof.
  intros x H0 H1. assert (Hs : 0 < sqrt x) by (apply sqrt_lt_R0; exact H0).
  assert (Hl : ln x < 0) by (rewrite <- ln_1; apply ln_increasing; lra).
  rewrite Rabs_left by nra.
  assert (E : ln x = - (2 * ln (/ sqrt x))).
  { rewrite ln_Rinv by exact Hs. rewrite <- (sqrt_sqrt x) at 1 by lra. rewrite ln_mult by exact Hs. ring. }
  pose proof (lnx_le (/ sqrt x) (Rinv_0_lt_compat _ Hs)) as B.
  apply Rle_trans with (x * (2 * / sqrt x)).
  - rewrite E. apply Rle_trans with (x * (2 * ln (/ sqrt x))); [ lra | ]. apply Rmult_le_compat_l; lra.
  - apply Req_le. rewrite <- (sqrt_sqrt x) at 1 by lra. field. lra.
Qed.

(** the derivative of the kernel along one direction *)
Lemma kernel_derivative : forall k c x, 0 <= k ->
  derivable_pt_lim (fun x => kernel ((x - c) * (x - c) + k)) x ((x - c) * dkernel ((x - c) * (x - c) + k)).
Proof.
  intros k c x Hk. destruct (Req_dec ((x - c) * (x - c) + k) 0) as [ E | E ].
  - (* at the center *)
    assert (Hx : x - c = 0) by (pose proof (Rle_0_sqr (x - c)) as Q; unfold Rsqr in Q; nra). assert (Hk0 : k = 0) by nra.
    rewrite Hx, Rmult_0_l. intros eps He.
    assert (Hd : 0 < Rmin 1 (eps * eps / 5)) by (apply Rmin_glb_lt; nra).
    exists (mkposreal _ Hd). intros h Hh Hb. cbn [RIneq.pos] in Hb.
    assert (Hb1 : Rabs h < 1) by (eapply Rlt_le_trans; [ exact Hb | apply Rmin_l ]).
    assert (Hb2 : Rabs h < eps * eps / 5) by (eapply Rlt_le_trans; [ exact Hb | apply Rmin_r ]).
    assert (Ha : 0 < Rabs h) by (apply Rabs_pos_lt; exact Hh).
    rewrite !kernel_eq. replace (x + h - c) with h by lra. rewrite Hx, Hk0.
    replace ((h * h + 0) * ln (h * h + 0) / 2) with (h * h * ln (Rabs h)).
    2: { rewrite Rplus_0_r. assert (L : ln (h * h) = 2 * ln (Rabs h)).
         { replace (h * h) with (Rabs h * Rabs h).
           - rewrite ln_mult by exact Ha. ring.
           - rewrite <- Rabs_mult. apply Rabs_right. pose proof (Rle_0_sqr h). unfold Rsqr in *. lra. }
         rewrite L. field. }
    replace ((h * h * ln (Rabs h) - (0 * 0 + 0) * ln (0 * 0 + 0) / 2) / h - 0) with (h * ln (Rabs h)) by (field; exact Hh).
    replace (Rabs (h * ln (Rabs h))) with (Rabs (Rabs h * ln (Rabs h))) by (rewrite !Rabs_mult, Rabs_Rabsolu; reflexivity).
    eapply Rle_lt_trans; [ apply xlnx_small; assumption | ].
    assert (Hs : sqrt (Rabs h) < eps / 2).
    { rewrite <- (sqrt_square (eps / 2)) by lra. apply sqrt_lt_1; [ lra | nra | nra ]. }
    lra.
  - assert (Hp : 0 < (x - c) * (x - c) + k) by (pose proof (Rle_0_sqr (x - c)) as Q; unfold Rsqr in Q; lra).
    unfold dkernel. destruct (is_zero ((x - c) * (x - c) + k)) eqn:Z; [ apply is_zero_true in Z; lra | ].
    set (g := fun x => (x - c) * (x - c) + k).
    assert (Dg : derivable_pt_lim g x (2 * (x - c))).
    { unfold g. replace (2 * (x - c)) with (((1 - 0) * (x - c) + (x - c) * (1 - 0)) + 0) by ring.
      apply (derivable_pt_lim_plus (fun x => (x - c) * (x - c)) (fun _ => k)); [ | apply derivable_pt_lim_const ].
      apply (derivable_pt_lim_mult (fun x => x - c) (fun x => x - c));
        apply (derivable_pt_lim_minus (fun x => x) (fun _ => c)); first [ apply derivable_pt_lim_id | apply derivable_pt_lim_const ]. }
    apply (lim_ext (fun x => / 2 * (g x * ln (g x)))).
    { intros z. rewrite kernel_eq. unfold g. field. }
    replace ((x - c) * (ln ((x - c) * (x - c) + k) + 1)) with (/ 2 * (2 * (x - c) * ln (g x) + g x * (/ g x * (2 * (x - c))))).
    2: { unfold g. field. lra. }
    apply (derivable_pt_lim_scal (fun x => g x * ln (g x))).
    apply (derivable_pt_lim_mult g (fun x => ln (g x))); [ exact Dg | ].
    apply (derivable_pt_lim_comp g ln); [ exact Dg | ]. apply derivable_pt_lim_ln. exact Hp.
Qed.

Lemma sum_derivative : forall (f : pos -> R -> R) (f' : pos -> R) x l,
  (forall c, derivable_pt_lim (f c) x (f' c)) ->
  derivable_pt_lim (fun x => rsum (map (fun q => snd q * f (fst q) x) l)) x (rsum (map (fun q : pos * R => snd q * f' (fst q)) l)).
Proof.
  intros f f' x l H. induction l as [ | q l IH ].
  - apply (derivable_pt_lim_const 0).
  - apply (lim_ext (fun x => snd q * f (fst q) x + rsum (map (fun q => snd q * f (fst q) x) l))); [ reflexivity | ].
    cbn [map]. rewrite rsum_cons.
    apply (derivable_pt_lim_plus (fun x => snd q * f (fst q) x) (fun x => rsum (map (fun q => snd q * f (fst q) x) l))); [ | exact IH ].
    apply (derivable_pt_lim_scal (f (fst q))). apply H.
Qed.

Lemma affine_derivative : forall a b x, derivable_pt_lim (fun x => a + b * x) x b.
Proof.
  intros a b x. cut (derivable_pt_lim (fun x => a + b * x) x (0 + b * 1)); [ rewrite Rplus_0_l, Rmult_1_r; auto | ].
  apply (derivable_pt_lim_plus (fun _ => a) (fun x => b * x)); [ apply derivable_pt_lim_const | ].
  apply (derivable_pt_lim_scal (fun x => x)), derivable_pt_lim_id.
Qed.

(** the value of the field at one position *)
Definition field_at (centers : list pos) (w : list R) (p : pos) : R := nth 0 (compute_field [p] centers w) 0.

Lemma field_at_spline : forall centers ws a b c p, List.length ws = List.length centers ->
  field_at centers (ws ++ [a; b; c]) p = spline centers ws a b c p.
Proof. intros. unfold field_at. rewrite compute_field_lines. cbn [map nth]. rewrite dotv_comm. apply dotv_line. assumption. Qed.

Lemma gradient_values : forall sites centers ws a b c j p, List.length ws = List.length centers -> nth_error sites j = Some p ->
  nth_error (fst (compute_gradient sites centers (ws ++ [a; b; c]))) j
  = Some (rsum (map (fun q => snd q * ((snd p - snd (fst q)) * dkernel ((snd p - snd (fst q)) * (snd p - snd (fst q)) + (fst p - fst (fst q)) * (fst p - fst (fst q))))) (combine centers ws)) + b) /\
  nth_error (snd (compute_gradient sites centers (ws ++ [a; b; c]))) j
  = Some (rsum (map (fun q => snd q * ((fst p - fst (fst q)) * dkernel ((snd p - snd (fst q)) * (snd p - snd (fst q)) + (fst p - fst (fst q)) * (fst p - fst (fst q))))) (combine centers ws)) + c).
Proof.
  intros sites centers ws a b c j p Hw Hj. unfold compute_gradient, compute_tps_matrices_dxy. cbn [fst snd].
  assert (Hs : nth_error (seq 0 (List.length sites)) j = Some j).
  { assert (Hlt : (j < List.length sites)%nat) by (apply nth_error_Some; congruence).
    rewrite (nth_error_nth' _ 0%nat) by (rewrite seq_length; exact Hlt). rewrite seq_nth by exact Hlt. reflexivity. }
  unfold mul_vm. split; rewrite (map_nth_error _ _ _ Hs); f_equal; unfold column; rewrite map_app, map_map; cbn [map];
    rewrite !(nth_map_error _ _ _ _ Hj), dotv_app by (rewrite map_length; auto); rewrite !dotv_cons, dotv_nil.
  - rewrite (map_ext _ (fun c => (snd p - snd c) * dkernel ((snd p - snd c) * (snd p - snd c) + (fst p - fst c) * (fst p - fst c))))
      by (intros q; exact (nth_map_error (fun p : pos => (snd p - snd q) * dkernel ((snd p - snd q) * (snd p - snd q) + (fst p - fst q) * (fst p - fst q))) _ _ _ Hj)).
    rewrite dotv_comm, dotv_map_combine. apply f_equal2; [ reflexivity | ring ].
  - rewrite (map_ext _ (fun c => (fst p - fst c) * dkernel ((snd p - snd c) * (snd p - snd c) + (fst p - fst c) * (fst p - fst c))))
      by (intros q; exact (nth_map_error (fun p : pos => (fst p - fst q) * dkernel ((snd p - snd q) * (snd p - snd q) + (fst p - fst q) * (fst p - fst q))) _ _ _ Hj)).
    rewrite dotv_comm, dotv_map_combine. apply f_equal2; [ reflexivity | ring ].
Qed.

(** The two components returned by compute_gradient, compared with the true derivatives of the
    field along the component 1 (x, "dsites[1]") and the component 0 (y): the two coefficients
    of the affine part are exchanged. *)
Theorem C74_gradient_partial : forall sites centers ws a b c j y x,
  List.length ws = List.length centers -> nth_error sites j = Some (y, x) ->
  exists dx dy,
    nth_error (fst (compute_gradient sites centers (ws ++ [a; b; c]))) j = Some dx /\
    nth_error (snd (compute_gradient sites centers (ws ++ [a; b; c]))) j = Some dy /\
    derivable_pt_lim (fun x' => field_at centers (ws ++ [a; b; c]) (y, x')) x (dx - b + c) /\
    derivable_pt_lim (fun y' => field_at centers (ws ++ [a; b; c]) (y', x)) y (dy - c + b).
Proof.
  intros sites centers ws a b c j y x Hw Hj. destruct (gradient_values _ _ _ a b c _ _ Hw Hj) as [ Gx Gy ].
  cbn [fst snd] in Gx, Gy. eexists. eexists. split; [ exact Gx | ]. split; [ exact Gy | ].
  split.
  - apply (lim_ext (fun x' => rsum (map (fun q => snd q * kernel ((x' - snd (fst q)) * (x' - snd (fst q)) + (y - fst (fst q)) * (y - fst (fst q)))) (combine centers ws)) + ((a + b * y) + c * x'))).
    { intros z. rewrite field_at_spline by exact Hw. unfold spline, dist2. cbn [fst snd]. apply f_equal2; [ | reflexivity ].
      f_equal. apply map_ext. intros ((q0, q1), q2). cbn [fst snd]. apply f_equal. apply f_equal. ring. }
    match goal with |- derivable_pt_lim _ _ (?S + b - b + c) => replace (S + b - b + c) with (S + c) by ring end.
    apply (derivable_pt_lim_plus (fun x' => rsum (map (fun q => snd q * kernel ((x' - snd (fst q)) * (x' - snd (fst q)) + (y - fst (fst q)) * (y - fst (fst q)))) (combine centers ws))) (fun x' => (a + b * y) + c * x')).
    2: apply affine_derivative.
    apply (sum_derivative (fun q x' => kernel ((x' - snd q) * (x' - snd q) + (y - fst q) * (y - fst q)))
                          (fun q => (x - snd q) * dkernel ((x - snd q) * (x - snd q) + (y - fst q) * (y - fst q)))).
    intros q. apply kernel_derivative. pose proof (Rle_0_sqr (y - fst q)) as Q. exact Q.
  - apply (lim_ext (fun y' => rsum (map (fun q => snd q * kernel ((y' - fst (fst q)) * (y' - fst (fst q)) + (x - snd (fst q)) * (x - snd (fst q)))) (combine centers ws)) + ((a + c * x) + b * y'))).
    { intros z. rewrite field_at_spline by exact Hw. unfold spline, dist2. cbn [fst snd]. apply f_equal2.
      - f_equal. apply map_ext. intros ((q0, q1), q2). cbn [fst snd]. apply f_equal. apply f_equal. ring.
      - ring. }
    match goal with |- derivable_pt_lim _ _ (?S + c - c + b) => replace (S + c - c + b) with (S + b) by ring end.
    apply (derivable_pt_lim_plus (fun y' => rsum (map (fun q => snd q * kernel ((y' - fst (fst q)) * (y' - fst (fst q)) + (x - snd (fst q)) * (x - snd (fst q)))) (combine centers ws))) (fun y' => (a + c * x) + b * y')).
    2: apply affine_derivative.
    rewrite (map_ext _ (fun q : pos * R => snd q * ((y - fst (fst q)) * dkernel ((y - fst (fst q)) * (y - fst (fst q)) + (x - snd (fst q)) * (x - snd (fst q)))))).
    2: { intros ((q0, q1), q2). cbn [fst snd]. f_equal. f_equal. f_equal. ring. }
    apply (sum_derivative (fun q y' => kernel ((y' - fst q) * (y' - fst q) + (x - snd q) * (x - snd q)))
                          (fun q => (y - fst q) * dkernel ((y - fst q) * (y - fst q) + (x - snd q) * (x - snd q)))).
    intros q. apply kernel_derivative. pose proof (Rle_0_sqr (x - snd q)) as Q. exact Q.
Qed.
Print Assumptions C74_gradient_partial.

(** The gradient is the gradient of the field if and only if the two coefficients are equal. *)
Corollary C74_gradient_iff : forall sites centers ws a b c j y x dx dy,
  List.length ws = List.length centers -> nth_error sites j = Some (y, x) ->
  nth_error (fst (compute_gradient sites centers (ws ++ [a; b; c]))) j = Some dx ->
  nth_error (snd (compute_gradient sites centers (ws ++ [a; b; c]))) j = Some dy ->
  (derivable_pt_lim (fun x' => field_at centers (ws ++ [a; b; c]) (y, x')) x dx /\
   derivable_pt_lim (fun y' => field_at centers (ws ++ [a; b; c]) (y', x)) y dy) <-> b = c.
Proof.
  intros sites centers ws a b c j y x dx dy Hw Hj Hx Hy.
  destruct (C74_gradient_partial sites centers ws a b c j y x Hw Hj) as (dx' & dy' & H1 & H2 & H3 & H4).
  rewrite Hx in H1. rewrite Hy in H2. injection H1 as <-. injection H2 as <-. split.
  - intros [ D _ ]. pose proof (uniqueness_limite _ _ _ _ D H3). lra.
  - intros ->. replace dx with (dx - c + c) by ring. replace dy with (dy - c + c) by ring. auto.
Qed.
Print Assumptions C74_gradient_iff.

(** "The first component returned by compute_gradient is a derivative of the field" is false for
    the two possible orders of the coordinates: it is neither the derivative along the
    component 1 nor the derivative along the component 0. *)
Theorem C74_gradient_refuted : exists centers w p dx,
  List.length w = (List.length centers + 3)%nat /\
  fst (compute_gradient [p] centers w) = [dx] /\
  ~ derivable_pt_lim (fun x => field_at centers w (fst p, x)) (snd p) dx /\
  ~ derivable_pt_lim (fun y => field_at centers w (y, snd p)) (fst p) dx.
Proof.
  exists [(0, 0)], ([1] ++ [0; 1; 0]), (0, 1).
  destruct (gradient_values [(0, 1)] [(0, 0)] [1] 0 1 0 0%nat (0, 1) eq_refl eq_refl) as [ Gx _ ].
  cbn [fst snd combine map] in Gx. rewrite rsum_cons in Gx. cbn [fst snd] in Gx.
  assert (E : dkernel ((1 - 0) * (1 - 0) + (0 - 0) * (0 - 0)) = 1).
  { replace ((1 - 0) * (1 - 0) + (0 - 0) * (0 - 0)) with 1 by ring. unfold dkernel.
    destruct (is_zero 1) eqn:Z; [ apply is_zero_true in Z; lra | ]. rewrite ln_1. ring. }
  rewrite E in Gx. exists 2.
  destruct (C74_gradient_partial [(0, 1)] [(0, 0)] [1] 0 1 0 0%nat 0 1 eq_refl eq_refl) as (dx & dy & H1 & H2 & H3 & H4).
  split; [ reflexivity | ]. rewrite Gx in H1. injection H1 as <-.
  assert (Gy : nth_error (snd (compute_gradient [(0, 1)] [(0, 0)] ([1] ++ [0; 1; 0]))) 0 = Some 0).
  { destruct (gradient_values [(0, 1)] [(0, 0)] [1] 0 1 0 0%nat (0, 1) eq_refl eq_refl) as [ _ Gy ]. rewrite Gy.
    cbn [fst snd combine map]. rewrite rsum_cons. cbn [fst snd rsum fold_right]. rewrite E. f_equal. ring. }
  rewrite Gy in H2. injection H2 as <-. split; [ | split ].
  - assert (L : forall (l : list R) d, List.length l = 1%nat -> nth_error l 0 = Some d -> l = [d]).
    { intros [ | d' [ | ] ] d Hl Hd; try discriminate. injection Hd as ->. reflexivity. }
    etransitivity; [ apply L; [ reflexivity | exact Gx ] | ]. apply f_equal2; [ unfold rsum, fold_right; ring | reflexivity ].
  - cbn [fst snd]. intros D. pose proof (uniqueness_limite _ _ _ _ D H3) as Q. cbn [rsum fold_right map] in Q. lra.
  - cbn [fst snd]. intros D. pose proof (uniqueness_limite _ _ _ _ D H4) as Q. lra.
Qed.
Print Assumptions C74_gradient_refuted.

(** ** Non-vacuity: three centers, a solver for this system *)

Definition ex_centers : list pos := [(0, 0); (0, 1); (1, 0)].

Lemma ex_regular : forall s u u', List.length u = 6%nat -> List.length u' = 6%nat ->
  mul_mv (tps_system ex_centers s) u = mul_mv (tps_system ex_centers s) u' -> u = u'.
Proof.
  intros s u u' Hu Hu' H.
  destruct (split3 3 u Hu) as (ws & a & b & c & -> & Hw). destruct (split3 3 u' Hu') as (ws' & a' & b' & c' & -> & Hw').
  rewrite !system_mul in H by assumption.
  destruct ws as [ | w0 [ | w1 [ | w2 [ | ] ] ] ]; try discriminate.
  destruct ws' as [ | w0' [ | w1' [ | w2' [ | ] ] ] ]; try discriminate.
  cbn [ex_centers List.length seq combine map app fst snd nth] in H.
  injection H as H0 H1 H2 H3 H4 H5. unfold dotv, rsum in H3, H4, H5. cbn [combine map fst snd fold_right] in H3, H4, H5.
  assert (w2 = w2') by lra. assert (w1 = w1') by lra. assert (w0 = w0') by lra. subst w0' w1' w2'.
  unfold spline in H0, H1, H2. cbn [combine map fst snd] in H0, H1, H2.
  assert (a = a') by lra. subst a'. assert (b = b') by lra. assert (c = c') by lra. subst. reflexivity.
Qed.

(** a solver for one right-hand side *)
Definition ex_solve (s : R) (v0 w0 : list R) (M : matrix) (v : list R) : result (list R) :=
  if list_eq_dec (list_eq_dec Req_EM_T) M (tps_system ex_centers s) then
    if list_eq_dec Req_EM_T v v0 then Ok w0 else Err LinAlgError
  else Err LinAlgError.

Lemma ex_solve_contract : forall s w0, List.length w0 = 6%nat ->
  solve_contract (ex_solve s (mul_mv (tps_system ex_centers s) w0) w0).
Proof.
  intros s w0 Hl M v w H. unfold ex_solve in H.
  destruct (list_eq_dec (list_eq_dec Req_EM_T) M (tps_system ex_centers s)) as [ -> | ]; [ | discriminate ].
  destruct (list_eq_dec Req_EM_T v _) as [ -> | ]; [ | discriminate ]. injection H as <-.
  split; [ | split; [ reflexivity | ] ].
  - unfold mul_mv. rewrite map_length, Hl. reflexivity.
  - intros u u' Hu Hu'. apply ex_regular; [ rewrite Hu | rewrite Hu' ]; unfold mul_mv; rewrite map_length; reflexivity.
Qed.

Example C73_affine_ex :
  let values := map (affine 1 2 3) ex_centers in
  exists solve smoothed w, solve_contract solve /\
    compute_tps_weights solve ex_centers values 5 = Ok (smoothed, w) /\ smoothed = [1; 4; 3] /\
    compute_field [(7, 2)] ex_centers w = [21].
Proof.
  intros values. set (w0 := [0; 0; 0] ++ [1; 2; 3]).
  exists (ex_solve 5 (mul_mv (tps_system ex_centers 5) w0) w0).
  assert (C : solve_contract (ex_solve 5 (mul_mv (tps_system ex_centers 5) w0) w0)) by (apply ex_solve_contract; reflexivity).
  assert (E : mul_mv (tps_system ex_centers 5) w0 = values ++ [0; 0; 0]).
  { unfold w0. rewrite system_mul by reflexivity. unfold values, ex_centers, spline, affine.
    cbn [List.length seq combine map app fst snd nth]. rewrite !dotv_cons, !dotv_nil, !rsum_cons. unfold rsum, fold_right.
    repeat (f_equal; try ring). }
  assert (H : exists sm, compute_tps_weights (ex_solve 5 (mul_mv (tps_system ex_centers 5) w0) w0) ex_centers values 5 = Ok (sm, w0)).
  { unfold compute_tps_weights. rewrite <- E. unfold ex_solve.
    destruct (list_eq_dec (list_eq_dec Req_EM_T) _ _) as [ _ | n ]; [ | destruct n; reflexivity ].
    destruct (list_eq_dec Req_EM_T _ _) as [ _ | n ]; [ | destruct n; reflexivity ]. cbn [bind]. eauto. }
  destruct H as [ sm H ]. exists sm, w0. split; [ exact C | ]. split; [ exact H | ].
  destruct (C73_affine _ _ _ _ _ _ _ _ [(7, 2)] C H) as (H1 & H2 & _). rewrite H1, H2.
  unfold ex_centers, affine. cbn [map fst snd]. split; repeat (f_equal; try ring).
Qed.

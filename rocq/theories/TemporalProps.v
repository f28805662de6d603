(** C123: the temporal spectra of an array of vector fields. *)
From Coq Require Import Reals ZArith List Lia Lra Bool.
From Coq Require Import ZifyNat.
From Verif Require Import PyBase FourierBase FourierModel FourierProofs SpectrumModel SpectrumProps TemporalModel.
Import ListNotations.
Local Open Scope R_scope.

(** ** Specification *)
(** all the arrays have the shape (h, l) *)
Definition uniform (h l : nat) (fields : list vfield) : Prop :=
  forall f, In f fields -> f_ny f = h /\ f_nx f = l /\
    n_rows (f_vx f) = h /\ n_cols (f_vx f) = l /\ n_rows (f_vy f) = h /\ n_cols (f_vy f) = l.
(** [v t y x] are the values of the arrays [arrays] *)
Definition values_of (arrays : list arr) (v : nat -> nat -> nat -> R) : Prop :=
  forall t a, nth_error arrays t = Some a -> forall y x, val a y x = v t y x.
(** [v t y x] are the values of the arrays, those with one line (column) repeated on all the lines (columns) *)
Definition spread_of (arrays : list arr) (v : nat -> nat -> nat -> R) : Prop :=
  forall t a, nth_error arrays t = Some a -> forall y x,
    val a (if Nat.eqb (n_rows a) 1 then 0 else y)%nat (if Nat.eqb (n_cols a) 1 then 0 else x)%nat = v t y x.
(** the spectrum of [n] values [v 0 y x], ..., [v (n - 1) y x] at the times 0, dt, ..., (n - 1) dt, at each of the points *)
Definition is_spectrum (n : nat) (dt : R) (h l : nat) (v : nat -> nat -> nat -> R) (s : spectrum) : Prop :=
  sp_len s = n /\ List.length (sp_omega s) = n /\
  (forall i, (i < n)%nat -> nth i (sp_omega s) 0 = 2 * PI * IZR (Z.of_nat i - Z.of_nat (n / 2)) / (INR n * dt)) /\
  forall y x, (y < h)%nat -> (x < l)%nat ->
    (forall i, (i < n)%nat -> let om := nth i (sp_omega s) 0 in
       sp_fft s i y x = (rsum (fun t => v t y x * cos (om * (INR t * dt))) n / INR n,
                         - rsum (fun t => v t y x * sin (om * (INR t * dt))) n / INR n)) /\
    rsum (fun i => sp_psd s i y x) n * (2 * PI / (INR n * dt)) = (1 / 2) * (rsum (fun t => v t y x ^ 2) n / INR n).
(** numpy can write an array of shape (h', l') in one of shape (h, l) *)
Definition fits (h l : nat) (a : arr) : Prop := (n_rows a = h \/ n_rows a = 1%nat) /\ (n_cols a = l \/ n_cols a = 1%nat).

(** ** Lemmas *)
Lemma stack_ok h l arrays : (forall a, In a arrays -> n_rows a = h /\ n_cols a = l) ->
  stack h l arrays = Ok (map val arrays).
Proof.
  induction arrays as [|a rest IH]; intros H; [reflexivity|]. cbn [stack map].
  destruct (H a (or_introl eq_refl)) as (E1 & E2). unfold assign. rewrite E1, E2, !Nat.eqb_refl. cbn [orb andb bind].
  rewrite IH by (intros; apply H; right; assumption). reflexivity.
Qed.

Lemma stack_iff h l arrays : (exists vs, stack h l arrays = Ok vs) <-> forall a, In a arrays -> fits h l a.
Proof.
  assert (A : forall a, (exists v, assign h l a = Ok v) <-> fits h l a).
  { intros a. unfold assign, fits. rewrite <- !Nat.eqb_eq.
    destruct (Nat.eqb (n_rows a) h), (Nat.eqb (n_rows a) 1), (Nat.eqb (n_cols a) l), (Nat.eqb (n_cols a) 1); cbn [orb andb];
      (split; [intros (v & E); try discriminate; auto|intros ([E|E] & [E'|E']); try discriminate; eexists; reflexivity]). }
  induction arrays as [|a rest IH]; cbn [stack].
  - split; [intros _ a []|intros _; eexists; reflexivity].
  - split.
    + intros (vs & E). destruct (assign h l a) as [v|] eqn:Ea; [|discriminate]. cbn [bind] in E.
      destruct (stack h l rest) as [ws|] eqn:Er; [|discriminate].
      intros b [<-|Hb]; [apply A; eauto|]. apply (proj1 IH (ex_intro _ ws eq_refl)). exact Hb.
    + intros H. destruct (proj2 (A a) (H a (or_introl eq_refl))) as (v & ->).
      destruct (proj2 IH (fun b Hb => H b (or_intror Hb))) as (ws & ->). eexists. reflexivity.
Qed.

Lemma stack_length h l arrays vs : stack h l arrays = Ok vs -> List.length vs = List.length arrays.
Proof.
  revert vs. induction arrays as [|a rest IH]; intros vs E; cbn [stack] in E.
  - injection E as <-. reflexivity.
  - destruct (assign h l a) as [v|]; [|discriminate]. cbn [bind] in E.
    destruct (stack h l rest) as [ws|] eqn:Er; [|discriminate]. cbn [bind] in E. injection E as <-.
    cbn [List.length]. rewrite (IH ws eq_refl). reflexivity.
Qed.

Lemma py_get_0 {A} (a : A) l : py_get (a :: l) 0 = Ok a.
Proof. unfold py_get, zlen. cbn [List.length]. change (0 <? 0)%Z with false. cbv iota. rewrite (proj2 (Z.ltb_lt 0 (Z.of_nat (S (List.length l))))) by lia. reflexivity. Qed.
Lemma py_get_1 {A} (a b : A) l : py_get (a :: b :: l) 1 = Ok b.
Proof. unfold py_get, zlen. cbn [List.length]. change (1 <? 0)%Z with false. cbv iota. rewrite (proj2 (Z.ltb_lt 1 (Z.of_nat (S (S (List.length l)))))) by lia. reflexivity. Qed.

Lemma times_get dt n : (2 <= n)%nat ->
  py_get (map (fun j => INR j * dt) (seq 0 n)) 1 = Ok (1 * dt) /\ py_get (map (fun j => INR j * dt) (seq 0 n)) 0 = Ok (0 * dt).
Proof. intros Hn. destruct n as [|[|n]]; [lia|lia|]. cbn [seq map]. rewrite py_get_0, py_get_1. split; reflexivity. Qed.

Lemma spectrum_gen h l n dt vals v : (2 <= n)%nat -> 0 < dt -> List.length vals = n ->
  (forall t g, nth_error vals t = Some g -> forall y x, (y < h)%nat -> (x < l)%nat -> g y x = v t y x) ->
  exists s, compute_1dspectrum (map (fun j => INR j * dt) (seq 0 n)) vals = Ok s /\ is_spectrum n dt h l v s.
Proof.
  intros Hn Hdt Hl Hv. unfold compute_1dspectrum. destruct (times_get dt n Hn) as (-> & ->). cbn [bind].
  rewrite map_length, seq_length, Hl. replace (1 * dt - 0 * dt) with dt by ring.
  eexists. split; [reflexivity|].
  assert (Hn0 : (0 < n)%nat) by lia. pose proof (lt_0_INR n Hn0) as HN.
  assert (Sig : forall y x t, (y < h)%nat -> (x < l)%nat -> (t < n)%nat -> nth t vals (fun _ _ => 0) y x = v t y x).
  { intros y x t Hy Hx Ht. destruct (nth_error vals t) as [g|] eqn:Ea.
    - rewrite (nth_error_nth vals t (fun _ _ => 0) Ea). apply (Hv t g Ea); assumption.
    - apply nth_error_None in Ea. lia. }
  assert (Om : forall i, (i < n)%nat -> nth i (map (fun i0 => fftshift n (fftfreq n dt) i0 * 2 * PI) (seq 0 n)) 0 = spectrum1_omega n dt i).
  { intros i Hi. rewrite (nth_indep _ 0 (fftshift n (fftfreq n dt) 0%nat * 2 * PI)) by (rewrite map_length, seq_length; exact Hi).
    rewrite (map_nth (fun i0 => fftshift n (fftfreq n dt) i0 * 2 * PI)), seq_nth by exact Hi. reflexivity. }
  unfold is_spectrum. cbn [sp_len sp_omega sp_fft sp_psd].
  split; [reflexivity|]. split; [rewrite map_length, seq_length; reflexivity|]. split.
  - intros i Hi. rewrite Om by exact Hi. apply omega_spec; assumption.
  - intros y x Hy Hx.
    assert (F : forall i, fftshift n (fft1 n (fun t => nth t vals (fun _ _ => 0) y x)) i
                          = fftshift n (fft1 n (fun t => v t y x)) i).
    { intros i. unfold fftshift, fft1. apply csum_ext. intros t Ht. rewrite Sig by assumption. reflexivity. }
    split.
    + intros i Hi. cbv zeta. rewrite F. rewrite Om by exact Hi.
      replace (dt / (INR n * dt)) with (/ INR n) by (field; lra).
      unfold fftshift, fft1.
      rewrite (csum_ext _ (fun t => (v t y x * cos (spectrum1_omega n dt i * (INR t * dt)),
                                     - (v t y x * sin (spectrum1_omega n dt i * (INR t * dt)))))).
      * assert (P : forall f g m, csum (fun k => (f k, g k)) m = (rsum f m, rsum g m)).
        { intros f g m. induction m as [|m IH]; [reflexivity|]. cbn [csum rsum]. rewrite IH. reflexivity. }
        rewrite P. unfold Cmul, RtoC. cbn [fst snd].
        assert (O : rsum (fun t => - (v t y x * sin (spectrum1_omega n dt i * (INR t * dt)))) n
                    = - rsum (fun t => v t y x * sin (spectrum1_omega n dt i * (INR t * dt))) n).
        { rewrite (rsum_ext _ (fun t => (-1) * (v t y x * sin (spectrum1_omega n dt i * (INR t * dt))))) by (intros; ring).
          rewrite rsum_scal. ring. }
        rewrite O. f_equal; field; lra.
      * intros t _. assert (E : w n (Z.of_nat ((i + (n - n / 2)) mod n) * - Z.of_nat t)
           = (cos (spectrum1_omega n dt i * (INR t * dt)), - sin (spectrum1_omega n dt i * (INR t * dt)))).
        { rewrite <- cos_neg, <- sin_neg.
          destruct (shift_index n Hn0 i Hi) as (k & -> & Hk & HZ & _).
          transitivity (w n ((Z.of_nat i - Z.of_nat (n / 2)) * - Z.of_nat t)).
          - destruct HZ as [->|HZ]; [reflexivity|]. rewrite HZ.
            replace ((Z.of_nat i - Z.of_nat (n / 2) + Z.of_nat n) * - Z.of_nat t)%Z
              with ((Z.of_nat i - Z.of_nat (n / 2)) * - Z.of_nat t + Z.of_nat n * - Z.of_nat t)%Z by ring.
            apply w_periodic. exact Hn0.
          - unfold w, ang. rewrite omega_spec by assumption. rewrite mult_IZR, opp_IZR, <- (INR_IZR_INZ t).
            replace (2 * PI * (IZR (Z.of_nat i - Z.of_nat (n / 2)) * - INR t) / INR n)
              with (- (2 * PI * IZR (Z.of_nat i - Z.of_nat (n / 2)) / (INR n * dt) * (INR t * dt))) by (field; lra).
            reflexivity. }
        rewrite E. unfold Cmul, RtoC. cbn [fst snd]. f_equal; ring.
    + pose proof (C67_psd_partial n dt Hn0 Hdt (fun t => v t y x)) as Psd. cbv zeta in Psd.
      rewrite (rsum_ext _ (spectrum1_psd n dt (fun t => v t y x))).
      * rewrite Psd. rewrite (rsum_ext (fun t => v t y x ^ 2) (fun t => v t y x * v t y x)) by (intros; ring). field. lra.
      * intros i _. unfold spectrum1_psd, spectrum1_fft. cbv zeta. rewrite F. reflexivity.
Qed.

Lemma spectrum_1d h l n dt arrays v : (2 <= n)%nat -> 0 < dt -> List.length arrays = n -> values_of arrays v ->
  exists s, compute_1dspectrum (map (fun j => INR j * dt) (seq 0 n)) (map val arrays) = Ok s /\ is_spectrum n dt h l v s.
Proof.
  intros Hn Hdt Hl Hv. apply spectrum_gen; [exact Hn|exact Hdt|rewrite map_length; exact Hl|].
  intros t g Eg y x _ _. rewrite nth_error_map in Eg. destruct (nth_error arrays t) as [a|] eqn:Ea; [|discriminate].
  injection Eg as <-. apply (Hv t a Ea).
Qed.

Lemma stack_values h l arrays vs : stack h l arrays = Ok vs -> forall t g, nth_error vs t = Some g ->
  exists a, nth_error arrays t = Some a /\
    forall y x, (y < h)%nat -> (x < l)%nat -> g y x = val a (if Nat.eqb (n_rows a) 1 then 0 else y)%nat (if Nat.eqb (n_cols a) 1 then 0 else x)%nat.
Proof.
  revert vs. induction arrays as [|a rest IH]; intros vs E t g Eg; cbn [stack] in E.
  - injection E as <-. destruct t; discriminate.
  - destruct (assign h l a) as [v|] eqn:Ea; [|discriminate]. cbn [bind] in E.
    destruct (stack h l rest) as [ws|] eqn:Er; [|discriminate]. cbn [bind] in E. injection E as <-.
    destruct t as [|t]; cbn [nth_error] in *; [|exact (IH ws eq_refl t g Eg)].
    injection Eg as <-. exists a. split; [reflexivity|]. intros y x Hy Hx. unfold assign in Ea.
    destruct (Nat.eqb_spec (n_rows a) h) as [E1|E1], (Nat.eqb_spec (n_rows a) 1) as [E2|E2],
      (Nat.eqb_spec (n_cols a) l) as [E3|E3], (Nat.eqb_spec (n_cols a) 1) as [E4|E4]; cbn [orb andb] in Ea; try discriminate;
      injection Ea as <-; f_equal; lia.
Qed.

(** ** Theorems *)
(** C123: with the times set, the spectra are those of the values of each point, for both components *)
Theorem C123_points : forall a dt h l vx vy, (2 <= List.length (af_list a))%nat -> 0 < dt -> uniform h l (af_list a) ->
  values_of (map f_vx (af_list a)) vx -> values_of (map f_vy (af_list a)) vy ->
  exists sx sy, compute_temporal_fft (af_set_timestep dt a) = Ok (sx, sy) /\
    is_spectrum (List.length (af_list a)) dt h l vx sx /\ is_spectrum (List.length (af_list a)) dt h l vy sy.
Proof.
  intros a dt h l vx vy Hn Hdt Hu Hx Hy. unfold compute_temporal_fft. cbn [af_set_timestep af_times af_list].
  destruct (af_list a) as [|f0 rest] eqn:El; [cbn in Hn; lia|].
  rewrite py_get_0. cbn [bind].
  destruct (Hu f0 (or_introl eq_refl)) as (E1 & E2 & _). rewrite E1, E2.
  rewrite !stack_ok.
  2:{ intros b Hb. apply in_map_iff in Hb. destruct Hb as (f & <- & Hf). destruct (Hu f Hf) as (_ & _ & _ & _ & A & B). auto. }
  2:{ intros b Hb. apply in_map_iff in Hb. destruct Hb as (f & <- & Hf). destruct (Hu f Hf) as (_ & _ & A & B & _). auto. }
  cbn [bind].
  destruct (spectrum_1d h l (List.length (f0 :: rest)) dt (map f_vx (f0 :: rest)) vx Hn Hdt ltac:(apply map_length) Hx) as (sx & -> & Sx).
  destruct (spectrum_1d h l (List.length (f0 :: rest)) dt (map f_vy (f0 :: rest)) vy Hn Hdt ltac:(apply map_length) Hy) as (sy & -> & Sy).
  cbn [bind]. eauto.
Qed.

(** C123: whenever there is a result it is the spectra of the values of each point of the grid of the first field, an array with one
    line (one column) being repeated on all the lines (columns) *)
Theorem C123_result : forall a dt f0 rest sx sy vx vy, af_list a = f0 :: rest -> rest <> [] -> 0 < dt ->
  spread_of (map f_vx (af_list a)) vx -> spread_of (map f_vy (af_list a)) vy ->
  compute_temporal_fft (af_set_timestep dt a) = Ok (sx, sy) ->
  is_spectrum (List.length (af_list a)) dt (f_ny f0) (f_nx f0) vx sx /\
  is_spectrum (List.length (af_list a)) dt (f_ny f0) (f_nx f0) vy sy.
Proof.
  intros a dt f0 rest sx sy vx vy El Hr Hdt Hx Hy. unfold compute_temporal_fft. cbn [af_set_timestep af_times af_list].
  rewrite El in *. rewrite py_get_0. cbn [bind].
  assert (Hn : (2 <= List.length (f0 :: rest))%nat) by (destruct rest; [congruence|cbn [List.length]; lia]).
  set (n := List.length (f0 :: rest)) in *. set (fs := f0 :: rest) in *.
  assert (G : forall (p : vfield -> arr) vs v, spread_of (map p fs) v -> stack (f_ny f0) (f_nx f0) (map p fs) = Ok vs ->
    exists s, compute_1dspectrum (map (fun j => INR j * dt) (seq 0 n)) vs = Ok s /\ is_spectrum n dt (f_ny f0) (f_nx f0) v s).
  { intros p vs v Hv E. apply spectrum_gen; [exact Hn|exact Hdt|rewrite (stack_length _ _ _ _ E); apply map_length|].
    intros t g Eg y x Hy' Hx'. destruct (stack_values _ _ _ _ E t g Eg) as (b & Eb & Hb). rewrite Hb by assumption. apply (Hv t b Eb). }
  destruct (stack _ _ (map f_vx _)) as [fx|] eqn:Ex; [|discriminate]. cbn [bind].
  destruct (G _ _ _ Hx Ex) as (s1 & -> & S1). cbn [bind].
  destruct (stack _ _ (map f_vy _)) as [fy|] eqn:Ey; [|discriminate]. cbn [bind].
  destruct (G _ _ _ Hy Ey) as (s2 & -> & S2). cbn [bind]. intros E. injection E as <- <-. split; assumption.
Qed.

(** C123: exactly when there is a result: at least two times, one field and arrays which numpy can write in the shape of the first
    field *)
Theorem C123_ok_iff : forall a, (exists r, compute_temporal_fft a = Ok r) <->
  exists times f0 rest, af_times a = Some times /\ (2 <= List.length times)%nat /\ af_list a = f0 :: rest /\
    forall f, In f (af_list a) -> fits (f_ny f0) (f_nx f0) (f_vx f) /\ fits (f_ny f0) (f_nx f0) (f_vy f).
Proof.
  intros a. unfold compute_temporal_fft. split.
  - intros (r & E). destruct (af_times a) as [times|] eqn:Et; [|discriminate].
    destruct (af_list a) as [|f0 rest] eqn:El; [discriminate|].
    rewrite py_get_0 in E. cbn [bind] in E.
    destruct (stack _ _ (map f_vx _)) as [fx|] eqn:Ex; [|discriminate]. cbn [bind] in E.
    destruct (compute_1dspectrum times fx) as [sx|] eqn:Esx; [|discriminate]. cbn [bind] in E.
    destruct (stack _ _ (map f_vy _)) as [fy|] eqn:Ey; [|discriminate].
    exists times, f0, rest. split; [reflexivity|]. split.
    + unfold compute_1dspectrum in Esx. destruct times as [|t0 [|t1 ts]]; [discriminate|discriminate|]. cbn [List.length]. lia.
    + split; [reflexivity|]. intros f Hf. split.
      * apply (proj1 (stack_iff _ _ _) (ex_intro _ fx Ex)). apply in_map. exact Hf.
      * apply (proj1 (stack_iff _ _ _) (ex_intro _ fy Ey)). apply in_map. exact Hf.
  - intros (times & f0 & rest & -> & Ht & El & H). rewrite El in *.
    rewrite py_get_0. cbn [bind].
    assert (S1 : forall fs, exists s, compute_1dspectrum times fs = Ok s).
    { intros fs. destruct times as [|t0 [|t1 ts]]; [cbn in Ht; lia|cbn in Ht; lia|]. unfold compute_1dspectrum. rewrite py_get_1, py_get_0. eexists. reflexivity. }
    destruct (proj2 (stack_iff (f_ny f0) (f_nx f0) (map f_vx (f0 :: rest)))) as (fx & ->).
    { intros b Hb. apply in_map_iff in Hb. destruct Hb as (f & <- & Hf). apply H, Hf. }
    cbn [bind]. destruct (S1 fx) as (sx & ->). cbn [bind].
    destruct (proj2 (stack_iff (f_ny f0) (f_nx f0) (map f_vy (f0 :: rest)))) as (fy & ->).
    { intros b Hb. apply in_map_iff in Hb. destruct Hb as (f & <- & Hf). apply H, Hf. }
    cbn [bind]. destruct (S1 fy) as (sy & ->). eexists. reflexivity.
Qed.

(** C123 is refuted as stated: when a field has been added after the call of set_timestep, the spectra of n + 1 values come
    with n pulsations, and the sum of the waves at the first time is (n + 1) / n times the value of the field *)
Theorem C123_added_refuted : forall a dt h l f vx, (2 <= List.length (af_list a))%nat -> 0 < dt ->
  uniform h l (af_list a ++ [f]) -> values_of (map f_vx (af_list a ++ [f])) vx ->
  exists sx sy, compute_temporal_fft (af_append f (af_set_timestep dt a)) = Ok (sx, sy) /\
    sp_len sx = S (List.length (af_list a)) /\ List.length (sp_omega sx) = List.length (af_list a) /\
    forall y x, csum (fun i => sp_fft sx i y x) (sp_len sx)
                = RtoC (INR (S (List.length (af_list a))) / INR (List.length (af_list a)) * vx 0%nat y x).
Proof.
  intros a dt h l f vx Hn Hdt Hu Hx. unfold compute_temporal_fft. cbn [af_append af_set_timestep af_times af_list].
  destruct (af_list a) as [|f0 rest] eqn:El; [cbn in Hn; lia|].
  change (py_get ((f0 :: rest) ++ [f]) 0) with (py_get (f0 :: rest ++ [f]) 0).
  rewrite py_get_0. cbn [bind].
  destruct (Hu f0 (or_introl eq_refl)) as (E1 & E2 & _). rewrite E1, E2.
  rewrite !stack_ok.
  2:{ intros b Hb. apply in_map_iff in Hb. destruct Hb as (g & <- & Hg). destruct (Hu g Hg) as (_ & _ & _ & _ & A & B). auto. }
  2:{ intros b Hb. apply in_map_iff in Hb. destruct Hb as (g & <- & Hg). destruct (Hu g Hg) as (_ & _ & A & B & _). auto. }
  cbn [bind]. set (n := List.length (f0 :: rest)) in *.
  unfold compute_1dspectrum. destruct (times_get dt n Hn) as (-> & ->). cbn [bind].
  rewrite !map_length, seq_length, app_length. fold n. cbn [List.length]. replace (n + 1)%nat with (S n) by lia.
  replace (1 * dt - 0 * dt) with dt by ring.
  eexists. eexists. split; [reflexivity|]. cbn [sp_len sp_omega sp_fft].
  split; [reflexivity|]. split; [rewrite map_length, seq_length; reflexivity|].
  intros y x. pose proof (lt_0_INR n ltac:(lia)) as HN.
  rewrite csum_mul_l. unfold fftshift. rewrite (csum_shift (fft1 (S n) _) (S n) (S n - S n / 2)) by lia.
  set (sig := fun t => nth t (map val (map f_vx ((f0 :: rest) ++ [f]))) (fun _ _ => 0) y x).
  rewrite (csum_ext _ (fun k => Cmul (fft1 (S n) sig k) (w (S n) (Z.of_nat k * Z.of_nat 0)))).
  2:{ intros k _. rewrite Z.mul_0_r, w_0. ring. }
  rewrite (inversion (S n) ltac:(lia) sig 0%nat ltac:(lia)).
  assert (E : sig 0%nat = vx 0%nat y x). { unfold sig. cbn [app map nth]. apply (Hx 0%nat (f_vx f0)). reflexivity. }
  rewrite E. rewrite <- !RtoC_mul. f_equal. field. lra.
Qed.

Print Assumptions C123_points. Print Assumptions C123_result. Print Assumptions C123_ok_iff. Print Assumptions C123_added_refuted.

(** ** Examples *)
Definition ex_arr (c : R) : arr := mk_arr 2 3 (fun y x => c + INR y + INR x).
Definition ex_field (c : R) : vfield := mk_vfield 2 3 (ex_arr c) (ex_arr (- c)).
Definition ex_af : afields := mk_afields [ex_field 1; ex_field 2; ex_field 4] None.
Example C123_ex_points : (2 <= List.length (af_list ex_af))%nat /\ uniform 2 3 (af_list ex_af) /\
  values_of (map f_vx (af_list ex_af)) (fun t y x => nth t [1; 2; 4] 0 + INR y + INR x).
Proof.
  split; [cbn; lia|]. split.
  - intros f [<-|[<-|[<-|[]]]]; repeat split.
  - intros [|[|[|t]]] a E; [| | |destruct t; discriminate]; injection E as <-; intros y x; reflexivity.
Qed.
(** an array of one value is written silently in the shape of the first field *)
Example C123_ex_repeated : exists r,
  compute_temporal_fft (af_set_timestep 1 (mk_afields [ex_field 1; mk_vfield 1 1 (mk_arr 1 1 (fun _ _ => 7)) (mk_arr 1 1 (fun _ _ => 7))] None)) = Ok r.
Proof.
  apply C123_ok_iff. do 3 eexists. repeat split; [cbn; lia| | | |]; try (destruct H as [<-|[<-|[]]]; cbn; auto).
Qed.
Example C123_ex_result : spread_of (map f_vx [ex_field 1; mk_vfield 1 1 (mk_arr 1 1 (fun _ _ => 7)) (mk_arr 1 1 (fun _ _ => 7))])
  (fun t y x => match t with O => 1 + INR y + INR x | _ => 7 end).
Proof. intros [|[|t]] a E; [| |destruct t; discriminate]; injection E as <-; intros y x; reflexivity. Qed.

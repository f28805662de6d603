(** Property C99: the image viewer. *)
From Coq Require Import Reals Lra.
From Verif Require Import PyBase StrModel ImViewerModel.

(** *** Specification *)

(** the image seen: the last visible one, with its colour limits *)
Definition seen {I} (l : list (artist I)) : option (I * (R * R)) :=
  fold_left (fun acc a => if a_visible a then Some (a_image a, a_clim a) else acc) l None.

Section Spec.
Context {I : Type}.
Variable nb_images : Z.
Variable imread : Z -> result I.
Variables im_min im_max : I -> R.
Variable fmt : R -> chars.
Variable safe_eval : chars -> result R.

Notation react := (react nb_images imread im_min im_max fmt safe_eval).
Notation history := (history nb_images imread im_min im_max fmt safe_eval).
Notation init_viewer := (init_viewer im_max fmt).

(** what the user has asked for: the position (from the first image, without limit), the step n, the direction of the next
    switch, whether the last move was to another image, and the colour limits *)
Record wish := mk_wish { w_pos : Z; w_n : Z; w_back : bool; w_moved : bool; w_lim : R * R }.
Definition move (s : Z) (w : wish) : wish := mk_wish (w_pos w + s) (w_n w) (w_back w) (negb (s mod nb_images =? 0)) (w_lim w).
Definition with_lim (l : R * R) (w : wish) := mk_wish (w_pos w) (w_n w) (w_back w) (w_moved w) l.
Definition wanted (e : event) (w : wish) : wish :=
  match e with
  | Plus1 => move 1 w
  | Minus1 => move (-1) w
  | PlusN => move (w_n w) w
  | MinusN => move (- w_n w) w
  | AltS =>
    let w' := move (if w_back w then - w_n w else w_n w) w in
    mk_wish (w_pos w') (w_n w') (negb (w_back w)) (w_moved w') (w_lim w')
  | SubmitN (Ok (Idx n)) => mk_wish (w_pos w) n (w_back w) (w_moved w) (w_lim w)
  | SubmitN _ | Reload => w
  | Auto =>
    match imread (w_pos w mod nb_images) with
    | Ok im => with_lim (im_min im, (99 / 100 * im_max im)%R) w
    | Err _ => w
    end
  | Cmin t => match safe_eval t with Ok x => with_lim (x, snd (w_lim w)) w | Err _ => w end
  | Cmax t => match safe_eval t with Ok x => with_lim (fst (w_lim w), x) w | Err _ => w end
  end.
Definition wish_of (start : Z) (im : I) (evs : list event) : wish :=
  fold_left (fun w e => wanted e w) evs (mk_wish start 1 false true (0%R, (99 / 100 * im_max im)%R)).

(** histories without reload, with integers for n *)
Definition plain (e : event) : Prop := match e with Reload | SubmitN (Ok Float) => False | _ => True end.
Definition no_reload (e : event) : Prop := match e with Reload => False | _ => True end.
(** the images can be read *)
Definition readable : Prop := forall i, 0 <= i < nb_images -> exists im, imread i = Ok im.

(** *** Lemmas *)
Lemma change_artist_length m f l : List.length (@change_artist I m f l) = List.length l.
Proof. revert m. induction l as [|a l IH]; intros [|m]; cbn [change_artist List.length]; [reflexivity..|rewrite IH; reflexivity]. Qed.
Lemma change_artist_nth m f l k :
  nth_error (@change_artist I m f l) k = if Nat.eqb k m then option_map f (nth_error l k) else nth_error l k.
Proof.
  revert m k. induction l as [|a l IH]; intros [|m] [|k]; cbn [change_artist nth_error Nat.eqb option_map]; try reflexivity.
  - destruct (Nat.eqb k m); reflexivity.
  - apply IH.
Qed.

Lemma seen_app (l : list (artist I)) a : seen (l ++ [a]) = if a_visible a then Some (a_image a, a_clim a) else seen l.
Proof. unfold seen. rewrite fold_left_app. reflexivity. Qed.
Lemma seen_none (l : list (artist I)) : (forall k a, nth_error l k = Some a -> a_visible a = false) -> seen l = None.
Proof.
  induction l as [|a l IH] using rev_ind; [reflexivity|]. intros H. rewrite seen_app.
  rewrite (H (List.length l) a) by (rewrite nth_error_app2, Nat.sub_diag by lia; reflexivity). apply IH.
  intros k b E. apply (H k b). rewrite nth_error_app1; [exact E|]. apply nth_error_Some. congruence.
Qed.
Lemma seen_one (l : list (artist I)) m a : nth_error l m = Some a -> (forall k b, nth_error l k = Some b -> a_visible b = Nat.eqb k m) -> seen l = Some (a_image a, a_clim a).
Proof.
  induction l as [|b l IH] using rev_ind; [destruct m; discriminate|]. intros E H. rewrite seen_app.
  assert (V : a_visible b = Nat.eqb (List.length l) m) by (apply H; rewrite nth_error_app2, Nat.sub_diag by lia; reflexivity).
  rewrite V. destruct (Nat.eqb_spec (List.length l) m) as [<-|N].
  - rewrite nth_error_app2, Nat.sub_diag in E by lia. injection E as ->. reflexivity.
  - assert (L : (m < List.length l)%nat).
    { assert (nth_error (l ++ [b]) m <> None) by congruence. apply nth_error_Some in H0. rewrite app_length in H0. cbn in H0. lia. }
    rewrite nth_error_app1 in E by exact L. apply IH; [exact E|]. intros k c Ec. apply H. rewrite nth_error_app1; [exact Ec|]. apply nth_error_Some. congruence.
Qed.

Definition exact (x : R) : Prop := safe_eval (fmt x) = Ok x.

(** the state of the viewer, for the wish [w]; [lim] only if the numbers have two decimals *)
Record good (ex : bool) (w : wish) (v : viewer I) : Prop := mk_good {
  g_ifile : v_ifile v = Idx (w_pos w mod nb_images);
  g_n : v_n v = Idx (w_n w);
  g_last : v_last v = w_back w;
  g_changing : v_changing v = false;
  g_title : v_title v = w_pos w mod nb_images;
  g_map : find_map (w_pos w mod nb_images) (v_maps v) = Some (v_mappable v);
  g_maps : forall i m, find_map i (v_maps v) = Some m -> exists a, nth_error (v_artists v) m = Some a /\ imread i = Ok (a_image a);
  g_inj : forall i j m, find_map i (v_maps v) = Some m -> find_map j (v_maps v) = Some m -> i = j;
  g_vis : forall k a, nth_error (v_artists v) k = Some a -> a_visible a = (w_moved w && Nat.eqb k (v_mappable v))%bool;
  g_lim : ex = true -> v_clim v = w_lim w /\ forall a, nth_error (v_artists v) (v_mappable v) = Some a -> a_clim a = w_lim w
}.

Lemma good_seen ex w v : good ex w v -> exists a, nth_error (v_artists v) (v_mappable v) = Some a /\ imread (w_pos w mod nb_images) = Ok (a_image a) /\
  seen (v_artists v) = if w_moved w then Some (a_image a, a_clim a) else None.
Proof.
  intros G. destruct (g_maps _ _ _ G _ _ (g_map _ _ _ G)) as (a & E & R). exists a. split; [exact E|]. split; [exact R|].
  pose proof (g_vis _ _ _ G) as V. destruct (w_moved w); [|apply seen_none; intros k b Eb; rewrite (V k b Eb); reflexivity].
  apply seen_one with (m := v_mappable v); [exact E|]. intros k b Eb. rewrite (V k b Eb). reflexivity.
Qed.

Lemma same_mod p s : 0 < nb_images -> ((p + s) mod nb_images =? p mod nb_images) = (s mod nb_images =? 0).
Proof.
  intros Hn. rewrite Z.add_mod by lia. pose proof (Z.mod_pos_bound p nb_images Hn) as A. pose proof (Z.mod_pos_bound s nb_images Hn) as B.
  set (a := p mod nb_images) in *. set (b := s mod nb_images) in *. clearbody a b.
  destruct (Z.eqb_spec b 0) as [->|N]; [rewrite Z.add_0_r, Z.mod_small by lia; apply Z.eqb_refl|].
  apply Z.eqb_neq. intros E. destruct (Z.lt_ge_cases (a + b) nb_images) as [L|L]; [rewrite Z.mod_small in E by lia; lia|].
  assert (Q : (a + b) mod nb_images = a + b - nb_images) by (rewrite <- (Z.mod_small (a + b - nb_images) nb_images) by lia; rewrite <- (Z_mod_plus_full (a + b - nb_images) 1 nb_images); f_equal; lia).
  lia.
Qed.

Lemma change_good ex w v s : 0 < nb_images -> readable -> good ex w v ->
  exists v', change_im nb_images imread (set_ifile (Idx (w_pos w mod nb_images + s)) v) = (v', None) /\ good ex (move s w) v'.
Proof.
  intros Hn Rd G. destruct G as [Gi Gn Gl Gc Gt Gm Gms Ginj Gv Glim].
  assert (Em : (w_pos w mod nb_images + s) mod nb_images = (w_pos w + s) mod nb_images) by (rewrite Z.add_mod_idemp_l; [reflexivity|lia]).
  unfold change_im. cbn [fst set_ifile set_n set_last set_changing set_climits set_artists set_mappable set_maps set_title set_cmin set_cmax add_image v_ifile v_n v_last v_changing v_clim v_artists v_mappable v_maps v_title v_cmin v_cmax]. rewrite Gc, Em.
  set (j := (w_pos w + s) mod nb_images). pose proof (same_mod (w_pos w) s Hn) as Sm. fold j in Sm.
  destruct (Z.eqb_spec (s mod nb_images) 0) as [Z0|NZ].
  - (* the same image *)
    apply Z.eqb_eq in Sm. rewrite Sm, Gm. cbn [fst set_ifile set_n set_last set_changing set_climits set_artists set_mappable set_maps set_title set_cmin set_cmax add_image v_ifile v_n v_last v_changing v_clim v_artists v_mappable v_maps v_title v_cmin v_cmax].
    eexists. split; [reflexivity|].
    constructor; cbn [fst set_ifile set_n set_last set_changing set_climits set_artists set_mappable set_maps set_title set_cmin set_cmax add_image v_ifile v_n v_last v_changing v_clim v_artists v_mappable v_maps v_title v_cmin v_cmax move w_pos w_n w_back w_moved w_lim]; fold j; rewrite ?Sm; try assumption; try reflexivity.
    + intros i m E. destruct (Gms i m E) as (a & Ea & Ra). rewrite !change_artist_nth, Ea.
      destruct (Nat.eqb m (v_mappable v)); cbn [option_map]; eexists; (split; [reflexivity|exact Ra]).
    + intros k a. rewrite !change_artist_nth, Z0. cbn [Z.eqb negb andb].
      destruct (Nat.eqb k (v_mappable v)) eqn:Ek.
      * destruct (nth_error (v_artists v) k) as [b|]; cbn [option_map]; [|discriminate]. intros Ea. injection Ea as <-. reflexivity.
      * intros Ea. rewrite (Gv k a Ea), Ek. apply andb_false_r.
    + intros X. destruct (Glim X) as (L1 & L2). split; [exact L1|]. intros a. rewrite !change_artist_nth, Nat.eqb_refl.
      destruct (nth_error (v_artists v) (v_mappable v)) as [b|]; cbn [option_map]; [|discriminate]. intros Ea. injection Ea as <-. exact L1.
  - apply Z.eqb_neq in Sm. destruct (find_map j (v_maps v)) as [m|] eqn:Fj.
    + (* an image already loaded *)
      assert (Nm : m <> v_mappable v) by (intros ->; apply Sm, (Ginj _ _ _ Fj Gm)).
      cbn [fst set_ifile set_n set_last set_changing set_climits set_artists set_mappable set_maps set_title set_cmin set_cmax add_image v_ifile v_n v_last v_changing v_clim v_artists v_mappable v_maps v_title v_cmin v_cmax].
      eexists. split; [reflexivity|].
      constructor; cbn [fst set_ifile set_n set_last set_changing set_climits set_artists set_mappable set_maps set_title set_cmin set_cmax add_image v_ifile v_n v_last v_changing v_clim v_artists v_mappable v_maps v_title v_cmin v_cmax move w_pos w_n w_back w_moved w_lim]; fold j; try assumption; try reflexivity.
      * intros i m' E. destruct (Gms i m' E) as (a & Ea & Ra). rewrite !change_artist_nth, Ea.
        destruct (Nat.eqb m' (v_mappable v)), (Nat.eqb m' m); cbn [option_map]; eexists; (split; [reflexivity|exact Ra]).
      * apply Z.eqb_neq in NZ. rewrite NZ. cbn [negb andb]. intros k a. rewrite !change_artist_nth.
        destruct (Nat.eqb_spec k (v_mappable v)) as [->|Nk].
        -- destruct (Nat.eqb_spec (v_mappable v) m) as [E|_]; [congruence|].
           destruct (nth_error (v_artists v) (v_mappable v)) as [b|]; cbn [option_map]; [|discriminate]. intros Ea. injection Ea as <-. reflexivity.
        -- destruct (Nat.eqb_spec k m) as [->|N2].
           ++ destruct (nth_error (v_artists v) m) as [b|]; cbn [option_map]; [|discriminate]. intros Ea. injection Ea as <-. reflexivity.
           ++ intros Ea. rewrite (Gv k a Ea). apply andb_false_iff. right. apply Nat.eqb_neq. exact Nk.
      * intros X. destruct (Glim X) as (L1 & _). split; [exact L1|]. intros a. rewrite !change_artist_nth, Nat.eqb_refl.
        destruct (Nat.eqb_spec m (v_mappable v)) as [E|_]; [congruence|].
        destruct (nth_error (v_artists v) m) as [b|]; cbn [option_map]; [|discriminate]. intros Ea. injection Ea as <-. exact L1.
    + (* an image to load *)
      destruct (Rd j) as (im & Ej); [unfold j; apply Z.mod_pos_bound; exact Hn|].
      unfold loadim. rewrite Ej. cbn [fst set_ifile set_n set_last set_changing set_climits set_artists set_mappable set_maps set_title set_cmin set_cmax add_image v_ifile v_n v_last v_changing v_clim v_artists v_mappable v_maps v_title v_cmin v_cmax].
      eexists. split; [reflexivity|].
      assert (Lm : forall i m, find_map i (v_maps v) = Some m -> (m < List.length (v_artists v))%nat).
      { intros i m E. destruct (Gms i m E) as (a & Ea & _). apply nth_error_Some. congruence. }
      pose proof (Lm _ _ Gm) as Lmm.
      constructor; cbn [fst set_ifile set_n set_last set_changing set_climits set_artists set_mappable set_maps set_title set_cmin set_cmax add_image v_ifile v_n v_last v_changing v_clim v_artists v_mappable v_maps v_title v_cmin v_cmax move w_pos w_n w_back w_moved w_lim]; fold j; try assumption; try reflexivity.
      * cbn [find_map]. rewrite Z.eqb_refl. reflexivity.
      * intros i m. cbn [find_map]. rewrite change_artist_nth. destruct (Z.eqb_spec i j) as [->|Nij].
        -- intros E. injection E as <-. assert (Nat.eqb (List.length (v_artists v)) (v_mappable v) = false) as -> by (apply Nat.eqb_neq; lia).
           rewrite nth_error_app2, Nat.sub_diag by lia. eexists. split; [reflexivity|exact Ej].
        -- intros E. destruct (Gms i m E) as (a & Ea & Ra). rewrite nth_error_app1, Ea by (apply (Lm _ _ E)).
           destruct (Nat.eqb m (v_mappable v)); cbn [option_map]; eexists; (split; [reflexivity|exact Ra]).
      * intros i i' m. cbn [find_map]. destruct (Z.eqb_spec i j) as [->|Nij], (Z.eqb_spec i' j) as [->|Nij']; intros E1 E2; [reflexivity| | |apply (Ginj _ _ _ E1 E2)].
        -- injection E1 as <-. apply Lm in E2. lia.
        -- injection E2 as <-. apply Lm in E1. lia.
      * apply Z.eqb_neq in NZ. rewrite NZ. cbn [negb andb]. intros k a. rewrite change_artist_nth.
        destruct (Nat.eqb_spec k (v_mappable v)) as [->|Nk].
        -- rewrite nth_error_app1 by exact Lmm. destruct (nth_error (v_artists v) (v_mappable v)) as [b|]; cbn [option_map]; [|discriminate].
           intros Ea. injection Ea as <-. symmetry. apply Nat.eqb_neq. lia.
        -- destruct (Nat.lt_ge_cases k (List.length (v_artists v))) as [L|L].
           ++ rewrite nth_error_app1 by exact L. intros Ea. rewrite (Gv k a Ea). transitivity false; [|symmetry; apply Nat.eqb_neq; lia]. apply andb_false_iff. right. apply Nat.eqb_neq. exact Nk.
           ++ rewrite nth_error_app2 by exact L. destruct (k - List.length (v_artists v))%nat as [|d] eqn:D; cbn [nth_error]; [|destruct d; discriminate].
              intros Ea. injection Ea as <-. symmetry. apply Nat.eqb_eq. lia.
      * intros X. destruct (Glim X) as (L1 & _). split; [exact L1|]. intros a. rewrite change_artist_nth.
        assert (Nat.eqb (List.length (v_artists v)) (v_mappable v) = false) as -> by (apply Nat.eqb_neq; lia).
        rewrite nth_error_app2, Nat.sub_diag by lia. intros Ea. injection Ea as <-. exact L1.
Qed.

(** the colour limits change neither the images nor their visibility *)
Record same_images (v v' : viewer I) : Prop := {
  s_ifile : v_ifile v' = v_ifile v; s_n : v_n v' = v_n v; s_last : v_last v' = v_last v; s_changing : v_changing v' = v_changing v;
  s_title : v_title v' = v_title v; s_maps : v_maps v' = v_maps v; s_mappable : v_mappable v' = v_mappable v;
  s_artists : forall k, option_map (fun a => (a_image a, a_visible a)) (nth_error (v_artists v') k) = option_map (fun a => (a_image a, a_visible a)) (nth_error (v_artists v) k)
}.
Lemma same_refl v : same_images v v. Proof. constructor; reflexivity. Qed.
Lemma same_trans u v w : same_images u v -> same_images v w -> same_images u w.
Proof. intros [] []. constructor; try congruence. Qed.
Lemma same_climits c v : same_images v (set_climits c v). Proof. constructor; reflexivity. Qed.
Lemma same_cmin t v : same_images v (set_cmin t v). Proof. constructor; reflexivity. Qed.
Lemma same_cmax t v : same_images v (set_cmax t v). Proof. constructor; reflexivity. Qed.
Lemma same_art m c v : same_images v (set_artists (change_artist m (set_clim c) (v_artists v)) v).
Proof.
  constructor; try reflexivity. intros k. cbn [set_artists v_artists]. rewrite change_artist_nth. destruct (Nat.eqb k m); [|reflexivity].
  destruct (nth_error (v_artists v) k); reflexivity.
Qed.
Lemma same_box_min v : same_images v (box_min fmt safe_eval v).
Proof.
  unfold box_min. destruct (list_eq_dec _ _ _); [apply same_refl|]. destruct (safe_eval _) as [x|e]; [|apply same_cmin].
  destruct (Req_EM_T _ _); [apply same_cmin|]. eapply same_trans; [apply same_cmin|apply same_climits].
Qed.
Lemma same_box_max v : same_images v (box_max fmt safe_eval v).
Proof.
  unfold box_max. destruct (list_eq_dec _ _ _); [apply same_refl|]. destruct (safe_eval _) as [x|e]; [|apply same_cmax].
  destruct (Req_EM_T _ _); [apply same_cmax|]. eapply same_trans; [apply same_cmax|apply same_climits].
Qed.
Lemma same_update v : same_images v (update_clim fmt safe_eval v).
Proof. unfold update_clim. eapply same_trans; [apply same_art|]. eapply same_trans; [apply same_box_min|apply same_box_max]. Qed.

Lemma good_same ex w v v' lim : good ex w v -> same_images v v' ->
  (ex = true -> v_clim v' = lim /\ forall a, nth_error (v_artists v') (v_mappable v') = Some a -> a_clim a = lim) ->
  good ex (with_lim lim w) v'.
Proof.
  intros [] [] L. constructor; cbn [with_lim w_pos w_n w_back w_moved w_lim]; try congruence.
  - rewrite s_maps0. intros i m E. destruct (g_maps0 i m E) as (a & Ea & Ra). pose proof (s_artists0 m) as Q. rewrite Ea in Q. cbn [option_map] in Q.
    destruct (nth_error (v_artists v') m) as [b|]; [|discriminate]. injection Q as Q1 Q2. exists b. split; [reflexivity|]. rewrite Q1. exact Ra.
  - rewrite s_maps0. exact g_inj0.
  - intros k a Ea. pose proof (s_artists0 k) as Q. rewrite Ea in Q. cbn [option_map] in Q. destruct (nth_error (v_artists v) k) as [b|] eqn:Eb; [|discriminate].
    injection Q as Q1 Q2. rewrite Q2, (g_vis0 k b Eb), s_mappable0. reflexivity.
  - exact L.
Qed.

(** with numbers of two decimals the boxes do not change the limits *)
Lemma box_min_exact (v : viewer I) : exact (fst (v_clim v)) -> v_clim (box_min fmt safe_eval v) = v_clim v /\ v_artists (box_min fmt safe_eval v) = v_artists v /\ v_mappable (box_min fmt safe_eval v) = v_mappable v.
Proof. unfold exact, box_min. intros E. destruct (list_eq_dec _ _ _); [auto|]. rewrite E. destruct (Req_EM_T _ _) as [_|N]; [auto|]. destruct N. reflexivity. Qed.
Lemma box_max_exact (v : viewer I) : exact (snd (v_clim v)) -> v_clim (box_max fmt safe_eval v) = v_clim v /\ v_artists (box_max fmt safe_eval v) = v_artists v /\ v_mappable (box_max fmt safe_eval v) = v_mappable v.
Proof. unfold exact, box_max. intros E. destruct (list_eq_dec _ _ _); [auto|]. rewrite E. destruct (Req_EM_T _ _) as [_|N]; [auto|]. destruct N. reflexivity. Qed.
Lemma update_exact (v : viewer I) : exact (fst (v_clim v)) -> exact (snd (v_clim v)) ->
  v_clim (update_clim fmt safe_eval v) = v_clim v /\ forall a, nth_error (v_artists (update_clim fmt safe_eval v)) (v_mappable (update_clim fmt safe_eval v)) = Some a -> a_clim a = v_clim v.
Proof.
  intros E1 E2. unfold update_clim. set (v1 := set_artists _ v). assert (C1 : v_clim v1 = v_clim v) by reflexivity.
  destruct (box_min_exact v1) as (A1 & A2 & A3); [rewrite C1; exact E1|].
  destruct (box_max_exact (box_min fmt safe_eval v1)) as (B1 & B2 & B3); [rewrite A1, C1; exact E2|].
  rewrite B1, A1, C1, B2, B3, A2, A3. split; [reflexivity|]. intros a. unfold v1. cbn [set_artists v_artists v_mappable]. rewrite change_artist_nth, Nat.eqb_refl.
  destruct (nth_error (v_artists v) (v_mappable v)); cbn [option_map]; [|discriminate]. intros Q. injection Q as <-. reflexivity.
Qed.

(** the numbers asked for have two decimals *)
Definition two_decimals (e : event) : Prop :=
  match e with
  | Cmin t | Cmax t => forall x, safe_eval t = Ok x -> exact x
  | _ => True
  end.
Definition images_exact : Prop := forall i im, 0 <= i < nb_images -> imread i = Ok im -> exact (im_min im) /\ exact (99 / 100 * im_max im)%R.

Lemma react_good ex w v e : 0 < nb_images -> readable -> plain e ->
  (ex = true -> two_decimals e /\ images_exact /\ exact (fst (w_lim w)) /\ exact (snd (w_lim w))) ->
  good ex w v -> good ex (wanted e w) (fst (react e v)).
Proof.
  intros Hn Rd P Ex G.
  assert (Inc : forall s, v_ifile v = Idx (w_pos w mod nb_images) -> exists v', increase nb_images imread (Idx s) v = (v', None) /\ good ex (move s w) v').
  { intros s Gi. unfold increase. rewrite Gi. cbn [index_add]. apply change_good; assumption. }
  assert (Dec : forall s, v_ifile v = Idx (w_pos w mod nb_images) -> exists v', decrease nb_images imread (Idx s) v = (v', None) /\ good ex (move (- s) w) v').
  { intros s Gi. unfold decrease. rewrite Gi. cbn [index_sub]. apply change_good; assumption. }
  pose proof (g_ifile _ _ _ G) as Gi. pose proof (g_n _ _ _ G) as Gn.
  destruct e as [| | | | |[[n|]|err]| | |t|t]; cbn [ImViewerModel.react wanted]; cbn [plain] in P; try contradiction.
  - destruct (Inc 1 Gi) as (v' & -> & G'). exact G'.
  - destruct (Dec 1 Gi) as (v' & -> & G'). exact G'.
  - rewrite Gn. destruct (Inc (w_n w) Gi) as (v' & -> & G'). exact G'.
  - rewrite Gn. destruct (Dec (w_n w) Gi) as (v' & -> & G'). exact G'.
  - unfold switch. rewrite Gn, (g_last _ _ _ G).
    assert (Q : exists v', (if w_back w then decrease nb_images imread (Idx (w_n w)) v else increase nb_images imread (Idx (w_n w)) v) = (v', None) /\
                good ex (move (if w_back w then - w_n w else w_n w) w) v').
    { destruct (w_back w); [apply Dec, Gi|apply Inc, Gi]. }
    destruct Q as (v' & -> & G'). cbn [fst]. destruct G'. constructor; try assumption. cbn [set_last v_last w_back move]. rewrite g_last0. reflexivity.
  - cbn [fst]. destruct G. constructor; try assumption. reflexivity.
  - exact G.
  - unfold set_autoclim. rewrite Gi. destruct (Rd (w_pos w mod nb_images)) as (im & Ei); [apply Z.mod_pos_bound; exact Hn|]. rewrite Ei. cbn [fst].
    eapply good_same; [exact G|eapply same_trans; [apply same_climits|apply same_update]|].
    intros X. destruct (Ex X) as (_ & Ie & _). destruct (Ie _ _ (Z.mod_pos_bound _ _ Hn) Ei) as (E1 & E2).
    apply (update_exact (set_climits (im_min im, (99 / 100 * im_max im)%R) v)); assumption.
  - unfold change_cmin. destruct (safe_eval t) as [x|err] eqn:Et; cbn [fst].
    + destruct (Req_EM_T x (fst (v_clim (set_cmin t v)))) as [Ex'|Nx]; cbn [fst].
      * eapply good_same; [exact G|apply same_cmin|]. intros X. destruct (g_lim _ _ _ G X) as (L1 & L2). cbn [set_cmin v_clim v_artists v_mappable] in *.
        assert (W : (x, snd (w_lim w)) = w_lim w) by (rewrite Ex', L1; destruct (w_lim w); reflexivity). rewrite W. split; assumption.
      * eapply good_same; [exact G|eapply same_trans; [apply same_cmin|eapply same_trans; [apply same_climits|apply same_update]]|].
        intros X. destruct (g_lim _ _ _ G X) as (L1 & L2). destruct (Ex X) as (Td & _ & _ & E2). cbn [two_decimals] in Td.
        cbn [set_cmin v_clim]. rewrite L1.
        apply (update_exact (set_climits (x, snd (w_lim w)) (set_cmin t v))); [apply Td, Et|exact E2].
    + eapply good_same with (lim := w_lim w) in G; [|apply same_cmin|].
      * destruct w; exact G.
      * intros X. destruct (g_lim _ _ _ G X). split; assumption.
  - unfold change_cmax. destruct (safe_eval t) as [x|err] eqn:Et; cbn [fst].
    + destruct (Req_EM_T x (snd (v_clim (set_cmax t v)))) as [Ex'|Nx]; cbn [fst].
      * eapply good_same; [exact G|apply same_cmax|]. intros X. destruct (g_lim _ _ _ G X) as (L1 & L2). cbn [set_cmax v_clim v_artists v_mappable] in *.
        assert (W : (fst (w_lim w), x) = w_lim w) by (rewrite Ex', L1; destruct (w_lim w); reflexivity). rewrite W. split; assumption.
      * eapply good_same; [exact G|eapply same_trans; [apply same_cmax|eapply same_trans; [apply same_climits|apply same_update]]|].
        intros X. destruct (g_lim _ _ _ G X) as (L1 & L2). destruct (Ex X) as (Td & _ & E1 & _). cbn [two_decimals] in Td.
        cbn [set_cmax v_clim]. rewrite L1.
        apply (update_exact (set_climits (fst (w_lim w), x) (set_cmax t v))); [exact E1|apply Td, Et].
    + eapply good_same with (lim := w_lim w) in G; [|apply same_cmax|].
      * destruct w; exact G.
      * intros X. destruct (g_lim _ _ _ G X). split; assumption.
Qed.

Lemma init_good ex start im : 0 <= start < nb_images -> imread start = Ok im ->
  good ex (mk_wish start 1 false true (0%R, (99 / 100 * im_max im)%R)) (init_viewer start im).
Proof.
  intros Hs Ei. unfold ImViewerModel.init_viewer.
  constructor; cbn [fst set_ifile set_n set_last set_changing set_climits set_artists set_mappable set_maps set_title set_cmin set_cmax add_image v_ifile v_n v_last v_changing v_clim v_artists v_mappable v_maps v_title v_cmin v_cmax w_pos w_n w_back w_moved w_lim app List.length]; rewrite ?(Z.mod_small start) by lia; try reflexivity.
  - cbn [find_map]. rewrite Z.eqb_refl. reflexivity.
  - intros i m. cbn [find_map]. destruct (Z.eqb_spec i start) as [->|]; [|discriminate]. intros E. injection E as <-. eexists. split; [reflexivity|exact Ei].
  - intros i j m. cbn [find_map]. destruct (Z.eqb_spec i start) as [->|]; [|discriminate]. destruct (Z.eqb_spec j start) as [->|]; [reflexivity|discriminate].
  - intros [|k] a; cbn [nth_error]; [|destruct k; discriminate]. intros E. injection E as <-. reflexivity.
  - intros _. split; [reflexivity|]. cbn [nth_error]. intros a E. injection E as <-. reflexivity.
Qed.

Lemma history_good ex start im evs : 0 <= start < nb_images -> imread start = Ok im -> readable -> Forall plain evs ->
  (ex = true -> exact 0 /\ exact (99 / 100 * im_max im) /\ Forall two_decimals evs /\ images_exact) ->
  good ex (wish_of start im evs) (history evs (init_viewer start im)).
Proof.
  intros Hs Ei Rd F Ex. unfold wish_of.
  set (w0 := mk_wish start 1 false true (0%R, (99 / 100 * im_max im)%R)).
  assert (G0 : good ex w0 (init_viewer start im)) by (apply init_good; assumption).
  assert (L0 : ex = true -> exact (fst (w_lim w0)) /\ exact (snd (w_lim w0))) by (intros X; destruct (Ex X) as (A & B & _); split; assumption).
  assert (Ex2 : ex = true -> Forall two_decimals evs /\ images_exact) by (intros X; destruct (Ex X) as (_ & _ & A); exact A).
  clear Ex. revert G0 L0 Ex2. generalize w0, (init_viewer start im). clear w0. revert F.
  induction evs as [|e evs IH]; intros F w v G0 L0 Ex; [exact G0|].
  inversion F as [|? ? Pe F']; subst. cbn [fold_left ImViewerModel.history]. apply IH; [exact F'| | |].
  - apply react_good; [lia|exact Rd|exact Pe| |exact G0].
    intros X. destruct (Ex X) as (T & Ie). split; [exact (Forall_inv T)|]. split; [exact Ie|]. apply L0, X.
  - intros X. destruct (Ex X) as (T & Ie). pose proof (Forall_inv T) as Te. destruct (L0 X) as (A & B).
    destruct e as [| | | | |[[n|]|err]| | |t|t]; cbn [wanted]; try (split; assumption).
    + destruct (imread (w_pos w mod nb_images)) as [i|] eqn:E; [|split; assumption]. apply (Ie (w_pos w mod nb_images) i); [apply Z.mod_pos_bound; lia|exact E].
    + cbn [two_decimals] in Te. destruct (safe_eval t) as [x|]; [|split; assumption]. split; [apply Te; reflexivity|exact B].
    + cbn [two_decimals] in Te. destruct (safe_eval t) as [x|]; [|split; assumption]. split; [exact A|apply Te; reflexivity].
  - intros X. destruct (Ex X) as (T & Ie). split; [exact (Forall_inv_tail T)|exact Ie].
Qed.

(** *** Theorems *)

(** After every history without reload, with readable images and integers for n: the title is the name of the image asked for
    (modulo the number of images), and this image is the one seen exactly when the last move was not a multiple of the number
    of images.  Otherwise nothing is seen. *)
Theorem C99_history_partial : forall start im evs, 0 <= start < nb_images -> imread start = Ok im -> readable -> Forall plain evs ->
  let v := history evs (init_viewer start im) in
  let p := w_pos (wish_of start im evs) mod nb_images in
  v_ifile v = Idx p /\ v_title v = p /\
  exists im', imread p = Ok im' /\ option_map fst (seen (v_artists v)) = if w_moved (wish_of start im evs) then Some im' else None.
Proof.
  intros start im evs Hs Ei Rd F v p. pose proof (history_good false start im evs Hs Ei Rd F ltac:(discriminate)) as G. fold v in G.
  split; [apply (g_ifile _ _ _ G)|]. split; [apply (g_title _ _ _ G)|]. destruct (good_seen _ _ _ G) as (a & _ & Ra & S1).
  exists (a_image a). split; [exact Ra|]. rewrite S1. destruct (w_moved _); reflexivity.
Qed.

(** a move of a multiple of the number of images (for example +1 with one image) hides the image *)
Theorem C99_blank_refuted : forall start im evs, 0 <= start < nb_images -> imread start = Ok im -> readable -> Forall plain evs ->
  w_n (wish_of start im evs) mod nb_images = 0 -> seen (v_artists (history (evs ++ [PlusN]) (init_viewer start im))) = None.
Proof.
  intros start im evs Hs Ei Rd F Z0.
  destruct (C99_history_partial start im (evs ++ [PlusN]) Hs Ei Rd) as (_ & _ & im' & _ & S1); [apply Forall_app; split; [exact F|constructor; [exact Logic.I|constructor]]|].
  unfold wish_of in S1. rewrite fold_left_app in S1. cbn [fold_left wanted move w_moved] in S1. unfold wish_of in Z0. rewrite Z0 in S1. cbn in S1.
  destruct (seen _); [discriminate|reflexivity].
Qed.

(** two switches give the same image as before *)
Theorem C99_switch : forall start im evs, 0 <= start < nb_images -> imread start = Ok im -> readable -> Forall plain evs ->
  let v := history evs (init_viewer start im) in let v' := history (evs ++ [AltS; AltS]) (init_viewer start im) in
  v_ifile v' = v_ifile v /\ v_title v' = v_title v.
Proof.
  intros start im evs Hs Ei Rd F v v'.
  destruct (C99_history_partial start im evs Hs Ei Rd F) as (A & B & _).
  destruct (C99_history_partial start im (evs ++ [AltS; AltS]) Hs Ei Rd) as (A' & B' & _); [apply Forall_app; split; [exact F|repeat constructor]|].
  fold v in A, B. fold v' in A', B'. rewrite A, B, A', B'. unfold wish_of. rewrite fold_left_app. fold (wish_of start im evs).
  set (w := wish_of start im evs). cbn [fold_left wanted move w_pos w_n w_back]. destruct (w_back w); cbn [negb]; split; f_equal; try f_equal; lia.
Qed.

(** the index is always a number between 0 and nb_images - 1, or of another type, whatever happens *)
Theorem C99_index : forall start im evs, 0 <= start < nb_images ->
  match v_ifile (history evs (init_viewer start im)) with Idx i => 0 <= i < nb_images | Float => True end.
Proof.
  intros start im evs Hs.
  assert (I0 : match v_ifile (init_viewer start im) with Idx i => 0 <= i < nb_images | Float => True end) by exact Hs.
  revert I0. generalize (init_viewer start im). induction evs as [|e evs IH]; intros v Iv; [exact Iv|]. cbn [ImViewerModel.history]. apply IH.
  assert (Hn : 0 < nb_images) by lia.
  assert (Load : forall j (u : viewer I), v_ifile (fst (loadim imread j u)) = v_ifile u) by (intros [j|] u; unfold loadim; [destruct (imread j)|]; reflexivity).
  assert (Ch : forall u, match v_ifile (fst (change_im nb_images imread u)) with Idx i => 0 <= i < nb_images | Float => True end).
  { intros u. unfold change_im. destruct (v_ifile u) as [i|]; cbn [set_ifile v_changing].
    - pose proof (Z.mod_pos_bound i nb_images Hn) as B. destruct (v_changing u); [exact B|]. cbn [set_changing set_ifile v_ifile v_maps v_mappable].
      destruct (find_map _ _); [exact B|]. unfold loadim. destruct (imread _); exact B.
    - destruct (v_changing u); exact Logic.I. }
  destruct e as [| | | | |[n|err]| | |t|t]; cbn [ImViewerModel.react]; try apply Ch; try exact Iv.
  - unfold switch. destruct (v_last v); [unfold decrease|unfold increase];
      match goal with |- context [change_im nb_images imread ?u] => pose proof (Ch u) as Q; destruct (change_im nb_images imread u) as [v' [err|]] end; exact Q.
  - rewrite Load. exact Iv.
  - unfold set_autoclim. destruct (v_ifile v) as [i|] eqn:Ev; [|cbn; rewrite Ev; exact Logic.I]. destruct (imread i); cbn [fst]; [|rewrite Ev; exact Iv].
    rewrite (s_ifile _ _ (same_update _)). cbn [set_climits v_ifile]. rewrite Ev. exact Iv.
  - unfold change_cmin. destruct (safe_eval t); cbn [fst]; [|exact Iv]. destruct (Req_EM_T _ _); cbn [fst]; [exact Iv|]. rewrite (s_ifile _ _ (same_update _)). exact Iv.
  - unfold change_cmax. destruct (safe_eval t); cbn [fst]; [|exact Iv]. destruct (Req_EM_T _ _); cbn [fst]; [exact Iv|]. rewrite (s_ifile _ _ (same_update _)). exact Iv.
Qed.

(** Once an image could not be read, or n is not an integer, no move changes the image any more. *)
Lemma stuck evs : forall v : viewer I, v_changing v = true -> Forall no_reload evs ->
  let v' := history evs v in v_title v' = v_title v /\ option_map fst (seen (v_artists v')) = option_map fst (seen (v_artists v)).
Proof.
  assert (SI : forall u u' : viewer I, same_images u u' -> option_map fst (seen (v_artists u')) = option_map fst (seen (v_artists u))).
  { intros u u' Sm. pose proof (s_artists _ _ Sm) as A. revert A. generalize (v_artists u'), (v_artists u). clear.
    intros l. induction l as [|a l IH] using rev_ind; intros l' A.
    - destruct l' as [|b l']; [reflexivity|]. specialize (A O). discriminate.
    - destruct l' as [|b l'] using rev_ind; [specialize (A (List.length l)); rewrite nth_error_app2, Nat.sub_diag in A by lia; destruct (List.length l); discriminate|]. clear IHl'.
      assert (Len : List.length l = List.length l').
      { pose proof (A (List.length l)) as A1. pose proof (A (List.length l')) as A2.
        rewrite nth_error_app2, Nat.sub_diag in A1 by lia. symmetry in A2. rewrite nth_error_app2, Nat.sub_diag in A2 by lia. cbn [nth_error option_map] in A1, A2.
        assert (L1 : nth_error (l' ++ [b]) (List.length l) <> None) by (intros E; rewrite E in A1; discriminate).
        assert (L2 : nth_error (l ++ [a]) (List.length l') <> None) by (intros E; rewrite E in A2; discriminate).
        apply nth_error_Some in L1, L2. rewrite app_length in L1, L2. cbn in L1, L2. lia. }
      rewrite !seen_app. pose proof (A (List.length l)) as Al. rewrite nth_error_app2, Nat.sub_diag in Al by lia. rewrite Len, nth_error_app2, Nat.sub_diag in Al by lia.
      cbn [nth_error option_map] in Al. injection Al as I1 V1. rewrite I1, V1. destruct (a_visible b); [reflexivity|]. apply IH.
      intros k. pose proof (A k) as Ak. destruct (Nat.lt_ge_cases k (List.length l)) as [Lk|Lk].
      + rewrite !nth_error_app1 in Ak by lia. exact Ak.
      + destruct (nth_error l k) eqn:E1; [assert (nth_error l k <> None) as Q by congruence; apply nth_error_Some in Q; lia|].
        destruct (nth_error l' k) eqn:E2; [assert (nth_error l' k <> None) as Q by congruence; apply nth_error_Some in Q; lia|]. reflexivity. }
  induction evs as [|e evs IH]; intros v C F; [split; reflexivity|]. inversion F as [|? ? Ne F']; subst. cbn [ImViewerModel.history].
  assert (Ch : forall i, exists j, change_im nb_images imread (set_ifile i v) = (set_ifile j v, None)).
  { intros i. unfold change_im. cbn [set_ifile v_changing]. rewrite C. eexists. reflexivity. }
  assert (Step : v_changing (fst (react e v)) = true /\ v_title (fst (react e v)) = v_title v /\ option_map fst (seen (v_artists (fst (react e v)))) = option_map fst (seen (v_artists v))).
  { destruct e as [| | | | |[n|err]| | |t|t]; cbn [ImViewerModel.react]; cbn [no_reload] in Ne; try contradiction;
      try (unfold increase, decrease; match goal with |- context [change_im _ _ (set_ifile ?i v)] => destruct (Ch i) as (j & ->) end; repeat split; exact C).
    - unfold switch, increase, decrease. destruct (v_last v); match goal with |- context [change_im _ _ (set_ifile ?i v)] => destruct (Ch i) as (j & ->) end; repeat split; exact C.
    - repeat split; exact C.
    - repeat split; exact C.
    - unfold set_autoclim. destruct (v_ifile v) as [i|]; [|repeat split; exact C]. destruct (imread i) as [i0|]; [|repeat split; exact C]. cbn [fst].
      pose proof (same_trans _ _ _ (same_climits (im_min i0, (99 / 100 * im_max i0)%R) v) (same_update _)) as Q. rewrite (s_changing _ _ Q), (s_title _ _ Q), (SI _ _ Q). auto.
    - unfold change_cmin. destruct (safe_eval t) as [x|]; [|repeat split; exact C]. destruct (Req_EM_T _ _); [repeat split; exact C|]. cbn [fst].
      pose proof (same_trans _ _ _ (same_cmin t v) (same_trans _ _ _ (same_climits (x, snd (v_clim (set_cmin t v))) _) (same_update _))) as Q.
      rewrite (s_changing _ _ Q), (s_title _ _ Q), (SI _ _ Q). auto.
    - unfold change_cmax. destruct (safe_eval t) as [x|]; [|repeat split; exact C]. destruct (Req_EM_T _ _); [repeat split; exact C|]. cbn [fst].
      pose proof (same_trans _ _ _ (same_cmax t v) (same_trans _ _ _ (same_climits (fst (v_clim (set_cmax t v)), x) _) (same_update _))) as Q.
      rewrite (s_changing _ _ Q), (s_title _ _ Q), (SI _ _ Q). auto. }
  destruct Step as (C1 & T1 & S1). destruct (IH _ C1 F') as (T2 & S2). rewrite T2, S2. split; assumption.
Qed.

Lemma change_fail (v : viewer I) i e : v_changing v = false -> v_ifile v = Idx i -> find_map (i mod nb_images) (v_maps v) = None ->
  imread (i mod nb_images) = Err e -> change_im nb_images imread v = (set_changing true (set_ifile (Idx (i mod nb_images)) v), Some e).
Proof.
  intros C Ei F R. unfold change_im. rewrite Ei. cbn [set_ifile v_changing]. rewrite C. cbn [set_changing set_ifile v_ifile v_maps].
  rewrite F. unfold loadim. rewrite R. reflexivity.
Qed.

Lemma change_float (v : viewer I) : v_changing v = false -> v_ifile v = Float ->
  change_im nb_images imread v = (set_changing true (set_ifile Float v), Some TypeError).
Proof. intros C Ei. unfold change_im. rewrite Ei. cbn [set_ifile v_changing]. rewrite C. reflexivity. Qed.
Lemma stuck_cons e evs (v : viewer I) im : v_changing (fst (react e v)) = true -> Forall no_reload evs ->
  option_map fst (seen (v_artists (fst (react e v)))) = Some im ->
  v_title (history (e :: evs) v) = v_title (fst (react e v)) /\ option_map fst (seen (v_artists (history (e :: evs) v))) = Some im.
Proof.
  intros C F S1. change (history (e :: evs) v) with (history evs (fst (react e v))).
  destruct (stuck evs (fst (react e v)) C F) as (T2 & S2). rewrite T2, S2. split; [reflexivity|exact S1].
Qed.
Lemma init_seen start im : option_map fst (seen (v_artists (init_viewer start im))) = Some im.
Proof. reflexivity. Qed.
Lemma fail_plus1 start im e : 0 <= start < nb_images -> 1 < nb_images -> imread ((start + 1) mod nb_images) = Err e ->
  fst (react Plus1 (init_viewer start im)) = set_changing true (set_ifile (Idx ((start + 1) mod nb_images)) (set_ifile (Idx (start + 1)) (init_viewer start im))).
Proof.
  intros Hs Hn Ee. cbn [ImViewerModel.react]. unfold increase. change (v_ifile (init_viewer start im)) with (Idx start). cbn [index_add].
  rewrite change_fail with (i := start + 1) (e := e); [reflexivity|reflexivity|reflexivity| |exact Ee].
  change (v_maps (set_ifile (Idx (start + 1)) (init_viewer start im))) with [(start, O)]. cbn [find_map].
  destruct (Z.eqb_spec ((start + 1) mod nb_images) start) as [E|_]; [|reflexivity].
  exfalso. pose proof (same_mod start 1 ltac:(lia)) as Q. rewrite E, (Z.mod_small start), (Z.mod_small 1), Z.eqb_refl in Q by lia. discriminate.
Qed.

Theorem C99_unreadable_refuted : forall start im e evs, 0 <= start < nb_images -> 1 < nb_images ->
  imread ((start + 1) mod nb_images) = Err e -> Forall no_reload evs ->
  let v := history (Plus1 :: evs) (init_viewer start im) in
  v_title v = start /\ option_map fst (seen (v_artists v)) = Some im.
Proof.
  intros start im e evs Hs Hn Ee F v. pose proof (fail_plus1 start im e Hs Hn Ee) as Q.
  destruct (stuck_cons Plus1 evs (init_viewer start im) im) as (A & B); [rewrite Q; reflexivity|exact F|rewrite Q; reflexivity|].
  split; [|exact B]. unfold v. rewrite A, Q. reflexivity.
Qed.

Theorem C99_step_refuted : forall start im evs, 0 <= start < nb_images -> Forall no_reload evs ->
  let v := history (SubmitN (Ok Float) :: PlusN :: evs) (init_viewer start im) in
  v_title v = start /\ option_map fst (seen (v_artists v)) = Some im.
Proof.
  intros start im evs Hs F v. change v with (history (PlusN :: evs) (set_n Float (init_viewer start im))).
  assert (Q : fst (react PlusN (set_n Float (init_viewer start im))) = set_changing true (set_ifile Float (set_ifile Float (set_n Float (init_viewer start im))))).
  { cbn [ImViewerModel.react]. unfold increase. change (v_n (set_n Float (init_viewer start im))) with Float.
    change (index_add (v_ifile (set_n Float (init_viewer start im))) Float) with Float. rewrite change_float by reflexivity. reflexivity. }
  destruct (stuck_cons PlusN evs (set_n Float (init_viewer start im)) im) as (A & B); [rewrite Q; reflexivity|exact F|rewrite Q; reflexivity|].
  split; [|exact B]. rewrite A, Q. reflexivity.
Qed.

(** an image reloaded stays above the images loaded before *)
Theorem C99_reload_refuted : forall start im im', 0 <= start < nb_images -> 1 < nb_images ->
  imread start = Ok im -> imread ((start + 1) mod nb_images) = Ok im' ->
  let v := history [Plus1; Reload; Minus1] (init_viewer start im) in
  v_ifile v = Idx start /\ v_title v = start /\ option_map fst (seen (v_artists v)) = Some im'.
Proof.
  intros start im im' Hs Hn Ei Ej. set (j := (start + 1) mod nb_images) in *.
  assert (Nj : (j =? start) = false).
  { pose proof (same_mod start 1 ltac:(lia)) as Q. rewrite (Z.mod_small start), (Z.mod_small 1) in Q by lia. exact Q. }
  assert (Back : (j - 1) mod nb_images = start) by (unfold j; rewrite Zminus_mod_idemp_l; replace (start + 1 - 1) with start by lia; apply Z.mod_small; lia).
  cbn [ImViewerModel.history ImViewerModel.react]. unfold increase, change_im, ImViewerModel.init_viewer.
  cbn [fst add_image set_ifile set_maps set_mappable set_artists v_ifile v_n v_last v_changing v_clim v_artists v_mappable v_maps v_title v_cmin v_cmax index_add set_changing find_map].
  fold j. rewrite Nj. unfold loadim. rewrite Ej.
  cbn [fst add_image set_ifile set_maps set_mappable set_artists v_ifile v_n v_last v_changing v_clim v_artists v_mappable v_maps v_title v_cmin v_cmax set_changing set_title app List.length change_artist].
  rewrite Ej. unfold decrease, change_im.
  cbn [fst add_image set_ifile set_maps set_mappable set_artists v_ifile v_n v_last v_changing v_clim v_artists v_mappable v_maps v_title v_cmin v_cmax set_changing set_title index_sub app List.length change_artist].
  rewrite Back. cbn [find_map]. rewrite (Z.eqb_sym start j), Nj, Z.eqb_refl.
  cbn [fst add_image set_ifile set_maps set_mappable set_artists v_ifile v_n v_last v_changing v_clim v_artists v_mappable v_maps v_title v_cmin v_cmax set_changing set_title app List.length change_artist].
  repeat split.
Qed.

(** colour limits: those asked for, if all of them have two decimals *)
Theorem C99_limits_partial : forall start im evs, 0 <= start < nb_images -> imread start = Ok im -> readable -> Forall plain evs ->
  exact 0 -> images_exact -> Forall two_decimals evs ->
  let v := history evs (init_viewer start im) in
  v_clim v = w_lim (wish_of start im evs) /\
  forall x, seen (v_artists v) = Some x -> snd x = w_lim (wish_of start im evs).
Proof.
  intros start im evs Hs Ei Rd F E0 Ie T v.
  pose proof (history_good true start im evs Hs Ei Rd F) as G. specialize (G ltac:(intros _; split; [exact E0|split; [apply (Ie start im Hs Ei)|split; assumption]])). fold v in G.
  destruct (g_lim _ _ _ G eq_refl) as (L1 & L2). split; [exact L1|]. intros x Sx. destruct (good_seen _ _ _ G) as (a & Ea & _ & S1). rewrite S1 in Sx.
  destruct (w_moved _); [|discriminate]. injection Sx as <-. exact (L2 a Ea).
Qed.

(** otherwise the limits of the image seen and those of the next images differ: the text boxes round the limits *)
Theorem C99_limits_refuted : forall start im t x y, 0 <= start < nb_images ->
  safe_eval t = Ok x -> x <> 0%R -> t <> fmt x -> safe_eval (fmt x) = Ok y -> y <> x ->
  let v := history [Cmin t] (init_viewer start im) in
  (exists hi, seen (v_artists v) = Some (im, (x, hi))) /\ fst (v_clim v) = y.
Proof.
  intros start im t x y Hs Et Nx Nt Ey Ny. cbn [ImViewerModel.history ImViewerModel.react]. unfold change_cmin. rewrite Et.
  unfold ImViewerModel.init_viewer.
  cbn [fst add_image set_ifile set_maps set_mappable set_artists set_climits set_cmin v_ifile v_n v_last v_changing v_clim v_artists v_mappable v_maps v_title v_cmin v_cmax fst snd app List.length].
  destruct (Req_EM_T x 0) as [E|_]; [congruence|]. cbn [fst]. unfold update_clim, box_min.
  cbn [fst add_image set_ifile set_maps set_mappable set_artists set_climits set_cmin v_ifile v_n v_last v_changing v_clim v_artists v_mappable v_maps v_title v_cmin v_cmax fst snd app List.length change_artist].
  destruct (list_eq_dec _ t (fmt x)) as [E|_]; [congruence|]. rewrite Ey. destruct (Req_EM_T y x) as [E|_]; [congruence|].
  unfold box_max. cbn [set_climits set_cmin v_cmax v_clim snd fst]. destruct (list_eq_dec _ _ _) as [_|N]; [|destruct N; reflexivity].
  cbn. split; [eexists; reflexivity|reflexivity].
Qed.
End Spec.
Print Assumptions C99_history_partial.
Print Assumptions C99_blank_refuted.
Print Assumptions C99_switch.
Print Assumptions C99_index.
Print Assumptions C99_unreadable_refuted.
Print Assumptions C99_step_refuted.
Print Assumptions C99_reload_refuted.
Print Assumptions C99_limits_partial.
Print Assumptions C99_limits_refuted.

(** Example: three images, numbers 0 to 2, of maximum 100. *)
Definition ex_fmt (x : R) : chars := if Req_EM_T x 0 then of_string "0.00" else if Req_EM_T x 99 then of_string "99.00" else of_string "5.00".
Definition ex_eval (t : chars) : result R :=
  if list_eq_dec Ascii.ascii_dec t (of_string "0.00") then Ok 0%R
  else if list_eq_dec Ascii.ascii_dec t (of_string "99.00") then Ok 99%R
  else if list_eq_dec Ascii.ascii_dec t (of_string "5.00") then Ok 5%R
  else if list_eq_dec Ascii.ascii_dec t (of_string "5.001") then Ok 5.001%R
  else Err NameError.
Definition ex_read (i : Z) : result Z := Ok (10 * i).
Example C99_example :
  let evs := [Plus1; SubmitN (Ok (Idx 5)); PlusN; AltS; Cmin (of_string "5.00"); MinusN] in
  readable 3 ex_read /\ Forall plain evs /\ exact ex_fmt ex_eval 0 /\ images_exact 3 ex_read (fun _ => 0%R) (fun _ => 100%R) ex_fmt ex_eval /\
  Forall (two_decimals ex_fmt ex_eval) evs /\
  let w := wish_of 3 ex_read (fun _ => 0%R) (fun _ => 100%R) ex_eval 0 0 evs in
  w_pos w = 6 /\ w_moved w = true /\ w_lim w = (5%R, (99 / 100 * 100)%R) /\
  ex_eval (of_string "5.001") = Ok 5.001%R /\ ex_eval (ex_fmt 5.001) = Ok 5%R.
Proof.
  assert (F5 : ex_fmt 5 = of_string "5.00") by (unfold ex_fmt; destruct (Req_EM_T 5 0); [lra|]; destruct (Req_EM_T 5 99); [lra|reflexivity]).
  cbn zeta. split; [intros i Hi; eexists; reflexivity|]. split; [repeat constructor|].
  assert (E0 : exact ex_fmt ex_eval 0) by (unfold exact, ex_fmt; destruct (Req_EM_T 0 0); [reflexivity|lra]).
  split; [exact E0|]. split.
  - intros i im Hi _. split; [exact E0|]. unfold exact, ex_fmt. destruct (Req_EM_T _ 0); [lra|]. destruct (Req_EM_T _ 99); [|lra]. cbn. f_equal. lra.
  - split.
    + repeat constructor. cbn [two_decimals]. intros x E. injection E as <-. unfold exact. rewrite F5. reflexivity.
    + repeat split. unfold ex_fmt. destruct (Req_EM_T 5.001 0); [lra|]. destruct (Req_EM_T 5.001 99); [lra|reflexivity].
Qed.

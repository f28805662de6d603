(** C24: the executor with servers. *)
From Coq Require Import Permutation.
From Verif Require Import PyBase ServersModel.

(** ** Specification *)

(** The item of a task, while the task has it. *)
Definition item_of (p : phase) : list nat :=
  match p with
  | Popped k | Occupied k | Counted k | Sent k | Waiting k | Replied k => [k]
  | Spawned | PutOut | Uncounted | Zero => []
  end.
Definition in_flight (s : sst) : list nat := flat_map (fun j => item_of (snd j)) (s_jobs s).

(** The server of index [i] has been sent the item and its reply has not been processed. *)
Definition on_server (p : phase) : bool :=
  match p with Sent _ | Waiting _ | Replied _ => true | _ => false end.
Definition on_server_count (i : nat) (s : sst) : nat :=
  List.length (filter (fun '(a, p) => Nat.eqb a i && on_server p) (s_jobs s)).

(** A worker which can take a job. *)
Definition can_take (w : worker) : Prop := w_avail w = true /\ w_nb w < 4.

(** The race on [is_unoccupied]: a task of a worker has seen no item left and is about to mark the
    worker as unoccupied while another one is between the two first statements of [send_job]. *)
Definition racing (s : sst) : Prop := exists i k,
  In (i, Zero) (s_jobs s) /\ In (i, Occupied k) (s_jobs s).

(** All the states of an execution. *)
Fixpoint states (is_exn : nat -> bool) (l : list sstep) (s : sst) : list sst :=
  s :: match l with [] => [] | e :: l' => states is_exn l' (do_step is_exn s e) end.

(** ** Lemmas *)
Definition num (f : phase -> bool) (i : nat) (l : list (nat * phase)) : nat :=
  List.length (filter (fun '(a, p) => Nat.eqb a i && f p) l).
Definition b2n (b : bool) : nat := if b then 1%nat else 0%nat.

Lemma num_app f i l l' : num f i (l ++ l') = (num f i l + num f i l')%nat.
Proof. unfold num. rewrite filter_app, app_length. reflexivity. Qed.
Lemma num_cons f i a p l : num f i ((a, p) :: l) = (b2n (Nat.eqb a i && f p) + num f i l)%nat.
Proof. unfold num. cbn [filter]. destruct (Nat.eqb a i && f p); reflexivity. Qed.

Lemma nth_split_jobs {A} (l : list A) j a : nth_error l j = Some a ->
  l = firstn j l ++ a :: skipn (S j) l.
Proof.
  revert l. induction j as [|j IH]; intros [|x l] H; try discriminate.
  - injection H as <-. reflexivity.
  - cbn [firstn skipn app]. f_equal. apply IH. exact H.
Qed.
Lemma update_nth_split {A} (l : list A) j f a : nth_error l j = Some a ->
  update_nth j f l = firstn j l ++ f a :: skipn (S j) l.
Proof.
  revert l. induction j as [|j IH]; intros [|x l] H; try discriminate.
  - injection H as <-. reflexivity.
  - cbn [update_nth firstn skipn app]. f_equal. apply IH. exact H.
Qed.
Lemma nth_update_same {A} (l : list A) j f a : nth_error l j = Some a -> nth_error (update_nth j f l) j = Some (f a).
Proof.
  revert l. induction j as [|j IH]; intros [|x l] H; try discriminate.
  - injection H as <-. reflexivity.
  - cbn. apply IH. exact H.
Qed.
Lemma nth_update_other {A} (l : list A) j j' f : j <> j' -> nth_error (update_nth j f l) j' = nth_error l j'.
Proof.
  revert j' l. induction j as [|j IH]; intros [|j'] [|x l] H; try reflexivity; try (contradiction H; reflexivity).
  cbn. apply IH. congruence.
Qed.
Lemma length_update {A} (l : list A) j f : List.length (update_nth j f l) = List.length l.
Proof. revert l. induction j as [|j IH]; intros [|x l]; cbn; congruence. Qed.

Lemma num_set f i l j a p a' p' : nth_error l j = Some (a, p) ->
  (num f i (update_nth j (fun _ => (a', p')) l) + b2n (Nat.eqb a i && f p) =
   num f i l + b2n (Nat.eqb a' i && f p'))%nat.
Proof.
  intros H. rewrite (update_nth_split _ _ _ _ H). rewrite (nth_split_jobs _ _ _ H) at 3.
  rewrite !num_app, !num_cons. lia.
Qed.
Lemma num_end f i l j a p : nth_error l j = Some (a, p) ->
  (num f i (firstn j l ++ skipn (S j) l) + b2n (Nat.eqb a i && f p) = num f i l)%nat.
Proof.
  intros H. rewrite (nth_split_jobs _ _ _ H) at 3. rewrite !num_app, num_cons. lia.
Qed.

(** ** Choice of the worker *)
Lemma best_spec l : forall i,
  match best i l with
  | None => forall n w, nth_error l n = Some w -> ~ can_take w
  | Some (j, n) => exists m w, j = (i + m)%nat /\ nth_error l m = Some w /\ w_nb w = n /\ can_take w /\
      forall m' w', nth_error l m' = Some w' -> can_take w' -> n <= w_nb w'
  end.
Proof.
  induction l as [|w l IH]; intros i; cbn [best]; [intros [|n] w [=]|].
  specialize (IH (S i)). unfold max_items_in_server.
  destruct (w_avail w && (w_nb w <? 4)) eqn:T.
  - assert (CT : can_take w) by (unfold can_take; destruct (w_avail w); cbn in T; split; [reflexivity|lia|discriminate|lia]).
    destruct (best (S i) l) as [[j n]|].
    + destruct IH as (m & w' & -> & Hm & Hn & C & Min).
      destruct (Z.ltb_spec n (w_nb w)).
      * exists (S m), w'. split; [lia|]. split; [exact Hm|]. split; [exact Hn|]. split; [exact C|].
        intros [|m'] w'' H' C'; [injection H' as <-; lia|]. apply (Min m' w'' H' C').
      * exists 0%nat, w. split; [lia|]. split; [reflexivity|]. split; [reflexivity|]. split; [exact CT|].
        intros [|m'] w'' H' C'; [injection H' as <-; lia|]. pose proof (Min m' w'' H' C'). lia.
    + exists 0%nat, w. split; [lia|]. split; [reflexivity|]. split; [reflexivity|]. split; [exact CT|].
      intros [|m'] w'' H' C'; [injection H' as <-; lia|]. destruct (IH m' w'' H' C').
  - assert (NT : ~ can_take w).
    { intros (A & B). rewrite A in T. cbn in T. lia. }
    destruct (best (S i) l) as [[j n]|].
    + destruct IH as (m & w' & -> & Hm & Hn & C & Min). exists (S m), w'.
      split; [lia|]. split; [exact Hm|]. split; [exact Hn|]. split; [exact C|].
      intros [|m'] w'' H' C'; [injection H' as <-; contradiction|]. apply (Min m' w'' H' C').
    + intros [|n] w' H'; [injection H' as <-; exact NT|]. apply (IH n w' H').
Qed.

(** The chosen worker is available, has fewer than 4 items and no available worker has fewer
    items; None is returned only when no worker can take a job. *)
Theorem C24_least_loaded : forall l,
  match get_available_worker l with
  | None => forall w, In w l -> ~ can_take w
  | Some i => exists w, nth_error l i = Some w /\ can_take w /\
      forall w', In w' l -> can_take w' -> w_nb w <= w_nb w'
  end.
Proof.
  intros l. unfold get_available_worker. pose proof (best_spec l 0) as H.
  destruct (best 0 l) as [[j n]|]; cbn [option_map fst].
  - destruct H as (m & w & -> & Hm & Hn & C & Min). exists w. split; [exact Hm|]. split; [exact C|].
    intros w' I C'. apply In_nth_error in I. destruct I as (m' & I). rewrite Hn. apply (Min m' w' I C').
  - intros w I. apply In_nth_error in I. destruct I as (m' & I). apply (H m' w I).
Qed.
Print Assumptions C24_least_loaded.

(** ** The number of items of a worker *)
Definition pend (p : phase) : bool :=
  match p with Spawned | Popped _ | Occupied _ | Counted _ | Sent _ => true | _ => false end.
Definition counted (p : phase) : bool :=
  match p with Counted _ | Sent _ | Waiting _ | Replied _ | PutOut => true | _ => false end.
Definition pre (p : phase) : bool :=
  match p with Spawned | Popped _ | Occupied _ => true | _ => false end.

Definition w_inv (i : nat) (w : worker) (jobs : list (nat * phase)) : Prop :=
  w_nb w = Z.of_nat (num counted i jobs) /\
  num pend i jobs = b2n (negb (w_avail w)) /\
  (num counted i jobs + num pre i jobs <= 4)%nat.

Definition inv (s : sst) : Prop :=
  (forall i w, nth_error (s_workers s) i = Some w -> w_inv i w (s_jobs s)) /\
  (forall i p, In (i, p) (s_jobs s) -> exists w, nth_error (s_workers s) i = Some w).

Section Run.
Variable is_exn : nat -> bool.

(** a step of the task j: change of one worker and of one job *)
Lemma inv_set s j i p p' (f : worker -> worker) inq out :
  inv s -> nth_error (s_jobs s) j = Some (i, p) ->
  (forall w, nth_error (s_workers s) i = Some w ->
     w_nb (f w) + Z.of_nat (b2n (counted p)) = w_nb w + Z.of_nat (b2n (counted p')) /\
     (b2n (negb (w_avail (f w))) + b2n (pend p) = b2n (negb (w_avail w)) + b2n (pend p'))%nat /\
     (b2n (counted p') + b2n (pre p') <= b2n (counted p) + b2n (pre p))%nat) ->
  inv (mk_sst inq out (s_consumed s) (update_nth i f (s_workers s))
         (update_nth j (fun _ => (i, p')) (s_jobs s)) (s_stop s)).
Proof.
  intros (I1 & I2) Hj Hf. split; cbn [s_workers s_jobs].
  - intros a w Ha. unfold w_inv.
    pose proof (num_set counted a _ _ _ _ i p' Hj) as N1.
    pose proof (num_set pend a _ _ _ _ i p' Hj) as N2.
    pose proof (num_set pre a _ _ _ _ i p' Hj) as N3.
    destruct (Nat.eq_dec i a) as [<-|Ne].
    + destruct (I2 i p (nth_error_In _ _ Hj)) as (w0 & Hw0).
      rewrite (nth_update_same _ _ f _ Hw0) in Ha. injection Ha as <-.
      destruct (I1 i w0 Hw0) as (A & B & C). destruct (Hf w0 Hw0) as (F1 & F2 & F3).
      rewrite Nat.eqb_refl in N1, N2, N3. cbn [andb] in N1, N2, N3. split; [lia|]. split; [lia|]. lia.
    + rewrite nth_update_other in Ha by exact Ne. destruct (I1 a w Ha) as (A & B & C).
      apply Nat.eqb_neq in Ne. rewrite Ne in N1, N2, N3. cbn [andb b2n] in N1, N2, N3.
      split; [lia|]. split; [lia|]. lia.
  - intros a q Ha. apply In_nth_error in Ha. destruct Ha as (m & Ha).
    destruct (I2 i p (nth_error_In _ _ Hj)) as (wi & Hwi).
    assert (E : exists q', In (a, q') (s_jobs s)).
    { destruct (Nat.eq_dec j m) as [<-|Ne].
      - rewrite (nth_update_same _ _ _ _ Hj) in Ha. injection Ha as <- <-. exists p. eapply nth_error_In; exact Hj.
      - rewrite nth_update_other in Ha by exact Ne. exists q. eapply nth_error_In; exact Ha. }
    destruct E as (q' & E). destruct (I2 a q' E) as (w & Hw).
    destruct (Nat.eq_dec i a) as [<-|Ne].
    + exists (f w). apply nth_update_same. exact Hw.
    + exists w. rewrite nth_update_other by exact Ne. exact Hw.
Qed.

Lemma inv_end s j i p (f : worker -> worker) inq out :
  inv s -> nth_error (s_jobs s) j = Some (i, p) ->
  (forall w, nth_error (s_workers s) i = Some w ->
     w_nb (f w) + Z.of_nat (b2n (counted p)) = w_nb w /\
     (b2n (negb (w_avail (f w))) + b2n (pend p) = b2n (negb (w_avail w)))%nat) ->
  inv (mk_sst inq out (s_consumed s) (update_nth i f (s_workers s))
         (firstn j (s_jobs s) ++ skipn (S j) (s_jobs s)) (s_stop s)).
Proof.
  intros (I1 & I2) Hj Hf. split; cbn [s_workers s_jobs].
  - intros a w Ha. unfold w_inv.
    pose proof (num_end counted a _ _ _ _ Hj) as N1.
    pose proof (num_end pend a _ _ _ _ Hj) as N2.
    pose proof (num_end pre a _ _ _ _ Hj) as N3.
    destruct (Nat.eq_dec i a) as [<-|Ne].
    + destruct (I2 i p (nth_error_In _ _ Hj)) as (w0 & Hw0).
      rewrite (nth_update_same _ _ f _ Hw0) in Ha. injection Ha as <-.
      destruct (I1 i w0 Hw0) as (A & B & C). destruct (Hf w0 Hw0) as (F1 & F2).
      rewrite Nat.eqb_refl in N1, N2, N3. cbn [andb] in N1, N2, N3. split; [lia|]. split; [lia|]. lia.
    + rewrite nth_update_other in Ha by exact Ne. destruct (I1 a w Ha) as (A & B & C).
      apply Nat.eqb_neq in Ne. rewrite Ne in N1, N2, N3. cbn [andb b2n] in N1, N2, N3.
      split; [lia|]. split; [lia|]. lia.
  - intros a q Ha.
    assert (E : In (a, q) (s_jobs s)).
    { rewrite (nth_split_jobs _ _ _ Hj). apply in_app_or in Ha. apply in_or_app.
      destruct Ha as [Ha|Ha]; [left; exact Ha|right; right; exact Ha]. }
    destruct (I2 a q E) as (w & Hw).
    destruct (Nat.eq_dec i a) as [<-|Ne].
    + exists (f w). apply nth_update_same. exact Hw.
    + exists w. rewrite nth_update_other by exact Ne. exact Hw.
Qed.

Lemma update_id {A} (l : list A) j : update_nth j (fun x => x) l = l.
Proof. revert l. induction j as [|j IH]; intros [|x l]; cbn; congruence. Qed.

Lemma inv_set0 s j i p p' inq out :
  inv s -> nth_error (s_jobs s) j = Some (i, p) ->
  counted p = counted p' -> pend p = pend p' -> pre p = pre p' ->
  inv (mk_sst inq out (s_consumed s) (s_workers s)
         (update_nth j (fun _ => (i, p')) (s_jobs s)) (s_stop s)).
Proof.
  intros I Hj H1 H2 H3. rewrite <- (update_id (s_workers s) i).
  apply (inv_set s j i p p' (fun w => w) inq out I Hj). intros w Hw. rewrite H1, H2, H3. lia.
Qed.
Lemma inv_end0 s j i p inq out :
  inv s -> nth_error (s_jobs s) j = Some (i, p) -> counted p = false -> pend p = false ->
  inv (mk_sst inq out (s_consumed s) (s_workers s)
         (firstn j (s_jobs s) ++ skipn (S j) (s_jobs s)) (s_stop s)).
Proof.
  intros I Hj H1 H2. rewrite <- (update_id (s_workers s) i).
  apply (inv_end s j i p (fun w => w) inq out I Hj). intros w Hw. rewrite H1, H2. cbn. lia.
Qed.

Lemma inv_step s e : inv s -> inv (do_step is_exn s e).
Proof.
  intros I. destruct e as [|j| |]; cbn [do_step].
  - destruct (s_stop s); [exact I|].
    pose proof (C24_least_loaded (s_workers s)) as B.
    destruct (get_available_worker (s_workers s)) as [i|]; [|exact I].
    destruct B as (w & Hw & (Av & Nb) & _). destruct I as (I1 & I2). split; cbn.
    + intros a w' Ha. unfold w_inv. rewrite !num_app, !num_cons.
      destruct (Nat.eq_dec i a) as [<-|Ne].
      * rewrite (nth_update_same _ _ _ _ Hw) in Ha. injection Ha as <-.
        destruct (I1 i w Hw) as (A & B & C). rewrite Av in B. cbn in B.
        rewrite Nat.eqb_refl. cbn.
        assert (P0 : num pre i (s_jobs s) = 0%nat).
        { assert (num pre i (s_jobs s) <= num pend i (s_jobs s))%nat; [|lia].
          clear. induction (s_jobs s) as [|[a p] l IH]; [reflexivity|]. rewrite !num_cons.
          destruct (Nat.eqb a i), p; cbn; lia. }
        lia.
      * rewrite nth_update_other in Ha by exact Ne. destruct (I1 a w' Ha) as (A & B & C).
        apply Nat.eqb_neq in Ne. rewrite Ne. cbn. lia.
    + intros a p Ha. apply in_app_or in Ha.
      assert (E : exists w', nth_error (s_workers s) a = Some w').
      { destruct Ha as [Ha|[[= <- <-]|[]]]; [exact (I2 a p Ha)|exists w; exact Hw]. }
      destruct E as (w' & E). destruct (Nat.eq_dec i a) as [<-|Ne].
      * eexists. apply nth_update_same. exact E.
      * exists w'. rewrite nth_update_other by exact Ne. exact E.
  - destruct (nth_error (s_jobs s) j) as [[i p]|] eqn:Hj; [|exact I].
    assert (W : exists w, nth_error (s_workers s) i = Some w /\ w_inv i w (s_jobs s)).
    { destruct I as (I1 & I2). destruct (I2 i p (nth_error_In _ _ Hj)) as (w & Hw). exists w. split; [exact Hw|apply I1; exact Hw]. }
    assert (Pn : forall w, nth_error (s_workers s) i = Some w -> pend p = true -> w_avail w = false).
    { intros w Hw Pp. destruct I as (I1 & _). destruct (I1 i w Hw) as (_ & B & _).
      pose proof (num_end pend i _ _ _ _ Hj) as N. rewrite Nat.eqb_refl, Pp in N. cbn in N.
      destruct (w_avail w); [cbn in B; lia|reflexivity]. }
    destruct p as [|k|k|k|k|k|k| | |].
    + destruct (s_in s) as [|k l] eqn:Q.
      * apply (inv_end s j i Spawned (set_avail true) _ _ I Hj). intros w Hw. cbn.
        rewrite (Pn w Hw eq_refl). cbn. lia.
      * destruct (is_exn k).
        -- apply (inv_end s j i Spawned (set_avail true) _ _ I Hj). intros w Hw. cbn.
           rewrite (Pn w Hw eq_refl). cbn. lia.
        -- apply (inv_set0 s j i Spawned (Popped k) _ _ I Hj); reflexivity.
    + apply (inv_set s j i (Popped k) (Occupied k) (set_unocc false) _ _ I Hj). intros w Hw. cbn. lia.
    + apply (inv_set s j i (Occupied k) (Counted k) (add_nb 1) _ _ I Hj). intros w Hw. cbn. lia.
    + apply (inv_set0 s j i (Counted k) (Sent k) _ _ I Hj); reflexivity.
    + apply (inv_set s j i (Sent k) (Waiting k) (set_avail true) _ _ I Hj). intros w Hw. cbn.
      rewrite (Pn w Hw eq_refl). cbn. lia.
    + apply (inv_set0 s j i (Waiting k) (Replied k) _ _ I Hj); reflexivity.
    + apply (inv_set0 s j i (Replied k) PutOut _ _ I Hj); reflexivity.
    + apply (inv_set s j i PutOut Uncounted (add_nb (-1)) _ _ I Hj). intros w Hw. cbn. lia.
    + destruct (nb_of i s =? 0).
      * apply (inv_set0 s j i Uncounted Zero _ _ I Hj); reflexivity.
      * apply (inv_end0 s j i Uncounted _ _ I Hj); reflexivity.
    + apply (inv_end s j i Zero (set_unocc true) _ _ I Hj). intros w Hw. cbn. lia.
  - destruct (s_stop s); [exact I|]. destruct (s_out s); [exact I|]. exact I.
  - destruct (s_in s), (s_out s); try exact I. destruct (forallb w_unocc (s_workers s)); exact I.
Qed.

Lemma inv_init nb items : inv (s_init nb items).
Proof.
  split; cbn.
  - intros i w H. apply nth_error_In in H. apply repeat_spec in H. subst w. repeat split. cbn. lia.
  - intros i p [].
Qed.

Lemma inv_run l : forall s, inv s -> inv (srun is_exn l s).
Proof. induction l as [|e l IH]; intros s I; [exact I|]. apply IH, inv_step, I. Qed.

(** A server never has more than 4 items, for all interleavings; its client counts at least
    the items it has and never more than 4. *)
Theorem C24_at_most_four : forall nb items l i w,
  nth_error (s_workers (srun is_exn l (s_init nb items))) i = Some w ->
  Z.of_nat (on_server_count i (srun is_exn l (s_init nb items))) <= w_nb w <= 4.
Proof.
  intros nb items l i w Hw.
  destruct (inv_run l _ (inv_init nb items)) as (I1 & _). destruct (I1 i w Hw) as (A & _ & C).
  rewrite A. split; [|lia].
  unfold on_server_count. change (filter _ ?x) with (filter (fun '(a, p) => Nat.eqb a i && on_server p) x).
  fold (num on_server i (s_jobs (srun is_exn l (s_init nb items)))).
  assert (num on_server i (s_jobs (srun is_exn l (s_init nb items))) <=
          num counted i (s_jobs (srun is_exn l (s_init nb items))))%nat; [|lia].
  clear. induction (s_jobs (srun is_exn l (s_init nb items))) as [|[a p] q IH]; [reflexivity|].
  rewrite !num_cons. destruct (Nat.eqb a i), p; cbn; lia.
Qed.

(** ** No item is lost or duplicated *)
Lemma flight_set jobs j i p p' : nth_error jobs j = Some (i, p) ->
  Permutation (item_of p ++ flat_map (fun x : nat * phase => item_of (snd x)) (update_nth j (fun _ => (i, p')) jobs))
              (item_of p' ++ flat_map (fun x : nat * phase => item_of (snd x)) jobs).
Proof.
  intros H. rewrite (update_nth_split _ _ _ _ H). rewrite (nth_split_jobs _ _ _ H) at 3.
  rewrite !flat_map_app. cbn [flat_map snd].
  set (F := flat_map _ (firstn j jobs)). set (G := flat_map _ (skipn (S j) jobs)).
  rewrite (Permutation_app_comm F (item_of p' ++ G)), (Permutation_app_comm F (item_of p ++ G)).
  rewrite <- !app_assoc. rewrite app_assoc, (Permutation_app_comm (item_of p)), <- app_assoc. reflexivity.
Qed.
Lemma flight_end jobs j i p : nth_error jobs j = Some (i, p) ->
  Permutation (item_of p ++ flat_map (fun x : nat * phase => item_of (snd x)) (firstn j jobs ++ skipn (S j) jobs))
              (flat_map (fun x : nat * phase => item_of (snd x)) jobs).
Proof.
  intros H. rewrite (nth_split_jobs _ _ _ H) at 3. rewrite !flat_map_app. cbn [flat_map snd].
  apply Permutation_app_swap_app.
Qed.

Definition places (s : sst) : list nat := s_in s ++ in_flight s ++ s_out s ++ s_consumed s.

Lemma places_step s e : Permutation (places (do_step is_exn s e)) (places s).
Proof.
  unfold places, in_flight. destruct e as [|j| |]; cbn [do_step].
  - destruct (s_stop s); [reflexivity|]. destruct (get_available_worker (s_workers s)); [|reflexivity].
    cbn. rewrite flat_map_app. cbn. rewrite app_nil_r. reflexivity.
  - destruct (nth_error (s_jobs s) j) as [[i p]|] eqn:Hj; [|reflexivity].
    assert (Set0 : forall p', item_of p = item_of p' ->
      Permutation (flat_map (fun x : nat * phase => item_of (snd x)) (update_nth j (fun _ => (i, p')) (s_jobs s)))
                  (flat_map (fun x : nat * phase => item_of (snd x)) (s_jobs s))).
    { intros p' E. pose proof (flight_set _ _ _ _ p' Hj) as P. rewrite E in P.
      apply Permutation_app_inv_l in P. exact P. }
    destruct p as [|k|k|k|k|k|k| | |]; cbn [end_job set_job upd_worker put_out set_in s_in s_out s_consumed s_jobs].
    + pose proof (flight_end _ _ _ _ Hj) as P. cbn [item_of app] in P.
      destruct (s_in s) as [|k l] eqn:Q; cbn [end_job set_job upd_worker put_out set_in s_in s_out s_consumed s_jobs].
      * rewrite Q, P. reflexivity.
      * destruct (is_exn k); cbn [end_job set_job upd_worker put_out set_in s_in s_out s_consumed s_jobs].
        -- rewrite P. rewrite <- (app_assoc (s_out s)). cbn [app]. symmetry.
           rewrite !app_assoc. apply Permutation_cons_app. reflexivity.
        -- pose proof (flight_set _ _ _ _ (Popped k) Hj) as P2. cbn [item_of app] in P2. rewrite P2.
           cbn [app]. symmetry. apply Permutation_middle.
    + rewrite (Set0 (Occupied k) eq_refl). reflexivity.
    + rewrite (Set0 (Counted k) eq_refl). reflexivity.
    + rewrite (Set0 (Sent k) eq_refl). reflexivity.
    + rewrite (Set0 (Waiting k) eq_refl). reflexivity.
    + rewrite (Set0 (Replied k) eq_refl). reflexivity.
    + pose proof (flight_set _ _ _ _ PutOut Hj) as P. cbn [item_of app] in P.
      apply Permutation_app_head. rewrite <- P. rewrite <- app_assoc. cbn [app].
      rewrite app_comm_cons. symmetry. rewrite app_assoc, app_assoc. apply Permutation_cons_app. reflexivity.
    + rewrite (Set0 Uncounted eq_refl). reflexivity.
    + destruct (nb_of i s =? 0); cbn [end_job set_job s_in s_out s_consumed s_jobs].
      * rewrite (Set0 Zero eq_refl). reflexivity.
      * pose proof (flight_end _ _ _ _ Hj) as P. cbn [item_of app] in P. rewrite P. reflexivity.
    + pose proof (flight_end _ _ _ _ Hj) as P. cbn [item_of app] in P. rewrite P. reflexivity.
  - destruct (s_stop s); [reflexivity|]. destruct (s_out s) as [|k l] eqn:E; [rewrite E; reflexivity|].
    cbn. do 2 apply Permutation_app_head. rewrite app_assoc. symmetry. apply Permutation_cons_append.
  - destruct (s_in s) eqn:E1, (s_out s) eqn:E2; rewrite ?E1, ?E2; try reflexivity.
    destruct (forallb w_unocc (s_workers s)); cbn; rewrite ?E1, ?E2; reflexivity.
Qed.

Theorem C24_one_place : forall nb items l,
  let s := srun is_exn l (s_init nb items) in
  Permutation (s_in s ++ in_flight s ++ s_out s ++ s_consumed s) items.
Proof.
  intros nb items l. cbv zeta. change (Permutation (places (srun is_exn l (s_init nb items))) items).
  assert (G : forall s, Permutation (places (srun is_exn l s)) (places s)).
  { induction l as [|e l IH]; intros s; [reflexivity|]. cbn [srun fold_left]. 
    etransitivity; [apply IH|apply places_step]. }
  rewrite G. unfold places, in_flight. cbn. rewrite !app_nil_r. reflexivity.
Qed.

(** ** The stop *)
Definition active (p : phase) : bool :=
  match p with Occupied _ | Counted _ | Sent _ | Waiting _ | Replied _ | PutOut => true | _ => false end.

Definition inv_unocc (s : sst) : Prop :=
  (forall i w, nth_error (s_workers s) i = Some w -> w_unocc w = true ->
     forall p, In (i, p) (s_jobs s) -> active p = false) /\
  (forall i p, In (i, Zero) (s_jobs s) -> In (i, p) (s_jobs s) -> active p = false).

Lemma in_set (jobs : list (nat * phase)) j i p p' a q : nth_error jobs j = Some (i, p) ->
  In (a, q) (update_nth j (fun _ => (i, p')) jobs) -> (a = i /\ q = p') \/ In (a, q) jobs.
Proof.
  intros H I. rewrite (update_nth_split _ _ _ _ H) in I. rewrite (nth_split_jobs _ _ _ H).
  apply in_app_or in I. destruct I as [I|[[= <- <-]|I]].
  - right. apply in_or_app. left; exact I.
  - left. split; reflexivity.
  - right. apply in_or_app. right; right; exact I.
Qed.
Lemma in_end (jobs : list (nat * phase)) j b a q : nth_error jobs j = Some b ->
  In (a, q) (firstn j jobs ++ skipn (S j) jobs) -> In (a, q) jobs.
Proof.
  intros H I. rewrite (nth_split_jobs _ _ _ H).
  apply in_app_or in I. apply in_or_app. destruct I as [I|I]; [left|right; right]; exact I.
Qed.
Lemma num_zero f i l p : num f i l = 0%nat -> In (i, p) l -> f p = false.
Proof.
  induction l as [|[a q] l IH]; intros N H; [destruct H|]. rewrite num_cons in N.
  destruct H as [[= -> ->]|H]; [|apply IH; [lia|exact H]].
  rewrite Nat.eqb_refl in N. cbn in N. destruct (f p); [cbn in N; lia|reflexivity].
Qed.

Lemma unocc_step s e : inv s -> inv_unocc s -> ~ racing (do_step is_exn s e) ->
  inv_unocc (do_step is_exn s e).
Proof.
  intros I (U1 & U2) NR.
  (* a worker whose flag is not raised and jobs which do not become active *)
  assert (Gen : forall ws jobs inq out cons st,
    (forall i w, nth_error ws i = Some w -> w_unocc w = true -> exists w0, nth_error (s_workers s) i = Some w0 /\ w_unocc w0 = true) ->
    (forall i p, In (i, p) jobs -> exists p0, In (i, p0) (s_jobs s) /\ (active p = true -> active p0 = true) /\ (p = Zero -> p0 = Zero) \/ active p = false /\ p <> Zero) ->
    inv_unocc (mk_sst inq out cons ws jobs st)).
  { intros ws jobs inq out cons st Hw Hj. split; cbn [s_workers s_jobs].
    - intros i w Hi Hu p Hp. destruct (Hj i p Hp) as (p0 & [(A & B & _)|(A & _)]); [|exact A].
      destruct (Hw i w Hi Hu) as (w0 & W0 & Wu). specialize (U1 i w0 W0 Wu p0 A).
      destruct (active p); [rewrite B in U1 by reflexivity; discriminate|reflexivity].
    - intros i p Hz Hp. destruct (Hj i Zero Hz) as (p0 & [(A & _ & B)|(_ & B)]); [|contradiction B; reflexivity].
      rewrite (B eq_refl) in A.
      destruct (Hj i p Hp) as (p1 & [(A1 & B1 & _)|(A1 & _)]); [|exact A1].
      specialize (U2 i p1 A A1). destruct (active p); [rewrite B1 in U2 by reflexivity; discriminate|reflexivity]. }
  assert (Wsame : forall i w, nth_error (s_workers s) i = Some w -> w_unocc w = true ->
     exists w0, nth_error (s_workers s) i = Some w0 /\ w_unocc w0 = true).
  { intros i w H1 H2. exists w. split; assumption. }
  assert (Wupd : forall i0 f, (forall w, w_unocc (f w) = true -> w_unocc w = true) ->
     forall i w, nth_error (update_nth i0 f (s_workers s)) i = Some w -> w_unocc w = true ->
     exists w0, nth_error (s_workers s) i = Some w0 /\ w_unocc w0 = true).
  { intros i0 f Hf i w H1 H2. destruct (Nat.eq_dec i0 i) as [<-|Ne].
    - destruct (nth_error (s_workers s) i0) as [w0|] eqn:E.
      + rewrite (nth_update_same _ _ f _ E) in H1. injection H1 as <-. exists w0. split; [reflexivity|apply Hf; exact H2].
      + apply nth_error_None in E. assert (nth_error (update_nth i0 f (s_workers s)) i0 = None) as E2.
        { apply nth_error_None. rewrite length_update. exact E. }
        congruence.
    - rewrite nth_update_other in H1 by exact Ne. exists w. split; assumption. }
  assert (Jsame : forall i p, In (i, p) (s_jobs s) -> exists p0, In (i, p0) (s_jobs s) /\ (active p = true -> active p0 = true) /\ (p = Zero -> p0 = Zero) \/ active p = false /\ p <> Zero).
  { intros i p H. exists p. left. split; [exact H|]. split; intros X; exact X. }
  destruct e as [|j| |]; cbn [do_step] in *.
  - destruct (s_stop s); [split; assumption|]. destruct (get_available_worker (s_workers s)) as [i0|]; [|split; assumption].
    apply Gen; [apply Wupd; intros w; exact (fun x => x)|].
    cbn. intros i p H. apply in_app_or in H. destruct H as [H|[[= <- <-]|[]]]; [apply Jsame; exact H|].
    exists Spawned. right. split; [reflexivity|discriminate].
  - destruct (nth_error (s_jobs s) j) as [[i0 p]|] eqn:Hj; [|split; assumption].
    assert (Jset : forall p', (active p' = true -> active p = true) -> p' <> Zero ->
      forall i q, In (i, q) (update_nth j (fun _ => (i0, p')) (s_jobs s)) ->
        exists p0, In (i, p0) (s_jobs s) /\ (active q = true -> active p0 = true) /\ (q = Zero -> p0 = Zero) \/ active q = false /\ q <> Zero).
    { intros p' Ha Hz i q H. destruct (in_set _ _ _ _ _ _ _ Hj H) as [(-> & ->)|H']; [|apply Jsame; exact H'].
      exists p. left. split; [eapply nth_error_In; exact Hj|]. split; [exact Ha|]. intros X; contradiction. }
    assert (Jend : forall i q, In (i, q) (firstn j (s_jobs s) ++ skipn (S j) (s_jobs s)) ->
        exists p0, In (i, p0) (s_jobs s) /\ (active q = true -> active p0 = true) /\ (q = Zero -> p0 = Zero) \/ active q = false /\ q <> Zero).
    { intros i q H. apply Jsame. eapply in_end; [exact Hj|exact H]. }
    destruct p as [|k|k|k|k|k|k| | |].
    + destruct (s_in s) as [|k l] eqn:Q.
      * apply Gen; [apply Wupd; intros w; exact (fun x => x)|exact Jend].
      * destruct (is_exn k).
        -- apply Gen; [apply Wupd; intros w; exact (fun x => x)|exact Jend].
        -- apply Gen; [exact Wsame|]. apply Jset; discriminate.
    + (* Popped -> Occupied *)
      split; cbn [s_workers s_jobs set_job upd_worker].
      * intros i w Hi Hu q Hq. destruct (Nat.eq_dec i0 i) as [<-|Ne].
        -- destruct (nth_error (s_workers s) i0) as [w0|] eqn:E.
           ++ rewrite (nth_update_same _ _ _ _ E) in Hi. injection Hi as <-. discriminate Hu.
           ++ apply nth_error_None in E. assert (nth_error (update_nth i0 (set_unocc false) (s_workers s)) i0 = None) as E2.
              { apply nth_error_None. rewrite length_update. exact E. }
              congruence.
        -- rewrite nth_update_other in Hi by exact Ne.
           destruct (in_set _ _ _ _ _ _ _ Hj Hq) as [(-> & ->)|H']; [contradiction Ne; reflexivity|].
           exact (U1 i w Hi Hu q H').
      * intros i q Hz Hq.
        destruct (in_set _ _ _ _ _ _ _ Hj Hz) as [(_ & [=])|Hz'].
        destruct (in_set _ _ _ _ _ _ _ Hj Hq) as [(-> & ->)|H'].
        -- exfalso. apply NR. exists i0, k. split; [exact Hz|exact Hq].
        -- exact (U2 i q Hz' H').
    + apply Gen; [apply Wupd; intros w; exact (fun x => x)|]. apply Jset; [reflexivity|discriminate].
    + apply Gen; [exact Wsame|]. apply Jset; [reflexivity|discriminate].
    + apply Gen; [apply Wupd; intros w; exact (fun x => x)|]. apply Jset; [reflexivity|discriminate].
    + apply Gen; [exact Wsame|]. apply Jset; [reflexivity|discriminate].
    + apply Gen; [exact Wsame|]. apply Jset; [reflexivity|discriminate].
    + apply Gen; [apply Wupd; intros w; exact (fun x => x)|]. apply Jset; [discriminate|discriminate].
    + destruct (Z.eqb_spec (nb_of i0 s) 0) as [Z0|NZ].
      * (* the test is true *)
        split; cbn [s_workers s_jobs set_job].
        -- intros i w Hi Hu q Hq. destruct (in_set _ _ _ _ _ _ _ Hj Hq) as [(-> & ->)|H']; [reflexivity|].
           exact (U1 i w Hi Hu q H').
        -- intros i q Hz Hq.
           destruct (in_set _ _ _ _ _ _ _ Hj Hq) as [(-> & ->)|H']; [reflexivity|].
           destruct (in_set _ _ _ _ _ _ _ Hj Hz) as [(-> & _)|Hz'].
           ++ destruct I as (I1 & I2). destruct (I2 _ _ H') as (w & Hw).
              destruct (I1 i0 w Hw) as (A & _). unfold nb_of in Z0. rewrite Hw in Z0.
              assert (N0 : num counted i0 (s_jobs s) = 0%nat) by lia.
              pose proof (num_zero _ _ _ q N0 H') as Cq.
              destruct q; try reflexivity; try discriminate Cq.
              exfalso. apply NR. exists i0, k. split; [exact Hz|exact Hq].
           ++ exact (U2 i q Hz' H').
      * apply Gen; [exact Wsame|exact Jend].
    + (* Zero: the flag is raised *)
      pose proof (nth_error_In _ _ Hj) as Hin.
      split; cbn [s_workers s_jobs end_job upd_worker].
      * intros i w Hi Hu q Hq. apply (in_end _ _ _ _ _ Hj) in Hq. destruct (Nat.eq_dec i0 i) as [<-|Ne].
        -- exact (U2 i0 q Hin Hq).
        -- rewrite nth_update_other in Hi by exact Ne. exact (U1 i w Hi Hu q Hq).
      * intros i q Hz Hq. apply (in_end _ _ _ _ _ Hj) in Hq. apply (in_end _ _ _ _ _ Hj) in Hz. exact (U2 i q Hz Hq).
  - destruct (s_stop s); [split; assumption|]. destruct (s_out s); [split; assumption|]. split; [exact U1|exact U2].
  - destruct (s_in s), (s_out s); try (split; assumption). destruct (forallb w_unocc (s_workers s)); split; assumption.
Qed.

(** Without the race on [is_unoccupied]: when the executor decides to stop, the only
    unfinished items are those which a task has just taken from the queue and not yet begun to
    send. *)
Theorem C24_stop_partial : forall nb items l,
  let s := srun is_exn l (s_init nb items) in
  (forall t, In t (states is_exn l (s_init nb items)) -> ~ racing t) ->
  s_stop s = false -> s_stop (do_step is_exn s SCheck) = true ->
  s_in s = [] /\ s_out s = [] /\
  (forall j k, In j (s_jobs s) -> In k (item_of (snd j)) -> snd j = Popped k) /\
  Permutation (flat_map (fun j => item_of (snd j)) (s_jobs s) ++ s_consumed s) items.
Proof.
  intros nb items l s NR Stop0 Stop.
  assert (G : forall l s, inv s -> inv_unocc s -> (forall t, In t (states is_exn l s) -> ~ racing t) ->
     inv (srun is_exn l s) /\ inv_unocc (srun is_exn l s)).
  { clear. induction l as [|e l IH]; intros s I U H; [split; assumption|].
    cbn [srun fold_left]. apply IH.
    - apply inv_step, I.
    - apply unocc_step; [exact I|exact U|]. apply H. cbn [states]. right.
      destruct l; cbn [states]; left; reflexivity.
    - intros t Ht. apply H. cbn [states]. right. exact Ht. }
  destruct (G l (s_init nb items)) as (I & U).
  { apply inv_init. }
  { split; cbn; intros; contradiction. }
  { exact NR. }
  fold s in I, U. cbn [do_step] in Stop.
  destruct (s_in s) as [|a q] eqn:E1; [|congruence].
  destruct (s_out s) as [|b r] eqn:E2; [|congruence].
  destruct (forallb w_unocc (s_workers s)) eqn:F; [|congruence].
  split; [reflexivity|]. split; [reflexivity|]. split.
  - intros [i p] k Hj Hk. cbn [snd] in *. destruct I as (_ & I2). destruct (I2 i p Hj) as (w & Hw).
    assert (Hu : w_unocc w = true).
    { rewrite forallb_forall in F. apply F. eapply nth_error_In; exact Hw. }
    destruct U as (U1 & _). specialize (U1 i w Hw Hu p Hj).
    destruct p; cbn in *; try discriminate; try contradiction.
    destruct Hk as [->|[]]. reflexivity.
  - pose proof (C24_one_place nb items l) as P. cbv zeta in P. fold s in P. rewrite E1, E2 in P. exact P.
Qed.

End Run.
Print Assumptions C24_at_most_four.
Print Assumptions C24_one_place.
Print Assumptions C24_stop_partial.

(** Corollary: when moreover no task is between the pop and the first statement of
    [send_job], all items have been given to the next work. *)
Theorem C24_stop_done_partial : forall is_exn nb items l,
  let s := srun is_exn l (s_init nb items) in
  (forall t, In t (states is_exn l (s_init nb items)) -> ~ racing t) ->
  (forall i k, ~ In (i, Popped k) (s_jobs s)) ->
  s_stop s = false -> s_stop (do_step is_exn s SCheck) = true ->
  Permutation (s_consumed s) items.
Proof.
  intros is_exn nb items l s NR NP S0 S1. unfold s in *.
  destruct (C24_stop_partial is_exn nb items l NR S0 S1) as (_ & _ & H & P). cbv zeta in *.
  assert (E : flat_map (fun j : nat * phase => item_of (snd j)) (s_jobs (srun is_exn l (s_init nb items))) = []).
  { revert H NP. generalize (s_jobs (srun is_exn l (s_init nb items))). intros jobs H NP.
    assert (K : forall j, In j jobs -> item_of (snd j) = []).
    { intros [i p] Hj. destruct (item_of (snd (i, p))) as [|k r] eqn:E; [reflexivity|].
      assert (Ek : In k (item_of (snd (i, p)))) by (rewrite E; left; reflexivity).
      specialize (H (i, p) k Hj Ek). cbn in H. subst p. destruct (NP i k Hj). }
    clear H NP. induction jobs as [|j jobs IH]; [reflexivity|]. cbn. rewrite K by (left; reflexivity).
    apply IH. intros j' Hj'. apply K. right; exact Hj'. }
  rewrite E in P. exact P.
Qed.
Print Assumptions C24_stop_done_partial.

(** ** What fails *)

(** The executor decides to stop while an item is on its way to a server: its result is never
    given to the next work.  (The check runs in the main thread while the thread of the task
    creates its pipe.) *)
Theorem C24_premature_stop_refuted : exists l,
  let s := srun (fun _ => false) l (s_init 2 [7%nat]) in
  s_stop s = true /\ s_jobs s = [] /\ s_in s = [] /\ s_out s = [7%nat] /\ s_consumed s = [] /\
  forall l', s_consumed (srun (fun _ => false) l' s) = [] /\ s_out (srun (fun _ => false) l' s) = [7%nat].
Proof.
  exists [SSpawn; SJob 0; SCheck; SJob 0; SJob 0; SJob 0; SJob 0; SJob 0; SJob 0; SJob 0; SJob 0; SJob 0].
  split; [reflexivity|]. split; [reflexivity|]. split; [reflexivity|]. split; [reflexivity|]. split; [reflexivity|].
  cbv zeta. match goal with |- forall l', s_consumed (srun _ l' ?t) = _ /\ _ =>
    let t' := eval vm_compute in t in change t with t' end.
  intros l'. match goal with |- s_consumed (srun _ l' ?t) = _ /\ _ => set (t0 := t) end.
  assert (G : srun (fun _ => false) l' t0 = t0).
  { induction l' as [|e l' IH]; [reflexivity|]. cbn [srun fold_left].
    assert (E : do_step (fun _ => false) t0 e = t0).
    { destruct e as [|j| |]; try reflexivity. destruct j; reflexivity. }
    rewrite E. exact IH. }
  rewrite G. split; reflexivity.
Qed.
Print Assumptions C24_premature_stop_refuted.

(** The race on [is_unoccupied]: a worker is marked as unoccupied although it has an item, and
    the executor stops. *)
Theorem C24_unoccupied_race_refuted : exists l,
  let s := srun (fun _ => false) l (s_init 1 [7%nat; 8%nat]) in
  s_stop s = true /\ in_flight s = [8%nat] /\ on_server_count 0 s = 1%nat /\ s_consumed s = [7%nat].
Proof.
  exists [SSpawn; SJob 0; SJob 0; SJob 0; SJob 0; SJob 0; SJob 0; (* 7: reply received *)
          SSpawn; SJob 1;                                        (* 8: popped *)
          SJob 0; SJob 0; SJob 0;                                (* 7: put, uncounted, zero seen *)
          SJob 1;                                                (* 8: occupied *)
          SJob 0;                                                (* 7: marked as unoccupied *)
          SConsume; SJob 0; SJob 0; SCheck].
  vm_compute. repeat split; reflexivity.
Qed.
Print Assumptions C24_unoccupied_race_refuted.

(** ** Example for the hypotheses: two servers, three items (one is an exception), everything
    is done and the executor stops. *)
Definition ex_hist : list sstep :=
  [SSpawn; SSpawn; SJob 1; SJob 1; SJob 0; SJob 0; SJob 0; SJob 0; SJob 0; SJob 1; SJob 1; SJob 1;
   SSpawn; SJob 2; SJob 1; SJob 1; SJob 1; SJob 1; SJob 1; SConsume; SJob 0; SJob 0; SJob 0; SJob 0; SJob 0; SConsume; SConsume].
Example C24_example :
  let ex := fun k => Nat.eqb k 3 in
  let s := srun ex ex_hist (s_init 2 [1; 2; 3]%nat) in
  s_stop s = false /\ s_stop (do_step ex s SCheck) = true /\ s_jobs s = [] /\
  (forall t, In t (states ex ex_hist (s_init 2 [1; 2; 3]%nat)) -> ~ racing t) /\
  Permutation (s_consumed s) [1; 2; 3]%nat.
Proof.
  cbv zeta. split; [vm_compute; reflexivity|]. split; [vm_compute; reflexivity|]. split; [vm_compute; reflexivity|].
  split.
  - intros t Ht. vm_compute in Ht.
    repeat (destruct Ht as [<-|Ht]; [intros (i & k & A & B); cbn in A, B; intuition congruence|]). destruct Ht.
  - vm_compute. repeat (apply perm_skip || apply Permutation_refl || (eapply perm_trans; [apply perm_swap|])).
Qed.

(** C14, C15: the global works [make_couples] and [make_subsets]. *)
From Coq Require Import Permutation.
From Verif Require Import PyBase QueueModel QueueProofs ExecModel ExecSpec JoinModel JoinSpec JoinProofs JoinHistProofs.

(** ** C14.  For every history: what has been formed is exactly a part of the couples, each
    one once, with its two images, and what is kept is exactly what is needed. *)
Theorem C14_couples_histories :
  forall (V : Type) (names_of : V -> list nat) (mk_couple : nat -> nat -> nat -> V -> V -> V)
         (img : nat -> item V) (K : queue (item V)) (h : list hev),
  NoDup (map fst K) ->
  (forall k it, In (k, it) K -> exists v a b, it = inl v /\ names_of v = [a; b] /\ a <> b) ->
  NoDup (arrived h) ->
  (forall x, In x (arrived h) -> exists k v, In (k, inl v) K /\ In x (names_of v)) ->
  exists q0 qa qo taken,
    hrun (make_couples names_of mk_couple) img K h = Ok (q0, qa, qo, taken) /\
    Permutation (map fst q0 ++ map fst (taken ++ qo)) (map fst K) /\
    (forall k g, In (k, g) (taken ++ qo) ->
       exists v a b, In (k, inl v) K /\ names_of v = [a; b] /\
         In a (arrived h) /\ In b (arrived h) /\
         g = couple_of (mk_couple k a b) (img a) (img b)) /\
    (forall kv, In kv q0 -> In kv K) /\
    (forall k v x, In (k, inl v) q0 -> In x (names_of v) -> In x (arrived h) -> In (x, img x) qa) /\
    (forall x it, In (x, it) qa -> it = img x /\ exists k v, In (k, inl v) q0 /\ In x (names_of v)).
Proof.
  intros V names_of mk img K h HK Hwf Hn Hv.
  assert (Hwf' : forall k it, In (k, it) K -> wf_couple names_of it).
  { intros k it HI. destruct (Hwf k it HI) as (v & a & b & -> & E & Hab). exists a, b. auto. }
  assert (Hinl : forall q x, in_values names_of x q = true -> exists k v, In (k, inl v) q /\ In x (names_of v)).
  { intros q x E. apply in_values_spec in E. destruct E as (k & [v|e] & E1 & E2); [eauto|destruct E2]. }
  destruct (hrun_HInv names_of (wf_couple names_of) (grp_couple names_of mk) _ (make_couples_ok names_of mk) img K HK Hwf' h Hn) as ([[[q0 qa] qo] tk] & H1 & H2).
  { intros x Hx. destruct (Hv x Hx) as (k & v & E1 & E2). apply in_values_spec. eauto. }
  exists q0, qa, qo, tk. split; [exact H1|]. split; [exact (h_part _ _ _ _ _ _ H2)|]. split; [|split; [|split]].
  - intros k g HI. destruct (h_form _ _ _ _ _ _ H2 _ HI) as (it & E1 & E2 & E3). cbn [fst snd] in *.
    destruct (Hwf k it E1) as (v & a & b & -> & En & Hab). cbn [names_in] in *. rewrite En in *.
    exists v, a, b. split; [exact E1|]. split; [exact En|]. split; [apply E2; left; reflexivity|]. split; [apply E2; right; left; reflexivity|].
    rewrite E3. cbn. unfold grp_couple. rewrite En. unfold array_couple, couple_of. destruct (img a), (img b); reflexivity.
  - exact (h_q0 _ _ _ _ _ _ H2).
  - intros k v x E1 E2 E3. apply (h_need _ _ _ _ _ _ H2 x E3). apply in_values_spec. exists k, (inl v). auto.
  - intros x it HI. destruct (h_qa _ _ _ _ _ _ H2 x it HI) as (E1 & E2 & E3). split; [exact E1|]. apply Hinl, E3.
Qed.
Print Assumptions C14_couples_histories.

(** A call of [make_couples] leaves exactly the couples of which an image is missing. *)
Theorem C14_make_forms_all_available :
  forall (V : Type) (names_of : V -> list nat) (mk_couple : nat -> nat -> nat -> V -> V -> V)
         (img : nat -> item V) (K : queue (item V)) (h : list hev),
  NoDup (map fst K) ->
  (forall k it, In (k, it) K -> exists v a b, it = inl v /\ names_of v = [a; b] /\ a <> b) ->
  NoDup (arrived h) ->
  (forall x, In x (arrived h) -> exists k v, In (k, inl v) K /\ In x (names_of v)) ->
  exists q0 qa qo taken,
    hrun (make_couples names_of mk_couple) img K (h ++ [HMake]) = Ok (q0, qa, qo, taken) /\
    forall k v, In (k, inl v) K ->
      In (k, inl v) q0 <-> exists x, In x (names_of v) /\ ~ In x (arrived h).
Proof.
  intros V names_of mk img K h HK Hwf Hn Hv.
  assert (Hwf' : forall k it, In (k, it) K -> wf_couple names_of it).
  { intros k it HI. destruct (Hwf k it HI) as (v & a & b & -> & E & Hab). exists a, b. auto. }
  destruct (hrun_make names_of (wf_couple names_of) (grp_couple names_of mk) _ (make_couples_ok names_of mk) img K HK Hwf' h Hn) as (q0 & qa & qo & tk & H1 & H2).
  { intros x Hx. destruct (Hv x Hx) as (k & v & E1 & E2). apply in_values_spec. eauto. }
  exists q0, qa, qo, tk. split; [exact H1|]. intros k v HI. apply (H2 k (inl v) HI).
Qed.
Print Assumptions C14_make_forms_all_available.

(** Couples (10,11), (11,12): values are lists of names, images are singletons; image 12
    cannot be read. *)
Definition ex_mk (k a b : nat) (x y : list nat) : list nat := k :: x ++ y.
Definition ex_img (x : nat) : item (list nat) := if Nat.eqb x 12 then inr FileNotFoundError else inl [x; x].
Definition ex_K : queue (item (list nat)) := [(0, inl [10; 11]); (1, inl [11; 12])]%nat.
Example C14_example :
  let h := [HArrive 11; HMake; HArrive 10; HMake; HTake; HMake; HArrive 12; HMake]%nat in
  NoDup (map fst ex_K) /\
  (forall k it, In (k, it) ex_K -> exists v a b, it = inl v /\ v = [a; b] /\ a <> b) /\
  NoDup (arrived h) /\
  (forall x, In x (arrived h) -> exists k v, In (k, inl v) ex_K /\ In x v) /\
  hrun (make_couples (fun v => v) ex_mk) ex_img ex_K h
  = Ok ([], [], [(1%nat, inr FileNotFoundError)], [(0%nat, inl [0; 10; 10; 11; 11]%nat)]).
Proof.
  cbv zeta. split; [repeat constructor; cbn; intuition discriminate|]. split; [|split; [|split]].
  - intros k it [E|[E|[]]]; injection E as <- <-.
    + exists [10;11]%nat, 10%nat, 11%nat. repeat split. discriminate.
    + exists [11;12]%nat, 11%nat, 12%nat. repeat split. discriminate.
  - cbn. repeat constructor; cbn; intuition discriminate.
  - cbn. intros x [<-|[<-|[<-|[]]]].
    + exists 0%nat, [10;11]%nat. cbn. auto.
    + exists 0%nat, [10;11]%nat. cbn. auto.
    + exists 1%nat, [11;12]%nat. cbn. auto.
  - vm_compute. reflexivity.
Qed.

(** A couple made of the same image twice: the second [del] raises KeyError (the hypothesis
    a <> b is needed). *)
Theorem C14_couple_of_one_image_raises :
  hrun (make_couples (fun v => v) ex_mk) ex_img [(0%nat, inl [10; 10]%nat)] [HArrive 10; HMake]%nat = Err KeyError.
Proof. vm_compute. reflexivity. Qed.

(** ** C15 *)
Theorem C15_subsets_histories :
  forall (V : Type) (names_of : V -> list nat) (mk_subset : nat -> list nat -> list (item V) -> V)
         (img : nat -> item V) (K : queue (item V)) (h : list hev),
  NoDup (map fst K) ->
  (forall k it, In (k, it) K -> exists v, it = inl v) ->
  NoDup (arrived h) ->
  (forall x, In x (arrived h) -> exists k v, In (k, inl v) K /\ In x (names_of v)) ->
  exists q0 qa qo taken,
    hrun (make_subsets names_of mk_subset) img K h = Ok (q0, qa, qo, taken) /\
    Permutation (map fst q0 ++ map fst (taken ++ qo)) (map fst K) /\
    (forall k g, In (k, g) (taken ++ qo) ->
       exists v, In (k, inl v) K /\ (forall x, In x (names_of v) -> In x (arrived h)) /\
         g = inl (mk_subset k (names_of v) (map img (names_of v)))) /\
    (forall kv, In kv q0 -> In kv K) /\
    (forall k v x, In (k, inl v) q0 -> In x (names_of v) -> In x (arrived h) -> In (x, img x) qa) /\
    (forall x it, In (x, it) qa -> it = img x /\ exists k v, In (k, inl v) q0 /\ In x (names_of v)).
Proof.
  intros V names_of mk img K h HK Hwf Hn Hv.
  assert (Hinl : forall q x, in_values names_of x q = true -> exists k v, In (k, inl v) q /\ In x (names_of v)).
  { intros q x E. apply in_values_spec in E. destruct E as (k & [v|e] & E1 & E2); [eauto|destruct E2]. }
  destruct (hrun_HInv names_of wf_subset (grp_subset names_of mk) _ (make_subsets_ok names_of mk) img K HK Hwf h Hn) as ([[[q0 qa] qo] tk] & H1 & H2).
  { intros x Hx. destruct (Hv x Hx) as (k & v & E1 & E2). apply in_values_spec. eauto. }
  exists q0, qa, qo, tk. split; [exact H1|]. split; [exact (h_part _ _ _ _ _ _ H2)|]. split; [|split; [|split]].
  - intros k g HI. destruct (h_form _ _ _ _ _ _ H2 _ HI) as (it & E1 & E2 & E3). cbn [fst snd] in *.
    destruct (Hwf k it E1) as (v & ->). exists v. split; [exact E1|]. split; [exact E2|exact E3].
  - exact (h_q0 _ _ _ _ _ _ H2).
  - intros k v x E1 E2 E3. apply (h_need _ _ _ _ _ _ H2 x E3). apply in_values_spec. exists k, (inl v). auto.
  - intros x it HI. destruct (h_qa _ _ _ _ _ _ H2 x it HI) as (E1 & E2 & E3). split; [exact E1|]. apply Hinl, E3.
Qed.
Print Assumptions C15_subsets_histories.

Theorem C15_make_forms_all_available :
  forall (V : Type) (names_of : V -> list nat) (mk_subset : nat -> list nat -> list (item V) -> V)
         (img : nat -> item V) (K : queue (item V)) (h : list hev),
  NoDup (map fst K) ->
  (forall k it, In (k, it) K -> exists v, it = inl v) ->
  NoDup (arrived h) ->
  (forall x, In x (arrived h) -> exists k v, In (k, inl v) K /\ In x (names_of v)) ->
  exists q0 qa qo taken,
    hrun (make_subsets names_of mk_subset) img K (h ++ [HMake]) = Ok (q0, qa, qo, taken) /\
    forall k v, In (k, inl v) K ->
      In (k, inl v) q0 <-> exists x, In x (names_of v) /\ ~ In x (arrived h).
Proof.
  intros V names_of mk img K h HK Hwf Hn Hv.
  destruct (hrun_make names_of wf_subset (grp_subset names_of mk) _ (make_subsets_ok names_of mk) img K HK Hwf h Hn) as (q0 & qa & qo & tk & H1 & H2).
  { intros x Hx. destruct (Hv x Hx) as (k & v & E1 & E2). apply in_values_spec. eauto. }
  exists q0, qa, qo, tk. split; [exact H1|]. intros k v HI. apply (H2 k (inl v) HI).
Qed.
Print Assumptions C15_make_forms_all_available.

(** subsets {1,2,3} and {2,3,4}; the image 4 could not be read: its exception is in the subset *)
Inductive exv := Nm (l : list nat) | Im (x : nat) | Gp (k : nat) (l : list nat) (its : list (item exv)).
Example C15_example :
  let nm v := match v with Nm l => l | _ => [] end in
  let img x := if Nat.eqb x 4 then inr FileNotFoundError else inl (Im x) in
  let h := [HArrive 3; HMake; HArrive 2; HArrive 1; HMake; HTake; HArrive 4; HMake]%nat in
  hrun (make_subsets nm Gp) img [(0, inl (Nm [1; 2; 3])); (1, inl (Nm [2; 3; 4]))]%nat h
  = Ok ([], [], [(1%nat, inl (Gp 1 [2; 3; 4]%nat [inl (Im 2); inl (Im 3); inr FileNotFoundError]))],
        [(0%nat, inl (Gp 0 [1; 2; 3]%nat [inl (Im 1); inl (Im 2); inl (Im 3)]))]).
Proof. vm_compute. reflexivity. Qed.

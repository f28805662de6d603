(** Laws of the file system model. *)
From Coq Require Import FinFun.
From Verif Require Import PyBase StrModel FsModel.

Lemma fs_find_del f p q :
  fs_find (fs_del f p) q = if path_eq_dec p q then None else fs_find f q.
Proof.
  unfold fs_del. induction f as [|[r n] f IH]; cbn [filter fs_find].
  - destruct path_eq_dec; reflexivity.
  - destruct (path_eq_dec r p) as [E|N].
    + rewrite IH. subst r. destruct (path_eq_dec p q); reflexivity.
    + cbn [fs_find]. rewrite IH.
      destruct (path_eq_dec r q) as [E1|N1]; destruct (path_eq_dec p q) as [E2|N2];
        congruence.
Qed.

Lemma fs_find_put f p n q :
  fs_find (fs_put f p n) q = if path_eq_dec p q then Some n else fs_find f q.
Proof.
  unfold fs_put. cbn [fs_find]. rewrite fs_find_del.
  destruct (path_eq_dec p q); reflexivity.
Qed.

Lemma fs_get_put f p n q : p <> [] ->
  fs_get (fs_put f p n) q = if path_eq_dec p q then Some n else fs_get f q.
Proof.
  intros H. unfold fs_get. rewrite fs_find_put. destruct q; [|reflexivity].
  destruct (path_eq_dec p []); [contradiction|reflexivity].
Qed.

Lemma fs_get_del f p q : p <> [] ->
  fs_get (fs_del f p) q = if path_eq_dec p q then None else fs_get f q.
Proof.
  intros H. unfold fs_get. rewrite fs_find_del. destruct q; [|reflexivity].
  destruct (path_eq_dec p []); [contradiction|reflexivity].
Qed.

Lemma fs_get_put_same f p n : p <> [] -> fs_get (fs_put f p n) p = Some n.
Proof. intros H. rewrite fs_get_put by exact H. destruct path_eq_dec; congruence. Qed.

Lemma fs_get_put_other f p n q : p <> [] -> p <> q -> fs_get (fs_put f p n) q = fs_get f q.
Proof. intros H H'. rewrite fs_get_put by exact H. destruct path_eq_dec; congruence. Qed.

Lemma fs_get_del_same f p : p <> [] -> fs_get (fs_del f p) p = None.
Proof. intros H. rewrite fs_get_del by exact H. destruct path_eq_dec; congruence. Qed.

Lemma fs_get_del_other f p q : p <> [] -> p <> q -> fs_get (fs_del f p) q = fs_get f q.
Proof. intros H H'. rewrite fs_get_del by exact H. destruct path_eq_dec; congruence. Qed.

Lemma fs_mkdir_ok f p eo f' : fs_mkdir f p eo = Ok f' ->
  fs_get f' p = Some Dir /\ (forall q, q <> p -> fs_get f' q = fs_get f q).
Proof.
  unfold fs_mkdir. destruct (fs_get f p) as [[|c]|] eqn:E.
  - destruct eo; [|discriminate]. intros [= <-]. split; [exact E|reflexivity].
  - discriminate.
  - destruct (fs_get f (parent p)) as [[|c]|] eqn:E2; try discriminate.
    intros [= <-].
    assert (p <> []) by (intros ->; discriminate E).
    split; [apply fs_get_put_same; assumption|].
    intros q Hq. apply fs_get_put_other; congruence.
Qed.

Lemma fs_write_ok f p t f' : fs_write f p t = Ok f' ->
  fs_get f' p = Some (File t) /\ (forall q, q <> p -> fs_get f' q = fs_get f q).
Proof.
  unfold fs_write. destruct (fs_get f p) as [[|c]|] eqn:E; try discriminate.
  - intros [= <-]. assert (p <> []) by (intros ->; discriminate E).
    split; [apply fs_get_put_same; assumption|].
    intros q Hq. apply fs_get_put_other; congruence.
  - destruct (fs_get f (parent p)) as [[|c]|] eqn:E2; try discriminate.
    intros [= <-]. assert (p <> []) by (intros ->; discriminate E).
    split; [apply fs_get_put_same; assumption|].
    intros q Hq. apply fs_get_put_other; congruence.
Qed.

(** the content of a file, empty if there is no file *)
Definition content_of (f : fs) (p : path) : chars :=
  match fs_get f p with Some (File c) => c | _ => [] end.

Lemma fs_append_ok f p t f' : fs_append f p t = Ok f' ->
  fs_get f' p = Some (File (content_of f p ++ t)) /\
  (forall q, q <> p -> fs_get f' q = fs_get f q).
Proof.
  unfold fs_append, content_of. destruct (fs_get f p) as [[|c]|] eqn:E; try discriminate.
  - intros [= <-]. assert (p <> []) by (intros ->; discriminate E).
    split; [apply fs_get_put_same; assumption|].
    intros q Hq. apply fs_get_put_other; congruence.
  - destruct (fs_get f (parent p)) as [[|c]|] eqn:E2; try discriminate.
    intros [= <-]. assert (p <> []) by (intros ->; discriminate E).
    split; [apply fs_get_put_same; assumption|].
    intros q Hq. apply fs_get_put_other; congruence.
Qed.

Lemma fs_exists_in f p : fs_exists f p = true -> p = [] \/ In p (map fst f).
Proof.
  unfold fs_exists, fs_get. destruct p as [|a p]; [left; reflexivity|].
  destruct (fs_find f (a :: p)) eqn:E; [|discriminate]. intros _. right.
  revert E. induction f as [|[q m] f IH]; cbn [fs_find]; [discriminate|].
  destruct (path_eq_dec q (a :: p)); cbn [map fst In]; intros E; [left; assumption|right; apply IH; exact E].
Qed.

(** Pigeonhole: an injective sequence of paths leaves a finite file system. *)
Lemma fresh_index (f : fs) (nm : nat -> path) :
  (forall i j, nm i = nm j -> i = j) -> (forall i, nm i <> []) ->
  exists i, (i <= List.length f)%nat /\ fs_exists f (nm i) = false.
Proof.
  intros Inj Ne.
  destruct (List.Forall_Exists_dec (fun i => fs_exists f (nm i) = true)) with
    (l := seq 0 (S (List.length f))) as [A|Ex].
  - intros x. destruct (fs_exists f (nm x)); [left; reflexivity|right; discriminate].
  - exfalso. rewrite Forall_forall in A.
    assert (I : incl (map nm (seq 0 (S (List.length f)))) (map fst f)).
    { intros p Hp. apply in_map_iff in Hp. destruct Hp as (i & <- & Hi).
      destruct (fs_exists_in f (nm i) (A i Hi)) as [E|]; [elim (Ne i E)|assumption]. }
    assert (ND : NoDup (map nm (seq 0 (S (List.length f))))).
    { apply FinFun.Injective_map_NoDup; [exact Inj|apply seq_NoDup]. }
    pose proof (NoDup_incl_length ND I) as L. rewrite !map_length, seq_length in L. lia.
  - apply Exists_exists in Ex. destruct Ex as (i & Hi & E). exists i.
    apply in_seq in Hi. split; [lia|].
    destruct (fs_exists f (nm i)); [elim E; reflexivity|reflexivity].
Qed.

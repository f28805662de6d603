(** Properties of the files for UVmat (C119). *)
From Coq Require Import Reals Lia Bool Lra.
From Verif Require Import PyBase FloatBase StrModel StrProofs NameModel NameProps UvmatFileModel.
Open Scope Z_scope.

(** * Specification *)
(** the variable Civ{i}_{s} of a file *)
Definition variable (f : ncfile) (i : Z) (s : string) : option data :=
  option_map snd (lookup (of_string "Civ" ++ py_str i ++ of_string "_" ++ of_string s) (vars f)).
Definition no_nan (l : list fl) : Prop := forall x, In x l -> x <> NaN.
(** the numbers of coefficients of the subdomains are all the same *)
Definition same_sizes (t : list (list fl)) : Prop := forall r r', In r t -> In r' t -> List.length r = List.length r'.
(** what the PIV gives: [n] vectors (more than one); deltaxs_smooth and deltays_smooth have one value for each vector (singlepass.py:517-531);
    the splines of the two components use the same subdomains, at least one *)
Definition a_pass (p : pass) : Prop :=
  (2 <= List.length (xs p))%nat /\ List.length (ys p) = List.length (xs p) /\ List.length (deltaxs p) = List.length (xs p) /\
  List.length (deltays p) = List.length (xs p) /\ List.length (correls_max p) = List.length (xs p) /\
  (forall tx ty, tps p = Some (tx, ty) -> tx <> [] /\ map (@List.length fl) tx = map (@List.length fl) ty) /\
  (forall sx sy, smooth p = Some (sx, sy) -> List.length sx = List.length (xs p) /\ List.length sy = List.length (xs p)).
(** the value written for a displacement: 0 for nan, the largest number for an infinity *)
Definition written (big : R) (x : fl) : fl := match x with NaN => Fin 0 | PInf => Fin big | NInf => Fin (- big) | Fin r => Fin r end.
(** a reader: the vectors with a flag are nan *)
Definition read (value flag : fl) : fl := match flag with Fin r => if Req_EM_T r 1 then NaN else value | _ => value end.
Definition read_all (values flags : list fl) : list fl := map (fun vf => read (fst vf) (snd vf)) (combine values flags).

(** * Names *)
Lemma eqb_false s t : s <> t -> chars_eqb s t = false.
Proof. intros H. destruct (chars_eqb s t) eqn:E; [|reflexivity]. apply chars_eqb_spec in E. contradiction. Qed.
Lemma eqb_refl s : chars_eqb s s = true.
Proof. apply chars_eqb_spec. reflexivity. Qed.
Lemma split_at (u : ascii) a b s t : ~ In u a -> ~ In u b -> a ++ u :: s = b ++ u :: t -> a = b /\ s = t.
Proof.
  revert b. induction a as [|x a IH]; intros [|y b] Ha Hb E; cbn in *.
  - injection E as ->. split; reflexivity.
  - injection E as E1 E2. exfalso. apply Hb. left. congruence.
  - injection E as E1 E2. exfalso. apply Ha. left. congruence.
  - injection E as E1 E2. destruct (IH b) as [-> ->]; [tauto|tauto|exact E2|]. subst. split; reflexivity.
Qed.
Lemma str_char c n : int_char c = false -> ~ In c (py_str n).
Proof. intros H Hin. pose proof (py_str_chars n) as F. rewrite Forall_forall in F. rewrite (F c Hin) in H. discriminate. Qed.
Lemma civ_inj i j s t : civ i s = civ j t -> i = j /\ s = t.
Proof.
  unfold civ. intros E. apply app_inv_head in E. change (of_string "_" ++ s) with ("_"%char :: s) in E. change (of_string "_" ++ t) with ("_"%char :: t) in E.
  apply split_at in E as [E ->]; [|apply str_char; reflexivity|apply str_char; reflexivity]. split; [apply py_str_inj; exact E|reflexivity].
Qed.
Lemma civ_eqb i j s t : chars_eqb (civ i s) (civ j t) = (i =? j) && chars_eqb s t.
Proof.
  destruct (Z.eqb_spec i j) as [-> | N]; cbn [andb].
  - destruct (chars_eqb s t) eqn:E.
    + apply chars_eqb_spec in E as ->. apply eqb_refl.
    + apply eqb_false. intros H. apply civ_inj in H as [_ ->]. rewrite eqb_refl in E. discriminate.
  - apply eqb_false. intros H. apply civ_inj in H as [H _]. contradiction.
Qed.
Lemma head_str n c l : py_str n = c :: l -> int_char c = true.
Proof. intros E. pose proof (py_str_chars n) as F. rewrite E in F. inversion F; assumption. Qed.
Inductive dim_kind := KVec | KSub | KTps | KVecTps.
Definition dim (k : dim_kind) (i : Z) : chars :=
  match k with KVec => nb_vec i | KSub => nb_subdomain i | KTps => nb_tps i | KVecTps => nb_vec_tps i end.
Lemma dim_inj k k' i j : dim k i = dim k' j -> k = k' /\ i = j.
Proof.
  assert (H : forall n s, py_str n <> of_string "tps_" ++ s).
  { intros n s E. apply head_str in E. discriminate. }
  assert (H' : forall n s, of_string "tps_" ++ s <> py_str n) by (intros n s E; symmetry in E; apply H in E; exact E).
  destruct k, k'; cbn [dim]; unfold nb_vec, nb_subdomain, nb_tps, nb_vec_tps; intros E;
    try (apply app_inv_head in E; apply py_str_inj in E; split; [reflexivity|exact E]); exfalso; try discriminate E.
  - change (of_string "nb_vec_tps_") with (of_string "nb_vec_" ++ of_string "tps_") in E. rewrite <- app_assoc in E. apply app_inv_head in E. apply H in E. exact E.
  - change (of_string "nb_vec_tps_") with (of_string "nb_vec_" ++ of_string "tps_") in E. rewrite <- app_assoc in E. apply app_inv_head in E. apply H' in E. exact E.
Qed.
Lemma dim_eqb k k' i : k <> k' -> chars_eqb (dim k i) (dim k' i) = false.
Proof. intros N. apply eqb_false. intros E. apply dim_inj in E as [E _]. contradiction. Qed.
Lemma dim_eqb_i k k' i j : i <> j -> chars_eqb (dim k i) (dim k' j) = false.
Proof. intros N. apply eqb_false. intros E. apply dim_inj in E as [_ E]. contradiction. Qed.

Section Uvmat.
Variable f32 : fl -> fl.
Variable big : R.
Notation save_pass := (save_pass f32 big). Notation save_from := (save_from f32 big). Notation save_as_uvmat := (save_as_uvmat f32 big).

(** * One pass *)
Definition fresh (i : Z) (f : ncfile) : Prop := (forall s, lookup (civ i s) (vars f) = None) /\ (forall k, lookup (dim k i) (dims f) = None).
Lemma create1 name d n l f : lookup name (vars f) = None -> lookup d (dims f) = Some n -> zlen l = n ->
  create_variable name [d] (D1 l) f = Ok (mk_nc (dims f) ((name, ([d], D1 l)) :: vars f)).
Proof. intros H1 H2 H3. unfold create_variable. rewrite H1. cbn [shape bind check_dims]. rewrite H2, H3, Z.eqb_refl. reflexivity. Qed.
Lemma look_cons i s t v (l : list (chars * (list chars * data))) : chars_eqb s t = false -> lookup (civ i s) ((civ i t, v) :: l) = lookup (civ i s) l.
Proof. intros H. cbn [lookup]. rewrite civ_eqb, Z.eqb_refl, H. reflexivity. Qed.
Lemma dim_cons (k k' : dim_kind) i (n : Z) l : k <> k' -> lookup (dim k i) ((dim k' i, n) :: l) = lookup (dim k i) l.
Proof. intros H. cbn [lookup]. rewrite dim_eqb by exact H. reflexivity. Qed.
Lemma dim_head d (n : Z) l : lookup d ((d, n) :: l) = Some n.
Proof. cbn [lookup]. rewrite eqb_refl. reflexivity. Qed.

Definition is_rect (t : list (list fl)) : bool := match t with [] => true | r :: _ => forallb (fun r' => zlen r' =? zlen r) t end.
Definition complete (p : pass) : bool :=
  use_tps p && match tps p with Some (tx, _) => is_rect tx | None => false end && match smooth p with Some _ => true | None => false end &&
  forallb (fun x => negb (fisnan x)) (deltaxs p).
Definition entry : Type := chars * (list chars * data).
Definition tps_entries (i : Z) (p : pass) : list entry :=
  match tps p, smooth p with
  | Some (tx, ty), Some (sx, sy) =>
    [ (of_string "NbCentres", ([nb_subdomain i], D1 (map (fun r => Fin (IZR (zlen r))) tx)));
      (of_string "V_tps", ([nb_subdomain i; nb_vec_tps i], D2 ty)); (of_string "U_tps", ([nb_subdomain i; nb_vec_tps i], D2 tx));
      (of_string "V_smooth", ([nb_vec i], D1 (map f32 sy))); (of_string "U_smooth", ([nb_vec i], D1 (map f32 sx))) ]
  | _, _ => []
  end.
Definition flags (p : pass) : list fl := map (fun x => if fisnan x then Fin 1 else Fin 0) (deltaxs p).
Definition first_entries (i : Z) (p : pass) : list entry :=
  [ (of_string "V", ([nb_vec i], D1 (map (nan_to_num big) (deltays p)))); (of_string "U", ([nb_vec i], D1 (map (nan_to_num big) (deltaxs p))));
    (of_string "Y", ([nb_vec i], D1 (ys p))); (of_string "X", ([nb_vec i], D1 (xs p))) ].
Definition last_entries (i : Z) (p : pass) : list entry :=
  [ (of_string "F", ([nb_vec i], D1 (flags p))); (of_string "FF", ([nb_vec i], D1 (flags p))); (of_string "C", ([nb_vec i], D1 (correls_max p))) ].
Definition entries (i : Z) (p : pass) : list entry := last_entries i p ++ (if complete p then tps_entries i p else []) ++ first_entries i p.
Definition named (i : Z) (l : list entry) : list entry := map (fun e => (civ i (fst e), snd e)) l.
Lemma lookup_named i s l l' : lookup (civ i s) (named i l ++ l') = match lookup s l with Some v => Some v | None => lookup (civ i s) l' end.
Proof.
  induction l as [|[t v] l IH]; [reflexivity|]. unfold named in *. cbn [map app fst snd lookup]. rewrite civ_eqb, Z.eqb_refl. cbn [andb].
  destruct (chars_eqb s t); [reflexivity|]. exact IH.
Qed.
Lemma lookup_other i j s l (l' : list entry) : i <> j -> lookup (civ i s) (named j l ++ l') = lookup (civ i s) l'.
Proof.
  intros N. induction l as [|[t v] l IH]; [reflexivity|]. unfold named in *. cbn [map app fst snd lookup]. rewrite civ_eqb.
  destruct (Z.eqb_spec i j); [contradiction|]. cbn [andb]. exact IH.
Qed.
Definition dims_of (i : Z) (l : list (chars * Z)) : Prop := forall d n, In (d, n) l -> exists k, d = dim k i.
Lemma dims_other j i (k : dim_kind) l l' : i <> j -> dims_of i l -> lookup (dim k j) (l ++ l') = lookup (dim k j) l'.
Proof.
  intros N H. induction l as [|[d n] l IH]; [reflexivity|]. cbn [app lookup]. destruct (H d n (or_introl eq_refl)) as (k' & ->).
  rewrite dim_eqb_i by congruence. apply IH. intros d' n' Hin. apply (H d' n'). right. exact Hin.
Qed.

Lemma put_all mask : forall tmp v, forallb (fun b => b) mask = true -> List.length tmp = List.length mask -> List.length v = List.length mask -> put mask tmp v = v.
Proof.
  induction mask as [|b mask IH]; intros [|t tmp] [|x v] H E1 E2; cbn in *; try lia; try reflexivity; try discriminate.
  destruct b; [|discriminate]. rewrite IH by (try lia; exact H). reflexivity.
Qed.
Lemma count_all mask : forallb (fun b => b) mask = true -> count mask = List.length mask.
Proof. unfold count. induction mask as [|[] mask IH]; cbn; intros H; try discriminate; [reflexivity|]. rewrite IH by exact H. reflexivity. Qed.
Lemma count_some mask : forallb (fun b => b) mask = false -> (count mask < List.length mask)%nat.
Proof.
  unfold count. induction mask as [|[] mask IH]; cbn; intros H; try discriminate.
  - specialize (IH H). lia.
  - assert (G : forall m : list bool, (List.length (filter (fun b => b) m) <= List.length m)%nat) by (induction m as [|[] m IHm]; cbn; lia). specialize (G mask). lia.
Qed.

Lemma tps_block i p f : a_pass p -> (forall s, lookup (civ i s) (named i (first_entries i p) ++ f) = lookup s (first_entries i p)) -> forall ds,
  lookup (nb_vec i) ds = Some (zlen (xs p)) -> lookup (nb_subdomain i) ds = None -> lookup (nb_tps i) ds = None -> lookup (nb_vec_tps i) ds = None ->
  use_tps p = true ->
  exists nd, dims_of i nd /\ lookup (nb_vec i) (nd ++ ds) = Some (zlen (xs p)) /\
    fst (until_error (tps_steps f32 i p) (mk_nc ds (named i (first_entries i p) ++ f), zeros p)) =
    mk_nc (nd ++ ds) (named i (if complete p then tps_entries i p else []) ++ named i (first_entries i p) ++ f).
Proof.
  intros (Hn & Hy & Hdx & Hdy & Hc & Ht & Hs) Hfree ds D1' D2' D3' D4' Hu.
  assert (Hmask : List.length (map (fun x => negb (fisnan x)) (deltaxs p)) = List.length (xs p)) by (rewrite map_length; exact Hdx).
  assert (Hz : List.length (zeros p) = List.length (xs p)) by (unfold zeros; rewrite map_length; exact Hdx).
  change (nb_vec i) with (dim KVec i) in *. change (nb_subdomain i) with (dim KSub i) in *. change (nb_tps i) with (dim KTps i) in *. change (nb_vec_tps i) with (dim KVecTps i) in *.
  assert (Nil : exists nd, dims_of i nd /\ lookup (dim KVec i) (nd ++ ds) = Some (zlen (xs p)) /\
     mk_nc ds (named i (first_entries i p) ++ f) = mk_nc (nd ++ ds) (named i [] ++ named i (first_entries i p) ++ f)).
  { exists []. split; [intros d n []|]. split; [exact D1'|reflexivity]. }
  assert (P0 : forall a b : Z, py_get [a; b] 0 = Ok a) by reflexivity. assert (P1 : forall a b : Z, py_get [a; b] 1 = Ok b) by reflexivity.
  unfold tps_steps. cbn [until_error].
  destruct (tps p) as [[tx ty]|] eqn:Et; cbn [bind fst snd].
  2:{ replace (complete p) with false by (unfold complete; rewrite Et, andb_false_r; reflexivity). exact Nil. }
  destruct (Ht tx ty eq_refl) as [Htx Hsz]. 
  destruct (is_rect tx) eqn:Er.
  2:{ assert (Sh : np_shape tx = Err ValueError) by (destruct tx as [|r tx]; [congruence|]; unfold np_shape; unfold is_rect in Er; rewrite Er; reflexivity).
      rewrite Sh. cbn [bind]. replace (complete p) with false; [exact Nil|]. unfold complete. rewrite Et, Hu, Er. reflexivity. }
  set (m := match tx with [] => 0 | r :: _ => zlen r end).
  assert (Sh : np_shape tx = Ok [zlen tx; m]) by (destruct tx as [|r tx]; [congruence|]; unfold np_shape; unfold is_rect in Er; rewrite Er; reflexivity).
  assert (Sh' : np_shape ty = Ok [zlen tx; m]).
  { destruct tx as [|r tx]; [congruence|]. destruct ty as [|r' ty]; [discriminate|]. cbn [map] in Hsz. injection Hsz as Hr Hsz.
    unfold np_shape. unfold is_rect in Er. replace (forallb (fun r0 => zlen r0 =? zlen r') (r' :: ty)) with true.
    - unfold m, zlen. cbn [List.length]. rewrite Hr. apply (f_equal (@List.length nat)) in Hsz. rewrite !map_length in Hsz. rewrite Hsz. reflexivity.
    - symmetry. apply forallb_forall. intros r0 Hin. apply Z.eqb_eq. unfold zlen.
      assert (Hin' : In (List.length r0) (List.length r :: map (@List.length fl) tx)).
      { rewrite Hr, Hsz. change (In (List.length r0) (map (@List.length fl) (r' :: ty))). apply in_map. exact Hin. }
      destruct Hin' as [Hin' | Hin']; [congruence|]. apply in_map_iff in Hin' as (r1 & E1 & Hin').
      rewrite forallb_forall in Er. specialize (Er r1 (or_intror Hin')). apply Z.eqb_eq in Er. unfold zlen in Er. lia. }
  rewrite Sh. cbn [bind]. rewrite P0, P1. cbn [bind]. unfold on_file at 1, set_dim at 1. cbn [fst snd dims vars]. change (nb_subdomain i) with (dim KSub i). rewrite D2'. cbn [bind].
  unfold on_file at 1, set_dim at 1. cbn [fst snd dims vars]. change (nb_tps i) with (dim KTps i). rewrite dim_cons, D3' by discriminate. cbn [bind fst snd].
  assert (Nd : dims_of i [(dim KTps i, m); (dim KSub i, zlen tx)]).
  { intros d n [E | [E | []]]; apply (f_equal fst) in E; cbn [fst] in E; subst d; [exists KTps | exists KSub]; reflexivity. }
  assert (Stop : exists nd, dims_of i nd /\ lookup (dim KVec i) (nd ++ ds) = Some (zlen (xs p)) /\
     mk_nc ((dim KTps i, m) :: (dim KSub i, zlen tx) :: ds) (named i (first_entries i p) ++ f) = mk_nc (nd ++ ds) (named i [] ++ named i (first_entries i p) ++ f)).
  { exists [(dim KTps i, m); (dim KSub i, zlen tx)]. split; [exact Nd|]. split; [|reflexivity]. cbn [app]. rewrite !dim_cons by discriminate. exact D1'. }
  destruct (smooth p) as [[sx sy]|] eqn:Es; cbn [bind fst snd].
  2:{ replace (complete p) with false by (unfold complete; rewrite Es, andb_false_r; reflexivity). exact Stop. }
  destruct (Hs sx sy eq_refl) as [Hsx Hsy].
  destruct (forallb (fun x => negb (fisnan x)) (deltaxs p)) eqn:En.
  2:{ assert (En' : forallb (fun b => b) (map (fun x => negb (fisnan x)) (deltaxs p)) = false) by (rewrite <- En; clear; induction (deltaxs p) as [|a l IH]; [reflexivity|]; cbn; rewrite IH; reflexivity).
      pose proof (count_some _ En') as Hct. unfold assign at 1. rewrite map_length. destruct (Nat.eqb_spec (List.length sx) (count (map (fun x => negb (fisnan x)) (deltaxs p)))); [lia|].
      destruct sx as [|x [|x' sx]]; cbn [List.length] in Hsx; [lia|lia|]. cbn [map bind].
      replace (complete p) with false by (unfold complete; rewrite En, andb_false_r; reflexivity). exact Stop. }
  assert (En' : forallb (fun b => b) (map (fun x => negb (fisnan x)) (deltaxs p)) = true) by (rewrite <- En; clear; induction (deltaxs p) as [|a l IH]; [reflexivity|]; cbn; rewrite IH; reflexivity).
  assert (As : forall tmp v, List.length tmp = List.length (xs p) -> List.length v = List.length (xs p) -> assign (map (fun x => negb (fisnan x)) (deltaxs p)) tmp (map f32 v) = Ok (map f32 v)).
  { intros tmp v E1 E2. unfold assign. rewrite (count_all _ En'), map_length, Hmask, E2, Nat.eqb_refl. rewrite put_all; [reflexivity|exact En'| |]; rewrite ?map_length; lia. }
  rewrite As by assumption. cbn [bind fst snd]. unfold on_file at 1. cbn [fst snd].
  rewrite (create1 _ _ (zlen (xs p))); [|cbn [vars]; rewrite Hfree; reflexivity|cbn [dims]; change (nb_vec i) with (dim KVec i); rewrite !dim_cons by discriminate; exact D1'|unfold zlen; rewrite map_length; lia].
  cbn [bind dims vars fst snd]. rewrite As; [|rewrite map_length; lia|assumption]. cbn [bind fst snd]. unfold on_file at 1. cbn [fst snd].
  rewrite (create1 _ _ (zlen (xs p))); [|cbn [vars]; rewrite look_cons by reflexivity; rewrite Hfree; reflexivity|cbn [dims]; change (nb_vec i) with (dim KVec i); rewrite !dim_cons by discriminate; exact D1'|unfold zlen; rewrite map_length; lia].
  cbn [bind dims vars fst snd]. unfold on_file at 1. cbn [fst snd]. unfold create_variable at 1. cbn [vars dims]. rewrite !look_cons, Hfree by reflexivity.
  replace (lookup (of_string "U_tps") (first_entries i p)) with (@None (list chars * data)) by reflexivity. cbn [shape]. rewrite Sh. cbn [bind check_dims]. change (nb_subdomain i) with (dim KSub i). change (nb_vec_tps i) with (dim KVecTps i).
  rewrite dim_cons, dim_head, Z.eqb_refl by discriminate. rewrite !dim_cons, D4' by discriminate. cbn [bind fst snd].
  unfold on_file at 1. cbn [fst snd]. unfold create_variable at 1. cbn [vars dims]. rewrite !look_cons, Hfree by reflexivity.
  replace (lookup (of_string "V_tps") (first_entries i p)) with (@None (list chars * data)) by reflexivity. cbn [shape]. rewrite Sh'. cbn [bind check_dims].
  rewrite (dim_cons KSub KVecTps), (dim_cons KSub KTps), dim_head, Z.eqb_refl by discriminate. rewrite dim_head, Z.eqb_refl. cbn [bind fst snd].
  unfold on_file at 1. cbn [fst snd]. rewrite (create1 _ _ (zlen tx)); [|cbn [vars]; rewrite !look_cons, Hfree by reflexivity; reflexivity
    |cbn [dims]; rewrite (dim_cons KSub KVecTps), (dim_cons KSub KTps), dim_head by discriminate; reflexivity|unfold zlen; rewrite map_length; reflexivity].
  cbn [bind fst snd dims vars until_error].
  replace (complete p) with true by (unfold complete; rewrite Hu, Et, Es, En, Er; reflexivity).
  exists [(dim KVecTps i, m); (dim KTps i, m); (dim KSub i, zlen tx)]. split; [|split].
  - intros d n [E | Hin]; [apply (f_equal fst) in E; cbn [fst] in E; subst d; exists KVecTps; reflexivity|]. exact (Nd d n Hin).
  - cbn [app]. rewrite !dim_cons by discriminate. exact D1'.
  - unfold tps_entries. rewrite Et, Es. reflexivity.
Qed.

Lemma save_pass_ok i p f : a_pass p -> fresh i f -> exists nd, dims_of i nd /\ save_pass i p f = Ok (mk_nc (nd ++ dims f) (named i (entries i p) ++ vars f)).
Proof.
  intros Hp [Fv Fd]. pose proof Hp as (Hn & Hy & Hdx & Hdy & Hc & Ht & Hs).
  assert (Fd0 : lookup (nb_vec i) (dims f) = None) by apply (Fd KVec).
  unfold UvmatFileModel.save_pass, set_dim at 1. rewrite Fd0. cbn [bind].
  rewrite (create1 _ _ (zlen (xs p))); [|apply Fv|apply dim_head|reflexivity]. cbn [bind dims vars].
  rewrite (create1 _ _ (zlen (xs p))); [|cbn [vars]; rewrite !look_cons by reflexivity; apply Fv|apply dim_head|unfold zlen; lia]. cbn [bind dims vars].
  rewrite (create1 _ _ (zlen (xs p))); [|cbn [vars]; rewrite !look_cons by reflexivity; apply Fv|apply dim_head|unfold zlen; rewrite map_length; lia]. cbn [bind dims vars].
  rewrite (create1 _ _ (zlen (xs p))); [|cbn [vars]; rewrite !look_cons by reflexivity; apply Fv|apply dim_head|unfold zlen; rewrite map_length; lia]. cbn [bind dims vars].
  match goal with |- context [until_error _ (mk_nc _ ?v, _)] => change v with (named i (first_entries i p) ++ vars f) end.
  assert (Free : forall s, lookup (civ i s) (named i (first_entries i p) ++ vars f) = lookup s (first_entries i p)).
  { intros s. rewrite lookup_named, Fv. destruct (lookup s (first_entries i p)); reflexivity. }
  assert (Fl : zlen (map (fun x => if fisnan x then Fin 1 else Fin 0) (deltaxs p)) = zlen (xs p)) by (unfold zlen; rewrite map_length; lia).
  assert (Last : forall nd mid, dims_of i nd -> lookup (nb_vec i) (nd ++ (nb_vec i, zlen (xs p)) :: dims f) = Some (zlen (xs p)) ->
    (forall s, In s ["C"; "FF"; "F"]%string -> lookup (of_string s) mid = None) -> mid = (if complete p then tps_entries i p else []) ->
    exists nd', dims_of i nd' /\
    (do f <- create_variable (civ i (of_string "C")) [nb_vec i] (D1 (correls_max p)) (mk_nc (nd ++ (nb_vec i, zlen (xs p)) :: dims f) (named i mid ++ named i (first_entries i p) ++ vars f)) ;
     let flags := map (fun x => if fisnan x then Fin 1 else Fin 0) (deltaxs p) in
     do f <- create_variable (civ i (of_string "FF")) [nb_vec i] (D1 flags) f ; create_variable (civ i (of_string "F")) [nb_vec i] (D1 flags) f) =
    Ok (mk_nc (nd' ++ dims f) (named i (entries i p) ++ vars f))).
  { intros nd mid Hnd Hl Hm Em. 
    assert (G : forall s, In s ["C"; "FF"; "F"]%string -> lookup (civ i (of_string s)) (named i mid ++ named i (first_entries i p) ++ vars f) = None).
    { intros s Hin. rewrite lookup_named, (Hm s Hin), Free. destruct Hin as [<- | [<- | [<- | []]]]; reflexivity. }
    rewrite (create1 _ _ (zlen (xs p))); [|apply G; cbn; tauto|exact Hl|unfold zlen; lia]. cbn [bind dims vars]. cbv zeta.
    rewrite (create1 _ _ (zlen (xs p))); [|cbn [vars]; rewrite !look_cons by reflexivity; apply G; cbn; tauto|exact Hl|exact Fl]. cbn [bind dims vars].
    rewrite (create1 _ _ (zlen (xs p))); [|cbn [vars]; rewrite !look_cons by reflexivity; apply G; cbn; tauto|exact Hl|exact Fl]. cbn [bind dims vars].
    exists (nd ++ [(nb_vec i, zlen (xs p))]). split.
    - intros d n Hin. apply in_app_iff in Hin as [Hin | [E | []]]; [exact (Hnd d n Hin)|]. apply (f_equal fst) in E. cbn [fst] in E. subst d. exists KVec. reflexivity.
    - assert (En : entries i p = last_entries i p ++ mid ++ first_entries i p) by (unfold entries; rewrite Em; reflexivity).
      rewrite En. unfold named. rewrite !map_app, <- !app_assoc. reflexivity. }
  destruct (use_tps p) eqn:Hu.
  - destruct (tps_block i p (vars f) Hp Free ((nb_vec i, zlen (xs p)) :: dims f)) as (nd & Hnd & Hl & E).
    + apply dim_head.
    + change (nb_vec i) with (dim KVec i). change (nb_subdomain i) with (dim KSub i). rewrite dim_cons by discriminate. apply Fd.
    + change (nb_vec i) with (dim KVec i). change (nb_tps i) with (dim KTps i). rewrite dim_cons by discriminate. apply Fd.
    + change (nb_vec i) with (dim KVec i). change (nb_vec_tps i) with (dim KVecTps i). rewrite dim_cons by discriminate. apply Fd.
    + exact Hu.
    + rewrite E. apply Last; [exact Hnd|exact Hl| |reflexivity]. intros s Hin. destruct (complete p); [|reflexivity]. unfold tps_entries.
      destruct (tps p) as [[tx ty]|]; [|reflexivity]. destruct (smooth p) as [[sx sy]|]; [|reflexivity]. destruct Hin as [<- | [<- | [<- | []]]]; reflexivity.
  - assert (Ec : complete p = false) by (unfold complete; rewrite Hu; reflexivity).
    destruct (Last [] []) as (nd & Hnd & E); [intros d n []|apply dim_head|reflexivity|rewrite Ec; reflexivity|]. exists nd. split; [exact Hnd|]. exact E.
Qed.

Lemma save_from_ok l : forall i f, Forall a_pass l -> (forall j, i <= j -> fresh j f) ->
  exists f', save_from i l f = Ok f' /\ (forall j s, j < i -> lookup (civ j s) (vars f') = lookup (civ j s) (vars f)) /\
    forall k p, nth_error l k = Some p -> forall s, lookup (civ (i + Z.of_nat k) s) (vars f') = lookup s (entries (i + Z.of_nat k) p).
Proof.
  induction l as [|p l IH]; intros i f Hl Hf.
  - exists f. split; [reflexivity|]. split; [reflexivity|]. intros [|k] p E; discriminate.
  - inversion Hl as [|? ? Hp Hl']; subst. destruct (save_pass_ok i p f Hp (Hf i ltac:(lia))) as (nd & Hnd & E).
    destruct (IH (i + 1) (mk_nc (nd ++ dims f) (named i (entries i p) ++ vars f)) Hl') as (f' & E' & Hold & Hnew).
    { intros j Hj. destruct (Hf j ltac:(lia)) as [Fv Fd]. split; cbn [vars dims].
      - intros s. rewrite lookup_other by lia. apply Fv.
      - intros k. rewrite (dims_other j i k); [apply Fd|lia|exact Hnd]. }
    exists f'. split; [cbn [UvmatFileModel.save_from]; rewrite E; exact E'|]. split.
    + intros j s Hj. rewrite Hold by lia. cbn [vars]. rewrite lookup_other by lia. reflexivity.
    + intros [|k] q Eq s.
      * injection Eq as <-. rewrite Z.add_0_r. rewrite Hold by lia. cbn [vars]. rewrite lookup_named. destruct (Hf i ltac:(lia)) as [Fv _]. rewrite Fv.
        destruct (lookup s (entries i p)); reflexivity.
      * replace (i + Z.of_nat (S k)) with (i + 1 + Z.of_nat k) by lia. apply Hnew. exact Eq.
Qed.

Lemma uvmat_ok passes : Forall a_pass passes -> exists f, save_as_uvmat passes = Ok f /\
  forall k p, nth_error passes k = Some p -> forall s, variable f (Z.of_nat k + 1) s = option_map snd (lookup (of_string s) (entries (1 + Z.of_nat k) p)).
Proof.
  intros H. destruct (save_from_ok passes 1 (mk_nc [(of_string "nb_coord", 2); (of_string "nb_bounds", 2)] []) H) as (f & E & _ & Hf).
  - intros j _. split; [reflexivity|]. intros k. destruct k; reflexivity.
  - exists f. split; [exact E|]. intros k p Ek s. unfold variable. f_equal. rewrite <- (Hf k p Ek (of_string s)). unfold civ. rewrite (Z.add_comm 1). reflexivity.
Qed.
Lemma complete_spec p : a_pass p -> complete p = true <->
  use_tps p = true /\ (exists tx ty, tps p = Some (tx, ty) /\ same_sizes tx) /\ smooth p <> None /\ no_nan (deltaxs p).
Proof.
  intros Hp. unfold complete. rewrite !andb_true_iff, forallb_forall. split.
  - intros [[[Hu Ht] Hs] Hn]. split; [exact Hu|]. destruct (tps p) as [[tx ty]|]; [|discriminate]. split; [|split].
    + exists tx, ty. split; [reflexivity|]. intros r r' H1 H2. destruct tx as [|r0 tx]; [destruct H1|]. unfold is_rect in Ht. rewrite forallb_forall in Ht.
      apply Ht in H1, H2. apply Z.eqb_eq in H1, H2. unfold zlen in *. lia.
    + destruct (smooth p); [discriminate|discriminate].
    + intros x Hx ->. specialize (Hn NaN Hx). discriminate.
  - intros (Hu & (tx & ty & Et & Hr) & Hs & Hn). rewrite Et. split; [split; [split|]|].
    + exact Hu.
    + destruct tx as [|r tx]; [reflexivity|]. unfold is_rect. apply forallb_forall. intros r' Hin. apply Z.eqb_eq. unfold zlen. f_equal. apply Hr; [exact Hin|left; reflexivity].
    + destruct (smooth p); [reflexivity|congruence].
    + intros x Hx. destruct x; try reflexivity. exfalso. apply (Hn NaN Hx). reflexivity.
Qed.

(** * The theorems *)
(** Saving never fails, and each pass [k] has its positions, displacements (without nan), correlations and flags in the variables Civ{k+1}_... *)
Theorem C119_file passes : Forall a_pass passes -> exists f, save_as_uvmat passes = Ok f /\
  forall k p, nth_error passes k = Some p -> let v := variable f (Z.of_nat k + 1) in
    v "X"%string = Some (D1 (xs p)) /\ v "Y"%string = Some (D1 (ys p)) /\ v "C"%string = Some (D1 (correls_max p)) /\
    v "U"%string = Some (D1 (map (written big) (deltaxs p))) /\ v "V"%string = Some (D1 (map (written big) (deltays p))) /\
    v "FF"%string = Some (D1 (map (fun x => if fisnan x then Fin 1 else Fin 0) (deltaxs p))) /\ v "F"%string = v "FF"%string.
Proof.
  intros H. destruct (uvmat_ok passes H) as (f & E & Hf). exists f. split; [exact E|]. intros k p Ek v. subst v. rewrite !(Hf k p Ek). clear Hf.
  unfold entries. destruct (complete p); [|repeat split; reflexivity]. unfold tps_entries.
  destruct (tps p) as [[tx ty]|]; [|repeat split; reflexivity]. destruct (smooth p) as [[sx sy]|]; repeat split; reflexivity.
Qed.

(** The smoothed field and the splines of a pass are in the file exactly when the TPS were asked and computed, the subdomains have the same numbers of
    coefficients, and no vector of the pass is nan; otherwise there is nothing of them (and no error). *)
Theorem C119_smooth passes f k p sx sy tx ty : Forall a_pass passes -> save_as_uvmat passes = Ok f -> nth_error passes k = Some p ->
  use_tps p = true -> smooth p = Some (sx, sy) -> tps p = Some (tx, ty) ->
  let v := variable f (Z.of_nat k + 1) in
  (no_nan (deltaxs p) /\ same_sizes tx ->
     v "U_smooth"%string = Some (D1 (map f32 sx)) /\ v "V_smooth"%string = Some (D1 (map f32 sy)) /\
     v "U_tps"%string = Some (D2 tx) /\ v "V_tps"%string = Some (D2 ty) /\ v "NbCentres"%string = Some (D1 (map (fun r => Fin (IZR (zlen r))) tx))) /\
  (~ (no_nan (deltaxs p) /\ same_sizes tx) -> Forall (fun s => v s = None) ["U_smooth"; "V_smooth"; "U_tps"; "V_tps"; "NbCentres"]%string).
Proof.
  intros H Ef Ek Hu Es Et v. destruct (uvmat_ok passes H) as (f' & E & Hf). rewrite E in Ef. injection Ef as <-.
  assert (Hp : a_pass p) by (rewrite Forall_forall in H; apply H; apply nth_error_In in Ek; exact Ek).
  pose proof (complete_spec p Hp) as C. split.
  - intros [Hn Hr]. subst v. rewrite !(Hf k p Ek). unfold entries.
    replace (complete p) with true by (symmetry; apply C; split; [exact Hu|]; split; [exists tx, ty; split; assumption|]; split; [congruence|exact Hn]).
    unfold tps_entries. rewrite Et, Es. repeat split; reflexivity.
  - intros Hno. assert (Ec : complete p = false).
    { destruct (complete p) eqn:Ec; [|reflexivity]. exfalso. apply Hno. destruct (proj1 C eq_refl) as (_ & (tx' & ty' & Et' & Hr) & _ & Hn). rewrite Et in Et'. injection Et' as -> ->. split; assumption. }
    repeat constructor; subst v; rewrite (Hf k p Ek); unfold entries; rewrite Ec; reflexivity.
Qed.
(** Nothing of them either for a pass without TPS: not asked, not computed, or without a smoothed field (all passes but the last). *)
Theorem C119_without passes f k p : Forall a_pass passes -> save_as_uvmat passes = Ok f -> nth_error passes k = Some p ->
  use_tps p = false \/ tps p = None \/ smooth p = None ->
  Forall (fun s => variable f (Z.of_nat k + 1) s = None) ["U_smooth"; "V_smooth"; "U_tps"; "V_tps"; "NbCentres"]%string.
Proof.
  intros H Ef Ek Hno. destruct (uvmat_ok passes H) as (f' & E & Hf). rewrite E in Ef. injection Ef as <-.
  assert (Ec : complete p = false).
  { unfold complete. destruct Hno as [-> | [-> | ->]]; rewrite ?andb_false_r; try reflexivity. }
  repeat constructor; rewrite (Hf k p Ek); unfold entries; rewrite Ec; reflexivity.
Qed.
(** A reader which uses the flags finds the displacements along x (if they are not infinite). *)
Lemma read_u x : x <> PInf -> x <> NInf -> read (nan_to_num big x) (if fisnan x then Fin 1 else Fin 0) = x.
Proof. intros H1 H2. destruct x; cbn; try congruence; destruct (Req_EM_T _ _); try reflexivity; lra. Qed.
Theorem C119_read_x l : ~ In PInf l -> ~ In NInf l -> read_all (map (written big) l) (map (fun x => if fisnan x then Fin 1 else Fin 0) l) = l.
Proof.
  change (written big) with (nan_to_num big). unfold read_all. induction l as [|x l IH]; intros H1 H2; [reflexivity|]. cbn [map combine fst snd]. rewrite read_u; [|intros ->; apply H1; left; reflexivity|intros ->; apply H2; left; reflexivity].
  rewrite IH; [reflexivity|intros H; apply H1; right; exact H|intros H; apply H2; right; exact H].
Qed.
(** Along y the flags are those of x: exactly when both components are nan together. *)
Theorem C119_read_y_iff lx ly : List.length lx = List.length ly -> ~ In PInf ly -> ~ In NInf ly ->
  read_all (map (written big) ly) (map (fun x => if fisnan x then Fin 1 else Fin 0) lx) = ly <-> map fisnan lx = map fisnan ly.
Proof.
  change (written big) with (nan_to_num big). unfold read_all. revert ly. induction lx as [|x lx IH]; intros [|y ly] El H1 H2; try discriminate; [split; reflexivity|]. cbn [map combine fst snd].
  assert (H1' : y <> PInf) by (intros ->; apply H1; left; reflexivity). assert (H2' : y <> NInf) by (intros ->; apply H2; left; reflexivity).
  destruct (IH ly) as [IH1 IH2]; [cbn in El; lia|intros H; apply H1; right; exact H|intros H; apply H2; right; exact H|].
  assert (K : read (nan_to_num big y) (if fisnan x then Fin 1 else Fin 0) = y <-> fisnan x = fisnan y).
  { destruct (fisnan x) eqn:Ex; cbn [read]; destruct (Req_EM_T _ _); try lra; destruct y; cbn; split; intros H; try congruence; try discriminate. }
  split; intros E.
  - injection E as E1 E2. f_equal; [apply K; exact E1|apply IH1; exact E2].
  - injection E as E1 E2. f_equal; [apply K; exact E1|apply IH2; exact E2].
Qed.
End Uvmat.
(** One vector found with nan is enough to lose the smoothed field of the whole pass. *)
Theorem C119_smooth_refuted f32 big : exists p sx sy, a_pass p /\ use_tps p = true /\ smooth p = Some (sx, sy) /\ tps p <> None /\
  exists f, save_as_uvmat f32 big [p] = Ok f /\ variable f 1 "U_smooth" = None /\ variable f 1 "U_tps" = None.
Proof.
  set (z := [Fin 0; Fin 1; Fin 2]).
  set (p := mk_pass z z [Fin 1; NaN; Fin 1] [Fin 1; NaN; Fin 1] z true (Some ([z], [z])) (Some (z, z))).
  exists p, z, z.
  assert (Hp : a_pass p).
  { unfold a_pass. cbn. repeat split; try lia; try (match goal with H : Some _ = Some _ |- _ => injection H as <- <- end; first [discriminate|reflexivity]). }
  split; [exact Hp|]. split; [reflexivity|]. split; [reflexivity|]. split; [discriminate|].
  destruct (C119_file f32 big [p] (Forall_cons _ Hp (Forall_nil _))) as (f & E & _). exists f. split; [exact E|].
  destruct (C119_smooth f32 big [p] f 0%nat p z z [z] [z] (Forall_cons _ Hp (Forall_nil _)) E eq_refl eq_refl eq_refl eq_refl) as [_ H].
  assert (No : ~ (no_nan (deltaxs p) /\ same_sizes [z])) by (intros [Hn _]; apply (Hn NaN); [cbn; tauto|reflexivity]).
  specialize (H No). inversion H as [|? ? A1 H']. inversion H' as [|? ? A2 H'']. inversion H'' as [|? ? A3 _]. split; assumption.
Qed.
Print Assumptions C119_file.
Print Assumptions C119_smooth.
Print Assumptions C119_without.
Print Assumptions C119_read_x.
Print Assumptions C119_read_y_iff.
Print Assumptions C119_smooth_refuted.

(** * Cases *)
Example ex_pass : let z := [Fin 0; Fin 1] in
  a_pass (mk_pass z z z z z true (Some ([z; z], [z; z])) (Some (z, z))) /\ no_nan z /\ same_sizes [z; z].
Proof.
  cbn. split; [|split].
  - unfold a_pass. cbn. repeat split; try lia; try (match goal with H : Some _ = Some _ |- _ => injection H as <- <- end; first [discriminate|reflexivity]).
  - intros x [<- | [<- | []]]; discriminate.
  - intros r r' [<- | [<- | []]] [<- | [<- | []]]; reflexivity.
Qed.

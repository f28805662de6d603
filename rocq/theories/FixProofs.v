(** Lemmas on WorkFIX. *)
From Coq Require Import FinFun.
From Verif Require Import PyBase NeighModel FixModel PeakProps.

Section Dict.
Context {V : Type}.
Lemma dget_dset (d : dict V) k v j : dget (dset d k v) j = if j =? k then Some v else dget d j.
Proof.
  induction d as [|[k' v'] d IH]; cbn [dset dget]; [reflexivity|].
  destruct (k =? k') eqn:E; cbn [dget].
  - assert (k = k') by lia. subst k'. destruct (j =? k); reflexivity.
  - rewrite IH. destruct (j =? k') eqn:E1, (j =? k) eqn:E2; try reflexivity. lia.
Qed.
Lemma dget_ddel (d : dict V) k j : dget (ddel d k) j = if j =? k then None else dget d j.
Proof.
  induction d as [|[k' v'] d IH]; cbn [ddel dget]; [destruct (j =? k); reflexivity|].
  destruct (k =? k') eqn:E; cbn [dget]; rewrite IH.
  - assert (k = k') by lia. subst k'. destruct (j =? k); reflexivity.
  - destruct (j =? k') eqn:E1, (j =? k) eqn:E2; try reflexivity. lia.
Qed.
Lemma dget_In (d : dict V) k : (exists v, dget d k = Some v) <-> In k (map fst d).
Proof.
  induction d as [|[k' v'] d IH]; cbn [dget map In fst].
  - split; [intros (v & H); discriminate|intros []].
  - destruct (k =? k') eqn:E.
    + split; [intros _; left; lia|intros _; eauto].
    + rewrite IH. split; [intros H; right; exact H|intros [H|H]; [lia|exact H]].
Qed.
End Dict.

Definition at_ {A} (l : list (option A)) (i : Z) : option A := nth (Z.to_nat i) l None.

Lemma py_get_at {A} (l : list A) i d : 0 <= i < zlen l -> py_get l i = Ok (nth (Z.to_nat i) l d).
Proof.
  intros H. unfold py_get. destruct (i <? 0) eqn:E; [lia|]. destruct (0 <=? i) eqn:E1, (i <? zlen l) eqn:E2; try lia. cbn [andb].
  unfold zlen in *. rewrite (nth_error_nth' l d) by lia. reflexivity.
Qed.
Lemma nth_update {A} (l : list A) d f : forall k j, nth j (update_nth k f l) d =
  if Nat.eqb j k && Nat.ltb k (List.length l) then f (nth j l d) else nth j l d.
Proof.
  induction l as [|a l IH]; intros k j.
  - destruct k; cbn [update_nth List.length]; destruct j; cbn; rewrite ?andb_false_r; reflexivity.
  - destruct k, j; cbn [update_nth nth List.length]; try reflexivity. rewrite IH. reflexivity.
Qed.
Lemma py_update_at {A} (l : list (option A)) i v : 0 <= i < zlen l ->
  exists l', py_update l i (fun _ => v) = Ok l' /\ zlen l' = zlen l /\
    forall j, 0 <= j -> at_ l' j = if j =? i then v else at_ l j.
Proof.
  intros H. unfold py_update. destruct (i <? 0) eqn:E; [lia|]. destruct (0 <=? i) eqn:E1, (i <? zlen l) eqn:E2; try lia. cbn [andb].
  eexists. split; [reflexivity|]. split.
  - unfold zlen. f_equal. generalize (Z.to_nat i). clear. induction l as [|a l IH]; intros [|n]; cbn; try reflexivity. f_equal. apply IH.
  - intros j Hj. unfold at_. rewrite nth_update. unfold zlen in *.
    destruct (Nat.eqb_spec (Z.to_nat j) (Z.to_nat i)) as [Ej|Ej]; destruct (j =? i) eqn:Ez; try lia; [|reflexivity].
    destruct (Nat.ltb_spec (Z.to_nat i) (List.length l)); [reflexivity|lia].
Qed.

Lemma NoDup_range0 n : NoDup (range0 n).
Proof.
  unfold range0. apply Injective_map_NoDup; [|apply seq_NoDup]. intros a b H. lia.
Qed.
Lemma nonzero_In l i : In i (nonzero l) <-> 0 <= i < zlen l /\ nth (Z.to_nat i) l false = true.
Proof. unfold nonzero. rewrite filter_In, range0_In. tauto. Qed.
Lemma nonzero_NoDup l : NoDup (nonzero l).
Proof. apply NoDup_filter, NoDup_range0. Qed.

Definition mem (i : Z) (l : list Z) : bool := existsb (Z.eqb i) l.
Lemma mem_In i l : mem i l = true <-> In i l.
Proof.
  unfold mem. rewrite existsb_exists. split.
  - intros (x & Hx & E). apply Z.eqb_eq in E. subst. exact Hx.
  - intros H. exists i. split; [exact H|apply Z.eqb_refl].
Qed.
Lemma mem_nonzero l i : 0 <= i < zlen l -> mem i (nonzero l) = nth (Z.to_nat i) l false.
Proof.
  intros H. destruct (nth (Z.to_nat i) l false) eqn:E.
  - apply mem_In, nonzero_In. tauto.
  - destruct (mem i (nonzero l)) eqn:Em; [|reflexivity]. apply mem_In, nonzero_In in Em. destruct Em. congruence.
Qed.

Section Fix.
Context {F : Type}.

Lemma map2_zlen {A B C} (f : A -> B -> C) l m : zlen l = zlen m -> zlen (map2 f l m) = zlen l.
Proof.
  unfold zlen. intros H. apply Nat2Z.inj in H. f_equal. revert m H.
  induction l as [|a l IH]; intros [|b m] H; cbn in *; try reflexivity; try discriminate. f_equal. apply IH. lia.
Qed.
Lemma map2_nth {A B C} (f : A -> B -> C) l m da db dc : forall i, (i < List.length l)%nat -> List.length l = List.length m ->
  nth i (map2 f l m) dc = f (nth i l da) (nth i m db).
Proof.
  revert m. induction l as [|a l IH]; intros [|b m] i Hi Hl; cbn in *; try lia. destruct i; [reflexivity|]. apply IH; lia.
Qed.
Lemma map2_at {A B C} (f : option A -> option B -> option C) l m i : 0 <= i < zlen l -> zlen l = zlen m ->
  at_ (map2 f l m) i = f (at_ l i) (at_ m i).
Proof. intros Hi Hl. unfold at_, zlen in *. apply map2_nth; lia. Qed.
Lemma map_at {A B} (f : option A -> B) l i d : 0 <= i < zlen l -> nth (Z.to_nat i) (map f l) d = f (at_ l i).
Proof.
  intros Hi. unfold at_, zlen in *. rewrite (nth_indep _ d (f None)) by (rewrite map_length; lia). apply map_nth.
Qed.
Lemma map_zlen {A B} (f : A -> B) l : zlen (map f l) = zlen l.
Proof. unfold zlen. rewrite map_length. reflexivity. Qed.

Variable n : Z.
Variables X Y : Z -> option F.

(** state of the detection: [fl i]: the vector has been removed; [ms i]: its message *)
Record good (fl : Z -> bool) (ms : Z -> option string) (s : loc (F := F)) : Prop := {
  g_lx : zlen (lx s) = n; g_ly : zlen (ly s) = n;
  g_x : forall i, 0 <= i < n -> at_ (lx s) i = if fl i then None else X i;
  g_y : forall i, 0 <= i < n -> at_ (ly s) i = if fl i then None else Y i;
  g_wx : forall i, dget (wx s) i = if fl i then Some (X i) else None;
  g_wy : forall i, dget (wy s) i = if fl i then Some (Y i) else None;
  g_e : forall i, dget (le s) i = ms i;
  g_m : forall i, fl i = true -> ms i <> None
}.

Lemma good_ext fl ms fl' ms' s : good fl ms s -> (forall i, fl' i = fl i) -> (forall i, ms' i = ms i) -> good fl' ms' s.
Proof.
  intros [] E1 E2. constructor; intros; rewrite ?E1, ?E2; auto. rewrite E1 in *. auto.
Qed.

Lemma remove_ok fl ms s k : good fl ms s -> 0 <= k < n -> fl k = false -> ms k <> None ->
  exists s', remove s k = Ok s' /\ le s' = le s /\ good (fun i => (i =? k) || fl i) ms s'.
Proof.
  intros [] Hk Hf Hm. unfold remove.
  rewrite (py_get_at (lx s) k None) by lia. rewrite (py_get_at (ly s) k None) by lia. cbn [bind].
  destruct (py_update_at (lx s) k None) as (lx' & -> & Lx & Ax); [lia|]. destruct (py_update_at (ly s) k None) as (ly' & -> & Ly & Ay); [lia|].
  cbn [bind]. eexists. split; [reflexivity|]. split; [reflexivity|]. constructor; cbn [lx ly wx wy le].
  - lia.
  - lia.
  - intros i Hi. rewrite Ax by lia. destruct (i =? k); cbn [orb]; [reflexivity|auto].
  - intros i Hi. rewrite Ay by lia. destruct (i =? k); cbn [orb]; [reflexivity|auto].
  - intros i. rewrite dget_dset. destruct (i =? k) eqn:E; cbn [orb]; [|auto]. assert (i = k) by lia. subst i.
    fold (at_ (lx s) k). rewrite g_x0, Hf by assumption. reflexivity.
  - intros i. rewrite dget_dset. destruct (i =? k) eqn:E; cbn [orb]; [|auto]. assert (i = k) by lia. subst i.
    fold (at_ (ly s) k). rewrite g_y0, Hf by assumption. reflexivity.
  - auto.
  - intros i. destruct (i =? k) eqn:E; cbn [orb]; [|auto]. assert (i = k) by lia. subst i. auto.
Qed.

Lemma remove_loop l : forall fl ms s, good fl ms s -> NoDup l -> (forall k, In k l -> 0 <= k < n /\ fl k = false /\ ms k <> None) ->
  exists s', py_for remove l s = Ok s' /\ good (fun i => mem i l || fl i) ms s'.
Proof.
  induction l as [|k l IH]; intros fl ms s G Hd Hl.
  - exists s. split; [reflexivity|]. exact G.
  - inversion Hd as [|? ? Hk Hd']; subst. destruct (Hl k (or_introl eq_refl)) as (K1 & K2 & K3).
    destruct (remove_ok fl ms s k G K1 K2 K3) as (s1 & E1 & _ & G1). cbn [py_for]. rewrite E1.
    destruct (IH _ _ _ G1 Hd') as (s2 & E2 & G2).
    { intros j Hj. destruct (Hl j (or_intror Hj)) as (J1 & J2 & J3). repeat split; try lia; try assumption.
      rewrite J2. destruct (j =? k) eqn:E; [|reflexivity]. assert (j = k) by lia. subst j. contradiction. }
    exists s2. split; [exact E2|]. apply (good_ext _ _ _ _ _ G2); [|reflexivity]. intros i.
    cbn [mem existsb]. fold (mem i l). destruct (mem i l), (i =? k), (fl i); reflexivity.
Qed.

Definition add_msg (inds : list Z) (expl : string) (fl : Z -> bool) (ms : Z -> option string) (i : Z) : option string :=
  if mem i inds then
    if fl i then match ms i with Some e => Some (e ++ " + " ++ expl)%string | None => None end else Some expl
  else ms i.

Lemma put_ok inds expl : forall fl ms s, good fl ms s -> NoDup inds -> (forall k, In k inds -> 0 <= k < n) ->
  exists s', put_to_nan inds expl s = Ok s' /\ good (fun i => mem i inds || fl i) (add_msg inds expl fl ms) s'.
Proof.
  unfold put_to_nan. induction inds as [|k l IH]; intros fl ms s G Hd Hl.
  - exists s. split; [reflexivity|]. exact G.
  - inversion Hd as [|? ? Hk Hd']; subst. pose proof (Hl k (or_introl eq_refl)) as K1. cbn [py_for].
    rewrite (g_wx _ _ _ G).
    assert (Nk : mem k l = false) by (destruct (mem k l) eqn:E; [apply mem_In in E; contradiction|reflexivity]).
    destruct (fl k) eqn:Ef.
    + unfold dget_err. rewrite (g_e _ _ _ G). destruct (ms k) as [e|] eqn:Em; [|exfalso; apply (g_m _ _ _ G k Ef Em)].
      cbn [bind].
      assert (G1 : good fl (fun i => if i =? k then Some (e ++ " + " ++ expl)%string else ms i)
         {| lx := lx s; ly := ly s; wx := wx s; wy := wy s; le := dset (le s) k (e ++ " + " ++ expl)%string |}).
      { destruct G. constructor; cbn [lx ly wx wy le]; auto.
        - intros i. rewrite dget_dset. destruct (i =? k); [reflexivity|auto].
        - intros i Hi. destruct (i =? k); [discriminate|auto]. }
      destruct (IH _ _ _ G1 Hd') as (s2 & E2 & G2); [intros; apply Hl; right; assumption|].
      exists s2. split; [exact E2|]. apply (good_ext _ _ _ _ _ G2); intros i; unfold add_msg; cbn [mem existsb]; fold (mem i l).
      * destruct (i =? k) eqn:E; cbn [orb]; [|reflexivity]. assert (i = k) by lia. subst i. rewrite Ef, orb_true_r. reflexivity.
      * destruct (i =? k) eqn:E; cbn [orb]; [|reflexivity]. assert (i = k) by lia. subst i. rewrite Nk, Ef, Em. reflexivity.
    + assert (Gm : good fl (fun i => if i =? k then Some expl else ms i)
         {| lx := lx s; ly := ly s; wx := wx s; wy := wy s; le := dset (le s) k expl |}).
      { destruct G. constructor; cbn [lx ly wx wy le]; auto.
        - intros i. rewrite dget_dset. destruct (i =? k); [reflexivity|auto].
        - intros i Hi. destruct (i =? k); [discriminate|auto]. }
      destruct (remove_ok _ _ _ k Gm K1 Ef) as (s1 & E1 & El & G1).
      { rewrite Z.eqb_refl. discriminate. }
      assert (Er : remove s k = Ok {| lx := lx s1; ly := ly s1; wx := wx s1; wy := wy s1; le := le s |}).
      { unfold remove in *. cbn [lx ly wx wy le] in E1.
        destruct (py_get (lx s) k); cbn [bind] in *; [|discriminate]. destruct (py_get (ly s) k); cbn [bind] in *; [|discriminate].
        destruct (py_update (lx s) k _); cbn [bind] in *; [|discriminate]. destruct (py_update (ly s) k _); cbn [bind] in *; [|discriminate].
        inversion E1; subst s1. reflexivity. }
      rewrite Er. cbn [bind lx ly wx wy le].
      replace {| lx := lx s1; ly := ly s1; wx := wx s1; wy := wy s1; le := dset (le s) k expl |} with s1.
      2:{ destruct s1 as [q1 q2 q3 q4 q5]. cbn [lx ly wx wy le] in *. rewrite El. reflexivity. }
      destruct (IH _ _ _ G1 Hd') as (s2 & E2 & G2); [intros; apply Hl; right; assumption|].
      exists s2. split; [exact E2|]. apply (good_ext _ _ _ _ _ G2); intros i; unfold add_msg; cbn [mem existsb]; fold (mem i l).
      * destruct (i =? k), (mem i l), (fl i); reflexivity.
      * destruct (i =? k) eqn:E; cbn [orb]; [|reflexivity]. assert (i = k) by lia. subst i. rewrite Nk, Ef. reflexivity.
Qed.

(** additional text at the end of messages *)
Lemma suffix_loop (txt : Z -> string) (f : loc (F := F) -> Z -> result loc) inds :
  (forall s k e, In k inds -> dget (le s) k = Some e ->
     f s k = Ok {| lx := lx s; ly := ly s; wx := wx s; wy := wy s; le := dset (le s) k (e ++ txt k)%string |}) ->
  forall fl ms s, good fl ms s -> NoDup inds -> (forall k, In k inds -> ms k <> None) ->
  exists s', py_for f inds s = Ok s' /\
    good fl (fun i => if mem i inds then match ms i with Some e => Some (e ++ txt i)%string | None => None end else ms i) s'.
Proof.
  induction inds as [|k l IH]; intros Hf fl ms s G Hd Hl.
  - exists s. split; [reflexivity|]. exact G.
  - inversion Hd as [|? ? Hk Hd']; subst. cbn [py_for].
    destruct (ms k) as [e|] eqn:Em; [|exfalso; apply (Hl k (or_introl eq_refl)); exact Em].
    rewrite (Hf s k e); [|left; reflexivity|rewrite (g_e _ _ _ G); exact Em].
    assert (Nk : mem k l = false) by (destruct (mem k l) eqn:E; [apply mem_In in E; contradiction|reflexivity]).
    destruct (IH) with (fl := fl) (ms := fun i => if i =? k then Some (e ++ txt k)%string else ms i)
       (s := {| lx := lx s; ly := ly s; wx := wx s; wy := wy s; le := dset (le s) k (e ++ txt k)%string |}) as (s2 & E2 & G2).
    + intros; apply Hf; [right; assumption|assumption].
    + destruct G. constructor; cbn [lx ly wx wy le]; auto.
      * intros i. rewrite dget_dset. destruct (i =? k); [reflexivity|auto].
      * intros i Hi. destruct (i =? k); [discriminate|auto].
    + exact Hd'.
    + intros j Hj. destruct (j =? k); [discriminate|]. apply Hl. right. exact Hj.
    + exists s2. split; [exact E2|]. apply (good_ext _ _ _ _ _ G2); intros i; [reflexivity|].
      cbn [mem existsb]. fold (mem i l). destruct (i =? k) eqn:E; cbn [orb]; [|reflexivity]. assert (i = k) by lia. subst i.
      rewrite Nk, Em. reflexivity.
Qed.
End Fix.

(** C37: passes of the PIV. *)
From Verif Require Import PyBase PassModel CorrelProofs.
Local Open Scope Z_scope.

(** Specification: product of the first [k] coefficients, window divided by a number. *)
Definition product (l : list num) : num := fold_right Qcmult (of_Z 1) l.
Definition size_at (n : num) (coeffs : list num) (k : nat) : Z := to_int (n / product (firstn k coeffs))%Qc.
Definition window_at (s : num * num) (coeffs : list num) (k : nat) : Z * Z :=
  (size_at (fst s) coeffs k, size_at (snd s) coeffs k).

(** sizes given by the user *)
Definition given (s : shape_arg) (p : num * num) : Prop :=
  match s with SInt n => p = (of_Z n, of_Z n) | SSeq [a; b] => p = (a, b) | _ => False end.
(** the coefficients for a number of passes: an integer stands for a constant list *)
Definition coeffs_of (zoom : zoom_arg) (number : Z) (l : list num) : Prop :=
  match zoom with
  | ZInt c => l = repeat (of_Z c) (Z.to_nat (number - 1))
  | ZSeq l' => l = l' /\ zlen l' = number - 1
  | ZNoLen => False
  end.

Lemma div_chain (a p c : num) : c <> of_Z 0 -> (a / p / c)%Qc = (a / (p * c))%Qc.
Proof.
  intros Hc. unfold Qcdiv. rewrite <- Qcmult_assoc. f_equal.
  destruct (Qc_eq_dec p (of_Z 0)) as [->|Hp].
  - assert (I0 : (/ of_Z 0 = of_Z 0)%Qc) by (apply Qc_is_canon; reflexivity).
    assert (M0 : forall x : num, (of_Z 0 * x = of_Z 0)%Qc) by (intros x; change (Q2Qc 0 * x = Q2Qc 0)%Qc; ring).
    rewrite I0, !M0, I0. reflexivity.
  - assert (Hp' : p <> Q2Qc 0) by exact Hp. assert (Hc' : c <> Q2Qc 0) by exact Hc. field. split; assumption.
Qed.

Lemma product_app l c : product (l ++ [c]) = (product l * c)%Qc.
Proof.
  unfold product. induction l as [|a l IH]; cbn [app fold_right].
  - change (c * Q2Qc 1 = Q2Qc 1 * c)%Qc. ring.
  - rewrite IH. apply Qcmult_assoc.
Qed.
Lemma firstn_snoc {A} (l : list A) k a : nth_error l k = Some a -> firstn (S k) l = firstn k l ++ [a].
Proof.
  revert k. induction l as [|b l IH]; intros [|k] H; cbn in *; try discriminate; [congruence|]. f_equal. apply IH. exact H.
Qed.

Lemma py_for_app {A S} (f : S -> A -> result S) l1 l2 s :
  py_for f (l1 ++ l2) s = do s' <- py_for f l1 s ; py_for f l2 s'.
Proof. revert s. induction l1 as [|a l1 IH]; intros s; [reflexivity|]. cbn [app py_for]. destruct (f s a); [apply IH|reflexivity]. Qed.

Section C37.
Variable overlap_too_large : bool.
Variable init_correl : Z * Z -> Z * Z -> result unit.

Lemma next_work_ok s0 s1 w : next_work init_correl s0 s1 = Ok w -> w = (ints s0, ints s1).
Proof.
  unfold next_work, init_shape_crop, one_shape_single. destruct s0 as [a b], s1 as [a' b']. cbn [bind fst snd].
  destruct (num_ltb a a' || num_ltb b b'); [discriminate|]. cbn [bind fst snd]. destruct (init_correl _ _); cbn [bind]; congruence.
Qed.

Lemma passes_spec coeffs (s0 s1 : num * num) w0 : forall k st,
  (k <= List.length coeffs)%nat ->
  py_for (pass_body init_correl coeffs) (range_list 1 (1 + Z.of_nat k) 1) (s0, s1, [w0]) = Ok st ->
  (forall j, (j < k)%nat -> nth j coeffs (of_Z 0) <> of_Z 0) /\
  exists works, st = (((fst s0 / product (firstn k coeffs))%Qc, (snd s0 / product (firstn k coeffs))%Qc),
        ((fst s1 / product (firstn k coeffs))%Qc, (snd s1 / product (firstn k coeffs))%Qc), w0 :: works) /\
    List.length works = k /\
    forall j, (j < k)%nat -> nth_error works j = Some (window_at s0 coeffs (S j), window_at s1 coeffs (S j)).
Proof.
  induction k as [|k IH]; intros st Hk E.
  - cbn in E. split; [lia|]. exists []. split; [|split; [reflexivity|lia]].
    assert (D : forall a : num, (a / product (firstn 0 coeffs))%Qc = a).
    { intros a. cbn [firstn product fold_right]. change (a / Q2Qc 1 = a)%Qc. field. discriminate. }
    rewrite !D. destruct s0, s1. cbn [fst snd] in *. clear D. congruence.
  - assert (R : range_list 1 (1 + Z.of_nat (S k)) 1 = range_list 1 (1 + Z.of_nat k) 1 ++ [1 + Z.of_nat k]).
    { unfold range_list, range_len. destruct (0 <? 1) eqn:?; [|lia]. cbn [andb].
      replace (1 <? 1 + Z.of_nat (S k)) with true by lia. rewrite Z.div_1_r.
      replace (Z.to_nat (1 + Z.of_nat (S k) - 1 - 1 + 1)) with (S k) by lia. rewrite seq_S, map_app. f_equal.
      - destruct k as [|k]; [reflexivity|]. replace (1 <? 1 + Z.of_nat (S k)) with true by lia. rewrite Z.div_1_r.
        replace (Z.to_nat (1 + Z.of_nat (S k) - 1 - 1 + 1)) with (S k) by lia. reflexivity.
      - cbn [map]. f_equal. lia. }
    rewrite R, py_for_app in E.
    destruct (py_for _ (range_list 1 (1 + Z.of_nat k) 1) _) as [st1|] eqn:E1; [|discriminate].
    destruct (IH st1) as (Hz & works & -> & Lw & Hw); [lia|reflexivity|]. cbn [py_for bind] in E.
    unfold pass_body in E. destruct (nth_error coeffs k) as [c|] eqn:Ec.
    2:{ apply nth_error_None in Ec. lia. }
    replace (1 + Z.of_nat k - 1) with (Z.of_nat k) in E by lia.
    assert (Eg : py_get coeffs (Z.of_nat k) = Ok c).
    { unfold py_get, zlen. replace (Z.of_nat k <? 0) with false by lia. replace ((0 <=? Z.of_nat k) && (Z.of_nat k <? Z.of_nat (List.length coeffs))) with true by lia.
      rewrite Nat2Z.id, Ec. reflexivity. }
    rewrite Eg in E. cbn [bind fst snd] in E. unfold true_div in E. destruct (Qc_eq_dec c (of_Z 0)) as [->|Hc]; [discriminate|].
    cbn [bind] in E. destruct (next_work _ _ _) as [w|] eqn:En; [|discriminate]. cbn [bind] in E. apply next_work_ok in En.
    rewrite !div_chain in E by exact Hc. rewrite !div_chain in En by exact Hc.
    assert (Ep : (product (firstn k coeffs) * c)%Qc = product (firstn (S k) coeffs)).
    { rewrite (firstn_snoc _ _ _ Ec), product_app. reflexivity. }
    rewrite !Ep in E. rewrite !Ep in En.
    split.
    { intros j Hj. destruct (Nat.eq_dec j k) as [->|]; [|apply Hz; lia]. rewrite (nth_error_nth _ _ _ Ec). exact Hc. }
    exists (works ++ [w]). split; [cbn [app] in E; congruence|]. split; [rewrite app_length; cbn; lia|].
    intros j Hj. destruct (Nat.eq_dec j k) as [->|].
    + rewrite nth_error_app2 by lia. rewrite Lw, Nat.sub_diag. cbn [nth_error]. rewrite En. reflexivity.
    + rewrite nth_error_app1 by lia. apply Hw. lia.
Qed.

(** C37: when the object is created there is one pass for each number up to params.multipass.number and the windows of the
    pass k are those given divided by the product of the k first coefficients. *)
Theorem C37_windows number zoom im0 im1 works :
  1 <= number ->
  init overlap_too_large init_correl number zoom im0 im1 = Ok works ->
  exists coeffs s0 s1, coeffs_of zoom number coeffs /\
    given im0 s0 /\ given (match im1 with SNone => im0 | _ => im1 end) s1 /\
    zlen works = number /\
    forall k, (Z.of_nat k < number) -> nth_error works k = Some (window_at s0 coeffs k, window_at s1 coeffs k).
Proof.
  intros Hn. unfold init. destruct (first_work _ _ _ _) as [w0|] eqn:E0; [|discriminate]. cbn [bind].
  set (c := match zoom with ZInt _ => _ | _ => _ end). destruct c as [coeffs|] eqn:Ec; [|discriminate]. cbn [bind].
  set (im1' := match im1 with SNone => im0 | _ => im1 end).
  destruct (one_shape_multi im0) as [s0|] eqn:E1; [|discriminate]. cbn [bind].
  destruct (one_shape_multi im1') as [s1|] eqn:E2; [|discriminate]. cbn [bind].
  destruct (py_for _ _ _) as [st|] eqn:E; [|discriminate]. cbn [bind]. intros Ew.
  assert (Hc : coeffs_of zoom number coeffs /\ zlen coeffs = number - 1).
  { unfold c in Ec. destruct zoom as [z|l|]; cbn [coeffs_of].
    - assert (coeffs = repeat (of_Z z) (Z.to_nat (number - 1))) as -> by (unfold py_repeat in Ec; congruence).
      split; [reflexivity|]. unfold zlen. rewrite repeat_length. lia.
    - destruct (zlen l =? number - 1) eqn:El; [|discriminate]. assert (coeffs = l) as -> by congruence. split; [split|]; lia || reflexivity.
    - discriminate. }
  destruct Hc as [Hc Lc].
  assert (G0 : given im0 s0).
  { destruct im0 as [n|n|[|a [|b [|]]]| |]; cbn in E1 |- *; congruence. }
  assert (G1 : given im1' s1).
  { destruct im1' as [n|n|[|a [|b [|]]]| |]; cbn in E2 |- *; congruence. }
  exists coeffs, s0, s1. split; [exact Hc|]. split; [exact G0|]. split; [exact G1|].
  replace number with (1 + Z.of_nat (Z.to_nat (number - 1))) in E by lia.
  apply passes_spec in E; [|unfold zlen in Lc; lia]. destruct E as (_ & ws & -> & Lw & Hw). cbn [snd] in Ew.
  assert (works = w0 :: ws) as -> by congruence. split; [unfold zlen; cbn [List.length]; lia|].
  intros [|k] Hk; [|cbn [nth_error]; apply Hw; lia]. cbn [nth_error]. f_equal.
  (* the first work *)
  assert (Ew0 : w0 = (ints s0, ints s1)).
  { unfold first_work in E0. destruct overlap_too_large; [discriminate|]. unfold init_shape_crop in E0. fold im1' in E0.
    assert (one_shape_single im0 = Ok s0) as X0 by (destruct im0 as [n|n|[|a [|b [|]]]| |]; cbn in E1 |- *; congruence).
    assert (one_shape_single im1' = Ok s1) as X1 by (destruct im1' as [n|n|[|a [|b [|]]]| |]; cbn in E2 |- *; congruence).
    rewrite X0, X1 in E0. cbn [bind] in E0. destruct (num_ltb _ _ || num_ltb _ _); [discriminate|]. cbn [bind fst snd] in E0.
    destruct (init_correl _ _); cbn [bind] in E0; congruence. }
  rewrite Ew0. unfold window_at, size_at, ints. cbn [firstn product fold_right].
  assert (D : forall a : num, (a / of_Z 1)%Qc = a) by (intros a; change (a / Q2Qc 1 = a)%Qc; field; discriminate).
  rewrite !D. reflexivity.
Qed.

(** A list of coefficients of a wrong length is refused, whatever the other parameters: no object is created. *)
Theorem C37_wrong_length number l im0 im1 :
  zlen l <> number - 1 -> exists e, init overlap_too_large init_correl number (ZSeq l) im0 im1 = Err e.
Proof.
  intros H. unfold init. destruct (first_work _ _ _ _); [|eexists; reflexivity]. cbn [bind].
  destruct (zlen l =? number - 1) eqn:E; [lia|]. eexists. reflexivity.
Qed.
(** ... with ValueError if the first pass alone is possible. *)
Theorem C37_wrong_length_error number l im0 im1 w0 :
  zlen l <> number - 1 -> first_work overlap_too_large init_correl im0 im1 = Ok w0 ->
  init overlap_too_large init_correl number (ZSeq l) im0 im1 = Err ValueError.
Proof. intros H E. unfold init. rewrite E. cbn [bind]. destruct (zlen l =? number - 1) eqn:E'; [lia|]. reflexivity. Qed.

(** An integer coefficient is the same as the constant list. *)
Theorem C37_scalar number c im0 im1 : 1 <= number ->
  init overlap_too_large init_correl number (ZInt c) im0 im1 =
  init overlap_too_large init_correl number (ZSeq (repeat (of_Z c) (Z.to_nat (number - 1)))) im0 im1.
Proof.
  intros Hn. unfold init, zlen, py_repeat. rewrite repeat_length. destruct (Z.of_nat (Z.to_nat (number - 1)) =? number - 1) eqn:E; [reflexivity|lia].
Qed.

(** An integer of numpy is accepted for one pass, and refused by the multipass work. *)
Theorem C37_numpy_int number zoom n im1 works :
  init overlap_too_large init_correl number zoom (SNumpyInt n) im1 <> Ok works.
Proof.
  unfold init. destruct (first_work _ _ _ _); [|discriminate]. cbn [bind].
  destruct (match zoom with ZInt _ => _ | _ => _ end); cbn [bind one_shape_multi]; discriminate.
Qed.
(** The correlation of each pass has been created for the windows of this pass: parameters which the correlation class
    refuses for the windows of one of the passes are refused. *)
Theorem C37_correl number zoom im0 im1 works : init overlap_too_large init_correl number zoom im0 im1 = Ok works ->
  Forall (fun w => init_correl (fst w) (snd w) = Ok tt) works.
Proof.
  unfold init. destruct (first_work _ _ _ _) as [w0|] eqn:E0; [|discriminate]. cbn [bind].
  match goal with |- (do coeffs <- ?m ; _) = _ -> _ => destruct m as [coeffs|]; [|discriminate] end. cbn [bind].
  destruct (one_shape_multi im0) as [s0|]; [|discriminate]. cbn [bind].
  destruct (one_shape_multi _) as [s1|]; [|discriminate]. cbn [bind].
  destruct (py_for _ _ _) as [st|] eqn:E; [|discriminate]. cbn [bind]. intros [= <-].
  assert (H0 : Forall (fun w => init_correl (fst w) (snd w) = Ok tt) [w0]).
  { constructor; [|constructor]. unfold first_work in E0. destruct overlap_too_large; [discriminate|].
    destruct (init_shape_crop _ _) as [s|]; [|discriminate]. cbn [bind] in E0. destruct (init_correl (fst s) (snd s)) as [[]|] eqn:Ei; [|discriminate].
    cbn [bind] in E0. injection E0 as <-. exact Ei. }
  revert E H0. change [w0] with (snd (s0, s1, [w0])) at 2. generalize (s0, s1, [w0]). clear E0.
  induction (range_list 1 number 1) as [|i l IH]; intros st0 E H0.
  - injection E as <-. exact H0.
  - cbn [py_for] in E. destruct (pass_body init_correl coeffs st0 i) as [st1|] eqn:Eb; [|discriminate]. cbn [bind] in E.
    apply (IH st1 E). unfold pass_body in Eb. destruct st0 as [[a0 a1] works]. cbn [snd] in H0.
    destruct (py_get _ _) as [c|]; [|discriminate]. cbn [bind] in Eb.
    destruct (true_div (fst a0) c) as [x1|]; [|discriminate]. cbn [bind] in Eb. destruct (true_div (snd a0) c) as [x2|]; [|discriminate]. cbn [bind] in Eb.
    destruct (true_div (fst a1) c) as [x3|]; [|discriminate]. cbn [bind] in Eb. destruct (true_div (snd a1) c) as [x4|]; [|discriminate]. cbn [bind] in Eb.
    destruct (next_work _ _ _) as [w|] eqn:En; [|discriminate]. cbn [bind] in Eb. injection Eb as <-. cbn [snd].
    apply Forall_app. split; [exact H0|]. constructor; [|constructor]. unfold next_work in En.
    destruct (init_shape_crop _ _) as [s|]; [|discriminate]. cbn [bind] in En. destruct (init_correl (fst s) (snd s)) as [[]|] eqn:Ei; [|discriminate].
    cbn [bind] in En. injection En as <-. exact Ei.
Qed.
End C37.

(** For positive integers, the window is the quotient of the euclidean division by the product of the coefficients. *)
Definition zprod (l : list Z) : Z := fold_right Z.mul 1 l.
Lemma zprod_pos l : Forall (fun c => 0 < c) l -> 0 < zprod l.
Proof. induction 1 as [|x l Hx Hl IH]; cbn [zprod fold_right]; [lia|]. fold (zprod l). nia. Qed.
Lemma product_Z l : product (map of_Z l) = of_Z (zprod l).
Proof.
  induction l as [|a l IH]; cbn [map product fold_right zprod]; [reflexivity|]. fold (product (map of_Z l)). fold (zprod l). rewrite IH.
  apply Qc_is_canon. unfold of_Z, Qcmult. cbn [this Q2Qc]. rewrite !Qred_correct. rewrite <- inject_Z_mult. reflexivity.
Qed.
Lemma to_int_div n p : 0 <= n -> 0 < p -> to_int (of_Z n / of_Z p)%Qc = n / p.
Proof.
  intros Hn Hp. unfold to_int. set (q := (of_Z n / of_Z p)%Qc).
  assert (E : (this q == n # Z.to_pos p)%Q).
  { unfold q, Qcdiv, Qcmult, Qcinv, of_Z. cbn [this Q2Qc]. rewrite !Qred_correct. unfold inject_Z.
    destruct p as [|p|p]; try lia. unfold Qeq, Qmult, Qinv. cbn. lia. }
  unfold Qeq in E. cbn [Qnum Qden] in E. rewrite Z2Pos.id in E by exact Hp.
  set (a := Qnum (this q)) in *. set (b := Z.pos (Qden (this q))) in *. assert (Hb : 0 < b) by reflexivity.
  assert (Ha : 0 <= a) by nia.
  rewrite Z.quot_div_nonneg by lia.
  pose proof (Z.div_mod a b ltac:(lia)) as D. pose proof (Z.mod_pos_bound a b Hb) as B.
  set (q' := a / b) in *. set (r := a mod b) in *.
  apply Z.div_unique_pos with (r := n - p * q'); [|lia].
  assert (H : r * p = b * (n - p * q')) by nia. split; nia.
Qed.
Theorem C37_integers n l k : 0 <= n -> Forall (fun c => 0 < c) l ->
  size_at (of_Z n) (map of_Z l) k = n / zprod (firstn k l).
Proof.
  intros Hn Hl. unfold size_at. rewrite firstn_map, product_Z. apply to_int_div; [exact Hn|]. apply zprod_pos.
  rewrite <- (firstn_skipn k l) in Hl. apply Forall_app in Hl. tauto.
Qed.

(** *** Computation of the passes *)
Section Calcul.
Context {X : Type}.
(** [chain works couple results]: each pass is computed from the result of the previous one *)
Inductive chain : list ((X -> result X) * (X -> result X)) -> X -> list X -> Prop :=
| chain_nil x : chain [] x []
| chain_cons p f ws x y z l : p x = Ok y -> f y = Ok z -> chain ws z l -> chain ((p, f) :: ws) x (z :: l).

Lemma chain_loop ws : forall x acc st,
  py_for (fun st (w : (X -> result X) * (X -> result X)) => let '(x, results) := st in
       do y <- fst w x ; do z <- snd w y ; Ok (z, results ++ [z])) ws (x, acc) = Ok st ->
  exists l, chain ws x l /\ st = (last l x, acc ++ l).
Proof.
  induction ws as [|[p f] ws IH]; intros x acc st E; cbn [py_for] in E.
  - exists []. split; [constructor|]. rewrite app_nil_r. cbn. congruence.
  - cbn [fst snd] in E. destruct (p x) as [y|] eqn:Ep; [|discriminate]. cbn [bind] in E. destruct (f y) as [z|] eqn:Ef; [|discriminate].
    cbn [bind] in E. destruct (IH _ _ _ E) as (l & Hl & ->). exists (z :: l). split; [econstructor; eassumption|].
    rewrite <- app_assoc. f_equal. destruct l; [reflexivity|]. cbn [last]. clear. revert x0. induction l; intros; cbn [last]; [reflexivity|]. apply IHl.
Qed.
(** One result for each pass, each computed from the previous one; only the last one is completed by the interpolation. *)
Theorem C37_calcul works interp (couple : X) results :
  works <> [] -> calcul works interp couple = Ok results ->
  exists l x, chain works couple (l ++ [x]) /\ List.length results = List.length works /\
    (interp x = Ok None /\ results = l ++ [x] \/ exists x', interp x = Ok (Some x') /\ results = l ++ [x']).
Proof.
  intros Hw. unfold calcul. destruct (py_for _ _ _) as [st|] eqn:E; [|discriminate]. cbn [bind].
  destruct (chain_loop _ _ _ _ E) as (l & Hl & ->). cbn [app].
  assert (Ll : List.length l = List.length works) by (clear - Hl; induction Hl; cbn; lia).
  destruct (exists_last (l := l)) as (l' & x & El); [intros ->; destruct works; [contradiction|discriminate]|].
  subst l. rewrite last_last. destruct (interp x) as [r|] eqn:Ei; [|discriminate]. cbn [bind]. intros H.
  exists l', x. split; [exact Hl|]. rewrite app_length in H. cbn [List.length] in H. replace (List.length l' + 1 - 1)%nat with (List.length l') in H by lia.
  rewrite firstn_app, firstn_all, Nat.sub_diag in H. cbn [firstn] in H. rewrite app_nil_r in H.
  destruct r as [x'|].
  - assert (results = l' ++ [x']) as -> by congruence. rewrite app_length in *. cbn [List.length] in *. split; [lia|]. right. eauto.
  - assert (results = l' ++ [x]) as -> by congruence. split; [exact Ll|]. left. auto.
Qed.
End Calcul.

(** three passes from windows of 48 x 64 with coefficients 2 and 3; 1.5 *)
Example C37_example :
  init false (fun _ _ => Ok tt) 3 (ZSeq [of_Z 2; of_Z 3]) (SSeq [of_Z 48; of_Z 64]) SNone =
  Ok [((48, 64), (48, 64)); ((24, 32), (24, 32)); ((8, 10), (8, 10))].
Proof. vm_compute. reflexivity. Qed.
Example C37_example_15 :
  init false (fun _ _ => Ok tt) 3 (ZSeq [Q2Qc (3 # 2); Q2Qc (3 # 2)]) (SInt 50) (SInt 40) =
  Ok [((50, 50), (40, 40)); ((33, 33), (26, 26)); ((22, 22), (17, 17))].
Proof. vm_compute. reflexivity. Qed.
Example C37_example_calcul : calcul [(fun x => Ok (x + 1), fun x => Ok (2 * x)); (fun x => Ok (x + 5), fun x => Ok (3 * x))] (fun x => Ok (Some (- x))) 0 = Ok [2; -21].
Proof. reflexivity. Qed.

Print Assumptions C37_windows.
Print Assumptions C37_wrong_length.
Print Assumptions C37_wrong_length_error.
Print Assumptions C37_scalar.
Print Assumptions C37_numpy_int.
Print Assumptions C37_integers.
Print Assumptions C37_calcul.
Print Assumptions C37_correl.

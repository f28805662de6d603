(** Properties of the works used without a topology (C121). *)
From Coq Require Import Lia Bool.
From Verif Require Import PyBase StrModel NameModel NameProps InteractiveModel.
Open Scope Z_scope.

Section Series.
Variables Par Disk Ser Rs : Type.
Variable create : Par -> Disk -> result Ser.
Variable ind_start : Ser -> Z.
Variable from_index : Ser -> Disk -> Z -> result Rs.
Notation op := (op Par Disk). Notation work := (work Par Disk Ser).
Notation run := (run Par Disk Ser Rs create ind_start from_index). Notation get_serie := (get_serie Par Disk Ser Rs create ind_start from_index).
Notation step := (step Par Disk Ser Rs create ind_start from_index).

(** * Specification *)
(** the parameters and the files after a history *)
Definition now (p0 : Par) (d0 : Disk) (ops : list op) : Par * Disk :=
  fold_left (fun pd o => match o with SetParams _ _ p => (p, snd pd) | Files _ _ d => (fst pd, d) | Get _ _ _ => pd end) ops (p0, d0).
(** the serie of an index for given parameters *)
Definition serie_for (p : Par) (d_create d_now : Disk) (index : option Z) (r : result Rs) : Prop :=
  match create p d_create with Ok s => r = from_index s d_now (match index with None => ind_start s | Some i => i end) | Err e => r = Err e end.
(** a call for which the series could be created *)
Definition created (p0 : Par) (d0 : Disk) (before : list op) (o : op) : Prop :=
  exists i, o = Get _ _ i /\ exists s, create (fst (now p0 d0 before)) (snd (now p0 d0 before)) = Ok s.

Lemma now_app p0 d0 a o : now p0 d0 (a ++ [o]) = match o with SetParams _ _ p => (p, snd (now p0 d0 a)) | Files _ _ d => (fst (now p0 d0 a), d) | Get _ _ _ => now p0 d0 a end.
Proof. unfold now. rewrite fold_left_app. reflexivity. Qed.
Lemma get_params i w : w_params _ _ _ (fst (get_serie i w)) = w_params _ _ _ w /\ w_disk _ _ _ (fst (get_serie i w)) = w_disk _ _ _ w.
Proof. unfold InteractiveModel.get_serie. destruct (w_series _ _ _ w); [split; reflexivity|]. destruct (create _ _); split; reflexivity. Qed.
Lemma run_now p0 d0 ops : let w := run (mk_work _ _ _ p0 d0 None) ops in (w_params _ _ _ w, w_disk _ _ _ w) = now p0 d0 ops.
Proof.
  cbv zeta. induction ops as [|o ops IH] using rev_ind; [reflexivity|]. unfold InteractiveModel.run in *. rewrite fold_left_app, now_app. cbn [fold_left].
  rewrite <- IH. destruct o; try reflexivity. cbn [InteractiveModel.step]. destruct (get_params index (fold_left step ops (mk_work _ _ _ p0 d0 None))) as [-> ->]. reflexivity.
Qed.
Lemma run_series p0 d0 ops :
  match w_series _ _ _ (run (mk_work _ _ _ p0 d0 None) ops) with
  | Some s => exists before o after, ops = before ++ o :: after /\ created p0 d0 before o /\ create (fst (now p0 d0 before)) (snd (now p0 d0 before)) = Ok s /\
      forall b q a, before = b ++ q :: a -> ~ created p0 d0 b q
  | None => forall b q a, ops = b ++ q :: a -> ~ created p0 d0 b q
  end.
Proof.
  induction ops as [|o ops IH] using rev_ind.
  - cbn. intros [|x b] q a E; discriminate.
  - pose proof (run_now p0 d0 ops) as N. cbv zeta in N. unfold InteractiveModel.run in *. rewrite fold_left_app. cbn [fold_left]. set (w := fold_left step ops (mk_work _ _ _ p0 d0 None)) in *.
    destruct (w_series _ _ _ w) as [s|] eqn:Ew.
    + destruct IH as (b & q & a & E & C & Cs & F).
      assert (Es : w_series _ _ _ (step w o) = Some s).
      { destruct o; cbn [InteractiveModel.step]; try exact Ew. unfold InteractiveModel.get_serie. rewrite Ew. exact Ew. }
      rewrite Es. exists b, q, (a ++ [o]). subst ops. rewrite <- app_assoc. auto.
    + assert (Last : ~ created p0 d0 ops o -> forall b q a, ops ++ [o] = b ++ q :: a -> ~ created p0 d0 b q).
      { intros H b q a E. destruct a as [|x a] using rev_ind.
        - apply app_inj_tail in E as [-> ->]. exact H.
        - clear IHa. rewrite app_comm_cons, app_assoc in E. apply app_inj_tail in E as [E _]. apply (IH b q a E). }
      destruct o as [p|d|i]; cbn [InteractiveModel.step w_series].
      * rewrite Ew. apply Last. intros (i & E & _). discriminate.
      * rewrite Ew. apply Last. intros (i & E & _). discriminate.
      * unfold InteractiveModel.get_serie. rewrite Ew. destruct (create (w_params _ _ _ w) (w_disk _ _ _ w)) as [s|e] eqn:Ec; cbn [fst w_series].
        -- exists ops, (Get _ _ i), []. split; [reflexivity|]. assert (Ec' : create (fst (now p0 d0 ops)) (snd (now p0 d0 ops)) = Ok s) by (rewrite <- N; exact Ec).
           split; [exists i; split; [reflexivity|exists s; exact Ec']|]. split; [exact Ec'|]. exact IH.
        -- rewrite Ew. apply Last. intros (i' & _ & s & Es). rewrite <- N in Es. cbn [fst snd] in Es. congruence.
Qed.

(** For every history of changes of the parameters, of the files and of calls: a call gives the serie for the parameters and the files of the first
    call which could create the series, and for those of now if there was none. *)
Theorem C121_history p0 d0 ops index : let w := run (mk_work _ _ _ p0 d0 None) ops in let r := snd (get_serie index w) in
  (exists before o after, ops = before ++ o :: after /\ created p0 d0 before o /\ (forall b q a, before = b ++ q :: a -> ~ created p0 d0 b q) /\
     serie_for (fst (now p0 d0 before)) (snd (now p0 d0 before)) (snd (now p0 d0 ops)) index r) \/
  ((forall b q a, ops = b ++ q :: a -> ~ created p0 d0 b q) /\ serie_for (fst (now p0 d0 ops)) (snd (now p0 d0 ops)) (snd (now p0 d0 ops)) index r).
Proof.
  cbv zeta. pose proof (run_series p0 d0 ops) as H. pose proof (run_now p0 d0 ops) as N. cbv zeta in N. set (w := run (mk_work _ _ _ p0 d0 None) ops) in *.
  unfold InteractiveModel.get_serie. destruct (w_series _ _ _ w) as [s|] eqn:Ew.
  - left. destruct H as (b & q & a & E & C & Cs & F). exists b, q, a. split; [exact E|]. split; [exact C|]. split; [exact F|]. unfold serie_for. rewrite Cs, <- N. reflexivity.
  - right. split; [exact H|]. unfold serie_for. rewrite <- N. cbn [fst snd]. destruct (create (w_params _ _ _ w) (w_disk _ _ _ w)); reflexivity.
Qed.
(** So the parameters set after a first call are ignored, whatever is done, *)
Theorem C121_params_refuted p0 d0 i0 s0 p1 more index : create p0 d0 = Ok s0 ->
  let w := run (mk_work _ _ _ p0 d0 None) (Get _ _ i0 :: SetParams _ _ p1 :: more) in
  snd (get_serie index w) = from_index s0 (snd (now p0 d0 more)) (match index with None => ind_start s0 | Some i => i end).
Proof.
  intros E. cbv zeta. change (run (mk_work _ _ _ p0 d0 None) (Get _ _ i0 :: SetParams _ _ p1 :: more)) with (run (step (step (mk_work _ _ _ p0 d0 None) (Get _ _ i0)) (SetParams _ _ p1)) more).
  assert (E1 : step (mk_work _ _ _ p0 d0 None) (Get _ _ i0) = mk_work _ _ _ p0 d0 (Some s0)) by (cbn [InteractiveModel.step]; unfold InteractiveModel.get_serie; cbn [w_series w_params w_disk]; rewrite E; reflexivity).
  rewrite E1. cbn [InteractiveModel.step w_disk w_series].
  assert (G : forall ops p d p', let w := run (mk_work _ _ _ p d (Some s0)) ops in w_series _ _ _ w = Some s0 /\ w_disk _ _ _ w = snd (now p' d ops)).
  { induction ops as [|o ops IH]; intros p d p'; [split; reflexivity|]. cbv zeta. destruct o as [q|d'|i]; cbn.
    - apply (IH q d q).
    - apply (IH p d' p').
    - apply (IH p d p'). }
  destruct (G more p1 d0 p0) as [G1 G2]. unfold InteractiveModel.get_serie. rewrite G1, G2. reflexivity.
Qed.
(** and without a change of the parameters each call gives the serie of its index for these parameters. *)
Theorem C121_same p0 d0 s0 ops index : create p0 d0 = Ok s0 -> Forall (fun o => exists i, o = Get _ _ i) ops ->
  snd (get_serie index (run (mk_work _ _ _ p0 d0 None) ops)) = from_index s0 d0 (match index with None => ind_start s0 | Some i => i end).
Proof.
  intros E H.
  assert (N : forall b, (exists a, ops = b ++ a) -> now p0 d0 b = (p0, d0)).
  { intros b (a & ->). apply Forall_app in H as [H _]. induction b as [|o b IH] using rev_ind; [reflexivity|]. apply Forall_app in H as [H1 H2]. rewrite now_app.
    inversion H2 as [|? ? (i & ->) _]. apply IH. exact H1. }
  destruct (C121_history p0 d0 ops index) as [(b & q & a & Eo & _ & _ & S) | (_ & S)]; unfold serie_for in S.
  - rewrite (N b), (N ops) in S; [|exists []; rewrite app_nil_r; reflexivity|exists (q :: a); exact Eo]. cbn [fst snd] in S. rewrite E in S. exact S.
  - rewrite (N ops) in S by (exists []; rewrite app_nil_r; reflexivity). cbn [fst snd] in S. rewrite E in S. exact S.
Qed.
End Series.

(** * Display of the preprocessing *)
Section Preproc.
Variable I : Type.
Variable apply : list I -> result (list I).
Lemma dict_first k v (d : list (chars * I)) : ~ In k (map fst d) -> dict_get I k ((k, v) :: d) = Ok v.
Proof.
  intros H. cbn [dict_get]. assert (E : dict_get I k d = Err KeyError).
  { induction d as [|[k' v'] d IH]; [reflexivity|]. cbn [dict_get]. rewrite IH by (intros Hin; apply H; right; exact Hin).
    destruct (chars_eqb k k') eqn:Ek; [|reflexivity]. exfalso. apply H. left. apply chars_eqb_spec in Ek. symmetry. exact Ek. }
  rewrite E. assert (chars_eqb k k = true) as -> by (apply chars_eqb_spec; reflexivity). reflexivity.
Qed.
(** The figure shows the first images of the series [ind] and [ind + 1], and the first images of what the tools make of these series (if the names of the files are
    different and the tools give at least one image). *)
Theorem C121_display get read ind k0 ks0 ims0 k1 ks1 ims1 in0 in1 o0 os0 o1 os1 :
  get ind = Ok (mk_serie I (k0 :: ks0) ims0) -> get (ind + 1) = Ok (mk_serie I (k1 :: ks1) ims1) -> ~ In k0 ks0 -> ~ In k1 ks1 ->
  read k0 = Ok in0 -> read k1 = Ok in1 -> apply ims0 = Ok (o0 :: os0) -> apply ims1 = Ok (o1 :: os1) ->
  display I apply get read ind = Ok (in0, in1, o0, o1).
Proof.
  intros G0 G1 N0 N1 R0 R1 A0 A1. unfold display, calcul. rewrite G0, G1. cbn [bind arrays names]. rewrite A0, A1. cbn [bind].
  change (py_get (k0 :: ks0) 0) with (Ok k0). change (py_get (k1 :: ks1) 0) with (Ok k1). cbn [bind]. rewrite R0, R1. cbn [bind combine].
  assert (In_comb : forall k (a : list chars) (b : list I), In k (map fst (combine a b)) -> In k a).
  { intros k a b H. apply in_map_iff in H as ((k', v) & <- & H). apply in_combine_l in H. exact H. }
  rewrite !dict_first; [reflexivity| |]; intros H; apply In_comb in H; contradiction.
Qed.
(** If the tools do not give any image, or if there is no next serie, an error. *)
Theorem C121_display_last get read ind s e : get ind = Ok s -> get (ind + 1) = Err e -> display I apply get read ind = Err e.
Proof. intros G0 G1. unfold display. rewrite G0, G1. reflexivity. Qed.
End Preproc.

Print Assumptions C121_history.
Print Assumptions C121_params_refuted.
Print Assumptions C121_same.
Print Assumptions C121_display.

(** * Cases *)
Example ex_history : let create (p : Z) (d : Z) := if p <? 0 then Err ValueError else Ok (p + d) in let from (s d i : Z) := Ok (s * 100 + i) in
  let get := get_serie Z Z Z Z create (fun _ => 7) from in let run := run Z Z Z Z create (fun _ => 7) from in
  snd (get None (run (mk_work Z Z Z (-1) 0 None) [Get Z Z None; SetParams Z Z 3; Get Z Z (Some 1); SetParams Z Z 5])) = Ok 307.
Proof. reflexivity. Qed.
Example ex_display : display Z (fun l => Ok (map Z.opp l)) (fun i => Ok (mk_serie Z [py_str i] [i * 10])) (fun k => Ok 5) 1 = Ok (5, 5, -10, -20).
Proof. reflexivity. Qed.

(** Properties of the search of the executors (C120). *)
From Coq Require Import Lia Bool.
From Verif Require Import PyBase StrModel NameModel NameProps DiscoveryModel.
Open Scope Z_scope.

(** * Specification *)
(** the operations which look for the installed packages when nothing is known *)
Definition asks (o : op) : bool := match o with GetEntryPoints _ | GetNames | Compute _ | Import (inr _) => true | _ => false end.
Definition reloads (o : op) : bool := match o with GetEntryPoints true => true | _ => false end.
(** the packages at the time of an operation of a history *)
Fixpoint packages (l : list entry_point) (ops : list op) : list entry_point :=
  match ops with [] => l | Install l' :: ops' => packages l' ops' | _ :: ops' => packages l ops' end.
(** what the session knows: the packages at the last reload, otherwise at the first question, otherwise nothing *)
Definition knows (l0 : list entry_point) (ops : list op) (k : option (list entry_point)) : Prop :=
  (exists before o after, ops = before ++ o :: after /\ reloads o = true /\ existsb reloads after = false /\ k = Some (packages l0 before)) \/
  (existsb reloads ops = false /\ exists before o after, ops = before ++ o :: after /\ asks o = true /\ existsb asks before = false /\ k = Some (packages l0 before)) \/
  (existsb asks ops = false /\ k = None).
Definition named (name : chars) (l : list entry_point) : list entry_point := filter (fun e => chars_eqb (ep_name e) name) l.

Section Discovery.
Variable Cls : Type.
Variable load : chars -> result Cls.
Notation run := (run Cls load). Notation step := (step Cls load).

Lemma packages_app l a b : packages l (a ++ b) = packages (packages l a) b.
Proof. revert l. induction a as [|o a IH]; intros l; [reflexivity|]. cbn [app packages]. destruct o; apply IH. Qed.
Lemma run_app s a b : run s (a ++ b) = run (run s a) b.
Proof. unfold DiscoveryModel.run. apply fold_left_app. Qed.
Lemma step_installed s o : installed (step s o) = packages (installed s) [o].
Proof. destruct o; reflexivity. Qed.
Lemma run_installed s ops : installed (run s ops) = packages (installed s) ops.
Proof.
  revert s. induction ops as [|o ops IH]; intros s; [reflexivity|]. change (run s (o :: ops)) with (run (step s o) ops).
  rewrite IH, step_installed. change (o :: ops) with ([o] ++ ops). rewrite packages_app. reflexivity.
Qed.
Lemma step_known s o : known (step s o) =
  if reloads o then Some (installed s) else match known s with Some l => Some l | None => if asks o then Some (installed s) else None end.
Proof.
  destruct o as [l|[|]| |[e|n]|n]; cbn [DiscoveryModel.step reloads asks known]; try (destruct (known s); reflexivity).
  - unfold class_for_compute, get_executor_names, get_entry_points. destruct (known s) as [[|e l]|]; cbn [fst snd bind].
    + reflexivity.
    + destruct (existsb _ _); [|reflexivity]. reflexivity.
    + destruct (installed s) as [|e l]; cbn [bind]; [reflexivity|]. destruct (existsb _ _); reflexivity.
Qed.
Lemma reloads_asks o : reloads o = true -> asks o = true.
Proof. destruct o as [l|[|]| |[e|n]|n]; cbn; congruence. Qed.

(** After every history of a session (installations, questions, computations): what is known is what was installed at the last explicit reload, or
    if there is none at the first question. *)
Theorem C120_history l0 ops : knows l0 ops (known (run (mk_session l0 None) ops)).
Proof.
  induction ops as [|o ops IH] using rev_ind.
  - right. right. split; reflexivity.
  - rewrite run_app. cbn [DiscoveryModel.run fold_left]. change (DiscoveryModel.step Cls load) with step. set (s := run (mk_session l0 None) ops) in *.
    assert (Ei : installed s = packages l0 ops) by apply run_installed.
    rewrite step_known. destruct (reloads o) eqn:Er.
    + left. exists ops, o, []. rewrite Ei. repeat split; auto.
    + destruct IH as [(b & q & a & E & R & A & K) | [(A & b & q & a & E & R & B & K) | (A & K)]].
      * left. rewrite K. exists b, q, (a ++ [o]). subst ops. rewrite <- app_assoc. repeat split; auto. rewrite existsb_app, A. cbn. rewrite Er. reflexivity.
      * right. left. rewrite K. split; [rewrite existsb_app, A; cbn; rewrite Er; reflexivity|]. exists b, q, (a ++ [o]). subst ops. rewrite <- app_assoc. repeat split; auto.
      * rewrite K. destruct (asks o) eqn:Ea.
        -- right. left. split.
           ++ rewrite existsb_app. cbn. rewrite Er, orb_false_r. clear - A. induction ops as [|q ops IH]; [reflexivity|]. cbn in A. apply orb_false_iff in A as [A1 A2].
              cbn [existsb]. rewrite (IH A2), orb_false_r. destruct (reloads q) eqn:E; [|reflexivity]. apply reloads_asks in E. congruence.
           ++ exists ops, o, []. rewrite Ei. repeat split; auto.
        -- right. right. split; [|reflexivity]. rewrite existsb_app, A. cbn. rewrite Ea. reflexivity.
Qed.
(** A reload sees the packages installed now, whatever was done before. *)
Theorem C120_reload l0 ops e l : packages l0 ops = e :: l ->
  snd (get_entry_points (packages l0 ops) true (known (run (mk_session l0 None) ops))) = Ok (packages l0 ops).
Proof. intros E. rewrite E. unfold get_entry_points. destruct (known _); reflexivity. Qed.

Lemma filter_none name l : filter (fun e => chars_eqb (ep_name e) name) l = [] <-> ~ In name (map ep_name l).
Proof.
  split.
  - intros E Hin. apply in_map_iff in Hin as (e & En & Hin). assert (H : In e (filter (fun e => chars_eqb (ep_name e) name) l)) by (apply filter_In; split; [exact Hin|apply chars_eqb_spec; exact En]).
    rewrite E in H. exact H.
  - intros H. destruct (filter _ l) as [|e m] eqn:E; [reflexivity|]. exfalso. apply H. assert (Hin : In e (filter (fun e => chars_eqb (ep_name e) name) l)) by (rewrite E; left; reflexivity).
    apply filter_In in Hin as [Hin En]. apply chars_eqb_spec in En. rewrite <- En. apply in_map. exact Hin.
Qed.
(** The class for [compute(executor=name)], from what is known: an error if nothing is known, if the name is unknown and also if it is provided
    twice; otherwise the class of the module of this name. *)
Theorem C120_class inst name l :
  snd (class_for_compute Cls load inst name (Some l)) =
  match l with
  | [] => Err RuntimeError
  | _ => match named name l with [] => Err NotImplementedError | [e] => load (ep_module e) | _ => Err NameError end
  end.
Proof.
  unfold class_for_compute, get_executor_names, get_entry_points. destruct l as [|e l]; [reflexivity|]. cbn [bind]. set (L := e :: l). unfold named.
  destruct (existsb (fun n => chars_eqb n name) (map ep_name L)) eqn:Ex.
  - unfold import_executor_class, module_fullname, get_entry_points. cbn [bind snd L]. fold L.
    destruct (filter (fun e0 => chars_eqb (ep_name e0) name) L) as [|e1 [|e2 m]] eqn:Ef; [|reflexivity|reflexivity]. exfalso.
    apply (proj1 (filter_none name L)) in Ef. apply Ef. apply existsb_exists in Ex as (n & Hin & En). apply chars_eqb_spec in En as ->. exact Hin.
  - cbn [snd]. replace (filter (fun e0 => chars_eqb (ep_name e0) name) L) with (@nil entry_point); [reflexivity|]. symmetry. apply filter_none. intros Hin.
    assert (existsb (fun n => chars_eqb n name) (map ep_name L) = true) by (apply existsb_exists; exists name; split; [exact Hin|apply chars_eqb_spec; reflexivity]). congruence.
Qed.
(** An executor installed during the session is not found after a first question, however many times it is asked, unless there is a reload. *)
Theorem C120_new_refuted l0 ops name : existsb asks ops = true -> existsb reloads ops = false ->
  (forall before o after, ops = before ++ o :: after -> existsb asks before = false -> asks o = true -> ~ In name (map ep_name (packages l0 before))) ->
  let s := run (mk_session l0 None) ops in exists e, snd (class_for_compute Cls load (installed s) name (known s)) = Err e /\ (e = NotImplementedError \/ e = RuntimeError).
Proof.
  intros Ha Hr Hno s. subst s.
  destruct (C120_history l0 ops) as [(b & q & a & E & R & _) | [(_ & b & q & a & E & R & B & K) | (A & _)]].
  - subst ops. rewrite existsb_app in Hr. cbn in Hr. rewrite R, orb_true_r in Hr. discriminate.
  - rewrite K, C120_class. specialize (Hno b q a E B R). destruct (packages l0 b) as [|e l]; [exists RuntimeError; split; [reflexivity|right; reflexivity]|].
    replace (named name (e :: l)) with (@nil entry_point) by (symmetry; apply filter_none; exact Hno). exists NotImplementedError. split; [reflexivity|left; reflexivity].
  - congruence.
Qed.
(** In a session which never asked before, everything installed at this time is found, if each name is provided once. *)
Theorem C120_first l0 ops e : existsb asks ops = false -> let l := packages l0 ops in In e l -> NoDup (map ep_name l) ->
  let s := run (mk_session l0 None) ops in snd (class_for_compute Cls load (installed s) (ep_name e) (known s)) = load (ep_module e).
Proof.
  intros Ha l Hin Hnd s. subst s.
  assert (K : known (run (mk_session l0 None) ops) = None).
  { destruct (C120_history l0 ops) as [(b & q & a & E & R & _) | [(_ & b & q & a & E & R & _) | (_ & K)]]; [| |exact K]; subst ops; rewrite existsb_app in Ha; cbn in Ha; [apply reloads_asks in R|]; rewrite R, orb_true_r in Ha; discriminate. }
  rewrite K, run_installed. cbn [installed]. fold l.
  assert (E : class_for_compute Cls load l (ep_name e) None = class_for_compute Cls load l (ep_name e) (Some l)) by reflexivity.
  rewrite E, C120_class. destruct l as [|e0 l']; [destruct Hin|].
  assert (Ef : named (ep_name e) (e0 :: l') = [e]).
  { clear - Hin Hnd. unfold named. revert Hin Hnd. generalize (e0 :: l'). induction l as [|a l IH]; [intros []|]. intros [-> | Hin] Hnd; cbn [map filter] in *; inversion Hnd as [|? ? Ha Hl]; subst.
    - assert (chars_eqb (ep_name e) (ep_name e) = true) as -> by (apply chars_eqb_spec; reflexivity). f_equal. apply filter_none. exact Ha.
    - destruct (chars_eqb (ep_name a) (ep_name e)) eqn:Ea; [|apply IH; assumption]. exfalso. apply chars_eqb_spec in Ea. apply Ha. rewrite Ea. apply in_map. exact Hin. }
  rewrite Ef. reflexivity.
Qed.
End Discovery.

Print Assumptions C120_history.
Print Assumptions C120_reload.
Print Assumptions C120_class.
Print Assumptions C120_new_refuted.
Print Assumptions C120_first.

(** * Cases *)
Definition ep (n m : string) : entry_point := mk_ep (of_string n) (of_string m).
Example ex_history : let l := [ep "exec_sequential" "fluidimage.executors.exec_sequential"] in
  let ops := [Install l; GetNames; Install (ep "my_exec" "my_package" :: l)] in
  existsb asks ops = true /\ existsb reloads ops = false /\
  snd (class_for_compute chars Ok (packages [] ops) (of_string "my_exec") (known (run chars Ok (mk_session [] None) ops))) = Err NotImplementedError /\
  snd (class_for_compute chars Ok (packages [] ops) (of_string "my_exec") (known (run chars Ok (mk_session [] None) (ops ++ [GetEntryPoints true])))) = Ok (of_string "my_package").
Proof. repeat split; reflexivity. Qed.
Example ex_twice : snd (class_for_compute chars Ok [] (of_string "a") (Some [ep "a" "m"; ep "a" "n"])) = Err NameError.
Proof. reflexivity. Qed.

(** Property C97: processing of images by a function of the user. *)
From Coq Require Import Permutation.
From Verif Require Import PyBase StrModel StrProofs QueueModel ExecModel ExecSpec ExecProofs ExecProps Im2ImModel.

(** *** Specification *)
Section Spec.
Context {I A : Type}.
Variable imread : chars -> result I.
Notation func := (func I).

Definition no_slash (s : chars) : Prop := ~ In slash s.
(** what the documentation says: the function takes the tuple (path, image) *)
Definition user_result (f : func) (path : chars) (im : I) (out : I) : Prop := f (OText path, OImage im) = Ok out.
(** the image [name] of the directory is read and processed *)
Definition processed (f : func) (dir name : chars) (out : I) : Prop := exists im, imread (joined dir name) = Ok im /\ user_result f name im out.
(** files written in an execution, in order *)
Definition written (outcomes : list (nat * item (value I))) : list (chars * I) :=
  flat_map (fun '(_, r) => match r with inl (VSaved p im) => [(p, im)] | _ => [] end) outcomes.
(** arguments of the calls of the function of the user *)
Definition user_calls (nm : nat -> chars) (calls : list (nat * value I)) : list (obj I * obj I) :=
  flat_map (fun '(k, v) => match v with VImage im => [(OText (nm k), OImage im)] | _ => [] end) calls.
(** [l] has one element per image which satisfies [P], in the order of the images *)
Inductive for_each {K B} (P : K -> B -> Prop) : list K -> list B -> Prop :=
| fe_nil : for_each P [] []
| fe_one k ks b l : P k b -> for_each P ks l -> for_each P (k :: ks) (b :: l)
| fe_skip k ks l : (forall b, ~ P k b) -> for_each P ks l -> for_each P (k :: ks) l.
End Spec.

(** *** Lemmas *)
Lemma path_name_joined dir name : no_slash name -> path_name (joined dir name) = name.
Proof.
  intros N. assert (F : Forall (fun c => Ascii.eqb c slash = false) name).
  { apply Forall_forall. intros c Hc. apply Ascii.eqb_neq. intros ->. exact (N Hc). }
  unfold path_name, joined. induction dir as [|c dir IH].
  - cbn [app split_on]. rewrite Ascii.eqb_refl. rewrite (split_on_none slash name F). reflexivity.
  - cbn [app split_on]. destruct (Ascii.eqb c slash).
    + destruct (split_on slash (dir ++ slash :: name)) eqn:E; [destruct (split_on_nonnil _ _ E)|]. exact IH.
    + destruct (split_on slash (dir ++ slash :: name)) as [|w ws] eqn:E; [destruct (split_on_nonnil _ _ E)|].
      destruct ws as [|w' ws]; [|exact IH].
      exfalso. clear - E. revert w E. induction dir as [|c dir IH]; intros w E; cbn [app split_on] in E.
      * rewrite Ascii.eqb_refl in E. destruct (split_on slash name) eqn:Q; [destruct (split_on_nonnil _ _ Q)|discriminate].
      * destruct (Ascii.eqb c slash).
        -- destruct (split_on slash (dir ++ slash :: name)) eqn:Q; [destruct (split_on_nonnil _ _ Q)|discriminate].
        -- destruct (split_on slash (dir ++ slash :: name)) as [|v vs] eqn:Q; [destruct (split_on_nonnil _ _ Q)|]. injection E as _ ->. exact (IH v eq_refl).
Qed.
Lemma path_name_id name : no_slash name -> path_name name = name.
Proof.
  intros N. unfold path_name. rewrite split_on_none; [reflexivity|]. apply Forall_forall. intros c Hc. apply Ascii.eqb_neq. intros ->. exact (N Hc).
Qed.

Lemma for_each_in {K B} (P : K -> B -> Prop) ks l : for_each P ks l -> forall b, In b l -> exists k, In k ks /\ P k b.
Proof.
  induction 1 as [|k ks b l Hb _ IH|k ks l _ _ IH]; intros x Hx; [destruct Hx| |].
  - destruct Hx as [<-|Hx]; [exists k; split; [left; reflexivity|exact Hb]|]. destruct (IH x Hx) as (k' & ? & ?). exists k'. split; [right; assumption|assumption].
  - destruct (IH x Hx) as (k' & ? & ?). exists k'. split; [right; assumption|assumption].
Qed.

Section Topology.
Context {I A : Type}.
Variable imread : chars -> result I.
Variable f : func I.
Variable nm : nat -> chars.
Variables dir_src dir_res : chars.
Variable keys : list nat.
Hypothesis H_keys : NoDup keys.
Hypothesis H_names : forall k, In k keys -> no_slash (nm k).

Notation fs := (works_im2im imread f nm dir_res).
Notation inputs := (@queue_paths I dir_src nm keys).

Definition saved_as (k : nat) (w : chars * I) : Prop := fst w = joined dir_res (nm k) /\ processed imread f dir_src (nm k) (snd w).
Definition called_with (k : nat) (a : obj I * obj I) : Prop := exists im, imread (joined dir_src (nm k)) = Ok im /\ a = (OText (nm k), OImage im).

Lemma keys_inputs : map fst inputs = keys.
Proof. unfold queue_paths. rewrite map_map. cbn. apply map_id. Qed.

Lemma expected_written : for_each saved_as keys (written (expected (map snd fs) inputs)).
Proof.
  unfold expected, queue_paths. clear H_keys. induction keys as [|k ks IH]; [constructor|].
  assert (IH' := IH (fun x Hx => H_names x (or_intror Hx))). clear IH. cbn [map written flat_map].
  assert (N := H_names k (or_introl eq_refl)).
  cbn [works_im2im map snd pipe work_read]. destruct (imread (joined dir_src (nm k))) as [im|e] eqn:E1; cbn [bind to_item pipe work_im2im].
  - destruct (f (OText (nm k), OImage im)) as [out|e] eqn:E2; cbn [bind to_item pipe work_save].
    + rewrite path_name_id by exact N. apply fe_one; [|exact IH']. split; [reflexivity|]. exists im. split; assumption.
    + apply fe_skip; [|exact IH']. intros [p o] (_ & im' & Q1 & Q2). unfold user_result in Q2. cbn [snd] in Q2. congruence.
  - apply fe_skip; [|exact IH']. intros [p o] (_ & im' & Q1 & Q2). congruence.
Qed.

Lemma expected_user_calls : for_each called_with keys (user_calls nm (expected_calls (map snd fs) 1 inputs)).
Proof.
  unfold expected_calls, queue_paths. clear H_keys H_names. induction keys as [|k ks IH]; [constructor|].
  cbn [map flat_map]. unfold user_calls in *. rewrite flat_map_app. cbn [works_im2im map snd firstn pipe work_read].
  destruct (imread (joined dir_src (nm k))) as [im|e] eqn:E1; cbn [bind to_item flat_map app].
  - apply fe_one; [exists im; split; [assumption|reflexivity]|exact IH].
  - apply fe_skip; [|exact IH]. intros a (im & Q & _). congruence.
Qed.

(** ** Theorems *)

(** The topology with the sequential executor: for each image of the directory which can be read, in order, the function is
    called once with (name, image), and if it gives an image this image is written in the directory of the results under
    the name of the input. *)
Theorem C97_sequential : forall nmax fuel, (3 * List.length keys <= fuel)%nat ->
  exists st, seq_run fuel false nmax 3 (chain_works fs) (mk_sst (chain_queues inputs) []) = Some (st, None) /\
  for_each saved_as keys (written (finals 3 (s_tr st))) /\ for_each called_with keys (user_calls nm (calls 1 (s_tr st))).
Proof.
  intros nmax fuel Hf.
  destruct (C07_sequential_chain (value I) fs inputs nmax fuel) as (st & E & _ & F & C).
  - discriminate.
  - rewrite keys_inputs. exact H_keys.
  - unfold queue_paths. rewrite map_length. exact Hf.
  - exists st. split; [exact E|]. change (List.length fs) with 3%nat in *. rewrite F, C by lia. split; [apply expected_written|apply expected_user_calls].
Qed.

(** The same files with the asynchronous executor, whatever the schedule, when it ends. *)
Theorem C97_async : forall nb lim sie s,
  let p := mk_params nb lim sie 3 (chain_works fs) in
  reachable p (init (chain_queues inputs)) s -> a_raised s = None -> ended p s ->
  exists l c, Permutation (written (finals 3 (a_tr s))) l /\ for_each saved_as keys l /\
    Permutation (user_calls nm (calls 1 (a_tr s))) c /\ for_each called_with keys c.
Proof.
  intros nb lim sie s p HR Hr He.
  destruct (C09_stops_only_when_done (value I) fs nb lim sie inputs s) as (_ & _ & F & C); [discriminate|rewrite keys_inputs; exact H_keys|exact HR|exact Hr|right; exact He|].
  change (List.length fs) with 3%nat in *. exists (written (expected (map snd fs) inputs)), (user_calls nm (expected_calls (map snd fs) 1 inputs)).
  split; [apply Permutation_flat_map, F|]. split; [apply expected_written|]. split; [apply Permutation_flat_map, C; lia|apply expected_user_calls].
Qed.

End Topology.
Print Assumptions C97_sequential.
Print Assumptions C97_async.

(** No two images are written in the same file when the names differ. *)
Theorem C97_distinct_files : forall {I} (imread : chars -> result I) f nm dir_src dir_res keys l, NoDup (map nm keys) ->
  for_each (saved_as imread f nm dir_src dir_res) keys l -> NoDup (map fst l).
Proof.
  intros I imread f nm ds dr keys l ND H. induction H as [|k ks b l P H IH|k ks l P H IH]; cbn [map] in *; [constructor| |]; inversion ND as [|? ? Nk ND']; subst.
  - constructor; [|exact (IH ND')]. intros Hin. apply in_map_iff in Hin. destruct Hin as (w & Ew & Hw).
    destruct (for_each_in _ _ _ H w Hw) as (k' & Hk' & Q & _). destruct P as (P & _). rewrite Ew, P in Q.
    unfold joined in Q. apply app_inv_head in Q. injection Q as Q. apply Nk. rewrite Q. apply in_map, Hk'.
  - exact (IH ND').
Qed.
Print Assumptions C97_distinct_files.

Section Others.
Context {I A : Type}.
Variable import_class : chars -> chars -> result (im2im I A).

(** Which objects can be given: functions, classes, and texts "package.name" of such objects; with anything else an
    exception. *)
Theorem C97_init : forall args,
  (forall f, init_im2im_function import_class (IFunction f) args = Ok f) /\
  (forall make, init_im2im_function import_class (IClass make) args = make args) /\
  (forall package name, ~ In dot name ->
     init_im2im_function import_class (IText (package ++ dot :: name)) args =
     match import_class package name with
     | Ok (IFunction f) => Ok f | Ok (IClass make) => make args | Ok _ => Err UnboundLocalError | Err e => Err e
     end) /\
  (forall s, ~ In dot s -> init_im2im_function import_class (IText s) args = Err ValueError) /\
  (forall x, make_topology import_class x args = match x with INone => Err ValueError | _ => init_im2im_function import_class x args end).
Proof.
  assert (JS : forall s, join [dot] (split_on dot s) = s).
  { intros s. induction s as [|c s IH]; [reflexivity|]. cbn [split_on]. destruct (Ascii.eqb_spec c dot) as [->|N].
    - destruct (split_on dot s) as [|w ws] eqn:E; [destruct (split_on_nonnil _ _ E)|]. cbn [join app]. rewrite <- IH. reflexivity.
    - destruct (split_on dot s) as [|w ws] eqn:E; [destruct (split_on_nonnil _ _ E)|]. rewrite <- IH. destruct ws; reflexivity. }
  assert (NN : forall s, ~ In dot s -> split_on dot s = [s]).
  { intros s N. apply split_on_none, Forall_forall. intros c Hc. apply Ascii.eqb_neq. intros ->. exact (N Hc). }
  assert (SA : forall s t, ~ In dot t -> split_on dot (s ++ dot :: t) = split_on dot s ++ [t]).
  { intros s t N. induction s as [|c s IH].
    - cbn [app split_on]. rewrite Ascii.eqb_refl, (NN t N). reflexivity.
    - cbn [app split_on]. rewrite IH. destruct (Ascii.eqb c dot); [reflexivity|].
      destruct (split_on dot s) as [|w ws] eqn:E; [destruct (split_on_nonnil _ _ E)|]. reflexivity. }
  intros args. split; [reflexivity|]. split; [reflexivity|]. split.
  - intros package name N. unfold init_im2im_function, rsplit_dot. rewrite (SA package name N), rev_app_distr. cbn [rev app].
    destruct (rev (split_on dot package)) as [|w ws] eqn:E; [apply (f_equal (@List.length _)) in E; rewrite rev_length in E; destruct (split_on dot package) eqn:Q; [destruct (split_on_nonnil _ _ Q)|discriminate]|].
    rewrite <- E, rev_involutive, JS. cbn [bind]. destruct (import_class package name) as [[]|]; reflexivity.
  - split; [|reflexivity]. intros s N. unfold init_im2im_function, rsplit_dot. rewrite (NN s N). reflexivity.
Qed.

(** The filter of a series of images: arrays, paths and names correspond. *)
Theorem C97_filter : forall f arrays paths args, List.length arrays = List.length paths ->
  (forall names outs paths', apply_im2im_filter import_class arrays paths (IFunction f) args = Ok (Some (names, outs, paths')) ->
     paths' = paths /\ names = map path_name paths /\ Forall2 (fun '(im, p) out => user_result f p im out) (combine arrays paths) outs) /\
  ((forall im p, In (im, p) (combine arrays paths) -> exists out, user_result f p im out) ->
     exists r, apply_im2im_filter import_class arrays paths (IFunction f) args = Ok (Some r)).
Proof.
  intros f arrays paths args EL. unfold apply_im2im_filter. cbn [init_im2im_function bind].
  assert (EP : map snd (combine arrays paths) = paths).
  { clear -EL. revert paths EL. induction arrays as [|a l IH]; intros [|p q]; cbn; try discriminate; [reflexivity|]. intros E. f_equal. apply IH. lia. }
  split.
  - intros names outs paths'.
    assert (L : forall l n0 a0 p0 r, filter_loop f l (n0, a0, p0) = Ok r ->
      exists outs, r = (n0 ++ map path_name (map snd l), a0 ++ outs, p0 ++ map snd l) /\ Forall2 (fun '(im, p) out => user_result f p im out) l outs).
    { induction l as [|[im p] l IH]; intros n0 a0 p0 r E.
      - injection E as <-. exists []. rewrite !app_nil_r. split; [reflexivity|constructor].
      - cbn [filter_loop] in E. destruct (f (OText p, OImage im)) as [o|e] eqn:Ef; [|discriminate]. cbn [bind] in E.
        destruct (IH _ _ _ _ E) as (outs0 & -> & F). exists (o :: outs0). rewrite <- !app_assoc. split; [reflexivity|]. constructor; [exact Ef|exact F]. }
    destruct (filter_loop f (combine arrays paths) ([], [], [])) as [r|e] eqn:E; [|discriminate]. cbn [bind]. intros Q. injection Q as ->.
    destruct (L _ _ _ _ _ E) as (outs0 & Q & F). cbn [app] in Q. injection Q as -> -> ->. rewrite EP. split; [reflexivity|]. split; [reflexivity|exact F].
  - intros H. assert (L : forall l acc, (forall im p, In (im, p) l -> exists out, user_result f p im out) -> exists r, filter_loop f l acc = Ok r).
    { clear. induction l as [|[im p] l IH]; intros [[n0 a0] p0] H; [eexists; reflexivity|]. cbn [filter_loop].
      destruct (H im p (or_introl eq_refl)) as (o & E). unfold user_result in E. rewrite E. cbn [bind]. apply IH. intros im' p' Hin. apply H. right. exact Hin. }
    destruct (L _ ([], [], []) H) as (r & ->). exists r. reflexivity.
Qed.

(** [display] calls the function with (name, image), but [process_1_image] with (image, name): a function which reads its
    argument as documented has no result. *)
Theorem C97_process_refuted : forall (serie : Z -> result (I * chars)) (f : func I) im0 name0 im1 name1 out0 out1,
  serie 0 = Ok (im0, name0) -> serie 1 = Ok (im1, name1) ->
  user_result f name0 im0 out0 -> user_result f name1 im1 out1 ->
  (forall im x, f (OImage im, x) = Err TypeError) ->
  display serie f 0 = Ok (im0, im1, (out0, out1)) /\ process_1_image serie f 0 = Err TypeError.
Proof.
  intros serie f im0 name0 im1 name1 out0 out1 S0 S1 U0 U1 Hf. unfold display, process_1_image, user_result in *.
  rewrite S0. change (0 + 1) with 1. rewrite S1. cbn [bind]. rewrite U0, U1. cbn [bind]. split; [reflexivity|apply Hf].
Qed.

(** An object which can be called but is neither a function of Python nor a class (method, partial function, builtin
    function) is refused with UnboundLocalError. *)
Theorem C97_other_refuted : forall f args, init_im2im_function import_class (IOther f) args = Err UnboundLocalError /\
  make_topology import_class (IOther f) args = Err UnboundLocalError /\ init_im2im_function import_class INone args = Err UnboundLocalError.
Proof. intros. repeat split. Qed.

(** The names given with arrays are ignored. *)
Theorem C97_names_refuted : forall R (calcul : list I * list chars -> result R) arrays names names',
  calcul_from_arrays calcul arrays names = calcul_from_arrays calcul arrays names'.
Proof. reflexivity. Qed.
End Others.
Print Assumptions C97_init. Print Assumptions C97_filter. Print Assumptions C97_process_refuted. Print Assumptions C97_other_refuted. Print Assumptions C97_names_refuted.

(** A function which depends on the directory gives different images with the topology (name) and with the filter (path). *)
Theorem C97_path_refuted : exists (f : func Z) imread dir name,
  no_slash name /\ imread (joined dir name) = Ok 0 /\
  apply_im2im_filter (fun _ _ => Err KeyError) [0] [joined dir name] (IFunction f) tt = Ok (Some ([name], [1], [joined dir name])) /\
  exists st, seq_run 3 false 8 3 (chain_works (works_im2im imread f (fun _ => name) (of_string "out"))) (mk_sst (chain_queues (queue_paths dir (fun _ => name) [0%nat])) []) = Some (st, None) /\
  written (finals 3 (s_tr st)) = [(joined (of_string "out") name, 2)].
Proof.
  exists (fun '(a, b) => match a with OText s => Ok (if existsb (Ascii.eqb slash) s then 1 else 2) | _ => Err TypeError end), (fun _ => Ok 0), (of_string "dir"), (of_string "a.png").
  split; [intros H; cbn in H; intuition discriminate|]. split; [reflexivity|]. split; [vm_compute; reflexivity|]. eexists. split; vm_compute; reflexivity.
Qed.
Print Assumptions C97_path_refuted.

Example C97_example :
  NoDup [0%nat; 1%nat] /\ no_slash (of_string "a.png") /\
  exists st, seq_run 6 false 8 3 (chain_works (works_im2im (fun _ => Ok 3) (fun '(a, b) => match a, b with OText _, OImage i => Ok (2 * i) | _, _ => Err TypeError end)
      (fun k => match k with O => of_string "a.png" | _ => of_string "b.png" end) (of_string "out")))
    (mk_sst (chain_queues (queue_paths (of_string "in") (fun k => match k with O => of_string "a.png" | _ => of_string "b.png" end) [0%nat; 1%nat])) []) = Some (st, None) /\
  written (finals 3 (s_tr st)) = [(of_string "out/a.png", 6); (of_string "out/b.png", 6)].
Proof.
  split; [repeat constructor; cbn; intuition discriminate|]. split; [intros H; cbn in H; intuition discriminate|]. eexists. split; vm_compute; reflexivity.
Qed.

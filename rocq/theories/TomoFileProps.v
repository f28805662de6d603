(** C134: the file of a volume has the product of the cameras.  C135: each camera is projected with
    its own calibration. *)
From Coq Require Import String Lia.
From Verif Require Import PyBase TomoFileModel.
Import ListNotations.
Open Scope Z_scope.

Section C134.
Context {V image : Type}.
Variables (mul : V -> V -> V) (one : V) (root : V -> V).
Variables (file_of : image -> string) (tmp_of : string -> string).
Notation content := (content V).
Notation state := (state V).
Notation fs_get := (fs_get V).
Notation fs_set := (fs_set V).
Notation fs_del := (fs_del V).
Notation reconstruct_save := (reconstruct_save V mul root image tmp_of).
Notation reconstruct_memory := (reconstruct_memory V mul root image).
Notation init_paths := (init_paths V image file_of).

(** *** Specification *)
(** a program: init_paths(image) then reconstruct(pix, image, save=True), for a list of images of the
    cameras with the intensities interpolated at the voxels *)
Fixpoint run (calls : list (image * list V)) (s : state) : result unit * state :=
  match calls with
  | [] => (Ok tt, s)
  | (im, values) :: calls =>
      match reconstruct_save im values (init_paths im s) with
      | (Ok _, s') => run calls s'
      | (Err e, s') => (Err e, s')
      end
  end.
(** the intensities given for the images of a file, in the order of the calls *)
Definition given (p : string) (calls : list (image * list V)) : list (list V) :=
  map snd (filter (fun c => String.eqb (file_of (fst c)) p) calls).
(** the product for one voxel of the roots of the intensities given by several cameras *)
Definition voxel (j : nat) (vs : list (list V)) (o : option V) : Prop :=
  match vs with
  | [] => o = None
  | v :: vs => exists x, nth_error v j = Some x /\
      exists xs, Forall2 (fun v x => nth_error v j = Some x) vs xs /\ o = Some (fold_left (fun a x => mul a (root x)) xs (root x))
  end.

Lemma get_del p q f : fs_get p (fs_del q f) = if String.eqb p q then None else fs_get p f.
Proof.
  induction f as [|(r, c) f IH]; cbn; [destruct (String.eqb p q); reflexivity|].
  destruct (String.eqb_spec q r) as [->|Hq].
  - rewrite IH. destruct (String.eqb_spec p r); reflexivity.
  - cbn. destruct (String.eqb_spec p r) as [->|Hp]; [|exact IH]. destruct (String.eqb_spec r q); [congruence|reflexivity].
Qed.
Lemma get_set p q c f : fs_get p (fs_set q c f) = if String.eqb p q then Some c else fs_get p f.
Proof. unfold TomoFileModel.fs_set. cbn. rewrite get_del. destruct (String.eqb p q); reflexivity. Qed.

Lemma product_ok (a b : list V) : List.length a = List.length b ->
  exists l, product V mul a b = Ok l /\ List.length l = List.length a /\
    forall j x y, nth_error a j = Some x -> nth_error b j = Some y -> nth_error l j = Some (mul x y).
Proof.
  intros H. unfold product, zlen. rewrite H, Z.eqb_refl. eexists. split; [reflexivity|]. split; [rewrite map_length, combine_length; lia|].
  revert b H. induction a as [|u a IH]; intros [|w b] H [|j] x y Hx Hy; cbn in *; try discriminate.
  - injection Hx as <-. injection Hy as <-. reflexivity.
  - eapply IH; eauto.
Qed.

(** one call of the program *)
Lemma one_call n im values s : List.length values = n ->
  tmp_of (file_of im) <> file_of im ->
  (forall c, fs_get (file_of im) (fs s) = Some c -> exists l, c = Good l /\ List.length l = n) ->
  exists s', reconstruct_save im values (init_paths im s) = (Ok tt, s') /\
    (forall p, p <> file_of im -> p <> tmp_of (file_of im) -> fs_get p (fs s') = fs_get p (fs s)) /\
    (fs_get (file_of im) (fs s) <> None -> fs_get (tmp_of (file_of im)) (fs s') = None) /\
    (fs_get (file_of im) (fs s) = None -> fs_get (tmp_of (file_of im)) (fs s') = fs_get (tmp_of (file_of im)) (fs s)) /\
    exists l, fs_get (file_of im) (fs s') = Some (Good l) /\ List.length l = n /\
      forall j x, nth_error values j = Some x ->
        nth_error l j = Some match fs_get (file_of im) (fs s) with
          | Some (Good l0) => match nth_error l0 j with Some y => mul y (root x) | None => root x end
          | _ => root x end.
Proof.
  intros Hn Ht Hg. unfold TomoFileModel.reconstruct_save, TomoFileModel.init_paths. cbn [h5file_path fs vol].
  destruct (fs_get (file_of im) (fs s)) as [c|] eqn:E.
  - destruct (Hg c eq_refl) as (l0 & -> & Hl0).
    destruct (product_ok l0 (map root values)) as (l & -> & Hl & Hv); [rewrite map_length; congruence|].
    eexists. split; [reflexivity|]. cbn [fs]. repeat split.
    + intros p Hp Hq. rewrite get_del, !get_set. destruct (String.eqb_spec p (tmp_of (file_of im))); [contradiction|].
      destruct (String.eqb_spec p (file_of im)); [contradiction|]. reflexivity.
    + intros _. rewrite get_del, String.eqb_refl. reflexivity.
    + discriminate.
    + exists l. rewrite get_del, get_set, String.eqb_refl. destruct (String.eqb_spec (file_of im) (tmp_of (file_of im))); [congruence|].
      split; [reflexivity|]. split; [congruence|]. intros j x Hx. destruct (nth_error l0 j) as [y|] eqn:Ey.
      * apply Hv; [exact Ey|]. rewrite nth_error_map, Hx. reflexivity.
      * exfalso. apply nth_error_None in Ey. assert (j < List.length values)%nat by (apply nth_error_Some; congruence). lia.
  - eexists. split; [reflexivity|]. cbn [fs]. repeat split.
    + intros p Hp _. rewrite get_set. destruct (String.eqb_spec p (file_of im)); [contradiction|reflexivity].
    + congruence.
    + intros _. rewrite get_set. destruct (String.eqb_spec (tmp_of (file_of im)) (file_of im)); [contradiction|reflexivity].
    + exists (map root values). rewrite get_set, String.eqb_refl. split; [reflexivity|]. split; [rewrite map_length; exact Hn|].
      intros j x Hx. rewrite nth_error_map, Hx. reflexivity.
Qed.

(** what [run] leaves in the files, from files which hold the product of the intensities [before] *)
Definition holds (n : nat) (before : string -> list (list V)) (f : list (string * content)) (p : string) : Prop :=
  match before p with
  | [] => fs_get p f = None
  | _ => exists l, fs_get p f = Some (Good l) /\ List.length l = n /\ forall j, (j < n)%nat -> voxel j (before p) (nth_error l j)
  end.

Lemma voxel_snoc j vs v x a : voxel j vs (Some a) -> nth_error v j = Some x -> voxel j (vs ++ [v]) (Some (mul a (root x))).
Proof.
  destruct vs as [|v0 vs]; cbn [voxel app]; [discriminate|]. intros (x0 & H0 & xs & HF & E) Hx. injection E as ->.
  exists x0. split; [exact H0|]. exists (xs ++ [x]). split; [apply Forall2_app; [exact HF|constructor; [exact Hx|constructor]]|].
  rewrite fold_left_app. reflexivity.
Qed.

Lemma run_holds n calls : forall before s,
  (forall im values, In (im, values) calls -> List.length values = n) ->
  (forall im im', tmp_of (file_of im) <> file_of im') ->
  (forall im, holds n before (fs s) (file_of im)) ->
  exists s', run calls s = (Ok tt, s') /\
    forall im, holds n (fun p => before p ++ given p calls) (fs s') (file_of im).
Proof.
  induction calls as [|(im, values) calls IH]; intros before s Hn Ht Hb.
  - exists s. split; [reflexivity|]. intros im. unfold holds, given. cbn [filter map]. rewrite app_nil_r. apply Hb.
  - cbn [run]. destruct (one_call n im values s) as (s1 & E1 & O1 & _ & _ & l & El & Ll & Vl).
    { apply (Hn im). left. reflexivity. }
    { apply Ht. }
    { intros c Hc. pose proof (Hb im) as K. unfold holds in K. destruct (before (file_of im)) as [|v vs].
      - congruence.
      - destruct K as (l & K & Kl & _). rewrite K in Hc. injection Hc as <-. eauto. }
    rewrite E1.
    destruct (IH (fun p => before p ++ (if String.eqb (file_of im) p then [values] else [])) s1) as (s' & E' & H').
    { intros im' v' Hin. apply (Hn im'). right. exact Hin. }
    { exact Ht. }
    { intros im'. unfold holds. destruct (String.eqb_spec (file_of im) (file_of im')) as [He|He].
      - rewrite <- He. destruct (before (file_of im) ++ [values]) as [|w ws] eqn:Ew; [destruct (before (file_of im)); discriminate|].
        rewrite <- Ew. exists l. split; [exact El|]. split; [exact Ll|]. intros j Hj.
        assert (Hv : exists x, nth_error values j = Some x).
        { destruct (nth_error values j) eqn:Ex; [eauto|]. apply nth_error_None in Ex. rewrite (Hn im values) in Ex by (left; reflexivity). lia. }
        destruct Hv as (x & Hx). rewrite (Vl j x Hx). pose proof (Hb im) as K. unfold holds in K.
        destruct (before (file_of im)) as [|v vs].
        + rewrite K. cbn [voxel app]. exists x. split; [exact Hx|]. exists []. split; [constructor|reflexivity].
        + destruct K as (l0 & K & Kl & Kv). rewrite K. specialize (Kv j Hj).
          destruct (nth_error l0 j) as [y|] eqn:Ey; [|apply nth_error_None in Ey; lia]. apply voxel_snoc; assumption.
      - rewrite app_nil_r. assert (Hp : fs_get (file_of im') (fs s1) = fs_get (file_of im') (fs s)).
        { apply O1; [congruence|]. intros K. apply (Ht im im'). congruence. }
        rewrite Hp. apply Hb. }
    exists s'. split; [exact E'|]. intros im'. specialize (H' im'). unfold holds, given in *. cbn [filter map fst] in *.
    destruct (String.eqb (file_of im) (file_of im')); cbn [map snd] in *; rewrite <- app_assoc in H'; exact H'.
Qed.

(** For every sequence of images of any cameras and any times, in any order: the file of each image
    has for each voxel the product of the roots of the intensities given for this file, and the
    files of which no image was given do not exist. *)
Theorem C134_history : forall n calls s,
  fs s = [] ->
  (forall im values, In (im, values) calls -> List.length values = n) ->
  (forall im im', tmp_of (file_of im) <> file_of im') ->
  exists s', run calls s = (Ok tt, s') /\
    forall im,
      match given (file_of im) calls with
      | [] => fs_get (file_of im) (fs s') = None
      | vs => exists l, fs_get (file_of im) (fs s') = Some (Good l) /\ List.length l = n /\
                forall j, (j < n)%nat -> voxel j vs (nth_error l j)
      end.
Proof.
  intros n calls s Hs Hn Ht. destruct (run_holds n calls (fun _ => []) s Hn Ht) as (s' & E & H).
  { intros im. unfold holds. rewrite Hs. reflexivity. }
  exists s'. split; [exact E|]. intros im. specialize (H im). unfold holds in H. cbn [app] in H.
  destruct (given (file_of im) calls); exact H.
Qed.

(** No copy is left. *)
Theorem C134_no_copy : forall n calls s,
  fs s = [] ->
  (forall im values, In (im, values) calls -> List.length values = n) ->
  (forall im im', tmp_of (file_of im) <> file_of im') ->
  forall s', run calls s = (Ok tt, s') -> forall im, fs_get (tmp_of (file_of im)) (fs s') = None.
Proof.
  intros n calls s Hs Hn Ht.
  assert (H : forall calls before s, (forall im values, In (im, values) calls -> List.length values = n) ->
     (forall im, holds n before (fs s) (file_of im)) -> (forall im, fs_get (tmp_of (file_of im)) (fs s) = None) ->
     forall s', run calls s = (Ok tt, s') -> forall im, fs_get (tmp_of (file_of im)) (fs s') = None).
  { clear calls s Hs Hn. induction calls as [|(im, values) calls IH]; intros before s Hn Hb Hc s' E im0.
    { cbn [run] in E. apply (f_equal snd) in E. cbn [snd] in E. subst s'. apply Hc. }
    cbn [run] in E. destruct (one_call n im values s) as (s1 & E1 & O1 & O2 & O3 & _).
    { apply (Hn im). left. reflexivity. }
    { apply Ht. }
    { intros c Hd. pose proof (Hb im) as K. unfold holds in K. destruct (before (file_of im)) as [|v vs].
      - congruence.
      - destruct K as (l & K & Kl & _). rewrite K in Hd. injection Hd as <-. eauto. }
    destruct (run_holds n [(im, values)] before s) as (s2 & E2 & H2); [|exact Ht|exact Hb|].
    { intros im' v' [K|[]]. injection K as <- <-. apply (Hn im). left. reflexivity. }
    cbn [run] in E2. rewrite E1 in E2, E. apply (f_equal snd) in E2. cbn [snd] in E2. subst s2.
    refine (IH _ s1 _ H2 _ s' E im0).
    - intros im' v' Hin. apply (Hn im'). right. exact Hin.
    - intros im1. destruct (String.eqb_spec (tmp_of (file_of im1)) (tmp_of (file_of im))) as [Ee|Ee].
      + rewrite Ee. destruct (fs_get (file_of im) (fs s)) eqn:Ef; [apply O2; discriminate|]. rewrite O3 by reflexivity. apply Hc.
      + rewrite O1; [apply Hc|apply Ht|exact Ee]. }
  apply (H calls (fun _ => [])); [exact Hn|intros im; unfold holds; rewrite Hs; reflexivity|intros im; rewrite Hs; reflexivity].
Qed.

(** Without save the files do not change, and the intensities in memory are multiplied; but after a
    second camera was saved, the call does nothing useful and raises nothing. *)
Theorem C134_no_save : forall im values l p f, List.length l = List.length values ->
  exists s', reconstruct_memory im values {| vol := Mem l; h5file_path := p; fs := f |} = (Ok tt, s') /\ fs s' = f /\ h5file_path s' = p /\
    exists l', read_I V s' = Ok l' /\ List.length l' = List.length l /\
      forall j x y, nth_error l j = Some x -> nth_error values j = Some y -> nth_error l' j = Some (mul x (root y)).
Proof.
  intros im values l p f Hl. destruct (product_ok l (map root values)) as (l' & E & L & H); [rewrite map_length; exact Hl|].
  unfold TomoFileModel.reconstruct_memory. cbn [vol h5file_path fs]. rewrite E. eexists. split; [reflexivity|].
  split; [reflexivity|]. split; [reflexivity|]. exists l'. split; [reflexivity|]. split; [exact L|].
  intros j x y Hx Hy. apply H; [exact Hx|]. rewrite nth_error_map, Hy. reflexivity.
Qed.
Theorem C134_no_save_refuted : forall im im' values values' s s', fs_get (file_of im) (fs s) <> None ->
  reconstruct_save im values (init_paths im s) = (Ok tt, s') ->
  exists s'', reconstruct_memory im' values' s' = (Ok tt, s'') /\ read_I V s'' = Err ValueError.
Proof.
  intros im im' values values' s s' Hf H. unfold TomoFileModel.reconstruct_save, TomoFileModel.init_paths in H. cbn [h5file_path fs vol] in H.
  destruct (fs_get (file_of im) (fs s)) as [[dset|]|]; [destruct (product V mul dset (map root values))| |contradiction Hf; reflexivity];
    try discriminate H; apply (f_equal snd) in H; cbn [snd] in H; subst s'. eexists. split; reflexivity.
Qed.

(** Another number of voxels: ValueError, the file is kept, but the copy is left. *)
Theorem C134_size : forall im values s dset, tmp_of (file_of im) <> file_of im ->
  fs_get (file_of im) (fs s) = Some (Good dset) -> List.length dset <> List.length values ->
  exists s', reconstruct_save im values (init_paths im s) = (Err ValueError, s') /\
    (forall p, p <> tmp_of (file_of im) -> fs_get p (fs s') = fs_get p (fs s)) /\
    fs_get (tmp_of (file_of im)) (fs s') = Some (Good dset).
Proof.
  intros im values s dset Ht Hd Hn. unfold TomoFileModel.reconstruct_save, TomoFileModel.init_paths. cbn [h5file_path fs vol]. rewrite Hd.
  replace (product V mul dset (map root values)) with (@Err (list V) ValueError).
  2:{ unfold product, zlen. rewrite map_length. destruct (Z.eqb_spec (Z.of_nat (List.length dset)) (Z.of_nat (List.length values))); [lia|reflexivity]. }
  eexists. split; [reflexivity|]. cbn [fs]. split.
  - intros p Hp. rewrite get_set. destruct (String.eqb_spec p (tmp_of (file_of im))); [contradiction|reflexivity].
  - rewrite get_set, String.eqb_refl. reflexivity.
Qed.

(** The hypothesis on the names is needed: the file of an image called like the copy (im_tmp beside
    im) is removed by the second camera. *)
Theorem C134_tmp_name_refuted : forall im im' values s s', file_of im' = tmp_of (file_of im) ->
  fs_get (file_of im) (fs s) <> None -> reconstruct_save im values (init_paths im s) = (Ok tt, s') ->
  fs_get (file_of im') (fs s') = None.
Proof.
  intros im im' values s s' He Hf H. unfold TomoFileModel.reconstruct_save, TomoFileModel.init_paths in H. cbn [h5file_path fs vol] in H.
  destruct (fs_get (file_of im) (fs s)) as [[dset|]|]; [destruct (product V mul dset (map root values))| |contradiction Hf; reflexivity];
    try discriminate H; apply (f_equal snd) in H; cbn [snd] in H; subst s'. cbn [fs]. rewrite He, get_del, String.eqb_refl. reflexivity.
Qed.

(** The image given to reconstruct does not choose the file: after init_paths(im1), the intensities
    of another image go in the file of im1, and the file of this other image does not change. *)
Theorem C134_image_refuted : forall im1 im2 values s,
  reconstruct_save im2 values (init_paths im1 s) = reconstruct_save im1 values (init_paths im1 s) /\
  (file_of im2 <> file_of im1 -> tmp_of (file_of im1) <> file_of im2 ->
   fs_get (file_of im2) (fs (snd (reconstruct_save im2 values (init_paths im1 s)))) = fs_get (file_of im2) (fs s)).
Proof.
  intros im1 im2 values s. split; [reflexivity|]. intros H1 H2.
  unfold TomoFileModel.reconstruct_save, TomoFileModel.init_paths. cbn [h5file_path fs vol].
  assert (E1 : String.eqb (file_of im2) (file_of im1) = false) by (apply String.eqb_neq; exact H1).
  assert (E2 : String.eqb (file_of im2) (tmp_of (file_of im1)) = false) by (apply String.eqb_neq; congruence).
  destruct (fs_get (file_of im1) (fs s)) as [[dset|]|].
  - destruct (product V mul dset (map root values)); cbn [snd fs]; rewrite ?get_del, ?get_set, ?E1, ?E2; reflexivity.
  - cbn [snd fs]. rewrite get_set, E2. reflexivity.
  - cbn [snd fs]. rewrite get_set, E1. reflexivity.
Qed.

(** Without init_paths nothing can be saved, and with it AttributeError is never raised. *)
Theorem C134_no_path_iff : forall im values s,
  fst (reconstruct_save im values s) = Err AttributeError <-> h5file_path s = None.
Proof.
  intros im values s. unfold TomoFileModel.reconstruct_save. destruct (h5file_path s) as [p|]; [|split; reflexivity].
  split; [|discriminate]. destruct (fs_get p (fs s)) as [[dset|]|]; cbn [fst]; try discriminate.
  unfold product. destruct (zlen dset =? _); cbn [fst]; discriminate.
Qed.

(** After a call which saves, the intensities can be used in memory if and only if this call created
    the file: after the second camera, [I] refers to a file which has been closed and removed. *)
Theorem C134_memory_iff : forall im values s s', reconstruct_save im values (init_paths im s) = (Ok tt, s') ->
  ((exists l, read_I V s' = Ok l) <-> fs_get (file_of im) (fs s) = None).
Proof.
  intros im values s s' H. unfold TomoFileModel.reconstruct_save, TomoFileModel.init_paths in H. cbn [h5file_path fs vol] in H.
  destruct (fs_get (file_of im) (fs s)) as [[dset|]|]; [destruct (product V mul dset (map root values))| |];
    try discriminate H; apply (f_equal snd) in H; cbn [snd] in H; subst s'; unfold read_I; cbn [vol].
  - split; [intros (l & K); discriminate K|discriminate].
  - split; eauto.
Qed.

(** load gives back what is in the file, for every call which saves. *)
Theorem C134_load : forall im values s s', tmp_of (file_of im) <> file_of im ->
  reconstruct_save im values (init_paths im s) = (Ok tt, s') ->
  exists l s'', fs_get (file_of im) (fs s') = Some (Good l) /\ load V s' = (Ok tt, s'') /\ read_I V s'' = Ok l /\ fs s'' = fs s'.
Proof.
  intros im values s s' Ht H. unfold TomoFileModel.reconstruct_save, TomoFileModel.init_paths in H. cbn [h5file_path fs vol] in H.
  assert (E : String.eqb (file_of im) (tmp_of (file_of im)) = false) by (apply String.eqb_neq; congruence).
  destruct (fs_get (file_of im) (fs s)) as [[dset|]|]; [destruct (product V mul dset (map root values)) as [prod|]| |];
    try discriminate H; apply (f_equal snd) in H; cbn [snd] in H; subst s'.
  - assert (G : fs_get (file_of im) (fs_del (tmp_of (file_of im)) (fs_set (file_of im) (Good prod) (fs_set (tmp_of (file_of im)) (Good dset) (fs s)))) = Some (Good prod)).
    { rewrite get_del, get_set, E, String.eqb_refl. reflexivity. }
    unfold load. cbn [h5file_path fs vol]. rewrite G. eauto 8.
  - assert (G : fs_get (file_of im) (fs_set (file_of im) (Good (map root values)) (fs s)) = Some (Good (map root values))).
    { rewrite get_set, String.eqb_refl. reflexivity. }
    unfold load. cbn [h5file_path fs vol]. rewrite G. eauto 8.
Qed.

(** clear removes the file, and puts the intensities to one if and only if they are a numpy array:
    after a call which saved, they are kept. *)
Theorem C134_clear : forall l p f,
  exists s', clear V one {| vol := Mem l; h5file_path := Some p; fs := f |} = (Ok tt, s') /\
    read_I V s' = Ok (repeat one (List.length l)) /\ fs_get p (fs s') = None.
Proof. intros l p f. eexists. split; [reflexivity|]. split; [reflexivity|]. cbn [fs]. rewrite get_del, String.eqb_refl. reflexivity. Qed.
Theorem C134_clear_refuted : forall im values s s' s'', fs_get (file_of im) (fs s) = None ->
  reconstruct_save im values (init_paths im s) = (Ok tt, s') -> clear V one s' = (Ok tt, s'') ->
  read_I V s'' = Ok (map root values) /\ fs_get (file_of im) (fs s'') = None.
Proof.
  intros im values s s' s'' Hf H C. unfold TomoFileModel.reconstruct_save, TomoFileModel.init_paths in H. cbn [h5file_path fs vol] in H.
  rewrite Hf in H. apply (f_equal snd) in H. cbn [snd] in H. subst s'. unfold clear in C. cbn [vol h5file_path fs] in C.
  apply (f_equal snd) in C. cbn [snd] in C. subst s''. split; [reflexivity|]. cbn [fs]. rewrite get_del, String.eqb_refl. reflexivity.
Qed.

(** *** The program is stopped *)
(** all the writes give the files of a call which returns *)
Lemma effects_all junk p dset prod f : tmp_of p <> p ->
  forall q, fs_get q (stopped_after V tmp_of 5 junk p (Good dset) prod f)
          = fs_get q (fs_del (tmp_of p) (fs_set p (Good prod) (fs_set (tmp_of p) (Good dset) f))).
Proof.
  intros Ht q. unfold stopped_after, effects. cbn [firstn fold_left apply_effect].
  rewrite !get_del, !get_set. destruct (String.eqb q (tmp_of p)), (String.eqb q p); reflexivity.
Qed.

(** Wherever the program stops, the product of the previous cameras is still in the file or in its
    copy, or the file has the new product. *)
Theorem C134_stopped : forall k junk im values s dset prod, tmp_of (file_of im) <> file_of im ->
  fs_get (file_of im) (fs s) = Some (Good dset) -> product V mul dset (map root values) = Ok prod ->
  (exists s', reconstruct_save im values (init_paths im s) = (Ok tt, s') /\
     forall q, fs_get q (fs s') = fs_get q (stopped_after V tmp_of 5 junk (file_of im) (Good dset) prod (fs s))) /\
  let f := stopped_after V tmp_of k junk (file_of im) (Good dset) prod (fs s) in
  fs_get (file_of im) f = Some (Good dset) \/ fs_get (tmp_of (file_of im)) f = Some (Good dset) \/
  fs_get (file_of im) f = Some (Good prod).
Proof.
  intros k junk im values s dset prod Ht Hd Hp. split.
  - unfold TomoFileModel.reconstruct_save, TomoFileModel.init_paths. cbn [h5file_path fs vol]. rewrite Hd, Hp.
    eexists. split; [reflexivity|]. intros q. cbn [fs]. rewrite effects_all by exact Ht. reflexivity.
  - assert (E1 : String.eqb (file_of im) (tmp_of (file_of im)) = false) by (apply String.eqb_neq; congruence).
    assert (E2 : String.eqb (tmp_of (file_of im)) (file_of im) = false) by (apply String.eqb_neq; congruence).
    unfold stopped_after, effects. cbv zeta.
    do 5 (destruct k as [|k]; [cbn [firstn fold_left apply_effect];
      rewrite ?get_del, ?get_set, ?E1, ?E2, ?String.eqb_refl, ?Hd; auto|]).
    rewrite firstn_all2 by (cbn; lia). cbn [fold_left apply_effect].
    rewrite ?get_del, ?get_set, ?E1, ?E2, ?String.eqb_refl; auto.
Qed.

(** But the next call copies the damaged file over its copy: when the program was stopped while the
    file was written, the product of the previous cameras is lost; the call fails if the file is not
    readable, and silently uses what was stored if it is. *)
Theorem C134_lost_refuted : forall junk im values values' s dset prod, tmp_of (file_of im) <> file_of im ->
  fs_get (file_of im) (fs s) = Some (Good dset) -> product V mul dset (map root values) = Ok prod ->
  let f := stopped_after V tmp_of 3 junk (file_of im) (Good dset) prod (fs s) in
  forall v r s', reconstruct_save im values' (init_paths im {| vol := v; h5file_path := None; fs := f |}) = (r, s') ->
  match junk with
  | Broken => r = Err OSError /\ fs_get (file_of im) (fs s') = Some Broken /\ fs_get (tmp_of (file_of im)) (fs s') = Some Broken
  | Good w => List.length w = List.length values' -> r = Ok tt /\ fs_get (tmp_of (file_of im)) (fs s') = None /\
      exists l, product V mul w (map root values') = Ok l /\ fs_get (file_of im) (fs s') = Some (Good l)
  end.
Proof.
  intros junk im values values' s dset prod Ht Hd Hp f v r s' H.
  assert (E1 : String.eqb (file_of im) (tmp_of (file_of im)) = false) by (apply String.eqb_neq; congruence).
  assert (E2 : String.eqb (tmp_of (file_of im)) (file_of im) = false) by (apply String.eqb_neq; congruence).
  assert (G : fs_get (file_of im) f = Some junk).
  { unfold f, stopped_after, effects. cbn [firstn fold_left apply_effect]. rewrite get_set, String.eqb_refl. reflexivity. }
  unfold TomoFileModel.reconstruct_save, TomoFileModel.init_paths in H. cbn [h5file_path fs vol] in H. rewrite G in H.
  destruct junk as [w|].
  - intros Hl. destruct (product_ok w (map root values')) as (l & El & _); [rewrite map_length; exact Hl|]. rewrite El in H.
    pose proof (f_equal fst H) as H1. pose proof (f_equal snd H) as H2. cbn [fst snd] in H1, H2. subst r s'. cbn [fs].
    split; [reflexivity|]. rewrite !get_del, !get_set, ?E1, ?String.eqb_refl. split; [reflexivity|]. eauto.
  - pose proof (f_equal fst H) as H1. pose proof (f_equal snd H) as H2. cbn [fst snd] in H1, H2. subst r s'. cbn [fs].
    split; [reflexivity|]. rewrite !get_set, E1, String.eqb_refl, G. split; reflexivity.
Qed.
End C134.
Print Assumptions C134_history.
Print Assumptions C134_no_copy.
Print Assumptions C134_no_save.
Print Assumptions C134_no_save_refuted.
Print Assumptions C134_size.
Print Assumptions C134_tmp_name_refuted.
Print Assumptions C134_image_refuted.
Print Assumptions C134_no_path_iff.
Print Assumptions C134_memory_iff.
Print Assumptions C134_load.
Print Assumptions C134_clear.
Print Assumptions C134_clear_refuted.
Print Assumptions C134_stopped.
Print Assumptions C134_lost_refuted.

(** two times, two cameras; the names of the files satisfy the hypothesis of C134_history *)
Definition ex_file (b : bool) : string := if b then "a.h5"%string else "b.h5"%string.
Definition ex_tmp (p : string) : string := String.append p "_tmp".
Example C134_ex :
  (forall im im', ex_tmp (ex_file im) <> ex_file im') /\
  let s := snd (run Z.mul (fun v => v) ex_file ex_tmp [(true, [2; 3]); (false, [5; 7]); (true, [10; 100]); (false, [1; 2])]
                 {| vol := Mem [1; 1]; h5file_path := None; fs := [] |}) in
  fs_get Z "a.h5" (fs s) = Some (Good [20; 300]) /\ fs_get Z "b.h5" (fs s) = Some (Good [5; 14]) /\ fs_get Z "a.h5_tmp" (fs s) = None.
Proof. split; [intros [] []; discriminate|]. repeat split. Qed.

(** ** C135 *)
Section C135.
Context {calib array : Type}.
Notation getattr := (getattr calib array).
Notation new_object := (new_object calib array).

Lemma cameras_loop (cams : list (string * calib)) : forall attrs l,
  (forall c, In c cams -> before_dot (fst c) <> "cams"%string) -> getattr "cams" attrs = Ok (ACams calib array l) ->
  exists obj, py_for (add_camera calib array) cams attrs = Ok obj /\
    getattr "cams" obj = Ok (ACams calib array (l ++ map (fun c => before_dot (fst c)) cams)) /\
    forall k, k <> "cams"%string ->
      getattr k obj = match filter (fun c => String.eqb (before_dot (fst c)) k) (rev cams) with
                      | [] => getattr k attrs
                      | c :: _ => Ok (ACalib calib array (snd c)) end.
Proof.
  induction cams as [|c cams IH]; intros attrs l Hc Hl.
  - exists attrs. split; [reflexivity|]. cbn [map]. rewrite app_nil_r. split; [exact Hl|]. intros k _. reflexivity.
  - cbn [py_for]. unfold add_camera at 1. rewrite Hl. cbn [bind].
    assert (Hn : before_dot (fst c) <> "cams"%string) by (apply Hc; left; reflexivity).
    destruct (IH (setattr calib array (before_dot (fst c)) (ACalib calib array (snd c))
                   (setattr calib array "cams" (ACams calib array (l ++ [before_dot (fst c)])) attrs)) (l ++ [before_dot (fst c)])) as (obj & E & E1 & E2).
    { intros c' Hin. apply Hc. right. exact Hin. }
    { unfold setattr. cbn [TomoFileModel.getattr]. destruct (String.eqb_spec "cams" (before_dot (fst c))); [congruence|]. reflexivity. }
    exists obj. split; [exact E|]. rewrite <- app_assoc in E1. split; [exact E1|]. intros k Hk. rewrite (E2 k Hk).
    cbn [rev]. rewrite filter_app. destruct (filter _ (rev cams)) as [|c' cs]; [|reflexivity].
    cbn [filter app]. unfold setattr. cbn [TomoFileModel.getattr].
    destruct (String.eqb_spec k (before_dot (fst c))) as [->|Hd].
    + rewrite String.eqb_refl. reflexivity.
    + destruct (String.eqb_spec (before_dot (fst c)) k); [congruence|]. destruct (String.eqb_spec k "cams"); [contradiction|reflexivity].
Qed.

(** The cameras are listed in the order given, under the name of their file up to the first dot; the
    calibration used for a name is the one of the LAST camera of this name. *)
Theorem C135_cameras : forall a cams, (forall c, In c cams -> before_dot (fst c) <> "cams"%string) ->
  exists obj, new_object a cams = Ok obj /\
    getattr "cams" obj = Ok (ACams calib array (map (fun c => before_dot (fst c)) cams)) /\
    forall before c after, cams = before ++ c :: after -> (forall c', In c' after -> before_dot (fst c') <> before_dot (fst c)) ->
      getattr (before_dot (fst c)) obj = Ok (ACalib calib array (snd c)).
Proof.
  intros a cams Hc. unfold TomoFileModel.new_object.
  destruct (cameras_loop cams [("cams"%string, ACams calib array []); ("array"%string, AArray calib array a)] [] Hc eq_refl) as (obj & E & E1 & E2).
  exists obj. split; [exact E|]. split; [exact E1|]. intros before c after -> Ha.
  rewrite E2 by (apply Hc; apply in_or_app; right; left; reflexivity).
  rewrite rev_app_distr. cbn [rev]. rewrite <- app_assoc. cbn [app]. rewrite filter_app. cbn [filter]. rewrite String.eqb_refl.
  replace (filter _ (rev after)) with (@nil (string * calib)); [reflexivity|].
  symmetry. destruct (filter _ (rev after)) as [|c' cs] eqn:Ef; [reflexivity|]. exfalso.
  assert (Hin : In c' (filter (fun c0 => String.eqb (before_dot (fst c0)) (before_dot (fst c))) (rev after))) by (rewrite Ef; left; reflexivity).
  apply filter_In in Hin. destruct Hin as [Hin He]. apply in_rev in Hin. apply String.eqb_eq in He. exact (Ha c' Hin He).
Qed.

(** Each camera is projected with its own calibration if and only if two cameras of the same name
    have the same calibration. *)
Theorem C135_own_iff : forall a cams obj, (forall c, In c cams -> before_dot (fst c) <> "cams"%string) -> new_object a cams = Ok obj ->
  ((forall c, In c cams -> getattr (before_dot (fst c)) obj = Ok (ACalib calib array (snd c))) <->
   (forall c c', In c cams -> In c' cams -> before_dot (fst c) = before_dot (fst c') -> snd c = snd c')).
Proof.
  intros a cams obj Hc Ho. unfold TomoFileModel.new_object in Ho.
  destruct (cameras_loop cams [("cams"%string, ACams calib array []); ("array"%string, AArray calib array a)] [] Hc eq_refl) as (obj' & E & _ & E2).
  rewrite E in Ho. injection Ho as <-. split.
  - intros H c c' Hi Hi' He. pose proof (H c Hi) as K. pose proof (H c' Hi') as K'. rewrite <- He in K'. congruence.
  - intros H c Hi. rewrite (E2 _ (Hc c Hi)).
    destruct (filter (fun c0 => String.eqb (before_dot (fst c0)) (before_dot (fst c))) (rev cams)) as [|c' cs] eqn:Ef.
    + exfalso. assert (Hin : In c (filter (fun c0 => String.eqb (before_dot (fst c0)) (before_dot (fst c))) (rev cams))).
      { apply filter_In. split; [apply in_rev; rewrite rev_involutive; exact Hi|apply String.eqb_refl]. }
      rewrite Ef in Hin. destruct Hin.
    + assert (Hin : In c' (filter (fun c0 => String.eqb (before_dot (fst c0)) (before_dot (fst c))) (rev cams))) by (rewrite Ef; left; reflexivity).
      apply filter_In in Hin. destruct Hin as [Hin He]. apply in_rev in Hin. apply String.eqb_eq in He.
      do 2 f_equal. apply (H c' c); [exact Hin|exact Hi|exact He].
Qed.

(** The files cam.0.h5 and cam.1.h5 are two cameras named cam: the first one is projected with the
    calibration of the second one. *)
Theorem C135_same_name_refuted : forall a (c0 c1 : calib), exists obj,
  new_object a [("cam.0.h5"%string, c0); ("cam.1.h5"%string, c1)] = Ok obj /\
  getattr "cams" obj = Ok (ACams calib array ["cam"; "cam"]%string) /\ getattr "cam" obj = Ok (ACalib calib array c1).
Proof. intros a c0 c1. eexists. split; [reflexivity|]. split; reflexivity. Qed.

(** The volume is kept if and only if no camera is named array. *)
Theorem C135_array_iff : forall a cams obj, (forall c, In c cams -> before_dot (fst c) <> "cams"%string) -> new_object a cams = Ok obj ->
  (getattr "array" obj = Ok (AArray calib array a) <-> forall c, In c cams -> before_dot (fst c) <> "array"%string).
Proof.
  intros a cams obj Hc Ho. unfold TomoFileModel.new_object in Ho.
  destruct (cameras_loop cams [("cams"%string, ACams calib array []); ("array"%string, AArray calib array a)] [] Hc eq_refl) as (obj' & E & _ & E2).
  rewrite E in Ho. injection Ho as <-. rewrite E2 by discriminate.
  destruct (filter (fun c0 => String.eqb (before_dot (fst c0)) "array") (rev cams)) as [|c' cs] eqn:Ef.
  - split; [|reflexivity]. intros _ c Hi He.
    assert (Hin : In c (filter (fun c0 => String.eqb (before_dot (fst c0)) "array") (rev cams))).
    { apply filter_In. split; [apply in_rev; rewrite rev_involutive; exact Hi|rewrite He; reflexivity]. }
    rewrite Ef in Hin. destruct Hin.
  - split; [discriminate|]. intros H. exfalso.
    assert (Hin : In c' (filter (fun c0 => String.eqb (before_dot (fst c0)) "array") (rev cams))) by (rewrite Ef; left; reflexivity).
    apply filter_In in Hin. destruct Hin as [Hin He]. apply in_rev in Hin. apply String.eqb_eq in He. exact (H c' Hin He).
Qed.

(** A camera named cams: nothing can be added after it. *)
Theorem C135_cams_refuted : forall a before after c c', 
  (forall d, In d before -> before_dot (fst d) <> "cams"%string) -> before_dot (fst c) = "cams"%string ->
  new_object a (before ++ c :: c' :: after) = Err AttributeError.
Proof.
  intros a before after c c' Hb Hc. unfold TomoFileModel.new_object.
  destruct (cameras_loop before [("cams"%string, ACams calib array []); ("array"%string, AArray calib array a)] [] Hb eq_refl) as (obj & E & E1 & _).
  assert (PA : forall (A S : Type) (g : S -> A -> result S) l1 l2 s, py_for g (l1 ++ l2) s = do s' <- py_for g l1 s ; py_for g l2 s').
  { induction l1 as [|x l1 IH]; intros l2 s; [reflexivity|]. cbn. destruct (g s x); cbn; [apply IH|reflexivity]. }
  rewrite PA, E. cbn [bind py_for]. unfold add_camera at 1. rewrite E1, Hc. reflexivity.
Qed.
End C135.
Print Assumptions C135_cameras.
Print Assumptions C135_own_iff.
Print Assumptions C135_same_name_refuted.
Print Assumptions C135_array_iff.
Print Assumptions C135_cams_refuted.
Example C135_ex : exists obj, new_object Z unit tt [("cam0.h5", 5); ("cam1.h5", 7)]%string = Ok obj /\
  getattr Z unit "cam0" obj = Ok (ACalib Z unit 5) /\ getattr Z unit "cam1" obj = Ok (ACalib Z unit 7) /\ getattr Z unit "array" obj = Ok (AArray Z unit tt).
Proof. eexists. repeat split. Qed.

(** C55: the tools are applied in order and only if enabled, a tool on a stack of images is the
    tool on each image.  C76: window of the temporal filters.  C77: subtraction of the background.
    C78: global threshold. *)
From Coq Require Import Lqa.
From Verif Require Import PyBase StrModel ToolboxModel.
Open Scope Z_scope.

Lemma name_eqb_eq a b : name_eqb a b = true <-> a = b.
Proof. unfold name_eqb. destruct (list_eq_dec Ascii.ascii_dec a b); split; congruence. Qed.

(** ** C55: order *)
Section Order.
Variable value : Type.
Variable truth : value -> bool.
Variable false_value : value.
Variable class_dict : list chars.
Variable call : chars -> attribs value -> arr -> result arr.

Notation apply := (apply value truth class_dict call).

(** Specification: [applied l a b] when the calls of l, in this order, each on the result of the
    previous one, go from a to b. *)
Inductive applied : list (chars * attribs value) -> arr -> arr -> Prop :=
| applied_nil a : applied [] a a
| applied_cons tool kwargs l a b c :
    call tool kwargs a = Ok b -> applied l b c -> applied ((tool, kwargs) :: l) a c.

(** the parameters of a tool: enabled or not, and the other attributes *)
Definition is_enabled (ps : tools_params value) (tool : chars) : Prop :=
  exists at_ v, lookup tool (children value ps) = Some at_ /\ lookup enable at_ = Some v /\ truth v = true.
Definition is_disabled (ps : tools_params value) (tool : chars) : Prop :=
  exists at_ v, lookup tool (children value ps) = Some at_ /\ lookup enable at_ = Some v /\ truth v = false.
Definition has_kwargs (ps : tools_params value) (tool : chars) (kwargs : attribs value) : Prop :=
  exists at_, lookup tool (children value ps) = Some at_ /\
    kwargs = filter (fun kv => negb (name_eqb (fst kv) enable)) at_.

(** the sequence of the calls, from the sequence of the tools *)
Inductive calls_of (ps : tools_params value) : list chars -> list (chars * attribs value) -> Prop :=
| calls_nil : calls_of ps [] []
| calls_on tool kwargs l k :
    is_enabled ps tool -> In tool class_dict -> has_kwargs ps tool kwargs ->
    calls_of ps l k -> calls_of ps (tool :: l) ((tool, kwargs) :: k)
| calls_off tool l k : is_disabled ps tool -> calls_of ps l k -> calls_of ps (tool :: l) k.

(** C55: the result is obtained by calling the enabled tools of the sequence (of all the tools
    if there is no sequence), each one once per occurrence, in the order of the sequence, with its
    own parameters. *)
Theorem C55_order : forall ps a b,
  apply ps a = Ok b <->
  exists k, calls_of ps (match sequence value ps with Some s => s | None => available_tools value ps end) k /\
            applied k a b.
Proof.
  intros ps a b. unfold ToolboxModel.apply.
  replace (match sequence value ps with None => available_tools value ps | Some s => s end)
    with (match sequence value ps with Some s => s | None => available_tools value ps end)
    by (destruct (sequence value ps); reflexivity).
  generalize (match sequence value ps with Some s => s | None => available_tools value ps end). intros l.
  revert a. induction l as [|tool l IH]; intros a; cbn [py_loop].
  - split.
    + intros [= <-]. exists []. split; constructor.
    + intros (k & Hk & Ha). inversion Hk; subst. inversion Ha; subst. reflexivity.
  - split.
    + intros H. destruct (apply_tool value truth class_dict call ps a tool) as [a'|] eqn:E; [|discriminate].
      cbn [bind] in H. apply IH in H. destruct H as (k & Hk & Ha). unfold apply_tool in E.
      destruct (lookup tool (children value ps)) as [at_|] eqn:El; [|discriminate].
      destruct (lookup enable at_) as [v|] eqn:Ee; [|discriminate].
      destruct (truth v) eqn:Et.
      * destruct (existsb (name_eqb tool) class_dict) eqn:Ed; [|discriminate].
        exists ((tool, filter (fun kv => negb (name_eqb (fst kv) enable)) at_) :: k). split.
        -- constructor; [exists at_, v; tauto| |exists at_; tauto|exact Hk].
           apply existsb_exists in Ed. destruct Ed as (x & Hin & Hx). apply name_eqb_eq in Hx. congruence.
        -- econstructor; [exact E|exact Ha].
      * injection E as ->. exists k. split; [|exact Ha]. apply calls_off; [exists at_, v; tauto|exact Hk].
    + intros (k & Hk & Ha). inversion Hk as [|t kw l' k' Hen Hin Hkw Hk'|t l' k' Hdis Hk']; subst.
      * inversion Ha as [|t kw' l' a0 b0 c0 Hcall Hrest]; subst.
        destruct Hen as (at_ & v & H1 & H2 & H3). destruct Hkw as (at_' & H4 & ->). rewrite H1 in H4. injection H4 as <-.
        unfold apply_tool. rewrite H1, H2, H3.
        assert (Ed : existsb (name_eqb tool) class_dict = true)
          by (apply existsb_exists; exists tool; split; [exact Hin|apply name_eqb_eq; reflexivity]).
        rewrite Ed, Hcall. cbn [bind]. apply IH. exists k'. tauto.
      * destruct Hdis as (at_ & v & H1 & H2 & H3). unfold apply_tool. rewrite H1, H2, H3. cbn [bind]. apply IH. exists k. tauto.
Qed.

(** C55: with the default parameters no tool is called, whatever the tools. *)
Theorem C55_default : forall all_tools signature a,
  NoDup all_tools -> truth false_value = false ->
  apply (create_default_params value false_value all_tools signature) a = Ok a.
Proof.
  intros all_tools signature a Hnd Hf. unfold ToolboxModel.apply. cbn [sequence create_default_params available_tools].
  set (ps := create_default_params value false_value all_tools signature).
  assert (Hlook : forall t, In t all_tools -> exists at_, lookup t (children value ps) = Some at_ /\ lookup enable at_ = Some false_value).
  { intros t Hin. unfold ps, create_default_params. cbn [children].
    assert (Hen : forall l, lookup enable (dict_update value l enable false_value) = Some false_value).
    { intros l. unfold dict_update. induction l as [|(k, v) l IHl]; cbn [filter app lookup].
      - replace (name_eqb enable enable) with true by reflexivity. reflexivity.
      - cbn [fst]. destruct (name_eqb k enable) eqn:E; cbn [negb]; [exact IHl|]. cbn [app lookup].
        replace (name_eqb enable k) with false; [exact IHl|].
        symmetry. destruct (name_eqb enable k) eqn:E2; [|reflexivity]. apply name_eqb_eq in E2. subst k. discriminate E. }
    clear Hnd. induction all_tools as [|t0 l IH]; [destruct Hin|]. cbn [map lookup].
    destruct (name_eqb t t0) eqn:E; [eexists; split; [reflexivity|apply Hen]|].
    destruct Hin as [->|Hin]; [|apply IH; exact Hin]. exfalso.
    assert (name_eqb t t = true) by (apply name_eqb_eq; reflexivity). congruence. }
  clearbody ps. clear Hnd. revert Hlook. generalize all_tools as l. induction l as [|t l IH]; intros Hlook; [reflexivity|].
  cbn [py_loop]. unfold apply_tool at 1. destruct (Hlook t (or_introl eq_refl)) as (at_ & -> & ->). rewrite Hf. cbn [bind].
  apply IH. intros; apply Hlook; right; assumption.
Qed.
End Order.

(** C55: a subclass of the toolbox has the tools by inheritance, but [apply] looks for them in the
    dictionary of the subclass itself: any enabled tool raises KeyError. *)
Theorem C55_subclass_refuted : forall value truth call ps a tool rest,
  sequence value ps = Some (tool :: rest) -> is_enabled value truth ps tool ->
  apply value truth [] call ps a = Err KeyError.
Proof.
  intros value truth call ps a tool rest Hs (at_ & v & H1 & H2 & H3). unfold apply. rewrite Hs. cbn [py_loop].
  unfold apply_tool. rewrite H1, H2, H3. reflexivity.
Qed.

(** ** C55: stacks *)
Definition keeps_shape (tool : img -> result img) : Prop :=
  forall im r, tool im = Ok r -> shape2 (px r) = shape2 (px im).

Lemma shape_eqb_refl s : shape_eqb s s = true.
Proof. unfold shape_eqb. rewrite !Nat.eqb_refl. reflexivity. Qed.
Lemma shape_eqb_eq a b : shape_eqb a b = true -> a = b.
Proof. unfold shape_eqb. rewrite andb_true_iff, !Nat.eqb_eq. destruct a, b; cbn. intros (-> & ->). reflexivity. Qed.

(** all the images of the stack have the same shape *)
Definition same_shapes (l : list (list (list Q))) : Prop :=
  forall p q, In p l -> In q l -> shape2 p = shape2 q.

Lemma homogeneous_stack d l : same_shapes l -> homogeneous (map (mk_img d) l) = true.
Proof.
  intros H. destruct l as [|p l]; [reflexivity|]. cbn [map homogeneous]. apply forallb_forall.
  intros im Hin. apply in_map_iff in Hin. destruct Hin as (q & <- & Hq). cbn [px].
  rewrite (H q p); [apply shape_eqb_refl|right; exact Hq|left; reflexivity].
Qed.

Lemma map_result_Forall2 {A B} (f : A -> result B) l r :
  map_result f l = Ok r <-> Forall2 (fun a b => f a = Ok b) l r.
Proof.
  split.
  - revert r. induction l as [|a l IH]; intros r H; [injection H as <-; constructor|]. cbn [map_result] in H.
    destruct (f a) as [b|] eqn:E; [|discriminate]. cbn [bind] in H. destruct (map_result f l) as [bs|]; [|discriminate].
    cbn [bind] in H. injection H as <-. constructor; [exact E|]. apply IH. reflexivity.
  - induction 1 as [|a b l r E _ IH]; [reflexivity|]. cbn [map_result]. rewrite E, IH. reflexivity.
Qed.

Lemma Forall2_map_l {A B C} (P : B -> C -> Prop) (f : A -> B) l r :
  Forall2 P (map f l) r <-> Forall2 (fun a c => P (f a) c) l r.
Proof.
  split.
  - revert r. induction l as [|a l IH]; intros r H; inversion H; subst; constructor; [assumption|]. apply IH. assumption.
  - induction 1; cbn; constructor; assumption.
Qed.

(** C55: a tool on a stack gives, as floats, the results of the tool on the images of the stack,
    and it fails on a stack exactly if it fails on one of the images. *)
Theorem C55_stack_tool : forall tool d l,
  keeps_shape tool -> same_shapes l ->
  forall out,
  iterate_multiple_imgs tool (Stack d l) = Ok out <->
  exists results, out = Stack F64 (map px results) /\ Forall2 (fun p r => tool (mk_img d p) = Ok r) l results.
Proof.
  intros tool d l Hk Hs out. cbn [iterate_multiple_imgs images_of_arr]. rewrite homogeneous_stack by exact Hs.
  assert (Hmr : forall r0, map_result (fun im => do r <- tool im ; if shape_eqb (shape2 (px r)) (shape2 (px im)) then Ok (px r) else Err ValueError) (map (mk_img d) l) = Ok r0
     <-> exists results, r0 = map px results /\ Forall2 (fun p r => tool (mk_img d p) = Ok r) l results).
  { intros r0. rewrite map_result_Forall2, Forall2_map_l. split.
    - clear Hs. induction 1 as [|p q l r0 E _ IH]; [exists []; split; [reflexivity|constructor]|].
      destruct IH as (res & -> & Hf). destruct (tool (mk_img d p)) as [r|] eqn:Et; [|discriminate]. cbn [bind] in E.
      destruct (shape_eqb _ _); [|discriminate]. injection E as <-. exists (r :: res). split; [reflexivity|]. constructor; assumption.
    - intros (res & -> & Hf). clear Hs. induction Hf as [|p r l res E _ IH]; [constructor|]. constructor; [|exact IH].
      rewrite E. cbn [bind]. rewrite (Hk _ _ E), shape_eqb_refl. reflexivity. }
  split.
  - match goal with |- (do _ <- ?e ; _) = _ -> _ => set (mr := e) in * end. destruct mr as [r0|] eqn:E; [|discriminate]. cbn [bind]. intros [= <-]. pose proof (proj1 (Hmr r0) eq_refl) as E'. clear E. rename E' into E.
    destruct E as (res & -> & Hf). exists res. tauto.
  - intros (res & -> & Hf). assert (E : exists r0, r0 = map px res /\ Forall2 (fun p r => tool (mk_img d p) = Ok r) l res) by eauto.
    destruct E as (r0 & -> & Hf'). rewrite (proj2 (Hmr (map px res))) by (exists res; tauto). reflexivity.
Qed.

(** C55: a sequence of tools on a stack is the sequence of the tools on each image, if the values
    given by the tools do not depend on the dtype of their input. *)
Definition dtype_insensitive (tool : img -> result img) : Prop :=
  forall im r, tool im = Ok r -> exists r', tool (to_f64 im) = Ok r' /\ px r' = px r.

Fixpoint chain (tools : list (img -> result img)) (im : img) : result img :=
  match tools with [] => Ok im | t :: l => do r <- t im ; chain l r end.
Fixpoint chain_stack (tools : list (img -> result img)) (a : arr) : result arr :=
  match tools with [] => Ok a | t :: l => do r <- iterate_multiple_imgs t a ; chain_stack l r end.


Lemma chain_shape tools : Forall keeps_shape tools -> forall im r, chain tools im = Ok r -> shape2 (px r) = shape2 (px im).
Proof.
  induction 1 as [|t tools Ht _ IH]; intros im r H; cbn [chain] in H; [injection H as <-; reflexivity|].
  destruct (t im) as [r1|] eqn:E; [|discriminate]. cbn [bind] in H. rewrite (IH _ _ H). apply Ht. exact E.
Qed.

Lemma same_shapes_map tool d l rs : keeps_shape tool -> same_shapes l ->
  Forall2 (fun p r => tool (mk_img d p) = Ok r) l rs -> same_shapes (map px rs).
Proof.
  intros Hk Hs Hf p q Hp Hq. apply in_map_iff in Hp. destruct Hp as (r1 & <- & H1). apply in_map_iff in Hq. destruct Hq as (r2 & <- & H2).
  assert (Hin : forall r, In r rs -> exists p0, In p0 l /\ tool (mk_img d p0) = Ok r).
  { clear - Hf. induction Hf as [|p0 r0 l rs E _ IH]; intros r Hr; [destruct Hr|]. destruct Hr as [<-|Hr].
    - exists p0. split; [left; reflexivity|exact E].
    - destruct (IH r Hr) as (p1 & H1 & H2). exists p1. split; [right; exact H1|exact H2]. }
  destruct (Hin r1 H1) as (p1 & I1 & E1). destruct (Hin r2 H2) as (p2 & I2 & E2).
  rewrite (Hk _ _ E1), (Hk _ _ E2). cbn [px]. apply Hs; assumption.
Qed.

Lemma chain_stack_f64 tools : Forall keeps_shape tools -> Forall dtype_insensitive tools ->
  forall ims rs, same_shapes (map px ims) -> Forall2 (fun im r => chain tools im = Ok r) ims rs ->
  chain_stack tools (Stack F64 (map px ims)) = Ok (Stack F64 (map px rs)).
Proof.
  intros Hk Hi. induction tools as [|t tools IH]; intros ims rs Hs Hf.
  - cbn [chain_stack chain] in *. do 2 f_equal. f_equal. clear Hs. induction Hf as [|im r ims rs E _ IHf]; [reflexivity|].
    injection E as ->. f_equal. exact IHf.
  - inversion Hk as [|? ? Hkt Hk']; subst. inversion Hi as [|? ? Hit Hi']; subst.
    (* the results of the first tool *)
    assert (Hmid : exists mids, Forall2 (fun im m => t im = Ok m) ims mids /\ Forall2 (fun m r => chain tools m = Ok r) mids rs).
    { clear - Hf. induction Hf as [|im r ims rs E _ IHf]; [exists []; split; constructor|]. destruct IHf as (mids & H1 & H2).
      cbn [chain] in E. destruct (t im) as [m|] eqn:Et; [|discriminate]. cbn [bind] in E. exists (m :: mids). split; constructor; assumption. }
    destruct Hmid as (mids & H1 & H2).
    assert (Hfl : exists mids', Forall2 (fun p r => t (mk_img F64 p) = Ok r) (map px ims) mids' /\ map px mids' = map px mids).
    { clear - H1 Hit. induction H1 as [|im m ims mids E _ IHf]; [exists []; split; [constructor|reflexivity]|].
      destruct IHf as (mids' & F1 & F2). destruct (Hit im m E) as (m' & E' & Ep). exists (m' :: mids').
      cbn [map]. split; [constructor; [exact E'|exact F1]|]. rewrite Ep, F2. reflexivity. }
    destruct Hfl as (mids' & F1 & F2). cbn [chain_stack].
    rewrite (proj2 (C55_stack_tool t F64 (map px ims) Hkt Hs (Stack F64 (map px mids')))) by (exists mids'; tauto).
    cbn [bind]. rewrite F2. apply IH; try assumption. rewrite <- F2. eapply same_shapes_map; eassumption.
Qed.

Theorem C55_stack_sequence_partial : forall t tools d l rs,
  Forall keeps_shape (t :: tools) -> Forall dtype_insensitive tools -> same_shapes l ->
  Forall2 (fun p r => chain (t :: tools) (mk_img d p) = Ok r) l rs ->
  chain_stack (t :: tools) (Stack d l) = Ok (Stack F64 (map px rs)).
Proof.
  intros t tools d l rs Hk Hi Hs Hf. inversion Hk as [|? ? Hkt Hk']; subst.
  assert (Hmid : exists mids, Forall2 (fun p m => t (mk_img d p) = Ok m) l mids /\ Forall2 (fun m r => chain tools m = Ok r) mids rs).
  { clear - Hf. induction Hf as [|p r l rs E _ IHf]; [exists []; split; constructor|]. destruct IHf as (mids & H1 & H2).
    cbn [chain] in E. destruct (t (mk_img d p)) as [m|] eqn:Et; [|discriminate]. cbn [bind] in E. exists (m :: mids). split; constructor; assumption. }
  destruct Hmid as (mids & H1 & H2). cbn [chain_stack].
  rewrite (proj2 (C55_stack_tool t d l Hkt Hs (Stack F64 (map px mids)))) by (exists mids; tauto).
  cbn [bind]. apply chain_stack_f64; try assumption. eapply same_shapes_map; eassumption.
Qed.

(** ** C78: global threshold *)
Lemma qlt_true a b : qlt a b = true <-> (a < b)%Q.
Proof. unfold qlt. destruct (Qlt_le_dec a b) as [H|H]; split; try congruence; auto. intros H'. exfalso. lra. Qed.
Lemma qlt_false a b : qlt a b = false <-> (b <= a)%Q.
Proof. unfold qlt. destruct (Qlt_le_dec a b) as [H|H]; split; try congruence; auto. intros H'. exfalso. lra. Qed.

(** the value v clamped between lo and hi *)
Definition clamped (lo hi v r : Q) : Prop :=
  ((v < lo)%Q /\ r = lo) \/ ((lo <= v <= hi)%Q /\ r = v) \/ ((hi < v)%Q /\ r = hi).

Definition pixels2 (P : Q -> Q -> Prop) (p r : list (list Q)) : Prop := Forall2 (Forall2 P) p r.

Lemma pixels2_map (P : Q -> Q -> Prop) f p : (forall q, P q (f q)) -> pixels2 P p (map (map f) p).
Proof.
  intros H. unfold pixels2. induction p as [|l p IH]; cbn [map]; constructor; [|exact IH].
  induction l; cbn [map]; constructor; auto.
Qed.

(** the thresholds are exactly representable: a float image, or an integer image and integer
    thresholds which are values of the dtype *)
Definition representable (d : dtype) (s : scalar) : Prop :=
  match d, s with
  | F64, _ => True
  | U8, PyInt n => 0 <= n <= 255
  | U16, PyInt n => 0 <= n <= 65535
  | I32, PyInt n => - 2 ^ 31 <= n < 2 ^ 31
  | _, PyFloat _ => False
  end.
Lemma representable_cast d s : representable d s -> cast d s = Ok (qval s).
Proof.
  unfold representable, cast. destruct d; cbn [iinfo]; [| | |reflexivity]; (destruct s as [n|]; [|tauto]); intros H.
  - replace ((0 <=? n) && (n <=? 255)) with true by lia. reflexivity.
  - replace ((0 <=? n) && (n <=? 65535)) with true by lia. reflexivity.
  - replace ((-2147483648 <=? n) && (n <=? 2147483647)) with true by lia. reflexivity.
Qed.

Theorem C78_threshold_partial : forall minima maxima im,
  representable (dt im) minima -> representable (dt im) maxima -> (qval minima <= qval maxima)%Q ->
  exists r, global_threshold minima (Some maxima) im = Ok r /\ dt r = dt im /\
    pixels2 (clamped (qval minima) (qval maxima)) (px im) (px r).
Proof.
  intros minima maxima im H1 H2 Hle. unfold global_threshold, assign_where. cbv zeta.
  rewrite (representable_cast _ _ H1), (representable_cast _ _ H2). cbn [bind]. eexists. split; [reflexivity|]. split; [reflexivity|].
  cbn [px]. rewrite map_map.
  replace (map (fun x => map (fun q => if qlt (qval maxima) q then qval maxima else q) (map (fun q => if qlt q (qval minima) then qval minima else q) x)) (px im))
    with (map (map (fun q => if qlt (qval maxima) (if qlt q (qval minima) then qval minima else q) then qval maxima else (if qlt q (qval minima) then qval minima else q))) (px im))
    by (apply map_ext; intros l; rewrite map_map; reflexivity).
  apply pixels2_map. intros q. unfold clamped.
  destruct (qlt q (qval minima)) eqn:E1.
  - apply qlt_true in E1. replace (qlt (qval maxima) (qval minima)) with false by (symmetry; apply qlt_false; exact Hle). left. tauto.
  - apply qlt_false in E1. destruct (qlt (qval maxima) q) eqn:E2.
    + apply qlt_true in E2. right. right. tauto.
    + apply qlt_false in E2. right. left. tauto.
Qed.

(** without maxima: nothing is trimmed above for an integer image; 65535 for floats *)
Theorem C78_default_maxima : forall minima im,
  global_threshold minima None im
  = global_threshold minima (Some (PyInt match dt im with U8 => 255 | U16 => 65535 | I32 => 2147483647 | F64 => 65535 end)) im.
Proof. intros minima (d, p). destruct d; reflexivity. Qed.

(** C78 is false as stated: a float threshold on an image of integers is truncated (the result is
    out of the interval), and a threshold which is not a value of the dtype raises OverflowError
    although no pixel has to be trimmed. *)
Theorem C78_threshold_refuted :
  (exists r, global_threshold (PyFloat (21 # 2)) (Some (PyInt 200)) (mk_img U8 [[3%Q; 50%Q]]) = Ok r /\
             px r = [[10%Q; 50%Q]] /\ (10 < 21 # 2)%Q) /\
  (forall p, global_threshold (PyInt 0) (Some (PyInt 4096)) (mk_img U8 p) = Err OverflowError).
Proof. split; [eexists; repeat split; vm_compute; reflexivity|]. intros p. reflexivity. Qed.

(** global_threshold keeps the shape and, with explicit representable thresholds, does not depend
    on the dtype: it meets the hypotheses of C55_stack_sequence_partial. *)
Lemma shape2_map f p : shape2 (map (map f) p) = shape2 p.
Proof. unfold shape2. rewrite map_length. destruct p; cbn [map]; [reflexivity|]. rewrite map_length. reflexivity. Qed.

Lemma threshold_keeps_shape minima maxima : keeps_shape (global_threshold minima maxima).
Proof.
  intros im r. unfold global_threshold, assign_where. cbv zeta.
  destruct (cast (dt im) minima); [|discriminate]. cbn [bind]. destruct (cast _ _); [|discriminate]. cbn [bind]. intros [= <-]. cbn [px].
  rewrite !shape2_map. reflexivity.
Qed.

Definition is_int (s : scalar) : Prop := match s with PyInt _ => True | PyFloat _ => False end.
Lemma threshold_insensitive minima maxima : is_int minima -> is_int maxima ->
  dtype_insensitive (global_threshold minima (Some maxima)).
Proof.
  intros H1 H2 im r. unfold global_threshold, assign_where. cbv zeta.
  assert (Hc : forall s v, is_int s -> cast (dt im) s = Ok v -> v = qval s).
  { intros [n|] v; [|intros []]. intros _. unfold cast. cbn [qval]. destruct (iinfo (dt im)) as [(lo, hi)|]; [destruct (_ && _)|]; congruence. }
  destruct (cast (dt im) minima) as [v1|] eqn:E1; [|discriminate]. cbn [bind].
  destruct (cast (dt im) maxima) as [v2|] eqn:E2; [|discriminate]. cbn [bind]. intros [= <-].
  rewrite (Hc _ _ H1 E1), (Hc _ _ H2 E2). eexists. split; reflexivity.
Qed.

(** C55 is false for sequences in general: the default threshold applied twice to an image of
    32 bit integers leaves it unchanged, whereas applied twice to a stack which contains this image
    it trims it at 65535, because the first tool converts the stack to floats. *)
Theorem C55_stack_sequence_refuted : exists p r out,
  let tools := [global_threshold (PyInt 0) None; global_threshold (PyInt 0) None] in
  chain tools (mk_img I32 p) = Ok r /\ px r = p /\
  chain_stack tools (Stack I32 [p; p]) = Ok (Stack F64 [out; out]) /\
  p = [[inject_Z 100000]] /\ out = [[inject_Z 65535]].
Proof. eexists _, _, _. repeat split; vm_compute; reflexivity. Qed.

(** ** C77: subtraction of the background *)
Definition exact_sub (w b q r : Q) : Prop := (r == q - w * b)%Q.

(** pixels of three images of the same shape *)
Inductive lines3 (P : Q -> Q -> Q -> Prop) : list Q -> list Q -> list Q -> Prop :=
| l3_nil : lines3 P [] [] []
| l3_cons a b c l m n : P a b c -> lines3 P l m n -> lines3 P (a :: l) (b :: m) (c :: n).
Inductive pixels3 (P : Q -> Q -> Q -> Prop) : list (list Q) -> list (list Q) -> list (list Q) -> Prop :=
| p3_nil : pixels3 P [] [] []
| p3_cons a b c l m n : lines3 P a b c -> pixels3 P l m n -> pixels3 P (a :: l) (b :: m) (c :: n).

Definition same_size (p b : list (list Q)) : Prop := Forall2 (fun l m => List.length l = List.length m) p b.

Lemma zip_px_spec (P : Q -> Q -> Q -> Prop) f p b : same_size p b -> (forall x y, P x y (f x y)) -> pixels3 P p b (zip_px f p b).
Proof.
  intros H Hf. unfold zip_px. induction H as [|l m p b E _ IH]; cbn [combine map]; constructor; [|exact IH].
  revert m E. induction l as [|x l IHl]; intros [|y m] E; cbn in E; try discriminate; cbn [combine map]; constructor; [apply Hf|].
  apply IHl. lia.
Qed.
Lemma pixels3_map (P R : Q -> Q -> Q -> Prop) f p b c : (forall x y z, P x y z -> R x y (f z)) ->
  pixels3 P p b c -> pixels3 R p b (map (map f) c).
Proof.
  intros H. induction 1 as [|x y z l m n Hl _ IH]; cbn [map]; constructor; [|exact IH].
  induction Hl; cbn [map]; constructor; auto.
Qed.

Lemma lines3_diag (P : Q -> Q -> Q -> Prop) (R : Q -> Prop) a c : (forall x y, P x x y -> R y) -> lines3 P a a c -> Forall R c.
Proof.
  intros H. revert c. induction a as [|x a IH]; intros c Hl; inversion Hl; subst; constructor; [eapply H; eassumption|].
  apply IH. assumption.
Qed.
Lemma pixels3_diag (P : Q -> Q -> Q -> Prop) (R : Q -> Prop) a c : (forall x y, P x x y -> R y) -> pixels3 P a a c -> Forall (Forall R) c.
Proof.
  intros H. revert c. induction a as [|x a IH]; intros c Hl; inversion Hl; subst; constructor; [eapply lines3_diag; eassumption|].
  apply IH. assumption.
Qed.

Definition max0 (q : Q) : Q := if Qlt_le_dec q 0 then 0%Q else q.

(** C77: with a float weight, or on a float image, the sliding filters give
    max(0, img - weight * background), for every image and every background filter which keeps the
    shape; the result is a float image. *)
Theorem C77_sliding_partial : forall background w im,
  (match w with PyFloat _ => True | PyInt _ => dt im = F64 end) -> same_size (px im) (background im) ->
  exists r, sliding background w im = Ok r /\ dt r = F64 /\
    pixels3 (fun q b v => v = max0 (q - qval w * b)%Q) (px im) (background im) (px r).
Proof.
  intros background w im Hw Hs. unfold sliding, subtract.
  assert (Hok : weight_ok (dt im) w = true) by (destruct w as [n|]; [rewrite Hw; reflexivity|reflexivity]).
  rewrite Hok. cbn [bind dt px]. eexists. split; [reflexivity|]. cbn [dt px]. split; [destruct w; [exact Hw|reflexivity]|].
  eapply pixels3_map; [|apply zip_px_spec with (P := fun q b v => v = (q - qval w * b)%Q); [exact Hs|]].
  - intros x y z ->. unfold max0, qlt. destruct (Qlt_le_dec (x - qval w * y) 0); reflexivity.
  - intros x y. unfold subtract_px. destruct (dt im), w as [n|]; try reflexivity; discriminate Hw.
Qed.

(** hence the intensities stay between 0 and the original ones *)
Corollary C77_between : forall background w im,
  (match w with PyFloat _ => True | PyInt _ => dt im = F64 end) -> same_size (px im) (background im) ->
  (0 <= qval w)%Q -> Forall (Forall (fun b => 0 <= b)%Q) (background im) -> Forall (Forall (fun q => 0 <= q)%Q) (px im) ->
  exists r, sliding background w im = Ok r /\
    pixels3 (fun q _ v => 0 <= v <= q)%Q (px im) (background im) (px r).
Proof.
  intros background w im Hw Hs H0 Hb Hq. destruct (C77_sliding_partial background w im Hw Hs) as (r & Er & _ & Hp).
  exists r. split; [exact Er|]. clear Er Hs Hw. revert Hb Hq. induction Hp as [|a b c l m n Hl _ IH]; intros Hb Hq; constructor.
  - apply Forall_inv in Hb. apply Forall_inv in Hq. revert Hb Hq. induction Hl as [|x y z l' m' n' E _ IHl]; intros Hb Hq; constructor.
    + apply Forall_inv in Hb. apply Forall_inv in Hq. subst z. unfold max0. destruct (Qlt_le_dec (x - qval w * y) 0); [lra|].
      assert (0 <= qval w * y)%Q by (apply Qmult_le_0_compat; assumption). lra.
    + apply IHl; eapply Forall_inv_tail; eassumption.
  - apply IH; eapply Forall_inv_tail; eassumption.
Qed.

(** C77 is false for an integer weight on an image of integers (the type of most cameras): the
    subtraction wraps around, and the clipping of the negative values has no effect. *)
Theorem C77_integer_weight_refuted : exists background im r,
  sliding background (PyInt 1) im = Ok r /\ px im = [[3%Q; 7%Q]] /\ background im = [[5%Q; 5%Q]] /\
  dt im = U8 /\ px r = [[254%Q; 2%Q]].
Proof.
  exists (fun _ => [[5%Q; 5%Q]]), (mk_img U8 [[3%Q; 7%Q]]). eexists. split; [vm_compute; reflexivity|]. repeat split.
Qed.

(** exact condition for 8 and 16 bits images with weight 1: the values are the subtraction exactly
    where the background is not larger than the image *)
Theorem C77_integer_weight_iff : forall d n b lo hi, iinfo d = Some (lo, hi) -> lo = 0 ->
  0 <= n <= hi -> 0 <= b <= hi ->
  (subtract_px d (PyInt 1) (inject_Z n) (inject_Z b) = inject_Z (Z.max 0 (n - b))) <-> b <= n.
Proof.
  intros d n b lo hi Hd -> Hn Hb.
  assert (Ht : forall k, 0 <= k -> truncate (inject_Z k) = k).
  { intros k Hk. unfold truncate. destruct (Qlt_le_dec (inject_Z k) 0) as [H|H]; [|apply Qfloor_Z].
    change 0%Q with (inject_Z 0) in H. rewrite <- Zlt_Qlt in H. lia. }
  assert (Hpx : subtract_px d (PyInt 1) (inject_Z n) (inject_Z b) = inject_Z ((n - b) mod (hi + 1))).
  { unfold subtract_px, wrap. rewrite Hd. rewrite !Ht by lia.
    assert (Hb' : (1 * b - 0) mod (hi - 0 + 1) = b) by (rewrite Z.mod_small; lia).
    destruct d; try discriminate; f_equal; rewrite Hb'; rewrite !Z.sub_0_r, !Z.add_0_l; reflexivity. }
  rewrite Hpx. destruct (Z.le_gt_cases b n) as [H|H].
  - rewrite Z.mod_small by lia. split; [intros _; exact H|]. intros _. f_equal. lia.
  - split; [|lia]. intros E. exfalso. injection E as E.
    assert (Em : (n - b) mod (hi + 1) = n - b + (hi + 1)).
    { symmetry. apply Z.mod_unique with (-1); lia. }
    rewrite Em in E. lia.
Qed.

(** C77: the temporal filters give img - weight * background without clipping *)
Theorem C77_temporal : forall background w win d l a r,
  (match w with PyFloat _ => True | PyInt _ => d = F64 end) ->
  a = Stack d l -> temporal background w win a = Ok r ->
  exists size out, calcul_windowshape (shape_of a) win = Ok size /\ zlen size = 3 /\ r = Stack F64 out /\
    (Forall2 same_size l (background size d l) ->
     Forall2 (fun pb v => pixels3 (fun q b v => v = (q - qval w * b)%Q) (fst pb) (snd pb) v) (combine l (background size d l)) out).
Proof.
  intros background w win d l a r Hw -> H. unfold temporal in H.
  destruct (calcul_windowshape (shape_of (Stack d l)) win) as [size|] eqn:Es; [|discriminate]. cbn [bind] in H.
  destruct (zlen size =? 3) eqn:E3; [|discriminate]. cbn [negb] in H.
  assert (Hok : weight_ok d w = true) by (destruct w as [n|]; [rewrite Hw; reflexivity|reflexivity]).
  rewrite Hok in H. injection H as <-. exists size. eexists. split; [reflexivity|]. split; [lia|]. split.
  - f_equal. destruct w; [exact Hw|reflexivity].
  - generalize (background size d l). clear Es. intros bg0 Hs. induction Hs as [|p b l' bg E _ IH]; cbn [combine map]; [constructor|]. constructor; [|exact IH]. cbn [fst snd].
    apply zip_px_spec; [exact E|]. intros x y. unfold subtract_px. destruct d, w as [n|]; try reflexivity; discriminate Hw.
Qed.

(** hence negative intensities (here with the median of three images, weight 1.0) *)
Theorem C77_temporal_negative_refuted : exists background r,
  background [3; 1; 1] U8 [[[1%Q]]; [[5%Q]]; [[9%Q]]] = [[[5%Q]]; [[5%Q]]; [[5%Q]]] /\
  temporal background (PyFloat 1) WNone (Stack U8 [[[1%Q]]; [[5%Q]]; [[9%Q]]]) = Ok (Stack F64 r) /\
  exists q, nth_error r 0 = Some [[q]] /\ (q < 0)%Q.
Proof.
  exists (fun _ _ _ => [[[5%Q]]; [[5%Q]]; [[5%Q]]]). eexists. split; [reflexivity|]. split; [vm_compute; reflexivity|].
  eexists. split; [reflexivity|]. reflexivity.
Qed.

(** ** C76: the window of the temporal filters *)
(** exact result *)
Theorem C76_window_iff : forall n ny nx win size,
  calcul_windowshape [n; ny; nx] win = Ok size <->
  1 < n /\
  ((win = WNone /\ size = [n; 1; 1]) \/
   (exists k, win = WInt k /\ size = [k; 1; 1]) \/
   (exists a b, win = WTuple [a; b] /\ size = [n; a; b]) \/
   (exists first rest, (win = WTuple (first :: rest) \/ win = WList (first :: rest)) /\ List.length rest <> 1%nat /\
      1 < first /\ size = first :: rest)).
Proof.
  intros n ny nx win size. unfold calcul_windowshape. change (py_get [n; ny; nx] 0) with (Ok n). cbn [bind].
  change (zlen [n; ny; nx] <=? 2) with false. cbn [orb].
  destruct (n <=? 1) eqn:En; [split; [discriminate|lia]|].
  assert (Hget : forall (f : Z) l, py_get (f :: l) 0 = Ok f).
  { intros f l. unfold py_get. cbv zeta. replace ((0 <=? 0) && (0 <? zlen (f :: l))) with true by (unfold zlen; cbn [List.length]; lia). reflexivity. }
  assert (Hgen : forall l, (do first <- py_get l 0 ; if first <=? 1 then Err ValueError else Ok l) = Ok size <->
             exists f rest, l = f :: rest /\ 1 < f /\ size = f :: rest).
  { intros l. destruct l as [|f rest]; [split; [discriminate|intros (f & r & [=] & _)]|]. rewrite Hget. cbn [bind]. destruct (f <=? 1) eqn:Ef.
    - split; [discriminate|]. intros (f' & r & [= <- <-] & H & _). lia.
    - split; [intros [= <-]; exists f, rest; repeat split; lia|]. intros (f' & r & [= <- <-] & _ & ->). reflexivity. }
  assert (H1n : 1 < n) by lia.
  destruct win as [|k|l|l|].
  - split; [intros [= <-]; split; [exact H1n|left; auto]|]. intros (_ & [(_ & ->)|[(k & [=] & _)|[(a & b & [=] & _)|(f & r & [[=]|[=]] & _)]]]). reflexivity.
  - split; [intros [= <-]; split; [exact H1n|right; left; eauto]|].
    intros (_ & [([=] & _)|[(k' & [= <-] & ->)|[(a & b & [=] & _)|(f & r & [[=]|[=]] & _)]]]). reflexivity.
  - destruct l as [|a [|b [|c l]]].
    + rewrite Hgen. split; [intros (f & r & [=] & _)|].
      intros (_ & [([=] & _)|[(k' & [=] & _)|[(a & b & [=] & _)|(f & r & [[=]|[=]] & _)]]]).
    + rewrite Hgen. split.
      * intros (f & r & E & Hf & ->). split; [exact H1n|]. right; right; right. exists f, r. injection E as <- <-. repeat split; [left; reflexivity|discriminate|exact Hf].
      * intros (_ & [([=] & _)|[(k' & [=] & _)|[(a' & b & [=] & _)|(f & r & [[= -> <-]|[=]] & _ & Hf & ->)]]]). eauto.
    + split.
      * intros [= <-]. split; [exact H1n|]. right; right; left. eauto.
      * intros (_ & [([=] & _)|[(k' & [=] & _)|[(a' & b' & [= <- <-] & ->)|(f & r & [[= <- <-]|[=]] & Hl & _)]]]); [reflexivity|]. exfalso. apply Hl. reflexivity.
    + rewrite Hgen. split.
      * intros (f & r & E & Hf & ->). split; [exact H1n|]. right; right; right. exists f, r. injection E as <- <-. repeat split; [left; reflexivity|discriminate|exact Hf].
      * intros (_ & [([=] & _)|[(k' & [=] & _)|[(a' & b' & [=] & _)|(f & r & [[= -> <-]|[=]] & _ & Hf & ->)]]]). eauto.
  - destruct l as [|a [|b [|c l]]].
    + rewrite Hgen. split; [intros (f & r & [=] & _)|].
      intros (_ & [([=] & _)|[(k' & [=] & _)|[(a & b & [=] & _)|(f & r & [[=]|[=]] & _)]]]).
    + rewrite Hgen. split.
      * intros (f & r & E & Hf & ->). split; [exact H1n|]. right; right; right. exists f, r. injection E as <- <-. repeat split; [right; reflexivity|discriminate|exact Hf].
      * intros (_ & [([=] & _)|[(k' & [=] & _)|[(a' & b & [=] & _)|(f & r & [[=]|[= -> <-]] & _ & Hf & ->)]]]). eauto.
    + split; [discriminate|].
      intros (_ & [([=] & _)|[(k' & [=] & _)|[(a' & b' & [=] & _)|(f & r & [[=]|[= <- <-]] & Hl & _)]]]). exfalso. apply Hl. reflexivity.
    + rewrite Hgen. split.
      * intros (f & r & E & Hf & ->). split; [exact H1n|]. right; right; right. exists f, r. injection E as <- <-. repeat split; [right; reflexivity|discriminate|exact Hf].
      * intros (_ & [([=] & _)|[(k' & [=] & _)|[(a' & b' & [=] & _)|(f & r & [[=]|[= -> <-]] & _ & Hf & ->)]]]). eauto.
  - split; [discriminate|]. intros (_ & [([=] & _)|[(k' & [=] & _)|[(a & b & [=] & _)|(f & r & [[=]|[=]] & _)]]]).
Qed.

(** C76: a window given as None or as a tuple of two or three numbers covers more than one image *)
Theorem C76_window_partial : forall n ny nx win size,
  calcul_windowshape [n; ny; nx] win = Ok size ->
  (forall k, win <> WInt k) -> exists nt rest, size = nt :: rest /\ 1 < nt.
Proof.
  intros n ny nx win size H Hi. apply C76_window_iff in H.
  destruct H as (Hn & [(_ & ->)|[(k & -> & _)|[(a & b & _ & ->)|(f & r & _ & _ & Hf & ->)]]]).
  - eauto.
  - destruct (Hi k eq_refl).
  - eauto.
  - eauto.
Qed.

(** C76 is false as stated: an int is not checked (with 1 the background is the image itself: the
    result is the zero image for every stack), and a list of two numbers raises TypeError although
    lists are accepted. *)
Theorem C76_window_refuted :
  (forall n ny nx k, 1 < n -> calcul_windowshape [n; ny; nx] (WInt k) = Ok [k; 1; 1]) /\
  (forall n ny nx a b, 1 < n -> calcul_windowshape [n; ny; nx] (WList [a; b]) = Err TypeError) /\
  (forall background l r,
     (forall d m, background [1; 1; 1] d m = m) -> (* a window of one pixel *)
     temporal background (PyFloat 1) (WInt 1) (Stack U8 l) = Ok r ->
     exists out, r = Stack F64 out /\ Forall (Forall (Forall (fun q => q == 0)%Q)) out).
Proof.
  assert (Hint : forall n ny nx k, 1 < n -> calcul_windowshape [n; ny; nx] (WInt k) = Ok [k; 1; 1]).
  { intros n ny nx k Hn. apply C76_window_iff. split; [exact Hn|]. right; left. eauto. }
  split; [exact Hint|]. split.
  - intros n ny nx a b Hn. unfold calcul_windowshape. change (py_get [n; ny; nx] 0) with (Ok n). cbn [bind].
    change (zlen [n; ny; nx] <=? 2) with false. cbn [orb]. replace (n <=? 1) with false by lia. reflexivity.
  - intros background l r Hb H. pose proof H as H'. apply (C77_temporal background (PyFloat 1) (WInt 1) U8 l _ r) in H'; [|exact Logic.I|reflexivity].
    destruct H' as (size & out & Hs & _ & -> & Hpx). exists out. split; [reflexivity|].
    unfold shape_of in Hs. apply C76_window_iff in Hs.
    assert (size = [1; 1; 1]) as ->.
    { destruct Hs as (_ & [([=] & _)|[(k & [= <-] & ->)|[(a & b & [=] & _)|(f & r & [[=]|[=]] & _)]]]). reflexivity. }
    rewrite Hb in Hpx.
    assert (Hsame : Forall2 same_size l l).
    { clear. induction l as [|p l IH]; constructor; [|exact IH]. unfold same_size. induction p; constructor; auto. }
    specialize (Hpx Hsame). clear - Hpx. revert out Hpx. induction l as [|p l IH]; intros out H; cbn [combine] in H; inversion H as [|? v ? out' Hv Ho]; subst; constructor.
    + cbn [fst snd] in Hv. eapply pixels3_diag; [|exact Hv]. cbn beta. intros x y ->. unfold qval. ring.
    + apply IH. exact Ho.
Qed.

(** ** Concrete cases *)
Section Ex.
Let ex_call (tool : chars) (kw : attribs bool) (a : arr) : result arr :=
  if name_eqb tool (of_string "global_threshold") then iterate_multiple_imgs (global_threshold (PyInt 10) (Some (PyInt 20))) a
  else if name_eqb tool (of_string "sliding_minima") then iterate_multiple_imgs (sliding (fun im => map (map (fun _ => 5%Q)) (px im)) (PyFloat 1)) a
  else Err KeyError.
Let ex_params : tools_params bool :=
  mk_tools bool [of_string "sliding_minima"; of_string "global_threshold"]
    (Some [of_string "global_threshold"; of_string "sliding_minima"; of_string "global_threshold"])
    [(of_string "sliding_minima", [(enable, false)]); (of_string "global_threshold", [(enable, true)])].

Example C55_order_ex :
  apply bool (fun b => b) [of_string "sliding_minima"; of_string "global_threshold"] ex_call ex_params
    (Stack U8 [[[3%Q; 50%Q]]; [[15%Q; 12%Q]]])
  = Ok (Stack F64 [[[10%Q; 20%Q]]; [[15%Q; 12%Q]]]).
Proof. vm_compute. reflexivity. Qed.
End Ex.

Example C55_sequence_ex :
  keeps_shape (global_threshold (PyInt 10) (Some (PyInt 20))) /\
  dtype_insensitive (global_threshold (PyInt 10) (Some (PyInt 20))) /\
  same_shapes [[[3%Q; 50%Q]]; [[15%Q; 12%Q]]].
Proof.
  split; [apply threshold_keeps_shape|]. split; [apply threshold_insensitive; exact Logic.I|].
  intros p q [<-|[<-|[]]] [<-|[<-|[]]]; reflexivity.
Qed.

Example C77_ex : exists r,
  sliding (fun _ => [[5%Q; 5%Q]]) (PyFloat (1 # 2)) (mk_img U8 [[2%Q; 7%Q]]) = Ok r /\ dt r = F64 /\
  Forall2 (Forall2 Qeq) (px r) [[0%Q; (9 # 2)%Q]].
Proof. eexists. split; [vm_compute; reflexivity|]. split; [reflexivity|]. repeat constructor. Qed.

Print Assumptions C55_order.
Print Assumptions C55_default.
Print Assumptions C55_subclass_refuted.
Print Assumptions C55_stack_tool.
Print Assumptions C55_stack_sequence_partial.
Print Assumptions C55_stack_sequence_refuted.
Print Assumptions C76_window_iff.
Print Assumptions C76_window_partial.
Print Assumptions C76_window_refuted.
Print Assumptions C77_sliding_partial.
Print Assumptions C77_between.
Print Assumptions C77_integer_weight_refuted.
Print Assumptions C77_integer_weight_iff.
Print Assumptions C77_temporal.
Print Assumptions C77_temporal_negative_refuted.
Print Assumptions C78_threshold_partial.
Print Assumptions C78_default_maxima.
Print Assumptions C78_threshold_refuted.

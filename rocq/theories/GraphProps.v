(** Properties of the construction of a topology and of the code of its graph (C117). *)
From Coq Require Import String Ascii Lia Bool.
From Verif Require Import PyBase StrModel NameModel NameProps GraphModel.
Open Scope string_scope.
Open Scope list_scope.

(** * Specification: how a line of a dot file is read *)
Definition dq : ascii := """"%char.
(** a text up to the next quotation mark, and what follows *)
Fixpoint until_quote (s : chars) : option (chars * chars) :=
  match s with
  | [] => None
  | c :: s' => if Ascii.eqb c dq then Some ([], s') else match until_quote s' with Some (a, r) => Some (c :: a, r) | None => None end
  end.
Definition read_quoted (s : chars) : option (chars * chars) :=
  match s with c :: s' => if Ascii.eqb c dq then until_quote s' else None | [] => None end.
Fixpoint skip_spaces (s : chars) : chars :=
  match s with c :: s' => if Ascii.eqb c " "%char then skip_spaces s' else s | [] => [] end.
Fixpoint expect (p s : chars) : option chars :=
  match p, s with
  | [], _ => Some s
  | a :: p', b :: s' => if Ascii.eqb a b then expect p' s' else None
  | _, [] => None
  end.
(** a node: identifier, label and the other attributes *)
Definition node_of (line : chars) : option (chars * chars * chars) :=
  match read_quoted line with
  | Some (name, r) =>
    match expect (of_string "[label=") (skip_spaces r) with
    | Some r' => match read_quoted r' with Some (label, rest) => Some (name, label, rest) | None => None end
    | None => None
    end
  | None => None
  end.
(** a link: origin, end, attributes *)
Definition link_of (line : chars) : option (chars * chars * chars) :=
  match read_quoted line with
  | Some (a, r) =>
    match expect (of_string "-> ") (skip_spaces r) with
    | Some r' => match read_quoted r' with Some (b, rest) => Some (a, b, rest) | None => None end
    | None => None
    end
  | None => None
  end.
Fixpoint collect {A} (f : chars -> option A) (lines : list chars) : list A :=
  match lines with [] => [] | l :: r => match f l with Some a => a :: collect f r | None => collect f r end end.
Definition nodes_in_file (text : chars) := collect node_of (split_on newline text).
Definition links_in_file (text : chars) := collect link_of (split_on newline text).

(** a name which can be between quotation marks *)
Definition clean (n : chars) : Prop := ~ In dq n /\ ~ In newline n.
Definition queues_of (a : qarg) : list queue := match a with ANone => [] | AOne q => [q] | AMany l => l end.
(** a QueueList which is not in a tuple *)
Definition bare_list (a : qarg) : Prop := match a with AOne (QList _ _) => True | _ => False end.
Definition clean_topo (t : topo) : Prop :=
  (forall q, In q (queues t) -> clean (qname q)) /\
  (forall w, In w (works t) -> clean (w_name w) /\ forall q, In q (queues_of (w_in w)) \/ In q (queues_of (w_out w)) -> clean (qname q)).
(** the documented kinds *)
Definition documented : list chars := map of_string ["global"; "one shot"; "io"; "eat key value"].
Definition documented_kind (k : wkind) : Prop := match k with KStr s => In s documented | _ => True end.
Definition is_kind (x : string) (k : wkind) : bool :=
  match k with KNone => false | KStr s => chars_eqb s (of_string x) | KSeq l => existsb (chars_eqb (of_string x)) l end.
Definition attributes (k : wkind) : chars :=
  of_string " [arrowhead = """ ++ of_string (if is_kind "global" k then "odiamond" else "normal")
  ++ of_string """, style = """ ++ of_string (if is_kind "one shot" k then "filled" else "dashed")
  ++ of_string """, color = """ ++ of_string (if is_kind "io" k then "Green" else "Black") ++ of_string """]".
Definition queue_node (q : queue) : chars * chars * chars :=
  (qname q, of_string "<f0> " ++ qname q ++ of_string "|<f1>|<f2>|<f3>|<f4>", of_string "]").
Definition work_node (w : work) : chars * chars * chars :=
  (w_name w, w_name w, of_string ",color = """ ++ of_string (if is_kind "io" (w_kind w) then "Green" else "Black") ++ of_string """]").
Definition work_links (w : work) : list (chars * chars * chars) :=
  map (fun q => (qname q, w_name w, attributes (w_kind w))) (queues_of (w_in w)) ++
  map (fun q => (w_name w, qname q, attributes (w_kind w))) (queues_of (w_out w)).

(** * Reading of one line *)
Lemma until_quote_app n r : ~ In dq n -> until_quote (n ++ dq :: r) = Some (n, r).
Proof.
  induction n as [|c n IH]; intros H; cbn [app until_quote]; [rewrite Ascii.eqb_refl; reflexivity|].
  destruct (Ascii.eqb_spec c dq) as [-> | _]; [exfalso; apply H; left; reflexivity|]. rewrite IH; [reflexivity|]. intros Hi. apply H. right. exact Hi.
Qed.
Lemma read_quoted_app n r : ~ In dq n -> read_quoted (quoted n ++ r) = Some (n, r).
Proof.
  intros H. unfold quoted. cbn [app read_quoted]. change quote with dq. rewrite Ascii.eqb_refl, <- app_assoc. cbn [app]. apply until_quote_app, H.
Qed.
Lemma skip_repeat k s : skip_spaces (repeat " "%char k ++ s) = skip_spaces s.
Proof. induction k as [|k IH]; [reflexivity|]. cbn. exact IH. Qed.
Lemma read_pad n r : ~ In dq n -> read_quoted (pad40 (quoted n) ++ r) = Some (n, repeat " "%char (40 - List.length (quoted n)) ++ r).
Proof. intros H. unfold pad40. rewrite <- app_assoc. apply read_quoted_app, H. Qed.

(** * Lines of the text *)
Lemma split_line l t : ~ In newline l -> split_on newline (l ++ newline :: t) = l :: split_on newline t.
Proof.
  induction l as [|c l IH]; intros H; cbn [app split_on]; [rewrite Ascii.eqb_refl; reflexivity|].
  destruct (Ascii.eqb_spec c newline) as [-> | _]; [exfalso; apply H; left; reflexivity|]. rewrite IH; [reflexivity|]. intros Hi. apply H. right. exact Hi.
Qed.
Lemma collect_line {A} (f : chars -> option A) l t : ~ In newline l ->
  collect f (split_on newline (l ++ newline :: t)) = match f l with Some a => a :: collect f (split_on newline t) | None => collect f (split_on newline t) end.
Proof. intros H. rewrite split_line by exact H. reflexivity. Qed.
Lemma collect_lines {A B} (f : chars -> option A) (line : B -> chars) (g : B -> list A) l t :
  (forall b, In b l -> ~ In newline (line b)) ->
  (forall b, In b l -> g b = match f (line b) with Some a => [a] | None => [] end) ->
  collect f (split_on newline (List.concat (map (fun b => line b ++ nl) l) ++ t)) = flat_map g l ++ collect f (split_on newline t).
Proof.
  induction l as [|b l IH]; intros Hn Hg; [reflexivity|]. cbn [map List.concat flat_map].
  replace (((line b ++ nl) ++ List.concat (map (fun b => line b ++ nl) l)) ++ t)
    with (line b ++ newline :: (List.concat (map (fun b => line b ++ nl) l) ++ t)) by (unfold nl; rewrite <- !app_assoc; reflexivity).
  rewrite collect_line by (apply Hn; left; reflexivity). rewrite (Hg b (or_introl eq_refl)).
  rewrite IH; [|intros b' Hb; apply Hn; right; exact Hb|intros b' Hb; apply Hg; right; exact Hb].
  destruct (f (line b)); reflexivity.
Qed.
Ltac nonl := let H := fresh in intros H; vm_compute in H; repeat (destruct H as [H | H]; [discriminate|]); exact H.
Lemma collect_header {A} (f : chars -> option A) t : (forall l, In l (split_on newline header) -> f l = None) ->
  collect f (split_on newline (header ++ t)) = collect f (split_on newline t).
Proof.
  intros H. unfold header in *. 
  set (l1 := of_string "digraph {") in *. set (l2 := of_string "rankdir = LR") in *. set (l3 := of_string "compound=true") in *.
  set (l4 := of_string "node [shape=""record""]") in *.
  assert (N1 : ~ In newline l1) by nonl. assert (N2 : ~ In newline l2) by nonl. assert (N3 : ~ In newline l3) by nonl. assert (N4 : ~ In newline l4) by nonl.
  assert (F : forall l, In l [l1; l2; l3; []; l4] -> f l = None).
  { intros l Hl. apply H. vm_compute. vm_compute in Hl. tauto. }
  replace ((l1 ++ nl ++ l2 ++ nl ++ l3 ++ nl ++ nl ++ l4 ++ nl) ++ t)
    with (l1 ++ newline :: (l2 ++ newline :: (l3 ++ newline :: ([] ++ newline :: (l4 ++ newline :: t)))))
    by reflexivity.
  rewrite !collect_line by (try assumption; intros []). rewrite !F by (cbn; tauto). reflexivity.
Qed.
Lemma collect_middle {A} (f : chars -> option A) t : f [] = None -> f (of_string "node [shape=""ellipse""]") = None ->
  collect f (split_on newline (middle ++ t)) = collect f (split_on newline t).
Proof.
  intros H0 H1. unfold middle. set (l1 := of_string "node [shape=""ellipse""]") in *. assert (N1 : ~ In newline l1) by nonl.
  replace ((nl ++ l1 ++ nl) ++ t) with ([] ++ newline :: (l1 ++ newline :: t)) by reflexivity.
  rewrite !collect_line by (try assumption; intros []). rewrite H0, H1. reflexivity.
Qed.
Lemma collect_nl {A} (f : chars -> option A) t : f [] = None -> collect f (split_on newline (nl ++ t)) = collect f (split_on newline t).
Proof. intros H0. unfold nl. change ([newline] ++ t) with ([] ++ newline :: t). rewrite collect_line by (intros []). rewrite H0. reflexivity. Qed.

(** * The lines of the queues, the works and the links, without their end *)
Definition line_queue (q : queue) : chars := pad40 (quoted (qname q)) ++ of_string " [label=""<f0> " ++ qname q ++ of_string "|<f1>|<f2>|<f3>|<f4>""]".
Definition line_work (w : work) : chars :=
  pad40 (quoted (w_name w)) ++ of_string " [label=""" ++ w_name w ++ of_string """,color = """
  ++ of_string (if kind_has "io" (w_kind w) then "Green" else "Black") ++ of_string """]".
Definition attrs_text (arrowhead style color : string) : chars :=
  of_string " [arrowhead = """ ++ of_string arrowhead ++ of_string """, style = """ ++ of_string style ++ of_string """, color = """ ++ of_string color ++ of_string """]".
Definition line_link (a b attrs : chars) : chars := pad40 (quoted a) ++ of_string " -> " ++ quoted b ++ attrs.

Lemma txt_queue_line q : txt_queue q = line_queue q ++ nl.
Proof. unfold txt_queue, line_queue. rewrite <- !app_assoc. reflexivity. Qed.
Lemma txt_work_line w : txt_work w = line_work w ++ nl.
Proof. unfold txt_work, line_work. rewrite <- !app_assoc. reflexivity. Qed.
Lemma str_link_line a b x y z : str_link a b x y z = line_link a b (attrs_text x y z) ++ nl.
Proof. unfold str_link, line_link, attrs_text. rewrite <- !app_assoc. reflexivity. Qed.

Lemma in_pad c n : In c (pad40 (quoted n)) -> c = " "%char \/ c = dq \/ In c n.
Proof.
  unfold pad40, quoted. intros H. apply in_app_or in H as [H | H].
  - destruct H as [H | H]; [auto|]. apply in_app_or in H as [H | [H | []]]; auto.
  - apply repeat_spec in H. auto.
Qed.
Lemma no_nl_pad n : ~ In newline n -> ~ In newline (pad40 (quoted n)).
Proof. intros H Hi. apply in_pad in Hi as [E | [E | E]]; [discriminate|discriminate|contradiction]. Qed.
Lemma no_nl_app l m : ~ In newline l -> ~ In newline m -> ~ In newline (l ++ m).
Proof. intros H1 H2 H. apply in_app_or in H as [H | H]; auto. Qed.
Lemma no_nl_queue q : ~ In newline (qname q) -> ~ In newline (line_queue q).
Proof. intros H. unfold line_queue. apply no_nl_app; [apply no_nl_pad, H|]. apply no_nl_app; [nonl|]. apply no_nl_app; [exact H|nonl]. Qed.
Lemma no_nl_work w : ~ In newline (w_name w) -> ~ In newline (line_work w).
Proof. intros H. unfold line_work. apply no_nl_app; [apply no_nl_pad, H|]. apply no_nl_app; [nonl|]. apply no_nl_app; [exact H|]. destruct (kind_has _ _); nonl. Qed.
Lemma no_nl_quoted n : ~ In newline n -> ~ In newline (quoted n).
Proof. intros H [E | Hi]; [discriminate|]. apply in_app_or in Hi as [Hi | [E | []]]; [contradiction|discriminate]. Qed.
Lemma no_nl_link a b s : ~ In newline a -> ~ In newline b -> ~ In newline s -> ~ In newline (line_link a b s).
Proof. intros H1 H2 H3. unfold line_link. apply no_nl_app; [apply no_nl_pad, H1|]. apply no_nl_app; [nonl|]. apply no_nl_app; [apply no_nl_quoted, H2|exact H3]. Qed.

Lemma node_queue q : clean (qname q) -> node_of (line_queue q) = Some (queue_node q).
Proof.
  intros [Hq Hn]. unfold node_of, line_queue. rewrite read_pad by exact Hq. rewrite skip_repeat.
  change (of_string " [label=""<f0> " ++ qname q ++ of_string "|<f1>|<f2>|<f3>|<f4>""]")
    with (of_string " [label=" ++ dq :: (of_string "<f0> " ++ qname q ++ of_string "|<f1>|<f2>|<f3>|<f4>""]")).
  replace (expect (of_string "[label=") (skip_spaces (of_string " [label=" ++ dq :: (of_string "<f0> " ++ qname q ++ of_string "|<f1>|<f2>|<f3>|<f4>""]"))))
    with (Some (dq :: (of_string "<f0> " ++ qname q ++ of_string "|<f1>|<f2>|<f3>|<f4>""]"))) by reflexivity.
  cbn [read_quoted]. rewrite Ascii.eqb_refl.
  replace (of_string "<f0> " ++ qname q ++ of_string "|<f1>|<f2>|<f3>|<f4>""]")
    with ((of_string "<f0> " ++ qname q ++ of_string "|<f1>|<f2>|<f3>|<f4>") ++ dq :: of_string "]").
  - rewrite until_quote_app; [reflexivity|]. intros H. apply in_app_or in H as [H | H]; [vm_compute in H; intuition discriminate|].
    apply in_app_or in H as [H | H]; [contradiction|]. vm_compute in H; intuition discriminate.
  - rewrite <- !app_assoc. reflexivity.
Qed.
Lemma node_work w : clean (w_name w) -> node_of (line_work w) =
  Some (w_name w, w_name w, of_string ",color = """ ++ of_string (if kind_has "io" (w_kind w) then "Green" else "Black") ++ of_string """]").
Proof.
  intros [Hq Hn]. unfold node_of, line_work. rewrite read_pad by exact Hq. rewrite skip_repeat.
  set (r := of_string (if kind_has "io" (w_kind w) then "Green" else "Black") ++ of_string """]").
  change (of_string " [label=""" ++ w_name w ++ of_string """,color = """ ++ r)
    with (of_string " [label=" ++ dq :: (w_name w ++ dq :: (of_string ",color = """ ++ r))).
  replace (expect (of_string "[label=") (skip_spaces (of_string " [label=" ++ dq :: (w_name w ++ dq :: (of_string ",color = """ ++ r)))))
    with (Some (dq :: (w_name w ++ dq :: (of_string ",color = """ ++ r)))) by reflexivity.
  cbn [read_quoted]. rewrite Ascii.eqb_refl. rewrite until_quote_app by exact Hq. reflexivity.
Qed.
Lemma node_link a b s : ~ In dq a -> node_of (line_link a b s) = None.
Proof. intros H. unfold node_of, line_link. rewrite read_pad by exact H. rewrite skip_repeat. reflexivity. Qed.
Lemma link_queue q : clean (qname q) -> link_of (line_queue q) = None.
Proof. intros [H _]. unfold link_of, line_queue. rewrite read_pad by exact H. rewrite skip_repeat. reflexivity. Qed.
Lemma link_work w : clean (w_name w) -> link_of (line_work w) = None.
Proof. intros [H _]. unfold link_of, line_work. rewrite read_pad by exact H. rewrite skip_repeat. reflexivity. Qed.
Lemma link_link a b s : ~ In dq a -> ~ In dq b -> link_of (line_link a b s) = Some (a, b, s).
Proof.
  intros Ha Hb. unfold link_of, line_link. rewrite read_pad by exact Ha. rewrite skip_repeat.
  replace (expect (of_string "-> ") (skip_spaces (of_string " -> " ++ quoted b ++ s))) with (Some (quoted b ++ s)) by reflexivity.
  rewrite read_quoted_app by exact Hb. reflexivity.
Qed.

(** * The links of a work *)
Definition arrow_of (w : work) : string := if kind_has "global" (w_kind w) then "odiamond" else "normal".
Definition style_of (w : work) : string := if kind_has "one shot" (w_kind w) then "filled" else "dashed".
Definition color_of (w : work) : string := if kind_has "io" (w_kind w) then "Green" else "Black".
Definition pairs_of (w : work) (ins outs : list chars) : list (chars * chars) := map (fun n => (n, w_name w)) ins ++ map (fun n => (w_name w, n)) outs.
Definition link_text (w : work) (ab : chars * chars) : chars := line_link (fst ab) (snd ab) (attrs_text (arrow_of w) (style_of w) (color_of w)).
Lemma txt_links_ok w ins outs : names_of (w_in w) = Ok ins -> names_of (w_out w) = Ok outs ->
  txt_links w = Ok (List.concat (map (fun ab => link_text w ab ++ nl) (pairs_of w ins outs))).
Proof.
  intros E1 E2. unfold txt_links. rewrite E1, E2. cbn [bind]. f_equal. unfold pairs_of. rewrite map_app, concat_app, !map_map.
  f_equal; f_equal; apply map_ext; intros n; rewrite str_link_line; reflexivity.
Qed.
Lemma kind_documented k : documented_kind k ->
  kind_has "io" k = is_kind "io" k /\ kind_has "global" k = is_kind "global" k /\ kind_has "one shot" k = is_kind "one shot" k.
Proof.
  destruct k as [|s|l]; cbn [documented_kind]; intros H; [repeat split| |repeat split].
  cbn in H. destruct H as [<- | [<- | [<- | [<- | []]]]]; repeat split; vm_compute; reflexivity.
Qed.
Lemma attributes_ok w : documented_kind (w_kind w) -> attrs_text (arrow_of w) (style_of w) (color_of w) = attributes (w_kind w).
Proof. intros H. destruct (kind_documented _ H) as (E1 & E2 & E3). unfold arrow_of, style_of, color_of, attributes, attrs_text. rewrite E1, E2, E3. reflexivity. Qed.
Lemma names_ok a : ~ bare_list a -> names_of a = Ok (map qname (queues_of a)).
Proof. destruct a as [|[n|n it]|l]; cbn; intros H; try reflexivity. exfalso. apply H. exact I. Qed.

Lemma map_result_cons {A B} (f : A -> result B) a l r : map_result f (a :: l) = Ok r -> exists b r', f a = Ok b /\ map_result f l = Ok r' /\ r = b :: r'.
Proof.
  cbn. destruct (f a) as [b|e]; [|discriminate]. cbn. destruct (map_result f l) as [r'|e]; [|discriminate]. cbn. intros E. injection E as <-. eauto.
Qed.
(** what is drawn, in general *)
Definition drawn (w : work) (ins outs : list chars) : list (chars * chars * chars) :=
  map (fun ab => (fst ab, snd ab, attrs_text (arrow_of w) (style_of w) (color_of w))) (pairs_of w ins outs).
Lemma attrs_no_nl w : ~ In newline (attrs_text (arrow_of w) (style_of w) (color_of w)).
Proof. unfold attrs_text, arrow_of, style_of, color_of. destruct (kind_has "global" _), (kind_has "one shot" _), (kind_has "io" _); nonl. Qed.

Lemma collect_work {A} (f : chars -> option A) (g : work -> chars * chars -> list A) w ins outs t : 
  clean (w_name w) -> (forall n, In n ins \/ In n outs -> clean n) ->
  (forall a b, clean a -> clean b -> g w (a, b) = match f (link_text w (a, b)) with Some x => [x] | None => [] end) ->
  collect f (split_on newline (List.concat (map (fun ab => link_text w ab ++ nl) (pairs_of w ins outs)) ++ t)) =
  flat_map (g w) (pairs_of w ins outs) ++ collect f (split_on newline t).
Proof.
  intros Hw Hn Hg.
  assert (Hp : forall ab, In ab (pairs_of w ins outs) -> clean (fst ab) /\ clean (snd ab)).
  { intros ab H. unfold pairs_of in H. apply in_app_or in H as [H | H]; apply in_map_iff in H as (n & <- & H); cbn; split; auto. }
  apply collect_lines.
  - intros ab H. destruct (Hp ab H) as [[_ H1] [_ H2]]. apply no_nl_link; [exact H1|exact H2|apply attrs_no_nl].
  - intros [a b] H. destruct (Hp _ H) as [H1 H2]. apply Hg; assumption.
Qed.
Lemma flat_single {A B} (h : A -> B) l : flat_map (fun x => [h x]) l = map h l.
Proof. induction l as [|a l IH]; [reflexivity|]. cbn. rewrite IH. reflexivity. Qed.
Lemma flat_nil {A B} (l : list A) : flat_map (fun _ => @nil B) l = [].
Proof. induction l as [|a l IH]; [reflexivity|]. exact IH. Qed.

(** names met for a work, when the items of the lists have no name *)
Definition no_names (a : qarg) : Prop := match a with AOne (QList _ items) => forall it, In it items -> it = None | _ => True end.
Definition met (a : qarg) : list chars := match a with AOne (QList _ _) => [] | _ => map qname (queues_of a) end.
Lemma names_met a l : no_names a -> names_of a = Ok l -> l = met a.
Proof.
  destruct a as [|[n|n it]|q]; cbn; intros H E; try (injection E as <-; reflexivity).
  destruct it as [|i it]; [injection E as <-; reflexivity|]. rewrite (H i (or_introl eq_refl)) in E. discriminate.
Qed.
Lemma met_clean (w : work) : (forall q, In q (queues_of (w_in w)) \/ In q (queues_of (w_out w)) -> clean (qname q)) ->
  forall n, In n (met (w_in w)) \/ In n (met (w_out w)) -> clean n.
Proof.
  intros H n Hn. assert (G : forall a, In n (met a) -> exists q, In q (queues_of a) /\ qname q = n).
  { intros a Ha. destruct a as [|[m|m it]|l]; cbn in Ha; try contradiction.
    - destruct Ha as [<- | []]. exists (QDict m). split; [left|]; reflexivity.
    - apply in_map_iff in Ha as (q & E & Hq). exists q. split; [exact Hq|exact E]. }
  destruct Hn as [Hn | Hn]; destruct (G _ Hn) as (q & Hq & <-); apply H; auto.
Qed.
Lemma links_text ws links t : map_result txt_links ws = Ok links ->
  (forall w, In w ws -> clean (w_name w) /\ forall q, In q (queues_of (w_in w)) \/ In q (queues_of (w_out w)) -> clean (qname q)) ->
  (forall w, In w ws -> no_names (w_in w) /\ no_names (w_out w)) ->
  collect node_of (split_on newline (List.concat links ++ t)) = collect node_of (split_on newline t) /\
  collect link_of (split_on newline (List.concat links ++ t)) = flat_map (fun w => drawn w (met (w_in w)) (met (w_out w))) ws ++ collect link_of (split_on newline t).
Proof.
  revert links. induction ws as [|w ws IH]; intros links E Hc Hn; [cbn in E; injection E as <-; split; reflexivity|].
  apply map_result_cons in E as (x & r & Ex & Er & ->).
  destruct (IH r Er) as [I1 I2]; [intros w' H; apply Hc; right; exact H|intros w' H; apply Hn; right; exact H|].
  destruct (Hc w (or_introl eq_refl)) as [Hw Hq]. destruct (Hn w (or_introl eq_refl)) as [N1 N2].
  unfold txt_links in Ex. destruct (names_of (w_in w)) as [ins|e] eqn:Ei; [|discriminate]. cbn [bind] in Ex.
  destruct (names_of (w_out w)) as [outs|e] eqn:Eo; [|discriminate]. cbn [bind] in Ex.
  pose proof (txt_links_ok w ins outs Ei Eo) as Ht. unfold txt_links in Ht. rewrite Ei, Eo in Ht. cbn [bind] in Ht. rewrite Ht in Ex.
  apply (f_equal (fun y => match y with Ok v => v | Err _ => [] end)) in Ex. cbv beta iota in Ex. subst x.
  apply names_met in Ei; [|exact N1]. apply names_met in Eo; [|exact N2]. subst ins outs.
  cbn [List.concat flat_map]. rewrite <- app_assoc. split.
  - rewrite (collect_work node_of (fun _ _ => [])); [|exact Hw|apply met_clean, Hq|].
    + rewrite flat_nil. exact I1.
    + intros a b [Ha _] _. unfold link_text. cbn [fst snd]. rewrite node_link by exact Ha. reflexivity.
  - rewrite (collect_work link_of (fun w ab => [(fst ab, snd ab, attrs_text (arrow_of w) (style_of w) (color_of w))])); [|exact Hw|apply met_clean, Hq|].
    + rewrite flat_single. rewrite I2, app_assoc. reflexivity.
    + intros a b [Ha _] [Hb _]. unfold link_text. cbn [fst snd]. rewrite link_link by assumption. reflexivity.
Qed.

Lemma graph_text t f file text : make_code_graphviz t f = Ok (file, text) -> clean_topo t ->
  (forall w, In w (works t) -> no_names (w_in w) /\ no_names (w_out w)) ->
  nodes_in_file text = map queue_node (queues t) ++
    map (fun w => (w_name w, w_name w, of_string ",color = """ ++ of_string (color_of w) ++ of_string """]")) (works t) /\
  links_in_file text = flat_map (fun w => drawn w (met (w_in w)) (met (w_out w))) (works t).
Proof.
  intros E [Hq Hw] Hn. unfold make_code_graphviz in E. destruct (map_result txt_links (works t)) as [links|e] eqn:El; [|discriminate].
  cbn [bind] in E. apply (f_equal (fun y => match y with Ok v => snd v | Err _ => [] end)) in E. cbv beta iota in E. cbn [snd] in E. subst text.
  unfold nodes_in_file, links_in_file.
  assert (L : forall A (f : chars -> option A), (forall l, In l (split_on newline legend) -> f l = None) -> collect f (split_on newline legend) = []).
  { intros A g H. induction (split_on newline legend) as [|l r IH]; [reflexivity|]. cbn [collect]. rewrite (H l (or_introl eq_refl)). apply IH.
    intros l' Hl. apply H. right. exact Hl. }
  assert (Eq : map txt_queue (queues t) = map (fun q => line_queue q ++ nl) (queues t)) by (apply map_ext; intros; apply txt_queue_line).
  assert (Ew : map txt_work (works t) = map (fun w => line_work w ++ nl) (works t)) by (apply map_ext; intros; apply txt_work_line).
  rewrite Eq, Ew. split.
  - rewrite collect_header by (intros l Hl; vm_compute in Hl; repeat (destruct Hl as [<- | Hl]; [vm_compute; reflexivity|]); destruct Hl).
    rewrite (collect_lines node_of line_queue (fun q => [queue_node q])).
    2:{ intros q H. apply no_nl_queue. apply Hq, H. }
    2:{ intros q H. rewrite node_queue by (apply Hq, H). reflexivity. }
    rewrite collect_middle by (vm_compute; reflexivity).
    rewrite (collect_lines node_of line_work (fun w => [(w_name w, w_name w, of_string ",color = """ ++ of_string (color_of w) ++ of_string """]")])).
    2:{ intros w H. apply no_nl_work. apply Hw, H. }
    2:{ intros w H. rewrite node_work by (apply Hw, H). reflexivity. }
    rewrite collect_nl by (vm_compute; reflexivity).
    rewrite (proj1 (links_text (works t) links legend El Hw Hn)). rewrite L.
    + rewrite !flat_single, app_nil_r. reflexivity.
    + intros l Hl. vm_compute in Hl. repeat (destruct Hl as [<- | Hl]; [vm_compute; reflexivity|]). destruct Hl.
  - rewrite collect_header by (intros l Hl; vm_compute in Hl; repeat (destruct Hl as [<- | Hl]; [vm_compute; reflexivity|]); destruct Hl).
    rewrite (collect_lines link_of line_queue (fun q => [])).
    2:{ intros q H. apply no_nl_queue. apply Hq, H. }
    2:{ intros q H. rewrite link_queue by (apply Hq, H). reflexivity. }
    rewrite collect_middle by (vm_compute; reflexivity).
    rewrite (collect_lines link_of line_work (fun w => [])).
    2:{ intros w H. apply no_nl_work. apply Hw, H. }
    2:{ intros w H. rewrite link_work by (apply Hw, H). reflexivity. }
    rewrite collect_nl by (vm_compute; reflexivity).
    rewrite (proj2 (links_text (works t) links legend El Hw Hn)). rewrite L.
    + rewrite !flat_nil, app_nil_r. reflexivity.
    + intros l Hl. vm_compute in Hl. repeat (destruct Hl as [<- | Hl]; [vm_compute; reflexivity|]). destruct Hl.
Qed.

(** One node per queue and per work, with its name, and the color of the works which read or write files. *)
Theorem C117_nodes t f file text : make_code_graphviz t f = Ok (file, text) -> clean_topo t ->
  (forall w, In w (works t) -> no_names (w_in w) /\ no_names (w_out w)) -> (forall w, In w (works t) -> documented_kind (w_kind w)) ->
  nodes_in_file text = map queue_node (queues t) ++ map work_node (works t).
Proof.
  intros E Hc Hn Hk. rewrite (proj1 (graph_text t f file text E Hc Hn)). f_equal. apply map_ext_in. intros w Hw.
  unfold work_node, color_of. rewrite (proj1 (kind_documented _ (Hk w Hw))). reflexivity.
Qed.

(** One link per input queue and per output queue of each work, in order, when no QueueList is given outside of a tuple. *)
Theorem C117_links t f : clean_topo t -> (forall w, In w (works t) -> documented_kind (w_kind w)) ->
  (forall w, In w (works t) -> ~ bare_list (w_in w) /\ ~ bare_list (w_out w)) ->
  exists file text, make_code_graphviz t f = Ok (file, text) /\ links_in_file text = flat_map work_links (works t).
Proof.
  intros Hc Hk Hb.
  assert (Hr : exists links, map_result txt_links (works t) = Ok links).
  { clear Hc Hk. induction (works t) as [|w ws IH]; [exists []; reflexivity|]. destruct IH as (r & Er); [intros w' H; apply Hb; right; exact H|].
    destruct (Hb w (or_introl eq_refl)) as [B1 B2]. cbn [map_result]. rewrite (txt_links_ok w _ _ (names_ok _ B1) (names_ok _ B2)), Er. eexists. reflexivity. }
  destruct Hr as (links & Er).
  assert (Hn : forall w, In w (works t) -> no_names (w_in w) /\ no_names (w_out w)).
  { intros w H. destruct (Hb w H) as [B1 B2]. split; [destruct (w_in w) as [|[n|n it]|l]|destruct (w_out w) as [|[n|n it]|l]]; cbn in *; tauto. }
  unfold make_code_graphviz. rewrite Er. cbn [bind]. do 2 eexists. split; [reflexivity|].
  edestruct (graph_text t f) as [_ El]; [unfold make_code_graphviz; rewrite Er; reflexivity|exact Hc|exact Hn|]. rewrite El.
  clear El Er links Hc. induction (works t) as [|w ws IH]; [reflexivity|]. cbn [flat_map].
  rewrite IH; [|intros w' H; first [apply Hk|apply Hb|apply Hn]; right; exact H..]. f_equal.
  destruct (Hb w (or_introl eq_refl)) as [B1 B2]. unfold drawn, work_links, pairs_of. rewrite (attributes_ok w (Hk w (or_introl eq_refl))).
  assert (M : forall a, ~ bare_list a -> met a = map qname (queues_of a)) by (intros a; destruct a as [|[n|n it]|l]; cbn; tauto).
  rewrite (M _ B1), (M _ B2), map_app, !map_map. reflexivity.
Qed.

(** The graph is right exactly when no QueueList is given outside of a tuple; otherwise a link is missing, or
    AttributeError is raised when there are items in the list. *)
Theorem C117_links_iff t f : clean_topo t -> (forall w, In w (works t) -> documented_kind (w_kind w)) ->
  (forall w, In w (works t) -> no_names (w_in w) /\ no_names (w_out w)) ->
  ((exists file text, make_code_graphviz t f = Ok (file, text) /\ links_in_file text = flat_map work_links (works t)) <->
   forall w, In w (works t) -> ~ bare_list (w_in w) /\ ~ bare_list (w_out w)).
Proof.
  intros Hc Hk Hn. split; [|apply C117_links; assumption].
  intros (file & text & E & El). rewrite (proj2 (graph_text t f file text E Hc Hn)) in El. clear E Hc Hk Hn.
  assert (Hlen : forall w, (List.length (drawn w (met (w_in w)) (met (w_out w))) <= List.length (work_links w))%nat /\
    (List.length (drawn w (met (w_in w)) (met (w_out w))) = List.length (work_links w) -> ~ bare_list (w_in w) /\ ~ bare_list (w_out w))).
  { intros w. unfold drawn, work_links, pairs_of. rewrite map_length, !app_length, !map_length.
    assert (M : forall a, (List.length (met a) <= List.length (queues_of a))%nat /\ (List.length (met a) = List.length (queues_of a) -> ~ bare_list a)).
    { intros a. destruct a as [|[n|n it]|l]; cbn; rewrite ?map_length; split; try lia; auto. }
    destruct (M (w_in w)) as [A1 A2], (M (w_out w)) as [B1 B2]. split; [lia|]. intros H. split; [apply A2|apply B2]; lia. }
  assert (G : forall ws, (List.length (flat_map (fun w => drawn w (met (w_in w)) (met (w_out w))) ws) <= List.length (flat_map work_links ws))%nat /\
    (List.length (flat_map (fun w => drawn w (met (w_in w)) (met (w_out w))) ws) = List.length (flat_map work_links ws) ->
      forall w, In w ws -> ~ bare_list (w_in w) /\ ~ bare_list (w_out w))).
  { induction ws as [|w ws [I1 I2]]; [split; [cbn; lia|intros _ w []]|]. cbn [flat_map]. rewrite !app_length.
    destruct (Hlen w) as [L1 L2]. split; [lia|]. intros H w' [<- | Hw]; [apply L2; lia|apply I2; [lia|exact Hw]]. }
  apply G. rewrite El. reflexivity.
Qed.

(** A work which takes a QueueList directly: the link is not drawn. *)
Theorem C117_bare_refuted name n file text f : clean name -> clean n -> 
  make_code_graphviz (mk_topo [QList n []] [mk_work name (KStr (of_string "global")) (AOne (QList n [])) ANone] []) f = Ok (file, text) ->
  links_in_file text = [].
Proof.
  intros Hc Hn E. apply graph_text in E as [_ E].
  - exact E.
  - split; [intros q [<- | []]; exact Hn|]. intros w [<- | []]. split; [exact Hc|]. intros q [[<- | []] | []]. exact Hn.
  - intros w [<- | []]. cbn. split; [intros it []|exact I].
Qed.

(** In the graph, a name is one node: queues and works are apart exactly when all the names are different. *)
Theorem C117_apart_iff t f file text : make_code_graphviz t f = Ok (file, text) -> clean_topo t ->
  (forall w, In w (works t) -> no_names (w_in w) /\ no_names (w_out w)) -> (forall w, In w (works t) -> documented_kind (w_kind w)) ->
  (NoDup (map (fun n => fst (fst n)) (nodes_in_file text)) <-> NoDup (map qname (queues t) ++ map w_name (works t))).
Proof. intros E Hc Hn Hk. rewrite (C117_nodes t f file text E Hc Hn Hk), map_app, !map_map. reflexivity. Qed.

(** A name with a quotation mark is not the one of the node. *)
Theorem C117_quote_refuted : exists t file text, make_code_graphviz t (of_string "tmp.dot") = Ok (file, text) /\
  map qname (queues t) = [of_string "a""b"] /\ nodes_in_file text = [].
Proof.
  exists (mk_topo [QDict (of_string "a""b")] [] []). do 2 eexists. split; [reflexivity|]. split; [reflexivity|]. vm_compute. reflexivity.
Qed.

(** The file has the given name, with ".dot" added if it is not there. *)
Lemma starts_spec p s : starts p s = true <-> exists r, s = p ++ r.
Proof.
  revert s. induction p as [|a p IH]; intros s; cbn; [split; [intros _; exists s; reflexivity|reflexivity]|].
  destruct s as [|b s]; [split; [discriminate|intros (r & H); discriminate]|].
  destruct (Ascii.eqb_spec a b) as [-> | Hn].
  - rewrite IH. split; intros (r & H); exists r; [rewrite H; reflexivity|injection H as ->; reflexivity].
  - split; [discriminate|]. intros (r & H). injection H as H _. congruence.
Qed.
Theorem C117_file t f file text : make_code_graphviz t f = Ok (file, text) ->
  ((exists s, f = s ++ of_string ".dot") -> file = f) /\ ((forall s, f <> s ++ of_string ".dot") -> file = f ++ of_string ".dot").
Proof.
  intros E. unfold make_code_graphviz in E. destruct (map_result txt_links (works t)); [|discriminate]. cbn [bind] in E.
  apply (f_equal (fun y => match y with Ok v => fst v | Err _ => [] end)) in E. cbv beta iota in E. cbn [fst] in E. subst file.
  unfold dot_file, ends_dot.
  destruct (starts (rev (of_string ".dot")) (rev f)) eqn:S.
  - apply starts_spec in S as (r & S). assert (Ef : f = rev r ++ of_string ".dot") by (rewrite <- (rev_involutive f), S, rev_app_distr, rev_involutive; reflexivity).
    split; [|intros H; exfalso; exact (H _ Ef)]. intros _. rewrite Ef at 3. f_equal. rewrite Ef. rewrite app_length.
    change (List.length (of_string ".dot")) with 4%nat. replace (List.length (rev r) + 4 - 4)%nat with (List.length (rev r)) by lia.
    rewrite firstn_app, firstn_all, Nat.sub_diag. cbn. apply app_nil_r.
  - split; [|reflexivity]. intros (s & ->). rewrite rev_app_distr in S. assert (T : starts (rev (of_string ".dot")) (rev (of_string ".dot") ++ rev s) = true) by (apply starts_spec; eauto). congruence.
Qed.

(** * Construction: any sequence of calls, an exception of one call does not stop the next ones *)
Inductive call := CQueue (name : chars) (is_list : bool) | CWork (w : work).
Definition one_call (t : topo) (c : call) : topo * bool :=
  match c with
  | CQueue n b => (fst (add_queue t n b), true)
  | CWork w => let (t', r) := add_work t w in (t', match r with Ok _ => true | Err _ => false end)
  end.
Fixpoint calls (t : topo) (cs : list call) : topo * list bool :=
  match cs with [] => (t, []) | c :: cs' => let (t1, b) := one_call t c in let (t2, bs) := calls t1 cs' in (t2, b :: bs) end.
Definition works_given (cs : list call) : list work := flat_map (fun c => match c with CWork w => [w] | _ => [] end) cs.
Definition queues_given (cs : list call) : list queue :=
  flat_map (fun c => match c with CQueue n b => [if b then QList n [] else QDict n] | _ => [] end) cs.
(** the first work of each name *)
Fixpoint firsts (seen : list chars) (ws : list work) : list work :=
  match ws with
  | [] => []
  | w :: r => if in_dec (list_eq_dec Ascii.ascii_dec) (w_name w) seen then firsts seen r else w :: firsts (w_name w :: seen) r
  end.
Fixpoint accepted (seen : list chars) (cs : list call) : list bool :=
  match cs with
  | [] => []
  | CQueue _ _ :: r => true :: accepted seen r
  | CWork w :: r => if in_dec (list_eq_dec Ascii.ascii_dec) (w_name w) seen then false :: accepted seen r else true :: accepted (w_name w :: seen) r
  end.
Lemma name_in_dict_spec n d : name_in_dict n d = true <-> In n (map fst d).
Proof.
  unfold name_in_dict. rewrite existsb_exists. split.
  - intros ((k & w) & Hin & E). apply chars_eqb_spec in E. cbn in E. subst k. apply in_map_iff. exists (n, w). split; [reflexivity|exact Hin].
  - intros H. apply in_map_iff in H as ((k & w) & <- & Hin). exists (k, w). split; [exact Hin|]. apply chars_eqb_spec. reflexivity.
Qed.
Lemma calls_spec cs : forall t seen, (forall n, In n seen <-> In n (map fst (works_dict t))) ->
  exists t', calls t cs = (t', accepted seen cs) /\ queues t' = queues t ++ queues_given cs /\ works t' = works t ++ works_given cs /\
    works_dict t' = works_dict t ++ map (fun w => (w_name w, w)) (firsts seen (works_given cs)).
Proof.
  induction cs as [|c cs IH]; intros t seen Hs.
  - exists t. cbn. rewrite !app_nil_r. auto.
  - destruct c as [n b|w]; cbn [calls one_call accepted works_given queues_given flat_map].
    + destruct (IH (fst (add_queue t n b)) seen Hs) as (t' & E & H1 & H2 & H3). exists t'. cbn [add_queue fst] in *. rewrite E. split; [reflexivity|].
      cbn [queues works works_dict] in *. rewrite H1, H2, H3. rewrite <- app_assoc. auto.
    + fold (works_given cs). fold (queues_given cs). unfold add_work. destruct (name_in_dict (w_name w) (works_dict t)) eqn:D.
      * assert (Hin : In (w_name w) seen) by (apply Hs, name_in_dict_spec, D). cbn [app firsts]. destruct (in_dec _ _ _) as [_ | Hno]; [|contradiction].
        destruct (IH (mk_topo (queues t) (works t ++ [w]) (works_dict t)) seen Hs) as (t' & E & H1 & H2 & H3). exists t'. rewrite E. split; [reflexivity|].
        cbn [queues works works_dict] in *. rewrite H1, H2, H3, <- app_assoc. auto.
      * assert (Hno : ~ In (w_name w) seen) by (intros H; apply Hs, name_in_dict_spec in H; congruence). cbn [app firsts]. destruct (in_dec _ _ _) as [Hin | _]; [contradiction|].
        cbn [queues works works_dict]. destruct (IH (mk_topo (queues t) (works t ++ [w]) (works_dict t ++ [(w_name w, w)])) (w_name w :: seen)) as (t' & E & H1 & H2 & H3).
        { intros n. cbn [works_dict]. rewrite map_app, in_app_iff. cbn. rewrite <- Hs. tauto. }
        exists t'. rewrite E. split; [reflexivity|]. cbn [queues works works_dict] in *. rewrite H1, H2, H3, <- !app_assoc. auto.
Qed.
(** A call is refused exactly when the name is the one of an earlier work; the dictionary has the first work of each name; the
    list of the works, which is what is executed and drawn, has all of them. *)
Theorem C117_history cs : exists t, calls topo0 cs = (t, accepted [] cs) /\ queues t = queues_given cs /\ works t = works_given cs /\
  works_dict t = map (fun w => (w_name w, w)) (firsts [] (works_given cs)).
Proof. destruct (calls_spec cs topo0 []) as (t & H); [intros n; reflexivity|]. exists t. exact H. Qed.
Theorem C117_refused_refuted w w' : w_name w = w_name w' ->
  exists t, calls topo0 [CWork w; CWork w'] = (t, [true; false]) /\ works t = [w; w'] /\ works_dict t = [(w_name w, w)].
Proof.
  intros E. destruct (C117_history [CWork w; CWork w']) as (t & H1 & _ & H2 & H3). exists t. rewrite H1, H2, H3. cbn.
  destruct (list_eq_dec _ _ _) as [_ | Hn]; [|congruence]. repeat split.
Qed.

Print Assumptions C117_nodes.
Print Assumptions C117_links.
Print Assumptions C117_links_iff.
Print Assumptions C117_bare_refuted.
Print Assumptions C117_apart_iff.
Print Assumptions C117_quote_refuted.
Print Assumptions C117_file.
Print Assumptions C117_history.
Print Assumptions C117_refused_refuted.

(** * A case: TopologyMeanImage (topologies/mean.py:71-95) *)
Definition ex_topo : topo :=
  let paths := QDict (of_string "paths") in let arrays := QDict (of_string "arrays") in let tmp := QList (of_string "tmp_arrays") [] in
  mk_topo [paths; arrays; tmp]
    [mk_work (of_string "fill_path") (KStr (of_string "one shot")) ANone (AOne paths);
     mk_work (of_string "read_array") (KStr (of_string "io")) (AOne paths) (AOne arrays);
     mk_work (of_string "main") (KStr (of_string "global")) (AMany [paths; arrays; tmp]) ANone] [].
Lemma clean_dec n : (forallb (fun c => negb (Ascii.eqb c dq) && negb (Ascii.eqb c newline)) n) = true -> clean n.
Proof.
  intros H. rewrite forallb_forall in H. split; intros Hi; specialize (H _ Hi); vm_compute in H; discriminate.
Qed.
Example ex_hyps : clean_topo ex_topo /\ (forall w, In w (works ex_topo) -> documented_kind (w_kind w)) /\
  (forall w, In w (works ex_topo) -> ~ bare_list (w_in w) /\ ~ bare_list (w_out w)) /\
  (forall w, In w (works ex_topo) -> no_names (w_in w) /\ no_names (w_out w)).
Proof.
  assert (C : forall q, In q (queues ex_topo) -> clean (qname q)).
  { intros q H. cbn in H. repeat (destruct H as [<- | H]; [apply clean_dec; vm_compute; reflexivity|]). destruct H. }
  assert (W : forall P : work -> Prop, P (nth 0 (works ex_topo) (mk_work [] KNone ANone ANone)) -> P (nth 1 (works ex_topo) (mk_work [] KNone ANone ANone)) ->
    P (nth 2 (works ex_topo) (mk_work [] KNone ANone ANone)) -> forall w, In w (works ex_topo) -> P w).
  { intros P H0 H1 H2 w H. destruct H as [<- | [<- | [<- | []]]]; assumption. }
  split; [split; [exact C|]; apply W|split; [apply W|split; apply W]]; cbn;
    try (split; [apply clean_dec; vm_compute; reflexivity|]; intros q H; apply C; cbn; tauto); try tauto.
Qed.
Example ex_graph : exists text, make_code_graphviz ex_topo (of_string "topo") = Ok (of_string "topo.dot", text) /\
  map (fun l => fst l) (links_in_file text) = map (fun ab => (of_string (fst ab), of_string (snd ab)))
    [("fill_path", "paths"); ("paths", "read_array"); ("read_array", "arrays"); ("paths", "main"); ("arrays", "main"); ("tmp_arrays", "main")] /\
  List.length (nodes_in_file text) = 6%nat.
Proof. eexists. split; [reflexivity|]. split; vm_compute; reflexivity. Qed.

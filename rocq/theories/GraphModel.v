(** Construction of a topology and code of its graph: TopologyBase.add_queue, add_work and make_code_graphviz
    (topologies/base.py:300-334, 421-528).

    Simplifications: a queue is its name, and its items when it is a list (the items of the other queues are not read);
    a work is its name, its kind and its queues. *)
From Coq Require Import String Ascii.
From Verif Require Import PyBase StrModel.
From Verif Require Import NameModel.
Open Scope string_scope.
Open Scope list_scope.

(** Queue (an OrderedDict) or QueueList (a list, base.py:212-216); [items]: the names of the items, None for an item without attribute
    [name] *)
Inductive queue := QDict (name : chars) | QList (name : chars) (items : list (option chars)).
Definition qname (q : queue) : chars := match q with QDict n => n | QList n _ => n end.

(** the argument [kind] of a work: None, a text or a sequence of texts *)
Inductive wkind := KNone | KStr (s : chars) | KSeq (l : list chars).
(** the arguments [input_queue] and [output_queue]: None, a queue, or a tuple of queues *)
Inductive qarg := ANone | AOne (q : queue) | AMany (l : list queue).
Record work := mk_work { w_name : chars; w_kind : wkind; w_in : qarg; w_out : qarg }.

Record topo := mk_topo { queues : list queue; works : list work; works_dict : list (chars * work) }.
(** base.py:290-293 *)
Definition topo0 : topo := mk_topo [] [] [].
(** TopologyBase.add_queue, base.py:300-307 (the kind is only compared with "list") *)
Definition add_queue (t : topo) (name : chars) (is_list : bool) : topo * queue :=
  let q := if is_list then QList name [] else QDict name in
  (mk_topo (queues t ++ [q]) (works t) (works_dict t), q).
Definition name_in_dict (n : chars) (d : list (chars * work)) : bool := existsb (fun kw => chars_eqb n (fst kw)) d.
(** TopologyBase.add_work, base.py:309-334: the work is in the list before the name is looked at *)
Definition add_work (t : topo) (w : work) : topo * result unit :=
  let t1 := mk_topo (queues t) (works t ++ [w]) (works_dict t) in
  if name_in_dict (w_name w) (works_dict t) then (t1, Err ValueError)
  else (mk_topo (queues t1) (works t1) (works_dict t1 ++ [(w_name w, w)]), Ok tt).

(** [x in work.kind]: part of the text, or element of the sequence *)
Fixpoint starts (p s : chars) : bool :=
  match p, s with
  | [], _ => true
  | _, [] => false
  | a :: p', b :: s' => if Ascii.eqb a b then starts p' s' else false
  end.
Fixpoint substr (p s : chars) : bool := starts p s || match s with [] => false | _ :: s' => substr p s' end.
Definition kind_has (x : string) (k : wkind) : bool :=
  match k with
  | KNone => false
  | KStr s => substr (of_string x) s
  | KSeq l => existsb (chars_eqb (of_string x)) l
  end.

Definition quote : ascii := """"%char.
Definition quoted (s : chars) : chars := quote :: s ++ [quote].
(** the format [{:40s}] *)
Definition pad40 (s : chars) : chars := s ++ repeat " "%char (40 - List.length s).
Definition nl : chars := [newline].

(** base.py:433-445 *)
Definition header : chars :=
  of_string "digraph {" ++ nl ++ of_string "rankdir = LR" ++ nl ++ of_string "compound=true" ++ nl ++ nl ++ of_string "node [shape=""record""]" ++ nl.
(** base.py:437-445 *)
Definition txt_queue (q : queue) : chars :=
  pad40 (quoted (qname q)) ++ of_string " [label=""<f0> " ++ qname q ++ of_string "|<f1>|<f2>|<f3>|<f4>""]" ++ nl.
(** base.py:448 *)
Definition middle : chars := nl ++ of_string "node [shape=""ellipse""]" ++ nl.
(** base.py:450-458 *)
Definition txt_work (w : work) : chars :=
  let color := if kind_has "io" (w_kind w) then "Green" else "Black" in
  pad40 (quoted (w_name w)) ++ of_string " [label=""" ++ w_name w ++ of_string """,color = """ ++ of_string color ++ of_string """]" ++ nl.
(** base.py:462-464 *)
Definition str_link (a b : chars) (arrowhead style color : string) : chars :=
  pad40 (quoted a) ++ of_string " -> " ++ quoted b ++ of_string " [arrowhead = """ ++ of_string arrowhead ++ of_string """, style = """
  ++ of_string style ++ of_string """, color = """ ++ of_string color ++ of_string """]" ++ nl.
(** base.py:478-481 and 486-489: the names met by the loop over the queues; only a Queue is put in a tuple *)
Definition names_of (a : qarg) : result (list chars) :=
  match a with
  | ANone => Ok []
  | AOne (QDict n) => Ok [n]
  | AOne (QList _ items) => map_result (fun it : option chars => match it with Some n => Ok n | None => Err AttributeError end) items
  | AMany l => Ok (map qname l)
  end.
(** base.py:466-493 *)
Definition txt_links (w : work) : result chars :=
  let style := if kind_has "one shot" (w_kind w) then "filled" else "dashed" in
  let arrowhead := if kind_has "global" (w_kind w) then "odiamond" else "normal" in
  let color := if kind_has "io" (w_kind w) then "Green" else "Black" in
  do ins <- names_of (w_in w) ;
  do outs <- names_of (w_out w) ;
  Ok (List.concat (map (fun n => str_link n (w_name w) arrowhead style color) ins)
      ++ List.concat (map (fun n => str_link (w_name w) n arrowhead style color) outs)).
(** base.py:496-516 *)
Definition legend : chars :=
  nl ++ of_string " subgraph cluster_01 {"
  ++ nl ++ of_string " node [height=""0px"", width=""0px"",shape=none,];"
  ++ nl ++ of_string " edge [ minlen = 1,];"
  ++ nl ++ of_string " label = ""Legend"";"
  ++ nl ++ of_string " key [label=<<table border=""0"" cellpadding=""2"" cellspacing=""0"" cellborder=""0"">"
  ++ nl ++ of_string " <tr><td align=""right"" port=""i1"">Global</td></tr>"
  ++ nl ++ of_string " <tr><td align=""right"" port=""i2"">One Shot</td></tr>"
  ++ nl ++ of_string " <tr><td align=""right"" port=""i3"">Multiple Shot</td></tr>"
  ++ nl ++ of_string " <tr><td align=""right"" port=""i4"">I/O</td></tr>"
  ++ nl ++ of_string " </table>>]"
  ++ nl ++ of_string " key2 [label=<<table border=""0"" cellpadding=""2"" cellspacing=""0"" cellborder=""0"">"
  ++ nl ++ of_string "<tr><td port=""i1"">&nbsp;</td></tr>"
  ++ nl ++ of_string "<tr><td port=""i2"">&nbsp;</td></tr>"
  ++ nl ++ of_string "<tr><td port=""i3"">&nbsp;</td></tr>"
  ++ nl ++ of_string "<tr><td port=""i4"">&nbsp;</td></tr>"
  ++ nl ++ of_string " </table>>]"
  ++ nl ++ of_string "  key:i1:e -> key2:i1:w [arrowhead = ""odiamond""]"
  ++ nl ++ of_string "  key:i2:e -> key2:i2:w [arrowhead = ""none""]"
  ++ nl ++ of_string "  key:i3:e -> key2:i3:w [style = ""dashed"", arrowhead = ""none""]"
  ++ nl ++ of_string "  key:i4:e -> key2:i4:w [arrowhead = ""none"", color=""Green""]"
  ++ nl ++ of_string " } " ++ nl ++ of_string "}" ++ nl.

(** base.py:430-433 and 520: the name of the file *)
Definition ends_dot (s : chars) : bool := starts (rev (of_string ".dot")) (rev s).
Definition dot_file (name_file : chars) : chars :=
  (if ends_dot name_file then firstn (List.length name_file - 4) name_file else name_file) ++ of_string ".dot".
(** TopologyBase.make_code_graphviz, base.py:421-521: the name and the content of the file *)
Definition make_code_graphviz (t : topo) (name_file : chars) : result (chars * chars) :=
  do links <- map_result txt_links (works t) ;
  Ok (dot_file name_file,
      header ++ List.concat (map txt_queue (queues t)) ++ middle ++ List.concat (map txt_work (works t)) ++ nl ++ List.concat links ++ legend).

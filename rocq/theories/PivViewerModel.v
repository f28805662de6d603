(** gui/piv_viewer.py: the viewer of PIV files as a state machine, lines 34-65 and 137-213.

    The events are the clicks on the buttons and the texts entered in the text box.  matplotlib prints the exceptions of the
    callbacks: the state reached before the exception is kept.  [TextBox.set_val] does nothing if the text is the same, otherwise
    it calls the callback with the new text.  [Quiver.set_UVC] accepts as many vectors as there are arrows, or one.

    Simplifications: the files are not changed meanwhile; a group of a file has the four arrays of the final vectors or none of
    them; the four arrays of a group are given as the list of the positions and the list of the vectors. *)
From Verif Require Import PyBase StrModel MonitorJobModel.

Section Viewer.
Context {X Y : Type}.                                         (* positions, vectors *)
Notation data := (list X * list Y)%type.

(** *** lines 34-65: get_piv_data_from_path *)
Inductive class := Multipass | Light | OtherClass.
(** the keys of the file with, for the groups of the passes, the final vectors *)
Record hfile := mk_hfile { h_class : class; h_keys : list (chars * option data) }.
Fixpoint find_key (k : chars) (l : list (chars * option data)) : result data :=
  match l with
  | [] => Err KeyError
  | (k', d) :: l' => if list_eq_dec Ascii.ascii_dec k k' then (match d with Some d => Ok d | None => Err KeyError end) else find_key k l'
  end.
Definition get_piv_data (f : hfile) : result data :=
  match h_class f with
  | OtherClass => Err NotImplementedError
  | Light => find_key (of_string "piv") (h_keys f)
  | Multipass =>
    let keys := sorted_str (filter (starts (of_string "piv")) (map fst (h_keys f))) in
    do key <- py_get keys (-1) ;
    find_key key (h_keys f)
  end.

(** *** the window *)
Variable num_files : Z.
Variable read : Z -> result data.                             (* get_piv_data_from_path for the file number i *)

Record window := mk_window { w_index : Z; w_text : chars; w_title : Z; w_positions : list X; w_vectors : list Y }.
Definition with_index i w := mk_window i (w_text w) (w_title w) (w_positions w) (w_vectors w).
Definition with_text t w := mk_window (w_index w) t (w_title w) (w_positions w) (w_vectors w).
Definition with_title i w := mk_window (w_index w) (w_text w) i (w_positions w) (w_vectors w).
Definition with_vectors v w := mk_window (w_index w) (w_text w) (w_title w) (w_positions w) v.

Definition accepted (nb_arrows : nat) (v : list Y) : bool := (Nat.eqb (List.length v) nb_arrows || Nat.eqb (List.length v) 1)%bool.

(** lines 150-176 *)
Definition init_window (index : Z) : result window :=
  do (positions, vectors) <- read index ;
  if accepted (List.length positions) vectors then Ok (mk_window index (py_str index) index positions vectors) else Err ValueError.

(** lines 208-212 *)
Definition update_fig (w : window) : window * option exn :=
  match read (w_index w) with
  | Err e => (w, Some e)
  | Ok (_, vectors) =>
    let w := with_title (w_index w) w in
    if accepted (List.length (w_positions w)) vectors then (with_vectors vectors w, None) else (w, Some ValueError)
  end.

(** lines 201-206; [set_textbox] is [_set_textbox_value] *)
Definition set_index_with (set_textbox : Z -> window -> window) (index : Z) (w : window) : window * option exn :=
  if index =? w_index w then (w, None)
  else
    let w := with_index (index mod num_files) w in
    update_fig (set_textbox (w_index w) w).
(** lines 184-195: the callback of the text box, which has the text [text] *)
Definition callback_with (set_textbox : Z -> window -> window) (text : chars) (w : window) : window * option exn :=
  match py_int text with
  | Err _ => (set_textbox (w_index w) w, None)
  | Ok index =>
    let index := if num_files <=? index then num_files - 1 else if index <? 0 then 0 else index in
    set_index_with set_textbox index (set_textbox index w)
  end.
(** lines 197-199: [set_val] calls the callback if the text is new.  [fuel]: depth of the recursion allowed by Python *)
Fixpoint set_textbox (fuel : nat) (value : Z) (w : window) : window :=
  if list_eq_dec Ascii.ascii_dec (w_text w) (py_str value) then w
  else
    match fuel with
    | O => w
    | S fuel' => fst (callback_with (set_textbox fuel') (py_str value) (with_text (py_str value) w))
    end.
Variable fuel : nat.
Definition set_index := set_index_with (set_textbox fuel).
Definition submit (text : chars) (w : window) := callback_with (set_textbox fuel) text (with_text text w).

Inductive event := Plus | Minus | Submit (text : chars).
Definition react (e : event) (w : window) : window * option exn :=
  match e with
  | Plus => set_index (w_index w + 1) w
  | Minus => set_index (w_index w - 1) w
  | Submit text => submit text w
  end.
Fixpoint history (evs : list event) (w : window) : window :=
  match evs with [] => w | e :: evs' => history evs' (fst (react e w)) end.
End Viewer.
Arguments hfile : clear implicits. Arguments window : clear implicits.

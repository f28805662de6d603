(** Interface with UVmat (uvmat.py): from the instructions to the parameters of the series.

    The instructions (an XML file read by fluiddyn) are records; an attribute which can be
    missing is an [option] ([AttributeError] when it is read). *)
From Verif Require Import PyBase StrModel.

(** [s.startswith(p)] *)
Fixpoint startswith (p s : chars) : bool :=
  match p, s with
  | [], _ => true
  | c :: p', d :: s' => Ascii.eqb c d && startswith p' s'
  | _ :: _, [] => false
  end.

Definition text_eqb (a b : chars) : bool :=
  if list_eq_dec Ascii.ascii_dec a b then true else false.

(** [s.split(sep)] for a separator which is not empty.  The fuel (the length of the text) is
    enough: each step consumes a character. *)
Fixpoint split_fuel (fuel : nat) (sep s cur : chars) : list chars :=
  match fuel with
  | O => [rev cur ++ s]
  | S n =>
    match s with
    | [] => [rev cur]
    | c :: s' =>
      if startswith sep s then rev cur :: split_fuel n sep (skipn (List.length sep) s) []
      else split_fuel n sep s' (c :: cur)
    end
  end.
Definition split_text (sep s : chars) : list chars := split_fuel (List.length s) sep s [].

Definition slash : ascii := "/"%char.

(** [os.path.join(a, b)] of posixpath: an absolute [b] replaces [a] *)
Definition ends_with_slash (a : chars) : bool :=
  match rev a with c :: _ => Ascii.eqb c slash | [] => false end.
Definition path_join (a b : chars) : chars :=
  if startswith [slash] b then b
  else match a with
       | [] => b
       | _ => if ends_with_slash a then a ++ b else a ++ slash :: b
       end.

Section Tidy.
(** [os.path.abspath] (depends on the current directory) *)
Variable abspath : chars -> chars.

(** uvmat.py:31-34: the cells of the input table *)
Definition strip_slash (s : chars) : chars :=
  match s with c :: s' => if Ascii.eqb c slash then s' else s | [] => [] end.
Definition table_cells (input_table : chars) : list chars :=
  match split_text (of_string " & ") input_table with
  | [] => []
  | t0 :: t => t0 :: map strip_slash t
  end.

(** uvmat.py:36-45, [tidy_uvmat_instructions]: directory of the images, path of the images,
    directory of the results.  [os.path.join( *input_table[:2] )] with a single cell is this
    cell; the assignment [input_table[3] = "*"] raises IndexError with less than 4 cells. *)
Record tidied := mk_tidied {
  path_dir_input : chars; path_file_input : chars; path_dir_output : chars }.
Definition tidy (input_table output_dir_ext : chars) : result tidied :=
  let cells := table_cells input_table in
  let path_dir := match cells with
                  | t0 :: t1 :: _ => path_join t0 t1
                  | [t0] => t0
                  | [] => [] (* unreachable: split always gives a cell *)
                  end in
  if (List.length cells <=? 3)%nat then Err IndexError
  else
    let cells := update_nth 3 (fun _ => of_string "*") cells in
    let filename := List.concat (skipn 2 cells) in
    Ok (mk_tidied path_dir (abspath (path_join path_dir filename)) (path_dir ++ output_dir_ext)).
End Tidy.

(** the attributes of [instructions.index_range] used by the code *)
Record index_range := mk_range {
  first_i : option Z; incr_i : option Z; last_i : option Z;
  first_j : option Z; incr_j : option Z; last_j : option Z }.

Record instructions := mk_instr {
  irange : index_range;
  list_pair_mode : chars;
  list_pair_civ1 : option chars }.

Record series := mk_series {
  str_subset : chars; ind_start : Z; ind_step : Z; ind_stop : option Z }.

Definition attr {A} (o : option A) : result A :=
  match o with Some a => Ok a | None => Err AttributeError end.

(** uvmat.py:74-84 and 88-98 *)
Definition bounds (first incr last : option Z) : result (Z * Z * option Z) :=
  do ind_start <- attr first ;
  let ind_step := match incr with Some n => n | None => 1 end in
  let ind_stop := match last with Some n => Some (n + 1) | None => None end in
  Ok (ind_start, ind_step, ind_stop).

Definition mode_Di : chars := of_string "series(Di)".
Definition mode_Dj : chars := of_string "series(Dj)".
Definition mode_pair : chars := of_string "pair j1-j2".

(** uvmat.py:66-121, [set_params_series].  With another mode nothing is read before the error
    of line 115.  Line 113: the string has no prefix "f". *)
Definition set_params_series (ins : instructions) : result series :=
  let ir := irange ins in
  let mode := list_pair_mode ins in
  do b <- (if text_eqb mode mode_Di || text_eqb mode mode_pair
           then do b <- bounds (first_i ir) (incr_i ir) (last_i ir) ; Ok (Some b)
           else if text_eqb mode mode_Dj
           then do b <- bounds (first_j ir) (incr_j ir) (last_j ir) ; Ok (Some b)
           else Ok None) ;
  do subset <-
    (if text_eqb mode mode_pair then
       do civ1 <- attr (list_pair_civ1 ins) ;
       if negb (startswith (of_string "j= a-b") civ1) then Err NotImplementedError
       else Ok (of_string "i,0:2")
     else if text_eqb mode mode_Di then Ok (of_string "i:i+2:1")
     else if text_eqb mode mode_Dj then
       do first <- attr (first_i ir) ;
       do last <- attr (last_i ir) ;
       if negb (first =? last) then Err NotImplementedError
       else Ok (of_string "{ir.first_i},i:i+2:1")
     else Err NotImplementedError) ;
  match b with
  | Some (start, step, stop) => Ok (mk_series subset start step stop)
  | None => Err UnboundLocalError
  end.

(** uvmat.py:202-206: size of the interrogation windows *)
Definition tab : ascii := Ascii.ascii_of_nat 9.
Definition window_size (search_box_size : chars) : result Z :=
  do first <- py_get (split_on tab search_box_size) 0 ;
  do n0 <- py_int first ;
  Ok (if n0 mod 2 =? 1 then n0 - 1 else n0).

(** ** What the parameters of a series mean (fluiddyn.util.serieofarrays, external)

    The images of the group number i are given by the text [str_subset]: for each index of the
    file names, a slice "start:stop:step" (or a single index) of expressions in i; an expression
    is an int or "i" or a sum.  Other expressions are errors.  This is our reading of an external
    library; the theorems about the mode series(Dj) only use that "{ir.first_i}" is an error. *)
Definition eval_term (i : Z) (t : chars) : result Z :=
  if text_eqb (strip t) (of_string "i") then Ok i
  else match py_int t with Ok n => Ok n | Err _ => Err NameError end.
Definition eval_expr (i : Z) (e : chars) : result Z :=
  do l <- map_result (eval_term i) (split_on "+"%char e) ; Ok (zsum l).
Definition eval_slice (i : Z) (s : chars) : result (list Z) :=
  do l <- map_result (eval_expr i) (split_on ":"%char s) ;
  match l with
  | [a] => Ok [a]
  | [a; b] => Ok (range_list a b 1)
  | [a; b; c] => if c =? 0 then Err ValueError else Ok (range_list a b c)
  | _ => Err ValueError
  end.
Fixpoint product (l : list (list Z)) : list (list Z) :=
  match l with
  | [] => [[]]
  | a :: l' => flat_map (fun x => map (cons x) (product l')) a
  end.
Definition images_of (subset : chars) (i : Z) : result (list (list Z)) :=
  do l <- map_result (eval_slice i) (split_on comma subset) ; Ok (product l).

(** the groups of images of the series when [ind_stop] is given *)
Definition groups (p : series) : option (result (list (list (list Z)))) :=
  match ind_stop p with
  | None => None
  | Some stop =>
    Some (if ind_step p =? 0 then Err ValueError
          else map_result (images_of (str_subset p)) (range_list (ind_start p) stop (ind_step p)))
  end.

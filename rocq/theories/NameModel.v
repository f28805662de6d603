(** Model of the names of the files in data_objects/piv.py (get_name_piv, get_name_bos).

    A series of arrays has one or several indices; from fluiddyn (SerieOfArraysFromFiles), not in this repository:
    get_str_for_name_from_idim_idx formats an index with digits ("{:0nd}") or as a letter, and get_slicing_tuples gives
    for each index a tuple (start,), (start, stop) or (start, stop, step). *)
From Verif Require Import PyBase StrModel.
Local Open Scope Z_scope.

Inductive dim := Digits (width : nat) | Alpha.

(** [serie.get_str_for_name_from_idim_idx(idim, idx)] for [idx >= 0] *)
Definition str_index (d : dim) (idx : Z) : result chars :=
  match d with
  | Digits w => Ok (pad_zeros w (py_str idx))
  | Alpha => if 25 <? idx then Err ValueError else Ok [Ascii.ascii_of_nat (97 + Z.to_nat idx)]
  end.

(** [s.isalpha()] for one ASCII character *)
Definition is_letter (c : ascii) : bool :=
  let n := Ascii.nat_of_ascii c in ((97 <=? n) && (n <=? 122) || (65 <=? n) && (n <=? 90))%nat.

Fixpoint chars_eqb (s t : chars) : bool :=
  match s, t with [], [] => true | a :: s', b :: t' => Ascii.eqb a b && chars_eqb s' t' | _, _ => false end.

(** lines 40-50 for one index *)
Definition one_index (d : dim) (inds : list Z) : result chars :=
  match inds with
  | [] => Err IndexError
  | [start] => str_index d start
  | start :: stop :: _ =>
      do s <- str_index d start ;
      do last <- str_index d (stop - 1) ;
      if chars_eqb last s then Ok s
      else
        let sep := match s with [c] => if is_letter c then [] else ["-"%char] | _ => ["-"%char] end in
        Ok (s ++ sep ++ last)
  end.

(** lines 38-54; [serie.get_index_separators[idim - 1]] indexes a method: TypeError for a third index *)
Fixpoint str_indices (idim : Z) (l : list (dim * list Z)) : result chars :=
  match l with
  | [] => Ok []
  | (d, inds) :: l' =>
      do s <- one_index d inds ;
      if 1 <? idim then Err TypeError
      else do rest <- str_indices (idim + 1) l' ; Ok (s ++ rest)
  end.

(** get_name_piv (lines 37-57) *)
Definition get_name_piv (prefix : chars) (dims : list dim) (slicing : list (list Z)) : result chars :=
  do s <- str_indices 0 (combine dims slicing) ;
  Ok (prefix ++ of_string "_" ++ s ++ of_string ".h5").

(** get_name_bos (lines 60-64); [base_name], [extension_file] of the series *)
Definition get_name_bos (base_name : chars) (extension : option chars) (name : chars) : chars :=
  let name := py_slice name (zlen base_name) (zlen name) in
  let name := match extension with
              | Some e => py_slice name 0 (- zlen e - 1)
              | None => name
              end in
  of_string "bos" ++ name ++ of_string ".h5".

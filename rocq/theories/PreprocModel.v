(** Model of the images saved by the preprocessing: data_objects/preproc.py (get_Ni_Nj, get_ind_middle, get_name_preproc,
    ArraySerie, PreprocResults.save), works/preproc/__init__.py (calcul, _make_dict_to_save), topologies/preproc.py
    (make_subsets, compute_indices_to_be_computed).

    Names are character strings, images are any type, the tools are a function on stacks of images.  The format of the
    saved files is "img": the name of the file is the key of the dictionary (for the other formats it is computed by
    fluiddyn). *)
From Verif Require Import PyBase StrModel PivFileModel.
Local Open Scope Z_scope.

Section Preproc.
Variable image : Type.
Variable tools : list image -> list image.    (* self.tools.apply *)

(** a subset of the series: slicing tuples, names and arrays *)
Record subset := mk_subset { su_slices : list (list Z); su_names : list chars; su_arrays : list image }.

(** get_Ni_Nj (data_objects/preproc.py lines 25-48); the number of indices is the number of slicing tuples *)
Definition get_Ni_Nj (slices : list (list Z)) : result (Z * Z) :=
  do s0 <- py_get slices 0 ;
  do b <- py_get s0 1 ;
  do a <- py_get s0 0 ;
  let Ni := b - a in
  match slices with
  | [_] => Ok (Ni, 1)
  | [_; s1] => if zlen s1 =? 1 then Ok (Ni, 1)
               else do b <- py_get s1 1 ; do a <- py_get s1 0 ; Ok (Ni, b - a)
  | _ => Err NotImplementedError
  end.

(** get_ind_middle (lines 51-58) *)
Definition get_ind_middle (slices : list (list Z)) : result (Z * Z) :=
  do p <- get_Ni_Nj slices ;
  let (Ni, Nj) := p : Z * Z in
  let start := Ni / 2 * Nj in
  let stop := (Ni + 1) / 2 * Nj in
  Ok (if Ni mod 2 =? 0 then start - 1 else start, stop).

(** get_name_preproc (lines 61-81) with out_format = "img" *)
Definition get_name_preproc (s : subset) (ind_serie nb_series : Z) : result chars :=
  do m <- get_ind_middle (su_slices s) ;
  let i := if (ind_serie =? 0) && (nb_series =? 1) then -1
           else if ind_serie =? 0 then fst m
           else if ind_serie =? nb_series - 1 then -1
           else fst m in
  py_get (su_names s) i.

(** _make_dict_to_save (works/preproc/__init__.py lines 123-138); the dictionary is given by the list of its pairs (the
    names of a series are distinct) *)
Definition make_dict_to_save (s : subset) (ind_serie nb_series : Z) (images : list image) : result (list (chars * image)) :=
  do m <- get_ind_middle (su_slices s) ;
  let names := su_names s in
  let sl {A} (l : list A) : list A :=
    if (ind_serie =? 0) && (nb_series =? 1) then l
    else if ind_serie =? 0 then py_slice l 0 (snd m)
    else if ind_serie =? nb_series - 1 then py_slice l (fst m) (zlen l)
    else py_slice l (fst m) (snd m) in
  Ok (combine (sl names) (sl images)).

(** calcul (lines 99-121) for the ArraySerie built by make_subsets (topologies/preproc.py lines 305-310) without ind_serie
    nor nb_series: the default values are 0 and 1 (data_objects/preproc.py lines 84-94) *)
Definition calcul (s : subset) : result (list (chars * image)) :=
  make_dict_to_save s 0 1 (tools (su_arrays s)).

(** the directory of the results *)
Definition dir : Type := list (chars * image).
(** writing a file replaces the former one *)
Definition write (d : dir) (w : chars * image) : dir := w :: d.
(** PreprocResults.save (lines 155-175): the files are written one after the other; the threads of the saving work may
    write at the same time, so that an execution is a sequence of writes *)
Definition run (ws : list (chars * image)) (d : dir) : dir := fold_left write ws d.

(** compute_indices_to_be_computed (topologies/preproc.py lines 267-281) *)
Definition compute_indices (d : dir) (nb_series : Z) (series : list (Z * subset)) : result (list Z) :=
  py_for (fun acc (x : Z * subset) =>
            do name <- get_name_preproc (snd x) (fst x) nb_series ;
            Ok (match lookup name d with Some _ => acc | None => acc ++ [fst x] end)) series [].
End Preproc.
Arguments mk_subset {image}. Arguments su_slices {image}. Arguments su_names {image}. Arguments su_arrays {image}.
Arguments get_name_preproc {image}. Arguments make_dict_to_save {image}. Arguments calcul {image}. Arguments run {image}. Arguments write {image}.
Arguments compute_indices {image}.

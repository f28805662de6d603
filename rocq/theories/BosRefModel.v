(** The reference image of a BOS computation (works/bos.py:50-77) and the images which are then treated
    (topologies/bos.py:170-189, topologies/base.py:634-636).

    Simplifications: a path is normalised and given by its components, [expanduser] has been applied to
    [params.reference]; [params.reference] is an integer or a string; the content of the images is not modelled
    (only the file which is read).  [compute_indices_from_name] is a method of fluiddyn. *)
From Verif Require Import PyBase StrModel MonitorJobModel CompleteModel.

(** a path: absolute or relative to the current directory, and its components *)
Record path := mk_path { p_abs : bool; p_parts : list chars }.
(** [dir / p]: an absolute path [p] replaces the directory *)
Definition path_join (dir p : path) : path :=
  if p_abs p then p else mk_path (p_abs dir) (p_parts dir ++ p_parts p).
(** [path.name] *)
Definition path_name (p : path) : chars := last (p_parts p) [].
(** [p.is_relative_to(dir)]: on the components, the file system is not used *)
Fixpoint is_prefix (a b : list chars) : bool :=
  match a, b with
  | [], _ => true
  | x :: a', y :: b' => if list_eq_dec Ascii.ascii_dec x y then is_prefix a' b' else false
  | _, [] => false
  end.
Definition is_relative_to (p dir : path) : bool := Bool.eqb (p_abs p) (p_abs dir) && is_prefix (p_parts dir) (p_parts p).
(** [path.absolute()] in the current directory [cwd] *)
Definition absolute (cwd p : path) : path := path_join cwd p.

Inductive reference := RInt (i : Z) | RStr (p : path).

Section Bos.
Variable cwd : path.
Variable is_file : path -> bool.                              (* for absolute paths *)
(** the serie: [path_dir], [base_name], [iter_indices], [compute_name_from_indices], [compute_indices_from_name] *)
Variable path_dir : path.
Variable base_name : chars.
Variable indices : list (list Z).
Variable name_of : list Z -> chars.
Variable indices_of : chars -> result (list Z).

(** [path.is_file()] *)
Definition file_exists (p : path) : bool := is_file (absolute cwd p).

(** works/bos.py:57-77, [_init_path_reference].  Lines 73-75: a string plus a path raises TypeError. *)
Definition init_path_reference (r : reference) : result path :=
  let path_dir_src := absolute cwd path_dir in
  match r with
  | RInt i =>
    let names := sorted_str (map name_of indices) in
    do name <- py_get names i ;
    Ok (path_join path_dir_src (mk_path false [name]))
  | RStr p =>
    if file_exists p then Ok p
    else
      let q := path_join path_dir_src p in
      if file_exists q then Ok q else Err TypeError
  end.

(** topologies/bos.py:170-189: the indices to be removed, if any.  The exceptions of [compute_indices_from_name]
    other than ValueError are not caught. *)
Definition indices_ref (path_reference : path) : result (option (list Z)) :=
  if negb (is_relative_to path_reference path_dir) then Ok None
  else if negb (starts base_name (path_name path_reference)) then Ok None
  else
    match indices_of (path_name path_reference) with
    | Ok i => Ok (Some i)
    | Err ValueError => Ok None
    | Err e => Err e
    end.

(** the images of the first queue when nothing has been computed before (base.py:634-636) *)
Definition images_treated (path_reference : path) : result (list chars) :=
  do ref <- indices_ref path_reference ;
  Ok (map name_of (fix_indices ref indices)).
End Bos.

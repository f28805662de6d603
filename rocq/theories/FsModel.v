(** A small model of the file system (CPython's [pathlib]/[open] on POSIX), used by the
    models of the life cycle of a computation.

    A path is the list of its components, innermost first (so the parent of
    [name :: dir] is [dir]); the root [ [] ] always exists.  Simplifications: no symbolic
    link, no permission error, no error because the disk is full. *)
From Verif Require Import PyBase StrModel.

Definition path := list chars.
Inductive node := Dir | File (content : chars).
Definition fs := list (path * node).

Definition chars_eq_dec : forall a b : chars, {a = b} + {a <> b} := list_eq_dec Ascii.ascii_dec.
Definition path_eq_dec : forall a b : path, {a = b} + {a <> b} := list_eq_dec chars_eq_dec.

(** what is found at a path *)
Fixpoint fs_find (f : fs) (p : path) : option node :=
  match f with
  | [] => None
  | (q, n) :: f' => if path_eq_dec q p then Some n else fs_find f' p
  end.
Definition fs_get (f : fs) (p : path) : option node :=
  match p with [] => Some Dir | _ => fs_find f p end.

(** [path.exists()] *)
Definition fs_exists (f : fs) (p : path) : bool :=
  match fs_get f p with Some _ => true | None => false end.

Definition fs_del (f : fs) (p : path) : fs :=
  filter (fun '(q, _) => if path_eq_dec q p then false else true) f.
Definition fs_put (f : fs) (p : path) (n : node) : fs := (p, n) :: fs_del f p.

Definition parent (p : path) : path := tl p.

(** [path.mkdir(exist_ok=...)] *)
Definition fs_mkdir (f : fs) (p : path) (exist_ok : bool) : result fs :=
  match fs_get f p with
  | Some Dir => if exist_ok then Ok f else Err FileExistsError
  | Some (File _) => Err FileExistsError
  | None =>
    match fs_get f (parent p) with
    | Some Dir => Ok (fs_put f p Dir)
    | _ => Err FileNotFoundError
    end
  end.

(** [open(path, "w").write(text)]; opening a directory for writing is an OSError, seen
    here as [RuntimeError] (never reached by the modelled code). *)
Definition fs_write (f : fs) (p : path) (text : chars) : result fs :=
  match fs_get f p with
  | Some Dir => Err RuntimeError
  | Some (File _) => Ok (fs_put f p (File text))
  | None =>
    match fs_get f (parent p) with
    | Some Dir => Ok (fs_put f p (File text))
    | _ => Err FileNotFoundError
    end
  end.

(** [open(path, "a").write(text)] *)
Definition fs_append (f : fs) (p : path) (text : chars) : result fs :=
  match fs_get f p with
  | Some Dir => Err RuntimeError
  | Some (File old) => Ok (fs_put f p (File (old ++ text)))
  | None =>
    match fs_get f (parent p) with
    | Some Dir => Ok (fs_put f p (File text))
    | _ => Err FileNotFoundError
    end
  end.

(** [path.unlink(missing_ok=True)] on a file *)
Definition fs_unlink (f : fs) (p : path) : fs := fs_del f p.

(** [open(path).read()] *)
Definition fs_read (f : fs) (p : path) : result chars :=
  match fs_get f p with
  | Some (File c) => Ok c
  | _ => Err FileNotFoundError
  end.

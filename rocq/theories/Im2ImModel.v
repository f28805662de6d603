(** works/image2image.py, image2image.py, topologies/image2image.py and the entry points of works/__init__.py: processing of
    images by a function of the user.

    Simplifications: the function of the user depends only on its argument; the images, the reading of the files and the
    import of objects are parameters.  A path is a text, [joined dir name] is [dir / name]. *)
From Verif Require Import PyBase StrModel QueueModel ExecModel.

Definition slash : ascii := "/"%char.
Definition dot : ascii := "."%char.
(** [dir / name] for a directory without final slash and a relative name *)
Definition joined (dir name : chars) : chars := dir ++ slash :: name.
(** [Path(path).name] for paths which do not end with a slash, "." or ".." *)
Definition path_name (path : chars) : chars := last (split_on slash path) [].

Section Im2Im.
Context {I A : Type}.                                         (* images; arguments of the classes *)

(** an argument of a user function: a tuple of two objects, either of which may be a text or an image *)
Inductive obj := OText (s : chars) | OImage (i : I).
Definition func : Type := obj * obj -> result I.

(** what the user can give (works/image2image.py:47-57): a text, a function ([types.FunctionType]), a class (its
    constructor gives the method [calcul] of the instance, or AttributeError if there is none), None or any other object
    (callable or not: methods, partial functions, builtin functions...) *)
Inductive im2im : Type :=
| IText (s : chars)
| IFunction (f : func)
| IClass (make : A -> result func)
| IOther (f : option func)
| INone.

Variable import_class : chars -> chars -> result im2im.

(** [s.rsplit(".", 1)] unpacked in two names: ValueError without dot *)
Definition rsplit_dot (s : chars) : result (chars * chars) :=
  match rev (split_on dot s) with
  | [] | [_] => Err ValueError
  | w :: ws => Ok (join [dot] (rev ws), w)
  end.

(** works/image2image.py:44-59, init_im2im_function (its second result) *)
Definition init_im2im_function (x : im2im) (args : A) : result func :=
  do x <- match x with
          | IText s => do (package, name) <- rsplit_dot s ; import_class package name
          | _ => Ok x
          end ;
  match x with
  | IFunction f => Ok f
  | IClass make => make args
  | _ => Err UnboundLocalError                                (* obj, im2im_func *)
  end.

(** works/__init__.py:214-228: [process_1_image]; [serie i] is [get_tuple_array_name_from_index(i)]: the array and the name *)
Definition process_1_image (serie : Z -> result (I * chars)) (f : func) (index : Z) : result I :=
  do (im, name) <- serie index ; f (OImage im, OText name).

(** works/image2image.py:89-103: [display], its four arrays *)
Definition display (serie : Z -> result (I * chars)) (f : func) (ind : Z) : result (I * I * (I * I)) :=
  do (im0, name0) <- serie ind ;
  do (im1, name1) <- serie (ind + 1) ;
  do out0 <- f (OText name0, OImage im0) ;
  do out1 <- f (OText name1, OImage im1) ;
  Ok (im0, im1, (out0, out1)).

(** image2image.py:73-105: [apply_im2im_filter], its three lists (names, arrays, paths); None: the series itself *)
Fixpoint filter_loop (f : func) (l : list (I * chars)) (res : list chars * list I * list chars) : result (list chars * list I * list chars) :=
  match l with
  | [] => Ok res
  | (arr, path) :: l' =>
    do new_arr <- f (OText path, OImage arr) ;
    let '(names, arrays, paths) := res in
    filter_loop f l' (names ++ [path_name path], arrays ++ [new_arr], paths ++ [path])
  end.
Definition apply_im2im_filter (arrays : list I) (paths : list chars) (x : im2im) (args : A) : result (option (list chars * list I * list chars)) :=
  match x with
  | INone => Ok None
  | _ =>
    do f <- init_im2im_function x args ;
    do res <- filter_loop f (combine arrays paths) ([], [], []) ;
    Ok (Some res)
  end.

(** topologies/image2image.py:72-129: the works after the filling of the first queue.  The keys of the queues are the names
    of the images (base.py:648-652), here numbers with the function [nm]. *)
Inductive value := VPath (p : chars) | VImage (i : I) | VSaved (p : chars) (i : I).
Variable imread : chars -> result I.
Definition to_item (r : result value) : item value := match r with Ok v => inl v | Err e => inr e end.
Definition work_read (_ : nat) (v : value) : item value :=
  match v with VPath p => to_item (do im <- imread p ; Ok (VImage im)) | _ => inr TypeError end.
Definition work_im2im (f : func) (nm : nat -> chars) (k : nat) (v : value) : item value :=
  match v with VImage im => to_item (do out <- f (OText (nm k), OImage im) ; Ok (VImage out)) | _ => inr TypeError end.
Definition work_save (dir_result : chars) (nm : nat -> chars) (k : nat) (v : value) : item value :=
  match v with VImage im => inl (VSaved (joined dir_result (path_name (nm k))) im) | _ => inr TypeError end.
Definition works_im2im (f : func) (nm : nat -> chars) (dir_result : chars) : list (bool * (nat -> value -> item value)) :=
  [(true, work_read); (false, work_im2im f nm); (true, work_save dir_result nm)].

(** topologies/image2image.py:72-77: the constructor *)
Definition make_topology (x : im2im) (args : A) : result func :=
  match x with INone => Err ValueError | _ => init_im2im_function x args end.

(** base.py:648-652: the first queue *)
Definition queue_paths (dir_src : chars) (nm : nat -> chars) (keys : list nat) : list (nat * item value) :=
  map (fun k => (k, inl (VPath (joined dir_src (nm k))))) keys.
End Im2Im.
Arguments obj : clear implicits. Arguments func : clear implicits. Arguments im2im : clear implicits. Arguments value : clear implicits.

(** works/__init__.py:173-180: [calcul_from_arrays]; [names] is assigned whatever is given *)
Definition calcul_from_arrays {I R} (calcul : list I * list chars -> result R) (arrays : list I) (names : option (list chars)) : result R :=
  let names := map (fun i => of_string "array" ++ py_str (Z.of_nat i)) (seq 0 (List.length arrays)) in
  calcul (arrays, names).

(** The objects [VectorFieldOnGrid] (src/fluidimage/postproc/vector_field.py): constructor, file, operators,
    metadata and regularity of the grid.

    Simplifications: the coordinates are integers and the values of any type; an array [z] or [vz] which is not
    of dimension zero or one has the shape of [vx]; numpy's broadcasting of arrays with different shapes is an
    exception ValueError; the texts are lists of characters. *)
From Verif Require Import PyBase StrModel VecFieldModel.

(** [z]: None, a number, a 1D array or a 2D array *)
Inductive zcoord := ZNone | ZNum (z : Z) | ZLine (l : list Z) | ZPlane (a : array2 Z).
(** [vz]: a number, an array of dimension zero or a 2D array *)
Inductive vzcomp (V : Type) := VzNum (v : V) | VzZero (v : V) | VzArr (a : array2 V).
Arguments VzNum {V}. Arguments VzZero {V}. Arguments VzArr {V}.

(** the names and the units, in the order of [_attr_saved_as_attr] (lines 79-82), the name and the history *)
Record meta := mk_meta { m_names : list chars; m_name : chars; m_history : list chars }.
(** lines 91-104: the default values *)
Definition default_meta : meta :=
  mk_meta (map of_string ["vx"; "vy"; "vz"; "x"; "y"; "z"; "?"; "?"; "?"; "?"; "?"; "?"]%string)
    (of_string "Fluidimage_field") [of_string "fluidimage"].
(** a ParamContainer: its tag and its content *)
Definition params : Type := chars * list chars.

Record fobj (V : Type) := mk_fobj {
  o_x : list Z; o_y : list Z; o_z : zcoord; o_vx : array2 V; o_vy : array2 V; o_vz : vzcomp V;
  o_meta : meta; o_params : option params;
  o_steps : option (Z * Z)                            (* (dx, dy) if is_grid_regular *)
}.
Arguments mk_fobj {V}. Arguments o_x {V}. Arguments o_y {V}. Arguments o_z {V}. Arguments o_vx {V}. Arguments o_vy {V}.
Arguments o_vz {V}. Arguments o_meta {V}. Arguments o_params {V}. Arguments o_steps {V}.

Section Fields.
Context {V : Type}.
Variable close : Z -> Z -> bool.                      (* [np.isclose(d, dx)] *)

Fixpoint differences (x : list Z) : list Z :=
  match x with a :: ((b :: _) as x') => b - a :: differences x' | _ => [] end.
(** lines 35-37 *)
Definition is_regular (x : list Z) : result bool :=
  do x1 <- py_get x 1 ;
  do x0 <- py_get x 0 ;
  Ok (forallb (fun d => close d (x1 - x0)) (differences x)).

(** lines 158-169: [is_grid_regular], [dx] and [dy] *)
Definition grid_state (x y : list Z) (z : zcoord) : result (option (Z * Z)) :=
  do rx <- is_regular x ;
  do r <- (if rx then is_regular y else Ok false) ;
  do r <- (if r then match z with ZLine l => is_regular l | _ => Ok true end else Ok false) ;
  if r then
    do x1 <- py_get x 1 ; do x0 <- py_get x 0 ;
    do y1 <- py_get y 1 ; do y0 <- py_get y 0 ;
    Ok (Some (x1 - x0, y1 - y0))
  else Ok None.

(** lines 134-156: [x[1] - x[0] < 0] *)
Definition flip (x : list Z) : result bool := do x1 <- py_get x 1 ; do x0 <- py_get x 0 ; Ok (x1 - x0 <? 0).
Definition flip_z (g : forall A, array2 A -> array2 A) (z : zcoord) : zcoord := match z with ZPlane a => ZPlane (g Z a) | _ => z end.
Definition flip_vz (g : forall A, array2 A -> array2 A) (v : vzcomp V) : vzcomp V := match v with VzArr a => VzArr (g V a) | _ => v end.

(** lines 84-158: the constructor; an array [z] of dimension zero has been replaced by its item (lines 108-109) *)
Definition make (x y : list Z) (z : zcoord) (vx vy : array2 V) (vz : vzcomp V) (m : meta) (p : option params) : result (fobj V) :=
  do flipx <- flip x ;
  do flipy <- flip y ;
  let '(x, vx, vy, vz, z) := if flipx then (rev x, fliplr vx, fliplr vy, flip_vz (@fliplr) vz, flip_z (@fliplr) z) else (x, vx, vy, vz, z) in
  let '(y, vx, vy, vz, z) := if flipy then (rev y, flipud vx, flipud vy, flip_vz (@flipud) vz, flip_z (@flipud) z) else (y, vx, vy, vz, z) in
  do steps <- grid_state x y z ;
  Ok (mk_fobj x y z vx vy vz m p steps).

(** ** The file (lines 180-199) *)
(** a dataset: coordinates or values of dimension 0, 1 or 2 *)
Inductive dataset := DCoord0 (z : Z) | DCoord1 (l : list Z) | DCoord2 (a : array2 Z) | DVal0 (v : V) | DVal2 (a : array2 V).
Record file := mk_file {
  f_class : chars; f_module : chars;
  f_datasets : list (chars * dataset);
  f_attrs : option meta;                              (* the attributes of [_attr_saved_as_attr] *)
  f_groups : list params                              (* the groups made by [_save_as_hdf5] *)
}.
Definition ds_vz (v : vzcomp V) : dataset := match v with VzNum v => DVal0 v | VzZero v => DVal0 v | VzArr a => DVal2 a end.
(** [create_dataset(name, data=None)] raises TypeError *)
Definition ds_z (z : zcoord) : result dataset :=
  match z with ZNone => Err TypeError | ZNum z => Ok (DCoord0 z) | ZLine l => Ok (DCoord1 l) | ZPlane a => Ok (DCoord2 a) end.

(** lines 180-199: the content of the file after the call and the exception; [cls, mod]: the class of the object *)
Definition save (cls mod_ : chars) (f : fobj V) (p : option params) : file * option exn :=
  let written := [(of_string "vx", DVal2 (o_vx f)); (of_string "vy", DVal2 (o_vy f)); (of_string "vz", ds_vz (o_vz f));
                  (of_string "x", DCoord1 (o_x f)); (of_string "y", DCoord1 (o_y f))] in
  match ds_z (o_z f) with
  | Err e => (mk_file cls mod_ written None [], Some e)
  | Ok d =>
      let p := match p with None => o_params f | Some _ => p end in
      (mk_file cls mod_ (written ++ [(of_string "z", d)]) (Some (o_meta f)) (match p with None => [] | Some q => [q] end), None)
  end.

Definition str_eqb (a b : chars) : bool := if list_eq_dec ascii_dec a b then true else false.
Fixpoint lookup {A} (name : chars) (l : list (chars * A)) : result A :=
  match l with [] => Err KeyError | (n, a) :: l' => if str_eqb n name then Ok a else lookup name l' end.

(** a dataset read with [...] and given to the constructor *)
Definition as_array (d : dataset) : result (array2 V) := match d with DVal2 a => Ok a | _ => Err TypeError end.
Definition as_line (d : dataset) : result (list Z) := match d with DCoord1 l => Ok l | _ => Err TypeError end.
Definition as_vz (d : dataset) : result (vzcomp V) := match d with DVal0 v => Ok (VzZero v) | DVal2 a => Ok (VzArr a) | _ => Err TypeError end.
Definition as_z (d : dataset) : result zcoord := match d with DCoord0 z => Ok (ZNum z) | DCoord1 l => Ok (ZLine l) | DCoord2 a => Ok (ZPlane a) | _ => Err TypeError end.

Variable from_piv_file : file -> result (fobj V).     (* lines 219-249: modelled in VecFieldModel *)

(** lines 201-268, [cls.from_file(path)] *)
Definition from_file (cls mod_ : chars) (f : file) : result (fobj V) :=
  if (str_eqb (f_class f) (of_string "MultipassPIVResults") || str_eqb (f_class f) (of_string "LightPIVResults"))
     && str_eqb (f_module f) (of_string "fluidimage.data_objects.piv") then from_piv_file f
  else if str_eqb (f_class f) cls && str_eqb (f_module f) mod_ then
    do vx <- (do d <- lookup (of_string "vx") (f_datasets f) ; as_array d) ;
    do vy <- (do d <- lookup (of_string "vy") (f_datasets f) ; as_array d) ;
    do vz <- (do d <- lookup (of_string "vz") (f_datasets f) ; as_vz d) ;
    do x <- (do d <- lookup (of_string "x") (f_datasets f) ; as_line d) ;
    do y <- (do d <- lookup (of_string "y") (f_datasets f) ; as_line d) ;
    do z <- (do d <- lookup (of_string "z") (f_datasets f) ; as_z d) ;
    do m <- (match f_attrs f with Some m => Ok m | None => Err KeyError end) ;
    make x y z vx vy vz m (find (fun q => str_eqb (fst q) (of_string "params")) (f_groups f))
  else Err NotImplementedError.

(** ** The operators (lines 270-327) *)
Variable op : V -> V -> V.
Fixpoint zipv (a b : list V) : result (list V) :=
  match a, b with
  | [], [] => Ok []
  | x :: a', y :: b' => do l <- zipv a' b' ; Ok (op x y :: l)
  | _, _ => Err ValueError
  end.
Fixpoint zipa (a b : array2 V) : result (array2 V) :=
  match a, b with
  | [], [] => Ok []
  | x :: a', y :: b' => do r <- zipv x y ; do l <- zipa a' b' ; Ok (r :: l)
  | _, _ => Err ValueError
  end.
(** an operation between a number or an array of dimension zero and the same is a numpy scalar, i.e. a Number *)
Definition op_vz (a b : vzcomp V) : result (vzcomp V) :=
  match a, b with
  | VzArr u, VzArr v => do w <- zipa u v ; Ok (VzArr w)
  | VzArr u, (VzNum v | VzZero v) => Ok (VzArr (map (map (fun x => op x v)) u))
  | (VzNum v | VzZero v), VzArr u => Ok (VzArr (map (map (fun x => op v x)) u))
  | (VzNum u | VzZero u), (VzNum v | VzZero v) => Ok (VzNum (op u v))
  end.
Inductive operand := ONumber (v : V) | OField (g : fobj V).
Definition arith (f : fobj V) (other : operand) : result (fobj V) :=
  match other with
  | ONumber v =>
      do vz <- op_vz (o_vz f) (VzNum v) ;
      make (o_x f) (o_y f) (o_z f) (map (map (fun x => op x v)) (o_vx f)) (map (map (fun x => op x v)) (o_vy f)) vz default_meta None
  | OField g =>
      do vx <- zipa (o_vx f) (o_vx g) ;
      do vy <- zipa (o_vy f) (o_vy g) ;
      do vz <- op_vz (o_vz f) (o_vz g) ;
      make (o_x f) (o_y f) (o_z f) vx vy vz default_meta None
  end.

(** ** Extraction (lines 469-504), without [phys]; [text] is the line added to the history.  The other
    attributes are those of the field ([deepcopy]). *)
Definition oextract (start0 stop0 start1 stop1 : Z) (text : chars) (f : fobj V) : fobj V :=
  let cut {A} (a : array2 A) := extract2d start0 stop0 start1 stop1 a in
  mk_fobj (py_slice (o_x f) start1 stop1) (py_slice (o_y f) start0 stop0)
    (match o_z f with ZPlane a => ZPlane (cut a) | z => z end)
    (cut (o_vx f)) (cut (o_vy f))
    (match o_vz f with VzArr a => if 1 <? zsum (map zlen a) then VzArr (cut a) else VzArr a | v => v end)
    (mk_meta (m_names (o_meta f)) (m_name (o_meta f)) (m_history (o_meta f) ++ [text]))
    (o_params f) (o_steps f).

(** ** [regularize_grid] (lines 580-603), in place: the state of the object after the call and the exception *)
Definition with_x (f : fobj V) : fobj V :=
  mk_fobj (py_slice (o_x f) 0 (-1)) (o_y f) (o_z f) (map (fun row => py_slice row 0 (-1)) (o_vx f)) (map (fun row => py_slice row 0 (-1)) (o_vy f))
    (o_vz f) (o_meta f) (o_params f) (o_steps f).
Definition with_y (f : fobj V) : fobj V :=
  mk_fobj (o_x f) (py_slice (o_y f) 0 (-1)) (o_z f) (py_slice (o_vx f) 0 (-1)) (py_slice (o_vy f) 0 (-1))
    (o_vz f) (o_meta f) (o_params f) (o_steps f).
Definition with_steps (f : fobj V) (s : option (Z * Z)) : fobj V :=
  mk_fobj (o_x f) (o_y f) (o_z f) (o_vx f) (o_vy f) (o_vz f) (o_meta f) (o_params f) s.
(** [not _is_regular(l) and _is_regular(l[:-1])] *)
Definition must_cut (l : list Z) : result bool :=
  do r <- is_regular l ;
  if r then Ok false else is_regular (py_slice l 0 (-1)).

Definition regularize_grid (f : fobj V) : fobj V * option exn :=
  match o_steps f with
  | Some _ => (f, None)
  | None =>
      match o_vz f with
      | VzNum _ =>
          match o_z f with
          | ZNone | ZNum _ =>
              match must_cut (o_x f) with
              | Err e => (f, Some e)
              | Ok cx =>
                  let f := if cx then with_x f else f in
                  match must_cut (o_y f) with
                  | Err e => (f, Some e)
                  | Ok cy =>
                      let f := if cy then with_y f else f in
                      match grid_state (o_x f) (o_y f) (o_z f) with
                      | Err e => (f, Some e)
                      | Ok None => (with_steps f None, Some NotImplementedError)
                      | Ok s => (with_steps f s, None)
                      end
                  end
              end
          | _ => (f, Some NotImplementedError)
          end
      | _ => (f, Some NotImplementedError)
      end
  end.
End Fields.
Arguments dataset : clear implicits. Arguments file : clear implicits. Arguments operand : clear implicits.

(** Operations on vector fields (src/fluidimage/postproc/vector_field.py): arithmetic, time
    average, curl and divergence, functions of the spatio-temporal data.

    The values of the fields are rationals (the rounding errors of the floats are not
    modelled).  As in VecFieldModel, z is None and vz a number. *)
From Coq Require Export QArith.
From Verif Require Import PyBase StrModel VecFieldModel.
Open Scope Z_scope.

(** ** Arithmetic *)

(** [a op b] for arrays of the same shape; simplification: for other shapes, ValueError
    (numpy would extend a dimension of size one) *)
Fixpoint zip1 (op : Q -> Q -> Q) (a b : list Q) : result (list Q) :=
  match a, b with
  | [], [] => Ok []
  | x :: a', y :: b' => do l <- zip1 op a' b' ; Ok (op x y :: l)
  | _, _ => Err ValueError
  end.
Fixpoint zip2 (op : Q -> Q -> Q) (a b : array2 Q) : result (array2 Q) :=
  match a, b with
  | [], [] => Ok []
  | x :: a', y :: b' => do r <- zip1 op x y ; do l <- zip2 op a' b' ; Ok (r :: l)
  | _, _ => Err ValueError
  end.

(** vector_field.py:270-280, [__add__] with a field *)
Definition field_add (f g : field Q) : result (field Q) :=
  do vx_ <- zip2 Qplus (vx f) (vx g) ;
  do vy_ <- zip2 Qplus (vy f) (vy g) ;
  make_field (fx f) (fy f) vx_ vy_.

(** vector_field.py:289-299, [__sub__] with a field *)
Definition field_sub (f g : field Q) : result (field Q) :=
  do vx_ <- zip2 Qminus (vx f) (vx g) ;
  do vy_ <- zip2 Qminus (vy f) (vy g) ;
  make_field (fx f) (fy f) vx_ vy_.

(** vector_field.py:315-327, [__truediv__] with a number *)
Definition field_div (f : field Q) (other : Q) : result (field Q) :=
  make_field (fx f) (fy f) (map (map (fun v => Qdiv v other)) (vx f)) (map (map (fun v => Qdiv v other)) (vy f)).

(** vector_field.py:626-631 *)
Definition compute_time_average (fields : list (field Q)) : result (field Q) :=
  match fields with
  | [] => Err IndexError
  | f0 :: rest =>
      do r <- py_for field_add rest f0 ;
      field_div r (inject_Z (zlen fields))
  end.

(** ** Curl and divergence *)

(** vector_field.py:35-37, [_is_regular]; simplification: exact equality instead of
    [np.allclose] *)
Fixpoint diffs (x : list Z) : list Z :=
  match x with
  | [] => []
  | a :: x' => match x' with b :: _ => b - a :: diffs x' | [] => [] end
  end.
Definition is_regular (x : list Z) : result bool :=
  do x1 <- py_get x 1 ;
  do x0 <- py_get x 0 ;
  Ok (forallb (fun d => d =? x1 - x0) (diffs x)).

(** [np.gradient(l, h, edge_order=edge_order)] for a 1D array: numpy needs
    [edge_order + 1] points; central differences inside, one-sided differences at both ends *)
Fixpoint interior (h : Q) (l : list Q) : list Q :=
  match l with
  | [] => []
  | a :: l' => match l' with b :: c :: _ => ((c - a) / (2 * h))%Q :: interior h l' | _ => [] end
  end.

Definition gradient_edge (edge_order : Z) (a b c h : Q) : Q :=
  (if (edge_order =? 1)%Z then (b - a) / h
   else ((- (3 # 2)) * a + 2 * b - (1 # 2) * c) / h)%Q.

Definition np_gradient (edge_order : Z) (h : Q) (l : list Q) : result (list Q) :=
  if negb ((edge_order =? 1) || (edge_order =? 2)) then Err ValueError else
  match l, rev l with
  | a :: b :: c :: _, z :: y :: x :: _ =>
      Ok (gradient_edge edge_order a b c h :: interior h l ++ [gradient_edge edge_order z y x (- h)%Q])
  | [a; b], _ => if edge_order =? 1 then Ok [Qdiv (b - a) h; Qdiv (b - a) h] else Err ValueError
  | _, _ => Err ValueError
  end.

(** along the lines ([axis=1]) and along the columns ([axis=0]); [n0] and [n1] are the
    numbers of lines and columns *)
Definition gradient_axis1 (edge_order : Z) (h : Q) (a : array2 Q) : result (array2 Q) :=
  map_result (np_gradient edge_order h) a.
Definition gradient_axis0 (edge_order : Z) (h : Q) (n0 n1 : nat) (a : array2 Q) : result (array2 Q) :=
  do t <- map_result (np_gradient edge_order h) (transpose n1 a) ;
  Ok (transpose n0 t).

(** vector_field.py:160-170, [_init_is_grid_regular]: [dx] and [dy] of a regular grid *)
Definition grid_steps (f : field Q) : result (option (Q * Q)) :=
  do rx <- is_regular (fx f) ;
  do r <- (if rx then is_regular (fy f) else Ok false) ;
  if r then
    do x1 <- py_get (fx f) 1 ; do x0 <- py_get (fx f) 0 ;
    do y1 <- py_get (fy f) 1 ; do y0 <- py_get (fy f) 0 ;
    Ok (Some (inject_Z (x1 - x0), inject_Z (y1 - y0)))
  else Ok None.

(** vector_field.py:560-568 with util.py:70-72 *)
Definition compute_rotz (f : field Q) (edge_order : Z) : result (array2 Q) :=
  do s <- grid_steps f ;
  match s with
  | None => Err NotImplementedError
  | Some (dx, dy) =>
      do dvx_dy <- gradient_axis0 edge_order dy (List.length (fy f)) (List.length (fx f)) (vx f) ;
      do dvy_dx <- gradient_axis1 edge_order dx (vy f) ;
      zip2 Qminus dvy_dx dvx_dy
  end.

(** vector_field.py:570-578 with util.py:75-77 *)
Definition compute_divh (f : field Q) (edge_order : Z) : result (array2 Q) :=
  do s <- grid_steps f ;
  match s with
  | None => Err NotImplementedError
  | Some (dx, dy) =>
      do dvx_dx <- gradient_axis1 edge_order dx (vx f) ;
      do dvy_dy <- gradient_axis0 edge_order dy (List.length (fy f)) (List.length (fx f)) (vy f) ;
      zip2 Qplus dvx_dx dvy_dy
  end.

(** ** Functions of the spatio-temporal data *)
Section Spatiotemp.
Context {A : Type}.  (* a component at one time *)

(** What a function of a numpy array returns: a new array, or a view on the memory of its
    argument (the argument itself, a slice, a transposition, ...), read through [phi]. *)
Inductive np_return := Fresh (content : list A) | View (phi : list A -> list A).

(** A function called with an array: the content of the array after the call (it may be
    modified in place) and the returned array. *)
Definition np_function := list A -> list A * np_return.

Definition content (memory : list A) (r : np_return) : list A :=
  match r with Fresh l => l | View phi => phi memory end.

(** vector_field.py:762-778.  [fields] is one array filled with the vx, then with the vy
    ([fields[it, :, :] = ...] for all the times); the returned arrays are read by
    [retvx[it]] and [retvy[it]] after that. *)
Definition apply_function_to_spatiotemp_data (func : np_function) (vxs vys : list A) : result (list A * list A) :=
  let fields := vxs in
  let '(fields, retvx) := func fields in
  let fields := vys in
  let '(fields, retvy) := func fields in
  do vxs' <- map_result (fun it => py_get (content fields retvx) it) (range0 (zlen vxs)) ;
  do vys' <- map_result (fun it => py_get (content fields retvy) it) (range0 (zlen vxs)) ;
  Ok (vxs', vys').
End Spatiotemp.

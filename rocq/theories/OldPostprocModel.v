(** The deprecated classes of postproc/postproc.py: [PIV_Postproc] (lines 56-158) and [PIV_PostProc_serie] (lines 161-267), with the functions
    [compute_grid] (lines 30-36) and [compute_derivatives] (lines 39-42).

    As in VecFieldModel the coordinates are integers; the velocities are rationals (the formulas only use +, -, *, /).  The reading of the
    files ([LightPIVResults]) gives the vectors ([ixvecs_final], [iyvecs_final], [deltaxs_final], [deltays_final]).  The spectra
    (lines 123-158 and from 269) and the display are not modelled, except what [displayf] takes as background. *)
From Verif Require Import PyBase StrModel VecFieldModel FieldOpsModel.
From Coq Require Import QArith.
Open Scope Z_scope.

(** lines 30-36: [compute_grid(xs, ys, deltaxs, deltays)] returns four arrays *)
Definition compute_grid {V} (xs ys : list Z) (deltaxs deltays : list V) : result (array2 Z * array2 Z * array2 V * array2 V) :=
  let x := np_unique xs in
  let y := np_unique ys in
  let '(X, Y) := meshgrid x y in
  do U <- np_reshape deltaxs (List.length y) (List.length x) ;
  do W <- np_reshape deltays (List.length y) (List.length x) ;
  Ok (X, Y, U, W).

(** the numbers of lines and columns of an array *)
Definition rows {V} (a : array2 V) : nat := List.length a.
Definition columns {V} (a : array2 V) : nat := match a with [] => 0%nat | r :: _ => List.length r end.

(** [np.gradient(a, h0, h1, edge_order=edge_order)] for a 2D array: the derivative along the first index with the step [h0], then the
    derivative along the second index with the step [h1] *)
Definition np_gradient2 (edge_order : Z) (h0 h1 : Q) (a : array2 Q) : result (array2 Q * array2 Q) :=
  do g0 <- gradient_axis0 edge_order h0 (rows a) (columns a) a ;
  do g1 <- gradient_axis1 edge_order h1 a ;
  Ok (g0, g1).

Record derivatives := mk_deriv { dUdx : array2 Q; dUdy : array2 Q; dVdx : array2 Q; dVdy : array2 Q }.

(** lines 39-42 *)
Definition compute_derivatives (dx dy : Q) (U W : array2 Q) (edge_order : Z) : result derivatives :=
  do (dUdx, dUdy) <- np_gradient2 edge_order dx dy U ;
  do (dVdx, dVdy) <- np_gradient2 edge_order dx dy W ;
  Ok (mk_deriv dUdx dUdy dVdx dVdy).

(** ** PIV_Postproc: the attributes; [None]: the attribute does not exist.  The constructor does not set dx and dy. *)
Record pp := mk_pp {
  pp_X : array2 Z; pp_Y : array2 Z; pp_U : array2 Q; pp_V : array2 Q;
  pp_dx : option Q; pp_dy : option Q;
  pp_deriv : option derivatives        (* dUdx, dUdy, dVdx, dVdy: set together *)
}.

(** lines 57-73 *)
Definition pp_init (ixvecs iyvecs : list Z) (deltaxs deltays : list Q) : result pp :=
  do g <- compute_grid ixvecs iyvecs deltaxs deltays ;
  let '(X, Y, U, W) := g in
  Ok (mk_pp X Y U W None None None).

Definition attr {A} (a : option A) : result A := match a with Some x => Ok x | None => Err AttributeError end.

(** lines 93-97: the parameter [edge_order] is not used *)
Definition pp_compute_derivatives (p : pp) (edge_order : Z) : result derivatives :=
  do dx <- attr (pp_dx p) ;
  do dy <- attr (pp_dy p) ;
  compute_derivatives dx dy (pp_U p) (pp_V p) 2.

Definition set_deriv (p : pp) (d : derivatives) : pp :=
  mk_pp (pp_X p) (pp_Y p) (pp_U p) (pp_V p) (pp_dx p) (pp_dy p) (Some d).

(** lines 99-105, with util.py:70-72 *)
Definition pp_compute_rot (p : pp) (edge_order : Z) : result (pp * array2 Q) :=
  do d <- match pp_deriv p with Some d => Ok d | None => pp_compute_derivatives p edge_order end ;
  do rot <- zip2 Qminus (dVdx d) (dUdy d) ;
  Ok (set_deriv p d, rot).

(** lines 107-113, with util.py:75-77; [~hasattr(...)] is -1 or -2, hence true *)
Definition pp_compute_div (p : pp) (edge_order : Z) : result (pp * array2 Q) :=
  do d <- pp_compute_derivatives p edge_order ;
  do div <- zip2 Qplus (dUdx d) (dVdy d) ;
  Ok (set_deriv p d, div).

(** lines 25-27 and 119-121, [compute_norm]; [norm] is sqrt(u**2 + v**2) *)
Definition pp_compute_norm {B} (norm : Q -> Q -> B) (p : pp) (U W : array2 Q) : array2 B :=
  map (fun r => map (fun uv => norm (fst uv) (snd uv)) (combine (fst r) (snd r))) (combine (pp_U p) (pp_V p)).

(** lines 75-87: the arrays given to the drawing: the positions, the vectors and the background *)
Definition pp_displayf {B} (norm : Q -> Q -> B) (p : pp) (UW : option (array2 Q * array2 Q)) (bg : option (array2 B))
  : array2 Q * array2 Q * array2 B :=
  let '(U, W) := match UW with Some uw => uw | None => (pp_U p, pp_V p) end in
  (U, W, match bg with Some b => b | None => pp_compute_norm norm p U W end).

(** what a user does with an object: new velocities, the steps of the grid, and calls of the methods *)
Inductive pp_op := SetUV (U W : array2 Q) | SetSteps (dx dy : Q) | CallRot | CallDiv.
Definition pp_step (p : pp) (o : pp_op) : result (pp * option (array2 Q)) :=
  match o with
  | SetUV U W => Ok (mk_pp (pp_X p) (pp_Y p) U W (pp_dx p) (pp_dy p) (pp_deriv p), None)
  | SetSteps dx dy => Ok (mk_pp (pp_X p) (pp_Y p) (pp_U p) (pp_V p) (Some dx) (Some dy) (pp_deriv p), None)
  | CallRot => do (p', r) <- pp_compute_rot p 2 ; Ok (p', Some r)
  | CallDiv => do (p', r) <- pp_compute_div p 2 ; Ok (p', Some r)
  end.

(** ** PIV_PostProc_serie *)

(** an array of one or two dimensions *)
Inductive nd := D1 (l : list Q) | D2 (l : list (list Q)).
(** [np.vstack([a, l])] for a 1D array [l] *)
Definition vstack (a : nd) (l : list Q) : result nd :=
  let rs := match a with D1 r => [r] | D2 rs => rs end in
  if forallb (fun r => (List.length r =? List.length l)%nat) rs then Ok (D2 (rs ++ [l])) else Err ValueError.
(** [a[i]]: a number (seen as an array of one element) or a line *)
Definition nd_get (a : nd) (i : Z) : result (list Q) :=
  match a with D1 l => do x <- py_get l i ; Ok [x] | D2 rs => py_get rs i end.

(** an array of coordinates or of velocities, and the unpacking of a tuple in [n] targets *)
Inductive any_array := AZ (a : array2 Z) | AQ (a : array2 Q).
Definition unpack (n : nat) (t : list any_array) : result (list any_array) :=
  if (List.length t =? n)%nat then Ok t else Err ValueError.

(** lines 172-179: the files after the first one.  [PIV_Postproc(path=pathi)] makes the grid of the file. *)
Definition serie_stack (files : list (list Z * list Z * list Q * list Q)) (dxs dys : list Q) : result (nd * nd) :=
  py_for (fun acc f =>
    let '(a, b) := acc : nd * nd in
    let '(ix, iy, du, dv) := f : list Z * list Z * list Q * list Q in
    do _ <- pp_init ix iy du dv ;
    do a' <- vstack a du ; do b' <- vstack b dv ; Ok (a', b')) files (D1 dxs, D1 dys).

(** lines 214-224: [X, Y, dx, dy, U[ti], V[ti] = compute_grid(...)] for each file *)
Definition serie_compute_grid (ix iy : list Z) (dxs dys : nd) (nb : nat) : result (list (list any_array)) :=
  map_result (fun ti =>
    do du <- nd_get dxs (Z.of_nat ti) ;
    do dv <- nd_get dys (Z.of_nat ti) ;
    do g <- compute_grid ix iy du dv ;
    let '(X, Y, U, W) := g in
    unpack 6 [AZ X; AZ Y; AQ U; AQ W]) (seq 0 nb).

(** lines 162-180, [PIV_PostProc_serie.__init__] with the list of the files *)
Definition serie_init (files : list (list Z * list Z * list Q * list Q)) : result (list (list any_array)) :=
  match files with
  | [] => Err IndexError
  | (ix, iy, du, dv) :: rest =>
    do (a, b) <- serie_stack rest du dv ;
    serie_compute_grid ix iy a b (List.length files)
  end.

(** lines 182-184: [np.linspace(0, dt * (nb_files - 1), nb_files)] *)
Definition set_time (dt : Q) (nb_files : nat) : list Q :=
  match nb_files with
  | O => []
  | S O => [0%Q]
  | _ => map (fun i => (inject_Z (Z.of_nat i) * ((dt * inject_Z (Z.of_nat nb_files - 1)) / inject_Z (Z.of_nat nb_files - 1)))%Q) (seq 0 nb_files)
  end.

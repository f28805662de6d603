(** Gridding of the vectors and vector fields on a grid
    (src/fluidimage/postproc/util.py and postproc/vector_field.py).

    The coordinates are integers: the code only compares and subtracts them and tests the
    sign of the difference, which for finitely many floats gives the same results as for
    the integers obtained by multiplying them by a power of two.  The values of the field
    are of any type [V].  The attributes name, unit, history, params, and the third
    component are not modelled (z is None and vz a number, as for the fields made from
    PIV results). *)
From Verif Require Import PyBase.
Open Scope Z_scope.

(** ** numpy *)

(** [np.unique(l)]: sorted without repetition *)
Fixpoint insert_unique (x : Z) (l : list Z) : list Z :=
  match l with
  | [] => [x]
  | y :: l' => if x <? y then x :: l else if x =? y then l else y :: insert_unique x l'
  end.
Definition np_unique (l : list Z) : list Z := fold_right insert_unique [] l.

Section Arrays.
Context {V : Type}.

(** a 2D array, as the list of its rows *)
Definition array2 := list (list V).

Fixpoint chunks (n0 n1 : nat) (l : list V) : array2 :=
  match n0 with
  | O => []
  | S k => firstn n1 l :: chunks k n1 (skipn n1 l)
  end.

(** [np.reshape(l, (n0, n1))] *)
Definition np_reshape (l : list V) (n0 n1 : nat) : result array2 :=
  if (List.length l =? n0 * n1)%nat then Ok (chunks n0 n1 l) else Err ValueError.

(** [a.T] for an array with [n1] columns *)
Fixpoint transpose (n1 : nat) (a : array2) : array2 :=
  match n1 with
  | O => []
  | S k => flat_map (firstn 1) a :: transpose k (map (skipn 1) a)
  end.

(** [a[::-1]], [np.flipud(a)] and [np.fliplr(a)] *)
Definition flipud (a : array2) : array2 := rev a.
Definition fliplr (a : array2) : array2 := map (@rev V) a.
End Arrays.
Arguments array2 : clear implicits.

(** [np.meshgrid(x, y)] *)
Definition meshgrid (x y : list Z) : array2 Z * array2 Z :=
  (map (fun _ => x) y, map (fun yv => map (fun _ => yv) x) y).

(** ** postproc/util.py *)

(** util.py:20-44; returns the 1D coordinates given to [np.meshgrid] *)
Definition get_grid_from_ivecs_final (x_flat y_flat : list Z) : result (list Z * list Z) :=
  let x := np_unique x_flat in
  let y := np_unique y_flat in
  do x1 <- py_get x_flat 1 ;
  do x0 <- py_get x_flat 0 ;
  do y1 <- py_get y_flat 1 ;
  do y0 <- py_get y_flat 0 ;
  do d <-
    (if x1 =? x0 then
       if y1 =? y0 then Err AssertionError
       else
         do xn <- py_get x_flat (zlen y) ;
         Ok (xn - x0, y1 - y0)
     else
       if y1 =? y0 then
         do yn <- py_get y_flat (zlen x) ;
         Ok (x1 - x0, yn - y0)
       else Err AssertionError) ;
  let x := if fst d <? 0 then rev x else x in
  let y := if snd d <? 0 then rev y else y in
  Ok (x, y).

(** util.py:47-67 *)
Definition reshape_on_grid_final {V} (x_flat y_flat : list Z) (deltaxs deltays : list V)
  : result (array2 Z * array2 Z * array2 V * array2 V) :=
  do xy <- get_grid_from_ivecs_final x_flat y_flat ;
  let '(x, y) := xy in
  let '(X, Y) := meshgrid x y in
  let n0 := List.length y in
  let n1 := List.length x in
  do x1 <- py_get x_flat 1 ;
  do x0 <- py_get x_flat 0 ;
  do y1 <- py_get y_flat 1 ;
  do y0 <- py_get y_flat 0 ;
  if x1 =? x0 then
    if y1 =? y0 then Err AssertionError
    else
      do U <- np_reshape deltaxs n1 n0 ;
      do W <- np_reshape deltays n1 n0 ;
      Ok (X, Y, transpose n0 U, transpose n0 W)
  else
    if y1 =? y0 then
      do U <- np_reshape deltaxs n0 n1 ;
      do W <- np_reshape deltays n0 n1 ;
      Ok (X, Y, U, W)
    else Err AssertionError.

(** ** postproc/vector_field.py *)

Record field (V : Type) := { fx : list Z; fy : list Z; vx : array2 V; vy : array2 V }.
Arguments fx {V}. Arguments fy {V}. Arguments vx {V}. Arguments vy {V}.

(** vector_field.py:134-156, the orientation of the data in __init__ (here [is_grid_regular]
    is not modelled) *)
Definition make_field {V} (x y : list Z) (vx vy : array2 V) : result (field V) :=
  do x1 <- py_get x 1 ;
  do x0 <- py_get x 0 ;
  do y1 <- py_get y 1 ;
  do y0 <- py_get y 0 ;
  let flipx := x1 - x0 <? 0 in
  let flipy := y1 - y0 <? 0 in
  let x := if flipx then rev x else x in
  let vx := if flipx then fliplr vx else vx in
  let vy := if flipx then fliplr vy else vy in
  let y := if flipy then rev y else y in
  let vx := if flipy then flipud vx else vx in
  let vy := if flipy then flipud vy else vy in
  Ok {| fx := x; fy := y; vx := vx; vy := vy |}.

(** vector_field.py:222-248, the field made from a file of PIV results *)
Definition field_from_piv {V} (ixvecs iyvecs : list Z) (deltaxs deltays : list V) : result (field V) :=
  do r <- reshape_on_grid_final ixvecs iyvecs deltaxs deltays ;
  let '(X, Y, U, W) := r in
  do x <- py_get X 0 ;                                    (* X[0, :] *)
  do y <- fold_right (fun row acc => do v <- py_get row 0 ; do l <- acc ; Ok (v :: l)) (Ok []) Y ;  (* Y[:, 0] *)
  make_field x y U W.

(** first index [i] with [l[i] == v]: [np.argwhere(l == v)[0][0]] *)
Fixpoint index_of (v : Z) (l : list Z) : result Z :=
  match l with
  | [] => Err IndexError
  | w :: l' => if w =? v then Ok 0 else do i <- index_of v l' ; Ok (i + 1)
  end.

(** [l[indices].min()] and [.max()]: ValueError without any element *)
Definition list_min (l : list Z) : result Z :=
  match l with [] => Err ValueError | a :: l' => Ok (fold_left Z.min l' a) end.
Definition list_max (l : list Z) : result Z :=
  match l with [] => Err ValueError | a :: l' => Ok (fold_left Z.max l' a) end.

(** vector_field.py:474-480 *)
Definition phys_bounds (l : list Z) (start stop : Z) : result (Z * Z) :=
  let inside := filter (fun v => (start <=? v) && (v <=? stop)) l in
  do m <- list_min inside ;
  do start <- index_of m l ;
  do mx <- list_max inside ;
  do i <- index_of mx l ;
  Ok (start, i + 1).

(** vector_field.py:482-483 *)
Definition extract2d {V} (start0 stop0 start1 stop1 : Z) (f : array2 V) : array2 V :=
  map (fun row => py_slice row start1 stop1) (py_slice f start0 stop0).

(** vector_field.py:469-504 *)
Definition extract {V} (f : field V) (start0 stop0 start1 stop1 : Z) (phys : bool) : result (field V) :=
  do b <-
    (if phys then
       do by_ <- phys_bounds (fy f) start0 stop0 ;
       do bx <- phys_bounds (fx f) start1 stop1 ;
       Ok (by_, bx)
     else Ok ((start0, stop0), (start1, stop1))) ;
  let '((start0, stop0), (start1, stop1)) := b in
  Ok {| fx := py_slice (fx f) start1 stop1;
        fy := py_slice (fy f) start0 stop0;
        vx := extract2d start0 stop0 start1 stop1 (vx f);
        vy := extract2d start0 stop0 start1 stop1 (vy f) |}.

(** vector_field.py:506-513; [ny, nx = self.vx.shape] *)
Definition truncate {V} (f : field V) (cut : Z) : result (field V) :=
  let ny := zlen (fy f) in
  let nx := zlen (fx f) in
  extract f cut (ny - cut) cut (nx - cut) false.

(** vector_field.py:515-535 *)
Definition square_bounds (n0 n1 cut : Z) (force_even : bool) : Z * Z * Z * Z :=
  let n := Z.min n0 n1 - 2 * cut in
  let n := if force_even && (n mod 2 =? 1) then n - 1 else n in
  if n0 <? n1 then
    let start0 := cut in
    let stop0 := cut + n in
    let start1 := (n1 - n) / 2 in
    let stop1 := start1 + n in
    (start0, stop0, start1, stop1)
  else
    let start1 := cut in
    let stop1 := cut + n in
    let start0 := (n0 - n) / 2 in
    let stop0 := start1 + n in
    (start0, stop0, start1, stop1).

Definition extract_square {V} (f : field V) (cut : Z) (force_even : bool) : result (field V) :=
  let '(start0, stop0, start1, stop1) := square_bounds (zlen (fy f)) (zlen (fx f)) cut force_even in
  extract f start0 stop0 start1 stop1 false.

(** Model of calcul/mean_neighbors.py.

    Values are in a type [T] with an addition [add] (the addition of floats), a zero and a division by a number of
    points [divc]; a NaN is [None].  A 2D array of shape (n0, n1) is a function of two indices; reading or writing it
    with an index out of range raises IndexError and a negative index counts from the end (numpy). *)
From Verif Require Import PyBase.

Section Arrays.
Context {A : Type}.
Definition index (n i : Z) : result Z :=
  if (0 <=? i) && (i <? n) then Ok i else if (- n <=? i) && (i <? 0) then Ok (i + n) else Err IndexError.
Definition get (n0 n1 : Z) (f : Z -> Z -> A) (i0 i1 : Z) : result A :=
  do j0 <- index n0 i0 ; do j1 <- index n1 i1 ; Ok (f j0 j1).
Definition upd (f : Z -> Z -> A) (i0 i1 : Z) (v : A) : Z -> Z -> A :=
  fun j0 j1 => if (j0 =? i0) && (j1 =? i1) then v else f j0 j1.
Definition set (n0 n1 : Z) (f : Z -> Z -> A) (i0 i1 : Z) (v : A) : result (Z -> Z -> A) :=
  do j0 <- index n0 i0 ; do j1 <- index n1 i1 ; Ok (upd f j0 j1 v).

(** [arr.reshape((n0, n1))] of a flat array, and [arr.reshape(n0 * n1)] *)
Definition reshape (d : A) (n0 n1 : Z) (l : list A) : result (Z -> Z -> A) :=
  if zlen l =? n0 * n1 then Ok (fun i0 i1 => nth (Z.to_nat (i0 * n1 + i1)) l d) else Err ValueError.
Definition flatten (n0 n1 : Z) (f : Z -> Z -> A) : list A :=
  flat_map (fun i0 => map (fun i1 => f i0 i1) (range0 n1)) (range0 n0).
End Arrays.

(** addition of uint8 *)
Definition u8add (a b : Z) : Z := (a + b) mod 256.

Section Mean.
Context {T : Type}.
Variable zero : T.
Variable add : T -> T -> T.
Variable divc : T -> Z -> T.
Variables n0 n1 : Z.

Section OneArray.
(** [arr_a] and [arr_is_not_nan] *)
Variable arr_a : Z -> Z -> T.
Variable not_nan : Z -> Z -> bool.
(** line 9 *)
Definition arr_b (i0 i1 : Z) : Z := if not_nan i0 i1 then 1 else 0.

(** [arr_output] and [arr_nb_pts] *)
Definition st : Type := ((Z -> Z -> T) * (Z -> Z -> Z))%type.

Section Cells.
Context {A : Type}.
Variable plus : A -> A -> A.
Variable arr : Z -> Z -> A.
Notation "'at_' i0 i1" := (get n0 n1 arr i0 i1) (at level 10, i0 at level 9, i1 at level 9).

(** corners (lines 18-23, 27-32, 36-41, 45-50): [s0], [s1] are the directions towards the inside *)
Definition corner (s0 s1 i0 i1 : Z) : result A :=
  do a <- at_ (i0 + s0) i1 ; do b <- at_ (i0 + s0) (i1 + s1) ; do c <- at_ i0 (i1 + s1) ; Ok (plus (plus a b) c).
(** upper and bottom rows (lines 57-61, 70-74) *)
Definition row (s0 i0 i1 : Z) : result A :=
  do a <- at_ i0 (i1 - 1) ; do b <- at_ i0 (i1 + 1) ;
  py_for (fun tmp idx => do v <- at_ (i0 + s0) (i1 - idx) ; Ok (plus tmp v)) [-1; 0; 1] (plus a b).
(** left and right columns (lines 83-87, 96-100) *)
Definition col (s1 i0 i1 : Z) : result A :=
  do a <- at_ (i0 - 1) i1 ; do b <- at_ (i0 + 1) i1 ;
  py_for (fun tmp idx => do v <- at_ (i0 + idx) (i1 + s1) ; Ok (plus tmp v)) [-1; 0; 1] (plus a b).
(** core (lines 109-113) *)
Definition core (i0 i1 : Z) : result A :=
  do a <- at_ i0 (i1 - 1) ; do b <- at_ i0 (i1 + 1) ;
  py_for (fun tmp idx => do v <- at_ (i0 - 1) (i1 - idx) ; do w <- at_ (i0 + 1) (i1 - idx) ; Ok (plus tmp (plus v w)))
         [-1; 0; 1] (plus a b).
End Cells.

(** [if arr_is_not_nan[i0, i1]: arr_output[i0, i1] = ...; arr_nb_pts[i0, i1] = ...] *)
Definition cell (fa : Z -> Z -> result T) (fb : Z -> Z -> result Z) (s : st) (p : Z * Z) : result st :=
  let '(i0, i1) := p in
  do nn <- get n0 n1 not_nan i0 i1 ;
  if nn : bool then
    do va <- fa i0 i1 ; do out <- set n0 n1 (fst s) i0 i1 va ;
    do vb <- fb i0 i1 ; do nb <- set n0 n1 (snd s) i0 i1 vb ; Ok (out, nb)
  else Ok s.

Definition inner (n : Z) : list Z := range_list 1 (n - 1) 1.

(** lines 16-115 *)
Definition sums : result st :=
  let c s0 s1 := cell (corner add arr_a s0 s1) (corner u8add arr_b s0 s1) in
  let r s0 := cell (row add arr_a s0) (row u8add arr_b s0) in
  let k s1 := cell (col add arr_a s1) (col u8add arr_b s1) in
  do s <- c 1 1 (fun _ _ => zero, fun _ _ => 0) (0, 0) ;
  do s <- c 1 (-1) s (0, n1 - 1) ;
  do s <- c (-1) 1 s (n0 - 1, 0) ;
  do s <- c (-1) (-1) s (n0 - 1, n1 - 1) ;
  do s <- py_for (fun s i1 => r 1 s (0, i1)) (inner n1) s ;
  do s <- py_for (fun s i1 => r (-1) s (n0 - 1, i1)) (inner n1) s ;
  do s <- py_for (fun s i0 => k 1 s (i0, 0)) (inner n0) s ;
  do s <- py_for (fun s i0 => k (-1) s (i0, n1 - 1)) (inner n0) s ;
  py_for (fun s i0 => py_for (fun s i1 => cell (core add arr_a) (core u8add arr_b) s (i0, i1)) (inner n1) s) (inner n0) s.

(** lines 117-125: the output contains floats, possibly NaN *)
Definition normalize (s : st) : result (Z -> Z -> option T) :=
  py_for (fun out i0 => py_for (fun out i1 =>
      do nn <- get n0 n1 not_nan i0 i1 ; do nb <- get n0 n1 (snd s) i0 i1 ;
      if (negb nn || (nb =? 0))%bool then set n0 n1 out i0 i1 None
      else do v <- get n0 n1 (fst s) i0 i1 ; set n0 n1 out i0 i1 (Some (divc v nb)))
    (range0 n1) out) (range0 n0) (fun i0 i1 => Some (fst s i0 i1)).

(** _mean_neighbors (lines 5-125) *)
Definition mean_neighbors : result (Z -> Z -> option T) := do s <- sums ; normalize s.
End OneArray.

(** mean_neighbors_xy (lines 129-155); [n0], [n1] are the lengths of iyvecs and ixvecs. The loop of the lines 146-151,
    which handles each point independently, is written as the two arrays it computes. *)
Definition mean_neighbors_xy (deltaxs deltays : list (option T)) : result (list (option T) * list (option T)) :=
  do xs <- reshape None n0 n1 deltaxs ;
  do ys <- reshape None n0 n1 deltays ;
  let not_nan i0 i1 := match xs i0 i1, ys i0 i1 with Some _, Some _ => true | _, _ => false end in
  let x0 i0 i1 := if not_nan i0 i1 then match xs i0 i1 with Some v => v | None => zero end else zero in
  let y0 i0 i1 := if not_nan i0 i1 then match ys i0 i1 with Some v => v | None => zero end else zero in
  do mx <- mean_neighbors x0 not_nan ;
  do my <- mean_neighbors y0 not_nan ;
  Ok (flatten n0 n1 mx, flatten n0 n1 my).
End Mean.

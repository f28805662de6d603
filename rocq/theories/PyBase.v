(** Python basics shared by the models: exceptions as values, [range], list
    slices, list update.  These model the CPython semantics of the built-ins used
    by the code, not code of the repository itself. *)
From Coq Require Export List Arith ZArith Lia Bool String.
From Coq Require Export ZifyBool ZifyNat.
Export ListNotations.
Open Scope Z_scope.

(** Exception classes raised by the modelled code (or by the built-ins it calls). *)
Inductive exn : Type :=
| ValueError | ZeroDivisionError | AssertionError | IndexError | KeyError
| TypeError | AttributeError | NameError | RuntimeError | NotImplementedError
| FileExistsError | FileNotFoundError | PIVError | UnboundLocalError
| UserError (code : Z)      (* exception raised by a user supplied work *)
| OutOfFuel.                (* model artefact: a loop was not finished with the given fuel *)

Inductive result (A : Type) : Type :=
| Ok (a : A)
| Err (e : exn).
Arguments Ok {A} a.
Arguments Err {A} e.

Definition bind {A B} (r : result A) (f : A -> result B) : result B :=
  match r with Ok a => f a | Err e => Err e end.
Notation "'do' x <- r ; k" := (bind r (fun x => k))
  (at level 200, x pattern, r at level 100, k at level 200, right associativity).

(** [len(range(start, stop, step))] for [step <> 0] (CPython's formula). *)
Definition range_len (start stop step : Z) : Z :=
  if (0 <? step) && (start <? stop) then (stop - start - 1) / step + 1
  else if (step <? 0) && (stop <? start) then (start - stop - 1) / (- step) + 1
  else 0.

(** [list(range(start, stop, step))] for [step <> 0]. *)
Definition range_list (start stop step : Z) : list Z :=
  map (fun k => start + Z.of_nat k * step) (seq 0 (Z.to_nat (range_len start stop step))).

(** [list(range(n))] *)
Definition range0 (n : Z) : list Z := map Z.of_nat (seq 0 (Z.to_nat n)).

(** [len] of a list as a Python int *)
Definition zlen {A} (l : list A) : Z := Z.of_nat (List.length l).

(** Python slice [l[a:b]] with integer bounds (negative bounds count from the end,
    bounds are clipped). *)
Definition norm_bound (n i : Z) : Z :=
  if i <? 0 then Z.max 0 (i + n) else Z.min i n.
Definition py_slice {A} (l : list A) (a b : Z) : list A :=
  let n := zlen l in
  let a' := norm_bound n a in
  let b' := norm_bound n b in
  firstn (Z.to_nat (b' - a')) (skipn (Z.to_nat a') l).

(** [l[i]] with Python negative indices; [IndexError] when out of range. *)
Definition py_get {A} (l : list A) (i : Z) : result A :=
  let n := zlen l in
  let j := if i <? 0 then i + n else i in
  if (0 <=? j) && (j <? n) then
    match nth_error l (Z.to_nat j) with Some a => Ok a | None => Err IndexError end
  else Err IndexError.

(** [l[i] = f(l[i])] *)
Fixpoint update_nth {A} (n : nat) (f : A -> A) (l : list A) : list A :=
  match l, n with
  | [], _ => []
  | a :: l', O => f a :: l'
  | a :: l', S n' => a :: update_nth n' f l'
  end.

Definition py_update {A} (l : list A) (i : Z) (f : A -> A) : result (list A) :=
  let n := zlen l in
  let j := if i <? 0 then i + n else i in
  if (0 <=? j) && (j <? n) then Ok (update_nth (Z.to_nat j) f l) else Err IndexError.

(** [[x] * n] *)
Definition py_repeat {A} (x : A) (n : Z) : list A := repeat x (Z.to_nat n).

Definition zsum (l : list Z) : Z := fold_right Z.add 0 l.

(** for loop with exceptions: [for x in l: s = f(s, x)] *)
Fixpoint py_for {A S} (f : S -> A -> result S) (l : list A) (s : S) : result S :=
  match l with
  | [] => Ok s
  | a :: l' => match f s a with Ok s' => py_for f l' s' | Err e => Err e end
  end.

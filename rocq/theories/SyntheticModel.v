(** Model of the production of synthetic images (synthetic.py lines 6-61).

    Real arithmetic (the code works with float32 and float64).  The numbers given by [np.random.rand] and
    [np.random.randn] are two streams, used in the order of the calls.  Images are lists of lines. *)
From Coq Require Import Reals ZArith List.
From Verif Require Import PyBase.
Import ListNotations.
Local Open Scope R_scope.

(** [np.arange(n)] *)
Definition arange (n : Z) : list R := map INR (seq 0 (Z.to_nat n)).
(** [a.max()] and [a.min()]: ValueError for an empty array *)
Definition np_max (l : list R) : result R := match l with [] => Err ValueError | a :: r => Ok (fold_left Rmax r a) end.
Definition np_min (l : list R) : result R := match l with [] => Err ValueError | a :: r => Ok (fold_left Rmin r a) end.

(** lines 34-42: the image of the particles at the point (x, y) *)
Definition light (part_size : R) (parts : list (R * R)) (x y : R) : R :=
  fold_left (fun result '(xpart, ypart) => result + exp (- (1 / part_size ^ 2) * ((x - xpart) ^ 2 + (y - ypart) ^ 2))) parts 0.

(** [f(Xs - dx, Ys - dy)] on the grid of lines 19-22 *)
Definition render (part_size : R) (parts : list (R * R)) (nx ny : Z) (dx dy : R) : list (list R) :=
  map (fun y => map (fun x => light part_size parts (x - dx) (y - dy)) (arange nx)) (arange ny).

(** [im += epsilon * np.random.randn( *im.shape)]: the numbers from the index [k], line by line *)
Definition add_noise (epsilon : R) (randn : nat -> R) (k : nat) (nx : Z) (im : list (list R)) : list (list R) :=
  map (fun '(i, row) => map (fun '(j, v) => v + epsilon * randn (k + i * Z.to_nat nx + j)%nat) (combine (seq 0 (List.length row)) row))
      (combine (seq 0 (List.length im)) im).

(** lines 24-33: the positions of the particles *)
Definition positions (rand : nat -> R) (nb : Z) (k : nat) (lo hi : R) : list R :=
  map (fun i => lo + (hi - lo) * rand (k + i)%nat) (seq 0 (Z.to_nat nb)).

Definition make_synthetic_images (rand randn : nat -> R) (dx dy : R) (nb : Z) (ny nx : Z) (shape1 : option (Z * Z))
    (epsilon part_size : R) : result (list (list R) * list (list R)) :=
  let xs := arange nx in
  let ys := arange ny in
  do xmax0 <- np_max xs ;
  do xmin0 <- np_min xs ;
  let xparts := positions rand nb 0 (xmin0 - Rabs dx) (xmax0 + Rabs dx) in
  do ymax0 <- np_max ys ;
  do ymin0 <- np_min ys ;
  let yparts := positions rand nb (Z.to_nat nb) (ymin0 - Rabs dy) (ymax0 + Rabs dy) in
  let parts := combine xparts yparts in
  let im0 := render part_size parts nx ny 0 0 in
  let im1 := render part_size parts nx ny dx dy in
  let im0 := if Rlt_dec 0 epsilon then add_noise epsilon randn 0 nx im0 else im0 in
  let im1 := if Rlt_dec 0 epsilon then add_noise epsilon randn (Z.to_nat ny * Z.to_nat nx) nx im1 else im1 in
  match shape1 with
  | None => Ok (im0, im1)
  | Some (ny1, nx1) =>
      if ((ny1 >? ny) || (nx1 >? nx))%Z%bool then Err ValueError
      else
        let ixfirst := ((nx - nx1) / 2)%Z in
        let iyfirst := ((ny - ny1) / 2)%Z in
        Ok (im0, map (fun row => py_slice row ixfirst (ixfirst + nx1)%Z) (py_slice im1 iyfirst (iyfirst + ny1)%Z))
  end.

(** Model of the direct correlation, calcul/correl.py: correl_numpy (lines 284-380), and of the choice of the maximal
    displacement, CorrelPythran._finalize_init (388-409).

    Pixels are integers (the code uses floats).  A value of the correlation is the couple of the sum and of the number
    by which it is divided (then it is multiplied by the size of im1). *)
From Verif Require Import PyBase.
Local Open Scope Z_scope.

Definition image : Type := list (list Z).
(** [im[iy, ix]] *)
Definition pix (im : image) (iy ix : Z) : result Z := do row <- py_get im iy ; py_get row ix.

(** lines 318-321, 323-326: for a displacement index from 0 to disp_max *)
Definition dims_low (n0 n1 disp : Z) : Z * Z * Z :=
  let nmax := n1 + Z.min (n0 / 2 - n1 / 2 + disp) 0 in
  let dep1 := - Z.min (n0 / 2 - n1 / 2 + disp) 0 in
  let dep0 := Z.max 0 (n0 / 2 - n1 / 2 + disp) in
  (nmax, dep1, dep0).
(** lines 336-339, 349-352 *)
Definition dims_high (n0 n1 disp : Z) : Z * Z * Z :=
  let nmax := n1 - Z.max (n0 / 2 + n1 / 2 + disp - n0) 0 in
  let dep1 := 0 in
  let dep0 := n0 / 2 - n1 / 2 + disp in
  (nmax, dep1, dep0).
(** the index [xi] of the output: [xi <= disp_max] in the first loop (disp = xi - disp_max), [xi' + disp_max + 1]
    with [disp = xi' + 1] in the second one *)
Definition dims (n0 n1 disp_max xi : Z) : Z * Z * Z :=
  if xi <=? disp_max then dims_low n0 n1 (- disp_max + xi) else dims_high n0 n1 (xi - disp_max - 1 + 1).

(** lines 327-334 (the four copies of the double loop) *)
Definition sum_loop (im0 im1 : image) (dy dx : Z * Z * Z) : result Z :=
  let '(nymax, ny1dep, ny0dep) := dy in
  let '(nxmax, nx1dep, nx0dep) := dx in
  py_for (fun tmp iy =>
    py_for (fun tmp ix =>
      do a <- pix im1 (iy + ny1dep) (ix + nx1dep) ;
      do b <- pix im0 (ny0dep + iy) (nx0dep + ix) ;
      Ok (tmp + a * b)) (range0 nxmax) tmp) (range0 nymax) 0.

(** [correl[xiy, xix]] *)
Definition correl_at (im0 im1 : image) (ny0 nx0 ny1 nx1 disp_max xiy xix : Z) : result (Z * Z) :=
  let dy := dims ny0 ny1 disp_max xiy in
  let dx := dims nx0 nx1 disp_max xix in
  do tmp <- sum_loop im0 im1 dy dx ;
  Ok (tmp, fst (fst dx) * fst (fst dy)).

(** CorrelPythran._finalize_init when no displacement_max is given *)
Definition pythran_displacement_max (ny0 nx0 ny1 nx1 : Z) : result Z :=
  let d := if (ny0 =? ny1) && (nx0 =? nx1) then Z.min ny0 nx0 / 2 - 1
           else Z.min (ny0 - ny1) (nx0 - nx1) / 2 - 1 in
  if d <=? 0 then Err ValueError else Ok d.

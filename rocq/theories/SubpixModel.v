(** Model of calcul/subpix.py (SubPix.compute_subpix), with numpy floats modelled by [fl] (no rounding). *)
From Coq Require Import Reals.
From Verif Require Import PyBase FloatBase.
Local Open Scope Z_scope.

Inductive method := Gaussian | Gaussian2 | Centroid | NoSubpix | OtherMethod.

(** np.meshgrid of np.arange(-n, n + 1) (lines 91-92) and indices of a crop, row by row: pairs (y, x) *)
Definition offsets (n : Z) : list (Z * Z) :=
  flat_map (fun y => map (fun x => (y, x)) (range_list (- n) (n + 1) 1)) (range_list (- n) (n + 1) 1).

Definition Z2F (z : Z) : fl := Fin (IZR z).

Section Subpix.
(** Correlation of shape (ny, nx): [correl iy ix]. *)
Variables ny nx : Z.
(** [self.n], [self.method] *)
Variable n : Z.
(** [self.Minv_subpix]: row [k], column of the offset (y, x) *)
Variable Minv : nat -> Z * Z -> R.

(** lines 190-198 *)
Definition centroid (correl : Z -> Z -> fl) (ix iy : Z) : fl * fl :=
  let v o := correl (iy + fst o) (ix + snd o) in
  let s := fsum (map v (offsets n)) in
  (fdiv (fsum (map (fun o => fmul (Z2F (snd o)) (v o)) (offsets n))) s,
   fdiv (fsum (map (fun o => fmul (Z2F (fst o)) (v o)) (offsets n))) s).

(** [correl_map[correl_map <= 0.0] = 1e-6] (line 166) *)
Definition clip (a : fl) : fl := if fleb a (Fin 0) then Fin (/ 1000000) else a.
(** [correl_crop.ravel()] is a view if the crop contains full lines: then the correlation itself is modified *)
Definition clipped (correl : Z -> Z -> fl) (ix iy : Z) : Z -> Z -> fl :=
  if nx =? 2 * n + 1 then fun i0 i1 => if (iy - n <=? i0) && (i0 <? iy + n + 1) then clip (correl i0 i1) else correl i0 i1
  else correl.
Definition coef (correl : Z -> Z -> fl) (ix iy : Z) (k : nat) : fl :=
  fsum (map (fun o => fmul (Fin (Minv k o)) (flog (clip (correl (iy + fst o) (ix + snd o))))) (offsets n)).

(** compute_subpix_2d_gaussian2 (lines 17-61) *)
Definition gaussian2 (correl : Z -> Z -> fl) (ix iy : Z) : fl * fl :=
  let c0 o := correl (iy + fst o) (ix + snd o) in
  let cmin := fmin (map c0 (offsets 1)) in
  let c1 o := fsub (c0 o) cmin in
  let cmax := fmax (map c1 (offsets 1)) in
  let c2 o := let x := fdiv (c1 o) cmax in if fis0 x then Fin (/ 100000000) else x in
  let sum w := fsum (map (fun o : Z * Z => fmul (Z2F (w (snd o) (fst o))) (flog (c2 o))) (offsets 1)) in
  let c10 := fdiv (sum (fun x y => x)) (Fin 6) in
  let c01 := fdiv (sum (fun x y => y)) (Fin 6) in
  let c11 := fdiv (sum (fun x y => x * y)) (Fin 4) in
  let c20 := fdiv (sum (fun x y => 3 * (x * x) - 2)) (Fin 6) in
  let c02 := fdiv (sum (fun x y => 3 * (y * y) - 2)) (Fin 6) in
  let den := fsub (fmul (fmul (Fin 4) c20) c02) (fsq c11) in
  (fdiv (fsub (fmul c11 c01) (fmul (fmul (Fin 2) c10) c02)) den,
   fdiv (fsub (fmul c11 c10) (fmul (fmul (Fin 2) c01) c20)) den).

(** test of line 203 *)
Definition too_far (d : fl * fl) : bool :=
  fltb (Fin (2 * ((/ 2 + IZR n) * (/ 2 + IZR n)))) (fadd (fsq (fst d)) (fsq (snd d))).
(** lines 203, 214-218 *)
Definition finish (d : fl * fl) (ix iy : Z) : result (fl * fl) :=
  if too_far d then Err PIVError else Ok (fadd (fst d) (Z2F ix), fadd (snd d) (Z2F iy)).

(** compute_subpix (lines 131-218); the calls with method="centroid" do not call it again *)
Definition compute_subpix (m : method) (correl : Z -> Z -> fl) (ix iy : Z) : result (fl * fl) :=
  match m with
  | OtherMethod => Err ValueError
  | _ =>
    if (iy - n <? 0) || (ny <? iy + n + 1) || (ix - n <? 0) || (nx <? ix + n + 1) then Err PIVError
    else match m with
    | Gaussian =>
        let correl' := clipped correl ix iy in
        let c := coef correl ix iy in
        if fltb (Fin 0) (c 0%nat) || fltb (Fin 0) (c 1%nat) then finish (centroid correl' ix iy) ix iy
        else
          let sigmax := fdiv (Fin 1) (fsqrt (fmul (Fin (-2)) (c 0%nat))) in
          let sigmay := fdiv (Fin 1) (fsqrt (fmul (Fin (-2)) (c 1%nat))) in
          let deplx := fmul (c 2%nat) (fsq sigmax) in
          let deply := fmul (c 3%nat) (fsq sigmay) in
          if fisnan deplx || fisnan deply then finish (centroid correl' ix iy) ix iy
          else finish (deplx, deply) ix iy
    | Gaussian2 =>
        let d := gaussian2 correl ix iy in
        if too_far d then finish (centroid correl ix iy) ix iy else finish d ix iy
    | Centroid => finish (centroid correl ix iy) ix iy
    | _ => finish (Fin 0, Fin 0) ix iy
    end
  end.
End Subpix.

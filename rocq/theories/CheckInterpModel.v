(** The points of the figures which check a direct calibration (calibration/calib_direct.py:
    CalibDirect.check_interp_levels, check_interp_lines and check_interp_lines_coeffs).

    Modelled: the pixels at which the interpolations are called and the arrays which are shown; not
    modelled: matplotlib.  [interp i (x, y)]: the value of the i-th interpolation at a pixel. *)
From Verif Require Import PyBase.
Open Scope Z_scope.

(** [range(0, n, step)] *)
Definition range_step (n step : Z) : result (list Z) :=
  if step =? 0 then Err ValueError
  else if step <? 0 then Ok (map (fun k => k * step) (range0 ((- n + - step - 1) / - step)))
  else Ok (map (fun k => k * step) (range0 ((n + step - 1) / step))).

(** calib_direct.py:314-315, 347-348 and 370-371: [range(0, nb_pixels, nb_pixels // number)] *)
Definition sample (nb_pixels number : Z) : result (list Z) :=
  if number =? 0 then Err ZeroDivisionError else range_step nb_pixels (nb_pixels / number).

(** [np.meshgrid(x, y)]: two arrays with one row for each y *)
Definition meshgrid (xs ys : list Z) : list (list Z) * list (list Z) :=
  (map (fun _ => xs) ys, map (fun y => map (fun _ => y) xs) ys).

Section Interp.
Variable V : Type.
Variable interp : nat -> Z * Z -> V.

(** an interpolation called with two arrays (lines 319-320) *)
Definition call_arrays (i : nat) (x y : list (list Z)) : list (list V) :=
  map (fun rows => map (interp i) (combine (fst rows) (snd rows))) (combine x y).

(** check_interp_levels, lines 311-335: for each level the abscissae, the ordinates and the values of
    X and of Y shown; [levels]: the number of levels, of which the interpolations for X and Y are
    2 i and 2 i + 1 here *)
Definition check_interp_levels (nb_pixels_x nb_pixels_y number : Z) (levels : nat)
  : result (list (list (list Z) * list (list Z) * list (list V) * list (list V))) :=
  do indx <- sample nb_pixels_x number ;
  do indy <- sample nb_pixels_y number ;
  let '(x, y) := meshgrid indx indy in
  Ok (map (fun i => (x, y, call_arrays (2 * i) x y, call_arrays (2 * i + 1) x y)) (seq 0 levels)).

(** check_interp_lines, lines 347-359: the pixels for which a segment is drawn *)
Definition check_interp_lines (nb_pixels_x nb_pixels_y number : Z) : result (list (Z * Z)) :=
  do xs <- sample nb_pixels_x number ;
  do ys <- sample nb_pixels_y number ;
  let '(x, y) := meshgrid xs ys in
  Ok (combine (List.concat x) (List.concat y)).

(** check_interp_lines_coeffs, lines 368-387: one coefficient, filled pixel by pixel with the two
    loops *)
Definition check_interp_lines_coeff (nb_pixels_x nb_pixels_y number : Z) (i : nat) : result (list (list V)) :=
  do xs <- sample nb_pixels_x number ;
  do ys <- sample nb_pixels_y number ;
  let '(x, y) := meshgrid xs ys in
  Ok (map (fun r => map (fun c => interp i (nth c (nth r x []) 0, nth c (nth r y []) 0))
                        (seq 0 (List.length xs))) (seq 0 (List.length ys))).
End Interp.

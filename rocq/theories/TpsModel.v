(** Thin plate splines (src/fluidimage/calcul/interpolate/thin_plate_spline.py and
    thin_plate_spline_subdom.py).

    Real arithmetic instead of floats, in two dimensions ([nb_dim = 2]).  An array of
    positions [np.vstack([ys, xs])] is the list of its columns: a position is a pair
    (component 0, component 1), that is (y, x) where the code says so. *)
From Coq Require Import Reals ZArith List Bool.
From Verif Require Import PyBase StrModel CalibModel.
Import ListNotations.
Local Open Scope R_scope.

Definition pos : Type := R * R.
Definition rsum (l : list R) : R := fold_right Rplus 0 l.
(** a matrix is the list of its lines *)
Definition matrix : Type := list (list R).

(** [np.dot] of two vectors (of the same length in this code) *)
Definition dotv (u v : list R) : R := rsum (map (fun p => fst p * snd p) (combine u v)).
(** column number j *)
Definition column (M : matrix) (j : nat) : list R := map (fun line => nth j line 0) M.
(** [M.T], for a matrix of n columns *)
Definition transpose (n : nat) (M : matrix) : matrix := map (column M) (seq 0 n).
(** [np.dot(M, v)] and [np.dot(v, M)] for a matrix of n columns *)
Definition mul_mv (M : matrix) (v : list R) : list R := map (fun line => dotv line v) M.
Definition mul_vm (v : list R) (n : nat) (M : matrix) : list R := map (fun j => dotv v (column M j)) (seq 0 n).

(** ** thin_plate_spline.py *)

(** lines 81-84 and 146-148: the sum over the dimensions of the squared differences *)
Definition dist2 (p c : pos) : R :=
  0 + (fst p - fst c) * (fst p - fst c) + (snd p - snd c) * (snd p - snd c).

(** lines 90-94 and 150-151 *)
Definition kernel (d2 : R) : R := if is_zero d2 then d2 else d2 * ln d2 / 2.

(** compute_tps_matrix_pythran and compute_tps_matrix_numpy, lines 38-153: one line for each
    center, then a line of ones, then the lines of new_pos *)
Definition compute_tps_matrix (new_pos centers : list pos) : matrix :=
  map (fun c => map (fun p => kernel (dist2 p c)) new_pos) centers
  ++ [map (fun _ => 1) new_pos; map fst new_pos; map snd new_pos].

(** lines 204-205: the line number i of [smoothing_mat] *)
Definition smoothing_line (n i : nat) (smoothing_coef : R) : list R :=
  map (fun j => smoothing_coef * (if (i =? j)%nat then 1 else 0)) (seq 0 n) ++ [0; 0; 0].

Definition add_lists (u v : list R) : list R := map (fun p => fst p + snd p) (combine u v).

(** lines 204-212: the matrix IM *)
Definition tps_system (centers : list pos) (smoothing_coef : R) : matrix :=
  let n := List.length centers in
  let EM := transpose n (compute_tps_matrix centers centers) in
  let smoothing_mat := map (fun i => smoothing_line n i smoothing_coef) (seq 0 n) in
  map (fun p => add_lists (fst p) (snd p)) (combine EM smoothing_mat)
  ++ [map (fun _ => 1) centers ++ [0; 0; 0];
      map fst centers ++ [0; 0; 0];
      map snd centers ++ [0; 0; 0]].

Section Tps.
(** [np.linalg.solve(IM, values)], an external function *)
Variable solve : matrix -> list R -> result (list R).

(** lines 168-216: (smoothed_values, tps_weights) *)
Definition compute_tps_weights (centers : list pos) (values : list R) (smoothing_coef : R) : result (list R * list R) :=
  let values := values ++ [0; 0; 0] in
  let EM := transpose (List.length centers) (compute_tps_matrix centers centers) in
  let IM := tps_system centers smoothing_coef in
  do tps_weights <- solve IM values ;
  Ok (mul_mv EM tps_weights, tps_weights).

(** lines 219-257 *)
Definition dkernel (d2 : R) : R := if is_zero d2 then d2 else ln d2 + 1.
Definition compute_tps_matrices_dxy (dsites centers : list pos) : matrix * matrix :=
  let DMX := map (fun c => map (fun p => (snd p - snd c) * dkernel ((snd p - snd c) * (snd p - snd c) + (fst p - fst c) * (fst p - fst c))) dsites) centers
             ++ [map (fun _ => 0) dsites; map (fun _ => 1) dsites; map (fun _ => 0) dsites] in
  let DMY := map (fun c => map (fun p => (fst p - fst c) * dkernel ((snd p - snd c) * (snd p - snd c) + (fst p - fst c) * (fst p - fst c))) dsites) centers
             ++ [map (fun _ => 0) dsites; map (fun _ => 0) dsites; map (fun _ => 1) dsites] in
  (DMX, DMY).

(** ThinPlateSpline.compute_field, lines 265-271 *)
Definition compute_field (new_positions centers : list pos) (U_tps : list R) : list R :=
  mul_vm U_tps (List.length new_positions) (compute_tps_matrix new_positions centers).
(** ThinPlateSpline.compute_gradient, lines 265-275 *)
Definition compute_gradient (new_positions centers : list pos) (U_tps : list R) : list R * list R :=
  let '(DMX, DMY) := compute_tps_matrices_dxy new_positions centers in
  (mul_vm U_tps (List.length new_positions) DMX, mul_vm U_tps (List.length new_positions) DMY).

(** ** thin_plate_spline_subdom.py *)

(** Python's OverflowError *)
Definition OverflowError : exn := UserError 62.

Definition floor (x : R) : Z := Int_part x.
Definition ceil (x : R) : Z := (- Int_part (- x))%Z.

(** lines 60-64: the numbers of subdomains.  With [range_x = 0] or [range_y = 0] the
    divisions give inf or nan (numpy floats): math.sqrt raises ValueError for a negative
    number, and int raises OverflowError for inf and ValueError for nan. *)
Definition numbers_subdom (size subdom_size : Z) (range_x range_y : R) : result (Z * Z) :=
  if (subdom_size =? 0)%Z then Err ZeroDivisionError else
  let nb_subdom := IZR size / IZR subdom_size in
  if is_zero range_x && is_zero range_y then Err ValueError
  else if is_zero range_x || is_zero range_y then (if gt 0 nb_subdom then Err ValueError else Err OverflowError)
  else
  let aspect_ratio := range_y / range_x in
  if gt 0 (nb_subdom / aspect_ratio) then Err ValueError else
  let nb_subdomx := floor (sqrt (nb_subdom / aspect_ratio)) in
  let nb_subdomx := if (nb_subdomx =? 0)%Z then 1%Z else nb_subdomx in
  let nb_subdomy := ceil (sqrt (nb_subdom * aspect_ratio)) in
  let nb_subdomy := if (nb_subdomy =? 0)%Z then 1%Z else nb_subdomy in
  Ok (nb_subdomx, nb_subdomy).

(** one subdomain: the limits (the code keeps them in several arrays) and the indices of the
    points it contains *)
Record subdom := { d_xmin : R; d_xmax : R; d_ymin : R; d_ymax : R }.

Definition ge (x y : R) : bool := if Rle_dec y x then true else false.
(** lines 107-109 and 179-184 *)
Definition inside (d : subdom) (p : pos) : bool :=
  ge (snd p) (d_xmin d) && gt (d_xmax d) (snd p) && ge (fst p) (d_ymin d) && gt (d_ymax d) (fst p).
(** [np.where(...)[0]] *)
Definition indices_in (d : subdom) (ps : list pos) : list nat :=
  filter (fun i => match nth_error ps i with Some p => inside d p | None => false end) (seq 0 (List.length ps)).

(** _compute_coef_norm for one point, lines 208-222 *)
Definition compute_coef_norm (d : subdom) (p : pos) : R :=
  let xc := 1 / 2 * (d_xmin d + d_xmax d) in
  let yc := 1 / 2 * (d_ymin d + d_ymax d) in
  let dx_max := d_xmax d - xc in
  let dy_max := d_ymax d - yc in
  let dx2_normed := (snd p - xc) * (snd p - xc) / (dx_max * dx_max) in
  let dy2_normed := (fst p - yc) * (fst p - yc) / (dy_max * dy_max) in
  (1 - dx2_normed) * (1 - dy2_normed) + 1 / 1000.

(** [array[indices]], for indices given by np.where *)
Definition take {A} (l : list A) (idx : list nat) : list A :=
  flat_map (fun i => match nth_error l i with Some a => [a] | None => [] end) idx.
(** [array[indices] += values]: the sums are computed with the initial array, then assigned *)
Definition add_at (a : list R) (idx : list nat) (values : list R) : list R :=
  fold_left (fun b p => update_nth (fst p) (fun _ => snd p) b)
            (combine idx (add_lists (take a idx) values)) a.

(** the sum over the subdomains, lines 118-126, 145-152, 187-196 and 226-232 *)
Fixpoint add_domains (idxs : list (list nat)) (valuess : list (list R)) (a : list R) : list R :=
  match idxs, valuess with
  | idx :: idxs', values :: valuess' => add_domains idxs' valuess' (add_at a idx values)
  | _, _ => a
  end.
Definition zeros (n : nat) : list R := repeat 0 n.

Record tps := {
  t_centers : list pos;
  t_threshold : option R;
  t_smoothing_coef : R;
  t_domains : list subdom;
  t_indices : list (list nat);
  t_norm_coefs_domains : list (list R);
  t_norm_coefs : list R }.

(** [x_dom[:-1]] and [x_dom[1:]] *)
Definition but_last (l : list R) : list R := removelast l.
Definition but_first (l : list R) : list R := tl l.

(** lines 86-87 and 89-90: the limits of the intervals in one direction *)
Definition limits (dom : list R) (buffer_length : R) : list (R * R) :=
  combine (map (fun v => v - buffer_length) (but_last dom)) (map (fun v => v + buffer_length) (but_first dom)).

(** lines 38-126 *)
Definition tps_init (centers : list pos) (subdom_size : Z) (smoothing_coef : R) (threshold : option R) (percent_buffer_area : R) : result tps :=
  let xs := map snd centers in
  let ys := map fst centers in
  do x_min <- np_min xs ; do x_max <- np_max xs ;
  do y_min <- np_min ys ; do y_max <- np_max ys ;
  let range_x := x_max - x_min in
  let range_y := y_max - y_min in
  let size := zlen centers in
  do ns <- numbers_subdom size subdom_size range_x range_y ;
  let '(nb_subdomx, nb_subdomy) := ns in
  let nb_subdom := (nb_subdomx * nb_subdomy)%Z in
  do x_dom <- linspace x_min x_max (nb_subdomx + 1) ;
  do y_dom <- linspace y_min y_max (nb_subdomy + 1) ;
  let num_vectors_per_subdom := IZR size / IZR nb_subdom in
  do x_dom1 <- py_get x_dom 1 ; do x_dom0 <- py_get x_dom 0 ;
  do y_dom1 <- py_get y_dom 1 ; do y_dom0 <- py_get y_dom 0 ;
  let smoothing_coef := smoothing_coef * sqrt ((x_dom1 - x_dom0) * (y_dom1 - y_dom0) / num_vectors_per_subdom) in
  let coef_buffer := percent_buffer_area / 100 in
  let buffer_length_x := coef_buffer * range_x / IZR nb_subdomx in
  let buffer_length_y := coef_buffer * range_y / IZR nb_subdomy in
  let domains :=
    flat_map (fun ly => map (fun lx => {| d_xmin := fst lx; d_xmax := snd lx; d_ymin := fst ly; d_ymax := snd ly |})
                            (limits x_dom buffer_length_x))
             (limits y_dom buffer_length_y) in
  let indices := map (fun d => indices_in d centers) domains in
  let coefs := map (fun d => map (compute_coef_norm d) (take centers (indices_in d centers))) domains in
  Ok {| t_centers := centers; t_threshold := threshold; t_smoothing_coef := smoothing_coef;
        t_domains := domains; t_indices := indices; t_norm_coefs_domains := coefs;
        t_norm_coefs := add_domains indices coefs (zeros (List.length centers)) |}.

(** the dictionary summary: [None] when the key "max(Udiff)" is absent *)
Record summary := { nb_fixed_vectors : nat; max_udiff : option R; nb_iterations : nat }.

(** lines 253 and 266 *)
Definition differences (smoothed values : list R) : list R :=
  map (fun p => sqrt ((fst p - snd p) * (fst p - snd p))) (combine smoothed values).
(** [np.argwhere(differences > threshold)] *)
Definition erratic (threshold : R) (diffs : list R) : list nat :=
  filter (fun i => gt (nth i diffs 0) threshold) (seq 0 (List.length diffs)).
(** line 261 *)
Definition replace_at (values smoothed : list R) (idx : list nat) : list R :=
  fold_left (fun v i => update_nth i (fun _ => nth i smoothed 0) v) idx values.

(** lines 259-276; the fuel is enough (theorem tps_iter_fuel) *)
Fixpoint erratic_loop (fuel : nat) (threshold : R) (centers : list pos) (smoothing_coef : R)
    (values smoothed weights : list R) (count nb_fixed : nat) : result (list R * list R * nat * nat) :=
  match fuel with
  | O => Err OutOfFuel
  | S fuel' =>
      let idx := erratic threshold (differences smoothed values) in
      match idx with
      | [] => Ok (smoothed, weights, count, nb_fixed)
      | _ =>
          let nb_fixed := (nb_fixed + List.length idx)%nat in
          let values := replace_at values smoothed idx in
          do r <- compute_tps_weights centers values smoothing_coef ;
          let '(smoothed, weights) := r in
          let count := (count + 1)%nat in
          if (10 <? count)%nat then Ok (smoothed, weights, count, nb_fixed)
          else erratic_loop fuel' threshold centers smoothing_coef values smoothed weights count nb_fixed
      end
  end.

(** lines 236-280 *)
Definition compute_tps_weights_iter (threshold : option R) (centers : list pos) (values : list R) (smoothing_coef : R)
    : result (list R * list R * summary) :=
  do r <- compute_tps_weights centers values smoothing_coef ;
  let '(smoothed, weights) := r in
  match threshold with
  | None => Ok (smoothed, weights, {| nb_fixed_vectors := 0; max_udiff := None; nb_iterations := 1 |})
  | Some th =>
      do m <- np_max (differences smoothed values) ;
      do r <- erratic_loop 11 th centers smoothing_coef values smoothed weights 1 0 ;
      let '(smoothed, weights, count, nb_fixed) := r in
      Ok (smoothed, weights, {| nb_fixed_vectors := nb_fixed; max_udiff := Some m; nb_iterations := count |})
  end.

(** [a / b] of numpy: [None] is nan or inf *)
Definition quotient (a b : R) : option R := if is_zero b then None else Some (a / b).
Definition quotients (u v : list R) : list (option R) := map (fun p => quotient (fst p) (snd p)) (combine u v).
Definition mul_lists (u v : list R) : list R := map (fun p => fst p * snd p) (combine u v).

(** lines 128-159: (smoothed_field, weights_domains, summaries) *)
Definition compute_tps_weights_subdom (t : tps) (values : list R) : result (list (option R) * list (list R) * list summary) :=
  do rs <- map_result (fun idx => compute_tps_weights_iter (t_threshold t) (take (t_centers t) idx) (take values idx) (t_smoothing_coef t)) (t_indices t) ;
  do _ <- map_result (fun r : list R * list R * summary => match max_udiff (snd r) with None => Err KeyError | Some v => Ok v end) rs ;
  let sum := add_domains (t_indices t) (map (fun p => mul_lists (fst p) (fst (fst (snd p)))) (combine (t_norm_coefs_domains t) rs)) (zeros (List.length (t_centers t))) in
  Ok (quotients sum (t_norm_coefs t), map (fun r : list R * list R * summary => snd (fst r)) rs, map (fun r : list R * list R * summary => snd r) rs).

(** init_with_new_positions followed by interpolate, lines 161-206 and 224-234 *)
Definition interpolate (t : tps) (new_positions : list pos) (weights_domains : list (list R)) : list (option R) :=
  let indices := map (fun d => indices_in d new_positions) (t_domains t) in
  let coefs := map (fun d => map (compute_coef_norm d) (take new_positions (indices_in d new_positions))) (t_domains t) in
  let n := List.length new_positions in
  let norm := add_domains indices coefs (zeros n) in
  let fields := map (fun p : list R * (list nat * list nat) =>
                       let '(weights, (idx_new, idx_centers)) := p in
                       compute_field (take new_positions idx_new) (take (t_centers t) idx_centers) weights)
                    (combine weights_domains (combine indices (t_indices t))) in
  let values := add_domains indices (map (fun p => mul_lists (fst p) (snd p)) (combine coefs fields)) (zeros n) in
  quotients values norm.
End Tps.

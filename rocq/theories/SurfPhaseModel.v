(** Model of the works on the phases in the surface tracking (works/surface_tracking.py): correction of the
    jumps between successive images, conversion to heights.

    The floats are [fl]: real numbers without rounding, infinities and NaN.  An array is the list of its lines. *)
From Coq Require Import Reals ZArith List Bool.
From Verif Require Import PyBase StrModel FloatBase.
Import ListNotations.
Local Open Scope R_scope.

Definition array := list (list fl).

(** [a[i, j]] *)
Definition get2 (a : array) (i j : Z) : result fl := do line <- py_get a i ; py_get line j.

(** ** correctcouple, lines 670-681 *)
Definition fabs (a : fl) : fl := match a with NaN => NaN | PInf | NInf => PInf | Fin x => Fin (Rabs x) end.
(** [np.sign] *)
Definition fsign (a : fl) : fl :=
  match a with
  | NaN => NaN | PInf => Fin 1 | NInf => Fin (-1)
  | Fin x => if Rlt_dec 0 x then Fin 1 else if Rlt_dec x 0 then Fin (-1) else Fin 0
  end.

(** [int(np.fix(n / d / red_factor))], without rounding *)
Definition fix_index (n d red_factor : Z) : Z := Z.quot n (d * red_factor).

(** the loop, lines 677-680; the fuel bounds the number of turns *)
Fixpoint correct_loop (fuel : nat) (fix_y fix_x : Z) (anglemod correct_angle : array) : result array :=
  do a <- get2 correct_angle fix_y fix_x ;
  do m <- get2 anglemod fix_y fix_x ;
  let jump := fsub a m in
  if fltb (Fin PI) (fabs jump) then
    match fuel with
    | O => Err OutOfFuel
    | S fuel' => correct_loop fuel' fix_y fix_x anglemod
                   (map (map (fun v => fsub v (fmul (fmul (fsign jump) (Fin 2)) (Fin PI)))) correct_angle)
    end
  else Ok correct_angle.

Definition correctcouple (fuel : nat) (l_y l_x red_factor : Z) (anglemod angle : array) : result array :=
  correct_loop fuel (fix_index l_y 20 red_factor) (fix_index l_x 2 red_factor) anglemod angle.

(** The chain of the corrections made by the topology (topologies/surface_tracking.py:221-255, 312-317; the
    order of the calls is the subject of SurfRunProps.v): each image with the corrected angle of the
    image before it. *)
Fixpoint correct_series (fuel : nat) (l_y l_x red_factor : Z) (previous : array) (angles : list array) : result (list array) :=
  match angles with
  | [] => Ok []
  | angle :: rest =>
    do c <- correctcouple fuel l_y l_x red_factor previous angle ;
    do cs <- correct_series fuel l_y l_x red_factor c rest ;
    Ok (c :: cs)
  end.

(** ** convphase, lines 603-668 *)
Record phase_conf := mk_pconf {
  p_pix_size : R; p_dist : R; p_dist_p_c : R; p_wave_len : R; p_red_factor : Z;
  p_correct_pos : bool; p_correct_height : bool }.

(** line 640 *)
Definition height_of (c : phase_conf) (phase : fl) : fl :=
  fdiv (fmul phase (Fin (p_dist c))) (fsub phase (Fin (2 * PI / p_wave_len c * p_dist_p_c c))).

(** lines 644-645 *)
Definition coord (c : phase_conf) (n i : nat) : R := (INR i - INR n / 2) * p_pix_size c * IZR (p_red_factor c).

Definition zeros_like (line : list fl) : list fl := map (fun _ => Fin 0) line.
(** [a[i, :] = 0], [a[:, j] = 0], [a[:-1] = 0] *)
Definition zero_line (i : Z) (a : array) : result array := py_update a i zeros_like.
Definition zero_column (j : Z) (a : array) : result array := map_result (fun line => py_update line j (fun _ => Fin 0)) a.
Definition zero_but_last (a : array) : array :=
  map (fun '(i, line) => if (i <? List.length a - 1)%nat then zeros_like line else line) (combine (seq 0 (List.length a)) a).
(** lines 650-653 and 654-657 *)
Definition zero_edges (a : array) : result array :=
  do a <- zero_line 1 a ; do a <- zero_line (-1) a ; do a <- zero_column 1 a ; Ok (zero_but_last a).

Definition map2 {A B C} (f : A -> B -> C) (l : list A) (m : list B) : list C := map (fun p => f (fst p) (snd p)) (combine l m).

Section Conv.
(** [scipy.interpolate.griddata((x, y), values, (X, Y), method="cubic")], external *)
Variable griddata : list (fl * fl) -> list fl -> list (list (fl * fl)) -> result array.

Definition convphase (c : phase_conf) (ref_height phase : array) : result array :=
  let height := map (map (height_of c)) phase in
  do height <-
    (if p_correct_pos c then
       let ld := List.length phase in
       let Ld := match phase with line :: _ => List.length line | [] => O end in
       let X := map (fun i => map (fun j => Fin (coord c Ld j)) (seq 0 Ld)) (seq 0 ld) in
       let Y := map (fun i => map (fun j => Fin (coord c ld i)) (seq 0 Ld)) (seq 0 ld) in
       let scaled := map2 (map2 (fun x h => fmul (fdiv (fneg x) (Fin (p_dist c))) h)) in
       do dX <- zero_edges (scaled X height) ;
       do dY <- zero_edges (scaled Y height) ;
       griddata (combine (List.concat (map2 (map2 fadd) X dX)) (List.concat (map2 (map2 fadd) Y dY)))
                (List.concat height) (map2 (@combine fl fl) X Y)
     else Ok height) ;
  if p_correct_height c then
    if (List.length height =? List.length ref_height)%nat &&
       forallb (fun p => (List.length (fst p) =? List.length (snd p))%nat) (combine height ref_height)
    then Ok (map2 (map2 fsub) height ref_height)
    else Err ValueError                                  (* shapes, without broadcasting *)
  else Ok height.

(** ** calculheight_func, lines 488-569 *)
Definition bound95 : fl := Fin (95 / 100 * PI).
Definition OverflowError : exn := UserError 62.
(** [np.sign(int(x))] *)
Definition sign_int (x : fl) : result Z :=
  match x with
  | NaN => Err ValueError
  | PInf | NInf => Err OverflowError
  | Fin r => Ok (if Rle_dec 1 r then 1 else if Rle_dec r (-1) then -1 else 0)%Z
  end.

(** the differences of the neighbours *)
Fixpoint differences (a : list fl) : list fl :=
  match a with x :: (y :: _) as rest => fsub y x :: differences rest | _ => [] end.
(** the condition of the comprehension, lines 510-511 *)
Definition compared (d : fl) : bool := fltb bound95 d || fltb d bound95.
Definition jumps (a : list fl) : result (list Z) := map_result sign_int (filter compared (differences a)).

(** lines 514-528 ([scaled]: first pass, multiplied by the switch) *)
Fixpoint smoother_loop (scaled : bool) (switch : Z) (js : list Z) : list fl :=
  match js with
  | [] => []
  | j :: rest =>
    let switch := if (0 <? j)%Z then (switch + 1)%Z else switch in
    let switch := if (j <? 0)%Z then (switch - 1)%Z else switch in
    let val := Fin 0 in
    let val := if (1 <=? switch)%Z then Fin (-2 * PI * (if scaled then IZR switch else 1)) else val in
    let val := if (switch <=? -1)%Z then Fin (2 * PI * (if scaled then IZR switch else 1)) else val in
    val :: smoother_loop scaled switch rest
  end.

(** [a + smoother] with numpy's broadcasting (one of them of length 1) *)
Definition add_line (a b : list fl) : result (list fl) :=
  if (List.length a =? List.length b)%nat then Ok (map2 fadd a b)
  else match a, b with
       | _, [y] => Ok (map (fun x => fadd x y) a)
       | [x], _ => Ok (map (fadd x) b)
       | _, _ => Err ValueError
       end.
Definition smooth (scaled : bool) (a : list fl) : result (list fl) :=
  do js <- jumps a ; add_line a (Fin 0 :: smoother_loop scaled 0 js).

(** [array_s.T] *)
Definition columns (a : array) : array :=
  match a with [] => [] | line :: _ => map (fun j => map (fun l => nth j l NaN) a) (seq 0 (List.length line)) end.

(** line 558: [array_s = array], the smoothed arrays are not used *)
Definition calculheight (c : phase_conf) (ref_height phase : array) : result array :=
  do array_s <- map_result (smooth true) phase ;
  do _ <- map_result (smooth false) (columns array_s) ;
  convphase c ref_height phase.

(** ** process_ref, lines 702-714, from the phases of the reference frame *)
Definition process_ref (c : phase_conf) (offset : R) (ref_angle : array) : result array :=
  let ref_height := map zeros_like ref_angle in
  do h <- calculheight c ref_height ref_angle ;
  Ok (map (map (fun v => fsub v (Fin offset))) h).
End Conv.

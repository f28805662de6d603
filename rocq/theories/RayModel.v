(** calibration/calib_direct.py:43-252: optical paths of the pixels, from the points of the calibration images.

    Simplifications: exact real numbers; the interpolators of one level for x and y are made from the same points, they are NaN
    at the same pixels: a level gives a point or nothing.  [np.linalg.svd] (its third result), the interpolation functions of
    SciPy and the conversion of the texts into numbers are parameters.  [np.argsort] is modelled by an insertion sort. *)
From Coq Require Import Reals.
From Verif Require Import PyBase StrModel MonitorJobModel CalibModel.
Local Open Scope R_scope.

(** *** get_points, lines 43-70 *)

(** ["text" in s] *)
Fixpoint contains (w s : chars) : bool :=
  starts w s || match s with [] => false | _ :: s' => contains w s' end.

(** an attribute of the container: its name and its text *)
Section Points.
Variable numbers_of : chars -> result (list R).                (* get_number_from_string, util.py:13-14 *)

(** [points.sort()]: by names *)
Fixpoint insert_entry (e : chars * chars) (l : list (chars * chars)) : list (chars * chars) :=
  match l with [] => [e] | f :: l' => if str_le (fst e) (fst f) then e :: l else f :: insert_entry e l' end.
Definition sort_entries (l : list (chars * chars)) := fold_right insert_entry [] l.

(** lines 57-61: the five lists *)
Fixpoint read_points (l : list (chars * chars)) : result (list (R * R * R * R * R)) :=
  match l with
  | [] => Ok []
  | (_, text) :: l' =>
    do numbers <- numbers_of text ;
    match numbers with
    | X :: Y :: Z :: x :: y :: _ => do rest <- read_points l' ; Ok ((X, Y, Z, x, y) :: rest)
    | _ => Err IndexError
    end
  end.
(** result: the lists X, Y, x, y as one list of tuples (X, Y, (x, y)), and Z *)
Definition get_points (entries : list (chars * chars)) : result (list (R * R * (R * R)) * R) :=
  let points := filter (fun e => contains (of_string "point_") (fst e) || contains (of_string "Point") (fst e)) entries in
  do rows <- read_points (sort_entries points) ;
  match rows with
  | [] => Err IndexError                                       (* results[2][0] *)
  | (_, _, Z, _, _) :: _ => Ok (map (fun '(X, Y, _, x, y) => (X / 100, Y / 100, (x, y))) rows, Z / 100)
  end.
End Points.

(** *** pixel2line, lines 219-252 *)

Definition sub3 (a b : vec3) : vec3 := (v0 a - v0 b, v1 a - v1 b, v2 a - v2 b).
Definition neg3 (a : vec3) : vec3 := (- v0 a, - v1 a, - v2 a).
Fixpoint insert_row (p : vec3) (l : list vec3) : list vec3 :=
  match l with [] => [p] | q :: l' => if Rle_dec (v2 p) (v2 q) then p :: l else q :: insert_row p l' end.
Definition sort_rows (l : list vec3) : list vec3 := fold_right insert_row [] l.

(** a level: the point (X, Y) given by the interpolators for the pixel (None: NaN) and the height Z of the level *)
Definition level : Type := option (R * R) * R.
Definition valid_points (levels : list level) : list vec3 :=
  flat_map (fun '(p, z) => match p with Some (x, y) => [(x, y, z)] | None => [] end) levels.

Section Line.
Variable svd : list vec3 -> vec3 * vec3 * vec3.               (* the lines of the matrix v *)

Definition pixel2line (levels : list level) : option (vec3 * vec3) :=
  let points := valid_points levels in
  (* np.nanmean: the heights have no NaN *)
  let XYZ0 := (mean (map v0 points), mean (map v1 points), mean (map snd levels)) in
  let XYZ := map (fun p => sub3 p XYZ0) points in
  if (1 <? List.length XYZ)%nat then
    let XYZ := sort_rows XYZ in
    let '(_, b, c) := svd XYZ in
    let direction := cross c b in
    let direction := if Rlt_dec (v2 direction) 0 then neg3 direction else direction in
    Some (XYZ0, direction)
  else None.
End Line.

(** *** compute_interpolents_pixel2line, lines 144-217 *)
Section Grid.
Variable line_of : R * R -> option (vec3 * vec3).              (* pixel2line for a node of the grid *)
Variable griddata : list (R * R) -> list R -> list (R * R) -> list (option R).

(** the six numbers of a line *)
Definition six (l : vec3 * vec3) : list R := let '((a, b, c), (d, e, f)) := l in [a; b; c; d; e; f].

(** lines 172-185: the nodes with and without line *)
Definition trues (nodes : list (R * R)) : list ((R * R) * list R) :=
  flat_map (fun n => match line_of n with Some l => [(n, six l)] | None => [] end) nodes.
Definition falses (nodes : list (R * R)) : list (R * R) :=
  filter (fun n => match line_of n with Some _ => false | None => true end) nodes.

(** [vtrue[:, j]]: IndexError if there is no line at all (array of dimension 1) *)
Definition column (vtrue : list (list R)) (j : nat) : result (list R) :=
  match vtrue with
  | [] => Err IndexError
  | _ => Ok (map (fun l => nth j l 0) vtrue)
  end.

(** [V[:, :, j]] as a list over the nodes: [V[indi, indj, j] = griddata(...)] *)
Fixpoint fill (j : nat) (nodes : list (R * R)) (answers : list (option R)) : list (option R) :=
  match nodes with
  | [] => []
  | n :: nodes' =>
    match line_of n with
    | Some l => Some (nth j (six l) 0) :: fill j nodes' answers
    | None => match answers with a :: answers' => a :: fill j nodes' answers' | [] => None :: fill j nodes' [] end
    end
  end.
Definition grid_component (nodes : list (R * R)) (j : nat) : result (list (option R)) :=
  let t := trues nodes in
  do values <- column (map snd t) j ;
  Ok (fill j nodes (griddata (map fst t) values (falses nodes))).
(** the six arrays given to RegularGridInterpolator *)
Definition grid_lines (nodes : list (R * R)) : result (list (list (option R))) :=
  map_result (grid_component nodes) (seq 0 6).
End Grid.

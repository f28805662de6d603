(** Model of the works on the frames in the surface tracking (works/surface_tracking.py): borders of the
    plate, embedding in the reference frame, normalisation, zero on the borders.

    The pixels are rational numbers (no rounding).  A frame is the list of its lines.  The
    Fourier transforms and the unwrapping, which only take the normalised frame, are not modelled. *)
From Coq Require Import QArith Qround.
From Verif Require Import PyBase StrModel ToolboxModel.
Open Scope Z_scope.

Definition frame := list (list Q).
Definition width (f : frame) : nat := match f with line :: _ => List.length line | [] => O end.

(** ** get_borders, lines 313-335 *)

(** [np.argmax] of a line of 0 and 1: the first 1, else 0 *)
Fixpoint first_true (l : list bool) (i : Z) : Z :=
  match l with [] => 0 | b :: l' => if b then i else first_true l' (i + 1) end.
Definition argmax01 (l : list bool) : result Z :=
  match l with [] => Err ValueError | _ => Ok (first_true l 0) end.

Fixpoint insert_z (x : Z) (l : list Z) : list Z :=
  match l with [] => [x] | y :: l' => if x <=? y then x :: l else y :: insert_z x l' end.
Definition sort_z (l : list Z) : list Z := fold_right insert_z [] l.
(** twice [np.median]: the sum of the two middle values (twice the same for an odd length).  The median
    of nothing is NaN and [int] of it raises ValueError (line 335). *)
Definition twice_median (l : list Z) : result Z :=
  match l with
  | [] => Err ValueError
  | _ => let s := sort_z l in
         let n := List.length l in
         Ok (nth ((n - 1) / 2) s 0 + nth (n / 2) s 0)
  end.

Definition get_borders (thres : Q) (f : frame) : result (Z * Z) :=
  let frame_thres := map (map (fun p => qlt thres p)) f in
  do a <- map_result argmax01 frame_thres ;
  do xmin2 <- twice_median a ;
  do b <- map_result (fun line => argmax01 (rev line)) frame_thres ;
  do b_med2 <- twice_median b ;
  Ok (Z.quot xmin2 2, Z.quot (2 * Z.of_nat (width f) - b_med2) 2).

(** ** numpy: [line[a:b] = values] on each line (with the check of the sizes) *)
Definition set_slice {A} (line : list A) (a b : Z) (values : list A) : result (list A) :=
  let n := zlen line in
  let a' := norm_bound n a in
  let b' := Z.max a' (norm_bound n b) in
  let put vs := Ok (firstn (Z.to_nat a') line ++ vs ++ skipn (Z.to_nat b') line) in
  if zlen values =? b' - a' then put values
  else match values with [v] => put (repeat v (Z.to_nat (b' - a'))) | _ => Err ValueError end.

(** [calc[:, a:b] = values]: the same number of lines, or one line of values *)
Definition set_columns {A} (calc : list (list A)) (a b : Z) (values : list (list A)) : result (list (list A)) :=
  let put vs := map_result (fun '(line, v) => set_slice line a b v) (combine calc vs) in
  if zlen values =? zlen calc then put values
  else match values with [v] => put (repeat v (List.length calc)) | _ => Err ValueError end.

(** ** The parameters and attributes of the work (lines 196-223) *)
Record surf_conf := mk_conf {
  c_xmin : Z; c_xmax : Z; c_ymin : Z; c_ymax : Z; c_borders : Z; c_crop_edge : bool; c_thres : Q }.

(** ** merge_cropped_frame, lines 337-363: [calc_frame = self.ref] is not a copy, the frame obtained
    becomes the reference. *)
Definition merge_cropped_frame (c : surf_conf) (ref : frame) (f : frame) (x_min x_max : Z) : result frame :=
  let x_max := if c_xmax c <=? x_max then c_xmax c - 1 else x_max in
  let x_min := if x_min <=? c_xmin c then c_xmin c else x_min in
  set_columns ref (x_min - c_xmin c) (- (c_xmax c - x_max))
              (map (fun line => py_slice line x_min x_max) (py_slice f (c_ymin c) (c_ymax c))).

(** ** frame_normalize, lines 387-405 *)
Definition qsum (l : list Q) : Q := fold_right Qplus 0%Q l.
Definition qmean (l : list Q) : Q := (qsum l / inject_Z (zlen l))%Q.

(** line 403: [frame[:, y] = frame[:, y] / meanx_frame], converted to the type of the array.  Where the
    mean is zero numpy gives nan or inf with a warning: here an error (the theorems exclude it). *)
Definition divide_column (d : dtype) (means : list Q) (f : frame) (y : nat) : result frame :=
  map_result (fun '(line, m) =>
    if Qeq_bool m 0 then Err ZeroDivisionError else
    match nth_error line y with
    | None => Err IndexError
    | Some p => do v <- cast d (PyFloat (p / m)) ; Ok (update_nth y (fun _ => v) line)
    end) (combine f means).

(** the array given, as it is left, and the normalized frame *)
Definition frame_normalize (im : img) : result (img * frame) :=
  let meanx_frame := map qmean (px im) in
  do f <- py_for (divide_column (dt im) meanx_frame) (seq 0 (width (px im))) (px im) ;
  let m := qmean (List.concat f) in
  Ok (mk_img (dt im) f, map (map (fun p => (p - m)%Q)) f).

(** ** process_frame_func, lines 453-486, and process_frame until line 445: the reference frame as it is
    left, the array given as it is left (when it is not cropped: its part, a view), and the frame
    given to [rectify_frame], and the shape. *)
Definition process_frame (c : surf_conf) (ref : frame) (array : img) : result (frame * frame * (Z * Z)) :=
  if c_crop_edge c then
    do (x_min, x_max) <- get_borders (c_thres c) (px array) ;
    do calc_frame <- merge_cropped_frame c ref (px array) x_min x_max ;
    do (after, frame1) <- frame_normalize (mk_img F64 calc_frame) ;
    Ok (px after, frame1, (x_min, x_max))
  else
    let part := map (fun line => py_slice line (c_xmin c) (c_xmax c)) (py_slice (px array) (c_ymin c) (c_ymax c)) in
    do (_, frame1) <- frame_normalize (mk_img (dt array) part) ;
    Ok (ref, frame1, (c_xmin c, c_xmax c)).

(** the frames processed one after the other with the same work object *)
Fixpoint process_frames (c : surf_conf) (ref : frame) (arrays : list img) : list (result (frame * (Z * Z))) :=
  match arrays with
  | [] => []
  | array :: rest =>
    match process_frame c ref array with
    | Ok (ref', frame1, shape) => Ok (frame1, shape) :: process_frames c ref' rest
    | Err e => Err e :: process_frames c ref rest
    end
  end.

(** ** set_borders_zero_func, lines 571-601; [resize]: skimage.transform.resize (array, lines,
    columns), external; [h]: the number of lines of [self.ref], it has [xmax - xmin] columns. *)
Section Borders.
Context {A : Type} (zero : A).
Variable resize : list (list A) -> Z -> Z -> result (list (list A)).

Definition set_borders_zero (c : surf_conf) (h : Z) (array : list (list A)) (shape : Z * Z) : result (list (list A)) :=
  let '(x_min, x_max) := shape in
  let x_max := if c_xmax c <=? x_max then c_xmax c - 1 else x_max in
  let newarray := py_repeat (py_repeat zero (c_xmax c - c_xmin c)) h in
  do inside <- resize (map (fun line => py_slice line (x_min + c_borders c - c_xmin c)
                                                 (- (c_xmax c - x_max + c_borders c))) array)
                      h (c_xmax c - 2 * c_borders c - c_xmin c) ;
  set_columns newarray (c_borders c) (- c_borders c) inside.
End Borders.

(** ** __init__ and compute_kx, lines 230-243 and 259-274: the attribute [ref] when [n] reference images
    have been read (normalised frames [frames]); [process_ref] (line 706) reads it. *)
Definition add_frames (a b : frame) : frame := map (fun '(l, m) => map (fun '(p, q) => (p + q)%Q) (combine l m)) (combine a b).
Definition ref_attribute (c : surf_conf) (frames : list frame) : option frame :=
  match frames with
  | [] => None                                           (* line 259-261 *)
  | _ =>
    let zeros := py_repeat (py_repeat 0%Q (c_xmax c - c_xmin c)) (c_ymax c - c_ymin c) in
    Some (map (map (fun p => (p / inject_Z (zlen frames))%Q)) (fold_left add_frames frames zeros))
  end.
Definition read_ref (c : surf_conf) (frames : list frame) : result frame :=
  match ref_attribute c frames with Some ref => Ok ref | None => Err AttributeError end.

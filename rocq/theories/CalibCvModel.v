(** Model of the detection of a target of circles and of the file of a calibration with OpenCV.

    calibration/calib_cv.py:74-157 ([SimpleCircleGrid.detect_all], [detect_grid]) and 188-227,
    240-298 ([CalibCV.__init__], [save], [calibrate]).  The order of the object points is
    modelled in TomoModel.  The numbers are rationals (exact arithmetic). *)
From Verif Require Import PyBase UtilModel.
From Coq Require Import QArith Qround.
Local Open Scope Z_scope.

(** ** detect_grid *)

(** position of a blob in pixels: (x, y) *)
Notation point := (Q * Q)%type.

(** [Bbox.from_bounds(x0, y0, w, h).contains(x, y)] (matplotlib), for positive w and h: the
    edges are inside. *)
Definition bbox_contains (x0 y0 w h : Q) (p : point) : bool :=
  (Qle_bool x0 (fst p) && Qle_bool (fst p) (x0 + w) && Qle_bool y0 (snd p) && Qle_bool (snd p) (y0 + h))%bool.

(** [np.round(centers[..., 1] / ds)] and [np.round(centers[..., 0] / ds)]
    (calib_cv.py:136-137): numpy rounds the halves to the even integers.  [ds] is not zero. *)
Definition grid_key (ds : Q) (p : point) : Z * Z :=
  (round_half_even (snd p / ds), round_half_even (fst p / ds)).

(** [np.lexsort((xround, yround))] (line 139): by yround, then by xround; stable. *)
Definition key_leb (a b : Z * Z) : bool :=
  (fst a <? fst b) || ((fst a =? fst b) && (snd a <=? snd b)).
Fixpoint insert_point (ds : Q) (p : point) (l : list point) : list point :=
  match l with
  | [] => [p]
  | q :: l' => if key_leb (grid_key ds p) (grid_key ds q) then p :: l else q :: insert_point ds p l'
  end.
Definition lexsort (ds : Q) (l : list point) : list point := fold_right (insert_point ds) [] l.

(** calib_cv.py:91-156; [keypoints]: the positions given by [self.detector.detect(image)].
    [np.array([])[..., 0]] is an IndexError.  The debug figures are not modelled, nor the
    conversion to float32. *)
Definition detect_grid (keypoints : list point) (origin : point) (nx ny : Z) (ds : Q) : result (list point) :=
  match keypoints with
  | [] => Err ValueError
  | _ =>
    let w := (inject_Z (nx + 1) * ds)%Q in
    let h := (inject_Z (ny + 1) * ds)%Q in
    let x0 := (fst origin - inject_Z (Qfloor (w / 2)))%Q in
    let y0 := (snd origin - inject_Z (Qfloor (h / 2)))%Q in
    let centers := filter (bbox_contains x0 y0 w h) keypoints in
    match centers with
    | [] => Err IndexError
    | _ =>
      let centers := lexsort ds centers in
      if zlen centers =? nx * ny then Ok centers else Err AssertionError
    end
  end.

(** ** The file of a calibration *)
Section File.
(** what [cv2.calibrateCamera] gives (with the list of the z) *)
Variable A : Type.

(** a path: [os.path.dirname] is empty or not, and the rest identifies the path *)
Record path := mk_path { has_dirname : bool; path_id : Z }.

(** an object CalibCV: [path_file] and [params] (an attribute which may not exist) *)
Record calib_cv := mk_calib_cv { cv_path : path; cv_params : option A }.

(** the files: content of the paths *)
Definition files := Z -> option A.

(** [CalibCV(path_file)] (calib_cv.py:195-201) *)
Definition new_calib_cv (fs : files) (p : path) : calib_cv := mk_calib_cv p (fs (path_id p)).

(** [save] (203-224): [self.params] is set first; [os.makedirs("")] is a FileNotFoundError (the
    other errors of the file system are not modelled); an existing file is not changed *)
Definition save (fs : files) (c : calib_cv) (a : A) : files * calib_cv * option exn :=
  let c' := mk_calib_cv (cv_path c) (Some a) in
  if negb (has_dirname (cv_path c)) then (fs, c', Some FileNotFoundError)
  else match fs (path_id (cv_path c)) with
       | Some _ => (fs, c', None)
       | None => (fun i => if i =? path_id (cv_path c) then Some a else fs i, c', None)
       end.

(** [calibrate(..., debug)] (240-298) whose computation gives [a] *)
Definition calibrate (debug : bool) (fs : files) (c : calib_cv) (a : A) : files * calib_cv * option exn :=
  if debug then (fs, c, None) else save fs c a.

(** the calibrations made one after the other with objects created for each of them *)
Fixpoint calibrations (fs : files) (l : list (path * bool * A)) : files :=
  match l with
  | [] => fs
  | (p, debug, a) :: l => calibrations (fst (fst (calibrate debug fs (new_calib_cv fs p) a))) l
  end.
End File.
Arguments mk_calib_cv {A}. Arguments cv_path {A}. Arguments cv_params {A}. Arguments new_calib_cv {A}.
Arguments save {A}. Arguments calibrate {A}. Arguments calibrations {A}.

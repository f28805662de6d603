(** The toolbox of preprocessing: works/preproc/toolbox.py, works/preproc/io.py and the tools
    of works/preproc/_toolbox_py.py written in this repository (the filters of scipy and the
    functions of skimage are parameters).

    Pixels are rational numbers, together with the dtype of the array.  Float arithmetic is
    exact; integer arithmetic wraps as in numpy. *)
From Coq Require Export QArith Qround.
From Verif Require Import PyBase StrModel.
Open Scope Z_scope.

Inductive dtype := U8 | U16 | I32 | F64.

Record img := mk_img { dt : dtype; px : list (list Q) }.

(** what a tool can receive: a 2d ndarray, a 3d ndarray or a list of 2d ndarrays *)
Inductive arr :=
| One (im : img)
| Stack (d : dtype) (l : list (list (list Q)))
| Seq (l : list img).

Definition to_f64 (im : img) : img := mk_img F64 (px im).

Definition shape2 (p : list (list Q)) : nat * nat :=
  (List.length p, match p with l :: _ => List.length l | [] => O end).
Definition shape_eqb (a b : nat * nat) : bool :=
  Nat.eqb (fst a) (fst b) && Nat.eqb (snd a) (snd b).

(** ** io.py *)

(** the images enumerated by the loop of io.py:60 *)
Definition images_of_arr (a : arr) : list img :=
  match a with
  | One im => [im] (* not used: 2d arrays are not enumerated *)
  | Stack d l => map (mk_img d) l
  | Seq l => l
  end.

(** numpy can make a 3d array of these images *)
Definition homogeneous (l : list img) : bool :=
  match l with
  | [] => true
  | im :: l' => forallb (fun im' => shape_eqb (shape2 (px im')) (shape2 (px im))) l'
  end.

(** io.py:46-64, [iterate_multiple_imgs]: [np.empty_like] of a list of images of different
    shapes raises ValueError; so does the assignment of a result of another shape (the
    broadcasting of results with sizes equal to 1 is not modelled: the tools keep the shape). *)
Definition iterate_multiple_imgs (tool : img -> result img) (a : arr) : result arr :=
  match a with
  | One im => do r <- tool im ; Ok (One r)
  | _ =>
    if homogeneous (images_of_arr a) then
      do outs <- map_result (fun im =>
                   do r <- tool im ;
                   if shape_eqb (shape2 (px r)) (shape2 (px im)) then Ok (px r) else Err ValueError)
                 (images_of_arr a) ;
      Ok (Stack F64 outs)
    else Err ValueError
  end.

(** [np.array(list)]: the common dtype *)
Definition promote (a b : dtype) : dtype :=
  match a, b with
  | F64, _ | _, F64 => F64
  | I32, _ | _, I32 => I32
  | U16, _ | _, U16 => U16
  | U8, U8 => U8
  end.
Definition common_dtype (l : list img) : dtype :=
  match l with
  | [] => F64
  | im :: l' => fold_left (fun d im => promote d (dt im)) l' (dt im)
  end.

(** io.py:67-83, [multiple_imgs_as_ndarray]; the tool receives an ndarray (2d or 3d).  For a list
    the result is a list again. *)
Definition multiple_imgs_as_ndarray (tool : arr -> result arr) (a : arr) : result arr :=
  match a with
  | Stack _ _ => tool a
  | One _ => tool a
  | Seq l =>
    if homogeneous l then
      do r <- tool (Stack (common_dtype l) (map px l)) ;
      match r with
      | Stack d out => Ok (Seq (map (mk_img d) out))
      | r => Ok r
      end
    else Err ValueError
  end.

(** ** toolbox.py *)
Section Apply.
Variable value : Type.                    (* values of the parameters *)
Variable truth : value -> bool.           (* [bool(value)] *)
Variable false_value : value.             (* [False] *)

Definition attribs := list (chars * value).
Definition name_eqb (a b : chars) : bool :=
  if list_eq_dec Ascii.ascii_dec a b then true else false.
Fixpoint lookup {B} (k : chars) (l : list (chars * B)) : option B :=
  match l with
  | [] => None
  | (k', v) :: l' => if name_eqb k k' then Some v else lookup k l'
  end.

Record tools_params := mk_tools {
  available_tools : list chars;
  sequence : option (list chars);
  children : list (chars * attribs) }.

Definition enable : chars := of_string "enable".

(** toolbox.py:34-57, [create_default_params]: [signature] gives the names and default values of
    the arguments of each function.  The documentations are not modelled. *)
Definition dict_update (l : attribs) (k : chars) (v : value) : attribs :=
  filter (fun kv => negb (name_eqb (fst kv) k)) l ++ [(k, v)].
Definition create_default_params (all_tools : list chars) (signature : chars -> attribs) : tools_params :=
  mk_tools all_tools None
    (map (fun tool =>
        (tool, dict_update (filter (fun kv => negb (name_eqb (fst kv) (of_string "img"))) (signature tool))
                 enable false_value))
       all_tools).

(** calls of the tools: [cls.__dict__[tool](img, **kwargs)] for the tools of the class *)
Variable class_dict : list chars.
Variable call : chars -> attribs -> arr -> result arr.

(** toolbox.py:108-117, one step of the loop *)
Definition apply_tool (ps : tools_params) (im : arr) (tool : chars) : result arr :=
  match lookup tool (children ps) with
  | None => Err AttributeError
  | Some tool_params =>
    match lookup enable tool_params with
    | None => Err AttributeError
    | Some e =>
      if truth e then
        let kwargs := filter (fun kv => negb (name_eqb (fst kv) enable)) tool_params in
        if existsb (name_eqb tool) class_dict then call tool kwargs im else Err KeyError
      else Ok im
    end
  end.
Fixpoint py_loop {S A} (f : S -> A -> result S) (l : list A) (s : S) : result S :=
  match l with
  | [] => Ok s
  | a :: l' => do s' <- f s a ; py_loop f l' s'
  end.

(** toolbox.py:92-119, [apply] *)
Definition apply (ps : tools_params) (im : arr) : result arr :=
  let seq := match sequence ps with None => available_tools ps | Some s => s end in
  py_loop (apply_tool ps) seq im.
End Apply.

(** ** _toolbox_py.py *)

(** limits of the integer dtypes *)
Definition iinfo (d : dtype) : option (Z * Z) :=
  match d with
  | U8 => Some (0, 255)
  | U16 => Some (0, 65535)
  | I32 => Some (-2147483648, 2147483647)
  | F64 => None
  end.

(** a Python scalar given by the user *)
Inductive scalar := PyInt (n : Z) | PyFloat (q : Q).
Definition qval (s : scalar) : Q := match s with PyInt n => inject_Z n | PyFloat q => q end.

Definition truncate (q : Q) : Z := if Qlt_le_dec q 0 then - Qfloor (- q) else Qfloor q.

(** a value assigned to a pixel: a float is truncated in an array of ints; a value out of the
    limits raises OverflowError (code 62; numpy raises for Python ints; for floats out of the limits
    the C cast is undefined: we also give the error) *)
Definition OverflowError : exn := UserError 62.
Definition cast (d : dtype) (s : scalar) : result Q :=
  match iinfo d with
  | None => Ok (qval s)
  | Some (lo, hi) =>
    let n := match s with PyInt n => n | PyFloat q => truncate q end in
    if (lo <=? n) && (n <=? hi) then Ok (inject_Z n) else Err OverflowError
  end.

Definition qlt (a b : Q) : bool := if Qlt_le_dec a b then true else false.

(** [img_out[img_out < bound] = bound] and [img_out[img_out > bound] = bound]: the value is
    converted even if no pixel is selected *)
Definition assign_where (test : Q -> bool) (d : dtype) (s : scalar) (p : list (list Q)) : result (list (list Q)) :=
  do v <- cast d s ; Ok (map (map (fun q => if test q then v else q)) p).

(** _toolbox_py.py:265-289, [global_threshold] *)
Definition global_threshold (minima : scalar) (maxima : option scalar) (im : img) : result img :=
  let maxima := match maxima with
                | Some m => m
                | None => match iinfo (dt im) with
                          | None => PyInt 65535
                          | Some (_, hi) => PyInt hi
                          end
                end in
  do p1 <- assign_where (fun q => qlt q (qval minima)) (dt im) minima (px im) ;
  do p2 <- assign_where (fun q => qlt (qval maxima) q) (dt im) maxima p1 ;
  Ok (mk_img (dt im) p2).

(** numpy arithmetic of [img - weight * background] where the background has the dtype of the
    image: with a Python float everything is float64, with a Python int the integers wrap
    (OverflowError if the weight itself is out of the limits of the dtype). *)
Definition wrap (d : dtype) (n : Z) : Z :=
  match iinfo d with
  | None => n
  | Some (lo, hi) => lo + (n - lo) mod (hi - lo + 1)
  end.
Definition subtract_px (d : dtype) (w : scalar) (q b : Q) : Q :=
  match d, w with
  | F64, _ => q - qval w * b
  | _, PyFloat x => q - x * b
  | _, PyInt n => inject_Z (wrap d (truncate q - wrap d (n * truncate b)))
  end%Q.
Definition sub_dtype (d : dtype) (w : scalar) : dtype :=
  match w with PyFloat _ => F64 | PyInt _ => d end.
Definition weight_ok (d : dtype) (w : scalar) : bool :=
  match w, iinfo d with
  | PyInt n, Some (lo, hi) => (lo <=? n) && (n <=? hi)
  | _, _ => true
  end.
Definition zip_px (f : Q -> Q -> Q) (p b : list (list Q)) : list (list Q) :=
  map (fun '(l, m) => map (fun '(x, y) => f x y) (combine l m)) (combine p b).
Definition subtract (d : dtype) (w : scalar) (p b : list (list Q)) : result img :=
  if weight_ok d w then Ok (mk_img (sub_dtype d w) (zip_px (subtract_px d w) p b))
  else Err OverflowError.

(** _toolbox_py.py:66-155, [sliding_median], [sliding_percentile], [sliding_minima]: they differ by
    the filter of scipy.ndimage, a function of the image. *)
Definition sliding (background : img -> list (list Q)) (w : scalar) (im : img) : result img :=
  do r <- subtract (dt im) w (px im) (background im) ;
  Ok (mk_img (dt r) (map (map (fun q => if qlt q 0 then 0%Q else q)) (px r))).

(** the argument [window_shape] *)
Inductive window :=
| WNone | WInt (n : Z) | WTuple (l : list Z) | WList (l : list Z) | WOther.

(** _toolbox_py.py:163-185, [_calcul_windowshape] for the shape of the array.  [tuple + list]
    raises TypeError; [window_shape[0]] of an empty tuple raises IndexError. *)
Definition calcul_windowshape (arr_shape : list Z) (w : window) : result (list Z) :=
  do nb_imgs <- py_get arr_shape 0 ;
  if (zlen arr_shape <=? 2) || (nb_imgs <=? 1) then Err ValueError
  else match w with
       | WNone => Ok [nb_imgs; 1; 1]
       | WInt n => Ok [n; 1; 1]
       | WOther => Err ValueError
       | WTuple [a; b] => Ok [nb_imgs; a; b]
       | WList [_; _] => Err TypeError
       | WTuple l | WList l =>
         do first <- py_get l 0 ;
         if first <=? 1 then Err ValueError else Ok l
       end.

(** _toolbox_py.py:189-256, [temporal_median], [temporal_percentile], [temporal_minima]: no clipping.
    [background] is the filter of scipy.ndimage with the size; the filter raises RuntimeError if
    the size has not three numbers. *)
Definition shape_of (a : arr) : list Z :=
  match a with
  | One im => [Z.of_nat (fst (shape2 (px im))); Z.of_nat (snd (shape2 (px im)))]
  | Stack _ l =>
    [zlen l; match l with p :: _ => Z.of_nat (fst (shape2 p)) | [] => 0 end;
     match l with p :: _ => Z.of_nat (snd (shape2 p)) | [] => 0 end]
  | Seq l => []
  end.
Definition temporal (background : list Z -> dtype -> list (list (list Q)) -> list (list (list Q)))
    (w : scalar) (win : window) (a : arr) : result arr :=
  do size <- calcul_windowshape (shape_of a) win ;
  match a with
  | Stack d l =>
    if negb (zlen size =? 3) then Err RuntimeError
    else if weight_ok d w then
      Ok (Stack (sub_dtype d w)
            (map (fun '(p, b) => zip_px (subtract_px d w) p b) (combine l (background size d l))))
    else Err OverflowError
  | _ => Err ValueError (* unreachable: calcul_windowshape refuses 2d arrays *)
  end.

(** Model of works/piv/multipass.py (WorkPIV.__init__ and WorkPIV.calcul) and of the initialisation of the works of
    each pass (works/piv/singlepass.py).  Numbers (integers and floats) are exact rationals: no rounding. *)
From Coq Require Export QArith Qcanon.
From Verif Require Import PyBase.
Local Open Scope Z_scope.

(** a size or a coefficient: python integer or float *)
Notation num := Qc (only parsing).
Definition of_Z (z : Z) : num := Q2Qc (inject_Z z).
(** [int(x)]: truncation towards zero *)
Definition to_int (x : num) : Z := Z.quot (Qnum (this x)) (Zpos (Qden (this x))).
Definition num_ltb (a b : num) : bool := negb (Qle_bool (this b) (this a)).
(** [a / b] *)
Definition true_div (a b : num) : result num := if Qc_eq_dec b (of_Z 0) then Err ZeroDivisionError else Ok (a / b)%Qc.

(** [params.piv0.shape_crop_im0], [params.piv0.shape_crop_im1]: python integer, numpy integer, tuple or list, None, other *)
Inductive shape_arg := SInt (n : Z) | SNumpyInt (n : Z) | SSeq (l : list num) | SNone | SOther.

(** BaseWorkPIV._init_shape_crop (singlepass.py lines 52-87); numpy integers are accepted *)
Definition one_shape_single (s : shape_arg) : result (num * num) :=
  match s with
  | SInt n | SNumpyInt n => Ok (of_Z n, of_Z n)
  | SSeq [n0; n1] => Ok (n0, n1)
  | _ => Err NotImplementedError
  end.
Definition ints (s : num * num) : Z * Z := (to_int (fst s), to_int (snd s)).
Definition init_shape_crop (im0 im1 : shape_arg) : result ((Z * Z) * (Z * Z)) :=
  let im1 := match im1 with SNone => im0 | _ => im1 end in
  do s0 <- one_shape_single im0 ;
  do s1 <- one_shape_single im1 ;
  if num_ltb (fst s0) (fst s1) || num_ltb (snd s0) (snd s1) then Err ValueError else Ok (ints s0, ints s1).

(** lines 131-151: only python integers *)
Definition one_shape_multi (s : shape_arg) : result (num * num) :=
  match s with
  | SInt n => Ok (of_Z n, of_Z n)
  | SSeq [n0; n1] => Ok (n0, n1)
  | _ => Err NotImplementedError
  end.

(** [params.multipass.coeff_zoom]: an integer, an iterable with a length, something without length (a float) *)
Inductive zoom_arg := ZInt (n : Z) | ZSeq (l : list num) | ZNoLen.

Section Init.
(** [params.piv0.grid.overlap >= 1] *)
Variable overlap_too_large : bool.
(** [self._init_correl()] for the shapes of the windows (it can raise) *)
Variable init_correl : Z * Z -> Z * Z -> result unit.

(** FirstWorkPIV.__init__ (singlepass.py lines 671-682); the work is described by the shapes of its windows *)
Definition first_work (im0 im1 : shape_arg) : result ((Z * Z) * (Z * Z)) :=
  if overlap_too_large then Err ValueError
  else do s <- init_shape_crop im0 im1 ; do _ <- init_correl (fst s) (snd s) ; Ok s.
(** WorkPIVFromDisplacement.__init__ (lines 716-731) *)
Definition next_work (s0 s1 : num * num) : result ((Z * Z) * (Z * Z)) :=
  do s <- init_shape_crop (SSeq [fst s0; snd s0]) (SSeq [fst s1; snd s1]) ; do _ <- init_correl (fst s) (snd s) ; Ok s.

(** lines 154-170 *)
Definition pass_body (coeffs : list num) (st : (num * num) * (num * num) * list ((Z * Z) * (Z * Z))) (i : Z) :
  result ((num * num) * (num * num) * list ((Z * Z) * (Z * Z))) :=
  let '(s0, s1, works) := st in
  do c <- py_get coeffs (i - 1) ;
  do a <- true_div (fst s0) c ; do b <- true_div (snd s0) c ;
  do a' <- true_div (fst s1) c ; do b' <- true_div (snd s1) c ;
  do w <- next_work (a, b) (a', b') ;
  Ok ((a, b), (a', b'), works ++ [w]).

(** WorkPIV.__init__ (lines 107-170): the list of the works *)
Definition init (number : Z) (zoom : zoom_arg) (im0 im1 : shape_arg) : result (list ((Z * Z) * (Z * Z))) :=
  do w0 <- first_work im0 im1 ;
  do coeffs <- match zoom with
               | ZInt c => Ok (py_repeat (of_Z c) (number - 1))
               | ZSeq l => if zlen l =? number - 1 then Ok l else Err ValueError
               | ZNoLen => Err TypeError
               end ;
  let im1 := match im1 with SNone => im0 | _ => im1 end in
  do s0 <- one_shape_multi im0 ;
  do s1 <- one_shape_multi im1 ;
  do st <- py_for (pass_body coeffs) (range_list 1 number 1) (s0, s1, [w0]) ;
  Ok (snd st).
End Init.

(** WorkPIV.calcul (lines 172-190): [piv], [fix]: methods calcul of the works of the passes;
    [interp]: apply_interp of the last pass, InterpError is caught ([None]) *)
Section Calcul.
Context {X : Type}.
Definition calcul (works : list ((X -> result X) * (X -> result X))) (interp : X -> result (option X)) (couple : X) : result (list X) :=
  do st <- py_for (fun st w => let '(x, results) := st in
       do y <- fst w x ; do z <- snd w y ; Ok (z, results ++ [z])) works (couple, []) ;
  let '(x, results) := st in
  do r <- interp x ;
  (* apply_interp completes the result of the last pass, which is already in the list *)
  Ok (match r with Some x' => firstn (List.length results - 1) results ++ [x'] | None => results end).
End Calcul.

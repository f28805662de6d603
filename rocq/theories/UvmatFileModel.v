(** The files for UVmat: data_objects/piv.py:587-602 and 641-707 (MultipassPIVResults.save with out_format "uvmat", _save_as_uvmat).

    External (h5netcdf, numpy): a dimension and a variable are created once; a variable must agree with the sizes of its dimensions, and
    declares those which do not exist; [np.shape] of a list of arrays; the assignment to the selected elements.
    Simplification: a variable which is refused declares no dimension. *)
From Coq Require Import Reals.
From Verif Require Import PyBase FloatBase StrModel NameModel.
Open Scope Z_scope.

Inductive data := D1 (l : list fl) | D2 (rows : list (list fl)).
Record ncfile := mk_nc { dims : list (chars * Z); vars : list (chars * (list chars * data)) }.
Fixpoint lookup {A} (k : chars) (l : list (chars * A)) : option A :=
  match l with [] => None | (k', v) :: l' => if chars_eqb k k' then Some v else lookup k l' end.

(** one pass of the PIV: the attributes read by _save_as_uvmat; [use_tps] is the truth value of params.multipass.use_tps; the attributes
    deltaxs_tps/deltays_tps and deltaxs_smooth/deltays_smooth exist or not (works/piv/singlepass.py:507-531) *)
Record pass := mk_pass { xs : list fl; ys : list fl; deltaxs : list fl; deltays : list fl; correls_max : list fl; use_tps : bool;
  tps : option (list (list fl) * list (list fl)); smooth : option (list fl * list fl) }.

Section Uvmat.
Variable f32 : fl -> fl.     (* rounding to single precision *)
Variable big : R.            (* largest finite number *)

(** [np.nan_to_num] *)
Definition nan_to_num (x : fl) : fl := match x with NaN => Fin 0 | PInf => Fin big | NInf => Fin (- big) | Fin r => Fin r end.

(** h5netcdf: [file.dimensions[d] = n] *)
Definition set_dim (d : chars) (n : Z) (f : ncfile) : result ncfile :=
  match lookup d (dims f) with Some _ => Err ValueError | None => Ok (mk_nc ((d, n) :: dims f) (vars f)) end.
(** [np.shape] of a list of arrays *)
Definition np_shape (rows : list (list fl)) : result (list Z) :=
  match rows with
  | [] => Ok [0]
  | r :: _ => if forallb (fun r' => zlen r' =? zlen r) rows then Ok [zlen rows; zlen r] else Err ValueError
  end.
Definition shape (d : data) : result (list Z) := match d with D1 l => Ok [zlen l] | D2 rows => np_shape rows end.
(** the dimensions of a new variable *)
Fixpoint check_dims (ds : list chars) (sizes : list Z) (known : list (chars * Z)) : result (list (chars * Z)) :=
  match ds, sizes with
  | [], [] => Ok known
  | d :: ds', n :: sizes' =>
    match lookup d known with
    | None => check_dims ds' sizes' ((d, n) :: known)
    | Some m => if m =? n then check_dims ds' sizes' known else Err ValueError
    end
  | _, _ => Err ValueError
  end.
Definition create_variable (name : chars) (ds : list chars) (d : data) (f : ncfile) : result ncfile :=
  match lookup name (vars f) with
  | Some _ => Err ValueError
  | None => do sizes <- shape d ; do known <- check_dims ds sizes (dims f) ; Ok (mk_nc known ((name, (ds, d)) :: vars f))
  end.

(** [tmp[inds] = v]: as many values as selected elements, or one value for all of them *)
Fixpoint put (mask : list bool) (tmp v : list fl) : list fl :=
  match mask, tmp with
  | true :: mask', _ :: tmp' => match v with x :: v' => x :: put mask' tmp' v' | [] => tmp end
  | false :: mask', t :: tmp' => t :: put mask' tmp' v
  | _, _ => tmp
  end.
Definition count (mask : list bool) : nat := List.length (filter (fun b => b) mask).
Definition assign (mask : list bool) (tmp v : list fl) : result (list fl) :=
  if Nat.eqb (List.length v) (count mask) then Ok (put mask tmp v)
  else match v with [x] => Ok (put mask tmp (repeat x (count mask))) | _ => Err ValueError end.

(** the names of the variables and dimensions of the pass [i] *)
Definition civ (i : Z) (s : chars) : chars := of_string "Civ" ++ py_str i ++ of_string "_" ++ s.
Definition nb_vec (i : Z) : chars := of_string "nb_vec_" ++ py_str i.
Definition nb_subdomain (i : Z) : chars := of_string "nb_subdomain_" ++ py_str i.
Definition nb_tps (i : Z) : chars := of_string "nb_tps" ++ py_str i.
Definition nb_vec_tps (i : Z) : chars := of_string "nb_vec_tps_" ++ py_str i.

Definition zeros (p : pass) : list fl := map (fun _ => Fin 0) (deltaxs p).
(** [try: ... except: print(...)]: the steps are done until one raises *)
Definition state : Type := ncfile * list fl.
Fixpoint until_error (steps : list (state -> result state)) (s : state) : state :=
  match steps with [] => s | step :: steps' => match step s with Ok s' => until_error steps' s' | Err _ => s end end.
Definition on_file (k : ncfile -> result ncfile) (s : state) : result state := do f <- k (fst s) ; Ok (f, snd s).
(** piv.py:664-696 *)
Definition tps_steps (i : Z) (p : pass) : list (state -> result state) :=
  let mask := map (fun x => negb (fisnan x)) (deltaxs p) in
  let get_tps := match tps p with Some t => Ok t | None => Err AttributeError end in
  let get_smooth := match smooth p with Some t => Ok t | None => Err AttributeError end in
  [ (fun s => do t <- get_tps ; do sh <- np_shape (fst t) ; do n <- py_get sh 0 ; on_file (set_dim (nb_subdomain i) n) s);
    (fun s => do t <- get_tps ; do sh <- np_shape (fst t) ; do n <- py_get sh 1 ; on_file (set_dim (nb_tps i) n) s);
    (fun s => do v <- get_smooth ; do tmp <- assign mask (snd s) (map f32 (fst v)) ; Ok (fst s, tmp));
    (fun s => on_file (create_variable (civ i (of_string "U_smooth")) [nb_vec i] (D1 (snd s))) s);
    (fun s => do v <- get_smooth ; do tmp <- assign mask (snd s) (map f32 (snd v)) ; Ok (fst s, tmp));
    (fun s => on_file (create_variable (civ i (of_string "V_smooth")) [nb_vec i] (D1 (snd s))) s);
    (fun s => do t <- get_tps ; on_file (create_variable (civ i (of_string "U_tps")) [nb_subdomain i; nb_vec_tps i] (D2 (fst t))) s);
    (fun s => do t <- get_tps ; on_file (create_variable (civ i (of_string "V_tps")) [nb_subdomain i; nb_vec_tps i] (D2 (snd t))) s);
    (fun s => do t <- get_tps ;
       on_file (create_variable (civ i (of_string "NbCentres")) [nb_subdomain i] (D1 (map (fun r => Fin (IZR (zlen r))) (fst t)))) s) ].
(** piv.py:644-707, one turn of the loop *)
Definition save_pass (i : Z) (p : pass) (f : ncfile) : result ncfile :=
  do f <- set_dim (nb_vec i) (zlen (xs p)) f ;
  do f <- create_variable (civ i (of_string "X")) [nb_vec i] (D1 (xs p)) f ;
  do f <- create_variable (civ i (of_string "Y")) [nb_vec i] (D1 (ys p)) f ;
  do f <- create_variable (civ i (of_string "U")) [nb_vec i] (D1 (map nan_to_num (deltaxs p))) f ;
  do f <- create_variable (civ i (of_string "V")) [nb_vec i] (D1 (map nan_to_num (deltays p))) f ;
  let f := if use_tps p then fst (until_error (tps_steps i p) (f, zeros p)) else f in
  do f <- create_variable (civ i (of_string "C")) [nb_vec i] (D1 (correls_max p)) f ;
  let flags := map (fun x => if fisnan x then Fin 1 else Fin 0) (deltaxs p) in
  do f <- create_variable (civ i (of_string "FF")) [nb_vec i] (D1 flags) f ;
  create_variable (civ i (of_string "F")) [nb_vec i] (D1 flags) f.
Fixpoint save_from (i : Z) (l : list pass) (f : ncfile) : result ncfile :=
  match l with [] => Ok f | p :: l' => do f <- save_pass i p f ; save_from (i + 1) l' f end.
(** MultipassPIVResults._save_as_uvmat, piv.py:641-707 *)
Definition save_as_uvmat (passes : list pass) : result ncfile :=
  save_from 1 passes (mk_nc [(of_string "nb_coord", 2); (of_string "nb_bounds", 2)] []).
End Uvmat.

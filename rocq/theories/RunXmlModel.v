(** A computation started from a file: run_from_xml.py (main, modif_params_with_args) and uvmat.py:49-63, 123-137, 188-240
    (the parameters of the PIV taken from the instructions of UVmat).

    Simplifications.  The file has been read by fluiddyn (ParamContainer, tidy_container: external): an attribute which can
    be missing is an [option], read with AttributeError; the numerical values are rational numbers; the text of the root
    (attribute _value_text) is absent or a dictionary.  The printed texts and the logging are not modelled. *)
From Verif Require Import PyBase StrModel UvmatModel FsModel ResultDirModel PassModel.
Local Open Scope Z_scope.

(** the elements Patch2 and Fix1 of the instructions *)
Record patch := mk_patch { sub_domain_size : option Q; field_smooth : option Q; max_diff : option Q }.
Record fix1 := mk_fix1 { min_corr : option Q; max_vel : option Q }.
(** the element ActionInput: [civ1] is the element Civ1, with its SearchBoxSize *)
Record action_input := mk_input {
  civ1 : option (option chars); a_patch2 : option patch; civ2 : bool; a_fix1 : option fix1 }.

(** params.multipass.use_tps *)
Inductive tps := TpsLast | TpsTrue | TpsFalse.

(** the parameters of TopologyPIV which are set from the instructions, and coeff_zoom, shape_crop_im1 *)
Record piv_params := mk_params {
  saving_path : chars; saving_how : chars;
  series_path : chars; p_series : series;
  shape_crop_im0 : Z; shape_crop_im1 : option Z;
  number : Z; coeff_zoom : Z; use_tps : tps;
  subdom_size : Q; smoothing_coef : Q; threshold_tps : Q;
  correl_min : Q; displacement_max : option Q }.

(** the instructions of UVmat: the attributes used *)
Record uvmat := mk_uvmat {
  input_table : chars; output_dir_ext : chars; u_ins : instructions; u_input : action_input }.

(** the attribute _value_text: program, module, class *)
Record value_text := mk_text { t_program : option chars; t_module : option chars; t_class : option chars }.

Section Run.
(** the parameters which are neither params.saving.how nor params.compute_kwargs; the arguments of compute *)
Context {Others Kwargs : Type}.
Variable abspath : chars -> chars.
(** [fluiddyn.util.import_class(module, class)] *)
Variable import_class : chars -> chars -> result unit.

(** the parameters in a file of fluidimage: saving.how can be missing *)
Record fparams := mk_fparams { f_how : option chars; f_others : Others; f_kwargs : option Kwargs }.

(** the file: [x_action]: Action.ActionName *)
Record xml := mk_xml { x_action : option chars; x_text : option value_text; x_uvmat : uvmat; x_params : fparams }.

(** what is computed: the class and its parameters; the arguments of compute ([None]: no argument) *)
Inductive launched := LUvmat (p : piv_params) | LFluid (module class : chars) (p : fparams) (kwargs : option Kwargs).

(** ActionBase.params_from_uvmat_xml, uvmat.py:56-63: the default parameters (multipass.py:59-69, fix.py:34-38,
    singlepass.py:583-596) with the path of the results, "recompute" and the series *)
Definition base_params (t : tidied) (s : series) : piv_params :=
  {| saving_path := path_dir_output t; saving_how := of_string "recompute";
     series_path := path_file_input t; p_series := s;
     shape_crop_im0 := 48; shape_crop_im1 := None;
     number := 1; coeff_zoom := 2; use_tps := TpsLast;
     subdom_size := 200; smoothing_coef := 5; threshold_tps := 3 # 2;
     correl_min := 1 # 5; displacement_max := None |}.

(** ActionPIVFromUvmatXML.params_from_uvmat_xml, uvmat.py:197-226 *)
Definition params_from_uvmat_xml (t : tidied) (u : uvmat) : result piv_params :=
  do s <- set_params_series (u_ins u) ;
  let p := base_params t s in
  let a := u_input u in
  do c1 <- attr (civ1 a) ; do text <- attr c1 ;
  do n0 <- window_size text ;                                             (* 202-206 *)
  do m <- match a_patch2 a with                                           (* 208-213 *)
          | Some p2 =>
            do d <- attr (sub_domain_size p2) ; do c <- attr (field_smooth p2) ; do h <- attr (max_diff p2) ;
            Ok (use_tps p, d, c, h)
          | None => Ok (TpsFalse, subdom_size p, smoothing_coef p, threshold_tps p)
          end ;
  let '(ut, d, c, h) := m in
  let num := if civ2 a then 2 else number p in                            (* 215-216 *)
  do f1 <- attr (a_fix1 a) ; do cmin <- attr (min_corr f1) ;              (* 218-219 *)
  let dmax := match max_vel f1 with Some v => Some v | None => displacement_max p end in (* 221-224 *)
  Ok {| saving_path := saving_path p; saving_how := saving_how p; series_path := series_path p; p_series := p_series p;
        shape_crop_im0 := n0; shape_crop_im1 := shape_crop_im1 p; number := num; coeff_zoom := coeff_zoom p; use_tps := ut;
        subdom_size := d; smoothing_coef := c; threshold_tps := h; correl_min := cmin; displacement_max := dmax |}.

(** run_from_xml.py:36-41: modif_params_with_args *)
Definition with_how (h : chars) (p : piv_params) : piv_params :=
  {| saving_path := saving_path p; saving_how := h; series_path := series_path p; p_series := p_series p;
     shape_crop_im0 := shape_crop_im0 p; shape_crop_im1 := shape_crop_im1 p; number := number p; coeff_zoom := coeff_zoom p;
     use_tps := use_tps p; subdom_size := subdom_size p; smoothing_coef := smoothing_coef p; threshold_tps := threshold_tps p;
     correl_min := correl_min p; displacement_max := displacement_max p |}.
Definition modif_uvmat (mode : option chars) (p : piv_params) : piv_params :=
  match mode with Some m => with_how m p | None => p end.
Definition modif_fluid (mode : option chars) (p : fparams) : fparams :=
  match mode with
  | Some m => {| f_how := match f_how p with Some _ => Some m | None => None end; f_others := f_others p; f_kwargs := f_kwargs p |}
  | None => p
  end.

(** uvmat.py:234-240: the actions *)
Definition actions_classes : list chars := [of_string "civ_series"].
Definition supported_programs : list chars := [of_string "uvmat"; of_string "fluidimage"].

(** run_from_xml.py:44-107, main, up to action.compute.  [params.action.action_name], line 79, is ActionName once tidied. *)
Definition run_from_xml (mode : option chars) (x : xml) : result launched :=
  let program :=                                                          (* 54-64 *)
    match x_action x with
    | Some _ => Some (of_string "uvmat")
    | None => match x_text x with Some t => t_program t | None => None end
    end in
  match program with
  | None => Err ValueError                                                (* 66-67 *)
  | Some pr =>
    if negb (in_strs pr supported_programs) then Err ValueError
    else if str_eqb pr (of_string "uvmat") then                           (* 75-89 *)
      let u := x_uvmat x in
      do t <- tidy abspath (input_table u) (output_dir_ext u) ;
      do name <- attr (x_action x) ;
      if negb (in_strs name actions_classes) then Err NotImplementedError
      else do p <- params_from_uvmat_xml t u ; Ok (LUvmat (modif_uvmat mode p))
    else                                                                  (* 91-94 *)
      match x_text x with
      | None => Err AttributeError
      | Some t =>
        match t_module t, t_class t with
        | Some m, Some c =>
          do _ <- import_class m c ;
          let p := modif_fluid mode (x_params x) in
          Ok (LFluid m c p (f_kwargs p))                                  (* 99-106 *)
        | _, _ => Err KeyError
        end
      end
  end.

(** The directory of the results of the computation with UVmat: TopologyPIV(params) calls prepare_path_dir_result
    (base.py:293-298); [locate]: the place of a path in the file system; the texts of [how_values], base.py:46. *)
Variable locate : chars -> path.
Definition how_of (h : chars) : how :=
  if str_eqb h (of_string "ask") then Ask else if str_eqb h (of_string "new_dir") then NewDir
  else if str_eqb h (of_string "complete") then Complete else if str_eqb h (of_string "recompute") then Recompute
  else if str_eqb h (of_string "from_path_indices") then FromPathIndices else HOther.
Definition open_results (f : fs) (answers : list chars) (images : path) (p : piv_params) : result (outcome * fs) :=
  prepare_path_dir_result f answers images (SPStr (locate (saving_path p))) (of_string "piv") (how_of (saving_how p)).
(** a run of the program on a file of UVmat, up to the creation of the directory *)
Definition run_uvmat (mode : option chars) (x : xml) (answers : list chars) (images : path) (f : fs) : result (outcome * fs) :=
  do l <- run_from_xml mode x ;
  match l with LUvmat p => open_results f answers images p | LFluid _ _ _ _ => Err RuntimeError end.

(** the windows of the passes: WorkPIV.__init__ with these parameters (see PassModel) *)
Definition windows_of (init_correl : Z * Z -> Z * Z -> result unit) (p : piv_params) : result (list ((Z * Z) * (Z * Z))) :=
  PassModel.init false init_correl (number p) (ZInt (coeff_zoom p)) (SInt (shape_crop_im0 p))
       (match shape_crop_im1 p with Some n => SInt n | None => SNone end).
End Run.

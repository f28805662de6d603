(** The works used without a topology: works/__init__.py:147-171 (BaseWorkFromSerie.get_serie, process_1_serie), 209-219 (BaseWorkFromImage:
    _init_serie, get_tuple_image_name), works/preproc/__init__.py:100-160 (WorkPreproc.calcul, _make_dict_to_save for a serie without rank,
    display).

    External (fluiddyn): the creation of the series from parameters and the files of the disk, their first index, and the serie of an index;
    the functions called by [calcul]. *)
From Verif Require Import PyBase StrModel NameModel.
Open Scope Z_scope.

Section Series.
Variables Par Disk Ser Rs : Type.
Variable create : Par -> Disk -> result Ser.       (* [SeriesOfArrays(...)] or [SerieOfArraysFromFiles(...)] *)
Variable ind_start : Ser -> Z.
Variable from_index : Ser -> Disk -> Z -> result Rs.   (* [get_serie_from_index], [get_tuple_array_name_from_index] *)

Record work := mk_work { w_params : Par; w_disk : Disk; w_series : option Ser }.
(** works/__init__.py:147-162: the series are created at the first call *)
Definition get_serie (index : option Z) (w : work) : work * result Rs :=
  let '(w, r) :=
    match w_series w with
    | Some s => (w, Ok s)
    | None => match create (w_params w) (w_disk w) with Ok s => (mk_work (w_params w) (w_disk w) (Some s), Ok s) | Err e => (w, Err e) end
    end in
  (w, do s <- r ; from_index s (w_disk w) (match index with None => ind_start s | Some i => i end)).
(** 214-219: the same for one image (no default from the series); [_init_serie] is called by the constructors of WorkImage2Image and WorkBOS *)
Definition get_tuple_image_name (index : Z) (w : work) : work * result Rs := get_serie (Some index) w.

Inductive op := SetParams (p : Par) | Files (d : Disk) | Get (index : option Z).
Definition step (w : work) (o : op) : work :=
  match o with
  | SetParams p => mk_work p (w_disk w) (w_series w)
  | Files d => mk_work (w_params w) d (w_series w)
  | Get i => fst (get_serie i w)
  end.
Definition run (w : work) (ops : list op) : work := fold_left step ops w.
End Series.

Section Preproc.
Variable I : Type.
Variable apply : list I -> result (list I).       (* [self.tools.apply] *)
Record serie := mk_serie { names : list chars; arrays : list I }.
(** calcul of a serie which is not in a topology (rank 0 of 1): all the images are kept, in a dictionary *)
Fixpoint dict_get (k : chars) (d : list (chars * I)) : result I :=
  match d with [] => Err KeyError | (k', v) :: d' => match dict_get k d' with Ok v' => Ok v' | Err _ => if chars_eqb k k' then Ok v else Err KeyError end end.
Definition calcul (s : serie) : result (list (chars * I)) := do out <- apply (arrays s) ; Ok (combine (names s) out).
(** works/preproc/__init__.py:140-160; [read name] is [serie0.get_array_from_name(name)]; the figure shows two images before and after *)
Definition display (get : Z -> result serie) (read : chars -> result I) (ind : Z) : result (I * I * I * I) :=
  do serie0 <- get ind ;
  do serie1 <- get (ind + 1) ;
  do result0 <- calcul serie0 ;
  do result1 <- calcul serie1 ;
  do key0 <- py_get (names serie0) 0 ;
  do key1 <- py_get (names serie1) 0 ;
  do input0 <- read key0 ;
  do input1 <- read key1 ;
  do output0 <- dict_get key0 result0 ;
  do output1 <- dict_get key1 result1 ;
  Ok (input0, input1, output0, output1).
End Preproc.

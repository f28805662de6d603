(** Model of the temporal spectra of an array of vector fields (postproc/vector_field.py:
    ArrayOfVectorFieldsOnGrid.set_timestep and compute_temporal_fft, postproc/util.py: compute_1dspectrum along the
    first axis).

    Real arithmetic; an array is its shape and its values as a function of the indices. *)
From Coq Require Import Reals ZArith List.
From Verif Require Import PyBase FourierBase SpectrumModel.
Import ListNotations.
Local Open Scope R_scope.

(** a 2D array of shape ([n_rows], [n_cols]) *)
Record arr := mk_arr { n_rows : nat; n_cols : nat; val : nat -> nat -> R }.

(** a field: the lengths of y and x, which are its [shape] (vector_field.py lines 172-176, [z] a number or None), vx
    and vy *)
Record vfield := mk_vfield { f_ny : nat; f_nx : nat; f_vx : arr; f_vy : arr }.

(** vector_field.py lines 605-622: the array of fields *)
Record afields := mk_afields { af_list : list vfield; af_times : option (list R) }.
(** [np.linspace(0, timestep * (n - 1), n)]: n values with the step timestep *)
Definition af_set_timestep (timestep : R) (a : afields) : afields :=
  mk_afields (af_list a) (Some (map (fun j => INR j * timestep) (seq 0 (List.length (af_list a))))).
(** line 635 *)
Definition af_append (f : vfield) (a : afields) : afields := mk_afields (af_list a ++ [f]) (af_times a).

(** [fields[it, :, :] = a] for [fields] of shape (n, h, l): numpy repeats the dimensions equal to one *)
Definition assign (h l : nat) (a : arr) : result (nat -> nat -> R) :=
  if ((Nat.eqb (n_rows a) h || Nat.eqb (n_rows a) 1) && (Nat.eqb (n_cols a) l || Nat.eqb (n_cols a) 1))%bool
  then Ok (fun y x => val a (if Nat.eqb (n_rows a) h then y else 0%nat) (if Nat.eqb (n_cols a) l then x else 0%nat))
  else Err ValueError.
(** the loops of lines 750-751 and 755-756 *)
Fixpoint stack (h l : nat) (arrays : list arr) : result (list (nat -> nat -> R)) :=
  match arrays with
  | [] => Ok []
  | a :: rest => do v <- assign h l a ; do vs <- stack h l rest ; Ok (v :: vs)
  end.

(** what compute_1dspectrum returns: [sp_fft] and [sp_psd] have [sp_len] elements along the first axis, [sp_omega] is a
    list *)
Record spectrum := mk_spectrum {
  sp_len : nat; sp_fft : nat -> nat -> nat -> Cx; sp_omega : list R; sp_psd : nat -> nat -> nat -> R }.

(** util.py lines 109-121 with axis=0; the number of times is not compared with the size of the signal *)
Definition compute_1dspectrum (times : list R) (fields : list (nat -> nat -> R)) : result spectrum :=
  let n := List.length times in
  let m := List.length fields in
  do x1 <- py_get times 1 ;
  do x0 <- py_get times 0 ;
  let dx := x1 - x0 in
  let Lx := INR n * dx in
  let dk := 2 * PI / Lx in
  let signal_fft := fun i y x =>
    Cmul (RtoC (dx / Lx)) (fftshift m (fft1 m (fun t => nth t fields (fun _ _ => 0) y x)) i) in
  Ok (mk_spectrum m signal_fft (map (fun i => fftshift n (fftfreq n dx) i * 2 * PI) (seq 0 n))
        (fun i y x => (1 / 2) / dk * Cmod2 (signal_fft i y x))).

(** vector_field.py lines 740-760: vx_fft, vy_fft, omega, psdU, psdV, here the two spectra (the array [omega] returned
    is the second one) *)
Definition compute_temporal_fft (a : afields) : result (spectrum * spectrum) :=
  match af_times a with
  | None => Err RuntimeError
  | Some times =>
      do piv0 <- py_get (af_list a) 0 ;
      let h := f_ny piv0 in
      let l := f_nx piv0 in
      do fx <- stack h l (map f_vx (af_list a)) ;
      do sx <- compute_1dspectrum times fx ;
      do fy <- stack h l (map f_vy (af_list a)) ;
      do sy <- compute_1dspectrum times fy ;
      Ok (sx, sy)
  end.

(** The display of a PIV result: the arrows, the information shown when a vector is selected, the keys
    (src/fluidimage/data_objects/display_piv.py, data_objects/piv.py:323-350, calcul/correl.py:64-65).

    Simplifications: the numbers are real numbers, infinities and nan without rounding ([fl]); the values shown in
    the text are those given to the format codes; the gray levels of the images, the limits and labels of the axes,
    the histograms and the scale of the arrows are not modelled; an artist is one of the three collections of
    arrows (they are the only ones with a picker).  As matplotlib catches the exceptions raised by the callbacks,
    an event gives a new state and possibly an exception; when an exception is raised during the drawing of the
    correlation, the markers drawn before are not kept in the state. *)
From Coq Require Import Reals.
From Verif Require Import PyBase StrModel FloatBase.
Open Scope Z_scope.

(** four arrays: positions and displacements *)
Record field4 := { f_xs : list fl; f_ys : list fl; f_dxs : list fl; f_dys : list fl }.

Section Display.
(** the arrays of the correlations *)
Variable correl : Type.

(** HeavyPIVResults (data_objects/piv.py), with the attributes used by DisplayPIV; None: the attribute is missing
    (or is None) *)
Record pivres := {
  r_field : field4;                          (* xs, ys, deltaxs, deltays *)
  r_approx : option field4;                  (* ixvecs_approx, iyvecs_approx, deltaxs_approx, deltays_approx *)
  r_final : option field4;                   (* ixvecs_final, iyvecs_final, deltaxs_final, deltays_final *)
  r_smooth : option field4;                  (* xs_smooth, ys_smooth, deltaxs_smooth, deltays_smooth *)
  r_wrong : option (list (Z * (fl * fl)));   (* deltaxs_wrong, deltays_wrong: dicts with the same keys *)
  r_errors : option (list (Z * chars));
  r_correls_max : option (list fl);
  r_correls : option (list correl);
  r_indices_no_displacement : R * R;         (* (iy0, ix0), correl.py:217-219 *)
  r_input : option (list fl * list fl);      (* deltaxs_input, deltays_input *)
  r_replaced : option (list (Z * (fl * fl))); (* replaced_vectors, without the error message *)
  r_secondary_peaks : list (option (list (fl * fl)));
  r_nb_peaks_to_search : Z;                  (* params.piv0.nb_peaks_to_search *)
  r_displacement_max : option R              (* params.piv0.displacement_max is None, or displacement_max *)
}.

Definition set_field (r : pivres) (f : field4) : pivres :=
  {| r_field := f; r_approx := r_approx r; r_final := r_final r; r_smooth := r_smooth r; r_wrong := r_wrong r;
     r_errors := r_errors r; r_correls_max := r_correls_max r; r_correls := r_correls r;
     r_indices_no_displacement := r_indices_no_displacement r; r_input := r_input r; r_replaced := r_replaced r;
     r_secondary_peaks := r_secondary_peaks r; r_nb_peaks_to_search := r_nb_peaks_to_search r;
     r_displacement_max := r_displacement_max r |}.
Definition set_interp (r : pivres) (a fi s : option field4) : pivres :=
  {| r_field := r_field r; r_approx := a; r_final := fi; r_smooth := s; r_wrong := r_wrong r;
     r_errors := r_errors r; r_correls_max := r_correls_max r; r_correls := r_correls r;
     r_indices_no_displacement := r_indices_no_displacement r; r_input := r_input r; r_replaced := r_replaced r;
     r_secondary_peaks := r_secondary_peaks r; r_nb_peaks_to_search := r_nb_peaks_to_search r;
     r_displacement_max := r_displacement_max r |}.

Inductive interp := NoInterp | Smooth | Interp.

Definition opt {A} (o : option A) : result A := match o with Some a => Ok a | None => Err AttributeError end.

(** display_piv.py:132-152: the arrays displayed *)
Definition displayed (r : pivres) (show_interp : interp) : result field4 :=
  match show_interp with
  | NoInterp => Ok (r_field r)
  | Smooth => opt (r_smooth r)
  | Interp => match r_approx r with Some f => Ok f | None => opt (r_final r) end
  end.

(** [deltays *= -1]: in place, in the array of the result *)
Definition flip (f : field4) : field4 :=
  {| f_xs := f_xs f; f_ys := f_ys f; f_dxs := f_dxs f; f_dys := map fneg (f_dys f) |}.
Definition flip_displayed (r : pivres) (show_interp : interp) : pivres :=
  match show_interp with
  | NoInterp => set_field r (flip (r_field r))
  | Smooth => set_interp r (r_approx r) (r_final r) (option_map flip (r_smooth r))
  | Interp =>
    match r_approx r with
    | Some f => set_interp r (Some (flip f)) (r_final r) (r_smooth r)
    | None => set_interp r None (option_map flip (r_final r)) (r_smooth r)
    end
  end.

(** a collection of arrows, [ax0.quiver(xs, ys, us, vs)] *)
Record quiver := { q_x : list fl; q_y : list fl; q_u : list fl; q_v : list fl }.

(** [a[indices]] *)
Definition gather (a : list fl) (indices : list Z) : result (list fl) := map_result (fun i => py_get a i) indices.

(** the marks on the correlation *)
Inductive mark :=
| NoDispl (x y : R)          (* "or" *)
| Found (x y : fl)           (* "xr" *)
| FinalMark (x y : fl)       (* "ow" *)
| Bad (x y : fl)             (* "vr" *)
| Other (x y : fl)           (* "+r" *)
| Circle (x y radius : R).

(** the text: vector number, position, displacement, correlation, error *)
Record info := { i_vec : Z; i_x : fl; i_y : fl; i_u : fl; i_v : fl; i_c : option fl; i_error : option chars }.

(** the object DisplayPIV *)
Record display := {
  d_q : quiver;
  d_wrong : option (list Z * quiver);      (* inds_error, q_wrong; None without show_error *)
  d_isnan : option (list Z * quiver);      (* inds_isnan, q_isnan *)
  d_show_correl : bool;
  d_ind : Z;                               (* self.ind *)
  d_images : option (bool * bool);         (* the images are visible or not; None without images *)
  d_title : Z;                             (* the number in the title of the axes *)
  d_point : option (fl * fl);              (* the point shown *)
  d_text : option info;
  d_ax1 : option (correl * fl * list mark) (* the correlation shown, its maximum, the marks *)
}.

(** display_piv.py:35-239: DisplayPIV(im0, im1, piv_results, show_interp, show_error, show_correl); [images]: im0
    is not None.  Gives the object and the result as it is after the call. *)
Definition display_piv (images : bool) (r : pivres) (show_interp : interp) (show_error show_correl : bool)
  : result (display * pivres) :=
  let show_correl :=                                                      (* 51-58 *)
    show_correl && match r_correls r with Some (_ :: _) => true | _ => false end in
  do _ <- displayed r show_interp ;                                       (* 132-152 *)
  let r := if images then r else flip_displayed r show_interp in          (* 154-155 *)
  do f <- displayed r show_interp ;
  let q := {| q_x := f_xs f; q_y := f_ys f; q_u := f_dxs f; q_v := map fneg (f_dys f) |} in (* 157-167 *)
  do we <-
    match (if show_error then r_wrong r else None) with                   (* 169-172 *)
    | None => Ok (None, None)
    | Some wrong =>
      let inds_error := map fst wrong in                                  (* 173-175 *)
      do xs_wrong <- gather (f_xs f) inds_error ;                         (* 176-177 *)
      do ys_wrong <- gather (f_ys f) inds_error ;
      let dxs_wrong := map (fun e => fst (snd e)) wrong in                (* 178-183 *)
      let dys_wrong := map (fun e => snd (snd e)) wrong in
      let dys_wrong := if images then dys_wrong else map fneg dys_wrong in (* 185-186 *)
      let inds_isnan := map fst (filter (fun e => fisnan (fst (snd e))) wrong) in (* 199-200 *)
      do xs_isnan <- gather (f_xs f) inds_isnan ;                         (* 201-202 *)
      do ys_isnan <- gather (f_ys f) inds_isnan ;
      let zeros := map (fun _ => Fin 0) xs_isnan in                       (* 204 *)
      Ok (Some (inds_error, {| q_x := xs_wrong; q_y := ys_wrong; q_u := dxs_wrong; q_v := map fneg dys_wrong |}),
          Some (inds_isnan, {| q_x := xs_isnan; q_y := ys_isnan; q_u := zeros; q_v := zeros |}))
    end ;
  Ok ({| d_q := q; d_wrong := fst we; d_isnan := snd we; d_show_correl := show_correl; d_ind := 0;
         d_images := (if images then Some (true, false) else None);       (* 86-107 *)
         d_title := 0; d_point := None; d_text := None; d_ax1 := None |}, r).

(** ** The events *)

Inductive artist := Q0 | QWrong | QIsnan.
Inductive key := AltS | AltLeft | AltRight | OtherKey.
Inductive event :=
| Pick (a : artist) (ind : list Z)          (* a click on arrows; ind: the indices in the collection *)
| Key (k : key) (in_ax0 : bool).

(** correl.py:64-65 *)
Definition compute_indices_from_displacement (dx dy : fl) (indices_no_displ : R * R) : fl * fl :=
  (fsub (Fin (snd indices_no_displ)) dx, fsub (Fin (fst indices_no_displ)) dy).

Fixpoint assoc {A} (i : Z) (d : list (Z * A)) : option A :=
  match d with [] => None | (k, a) :: d' => if k =? i then Some a else assoc i d' end.

(** [deltax -= result.deltaxs_input[ind_all]], AttributeError being caught *)
Definition minus_input (r : pivres) (i : Z) (d : fl * fl) : result (fl * fl) :=
  match r_input r with
  | None => Ok d
  | Some (ixs, iys) => do x <- py_get ixs i ; do y <- py_get iys i ; Ok (fsub (fst d) x, fsub (snd d) y)
  end.

Definition set_ind (s : display) (i : Z) : display :=
  {| d_q := d_q s; d_wrong := d_wrong s; d_isnan := d_isnan s; d_show_correl := d_show_correl s; d_ind := i;
     d_images := d_images s; d_title := d_title s; d_point := d_point s; d_text := d_text s; d_ax1 := d_ax1 s |}.
Definition set_point (s : display) (p : option (fl * fl)) : display :=
  {| d_q := d_q s; d_wrong := d_wrong s; d_isnan := d_isnan s; d_show_correl := d_show_correl s; d_ind := d_ind s;
     d_images := d_images s; d_title := d_title s; d_point := p; d_text := d_text s; d_ax1 := d_ax1 s |}.
Definition set_text (s : display) (t : option info) : display :=
  {| d_q := d_q s; d_wrong := d_wrong s; d_isnan := d_isnan s; d_show_correl := d_show_correl s; d_ind := d_ind s;
     d_images := d_images s; d_title := d_title s; d_point := d_point s; d_text := t; d_ax1 := d_ax1 s |}.
Definition set_ax1 (s : display) (a : option (correl * fl * list mark)) : display :=
  {| d_q := d_q s; d_wrong := d_wrong s; d_isnan := d_isnan s; d_show_correl := d_show_correl s; d_ind := d_ind s;
     d_images := d_images s; d_title := d_title s; d_point := d_point s; d_text := d_text s; d_ax1 := a |}.
Definition set_images (s : display) (im : option (bool * bool)) (t : Z) : display :=
  {| d_q := d_q s; d_wrong := d_wrong s; d_isnan := d_isnan s; d_show_correl := d_show_correl s; d_ind := d_ind s;
     d_images := im; d_title := t; d_point := d_point s; d_text := d_text s; d_ax1 := d_ax1 s |}.

(** display_piv.py:344-434: what is drawn in the second axes; [deltax], [deltay]: the displacement of the text;
    [correl_max]: None if the variable has not been assigned *)
Definition draw_correl (r : pivres) (i : Z) (delta : fl * fl) (correl_max : option fl)
  : result (correl * fl * list mark) :=
  do correls <- opt (r_correls r) ;
  do alphac <- py_get correls i ;                                         (* 344 *)
  do cmax <- match correl_max with Some c => Ok c | None => Err UnboundLocalError end ; (* 346 *)
  let ino := r_indices_no_displacement r in
  let m1 := NoDispl (fst ino) (snd ino) in                                (* 350-355 *)
  do delta <- minus_input r i delta ;                                     (* 357-361 *)
  let '(i1, i0) := compute_indices_from_displacement (fst delta) (snd delta) ino in (* 363-367 *)
  let m2 := Found i1 i0 in
  do m3 <- match r_final r with                                           (* 369-383 *)
           | None => Ok []
           | Some f =>
             do dx <- py_get (f_dxs f) i ;
             do dy <- py_get (f_dys f) i ;
             do d <- minus_input r i (dx, dy) ;
             let '(i1, i0) := compute_indices_from_displacement (fst d) (snd d) ino in
             Ok [FinalMark i1 i0]
           end ;
  do m4 <- match r_replaced r with                                        (* 385-399 *)
           | None => Ok []
           | Some dict =>
             match assoc i dict with
             | None => Ok []
             | Some bad =>
               do d <- minus_input r i bad ;
               let '(i1, i0) := compute_indices_from_displacement (fst d) (snd d) ino in
               Ok [Bad i1 i0]
             end
           end ;
  do m5 <- (if 1 <? r_nb_peaks_to_search r then                           (* 403-421 *)
              do other_peaks <- py_get (r_secondary_peaks r) i ;
              match other_peaks with
              | None => Ok []
              | Some l =>
                Ok (map (fun p => let '(i1, i0) := compute_indices_from_displacement (fst p) (snd p) ino in
                                  Other i1 i0) l)
              end
            else Ok []) ;
  let m6 := match r_displacement_max r with                               (* 423-430 *)
            | None => []
            | Some d => [Circle (fst ino) (snd ino) d]
            end in
  Ok (alphac, cmax, [m1; m2] ++ m3 ++ m4 ++ m5 ++ m6).

(** display_piv.py:277-435: select_arrow(ind, artist), with [ind] already a sequence *)
Definition select_arrow (r : pivres) (s : display) (inds : list Z) (a : artist) : display * option exn :=
  match inds with
  | [] => (s, None)                                                       (* 278-281: IndexError caught *)
  | ind :: _ =>
    match
      match a with                                                        (* 293-303 *)
      | Q0 => Ok (ind, d_q s)
      | QWrong => match d_wrong s with
                  | Some (inds_error, q) => do i <- py_get inds_error ind ; Ok (i, q)
                  | None => Err AttributeError
                  end
      | QIsnan => match d_isnan s with
                  | Some (inds_isnan, q) => do i <- py_get inds_isnan ind ; Ok (i, q)
                  | None => Err AttributeError
                  end
      end
    with
    | Err e => (s, Some e)
    | Ok (ind_all, q) =>
      if (zlen (q_x q) <=? ind) || (ind <? 0) || (d_ind s =? ind_all) then (s, None) (* 305-306 *)
      else
        let s := set_ind s ind_all in                                     (* 308 *)
        match
          (do ix <- py_get (q_x q) ind ;                                  (* 312-319 *)
           do iy <- py_get (q_y q) ind ;
           do deltax <- py_get (f_dxs (r_field r)) ind_all ;
           do deltay <- py_get (f_dys (r_field r)) ind_all ;
           do delta <- (if fisnan deltax then
                          do wrong <- opt (r_wrong r) ;
                          match assoc ind_all wrong with Some d => Ok d | None => Err KeyError end
                        else Ok (deltax, deltay)) ;
           Ok (ix, iy, delta))
        with
        | Err e => (s, Some e)
        | Ok (ix, iy, delta) =>
          let s := set_point s (Some (ix, iy)) in                         (* 321-322 *)
          match match r_correls_max r with                                (* 329-331 *)
                | None => Ok None
                | Some cs => do c <- py_get cs ind_all ; Ok (Some c)
                end with
          | Err e => (s, Some e)
          | Ok correl_max =>
            let error := match r_errors r with None => None | Some d => assoc ind_all d end in (* 333-337 *)
            let s := set_text s (Some {| i_vec := ind_all; i_x := ix; i_y := iy; i_u := fst delta; i_v := snd delta;
                                         i_c := correl_max; i_error := error |}) in (* 339 *)
            if d_show_correl s then                                       (* 341-434 *)
              match draw_correl r ind_all delta correl_max with
              | Ok a => (set_ax1 s (Some a), None)
              | Err e => (set_ax1 s None, Some e)
              end
            else (s, None)
          end
        end
    end
  end.

(** display_piv.py:437-446 *)
Definition switch (s : display) : display :=
  match d_images s with
  | None => s
  | Some (v0, v1) => let v1' := negb v1 in set_images s (Some (negb v0, v1')) (if v1' then 1 else 0)
  end.

(** display_piv.py:247-275: onclick and onpick.  [self.ind - 1] is a number and cannot be indexed: select_arrow
    returns at its line 281 (TypeError for a Python int, IndexError for a numpy integer, both caught). *)
Definition select_arrow_number (s : display) (ind : Z) : display * option exn := (s, None).
Definition handle (r : pivres) (s : display) (e : event) : display * option exn :=
  match e with
  | Pick a ind => select_arrow r s ind a
  | Key k in_ax0 =>
    if negb in_ax0 then (s, None)                                         (* 251-252 *)
    else match k with
         | AltS => (switch s, None)
         | AltLeft => select_arrow_number s (d_ind s - 1)
         | AltRight => select_arrow_number s (d_ind s + 1)
         | OtherKey => (s, None)
         end
  end.
(** a history of events; the exceptions are caught by matplotlib *)
Definition history (r : pivres) (s : display) (es : list event) : display :=
  fold_left (fun s e => fst (handle r s e)) es s.
End Display.

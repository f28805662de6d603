(** WorkPIV.calcul (works/piv/multipass.py:170-190) with the passes: FirstWorkPIV.calcul and WorkPIVFromDisplacement.calcul
    (works/piv/singlepass.py:143-190 and 737-787), apply_interp (singlepass.py:409-563) and griddata
    (calcul/interpolate/griddata.py:11-29).

    The objects keep the grids between the calls of [calcul] ([hasattr(self, "ixvecs_grid")], lines 159 and 747): the model gives
    the state of the works after each call.

    Simplifications: the positions are given in half pixels (the middles of two integers are exact); the images are already
    cropped by the mask (property C53), [offx] and [offy] are the starts of the two slices of the crop (0 for None); the
    texts printed and the correlation maps kept in the results are not modelled; [imshape0] is set even when the preparation
    fails, but it is then set again by the next preparation, before any use. *)
From Verif Require Import PyBase GridModel.
Local Open Scope Z_scope.

Definition InterpError := UserError 63.     (* calcul/errors.py: not a PIVError *)
Definition LinAlgError := UserError 60.

Inductive use_tps := TpsTrue | TpsLast | TpsFalse.

(** what [_prepare_with_image] sets *)
Record pgrid := mk_pgrid { g_shape : Z * Z; g_ix : list Z; g_iy : list Z; g_ixg : list Z; g_iyg : list Z }.

Section Passes.
Context {F C M : Type}.
Variable nan : F.
Variable isnan : F -> bool.
Variable bad_shape : M.
(** the passes: correlation, displacement of the peak, subpixel step (see GridModel), shapes of the windows, overlap *)
Variable correl : nat -> img -> img -> C.
Variable compute : nat -> C -> (F * F * F) + (M * (F * F * F)).
Variable subpix : nat -> F -> F -> C -> (F * F) + M.
Variables scim0 scim1 rnd : nat -> Z * Z.
Variable number : nat.                                   (* params.multipass.number *)
Variable tps_param : use_tps.                            (* params.multipass.use_tps *)
Variables offx offy : Z.
Variable junk : F.                                       (* np.empty *)
(** [np.round(a).astype("int32")] and [deltaxs += deltaxs_input] for one value *)
Variable rint : F -> Z.
Variable addi : F -> Z -> F.
(** scipy.interpolate.griddata for the points [(x, y)] with their values: "linear" (QhullError for degenerated points) and
    "nearest" *)
Variable lin : list ((Z * Z) * F) -> result (Z * Z -> F).
Variable near : list ((Z * Z) * F) -> result (Z * Z -> F).
(** ThinPlateSplineSubdom, for the points [(y, x)] with their values: smoothed values at the points and interpolation *)
Variable tps : list ((Z * Z) * F) -> result (list F * (Z * Z -> F)).

(** the attributes of HeavyPIVResults used here *)
Record heavy := mk_heavy {
  h_dx : list F; h_dy : list F; h_x : list Z; h_y : list Z; h_max : list F; h_err : list (Z * M);
  h_input : option (list Z * list Z);
  h_approx_pos : option (list Z * list Z); h_approx : option (list F * list F);
  h_final_pos : option (list Z * list Z); h_final : option (list F * list F);
  h_smooth : option ((list Z * list Z) * (list F * list F)) }.

(** WorkFIX.calcul (works/piv/fix.py, property C35) *)
Variable fix_pass : nat -> heavy -> result heavy.

(** with_mask.py:26-33 and 17-24, one coordinate in half pixels *)
Definition to_original (off : Z) (l : list Z) : list Z := map (fun x => x + 2 * off) l.
Definition to_masked (off : Z) (l : list Z) : list Z := map (fun x => x - 2 * off) l.
Definition halves (l : list Z) : list Z := map (fun x => 2 * x) l.

(** [a[selection]] with a boolean array; IndexError if the shapes differ *)
Fixpoint select {A} (sel : list bool) (l : list A) : result (list A) :=
  match sel, l with
  | [], [] => Ok []
  | b :: sel', x :: l' => do r <- select sel' l' ; Ok (if b then x :: r else r)
  | _, _ => Err IndexError
  end.
(** [a[selection] = v]; ValueError if [v] has not as many values as selected elements *)
Fixpoint mask_set {A} (sel : list bool) (l v : list A) : result (list A) :=
  match sel, l with
  | [], [] => match v with [] => Ok [] | _ => Err ValueError end
  | true :: sel', _ :: l' => match v with y :: v' => do r <- mask_set sel' l' v' ; Ok (y :: r) | [] => Err ValueError end
  | false :: sel', x :: l' => do r <- mask_set sel' l' v ; Ok (x :: r)
  | _, _ => Err IndexError
  end.
(** [a | b] for boolean arrays of the same shape (ValueError otherwise) *)
Fixpoint selection (dx dy : list F) : result (list bool) :=
  match dx, dy with
  | [], [] => Ok []
  | a :: dx', b :: dy' => do r <- selection dx' dy' ; Ok (negb (isnan a || isnan b) :: r)
  | _, _ => Err ValueError
  end.

(** griddata.py:11-29: meshgrid of the two vectors, linear interpolation, nearest where it gives NaN, flatten *)
Definition griddata (points : list ((Z * Z) * F)) (xnew ynew : list Z) : result (list F) :=
  let grid := flat_map (fun y => map (fun x => (x, y)) xnew) ynew in
  do flin <- lin points ;
  do fnear <- near points ;
  Ok (map (fun p => if isnan (flin p) then fnear p else flin p) grid).

(** lines 434-450: the positions are set once *)
Definition set_pos (g : pgrid) (last : bool) (h : heavy) : heavy :=
  let pos := (to_original offx (halves (g_ixg g)), to_original offy (halves (g_iyg g))) in
  if last then
    match h_final_pos h with
    | Some _ => h
    | None => mk_heavy (h_dx h) (h_dy h) (h_x h) (h_y h) (h_max h) (h_err h) (h_input h) (h_approx_pos h) (h_approx h)
                       (Some pos) (h_final h) (h_smooth h)
    end
  else
    match h_approx_pos h with
    | Some _ => h
    | None => mk_heavy (h_dx h) (h_dy h) (h_x h) (h_y h) (h_max h) (h_err h) (h_input h) (Some pos) (h_approx h)
                       (h_final_pos h) (h_final h) (h_smooth h)
    end.

(** lines 452-563: [deltaxs_approx], [deltays_approx] and the smooth fields *)
Definition interp_values (g : pgrid) (last : bool) (h : heavy)
  : result ((list F * list F) * option ((list Z * list Z) * (list F * list F))) :=
  do sel <- selection (h_dx h) (h_dy h) ;
  if negb (existsb (fun b => b) sel) then Err InterpError
  else
    do xs <- select sel (h_x h) ;
    do ys <- select sel (h_y h) ;
    let xs_tmp := to_masked offx xs in
    let ys_tmp := to_masked offy ys in
    do dxs <- select sel (h_dx h) ;
    do dys <- select sel (h_dy h) ;
    (* griddata(centers[::-1], deltaxs, (self.ixvecs, self.iyvecs)) *)
    let with_griddata (_ : unit) :=
      do ax <- griddata (combine (combine xs_tmp ys_tmp) dxs) (halves (g_ix g)) (halves (g_iy g)) ;
      do ay <- griddata (combine (combine xs_tmp ys_tmp) dys) (halves (g_ix g)) (halves (g_iy g)) ;
      Ok ((ax, ay), None) in
    if match tps_param with TpsTrue => true | TpsLast => last | TpsFalse => false end then
      (* centers = np.vstack([ys_tmp, xs_tmp]) *)
      let centers := combine ys_tmp xs_tmp in
      match tps (combine centers dxs), tps (combine centers dys) with
      | Err (UserError 60), _ => with_griddata tt
      | Err e, _ => Err e
      | Ok _, Err (UserError 60) => with_griddata tt
      | Ok _, Err e => Err e
      | Ok (sx, fx), Ok (sy, fy) =>
        let new_positions := combine (halves (g_iyg g)) (halves (g_ixg g)) in
        let ax := map fx new_positions in
        let ay := map fy new_positions in
        if last then
          match h_final_pos h with
          | None => Err AttributeError
          | Some (px, py) =>
            do xs_smooth <- mask_set sel px xs ;
            do ys_smooth <- mask_set sel py ys ;
            do dxs_smooth <- mask_set sel ax sx ;
            do dys_smooth <- mask_set sel ay sy ;
            Ok ((ax, ay), Some ((xs_smooth, ys_smooth), (dxs_smooth, dys_smooth)))
          end
        else Ok ((ax, ay), None)
      end
    else with_griddata tt.

(** the end of apply_interp, lines 558-563 *)
Definition store (last : bool) (v : (list F * list F) * option ((list Z * list Z) * (list F * list F))) (h : heavy) : heavy :=
  let smooth := match snd v with Some s => Some s | None => h_smooth h end in
  if last then mk_heavy (h_dx h) (h_dy h) (h_x h) (h_y h) (h_max h) (h_err h) (h_input h) (h_approx_pos h) (h_approx h)
                        (h_final_pos h) (Some (fst v)) smooth
  else mk_heavy (h_dx h) (h_dy h) (h_x h) (h_y h) (h_max h) (h_err h) (h_input h) (h_approx_pos h) (Some (fst v))
                (h_final_pos h) (h_final h) smooth.

(** the object after apply_interp, and the exception *)
Definition apply_interp (g : pgrid) (last : bool) (h : heavy) : heavy * result unit :=
  let h := set_pos g last h in
  match interp_values g last h with
  | Ok v => (store last v h, Ok tt)
  | Err e => (h, Err e)
  end.

(** lines 108-141 *)
Definition prepare (i : nat) (im0 : img) : result pgrid :=
  let shape := (zlen im0, im_width im0) in
  do r <- prepare_with_image shape (scim0 i) (rnd i) ;
  let '(ix, iy, ixg, iyg) := r in
  Ok (mk_pgrid shape ix iy ixg iyg).
(** [if not hasattr(self, "ixvecs_grid"): self._prepare_with_image(im0)] *)
Definition prepared (i : nat) (w : option pgrid) (im0 : img) : result pgrid :=
  match w with Some g => Ok g | None => prepare i im0 end.

(** _loop_vectors with the padding (lines 262-361), for the positions of the windows before padding *)
Definition loop_pass (i : nat) (im0 im1 : img) (pos : Z -> list ((Z * Z) * (Z * Z))) : result (loop_st F M) :=
  let npad := npad_of (scim0 i) in
  do im0pad <- pad_image npad im0 ;
  do im1pad <- pad_image npad im1 ;
  loop_vectors nan bad_shape (correl i) (compute i) (subpix i) (Nat.eqb (S i) number) (scim0 i) (scim1 i) junk im0pad im1pad (pos npad).

Definition heavy_of (l : loop_st F M) (xs ys : list Z) (input : option (list Z * list Z)) : heavy :=
  mk_heavy (l_dx l) (l_dy l) xs ys (l_max l) (l_err l) input None None None None None.

(** FirstWorkPIV.calcul, lines 155-190: positions of the grid *)
Definition first_pass (g : pgrid) (im0 im1 : img) : result heavy :=
  do l <- loop_pass 0 im0 im1 (fun npad => map (fun '(gx, gy) => positions_first npad gx gy) (combine (g_ixg g) (g_iyg g))) ;
  Ok (heavy_of l (to_original offx (halves (g_ixg g))) (to_original offy (halves (g_iyg g))) None).

(** WorkPIVFromDisplacement.calcul, lines 749-787, [prev] after apply_interp.  The arrays of the grid and of the
    displacements are added: ValueError (broadcast) if the shapes differ (an array with one element is never met here: it
    would need a grid with one vector and other displacements; the model raises ValueError in this case as well). *)
Definition next_pass (i : nat) (g : pgrid) (prev : heavy) (im0 im1 : img) : result heavy :=
  match h_approx prev with
  | None => Err AttributeError
  | Some (ax, ay) =>
    let inx := map rint ax in
    let iny := map rint ay in
    if negb ((zlen inx =? zlen (g_ixg g)) && (zlen iny =? zlen (g_iyg g))) then Err ValueError
    else
      let vecs := combine (combine (g_ixg g) (g_iyg g)) (combine inx iny) in
      do l <- loop_pass i im0 im1
                (fun npad => map (fun '((gx, gy), (dx, dy)) => fst (positions_displaced (g_shape g) npad gx gy dx dy)) vecs) ;
      let xy := map (fun '((gx, gy), (dx, dy)) => snd (positions_displaced (g_shape g) 0 gx gy dx dy)) vecs in
      let l := mk_loop (map (fun '(a, b) => addi a b) (combine (l_dx l) inx)) (map (fun '(a, b) => addi a b) (combine (l_dy l) iny))
                       (l_max l) (l_err l) in
      Ok (heavy_of l (to_original offx (map fst xy)) (to_original offy (map snd xy)) (Some (inx, iny)))
  end.

(** the loop of multipass.py:178-181 after the first pass, and the last interpolation (183-186).  [g]: grid of the pass
    [i], [prev]: its result.  [works]: the states of the works of the passes [i + 1], ...  The results of the passes are
    completed by the interpolation of the next pass (same objects). *)
Fixpoint next_passes (i : nat) (g : pgrid) (prev : heavy) (works : list (option pgrid)) (im0 im1 : img)
  : list (option pgrid) * result (list heavy) :=
  match works with
  | [] =>
    let '(h, r) := apply_interp g true prev in
    ([], match r with
         | Ok _ | Err (UserError 63) => Ok [h]
         | Err e => Err e
         end)
  | w :: works' =>
    match prepared (S i) w im0 with
    | Err e => (w :: works', Err e)
    | Ok g' =>
      let '(prev', r) := apply_interp g' false prev in
      match (do _ <- r ; do h <- next_pass (S i) g' prev' im0 im1 ; fix_pass (S i) h) with
      | Err e => (Some g' :: works', Err e)
      | Ok h =>
        let '(works'', res) := next_passes (S i) g' h works' im0 im1 in
        (Some g' :: works'', do l <- res ; Ok (prev' :: l))
      end
    end
  end.

(** WorkPIV.calcul *)
Definition calcul (works : list (option pgrid)) (couple : img * img) : list (option pgrid) * result (list heavy) :=
  let '(im0, im1) := couple in
  match works with
  | [] => ([], Err NameError)
  | w :: works' =>
    match prepared 0 w im0 with
    | Err e => (w :: works', Err e)
    | Ok g =>
      match (do h <- first_pass g im0 im1 ; fix_pass 0 h) with
      | Err e => (Some g :: works', Err e)
      | Ok h =>
        let '(works'', res) := next_passes 0 g h works' im0 im1 in
        (Some g :: works'', res)
      end
    end
  end.

(** WorkPIV.__init__ (lines 108-168): one work and [number - 1] others, no grid; several calls of [calcul] with the same object, an exception does not stop the next calls *)
Definition fresh : list (option pgrid) := repeat None (Nat.max 1 number).
Definition after (couples : list (img * img)) : list (option pgrid) :=
  fold_left (fun st c => fst (calcul st c)) couples fresh.
End Passes.

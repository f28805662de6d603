(** The recomputation of the grid of a PIV result: [get_grid_pixel] (postproc/piv.py:65-109,
    data_objects/piv.py:509-535 and 744-769), beside the positions that the first pass gives to its vectors
    (works/piv/singlepass.py:143-185).

    Simplifications: the sizes of the interrogation windows and the overlaps in pixels of the passes are given
    as integers (their computation from the parameters is modelled in GridModel and PassModel); an image has
    two dimensions; the loop over the vectors is not part of this model: the positions it returns for the first
    pass are those of the grid, in the order of the grid (GridProps, C29). *)
From Verif Require Import PyBase StrModel GridModel MaskModel.

(** what fixes the grid of a pass: [shape_crop_im0] and [int(np.round(overlap * scim))] for the two axes *)
Notation pass_params := ((Z * Z) * (Z * Z))%type.
Notation grid := (list Z * list Z * list Z * list Z)%type.

(** works/piv/multipass.py:192-198, [WorkPIV._prepare_with_image] *)
Definition prepare_all (imshape : Z * Z) (passes : list pass_params) : result (list grid) :=
  map_result (fun p => prepare_with_image imshape (fst p) (snd p)) passes.

(** postproc/piv.py:65-109, [get_grid_pixel] *)
Definition get_grid_pixel (passes : list pass_params) (imshape : Z * Z) (index_pass : Z) : result (list Z * list Z) :=
  do works <- prepare_all imshape passes ;
  do w <- py_get works index_pass ;
  let '(ixvecs, iyvecs, _, _) := w in
  Ok (ixvecs, iyvecs).

(** A result of a pass: the couple kept in the result and the positions of the vectors *)
Record piv_result (A : Type) := mk_piv_result { r_couple : couple A; r_xys : list (Z * Z) }.
Arguments mk_piv_result {A}. Arguments r_couple {A}. Arguments r_xys {A}.

(** data_objects/piv.py:535, [HeavyPIVResults.get_grid_pixel] *)
Definition result_grid_pixel {A} (passes : list pass_params) (r : piv_result A) (index_pass : Z) : result (list Z * list Z) :=
  get_grid_pixel passes (shape_images (r_couple r)) index_pass.

(** data_objects/piv.py:768-769, [MultipassPIVResults.get_grid_pixel]; [rs] is the attribute [passes] *)
Definition multipass_grid_pixel {A} (passes : list pass_params) (rs : list (piv_result A)) (index_pass : Z)
  : result (list Z * list Z) :=
  do r <- py_get rs index_pass ;
  result_grid_pixel passes r index_pass.

(** works/piv/singlepass.py:150-185, [FirstWorkPIV.calcul].  The state of the work is its grid (the attribute
    [ixvecs_grid] and the others), [None] until the first image.  The positions are converted elementwise. *)
Definition first_pass {A} (m : mask) (p : pass_params) (st : option grid) (c : couple A)
  : result (piv_result A) * option grid :=
  match apply_mask c (Some m) with
  | (Err e, _) => (Err e, st)
  | (Ok _, c') =>
    match arrays c' with
    | im0 :: _ =>
      match (match st with
             | Some g => Ok g
             | None => prepare_with_image (shape im0) (fst p) (snd p)
             end) with
      | Err e => (Err e, st)
      | Ok g =>
        let '(_, _, gx, gy) := g in
        match map_result (original_from_masked m) (combine gx gy) with
        | Err e => (Err e, Some g)
        | Ok xys => (Ok (mk_piv_result c' xys), Some g)
        end
      end
    | [] => (Err ValueError, st)
    end
  end.

(** the calls of [calcul] of one work on the couples of a series *)
Fixpoint run {A} (m : mask) (p : pass_params) (st : option grid) (cs : list (couple A)) : list (result (piv_result A)) :=
  match cs with
  | [] => []
  | c :: cs => let '(r, st) := first_pass m p st c in r :: run m p st cs
  end.

(** works/piv/singlepass.py:822-863: the middle of the two windows of a vector of a displaced pass, times 2
    ([positions_displaced] of GridModel), for the node [(gx, gy)] and the displacement [(dx, dy)] *)
Definition middle2 (imshape : Z * Z) (gx gy dx dy : Z) : Z * Z := snd (positions_displaced imshape 0 gx gy dx dy).

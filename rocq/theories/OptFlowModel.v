(** works/optical_flow.py: the function [optical_flow] (lines 32-70) and WorkOpticalFlow.calcul (lines 187-229).

    Simplifications: exact real numbers; the couple is already built and its images cropped by the mask (property C53), [offx]
    and [offy] are the starts of the slices of the crop (0 for None).  The functions of OpenCV are parameters. *)
From Coq Require Import Reals.
From Verif Require Import PyBase PivPassModel.
Local Open Scope R_scope.

Definition CvError := UserError 61.
Definition point : Type := R * R.

Section Flow.
Context {I : Type}.                                          (* images *)
(** cv2.goodFeaturesToTrack: None if there is no corner *)
Variable good_features : I -> option (list point).
(** cv2.calcOpticalFlowPyrLK: for each point the new position and the status (false: the flow has not been found) *)
Variable track : I -> I -> list point -> list (point * bool).

Definition psub (p q : point) : point := (fst p - fst q, snd p - snd q).
Definition norm (d : point) : R := sqrt (fst d ^ 2 + snd d ^ 2).
(** [abs(p - q).max(-1)] *)
Definition diff_max (p q : point) : R := Rmax (Rabs (fst p - fst q)) (Rabs (snd p - snd q)).
Definition map2 {A B D} (f : A -> B -> D) (l : list A) (m : list B) : list D := map (fun '(a, b) => f a b) (combine l m).
Definition Rltb (a b : R) : bool := if Rlt_dec a b then true else false.
(** [norm < vmax] with [vmax = np.inf] for None *)
Definition below (vmax : option R) (n : R) : bool := match vmax with None => true | Some v => Rltb n v end.

Definition optical_flow (im0 im1 : I) (threshold : R) (vmin vmax : option R) : result (list point * list point) :=
  match good_features im0 with
  | None => Err CvError                                       (* calcOpticalFlowPyrLK(..., None, ...) *)
  | Some positions0 =>
    let positions1 := map fst (track im0 im1 positions0) in
    let positions0r := map fst (track im1 im0 positions1) in
    let displacements := map2 psub positions1 positions0 in
    let diff := map2 diff_max positions0 positions0r in
    let correct_values := map (fun d => Rltb d threshold) diff in
    do positions <- select correct_values positions0 ;
    do displacements <- select correct_values displacements ;
    match vmin, vmax with
    | None, None => Ok (positions, displacements)
    | _, _ =>
      let vmin := match vmin with None => 0 | Some v => v end in
      let cond := map (fun d => Rltb vmin (norm d) && below vmax (norm d)) displacements in
      do positions <- select cond positions ;
      do displacements <- select cond displacements ;
      Ok (positions, displacements)
    end
  end.

(** lines 202-229: xs, ys, deltaxs, deltays *)
Definition calcul_flow (offx offy : Z) (im0 im1 : I) (threshold : R) (vmin vmax : option R)
  : result ((list R * list R) * (list R * list R)) :=
  do (positions, displacements) <- optical_flow im0 im1 threshold vmin vmax ;
  Ok ((map (fun p => fst p + IZR offx) positions, map (fun p => snd p + IZR offy) positions),
      (map fst displacements, map snd displacements)).
End Flow.

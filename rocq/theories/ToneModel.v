(** The tools of preprocessing which change the brightness and the contrast: works/preproc/_toolbox_py.py:292-491
    (rescale_intensity, rescale_intensity_tanh, equalize_hist_adapt, equalize_hist_local, adaptive_threshold, sharpen).

    Simplifications: an image is the list of its pixels (2d image given to the tool, see io.py in ToolboxModel.v for several
    images); the float numbers are real numbers, infinities and nan without rounding ([fl]); integers wrap as in numpy.
    The functions of scipy and skimage are parameters, except skimage.exposure.rescale_intensity, the documented behaviour
    of which is [sk_rescale]. *)
From Coq Require Import Reals.
From Verif Require Import PyBase FloatBase.
From Verif Require ToolboxModel.
Open Scope R_scope.

Notation dtype := ToolboxModel.dtype.
Inductive image := Ints (d : dtype) (p : list Z) | Floats (p : list fl).
Definition vals (im : image) : list fl := match im with Ints _ p => map (fun n => Fin (IZR n)) p | Floats p => p end.

Definition ftanh (x : fl) : fl := match x with NaN => NaN | PInf => Fin 1 | NInf => Fin (-1) | Fin r => Fin (tanh r) end.
Definition ffloor (x : fl) : fl := match x with Fin r => Fin (IZR (Int_part r)) | _ => x end.

(** [np.mean(img**2)]: the squares of integers have the dtype of the image *)
Definition mean (l : list fl) : fl := fdiv (fsum l) (Fin (INR (List.length l))).
Definition mean_square (im : image) : fl :=
  match im with
  | Ints d p => mean (map (fun n => Fin (IZR (ToolboxModel.wrap d (n * n)%Z))) p)
  | Floats p => mean (map (fun x => fmul x x) p)
  end.

(** _toolbox_py.py:347-348, the default threshold *)
Definition default_threshold (im : image) : fl := fmul (Fin 2) (fsqrt (mean_square im)).

(** _toolbox_py.py:331-355; [np.max] of an empty array raises ValueError *)
Definition rescale_intensity_tanh (im : image) (threshold : option R) : result image :=
  let t := match threshold with Some t => Fin t | None => default_threshold im end in
  if fis0 t then Ok im
  else
    let img_out := map (fun x => ftanh (fdiv x t)) (vals im) in
    match vals im with
    | [] => Err ValueError
    | _ =>
      let s := fdiv (fmax (vals im)) (fmax img_out) in
      Ok (Floats (map (fun x => ffloor (fmul s x)) img_out))
    end.

(** the minimum and the maximum of an image; ValueError for an empty array *)
Definition rmin (l : list R) : result R := match l with [] => Err ValueError | a :: l' => Ok (fold_left Rmin l' a) end.
Definition rmax (l : list R) : result R := match l with [] => Err ValueError | a :: l' => Ok (fold_left Rmax l' a) end.
(** [np.clip(x, lo, hi)] *)
Definition clip (lo hi x : R) : R := Rmin hi (Rmax lo x).

(** skimage.exposure.rescale_intensity(image, out_range=(omin, omax)) *)
Definition sk_rescale (l : list R) (omin omax : R) : result (list R) :=
  do imin <- rmin l ;
  do imax <- rmax l ;
  if Req_EM_T imin imax then Ok (map (clip omin omax) l)
  else Ok (map (fun x => (x - imin) / (imax - imin) * (omax - omin) + omin) l).

(** _toolbox_py.py:312-328 *)
Definition rescale_intensity (l : list R) (minima maxima : R) : result (list R) := sk_rescale l minima maxima.

(** _toolbox_py.py:382-408 and 411-437; [equalize]: exposure.equalize_adapthist, or img_as_ubyte and filters.rank.equalize *)
Definition equalize_hist (equalize : list R -> list R) (l : list R) : result (list R) :=
  do minimum <- rmin l ;
  do maximum <- rmax l ;
  do img <- rescale_intensity l 0 1 ;
  rescale_intensity (equalize img) minimum maximum.

(** _toolbox_py.py:292-309; [local_mean window]: the weighted mean of filters.threshold_local *)
Definition adaptive_threshold (local_mean : Z -> list R -> list R) (l : list R) (window_size : Z) (offset : R) : list R :=
  map (fun m => m - offset) (local_mean window_size l).

(** numpy: a difference has the dtype of the integers; a product with a float and a sum with floats are floats *)
Fixpoint zip {A B C} (f : A -> B -> C) (a : list A) (b : list B) : list C :=
  match a, b with x :: a', y :: b' => f x y :: zip f a' b' | _, _ => [] end.
Definition sub (a b : image) : image :=
  match a, b with
  | Ints d p, Ints _ q => Ints d (zip (fun x y => ToolboxModel.wrap d (x - y)%Z) p q)
  | _, _ => Floats (zip fsub (vals a) (vals b))
  end.
(** _toolbox_py.py:471-491; [gaussian_filter sigma]: scipy.ndimage.gaussian_filter, which keeps the dtype *)
Definition sharpen (gaussian_filter : R -> image -> image) (im : image) (sigma1 sigma2 alpha : R) : image :=
  let blurred := gaussian_filter sigma1 im in
  let filter_blurred := gaussian_filter sigma2 blurred in
  Floats (zip fadd (vals blurred) (map (fmul (Fin alpha)) (vals (sub blurred filter_blurred)))).

(** The files of the reconstruction of a volume (reconstruct/tomo/mlos.py: TomoMLOSBase.__init__ and
    reconstruct; data_objects/tomo.py: init_paths, save, load, load_dataset, clear).

    Simplifications: a file is its intensities (the coordinates of the grid are not modelled) or is
    not readable; the directory of the results exists or is created by save; the directories of the
    images are in the parameter [file_of]. *)
From Coq Require Import String Ascii.
From Verif Require Import PyBase.
Import ListNotations.
Open Scope Z_scope.

(** OSError of h5py for a file which cannot be read *)
Definition OSError : exn := UserError 67.

Section Files.
Variable V : Type.                        (* an intensity *)
Variable mul : V -> V -> V.
Variable one : V.
Variable root : V -> V.                   (* [v ** (1.0 / len(self.cams))] *)
Variable image : Type.
Variable file_of : image -> string.       (* tomo.py:91-97 and 170-171: ../tomo/<name of the image>.h5 *)
Variable tmp_of : string -> string.       (* tomo.py:144-145: <name>_tmp.h5 *)

Inductive content := Good (l : list V) | Broken.

(** the attribute [I] of the array: a numpy array, a dask array which can be computed, or a dask
    array computed from a file which has been closed and removed *)
Inductive volume := Mem (l : list V) | Lazy (l : list V) | Closed.

Record state := { vol : volume; h5file_path : option string; fs : list (string * content) }.

(** the files, by name *)
Fixpoint fs_get (p : string) (f : list (string * content)) : option content :=
  match f with
  | [] => None
  | (q, c) :: f => if String.eqb p q then Some c else fs_get p f
  end.
Fixpoint fs_del (p : string) (f : list (string * content)) : list (string * content) :=
  match f with
  | [] => []
  | (q, c) :: f => if String.eqb p q then fs_del p f else (q, c) :: fs_del p f
  end.
Definition fs_set (p : string) (c : content) (f : list (string * content)) : list (string * content) := (p, c) :: fs_del p f.

(** the use of the values of [I] *)
Definition read_I (s : state) : result (list V) :=
  match vol s with Mem l | Lazy l => Ok l | Closed => Err ValueError end.

(** tomo.py:91-97 *)
Definition init_paths (im : image) (s : state) : state :=
  {| vol := vol s; h5file_path := Some (file_of im); fs := fs s |}.

(** the product of two arrays of the same size; simplification: the repetition by numpy of an array of
    one voxel is not modelled *)
Definition product (a b : list V) : result (list V) :=
  if zlen a =? zlen b then Ok (map (fun ab => mul (fst ab) (snd ab)) (combine a b)) else Err ValueError.

(** mlos.py:65-98 with save=True; [im]: the image, of which only the attribute image_path of the
    array is set (line 79); [values]: the intensities of the image interpolated at the pixels of the
    voxels.  The state after an exception is returned too. *)
Definition reconstruct_save (im : image) (values : list V) (s : state) : result unit * state :=
  let i_vox := map root values in
  match h5file_path s with
  | None => (Err AttributeError, s)
  | Some p =>
      match fs_get p (fs s) with
      | Some c =>
          (* load_dataset(copy=True), tomo.py:141-168 *)
          let fs1 := fs_set (tmp_of p) c (fs s) in
          match c with
          | Broken => (Err OSError, {| vol := vol s; h5file_path := Some p; fs := fs1 |})
          | Good dset =>
              match product dset i_vox with
              | Err e => (Err e, {| vol := Lazy dset; h5file_path := Some p; fs := fs1 |})
              | Ok prod =>
                  (Ok tt, {| vol := Closed; h5file_path := Some p; fs := fs_del (tmp_of p) (fs_set p (Good prod) fs1) |})
              end
          end
      | None => (Ok tt, {| vol := Lazy i_vox; h5file_path := Some p; fs := fs_set p (Good i_vox) (fs s) |})
      end
  end.

(** mlos.py:98, save=False; the product of a dask array is not computed *)
Definition reconstruct_memory (im : image) (values : list V) (s : state) : result unit * state :=
  let i_vox := map root values in
  let ret v := (Ok tt, {| vol := v; h5file_path := h5file_path s; fs := fs s |}) in
  match vol s with
  | Mem l => match product l i_vox with Ok prod => ret (Mem prod) | Err e => (Err e, s) end
  | Lazy l => match product l i_vox with Ok prod => ret (Lazy prod) | Err e => (Err e, s) end
  | Closed => ret Closed
  end.

(** tomo.py:118-126 *)
Definition clear (s : state) : result unit * state :=
  let v := match vol s with Mem l => Mem (repeat one (List.length l)) | v => v end in
  match h5file_path s with
  | None => (Err AttributeError, {| vol := v; h5file_path := None; fs := fs s |})
  | Some p => (Ok tt, {| vol := v; h5file_path := Some p; fs := fs_del p (fs s) |})
  end.

(** tomo.py:128-139 with [h5file_path=None] *)
Definition load (s : state) : result unit * state :=
  match h5file_path s with
  | None => (Err AttributeError, s)
  | Some p =>
      match fs_get p (fs s) with
      | None => (Err FileNotFoundError, s)
      | Some Broken => (Err OSError, s)
      | Some (Good l) => (Ok tt, {| vol := Mem l; h5file_path := Some p; fs := fs s |})
      end
  end.

(** The writes of reconstruct_save on the files, one after the other, when the file exists: the copy
    is opened and filled (shutil.copyfile), the file is emptied by its opening with the mode "w"
    (tomo.py:181), filled, and the copy is removed.  [junk]: what a file holds if the program stops
    while it is written (not readable, or, when the exception closes the file, intensities of which
    only a part has been stored). *)
Inductive effect := ESet (p : string) (c : content) | EDel (p : string).
Definition apply_effect (f : list (string * content)) (e : effect) : list (string * content) :=
  match e with ESet p c => fs_set p c f | EDel p => fs_del p f end.
Definition effects (junk : content) (p : string) (c : content) (prod : list V) : list effect :=
  [ESet (tmp_of p) Broken; ESet (tmp_of p) c; ESet p junk; ESet p (Good prod); EDel (tmp_of p)].
Definition stopped_after (k : nat) (junk : content) (p : string) (c : content) (prod : list V) (f : list (string * content)) :=
  fold_left apply_effect (firstn k (effects junk p c prod)) f.
End Files.
Arguments Good {V}. Arguments Broken {V}. Arguments Mem {V}. Arguments Lazy {V}. Arguments Closed {V}.
Arguments vol {V}. Arguments h5file_path {V}. Arguments fs {V}. Arguments Build_state {V}.

(** ** The cameras, mlos.py:57-63 *)
Section Cameras.
Variable calib : Type.
Variable array : Type.
(** the attributes of the object *)
Inductive attribute := ACalib (c : calib) | AArray (a : array) | ACams (l : list string).

(** [Path(cam).name.split(".")[0]]: [name] is the name of the file *)
Fixpoint before_dot (name : string) : string :=
  match name with
  | EmptyString => EmptyString
  | String c rest => if Ascii.eqb c "."%char then EmptyString else String c (before_dot rest)
  end.

(** the attributes of an object, the last value given to a name first *)
Fixpoint getattr (k : string) (attrs : list (string * attribute)) : result attribute :=
  match attrs with
  | [] => Err AttributeError
  | (q, v) :: attrs => if String.eqb k q then Ok v else getattr k attrs
  end.
Definition setattr (k : string) (v : attribute) (attrs : list (string * attribute)) := (k, v) :: attrs.

(** one turn of the loop: [self.cams.append(cam_name)], [setattr(self, cam_name, cls_calib(cam))] *)
Definition add_camera (attrs : list (string * attribute)) (cam : string * calib) : result (list (string * attribute)) :=
  let cam_name := before_dot (fst cam) in
  do cams <- getattr "cams"%string attrs ;
  match cams with
  | ACams l => Ok (setattr cam_name (ACalib (snd cam)) (setattr "cams"%string (ACams (l ++ [cam_name])) attrs))
  | _ => Err AttributeError
  end.
Definition new_object (a : array) (cams : list (string * calib)) : result (list (string * attribute)) :=
  py_for add_camera cams [("cams"%string, ACams []); ("array"%string, AArray a)].
End Cameras.

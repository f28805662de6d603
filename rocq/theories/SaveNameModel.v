(** The file in which a result of PIV is saved (data_objects/piv.py: _get_name and the beginning of
    save of HeavyPIVResults, MultipassPIVResults and LightPIVResults; file_name and the attributes of
    the couple after a load).

    Not modelled: what is written in the file (see PivFileModel), h5netcdf. *)
From Coq Require Import String.
From Verif Require Import PyBase StrModel NameModel UvmatModel.
Open Scope Z_scope.

(** *** posixpath *)

Fixpoint span {A} (f : A -> bool) (l : list A) : list A * list A :=
  match l with
  | [] => ([], [])
  | a :: l' => if f a then (a :: fst (span f l'), snd (span f l')) else ([], l)
  end.
Definition not_char (c : ascii) (a : ascii) : bool := negb (Ascii.eqb a c).
Definition dot : ascii := "."%char.

(** [os.path.basename(p)] *)
Definition basename (p : chars) : chars := rev (fst (span (not_char slash) (rev p))).
(** [os.path.splitext(p)[1]]: from the last dot of the name, if it is not one of its first dots *)
Definition extension (p : chars) : chars :=
  let '(ext, before) := span (not_char dot) (rev (basename p)) in
  match before with
  | [] => []
  | _ :: stem => if existsb (not_char dot) stem then dot :: rev ext else []
  end.

(** *** The objects *)

(** the attributes of a series of fluiddyn which are used *)
Record serie := { s_dims : list dim; s_slicing : list (list Z); s_base_name : chars; s_extension : option chars }.
(** the attributes [name] and [serie] of a couple; None: the attributes do not exist, which is the case
    of a couple read in a file (lines 184-204) *)
Definition couple := option (chars * option serie).
(** a couple made with the names and the arrays of two images (lines 110-127), ["-".join(self.names)] *)
Definition new_couple (name0 name1 : chars) : couple := Some (join (of_string "-") [name0; name1], None).
(** a result of one pass *)
Definition heavy := couple.
Record multi := { m_file_name : option chars; m_passes : list heavy }.
Record light := { l_file_name : option chars; l_couple : couple }.

(** [HeavyPIVResults(str_path=path)] (lines 455-458, 467-468); its [file_name] is never used *)
Definition load_heavy (path : chars) : heavy := None.
(** [MultipassPIVResults(path)] (lines 619-639), for a file with [nb] passes *)
Definition load_multi (path : chars) (nb : nat) : multi :=
  {| m_file_name := Some (basename path); m_passes := repeat None nb |}.
(** [LightPIVResults(str_path=path)] (lines 796-797, 807-809, 870-881) *)
Definition load_light (path : chars) : light := {| l_file_name := None; l_couple := None |}.
(** make_light_result (lines 716-742), without the arrays *)
Definition make_light_result (m : multi) (ind_pass : Z) : result light :=
  do piv <- py_get (m_passes m) ind_pass ;
  Ok {| l_file_name := m_file_name m; l_couple := piv |}.

(** *** The names *)

(** HeavyPIVResults._get_name (lines 352-361); None is returned for another kind *)
Definition heavy_name (c : heavy) (kind : option chars) : result (option chars) :=
  match c with
  | None => Err AttributeError
  | Some (name, serie) =>
      match kind with
      | None =>
          match serie with
          | None => Ok (Some (name ++ of_string ".h5"))
          | Some s => do n <- get_name_piv (of_string "piv") (s_dims s) (s_slicing s) ; Ok (Some n)
          end
      | Some k =>
          if chars_eqb k (of_string "bos") then
            match serie with
            | None => Err AttributeError
            | Some s => Ok (Some (get_name_bos (s_base_name s) (s_extension s) name))
            end
          else Ok None
      end
  end.

(** MultipassPIVResults._get_name (lines 579-584) *)
Definition multi_name (m : multi) (kind : option chars) : result (option chars) :=
  match m_file_name m with
  | Some f => Ok (Some f)
  | None => do r <- py_get (m_passes m) 0 ; heavy_name r kind
  end.

Section Light.
(** [serie.compute_str_indices_from_indices], of fluiddyn *)
Variable str_inds : serie -> list Z -> result chars.

(** LightPIVResults._get_name (lines 819-834) *)
Definition light_name (l : light) (kind : option chars) : result (option chars) :=
  match l_file_name l with
  | Some f => Ok (Some (py_slice f 0 (-3) ++ of_string "_light.h5"))
  | None =>
      match l_couple l with
      | None => Err AttributeError
      | Some (_, None) => Err AttributeError
      | Some (_, Some s) =>
          do firsts <- map_result (fun inds => py_get inds 0) (s_slicing s) ;
          do str0 <- str_inds s firsts ;
          do lasts <- map_result (fun inds => do stop <- py_get inds 1 ; Ok (stop - 1)) (s_slicing s) ;
          do str1 <- str_inds s lasts ;
          Ok (Some (of_string "piv_" ++ s_base_name s ++ str0 ++ of_string "-" ++ str1 ++ of_string "_light.h5"))
      end
  end.

(** lines 366-369 and 839-842: the path of the file; TypeError in os.path.join or in h5py.File when the
    name is None *)
Definition in_directory (path name : option chars) : result chars :=
  match name with
  | None => Err TypeError
  | Some n => Ok (match path with Some p => path_join p n | None => n end)
  end.

(** HeavyPIVResults.save (lines 363-379) *)
Definition save_heavy (c : heavy) (kind path : option chars) : result chars :=
  do name <- heavy_name c kind ;
  in_directory path name.

(** MultipassPIVResults.save (lines 586-617) *)
Definition save_multi (m : multi) (kind path : option chars) : result chars :=
  do name <- multi_name m kind ;
  match path with
  | Some p => if existsb (chars_eqb (extension p)) [of_string ".h5"; of_string ".nc"] then Ok p else in_directory path name
  | None => in_directory path name
  end.

(** LightPIVResults.save (lines 836-853) *)
Definition save_light (l : light) (kind path : option chars) : result chars :=
  do name <- light_name l kind ;
  in_directory path name.
End Light.

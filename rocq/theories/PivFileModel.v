(** Model of the files of PIV results: data_objects/piv.py (HeavyPIVResults, MultipassPIVResults, LightPIVResults).

    HDF5 (library h5py, not in this repository): a group maps names to nodes; the iteration on its keys follows the
    alphabetical order of the names (h5py without track_order), creating a node with an existing name is an error
    (ValueError) and reading a missing name is a KeyError.  A dataset written from an array gives back this array.
    A dataset written from a list of bytes has fixed length strings, so that the NUL characters at the end of the
    strings are lost. *)
From Verif Require Import PyBase StrModel.
Local Open Scope Z_scope.

(** order of the names: comparison of the bytes *)
Fixpoint name_ltb (s t : chars) : bool :=
  match s, t with
  | [], [] => false
  | [], _ :: _ => true
  | _ :: _, [] => false
  | a :: s', b :: t' =>
      let x := Ascii.nat_of_ascii a in let y := Ascii.nat_of_ascii b in
      if (x <? y)%nat then true else if (y <? x)%nat then false else name_ltb s' t'
  end.
Fixpoint name_eqb (s t : chars) : bool :=
  match s, t with [], [] => true | a :: s', b :: t' => Ascii.eqb a b && name_eqb s' t' | _, _ => false end.

Fixpoint lookup {A} (k : chars) (l : list (chars * A)) : option A :=
  match l with [] => None | (k', v) :: l' => if name_eqb k k' then Some v else lookup k l' end.
(** creation of a node in a group *)
Fixpoint insert {A} (k : chars) (v : A) (l : list (chars * A)) : list (chars * A) :=
  match l with [] => [(k, v)] | (k', v') :: l' => if name_ltb k k' then (k, v) :: l else (k', v') :: insert k v l' end.
Definition create {A} (k : chars) (v : A) (g : list (chars * A)) : result (list (chars * A)) :=
  match lookup k g with Some _ => Err ValueError | None => Ok (insert k v g) end.
Definition getitem {A} (k : chars) (g : list (chars * A)) : result A :=
  match lookup k g with Some v => Ok v | None => Err KeyError end.
Definition keys {A} (g : list (chars * A)) : list chars := map fst g.

Section PivFile.
Variable V : Type.            (* numbers *)
Variable f32 : V -> V.        (* rounding to single precision *)
Variables Params Couple : Type.

(** 1d arrays of numpy: float64, float32 or integers *)
Inductive array := AF64 (l : list V) | AF32 (l : list V) | AInt (l : list Z).
(** keys and values of the dictionaries: [int], [str], [bytes], [float] *)
Inductive pyval := VInt (n : Z) | VStr (s : chars) | VBytes (s : chars) | VNum (v : V).
Definition pydict : Type := list (pyval * pyval).

Inductive node := NArr (a : array) | NList (l : list pyval) | NGroup (g : list (chars * node)).
Definition group : Type := list (chars * node).

(** the attributes of a result ([self.__dict__]): arrays or None, dictionaries or None, and the splines *)
Record heavy := mk_heavy {
  h_arrays : list (chars * option array);
  h_dicts : list (chars * option pydict);
  h_tps : option (list array * list array);
  h_params : Params;
  h_couple : Couple }.

(** HeavyPIVResults._keys_to_be_saved (lines 256-274), _dict_to_be_saved (line 276) *)
Definition keys_to_be_saved : list chars := map of_string
  ["xs"; "ys"; "xs_smooth"; "ys_smooth"; "deltaxs"; "deltays"; "correls_max"; "deltaxs_approx"; "deltays_approx";
   "ixvecs_approx"; "iyvecs_approx"; "deltaxs_final"; "deltays_final"; "deltaxs_smooth"; "deltays_smooth";
   "ixvecs_final"; "iyvecs_final"]%string.
Definition dict_to_be_saved : list chars := map of_string ["errors"; "deltaxs_wrong"; "deltays_wrong"]%string.

(** lines 399-401 *)
Definition cast (a : array) : array := match a with AF64 l => AF32 (map f32 l) | _ => a end.

(** lines 397-402 *)
Definition save_array (h : heavy) (g : group) (k : chars) : result group :=
  match lookup k (h_arrays h) with
  | Some (Some a) => create k (NArr (cast a)) g
  | _ => Ok g
  end.

(** lines 413-424: the loop stops at the first element which is not a str *)
Fixpoint encode_list (l : list pyval) : list pyval :=
  match l with VStr s :: l' => VBytes s :: encode_list l' | _ => l end.

Fixpoint strip_nul_rev (l : chars) : chars := match l with "000"%char :: l' => strip_nul_rev l' | _ => l end.
Definition strip_nul (s : chars) : chars := rev (strip_nul_rev (rev s)).
(** [create_dataset(data=values)] for a list of bytes, of int or of float; lists with elements of different types are
    not modelled (NotImplementedError) *)
Definition is_int (v : pyval) : bool := match v with VInt _ => true | _ => false end.
Definition is_bytes (v : pyval) : bool := match v with VBytes _ => true | _ => false end.
Definition is_num (v : pyval) : bool := match v with VNum _ => true | _ => false end.
Definition dataset_of_list (l : list pyval) : result (list pyval) :=
  if forallb is_bytes l then Ok (map (fun v => match v with VBytes s => VBytes (strip_nul s) | _ => v end) l)
  else if forallb is_int l || forallb is_num l then Ok l
  else Err NotImplementedError.

Fixpoint startswith (s t : chars) : bool :=
  match t, s with [], _ => true | b :: t', a :: s' => Ascii.eqb a b && startswith s' t' | _ :: _, [] => false end.
(** lines 432-443; [error.startswith(b"...")]: TypeError for a str, AttributeError for a number *)
Definition error_code (v : pyval) : result pyval :=
  match v with
  | VBytes s =>
      Ok (VInt (if startswith s (of_string "Correlation peak touching") then 1
                else if startswith s (of_string "correl < correl_min") then 2
                else if startswith s (of_string "delta2 < displacement_max2") then 3
                else if startswith s (of_string "diff neighbour too large") then 4
                else 255))
  | VStr _ => Err TypeError
  | _ => Err AttributeError
  end.
Fixpoint map_res {A B} (f : A -> result B) (l : list A) : result (list B) :=
  match l with [] => Ok [] | a :: l' => do b <- f a ; do r <- map_res f l' ; Ok (b :: r) end.

(** lines 404-444 *)
Definition save_dict (h : heavy) (g_piv : group) (name : chars) : result group :=
  match lookup name (h_dicts h) with
  | Some (Some d) =>
      let ks := encode_list (map fst d) in
      let vs := encode_list (map snd d) in
      do dk <- dataset_of_list ks ;
      do g <- create (of_string "keys") (NList dk) [] ;
      do dv <- dataset_of_list vs ;
      do g <- create (of_string "values") (NList dv) g ;
      do g <- (if name_eqb name (of_string "errors") then
                 do codes <- map_res error_code vs ; create (of_string "codes") (NList codes) g
               else Ok g) ;
      create name (NGroup g) g_piv
  | _ => Ok g_piv
  end.

(** lines 448-449: [for i, arr in enumerate(tps): g.create_dataset(f"subdom{i}", data=arr)] *)
Definition subdom_name (i : Z) : chars := of_string "subdom" ++ py_str i.
Fixpoint save_subdoms (i : Z) (l : list array) (g : group) : result group :=
  match l with
  | [] => Ok g
  | a :: l' => do g <- create (subdom_name i) (NArr a) g ; save_subdoms (i + 1) l' g
  end.
(** lines 446-453 *)
Definition save_tps (h : heavy) (g_piv : group) : result group :=
  match h_tps h with
  | None => Ok g_piv
  | Some (tx, ty) =>
      do gx <- save_subdoms 0 tx [] ;
      do g_piv <- create (of_string "deltaxs_tps") (NGroup gx) g_piv ;
      do gy <- save_subdoms 0 ty [] ;
      create (of_string "deltays_tps") (NGroup gy) g_piv
  end.

(** a file: the class, the parameters, the couple, and the groups *)
Record file := mk_file {
  f_class : chars; f_nb_passes : option Z; f_params : option Params; f_couple : option Couple; f_groups : group }.

(** HeavyPIVResults._save_in_hdf5_object (lines 382-453) *)
Definition save_in_hdf5_object (h : heavy) (tag : chars) (f : file) : result file :=
  let p := match f_params f with Some p => p | None => h_params h end in
  let c := match f_couple f with Some c => c | None => h_couple h end in
  do g <- py_for (save_array h) keys_to_be_saved [] ;
  do g <- py_for (save_dict h) dict_to_be_saved g ;
  do g <- save_tps h g ;
  do gs <- create tag (NGroup g) (f_groups f) ;
  Ok (mk_file (f_class f) (f_nb_passes f) (Some p) (Some c) gs).

(** *** Loading *)
(** lines 473-476; [dataset[:]] *)
Definition load_array (g : group) (acc : list (chars * option array)) (k : chars) : result (list (chars * option array)) :=
  match lookup k g with
  | Some (NArr a) => Ok (acc ++ [(k, Some a)])
  | Some _ => Err TypeError
  | None => Ok acc
  end.

Definition val_eqb (a b : pyval) : bool :=
  match a, b with
  | VInt n, VInt m => n =? m
  | VStr s, VStr t => name_eqb s t
  | VBytes s, VBytes t => name_eqb s t
  | _, _ => false
  end.
(** [dictionary[key] = value] *)
Fixpoint dict_set (k v : pyval) (d : pydict) : pydict :=
  match d with [] => [(k, v)] | (k', v') :: d' => if val_eqb k k' then (k', v) :: d' else (k', v') :: dict_set k v d' end.
(** lines 489-492: bytes are decoded *)
Definition decode (v : pyval) : pyval := match v with VBytes s => VStr s | _ => v end.
(** lines 483-493.  The keys are not decoded: in [key = k.decode()], [k] is the last name of _keys_to_be_saved, a str,
    so that AttributeError is raised, and ignored *)
Definition load_pairs (ks vs : list pyval) : pydict :=
  fold_left (fun d kv => dict_set (fst kv) (decode (snd kv)) d) (combine ks vs) [].
(** lines 478-497: KeyError is ignored *)
Definition load_dict (g_piv : group) (acc : list (chars * option pydict)) (name : chars)
  : result (list (chars * option pydict)) :=
  match lookup name g_piv with
  | None => Ok acc
  | Some (NGroup g) =>
      match lookup (of_string "keys") g, lookup (of_string "values") g with
      | Some (NList ks), Some (NList vs) => Ok (acc ++ [(name, Some (load_pairs ks vs))])
      | None, _ => Ok acc
      | _, None => Ok acc
      | _, _ => Err TypeError
      end
  | Some _ => Err TypeError
  end.

(** lines 502-503: [for arr in g.keys(): self.deltaxs_tps.append(g[arr][...])] *)
Definition load_subdoms (n : node) : result (list array) :=
  match n with
  | NGroup g =>
      py_for (fun acc k => do n <- getitem k g ; match n with NArr a => Ok (acc ++ [a]) | _ => Err TypeError end) (keys g) []
  | _ => Err TypeError
  end.
(** lines 499-507 *)
Definition load_tps (g : group) : result (option (list array * list array)) :=
  match lookup (of_string "deltaxs_tps") g with
  | None => Ok None
  | Some nx =>
      do tx <- load_subdoms nx ;
      do ny <- getitem (of_string "deltays_tps") g ;
      do ty <- load_subdoms ny ;
      Ok (Some (tx, ty))
  end.

(** HeavyPIVResults._load_from_hdf5_object (lines 460-507), with params and couple given or read in the file *)
Definition load_from_hdf5_object (p : Params) (c : Couple) (n : node) : result heavy :=
  match n with
  | NGroup g =>
      do arrays <- py_for (load_array g) keys_to_be_saved [] ;
      do dicts <- py_for (load_dict g) dict_to_be_saved [] ;
      do tps <- load_tps g ;
      Ok (mk_heavy arrays dicts tps p c)
  | _ => Err TypeError
  end.

(** MultipassPIVResults.save (lines 586-617): tags piv0, piv1... *)
Definition tag (i : Z) : chars := of_string "piv" ++ py_str i.
Fixpoint save_passes (i : Z) (passes : list heavy) (f : file) : result file :=
  match passes with
  | [] => Ok f
  | h :: l => do f <- save_in_hdf5_object h (tag i) f ; save_passes (i + 1) l f
  end.
Definition save_multipass (passes : list heavy) : result file :=
  save_passes 0 passes (mk_file (of_string "MultipassPIVResults") (Some (zlen passes)) None None []).

(** MultipassPIVResults._load (lines 619-639) *)
Definition load_multipass (f : file) : result (list heavy) :=
  match f_params f, f_couple f, f_nb_passes f with
  | Some p, Some c, Some n =>
      py_for (fun acc ip => do g <- getitem (tag ip) (f_groups f) ; do h <- load_from_hdf5_object p c g ; Ok (acc ++ [h])) (range0 n) []
  | _, _, _ => Err KeyError
  end.

(** HeavyPIVResults.save and _load (lines 363-380, 455-458) *)
Definition save_heavy (h : heavy) : result file :=
  save_in_hdf5_object h (tag 0) (mk_file (of_string "HeavyPIVResults") None None None []).
Definition load_heavy (f : file) : result heavy :=
  do g <- getitem (tag 0) (f_groups f) ;
  match f_params f, f_couple f with Some p, Some c => load_from_hdf5_object p c g | _, _ => Err KeyError end.

(** *** Light results *)
Record light := mk_light {
  l_dx : option array; l_dy : option array; l_ix : option array; l_iy : option array; l_params : Params; l_couple : Couple }.

(** attribute of a result: AttributeError if it does not exist *)
Definition getattr (h : heavy) (k : chars) : result (option array) :=
  match lookup k (h_arrays h) with Some a => Ok a | None => Err AttributeError end.

(** MultipassPIVResults.make_light_result (lines 716-742) *)
Definition make_light_result (passes : list heavy) (ind_pass : Z) : result light :=
  do piv <- py_get passes ind_pass ;
  if ind_pass =? -1 then
    do dx <- getattr piv (of_string "deltaxs_final") ;
    do dy <- getattr piv (of_string "deltays_final") ;
    do ix <- getattr piv (of_string "ixvecs_final") ;
    do iy <- getattr piv (of_string "iyvecs_final") ;
    Ok (mk_light dx dy ix iy (h_params piv) (h_couple piv))
  else
    do dx <- getattr piv (of_string "deltaxs_approx") ;
    do dy <- getattr piv (of_string "deltays_approx") ;
    do ix <- getattr piv (of_string "ixvecs_approx") ;
    do iy <- getattr piv (of_string "ixvecs_approx") ;
    Ok (mk_light dx dy ix iy (h_params piv) (h_couple piv)).

(** LightPIVResults._save_in_hdf5_object (lines 855-870): no cast; [create_dataset(k, data=None)] is a TypeError *)
Definition light_attrs (l : light) : list (chars * option array) :=
  [(of_string "ixvecs_final", l_ix l); (of_string "iyvecs_final", l_iy l);
   (of_string "deltaxs_final", l_dx l); (of_string "deltays_final", l_dy l)].
Definition save_light (l : light) : result file :=
  do g <- py_for (fun g ka => match snd ka with Some a => create (fst ka) (NArr a) g | None => Err TypeError end) (light_attrs l) [] ;
  do gs <- create (of_string "piv") (NGroup g) [] ;
  Ok (mk_file (of_string "LightPIVResults") None (Some (l_params l)) (Some (l_couple l)) gs).

(** [max(keys)] for the keys which contain "piv" (lines 881-883) *)
Fixpoint contains (s t : chars) : bool := startswith s t || match s with [] => false | _ :: s' => contains s' t end.
Definition max_key (ks : list chars) : result chars :=
  match ks with [] => Err ValueError | k :: l => Ok (fold_left (fun m x => if name_ltb m x then x else m) l k) end.
(** LightPIVResults._load and _load_from_hdf5_object (lines 872-901); a missing dataset gives no attribute.  The keys of
    the file are those of the groups and also "params" and "couple", which do not contain "piv" *)
Definition load_light (f : file) : result light :=
  match f_params f, f_couple f with
  | Some p, Some c =>
      do k <- max_key (filter (fun k => contains k (of_string "piv")) (keys (f_groups f))) ;
      do n <- getitem k (f_groups f) ;
      match n with
      | NGroup g =>
          let arr k := match lookup k g with Some (NArr a) => Some a | _ => None end in
          Ok (mk_light (arr (of_string "deltaxs_final")) (arr (of_string "deltays_final"))
                       (arr (of_string "ixvecs_final")) (arr (of_string "iyvecs_final")) p c)
      | _ => Err TypeError
      end
  | _, _ => Err KeyError
  end.
End PivFile.
Arguments AF64 {V}. Arguments AF32 {V}. Arguments AInt {V}. Arguments VInt {V}. Arguments VStr {V}. Arguments VBytes {V}. Arguments VNum {V}.
Arguments NArr {V}. Arguments NList {V}. Arguments NGroup {V}.
Arguments mk_heavy {V Params Couple}. Arguments h_arrays {V Params Couple}. Arguments h_dicts {V Params Couple}. Arguments h_tps {V Params Couple}.
Arguments h_params {V Params Couple}. Arguments h_couple {V Params Couple}.
Arguments mk_file {V Params Couple}. Arguments f_class {V Params Couple}. Arguments f_nb_passes {V Params Couple}. Arguments f_params {V Params Couple}.
Arguments f_couple {V Params Couple}. Arguments f_groups {V Params Couple}.
Arguments mk_light {V Params Couple}. Arguments l_dx {V Params Couple}. Arguments l_dy {V Params Couple}. Arguments l_ix {V Params Couple}.
Arguments l_iy {V Params Couple}. Arguments l_params {V Params Couple}. Arguments l_couple {V Params Couple}.
Arguments cast {V}. Arguments encode_list {V}. Arguments dataset_of_list {V}. Arguments error_code {V}. Arguments save_dict {V Params Couple}.
Arguments save_array {V} f32 {Params Couple}. Arguments save_subdoms {V}. Arguments save_tps {V Params Couple}.
Arguments save_in_hdf5_object {V} f32 {Params Couple}. Arguments load_array {V}. Arguments dict_set {V}. Arguments decode {V}. Arguments load_pairs {V}.
Arguments load_dict {V}. Arguments load_subdoms {V}. Arguments load_tps {V}. Arguments load_from_hdf5_object {V Params Couple}.
Arguments save_passes {V} f32 {Params Couple}. Arguments save_multipass {V} f32 {Params Couple}. Arguments load_multipass {V Params Couple}.
Arguments save_heavy {V} f32 {Params Couple}. Arguments load_heavy {V Params Couple}. Arguments getattr {V Params Couple}.
Arguments make_light_result {V Params Couple}. Arguments light_attrs {V Params Couple}. Arguments save_light {V Params Couple}. Arguments load_light {V Params Couple}.
Arguments val_eqb {V}. Arguments is_int {V}. Arguments is_bytes {V}. Arguments is_num {V}.

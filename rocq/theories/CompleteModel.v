(** Model of the "complete" mode: topologies/base.py:552-583 ([init_series]), 600-612
    ([compute_indices_to_be_computed] for images), 617-658 ([fill_queue_paths]);
    topologies/piv.py:166-193, topologies/preproc.py:267-281 (series);
    topologies/bos.py:167-189 ([_fix_indices_images]).

    Names of files are [nat] (in the code: strings; only their equality is used here, see
    NamesModel for the computation of the names). The directory of results is the list of
    the names of the files which are in it. *)
From Verif Require Import PyBase QueueModel ExecModel ExecSpec.

Definition file := nat.

(** [path.exists()] in the directory of results *)
Definition exists_file (files : list file) (n : file) : bool := existsb (Nat.eqb n) files.

Inductive how := Complete | FromPathIndices | OtherHow.

(** *** Topologies working on images (base.py:590-658) *)
Section Images.
(** [serie.compute_name_from_indices], [_get_name_result_from_name] (base.py:597-598, bos.py:167-168),
    [str(path_dir_src / name)] *)
Variable name_of : list Z -> file.
Variable result_name : file -> file.
Variable path_of : file -> nat.

(** [list.remove(x)]: the first occurrence (a ValueError is ignored: bos.py:186-189) *)
Fixpoint list_remove (x : list Z) (l : list (list Z)) : list (list Z) :=
  match l with
  | [] => []
  | y :: l' => if list_eq_dec Z.eq_dec x y then l' else y :: list_remove x l'
  end.

(** [_fix_indices_images]: nothing (base.py:614-615), or removal of the indices of the
    reference image (bos.py:170-189). [ref] is [Some indices_ref] when the reference is in the
    directory of the serie and its name can be parsed (lines 173-184). *)
Definition fix_indices (ref : option (list Z)) (l : list (list Z)) : list (list Z) :=
  match ref with None => l | Some r => list_remove r l end.

(** compute_indices_to_be_computed (base.py:600-612) *)
Definition indices_to_be_computed (ref : option (list Z)) (all : list (list Z)) (files : list file)
  : list (list Z) :=
  fix_indices ref
    (fold_left (fun acc i => if exists_file files (result_name (name_of i)) then acc else acc ++ [i]) all []).

(** fill_queue_paths (base.py:617-658). [all] is [list(serie.iter_indices())], [in_file] the
    indices written in [params.images.path_indices_file]; the logs are not modelled. *)
Definition fill_queue_paths (h : how) (ref : option (list Z)) (all in_file : list (list Z))
           (files : list file) (q : queue nat) : queue nat :=
  match all with
  | [] => q                                                     (* 622-624 *)
  | _ =>
    let indices :=
      match h with
      | Complete => indices_to_be_computed ref all files        (* 626-627 *)
      | FromPathIndices => in_file                              (* 628-633 *)
      | OtherHow => fix_indices ref all                         (* 634-636 *)
      end in
    fold_left (fun q i => q_set (name_of i) (path_of (name_of i)) q) indices q   (* 647-652 *)
  end.
End Images.

(** *** Topologies working on series (couples, subsets) *)
Section Series.
(** the name of the result of the serie of an index ([get_name_piv], [get_name_preproc]) *)
Variable result_of : nat -> file.

(** compute_indices_to_be_computed (piv.py:166-174, preproc.py:267-281): [for ind_serie, serie in
    self.series.items()] *)
Definition series_to_be_computed (inds : list nat) (files : list file) : list nat :=
  fold_left (fun acc i => if negb (exists_file files (result_of i)) then acc ++ [i] else acc) inds [].

(** init_series (base.py:552-583): the indices on which [series.items()] then iterates. *)
Definition init_series (h : how) (inds in_file : list nat) (files : list file) : list nat :=
  match inds with
  | [] => []                                                    (* 556-558 *)
  | _ => match h with
         | Complete => series_to_be_computed inds files         (* 561-562, 568 *)
         | FromPathIndices => in_file                           (* 563-568 *)
         | OtherHow => inds
         end
  end.

(** The two first queues are then filled with the items of the series (piv.py:188-193): this is
    [JoinModel.fill] on the indices given by [init_series]. *)
End Series.

(** *** What a run leaves in the directory *)

(** The last work saves: the keys delivered without exception have their file. *)
Definition saved {V} (result_name : file -> file) (outcomes : list (nat * item V)) : list file :=
  flat_map (fun '(k, r) => match r with inl _ => [result_name k] | inr _ => [] end) outcomes.

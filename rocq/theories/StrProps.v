(** Property theorems about the files of indices: C04. *)
From Verif Require Import PyBase StrModel StrProofs.

(** C04, series: the list of (integer) indices written for a process is the one it reads.
    (Empty lists are never written: splitters.py:101.) *)
Theorem C04_series_indices_roundtrip : forall l : list Z,
  l <> [] -> read_indices_series (indices_file_text py_str l) = Ok l.
Proof. exact read_series_roundtrip. Qed.
Print Assumptions C04_series_indices_roundtrip.

Example C04_case_series :
  indices_file_text py_str [-7; 0; 123] = of_string "-7
0
123
" /\ read_indices_series (of_string "-7
0
123
") = Ok [-7; 0; 123].
Proof. vm_compute. auto. Qed.

(** C04, images: same for tuples of integers of any arity. *)
Theorem C04_images_indices_roundtrip : forall l : list (list Z),
  l <> [] -> read_indices_images (indices_file_text str_tuple l) = Ok l.
Proof. exact read_images_roundtrip. Qed.
Print Assumptions C04_images_indices_roundtrip.

Example C04_case_images :
  indices_file_text str_tuple [[4]; [1; -20; 3]] = of_string "(4,)
(1, -20, 3)
" /\ read_indices_images (of_string "(4,)
(1, -20, 3)
") = Ok [[4]; [1; -20; 3]].
Proof. vm_compute. auto. Qed.

(** C04, file names: no two processes share a file (of indices, of results or of numbers
    of results). *)
Theorem C04_file_names_distinct : forall i j : nat,
  (indices_file_name i = indices_file_name j -> i = j) /\
  (results_file_name i = results_file_name j -> i = j) /\
  (len_results_file_name i = len_results_file_name j -> i = j).
Proof.
  exact (fun i j => conj (indices_file_name_inj i j)
                   (conj (results_file_name_inj i j) (len_results_file_name_inj i j))).
Qed.
Print Assumptions C04_file_names_distinct.

(** C04, whole directory: after [save_indices_files] every non empty list is found in the
    file of its process, and no file is written twice. *)
Theorem C04_saved_files : forall lists : list (list Z),
  NoDup (map fst (saved_indices_files py_str lists)) /\
  (forall i l, nth_error lists i = Some l -> l <> [] ->
     exists text, In (indices_file_name i, text) (saved_indices_files py_str lists) /\
                  read_indices_series text = Ok l).
Proof.
  exact (fun lists => conj (saved_files_names py_str lists)
           (fun i l => saved_file_content py_str read_indices_series lists i l read_series_roundtrip)).
Qed.
Print Assumptions C04_saved_files.

Theorem C04_saved_files_images : forall lists : list (list (list Z)),
  NoDup (map fst (saved_indices_files str_tuple lists)) /\
  (forall i l, nth_error lists i = Some l -> l <> [] ->
     exists text, In (indices_file_name i, text) (saved_indices_files str_tuple lists) /\
                  read_indices_images text = Ok l).
Proof.
  exact (fun lists => conj (saved_files_names str_tuple lists)
           (fun i l => saved_file_content str_tuple read_indices_images lists i l read_images_roundtrip)).
Qed.
Print Assumptions C04_saved_files_images.

Example C04_case_files :
  map fst (saved_indices_files py_str [[1]; []; [2; 3]]) =
    [of_string "indices000.txt"; of_string "indices002.txt"] /\
  indices_file_name 1234 = of_string "indices1234.txt".
Proof. vm_compute. auto. Qed.

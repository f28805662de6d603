(** Directory of the results in the processes started by the executors multi_exec_subproc and multi_exec_subproc_sync
    (executors/multi_exec_subproc.py).

    The parent has created the topology (topologies/base.py:293-298, [init_path_dir_result]).  Its parameters, with
    [saving.path] set to the directory of the results (a pathlib.Path), are copied (line 37), [saving.how] is set (lines 63-64),
    saved in a xml file (line 99) and each process creates a topology with the parameters read in this file
    (run_from_xml.py:52, 94).  Line 66, [hasattr(self.topology, "")], is always False.

    Simplification: [prepare_path_dir_result] is one step of a process (another process may act between two calls, not during
    one).  The reading of the xml file (fluiddyn, external) is [reload]: the path is read as a str or as a Path. *)
From Verif Require Import PyBase StrModel FsModel ResultDirModel.

Definition reload (as_str : bool) (sp : saving_path) : saving_path :=
  match sp with
  | SPNone => SPNone
  | SPStr p => SPStr p
  | SPPath p => if as_str then SPStr p else SPPath p
  end.

(** lines 63-64 and topologies/splitters.py:113-114, 131-137: [from_path_indices] when the indices to be computed are given in
    files (mode "complete" and topology with [compute_indices_to_be_computed]: [aware]) *)
Definition child_how (aware : bool) (h : how) : how :=
  match h with Complete => if aware then FromPathIndices else Complete | h => h end.

(** the creation of the topology in a process: [f] and [answers] are the file system and what can be read from the standard
    input at that time *)
Definition child_init (as_str aware : bool) (f : fs) (answers : list chars) (path_dir_src : path) (parent_saving_path : saving_path)
    (postfix : chars) (parent_how : how) : result (outcome * saving_path * fs) :=
  init_path_dir_result f answers path_dir_src (reload as_str parent_saving_path) postfix (child_how aware parent_how).

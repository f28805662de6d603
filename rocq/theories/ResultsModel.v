(** executors/base.py:393-414, [_save_results_names], with its interruption points: the
    results are appended to [topology.results] by works which run in threads ("io" works of
    the asynchronous executors, e.g. topologies/piv.py:161-164) while the executor saves
    their names; the process can be killed at any time.

    Granularity: one step for each of the statements at lines 395, 396, 398-399 (the file
    of the number of results) and 401-411 (the file of the names); the write of a file is
    atomic. *)
From Verif Require Import PyBase StrModel FsModel LifeModel.

Section Results.
Variable path_name : chars -> chars.      (* Path(s).name *)

(** where the function is *)
Inductive pc :=
| Idle
| Sliced (new_results : list rval)        (* after line 395 *)
| Counted (new_results : list rval)       (* after line 396 *)
| LenSaved (new_results : list rval).     (* after lines 398-399 *)

Record rst := mk_rst {
  r_results : list rval;                  (* topology.results *)
  r_saved : nat;                          (* _len_saved_results *)
  r_names : chars;                        (* content of the file of the names *)
  r_len : chars;                          (* content of the file of the number *)
  r_pc : pc
}.

(** exec_async_seq_for_multi.py:74-81, [_init_compute] of a worker process. *)
Definition r_init : rst := mk_rst [] 0 [] (of_string "0" ++ [newline]) Idle.

Inductive rstep := RAppend (r : rval) | RSave.

Definition text_of_names (names : list chars) : chars := join [newline] names ++ [newline].

Definition r_do (s : rst) (e : rstep) : result rst :=
  match e with
  | RAppend r => Ok (mk_rst (r_results s ++ [r]) (r_saved s) (r_names s) (r_len s) (r_pc s))
  | RSave =>
    match r_pc s with
    | Idle => Ok (mk_rst (r_results s) (r_saved s) (r_names s) (r_len s)
                         (Sliced (skipn (r_saved s) (r_results s))))
    | Sliced new => Ok (mk_rst (r_results s) (List.length (r_results s)) (r_names s) (r_len s)
                               (Counted new))
    | Counted new => Ok (mk_rst (r_results s) (r_saved s) (r_names s)
                                (py_str (Z.of_nat (r_saved s)) ++ [newline]) (LenSaved new))
    | LenSaved new =>
      match new with
      | [] => Ok (mk_rst (r_results s) (r_saved s) (r_names s) (r_len s) Idle)
      | _ =>
        do names <- new_names path_name new ;
        Ok (mk_rst (r_results s) (r_saved s) (r_names s ++ text_of_names names) (r_len s) Idle)
      end
    end
  end.

Definition r_run (l : list rstep) (s : rst) : result rst := py_for r_do l s.

End Results.

(** executors/base.py:482-600, [MultiExecutorBase.compute] and its [_finalize_compute]: the main
    process of the multi-process executors, after [_init_compute].

    The worker processes are an oracle: [poll r i] is what [_poll_return_code] gives for the
    process number [i] in the turn [r] of the waiting loop, [len_file r i] the content of its
    file len_results_<i>.txt at that time (None: no such file).  Not modelled: printing, the
    progress bar, the signal handler, the texts of the errors. *)
From Verif Require Import PyBase StrModel.

Inductive mevent :=
| MFinal         (* topology.final_seq_work() is called *)
| MRelease.      (* super()._finalize_compute(): standard streams reset, lock released *)

Record mstate := mk_mstate {
  m_codes : list (nat * Z);        (* return_codes *)
  m_errors : list nat;             (* keys of self.errors *)
  m_nums : list Z                  (* num_results_vs_idx_process *)
}.

Section Multi.
Variable poll : nat -> nat -> option Z.
Variable len_file : nat -> nat -> option chars.

(** lines 541-561, body of the for loop over the running processes; [updated] is
    [running_processes_updated]. *)
Definition poll_one (r : nat) (acc : list nat * mstate) (idx : nat) : result (list nat * mstate) :=
  let '(updated, st) := acc in
  let '(updated', st') :=
    match poll r idx with
    | None => (updated ++ [idx], st)
    | Some code =>
      let errors := if code =? 0 then m_errors st else m_errors st ++ [idx] in
      (updated, mk_mstate (m_codes st ++ [(idx, code)]) errors (m_nums st))
    end in
  match len_file r idx with
  | None | Some [] => Ok (updated', st')
  | Some content =>
    do k <- py_int content ;
    do nums <- py_update (m_nums st') (Z.of_nat idx) (fun _ => k) ;
    Ok (updated', mk_mstate (m_codes st') (m_errors st') nums)
  end.

(** lines 539-572, the waiting loop. *)
Fixpoint wait_loop (fuel r : nat) (running : list nat) (st : mstate) : result (nat * mstate) :=
  match running with
  | [] => Ok (r, st)
  | _ =>
    match fuel with
    | O => Err OutOfFuel
    | S fuel' =>
      do (running', st') <- py_for (poll_one r) running ([], st) ;
      wait_loop fuel' (S r) running' st'
    end
  end.

(** lines 576-579: the results are read from the files, in the order given by [glob]. *)
Definition read_results (files : list chars) : list chars :=
  flat_map (fun content => map strip (file_lines content)) files.

Record moutcome := mk_moutcome {
  o_rounds : nat;                  (* turns of the waiting loop *)
  o_events : list mevent;
  o_results : list chars;          (* topology.results *)
  o_exn : option exn               (* exception raised by compute *)
}.

(** base.py:286-292: [run] is the flag [_final_seq_work_run]; [final]: None when the topology
    has no final_seq_work, otherwise the exception it raises. *)
Definition run_final (final : option (option exn)) (run : bool) : list mevent * bool * option exn :=
  match final with
  | None => ([], run, None)
  | Some raised =>
    if run then ([], run, None)
    else match raised with
         | None => ([MFinal], true, None)
         | Some e => ([MFinal], false, Some e)
         end
  end.

Definition multi_compute (fuel num_expected nb : nat) (files : list chars)
    (final : option (option exn)) : result moutcome :=
  if Nat.eqb num_expected 0 then Ok (mk_moutcome 0 [] [] None)
  else
    do (rounds, st) <- wait_loop fuel 0 (seq 0 nb) (mk_mstate [] [] (repeat 0 nb)) ;
    let results := read_results files in
    let '(ev1, run, exn1) := run_final final false in
    match exn1 with
    | Some e => Ok (mk_moutcome rounds ev1 results (Some e))
    | None =>
      let '(ev2, _, exn2) := run_final final run in
      match exn2 with
      | Some e => Ok (mk_moutcome rounds (ev1 ++ ev2) results (Some e))
      | None =>
        Ok (mk_moutcome rounds (ev1 ++ ev2 ++ [MRelease]) results
             (match m_errors st with [] => None | _ => Some RuntimeError end))
      end
    end.

End Multi.

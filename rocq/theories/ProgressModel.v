(** executors/base.py:519-600: what [MultiExecutorBase.compute] displays: the values given to [progress.update] and the message
    "first result detected".  The body of the loop on the processes is [poll_one] (MultiModel.v). *)
From Verif Require Import PyBase StrModel MultiModel.

Inductive shown := SFirst | SCompleted (n : Z).

Section Progress.
Variable poll : nat -> nat -> option Z.
Variable len_file : nat -> nat -> option chars.

(** lines 539-572; [previous] is num_results_previous *)
Fixpoint wait_shown (fuel r : nat) (running : list nat) (st : mstate) (previous : Z) : result (list shown * mstate) :=
  match running with
  | [] => Ok ([], st)
  | _ =>
    match fuel with
    | O => Err OutOfFuel
    | S fuel' =>
      do (running', st') <- py_for (poll_one poll len_file r) running ([], st) ;
      let num_results := zsum (m_nums st') in
      if num_results =? previous then wait_shown fuel' (S r) running' st' previous
      else
        do (l, st2) <- wait_shown fuel' (S r) running' st' num_results ;
        Ok ((if previous =? 0 then [SFirst] else []) ++ SCompleted num_results :: l, st2)
    end
  end.

(** lines 526-586, without the final work: the last value is the number of results read in the files *)
Definition compute_shown (fuel nb : nat) (files : list chars) : result (list shown) :=
  do (l, _) <- wait_shown fuel 0 (seq 0 nb) (mk_mstate [] [] (repeat 0 nb)) 0 ;
  Ok (l ++ [SCompleted (zlen (read_results files))]).
End Progress.

(** Model of the works and queues of TopologyBOS (topologies/bos.py:86-154).

    Queues: 0 "paths", 1 "arrays", 2 "bos", and 3 "arrays1" if [params.preproc.im2im] is set
    (line 103-104). The functions of the works are arbitrary. *)
From Verif Require Import PyBase QueueModel ExecModel.

Section Bos.
Context {V : Type}.
Variables (read im2im calcul save : nat -> V -> item V).

(** lines 113-119 *)
Definition w_read : work V := mk_work (ItemWork 0 read) (Some 1%nat) true.
(** lines 126-132: input [queue_arrays], output [queue_arrays1] *)
Definition w_im2im : work V := mk_work (ItemWork 1 im2im) (Some 3%nat) false.
(** lines 134-140: [input_queue=queue_arrays] *)
Definition w_calcul : work V := mk_work (ItemWork 1 calcul) (Some 2%nat) false.
(** lines 142-147 *)
Definition w_save : work V := mk_work (ItemWork 2 save) None true.

Definition bos_works (with_im2im : bool) : list (work V) :=
  if with_im2im then [w_read; w_im2im; w_calcul; w_save] else [w_read; w_calcul; w_save].
Definition bos_nq (with_im2im : bool) : nat := if with_im2im then 4%nat else 3%nat.
Definition bos_queues (inputs : queue (item V)) : queues V :=
  fun i => match i with O => inputs | S _ => [] end.
End Bos.

(** executors/exec_async_servers.py and executors/servers.py:85-125: the asynchronous executor
    which sends its CPU-bounded items to server processes.

    Modelled: one CPU-bounded work with an input and an output queue, followed by a work which
    consumes its results; the clients ([Worker]) of the servers; the statements of
    [async_run_work_cpu] (lines 169-219), of [send_job] and of [well_done_thanks]
    (servers.py:96-111), each statement being one step; [get_available_worker] (lines 246-268,
    one step: it runs in the main thread without await and only reads and writes the fields
    used here); [update_has_to_stop] (lines 129-142, one step).  [run_process] (lines
    200-210) runs in a thread, hence all interleavings of the steps are allowed.  The server answers
    every job at an arbitrary time.  Simplified: the limit of the length of the output queue
    only forbids steps, it is dropped; Ctrl+C and the termination of the servers are not
    modelled. *)
From Verif Require Import PyBase.

(** exec_async_servers.py:22 *)
Definition max_items_in_server : Z := 4.

(** servers.py:85-94, [Worker.__init__] *)
Record worker := mk_worker { w_nb : Z; w_avail : bool; w_unocc : bool }.
Definition new_worker : worker := mk_worker 0 true true.

(** Where a task [async_run_work_cpu] is; [k] is the key of its item. *)
Inductive phase :=
| Spawned                 (* started, nothing popped *)
| Popped (k : nat)        (* line 188: item taken from the input queue *)
| Occupied (k : nat)      (* servers.py:109: is_unoccupied = False *)
| Counted (k : nat)       (* servers.py:110: nb_items_to_process += 1 *)
| Sent (k : nat)          (* servers.py:111: job sent *)
| Waiting (k : nat)       (* line 205: is_available = True; waits for the reply *)
| Replied (k : nat)       (* line 207: reply received *)
| PutOut                  (* line 218: result put in the output queue *)
| Uncounted               (* servers.py:97: nb_items_to_process -= 1 *)
| Zero.                   (* servers.py:98: nb_items_to_process == 0 tested true *)

Record sst := mk_sst {
  s_in : list nat;                 (* input queue *)
  s_out : list nat;                (* output queue *)
  s_consumed : list nat;           (* items given to the next work *)
  s_workers : list worker;
  s_jobs : list (nat * phase);     (* running tasks: index of the worker, phase *)
  s_stop : bool                    (* _has_to_stop *)
}.

(** lines 246-268, [get_available_worker]: [np.argmin] gives the first minimum. *)
Fixpoint best (i : nat) (l : list worker) : option (nat * Z) :=
  match l with
  | [] => None
  | w :: l' =>
    let r := best (S i) l' in
    if w_avail w && (w_nb w <? max_items_in_server) then
      match r with
      | Some (j, n) => if n <? w_nb w then Some (j, n) else Some (i, w_nb w)
      | None => Some (i, w_nb w)
      end
    else r
  end.
Definition get_available_worker (l : list worker) : option nat := option_map fst (best 0 l).

Definition upd_worker (i : nat) (f : worker -> worker) (s : sst) : sst :=
  mk_sst (s_in s) (s_out s) (s_consumed s) (update_nth i f (s_workers s)) (s_jobs s) (s_stop s).
Definition set_job (j : nat) (p : nat * phase) (s : sst) : sst :=
  mk_sst (s_in s) (s_out s) (s_consumed s) (s_workers s)
         (update_nth j (fun _ => p) (s_jobs s)) (s_stop s).
Definition end_job (j : nat) (s : sst) : sst :=
  mk_sst (s_in s) (s_out s) (s_consumed s) (s_workers s)
         (firstn j (s_jobs s) ++ skipn (S j) (s_jobs s)) (s_stop s).
Definition put_out (k : nat) (s : sst) : sst :=
  mk_sst (s_in s) (s_out s ++ [k]) (s_consumed s) (s_workers s) (s_jobs s) (s_stop s).
Definition set_in (l : list nat) (s : sst) : sst :=
  mk_sst l (s_out s) (s_consumed s) (s_workers s) (s_jobs s) (s_stop s).

Definition set_avail (b : bool) (w : worker) := mk_worker (w_nb w) b (w_unocc w).
Definition set_unocc (b : bool) (w : worker) := mk_worker (w_nb w) (w_avail w) b.
Definition add_nb (d : Z) (w : worker) := mk_worker (w_nb w + d) (w_avail w) (w_unocc w).
Definition nb_of (i : nat) (s : sst) : Z :=
  match nth_error (s_workers s) i with Some w => w_nb w | None => 0 end.

Inductive sstep :=
| SSpawn              (* lines 221-244: a worker is asked for, the task is started *)
| SJob (j : nat)      (* the next statement of the j-th task *)
| SConsume            (* the next work takes an item of the output queue *)
| SCheck.             (* update_has_to_stop *)

(** [is_exn k]: the object of key [k] is an exception (topologies/base.py:164-169,
    [check_exception]: it is passed to the output queue). *)
Section Step.
Variable is_exn : nat -> bool.

Definition do_step (s : sst) (e : sstep) : sst :=
  match e with
  | SSpawn =>
    if s_stop s then s
    else match get_available_worker (s_workers s) with
         | None => s
         | Some i =>
           let s' := upd_worker i (set_avail false) s in
           mk_sst (s_in s') (s_out s') (s_consumed s') (s_workers s') (s_jobs s' ++ [(i, Spawned)]) (s_stop s')
         end
  | SJob j =>
    match nth_error (s_jobs s) j with
    | None => s
    | Some (i, Spawned) =>
      match s_in s with
      | [] => end_job j (upd_worker i (set_avail true) s)
      | k :: l =>
        if is_exn k then end_job j (upd_worker i (set_avail true) (put_out k (set_in l s)))
        else set_job j (i, Popped k) (set_in l s)
      end
    | Some (i, Popped k) => set_job j (i, Occupied k) (upd_worker i (set_unocc false) s)
    | Some (i, Occupied k) => set_job j (i, Counted k) (upd_worker i (add_nb 1) s)
    | Some (i, Counted k) => set_job j (i, Sent k) s
    | Some (i, Sent k) => set_job j (i, Waiting k) (upd_worker i (set_avail true) s)
    | Some (i, Waiting k) => set_job j (i, Replied k) s
    | Some (i, Replied k) => set_job j (i, PutOut) (put_out k s)
    | Some (i, PutOut) => set_job j (i, Uncounted) (upd_worker i (add_nb (-1)) s)
    | Some (i, Uncounted) => if nb_of i s =? 0 then set_job j (i, Zero) s else end_job j s
    | Some (i, Zero) => end_job j (upd_worker i (set_unocc true) s)
    end
  | SConsume =>
    if s_stop s then s
    else match s_out s with
         | [] => s
         | k :: l => mk_sst (s_in s) l (s_consumed s ++ [k]) (s_workers s) (s_jobs s) (s_stop s)
         end
  | SCheck =>
    match s_in s, s_out s with
    | [], [] =>
      if forallb w_unocc (s_workers s)
      then mk_sst (s_in s) (s_out s) (s_consumed s) (s_workers s) (s_jobs s) true
      else s
    | _, _ => s
    end
  end.

Definition srun (l : list sstep) (s : sst) : sst := fold_left do_step l s.

(** Initial state: [nb] servers and the items of the input queue. *)
Definition s_init (nb : nat) (items : list nat) : sst :=
  mk_sst items [] [] (repeat new_worker nb) [] false.

End Step.

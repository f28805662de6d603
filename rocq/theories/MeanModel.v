(** Model of topologies/mean.py:102-189 (TopologyMeanImage): reading of the images and global
    work "main" under any schedule, then [final_seq_work]. *)
From Verif Require Import PyBase.

(** An image: its pixels in a fixed order. *)
Definition img := list Z.
Definition two32 : Z := 4294967296.

(** [arr.astype(np.uint32)] for an array of integers (line 132) *)
Definition to_uint32 (a : img) : img := map (fun x => x mod two32) a.

(** [arr0 + arr1] for arrays of uint32; other shapes: ValueError (broadcasting is not modelled) *)
Definition add32 (a b : img) : result img :=
  if Nat.eqb (List.length a) (List.length b)
  then Ok (map (fun '(x, y) => (x + y) mod two32) (combine a b))
  else Err ValueError.

(** [queue_tmp_arrays]: the list of the code, last element first: [pop()] takes the head and
    [insert(0, x)] adds x at the end. *)
Definition tmps := list (img * Z).

(** reduce_queue_tmp_arrays4 (mean.py:102-113). Each turn removes three elements: [fuel] is the
    length of the list. The third component is what is added to [self.results]. *)
Fixpoint reduce4 (fuel : nat) (q : tmps) (res : list Z) : result (tmps * list Z) :=
  match q with
  | (arr0, n0) :: (arr1, n1) :: (arr2, n2) :: (arr3, n3) :: q' =>
    match fuel with
    | O => Err OutOfFuel
    | S fuel' =>
      do s1 <- add32 arr0 arr1 ; do s2 <- add32 s1 arr2 ; do arr_sum <- add32 s2 arr3 ;
      let n_sum := n0 + n1 + n2 + n3 in
      reduce4 fuel' (q' ++ [(arr_sum, n_sum)]) (res ++ [n_sum; n_sum; n_sum])
    end
  | _ => Ok (q, res)
  end.

(** reduce_queue_tmp_arrays2 (mean.py:115-123) *)
Fixpoint reduce2 (fuel : nat) (q : tmps) (res : list Z) : result (tmps * list Z) :=
  match q with
  | (arr0, n0) :: (arr1, n1) :: q' =>
    match fuel with
    | O => Err OutOfFuel
    | S fuel' =>
      do arr_sum <- add32 arr0 arr1 ;
      let n_sum := n0 + n1 in
      reduce2 fuel' (q' ++ [(arr_sum, n_sum)]) (res ++ [n_sum])
    end
  | _ => Ok (q, res)
  end.

(** State of an execution in one process. A path is represented by what reading it gives
    (an image or an exception). [m_reading]: images being read by threads, whose number is
    [executor.nb_working_workers_io] (always 0 for the sequential executors, which do not have
    this attribute). [m_file]: the file tmp_sum*.h5 of this process. *)
Record mst := mk_mst {
  m_paths : list (img + exn);
  m_reading : list (img + exn);
  m_arrays : list (img + exn);
  m_tmp : tmps;
  m_file : option (img * Z);
  m_results : list Z;
  m_raised : option exn }.

(** lines 130-132: all the arrays read are moved in the temporary list; an exception object
    (failed reading) has no method [astype] *)
Fixpoint take_arrays (arrays : list (img + exn)) (q : tmps) : result tmps :=
  match arrays with
  | [] => Ok q
  | inl arr :: arrays' => take_arrays arrays' ((to_uint32 arr, 1) :: q)
  | inr _ :: _ => Err AttributeError
  end.

Definition is_nil {A} (l : list A) : bool := match l with [] => true | _ => false end.

(** main (mean.py:125-160) *)
Definition main_body (s : mst) : result mst :=
  do q <- take_arrays (m_arrays s) (m_tmp s) ;
  do r4 <- reduce4 (List.length q) q (m_results s) ;                       (* 134 *)
  let '(q, res) := r4 in
  if is_nil (m_paths s) && is_nil (m_reading s) then                       (* 136-143 *)
    do r2 <- reduce2 (List.length q) q res ;                               (* 144 *)
    let '(q, res) := r2 in
    match q with
    | [] => Ok (mk_mst (m_paths s) (m_reading s) [] [] (m_file s) res (m_raised s))   (* 145-146 *)
    | [x] => Ok (mk_mst (m_paths s) (m_reading s) [] [] (Some x) res (m_raised s))    (* 148-160 *)
    | _ => Err AssertionError                                              (* 147 *)
    end
  else Ok (mk_mst (m_paths s) (m_reading s) [] q (m_file s) res (m_raised s)).

(** Steps: a thread starts to read the first path, a reading ends (in any order), "main" is
    called. An exception in "main" ends the execution. *)
Inductive mstep : mst -> mst -> Prop :=
| step_start : forall p ps rd ar q f res,
    mstep (mk_mst (p :: ps) rd ar q f res None) (mk_mst ps (rd ++ [p]) ar q f res None)
| step_read : forall ps rd1 p rd2 ar q f res,
    mstep (mk_mst ps (rd1 ++ p :: rd2) ar q f res None) (mk_mst ps (rd1 ++ rd2) (ar ++ [p]) q f res None)
| step_main : forall s s', m_raised s = None -> main_body s = Ok s' -> mstep s s'
| step_main_raises : forall s e, m_raised s = None -> main_body s = Err e ->
    mstep s (mk_mst (m_paths s) (m_reading s) (m_arrays s) (m_tmp s) (m_file s) (m_results s) (Some e)).

Inductive msteps : mst -> mst -> Prop :=
| msteps_refl : forall s, msteps s s
| msteps_more : forall s1 s2 s3, msteps s1 s2 -> mstep s2 s3 -> msteps s1 s3.

Definition m_init (paths : list (img + exn)) : mst := mk_mst paths [] [] [] None [] None.

(** The executor stops when all the queues are empty and no reading is in progress
    (exec_async.py:322-330); the list of temporary arrays is one of the queues. *)
Definition m_ended (s : mst) : Prop :=
  m_paths s = [] /\ m_reading s = [] /\ m_arrays s = [] /\ m_tmp s = [] /\ m_raised s = None.

(** final_seq_work (mean.py:162-189) on the contents of the files tmp_sum*.h5, in the order of
    their names: [self.result] and the new [self.results].  The division is exact then truncated
    (in the code: float64, then [astype] to the type of the images); removal of the files and
    writing of the png are not modelled. *)
Definition final_seq_work (files : list (img * Z)) (results : list Z) : result (img * list Z) :=
  let q := rev files in
  do r4 <- reduce4 (List.length q) q results ;
  let '(q, res) := r4 in
  do r2 <- reduce2 (List.length q) q res ;
  let '(q, res) := r2 in
  match q with
  | [(arr, num_images)] => Ok (map (fun x => x / num_images) arr, res ++ [num_images])
  | _ => Err AssertionError
  end.

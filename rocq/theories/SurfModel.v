(** Model of TopologySurfaceTracking (topologies/surface_tracking.py:106-317): works, queues,
    [make_couples], [fill_queue_paths]. *)
From Verif Require Import PyBase QueueModel ExecModel.

Section Surf.
Context {V : Type}.
(** names of a couple (value of the queue "couples of names"), a couple of arrays (the elements
    can be exceptions) *)
Variable names_of : V -> list nat.
Variable mk_pair : item V -> item V -> V.

Definition names_in (it : item V) : list nat := match it with inl v => names_of v | inr _ => [] end.

Record st5 := mk_st5 {
  q_mod0 : queue (item V); q_angles : queue (item V); q_names : queue (item V);
  q_mod : queue (item V); q_couples : queue (item V) }.

(** lines 228-231: [for key in tuple(queue_mod0_angles)] *)
Definition move_all (s : st5) : result st5 :=
  py_for (fun s key =>
    do v <- q_get key (q_mod0 s) ;
    do q0 <- q_del key (q_mod0 s) ;
    Ok (mk_st5 q0 (q_angles s) (q_names s) (q_set key v (q_mod s)) (q_couples s)))
    (map fst (q_mod0 s)) s.

(** body of the loop, lines 235-258. [couple[0] is couple[1]]: identity of two strings; the first
    couple is made with twice the same object (line 307), the other ones with names of different
    files: modelled by the equality of the names. *)
Definition make_couple1 (s : st5) (kv : nat * item V) : result st5 :=
  let '(key, couple) := kv in
  match names_in couple with
  | a :: b :: _ =>
    if Nat.eqb a b then
      if q_mem a (q_angles s) then
        do arr <- q_get a (q_angles s) ;
        let qc := q_set a (inl (mk_pair arr arr)) (q_couples s) in
        do qa <- q_del a (q_angles s) ;
        do qn <- q_del key (q_names s) ;
        Ok (mk_st5 (q_mod0 s) qa qn (q_mod s) qc)
      else Ok s
    else if q_mem a (q_mod0 s) && q_mem b (q_angles s) then
      do array1 <- q_get a (q_mod0 s) ;
      do array2 <- q_get b (q_angles s) ;
      let qc := q_set b (inl (mk_pair array1 array2)) (q_couples s) in
      do qa <- q_del b (q_angles s) ;
      do qn <- q_del key (q_names s) ;
      let qm := q_set a array1 (q_mod s) in
      do q0 <- q_del a (q_mod0 s) ;
      Ok (mk_st5 q0 qa qn qm qc)
    else Ok s
  | _ => Err IndexError
  end.

(** make_couples (lines 221-258) *)
Definition make_couples (s : st5) : result st5 :=
  do s <- match q_names s with [] => move_all s | _ => Ok s end ;
  match q_angles s with
  | [] => Ok s
  | _ => py_for make_couple1 (q_names s) s
  end.

(** *** Works and queues (lines 142-219)

    [pre]: the works on the images ("read_array", "image2image" if required, "process_frame"),
    queues 0 (paths) to a (angles); a+1: couples of names, a+2: corrected angles copy (mod0),
    a+3: couples of arrays; [post]: "calcul_height", "set_borders_zero", "save", from the queue
    a+4 (corrected angles). *)
Definition surf_glob (a : nat) (qs : queues V) : result (queues V) :=
  do s <- make_couples (mk_st5 (qs (a + 2)%nat) (qs a) (qs (a + 1)%nat) (qs (a + 4)%nat) (qs (a + 3)%nat)) ;
  Ok (upd (upd (upd (upd (upd qs (a + 2) (q_mod0 s)) a (q_angles s)) (a + 1) (q_names s))
               (a + 4) (q_mod s)) (a + 3) (q_couples s))%nat.

Definition is_nil (q : queue (item V)) : bool := match q with [] => true | _ => false end.
(** exec_async.py:129-132 with three input queues *)
Definition surf_ready (a : nat) (qs : queues V) : bool :=
  negb (is_nil (qs (a + 2)%nat) && is_nil (qs a) && is_nil (qs (a + 1)%nat)).

Definition surf_works (pre : list (bool * (nat -> V -> item V))) (correct : nat -> V -> item V)
           (post : list (bool * (nat -> V -> item V))) : list (work V) :=
  let a := List.length pre in
  map (fun '(i, (io, f)) => mk_work (ItemWork i f) (Some (S i)) io) (combine (seq 0 a) pre)
  ++ [mk_work (GlobalWork (surf_ready a) (surf_glob a)) None false;
      mk_work (ItemWork (a + 3) correct) (Some (a + 2)%nat) false]
  ++ map (fun '(j, (io, f)) =>
            mk_work (ItemWork (a + 4 + j) f)
                    (if Nat.eqb (S j) (List.length post) then None else Some (a + 5 + j)%nat) io)
         (combine (seq 0 (List.length post)) post).

Definition surf_nq (pre post : list (bool * (nat -> V -> item V))) : nat :=
  (List.length pre + 4 + List.length post)%nat.

(** fill_queue_paths (lines 266-309). [names]: the names of the images of the serie, [saved]: the
    names for which a file exists in the directory of results, [complete]: how == "complete";
    [series]: index and names of the couples, the indices are shifted by one (the key of the
    first couple is [ind_serie - 1]). *)
Variable mk_names : nat -> nat -> V.
Variable path_of : nat -> V.

Definition fill_paths (complete : bool) (names saved : list nat) : queue (item V) :=
  fold_left (fun q name =>
    if complete && existsb (Nat.eqb name) saved then q else q_set name (inl (path_of name)) q) names [].

Definition fill_names (series : list (nat * (nat * nat))) : queue (item V) :=
  match series with
  | [] => []                                             (* 292-294 *)
  | (ind, (name, _)) :: _ =>
    fold_left (fun q '(i, (a, b)) => q_set (S i) (inl (mk_names a b)) q) series
              (q_set ind (inl (mk_names name name)) [])
  end.

Definition surf_queues (a : nat) (complete : bool) (names saved : list nat)
           (series : list (nat * (nat * nat))) : queues V :=
  fun i => match names with
           | [] => []                                    (* 272-274 *)
           | _ => if Nat.eqb i 0 then fill_paths complete names saved
                  else if Nat.eqb i (a + 1) then fill_names series else []
           end.
End Surf.
Arguments st5 V : clear implicits.

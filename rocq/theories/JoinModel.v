(** Model of the topologies PIV and preprocessing, which form groups (couples, subsets) of
    images: the first queues, [make_couples], [make_subsets], and the complete topologies
    as instances of the model of the executors (ExecModel.v).

    Names of images and indices of series are [nat] (only equality is used).  Values in the
    queues have an abstract type [V]; the queue of names holds values whose names are given
    by [names_of]. *)
From Verif Require Import PyBase QueueModel ExecModel.

Section Join.
Context {V : Type}.
Variable names_of : V -> list nat.

(** [queue_couples_of_names.is_name_in_values(name)] (topologies/base.py:204-209) *)
Definition names_in (it : item V) : list nat :=
  match it with inl v => names_of v | inr _ => [] end.
Definition in_values (name : nat) (q0 : queue (item V)) : bool :=
  is_name_in_values name (map (fun '(k, it) => (k, names_in it)) q0).

(** the three queues handled by the global work *)
Definition st3 : Type := (queue (item V) * queue (item V) * queue (item V))%type.

(** if not queue_names.is_name_in_values(name): del queue_arrays[name] *)
Definition drop_if_unused (q0 : queue (item V)) (name : nat) (qa : queue (item V))
  : result (queue (item V)) :=
  if in_values name q0 then Ok qa else q_del name qa.

(** ** topologies/piv.py:195-233, [make_couples] *)

(** [ArrayCouple(names=(couple[0], couple[1]), arrays=(array1, array2), params_mask, serie)]
    (data_objects/piv.py:84-126): its arguments are the key (which gives the serie), the two
    names and the two images.  Simplification: the constructor does not fail (it checks
    that the files still exist). *)
Variable mk_couple : nat -> nat -> nat -> V -> V -> V.

(** piv.py:213-221 *)
Definition array_couple (key a b : nat) (x1 x2 : item V) : item V :=
  match x1 with
  | inr e => inr e
  | inl v1 => match x2 with
              | inr e => inr e
              | inl v2 => inl (mk_couple key a b v1 v2)
              end
  end.

(** body of the loop (piv.py:205-233); [couple[0]], [couple[1]] raise IndexError if there
    are less than two names *)
Definition make_couple1 (st : st3) (kv : nat * item V) : result st3 :=
  let '(q0, qa, qo) := st in
  let '(key, it) := kv in
  match names_in it with
  | a :: rest =>
    if negb (q_mem a qa) then Ok st else      (* [and] is lazy *)
    match rest with
    | b :: _ =>
      if q_mem b qa then
        do x1 <- q_get a qa ;
        do x2 <- q_get b qa ;
        let qo := q_set key (array_couple key a b x1 x2) qo in
        do q0 <- q_del key q0 ;
        do qa <- drop_if_unused q0 a qa ;
        do qa <- drop_if_unused q0 b qa ;
        Ok (q0, qa, qo)
      else Ok st
    | [] => Err IndexError
    end
  | [] => Err IndexError
  end.

(** [for key, couple in tuple(queue_couples_of_names.items())]: a copy of the items *)
Definition make_couples (q0 qa qo : queue (item V)) : result st3 :=
  py_for make_couple1 q0 (q0, qa, qo).

(** ** topologies/preproc.py:292-316, [make_subsets] *)

(** [ArraySubset(names=names, arrays=arrays, serie=serie)]: [arrays] may contain exceptions *)
Variable mk_subset : nat -> list nat -> list (item V) -> V.

(** preproc.py:313-316: removal of the arrays which are no more needed *)
Definition drop_unused (q0 qa : queue (item V)) : result (queue (item V)) :=
  py_for (fun qa key_array => drop_if_unused q0 key_array qa) (map fst qa) qa.

Fixpoint q_gets (names : list nat) (qa : queue (item V)) : result (list (item V)) :=
  match names with
  | [] => Ok []
  | x :: l => do it <- q_get x qa ; do its <- q_gets l qa ; Ok (it :: its)
  end.

Definition make_subset1 (st : st3) (kv : nat * item V) : result st3 :=
  let '(q0, qa, qo) := st in
  let '(key, it) := kv in
  let names := names_in it in
  if forallb (fun name => q_mem name qa) names then
    do arrays <- q_gets names qa ;
    let qo := q_set key (inl (mk_subset key names arrays)) qo in
    do q0 <- q_del key q0 ;
    do qa <- drop_unused q0 qa ;
    Ok (q0, qa, qo)
  else Ok st.

Definition make_subsets (q0 qa qo : queue (item V)) : result st3 :=
  py_for make_subset1 q0 (q0, qa, qo).

(** ** The first queues: piv.py:187-193, preproc.py:282-290

    [series]: for each index of serie, its value put in the queue of names (whose names are
    [names_of]), and the pairs (name, path). *)
Definition fill_one (st : queue (item V) * queue (item V))
           (serie : nat * V * list (nat * V)) : queue (item V) * queue (item V) :=
  let '(q0, q1) := st in
  let '(ind, names, paths) := serie in
  (q_set ind (inl names) q0,
   fold_left (fun q1 '(name, path) => q_set name (inl path) q1) paths q1).
Definition fill (series : list (nat * V * list (nat * V)))
  : queue (item V) * queue (item V) := fold_left fill_one series ([], []).

(** ** The complete topologies (piv.py:97-160, preproc.py:205-258)

    [pre]: the works on the images ("read array", "image2image" if required), [make] the
    global work, [post]: the works on the groups (compute, save).  Queues: 0 names, 1 paths,
    ..., a+1 arrays (input of make), a+2 groups, ..., where a is the number of works [pre]. *)
Variable make : queue (item V) -> queue (item V) -> queue (item V) -> result st3.

Definition make_glob (a : nat) (qs : queues V) : result (queues V) :=
  do (q0, qa, qo) <- make (qs 0%nat) (qs (S a)) (qs (S (S a))) ;
  Ok (upd (upd (upd qs 0%nat q0) (S a) qa) (S (S a)) qo).

(** exec_async.py:129-132: with two input queues the loop waits while both are empty *)
Definition make_ready (a : nat) (qs : queues V) : bool :=
  negb (match qs 0%nat with [] => true | _ => false end
        && match qs (S a) with [] => true | _ => false end).

Definition join_works (pre post : list (bool * (nat -> V -> item V))) : list (work V) :=
  let a := List.length pre in
  let b := List.length post in
  map (fun '(i, (io, f)) => mk_work (ItemWork (S i) f) (Some (S (S i))) io)
      (combine (seq 0 a) pre)
  ++ [mk_work (GlobalWork (make_ready a) (make_glob a)) (Some (S (S a))) false]
  ++ map (fun '(j, (io, f)) =>
            mk_work (ItemWork (2 + a + j) f)
                    (if Nat.eqb (S j) b then None else Some (3 + a + j)%nat) io)
         (combine (seq 0 b) post).

Definition join_nq (pre post : list (bool * (nat -> V -> item V))) : nat :=
  (2 + List.length pre + List.length post)%nat.

Definition join_queues (q01 : queue (item V) * queue (item V)) : queues V :=
  fun i => match i with O => fst q01 | S O => snd q01 | _ => [] end.

End Join.
Arguments st3 V : clear implicits.

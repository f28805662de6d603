(** Model of topologies/base.py:180-209, class [Queue(OrderedDict)].

    An OrderedDict is an association list, oldest key first, without duplicate key.
    Keys are [nat] (in the code: strings; only equality of keys is used). *)
From Verif Require Import PyBase.

Section Queue.
Context {V : Type}.

Definition queue : Type := list (nat * V).

(** Queue.__init__ (base.py:183-186): empty. *)
Definition q_empty : queue := [].

(** [key in q] *)
Definition q_mem (k : nat) (q : queue) : bool := existsb (fun '(k', _) => Nat.eqb k k') q.

(** [q[key]] *)
Fixpoint q_get (k : nat) (q : queue) : result V :=
  match q with
  | [] => Err KeyError
  | (k', v) :: q' => if Nat.eqb k k' then Ok v else q_get k q'
  end.

(** [q[key] = value]: an existing key keeps its place. *)
Fixpoint q_set (k : nat) (v : V) (q : queue) : queue :=
  match q with
  | [] => [(k, v)]
  | (k', v') :: q' => if Nat.eqb k k' then (k, v) :: q' else (k', v') :: q_set k v q'
  end.

(** [del q[key]] *)
Fixpoint q_del (k : nat) (q : queue) : result queue :=
  match q with
  | [] => Err KeyError
  | (k', v') :: q' =>
    if Nat.eqb k k' then Ok q' else do r <- q_del k q' ; Ok ((k', v') :: r)
  end.

(** Queue.pop_first_item (base.py:200-202): [self.popitem(last=False)]. *)
Definition q_pop_first (q : queue) : result ((nat * V) * queue) :=
  match q with
  | [] => Err KeyError
  | kv :: q' => Ok (kv, q')
  end.

(** Queue.__copy__ (base.py:191-198): insertion of the items in a new queue. *)
Definition q_copy (q : queue) : queue :=
  fold_left (fun new '(k, v) => q_set k v new) q q_empty.

(** operations of a history *)
Inductive op := OpSet (k : nat) (v : V) | OpDel (k : nat) | OpPop.
Inductive out := OutNone | OutItem (k : nat) (v : V) | OutKeyError.

Definition q_step (q : queue) (o : op) : queue * out :=
  match o with
  | OpSet k v => (q_set k v q, OutNone)
  | OpDel k => match q_del k q with Ok q' => (q', OutNone) | Err _ => (q, OutKeyError) end
  | OpPop => match q_pop_first q with
             | Ok ((k, v), q') => (q', OutItem k v)
             | Err _ => (q, OutKeyError)
             end
  end.

Fixpoint q_run (q : queue) (ops : list op) : queue * list out :=
  match ops with
  | [] => (q, [])
  | o :: ops' =>
    let '(q', r) := q_step q o in
    let '(q'', rs) := q_run q' ops' in (q'', r :: rs)
  end.

End Queue.
Arguments queue V : clear implicits.
Arguments op V : clear implicits.
Arguments out V : clear implicits.

(** Queue.is_name_in_values (base.py:204-209), for values which are tuples of names. *)
Definition is_name_in_values (name : nat) (q : queue (list nat)) : bool :=
  existsb (fun '(_, names) => existsb (Nat.eqb name) names) q.

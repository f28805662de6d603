(** Histories of the queues around [make_couples] / [make_subsets]: images become available
    in any order, the global work is called at any time, formed groups are taken by the
    next work at any time. *)
From Verif Require Import PyBase QueueModel ExecModel JoinModel.

Section Hist.
Context {V : Type}.
Variable make : queue (item V) -> queue (item V) -> queue (item V) -> result (st3 V).
(** image (or exception) obtained for each name *)
Variable img : nat -> item V.

Inductive hev := HArrive (x : nat) | HMake | HTake.

(** queue of names, queue of images, queue of groups, groups already taken *)
Definition hst : Type :=
  (queue (item V) * queue (item V) * queue (item V) * list (nat * item V))%type.

Definition hstep (s : hst) (e : hev) : result hst :=
  let '(q0, qa, qo, taken) := s in
  match e with
  | HArrive x => Ok (q0, q_set x (img x) qa, qo, taken)
  | HMake => do (q0, qa, qo) <- make q0 qa qo ; Ok (q0, qa, qo, taken)
  | HTake => match q_pop_first qo with
             | Ok (kv, qo') => Ok (q0, qa, qo', taken ++ [kv])
             | Err _ => Ok s
             end
  end.

Definition hrun (q0 : queue (item V)) (h : list hev) : result hst :=
  py_for hstep h (q0, [], [], []).

Fixpoint arrived (h : list hev) : list nat :=
  match h with
  | [] => []
  | HArrive x :: h' => x :: arrived h'
  | _ :: h' => arrived h'
  end.
End Hist.

(** the couple of two images, or the exception of the image which could not be read *)
Definition couple_of {V} (mk : V -> V -> V) (x1 x2 : item V) : item V :=
  match x1, x2 with
  | inl v1, inl v2 => inl (mk v1 v2)
  | inr e, _ => inr e
  | inl _, inr e => inr e
  end.

(** ** What the complete topologies have to do *)
Section JoinSpec.
Context {V : Type}.

(** Calls of the works [fs] (numbered from [i]) on an item: the first failing work replaces
    the value by its exception and later works are skipped; [lost]: an exception which
    reaches the end is reported as lost (the last work has no output queue). *)
Fixpoint events_of (lost : bool) (i : nat) (fs : list (nat -> V -> item V)) (k : nat) (x : item V)
  : list (event V) :=
  match fs with
  | [] => []
  | f :: fs' =>
    match x with
    | inl v => ECall i k v (f k v) :: events_of lost (S i) fs' k (f k v)
    | inr e => if lost then [ELost (i + List.length fs') k e] else []
    end
  end.

(** [group]: the group formed for the entry [v] of key [k] with the images found for its
    names; works [pre] have indices 0, 1, ...; the global work [length pre]. *)
Definition expected_events (names_of : V -> list nat) (group : nat -> V -> list (item V) -> item V)
           (img : nat -> item V) (pre post : list (nat -> V -> item V))
           (paths : list (nat * item V)) (entries : list (nat * V)) : list (event V) :=
  flat_map (fun '(x, it) => events_of false 0 pre x it) paths
  ++ flat_map (fun '(k, v) => events_of true (S (List.length pre)) post k
                                        (group k v (map img (names_of v)))) entries.

Definition item_events (tr : list (event V)) : list (event V) :=
  filter (fun e => match e with EGlobal _ => false | _ => true end) tr.

End JoinSpec.

(** ** Images kept while they wait for the other images of their groups *)

Definition among (x : nat) (l : list nat) : bool := existsb (Nat.eqb x) l.

(** [entries]: the names of each group; [read]: the names of the images already read.  An
    image read is kept if one of its groups contains an image not yet read. *)
Definition waiting (entries : list (list nat)) (read : list nat) : list nat :=
  filter (fun x => existsb (fun names => among x names && negb (forallb (fun y => among y read) names))
                           entries) read.

(** ** Series of images

    [entries]: for each index of serie its value (whose names are [names_of]); each name has
    a path. *)
Section Series.
Context {V : Type}.
Variable names_of : V -> list nat.

Definition series_of (path : nat -> V) (entries : list (nat * V)) : list (nat * V * list (nat * V)) :=
  map (fun '(k, v) => (k, v, map (fun x => (x, path x)) (names_of v))) entries.

(** the names of all the series, each one once, in the order of the first occurrences *)
Definition reading_order (groups : list (list nat)) : list nat :=
  fold_left (fun acc x => if among x acc then acc else acc ++ [x]) (List.concat groups) [].

Definition groups_of (entries : list (nat * V)) : list (list nat) :=
  map (fun '(_, v) => names_of v) entries.

(** group of a serie: the couple of its two images, or the tuple of its images *)
Definition couple_group (mk : nat -> nat -> nat -> V -> V -> V) (k : nat) (v : V) (images : list (item V)) : item V :=
  match names_of v, images with
  | a :: b :: _, x1 :: x2 :: _ => couple_of (mk k a b) x1 x2
  | _, _ => inr IndexError
  end.
Definition subset_group (mk : nat -> list nat -> list (item V) -> V) (k : nat) (v : V) (images : list (item V)) : item V :=
  inl (mk k (names_of v) images).
End Series.

(** Independent specification of a first-in first-out map, by arrival dates.

    The state is a finite map from keys to (value, date of the insertion of the key).
    Setting a present key changes its value, not its date.  Popping returns the oldest
    key. *)
From Verif Require Import PyBase QueueModel.

Section Spec.
Context {V : Type}.

Record sstate := { content : nat -> option (V * nat); clock : nat }.

Definition s_empty : sstate := {| content := fun _ => None; clock := 0 |}.

Definition changed (c c' : nat -> option (V * nat)) (k : nat) (x : option (V * nat)) : Prop :=
  c' k = x /\ forall k', k' <> k -> c' k' = c k'.

Inductive s_step : sstate -> op V -> out V -> sstate -> Prop :=
| s_set_new c t c' k v : c k = None -> changed c c' k (Some (v, t)) ->
    s_step {| content := c; clock := t |} (OpSet k v) OutNone {| content := c'; clock := S t |}
| s_set_old c t c' k v v0 t0 : c k = Some (v0, t0) -> changed c c' k (Some (v, t0)) ->
    s_step {| content := c; clock := t |} (OpSet k v) OutNone {| content := c'; clock := t |}
| s_del c t c' k : c k <> None -> changed c c' k None ->
    s_step {| content := c; clock := t |} (OpDel k) OutNone {| content := c'; clock := t |}
| s_del_missing c t k : c k = None ->
    s_step {| content := c; clock := t |} (OpDel k) OutKeyError {| content := c; clock := t |}
| s_pop c t c' k v t0 : c k = Some (v, t0) ->
    (forall k' v' t', c k' = Some (v', t') -> (t0 <= t')%nat) -> changed c c' k None ->
    s_step {| content := c; clock := t |} OpPop (OutItem k v) {| content := c'; clock := t |}
| s_pop_empty c t : (forall k, c k = None) ->
    s_step {| content := c; clock := t |} OpPop OutKeyError {| content := c; clock := t |}.

Inductive s_run : sstate -> list (op V) -> list (out V) -> sstate -> Prop :=
| s_run_nil s : s_run s [] [] s
| s_run_cons s o r s' ops rs s'' :
    s_step s o r s' -> s_run s' ops rs s'' -> s_run s (o :: ops) (r :: rs) s''.

End Spec.
Arguments sstate V : clear implicits.

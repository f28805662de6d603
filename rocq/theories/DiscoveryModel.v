(** Which executors are found: executors/__init__.py:70-137 (get_entry_points, get_executor_names, _get_module_fullname_from_name,
    import_executor_class) and the choice by name in topologies/base.py:378-388 (compute).

    External (importlib): the entry points of the installed packages, [select], and the class Executor of a module. *)
From Verif Require Import PyBase StrModel NameModel.
Open Scope Z_scope.

Record entry_point := mk_ep { ep_name : chars; ep_module : chars }.

Section Discovery.
Variable Cls : Type.
Variable load : chars -> result Cls.     (* [importlib.import_module(name).Executor] *)

(** the module variable [_entry_points] *)
Notation cache := (option (list entry_point)).
(** executors/__init__.py:73-84, with the entry points installed at the time of the call *)
Definition get_entry_points (installed : list entry_point) (reload : bool) (c : cache) : cache * result (list entry_point) :=
  let c' := match c with None => Some installed | Some l => if reload then Some installed else Some l end in
  (c', match c' with None | Some [] => Err RuntimeError | Some l => Ok l end).
(** 87-89 *)
Definition get_executor_names (installed : list entry_point) (c : cache) : cache * result (list chars) :=
  let '(c', r) := get_entry_points installed false c in (c', do l <- r ; Ok (map ep_name l)).
(** 92-111; the module logging is not imported in this file *)
Definition module_fullname (installed : list entry_point) (name : chars) (c : cache) : cache * result chars :=
  let '(c', r) := get_entry_points installed false c in
  (c', do l <- r ;
       match filter (fun e => chars_eqb (ep_name e) name) l with
       | [] => Err ValueError
       | [e] => Ok (ep_module e)
       | _ => Err NameError
       end).
(** 114-137: the argument is an entry point or a name *)
Definition import_executor_class (installed : list entry_point) (arg : entry_point + chars) (c : cache) : cache * result Cls :=
  match arg with
  | inl e => (c, load (ep_module e))
  | inr name => let '(c', r) := module_fullname installed name c in (c', do m <- r ; load m)
  end.
(** topologies/base.py:378-388: the class used by [compute(executor=name)] *)
Definition class_for_compute (installed : list entry_point) (name : chars) (c : cache) : cache * result Cls :=
  let '(c1, r) := get_executor_names installed c in
  match r with
  | Err e => (c1, Err e)
  | Ok names => if existsb (fun n => chars_eqb n name) names then import_executor_class installed (inr name) c1 else (c1, Err NotImplementedError)
  end.

(** what happens during a session of Python *)
Inductive op := Install (l : list entry_point) | GetEntryPoints (reload : bool) | GetNames | Import (arg : entry_point + chars) | Compute (name : chars).
Record session := mk_session { installed : list entry_point; known : cache }.
Definition step (s : session) (o : op) : session :=
  match o with
  | Install l => mk_session l (known s)
  | GetEntryPoints r => mk_session (installed s) (fst (get_entry_points (installed s) r (known s)))
  | GetNames => mk_session (installed s) (fst (get_executor_names (installed s) (known s)))
  | Import a => mk_session (installed s) (fst (import_executor_class (installed s) a (known s)))
  | Compute n => mk_session (installed s) (fst (class_for_compute (installed s) n (known s)))
  end.
Definition run (s : session) (ops : list op) : session := fold_left step ops s.
End Discovery.

(** Small utilities: the arguments shown by the launcher (topologies/launcher.py), the text
    for a duration (util/util.py), reset_logger (util/log.py). *)
From Coq Require Import QArith Qround.
From Verif Require Import PyBase StrModel LogModel.
Open Scope Z_scope.

(** ** launcher *)
Section Launcher.
Variable V : Type.

(** A signature: the names of the arguments with their defaults.  In Python the arguments
    without default come first: [required] then [optional]. *)
Record signature := { required : list chars; optional : list (chars * V) }.

(** inspect.getfullargspec: [args] and [defaults] (None without default) *)
Definition spec_args (s : signature) : list chars := required s ++ map fst (optional s).
Definition spec_defaults (s : signature) : option (list V) :=
  match optional s with [] => None | l => Some (map snd l) end.

(** launcher.py:26-35, _get_args_bound_method *)
Definition get_args_bound_method (s : signature) : result (list chars * list V) :=
  let key_args := py_slice (spec_args s) 2 (zlen (spec_args s)) in
  match spec_defaults s with
  | None => Err TypeError  (* 'NoneType' object is not subscriptable *)
  | Some d => Ok (key_args, py_slice d 1 (zlen d))
  end.

(** launcher.py:46-52 and 56-62: the attributes of params.topology (for __init__) and of
    params.topology.compute (for compute), with their values *)
Definition launcher_attribs (s : signature) : result (list (chars * V)) :=
  do kd <- get_args_bound_method s ;
  Ok (combine (fst kd) (snd kd)).
End Launcher.
Arguments required {V}. Arguments optional {V}.

(** ** format_time_in_seconds *)

(** rounding to the nearest integer, ties to even *)
Definition round_half_even (x : Q) : Z :=
  let f := Qfloor x in
  match (x - inject_Z f ?= 1 # 2)%Q with
  | Lt => f
  | Gt => f + 1
  | Eq => if Z.even f then f else f + 1
  end.

(** [f"{x:.2f}"] of a finite number, without the sign of a negative number which rounds
    to zero *)
Definition fmt_2f (x : Q) : chars := fmt_decimal 2 (round_half_even (x * 100)).

(** [f"{n:02}"] *)
Definition fmt02 (n : Z) : chars := pad_zeros 2 (py_str n).

(** util/util.py:138-144.  The durations are rational numbers (as all the finite floats)
    and the arithmetic is exact. *)
Definition format_time_in_seconds (duration_in_s : Q) : chars :=
  if negb (Qle_bool 60 duration_in_s) then fmt_2f duration_in_s ++ of_string " s"
  else
    let hours := Qfloor (duration_in_s / 3600) in
    let remainder := (duration_in_s - inject_Z hours * 3600)%Q in
    let minutes := Qfloor (remainder / 60) in
    let seconds := (remainder - inject_Z minutes * 60)%Q in
    fmt02 hours ++ ":"%char :: fmt02 minutes ++ ":"%char :: fmt02 (Qfloor seconds).

(** ** reset_logger *)
Section Logger.
Variable handler : Type.
Variable same : forall a b : handler, {a = b} + {a <> b}.

(** logging.Logger.removeHandler: remove the first occurrence *)
Fixpoint remove_handler (h : handler) (l : list handler) : list handler :=
  match l with
  | [] => []
  | x :: l' => if same x h then l' else x :: remove_handler h l'
  end.

(** util/log.py:29-32: [for handler in logger.handlers: logger.removeHandler(handler)], the
    iteration over a list being an iteration over the indices of the current list; the
    same loop in executors/base.py:151-152 and servers.py:205-206.  [fuel]: at most the
    number of handlers (theorem C46_kept: it is enough). *)
Fixpoint reset_loop (fuel i : nat) (handlers : list handler) : option (list handler) :=
  match nth_error handlers i with
  | None => Some handlers
  | Some h =>
    match fuel with
    | O => None
    | S fuel => reset_loop fuel (S i) (remove_handler h handlers)
    end
  end.
Definition reset_logger (handlers : list handler) : option (list handler) :=
  reset_loop (List.length handlers) 0 handlers.
End Logger.

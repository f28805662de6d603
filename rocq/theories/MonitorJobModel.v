(** gui/monitor.py:121-127: the choice of the job displayed, [sorted(self.path_results.glob("job_*"))[-1]]; the names of the
    directories come from executors/base.py:85-88, 97 and 267-269 ([f"job_{time_as_str()}_{os.getpid()}"]). *)
From Verif Require Import PyBase StrModel.
Open Scope Z_scope.

(** comparison of two str (code points) *)
Fixpoint str_compare (s t : chars) : comparison :=
  match s, t with
  | [], [] => Eq
  | [], _ :: _ => Lt
  | _ :: _, [] => Gt
  | a :: s', b :: t' =>
    match Nat.compare (Ascii.nat_of_ascii a) (Ascii.nat_of_ascii b) with Eq => str_compare s' t' | c => c end
  end.
Definition str_le (s t : chars) : bool := match str_compare s t with Gt => false | _ => true end.

(** [sorted]; the paths have the same parent, thus they are compared by their names *)
Fixpoint insert_str (x : chars) (l : list chars) : list chars :=
  match l with [] => [x] | y :: l' => if str_le x y then x :: l else y :: insert_str x l' end.
Definition sorted_str (l : list chars) : list chars := fold_right insert_str [] l.

Fixpoint starts (p s : chars) : bool :=
  match p, s with [], _ => true | a :: p', b :: s' => Ascii.eqb a b && starts p' s' | _ :: _, [] => false end.

(** lines 121-127; None: "No job info folder found." and the application exits *)
Definition chosen_job (entries : list chars) : option chars :=
  match rev (sorted_str (filter (starts (of_string "job_")) entries)) with
  | [] => None
  | j :: _ => Some j
  end.

(** [strftime("%Y-%m-%d_%H-%M-%S")] (fluiddyn's [time_as_str], and the format read by the monitor, lines 138-140): decimal
    digits with leading zeros; years from 1000 to 9999 *)
Record time := mk_time { t_year : Z; t_month : Z; t_day : Z; t_hour : Z; t_min : Z; t_sec : Z }.
Definition digit_char (d : Z) : ascii := Ascii.ascii_of_nat (48 + Z.to_nat d).
Fixpoint digits (width : nat) (n : Z) : chars :=
  match width with
  | O => []
  | S w => digit_char (n / 10 ^ Z.of_nat w) :: digits w (n mod 10 ^ Z.of_nat w)
  end.
Definition time_as_str (t : time) : chars :=
  digits 4 (t_year t) ++ of_string "-" ++ digits 2 (t_month t) ++ of_string "-" ++ digits 2 (t_day t) ++ of_string "_" ++
  digits 2 (t_hour t) ++ of_string "-" ++ digits 2 (t_min t) ++ of_string "-" ++ digits 2 (t_sec t).
(** base.py:86-88 and 268; [index]: lines 90-95, the digits added when the directory exists *)
Definition job_dir (t : time) (pid : Z) (index : chars) : chars :=
  of_string "job_" ++ time_as_str t ++ of_string "_" ++ py_str pid ++ index.

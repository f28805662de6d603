(** topologies/nb_cpu_cores.py: the number of cores used by default, computed when the module is imported, and the number of
    workers which depends on it (executors/base.py:158-176).

    Simplifications: the text of /proc/self/status is a list of lines, and the value of a line "Cpus_allowed:" is in this
    line; [int(s, 16)] is modelled for texts made of hexadecimal digits and spaces around; the option of the configuration is
    evaluated for names and integers only (simpleeval knows the names True, False and None). *)
From Verif Require Import PyBase StrModel MonitorJobModel.

Definition NameNotDefined := UserError 65.

(** line 32: [int(s, 16)] *)
Definition hex_digit (c : ascii) : option Z :=
  let n := Z.of_nat (Ascii.nat_of_ascii c) in
  if (48 <=? n) && (n <=? 57) then Some (n - 48)
  else if (97 <=? n) && (n <=? 102) then Some (n - 87)
  else if (65 <=? n) && (n <=? 70) then Some (n - 55)
  else None.
Fixpoint hex_value (acc : Z) (s : chars) : option Z :=
  match s with
  | [] => Some acc
  | c :: s' => match hex_digit c with Some d => hex_value (16 * acc + d) s' | None => None end
  end.
Definition int16 (s : chars) : result Z :=
  match strip s with
  | [] => Err ValueError
  | s' => match hex_value 0 s' with Some n => Ok n | None => Err ValueError end
  end.

(** line 32: [bin(n).count("1")] for [n >= 0] *)
Fixpoint ones (p : positive) : Z :=
  match p with xH => 1 | xO q => ones q | xI q => 1 + ones q end.
Definition count_ones (n : Z) : Z := match n with Zpos p => ones p | _ => 0 end.

(** line 30: [re.search(r"(?m)^Cpus_allowed:\s*(.* )$", status)] and [m.group(1)] *)
Definition prefix_status : chars := of_string "Cpus_allowed:".
Definition search_status (lines : list chars) : option chars :=
  match filter (starts prefix_status) lines with
  | [] => None
  | l :: _ => Some (lstrip (skipn (List.length prefix_status) l))
  end.

(** line 46: [s.split()] *)
Fixpoint words_aux (cur s : chars) : list chars :=
  match s with
  | [] => match cur with [] => [] | _ => [rev cur] end
  | c :: s' => if is_space c then (match cur with [] => words_aux [] s' | _ => rev cur :: words_aux [] s' end) else words_aux (c :: cur) s'
  end.
Definition words (s : chars) : list chars := words_aux [] s.

(** lines 41-46: the first line "siblings" ([nb_proc_tot] is not used) *)
Fixpoint find_siblings (lines : list chars) (siblings : option Z) : result (option Z) :=
  match lines with
  | [] => Ok siblings
  | l :: lines' =>
    match starts (of_string "siblings") l, siblings with
    | true, None => do w <- py_get (words l) (-1) ; do n <- py_int w ; find_siblings lines' (Some n)
    | _, _ => find_siblings lines' siblings
    end
  end.

(** lines 16-24: the option of the file .fluidimagerc (None: no file, section or option).  config.py:23-24 gives the text
    ([value.lower in ...] compares a method with texts: always false). *)
Definition eval_flag (s : chars) : result bool :=
  let w := strip s in
  if list_eq_dec Ascii.ascii_dec w (of_string "True") then Ok true
  else if list_eq_dec Ascii.ascii_dec w (of_string "False") then Ok false
  else if list_eq_dec Ascii.ascii_dec w (of_string "None") then Ok false
  else match py_int w with Ok n => Ok (negb (n =? 0)) | Err _ => Err NameNotDefined end.
Definition config_flag (option_text : option chars) : result bool :=
  match option_text with None => Ok false | Some s => eval_flag s end.

(** the module, lines 12-54; [status], [cpuinfo]: None when the file cannot be read (IOError) *)
Definition nb_cores (cpu_count : Z) (option_text : option chars) (status cpuinfo : option (list chars)) : result Z :=
  do allow_hyperthreading <- config_flag option_text ;
  match status with
  | None => Ok cpu_count
  | Some lines =>
    match search_status lines with
    | None => Err NameError                                   (* nb_cpus_allowed is not defined *)
    | Some text =>
      do mask <- int16 (filter (fun c => negb (Ascii.eqb c comma)) text) ;
      let nb_cpus_allowed := count_ones mask in
      let nb_cores := if 0 <? nb_cpus_allowed then nb_cpus_allowed else cpu_count in
      match cpuinfo with
      | None => Ok nb_cores
      | Some lines =>
        do siblings <- find_siblings lines None ;
        match siblings with
        | Some n => if (nb_cores =? n * 2) && negb allow_hyperthreading then Ok (nb_cores / 2) else Ok nb_cores
        | None => Ok nb_cores
        end
      end
    end
  end.

(** executors/base.py:158-176, argument or option given or not *)
Definition nb_max_workers (nb_cores : Z) (argument : option Z) (option_value : option Z) : Z :=
  match argument, option_value with
  | Some n, _ => n
  | None, Some n => n
  | None, None => if nb_cores <? 16 then nb_cores + 2 else nb_cores
  end.

(** The log files of the executors and their analysis
    (src/fluidimage/topologies/log.py, executors/base.py, util/util.py).

    Simplifications: ASCII text; the lines end only with "\n"; [float] is modelled on the
    texts made of an optional "-", decimal digits and an optional ".", which are those the
    format codes ".2f" and ".3f" produce for finite numbers (a number printed with [k]
    decimals is represented by an integer number of 10^-k); the conversion of a date into
    a number of seconds (time.mktime, time.strptime) is a parameter; the title of the
    figures and the progress printed during the parsing are not modelled. *)
From Coq Require Import DecimalString QArith.
From Verif Require Import PyBase StrModel NameModel.
Open Scope Z_scope.

(** ** CPython built-ins *)

(** [s.startswith(p)] *)
Fixpoint startswith (p s : chars) : bool :=
  match p, s with
  | [], _ => true
  | _, [] => false
  | a :: p', b :: s' => Ascii.eqb a b && startswith p' s'
  end.

(** [p in s] *)
Fixpoint contains (p s : chars) : bool :=
  startswith p s || match s with [] => false | _ :: s' => contains p s' end.

(** [s.split(p)[0]]: the text before the first occurrence of [p] (not empty) *)
Fixpoint before (p s : chars) : chars :=
  if startswith p s then []
  else match s with [] => [] | c :: s' => c :: before p s' end.

(** [s.split()] *)
Fixpoint split_ws (s : chars) : list chars :=
  match s with
  | [] => []
  | c :: s' =>
    if is_space c then split_ws s'
    else match s' with
         | [] => [[c]]
         | d :: _ =>
           if is_space d then [c] :: split_ws s'
           else match split_ws s' with
                | [] => [[c]]  (* unreachable *)
                | w :: ws => (c :: w) :: ws
                end
         end
  end.

(** the decimal number [m * 10^-k] *)
Definition decimal (k : nat) (m : Z) : Q := Qmake m (Pos.pow 10 (Pos.of_nat k)).

Definition digits_value (s : chars) : option Z :=
  match s with
  | [] => Some 0
  | _ => match NilEmpty.uint_of_string (string_of_list_ascii s) with
         | Some u => Some (Z.of_uint u)
         | None => None
         end
  end.

(** [float(s)] for a text which is not negative, with [k] decimals *)
Definition float_abs (s : chars) : option (nat * Z) :=
  match split_on "."%char s with
  | [a; b] =>
    match a ++ b, digits_value a, digits_value b with
    | _ :: _, Some x, Some y => Some (List.length b, x * 10 ^ zlen b + y)
    | _, _, _ => None
    end
  | [a] =>
    match a, digits_value a with
    | _ :: _, Some x => Some (O, x)
    | _, _ => None
    end
  | _ => None
  end.

(** [float(s)] *)
Definition py_float (s : chars) : result Q :=
  match
    match strip s with
    | c :: s' =>
      if Ascii.eqb c "-"%char
      then match float_abs s' with Some (k, m) => Some (k, - m) | None => None end
      else float_abs (c :: s')
    | [] => None
    end
  with
  | Some (k, m) => Ok (match k with O => inject_Z m | _ => decimal k m end)
  | None => Err ValueError
  end.

(** [f"{x:.kf}"] for the number [x = m * 10^-k], with [k > 0] *)
Definition fmt_decimal (k : nat) (m : Z) : chars :=
  (if m <? 0 then ["-"%char] else []) ++
  py_str (Z.abs m / 10 ^ Z.of_nat k) ++ "."%char ::
  pad_zeros k (py_str (Z.abs m mod 10 ^ Z.of_nat k)).

(** [s.ljust(n)] *)
Definition ljust (n : nat) (s : chars) : chars := s ++ repeat " "%char (n - List.length s).

(** ** the lines written by the executors *)

Definition esc (s : string) : chars := Ascii.ascii_of_nat 27 :: of_string s.
(** util/util.py:36-43, fluiddyn.util.terminal_colors: OKGREEN and ENDC *)
Definition okgreen : chars := esc "[92m".
Definition endc : chars := esc "[0m".

(** util/util.py:69-72 (get_txt_memory_usage) and 80-89 (cstring); [mem] in 10^-3 Mb *)
Definition get_txt_memory_usage (txt : chars) (mem : Z) : chars :=
  okgreen ++ (ljust 30 (txt ++ of_string ": ") ++ fmt_decimal 3 mem ++ of_string " Mb") ++ endc.

(** What the executors write in the log, the time and the memory being integer numbers of
    10^-2 s and 10^-3 Mb, the durations integer numbers of 10^-3 s:
    - [Launch]: executors/exec_sequential.py:50-54, exec_async.py:137-141, 235-239, 288-292,
      exec_async_sequential.py:53-57, exec_async_multiproc.py:67-71, servers.py:251-255;
    - [End]: exec_sequential.py:67-70, exec_async.py:147-150, 252-255, 305-308, ...;
    - [Start], [Stop]: base.py:205 and 292-295;
    - [Other]: any other line (works which print, messages of the logger). *)
Inductive event :=
| Launch (t : Z) (name key : chars) (mem : Z)
| End (name key : chars) (duration : Z)
| Start (date : chars) (mem : Z)
| Stop (date : chars) (mem : Z)
| Other (line : chars).

Definition line_of (e : event) : chars :=
  match e with
  | Launch t name key mem =>
    get_txt_memory_usage
      (fmt_decimal 2 t ++ of_string " s. Launch work " ++ name ++ of_string " (" ++ key
       ++ of_string "). mem usage") mem ++ [newline]
  | End name key d =>
    of_string "work " ++ name ++ of_string " (" ++ key ++ of_string ") done in "
      ++ fmt_decimal 3 d ++ of_string " s" ++ [newline]
  | Start date mem =>
    get_txt_memory_usage (date ++ of_string ": starting execution. mem usage") mem ++ [newline]
  | Stop date mem =>
    get_txt_memory_usage (date ++ of_string ": end of `compute`. mem usage") mem ++ [newline]
  | Other line => line ++ [newline]
  end.

Definition log_text (evs : list event) : chars := List.concat (map line_of evs).

(** ** DataLogFile, log.py:29-122 *)

Record work := { w_name : chars; w_key : chars; w_mem : Q; w_time : Q }.
Record ended := { e_name : chars; e_key : chars; e_duration : Q }.

(** Attributes and local variables ([None]: not yet assigned, or the value None for the
    four first options). *)
Record data := {
  works : list work;
  works_ended : list ended;
  nb_cpus_allowed : option Z;
  nb_max_workers : option Z;
  topology_name : option chars;
  executor_name : option chars;
  v_mem : option Q; v_date : option chars; v_t : option Q; v_time_start : option Q;
  mem_start : option Q; date_start : option chars;
  mem_end : option Q; date_end : option chars; duration : option Q
}.

Definition data0 : data :=
  {| works := []; works_ended := []; nb_cpus_allowed := None; nb_max_workers := None;
     topology_name := None; executor_name := None; v_mem := None; v_date := None;
     v_t := None; v_time_start := None; mem_start := None; date_start := None;
     mem_end := None; date_end := None; duration := None |}.

Definition get {A} (o : option A) : result A :=
  match o with Some a => Ok a | None => Err UnboundLocalError end.

Section Parse.
Variable parse_date : chars -> result Q.

(** log.py:48-74: the four parameters of the execution. *)
Definition parse_header (line : chars) (d : data) : result data :=
  do d <-
    (match nb_cpus_allowed d with
     | None =>
       if startswith (of_string "  nb_cpus_allowed = ") line then
         do w <- py_get (split_ws line) 2 ;
         do n <- py_int w ;
         Ok {| works := works d; works_ended := works_ended d; nb_cpus_allowed := Some n;
               nb_max_workers := nb_max_workers d; topology_name := topology_name d;
               executor_name := executor_name d; v_mem := v_mem d; v_date := v_date d;
               v_t := v_t d; v_time_start := v_time_start d; mem_start := mem_start d;
               date_start := date_start d; mem_end := mem_end d; date_end := date_end d;
               duration := duration d |}
       else Ok d
     | Some _ => Ok d
     end) ;
  do d <-
    (match nb_max_workers d with
     | None =>
       if startswith (of_string "  nb_max_workers = ") line then
         do w <- py_get (split_ws line) 2 ;
         do n <- py_int w ;
         Ok {| works := works d; works_ended := works_ended d;
               nb_cpus_allowed := nb_cpus_allowed d;
               nb_max_workers := Some n; topology_name := topology_name d;
               executor_name := executor_name d; v_mem := v_mem d; v_date := v_date d;
               v_t := v_t d; v_time_start := v_time_start d; mem_start := mem_start d;
               date_start := date_start d; mem_end := mem_end d; date_end := date_end d;
               duration := duration d |}
       else Ok d
     | Some _ => Ok d
     end) ;
  do d <-
    (match topology_name d with
     | None =>
       let begin := of_string "  topology: " in
       if startswith begin line then
         Ok {| works := works d; works_ended := works_ended d;
               nb_cpus_allowed := nb_cpus_allowed d;
               nb_max_workers := nb_max_workers d;
               topology_name := Some (strip (before begin (skipn (List.length begin) line)));
               executor_name := executor_name d; v_mem := v_mem d; v_date := v_date d;
               v_t := v_t d; v_time_start := v_time_start d; mem_start := mem_start d;
               date_start := date_start d; mem_end := mem_end d; date_end := date_end d;
               duration := duration d |}
       else Ok d
     | Some _ => Ok d
     end) ;
  match executor_name d with
  | None =>
    let begin := of_string "  executor: " in
    if startswith begin line then
      Ok {| works := works d; works_ended := works_ended d;
            nb_cpus_allowed := nb_cpus_allowed d;
            nb_max_workers := nb_max_workers d; topology_name := topology_name d;
            executor_name := Some (strip (before begin (skipn (List.length begin) line)));
            v_mem := v_mem d; v_date := v_date d;
            v_t := v_t d; v_time_start := v_time_start d; mem_start := mem_start d;
            date_start := date_start d; mem_end := mem_end d; date_end := date_end d;
            duration := duration d |}
    else Ok d
  | Some _ => Ok d
  end.

Definition set_locals (d : data) (ws : list work) (m : option Q) (dt : option chars) (t : option Q) : data :=
  {| works := ws; works_ended := works_ended d; nb_cpus_allowed := nb_cpus_allowed d;
     nb_max_workers := nb_max_workers d; topology_name := topology_name d;
     executor_name := executor_name d; v_mem := m; v_date := dt; v_t := t;
     v_time_start := v_time_start d; mem_start := mem_start d; date_start := date_start d;
     mem_end := mem_end d; date_end := date_end d; duration := duration d |}.

(** log.py:76-107: a line with ". mem usage: ".  Returns the line without its five first
    characters (the name [line] is assigned again) and the new state. *)
Definition parse_mem (line : chars) (d : data) : result (chars * data) :=
  let line := py_slice line 5 (zlen line) in
  let words := split_ws line in
  do w <- py_get words (-2) ;
  let mem := match py_float w with Ok m => Some m | Err _ => v_mem d end in
  do d <-
    (if contains (of_string ". Launch work ") line then
       do name <- py_get words 4 ;
       do w5 <- py_get words 5 ;
       let key := py_slice w5 1 (-2) in
       do w0 <- py_get words 0 ;
       do t <- py_float w0 ;
       do m <- get mem ;
       Ok (set_locals d (works d ++ [{| w_name := name; w_key := key; w_mem := m; w_time := t |}])
             mem (v_date d) (Some t))
     else
       do w0 <- py_get words 0 ;
       let date := py_slice w0 0 (-1) in
       do t <- parse_date date ;
       Ok (set_locals d (works d) mem (Some date) (Some t))) ;
  if contains (of_string ": starting execution. mem usage") line then
    do date <- get (v_date d) ;
    do m <- get (v_mem d) ;
    do t <- get (v_t d) ;
    Ok (line,
        {| works := works d; works_ended := works_ended d;
           nb_cpus_allowed := nb_cpus_allowed d;
           nb_max_workers := nb_max_workers d; topology_name := topology_name d;
           executor_name := executor_name d; v_mem := v_mem d; v_date := v_date d;
           v_t := v_t d; v_time_start := Some t; mem_start := Some m;
           date_start := Some date; mem_end := mem_end d; date_end := date_end d;
           duration := duration d |})
  else if contains (of_string ": end of `compute`. mem usage") line then
    do date <- get (v_date d) ;
    do t <- get (v_t d) ;
    do t0 <- get (v_time_start d) ;
    do m <- get (v_mem d) ;
    Ok (line,
        {| works := works d; works_ended := works_ended d;
           nb_cpus_allowed := nb_cpus_allowed d;
           nb_max_workers := nb_max_workers d; topology_name := topology_name d;
           executor_name := executor_name d; v_mem := v_mem d; v_date := v_date d;
           v_t := v_t d; v_time_start := v_time_start d; mem_start := mem_start d;
           date_start := date_start d; mem_end := Some m; date_end := Some date;
           duration := Some (t - t0)%Q |})
  else Ok (line, d).

(** log.py:109-120 *)
Definition parse_done (line : chars) (d : data) : result data :=
  if startswith (of_string "work ") line && contains (of_string " done in ") line then
    let words := split_ws line in
    do name <- py_get words 1 ;
    do w2 <- py_get words 2 ;
    let key := py_slice w2 1 (-1) in
    do w <- py_get words (-2) ;
    match py_float w with
    | Err _ => Ok d
    | Ok x =>
      Ok {| works := works d;
            works_ended := works_ended d ++ [{| e_name := name; e_key := key; e_duration := x |}];
            nb_cpus_allowed := nb_cpus_allowed d;
            nb_max_workers := nb_max_workers d; topology_name := topology_name d;
            executor_name := executor_name d; v_mem := v_mem d; v_date := v_date d;
            v_t := v_t d; v_time_start := v_time_start d; mem_start := mem_start d;
            date_start := date_start d; mem_end := mem_end d; date_end := date_end d;
            duration := duration d |}
    end
  else Ok d.

(** log.py:43-120: one line *)
Definition parse_line (line : chars) (d : data) : result data :=
  if startswith (of_string "ERROR: ") line then Ok d
  else
    do d <- parse_header line d ;
    do ld <- (if contains (of_string ". mem usage: ") line then parse_mem line d else Ok (line, d)) ;
    parse_done (fst ld) (snd ld).

(** log.py:42-120: DataLogFile(path_file), [text] being the content of the file *)
Definition data_log_file (text : chars) : result data := 
  py_for (fun d line => parse_line line d) (file_lines text) data0.

(** ** LogTopology, log.py:156-218 *)

(** 182-185 *)
Definition names_of (ws : list work) : list chars :=
  fold_left (fun acc w => if existsb (chars_eqb (w_name w)) acc then acc else acc ++ [w_name w]) ws [].

(** 193-196 *)
Definition times_of (ws : list work) (name : chars) : list Q :=
  map w_time (filter (fun w => chars_eqb (w_name w) name) ws).
Definition keys_of (ws : list work) (name : chars) : list chars :=
  map w_key (filter (fun w => chars_eqb (w_name w) name) ws).

(** 201-203: the dict index_vs_keys, as an association list of which the last entry for
    a key is the one which counts (a later item replaces an earlier one) *)
Fixpoint last_assoc (key : chars) (l : list (chars * nat)) : option nat :=
  match l with
  | [] => None
  | (k, i) :: l' =>
    match last_assoc key l' with
    | Some j => Some j
    | None => if chars_eqb k key then Some i else None
    end
  end.
Definition index_vs_keys (es : list ended) : list (chars * nat) :=
  combine (map e_key es) (seq 0 (List.length es)).

(** 198-218; None stands for nan *)
Definition durations_of (ws : list work) (es : list ended) (name : chars) : result (list (option Q)) :=
  let es_name := filter (fun e => chars_eqb (e_name e) name) es in
  map_result
    (fun key =>
       match last_assoc key (index_vs_keys es_name) with
       | Some i => do e <- py_get es_name (Z.of_nat i) ; Ok (Some (e_duration e))
       | None => Ok None
       end) (keys_of ws name).

(** What LogTopology(path) computes: the works, the works ended, and for each name of work
    the times, the keys and the durations.  [main]: content of the main log file; [procs]:
    contents of the files process_*.txt, in the order of their names. *)
Definition log_topology (main : chars) (procs : list chars)
  : result (list work * list ended * list (chars * (list Q * list chars * list (option Q)))) :=
  do d <- data_log_file main ;
  do _ <- match mem_start d with Some m => Ok m | None => Err AttributeError end ;
  do ds <- map_result data_log_file procs ;
  let ws := works d ++ List.concat (map works ds) in
  let es := works_ended d ++ List.concat (map works_ended ds) in
  do tab <- map_result
    (fun name =>
       do du <- durations_of ws es name ;
       Ok (name, (times_of ws name, keys_of ws name, du))) (names_of ws) ;
  Ok (ws, es, tab).
End Parse.

(** Python text as [list ascii]: printing and parsing of integers and tuples, [join],
    [split], [strip], iteration over the lines of a file.  CPython built-ins, followed by
    the code which writes and reads the files of indices.

    Simplifications: only ASCII text; [int()] is modelled on the texts made of an optional
    "-" and decimal digits surrounded by white space (CPython also accepts "+", "_" and
    other Unicode digits, which never occur in the files written by the code). *)
From Coq Require Export Ascii.
From Coq Require Import Decimal DecimalString.
From Verif Require Import PyBase.

Definition chars := list ascii.
Definition of_string (s : string) : chars := list_ascii_of_string s.

(** [str(n)] for an int. *)
Definition py_str (n : Z) : chars := of_string (NilZero.string_of_int (Z.to_int n)).

Definition is_space (c : ascii) : bool :=
  match Ascii.nat_of_ascii c with
  | 9 | 10 | 11 | 12 | 13 | 28 | 29 | 30 | 31 | 32 => true
  | _ => false
  end%nat.

Fixpoint lstrip (s : chars) : chars :=
  match s with
  | [] => []
  | c :: s' => if is_space c then lstrip s' else s
  end.
Definition rstrip (s : chars) : chars := rev (lstrip (rev s)).
Definition strip (s : chars) : chars := rstrip (lstrip s).

(** [int(s)] *)
Definition py_int (s : chars) : result Z :=
  match NilZero.int_of_string (string_of_list_ascii (strip s)) with
  | Some d => Ok (Z.of_int d)
  | None => Err ValueError
  end.

(** [sep.join(l)] *)
Fixpoint join (sep : chars) (l : list chars) : chars :=
  match l with
  | [] => []
  | [s] => s
  | s :: l' => s ++ sep ++ join sep l'
  end.

(** [s.split(c)] for a one character separator *)
Fixpoint split_on (c : ascii) (s : chars) : list chars :=
  match s with
  | [] => [[]]
  | x :: s' =>
    if Ascii.eqb x c then [] :: split_on c s'
    else match split_on c s' with
         | [] => [[x]]  (* unreachable *)
         | w :: ws => (x :: w) :: ws
         end
  end.

Definition newline : ascii := Ascii.ascii_of_nat 10.
Definition comma : ascii := ","%char.

(** iteration over an opened text file: the lines, with their end of line *)
Fixpoint file_lines (s : chars) : list chars :=
  match s with
  | [] => []
  | x :: s' =>
    if Ascii.eqb x newline then [x] :: file_lines s'
    else match file_lines s' with
         | [] => [[x]]
         | w :: ws => (x :: w) :: ws
         end
  end.

(** [str(t)] for a tuple of ints *)
Definition str_tuple (t : list Z) : chars :=
  match t with
  | [] => of_string "()"
  | [n] => of_string "(" ++ py_str n ++ of_string ",)"
  | _ => of_string "(" ++ join (of_string ", ") (map py_str t) ++ of_string ")"
  end.

Fixpoint map_result {A B} (f : A -> result B) (l : list A) : result (list B) :=
  match l with
  | [] => Ok []
  | a :: l' => do b <- f a ; do bs <- map_result f l' ; Ok (b :: bs)
  end.

(** topologies/base.py:586-587, [_tuple_ints_from_str(line)]:
    [tuple(int(c.strip()) for c in line.strip()[1:-1].split(",") if c)] *)
Definition tuple_ints_from_str (line : chars) : result (list Z) :=
  map_result (fun c => py_int (strip c))
    (filter (fun c => match c with [] => false | _ => true end)
       (split_on comma (py_slice (strip line) 1 (-1)))).

(** topologies/splitters.py:104-106: content of a file of indices.  [str_index] is [str]
    for the type of the indices (int for series, tuple of ints for images). *)
Definition indices_file_text {A} (str_index : A -> chars) (indices : list A) : chars :=
  join [newline] (map str_index indices) ++ [newline].

(** topologies/base.py:566-570 (init_series): [[int(line) for line in open(path)]] *)
Definition read_indices_series (text : chars) : result (list Z) :=
  map_result py_int (file_lines text).

(** topologies/base.py:627-632 (fill_queue_paths). *)
Definition read_indices_images (text : chars) : result (list (list Z)) :=
  map_result tuple_ints_from_str (file_lines text).

(** [f"{n:03}"] for a non negative int: zero padding to width 3. *)
Definition pad_zeros (width : nat) (s : chars) : chars :=
  repeat "0"%char (width - List.length s) ++ s.
Definition fmt03 (n : nat) : chars := pad_zeros 3 (py_str (Z.of_nat n)).

(** topologies/splitters.py:103: name of the file of indices of a process; and
    executors/base.py:382-390: names of the progress files of a process. *)
Definition indices_file_name (idx_process : nat) : chars :=
  of_string "indices" ++ fmt03 idx_process ++ of_string ".txt".
Definition results_file_name (index_process : nat) : chars :=
  of_string "results_" ++ fmt03 index_process ++ of_string ".txt".
Definition len_results_file_name (index_process : nat) : chars :=
  of_string "len_results_" ++ fmt03 index_process ++ of_string ".txt".

(** Directory contents and [save_indices_files] (splitters.py:96-106) for index lists:
    the files written, in order. *)
Definition saved_indices_files {A} (str_index : A -> chars) (lists : list (list A))
  : list (chars * chars) :=
  map (fun '(i, l) => (indices_file_name i, indices_file_text str_index l))
    (filter (fun '(_, l) => match l with [] => false | _ => true end)
       (combine (seq 0 (List.length lists)) lists)).

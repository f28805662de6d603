(** Model of topologies/base.py:46-104, [prepare_path_dir_result], and of
    topologies/base.py:274-279, [TopologyBase._init_path_dir_result]. *)
From Verif Require Import PyBase StrModel FsModel.

(** [params.saving.path]: None, a str or a pathlib.Path. *)
Inductive saving_path := SPNone | SPStr (p : path) | SPPath (p : path).

(** [how_values] (base.py:46); [HOther] is any other string. *)
Inductive how := Ask | NewDir | Complete | Recompute | FromPathIndices | HOther.

(** How the function ends when no exception is raised: [Stopped] is [sys.exit()]. *)
Inductive outcome := Dir_ready (p : path) (h : how) | Stopped.

(** [text.lower()] restricted to ASCII *)
Definition lower_char (c : ascii) : ascii :=
  let n := Ascii.nat_of_ascii c in
  if ((65 <=? n) && (n <=? 90))%nat%bool then Ascii.ascii_of_nat (n + 32) else c.
Definition lower (s : chars) : chars := map lower_char s.

Definition str_eqb (a b : chars) : bool := if chars_eq_dec a b then true else false.
Definition in_strs (s : chars) (l : list chars) : bool := existsb (str_eqb s) l.

(** [while answer.lower() not in ["n", "c", "r", "s"]: answer = query(...)]: the first
    acceptable answer of the list of what the user types ([OutOfFuel] if there is none). *)
Definition accepted (answer : chars) : bool :=
  in_strs (lower answer) [of_string "n"; of_string "c"; of_string "r"; of_string "s"].
Fixpoint ask_user (answers : list chars) : result chars :=
  match answers with
  | [] => Err OutOfFuel
  | a :: l => if accepted a then Ok a else ask_user l
  end.

(** [path + suffix] for a str *)
Definition add_suffix (p : path) (s : chars) : path :=
  match p with [] => [s] | n :: d => (n ++ s) :: d end.

(** base.py:97-99: [i = 0; while os.path.exists(path_dir_result + str(i)): i += 1] *)
Fixpoint first_free (fuel : nat) (f : fs) (p : path) (i : Z) : result Z :=
  if fs_exists f (add_suffix p (py_str i)) then
    match fuel with
    | O => Err OutOfFuel
    | S fuel' => first_free fuel' f p (i + 1)
    end
  else Ok i.

(** base.py:49-104.  [path_dir_input] is the directory of the images, [postfix_saving] the
    postfix.  The fuel of the loop is the number of entries of the file system, which is
    always enough (theorem [C22_never_out_of_fuel]). *)
Definition prepare_path_dir_result (f : fs) (answers : list chars)
           (path_dir_input : path) (path_saving : saving_path) (postfix_saving : chars)
           (how_saving : how) : result (outcome * fs) :=
  match how_saving with
  | HOther => Err ValueError
  | _ =>
    let path_dir_result :=
      match path_saving with
      | SPNone => add_suffix path_dir_input (of_string "." ++ postfix_saving)
      | SPStr p => p
      | SPPath p => p
      end in
    let finish (p : path) (h : how) :=
      do f' <- fs_mkdir f p true ; Ok (Dir_ready p h, f') in
    if negb (fs_exists f path_dir_result) then
      finish path_dir_result (match how_saving with Ask => Recompute | h => h end)
    else
      do h <- match how_saving with
              | Ask =>
                do answer <- ask_user answers ;
                Ok (if str_eqb answer (of_string "s") then None
                    else if str_eqb answer (of_string "n") then Some NewDir
                    else if str_eqb answer (of_string "c") then Some Complete
                    else if str_eqb answer (of_string "r") then Some Recompute
                    else Some Ask)
              | h => Ok (Some h)
              end ;
      match h with
      | None => Ok (Stopped, f)
      | Some NewDir =>
        match path_saving with
        | SPPath _ => Err TypeError          (* Path + str *)
        | _ =>
          do i <- first_free (List.length f) f path_dir_result 0 ;
          finish (add_suffix path_dir_result (py_str i)) NewDir
        end
      | Some h' => finish path_dir_result h'
      end
  end.

(** base.py:274-279, [_init_path_dir_result]: the path is written back, as a Path, in
    [params.saving.path]. *)
Definition init_path_dir_result (f : fs) (answers : list chars) (path_dir_src : path)
           (path_saving : saving_path) (postfix : chars) (h : how)
  : result (outcome * saving_path * fs) :=
  do r <- prepare_path_dir_result f answers path_dir_src path_saving postfix h ;
  match r with
  | (Dir_ready p h', f') => Ok (Dir_ready p h', SPPath p, f')
  | (Stopped, f') => Ok (Stopped, path_saving, f')
  end.

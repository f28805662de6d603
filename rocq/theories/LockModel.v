(** Processes sharing directories of results: the system made of any number of processes
    which start and end executions (executors/base.py), used for the life cycle of the
    lock file. *)
From Verif Require Import PyBase StrModel FsModel LifeModel.

(** One process: the execution which is running, if any, and the executors whose
    [_release_lock] has been registered with [atexit] (base.py:258). *)
Record proc := mk_proc { p_running : option exec; p_atexit : list exec }.

Record sys := mk_sys { y_fs : fs; y_procs : list (chars * proc) }.

Fixpoint find_proc (l : list (chars * proc)) (pid : chars) : option proc :=
  match l with
  | [] => None
  | (q, p) :: l' => if chars_eq_dec q pid then Some p else find_proc l' pid
  end.
Definition del_proc (l : list (chars * proc)) (pid : chars) : list (chars * proc) :=
  filter (fun '(q, _) => if chars_eq_dec q pid then false else true) l.
Definition set_proc (l : list (chars * proc)) (pid : chars) (p : proc) : list (chars * proc) :=
  (pid, p) :: del_proc l pid.

(** Construction of an executor followed by [_init_compute] with [n] expected results
    (base.py:85-102, 104-208, 210-217).  [multi]: the executors which create the directory
    [log_...] when they are constructed (MultiExecutorBase base.py:461-465 and
    ExecutorAsyncServers).  When there is nothing to do, the executors other than
    MultiExecutorBase go on until [_finalize_compute], which calls [_release_lock].
    Simplification: the events of other processes do not occur between the construction and
    the end of [_init_compute]. *)
Definition run_fs {A} (m : M A) (x : exec) (f : fs) : (exec * fs) * result A :=
  match m (x, mk_world f [] []) with
  | ((x', w'), r) => ((x', w_fs w'), r)
  end.

Definition start_job (multi : bool) (f : fs) (dir : path) (time pid now params info : chars) (n : nat)
  : fs * result (option exec) :=
  let f0 := fs_mkdir f dir true in
  match f0 with
  | Err e => (f, Err e)
  | Ok f1 =>
    match init_log_path f1 dir (time ++ of_string "_" ++ pid) with
    | Err e => (f1, Err e)
    | Ok x =>
      match (if multi then fs_mkdir f1 (log_name (x_postfix x) :: dir) true else Ok f1) with
      | Err e => (f1, Err e)
      | Ok f2 =>
        if Nat.eqb n 0 then
          if multi then (f2, Ok None)
          else match run_fs (release_lock now) x f2 with
               | ((_, f3), Ok _) => (f3, Ok None)
               | ((_, f3), Err e) => (f3, Err e)
               end
        else match run_fs (save_job_data now params info) x f2 with
             | ((x', f3), Ok _) => (f3, Ok (Some x'))
             | ((_, f3), Err e) => (f3, Err e)
             end
      end
    end
  end.

Inductive sys_event :=
| SStart (multi : bool) (dir : path) (time pid now params info : chars) (n : nat)
| SEnd (pid now : chars)           (* end of compute: _finalize_compute *)
| SFail (pid : chars)              (* an exception escapes from compute *)
| SExit (pid now : chars)          (* the interpreter exits: atexit functions *)
| SKill (pid : chars)              (* the process is killed *)
| SWrite (p : path) (text : chars) (* somebody writes another file *)
| SMkdir (p : path).               (* somebody creates a directory *)

Fixpoint release_all (l : list exec) (now : chars) (f : fs) : fs :=
  match l with
  | [] => f
  | x :: l' => release_all l' now (snd (fst (run_fs (release_lock now) x f)))
  end.

(** A step; [None]: the event is not possible (a process runs one execution at a time). *)
Definition sys_step (s : sys) (e : sys_event) : option sys :=
  match e with
  | SStart multi dir time pid now params info n =>
    let p := match find_proc (y_procs s) pid with Some p => p | None => mk_proc None [] end in
    match p_running p with
    | Some _ => None
    | None =>
      match start_job multi (y_fs s) dir time pid now params info n with
      | (f, Ok (Some x)) =>
        Some (mk_sys f (set_proc (y_procs s) pid (mk_proc (Some x) (p_atexit p ++ [x]))))
      | (f, _) => Some (mk_sys f (set_proc (y_procs s) pid p))
      end
    end
  | SEnd pid now =>
    match find_proc (y_procs s) pid with
    | Some (mk_proc (Some x) l) =>
      Some (mk_sys (snd (fst (run_fs (release_lock now) x (y_fs s))))
                   (set_proc (y_procs s) pid (mk_proc None l)))
    | _ => None
    end
  | SFail pid =>
    match find_proc (y_procs s) pid with
    | Some (mk_proc (Some x) l) => Some (mk_sys (y_fs s) (set_proc (y_procs s) pid (mk_proc None l)))
    | _ => None
    end
  | SExit pid now =>
    match find_proc (y_procs s) pid with
    | Some p => Some (mk_sys (release_all (rev (p_atexit p)) now (y_fs s)) (del_proc (y_procs s) pid))
    | None => None
    end
  | SKill pid => Some (mk_sys (y_fs s) (del_proc (y_procs s) pid))
  | SWrite p text =>
    match p with
    | name :: _ =>
      if chars_eq_dec name lock_name then None
      else match fs_write (y_fs s) p text with
           | Ok f => Some (mk_sys f (y_procs s))
           | Err _ => None
           end
    | [] => None
    end
  | SMkdir p =>
    match p with
    | name :: _ =>
      if chars_eq_dec name lock_name then None
      else match fs_mkdir (y_fs s) p false with
           | Ok f => Some (mk_sys f (y_procs s))
           | Err _ => None
           end
    | [] => None
    end
  end.

(** States reached from the file system [f0], without any process, by events satisfying
    [allowed]. *)
Inductive sys_reach (allowed : sys_event -> Prop) (f0 : fs) : sys -> Prop :=
| sys_init : sys_reach allowed f0 (mk_sys f0 [])
| sys_next s e s' : sys_reach allowed f0 s -> allowed e -> sys_step s e = Some s' ->
    sys_reach allowed f0 s'.

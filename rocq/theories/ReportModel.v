(** The reports of the works which fail: executors/base.py:320-343 ([log_exception]), topologies/base.py:144 and
    156-171 ([name_no_space], [check_exception]) and the treatment of the items by the executors
    (exec_sequential.py:41-75; the same lines are in exec_async.py:225-310, exec_async_sequential.py:40-80 and
    exec_async_multiproc.py:122-137).

    Simplifications: the works of a topology are a chain, each one takes its items from the queue filled by the previous one
    (the works which act globally on queues do not call log_exception); the keys of a queue are different, so that
    an assignment [queue[key] = ret] adds an item at the end; the executor is any schedule: at each step it chooses a work,
    which treats the first item of its queue (exec_sequential.py chooses them in turn); the text of the traceback is given
    with the exception; the messages which are only printed are not modelled except those of check_exception;
    NotADirectoryError is seen as FileNotFoundError (both are OSError). *)
From Verif Require Import PyBase StrModel FsModel.
Open Scope Z_scope.

Definition slash : ascii := "/"%char.

(** topologies/base.py:144: [name.replace(" ", "_")] *)
Definition name_no_space (name : chars) : chars :=
  map (fun c => if Ascii.eqb c " "%char then "_"%char else c) name.

(** [dir / s] for a string which does not begin with a slash: pathlib removes the empty components and the components "." *)
Definition path_div (dir : path) (s : chars) : path :=
  rev (filter (fun c => negb (if chars_eq_dec c [] then true else if chars_eq_dec c (of_string ".") then true else false))
         (split_on slash s)) ++ dir.

(** executors/base.py:322 *)
Definition path_log (dir : path) (work_name key : chars) : path :=
  path_div dir (of_string "exception_" ++ work_name ++ of_string "_" ++ key ++ of_string ".txt").

(** executors/base.py:340-343 *)
Definition report_text (work_name key formatted : chars) : chars :=
  of_string "Exception for work " ++ work_name ++ of_string ", key " ++ key ++ of_string ":" ++ [newline] ++ formatted.

(** executors/base.py:320-343; [formatted]: the traceback.  Gives the file system and the exception raised, if any. *)
Definition log_exception (f : fs) (dir : path) (work_name key formatted : chars) : fs * option exn :=
  match fs_mkdir f dir true with                                             (* 328 *)
  | Err e => (f, Some e)
  | Ok f1 =>
    match fs_write f1 (path_log dir work_name key) (report_text work_name key formatted) with (* 339-343 *)
    | Err e => (f1, Some e)
    | Ok f2 => (f2, None)
    end
  end.

Section Run.
Variable V : Type.

(** a work: its name, its function (on the key and the value of an item; it gives a value or raises an exception, given with
    its traceback), and if there is an output queue *)
Record work := { w_name : chars; w_func : chars -> V -> V + (exn * chars); w_out : bool }.

(** a queue: the values are objects or exceptions of a previous work *)
Definition queue := list (chars * (V + exn)).

(** the files, the queues (the work number i takes its items in the queue i and puts them in the queue i + 1), and the
    messages of check_exception (work, key) *)
Record state := { s_fs : fs; s_queues : nat -> queue; s_msgs : list (chars * chars) }.

Definition set_queue (qs : nat -> queue) (i : nat) (q : queue) : nat -> queue := fun j => if Nat.eqb j i then q else qs j.
(** [if work.output_queue is not None: work.output_queue[key] = ret] *)
Definition put (w : work) (qs : nat -> queue) (i : nat) (key : chars) (ret : V + exn) : nat -> queue :=
  if w_out w then set_queue qs (S i) (qs (S i) ++ [(key, ret)]) else qs.

(** exec_sequential.py:41-75: the work [i] of the list [ws] treats an item.  Gives the new state and the exception which
    escapes, if any. *)
Definition step (stop_if_error : bool) (dir : path) (ws : list work) (s : state) (i : nat) : state * option exn :=
  match nth_error ws i, s_queues s i with
  | Some w, (key, obj) :: q =>
    let qs := set_queue (s_queues s) i q in
    match obj with
    | inr e =>                                                               (* topologies/base.py:156-171 *)
      ({| s_fs := s_fs s; s_queues := put w qs i key (inr e);
          s_msgs := if w_out w then s_msgs s else s_msgs s ++ [(name_no_space (w_name w), key)] |}, None)
    | inl v =>
      match w_func w key v with
      | inl ret => ({| s_fs := s_fs s; s_queues := put w qs i key (inl ret); s_msgs := s_msgs s |}, None)
      | inr (error, formatted) =>
        match log_exception (s_fs s) dir (name_no_space (w_name w)) key formatted with
        | (f, Some e) => ({| s_fs := f; s_queues := qs; s_msgs := s_msgs s |}, Some e)
        | (f, None) =>
          if stop_if_error then ({| s_fs := f; s_queues := qs; s_msgs := s_msgs s |}, Some error)
          else ({| s_fs := f; s_queues := put w qs i key (inr error); s_msgs := s_msgs s |}, None)
        end
      end
    end
  | _, _ => (s, None)
  end.

(** the executor, for a schedule *)
Fixpoint run (stop_if_error : bool) (dir : path) (ws : list work) (s : state) (schedule : list nat) : state * option exn :=
  match schedule with
  | [] => (s, None)
  | i :: schedule' =>
    match step stop_if_error dir ws s i with
    | (s', Some e) => (s', Some e)
    | (s', None) => run stop_if_error dir ws s' schedule'
    end
  end.

(** the state at the beginning: the items are in the first queue *)
Definition init (f : fs) (items : list (chars * V)) : state :=
  {| s_fs := f; s_queues := fun i => match i with O => map (fun e => (fst e, inl (snd e))) items | S _ => [] end; s_msgs := [] |}.
End Run.

(** ** The names of the works of the topologies of fluidimage which treat one item at a time (the kind of the other ones is
    "global" or "one shot")

    topologies/bos.py:121-156, example.py:137-164, image2image.py:99-121, mean.py:82-88, piv.py:113-159 (and
    optical_flow.py), preproc.py:220-261, surface_tracking.py:158-220 *)
Definition works_bos := map of_string ["read array"; "image2image"; "compute bos"; "save bos"]%string.
Definition works_example := map of_string ["read array"; "cpu1"; "cpu2"; "save"]%string.
Definition works_image2image := map of_string ["read_array"; "im2im"; "save"]%string.
Definition works_mean := map of_string ["read_array"]%string.
Definition works_piv := map of_string ["read array"; "image2image"; "compute piv"; "save piv"]%string.
Definition works_preproc := map of_string ["imread"; "image2image"; "preproc a subset of arrays"; "save images"]%string.
Definition works_surface_tracking := map of_string
  ["read_array"; "image2image"; "process_frame"; "correct_couple_of_phases"; "calcul_height"; "set_borders_zero"; "save"]%string.

(** The server processes of the executor exec_async_servers (executors/servers.py:117-287).

    - the creation of the server (lines 154-212, [WorkerServerMultiprocessing.__init__]): what it does with the parameters
      and the directory of the results;
    - its four tasks ([check_event_has_to_stop], [receive], [launch_works], [send], lines 225-287), which share the lists
      [to_be_processed] and [to_be_resent].

    The tasks are run by trio in one thread: the code between two [await] is one step, and the steps of the tasks may alternate in
    any way.  [conn.recv], the function of a work and [child_conn.send] run in threads: they start at one step and end at a later one.
    The pipe between the executor and the server is first in, first out (multiprocessing, external); the connections on which
    the answers are sent are numbers.

    Simplified: the messages of the log are not modelled (they are only written); SIGINT and SIGTERM are not modelled; the time is
    not modelled ([trio.sleep] is a step without effect); the model starts when the four tasks have entered their loops.  When a task raises, trio cancels the others: what already runs in a thread goes
    on to its end, and nothing else is started.  Hence after a failure only the answer which is being sent can still be delivered. *)
From Verif Require Import PyBase StrModel FsModel ResultDirModel SubprocDirModel.

(** ** lines 180-188: the parameters of the server, then its topology (topologies/base.py:293-298).  The parameters are those of the
    topology of the executor: [saving.path] has been set to the directory of the results, as a Path; they are pickled (or shared
    if the server is a thread), hence the path is still a Path. *)
Definition server_how (h : how) : how := match h with Ask => Complete | h => h end.
Definition server_init (f : fs) (answers : list chars) (path_dir_src : path) (parent_saving_path : saving_path)
    (postfix : chars) (params_how : how) : result (outcome * saving_path * fs) :=
  init_path_dir_result f answers path_dir_src (reload false parent_saving_path) postfix (server_how params_how).

(** lines 36-80, [launch_server]: [type_server] is "multiprocessing", "threading" or another string; the result is whether the server runs
    in a process, and the parameters [saving.how] of the caller after the start of the server (lines 180-186: a thread shares the object
    params with the caller, a process has a copy). *)
Definition launch_server (type_server : chars) (caller_how : how) : result (bool * how) :=
  if str_eqb type_server (of_string "multiprocessing") then Ok (true, caller_how)
  else if str_eqb type_server (of_string "threading") then Ok (false, server_how caller_how)
  else Err ValueError.

(** ** The tasks *)
Section Server.
(** the keys and the objects of the queues *)
Variables K V : Type.

(** what the executor sends (exec_async_servers.py:204): the name of the work, the key, the object and the connection for the answer *)
Record job := mk_job { j_work : chars; j_key : K; j_obj : V; j_conn : nat }.
(** a message: ("__t_start__", time), or a job *)
Inductive msg := MStart (t : Z) | MJob (j : job).

(** the argument given to the function of a work (topologies/base.py:173-177) *)
Inductive arg := ArgKeyObj (k : K) (v : V) | ArgObj (v : V).
(** how the function of a work ends: a value, an Exception, or another exception (SystemExit, KeyboardInterrupt) *)
Inductive outcome_work := Returned (v : V) | Raised (e : exn) | RaisedBase (e : exn).
Record swork := mk_swork { w_eat_key_value : bool; w_func : arg -> outcome_work }.

(** the result in the answer: an object, or an exception *)
Inductive res := RObj (v : V) | RExn (e : exn).
Definition answer := (chars * K * res * nat)%type.

(** [self.topology.works_dict] *)
Variable works_dict : chars -> option swork.
(** whether the result can be pickled ([child_conn.send]); the error if not *)
Variable pickle_error : res -> option exn.

(** topologies/base.py:173-177, [Work.prepare_argument] *)
Definition prepare_argument (w : swork) (k : K) (v : V) : arg :=
  if w_eat_key_value w then ArgKeyObj k v else ArgObj v.

(** [self.t_start]: not set before the first message "__t_start__" (line 128, which sets it to None, is after the blocking call line
    124); [TOther]: not a number (the key of an item: a string or a tuple) *)
Inductive tstart := TMissing | TNumber (t : Z) | TOther.

Record server := mk_server {
  v_pipe : list msg;              (* sent by the executor, not received *)
  v_event : bool;                 (* event_has_to_stop *)
  v_continue : bool;              (* _has_to_continue *)
  v_t_start : tstart;
  v_todo : list job;              (* to_be_processed *)
  v_current : option (job * swork);  (* the job whose function is running in a thread *)
  v_resend : list answer;         (* to_be_resent *)
  v_sending : option answer;      (* the answer which is being sent *)
  v_delivered : list answer;      (* the answers received by the executor *)
  v_recv_done : bool; v_launch_done : bool; v_send_done : bool; v_check_done : bool;   (* the tasks which have returned *)
  v_dead : option exn             (* the exception raised by a task *)
}.

Definition server_start : server :=
  mk_server [] false true TMissing [] None [] None [] false false false false None.

Inductive vstep :=
| CSend (m : msg)       (* the executor sends a message *)
| CStop                 (* the executor sets the event (line 112) *)
| VCheck                (* lines 226-229 *)
| VReceive              (* lines 233-239: [conn.recv] returns *)
| VLaunch               (* lines 242-257: a job is taken *)
| VJobEnds              (* lines 260-276: the function of the work ends *)
| VSend                 (* lines 279-282: an answer is taken *)
| VSent.                (* lines 285-287: the answer is sent *)

Definition set_dead (e : exn) (s : server) : server :=
  mk_server (v_pipe s) (v_event s) (v_continue s) (v_t_start s) (v_todo s) None (v_resend s) (v_sending s) (v_delivered s)
    (v_recv_done s) (v_launch_done s) (v_send_done s) (v_check_done s) (Some e).

(** line 236 *)
Definition t_start_name : chars := of_string "__t_start__".

(** lines 235-239, after [conn.recv] *)
Definition handle (m : msg) (s : server) : tstart * list job :=
  match m with
  | MStart t => (TNumber t, v_todo s)
  | MJob j => if str_eqb (j_work j) t_start_name then (TOther, v_todo s) else (v_t_start s, v_todo s ++ [j])
  end.

(** lines 247-255: the work, then the time since [t_start] *)
Definition take (j : job) (s : server) : result swork :=
  match works_dict (j_work j) with
  | None => Err KeyError
  | Some w =>
    match v_t_start s with
    | TMissing => Err AttributeError
    | TOther => Err TypeError
    | TNumber _ => Ok w
    end
  end.

Definition do_vstep (s : server) (e : vstep) : server :=
  match e with
  | CSend m =>
    mk_server (v_pipe s ++ [m]) (v_event s) (v_continue s) (v_t_start s) (v_todo s) (v_current s) (v_resend s) (v_sending s) (v_delivered s)
      (v_recv_done s) (v_launch_done s) (v_send_done s) (v_check_done s) (v_dead s)
  | CStop =>
    mk_server (v_pipe s) true (v_continue s) (v_t_start s) (v_todo s) (v_current s) (v_resend s) (v_sending s) (v_delivered s)
      (v_recv_done s) (v_launch_done s) (v_send_done s) (v_check_done s) (v_dead s)
  | VCheck =>
    match v_dead s with
    | Some _ => s
    | None =>
      if v_event s && negb (v_check_done s) then
        mk_server (v_pipe s) (v_event s) false (v_t_start s) (v_todo s) (v_current s) (v_resend s) (v_sending s) (v_delivered s)
          (v_recv_done s) (v_launch_done s) (v_send_done s) true (v_dead s)
      else s
    end
  | VReceive =>
    match v_dead s, v_recv_done s, v_pipe s with
    | None, false, m :: rest =>
      let (t, todo) := handle m s in
      mk_server rest (v_event s) (v_continue s) t todo (v_current s) (v_resend s) (v_sending s) (v_delivered s)
        (negb (v_continue s)) (v_launch_done s) (v_send_done s) (v_check_done s) (v_dead s)
    | _, _, _ => s
    end
  | VLaunch =>
    match v_dead s, v_launch_done s, v_current s, v_todo s with
    | None, false, None, j :: rest =>
      match take j s with
      | Err e =>
        set_dead e (mk_server (v_pipe s) (v_event s) (v_continue s) (v_t_start s) rest (v_current s) (v_resend s) (v_sending s)
          (v_delivered s) (v_recv_done s) (v_launch_done s) (v_send_done s) (v_check_done s) (v_dead s))
      | Ok w =>
        mk_server (v_pipe s) (v_event s) (v_continue s) (v_t_start s) rest (Some (j, w)) (v_resend s) (v_sending s)
          (v_delivered s) (v_recv_done s) (v_launch_done s) (v_send_done s) (v_check_done s) (v_dead s)
      end
    | _, _, _, _ => s
    end
  | VJobEnds =>
    match v_dead s, v_current s with
    | None, Some (j, w) =>
      let resent (r : res) :=
        mk_server (v_pipe s) (v_event s) (v_continue s) (v_t_start s) (v_todo s) None
          (v_resend s ++ [(j_work j, j_key j, r, j_conn j)]) (v_sending s)
          (v_delivered s) (v_recv_done s) (negb (v_continue s)) (v_send_done s) (v_check_done s) (v_dead s) in
      match w_func w (prepare_argument w (j_key j) (j_obj j)) with
      | Returned v => resent (RObj v)
      | Raised e => resent (RExn e)
      | RaisedBase e => set_dead e s
      end
    | _, _ => s
    end
  | VSend =>
    match v_dead s, v_send_done s, v_sending s, v_resend s with
    | None, false, None, a :: rest =>
      mk_server (v_pipe s) (v_event s) (v_continue s) (v_t_start s) (v_todo s) (v_current s) rest (Some a)
        (v_delivered s) (v_recv_done s) (v_launch_done s) (v_send_done s) (v_check_done s) (v_dead s)
    | _, _, _, _ => s
    end
  | VSent =>
    match v_sending s with
    | Some a =>
      match pickle_error (snd (fst a)) with
      | Some e =>
        set_dead e (mk_server (v_pipe s) (v_event s) (v_continue s) (v_t_start s) (v_todo s) (v_current s) (v_resend s) None
          (v_delivered s) (v_recv_done s) (v_launch_done s) (v_send_done s) (v_check_done s) (v_dead s))
      | None =>
        mk_server (v_pipe s) (v_event s) (v_continue s) (v_t_start s) (v_todo s) (v_current s) (v_resend s) None
          (v_delivered s ++ [a]) (v_recv_done s) (v_launch_done s) (negb (v_continue s)) (v_check_done s) (v_dead s)
      end
    | None => s
    end
  end.

Definition vrun (l : list vstep) (s : server) : server := fold_left do_vstep l s.
End Server.
Arguments mk_job {K V} _ _ _ _.
Arguments j_work {K V} _.
Arguments j_key {K V} _.
Arguments j_obj {K V} _.
Arguments j_conn {K V} _.
Arguments MStart {K V} _.
Arguments MJob {K V} _.
Arguments ArgKeyObj {K V} _ _.
Arguments ArgObj {K V} _.
Arguments Returned {V} _.
Arguments Raised {V} _.
Arguments RaisedBase {V} _.
Arguments mk_swork {K V} _ _.
Arguments w_eat_key_value {K V} _.
Arguments w_func {K V} _ _.
Arguments RObj {V} _.
Arguments RExn {V} _.
Arguments prepare_argument {K V} _ _ _.
Arguments mk_server {K V} _ _ _ _ _ _ _ _ _ _ _ _ _ _.
Arguments v_pipe {K V} _.
Arguments v_event {K V} _.
Arguments v_continue {K V} _.
Arguments v_t_start {K V} _.
Arguments v_todo {K V} _.
Arguments v_current {K V} _.
Arguments v_resend {K V} _.
Arguments v_sending {K V} _.
Arguments v_delivered {K V} _.
Arguments v_recv_done {K V} _.
Arguments v_launch_done {K V} _.
Arguments v_send_done {K V} _.
Arguments v_check_done {K V} _.
Arguments v_dead {K V} _.
Arguments server_start {K V}.
Arguments CSend {K V} _.
Arguments CStop {K V}.
Arguments VCheck {K V}.
Arguments VReceive {K V}.
Arguments VLaunch {K V}.
Arguments VJobEnds {K V}.
Arguments VSend {K V}.
Arguments VSent {K V}.
Arguments do_vstep {K V} _ _ _ _.
Arguments vrun {K V} _ _ _ _.

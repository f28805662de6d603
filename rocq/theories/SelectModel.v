(** topologies/base.py:336-399, [TopologyBase.compute]: choice of the executor;
    executors/__init__.py:60-86 and 115-140 and the entry points of pyproject.toml:75-87. *)
From Verif Require Import PyBase.
Open Scope string_scope.

(** The argument [executor]. *)
Inductive exec_arg :=
| ANone
| AName (name : string)
| AObj (id : nat).                 (* an instance of ExecutorBase *)

(** pyproject.toml:75-87: name of the executor, module whose attribute [Executor] is the
    class. *)
Definition entry_points : list (string * string) :=
  [("exec_sequential", "fluidimage.executors.exec_sequential");
   ("exec_async", "fluidimage.executors.exec_async");
   ("exec_async_sequential", "fluidimage.executors.exec_async_sequential");
   ("exec_async_seq_for_multi", "fluidimage.executors.exec_async_seq_for_multi");
   ("exec_seq_for_multi", "fluidimage.executors.exec_seq_for_multi");
   ("multi_exec_async", "fluidimage.executors.multi_exec_async");
   ("multi_exec_sync", "fluidimage.executors.multi_exec_sync");
   ("multi_exec_subproc", "fluidimage.executors.multi_exec_subproc");
   ("multi_exec_subproc_sync", "fluidimage.executors.multi_exec_subproc_sync");
   ("exec_async_multi", "fluidimage.executors.exec_async_multiproc");
   ("exec_async_servers", "fluidimage.executors.exec_async_servers");
   ("exec_async_servers_threading", "fluidimage.executors.exec_async_servers_threading")].

(** executors/__init__.py:57-61; [linux]: sys.platform == "linux". *)
Definition supported_multi_executors (linux : bool) : list string :=
  if linux then ["multi_exec_async"; "multi_exec_sync"; "multi_exec_subproc"; "multi_exec_subproc_sync"]
  else ["multi_exec_subproc"; "multi_exec_subproc_sync"].

(** executors/__init__.py:83-85 *)
Definition executor_names : list string := map fst entry_points.

(** executors/__init__.py:88-110 *)
Definition module_fullname (name : string) : result string :=
  match find (fun e => String.eqb (fst e) name) entry_points with
  | Some e => Ok (snd e)
  | None => Err ValueError
  end.

(** Classes whose constructor raises NotImplementedError when [stop_if_error] is true:
    MultiExecutorBase (base.py:451-452), ExecutorAsyncServers (exec_async_servers.py:64-65),
    ExecutorAsyncSeqForMulti (exec_async_seq_for_multi.py:35-38, also the base of
    ExecutorSeqForMulti). *)
Definition refuses_stop_if_error (module : string) : bool :=
  existsb (String.eqb module)
    ["fluidimage.executors.multi_exec_async"; "fluidimage.executors.multi_exec_sync";
     "fluidimage.executors.multi_exec_subproc"; "fluidimage.executors.multi_exec_subproc_sync";
     "fluidimage.executors.exec_async_servers"; "fluidimage.executors.exec_async_servers_threading";
     "fluidimage.executors.exec_async_seq_for_multi"; "fluidimage.executors.exec_seq_for_multi"].

(** What is known of the executor which is run: its class and the options it was given. *)
Record started := mk_started {
  e_module : string;
  e_nb_max_workers : option Z;
  e_sleep_time : Z;
  e_stop_if_error : bool;
  e_kwargs : list (string * Z)
}.

(** The attributes of the topology: [executor] (None before the first call; an executor
    previously run, given by what is known of it) and [nb_max_workers]. *)
Record topo_attrs := mk_topo_attrs {
  ta_executor : option started;
  ta_nb_max_workers : option Z
}.

(** The names already given by [compute] or by position: a repeated key in kwargs_executor
    is a TypeError; also an unknown one ([accepted]: the other parameters of the class). *)
Definition given : list string :=
  ["path_dir_result"; "nb_max_workers"; "sleep_time"; "logging_level"; "stop_if_error"; "self"; "topology"].
Definition accepted (module : string) : list string :=
  if String.eqb module "fluidimage.executors.exec_sequential"
     || String.eqb module "fluidimage.executors.exec_async"
     || String.eqb module "fluidimage.executors.exec_async_sequential"
     || String.eqb module "fluidimage.executors.exec_async_multiproc"
  then ["nb_items_queue_max"; "path_log"]
  else if String.eqb module "fluidimage.executors.exec_async_seq_for_multi"
     || String.eqb module "fluidimage.executors.exec_seq_for_multi"
  then ["path_log"; "t_start"; "index_process"]
  else ["nb_items_queue_max"].
Definition kwargs_ok (module : string) (kw : list (string * Z)) : bool :=
  forallb (fun k => existsb (String.eqb (fst k)) (accepted module)) kw.

(** The executors of the worker processes need the argument [path_log]. *)
Definition needs_path_log (module : string) : bool :=
  String.eqb module "fluidimage.executors.exec_async_seq_for_multi"
  || String.eqb module "fluidimage.executors.exec_seq_for_multi".

(** Call of the class (up to the start of the body of ExecutorBase.__init__). *)
Definition exec_class (module : string) (nb : option Z) (sleep_time : Z) (stop : bool)
    (kw : list (string * Z)) : result started :=
  if negb (kwargs_ok module kw) then Err TypeError
  else if negb stop && needs_path_log module && negb (existsb (fun k => String.eqb (fst k) "path_log") kw)
  then Err TypeError                   (* Path(None), exec_async_seq_for_multi.py:72-73 *)
  else if stop && refuses_stop_if_error module then Err NotImplementedError
  else Ok (mk_started module nb sleep_time stop kw).

(** [compute]: the executor whose [compute] method is called, or the exception. *)
Definition compute (linux : bool) (ta : topo_attrs) (executor : exec_arg) (nb : option Z)
    (sleep_time : Z) (sequential stop : bool) (kw : option (list (string * Z))) : result started :=
  do executor <-
    (if sequential then
       match executor with
       | ANone => Ok (AName "exec_sequential")
       | AName n => if String.eqb n "exec_sequential" then Ok executor else Err ValueError
       | AObj _ => Err ValueError
       end
     else Ok executor) ;
  let executor :=
    match executor with
    | ANone => match supported_multi_executors linux with n :: _ => AName n | [] => ANone end
    | _ => executor
    end in
  match executor with
  | AObj _ =>                          (* self.executor is not set *)
    match ta_executor ta with
    | None => Err AttributeError       (* None has no attribute compute *)
    | Some e => Ok e
    end
  | ANone => Err NotImplementedError   (* not reached *)
  | AName name =>
    if existsb (String.eqb name) executor_names then
      let nb' := match nb with None => ta_nb_max_workers ta | Some _ => nb end in
      let kw' := match kw with None => [] | Some k => k end in
      do module <- module_fullname name ;
      exec_class module nb' sleep_time stop kw'
    else Err NotImplementedError
  end.

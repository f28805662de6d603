(** The figures made from the log files: the number of workers, the durations and the memory versus time
    (src/fluidimage/topologies/log.py:219-315).

    Simplifications: as in LogModel, the numbers of seconds are rational numbers and None stands for nan; the
    colours, the labels, the legend and the opening of the figures are not modelled; a figure is the list of
    what is given to [ax.plot], and what matplotlib draws for one call is the line which joins the successive
    points (no line reaches a point one coordinate of which is nan).  [np.argsort] (default kind, which is not
    stable) is a parameter. *)
From Coq Require Import QArith Permutation Sorting.Sorted.
From Verif Require Import PyBase StrModel NameModel LogModel.
Open Scope Z_scope.

(** what log.py:187-217 puts in self.times[name] and self.durations[name] *)
Definition table := list (chars * (list Q * list chars * list (option Q))).

(** [d[name]] for a dict *)
Fixpoint dict_get {A} (name : chars) (d : list (chars * A)) : result A :=
  match d with
  | [] => Err KeyError
  | (n, a) :: d' => if chars_eqb n name then Ok a else dict_get name d'
  end.

(** the sum of two floats, one of which can be nan *)
Definition add_nan (t : Q) (d : option Q) : option Q := match d with Some x => Some (Qplus t x) | None => None end.

(** [np.array(l) + np.array(m)] for two 1d arrays.  Simplification: the arrays of one element, which numpy
    broadcasts, are refused too when the lengths differ (the two lists always have the same length here). *)
Definition np_add (l : list Q) (m : list (option Q)) : result (list (option Q)) :=
  if Nat.eqb (List.length l) (List.length m) then Ok (map (fun p => add_nan (fst p) (snd p)) (combine l m))
  else Err ValueError.

(** [a[indices]] for a 1d array and an array of integers *)
Definition take {A} (a : list A) (indices : list nat) : result (list A) :=
  map_result (fun i => py_get a (Z.of_nat i)) indices.

(** [np.cumsum] *)
Fixpoint cumsum_from (s : Z) (l : list Z) : list Z :=
  match l with [] => [] | x :: l' => (s + x) :: cumsum_from (s + x) l' end.
Definition cumsum (l : list Z) : list Z := cumsum_from 0 l.

(** [enumerate(l)] *)
Definition enumerate {A} (l : list A) : list (nat * A) := combine (seq 0 (List.length l)) l.

Section Plot.
Variable argsort : list (option Q) -> list nat.

(** log.py:276-299: the points given to [ax.plot] for one name of work *)
Definition nb_workers_curve (times : list Q) (durations : list (option Q)) : result (list (option Q * Z)) :=
  let times_start := map (fun t => Some t) times in                       (* 276 *)
  do times_stop <- np_add times durations ;                               (* 277-279 *)
  let deltas := map (fun _ => 1) times_start ++ map (fun _ => -1) times_stop in (* 281 *)
  let times_unsorted := times_start ++ times_stop in                      (* 282 *)
  let order := argsort times_unsorted in                                  (* 284 *)
  do ts <- take times_unsorted order ;                                    (* 286 *)
  do sorted_deltas <- take deltas order ;
  let nbws := cumsum sorted_deltas in                                     (* 287 *)
  do pts <- map_result
    (fun p => let '(i, t) := p in
       do nbw <- py_get nbws (Z.of_nat i) ;                               (* 292 *)
       do t' <- py_get ts (Z.of_nat i + 1) ;                              (* 294 *)
       Ok [(t, nbw); (t', nbw)]) (enumerate (py_slice ts 0 (-1))) ;       (* 291-296 *)
  Ok (List.concat pts).

(** log.py:266-315 plot_nb_workers(str_names): the curves drawn, in the order of the works *)
Definition plot_nb_workers (tab : table) (str_names : option chars) : result (list (chars * list (option Q * Z))) :=
  let names_works := map fst tab in
  let names :=                                                            (* 268-271 *)
    match str_names with
    | Some s => filter (fun name => contains s name) names_works
    | None => names_works
    end in
  do curves <- map_result                                                 (* 275-299 *)
    (fun name =>
       do e <- dict_get name tab ;
       let '(times, _, durations) := e in
       do c <- nb_workers_curve times durations ;
       Ok (name, c)) names ;
  map_result (fun name => do c <- dict_get name curves ; Ok (name, c)) names_works. (* 309-311 *)
End Plot.

(** [np.nanmean] of a list which is not empty: nan (None) if there are only nan *)
Definition finite_values (l : list (option Q)) : list Q :=
  flat_map (fun o => match o with Some x => [x] | None => [] end) l.
Definition nanmean (l : list (option Q)) : option Q :=
  match finite_values l with
  | [] => None
  | xs => Some (Qdiv (fold_right Qplus 0%Q xs) (inject_Z (zlen xs)))
  end.

(** [times.min()] and [times.max()]: ValueError for an empty array *)
Definition qmin (l : list Q) : result Q :=
  match l with
  | [] => Err ValueError
  | x :: l' => Ok (fold_left (fun m y => if Qle_bool m y then m else y) l' x)
  end.
Definition qmax (l : list Q) : result Q :=
  match l with
  | [] => Err ValueError
  | x :: l' => Ok (fold_left (fun m y => if Qle_bool y m then m else y) l' x)
  end.

(** log.py:249-260: what is drawn for one name of work: the markers, one piece of line for each execution and
    the line of the mean duration *)
Definition durations_curves (times : list Q) (durations : list (option Q))
  : result (list (Q * option Q) * list ((Q * option Q) * (option Q * option Q)) * ((Q * option Q) * (Q * option Q))) :=
  if negb (Nat.eqb (List.length times) (List.length durations)) then Err ValueError (* ax.plot *)
  else
    do pieces <- map_result
      (fun p => let '(it, t) := p in
         do d <- py_get durations (Z.of_nat it) ;                         (* 256 *)
         Ok ((t, d), (add_nan t d, d))) (enumerate times) ;               (* 257 *)
    let d := nanmean durations in                                         (* 259 *)
    do tmin <- qmin times ;
    do tmax <- qmax times ;
    Ok (combine times durations, pieces, ((tmin, d), (tmax, d))).

(** log.py:239-264 plot_durations *)
Definition plot_durations (tab : table) :=
  map_result (fun name =>
    do e <- dict_get name tab ;
    let '(times, _, durations) := e in
    do c <- durations_curves times durations ;
    Ok (name, c)) (map fst tab).

(** log.py:227-233 plot_memory: the points of the line *)
Definition plot_memory (ws : list work) : list (Q * Q) := map (fun w => (w_time w, w_mem w)) ws.

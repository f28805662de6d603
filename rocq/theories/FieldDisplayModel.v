(** The display of a vector field and of an array of vector fields, and the array itself
    (src/fluidimage/postproc/vector_field.py:328-405 and 606-812).

    Simplifications: the coordinates are integers; the slices have positive steps; the colors, the limits of the
    axes and the events of the keyboard are not modelled. *)
From Verif Require Import PyBase StrModel VecFieldModel.

(** [slice(start, stop, step)] with bounds None or integers *)
Record slc := mk_slc { s_start : option Z; s_stop : option Z; s_step : Z }.
(** [range(n)[slice]]: the indices *)
Definition slice_indices (n : Z) (s : slc) : list Z :=
  let a := match s_start s with None => 0 | Some i => norm_bound n i end in
  let b := match s_stop s with None => n | Some i => norm_bound n i end in
  range_list a b (s_step s).
(** [l[slice]] *)
Definition take {A} (s : slc) (l : list A) : result (list A) :=
  if s_step s <=? 0 then Err ValueError else map_result (py_get l) (slice_indices (zlen l) s).
(** [a[slice0, slice1]] *)
Definition take2 {A} (s : slc * slc) (a : array2 A) : result (array2 A) :=
  do rows <- take (fst s) a ; map_result (take (snd s)) rows.

(** *** matplotlib: [ax.quiver(X, Y, U, V)] with 1D arrays [X] and [Y] and 2D arrays [U] and [V]
    ([Quiver._parse_args] and [Quiver.set_UVC]): the arrows, as position and vector *)
Definition arrows (A : Type) : Type := list (Z * Z * A * A).
Fixpoint zip4 {A} (xy : list (Z * Z)) (u v : list A) : arrows A :=
  match xy, u, v with p :: xy', a :: u', b :: v' => (p, a, b) :: zip4 xy' u' v' | _, _, _ => [] end.
Definition quiver {A} (X Y : list Z) (U W : array2 A) : result (arrows A) :=
  let nr := zlen U in
  let nc := match U with [] => 0 | row :: _ => zlen row end in
  do xy <- (if (zlen X =? nc) && (zlen Y =? nr) then Ok (flat_map (fun y => map (fun x => (x, y)) X) Y)
            else if zlen X =? zlen Y then Ok (combine X Y)
            else Err ValueError) ;
  if (zlen xy =? zlen (List.concat U)) && (zlen xy =? zlen (List.concat W)) then Ok (zip4 xy (List.concat U) (List.concat W)) else Err ValueError.

(** the arguments [step] and [skip] of [display]: None, an integer, or a pair of slices *)
Inductive arg := ANone | AInt (k : Z) | ASlices (s : slc * slc).

Section Display.
Context {A : Type}.
Record dfield := mk_dfield { d_x : list Z; d_y : list Z; d_vx : array2 A; d_vy : array2 A }.

(** lines 347-354: the slices; [slice(None, None, step)] with a [step] which is not an integer raises TypeError
    when it is used *)
Definition choose_skip (f : dfield) (step skip : arg) : result (slc * slc) :=
  match skip with
  | ANone =>
      let step := match step with ANone => AInt (Z.max (zlen (d_y f) / 25) 1) | _ => step end in
      match step with
      | AInt k => Ok (mk_slc None None k, mk_slc None None k)
      | _ => Err TypeError
      end
  | _ =>
      match step with
      | ANone => match skip with ASlices s => Ok s | _ => Err TypeError end
      | _ => Err ValueError
      end
  end.

(** lines 356-375; [background]: whether an argument is given *)
Definition display (f : dfield) (background : bool) (step skip : arg) : result (arrows A) :=
  do s <- choose_skip f step skip ;
  if background then Err NotImplementedError
  else
    do X <- take (fst s) (d_x f) ;
    do Y <- take (snd s) (d_y f) ;
    do U <- take2 s (d_vx f) ;
    do W <- take2 s (d_vy f) ;
    quiver X Y U W.

(** ** The array of fields *)
(** the attributes [timestep], [times]; the times are multiples of the time step, an integer here *)
Record farray := mk_farray { a_list : list dfield; a_times : option (list Z) }.

(** lines 605-614 *)
Definition new_array (fields : list dfield) : farray := mk_farray fields None.
(** lines 616-622: [np.linspace(0, timestep * (n - 1), n)] *)
Definition set_timestep (timestep : Z) (a : farray) : farray :=
  mk_farray (a_list a) (Some (map (fun k => k * timestep) (range0 (zlen (a_list a))))).
(** lines 633-639 *)
Definition append (v : dfield) (a : farray) : farray := mk_farray (a_list a ++ [v]) (a_times a).
Definition extend (l : list dfield) (a : farray) : farray := mk_farray (a_list a ++ l) (a_times a).
(** lines 637-639 and 677-678 with an array for [l]: [list.extend] takes the items one by one from the iterator of
    the list of [l] and appends each of them before it takes the next one; the iterator of a list is an index, which
    it compares with the length of the list at this time.  [other = None]: [l] is the array itself, of which the list
    grows during the call.  [None]: not yet finished after [fuel] items. *)
Fixpoint extend_items (fuel i : nat) (other : option farray) (a : farray) : option farray :=
  match fuel with
  | O => None
  | S fuel =>
      match nth_error (a_list match other with Some b => b | None => a end) i with
      | None => Some a
      | Some v => extend_items fuel (S i) other (append v a)
      end
  end.
Definition extend_array (fuel : nat) (other : option farray) (a : farray) : option farray := extend_items fuel 0 other a.
(** lines 684-694: an index or a slice with integer bounds *)
Definition get_item (i : Z) (a : farray) : result dfield := py_get (a_list a) i.
Definition get_slice (i j : Z) (a : farray) : farray := new_array (py_slice (a_list a) i j).
Definition set_item (i : Z) (v : dfield) (a : farray) : result farray :=
  do _ <- py_get (a_list a) i ;
  let i := if i <? 0 then i + zlen (a_list a) else i in
  Ok (mk_farray (update_nth (Z.to_nat i) (fun _ => v) (a_list a)) (a_times a)).
Definition del_item (i : Z) (a : farray) : result farray :=
  do _ <- py_get (a_list a) i ;
  let i := if i <? 0 then i + zlen (a_list a) else i in
  Ok (mk_farray (firstn (Z.to_nat i) (a_list a) ++ skipn (S (Z.to_nat i)) (a_list a)) (a_times a)).
(** the operators, filters and extractions (lines 641-682 and 706-747): [h] is the operation on one field *)
Definition map_fields (h : dfield -> result dfield) (a : farray) : result farray :=
  do l <- map_result h (a_list a) ; Ok (new_array l).

(** lines 780-789: the fourth positional argument of the [display] of a field is [step] *)
Definition array_display (a : farray) (ind : Z) (background : bool) (skip : arg) : result (arrows A) :=
  do f <- py_get (a_list a) ind ;
  display f background skip ANone.
(** the default value of [skip] (line 786) *)
Definition default_skip : arg := ASlices (mk_slc None None 1, mk_slc None None 1).
End Display.
Arguments dfield : clear implicits. Arguments farray : clear implicits.

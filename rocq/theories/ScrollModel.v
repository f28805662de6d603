(** Model of the display of an array of vector fields with the mouse wheel (postproc/vector_field.py:780-808,
    ArrayOfVectorFieldsOnGrid.display and its function onscroll).

    An exception raised in a callback is printed by matplotlib and the figure remains: the state after an exception is
    the one reached when it was raised.  Fields, slices and arrows as in FieldDisplayModel; [norm] is the norm of a
    vector; the colours of the mesh are the list of its values. *)
From Verif Require Import PyBase StrModel VecFieldModel FieldDisplayModel.
Local Open Scope Z_scope.

Inductive wheel := Up | Down.

Section Scroll.
Context {A B : Type}.
Variable norm : A -> A -> B.

(** compute_norm().ravel() (line 797) *)
Definition norms (f : dfield A) : list B :=
  map (fun '(u, v) => norm u v) (combine (List.concat (d_vx f)) (List.concat (d_vy f))).

(** the figure: [fg_cur] is self.currentind, [fg_n] the number of arrows, the others the content of the two collections
    and of the canvas (what has been drawn) *)
Record fig := mk_fig {
  fg_cur : Z; fg_n : Z; fg_mesh : list B; fg_u : list A; fg_v : list A; fg_seen : list B * list A * list A }.

(** lines 780-790; the figure is drawn when it is shown *)
Definition fig_display (a : farray A) (ind : Z) (skip : arg) : result fig :=
  do l <- array_display a ind false skip ;
  do f <- py_get (a_list a) ind ;
  let u := map (fun '(_, _, u, _) => u) l in
  let v := map (fun '(_, _, _, v) => v) l in
  Ok (mk_fig ind (zlen l) (norms f) u v (norms f, u, v)).

(** [vx[skip]] flattened: with None a new axis, with an integer one line *)
Definition index_skip (skip : arg) (x : array2 A) : result (list A) :=
  match skip with
  | ANone => Ok (List.concat x)
  | AInt k => py_get x k
  | ASlices s => do y <- take2 s x ; Ok (List.concat y)
  end.

(** matplotlib [Quiver.set_UVC]: the sizes must be the number of arrows, or one *)
Definition good_size {X} (n : Z) (l : list X) : bool := (zlen l =? n) || (zlen l =? 1).

(** lines 792-806: the new state, and the time printed or the exception *)
Definition onscroll (a : farray A) (skip : arg) (g : fig) (e : wheel) : fig * result Z :=
  let n := zlen (a_list a) in
  let c := match e with Up => (fg_cur g + 1) mod n | Down => (fg_cur g - 1) mod n end in
  let g1 := mk_fig c (fg_n g) (fg_mesh g) (fg_u g) (fg_v g) (fg_seen g) in
  match py_get (a_list a) c with
  | Err e => (g1, Err e)
  | Ok f =>
      let C := norms f in
      if negb (zlen C =? zlen (fg_mesh g)) then (g1, Err ValueError)
      else
        let g2 := mk_fig c (fg_n g) C (fg_u g) (fg_v g) (fg_seen g) in
        match index_skip skip (d_vx f), index_skip skip (d_vy f) with
        | Err e, _ => (g2, Err e)
        | _, Err e => (g2, Err e)
        | Ok u, Ok v =>
            if negb (good_size (fg_n g) u && good_size (fg_n g) v) then (g2, Err ValueError)
            else
              let g3 := mk_fig c (fg_n g) C u v (fg_seen g) in
              match a_times a with
              | None => (g3, Err TypeError)
              | Some times =>
                  match py_get times c with
                  | Err e => (g3, Err e)
                  | Ok t => (mk_fig c (fg_n g) C u v (C, u, v), Ok t)
                  end
              end
        end
  end.

(** the events: the last state, and the answers in order *)
Fixpoint scroll (a : farray A) (skip : arg) (g : fig) (l : list wheel) : fig * list (result Z) :=
  match l with
  | [] => (g, [])
  | e :: l' => let (g1, r) := onscroll a skip g e in let (g2, rs) := scroll a skip g1 l' in (g2, r :: rs)
  end.
End Scroll.

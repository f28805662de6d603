(** gui/imviewer.py: the image viewer as a state machine, lines 75-313.

    The events are the clicks on the buttons, the key alt+s and the texts entered in the text boxes.  matplotlib catches the
    exceptions of the callbacks: the state reached before the exception is kept.  [ax.imshow] adds an artist above the others;
    the image seen is the one of the last visible artist (the images have the same shape).  [TextBox.set_val] does nothing if the
    text is the same, otherwise it calls the callback of the box.

    Simplifications: the files are not changed meanwhile; the numbers are exact; only the images with their colour limits, the
    title and the text boxes are modelled; the text entered for n is given by what [safe_eval] returns. *)
From Coq Require Import Reals.
From Verif Require Import PyBase StrModel.

Section Viewer.
Context {I : Type}.                                           (* images *)
Variable nb_images : Z.
Variable imread : Z -> result I.                              (* imread(self.path_files[i]) *)
Variables im_min im_max : I -> R.
Variable fmt : R -> chars.                                    (* "{:.2f}".format(x) *)
Variable safe_eval : chars -> result R.                       (* for the colour limits *)

(** an index or a step: an integer, or a number of another type (indexing a list with it raises TypeError) *)
Inductive index := Idx (i : Z) | Float.
Definition index_add (a b : index) : index := match a, b with Idx i, Idx j => Idx (i + j) | _, _ => Float end.
Definition index_sub (a b : index) : index := match a, b with Idx i, Idx j => Idx (i - j) | _, _ => Float end.

Record artist := mk_artist { a_image : I; a_visible : bool; a_clim : R * R }.
Record viewer := mk_viewer {
  v_ifile : index; v_n : index; v_last : bool; v_changing : bool; v_clim : R * R;
  v_artists : list artist; v_mappable : nat; v_maps : list (Z * nat); v_title : Z;
  v_cmin : chars; v_cmax : chars                              (* the texts of the two boxes *)
}.

Definition set_ifile i v := mk_viewer i (v_n v) (v_last v) (v_changing v) (v_clim v) (v_artists v) (v_mappable v) (v_maps v) (v_title v) (v_cmin v) (v_cmax v).
Definition set_n n v := mk_viewer (v_ifile v) n (v_last v) (v_changing v) (v_clim v) (v_artists v) (v_mappable v) (v_maps v) (v_title v) (v_cmin v) (v_cmax v).
Definition set_last b v := mk_viewer (v_ifile v) (v_n v) b (v_changing v) (v_clim v) (v_artists v) (v_mappable v) (v_maps v) (v_title v) (v_cmin v) (v_cmax v).
Definition set_changing b v := mk_viewer (v_ifile v) (v_n v) (v_last v) b (v_clim v) (v_artists v) (v_mappable v) (v_maps v) (v_title v) (v_cmin v) (v_cmax v).
Definition set_climits c v := mk_viewer (v_ifile v) (v_n v) (v_last v) (v_changing v) c (v_artists v) (v_mappable v) (v_maps v) (v_title v) (v_cmin v) (v_cmax v).
Definition set_artists l v := mk_viewer (v_ifile v) (v_n v) (v_last v) (v_changing v) (v_clim v) l (v_mappable v) (v_maps v) (v_title v) (v_cmin v) (v_cmax v).
Definition set_mappable m v := mk_viewer (v_ifile v) (v_n v) (v_last v) (v_changing v) (v_clim v) (v_artists v) m (v_maps v) (v_title v) (v_cmin v) (v_cmax v).
Definition set_maps m v := mk_viewer (v_ifile v) (v_n v) (v_last v) (v_changing v) (v_clim v) (v_artists v) (v_mappable v) m (v_title v) (v_cmin v) (v_cmax v).
Definition set_title t v := mk_viewer (v_ifile v) (v_n v) (v_last v) (v_changing v) (v_clim v) (v_artists v) (v_mappable v) (v_maps v) t (v_cmin v) (v_cmax v).
Definition set_cmin t v := mk_viewer (v_ifile v) (v_n v) (v_last v) (v_changing v) (v_clim v) (v_artists v) (v_mappable v) (v_maps v) (v_title v) t (v_cmax v).
Definition set_cmax t v := mk_viewer (v_ifile v) (v_n v) (v_last v) (v_changing v) (v_clim v) (v_artists v) (v_mappable v) (v_maps v) (v_title v) (v_cmin v) t.

(** the artist number [m] is changed by [f] *)
Fixpoint change_artist (m : nat) (f : artist -> artist) (l : list artist) : list artist :=
  match l, m with
  | [], _ => []
  | a :: l', O => f a :: l'
  | a :: l', S m' => a :: change_artist m' f l'
  end.
Definition set_visible (b : bool) (a : artist) := mk_artist (a_image a) b (a_clim a).
Definition set_clim (c : R * R) (a : artist) := mk_artist (a_image a) (a_visible a) c.

(** a dictionary: the last value assigned is first *)
Fixpoint find_map (i : Z) (maps : list (Z * nat)) : option nat :=
  match maps with [] => None | (j, m) :: maps' => if i =? j then Some m else find_map i maps' end.

(** lines 195-210: loadim for an image which has been read *)
Definition add_image (ifile : Z) (im : I) (v : viewer) : viewer :=
  let m := List.length (v_artists v) in
  let v := set_mappable m (set_artists (v_artists v ++ [mk_artist im true (v_clim v)]) v) in
  set_maps ((ifile, m) :: v_maps v) v.
Definition loadim (ifile : index) (v : viewer) : viewer * option exn :=
  match ifile with
  | Float => (v, Some TypeError)
  | Idx i => match imread i with Err e => (v, Some e) | Ok im => (add_image i im v, None) end
  end.

(** lines 89-177: the constructor; [im] is the first image *)
Definition init_viewer (ifile : Z) (im : I) : viewer :=
  let clim := (0%R, (99 / 100 * im_max im)%R) in
  let v := mk_viewer (Idx ifile) (Idx 1) false false clim [] 0 [] ifile (fmt (fst clim)) (fmt (snd clim)) in
  add_image ifile im v.

(** lines 215-239 *)
Definition change_im (v : viewer) : viewer * option exn :=
  let v := set_ifile (match v_ifile v with Idx i => Idx (i mod nb_images) | Float => Float end) v in
  if v_changing v then (v, None)
  else
    let v := set_changing true v in
    match v_ifile v with
    | Float => (v, Some TypeError)                            (* get_namefile *)
    | Idx i =>
      let map_old := v_mappable v in
      let '(v, error) :=
        match find_map i (v_maps v) with
        | Some m =>
          let v := set_mappable m v in
          let v := set_artists (change_artist m (set_clim (v_clim v)) (v_artists v)) v in
          (set_artists (change_artist m (set_visible true) (v_artists v)) v, None)
        | None => loadim (Idx i) v
        end in
      match error with
      | Some e => (v, Some e)
      | None =>
        let v := set_artists (change_artist map_old (set_visible false) (v_artists v)) v in
        (set_changing false (set_title i v), None)
      end
    end.

(** lines 248-262 *)
Definition increase (step : index) (v : viewer) := change_im (set_ifile (index_add (v_ifile v) step) v).
Definition decrease (step : index) (v : viewer) := change_im (set_ifile (index_sub (v_ifile v) step) v).
(** lines 241-246 *)
Definition switch (v : viewer) : viewer * option exn :=
  let '(v, error) := if v_last v then decrease (v_n v) v else increase (v_n v) v in
  match error with Some e => (v, Some e) | None => (set_last (negb (v_last v)) v, None) end.

(** lines 268-304.  In [_update_clim] the callbacks are called with [_updating_clim] true: their own call of [_update_clim]
    does nothing. *)
Definition box_min (v : viewer) : viewer :=                   (* txt_cmin.set_val *)
  let text := fmt (fst (v_clim v)) in
  if list_eq_dec Ascii.ascii_dec (v_cmin v) text then v
  else
    let v := set_cmin text v in
    match safe_eval text with
    | Err _ => v
    | Ok x => if Req_EM_T x (fst (v_clim v)) then v else set_climits (x, snd (v_clim v)) v
    end.
Definition box_max (v : viewer) : viewer :=
  let text := fmt (snd (v_clim v)) in
  if list_eq_dec Ascii.ascii_dec (v_cmax v) text then v
  else
    let v := set_cmax text v in
    match safe_eval text with
    | Err _ => v
    | Ok x => if Req_EM_T x (snd (v_clim v)) then v else set_climits (fst (v_clim v), x) v
    end.
Definition update_clim (v : viewer) : viewer :=
  let v := set_artists (change_artist (v_mappable v) (set_clim (v_clim v)) (v_artists v)) v in
  box_max (box_min v).
Definition change_cmin (text : chars) (v : viewer) : viewer * option exn :=
  let v := set_cmin text v in
  match safe_eval text with
  | Err e => (v, Some e)
  | Ok x => if Req_EM_T x (fst (v_clim v)) then (v, None) else (update_clim (set_climits (x, snd (v_clim v)) v), None)
  end.
Definition change_cmax (text : chars) (v : viewer) : viewer * option exn :=
  let v := set_cmax text v in
  match safe_eval text with
  | Err e => (v, Some e)
  | Ok x => if Req_EM_T x (snd (v_clim v)) then (v, None) else (update_clim (set_climits (fst (v_clim v), x) v), None)
  end.
(** lines 186-190 *)
Definition set_autoclim (v : viewer) : viewer * option exn :=
  match v_ifile v with
  | Float => (v, Some TypeError)
  | Idx i =>
    match imread i with
    | Err e => (v, Some e)
    | Ok im => (update_clim (set_climits (im_min im, (99 / 100 * im_max im)%R) v), None)
    end
  end.

Inductive event :=
| Plus1 | Minus1 | PlusN | MinusN | AltS
| SubmitN (n : result index)                                  (* what safe_eval gives *)
| Reload | Auto | Cmin (text : chars) | Cmax (text : chars).
Definition react (e : event) (v : viewer) : viewer * option exn :=
  match e with
  | Plus1 => increase (Idx 1) v
  | Minus1 => decrease (Idx 1) v
  | PlusN => increase (v_n v) v
  | MinusN => decrease (v_n v) v
  | AltS => switch v
  | SubmitN (Ok n) => (set_n n v, None)                       (* lines 264-266 *)
  | SubmitN (Err e) => (v, Some e)
  | Reload => loadim (v_ifile v) v                            (* lines 192-193 *)
  | Auto => set_autoclim v
  | Cmin text => change_cmin text v
  | Cmax text => change_cmax text v
  end.
Fixpoint history (evs : list event) (v : viewer) : viewer :=
  match evs with [] => v | e :: evs' => history evs' (fst (react e v)) end.
End Viewer.
Arguments artist : clear implicits. Arguments viewer : clear implicits.

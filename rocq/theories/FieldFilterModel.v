(** The median and gaussian filters of a vector field (src/fluidimage/postproc/vector_field.py:407-467).

    scipy: [scipy.ndimage.median_filter(f, size)] and [gaussian_filter(f, sigma, truncate=truncate)] give at each
    point a function of the values in the window around the point; outside the array the values are reflected
    (mode "reflect": d c b a | a b c d | d c b a), along each axis.  The gaussian filter is made axis by axis:
    its weights are products and the reflection acts on each index, so it is such a function for the window of
    [2 * int(truncate * sigma + 0.5) + 1] points along each axis.

    Simplifications: the values are of any type; the parameters [size] and [sigma] are pairs (a scalar is
    duplicated, lines 409-410 and 440-441); the attributes of the field other than x, y, vx, vy and vz are not
    modelled here. *)
From Verif Require Import PyBase StrModel VecFieldModel.

(** index in [0, n) of the value used for the index [i] *)
Definition reflect (n i : Z) : Z := let m := i mod (2 * n) in if m <? n then m else 2 * n - 1 - m.
(** the offsets of a window of [s] points: from [- (s // 2)] *)
Definition window (s : Z) : list Z := map (fun k => k - s / 2) (range0 s).

Section Filter.
Context {V : Type}.
Variable F : array2 V -> V.                          (* the value from the values of the window, row by row *)
Variable d : V.                                      (* never used: default of [nth] *)

Definition value (a : array2 V) (i j : Z) : V := nth (Z.to_nat j) (nth (Z.to_nat i) a []) d.
(** one call of the function of scipy for an array of shape [(n0, n1)] and a window of shape [(s0, s1)] *)
Definition local_filter (s0 s1 n0 n1 : Z) (a : array2 V) : array2 V :=
  map (fun i => map (fun j =>
      F (map (fun di => map (fun dj => value a (reflect n0 (i + di)) (reflect n1 (j + dj))) (window s1)) (window s0)))
    (range0 n1)) (range0 n0).
(** lines 412-415 and 443-446: [for i in range(niter)] *)
Fixpoint iterate (niter : nat) (s0 s1 n0 n1 : Z) (a : array2 V) : array2 V :=
  match niter with
  | O => a
  | S k => iterate k s0 s1 n0 n1 (local_filter s0 s1 n0 n1 a)
  end.

(** the third component: a number, an array of dimension zero (after [from_file]) or an array *)
Inductive component := CNumber | CZeroDim | CArray (a : array2 V).
Record vfield := mk_vfield { g_x : list Z; g_y : list Z; g_vx : array2 V; g_vy : array2 V; g_vz : component }.

(** [extract] without [phys] (lines 469-504) *)
Definition vextract (f : vfield) (start0 stop0 start1 stop1 : Z) : vfield :=
  mk_vfield (py_slice (g_x f) start1 stop1) (py_slice (g_y f) start0 stop0)
    (extract2d start0 stop0 start1 stop1 (g_vx f)) (extract2d start0 stop0 start1 stop1 (g_vy f))
    (match g_vz f with
     | CArray a => if 1 <? zsum (map zlen a) then CArray (extract2d start0 stop0 start1 stop1 a) else CArray a   (* np.size(self.vz) > 1 *)
     | c => c
     end).

Definition shape0 (f : vfield) : Z := zlen (g_y f).  (* ny, nx = self.vx.shape *)
Definition shape1 (f : vfield) : Z := zlen (g_x f).

(** lines 407-436.  scipy raises RuntimeError for an array of dimension zero. *)
Definition median_filter (s0 s1 : Z) (niter : nat) (valid : bool) (f : vfield) : result vfield :=
  let it := iterate niter s0 s1 (shape0 f) (shape1 f) in
  do vz <- (match g_vz f with
            | CNumber => Ok CNumber
            | CZeroDim => match niter with O => Ok CZeroDim | _ => Err RuntimeError end
            | CArray a => Ok (CArray (it a))
            end) ;
  let ret := mk_vfield (g_x f) (g_y f) (it (g_vx f)) (it (g_vy f)) vz in
  if valid then
    let mf := Z.max s0 s1 / 2 in
    Ok (vextract ret mf (shape0 f - mf) mf (shape1 f - mf))
  else Ok ret.

(** lines 438-467; [lw0, lw1]: the integers [int(truncate * sigma + 0.5)] of the two axes; this integer for
    [max(sigma)] is their maximum *)
Definition gaussian_filter (lw0 lw1 : Z) (niter : nat) (valid : bool) (f : vfield) : result vfield :=
  let it := iterate niter (2 * lw0 + 1) (2 * lw1 + 1) (shape0 f) (shape1 f) in
  let ret := mk_vfield (g_x f) (g_y f) (it (g_vx f)) (it (g_vy f)) (g_vz f) in
  if valid then
    let mf := (2 * Z.max lw0 lw1 + 1) / 2 in
    Ok (vextract ret mf (shape0 f - mf) mf (shape1 f - mf))
  else Ok ret.
End Filter.
Arguments vfield : clear implicits. Arguments component : clear implicits. Arguments CNumber {V}. Arguments CZeroDim {V}.

(** Model of the conversions of the Tsai calibration with arrays of points and with displacements
    (calibration/calib_tsai.py: pix2phys_UV and phys2pix).  Points and cameras as in CalibModel. *)
From Coq Require Import Reals ZArith List.
From Verif Require Import PyBase CalibModel.
Import ListNotations.
Local Open Scope R_scope.

(** ** calib_tsai.py:13-37, for one point of the arrays (all the operations are elementwise): Xphys, Yphys, Zphys and dxphys, dyphys,
    dzphys *)
Definition pix2phys_UV (p : tsai) (X Y dx dy : R) (index_level : Z) (nbypix : R) (angle : bool) : result (vec3 * vec3) :=
  do phys <- tsai_pix2phys p X Y index_level nbypix angle ;
  do b <- tsai_pix2phys p (X + dx / 2) (Y + dy / 2) index_level nbypix angle ;
  do a <- tsai_pix2phys p (X - dx / 2) (Y - dy / 2) index_level nbypix angle ;
  Ok (phys, (v0 b - v0 a, v1 b - v1 a, v2 b - v2 a)).

(** ** calib_tsai.py:167-216 with arrays *)

(** the arrays of the caller; an argument is a number, or one of these arrays *)
Definition store : Type := nat -> list R.
Inductive arg := Num (r : R) | Ref (k : nat).

(** [v *= 100]: in place for an array *)
Definition times100 (st : store) (v : arg) : store :=
  match v with
  | Num _ => st
  | Ref k => fun k' => if Nat.eqb k' k then map (fun x => x * 100) (st k) else st k'
  end.
(** the value of the local variable after the three multiplications *)
Definition value (st : store) (v : arg) : list R := match v with Num r => [r * 100] | Ref k => st k end.

(** lines 181-186: the comparison is refused by numpy for an array with several elements (also for an empty array here) *)
Definition correct_z (p : tsai) (zs : list R) : result (list R) :=
  match interface_z p, refraction_index p with
  | Some H, Some n =>
      match zs with
      | [z] => Ok [if gt H z then H - (H - z) / n else z]
      | _ => Err ValueError
      end
  | _, _ => Ok zs
  end.

(** lines 189-209 for one point, in cm *)
Definition project (p : tsai) (M : mat3) (Xphys Yphys Zphys : R) : R * R :=
  let xc := m0 M * Xphys + m1 M * Yphys + m2 M * Zphys + v0 (tra p) in
  let yc := m3 M * Xphys + m4 M * Yphys + m5 M * Zphys + v1 (tra p) in
  let zc := m6 M * Xphys + m7 M * Yphys + m8 M * Zphys + v2 (tra p) in
  let Xu := xc / zc in
  let Yu := yc / zc in
  let r2 := 1 + kc p * (Xu * Xu + Yu * Yu) in
  (fst (foc p) * Xu * r2 + fst (cen p), snd (foc p) * Yu * r2 + snd (cen p)).

(** numpy broadcasting in one dimension: the common length, and the element [k] *)
Definition common (a b : nat) : result nat :=
  if Nat.eqb a b then Ok a else if Nat.eqb a 1 then Ok b else if Nat.eqb b 1 then Ok a else Err ValueError.
Definition item (l : list R) (k : nat) : R := if Nat.eqb (List.length l) 1 then nth 0 l 0 else nth k l 0.

Definition phys2pix_arrays (p : tsai) (st : store) (vx vy vz : arg) : store * result (list R * list R) :=
  let st := times100 (times100 (times100 st vx) vy) vz in
  let xs := value st vx in
  let ys := value st vy in
  (st, do zs <- correct_z p (value st vz) ;
       do M <- get_matrix (rot p) ;
       do n <- common (List.length xs) (List.length ys) ;
       do n <- common n (List.length zs) ;
       Ok (map (fun k => fst (project p M (item xs k) (item ys k) (item zs k))) (seq 0 n),
           map (fun k => snd (project p M (item xs k) (item ys k) (item zs k))) (seq 0 n))).

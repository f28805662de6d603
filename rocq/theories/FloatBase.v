(** Values of numpy floats without rounding: real numbers, infinities and NaN.  Simplifications: no rounding, no
    overflow of finite operations, no sign of zero ([x / 0] has the sign of [x]). *)
From Coq Require Import Reals Lra ZArith List.
Local Open Scope R_scope.

Inductive fl : Type := NaN | PInf | NInf | Fin (r : R).

Definition fneg (a : fl) : fl := match a with NaN => NaN | PInf => NInf | NInf => PInf | Fin r => Fin (- r) end.
Definition fadd (a b : fl) : fl :=
  match a, b with
  | NaN, _ | _, NaN => NaN
  | PInf, NInf | NInf, PInf => NaN
  | PInf, _ | _, PInf => PInf
  | NInf, _ | _, NInf => NInf
  | Fin x, Fin y => Fin (x + y)
  end.
Definition fsub (a b : fl) : fl := fadd a (fneg b).
(** infinity with the sign of [s] times [x] *)
Definition inf_times (pos : bool) (x : R) : fl :=
  if Req_EM_T x 0 then NaN else if Rlt_dec 0 x then (if pos then PInf else NInf) else (if pos then NInf else PInf).
Definition fmul (a b : fl) : fl :=
  match a, b with
  | NaN, _ | _, NaN => NaN
  | PInf, PInf | NInf, NInf => PInf
  | PInf, NInf | NInf, PInf => NInf
  | PInf, Fin x | Fin x, PInf => inf_times true x
  | NInf, Fin x | Fin x, NInf => inf_times false x
  | Fin x, Fin y => Fin (x * y)
  end.
Definition fdiv (a b : fl) : fl :=
  match a, b with
  | NaN, _ | _, NaN => NaN
  | PInf, PInf | NInf, NInf | PInf, NInf | NInf, PInf => NaN
  | Fin _, PInf | Fin _, NInf => Fin 0
  | PInf, Fin x => if Rlt_dec x 0 then NInf else PInf
  | NInf, Fin x => if Rlt_dec x 0 then PInf else NInf
  | Fin x, Fin y => if Req_EM_T y 0 then inf_times true x else Fin (x / y)
  end.
Definition fsq (a : fl) : fl := fmul a a.
(** [np.sqrt] *)
Definition fsqrt (a : fl) : fl :=
  match a with NaN | NInf => NaN | PInf => PInf | Fin x => if Rlt_dec x 0 then NaN else Fin (sqrt x) end.
(** [np.log] *)
Definition flog (a : fl) : fl :=
  match a with
  | NaN | NInf => NaN
  | PInf => PInf
  | Fin x => if Rlt_dec 0 x then Fin (ln x) else if Req_EM_T x 0 then NInf else NaN
  end.
(** [a < b]: False if one of them is NaN *)
Definition fltb (a b : fl) : bool :=
  match a, b with
  | NaN, _ | _, NaN => false
  | PInf, _ => false
  | NInf, NInf => false
  | NInf, _ => true
  | Fin _, PInf => true
  | Fin _, NInf => false
  | Fin x, Fin y => if Rlt_dec x y then true else false
  end.
Definition fleb (a b : fl) : bool :=
  match a, b with
  | NaN, _ | _, NaN => false
  | Fin x, Fin y => if Rle_dec x y then true else false
  | PInf, PInf => true
  | PInf, _ => false
  | NInf, _ => true
  | Fin _, PInf => true
  | Fin _, NInf => false
  end.
Definition fisnan (a : fl) : bool := match a with NaN => true | _ => false end.
Definition fis0 (a : fl) : bool := match a with Fin x => if Req_EM_T x 0 then true else false | _ => false end.
(** [np.sum]: the order of the additions does not matter without rounding *)
Definition fsum (l : list fl) : fl := fold_right fadd (Fin 0) l.
(** [np.min], [np.max]: NaN if there is one *)
Definition fmin2 (a b : fl) : fl := match a, b with NaN, _ | _, NaN => NaN | _, _ => if fltb b a then b else a end.
Definition fmax2 (a b : fl) : fl := match a, b with NaN, _ | _, NaN => NaN | _, _ => if fltb a b then b else a end.
Definition fmin (l : list fl) : fl := match l with nil => NaN | a :: l' => fold_left fmin2 l' a end.
Definition fmax (l : list fl) : fl := match l with nil => NaN | a :: l' => fold_left fmax2 l' a end.

Definition finite (a : fl) : Prop := exists x, a = Fin x.
Definition rval (a : fl) : R := match a with Fin x => x | _ => 0 end.
Definition rsuml (l : list R) : R := fold_right Rplus 0 l.

Lemma fsum_fin {A} (f : A -> R) l : fsum (map (fun a => Fin (f a)) l) = Fin (rsuml (map f l)).
Proof. induction l as [|a l IH]; cbn; [reflexivity|]. unfold fsum in IH. cbn in IH. rewrite IH. reflexivity. Qed.
Lemma rsuml_ext {A} (f g : A -> R) l : (forall a, In a l -> f a = g a) -> rsuml (map f l) = rsuml (map g l).
Proof. intros H. f_equal. apply map_ext_in. exact H. Qed.
Lemma rsuml_plus {A} (f g : A -> R) l : rsuml (map (fun a => f a + g a) l) = rsuml (map f l) + rsuml (map g l).
Proof. induction l as [|a l IH]; cbn; [lra|]. unfold rsuml in IH. rewrite IH. lra. Qed.
Lemma rsuml_scal {A} (c : R) (f : A -> R) l : rsuml (map (fun a => c * f a) l) = c * rsuml (map f l).
Proof. induction l as [|a l IH]; cbn; [lra|]. unfold rsuml in IH. rewrite IH. lra. Qed.
Lemma rsuml_le {A} (f g : A -> R) l : (forall a, In a l -> f a <= g a) -> rsuml (map f l) <= rsuml (map g l).
Proof.
  induction l as [|a l IH]; intros H; cbn; [lra|]. specialize (IH (fun b Hb => H b (or_intror Hb))).
  specialize (H a (or_introl eq_refl)). unfold rsuml in IH. lra.
Qed.
Lemma rsuml_opp {A} (f : A -> R) l : rsuml (map (fun a => - f a) l) = - rsuml (map f l).
Proof. induction l as [|a l IH]; cbn; [lra|]. unfold rsuml in IH. rewrite IH. lra. Qed.
Lemma rsuml_app (l m : list R) : rsuml (l ++ m)%list = rsuml l + rsuml m.
Proof.
  induction l as [|a l IH]; [unfold rsuml; cbn [app fold_right]; symmetry; apply Rplus_0_l|].
  unfold rsuml in *. cbn [app fold_right]. rewrite IH. symmetry. apply Rplus_assoc.
Qed.

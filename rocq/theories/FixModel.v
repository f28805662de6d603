(** Model of works/piv/fix.py (WorkFIX.calcul).

    Values are in a type [F] (finite floats) with the operations used by the code; a NaN is [None].  Operations and
    comparisons with a NaN give NaN and False. Arrays are lists, dictionaries are association lists. *)
From Verif Require Import PyBase NeighModel.
Open Scope string_scope.
Open Scope Z_scope.

Section Dict.
Context {V : Type}.
Definition dict : Type := list (Z * V).
Fixpoint dget (d : dict) (k : Z) : option V :=
  match d with [] => None | (k', v) :: d' => if k =? k' then Some v else dget d' k end.
Fixpoint dset (d : dict) (k : Z) (v : V) : dict :=
  match d with [] => [(k, v)] | (k', v') :: d' => if k =? k' then (k, v) :: d' else (k', v') :: dset d' k v end.
Fixpoint ddel (d : dict) (k : Z) : dict :=
  match d with [] => [] | (k', v') :: d' => if k =? k' then ddel d' k else (k', v') :: ddel d' k end.
(** [d[k]] *)
Definition dget_err (d : dict) (k : Z) : result V := match dget d k with Some v => Ok v | None => Err KeyError end.
(** [del d[k]] *)
Definition ddel_err (d : dict) (k : Z) : result dict := match dget d k with Some _ => Ok (ddel d k) | None => Err KeyError end.
End Dict.
Arguments dict V : clear implicits.

(** [arr.nonzero()[0]] *)
Definition nonzero (l : list bool) : list Z := filter (fun i => nth (Z.to_nat i) l false) (range0 (zlen l)).

Section Fix.
Context {F : Type}.
Variables (zero : F) (add sub mul div : F -> F -> F) (ltb : F -> F -> bool) (sqrt : F -> F).
Variable divc : F -> Z -> F.
(** [f" (diff = {x:.2f})"] *)
Variable fmt_diff : F -> string.
(** the constant 0.6 *)
Variable ratio : F.

Definition lift2 (f : F -> F -> F) (a b : option F) : option F :=
  match a, b with Some x, Some y => Some (f x y) | _, _ => None end.
Definition lt (a b : option F) : bool := match a, b with Some x, Some y => ltb x y | _, _ => false end.
Definition sq (a : option F) : option F := lift2 mul a a.
Fixpoint map2 {A B C} (f : A -> B -> C) (l : list A) (m : list B) : list C :=
  match l, m with a :: l', b :: m' => f a b :: map2 f l' m' | _, _ => [] end.

(** Parameters: correl_min, displacement_max ([None] for None or 0), threshold_diff_neighbour, nb_peaks_to_search;
    [n0], [n1]: lengths of iyvecs and ixvecs. *)
Record params := { correl_min : F; displacement_max : option F; threshold : option F; nb_peaks : Z }.
Variable P : params.
Variables n0 n1 : Z.

(** the fields of piv_results which are used; the attributes deltaxs_wrong and deltays_wrong do not always exist *)
Record res := { dxs : list (option F); dys : list (option F); cmax : list (option F); errs : dict string;
                wrong : option (dict (option F) * dict (option F)); replaced : dict (option F * option F * option F) }.

(** local variables of the first part *)
Record loc := { lx : list (option F); ly : list (option F); wx : dict (option F); wy : dict (option F); le : dict string }.

(** lines 74-77, 84-88 *)
Definition remove (s : loc) (i : Z) : result loc :=
  do x <- py_get (lx s) i ; do y <- py_get (ly s) i ;
  do lx' <- py_update (lx s) i (fun _ => None) ; do ly' <- py_update (ly s) i (fun _ => None) ;
  Ok {| lx := lx'; ly := ly'; wx := dset (wx s) i x; wy := dset (wy s) i y; le := le s |}.

(** put_to_nan (lines 79-91) *)
Definition put_to_nan (inds : list Z) (explanation : string) (s : loc) : result loc :=
  py_for (fun s ind =>
    match dget (wx s) ind with
    | None => do s' <- remove s ind ;
              Ok {| lx := lx s'; ly := ly s'; wx := wx s'; wy := wy s'; le := dset (le s') ind explanation |}
    | Some _ => do e <- dget_err (le s) ind ;
              Ok {| lx := lx s; ly := ly s; wx := wx s; wy := wy s; le := dset (le s) ind (e ++ " + " ++ explanation) |}
    end) inds s.

(** lines 68-95 *)
Definition stage_correl (r : res) : result loc :=
  let s := {| lx := dxs r; ly := dys r; wx := []; wy := []; le := errs r |} in
  do s <- py_for remove (map fst (errs r)) s ;
  put_to_nan (nonzero (map (fun c => lt c (Some (correl_min P))) (cmax r))) "correl < correl_min" s.

(** lines 98-103 *)
Definition stage_displacement (s : loc) : result loc :=
  match displacement_max P with
  | None => Ok s
  | Some m =>
      let delta2s := map2 (fun x y => lift2 add (sq x) (sq y)) (lx s) (ly s) in
      put_to_nan (nonzero (map (fun d => lt (Some (mul m m)) d) delta2s)) "delta2 < displacement_max2" s
  end.

(** lines 105-130; also returns dxs_neighbors, dys_neighbors and differences2 *)
Definition stage_neighbours (t : F) (s : loc) : result (loc * (list (option F) * list (option F) * list (option F))) :=
  do mxy <- mean_neighbors_xy zero add divc n0 n1 (lx s) (ly s) ;
  let '(mx, my) := mxy in
  let diff2 := map2 (fun x y => lift2 add (sq x) (sq y)) (map2 (lift2 sub) mx (lx s)) (map2 (lift2 sub) my (ly s)) in
  let inds := nonzero (map (fun d => lt (Some (mul t t)) d) diff2) in
  do s <- put_to_nan inds "diff neighbour too large" s ;
  do s <- py_for (fun s ivec =>
     do e <- dget_err (le s) ivec ; do d <- py_get diff2 ivec ;
     let txt := match d with Some x => fmt_diff (sqrt x) | None => " (diff = nan)" end in
     Ok {| lx := lx s; ly := ly s; wx := wx s; wy := wy s; le := dset (le s) ivec (e ++ txt) |}) inds s ;
  Ok (s, (mx, my, diff2)).

(** lines 68-133: detection; the neighbours and the differences are unbound if there is no threshold *)
Definition detect (r : res) : result (res * option (list (option F) * list (option F) * list (option F))) :=
  do s <- stage_correl r ;
  do s <- stage_displacement s ;
  match threshold P with
  | None => Ok ({| dxs := lx s; dys := ly s; cmax := cmax r; errs := le s; wrong := wrong r; replaced := replaced r |}, None)
  | Some t =>
      do sd <- stage_neighbours t s ;
      let '(s, d) := sd in
      Ok ({| dxs := lx s; dys := ly s; cmax := cmax r; errs := le s; wrong := Some (wx s, wy s); replaced := replaced r |}, Some d)
  end.

(** *** Secondary peaks (lines 138-236) *)
(** numpy argmin: index of the first NaN, or of the first minimum *)
Fixpoint argmin_from (k best : Z) (v : option F) (l : list (option F)) : Z :=
  match v with
  | None => best
  | Some x => match l with
              | [] => best
              | None :: _ => k
              | Some y :: l' => if ltb y x then argmin_from (k + 1) k (Some y) l' else argmin_from (k + 1) best v l'
              end
  end.
Definition argmin (l : list (option F)) : Z := match l with [] => 0 | v :: l' => argmin_from 1 0 v l' end.

Variable secondary_peaks : list (option (list (F * F * F))).
(** [deltaxs_input], [deltays_input]: [None] for the first pass (AttributeError) *)
Variable inputs : option (list F * list F).
(** [self.piv_work.correl.apply_subpix(dx, dy, piv_results.correls[ivec])] *)
Variable apply_subpix : Z -> F -> F -> result (F * F).

(** lines 142-236, one vector *)
Definition one_vector (d : option (list (option F) * list (option F) * list (option F))) (r : res) (ivec : Z) : result res :=
  do other <- py_get secondary_peaks ivec ;
  match other with
  | None => Ok r
  | Some [] => Ok r
  | Some peaks =>
    do correl0 <- py_get (cmax r) ivec ;
    do inp <- match inputs with
              | Some (ix, iy) => do a <- py_get ix ivec ; do b <- py_get iy ivec ; Ok (a, b)
              | None => Ok (zero, zero)
              end ;
    let '(dx_input, dy_input) := inp in
    let good := map (fun p => let '(dx, dy, corr) := p in (add dx dx_input, add dy dy_input, corr))
      (filter (fun p => let '(dx, dy, corr) := p in
         lt (Some ratio) (lift2 div (Some corr) correl0) && ltb (correl_min P) corr) peaks) in
    match good with
    | [] => Ok r
    | _ =>
      match d with
      | None => Err UnboundLocalError
      | Some (mx, my, diff2) =>
        do d0 <- py_get diff2 ivec ;
        do ax <- py_get mx ivec ; do ay <- py_get my ivec ;
        let diffs := option_map sqrt d0 ::
          map (fun p => let '(dx, dy, _) := p in
                 option_map sqrt (lift2 add (sq (lift2 sub ax (Some dx))) (sq (lift2 sub ay (Some dy))))) good in
        let k := argmin diffs in
        if k =? 0 then Ok r else
        do peak <- py_get good (k - 1) ;
        let '(dx, dy, corr) := peak in
        do dk <- py_get diffs k ;
        if match threshold P with Some t => lt (Some t) dk | None => false end then Ok r else
        if match displacement_max P with Some m => ltb m (add (mul dx dx) (mul dy dy)) | None => false end then Ok r else
        match apply_subpix ivec (sub dx dx_input) (sub dy dy_input) with
        | Err PIVError => Ok r
        | Err e => Err e
        | Ok (sx, sy) =>
          do wr <- match wrong r with Some w => Ok w | None => Err AttributeError end ;
          let '(wrx, wry) := wr in
          do ox <- py_get (dxs r) ivec ; do oy <- py_get (dys r) ivec ; do oc <- py_get (cmax r) ivec ;
          let old := match dget wrx ivec, dget wry ivec with
                     | Some a, Some b => (a, b)
                     | _, _ => (ox, oy)
                     end in
          do dxs' <- py_update (dxs r) ivec (fun _ => Some (add sx dx_input)) ;
          do dys' <- py_update (dys r) ivec (fun _ => Some (add sy dy_input)) ;
          do cmax' <- py_update (cmax r) ivec (fun _ => Some corr) ;
          do we <- match dget (errs r) ivec with
                   | Some _ => do wrx' <- ddel_err wrx ivec ; do wry' <- ddel_err wry ivec ; do e' <- ddel_err (errs r) ivec ;
                               Ok (Some (wrx', wry'), e')
                   | None => Ok (wrong r, errs r)
                   end ;
          let '(w', e') := we in
          Ok {| dxs := dxs'; dys := dys'; cmax := cmax'; errs := e'; wrong := w';
                replaced := dset (replaced r) ivec (fst old, snd old, oc) |}
        end
      end
    end
  end.

(** calcul (lines 66-243) *)
Definition calcul (r : res) : result res :=
  do rd <- detect r ;
  let '(r, d) := rd in
  if nb_peaks P <? 2 then Ok r
  else py_for (one_vector d) (range0 (zlen secondary_peaks)) r.
End Fix.

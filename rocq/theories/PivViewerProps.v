(** Property C100: the viewer of PIV files. *)
From Verif Require Import PyBase StrModel StrProofs MonitorJobModel MonitorJobProps PivViewerModel.

(** *** The vectors read in a file *)

(** a file of a computation with [n] passes: the final vectors are in the group of the last pass only *)
Definition pass_key (i : nat) : chars := of_string "piv" ++ py_str (Z.of_nat i).
Definition piv_file {X Y} (n : nat) (d : list X * list Y) : hfile X Y :=
  mk_hfile Multipass ((of_string "couple", None) :: (of_string "params", None) ::
    map (fun i => (pass_key i, if Nat.eqb (S i) n then Some d else None)) (seq 0 n)).

Section Data.
Context {X Y : Type}.
Notation data := (list X * list Y)%type.

Lemma pass_key_inj i j : pass_key i = pass_key j -> i = j.
Proof. unfold pass_key. intros E. apply app_inv_head in E. apply py_str_inj in E. lia. Qed.

Lemma find_pass (n : nat) (f : nat -> option data) i : forall l, In i l -> NoDup l ->
  find_key (pass_key i) (map (fun i => (pass_key i, f i)) l) = match f i with Some d => Ok d | None => Err KeyError end.
Proof.
  induction l as [|j l IH]; intros Hi Nd; [destruct Hi|]. cbn [map find_key]. destruct (list_eq_dec Ascii.ascii_dec (pass_key i) (pass_key j)) as [E|N].
  - apply pass_key_inj in E. subst j. reflexivity.
  - apply IH; [|inversion Nd; assumption]. destruct Hi as [->|Hi]; [destruct N; reflexivity|exact Hi].
Qed.

Lemma keys_of (n : nat) (d : data) : filter (starts (of_string "piv")) (map fst (h_keys (piv_file n d))) = map pass_key (seq 0 n).
Proof.
  unfold piv_file. cbn [h_keys map fst filter]. change (starts (of_string "piv") (of_string "couple")) with false. change (starts (of_string "piv") (of_string "params")) with false. cbn iota.
  rewrite map_map. cbn [fst]. induction (seq 0 n) as [|i l IH]; [reflexivity|]. cbn [map filter]. rewrite IH.
  replace (starts (of_string "piv") (pass_key i)) with true; [reflexivity|]. symmetry. unfold pass_key. apply starts_app.
Qed.

(** the group chosen: an existing pass, with the largest name *)
Lemma chosen_pass (n : nat) (d : data) : (0 < n)%nat ->
  exists i, (i < n)%nat /\ (forall j, (j < n)%nat -> le_str (pass_key j) (pass_key i)) /\
    get_piv_data (piv_file n d) = if Nat.eqb (S i) n then Ok d else Err KeyError.
Proof.
  intros Hn. unfold get_piv_data. change (h_class (piv_file n d)) with Multipass. cbn iota. rewrite keys_of.
  set (l := map pass_key (seq 0 n)). pose proof (sorted_sorted l) as So. pose proof (fun y => sorted_in l y) as Si.
  assert (Nl : sorted_str l <> []).
  { intros E. assert (In (pass_key 0) (sorted_str l)) as Q by (apply Si; unfold l; apply in_map, in_seq; lia). rewrite E in Q. destruct Q. }
  set (s := sorted_str l) in *. clearbody s.
  destruct (rev s) as [|m r] eqn:E; [destruct Nl; rewrite <- (rev_involutive s), E; reflexivity|].
  assert (Es : s = rev r ++ [m]) by (rewrite <- (rev_involutive s), E; reflexivity).
  pose proof (sorted_last s m r So E) as Mx.
  assert (Im : In m l) by (apply Si; rewrite Es; apply in_app_iff; right; left; reflexivity).
  unfold l in Im. apply in_map_iff in Im. destruct Im as (i & Ei & Hi). apply in_seq in Hi. exists i. split; [lia|]. split.
  - intros j Hj. rewrite Ei. apply Mx, Si. unfold l. apply in_map, in_seq. lia.
  - assert (py_get s (-1) = Ok m) as ->.
    { rewrite Es. unfold py_get, zlen. rewrite app_length. cbn [List.length]. destruct (Z.ltb_spec (-1) 0) as [_|]; [|lia].
      replace (-1 + Z.of_nat (List.length (rev r) + 1)) with (Z.of_nat (List.length (rev r))) by lia.
      destruct (Z.leb_spec 0 (Z.of_nat (List.length (rev r)))) as [_|]; [|lia].
      destruct (Z.ltb_spec (Z.of_nat (List.length (rev r))) (Z.of_nat (List.length (rev r) + 1))) as [_|]; [|lia]. cbn [andb].
      rewrite Nat2Z.id, nth_error_app2, Nat.sub_diag by lia. reflexivity. }
    cbn [bind]. rewrite <- Ei. unfold piv_file. cbn [h_keys find_key].
    destruct (list_eq_dec Ascii.ascii_dec (pass_key i) (of_string "couple")) as [Q|_]; [discriminate Q|].
    destruct (list_eq_dec Ascii.ascii_dec (pass_key i) (of_string "params")) as [Q|_]; [discriminate Q|].
    rewrite find_pass; [destruct (Nat.eqb (S i) n); reflexivity|exact n|apply in_seq; lia|apply seq_NoDup].
Qed.

(** at most ten passes: the vectors of the last pass *)
Theorem C100_passes : forall (n : nat) (d : data), (1 <= n <= 10)%nat -> get_piv_data (piv_file n d) = Ok d.
Proof.
  intros n d Hn. destruct (chosen_pass n d) as (i & Hi & Mx & ->); [lia|].
  specialize (Mx (n - 1)%nat ltac:(lia)).
  assert (T : forallb (fun j => forallb (fun i => match str_compare (pass_key j) (pass_key i) with Gt => true | _ => Nat.leb j i end) (seq 0 10)) (seq 0 10) = true) by (vm_compute; reflexivity).
  rewrite forallb_forall in T. specialize (T (n - 1)%nat ltac:(apply in_seq; lia)). rewrite forallb_forall in T. specialize (T i ltac:(apply in_seq; lia)).
  unfold le_str in Mx. destruct (str_compare (pass_key (n - 1)) (pass_key i)); try congruence; apply Nat.leb_le in T;
    (destruct (Nat.eqb_spec (S i) n); [reflexivity|lia]).
Qed.

(** from 11 to 90 passes the group "piv9" or another one is after the last one: the file cannot be displayed *)
Theorem C100_passes_refuted : forall (n : nat) (d : data), (11 <= n <= 90)%nat -> get_piv_data (piv_file n d) = Err KeyError.
Proof.
  intros n d Hn. destruct (chosen_pass n d) as (i & Hi & Mx & ->); [lia|].
  destruct (Nat.eqb_spec (S i) n) as [<-|N]; [|reflexivity]. exfalso.
  specialize (Mx 9%nat ltac:(lia)).
  assert (T : forallb (fun i => match str_compare (pass_key 9) (pass_key i) with Gt => true | _ => false end) (seq 10 80) = true) by (vm_compute; reflexivity).
  rewrite forallb_forall in T. specialize (T i ltac:(apply in_seq; lia)). unfold le_str in Mx. destruct (str_compare (pass_key 9) (pass_key i)); congruence.
Qed.

Theorem C100_light : forall (d : data), get_piv_data (mk_hfile Light [(of_string "couple", None); (of_string "params", None); (of_string "piv", Some d)]) = Ok d.
Proof. reflexivity. Qed.
End Data.

(** *** The window *)
Section Window.
Context {X Y : Type}.
Variable num_files : Z.
Variable read : Z -> result (list X * list Y).
Variable fuel : nat.
Notation react := (react num_files read fuel).
Notation history := (history num_files read fuel).
Notation init_window := (init_window read).
Notation set_textbox := (set_textbox num_files read).
Notation update_fig := (update_fig read).

(** what the user has asked for: the number of the file *)
Definition limited (z : Z) : Z := Z.max 0 (Z.min (num_files - 1) z).
Definition asked (e : event) (p : Z) : Z :=
  match e with
  | Plus => (p + 1) mod num_files
  | Minus => (p - 1) mod num_files
  | Submit text => match py_int text with Ok z => limited z | Err _ => p end
  end.
Definition asked_all (start : Z) (evs : list event) : Z := fold_left (fun p e => asked e p) evs start.

Lemma asked_range e p : 0 <= p < num_files -> 0 <= asked e p < num_files.
Proof.
  intros Hp. destruct e as [| |text]; cbn [asked]; [apply Z.mod_pos_bound; lia|apply Z.mod_pos_bound; lia|]. destruct (py_int text); [unfold limited; lia|exact Hp].
Qed.
Lemma asked_all_range evs : forall p, 0 <= p < num_files -> 0 <= asked_all p evs < num_files.
Proof. induction evs as [|e evs IH]; intros p Hp; [exact Hp|]. cbn [asked_all fold_left]. apply IH, asked_range, Hp. Qed.

Lemma clamp_limited z : 0 < num_files -> (if num_files <=? z then num_files - 1 else if z <? 0 then 0 else z) = limited z.
Proof. intros Hn. unfold limited. destruct (Z.leb_spec num_files z); [lia|]. destruct (Z.ltb_spec z 0); lia. Qed.
Lemma limited_id z : 0 <= z < num_files -> limited z = z. Proof. unfold limited. lia. Qed.

Lemma quiet f v (w : window X Y) : w_text w = py_str v -> set_textbox f v w = w.
Proof. intros E. destruct f; cbn [PivViewerModel.set_textbox]; (destruct (list_eq_dec _ _ _) as [_|N]; [reflexivity|destruct (N E)]). Qed.

Lemma callback_int f v (w : window X Y) : 0 <= v < num_files -> w_text w = py_str v ->
  fst (callback_with num_files read (set_textbox f) (py_str v) w) = if v =? w_index w then w else fst (update_fig (with_index v w)).
Proof.
  intros Hv E. unfold callback_with. rewrite py_int_str, clamp_limited, (limited_id v) by lia. cbn zeta. rewrite quiet by exact E.
  unfold set_index_with. destruct (v =? w_index w); [reflexivity|]. rewrite Z.mod_small by lia. cbn zeta. rewrite quiet by exact E. reflexivity.
Qed.

Lemma with_text_id (w : window X Y) t : w_text w = t -> with_text t w = w.
Proof. destruct w. cbn. intros ->. reflexivity. Qed.

(** [set_val(str(v))] for another text *)
Lemma box f v (w : window X Y) : 0 <= v < num_files -> (1 <= f)%nat ->
  (v = w_index w \/ w_text w <> py_str v) ->
  set_textbox f v w = if v =? w_index w then with_text (py_str v) w else fst (update_fig (with_index v (with_text (py_str v) w))).
Proof.
  intros Hv Hf H. destruct f as [|f]; [lia|]. cbn [PivViewerModel.set_textbox].
  destruct (list_eq_dec _ _ _) as [E|N].
  - destruct H as [->|N]; [|destruct (N E)]. rewrite Z.eqb_refl. symmetry. apply with_text_id, E.
  - rewrite callback_int by (assumption || reflexivity). reflexivity.
Qed.

Lemma update_index (w : window X Y) : w_index (fst (update_fig w)) = w_index w /\ w_text (fst (update_fig w)) = w_text w /\ w_positions (fst (update_fig w)) = w_positions w.
Proof. unfold PivViewerModel.update_fig. destruct (read (w_index w)) as [[q v]|e]; [|auto]. cbn [with_title w_positions]. destruct (accepted _ _); auto. Qed.

(** the effect of an event: the new index, its text in the box, and an update of the figure *)
Definition updates (e : event) (w : window X Y) : bool := match e with Submit _ => negb (asked e (w_index w) =? w_index w) | _ => true end.
Lemma react_spec e (w : window X Y) : (1 <= fuel)%nat -> 0 <= w_index w < num_files ->
  let w' := with_index (asked e (w_index w)) (with_text (py_str (asked e (w_index w))) w) in
  fst (react e w) = if updates e w then fst (update_fig w') else w'.
Proof.
  intros Hf Hw. assert (Btn : forall d, d <> 0 -> fst (set_index num_files read fuel (w_index w + d) w) =
    fst (update_fig (with_index ((w_index w + d) mod num_files) (with_text (py_str ((w_index w + d) mod num_files)) w)))).
  { intros d Hd. unfold set_index, set_index_with. destruct (Z.eqb_spec (w_index w + d) (w_index w)); [lia|]. cbn zeta. cbn [with_index w_index].
    rewrite box; [|apply Z.mod_pos_bound; lia|exact Hf|left; reflexivity]. cbn [w_index]. rewrite Z.eqb_refl. reflexivity. }
  destruct e as [| |text]; cbn [PivViewerModel.react updates]; cbn zeta.
  - apply (Btn 1). lia.
  - apply (Btn (-1)). lia.
  - cbn [asked]. unfold submit, callback_with. destruct (py_int text) as [z|err].
    + rewrite clamp_limited by lia. cbn zeta. set (v := limited z). assert (Hv : 0 <= v < num_files) by (unfold v, limited; lia).
      destruct (list_eq_dec Ascii.ascii_dec text (py_str v)) as [->|N].
      * rewrite quiet by reflexivity. unfold set_index_with. cbn [with_text w_index]. destruct (Z.eqb_spec v (w_index w)) as [Ev|Nv]; cbn [negb].
        -- cbn [fst]. destruct w. cbn in *. subst. reflexivity.
        -- rewrite Z.mod_small by lia. cbn zeta. rewrite quiet by reflexivity. reflexivity.
      * rewrite box; [|exact Hv|exact Hf|right; exact N]. cbn [with_text w_index]. destruct (Z.eqb_spec v (w_index w)) as [Ev|Nv]; cbn [negb].
        -- unfold set_index_with. cbn [w_index]. rewrite Ev, Z.eqb_refl. cbn [fst]. destruct w. cbn in *. subst. reflexivity.
        -- unfold set_index_with. rewrite (proj1 (update_index _)). cbn [with_index w_index]. rewrite Z.eqb_refl. reflexivity.
    + rewrite box; [|exact Hw|exact Hf|left; reflexivity]. cbn [with_text w_index]. rewrite Z.eqb_refl. cbn [negb fst]. destruct w. reflexivity.
Qed.

Lemma react_index e (w : window X Y) : (1 <= fuel)%nat -> 0 <= w_index w < num_files ->
  w_index (fst (react e w)) = asked e (w_index w) /\ w_text (fst (react e w)) = py_str (asked e (w_index w)) /\ w_positions (fst (react e w)) = w_positions w.
Proof.
  intros Hf Hw. rewrite (react_spec e w Hf Hw). destruct (updates e w); [|auto].
  destruct (update_index (with_index (asked e (w_index w)) (with_text (py_str (asked e (w_index w))) w))) as (-> & -> & ->). auto.
Qed.

(** After every history, whatever the texts entered and even if files cannot be read: the index is the one asked for, between 0
    and the number of files, and it is the one in the text box. *)
Theorem C100_index : forall start w evs, (1 <= fuel)%nat -> 0 <= start < num_files -> init_window start = Ok w ->
  let w' := history evs w in
  w_index w' = asked_all start evs /\ 0 <= w_index w' < num_files /\ w_text w' = py_str (asked_all start evs).
Proof.
  intros start w evs Hf Hs Ei.
  assert (Q : w_index w = start /\ w_text w = py_str start).
  { unfold PivViewerModel.init_window in Ei. destruct (read start) as [[q v]|]; [|discriminate]. cbn [bind] in Ei. destruct (accepted _ _); [|discriminate]. injection Ei as <-. split; reflexivity. }
  clear Ei. destruct Q as (<- & Et). revert w Hs Et. induction evs as [|e evs IH]; intros w Hs Et; [split; [reflexivity|split; [exact Hs|exact Et]]|].
  cbn [PivViewerModel.history asked_all fold_left]. destruct (react_index e w Hf Hs) as (I1 & T1 & _). rewrite <- I1.
  apply IH; [rewrite I1; apply asked_range, Hs|rewrite T1, I1; reflexivity].
Qed.

(** the files can be read and have as many vectors as the first one has arrows *)
Definition displayable (nb_arrows : nat) : Prop := forall i, 0 <= i < num_files -> exists q v, read i = Ok (q, v) /\ List.length v = nb_arrows.

(** then the title and the vectors are those of the file asked for; the arrows are those of the first file *)
Theorem C100_shown_partial : forall start w evs, (1 <= fuel)%nat -> 0 <= start < num_files -> init_window start = Ok w ->
  displayable (List.length (w_positions w)) ->
  let w' := history evs w in let p := asked_all start evs in
  w_title w' = p /\ (exists q, read p = Ok (q, w_vectors w')) /\ (exists v, read start = Ok (w_positions w', v)).
Proof.
  intros start w evs Hf Hs Ei.
  assert (Q : w_index w = start /\ w_title w = start /\ (exists q, read start = Ok (q, w_vectors w)) /\ (exists v, read start = Ok (w_positions w, v))).
  { unfold PivViewerModel.init_window in Ei. destruct (read start) as [[q v]|]; [|discriminate]. cbn [bind] in Ei. destruct (accepted _ _); [|discriminate]. injection Ei as <-. cbn.
    repeat split; eexists; reflexivity. }
  clear Ei. destruct Q as (Ix & Et & Ev & Ep). intros D.
  assert (G : forall evs u, 0 <= w_index u < num_files -> w_title u = w_index u -> (exists q, read (w_index u) = Ok (q, w_vectors u)) -> w_positions u = w_positions w ->
    let w' := history evs u in let p := asked_all (w_index u) evs in w_title w' = p /\ (exists q, read p = Ok (q, w_vectors w')) /\ w_positions w' = w_positions w).
  { clear evs. induction evs as [|e evs IH]; intros u Hu T1 V1 P1; [repeat split; assumption|].
    cbn [PivViewerModel.history asked_all fold_left]. destruct (react_index e u Hf Hu) as (I2 & T2 & P2). rewrite <- I2.
    pose proof (asked_range e (w_index u) Hu) as Ha.
    apply IH; [rewrite I2; exact Ha| | |rewrite P2; exact P1].
    - rewrite I2, (react_spec e u Hf Hu). unfold updates. destruct (D _ Ha) as (q & v & Er & El).
      assert (Up : forall b : bool, (b = false -> asked e (w_index u) = w_index u) ->
        w_title (if b then fst (update_fig (with_index (asked e (w_index u)) (with_text (py_str (asked e (w_index u))) u))) else with_index (asked e (w_index u)) (with_text (py_str (asked e (w_index u))) u)) = asked e (w_index u)).
      { intros [|] Hb; [|cbn; rewrite T1, Hb; reflexivity]. unfold PivViewerModel.update_fig. cbn [with_index with_text w_index]. rewrite Er. cbn zeta. cbn [with_title w_positions].
        destruct (accepted _ _); reflexivity. }
      apply Up. destruct e; try discriminate. intros Hb. apply negb_false_iff, Z.eqb_eq in Hb. exact Hb.
    - rewrite I2, (react_spec e u Hf Hu). unfold updates. destruct (D _ Ha) as (q & v & Er & El).
      assert (Up : forall b : bool, (b = false -> asked e (w_index u) = w_index u) ->
        exists q', read (asked e (w_index u)) = Ok (q', w_vectors (if b then fst (update_fig (with_index (asked e (w_index u)) (with_text (py_str (asked e (w_index u))) u))) else with_index (asked e (w_index u)) (with_text (py_str (asked e (w_index u))) u)))).
      { intros [|] Hb; [|cbn; rewrite Hb by reflexivity; exact V1]. unfold PivViewerModel.update_fig. cbn [with_index with_text w_index]. rewrite Er. cbn zeta. cbn [with_title with_index with_text w_positions].
        unfold accepted. rewrite P1, El, Nat.eqb_refl. cbn [orb fst with_vectors w_vectors]. exists q. reflexivity. }
      apply Up. destruct e; try discriminate. intros Hb. apply negb_false_iff, Z.eqb_eq in Hb. exact Hb. }
  subst start. destruct (G evs w Hs Et Ev eq_refl) as (A & B & C). split; [exact A|]. split; [exact B|]. rewrite C. exact Ep.
Qed.

(** so the arrows of a file with other positions are at wrong places *)
Theorem C100_positions_refuted : forall start w evs q v, (1 <= fuel)%nat -> 0 <= start < num_files -> init_window start = Ok w ->
  displayable (List.length (w_positions w)) -> read (asked_all start evs) = Ok (q, v) -> q <> w_positions w ->
  let w' := history evs w in w_title w' = asked_all start evs /\ w_vectors w' = v /\ w_positions w' <> q.
Proof.
  intros start w evs q v Hf Hs Ei D Er Nq w'. destruct (C100_shown_partial start w evs Hf Hs Ei D) as (A & (q' & B) & (v' & C)). fold w' in A, B, C.
  rewrite Er in B. injection B as _ B. split; [exact A|]. split; [symmetry; exact B|].
  assert (w_positions w' = w_positions w) as ->; [|congruence].
  unfold PivViewerModel.init_window in Ei. destruct (read start) as [[q0 v0]|]; [|discriminate]. cbn [bind] in Ei. destruct (accepted _ _); [|discriminate]. injection Ei as <-. cbn. congruence.
Qed.

(** a file which cannot be read: the text box has its number, the figure and the title stay those of the file before, and
    entering the number again does nothing *)
Theorem C100_unreadable_refuted : forall start w e, (1 <= fuel)%nat -> 0 <= start < num_files -> init_window start = Ok w ->
  read ((start + 1) mod num_files) = Err e ->
  forall w', w' = history [Plus] w \/ w' = history [Plus; Submit (py_str ((start + 1) mod num_files))] w ->
  w_text w' = py_str ((start + 1) mod num_files) /\ w_title w' = start /\ w_vectors w' = w_vectors w.
Proof.
  intros start w e Hf Hs Ei Er.
  assert (Q : w_index w = start /\ w_title w = start).
  { unfold PivViewerModel.init_window in Ei. destruct (read start) as [[q v]|]; [|discriminate]. cbn [bind] in Ei. destruct (accepted _ _); [|discriminate]. injection Ei as <-. split; reflexivity. }
  destruct Q as (Ix & Et). set (j := (start + 1) mod num_files) in *. assert (Hj : 0 <= j < num_files) by (apply Z.mod_pos_bound; lia).
  assert (H1 : fst (react Plus w) = with_index j (with_text (py_str j) w)).
  { rewrite (react_spec Plus w Hf) by lia. cbn [updates asked]. rewrite Ix. fold j. unfold PivViewerModel.update_fig. cbn [with_index w_index]. rewrite Er. reflexivity. }
  intros w' [-> | ->]; cbn [PivViewerModel.history]; rewrite H1.
  - cbn. auto.
  - rewrite (react_spec (Submit (py_str j))) by (exact Hf || exact Hj). cbn [updates asked with_index with_text w_index]. rewrite py_int_str, limited_id by exact Hj. rewrite Z.eqb_refl. cbn. auto.
Qed.

(** a file with another number of vectors: its title is above the vectors of the file before *)
Theorem C100_size_refuted : forall start w q v, (1 <= fuel)%nat -> 0 <= start < num_files -> init_window start = Ok w ->
  read ((start + 1) mod num_files) = Ok (q, v) -> List.length v <> List.length (w_positions w) -> List.length v <> 1%nat ->
  let w' := history [Plus] w in w_title w' = (start + 1) mod num_files /\ w_vectors w' = w_vectors w.
Proof.
  intros start w q v Hf Hs Ei Er N1 N2.
  assert (Q : w_index w = start).
  { unfold PivViewerModel.init_window in Ei. destruct (read start) as [[q0 v0]|]; [|discriminate]. cbn [bind] in Ei. destruct (accepted _ _); [|discriminate]. injection Ei as <-. reflexivity. }
  cbn [PivViewerModel.history]. rewrite (react_spec Plus w Hf) by lia. cbn [updates asked]. rewrite Q. unfold PivViewerModel.update_fig. cbn [with_index w_index]. rewrite Er. cbn zeta.
  cbn [with_title with_index with_text w_positions]. unfold accepted. apply Nat.eqb_neq in N1, N2. rewrite N1, N2. cbn. auto.
Qed.
End Window.

(** only the files of another class of objects are refused *)
Theorem C100_refused : forall {X Y : Type} (f : hfile X Y), get_piv_data f = Err NotImplementedError <-> h_class f = OtherClass.
Proof.
  intros X Y f. unfold get_piv_data.
  assert (Hf : forall k (l : list (chars * option (list X * list Y))), find_key k l <> Err NotImplementedError).
  { intros k l. induction l as [|[k' d] l IH]; cbn; [discriminate|]. destruct (list_eq_dec _ k k'); [|exact IH]. destruct d; discriminate. }
  destruct (h_class f); split; intros H; try discriminate; try reflexivity.
  - exfalso. destruct (py_get _ (-1)) as [k|e] eqn:E; cbn [bind] in H; [exact (Hf _ _ H)|].
    injection H as ->. unfold py_get in E. destruct (_ && _)%bool in E; [|discriminate]. destruct (nth_error _ _) in E; discriminate.
  - exfalso. exact (Hf _ _ H).
Qed.

Print Assumptions C100_refused.
Print Assumptions C100_passes.
Print Assumptions C100_passes_refuted.
Print Assumptions C100_light.
Print Assumptions C100_index.
Print Assumptions C100_shown_partial.
Print Assumptions C100_positions_refuted.
Print Assumptions C100_unreadable_refuted.
Print Assumptions C100_size_refuted.

(** Example: three files of two vectors, the last one with other positions. *)
Definition ex_files (i : Z) : result (list Z * list Z) := if i =? 2 then Ok ([5; 6], [1; 2]) else Ok ([0; 1], [10 + i; 20 + i]).
Example C100_example :
  init_window ex_files 0 = Ok (mk_window 0 (py_str 0) 0 [0; 1] [10; 20]) /\ displayable 3 ex_files 2 /\
  asked_all 3 0 [Plus; Submit (of_string " 1 "); Submit (of_string "a"); Minus; Minus] = 2 /\
  history 3 ex_files 1000 [Plus; Submit (of_string " 1 "); Submit (of_string "a"); Minus; Minus] (mk_window 0 (py_str 0) 0 [0; 1] [10; 20])
    = mk_window 2 (py_str 2) 2 [0; 1] [1; 2].
Proof.
  split; [reflexivity|]. split.
  - intros i Hi. unfold ex_files. destruct (i =? 2); eexists _, _; split; reflexivity.
  - split; vm_compute; reflexivity.
Qed.

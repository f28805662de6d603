(** C54: the series parameters produced from UVmat instructions. *)
From Verif Require Import PyBase StrModel StrProofs SplitProofs UvmatModel.

Lemma text_eqb_eq a b : text_eqb a b = true <-> a = b.
Proof. unfold text_eqb. destruct (list_eq_dec Ascii.ascii_dec a b); split; congruence. Qed.

Lemma range_nth a b s k v : 0 < s ->
  nth_error (range_list a b s) k = Some v <-> (v = a + Z.of_nat k * s /\ v < b).
Proof.
  intros Hs. unfold range_list. rewrite nth_error_map.
  assert (Hlen : (k < Z.to_nat (range_len a b s))%nat <-> a + Z.of_nat k * s < b).
  { unfold range_len. replace (0 <? s) with true by lia. replace (s <? 0) with false by lia. cbn [andb].
    destruct (a <? b) eqn:E.
    - split; intros H.
      + assert (Z.of_nat k <= (b - a - 1) / s) by lia.
        assert (s * ((b - a - 1) / s) <= b - a - 1) by (apply Z.mul_div_le; lia). nia.
      + assert (Z.of_nat k <= (b - a - 1) / s) by (apply Z.div_le_lower_bound; nia). lia.
    - split; intros H; [cbn in H; lia|nia]. }
  destruct (nth_error (seq 0 (Z.to_nat (range_len a b s))) k) as [j|] eqn:Ej; cbn [option_map].
  - assert (Hlt : (k < List.length (seq 0 (Z.to_nat (range_len a b s))))%nat) by (apply nth_error_Some; congruence).
    rewrite seq_length in Hlt. rewrite (nth_error_nth' _ 0%nat) in Ej by (rewrite seq_length; lia).
    rewrite seq_nth in Ej by lia. injection Ej as <-. cbn [Nat.add].
    apply Hlen in Hlt. split; [intros [= <-]; tauto|]. intros (-> & _). reflexivity.
  - apply nth_error_None in Ej. rewrite seq_length in Ej. split; [discriminate|]. intros (-> & H). apply Hlen in H. lia.
Qed.

(** ** Meaning of the texts *)
Lemma range_two i : range_list i (i + 2) 1 = [i; i + 1].
Proof.
  unfold range_list, range_len. cbn [Z.ltb Z.compare andb]. replace (i <? i + 2) with true by lia.
  rewrite Z.div_1_r. replace (i + 2 - i - 1 + 1) with 2 by lia. change (Z.to_nat 2) with 2%nat. cbn [seq map].
  rewrite !Z.mul_1_r. change (Z.of_nat 0) with 0. change (Z.of_nat 1) with 1. rewrite Z.add_0_r. reflexivity.
Qed.

Lemma eval_i i : eval_expr i (of_string "i") = Ok i.
Proof. cbv - [Z.add]. f_equal. lia. Qed.
Lemma eval_i2 i : eval_expr i (of_string "i+2") = Ok (i + 2).
Proof.
  unfold eval_expr. change (split_on "+" (of_string "i+2")) with [of_string "i"; of_string "2"].
  cbn [map_result]. change (eval_term i (of_string "i")) with (@Ok Z i). change (eval_term i (of_string "2")) with (@Ok Z 2).
  cbn [bind zsum fold_right]. rewrite Z.add_0_r. reflexivity.
Qed.

Lemma images_Di i : images_of (of_string "i:i+2:1") i = Ok [[i]; [i + 1]].
Proof.
  unfold images_of. change (split_on comma (of_string "i:i+2:1")) with [of_string "i:i+2:1"]. cbn [map_result].
  unfold eval_slice. change (split_on ":" (of_string "i:i+2:1")) with [of_string "i"; of_string "i+2"; of_string "1"].
  cbn [map_result]. rewrite eval_i, eval_i2. change (eval_expr i (of_string "1")) with (@Ok Z 1). cbn [bind].
  change (1 =? 0) with false. cbv iota. cbn [bind]. rewrite range_two. reflexivity.
Qed.

Lemma images_pair i : images_of (of_string "i,0:2") i = Ok [[i; 0]; [i; 1]].
Proof.
  unfold images_of. change (split_on comma (of_string "i,0:2")) with [of_string "i"; of_string "0:2"]. cbn [map_result].
  unfold eval_slice. change (split_on ":" (of_string "i")) with [of_string "i"].
  change (split_on ":" (of_string "0:2")) with [of_string "0"; of_string "2"].
  cbn [map_result]. rewrite eval_i. change (eval_expr i (of_string "0")) with (@Ok Z 0). change (eval_expr i (of_string "2")) with (@Ok Z 2).
  reflexivity.
Qed.

Lemma map_result_pure {A B} (f : A -> result B) (g : A -> B) l :
  (forall a, f a = Ok (g a)) -> map_result f l = Ok (map g l).
Proof. intros H. induction l as [|a l IH]; [reflexivity|]. cbn [map_result map]. rewrite H, IH. reflexivity. Qed.

(** ** C54: the mode series(Di): the pairs (i, i+1) for i = first, first+incr, ... up to last
    included (an increment which is missing is 1). *)
Definition incr_or_1 (o : option Z) : Z := match o with Some n => n | None => 1 end.

Theorem C54_series_Di : forall ins a b,
  list_pair_mode ins = of_string "series(Di)" ->
  first_i (irange ins) = Some a -> last_i (irange ins) = Some b -> 0 < incr_or_1 (incr_i (irange ins)) ->
  exists p l, set_params_series ins = Ok p /\ groups p = Some (Ok l) /\
    forall k g, nth_error l k = Some g <->
      let i := a + Z.of_nat k * incr_or_1 (incr_i (irange ins)) in i <= b /\ g = [[i]; [i + 1]].
Proof.
  intros ins a b Hm Ha Hb Hs. unfold set_params_series. rewrite Hm.
  change (text_eqb (of_string "series(Di)") mode_Di) with true. cbn [orb].
  change (text_eqb (of_string "series(Di)") mode_pair) with false. rewrite Ha, Hb. cbn [attr bounds bind].
  do 2 eexists. split; [reflexivity|]. unfold groups. cbn [ind_stop ind_step ind_start str_subset].
  fold (incr_or_1 (incr_i (irange ins))). destruct (incr_or_1 (incr_i (irange ins)) =? 0) eqn:E; [lia|].
  rewrite (map_result_pure _ _ _ images_Di). split; [reflexivity|]. intros k g. rewrite nth_error_map.
  destruct (nth_error (range_list _ _ _) k) as [v|] eqn:Ev; cbn [option_map].
  - apply range_nth in Ev; [|exact Hs]. destruct Ev as (-> & Hlt). cbv zeta. split; [intros [= <-]; split; [lia|reflexivity]|].
    intros (_ & ->). reflexivity.
  - split; [discriminate|]. cbv zeta. intros (Hle & _).
    assert (H : nth_error (range_list a (b + 1) (incr_or_1 (incr_i (irange ins)))) k = Some (a + Z.of_nat k * incr_or_1 (incr_i (irange ins))))
      by (apply range_nth; [exact Hs|]; split; [reflexivity|lia]).
    congruence.
Qed.

(** ** C54: the mode pair j1-j2, with the letters a and b: the pairs (i a, i b). *)
Theorem C54_pair : forall ins a b civ1,
  list_pair_mode ins = of_string "pair j1-j2" -> list_pair_civ1 ins = Some civ1 ->
  startswith (of_string "j= a-b") civ1 = true ->
  first_i (irange ins) = Some a -> last_i (irange ins) = Some b -> 0 < incr_or_1 (incr_i (irange ins)) ->
  exists p l, set_params_series ins = Ok p /\ groups p = Some (Ok l) /\
    forall k g, nth_error l k = Some g <->
      let i := a + Z.of_nat k * incr_or_1 (incr_i (irange ins)) in i <= b /\ g = [[i; 0]; [i; 1]].
Proof.
  intros ins a b civ1 Hm Hc Hst Ha Hb Hs. unfold set_params_series. rewrite Hm.
  change (text_eqb (of_string "pair j1-j2") mode_Di) with false.
  change (text_eqb (of_string "pair j1-j2") mode_pair) with true. cbn [orb]. rewrite Ha, Hb, Hc. cbn [attr bounds bind].
  rewrite Hst. cbn [negb bind].
  do 2 eexists. split; [reflexivity|]. unfold groups. cbn [ind_stop ind_step ind_start str_subset].
  fold (incr_or_1 (incr_i (irange ins))). destruct (incr_or_1 (incr_i (irange ins)) =? 0) eqn:E; [lia|].
  rewrite (map_result_pure _ _ _ images_pair). split; [reflexivity|]. intros k g. rewrite nth_error_map.
  destruct (nth_error (range_list _ _ _) k) as [v|] eqn:Ev; cbn [option_map].
  - apply range_nth in Ev; [|exact Hs]. destruct Ev as (-> & Hlt). cbv zeta. split; [intros [= <-]; split; [lia|reflexivity]|].
    intros (_ & ->). reflexivity.
  - split; [discriminate|]. cbv zeta. intros (Hle & _).
    assert (H : nth_error (range_list a (b + 1) (incr_or_1 (incr_i (irange ins)))) k = Some (a + Z.of_nat k * incr_or_1 (incr_i (irange ins))))
      by (apply range_nth; [exact Hs|]; split; [reflexivity|lia]).
    congruence.
Qed.

(** ** C54 is false in the mode series(Dj): the parameters are accepted but no group of images
    can be computed from them, for all the instructions. *)
Theorem C54_series_Dj_refuted :
  (exists ins p, list_pair_mode ins = of_string "series(Dj)" /\ set_params_series ins = Ok p) /\
  (forall ins p, list_pair_mode ins = of_string "series(Dj)" -> set_params_series ins = Ok p ->
     forall i, images_of (str_subset p) i = Err NameError).
Proof.
  split.
  - exists (mk_instr (mk_range (Some 1) None (Some 1) (Some 1) (Some 1) (Some 10)) (of_string "series(Dj)") None).
    eexists. split; vm_compute; reflexivity.
  - intros ins p Hm. unfold set_params_series. rewrite Hm.
    change (text_eqb (of_string "series(Dj)") mode_Di) with false.
    change (text_eqb (of_string "series(Dj)") mode_pair) with false.
    change (text_eqb (of_string "series(Dj)") mode_Dj) with true. cbn [orb].
    unfold bounds. destruct (first_j (irange ins)) as [a|]; [|discriminate]. cbn [attr bind].
    destruct (first_i (irange ins)) as [b|]; [|discriminate]. destruct (last_i (irange ins)) as [c|]; [|discriminate].
    cbn [attr bind]. destruct (negb (b =? c)); [discriminate|]. cbn [bind]. intros [= <-] i. cbn [str_subset].
    unfold images_of. change (split_on comma (of_string "{ir.first_i},i:i+2:1")) with [of_string "{ir.first_i}"; of_string "i:i+2:1"].
    cbn [map_result]. change (eval_slice i (of_string "{ir.first_i}")) with (@Err (list Z) NameError). reflexivity.
Qed.

(** ** C54 is false in the mode series(Di) for pairs other than (i, i+1): the pair asked for is
    ignored, whatever it is. *)
Theorem C54_pair_ignored_refuted :
  (forall ir civ1 civ1', set_params_series (mk_instr ir (of_string "series(Di)") civ1)
                         = set_params_series (mk_instr ir (of_string "series(Di)") civ1')) /\
  (exists p, set_params_series (mk_instr (mk_range (Some 1) None (Some 1) None None None)
                (of_string "series(Di)") (Some (of_string "Di= 0|2 :dt= 2"))) = Ok p /\
     groups p = Some (Ok [[[1]; [2]]])).
Proof. split; [reflexivity|]. eexists. split; vm_compute; reflexivity. Qed.

(** ** C54: which instructions are accepted *)
Theorem C54_accepted_iff : forall ins,
  (exists p, set_params_series ins = Ok p) <->
  (list_pair_mode ins = of_string "series(Di)" /\ first_i (irange ins) <> None) \/
  (list_pair_mode ins = of_string "pair j1-j2" /\ first_i (irange ins) <> None /\
     exists rest, list_pair_civ1 ins = Some (of_string "j= a-b" ++ rest)) \/
  (list_pair_mode ins = of_string "series(Dj)" /\ first_j (irange ins) <> None /\
     first_i (irange ins) <> None /\ first_i (irange ins) = last_i (irange ins)).
Proof.
  assert (Hst : forall p s, startswith p s = true <-> exists rest, s = p ++ rest).
  { intros p. induction p as [|c p IH]; intros s; cbn [startswith app].
    - split; [exists s; reflexivity|reflexivity].
    - destruct s as [|d s]; [split; [discriminate|intros (r & [=])]|].
      rewrite andb_true_iff, Ascii.eqb_eq, IH. split.
      + intros (-> & r & ->). exists r. reflexivity.
      + intros (r & [= -> ->]). split; [reflexivity|exists r; reflexivity]. }
  intros ins. unfold set_params_series.
  assert (Hb : forall f i l, (exists b, bounds f i l = Ok b) <-> f <> None).
  { intros [f|] i l; cbn; split; try congruence; [intros _; eexists; reflexivity|intros (b & [=])]. }
  destruct (text_eqb (list_pair_mode ins) mode_Di) eqn:E1; cbn [orb].
  - apply text_eqb_eq in E1. rewrite E1. change (text_eqb mode_Di mode_pair) with false. cbv iota. cbn [bind].
    rewrite <- Hb with (i := incr_i (irange ins)) (l := last_i (irange ins)). split.
    + intros (p & H). left. split; [reflexivity|]. destruct (bounds _ _ _) as [b|]; [exists b; reflexivity|discriminate].
    + intros [(_ & b & ->)|[(H & _)|(H & _)]]; [|discriminate H ..]. cbn [bind]. destruct b as ((a0, b0), c0). eexists. reflexivity.
  - destruct (text_eqb (list_pair_mode ins) mode_pair) eqn:E2.
    + apply text_eqb_eq in E2. rewrite E2.
      split.
      * intros (p & H). right; left. split; [reflexivity|]. destruct (bounds _ _ _) as [b|] eqn:Eb; [|discriminate].
        split; [apply (Hb _ (incr_i (irange ins)) (last_i (irange ins))); exists b; exact Eb|]. cbn [bind] in H.
        destruct (list_pair_civ1 ins) as [c|]; [|discriminate]. cbn [attr bind] in H.
        destruct (startswith (of_string "j= a-b") c) eqn:Es; [|discriminate]. apply Hst in Es. destruct Es as (r & ->). exists r. reflexivity.
      * intros [(H & _)|[(_ & H & r & Hr)|(H & _)]]; [discriminate H| |discriminate H].
        apply (Hb _ (incr_i (irange ins)) (last_i (irange ins))) in H. destruct H as (((a0, b0), c0) & ->).
        cbn [bind]. rewrite Hr. cbn [attr bind].
        assert (Es : startswith (of_string "j= a-b") (of_string "j= a-b" ++ r) = true) by (apply Hst; exists r; reflexivity).
        rewrite Es. cbn [negb bind]. eexists. reflexivity.
    + destruct (text_eqb (list_pair_mode ins) mode_Dj) eqn:E3.
      * apply text_eqb_eq in E3. rewrite E3. split.
        -- intros (p & H). right; right. split; [reflexivity|]. destruct (bounds _ _ _) as [b|] eqn:Eb; [|discriminate].
           split; [apply (Hb _ (incr_j (irange ins)) (last_j (irange ins))); exists b; exact Eb|]. cbn [bind] in H.
           destruct (first_i (irange ins)) as [f|]; [|discriminate]. destruct (last_i (irange ins)) as [l|]; [|discriminate].
           cbn [attr bind] in H. destruct (f =? l) eqn:El; [|discriminate]. split; [discriminate|]. f_equal. lia.
        -- intros [(H & _)|[(H & _)|(_ & H & Hf & Hl)]]; [discriminate H ..|].
           apply (Hb _ (incr_j (irange ins)) (last_j (irange ins))) in H. destruct H as (((a0, b0), c0) & ->).
           destruct (first_i (irange ins)) as [f|]; [|congruence]. rewrite <- Hl. cbn [attr bind].
           rewrite Z.eqb_refl. cbn [negb bind]. eexists. reflexivity.
      * split; [intros (p & H); discriminate|].
        intros [(H & _)|[(H & _)|(H & _)]]; rewrite H in *; [discriminate E1|discriminate E2|discriminate E3].
Qed.

(** ** C54: without last index there is no stop; the other parameters are the ones given. *)
Theorem C54_defaults : forall ins p,
  set_params_series ins = Ok p -> list_pair_mode ins <> of_string "series(Dj)" ->
  first_i (irange ins) = Some (ind_start p) /\ ind_step p = incr_or_1 (incr_i (irange ins)) /\
  ind_stop p = option_map Z.succ (last_i (irange ins)).
Proof.
  intros ins p H Hm. unfold set_params_series in H.
  replace (text_eqb (list_pair_mode ins) mode_Dj) with false in H
    by (symmetry; destruct (text_eqb (list_pair_mode ins) mode_Dj) eqn:E; [apply text_eqb_eq in E; contradiction|reflexivity]).
  destruct (text_eqb (list_pair_mode ins) mode_Di || text_eqb (list_pair_mode ins) mode_pair) eqn:E0.
  - destruct (first_i (irange ins)) as [a|]; [|discriminate]. cbn [bounds attr bind] in H.
    match type of H with (do _ <- ?e ; _) = _ => destruct e end; [|discriminate]. cbn [bind] in H. injection H as <-.
    cbn [ind_start ind_step ind_stop]. split; [reflexivity|]. split; [reflexivity|]. destruct (last_i (irange ins)); reflexivity.
  - cbn [bind] in H. match type of H with (do _ <- ?e ; _) = _ => destruct e end; discriminate.
Qed.

(** ** C54: the size of the windows is the first size of the search box, made even. *)
Theorem C54_window : forall n rest,
  window_size (py_str n ++ tab :: rest) = Ok (2 * (n / 2)).
Proof.
  intros n rest. unfold window_size. rewrite split_on_app.
  - change (py_get (py_str n :: split_on tab rest) 0) with (py_get (py_str n :: split_on tab rest) (Z.of_nat 0)).
    unfold py_get. cbv zeta. cbn [Z.of_nat Z.ltb Z.compare Z.leb andb]. 
    replace (0 <? zlen (py_str n :: split_on tab rest)) with true by (unfold zlen; cbn [List.length]; lia).
    cbn [Z.to_nat nth_error bind]. rewrite py_int_str. cbn [bind]. f_equal.
    destruct (n mod 2 =? 1) eqn:E; Z.div_mod_to_equations; lia.
  - eapply Forall_impl; [|apply py_str_chars]. intros c Hc. apply int_char_neq; [exact Hc|reflexivity].
Qed.

(** ** C54: the table of the input files *)
Definition no_ampersand (s : chars) : Prop := Forall (fun c => Ascii.eqb c "&"%char = false) s.

Lemma sep_match c s : no_ampersand (c :: s) -> forall rest,
  (s = [] -> match rest with d :: _ => Ascii.eqb d "&"%char = false | [] => True end) ->
  startswith (of_string " & ") (c :: s ++ rest) = false.
Proof.
  intros H rest Hr. change (of_string " & ") with [" "%char; "&"%char; " "%char]. cbn [startswith].
  destruct (Ascii.eqb " " c); [|reflexivity]. cbn [andb].
  destruct s as [|d s]; cbn [app].
  - destruct rest as [|d rest]; [reflexivity|]. specialize (Hr eq_refl). rewrite Ascii.eqb_sym, Hr. reflexivity.
  - inversion H as [|? ? _ Hs]; subst. inversion Hs as [|? ? Hd _]; subst. rewrite Ascii.eqb_sym, Hd. reflexivity.
Qed.

Lemma split_cell fuel cell rest cur : no_ampersand cell ->
  (List.length (cell ++ of_string " & " ++ rest) <= fuel)%nat ->
  exists n, (List.length rest <= n)%nat /\
  split_fuel fuel (of_string " & ") (cell ++ of_string " & " ++ rest) cur
  = (rev cur ++ cell) :: split_fuel n (of_string " & ") rest [].
Proof.
  revert fuel cur. induction cell as [|c cell IH]; intros fuel cur Hc Hf.
  - cbn [app] in *. rewrite app_length in Hf. change (List.length (of_string " & ")) with 3%nat in Hf.
    destruct fuel as [|n]; [lia|]. exists n. split; [lia|]. rewrite app_nil_r.
    change (of_string " & " ++ rest) with (" "%char :: "&"%char :: " "%char :: rest). cbn [split_fuel].
    change (startswith (of_string " & ") (" "%char :: "&"%char :: " "%char :: rest)) with true. cbv iota.
    reflexivity.
  - cbn [app List.length] in *. destruct fuel as [|n]; [lia|]. cbn [split_fuel].
    rewrite sep_match; [|exact Hc|intros; reflexivity].
    destruct (IH n (c :: cur)) as (k & Hk & E); [inversion Hc; assumption|lia|]. exists k. split; [exact Hk|].
    rewrite E. cbn [rev]. rewrite <- app_assoc. reflexivity.
Qed.

Lemma split_last fuel cell cur : no_ampersand cell -> (List.length cell <= fuel)%nat ->
  split_fuel fuel (of_string " & ") cell cur = [rev cur ++ cell].
Proof.
  revert fuel cur. induction cell as [|c cell IH]; intros fuel cur Hc Hf.
  - destruct fuel; cbn [split_fuel]; rewrite ?app_nil_r; reflexivity.
  - cbn [List.length] in Hf. destruct fuel as [|n]; [lia|]. cbn [split_fuel].
    pose proof (sep_match c cell Hc []) as Hm. rewrite app_nil_r in Hm. rewrite Hm by trivial.
    rewrite IH; [|inversion Hc; assumption|lia]. cbn [rev]. rewrite <- app_assoc. reflexivity.
Qed.

Lemma split_table c cs fuel : Forall no_ampersand (c :: cs) ->
  (List.length (join (of_string " & ") (c :: cs)) <= fuel)%nat ->
  split_fuel fuel (of_string " & ") (join (of_string " & ") (c :: cs)) [] = c :: cs.
Proof.
  revert c fuel. induction cs as [|d cs IH]; intros c fuel H Hf.
  - cbn [join] in *. rewrite split_last; [reflexivity| |exact Hf]. inversion H; assumption.
  - change (join (of_string " & ") (c :: d :: cs)) with (c ++ of_string " & " ++ join (of_string " & ") (d :: cs)) in *.
    inversion H as [|? ? Hc Hcs]; subst. destruct (split_cell fuel c _ [] Hc Hf) as (n & Hn & ->). cbn [rev app]. f_equal.
    apply IH; assumption.
Qed.

(** C54: from the table "root & sub & base & indices & extension" (UVmat writes the cells with or
    without a leading slash), the images are the files base*extension of the directory root/sub,
    and the results go in root/sub followed by the extension of the output directory. *)
Theorem C54_tidy : forall abspath root sub base indices ext out,
  Forall no_ampersand [root; sub; base; indices; ext] ->
  root <> [] -> ends_with_slash root = false -> startswith [slash] sub = false -> sub <> [] -> ends_with_slash sub = false ->
  startswith [slash] base = false ->
  forall sub_cell base_cell, (sub_cell = sub \/ sub_cell = slash :: sub) -> (base_cell = base \/ base_cell = slash :: base) ->
  startswith [slash] ext = false -> base <> [] ->
  tidy abspath (join (of_string " & ") [root; sub_cell; base_cell; indices; ext]) out
  = Ok (mk_tidied (root ++ slash :: sub)
                  (abspath (root ++ slash :: sub ++ slash :: base ++ of_string "*" ++ ext))
                  (root ++ slash :: sub ++ out)).
Proof.
  intros abspath root sub base indices ext out H Hr Hrs Hs Hsn Hss Hb sub_cell base_cell Hsc Hbc He Hbn.
  assert (Hcells : table_cells (join (of_string " & ") [root; sub_cell; base_cell; indices; ext])
                   = [root; sub; base; strip_slash indices; ext]).
  { unfold table_cells, split_text. rewrite split_table; [| |lia].
    - cbn [map]. f_equal. f_equal; [|f_equal; [|f_equal; f_equal]].
      + destruct Hsc as [->| ->]; [|unfold strip_slash; rewrite Ascii.eqb_refl; reflexivity].
        destruct sub as [|c sub]; [reflexivity|]. cbn [startswith] in Hs. rewrite andb_true_r in Hs. cbn [strip_slash]. rewrite Ascii.eqb_sym, Hs. reflexivity.
      + destruct Hbc as [->| ->]; [|unfold strip_slash; rewrite Ascii.eqb_refl; reflexivity].
        destruct base as [|c base]; [reflexivity|]. cbn [startswith] in Hb. rewrite andb_true_r in Hb. cbn [strip_slash]. rewrite Ascii.eqb_sym, Hb. reflexivity.
      + destruct ext as [|c ext]; [reflexivity|]. cbn [startswith] in He. rewrite andb_true_r in He. cbn [strip_slash]. rewrite Ascii.eqb_sym, He. reflexivity.
    - inversion H as [|? ? H1 H2]; subst. inversion H2 as [|? ? H3 H4]; subst. inversion H4 as [|? ? H5 H6]; subst.
      constructor; [exact H1|]. constructor; [destruct Hsc as [->| ->]; [exact H3|constructor; [reflexivity|exact H3]]|].
      constructor; [destruct Hbc as [->| ->]; [exact H5|constructor; [reflexivity|exact H5]]|]. exact H6. }
  unfold tidy. rewrite Hcells. cbv zeta. cbn [List.length Nat.leb update_nth skipn List.concat].
  assert (Hjoin : path_join root sub = root ++ slash :: sub).
  { unfold path_join. rewrite Hs, Hrs. destruct root; [congruence|reflexivity]. }
  rewrite Hjoin. rewrite app_nil_r.
  assert (Hend : ends_with_slash (root ++ slash :: sub) = false).
  { unfold ends_with_slash in *. rewrite rev_app_distr. cbn [rev]. destruct (rev sub) as [|c l] eqn:E; [|exact Hss].
    exfalso. apply Hsn. rewrite <- (rev_involutive sub), E. reflexivity. }
  assert (Hfile : path_join (root ++ slash :: sub) (base ++ of_string "*" ++ ext) = root ++ slash :: sub ++ slash :: base ++ of_string "*" ++ ext).
  { unfold path_join. rewrite Hend.
    replace (startswith [slash] (base ++ of_string "*" ++ ext)) with false
      by (destruct base as [|c base]; [congruence|cbn [startswith app] in *; symmetry; exact Hb]).
    destruct root; [congruence|]. cbn [app]. rewrite <- app_assoc. reflexivity. }
  rewrite Hfile, <- app_assoc. reflexivity.
Qed.

(** ** Concrete cases *)
Example C54_Di_ex : exists p,
  set_params_series (mk_instr (mk_range (Some 1) (Some 2) (Some 4) None None None)
                       (of_string "series(Di)") (Some (of_string "Di= 0|1 :dt= 1"))) = Ok p /\
  groups p = Some (Ok [[[1]; [2]]; [[3]; [4]]]).
Proof. eexists. split; vm_compute; reflexivity. Qed.

Example C54_pair_ex : exists p,
  set_params_series (mk_instr (mk_range (Some 60) None (Some 61) None None None)
                       (of_string "pair j1-j2") (Some (of_string "j= a-b :dt= 1"))) = Ok p /\
  groups p = Some (Ok [[[60; 0]; [60; 1]]; [[61; 0]; [61; 1]]]).
Proof. eexists. split; vm_compute; reflexivity. Qed.

Example C54_window_ex : window_size (py_str 55 ++ tab :: of_string "55") = Ok 54.
Proof. vm_compute. reflexivity. Qed.

Example C54_tidy_ex :
  tidy (fun s => s) (of_string "/data/Oseen & /Images & /Oseen_center & _01 & .tif") (of_string ".civ")
  = Ok (mk_tidied (of_string "/data/Oseen/Images") (of_string "/data/Oseen/Images/Oseen_center*.tif")
                  (of_string "/data/Oseen/Images.civ")).
Proof. vm_compute. reflexivity. Qed.

Print Assumptions C54_series_Di.
Print Assumptions C54_pair.
Print Assumptions C54_series_Dj_refuted.
Print Assumptions C54_pair_ignored_refuted.
Print Assumptions C54_accepted_iff.
Print Assumptions C54_defaults.
Print Assumptions C54_window.
Print Assumptions C54_tidy.

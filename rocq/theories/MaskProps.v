(** C53: positions in the cropped image and in the original image. *)
From Verif Require Import PyBase StrModel StrProofs SplitProofs MaskModel.

(** ** Specification: the pixel of an image at the column x and the line y *)
Definition nthz {A} (l : list A) (k : Z) : option A :=
  if k <? 0 then None else nth_error l (Z.to_nat k).
Definition pixel {A} (im : image A) (x y : Z) : option A :=
  match nthz im y with Some line => nthz line x | None => None end.

(** text of a crop, e.g. "100:600, :" *)
Definition field_text (f : option Z) : chars :=
  match f with Some n => py_str n | None => [] end.
Definition crop_text (ya yb xa xb : option Z) : chars :=
  field_text ya ++ of_string ":" ++ field_text yb ++ of_string ", " ++
  field_text xa ++ of_string ":" ++ field_text xb.

Lemma nthz_some {A} (l : list A) k a : nthz l k = Some a -> 0 <= k < zlen l.
Proof.
  unfold nthz, zlen. destruct (k <? 0) eqn:E; [discriminate|]. intros H.
  assert (Z.to_nat k < List.length l)%nat by (apply nth_error_Some; congruence). lia.
Qed.

Lemma nthz_get {A} (l : list A) k a : 0 <= k -> py_get l k = Ok a <-> nthz l k = Some a.
Proof.
  intros Hk. unfold py_get, nthz. destruct (k <? 0) eqn:E; [lia|]. cbv zeta.
  split.
  - destruct ((0 <=? k) && (k <? zlen l)); [|discriminate].
    destruct (nth_error l (Z.to_nat k)); [|discriminate]. intros H; injection H as ->. reflexivity.
  - intros H. assert (Z.to_nat k < List.length l)%nat by (apply nth_error_Some; congruence).
    replace ((0 <=? k) && (k <? zlen l)) with true by (unfold zlen; lia). rewrite H. reflexivity.
Qed.

Lemma map_result_nth {A B} (f : A -> result B) l r : map_result f l = Ok r ->
  forall k b, nth_error r k = Some b <-> exists a, nth_error l k = Some a /\ f a = Ok b.
Proof.
  revert r. induction l as [|a l IH]; intros r H k b.
  - injection H as <-. destruct k; cbn; (split; [discriminate|intros (a & [=] & _)]).
  - cbn [map_result] in H. destruct (f a) as [b0|] eqn:Ea; [|discriminate]. cbn [bind] in H.
    destruct (map_result f l) as [r0|] eqn:Er; [|discriminate]. cbn [bind] in H. injection H as <-.
    destruct k as [|k]; cbn [nth_error].
    + split; [intros [= ->]; exists a; tauto|]. intros (a' & [= <-] & Hf). congruence.
    + apply IH; reflexivity.
Qed.

Lemma map_result_nthz {A B} (f : A -> result B) l r : map_result f l = Ok r ->
  forall k b, nthz r k = Some b <-> exists a, nthz l k = Some a /\ f a = Ok b.
Proof.
  intros H k b. unfold nthz. destruct (k <? 0).
  - split; [discriminate|intros (a & [=] & _)].
  - apply map_result_nth; assumption.
Qed.

Lemma range_list_nth a b s k v : s <> 0 ->
  nthz (range_list a b s) k = Some v <-> (0 <= k < range_len a b s /\ v = a + k * s).
Proof.
  intros Hs. unfold nthz, range_list. pose proof (range_len_nonneg a b s Hs) as Hn.
  destruct (k <? 0) eqn:E; [split; [discriminate|lia]|].
  rewrite nth_error_map.
  destruct (nth_error (seq 0 (Z.to_nat (range_len a b s))) (Z.to_nat k)) as [j|] eqn:Ej; cbn [option_map].
  - assert (Hlt : (Z.to_nat k < List.length (seq 0 (Z.to_nat (range_len a b s))))%nat)
      by (apply nth_error_Some; congruence).
    rewrite seq_length in Hlt.
    rewrite (nth_error_nth' _ 0%nat) in Ej by (rewrite seq_length; lia). rewrite seq_nth in Ej by lia.
    injection Ej as <-. split; [intros [= <-]; split; nia|]. intros (_ & ->). f_equal. nia.
  - apply nth_error_None in Ej. rewrite seq_length in Ej. split; [discriminate|lia].
Qed.

(** ** The parser reads the text of a crop *)
Lemma field_text_chars f : Forall (fun c => int_char c = true) (field_text f).
Proof. destruct f; [apply py_str_chars|constructor]. Qed.

Lemma slice_field_text f : slice_field (field_text f) = Ok f.
Proof.
  destruct f as [n|]; [|reflexivity]. cbn [field_text]. unfold slice_field.
  destruct (py_str n) eqn:E; [destruct (py_str_nonnil n E)|]. rewrite <- E, py_int_str. reflexivity.
Qed.

Lemma not_char d s : int_char d = false -> Forall (fun c => int_char c = true) s ->
  Forall (fun c => Ascii.eqb c d = false) s.
Proof. intros Hd. apply Forall_impl. intros c Hc. apply int_char_neq; assumption. Qed.

Lemma split_fields a b :
  split_on ":"%char (field_text a ++ ":"%char :: field_text b) = [field_text a; field_text b].
Proof.
  rewrite split_on_app by (apply not_char; [reflexivity|apply field_text_chars]).
  rewrite split_on_none by (apply not_char; [reflexivity|apply field_text_chars]). reflexivity.
Qed.

Lemma part_not_comma a b :
  Forall (fun c => Ascii.eqb c comma = false) (field_text a ++ ":"%char :: field_text b).
Proof.
  apply Forall_app; split; [apply not_char; [reflexivity|apply field_text_chars]|].
  constructor; [reflexivity|]. apply not_char; [reflexivity|apply field_text_chars].
Qed.

Lemma part_not_space a b :
  Forall (fun c => is_space c = false) (field_text a ++ ":"%char :: field_text b).
Proof.
  apply Forall_app; split; [eapply Forall_impl; [|apply field_text_chars]; intros; apply int_char_not_space; assumption|].
  constructor; [reflexivity|]. eapply Forall_impl; [|apply field_text_chars]; intros; apply int_char_not_space; assumption.
Qed.

Lemma strip_part a b : strip (field_text a ++ ":"%char :: field_text b) = field_text a ++ ":"%char :: field_text b.
Proof.
  rewrite <- (app_nil_r (field_text a ++ ":"%char :: field_text b)) at 1.
  apply (strip_spaces [] _ []); [constructor|constructor|apply part_not_space].
Qed.

Lemma strip_part_space a b :
  strip (" "%char :: field_text a ++ ":"%char :: field_text b) = field_text a ++ ":"%char :: field_text b.
Proof.
  rewrite <- (app_nil_r (field_text a ++ ":"%char :: field_text b)) at 1.
  apply (strip_spaces [" "%char] _ []); [repeat constructor|constructor|apply part_not_space].
Qed.

(** C53: the text "ya:yb, xa:xb" (each number can be missing) is read as these two slices. *)
Theorem C53_parse : forall ya yb xa xb,
  get_slices (crop_text ya yb xa xb) = Ok [mk_slice ya yb None; mk_slice xa xb None].
Proof.
  intros. unfold get_slices, crop_text.
  change (of_string ":") with [":"%char]. change (of_string ", ") with [comma; " "%char].
  replace (field_text ya ++ [":"%char] ++ field_text yb ++ [comma; " "%char] ++ field_text xa ++ [":"%char] ++ field_text xb)
    with ((field_text ya ++ ":"%char :: field_text yb) ++ comma :: (" "%char :: field_text xa ++ ":"%char :: field_text xb))
    by (rewrite <- app_assoc; reflexivity).
  rewrite split_on_app by apply part_not_comma.
  rewrite split_on_none by (constructor; [reflexivity|apply part_not_comma]).
  cbn [map_result]. rewrite strip_part, strip_part_space, !split_fields. cbn [map_result].
  rewrite !slice_field_text. reflexivity.
Qed.

(** C53: the two conversions are inverse of each other, for every text of crop. *)
Theorem C53_round_trip : forall m p q,
  original_from_masked m p = Ok q <-> masked_from_original m q = Ok p.
Proof.
  intros m (x, y) (x', y'). unfold original_from_masked, masked_from_original.
  destruct (starts m) as [[([a|], [b|])|]|e]; cbn [bind];
    (split; [intros [= <- <-] || discriminate | intros [= <- <-] || discriminate]);
    try (f_equal; f_equal; lia).
Qed.

(** ** Slices of one axis *)
Definition step_of (s : slice) : Z := match s_step s with Some k => k | None => 1 end.
Definition start_of (s : slice) : Z := match s_start s with Some a => a | None => 0 end.

Lemma slice_range_form n s inds : 0 <= n -> slice_range n s = Ok inds ->
  exists start stop, step_of s <> 0 /\ inds = range_list start stop (step_of s) /\
    (0 < step_of s -> 0 <= start /\ stop <= n /\
       match s_start s with
       | Some a => start = (if a <? 0 then Z.max (a + n) 0 else Z.min a n)
       | None => start = 0 end /\
       match s_stop s with
       | Some b => stop = (if b <? 0 then Z.max (b + n) 0 else Z.min b n)
       | None => stop = n end) /\
    (step_of s < 0 -> start <= n - 1 /\ -1 <= stop /\
       match s_start s with
       | Some a => start = (if a <? 0 then Z.max (a + n) (-1) else Z.min a (n - 1))
       | None => start = n - 1 end).
Proof.
  intros Hn. unfold slice_range. fold (step_of s). destruct (step_of s =? 0) eqn:E0; [discriminate|].
  intros H. injection H as <-. eexists _, _. split; [lia|]. split; [reflexivity|]. unfold clip_bound.
  split; intros Hs.
  - replace (step_of s <? 0) with false by lia.
    destruct (s_start s) as [a|]; destruct (s_stop s) as [b|]; repeat match goal with |- context [?b <? 0] => destruct (b <? 0) eqn:? end; repeat split; lia.
  - replace (step_of s <? 0) with true by lia.
    destruct (s_start s) as [a|]; destruct (s_stop s) as [b|]; repeat match goal with |- context [?b <? 0] => destruct (b <? 0) eqn:? end; repeat split; lia.
Qed.

Lemma slice_range_in n s inds v : 0 <= n -> slice_range n s = Ok inds -> In v inds -> 0 <= v < n.
Proof.
  intros Hn H Hin. destruct (slice_range_form n s inds Hn H) as (a & b & Hs & -> & Hp & Hm).
  apply range_list_In in Hin; [|exact Hs]. destruct Hin as (k & Hk & -> & Hb).
  destruct (0 <? step_of s) eqn:E.
  - destruct Hp as (? & ? & _); [lia|]. nia.
  - destruct Hm as (? & ? & _); [lia|]. nia.
Qed.

Lemma nthz_In {A} (l : list A) k a : nthz l k = Some a -> In a l.
Proof. unfold nthz. destruct (k <? 0); [discriminate|]. apply nth_error_In. Qed.

Lemma take_slice_nth {A} s (l r : list A) : take_slice s l = Ok r ->
  exists inds, slice_range (zlen l) s = Ok inds /\
    forall k a, nthz r k = Some a <-> exists v, nthz inds k = Some v /\ nthz l v = Some a.
Proof.
  unfold take_slice. destruct (slice_range (zlen l) s) as [inds|] eqn:E; [|discriminate]. cbn [bind].
  intros H. exists inds. split; [reflexivity|]. intros k a.
  rewrite (map_result_nthz _ _ _ H).
  split; intros (v & H1 & H2); exists v; (split; [exact H1|]);
    pose proof (slice_range_in (zlen l) s inds v ltac:(unfold zlen; lia) E (nthz_In _ _ _ H1));
    apply nthz_get; try lia; assumption.
Qed.

Lemma map_result_ok {A B} (f : A -> result B) l :
  (forall a, In a l -> exists b, f a = Ok b) -> exists r, map_result f l = Ok r.
Proof.
  induction l as [|a l IH]; intros H; [exists []; reflexivity|]. cbn [map_result].
  destruct (H a (or_introl eq_refl)) as (b & ->). destruct IH as (r & ->); [intros; apply H; right; assumption|].
  eexists; reflexivity.
Qed.

Lemma take_slice_ok {A} s (l : list A) : step_of s <> 0 -> exists r, take_slice s l = Ok r.
Proof.
  intros Hs. unfold take_slice, slice_range. fold (step_of s).
  destruct (step_of s =? 0) eqn:E; [lia|]. cbv zeta.
  match goal with |- exists r, (do _ <- Ok ?l0 ; _) = _ => set (inds := l0) end. cbn [bind].
  apply map_result_ok. intros v Hv.
  assert (Hr : slice_range (zlen l) s = Ok inds) by (unfold slice_range; fold (step_of s); rewrite E; reflexivity).
  pose proof (slice_range_in (zlen l) s inds v ltac:(unfold zlen; lia) Hr Hv) as Hb.
  unfold py_get. cbv zeta. replace (v <? 0) with false by lia. replace ((0 <=? v) && (v <? zlen l)) with true by lia.
  destruct (nth_error l (Z.to_nat v)) eqn:En; [eexists; reflexivity|].
  apply nth_error_None in En. unfold zlen in Hb. lia.
Qed.

(** ** Crops without step and with starts which are not negative *)
Definition rect {A} (im : image A) (h w : Z) : Prop :=
  zlen im = h /\ Forall (fun line => zlen line = w) im.
Definition nonneg_or_none (a : option Z) : Prop := match a with Some a => 0 <= a | None => True end.
(** k is before the stop, which counts from the end if it is negative *)
Definition before (n k : Z) (stop : option Z) : Prop :=
  match stop with Some b => k < (if b <? 0 then n + b else b) | None => True end.

Lemma axis_nth n a b inds : 0 <= n -> nonneg_or_none a -> slice_range n (mk_slice a b None) = Ok inds ->
  forall k v, nthz inds k = Some v <->
    (0 <= k /\ v = k + match a with Some a => a | None => 0 end /\ v < n /\ before n v b).
Proof.
  intros Hn Ha H k v. destruct (slice_range_form n _ inds Hn H) as (st & sp & Hs & -> & Hp & _).
  change (step_of (mk_slice a b None)) with 1 in *. destruct Hp as (H0 & H1 & H2 & H3); [lia|]. cbn [s_start s_stop] in H2, H3.
  rewrite range_list_nth by lia. unfold range_len, before. cbn [Z.ltb Z.compare].
  clear H Hs.
  destruct a as [a|]; cbn [nonneg_or_none] in Ha; [replace (a <? 0) with false in H2 by lia|];
    (destruct b as [b|]; [destruct (b <? 0)|]);
    destruct (st <? sp) eqn:E; cbn [andb]; rewrite ?Z.div_1_r; (split; [intros (Hk & ->)|intros (Hk & -> & Hv & Hb)]); lia.
Qed.

(** C53: for every crop "ya:yb, xa:xb" whose starts are not negative, every image can be
    cropped, every position can be converted, and the pixels of the cropped image are exactly
    the pixels of the original image at the converted positions, as long as these are before
    the stops. *)
Theorem C53_crop_partial : forall A (im : image A) h w ya yb xa xb,
  rect im h w -> nonneg_or_none ya -> nonneg_or_none xa ->
  let m := mk_mask (Some (crop_text ya yb xa xb)) in
  exists im', mask_array (Some m) im = Ok im' /\
    forall x y, exists x' y', original_from_masked m (x, y) = Ok (x', y') /\
      forall v, pixel im' x y = Some v <->
        (0 <= x /\ 0 <= y /\ before w x' xb /\ before h y' yb /\ pixel im x' y' = Some v).
Proof.
  intros A im h w ya yb xa xb (Hh & Hw) Hya Hxa m.
  unfold mask_array, m. cbn [strcrop]. rewrite C53_parse. cbn [bind crop].
  destruct (take_slice_ok (mk_slice ya yb None) im) as (lines & El); [cbn; lia|]. rewrite El. cbn [bind].
  destruct (map_result_ok (take_slice (mk_slice xa xb None)) lines) as (im' & Ei);
    [intros; apply take_slice_ok; cbn; lia|].
  rewrite Ei. exists im'. split; [reflexivity|]. intros x y.
  unfold original_from_masked, starts. cbn [strcrop]. rewrite C53_parse. cbn [bind].
  change (py_get [mk_slice ya yb None; mk_slice xa xb None] 1) with (Ok (mk_slice xa xb None)).
  change (py_get [mk_slice ya yb None; mk_slice xa xb None] 0) with (Ok (mk_slice ya yb None)).
  cbn [bind s_start]. do 2 eexists. split; [reflexivity|]. intros v.
  destruct (take_slice_nth _ _ _ El) as (inds & Er & Hl).
  assert (Hh0 : 0 <= h) by (unfold zlen in Hh; lia). rewrite Hh in Er.
  pose proof (axis_nth h ya yb inds Hh0 Hya Er) as Hy.
  unfold pixel at 1.
  assert (Hline : forall l, nthz im' y = Some l -> exists line, nthz im (y + start_of (mk_slice ya yb None)) = Some line /\ 0 <= y /\ before h (y + start_of (mk_slice ya yb None)) yb /\ take_slice (mk_slice xa xb None) line = Ok l).
  { intros l Hl'. apply (map_result_nthz _ _ _ Ei) in Hl'. destruct Hl' as (line & Hl' & Ht).
    apply Hl in Hl'. destruct Hl' as (v' & Hv1 & Hv2). apply Hy in Hv1. destruct Hv1 as (? & -> & ? & ?).
    exists line. unfold start_of; cbn [s_start]. tauto. }
  replace (match ya with Some a => y + a | None => y end) with (y + start_of (mk_slice ya yb None))
    by (unfold start_of; cbn [s_start]; destruct ya; lia).
  replace (match xa with Some a => x + a | None => x end) with (x + start_of (mk_slice xa xb None))
    by (unfold start_of; cbn [s_start]; destruct xa; lia).
  assert (Hwid : forall line, nthz im (y + start_of (mk_slice ya yb None)) = Some line -> zlen line = w).
  { intros line Hl'. apply nthz_In in Hl'. rewrite Forall_forall in Hw. apply Hw; assumption. }
  split.
  - destruct (nthz im' y) as [l|] eqn:Ey; [|discriminate]. intros Hx.
    destruct (Hline l eq_refl) as (line & Hl' & Hy0 & Hyb & Ht).
    destruct (take_slice_nth _ _ _ Ht) as (inds1 & Er1 & Hl1). rewrite (Hwid line Hl') in Er1.
    assert (Hw0 : 0 <= w) by (rewrite <- (Hwid line Hl'); unfold zlen; lia).
    apply Hl1 in Hx. destruct Hx as (v' & Hv1 & Hv2).
    apply (axis_nth w xa xb inds1 Hw0 Hxa Er1) in Hv1. destruct Hv1 as (? & -> & ? & ?).
    unfold start_of at 1 3; cbn [s_start]. unfold pixel. rewrite Hl'. tauto.
  - intros (Hx0 & Hy0 & Hxb & Hyb & Hv). unfold pixel in Hv.
    destruct (nthz im (y + start_of (mk_slice ya yb None))) as [line|] eqn:El'; [|discriminate].
    assert (Hyi : nthz lines y = Some line).
    { apply Hl. exists (y + start_of (mk_slice ya yb None)). split; [|exact El'].
      apply Hy. split; [lia|]. split; [reflexivity|]. split; [|exact Hyb]. apply nthz_some in El'. lia. }
    destruct (take_slice_ok (mk_slice xa xb None) line) as (l & Ht); [cbn; lia|].
    assert (Ey : nthz im' y = Some l) by (apply (map_result_nthz _ _ _ Ei); exists line; tauto).
    rewrite Ey. destruct (take_slice_nth _ _ _ Ht) as (inds1 & Er1 & Hl1).
    rewrite (Hwid line eq_refl) in Er1.
    assert (Hw0 : 0 <= w) by (rewrite <- (Hwid line eq_refl); unfold zlen; lia).
    apply Hl1. exists (x + start_of (mk_slice xa xb None)). split; [|exact Hv].
    apply (axis_nth w xa xb inds1 Hw0 Hxa Er1). split; [lia|]. split; [reflexivity|]. split; [|exact Hxb].
    apply nthz_some in Hv. rewrite (Hwid line eq_refl) in Hv. lia.
Qed.

(** ** Exact condition, for all slices (with steps and negative bounds) *)
Lemma axis_iff n s inds : 0 <= n -> slice_range n s = Ok inds -> inds <> [] ->
  (forall k v, nthz inds k = Some v -> v = k + start_of s) <->
  (match s_start s with Some a => 0 <= a < n | None => 0 < step_of s \/ n = 1 end /\
   (step_of s = 1 \/ zlen inds = 1)).
Proof.
  intros Hn H Hne. destruct (slice_range_form n s inds Hn H) as (st & sp & Hs & Ei & Hp & Hm).
  assert (Hlen : zlen inds = range_len st sp (step_of s)) by (rewrite Ei; apply zlen_range_list; exact Hs).
  assert (Hpos : 0 < zlen inds) by (destruct inds; [congruence|unfold zlen; cbn [List.length]; lia]).
  assert (Hnth : forall k v, nthz inds k = Some v <-> 0 <= k < zlen inds /\ v = st + k * step_of s)
    by (intros; rewrite Hlen, Ei; apply range_list_nth; exact Hs).
  assert (Hin : forall k, 0 <= k < zlen inds -> 0 <= st + k * step_of s < n).
  { intros k Hk. apply (slice_range_in n s inds); [exact Hn|exact H|]. eapply nthz_In. apply Hnth. split; [exact Hk|reflexivity]. }
  clear Ei Hlen H Hne. unfold start_of. pose proof (Hin 0 ltac:(lia)) as H0.
  split.
  - intros Hall.
    assert (E0 : st = match s_start s with Some a => a | None => 0 end).
    { pose proof (Hall 0 (st + 0 * step_of s)) as E. rewrite Hnth in E. specialize (E ltac:(split; [lia|reflexivity])). lia. }
    split.
    + destruct (s_start s) as [a|]; [lia|]. destruct (Z.lt_ge_cases 0 (step_of s)); [left; assumption|right].
      destruct Hm as (_ & _ & Hm); lia.
    + destruct (Z.eq_dec (zlen inds) 1) as [->|Hne]; [right; reflexivity|left].
      pose proof (Hall 1 (st + 1 * step_of s)) as E. rewrite Hnth in E. specialize (E ltac:(split; [lia|reflexivity])). lia.
  - intros (Ha & Hstep) k v Hk. apply Hnth in Hk. destruct Hk as (Hk & ->).
    assert (E0 : st = match s_start s with Some a => a | None => 0 end).
    { destruct (Z.lt_ge_cases 0 (step_of s)) as [Hs1|Hs1].
      - destruct Hp as (_ & _ & Hp & _); [lia|]. destruct (s_start s) as [a|]; [|lia].
        replace (a <? 0) with false in Hp by lia. lia.
      - destruct Hm as (_ & _ & Hm); [lia|]. destruct (s_start s) as [a|]; [|lia].
        replace (a <? 0) with false in Hm by lia. lia. }
    destruct (s_start s) as [a|]; destruct Hstep as [->|?]; nia.
Qed.

(** the image whose pixels are their own positions *)
Definition is_position_image (im : image (Z * Z)) (h w : Z) : Prop :=
  0 <= h /\ 0 <= w /\ zlen im = h /\ Forall (fun line => zlen line = w) im /\
  forall x y p, pixel im x y = Some p -> p = (x, y).

(** C53: exact condition on the crop under which the converted positions are the positions of
    the pixels in the original image: along each axis the start is inside the image (not
    negative), a missing start goes with a positive step (or a single pixel), and the step is 1
    (or a single pixel is selected). *)
Theorem C53_positions_iff : forall text s0 s1 (im im' : image (Z * Z)) h w p0,
  let m := mk_mask (Some text) in
  get_slices text = Ok [s0; s1] ->
  is_position_image im h w -> mask_array (Some m) im = Ok im' -> pixel im' 0 0 = Some p0 ->
  (forall x y p, pixel im' x y = Some p -> original_from_masked m (x, y) = Ok p) <->
  (match s_start s0 with Some a => 0 <= a < h | None => 0 < step_of s0 \/ h = 1 end /\
   (step_of s0 = 1 \/ zlen im' = 1)) /\
  (match s_start s1 with Some a => 0 <= a < w | None => 0 < step_of s1 \/ w = 1 end /\
   (step_of s1 = 1 \/ forall line, In line im' -> zlen line = 1)).
Proof.
  intros text s0 s1 im im' h w p0 m Hg (Hh0 & Hw0 & Hh & Hw & Hpos) Hm H00.
  unfold mask_array, m in Hm. cbn [strcrop] in Hm. rewrite Hg in Hm. cbn [bind crop] in Hm.
  destruct (take_slice s0 im) as [lines|] eqn:El; [|discriminate]. cbn [bind] in Hm.
  destruct (take_slice_nth _ _ _ El) as (i0 & E0 & N0). rewrite Hh in E0.
  (* the first line gives the indices along x *)
  unfold pixel in H00. destruct (nthz im' 0) as [l0|] eqn:El0; [|discriminate].
  pose proof El0 as El0'. apply (map_result_nthz _ _ _ Hm) in El0'. destruct El0' as (line0 & Hl0 & Ht0).
  destruct (take_slice_nth _ _ _ Ht0) as (i1 & E1 & N1).
  assert (Hwl : forall line, In line lines -> zlen line = w).
  { intros line Hin. apply In_nth_error in Hin. destruct Hin as (k & Hk).
    assert (Hk' : nthz lines (Z.of_nat k) = Some line).
    { unfold nthz. destruct (Z.of_nat k <? 0) eqn:?; [lia|]. rewrite Nat2Z.id. exact Hk. }
    apply N0 in Hk'. destruct Hk' as (v & _ & Hv). apply nthz_In in Hv. rewrite Forall_forall in Hw. apply Hw. exact Hv. }
  rewrite (Hwl line0 (nthz_In _ _ _ Hl0)) in E1.
  (* pixels of the cropped image *)
  assert (Hpix : forall x y p, pixel im' x y = Some p <->
            exists v u, nthz i0 y = Some v /\ nthz i1 x = Some u /\ p = (u, v)).
  { intros x y p. unfold pixel. split.
    - destruct (nthz im' y) as [l|] eqn:Ey; [|discriminate]. intros Hx.
      apply (map_result_nthz _ _ _ Hm) in Ey. destruct Ey as (line & Hy & Ht).
      destruct (take_slice_nth _ _ _ Ht) as (i1' & E1' & N1'). rewrite (Hwl line (nthz_In _ _ _ Hy)), E1 in E1'.
      injection E1' as <-. apply N1' in Hx. destruct Hx as (u & Hu & Hp).
      apply N0 in Hy. destruct Hy as (v & Hv & Hl). exists v, u. split; [exact Hv|]. split; [exact Hu|].
      apply Hpos. unfold pixel. rewrite Hl. exact Hp.
    - intros (v & u & Hv & Hu & ->).
      pose proof (slice_range_in h s0 i0 v Hh0 E0 (nthz_In _ _ _ Hv)) as Bv.
      pose proof (slice_range_in w s1 i1 u Hw0 E1 (nthz_In _ _ _ Hu)) as Bu.
      destruct (nthz im v) as [line|] eqn:Eline.
      2:{ unfold nthz in Eline. destruct (v <? 0) eqn:?; [lia|]. apply nth_error_None in Eline. unfold zlen in Hh. lia. }
      assert (Hy : nthz lines y = Some line) by (apply N0; exists v; tauto).
      destruct (take_slice s1 line) as [l|] eqn:Ht.
      2:{ exfalso. destruct (take_slice_ok s1 line) as (r & Hr); [|congruence].
          destruct (slice_range_form w s1 i1 Hw0 E1) as (? & ? & ? & _). assumption. }
      assert (Ey : nthz im' y = Some l) by (apply (map_result_nthz _ _ _ Hm); exists line; tauto).
      rewrite Ey. destruct (take_slice_nth _ _ _ Ht) as (i1' & E1' & N1'). rewrite (Hwl line (nthz_In _ _ _ Hy)), E1 in E1'.
      injection E1' as <-. apply N1'. exists u. split; [exact Hu|].
      destruct (nthz line u) as [q|] eqn:Eq.
      + f_equal. apply (Hpos u v q). unfold pixel. rewrite Eline. exact Eq.
      + unfold nthz in Eq. destruct (u <? 0) eqn:?; [lia|]. apply nth_error_None in Eq.
        pose proof (Hwl line (nthz_In _ _ _ Hy)) as Hz. unfold zlen in Hz. lia. }
  assert (Hconv : forall x y, original_from_masked m (x, y) = Ok (x + start_of s1, y + start_of s0)).
  { intros x y. unfold original_from_masked, starts, m. cbn [strcrop]. rewrite Hg. cbn [bind].
    change (py_get [s0; s1] 1) with (Ok s1). change (py_get [s0; s1] 0) with (Ok s0). cbn [bind]. unfold start_of.
    destruct (s_start s1), (s_start s0); f_equal; f_equal; lia. }
  assert (H00' : pixel im' 0 0 = Some p0) by (unfold pixel; rewrite El0; exact H00).
  apply Hpix in H00'. destruct H00' as (v0 & u0 & Hv0 & Hu0 & _).
  assert (Hne0 : i0 <> []) by (intros ->; discriminate). assert (Hne1 : i1 <> []) by (intros ->; discriminate).
  (* sizes *)
  assert (Hz : forall A B (l : list A) (l' : list B), (forall k, (exists a, nthz l k = Some a) <-> exists b, nthz l' k = Some b) -> zlen l = zlen l').
  { intros A B l l' He. destruct (Z.lt_trichotomy (zlen l) (zlen l')) as [Hlt|[?|Hlt]]; [exfalso|assumption|exfalso].
    - assert (exists b, nthz l' (zlen l) = Some b) as Hb.
      { unfold nthz, zlen in *. destruct (Z.of_nat (List.length l) <? 0) eqn:?; [lia|]. rewrite Nat2Z.id.
        destruct (nth_error l' (List.length l)) eqn:En; [eauto|]. apply nth_error_None in En. lia. }
      apply He in Hb. destruct Hb as (a & Ha). apply nthz_some in Ha. lia.
    - assert (exists b, nthz l (zlen l') = Some b) as Hb.
      { unfold nthz, zlen in *. destruct (Z.of_nat (List.length l') <? 0) eqn:?; [lia|]. rewrite Nat2Z.id.
        destruct (nth_error l (List.length l')) eqn:En; [eauto|]. apply nth_error_None in En. lia. }
      apply He in Hb. destruct Hb as (a & Ha). apply nthz_some in Ha. lia. }
  assert (Hz0 : zlen im' = zlen i0).
  { apply Hz. intros k. split.
    - intros (l & Hl). apply (map_result_nthz _ _ _ Hm) in Hl. destruct Hl as (line & Hl & _). apply N0 in Hl.
      destruct Hl as (v & Hv & _). eauto.
    - intros (v & Hv). assert (Hp : pixel im' 0 k = Some (u0, v)) by (apply Hpix; exists v, u0; tauto).
      unfold pixel in Hp. destruct (nthz im' k); [eauto|discriminate]. }
  assert (Hz1 : forall line, In line im' -> zlen line = zlen i1).
  { intros line Hin. apply In_nth_error in Hin. destruct Hin as (k & Hk).
    assert (Hk' : nthz im' (Z.of_nat k) = Some line).
    { unfold nthz. destruct (Z.of_nat k <? 0) eqn:?; [lia|]. rewrite Nat2Z.id. exact Hk. }
    apply (map_result_nthz _ _ _ Hm) in Hk'. destruct Hk' as (line' & Hl & Ht).
    destruct (take_slice_nth _ _ _ Ht) as (i1' & E1' & N1'). rewrite (Hwl line' (nthz_In _ _ _ Hl)), E1 in E1'.
    injection E1' as <-. apply Hz. intros j. split.
    - intros (a & Ha). apply N1' in Ha. destruct Ha as (v & Hv & _). eauto.
    - intros (v & Hv). pose proof (slice_range_in w s1 i1 v Hw0 E1 (nthz_In _ _ _ Hv)) as Bv.
      destruct (nthz line' v) as [q|] eqn:Eq; [exists q; apply N1'; eauto|].
      unfold nthz in Eq. destruct (v <? 0) eqn:?; [lia|]. apply nth_error_None in Eq.
      pose proof (Hwl line' (nthz_In _ _ _ Hl)) as Hzz. unfold zlen in Hzz. lia. }
  assert (Hl0in : In l0 im') by (apply (nthz_In _ _ _ El0)).
  transitivity ((forall k v, nthz i0 k = Some v -> v = k + start_of s0) /\ (forall k v, nthz i1 k = Some v -> v = k + start_of s1)).
  { split.
    - intros Hall. split; intros k v Hk.
      + specialize (Hall 0 k (u0, v)). rewrite Hpix, Hconv in Hall.
        assert (E : Ok (0 + start_of s1, k + start_of s0) = Ok (u0, v)) by (apply Hall; exists v, u0; tauto).
        injection E as _ E. lia.
      + specialize (Hall k 0 (v, v0)). rewrite Hpix, Hconv in Hall.
        assert (E : Ok (k + start_of s1, 0 + start_of s0) = Ok (v, v0)) by (apply Hall; exists v0, v; tauto).
        injection E as E _. lia.
    - intros (Ha & Hb) x y p Hp. apply Hpix in Hp. destruct Hp as (v & u & Hv & Hu & ->).
      rewrite Hconv, (Ha y v Hv), (Hb x u Hu). reflexivity. }
  rewrite (axis_iff h s0 i0 Hh0 E0 Hne0), (axis_iff w s1 i1 Hw0 E1 Hne1), Hz0.
  assert (Hlast : (forall line, In line im' -> zlen line = 1) <-> zlen i1 = 1).
  { split; [intros Hall; rewrite <- (Hz1 l0 Hl0in); apply Hall; exact Hl0in|]. intros E line Hin. rewrite (Hz1 line Hin). exact E. }
  rewrite Hlast. reflexivity.
Qed.

(** C53 is false as stated: with a start which counts from the end, or with a step, the pixel
    found in the original image at the converted position is not the pixel of the cropped
    image; with a crop of the lines only, the images are cropped but the positions cannot be
    converted. *)
Definition ex_im : image (Z * Z) :=
  map (fun y => map (fun x => (x, y)) (range0 5)) (range0 4).

Theorem C53_positions_refuted :
  (exists im' p q v, let m := mk_mask (Some (of_string "-2:, :")) in
     mask_array (Some m) ex_im = Ok im' /\ original_from_masked m p = Ok q /\
     pixel im' (fst p) (snd p) = Some v /\ pixel ex_im (fst q) (snd q) <> Some v) /\
  (exists im' p q v, let m := mk_mask (Some (of_string ":, ::2")) in
     mask_array (Some m) ex_im = Ok im' /\ original_from_masked m p = Ok q /\
     pixel im' (fst p) (snd p) = Some v /\ pixel ex_im (fst q) (snd q) <> Some v) /\
  (exists im', let m := mk_mask (Some (of_string "1:3")) in
     mask_array (Some m) ex_im = Ok im' /\ pixel im' 0 0 = Some (0, 1) /\
     forall p, original_from_masked m p = Err IndexError).
Proof.
  split; [|split].
  - eexists _, (0, 0), _, _. repeat split; try (vm_compute; reflexivity). vm_compute. discriminate.
  - eexists _, (1, 0), _, _. repeat split; try (vm_compute; reflexivity). vm_compute. discriminate.
  - eexists. repeat split; [vm_compute; reflexivity ..|]. intros (x, y). reflexivity.
Qed.

(** ** Masking the couple: at most once *)
Fixpoint apply_all {A} (c : couple A) (l : list (option mask)) : list (result unit) * couple A :=
  match l with
  | [] => ([], c)
  | m :: l' =>
    let '(r, c') := apply_mask c m in
    let '(rs, c'') := apply_all c' l' in (r :: rs, c'')
  end.

Lemma mask_eqb_eq a b : mask_eqb a b = true <-> a = b.
Proof.
  destruct a as [[s|]], b as [[t|]]; cbn; unfold chars_eqb; try (split; congruence).
  destruct (list_eq_dec Ascii.ascii_dec s t) as [->|Hn]; split; congruence.
Qed.

(** C53: whatever the history of calls of [apply_mask] (even with calls refused because of
    another mask), as long as no call failed while cropping, the arrays are the original images
    cropped once, with the mask kept in the couple; the original shape is kept; a mask which is
    set cannot be changed. *)
Theorem C53_apply_once : forall A (a b : image A) m0 c0 calls rs c,
  make_couple m0 a b = Ok c0 -> apply_all c0 calls = (rs, c) ->
  Forall (fun r => r = Ok tt \/ r = Err NotImplementedError) rs ->
  (exists a' b', mask_array (params_mask c) a = Ok a' /\ mask_array (params_mask c) b = Ok b' /\
                 arrays c = [a'; b']) /\
  shape_images c = shape a /\
  (forall m, m0 = Some m -> params_mask c = Some m) /\
  (forall k m, nth_error calls k = Some (Some m) -> nth_error rs k = Some (Ok tt) -> params_mask c = Some m).
Proof.
  intros A a b m0 c0 calls rs c H0 Hrun Hok.
  assert (Hinit : map_result (mask_array m0) [a; b] = Ok (arrays c0) /\ params_mask c0 = m0 /\ shape_images c0 = shape a).
  { unfold make_couple in H0. destruct (map_result (mask_array m0) [a; b]) as [l|]; [|discriminate]. cbn [bind] in H0.
    injection H0 as <-. auto. }
  clear H0. destruct Hinit as (Ha & Hm & Hsh).
  (* no mask: the arrays are the original ones *)
  assert (Hnone : forall l : list (image A), map_result (mask_array None) l = Ok l).
  { intros l. induction l as [|x l IH]; [reflexivity|]. cbn [map_result mask_array bind]. rewrite IH. reflexivity. }
  assert (Hgen : map_result (mask_array (params_mask c)) [a; b] = Ok (arrays c) /\ shape_images c = shape a /\
            (forall m, params_mask c0 = Some m -> params_mask c = Some m) /\
            (forall k m, nth_error calls k = Some (Some m) -> nth_error rs k = Some (Ok tt) -> params_mask c = Some m)).
  { assert (Ha' : map_result (mask_array (params_mask c0)) [a; b] = Ok (arrays c0)) by (rewrite Hm; exact Ha).
    clear Ha Hm m0. revert c0 rs Ha' Hsh Hrun Hok. induction calls as [|m l IH]; intros c0 rs Ha' Hsh Hrun Hok.
    - cbn in Hrun. injection Hrun as <- <-. split; [exact Ha'|]. split; [exact Hsh|]. split; [auto|]. intros [|k] m; discriminate.
    - cbn [apply_all] in Hrun. destruct (apply_mask c0 m) as (r, c1) eqn:E1. destruct (apply_all c1 l) as (rs1, c2) eqn:E2.
      injection Hrun as <- <-. inversion Hok as [|? ? Hr Hrs]; subst.
      unfold apply_mask in E1. destruct (params_mask c0) as [m0|] eqn:Em0.
      + assert (Hc1 : c1 = c0 /\ (forall m', m = Some m' -> r = Ok tt -> m' = m0)).
        { destruct m as [m1|].
          - destruct (mask_eqb m1 m0) eqn:Eq; injection E1 as <- <-; (split; [reflexivity|]); intros m' [= <-] Hx; [|discriminate].
            apply mask_eqb_eq. exact Eq.
          - injection E1 as <- <-. split; [reflexivity|]. discriminate. }
        destruct Hc1 as (-> & Hsame). rewrite <- Em0 in Ha'.
        destruct (IH c0 rs1 Ha' Hsh E2 Hrs) as (G1 & G2 & G3 & G4). split; [exact G1|]. split; [exact G2|].
        rewrite Em0 in G3. split; [exact G3|]. intros [|k] m' Hk Hr'; [|apply (G4 k); assumption].
        cbn in Hk, Hr'. injection Hk as ->. injection Hr' as ->. rewrite (Hsame m' eq_refl eq_refl). apply G3. reflexivity.
      + rewrite Hnone in Ha'. injection Ha' as Harr.
        destruct (map_result (mask_array m) (arrays c0)) as [larr|e] eqn:Em.
        * injection E1 as <- <-.
          destruct (IH (mk_couple m (shape_images c0) larr) rs1) as (G1 & G2 & G3 & G4);
            [cbn [params_mask arrays]; rewrite Harr; exact Em|exact Hsh|exact E2|exact Hrs|].
          cbn [params_mask] in G3. split; [exact G1|]. split; [exact G2|]. split; [discriminate|].
          intros [|k] m' Hk Hr'; [|apply (G4 k); assumption]. cbn in Hk. injection Hk as ->. apply G3. reflexivity.
        * injection E1 as <- <-. exfalso. destruct Hr as [?|Hr]; [discriminate|]. injection Hr as ->.
          (* cropping never raises NotImplementedError *)
          revert Em. generalize (arrays c0). intros la Em.
          assert (Hpy : forall (s : chars), py_int s <> Err NotImplementedError)
            by (intros s; unfold py_int; destruct (DecimalString.NilZero.int_of_string _); discriminate).
          assert (Hmr : forall X Y (f : X -> result Y) lx, (forall x, f x <> Err NotImplementedError) -> map_result f lx <> Err NotImplementedError).
          { intros X Y f lx Hf. induction lx as [|x lx IHx]; [discriminate|]. cbn [map_result].
            destruct (f x) eqn:Ef; [|intros [= ->]; exact (Hf x Ef)]. cbn [bind].
            destruct (map_result f lx); [discriminate|]. cbn [bind]. intros [= ->]. apply IHx. reflexivity. }
          assert (Hts : forall X s (lx : list X), take_slice s lx <> Err NotImplementedError).
          { intros X s lx. unfold take_slice, slice_range. destruct (_ =? 0); [discriminate|]. cbv zeta. cbn [bind].
            apply Hmr. intros x. unfold py_get. cbv zeta. destruct (_ && _); [destruct (nth_error _ _); discriminate|discriminate]. }
          revert Em. apply Hmr. intros im. unfold mask_array. destruct m as [m|]; [|discriminate].
          destruct (strcrop m) as [s|]; [|discriminate].
          assert (Hgs : get_slices s <> Err NotImplementedError).
          { unfold get_slices. apply Hmr. intros part.
            destruct (map_result slice_field _) eqn:Ef; cbn [bind].
            - unfold make_slice. destruct a0 as [|? [|? [|? [|]]]]; discriminate.
            - intros [= ->]. revert Ef. apply Hmr. intros f. unfold slice_field. destruct f; [discriminate|].
              destruct (py_int _) eqn:Ei; cbn [bind]; [discriminate|]. intros [= ->]. exact (Hpy _ Ei). }
          destruct (get_slices s) as [sl|]; cbn [bind]; [|congruence].
          unfold crop. destruct sl as [|s0 [|s1 [|]]]; try discriminate; [apply Hts|].
          destruct (take_slice s0 im) eqn:Et; cbn [bind]; [apply Hmr; intros; apply Hts|]. intros [= ->]. exact (Hts _ _ _ Et). }
  destruct Hgen as (G1 & G2 & G3 & G4). split.
  - cbn [map_result] in G1. destruct (mask_array (params_mask c) a) as [a'|]; [|discriminate].
    destruct (mask_array (params_mask c) b) as [b'|]; [|discriminate]. cbn [bind] in G1. injection G1 as <-.
    exists a', b'. auto.
  - split; [exact G2|]. split; [|exact G4]. intros m E. apply G3. congruence.
Qed.

(** The hypothesis on the calls is needed: after a call which failed while cropping (here a
    text which is not a crop), the same call is accepted and the arrays are not cropped. *)
Theorem C53_failed_mask_refuted : exists (a b : image Z) c0 rs c m,
  make_couple None a b = Ok c0 /\ apply_all c0 [Some m; Some m] = (rs, c) /\
  rs = [Err ValueError; Ok tt] /\ params_mask c = Some m /\ arrays c = [a; b].
Proof.
  exists [[1;2]], [[3;4]], (mk_couple None (1, 2) [[[1;2]]; [[3;4]]]), [Err ValueError; Ok tt],
    (mk_couple (Some (mk_mask (Some (of_string "100:a, :")))) (1, 2) [[[1;2]]; [[3;4]]]), (mk_mask (Some (of_string "100:a, :"))).
  repeat split.
Qed.

(** ** Concrete cases *)
Lemma ex_im_positions : is_position_image ex_im 4 5.
Proof.
  split; [lia|]. split; [lia|]. split; [reflexivity|]. split; [repeat constructor|].
  intros x y p H. unfold pixel in H.
  destruct (nthz ex_im y) as [l|] eqn:Ey; [|discriminate].
  pose proof (nthz_some _ _ _ Ey) as By. change (zlen ex_im) with 4 in By.
  assert (Hy : y = 0 \/ y = 1 \/ y = 2 \/ y = 3) by lia.
  destruct Hy as [->|[->|[->| ->]]]; vm_compute in Ey; injection Ey as <-;
    pose proof (nthz_some _ _ _ H) as Bx; unfold zlen in Bx; cbn [List.length] in Bx;
    (assert (Hx : x = 0 \/ x = 1 \/ x = 2 \/ x = 3 \/ x = 4) by lia);
    destruct Hx as [->|[->|[->|[->| ->]]]]; vm_compute in H; injection H as <-; reflexivity.
Qed.

Example C53_ex : crop_text (Some 1) (Some 3) (Some 2) None = of_string "1:3, 2:" /\
  mask_array (Some (mk_mask (Some (of_string "1:3, 2:")))) ex_im
  = Ok [[(2, 1); (3, 1); (4, 1)]; [(2, 2); (3, 2); (4, 2)]] /\
  original_from_masked (mk_mask (Some (of_string "1:3, 2:"))) (1, 1) = Ok (3, 2).
Proof. vm_compute. repeat split. Qed.

Example C53_apply_ex : exists c0 c, make_couple None ex_im ex_im = Ok c0 /\
  apply_all c0 [Some (mk_mask (Some (of_string "1:3, 2:"))); None; Some (mk_mask (Some (of_string "1:3, 2:"))); Some (mk_mask None)]
  = ([Ok tt; Err NotImplementedError; Ok tt; Err NotImplementedError], c) /\
  arrays c = let r := [[(2, 1); (3, 1); (4, 1)]; [(2, 2); (3, 2); (4, 2)]] in [r; r].
Proof. eexists _, _. vm_compute. repeat split. Qed.

Print Assumptions C53_parse.
Print Assumptions C53_round_trip.
Print Assumptions C53_crop_partial.
Print Assumptions C53_positions_iff.
Print Assumptions C53_positions_refuted.
Print Assumptions C53_apply_once.
Print Assumptions C53_failed_mask_refuted.

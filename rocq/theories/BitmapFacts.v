(** Assembly of the bitmap properties from the lemmas. *)
From Verif Require Import Base BaseFacts BitFacts ScreenModel ScreenSpec ScreenProofs BitmapModel
  DisplaySpec BitmapSpec BitmapProofs BitmapApply BitmapState ColourModel ColourProofs DotsProofs.

Lemma reachable_ok bm : reachable bm -> bm_ok bm.
Proof.
  induction 1 as [main H1 H2|main aux H1 H2 H3 H4|bm p o a v bm' R IH G E].
  - apply hgr_new_ok; auto.
  - apply dhgr_new_ok; auto.
  - destruct (apply_ok bm p o a v IH G) as (bm2 & E2 & I2 & _). congruence.
Qed.

Lemma store_never_raises bm p o a v : reachable bm -> good_store (bm_kind bm) (p, o, a, v) ->
  exists bm', apply bm p o a v = Ok bm' /\ reachable bm'.
Proof.
  intros R G. destruct (apply_ok bm p o a v (reachable_ok bm R) G) as (bm' & E & _).
  exists bm'. split; auto. eapply reach_apply; eauto.
Qed.

Lemma packed_is_dots bm p c : reachable bm -> bm_kind bm = DHGR ->
  0 <= p < 32 -> 0 <= c < 128 ->
  0 <= bm_packed bm p c < 2 ^ 34 /\
  forall i, 0 <= i < 34 -> Z.testbit (bm_packed bm p c) i =
    dhgr_dot (aux_data (bm_aux bm) p) (mm_data (bm_main bm) p) (28 * c - 3 + i).
Proof.
  intros R K Hp Hc. pose proof (ok_rows bm (reachable_ok bm R) p Hp c Hc) as [B H].
  rewrite K in *. split; [exact B|]. intros i Hi. apply H. exact Hi.
Qed.

Lemma masked_is_dots_HGR bm p off : reachable bm -> bm_kind bm = HGR ->
  0 <= p < 32 -> 0 <= off < 256 ->
  exists o mv d, byte_offset HGR off false = Ok o /\
    mask_and_shift_data HGR (bm_packed bm p (off / 2)) o = Ok mv /\ to_dots HGR mv o = Ok d /\
    0 <= d < 2 ^ 21 /\
    forall i, 0 <= i < 21 -> Z.testbit d i = hgr_dot (mm_data (bm_main bm) p) (14 * off - 3 + i).
Proof.
  intros R K Hp Ho. pose proof (ok_rows bm (reachable_ok bm R) p Hp) as HR. rewrite K in HR.
  destruct (hgr_masked_to_dots _ _ _ off Ho HR) as (d & E & Bd & Hd).
  exists (bo HGR off false), (mask_and_shift HGR (bm_packed bm p (off / 2)) (bo HGR off false)), d.
  assert (BK : bank_ok HGR false) by (right; reflexivity).
  split; [apply byte_offset_bo; auto|]. split; [apply mask_assertion, valid_bo; auto|]. auto.
Qed.

Lemma packed_is_repack bm p c : reachable bm -> 0 <= p < 32 -> 0 <= c < 128 ->
  bm_packed bm p c = pack (bm_kind bm) (mm_data (bm_main bm)) (aux_data (bm_aux bm)) p c.
Proof.
  intros R Hp Hc. pose proof (reachable_ok bm R) as I.
  eapply word_ok_unique; [apply (ok_rows bm I p Hp c Hc)|].
  apply pack_word; auto. intros o Ho. apply (ok_main_bytes bm I); auto.
Qed.

Lemma incremental_HGR bm p c : reachable bm -> bm_kind bm = HGR -> 0 <= p < 32 -> 0 <= c < 128 ->
  bm_packed bm p c = bm_packed (hgr_new (bm_main bm)) p c.
Proof.
  intros R K Hp Hc. rewrite packed_is_repack by auto. rewrite K. reflexivity.
Qed.

Lemma incremental_DHGR bm aux p c : reachable bm -> bm_kind bm = DHGR -> bm_aux bm = Some aux ->
  0 <= p < 32 -> 0 <= c < 128 ->
  bm_packed bm p c = bm_packed (dhgr_new (bm_main bm) aux) p c.
Proof.
  intros R K A Hp Hc. rewrite packed_is_repack by auto. rewrite K, A. reflexivity.
Qed.

Lemma store_frame bm p o a v : reachable bm -> good_store (bm_kind bm) (p, o, a, v) ->
  exists bm', apply bm p o a v = Ok bm' /\ bm_kind bm' = bm_kind bm /\
    (forall p' o', mm_data (bm_main bm') p' o' =
       if negb a && (p' =? p) && (o' =? o) then v else mm_data (bm_main bm) p' o') /\
    (forall p' o', aux_data (bm_aux bm') p' o' =
       if a && (p' =? p) && (o' =? o) then v else aux_data (bm_aux bm) p' o') /\
    exists nb, (nb = o / 2 - 1 \/ nb = o / 2 + 1) /\
      forall p' c', p' <> p \/ (c' <> o / 2 /\ c' <> nb) -> bm_packed bm' p' c' = bm_packed bm p' c'.
Proof.
  intros R G. destruct (apply_ok bm p o a v (reachable_ok bm R) G) as (bm' & E & _ & K & M & A & P).
  exists bm'. split; auto. split; auto. rewrite M, A. split; [|split].
  - intros p' o'. destruct a; cbn [negb andb]; [reflexivity|]. unfold upd2. reflexivity.
  - intros p' o'. destruct a; cbn [andb]; [unfold upd2; reflexivity|reflexivity].
  - exists (if bo (bm_kind bm) o a =? 0 then o / 2 - 1 else o / 2 + 1). split.
    + destruct (bo (bm_kind bm) o a =? 0); auto.
    + intros p' c' H. rewrite P. destruct (Z.eqb_spec p' p) as [->|]; auto.
      destruct H as [H|[H1 H2]]; [contradiction|]. unfold store_row.
      destruct (bo (bm_kind bm) o a =? 0) eqn:E0.
      * destruct (0 <? o / 2); cbn [andb].
        -- rewrite !upd1_other by auto. reflexivity.
        -- destruct (Z.eqb_spec (bo (bm_kind bm) o a) (SCREEN_BYTES (bm_kind bm) - 1)) as [E1|].
           ++ exfalso. destruct (bm_kind bm); kc; lia.
           ++ cbn [andb]. apply upd1_other; auto.
      * cbn [andb]. destruct ((bo (bm_kind bm) o a =? SCREEN_BYTES (bm_kind bm) - 1) && (o / 2 <? 127)).
        -- rewrite !upd1_other by auto. reflexivity.
        -- apply upd1_other; auto.
Qed.

(** C10 *)
Lemma what_if ed bm page content dw is_aux off bm' :
  reachable bm -> 0 <= page < 32 -> 0 <= off < 256 -> (bm_kind bm = DHGR \/ is_aux = false) -> is_byte content ->
  apply bm page off is_aux content = Ok bm' ->
  exists delta dist, compute_delta_page ed bm page content dw is_aux = Ok delta /\
    diff_weights ed bm bm' is_aux = Ok dist /\
    delta off = dist page off - dw off.
Proof.
  intros R Hp Ho Hk Hv E.
  assert (G : good_store (bm_kind bm) (page, off, is_aux, content)) by (repeat split; auto; try lia; apply Hv).
  destruct (apply_ok bm page off is_aux content (reachable_ok bm R) G) as (b2 & E2 & _ & K & _ & _ & P).
  assert (b2 = bm') by congruence. subst b2.
  destruct (byte_offsets_bo (bm_kind bm) off is_aux Hk) as (o0 & o1 & Eo & Sel).
  unfold compute_delta_page, diff_weights_page, diff_weights.
  rewrite Eo. cbn [rbind]. eexists. eexists. split; [reflexivity|]. split; [reflexivity|].
  cbv beta zeta. rewrite Sel. f_equal. f_equal. f_equal.
  assert (V : valid_o (bm_kind bm) (bo (bm_kind bm) off is_aux)) by (apply valid_bo; auto).
  rewrite fix_array_same_masked by (auto; clear - Ho; dlia).
  rewrite P, Z.eqb_refl. rewrite store_row_here by auto. reflexivity.
Qed.

Lemma byte_pair_difference_is_distance ed bm page content is_aux off bm' o :
  reachable bm -> 0 <= page < 32 -> 0 <= off < 256 -> (bm_kind bm = DHGR \/ is_aux = false) -> is_byte content ->
  apply bm page off is_aux content = Ok bm' ->
  byte_offset (bm_kind bm) off is_aux = Ok o ->
  exists r dist, byte_pair_difference (bm_kind bm) ed o (bm_packed bm page (off / 2)) content = Ok r /\
    diff_weights ed bm' bm is_aux = Ok dist /\ r = dist page off.
Proof.
  intros R Hp Ho Hk Hv E Eo'.
  assert (G : good_store (bm_kind bm) (page, off, is_aux, content)) by (repeat split; auto; try lia; apply Hv).
  destruct (apply_ok bm page off is_aux content (reachable_ok bm R) G) as (b2 & E2 & _ & K & _ & _ & P).
  assert (b2 = bm') by congruence. subst b2.
  rewrite byte_offset_bo in Eo' by auto. injection Eo' as <-.
  destruct (byte_offsets_bo (bm_kind bm) off is_aux Hk) as (o0 & o1 & Eo & Sel).
  assert (V : valid_o (bm_kind bm) (bo (bm_kind bm) off is_aux)) by (apply valid_bo; auto).
  unfold byte_pair_difference. rewrite !mask_assertion by auto. cbn [rbind].
  unfold diff_weights. rewrite K, Eo. cbn [rbind]. eexists. eexists. split; [reflexivity|].
  split; [reflexivity|]. cbv beta zeta. rewrite Sel, P, Z.eqb_refl, store_row_here by auto. reflexivity.
Qed.

(** C12 *)
Lemma window_is_screen bm p off is_aux o : reachable bm -> 0 <= p < 32 -> 0 <= off < 256 ->
  (bm_kind bm = DHGR \/ is_aux = false) ->
  byte_offset (bm_kind bm) off is_aux = Ok o ->
  forall value, value = hgr_value \/ value = dhgr_value ->
  window_pixels (bm_kind bm) value (mask_and_shift (bm_kind bm) (bm_packed bm p (off / 2)) o) o =
  Ok (map (fun i => pixel_colour (row_dot (bm_kind bm) (mm_data (bm_main bm) p) (aux_data (bm_aux bm) p))
                      (window_start (bm_kind bm) off is_aux + i)) (zrange (MASKED_DOTS (bm_kind bm)))).
Proof.
  intros R Hp Ho Hk E value Hval. rewrite byte_offset_bo in E by auto. injection E as <-.
  apply window_pixels_spec; auto.
  - destruct Hval as [-> | ->]; [apply hgr_enum | apply dhgr_enum].
  - apply (ok_rows bm (reachable_ok bm R)); auto.
Qed.

Lemma row_dot_ext k main aux main' aux' d :
  (forall j, main j = main' j) -> (forall j, aux j = aux' j) ->
  row_dot k main aux d = row_dot k main' aux' d.
Proof.
  intros Hm Ha. destruct k; cbn [row_dot].
  - unfold hgr_dot. rewrite !(clip_ext main main') by auto. reflexivity.
  - unfold dhgr_dot. destruct (Z.even (d / 7));
     [rewrite (clip_ext aux aux') by auto | rewrite (clip_ext main main') by auto]; reflexivity.
Qed.

Lemma store_outside_window bm p off is_aux v bm' : reachable bm ->
  good_store (bm_kind bm) (p, off, is_aux, v) -> apply bm p off is_aux v = Ok bm' ->
  forall p' d, 0 <= p' < 32 ->
  p' <> p \/ ~ (window_start (bm_kind bm) off is_aux <= d < window_start (bm_kind bm) off is_aux + MASKED_DOTS (bm_kind bm)) ->
  pixel_colour (row_dot (bm_kind bm) (mm_data (bm_main bm') p') (aux_data (bm_aux bm') p')) d =
  pixel_colour (row_dot (bm_kind bm) (mm_data (bm_main bm) p') (aux_data (bm_aux bm) p')) d.
Proof.
  intros R G E p' d Hp' H.
  destruct (store_frame bm p off is_aux v R G) as (b2 & E2 & _ & M & A & _).
  assert (b2 = bm') by congruence. subst b2.
  destruct G as (Hp & Ho & Hk & Hv).
  destruct (Z.eq_dec p' p) as [->|Hne].
  - destruct H as [H|H]; [contradiction|].
    pose proof (store_pixels_local (bm_kind bm) (mm_data (bm_main bm) p) (aux_data (bm_aux bm) p) off is_aux v d Ho Hk H) as L.
    destruct is_aux; cbn [set_rows] in L; rewrite <- L; apply pixel_colour_local; intros t Ht;
    apply row_dot_ext; intros j; rewrite ?M, ?A, ?Z.eqb_refl; cbn [negb andb]; try reflexivity; unfold upd1; reflexivity.
  - apply pixel_colour_local; intros t Ht; apply row_dot_ext; intros j; rewrite ?M, ?A;
    destruct (Z.eqb_spec p' p); try contradiction; rewrite ?andb_false_r; cbn [andb]; try reflexivity;
    destruct is_aux; reflexivity.
Qed.

(** C14 *)
Lemma interior_neighbours p off x y : visible_xy x y -> hires_offset x y = 256 * p + off ->
  in_page p off -> 0 < x < 39 ->
  hires_offset (x - 1) y = 256 * p + (off - 1) /\ hires_offset (x + 1) y = 256 * p + (off + 1) /\
  visible_xy (x - 1) y /\ visible_xy (x + 1) y /\ in_page p (off - 1) /\ in_page p (off + 1).
Proof.
  intros Hv E Hp Hx. unfold visible_xy in *.
  assert (E1 : hires_offset (x - 1) y = hires_offset x y - 1) by (unfold hires_offset; lia).
  assert (E2 : hires_offset (x + 1) y = hires_offset x y + 1) by (unfold hires_offset; lia).
  pose proof (hires_offset_mod128 x y ltac:(unfold visible_xy; lia)) as M.
  pose proof (hires_offset_low x y ltac:(unfold visible_xy; lia)) as L.
  assert (0 < off < 255).
  { unfold in_page in Hp. assert (Q : (256 * p + off) mod 128 = y / 64 * 40 + x) by (rewrite <- E; exact M).
    replace (256 * p + off) with (off + (2 * p) * 128) in Q by ring. rewrite Z.mod_add in Q by lia.
    assert (0 <= y / 64 <= 2) by (clear - Hv; dlia).
    clear - Hp Q H Hx. assert (1 <= off mod 128 <= 118) by lia. clear Q H Hx. dlia. }
  unfold in_page in *. lia.
Qed.

(** a store at one offset leaves the window of any non-adjacent byte alone *)
Lemma window_context bm p off is_aux v bm' off' is_aux' o' :
  reachable bm -> good_store (bm_kind bm) (p, off, is_aux, v) -> apply bm p off is_aux v = Ok bm' ->
  0 <= off' < 256 -> (bm_kind bm = DHGR \/ is_aux' = false) ->
  byte_offset (bm_kind bm) off' is_aux' = Ok o' ->
  off' < off - 1 \/ off + 1 < off' ->
  mask_and_shift (bm_kind bm) (bm_packed bm' p (off' / 2)) o' =
  mask_and_shift (bm_kind bm) (bm_packed bm p (off' / 2)) o'.
Proof.
  intros R G E Ho' Hk' Eo Hfar.
  destruct (apply_ok bm p off is_aux v (reachable_ok bm R) G) as (b2 & E2 & I2 & K & M & A & P).
  assert (b2 = bm') by congruence. subst b2.
  destruct G as (Hp & Ho & Hk & Hv).
  rewrite byte_offset_bo in Eo by auto. injection Eo as <-.
  pose proof (ok_rows bm (reachable_ok bm R) p Hp) as R1.
  pose proof (ok_rows bm' I2 p Hp) as R2. rewrite K in R2.
  assert (V : valid_o (bm_kind bm) (bo (bm_kind bm) off' is_aux')) by (apply valid_bo; auto).
  apply (bits_eq (MASKED_BITS (bm_kind bm))); auto using masked_bound; [unfold MASKED_BITS; destruct (bm_kind bm); lia|].
  intros i Hi.
  assert (Cm : forall j, j <> off -> clip_row (mm_data (bm_main bm') p) j = clip_row (mm_data (bm_main bm) p) j).
  { intros j Hj. rewrite M. destruct is_aux; auto. unfold clip_row, upd2. rewrite Z.eqb_refl.
    destruct (Z.eqb_spec j off); [contradiction|reflexivity]. }
  assert (Ca : forall j, j <> off -> clip_row (aux_data (bm_aux bm') p) j = clip_row (aux_data (bm_aux bm) p) j).
  { intros j Hj. rewrite A. destruct is_aux; auto. unfold clip_row, upd2. rewrite Z.eqb_refl.
    destruct (Z.eqb_spec j off); [contradiction|reflexivity]. }
  destruct (bm_kind bm) eqn:KK.
  - destruct Hk' as [Hk'| ->]; [discriminate|]. unfold bo in *.
    change (MASKED_BITS HGR) with 14 in *.
    rewrite (hgr_masked_bits _ _ _ off' i Ho' R1 Hi), (hgr_masked_bits _ _ _ off' i Ho' R2 Hi).
    rewrite !Cm by lia. reflexivity.
  - change (MASKED_BITS DHGR) with 13 in *.
    rewrite (dhgr_masked_dots _ _ _ off' is_aux' i Ho' R1 Hi), (dhgr_masked_dots _ _ _ off' is_aux' i Ho' R2 Hi).
    unfold dhgr_dot.
    assert (Hb : off' - 1 <= (7 * (2 * off' + (if is_aux' then 0 else 1)) - 3 + i) / 7 / 2 <= off' + 1).
    { clear - Hi. destruct is_aux'; dlia. }
    remember ((7 * (2 * off' + (if is_aux' then 0 else 1)) - 3 + i) / 7 / 2) as j.
    destruct (Z.even ((7 * (2 * off' + (if is_aux' then 0 else 1)) - 3 + i) / 7)).
    + rewrite Ca by lia. reflexivity.
    + rewrite Cm by lia. reflexivity.
Qed.

Lemma colours_spec_enum value num dots phase dot d :
  value = hgr_value \/ value = dhgr_value ->
  0 <= num -> 0 <= phase < 4 -> phase = d mod 4 ->
  (forall t, 0 <= t < num + 3 -> Z.testbit dots t = dot (d + t)) ->
  exists l, dots_to_nominal_colour_pixels num dots value phase = Ok l /\
    map value l = map (fun i => pixel_colour dot (d + i)) (zrange num).
Proof.
  intros V. apply colours_spec. destruct V as [-> | ->]; [apply hgr_enum | apply dhgr_enum].
Qed.

Lemma pixel_colour_bits dot d e : d <= e < d + 4 ->
  Z.testbit (pixel_colour dot d) (e mod 4) = dot e.
Proof.
  intros He. unfold pixel_colour.
  assert (P : d + (e mod 4 - d) mod 4 = e).
  { rewrite Zminus_mod_idemp_l. rewrite (Z.mod_small (e - d)) by lia. lia. }
  rewrite <- P at 2.
  pose proof (Z.mod_pos_bound e 4 ltac:(lia)) as B.
  set (j := e mod 4) in *. clearbody j.
  assert (j = 0 \/ j = 1 \/ j = 2 \/ j = 3) as [-> | [-> | [-> | ->]]] by lia;
  destruct (dot (d + (0 - d) mod 4)), (dot (d + (1 - d) mod 4)), (dot (d + (2 - d) mod 4)), (dot (d + (3 - d) mod 4));
  reflexivity.
Qed.

Lemma rotations_inverse x n : 0 <= x < 16 ->
  ror (rol x n) n = x /\ rol (ror x n) n = x /\ 0 <= rol x n < 16 /\ 0 <= ror x n < 16.
Proof.
  intros H. destruct (ror_rol x n H). repeat split; auto; try (apply rol_nib; auto); apply ror_nib; auto.
Qed.

Lemma map_const_repeat {A B} (f : A -> B) c (l : list A) :
  (forall a, In a l -> f a = c) -> map f l = repeat c (length l).
Proof.
  induction l as [|a l IH]; intros H; cbn; auto. rewrite H by (left; auto).
  rewrite IH; auto. intros b Hb; apply H; right; auto.
Qed.

Lemma uniform_run value num dots phase :
  value = hgr_value \/ value = dhgr_value ->
  0 <= num -> 0 <= phase < 4 ->
  (forall t, 0 <= t < num - 1 -> Z.testbit dots t = Z.testbit dots (t + 4)) ->
  exists l c, dots_to_nominal_colour_pixels num dots value phase = Ok l /\
    map value l = repeat c (Z.to_nat num).
Proof.
  intros V Hn Hp Hper.
  set (dot := fun e : Z => Z.testbit dots ((e - phase) mod 4)).
  assert (Hd : forall t, 0 <= t < num + 3 -> Z.testbit dots t = dot (phase + t)).
  { intros t. unfold dot. replace (phase + t - phase) with t by lia.
    intros Ht. rewrite <- (Z2Nat.id t) in * by lia. generalize dependent (Z.to_nat t). intros m.
    induction m as [m IH] using (well_founded_induction lt_wf). intros Hm.
    destruct (Z_lt_le_dec (Z.of_nat m) 4) as [L|L].
    - rewrite Z.mod_small by lia. reflexivity.
    - specialize (IH (m - 4)%nat ltac:(lia) ltac:(lia)).
      replace (Z.of_nat (m - 4)) with (Z.of_nat m - 4) in IH by lia.
      rewrite Hper in IH by lia. replace (Z.of_nat m - 4 + 4) with (Z.of_nat m) in IH by lia.
      rewrite IH. f_equal. replace (Z.of_nat m - 4) with (Z.of_nat m + (-1) * 4) by lia.
      apply Z.mod_add; lia. }
  destruct (colours_spec_enum value num dots phase dot phase V Hn Hp) as (l & E & M).
  - symmetry; apply Z.mod_small; lia.
  - exact Hd.
  - exists l, (pixel_colour dot 0). split; auto. rewrite M.
    rewrite (map_const_repeat _ (pixel_colour dot 0)).
    + unfold zrange. rewrite zrange_from_length. reflexivity.
    + intros a _. apply pixel_colour_periodic. intros n. unfold dot.
      f_equal. replace (n + 4 - phase) with (n - phase + 1 * 4) by lia. apply Z.mod_add; lia.
Qed.

Definition zero_map : memory_map := {| mm_page := 1; mm_data := fun _ _ => 0 |}.

Lemma context_refuted :
  exists bm bm' p off off' y y' x x', reachable bm /\ bm_kind bm = HGR /\
    apply bm p off false 0x7f = Ok bm' /\
    visible_xy x y /\ hires_offset x y = 256 * p + off /\
    visible_xy x' y' /\ hires_offset x' y' = 256 * p + off' /\ y <> y' /\
    mask_and_shift HGR (bm_packed bm' p (off' / 2)) (off' mod 2) <>
    mask_and_shift HGR (bm_packed bm p (off' / 2)) (off' mod 2).
Proof.
  exists (hgr_new zero_map). eexists. exists 0, 39, 40, 0, 64, 39, 0.
  split. { apply reach_hgr; [reflexivity|]. intros p o _ _. cbn. unfold is_byte. lia. }
  split; [reflexivity|]. split; [vm_compute; reflexivity|].
  repeat split; try reflexivity; try (unfold visible_xy; lia); vm_compute; discriminate.
Qed.

(** Stores: incremental update of the packed words. *)
From Verif Require Import Base BaseFacts BitFacts ScreenModel BitmapModel DisplaySpec BitmapProofs.

Lemma testbit_u64_not x i : 0 <= i < 64 -> Z.testbit (u64_not x) i = negb (Z.testbit x i).
Proof.
  intros Hi. unfold u64_not. rewrite Z.lxor_spec, testbit_ones by lia.
  destruct (Z.ltb_spec i 64); [|lia]. apply xorb_true_r.
Qed.

Lemma splice_bit old v w s i : 0 <= w -> 0 <= s -> 0 <= i < 64 -> 0 <= v < 2 ^ w ->
  Z.testbit (Z.lxor (Z.land old (u64_not (Z.shiftl (2 ^ w - 1) s))) (Z.shiftl v s)) i
  = if (s <=? i) && (i <? s + w) then Z.testbit v (i - s) else Z.testbit old i.
Proof.
  intros Hw Hs Hi Hv.
  rewrite Z.lxor_spec, Z.land_spec, testbit_u64_not, testbit_mask, Z.shiftl_spec by lia.
  bcase; [rewrite andb_false_r; apply xorb_false_l|..].
  all: rewrite andb_true_r; first [rewrite (testbit_high w v) by lia | rewrite (Z.testbit_neg_r v) by lia];
    apply xorb_false_r.
Qed.

Lemma splice_bound old v w s n : 0 <= w -> 0 <= s -> s + w <= n -> n <= 64 ->
  0 <= v < 2 ^ w -> 0 <= old < 2 ^ n ->
  0 <= Z.lxor (Z.land old (u64_not (Z.shiftl (2 ^ w - 1) s))) (Z.shiftl v s) < 2 ^ n.
Proof.
  intros. apply lxor_bound; [lia| |].
  - apply land_bound_l; auto; lia.
  - apply bound_weaken with (w + s); [lia|]. apply shiftl_bound; auto.
Qed.

Definition hgr_shuffle (v : Z) : Z :=
  Z.lxor (Z.shiftl (Z.land v 0x7f) 1) (Z.shiftr (Z.land v 0x80) 7).

Lemma hgr_shuffle_bit v i : 0 <= i ->
  Z.testbit (hgr_shuffle v) i = if i =? 0 then Z.testbit v 7 else (i <? 8) && Z.testbit v (i - 1).
Proof.
  intros Hi. unfold hgr_shuffle. rewrite Z.lxor_spec, Z.shiftl_spec, Z.shiftr_spec by auto.
  change 0x80 with (Z.shiftl (2 ^ 1 - 1) 7). rewrite testbit_land_shiftl_mask by lia.
  destruct (Z.eqb_spec i 0) as [->|].
  - rewrite Z.testbit_neg_r by lia. cbn. apply xorb_false_l.
  - rewrite testbit_land7f by lia. bcase; rewrite ?xorb_false_r; reflexivity.
Qed.

Lemma hgr_shuffle_bound v : 0 <= hgr_shuffle v < 2 ^ 8.
Proof.
  apply bound_of_bits; [lia| |].
  - unfold hgr_shuffle. apply Z.lxor_nonneg. rewrite Z.shiftl_nonneg, Z.shiftr_nonneg, !Z.land_nonneg. lia.
  - intros i Hi. rewrite hgr_shuffle_bit by lia. bcase; reflexivity.
Qed.

Lemma masked_update_bit_DHGR o w v i : 0 <= o < 4 -> 0 <= i < 64 ->
  Z.testbit (masked_update DHGR o w v) i =
    if (7 * o + 3 <=? i) && (i <? 7 * o + 10) then Z.testbit v (i - (7 * o + 3)) else Z.testbit w i.
Proof.
  intros Ho Hi. unfold masked_update. change 127 with (2 ^ 7 - 1) at 1.
  rewrite splice_bit by (auto using land7f_bound; lia).
  replace (7 * o + 3 + 7) with (7 * o + 10) by lia.
  destruct ((7 * o + 3 <=? i) && (i <? 7 * o + 10)) eqn:E; auto.
  rewrite testbit_land7f by lia. bcase; reflexivity.
Qed.

Lemma masked_update_bit_HGR o w v i : o = 0 \/ o = 1 -> is_byte v -> 0 <= i < 64 ->
  Z.testbit (masked_update HGR o w v) i =
    if o =? 0 then (if (3 <=? i) && (i <? 11) then Z.testbit v (i - 3) else Z.testbit w i)
    else if i =? 11 then Z.testbit v 7
    else if (12 <=? i) && (i <? 19) then Z.testbit v (i - 12) else Z.testbit w i.
Proof.
  intros Ho Hv Hi. unfold masked_update. change 255 with (2 ^ 8 - 1).
  destruct Ho as [-> | ->]; cbn [Z.eqb].
  - change (0 =? 0) with true. cbv iota. rewrite splice_bit by (unfold is_byte in Hv; lia). reflexivity.
  - change (1 =? 0) with false. cbv iota. fold (hgr_shuffle v).
    rewrite splice_bit by (auto using hgr_shuffle_bound; lia).
    destruct ((11 <=? i) && (i <? 11 + 8)) eqn:E.
    + rewrite hgr_shuffle_bit by lia. bcase; auto. tbeq.
    + bcase; auto.
Qed.

Ltac klia := unfold PACKED_BITS, HEADER_BITS, BODY_BITS, FOOTER_BITS in *;
  repeat match goal with k : kind |- _ => destruct k end; lia.

Ltac kc := change (PACKED_BITS HGR) with 22 in *; change (PACKED_BITS DHGR) with 34 in *;
  change (SCREEN_BYTES HGR) with 2 in *; change (SCREEN_BYTES DHGR) with 4 in *;
  change (HEADER_BITS HGR) with 3 in *; change (HEADER_BITS DHGR) with 3 in *;
  change (FOOTER_BITS HGR) with 3 in *; change (FOOTER_BITS DHGR) with 3 in *;
  change (BODY_BITS HGR) with 16 in *; change (BODY_BITS DHGR) with 28 in *;
  change (3 + 16) with 19 in *; change (3 + 28) with 31 in *.

Definition valid_o (k : kind) (o : Z) : Prop := 0 <= o < SCREEN_BYTES k.

Lemma masked_update_bound k o w v : valid_o k o -> is_byte v ->
  0 <= w < 2 ^ PACKED_BITS k -> 0 <= masked_update k o w v < 2 ^ PACKED_BITS k.
Proof.
  unfold valid_o, is_byte. intros Ho Hv Hw. destruct k; unfold masked_update.
  - change 255 with (2 ^ 8 - 1). fold (hgr_shuffle v). destruct (o =? 0).
    + apply splice_bound; auto; cbn; lia.
    + apply splice_bound; auto using hgr_shuffle_bound; cbn; lia.
  - change (SCREEN_BYTES DHGR) with 4 in Ho. change 127 with (2 ^ 7 - 1) at 1.
    change (PACKED_BITS DHGR) with 34 in *.
    apply splice_bound; auto using land7f_bound; lia.
Qed.

Lemma fix_left_bit k l col i : 0 <= i < PACKED_BITS k ->
  Z.testbit (fix_column_left k l col) i =
    xorb ((i <? HEADER_BITS k + BODY_BITS k) && Z.testbit l i) (Z.testbit (make_footer k col) i).
Proof.
  intros Hi. unfold fix_column_left. rewrite Z.lxor_spec, testbit_land_ones by klia.
  reflexivity.
Qed.

Lemma fix_right_bit k r col i : 0 <= i < PACKED_BITS k ->
  Z.testbit (fix_column_right k r col) i =
    xorb ((HEADER_BITS k <=? i) && Z.testbit r i) (Z.testbit (make_header k col) i).
Proof.
  intros Hi. unfold fix_column_right. rewrite Z.lxor_spec, testbit_land_shiftl_mask by klia.
  f_equal. f_equal. destruct (i <? _) eqn:E; [apply andb_true_r | exfalso; klia].
Qed.

Lemma fix_left_bound k l col : 0 <= l < 2 ^ PACKED_BITS k ->
  0 <= fix_column_left k l col < 2 ^ PACKED_BITS k.
Proof.
  intros. unfold fix_column_left. apply lxor_bound; [klia| |apply footer_bound].
  apply land_bound_l; auto. klia.
Qed.

Lemma fix_right_bound k l col : 0 <= l < 2 ^ PACKED_BITS k ->
  0 <= fix_column_right k l col < 2 ^ PACKED_BITS k.
Proof.
  intros. unfold fix_column_right. apply lxor_bound; [klia| |].
  - apply land_bound_l; auto. klia.
  - apply bound_weaken with 3; [klia|apply header_bound].
Qed.

(** rows after a store *)
Definition set_rows (is_aux : bool) (main aux : row) (off v : Z) : row * row :=
  if is_aux then (main, upd1 aux off v) else (upd1 main off v, aux).

(** byte offset inside the packed word, for a valid bank *)
Definition bo (k : kind) (off : Z) (is_aux : bool) : Z :=
  match k with
  | HGR => off mod 2
  | DHGR => 2 * (off mod 2) + (if is_aux then 0 else 1)
  end.

Definition bank_ok (k : kind) (is_aux : bool) : Prop := k = DHGR \/ is_aux = false.

Lemma byte_offset_bo k off is_aux : bank_ok k is_aux -> byte_offset k off is_aux = Ok (bo k off is_aux).
Proof.
  intros H. unfold byte_offset, bo. assert (E : off mod 2 = 0 \/ off mod 2 = 1) by dlia.
  destruct k.
  - destruct H as [H | ->]; [discriminate|]. cbn [negb assert_]. destruct E as [-> | ->]; reflexivity.
  - destruct E as [-> | ->], is_aux; reflexivity.
Qed.

Lemma valid_bo k off is_aux : bank_ok k is_aux -> valid_o k (bo k off is_aux).
Proof.
  intros H. unfold valid_o, bo. assert (E : off mod 2 = 0 \/ off mod 2 = 1) by dlia.
  destruct k; [change (SCREEN_BYTES HGR) with 2; lia|].
  change (SCREEN_BYTES DHGR) with 4. destruct is_aux; lia.
Qed.

Lemma clip_upd r off v j : 0 <= off < 256 ->
  clip_row (upd1 r off v) j = if j =? off then v else clip_row r j.
Proof. intros H. unfold clip_row, upd1. bcase; reflexivity. Qed.

Ltac par off := let E := fresh "Ep" in let c := fresh "c" in
  assert (E : off = 2 * (off / 2) + off mod 2) by (apply Z.div_mod; lia);
  remember (off / 2) as c; let r := fresh "r" in remember (off mod 2) as r.

(** the stored-to column *)
Lemma word_ok_update k main aux off is_aux v w :
  0 <= off < 256 -> bank_ok k is_aux -> is_byte v ->
  word_ok k main aux (off / 2) w ->
  let '(main', aux') := set_rows is_aux main aux off v in
  word_ok k main' aux' (off / 2) (masked_update k (bo k off is_aux) w v).
Proof.
  intros Hoff Hb Hv [B H].
  assert (P : off mod 2 = 0 \/ off mod 2 = 1) by dlia.
  pose proof (Z.div_mod off 2 ltac:(lia)) as E.
  assert (G : forall main' aux', set_rows is_aux main aux off v = (main', aux') ->
    word_ok k main' aux' (off / 2) (masked_update k (bo k off is_aux) w v)).
  { intros main' aux' ES. unfold word_ok. split; [apply masked_update_bound; auto using valid_bo|].
    intros i Hi. remember (off / 2) as c eqn:Ec. clear Ec.
    destruct k.
    - destruct Hb as [Hb| ->]; [discriminate|]. cbn in ES. injection ES as <- <-.
      change (PACKED_BITS HGR) with 22 in *. unfold bo.
      rewrite masked_update_bit_HGR by (auto; lia). rewrite H by auto.
      unfold packed_bit. rewrite !clip_upd by auto. bcase; auto; try tbeq.
    - change (PACKED_BITS DHGR) with 34 in *. unfold bo.
      rewrite masked_update_bit_DHGR by (destruct is_aux; lia). rewrite H by auto.
      rewrite !packed_bit_DHGR by auto.
      destruct is_aux; cbn in ES; injection ES as <- <-; rewrite !clip_upd by auto;
      (destruct P as [P|P]; rewrite P in *; bcase; auto; try tbeq). }
  destruct (set_rows is_aux main aux off v) as [main' aux']. apply G; auto.
Qed.

(** columns that do not hold the byte and are not neighbours on its side *)
Lemma packed_bit_other k main aux off is_aux v c i :
  0 <= off < 256 -> bank_ok k is_aux -> 0 <= i < PACKED_BITS k ->
  c <> off / 2 ->
  (bo k off is_aux = 0 -> c <> off / 2 - 1) ->
  (bo k off is_aux = SCREEN_BYTES k - 1 -> c <> off / 2 + 1) ->
  let '(main', aux') := set_rows is_aux main aux off v in
  packed_bit k main' aux' c i = packed_bit k main aux c i.
Proof.
  intros Hoff Hb Hi Hc Hl Hr.
  assert (P : off mod 2 = 0 \/ off mod 2 = 1) by dlia.
  pose proof (Z.div_mod off 2 ltac:(lia)) as E.
  unfold bo in *. remember (off / 2) as c0 eqn:Ec. clear Ec.
  destruct k.
  - destruct Hb as [Hb| ->]; [discriminate|]. cbn [set_rows]. unfold packed_bit.
    change (PACKED_BITS HGR) with 22 in *. change (SCREEN_BYTES HGR) with 2 in *.
    rewrite !clip_upd by auto. destruct P as [P|P]; rewrite P in *; bcase; reflexivity.
  - change (PACKED_BITS DHGR) with 34 in *. change (SCREEN_BYTES DHGR) with 4 in *.
    destruct is_aux; cbn [set_rows]; rewrite !packed_bit_DHGR by auto; rewrite !clip_upd by auto;
    (destruct P as [P|P]; rewrite P in *; bcase; reflexivity).
Qed.

(** footer of the left neighbour *)
Lemma word_ok_left k main aux c l w :
  0 <= c < 127 ->
  0 <= l < 2 ^ PACKED_BITS k ->
  (forall i, 0 <= i < HEADER_BITS k + BODY_BITS k -> Z.testbit l i = packed_bit k main aux c i) ->
  word_ok k main aux (c + 1) w ->
  word_ok k main aux c (fix_column_left k l w).
Proof.
  intros Hc Bl Hl [Bw Hw]. split; [apply fix_left_bound; auto|].
  intros i Hi. rewrite fix_left_bit by auto. destruct k; kc.
  - rewrite footer_bit_HGR by lia.
    destruct (Z.ltb_spec i 19).
    + rewrite Hl by lia. bcase; try apply xorb_false_r.
    + cbn [andb]. rewrite xorb_false_l. rewrite !Hw by lia. unfold packed_bit. bcase; tbeq.
  - rewrite footer_bit_DHGR by lia.
    destruct (Z.ltb_spec i 31).
    + rewrite Hl by lia. bcase; try apply xorb_false_r.
    + cbn [andb]. rewrite xorb_false_l. rewrite !Hw by lia. rewrite !packed_bit_DHGR by lia. bcase; tbeq.
Qed.

(** header of the right neighbour *)
Lemma word_ok_right k main aux c r w :
  0 < c < 128 ->
  0 <= r < 2 ^ PACKED_BITS k ->
  (forall i, HEADER_BITS k <= i < PACKED_BITS k -> Z.testbit r i = packed_bit k main aux c i) ->
  word_ok k main aux (c - 1) w ->
  word_ok k main aux c (fix_column_right k r w).
Proof.
  intros Hc Bl Hl [Bw Hw]. split; [apply fix_right_bound; auto|].
  intros i Hi. rewrite fix_right_bit by auto. destruct k; kc.
  - rewrite header_bit_HGR by lia.
    destruct (Z.leb_spec 3 i).
    + rewrite Hl by lia. bcase; try apply xorb_false_r.
    + cbn [andb]. rewrite xorb_false_l. rewrite !Hw by lia. unfold packed_bit. bcase; tbeq.
  - rewrite header_bit_DHGR by lia.
    destruct (Z.leb_spec 3 i).
    + rewrite Hl by lia. bcase; try apply xorb_false_r.
    + cbn [andb]. rewrite xorb_false_l. rewrite !Hw by lia. rewrite !packed_bit_DHGR by lia. bcase; tbeq.
Qed.

(** body+header bits of the left neighbour do not involve the stored byte *)
Lemma packed_bit_left k main aux off is_aux v i :
  0 <= off < 256 -> bank_ok k is_aux -> bo k off is_aux = 0 ->
  0 <= i < HEADER_BITS k + BODY_BITS k ->
  let '(main', aux') := set_rows is_aux main aux off v in
  packed_bit k main' aux' (off / 2 - 1) i = packed_bit k main aux (off / 2 - 1) i.
Proof.
  intros Hoff Hb Ho Hi.
  assert (P : off mod 2 = 0 \/ off mod 2 = 1) by dlia.
  pose proof (Z.div_mod off 2 ltac:(lia)) as E.
  unfold bo in *. remember (off / 2) as c0 eqn:Ec. clear Ec.
  destruct k; kc.
  - destruct Hb as [Hb| ->]; [discriminate|]. cbn [set_rows]. unfold packed_bit.
    rewrite !clip_upd by auto. bcase; reflexivity.
  - destruct is_aux; [|lia]; cbn [set_rows]; rewrite !packed_bit_DHGR by lia; rewrite !clip_upd by auto;
    bcase; reflexivity.
Qed.

Lemma packed_bit_right k main aux off is_aux v i :
  0 <= off < 256 -> bank_ok k is_aux -> bo k off is_aux = SCREEN_BYTES k - 1 ->
  HEADER_BITS k <= i < PACKED_BITS k ->
  let '(main', aux') := set_rows is_aux main aux off v in
  packed_bit k main' aux' (off / 2 + 1) i = packed_bit k main aux (off / 2 + 1) i.
Proof.
  intros Hoff Hb Ho Hi.
  assert (P : off mod 2 = 0 \/ off mod 2 = 1) by dlia.
  pose proof (Z.div_mod off 2 ltac:(lia)) as E.
  unfold bo in *. remember (off / 2) as c0 eqn:Ec. clear Ec.
  destruct k; kc.
  - destruct Hb as [Hb| ->]; [discriminate|]. cbn [set_rows]. unfold packed_bit.
    rewrite !clip_upd by auto. bcase; reflexivity.
  - destruct is_aux; [lia|]; cbn [set_rows]; rewrite !packed_bit_DHGR by lia; rewrite !clip_upd by auto;
    bcase; reflexivity.
Qed.

(** ** Whole-page statement: one row of packed words *)
Definition row_ok (k : kind) (main aux : row) (packed : Z -> Z) : Prop :=
  forall c, 0 <= c < 128 -> word_ok k main aux c (packed c).

(** the packed row after a store, as [apply] computes it *)
Definition store_row (k : kind) (packed : Z -> Z) (off o v : Z) : Z -> Z :=
  let c := off / 2 in
  let p1 := upd1 packed c (masked_update k o (packed c) v) in
  if (o =? 0) && (0 <? c) then upd1 p1 (c - 1) (fix_column_left k (p1 (c - 1)) (p1 c))
  else if (o =? SCREEN_BYTES k - 1) && (c <? 127) then upd1 p1 (c + 1) (fix_column_right k (p1 (c + 1)) (p1 c))
  else p1.

Lemma word_ok_ext k main aux main' aux' c w :
  (forall i, 0 <= i < PACKED_BITS k -> packed_bit k main' aux' c i = packed_bit k main aux c i) ->
  word_ok k main aux c w -> word_ok k main' aux' c w.
Proof. intros E [B H]. split; auto. intros i Hi. rewrite E by auto. auto. Qed.

Lemma store_row_ok k main aux packed off is_aux v :
  0 <= off < 256 -> bank_ok k is_aux -> is_byte v ->
  row_ok k main aux packed ->
  let '(main', aux') := set_rows is_aux main aux off v in
  row_ok k main' aux' (store_row k packed off (bo k off is_aux) v).
Proof.
  intros Hoff Hb Hv HR.
  assert (Hc : 0 <= off / 2 < 128) by dlia.
  pose proof (word_ok_update k main aux off is_aux v (packed (off / 2)) Hoff Hb Hv (HR _ Hc)) as Hw.
  pose proof (packed_bit_other k main aux off is_aux v) as Hother.
  pose proof (packed_bit_left k main aux off is_aux v) as Hleft.
  pose proof (packed_bit_right k main aux off is_aux v) as Hright.
  destruct (set_rows is_aux main aux off v) as [main' aux'].
  set (o := bo k off is_aux) in *. set (c0 := off / 2) in *.
  assert (SB : SCREEN_BYTES k - 1 <> 0) by (destruct k; kc; lia).
  intros c Hc'. unfold store_row. fold c0.
  set (p1 := upd1 packed c0 (masked_update k o (packed c0) v)).
  assert (Hp1 : p1 c0 = masked_update k o (packed c0) v) by apply upd1_same.
  assert (Hp1o : forall c, c <> c0 -> p1 c = packed c) by (intros; apply upd1_other; auto).
  destruct ((o =? 0) && (0 <? c0)) eqn:E1; [|destruct ((o =? SCREEN_BYTES k - 1) && (c0 <? 127)) eqn:E2].
  - destruct (Z.eq_dec c (c0 - 1)) as [->|Hne].
    + rewrite upd1_same. apply word_ok_left.
      * lia.
      * rewrite Hp1o by lia. apply (proj1 (HR (c0 - 1) ltac:(lia))).
      * intros i Hi. rewrite Hp1o by lia. rewrite (Hleft i Hoff Hb) by lia.
        apply (proj2 (HR (c0 - 1) ltac:(lia))). unfold PACKED_BITS. klia.
      * replace (c0 - 1 + 1) with c0 by lia. rewrite Hp1. exact Hw.
    + rewrite upd1_other by auto. destruct (Z.eq_dec c c0) as [->|Hne2].
      * rewrite Hp1. exact Hw.
      * rewrite Hp1o by auto. apply (word_ok_ext k main aux); auto.
        intros i Hi. apply Hother; auto; lia.
  - destruct (Z.eq_dec c (c0 + 1)) as [->|Hne].
    + rewrite upd1_same. apply word_ok_right.
      * lia.
      * rewrite Hp1o by lia. apply (proj1 (HR (c0 + 1) ltac:(lia))).
      * intros i Hi. rewrite Hp1o by lia. rewrite (Hright i Hoff Hb) by lia.
        apply (proj2 (HR (c0 + 1) ltac:(lia))). klia.
      * replace (c0 + 1 - 1) with c0 by lia. rewrite Hp1. exact Hw.
    + rewrite upd1_other by auto. destruct (Z.eq_dec c c0) as [->|Hne2].
      * rewrite Hp1. exact Hw.
      * rewrite Hp1o by auto. apply (word_ok_ext k main aux); auto.
        intros i Hi. apply Hother; auto; lia.
  - destruct (Z.eq_dec c c0) as [->|Hne2].
    + rewrite Hp1. exact Hw.
    + rewrite Hp1o by auto. apply (word_ok_ext k main aux); auto.
      intros i Hi. apply Hother; auto; lia.
Qed.

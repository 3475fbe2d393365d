(** Proofs about the packed bitmaps. *)
From Verif Require Import Base BaseFacts BitFacts ScreenModel BitmapModel DisplaySpec.

Ltac bcase := repeat match goal with
  | |- context [?a <? ?b] => destruct (Z.ltb_spec a b); try lia
  | |- context [?a <=? ?b] => destruct (Z.leb_spec a b); try lia
  | |- context [?a =? ?b] => destruct (Z.eqb_spec a b); try lia
  end; cbn [andb orb negb xorb].
Ltac beq := try reflexivity; try (f_equal; lia); try (rewrite xorb_false_l; f_equal; lia);
  try (rewrite xorb_false_r; f_equal; lia).

Ltac tbeq := apply (f_equal2 Z.testbit); [try reflexivity; f_equal; lia | lia].

(** ** Bits of the pieces *)
Lemma header_bit_DHGR col i : 0 <= i ->
  Z.testbit (make_header DHGR col) i = (i <? 3) && Z.testbit col (i + 28).
Proof.
  intros Hi. unfold make_header. rewrite Z.shiftr_spec by auto.
  change 7 with (2 ^ 3 - 1). rewrite testbit_land_shiftl_mask by lia. bcase; auto.
Qed.

Lemma footer_bit_DHGR col i : 0 <= i ->
  Z.testbit (make_footer DHGR col) i = (31 <=? i) && (i <? 34) && Z.testbit col (i - 28).
Proof.
  intros Hi. unfold make_footer. rewrite Z.shiftl_spec by auto.
  destruct (Z_lt_le_dec i 28).
  - rewrite Z.testbit_neg_r by lia. bcase; auto.
  - change 7 with (2 ^ 3 - 1). rewrite testbit_land_shiftl_mask by lia. bcase; auto.
Qed.

Lemma header_bit_HGR col i : 0 <= i ->
  Z.testbit (make_header HGR col) i =
    (if i =? 2 then Z.testbit col 11 else (i <? 2) && Z.testbit col (i + 17)).
Proof.
  intros Hi. unfold make_header. rewrite Z.lxor_spec, !Z.shiftr_spec by auto.
  change 3 with (2 ^ 2 - 1). change 1 with (2 ^ 1 - 1) at 1.
  rewrite !testbit_land_shiftl_mask by lia.
  destruct (Z.eqb_spec i 2) as [->|]; [cbn; apply xorb_false_r|].
  bcase; auto.
Qed.

Lemma footer_bit_HGR col i : 0 <= i ->
  Z.testbit (make_footer HGR col) i =
    (if i =? 19 then Z.testbit col 10 else (20 <=? i) && (i <? 22) && Z.testbit col (i - 17)).
Proof.
  intros Hi. unfold make_footer. rewrite Z.shiftl_spec by auto.
  destruct (Z_lt_le_dec i 19) as [Hlt|Hge].
  - rewrite Z.testbit_neg_r by lia. bcase; auto.
  - rewrite Z.lxor_spec, !Z.shiftr_spec by lia.
    change 3 with (2 ^ 2 - 1) at 1. change 1 with (2 ^ 1 - 1) at 1.
    rewrite !testbit_land_shiftl_mask by lia.
    destruct (Z.eqb_spec i 19) as [->|]; [cbn; apply xorb_false_r|].
    replace (i - 19 + 2) with (i - 17) by lia. bcase; auto.
Qed.

Lemma land7f_bound x : 0 <= Z.land x 0x7f < 2 ^ 7.
Proof. apply land_bound_r; lia. Qed.

Lemma testbit_land7f x i : 0 <= i -> Z.testbit (Z.land x 0x7f) i = (i <? 7) && Z.testbit x i.
Proof. intros. change 0x7f with (2 ^ 7 - 1). apply testbit_land_ones; lia. Qed.

Lemma shiftl3_bound x : 0 <= x < 2 ^ 7 -> 0 <= Z.shiftl x 3 < 2 ^ 10.
Proof. intros. change (2^10) with (2 ^ (7 + 3)). apply shiftl_bound; lia. Qed.

(** DHGR body word *)
Lemma body_bit_DHGR main aux p c i : 0 <= i ->
  Z.testbit (body DHGR main aux p c) i =
    if i <? 3 then false
    else if i <? 10 then Z.testbit (aux p (2 * c)) (i - 3)
    else if i <? 17 then Z.testbit (main p (2 * c)) (i - 10)
    else if i <? 24 then Z.testbit (aux p (2 * c + 1)) (i - 17)
    else (i <? 31) && Z.testbit (main p (2 * c + 1)) (i - 24).
Proof.
  intros Hi. unfold body.
  pose proof (land7f_bound (aux p (2 * c))) as Ba. pose proof (land7f_bound (main p (2 * c))) as Bm.
  pose proof (land7f_bound (aux p (2 * c + 1))) as Ba1. pose proof (land7f_bound (main p (2 * c + 1))) as Bm1.
  pose proof (shiftl3_bound _ Ba) as B10.
  pose proof (add_shiftl_bound _ _ 10 7 ltac:(lia) ltac:(lia) B10 Bm) as B17.
  change (10 + 7) with 17 in B17.
  pose proof (add_shiftl_bound _ _ 17 7 ltac:(lia) ltac:(lia) B17 Ba1) as B24.
  change (17 + 7) with 24 in B24.
  rewrite (testbit_add_shiftl _ _ 24) by (auto; lia).
  rewrite (testbit_add_shiftl _ _ 17) by (auto; lia).
  rewrite (testbit_add_shiftl _ _ 10) by (auto; lia).
  rewrite Z.shiftl_spec by auto.
  bcase; rewrite ?testbit_land7f by lia; bcase; auto.
  apply Z.testbit_neg_r; lia.
Qed.

Lemma body_bound_DHGR main aux p c : 0 <= body DHGR main aux p c < 2 ^ 31.
Proof.
  unfold body.
  pose proof (land7f_bound (aux p (2 * c))) as Ba. pose proof (land7f_bound (main p (2 * c))) as Bm.
  pose proof (land7f_bound (aux p (2 * c + 1))) as Ba1. pose proof (land7f_bound (main p (2 * c + 1))) as Bm1.
  pose proof (shiftl3_bound _ Ba) as B10.
  pose proof (add_shiftl_bound _ _ 10 7 ltac:(lia) ltac:(lia) B10 Bm) as B17.
  change (10 + 7) with 17 in B17.
  pose proof (add_shiftl_bound _ _ 17 7 ltac:(lia) ltac:(lia) B17 Ba1) as B24.
  change (17 + 7) with 24 in B24.
  pose proof (add_shiftl_bound _ _ 24 7 ltac:(lia) ltac:(lia) B24 Bm1) as B31. exact B31.
Qed.

(** HGR body word, for byte contents *)
Lemma hgr_odd_split odd : is_byte odd ->
  Z.shiftl (Z.land odd 0x7f) 12 + Z.shiftl (Z.land odd 0x80) 4
  = Z.shiftl (b2z (Z.testbit odd 7) + Z.shiftl (Z.land odd 0x7f) 1) 11.
Proof.
  intros H.
  assert (E : Z.land odd 0x80 = Z.shiftl (b2z (Z.testbit odd 7)) 7).
  { apply Z.bits_inj'. intros i Hi. change 0x80 with (Z.shiftl (2 ^ 1 - 1) 7).
    rewrite testbit_land_shiftl_mask, Z.shiftl_spec by lia.
    destruct (Z.eq_dec i 7) as [->|Hne].
    - destruct (Z.testbit odd 7); reflexivity.
    - destruct (Z_lt_le_dec i 7).
      + rewrite (Z.testbit_neg_r (b2z _)) by lia. bcase; reflexivity.
      + rewrite (testbit_high 1 (b2z _)) by (destruct (Z.testbit odd 7); cbn; lia).
        bcase; reflexivity. }
  rewrite E, !Z.shiftl_mul_pow2 by lia. ring.
Qed.

Lemma b2z_bound b : 0 <= b2z b < 2 ^ 1.
Proof. destruct b; cbn; lia. Qed.

Lemma hgr_inner_bound odd : 0 <= b2z (Z.testbit odd 7) + Z.shiftl (Z.land odd 0x7f) 1 < 2 ^ 8.
Proof.
  pose proof (add_shiftl_bound _ _ 1 7 ltac:(lia) ltac:(lia) (b2z_bound (Z.testbit odd 7)) (land7f_bound odd)) as B.
  exact B.
Qed.

Lemma byte_shiftl3 e : is_byte e -> 0 <= Z.shiftl e 3 < 2 ^ 11.
Proof. intros H. change (2 ^ 11) with (2 ^ (8 + 3)). apply shiftl_bound; unfold is_byte in H; lia. Qed.

Lemma body_eq_HGR main aux p c : is_byte (main p (2 * c + 1)) ->
  body HGR main aux p c = Z.shiftl (main p (2 * c)) 3 +
    Z.shiftl (b2z (Z.testbit (main p (2 * c + 1)) 7) + Z.shiftl (Z.land (main p (2 * c + 1)) 0x7f) 1) 11.
Proof. intros H. unfold body. rewrite <- hgr_odd_split by auto. ring. Qed.

Lemma body_bit_HGR main aux p c i : 0 <= i ->
  is_byte (main p (2 * c)) -> is_byte (main p (2 * c + 1)) ->
  Z.testbit (body HGR main aux p c) i =
    if i <? 3 then false
    else if i <? 11 then Z.testbit (main p (2 * c)) (i - 3)
    else if i =? 11 then Z.testbit (main p (2 * c + 1)) 7
    else (i <? 19) && Z.testbit (main p (2 * c + 1)) (i - 12).
Proof.
  intros Hi He Ho. rewrite body_eq_HGR by auto.
  rewrite (testbit_add_shiftl _ _ 11) by (auto using byte_shiftl3; lia).
  rewrite Z.shiftl_spec by auto.
  destruct (Z.ltb_spec i 11).
  - bcase; auto. apply Z.testbit_neg_r; lia.
  - rewrite (testbit_add_shiftl _ _ 1) by (auto using b2z_bound; lia).
    destruct (Z.eqb_spec i 11) as [->|].
    + destruct (Z.testbit (main p (2 * c + 1)) 7); reflexivity.
    + bcase; rewrite testbit_land7f by lia; bcase; auto; f_equal; lia.
Qed.

Lemma body_bound_HGR main aux p c :
  is_byte (main p (2 * c)) -> is_byte (main p (2 * c + 1)) ->
  0 <= body HGR main aux p c < 2 ^ 19.
Proof.
  intros He Ho. rewrite body_eq_HGR by auto.
  pose proof (add_shiftl_bound _ _ 11 8 ltac:(lia) ltac:(lia) (byte_shiftl3 _ He) (hgr_inner_bound (main p (2 * c + 1)))) as B.
  exact B.
Qed.

(** ** Packed words against an explicit bit specification *)
Definition PACKED_BITS (k : kind) : Z := HEADER_BITS k + BODY_BITS k + FOOTER_BITS k.

(** bit [i] of the packed word of column [c], in terms of row contents *)
Definition packed_bit (k : kind) (main aux : row) (c i : Z) : bool :=
  match k with
  | DHGR => dhgr_dot aux main (28 * c - 3 + i)
  | HGR =>
      let r := clip_row main in
      if i <? 2 then Z.testbit (r (2 * c - 1)) (i + 5)
      else if i =? 2 then Z.testbit (r (2 * c - 1)) 7
      else if i <? 11 then Z.testbit (r (2 * c)) (i - 3)
      else if i =? 11 then Z.testbit (r (2 * c + 1)) 7
      else if i <? 19 then Z.testbit (r (2 * c + 1)) (i - 12)
      else if i =? 19 then Z.testbit (r (2 * c + 2)) 7
      else Z.testbit (r (2 * c + 2)) (i - 20)
  end.

Lemma header_bound k col : 0 <= make_header k col < 2 ^ 3.
Proof.
  apply bound_of_bits; [lia| |].
  - destruct k; unfold make_header; [apply Z.lxor_nonneg|]; rewrite ?Z.shiftr_nonneg, ?Z.land_nonneg;
      (cbn; lia).
  - intros i Hi. destruct k; [rewrite header_bit_HGR by lia | rewrite header_bit_DHGR by lia]; bcase; auto.
Qed.

Lemma footer_bound k col : 0 <= make_footer k col < 2 ^ (PACKED_BITS k).
Proof.
  apply bound_of_bits; [destruct k; cbn; lia| |].
  - destruct k; unfold make_footer; rewrite Z.shiftl_nonneg; [apply Z.lxor_nonneg|];
      rewrite ?Z.shiftr_nonneg, ?Z.land_nonneg; (cbn; lia).
  - intros i Hi. destruct k; unfold PACKED_BITS in Hi; cbn in Hi;
     [rewrite footer_bit_HGR by lia | rewrite footer_bit_DHGR by lia]; bcase; auto.
Qed.

Lemma clip_in r i : 0 <= i < 256 -> clip_row r i = r i.
Proof. unfold clip_row; intros; bcase; auto. Qed.
Lemma clip_out r i : i < 0 \/ 256 <= i -> clip_row r i = 0.
Proof. unfold clip_row; intros; bcase; auto. Qed.

Lemma roll_prev c : 0 < c < 128 -> (c - 1) mod 128 = c - 1.
Proof. intros; apply Z.mod_small; lia. Qed.
Lemma roll_next c : 0 <= c < 127 -> (c + 1) mod 128 = c + 1.
Proof. intros; apply Z.mod_small; lia. Qed.

(** dots of byte number b *)
Lemma dhgr_dot_at aux main b j : 0 <= j < 7 ->
  dhgr_dot aux main (7 * b + j) =
  Z.testbit (clip_row (if Z.even b then aux else main) (b / 2)) j.
Proof.
  intros Hj. unfold dhgr_dot.
  replace ((7 * b + j) / 7) with b by dlia.
  replace ((7 * b + j) mod 7) with j by dlia. destruct (Z.even b); reflexivity.
Qed.

Lemma even_4 c e : (e = 0 \/ e = 2) -> Z.even (4 * c + e) = true.
Proof. intros [-> | ->]; rewrite Z.even_add, Z.even_mul; reflexivity. Qed.
Lemma odd_4 c e : (e = -1 \/ e = 1 \/ e = 3) -> Z.even (4 * c + e) = false.
Proof. intros [-> | [-> | ->]]; rewrite Z.even_add, Z.even_mul; reflexivity. Qed.

Lemma packed_bit_DHGR main aux c i : 0 <= i < 34 ->
  packed_bit DHGR main aux c i =
    if i <? 3 then Z.testbit (clip_row main (2 * c - 1)) (i + 4)
    else if i <? 10 then Z.testbit (clip_row aux (2 * c)) (i - 3)
    else if i <? 17 then Z.testbit (clip_row main (2 * c)) (i - 10)
    else if i <? 24 then Z.testbit (clip_row aux (2 * c + 1)) (i - 17)
    else if i <? 31 then Z.testbit (clip_row main (2 * c + 1)) (i - 24)
    else Z.testbit (clip_row aux (2 * c + 2)) (i - 31).
Proof.
  intros Hi. unfold packed_bit. bcase.
  - replace (28 * c - 3 + i) with (7 * (4 * c + -1) + (i + 4)) by lia.
    rewrite dhgr_dot_at, odd_4 by lia. do 2 f_equal. dlia.
  - replace (28 * c - 3 + i) with (7 * (4 * c + 0) + (i - 3)) by lia.
    rewrite dhgr_dot_at, even_4 by lia. do 2 f_equal. dlia.
  - replace (28 * c - 3 + i) with (7 * (4 * c + 1) + (i - 10)) by lia.
    rewrite dhgr_dot_at, odd_4 by lia. do 2 f_equal. dlia.
  - replace (28 * c - 3 + i) with (7 * (4 * c + 2) + (i - 17)) by lia.
    rewrite dhgr_dot_at, even_4 by lia. do 2 f_equal. dlia.
  - replace (28 * c - 3 + i) with (7 * (4 * c + 3) + (i - 24)) by lia.
    rewrite dhgr_dot_at, odd_4 by lia. do 2 f_equal. dlia.
  - replace (28 * c - 3 + i) with (7 * (4 * (c + 1) + 0) + (i - 31)) by lia.
    rewrite dhgr_dot_at, even_4 by lia. do 2 f_equal. dlia.
Qed.

(** Well-formed packed word: in range and showing the given rows. *)
Definition word_ok (k : kind) (main aux : row) (c w : Z) : Prop :=
  0 <= w < 2 ^ PACKED_BITS k /\
  forall i, 0 <= i < PACKED_BITS k -> Z.testbit w i = packed_bit k main aux c i.

Definition row_bytes (r : row) : Prop := forall o, 0 <= o < 256 -> is_byte (r o).

Lemma word_ok_unique k main aux c w w' :
  word_ok k main aux c w -> word_ok k main aux c w' -> w = w'.
Proof.
  intros [B H] [B' H']. apply (bits_eq (PACKED_BITS k)); auto.
  - destruct k; cbn; lia.
  - intros i Hi. rewrite H, H'; auto.
Qed.

Lemma pack_word_DHGR main aux p c : 0 <= c < 128 ->
  word_ok DHGR (main p) (aux p) c (pack DHGR main aux p c).
Proof.
  intros Hc. unfold word_ok. change (PACKED_BITS DHGR) with 34. split.
  - unfold pack. apply lxor_bound; [lia| |].
    + apply lxor_bound; [lia| |].
      * destruct (c =? 0); [cbn; lia|]. eapply bound_weaken; [|apply header_bound]; lia.
      * eapply bound_weaken; [|apply body_bound_DHGR]; lia.
    + destruct (c =? 127); [cbn; lia|]. apply (footer_bound DHGR).
  - intros i Hi. rewrite packed_bit_DHGR by auto. unfold pack.
    rewrite !Z.lxor_spec, body_bit_DHGR by lia.
    assert (Hh : Z.testbit (if c =? 0 then 0 else make_header DHGR (body DHGR main aux p ((c - 1) mod 128))) i
       = (i <? 3) && Z.testbit (clip_row (main p) (2 * c - 1)) (i + 4)).
    { destruct (Z.eqb_spec c 0).
      - rewrite clip_out by lia. rewrite !Z.bits_0. apply eq_sym, andb_false_r.
      - rewrite header_bit_DHGR, roll_prev by lia. rewrite clip_in by lia.
        destruct (Z.ltb_spec i 3); cbn [andb]; auto.
        rewrite body_bit_DHGR by lia. bcase; tbeq. }
    assert (Hf : Z.testbit (if c =? 127 then 0 else make_footer DHGR (body DHGR main aux p ((c + 1) mod 128))) i
       = (31 <=? i) && Z.testbit (clip_row (aux p) (2 * c + 2)) (i - 31)).
    { destruct (Z.eqb_spec c 127).
      - rewrite clip_out by lia. rewrite !Z.bits_0. apply eq_sym, andb_false_r.
      - rewrite footer_bit_DHGR, roll_next by lia. rewrite clip_in by lia.
        bcase; auto.
        rewrite body_bit_DHGR by lia. bcase; tbeq. }
    rewrite Hh, Hf. rewrite !(clip_in _ (2 * c)), !(clip_in _ (2 * c + 1)) by lia.
    bcase; rewrite ?xorb_false_r, ?xorb_false_l; reflexivity.
Qed.

Lemma pack_word_HGR main aux p c : 0 <= c < 128 -> row_bytes (main p) ->
  word_ok HGR (main p) (aux p) c (pack HGR main aux p c).
Proof.
  intros Hc Hb. unfold word_ok. change (PACKED_BITS HGR) with 22.
  assert (By : forall o, 0 <= o < 256 -> is_byte (main p o)) by exact Hb.
  split.
  - unfold pack. apply lxor_bound; [lia| |].
    + apply lxor_bound; [lia| |].
      * destruct (c =? 0); [cbn; lia|]. eapply bound_weaken; [|apply header_bound]; lia.
      * eapply bound_weaken; [|apply body_bound_HGR]; try apply By; lia.
    + destruct (c =? 127); [cbn; lia|]. apply (footer_bound HGR).
  - intros i Hi. unfold packed_bit, pack.
    rewrite !Z.lxor_spec, body_bit_HGR by (try apply By; lia).
    assert (Hh : Z.testbit (if c =? 0 then 0 else make_header HGR (body HGR main aux p ((c - 1) mod 128))) i
       = if i <? 2 then Z.testbit (clip_row (main p) (2 * c - 1)) (i + 5)
         else (i =? 2) && Z.testbit (clip_row (main p) (2 * c - 1)) 7).
    { destruct (Z.eqb_spec c 0).
      - rewrite clip_out by lia. rewrite !Z.bits_0. bcase; auto.
      - rewrite header_bit_HGR, roll_prev by lia. rewrite clip_in by lia.
        bcase; auto; rewrite body_bit_HGR by (try apply By; lia); bcase; tbeq. }
    assert (Hf : Z.testbit (if c =? 127 then 0 else make_footer HGR (body HGR main aux p ((c + 1) mod 128))) i
       = if i <? 19 then false
         else if i =? 19 then Z.testbit (clip_row (main p) (2 * c + 2)) 7
         else Z.testbit (clip_row (main p) (2 * c + 2)) (i - 20)).
    { destruct (Z.eqb_spec c 127).
      - rewrite clip_out by lia. rewrite !Z.bits_0. bcase; auto.
      - rewrite footer_bit_HGR, roll_next by lia. rewrite clip_in by lia.
        bcase; auto; rewrite body_bit_HGR by (try apply By; lia); bcase; tbeq. }
    rewrite Hh, Hf. rewrite !(clip_in _ (2 * c)), !(clip_in _ (2 * c + 1)) by lia.
    bcase; rewrite ?xorb_false_r, ?xorb_false_l; reflexivity.
Qed.

Lemma pack_word k main aux p c : 0 <= c < 128 -> row_bytes (main p) ->
  word_ok k (main p) (aux p) c (pack k main aux p c).
Proof. destruct k; auto using pack_word_HGR, pack_word_DHGR. Qed.

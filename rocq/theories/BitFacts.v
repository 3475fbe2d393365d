(** Bit-level facts about [Z]. *)
From Verif Require Import Base.

Lemma bits_eq n a b : 0 <= n -> 0 <= a < 2 ^ n -> 0 <= b < 2 ^ n ->
  (forall i, 0 <= i < n -> Z.testbit a i = Z.testbit b i) -> a = b.
Proof.
  intros Hn Ha Hb H. apply Z.bits_inj'. intros i Hi.
  destruct (Z_lt_le_dec i n) as [Hlt|Hge]; [apply H; lia|].
  assert (E : forall x, 0 <= x < 2 ^ n -> Z.testbit x i = false).
  { intros x Hx. destruct (Z.eq_dec x 0) as [->|]; [apply Z.bits_0|].
    apply Z.bits_above_log2; [lia|]. apply Z.lt_le_trans with n; [|lia].
    apply Z.log2_lt_pow2; lia. }
  rewrite !E; auto.
Qed.

Lemma testbit_high n x i : 0 <= x < 2 ^ n -> 0 <= n <= i -> Z.testbit x i = false.
Proof.
  intros Hx Hi. destruct (Z.eq_dec x 0) as [->|]; [apply Z.bits_0|].
  apply Z.bits_above_log2; [lia|]. apply Z.lt_le_trans with n; [|lia].
  apply Z.log2_lt_pow2; lia.
Qed.

Lemma bound_of_bits n x : 0 <= n -> 0 <= x ->
  (forall i, n <= i -> Z.testbit x i = false) -> 0 <= x < 2 ^ n.
Proof.
  intros Hn Hx H. split; auto.
  destruct (Z_lt_le_dec x (2 ^ n)); auto. exfalso.
  assert (Hp : 0 < x). { pose proof (Z.pow_pos_nonneg 2 n ltac:(lia) Hn). lia. }
  pose proof (Z.bit_log2 x Hp) as B. rewrite H in B; [discriminate|].
  apply Z.log2_le_pow2; auto.
Qed.

Lemma lxor_bound n a b : 0 <= n -> 0 <= a < 2 ^ n -> 0 <= b < 2 ^ n -> 0 <= Z.lxor a b < 2 ^ n.
Proof.
  intros Hn Ha Hb. apply bound_of_bits; auto.
  - apply Z.lxor_nonneg; lia.
  - intros i Hi. rewrite Z.lxor_spec, !(testbit_high n) by lia. reflexivity.
Qed.

Lemma land_bound_l n a b : 0 <= n -> 0 <= a < 2 ^ n -> 0 <= Z.land a b < 2 ^ n.
Proof.
  intros Hn Ha. apply bound_of_bits; auto.
  - apply Z.land_nonneg; lia.
  - intros i Hi. rewrite Z.land_spec, (testbit_high n) by lia. reflexivity.
Qed.

Lemma land_bound_r n a b : 0 <= n -> 0 <= b < 2 ^ n -> 0 <= Z.land a b < 2 ^ n.
Proof. intros. rewrite Z.land_comm. apply land_bound_l; auto. Qed.

Lemma shiftl_bound n s a : 0 <= n -> 0 <= s -> 0 <= a < 2 ^ n -> 0 <= Z.shiftl a s < 2 ^ (n + s).
Proof.
  intros Hn Hs Ha. rewrite Z.shiftl_mul_pow2, Z.pow_add_r by lia.
  pose proof (Z.pow_pos_nonneg 2 s ltac:(lia) Hs). nia.
Qed.

Lemma shiftr_bound n s a : 0 <= n -> 0 <= s <= n -> 0 <= a < 2 ^ n -> 0 <= Z.shiftr a s < 2 ^ (n - s).
Proof.
  intros Hn Hs Ha. rewrite Z.shiftr_div_pow2 by lia.
  pose proof (Z.pow_pos_nonneg 2 s ltac:(lia) ltac:(lia)) as Hp.
  split; [apply Z.div_pos; lia|]. apply Z.div_lt_upper_bound; auto.
  rewrite <- Z.pow_add_r by lia. replace (s + (n - s)) with n by lia. lia.
Qed.

Lemma bound_weaken n m a : 0 <= n <= m -> 0 <= a < 2 ^ n -> 0 <= a < 2 ^ m.
Proof. intros H Ha. pose proof (Z.pow_le_mono_r 2 n m ltac:(lia) ltac:(lia)). lia. Qed.

Lemma testbit_add_shiftl a b n i : 0 <= n -> 0 <= a < 2 ^ n -> 0 <= i ->
  Z.testbit (a + Z.shiftl b n) i = if i <? n then Z.testbit a i else Z.testbit b (i - n).
Proof.
  intros Hn Ha Hi. rewrite Z.add_nocarry_lxor.
  - rewrite Z.lxor_spec, Z.shiftl_spec by auto. destruct (Z.ltb_spec i n).
    + rewrite (Z.testbit_neg_r b) by lia. apply xorb_false_r.
    + rewrite (testbit_high n a i) by lia. apply xorb_false_l.
  - apply Z.bits_inj'. intros j Hj. rewrite Z.land_spec, Z.shiftl_spec, Z.bits_0 by auto.
    destruct (Z_lt_le_dec j n).
    + rewrite (Z.testbit_neg_r b) by lia. apply andb_false_r.
    + rewrite (testbit_high n a j) by lia. reflexivity.
Qed.

Lemma add_shiftl_bound a b n m : 0 <= n -> 0 <= m -> 0 <= a < 2 ^ n -> 0 <= b < 2 ^ m ->
  0 <= a + Z.shiftl b n < 2 ^ (n + m).
Proof.
  intros. rewrite Z.shiftl_mul_pow2, Z.pow_add_r by lia.
  pose proof (Z.pow_pos_nonneg 2 n ltac:(lia) ltac:(lia)). nia.
Qed.

Lemma testbit_ones w i : 0 <= w -> 0 <= i -> Z.testbit (2 ^ w - 1) i = (i <? w).
Proof.
  intros Hw Hi. rewrite Z.sub_1_r, <- Z.ones_equiv.
  destruct (Z.ltb_spec i w).
  - apply Z.ones_spec_low; lia.
  - apply Z.ones_spec_high; lia.
Qed.

Lemma testbit_mask w s i : 0 <= w -> 0 <= s -> 0 <= i ->
  Z.testbit (Z.shiftl (2 ^ w - 1) s) i = (s <=? i) && (i <? s + w).
Proof.
  intros Hw Hs Hi. rewrite Z.shiftl_spec by auto.
  destruct (Z.leb_spec s i); cbn [andb].
  - rewrite testbit_ones by lia. apply eq_true_iff_eq. lia.
  - apply Z.testbit_neg_r; lia.
Qed.

Lemma testbit_land_shiftl_mask x w s i : 0 <= w -> 0 <= s -> 0 <= i ->
  Z.testbit (Z.land x (Z.shiftl (2 ^ w - 1) s)) i = (s <=? i) && (i <? s + w) && Z.testbit x i.
Proof. intros. rewrite Z.land_spec, testbit_mask by auto. apply andb_comm. Qed.

Lemma testbit_land_ones x w i : 0 <= w -> 0 <= i ->
  Z.testbit (Z.land x (2 ^ w - 1)) i = (i <? w) && Z.testbit x i.
Proof. intros. rewrite Z.land_spec, testbit_ones by auto. apply andb_comm. Qed.

(** The frame clock as computed, and skipping a power of two of frames (C95). *)
From Verif Require Import Base BaseFacts MovieSpec ClockModel ClockProofs.

(** rounding to 53 bits commutes with multiplication by a power of two *)
Lemma half_even_scale n k q : 0 <= k -> 0 <= q -> round_half_even (2 ^ q * n) (k + q) = round_half_even n k.
Proof.
  intros K Q. assert (P : 0 < 2 ^ q) by (apply Z.pow_pos_nonneg; lia). assert (P' : 0 < 2 ^ k) by (apply Z.pow_pos_nonneg; lia).
  unfold round_half_even. rewrite Z.pow_add_r by lia. replace (2 ^ k * 2 ^ q) with (2 ^ q * 2 ^ k) by ring.
  rewrite Z.div_mul_cancel_l by lia. rewrite Z.mul_mod_distr_l by lia. cbn zeta.
  set (d := n / 2 ^ k). set (r := n mod 2 ^ k). set (x := 2 ^ q) in *. set (y := 2 ^ k) in *. clearbody d r x y.
  replace (2 * (x * r) <? x * y) with (2 * r <? y); [replace (x * y <? 2 * (x * r)) with (y <? 2 * r); [reflexivity|]|].
  - apply Bool.eq_iff_eq_true. rewrite !Z.ltb_lt. clear - P. nia.
  - apply Bool.eq_iff_eq_true. rewrite !Z.ltb_lt. clear - P. nia.
Qed.
Lemma round53_scale n q : 0 <= q -> round53 (2 ^ q * n) = 2 ^ q * round53 n.
Proof.
  intros Q. assert (P : 0 < 2 ^ q) by (apply Z.pow_pos_nonneg; lia).
  destruct (Z_le_gt_dec n 0) as [N|N].
  - assert (S : forall x, x <= 0 -> round53 x = x).
    { intros x X. unfold round53. rewrite Z.log2_nonpos by exact X. change (Z.max 0 (0 - 52)) with 0. unfold round_half_even. change (2 ^ 0) with 1.
      rewrite Z.div_1_r, Z.mod_1_r. cbn. ring. }
    rewrite (S n N). apply S. nia.
  - destruct (Z_le_gt_dec n (2 ^ 53)) as [L|L].
    + rewrite (round53_id n) by lia. pose proof (round53_le (2 ^ q * n) n q ltac:(nia) Q ltac:(lia) ltac:(nia)).
      pose proof (round53_ge (2 ^ q * n) n q ltac:(nia) Q ltac:(lia) ltac:(nia)). nia.
    + unfold round53. replace (2 ^ q * n) with (n * 2 ^ q) by ring. rewrite Z.log2_mul_pow2 by lia.
      assert (LG : 53 <= Z.log2 n) by (apply Z.log2_le_pow2; lia).
      rewrite !Z.max_r by lia. replace (q + Z.log2 n - 52) with (Z.log2 n - 52 + q) by ring. replace (n * 2 ^ q) with (2 ^ q * n) by ring.
      cbn zeta. rewrite half_even_scale by lia. rewrite Z.pow_add_r by lia. ring.
Qed.

Lemma float_thin m s q t j : 0 <= q -> float_clock (2 ^ q * m) s t j = float_clock m s t (2 ^ q * j).
Proof.
  intros Q. unfold float_clock. rewrite (round53_scale j q Q). f_equal. f_equal. ring.
Qed.

(** no more than one frame falls due per tick *)
Lemma float_one m s t j : 0 <= s -> 2 * 2 ^ s <= m -> Z.of_nat t <= 2 ^ 52 -> due (float_clock m s) t < j ->
  float_clock m s (Z.of_nat (S t)) j = false.
Proof.
  intros Hs Hm B D. assert (P : 0 < 2 ^ s) by (apply Z.pow_pos_nonneg; lia).
  assert (B53 : 2 ^ 53 = 2 * 2 ^ 52) by reflexivity. assert (B52 : 2 < 2 ^ 52) by reflexivity.
  set (d := due (float_clock m s) t) in *.
  assert (A : 0 <= d <= Z.of_nat t /\ Z.of_nat t * 2 ^ s <= d * m).
  { destruct t as [|t]; [subst d; cbn [due]; lia|].
    pose proof (float_due m s (S t) Hs Hm ltac:(lia) B) as F. cbn zeta in F. fold d in F. destruct F as [[_ F] R]. split; [lia|].
    destruct (Z_le_gt_dec (Z.of_nat (S t) * 2 ^ s) (d * m)) as [X|X]; [exact X|exfalso].
    pose proof (round53_le (d * m) (Z.of_nat (S t)) s ltac:(nia) Hs ltac:(lia) ltac:(lia)). lia. }
  unfold float_clock. apply Z.leb_gt. rewrite Nat2Z.inj_succ. clearbody d. set (x := Z.of_nat t) in *. clearbody x.
  pose proof (round53_ge j (d + 1) 0 ltac:(lia) ltac:(lia) ltac:(lia) ltac:(change (2 ^ 0) with 1; lia)) as J. change (2 ^ 0) with 1 in J.
  assert (M : (x + 2) * 2 ^ s <= round53 j * m) by (clear - A Hm J P; nia).
  pose proof (round53_ge (round53 j * m) (x + 2) s ltac:(clear - A J P Hm; nia) Hs ltac:(lia) M). clear - H P. nia.
Qed.

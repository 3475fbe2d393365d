(** Proofs about the conversion of samples in binary32. *)
From Verif Require Import Base BaseFacts ClockModel AudioModel AudioStreamModel AudioStreamSpec AudioStreamProofs AudioFloatModel ClockProofs.

(** ** Rounding *)
Lemma ratio_error n d : 0 <= n -> 0 < d -> 0 <= round_ratio n d /\ 2 * Z.abs (round_ratio n d * d - n) <= d.
Proof.
  intros N D. unfold round_ratio. cbv zeta. pose proof (Z_div_mod_eq_full n d) as E. pose proof (Z.mod_pos_bound n d D) as B. pose proof (Z.div_pos n d N D) as P.
  set (q := n / d) in *. set (r := n mod d) in *. clearbody q r.
  assert (Q1 : (q + 1) * d - n = d - r) by lia. assert (Q0 : q * d - n = - r) by lia.
  destruct (Z.ltb_spec (2 * r) d); [split; lia|]. destruct (Z.ltb_spec d (2 * r)); [split; lia|]. destruct (Z.even q); split; lia.
Qed.
Lemma ratio_le n d a : 0 <= n -> 0 < d -> n <= a * d -> round_ratio n d <= a.
Proof.
  intros N D L. destruct (ratio_error n d N D) as [_ E]. set (x := round_ratio n d) in *. clearbody x. destruct (Z_le_gt_dec x a) as [H|H]; [exact H|].
  exfalso. assert (a * d + d <= x * d) by nia. lia.
Qed.
Lemma ratio_ge n d a : 0 <= n -> 0 < d -> a * d <= n -> a <= round_ratio n d.
Proof.
  intros N D L. destruct (ratio_error n d N D) as [_ E]. set (x := round_ratio n d) in *. clearbody x. destruct (Z_le_gt_dec a x) as [H|H]; [exact H|].
  exfalso. assert (x * d + d <= a * d) by nia. lia.
Qed.
Lemma ratio_mono n n' d : 0 <= n <= n' -> 0 < d -> round_ratio n d <= round_ratio n' d.
Proof.
  intros N D. unfold round_ratio. cbv zeta. pose proof (Z_div_mod_eq_full n d) as E. pose proof (Z.mod_pos_bound n d D) as B.
  pose proof (Z_div_mod_eq_full n' d) as E'. pose proof (Z.mod_pos_bound n' d D) as B'. pose proof (Z.div_le_mono n n' d D (proj2 N)) as M.
  set (q := n / d) in *. set (r := n mod d) in *. set (q' := n' / d) in *. set (r' := n' mod d) in *. clearbody q r q' r'.
  assert (C : q = q' \/ q + 1 <= q') by lia. destruct C as [<-|C].
  - assert (r <= r') by lia. destruct (Z.ltb_spec (2 * r) d); destruct (Z.ltb_spec (2 * r') d); destruct (Z.ltb_spec d (2 * r)); destruct (Z.ltb_spec d (2 * r')); destruct (Z.even q); lia.
  - destruct (Z.ltb_spec (2 * r) d); destruct (Z.ltb_spec (2 * r') d); destruct (Z.ltb_spec d (2 * r)); destruct (Z.ltb_spec d (2 * r')); destruct (Z.even q); destruct (Z.even q'); lia.
Qed.
Lemma exp24_0 n d : 0 <= exp24 n d.
Proof. unfold exp24. lia. Qed.
Lemma pow_pos k : 0 <= k -> 0 < 2 ^ k.
Proof. intros K. apply Z.pow_pos_nonneg; lia. Qed.
(** the mantissa has at least 24 bits, unless the number is below 2^24 *)
Lemma exp24_cases n d : 0 <= n -> 0 < d -> (exp24 n d = 0 /\ n / d < 2 ^ 24) \/ (0 < exp24 n d /\ 2 ^ 23 * 2 ^ exp24 n d <= n / d < 2 ^ 24 * 2 ^ exp24 n d).
Proof.
  intros N D. pose proof (Z.div_pos n d N D) as P. unfold exp24. set (q := n / d) in *. clearbody q. destruct (Z_le_gt_dec (Z.log2 q - 23) 0) as [L|L].
  - left. rewrite Z.max_l by lia. split; [reflexivity|]. destruct (Z.eq_dec q 0) as [->|Q]; [reflexivity|]. pose proof (Z.log2_spec q ltac:(lia)) as [_ S].
    assert (2 ^ Z.succ (Z.log2 q) <= 2 ^ 24) by (apply Z.pow_le_mono_r; lia). lia.
  - right. rewrite Z.max_r by lia. split; [lia|]. assert (Q : 0 < q) by (destruct (Z.eq_dec q 0) as [->|]; [cbn in L; lia|lia]). pose proof (Z.log2_spec q Q) as [S1 S2].
    rewrite <- !Z.pow_add_r by lia. replace (23 + (Z.log2 q - 23)) with (Z.log2 q) by lia. replace (24 + (Z.log2 q - 23)) with (Z.succ (Z.log2 q)) by lia. lia.
Qed.
Lemma exp24_num n d : 0 <= n -> 0 < d -> (exp24 n d = 0 /\ n < 2 ^ 24 * d) \/ (0 < exp24 n d /\ 2 ^ 23 * (d * 2 ^ exp24 n d) <= n < 2 ^ 24 * (d * 2 ^ exp24 n d)).
Proof.
  intros N D. pose proof (Z_div_mod_eq_full n d) as E. pose proof (Z.mod_pos_bound n d D) as B. destruct (exp24_cases n d N D) as [[K L]|[K L]]; [left|right]; (split; [exact K|]).
  - set (q := n / d) in *. clearbody q. nia.
  - set (q := n / d) in *. set (P := 2 ^ exp24 n d) in *. clearbody q P. change (2 ^ 23) with 8388608 in *. change (2 ^ 24) with 16777216 in *. clear K. nia.
Qed.
(** relative error 2^-24, or half a unit *)
Lemma round24_error n d : 0 <= n -> 0 < d -> 0 <= round24 n d /\ 2 ^ 24 * Z.abs (round24 n d * d - n) <= n + 2 ^ 23 * d.
Proof.
  intros N D. unfold round24. cbv zeta. pose proof (pow_pos _ (exp24_0 n d)) as PK. assert (DK : 0 < d * 2 ^ exp24 n d) by (apply Z.mul_pos_pos; lia).
  destruct (ratio_error n (d * 2 ^ exp24 n d) N DK) as [R0 RE]. pose proof (exp24_num n d N D) as C.
  set (x := round_ratio n (d * 2 ^ exp24 n d)) in *. clearbody x. split; [apply Z.mul_nonneg_nonneg; lia|].
  replace (x * 2 ^ exp24 n d * d - n) with (x * (d * 2 ^ exp24 n d) - n) by ring. set (e := Z.abs (x * (d * 2 ^ exp24 n d) - n)) in *. clearbody e.
  change (2 ^ 24) with 16777216 in *. change (2 ^ 23) with 8388608 in *. destruct C as [[K C]|[K C]]; [rewrite K in *; change (2 ^ 0) with 1 in *; lia|].
  set (w := d * 2 ^ exp24 n d) in *. clearbody w. lia.
Qed.
(** ... without the half unit for numbers above 2^23 *)
Lemma round24_error_big n d : 0 <= n -> 0 < d -> 2 ^ 23 * d <= n -> 2 ^ 24 * Z.abs (round24 n d * d - n) <= n.
Proof.
  intros N D BG. unfold round24. cbv zeta. pose proof (pow_pos _ (exp24_0 n d)) as PK. assert (DK : 0 < d * 2 ^ exp24 n d) by (apply Z.mul_pos_pos; lia).
  destruct (ratio_error n (d * 2 ^ exp24 n d) N DK) as [R0 RE]. pose proof (exp24_num n d N D) as C.
  set (x := round_ratio n (d * 2 ^ exp24 n d)) in *. clearbody x.
  replace (x * 2 ^ exp24 n d * d - n) with (x * (d * 2 ^ exp24 n d) - n) by ring. set (e := Z.abs (x * (d * 2 ^ exp24 n d) - n)) in *. clearbody e.
  change (2 ^ 24) with 16777216 in *. change (2 ^ 23) with 8388608 in *. destruct C as [[K C]|[K C]]; [rewrite K in *; change (2 ^ 0) with 1 in *; lia|].
  set (w := d * 2 ^ exp24 n d) in *. clearbody w. lia.
Qed.
(** a*2^e with a at most 2^24 is a number of the format: it bounds what is rounded *)
Lemma round24_le n d a e : 0 <= n -> 0 < d -> 0 <= e -> 0 <= a <= 2 ^ 24 -> n <= a * 2 ^ e * d -> round24 n d <= a * 2 ^ e.
Proof.
  intros N D E A L. unfold round24. cbv zeta. pose proof (exp24_0 n d) as K0. pose proof (exp24_num n d N D) as C. set (k := exp24 n d) in *. clearbody k.
  pose proof (pow_pos k K0) as PK. assert (DK : 0 < d * 2 ^ k) by (apply Z.mul_pos_pos; lia). pose proof (pow_pos e E) as PE.
  destruct (Z_le_gt_dec k e) as [KE|KE].
  - replace e with ((e - k) + k) in * by lia. rewrite Z.pow_add_r in * by lia. set (g := a * 2 ^ (e - k)) in *. rewrite !Z.mul_assoc in *. fold g in L |- *.
    apply Z.mul_le_mono_nonneg_r; [lia|]. apply ratio_le; [exact N|exact DK|]. rewrite <- Z.mul_assoc in L. rewrite (Z.mul_comm d). exact L.
  - destruct C as [[-> C]|[_ C]]; [lia|]. assert (M : a * 2 ^ e * d <= 2 ^ 23 * (d * 2 ^ k)).
    { assert (2 ^ 24 * 2 ^ e <= 2 ^ 23 * 2 ^ k) by (rewrite <- !Z.pow_add_r by lia; apply Z.pow_le_mono_r; lia).
      assert (a * 2 ^ e <= 2 ^ 24 * 2 ^ e) by (apply Z.mul_le_mono_nonneg_r; lia). replace (2 ^ 23 * (d * 2 ^ k)) with (2 ^ 23 * 2 ^ k * d) by ring. apply Z.mul_le_mono_nonneg_r; lia. }
    assert (EQ : n = 2 ^ 23 * (d * 2 ^ k)) by lia. assert (AE : a * 2 ^ e = 2 ^ 23 * 2 ^ k).
    { assert (H : a * 2 ^ e * d = 2 ^ 23 * 2 ^ k * d) by lia. apply Z.mul_cancel_r in H; [exact H|lia]. }
    rewrite AE. apply Z.mul_le_mono_nonneg_r; [lia|]. apply ratio_le; [exact N|exact DK|lia].
Qed.
Lemma round24_ge n d a e : 0 <= n -> 0 < d -> 0 <= e -> 0 <= a <= 2 ^ 24 -> a * 2 ^ e * d <= n -> a * 2 ^ e <= round24 n d.
Proof.
  intros N D E A L. unfold round24. cbv zeta. pose proof (exp24_0 n d) as K0. pose proof (exp24_num n d N D) as C. set (k := exp24 n d) in *. clearbody k.
  pose proof (pow_pos k K0) as PK. assert (DK : 0 < d * 2 ^ k) by (apply Z.mul_pos_pos; lia). pose proof (pow_pos e E) as PE.
  destruct (Z_le_gt_dec k e) as [KE|KE].
  - replace e with ((e - k) + k) in * by lia. rewrite Z.pow_add_r in * by lia. set (g := a * 2 ^ (e - k)) in *. rewrite !Z.mul_assoc in *. fold g in L |- *.
    apply Z.mul_le_mono_nonneg_r; [lia|]. apply ratio_ge; [exact N|exact DK|]. rewrite <- Z.mul_assoc in L. rewrite (Z.mul_comm d). exact L.
  - destruct C as [[-> C]|[_ C]]; [lia|]. assert (M : a * 2 ^ e <= 2 ^ 23 * 2 ^ k).
    { assert (2 ^ 24 * 2 ^ e <= 2 ^ 23 * 2 ^ k) by (rewrite <- !Z.pow_add_r by lia; apply Z.pow_le_mono_r; lia).
      assert (a * 2 ^ e <= 2 ^ 24 * 2 ^ e) by (apply Z.mul_le_mono_nonneg_r; lia). lia. }
    apply (Z.le_trans _ _ _ M). apply Z.mul_le_mono_nonneg_r; [lia|]. apply ratio_ge; [exact N|exact DK|lia].
Qed.
Lemma round24_exact d a e : 0 < d -> 0 <= e -> 0 <= a <= 2 ^ 24 -> round24 (a * 2 ^ e * d) d = a * 2 ^ e.
Proof.
  intros D E A. pose proof (pow_pos e E) as PE. assert (N : 0 <= a * 2 ^ e * d) by (apply Z.mul_nonneg_nonneg; [apply Z.mul_nonneg_nonneg|]; lia).
  pose proof (round24_le _ d a e N D E A ltac:(lia)). pose proof (round24_ge _ d a e N D E A ltac:(lia)). lia.
Qed.
Lemma round24_form n d : 0 <= n -> 0 < d -> exists a, 0 <= a <= 2 ^ 24 /\ round24 n d = a * 2 ^ exp24 n d.
Proof.
  intros N D. unfold round24. cbv zeta. pose proof (exp24_0 n d) as K0. pose proof (exp24_num n d N D) as C. set (k := exp24 n d) in *. clearbody k.
  pose proof (pow_pos k K0) as PK. assert (DK : 0 < d * 2 ^ k) by (apply Z.mul_pos_pos; lia). exists (round_ratio n (d * 2 ^ k)). split; [|reflexivity].
  split; [exact (proj1 (ratio_error n _ N DK))|]. apply ratio_le; [exact N|exact DK|]. destruct C as [[-> C]|[_ C]]; [change (2 ^ 0) with 1; lia|lia].
Qed.
Lemma exp24_mono n n' d : 0 <= n <= n' -> 0 < d -> exp24 n d <= exp24 n' d.
Proof.
  intros N D. unfold exp24. pose proof (Z.div_le_mono n n' d D (proj2 N)) as M. pose proof (Z.log2_le_mono _ _ M). lia.
Qed.
Lemma round24_mono n n' d : 0 <= n <= n' -> 0 < d -> round24 n d <= round24 n' d.
Proof.
  intros N D. pose proof (exp24_mono n n' d N D) as M. destruct (Z.eq_dec (exp24 n d) (exp24 n' d)) as [E|E].
  - unfold round24. cbv zeta. rewrite E. pose proof (pow_pos _ (exp24_0 n' d)) as PK. apply Z.mul_le_mono_nonneg_r; [lia|].
    apply ratio_mono; [exact N|]. apply Z.mul_pos_pos; lia.
  - pose proof (exp24_0 n d) as K0. destruct (exp24_num n' d ltac:(lia) D) as [[K' _]|[_ C']]; [lia|]. destruct (round24_form n d ltac:(lia) D) as (a & A & F). rewrite F.
    apply (Z.le_trans _ (2 ^ 23 * 2 ^ exp24 n' d)).
    + apply (Z.le_trans _ (2 ^ 24 * 2 ^ exp24 n d)); [apply Z.mul_le_mono_nonneg_r; [pose proof (pow_pos _ K0); lia|lia]|].
      rewrite <- !Z.pow_add_r by lia. apply Z.pow_le_mono_r; lia.
    + apply round24_ge; [lia|exact D|apply exp24_0|lia|]. lia.
Qed.
Lemma round24_0 d : 0 < d -> round24 0 d = 0.
Proof. intros D. exact (round24_exact d 0 0 D ltac:(lia) ltac:(lia)). Qed.

(** ** The operations on numbers that stay finite *)
Definition sign (e : Z) : Prop := e = -1 \/ e = 0 \/ e = 1.
Lemma sgn_sign n : sign (Z.sgn n).
Proof. unfold sign. destruct n; cbn; auto. Qed.
Lemma round32_signed e n d : sign e -> 0 <= n -> 0 < d -> round24 n d < 2 ^ 277 -> round32 (e * n) d = F (e * round24 n d).
Proof.
  intros S N D L. unfold round32. destruct S as [->|[->| ->]].
  - replace (Z.abs (-1 * n)) with n by lia. destruct (Z.leb_spec (2 ^ 277) (round24 n d)); [lia|]. f_equal.
    destruct (Z.eq_dec n 0) as [->|NZ]; [rewrite round24_0 by exact D; reflexivity|]. replace (Z.sgn (-1 * n)) with (-1) by (destruct n; lia). reflexivity.
  - rewrite !Z.mul_0_l. change (Z.abs 0) with 0. rewrite round24_0 by exact D. reflexivity.
  - rewrite !Z.mul_1_l. replace (Z.abs n) with n by lia. destruct (Z.leb_spec (2 ^ 277) (round24 n d)); [lia|]. f_equal.
    destruct (Z.eq_dec n 0) as [->|NZ]; [rewrite round24_0 by exact D; reflexivity|]. replace (Z.sgn n) with 1 by (destruct n; lia). apply Z.mul_1_l.
Qed.
Lemma one_pos : 0 < one.
Proof. reflexivity. Qed.
Lemma round24_small n d a e : 0 <= n -> 0 < d -> 0 <= e -> 0 <= a <= 2 ^ 24 -> a * 2 ^ e < 2 ^ 277 -> n <= a * 2 ^ e * d -> round24 n d < 2 ^ 277.
Proof. intros N D E A B L. pose proof (round24_le n d a e N D E A L). lia. Qed.
(** integers up to 2^24 are exact *)
Lemma int_exact n : Z.abs n <= 2 ^ 24 -> round32 (n * one) 1 = F (n * one).
Proof.
  intros N. assert (E : round24 (Z.abs n * one) 1 = Z.abs n * one).
  { rewrite <- (Z.mul_1_r (Z.abs n * one)) at 1. exact (round24_exact 1 (Z.abs n) 149 ltac:(lia) ltac:(lia) ltac:(lia)). }
  replace (n * one) with (Z.sgn n * (Z.abs n * one)) by (rewrite Z.mul_assoc, (Z.mul_comm (Z.sgn n)), Z.abs_sgn; reflexivity).
  rewrite round32_signed; [rewrite E; reflexivity|apply sgn_sign|pose proof one_pos; nia|lia|rewrite E].
  assert (Z.abs n * one <= 2 ^ 24 * one) by (apply Z.mul_le_mono_nonneg_r; [pose proof one_pos|]; lia).
  assert (2 ^ 24 * one < 2 ^ 277) by reflexivity. lia.
Qed.
Lemma add_ints a b : Z.abs (a + b) <= 2 ^ 24 -> add32 (F (a * one)) (F (b * one)) = F ((a + b) * one).
Proof. intros H. cbn [add32]. rewrite <- Z.mul_add_distr_r. apply int_exact, H. Qed.
Lemma sum_ints l : forall s, Z.abs s + 32768 * Z.of_nat (length l) <= 2 ^ 24 -> Forall (fun x => Z.abs x <= 32768) l ->
  fold_left add32 (map of_int l) (F (s * one)) = F ((s + fold_left Z.add l 0) * one).
Proof.
  induction l as [|x l IH]; intros s B W; cbn [map fold_left]; [rewrite Z.add_0_r; reflexivity|].
  inversion W as [|? ? X W']. subst. cbn [length] in B. rewrite Nat2Z.inj_succ in B. unfold of_int at 2. rewrite int_exact by lia.
  rewrite add_ints by lia. rewrite IH by (try exact W'; lia). f_equal. f_equal.
  assert (E : forall l a, fold_left Z.add l a = a + fold_left Z.add l 0).
  { clear. induction l as [|y l IH]; intros a; cbn [fold_left]; [lia|]. rewrite IH, (IH (0 + y)). lia. }
  rewrite (E l (0 + x)). lia.
Qed.

(** ** The whole conversion of a sample *)
(** absolute value after the mean, after the division and after the factor [G] *)
Definition mean_units (ch M : Z) : Z := round24 (M * one) ch.
Definition scaled_units (G ch M : Z) : Z := round24 (mean_units ch M / 16384 * G) one.
Section Chain.
  Variables (ch G : Z).
  Hypothesis CH : 1 <= ch <= 512.
  Hypothesis HG : 0 <= G <= 2 ^ 57 * one.
  Let OP := one_pos.
  Lemma mean_le M : 0 <= M <= 32768 * ch -> 0 <= mean_units ch M <= 32768 * one.
  Proof.
    intros B. unfold mean_units. split; [apply round24_error; nia|]. change (32768 * one) with (32768 * 2 ^ 149). apply round24_le; try lia. change (2 ^ 149) with one.
    replace (32768 * one * ch) with (32768 * ch * one) by ring. apply Z.mul_le_mono_nonneg_r; lia.
  Qed.
  Lemma mean_exp M : 0 < M -> 14 <= exp24 (M * one) ch.
  Proof.
    intros B. unfold exp24. apply (Z.le_trans _ (Z.log2 (M * one / ch) - 23)); [|lia].
    assert (2 ^ 140 <= M * one / ch) by (apply Z.div_le_lower_bound; [lia|]; change one with (512 * 2 ^ 140); nia).
    pose proof (Z.log2_le_mono _ _ H) as L. rewrite Z.log2_pow2 in L by lia. lia.
  Qed.
  Lemma mean_form M : 0 <= M -> exists a e, 0 <= a <= 2 ^ 24 /\ 0 <= e /\ mean_units ch M = a * 2 ^ e * 16384 /\ mean_units ch M / 16384 = a * 2 ^ e.
  Proof.
    intros B. destruct (Z.eq_dec M 0) as [->|N].
    - exists 0, 0. split; [lia|]. split; [lia|]. unfold mean_units. rewrite Z.mul_0_l, round24_0 by lia. split; reflexivity.
    - destruct (round24_form (M * one) ch ltac:(nia) ltac:(lia)) as (a & A & E). pose proof (mean_exp M ltac:(lia)) as K. exists a, (exp24 (M * one) ch - 14).
      split; [exact A|]. split; [lia|]. assert (Q : mean_units ch M = a * 2 ^ (exp24 (M * one) ch - 14) * 16384).
      { unfold mean_units. rewrite E, <- Z.mul_assoc. f_equal. change 16384 with (2 ^ 14). rewrite <- Z.pow_add_r by lia. f_equal. lia. }
      split; [exact Q|]. rewrite Q. apply Z.div_mul. lia.
  Qed.
  Lemma scaled_le M : 0 <= M <= 32768 * ch -> 0 <= scaled_units G ch M <= 2 ^ 58 * one /\ 0 <= mean_units ch M / 16384 * G.
  Proof.
    intros B. pose proof (mean_le M B) as ML. destruct (mean_form M ltac:(lia)) as (a & e & A & E & Q1 & Q2). unfold scaled_units.
    assert (M2 : 0 <= mean_units ch M / 16384 <= 2 * one) by (rewrite Q2; lia).
    assert (N : 0 <= mean_units ch M / 16384 * G) by nia. split; [|exact N]. split; [apply round24_error; [exact N|exact OP]|].
    change (2 ^ 58 * one) with (1 * 2 ^ 207). apply round24_le; try lia. change (1 * 2 ^ 207) with (2 * (2 ^ 57 * one)).
    apply (Z.le_trans _ (2 * one * (2 ^ 57 * one))); [|lia]. apply Z.mul_le_mono_nonneg; lia.
  Qed.
  Lemma chain s l : fold_left Z.add l 0 = s -> Z.of_nat (length l) = ch -> Forall (fun x => Z.abs x <= 32768) l ->
    to_int32 (scale32 (F G) (mono32 l)) = Z.sgn s * (16 * scaled_units G ch (Z.abs s) / one).
  Proof.
    intros S L W. assert (SB : Z.abs s <= 32768 * ch).
    { subst s. rewrite <- L. clear - W. assert (H : forall a, Z.abs (fold_left Z.add l a) <= Z.abs a + 32768 * Z.of_nat (length l)).
      { induction W as [|x l X W IH]; intros a; cbn [fold_left length]; [lia|]. specialize (IH (a + x)). lia. }
      specialize (H 0). lia. }
    set (M := Z.abs s) in *. assert (MB : 0 <= M <= 32768 * ch) by lia. pose proof (sgn_sign s) as SG. set (e := Z.sgn s) in *.
    assert (SE : s = e * M) by (unfold e, M; rewrite Z.mul_comm, Z.abs_sgn; reflexivity).
    unfold mono32. replace (F 0) with (F (0 * one)) by reflexivity. rewrite sum_ints; [|rewrite L; clear - CH; lia|exact W]. rewrite Z.add_0_l, S, L. cbn [div32].
    pose proof (mean_le M MB) as ML. replace (s * one) with (e * (M * one)) by (rewrite SE; ring).
    assert (BIG : 2 ^ 58 * one < 2 ^ 277) by reflexivity. assert (BIG2 : 32768 * one < 2 ^ 277) by reflexivity.
    rewrite round32_signed; [|exact SG|nia|lia|fold (mean_units ch M); lia]. fold (mean_units ch M).
    unfold scale32. cbn [div32]. destruct (mean_form M ltac:(lia)) as (a & k & A & K & Q1 & Q2).
    assert (DV : round24 (mean_units ch M) 16384 = mean_units ch M / 16384) by (rewrite Q2, Q1; apply round24_exact; lia).
    rewrite round32_signed; [|exact SG|lia|lia|rewrite DV; rewrite Q2; lia]. rewrite DV. cbn [mul32].
    replace (e * (mean_units ch M / 16384) * G) with (e * (mean_units ch M / 16384 * G)) by ring. destruct (scaled_le M MB) as [SL SN].
    rewrite round32_signed; [|exact SG|exact SN|exact OP|fold (scaled_units G ch M); lia]. fold (scaled_units G ch M).
    unfold to_int32. unfold of_int. rewrite (int_exact 16) by lia. cbn [mul32].
    destruct (round24_form (mean_units ch M / 16384 * G) one SN OP) as (b & B & FB). fold (scaled_units G ch M) in FB. pose proof (exp24_0 (mean_units ch M / 16384 * G) one) as KB.
    assert (X16 : round24 (16 * scaled_units G ch M * one) one = 16 * scaled_units G ch M).
    { assert (E16 : 16 * scaled_units G ch M = b * 2 ^ (4 + exp24 (mean_units ch M / 16384 * G) one)) by (rewrite FB, Z.pow_add_r by lia; change (2 ^ 4) with 16; ring).
      rewrite E16. apply round24_exact; lia. }
    replace (e * scaled_units G ch M * (16 * one)) with (e * (16 * scaled_units G ch M * one)) by ring.
    assert (BIG3 : 16 * (2 ^ 58 * one) < 2 ^ 277) by reflexivity.
    rewrite round32_signed; [|exact SG|nia|exact OP|rewrite X16; lia]. rewrite X16.
    assert (QB : 0 <= 16 * scaled_units G ch M / one < 2 ^ 63).
    { split; [apply Z.div_pos; lia|]. apply Z.div_lt_upper_bound; [exact OP|]. change (2 ^ 63) with (2 * (16 * 2 ^ 58)). nia. }
    assert (QE : Z.quot (e * (16 * scaled_units G ch M)) one = e * (16 * scaled_units G ch M / one)).
    { rewrite <- (Z.quot_div_nonneg _ one) by lia. destruct SG as [->|[->| ->]].
      - replace (-1 * (16 * scaled_units G ch M)) with (- (16 * scaled_units G ch M)) by ring. rewrite Z.quot_opp_l by lia. ring.
      - reflexivity.
      - rewrite !Z.mul_1_l. reflexivity. }
    rewrite QE. set (v := 16 * scaled_units G ch M / one) in *. clearbody v. clear - QB SG. change (2 ^ 63) with 9223372036854775808 in *.
    destruct SG as [->|[->| ->]]; match goal with |- (if ?c then _ else _) = _ => replace c with true; [reflexivity|] end; symmetry; apply andb_true_iff; rewrite Z.leb_le, Z.ltb_lt; lia.
  Qed.
  Lemma scaled_mono M M' : 0 <= M <= M' -> M' <= 32768 * ch -> scaled_units G ch M <= scaled_units G ch M'.
  Proof.
    intros B B'. unfold scaled_units. apply round24_mono; [|exact OP]. destruct (scaled_le M ltac:(lia)) as [_ N]. split; [exact N|].
    apply Z.mul_le_mono_nonneg_r; [lia|]. apply Z.div_le_mono; [lia|]. unfold mean_units. apply round24_mono; [nia|lia].
  Qed.
End Chain.

(** ** How far from the exact result *)
Section Error.
  Variables (ch G p q : Z).
  Hypothesis CH : 1 <= ch <= 512.
  Hypothesis HG : 0 <= G <= 2 ^ 57 * one.
  Hypothesis HP : 0 < p.
  Hypothesis HQ : 0 < q.
  Hypothesis NEAR : 2 ^ 23 * Z.abs (G * q - p * one) <= p * one.
  Let D := 1024 * ch * q.
  Lemma near M : 0 <= M <= 32768 * ch -> let Zf := 16 * scaled_units G ch M in
    2 ^ 71 * (D * Zf) <= (2 ^ 24 + 1) * (2 ^ 24 + 1) * (2 ^ 23 + 1) * (M * p * one) + 2 ^ 74 * D /\
    (2 ^ 24 - 1) * (2 ^ 24 - 1) * (2 ^ 23 - 1) * (M * p * one) - 2 ^ 74 * D <= 2 ^ 71 * (D * Zf).
  Proof.
    intros B Zf. pose proof one_pos as OP. destruct (scaled_le ch G CH HG M B) as [_ SN].
    destruct (round24_error _ one SN OP) as [_ EX]. fold (scaled_units G ch M) in EX.
    assert (EA : 2 ^ 24 * Z.abs (mean_units ch M * ch - M * one) <= M * one).
    { destruct (Z.eq_dec M 0) as [->|N]; [unfold mean_units; rewrite Z.mul_0_l, round24_0 by lia; cbn; lia|].
      apply round24_error_big; [nia|lia|]. assert (2 ^ 23 * 512 <= one) by (apply Z.leb_le; reflexivity). nia. }
    pose proof (mean_le ch CH M B) as AB.
    destruct (mean_form ch CH M ltac:(lia)) as (a & k & _ & _ & Q1 & Q2). rewrite <- Q2 in Q1. clear a k Q2.
    unfold Zf, D. set (A2 := mean_units ch M / 16384) in *. set (X := scaled_units G ch M) in *. set (A := mean_units ch M) in *. clearbody A2 X A. clear Zf.
    set (o := one) in *. clearbody o.
    assert (UA : A * ch * 2 ^ 24 <= (2 ^ 24 + 1) * (M * o)) by lia. assert (LA : (2 ^ 24 - 1) * (M * o) <= A * ch * 2 ^ 24) by lia.
    assert (UG : G * q * 2 ^ 23 <= (2 ^ 23 + 1) * (p * o)) by lia. assert (LG : (2 ^ 23 - 1) * (p * o) <= G * q * 2 ^ 23) by lia.
    assert (N1 : 0 <= A * ch * 2 ^ 24) by (apply Z.mul_nonneg_nonneg; [nia|lia]). assert (N2 : 0 <= G * q * 2 ^ 23) by (apply Z.mul_nonneg_nonneg; [nia|lia]).
    assert (N3 : 0 <= (2 ^ 24 - 1) * (M * o)) by (apply Z.mul_nonneg_nonneg; [lia|nia]). assert (N4 : 0 <= (2 ^ 23 - 1) * (p * o)) by (apply Z.mul_nonneg_nonneg; [lia|nia]).
    pose proof (Z.mul_le_mono_nonneg _ _ _ _ N1 UA N2 UG) as U. pose proof (Z.mul_le_mono_nonneg _ _ _ _ N3 LA N4 LG) as L. clear UA LA UG LG N1 N2 N3 N4 EA NEAR.
    assert (UX : 2 ^ 38 * (X * o) <= (2 ^ 24 + 1) * (A * G) + 2 ^ 37 * o).
    { rewrite Q1. replace (A2 * 16384 * G) with (16384 * (A2 * G)) by ring. lia. }
    assert (LX : (2 ^ 24 - 1) * (A * G) - 2 ^ 37 * o <= 2 ^ 38 * (X * o)).
    { rewrite Q1. replace (A2 * 16384 * G) with (16384 * (A2 * G)) by ring. lia. }
    clear EX SN AB Q1 A2.
    assert (CQ : 0 <= ch * q * 2 ^ 47) by (apply Z.mul_nonneg_nonneg; [nia|lia]).
    pose proof (Z.mul_le_mono_nonneg_r _ _ _ CQ UX) as U2. pose proof (Z.mul_le_mono_nonneg_r _ _ _ CQ LX) as L2. clear UX LX CQ.
    replace (A * ch * 2 ^ 24 * (G * q * 2 ^ 23)) with (2 ^ 47 * (A * G * (ch * q))) in * by ring.
    replace ((2 ^ 24 + 1) * (M * o) * ((2 ^ 23 + 1) * (p * o))) with ((2 ^ 24 + 1) * (2 ^ 23 + 1) * (M * p * o * o)) in U by ring.
    replace ((2 ^ 24 - 1) * (M * o) * ((2 ^ 23 - 1) * (p * o))) with ((2 ^ 24 - 1) * (2 ^ 23 - 1) * (M * p * o * o)) in L by ring.
    replace (2 ^ 38 * (X * o) * (ch * q * 2 ^ 47)) with (2 ^ 71 * (1024 * (ch * q * (16 * X)) * o)) in * by ring.
    replace (((2 ^ 24 + 1) * (A * G) + 2 ^ 37 * o) * (ch * q * 2 ^ 47)) with ((2 ^ 24 + 1) * (2 ^ 47 * (A * G * (ch * q))) + 2 ^ 84 * (ch * q) * o) in U2 by ring.
    replace (((2 ^ 24 - 1) * (A * G) - 2 ^ 37 * o) * (ch * q * 2 ^ 47)) with ((2 ^ 24 - 1) * (2 ^ 47 * (A * G * (ch * q))) - 2 ^ 84 * (ch * q) * o) in L2 by ring.
    replace (1024 * ch * q * (16 * X)) with (1024 * (ch * q * (16 * X))) by ring. replace (2 ^ 74 * (1024 * ch * q)) with (2 ^ 84 * (ch * q)) by ring.
    set (w := 1024 * (ch * q * (16 * X))) in *. set (y := A * G * (ch * q)) in *. set (t := M * p * o) in *. set (c := ch * q) in *. clearbody w y t c.
    split.
    - apply (Z.mul_le_mono_pos_r _ _ o OP). lia.
    - apply (Z.mul_le_mono_pos_r _ _ o OP). lia.
  Qed.
  (** compared with the exact value [v + r/D] *)
  Lemma compare M v r : 0 <= M <= 32768 * ch -> M * p = v * D + r -> 0 <= r < D -> 0 <= v ->
    let w := 16 * scaled_units G ch M / one in
    0 <= w /\ (v <= 16 -> v - 1 <= w <= v + 1) /\ (17 <= v -> 16 <= w) /\
    (v <= 16 -> D <= 2 ^ 16 * r -> D <= 2 ^ 16 * (D - r) -> w = v).
  Proof.
    intros B E R V w. pose proof one_pos as OP. destruct (near M B) as [U L]. destruct (scaled_le ch G CH HG M B) as [[SP _] _].
    assert (DP : 0 < D) by (unfold D; nia). unfold w. set (Zf := 16 * scaled_units G ch M) in *. assert (ZP : 0 <= Zf) by (unfold Zf; lia). clearbody Zf.
    assert (W0 : 0 <= Zf / one) by (apply Z.div_pos; lia). split; [exact W0|].
    replace (M * p * one) with (v * (D * one) + r * one) in * by (rewrite E; ring).
    assert (OB : 2 ^ 140 <= one) by (apply Z.leb_le; reflexivity). set (o := one) in *. clearbody o. clear B SP CH HG HP HQ NEAR E.
    assert (RO : 0 <= r * o <= D * o) by nia. assert (DO : 2 ^ 140 * D <= D * o) by nia.
    assert (UP : forall a, D * Zf < a * (D * o) -> Zf / o < a).
    { intros a H. apply Z.div_lt_upper_bound; [exact OP|]. apply (Z.mul_lt_mono_pos_l D); [exact DP|]. lia. }
    assert (LO : forall a, a * (D * o) <= D * Zf -> a <= Zf / o).
    { intros a H. apply Z.div_le_lower_bound; [exact OP|]. apply (Z.mul_le_mono_pos_l _ _ D); [exact DP|]. lia. }
    assert (R1 : D <= 2 ^ 16 * r -> D * o <= 2 ^ 16 * (r * o)) by (intros H; replace (2 ^ 16 * (r * o)) with (2 ^ 16 * r * o) by ring; apply Z.mul_le_mono_nonneg_r; [clear - OP; lia|exact H]).
    assert (R2 : D <= 2 ^ 16 * (D - r) -> D * o <= 2 ^ 16 * (D * o - r * o)) by (intros H; replace (2 ^ 16 * (D * o - r * o)) with (2 ^ 16 * (D - r) * o) by ring; apply Z.mul_le_mono_nonneg_r; [clear - OP; lia|exact H]).
    set (u := D * o) in *. set (ro := r * o) in *. set (dz := D * Zf) in *. clearbody u ro dz.
    assert (U0 : 0 < u) by lia. clear ZP OB OP. set (w' := Zf / o) in *. clearbody w'. clear w Zf o.
    split; [|split].
    - intros V16. assert (VU : 0 <= v * u <= 16 * u) by nia. split.
      + destruct (Z.eq_dec v 0) as [->|NV]; [lia|]. apply LO. clear UP LO R1 R2 R. set (vu := v * u) in *. replace ((v - 1) * u) with (vu - u) by (unfold vu; ring). clearbody vu. lia.
      + apply Z.lt_succ_r. replace (Z.succ (v + 1)) with (v + 2) by lia. apply UP. clear UP LO R1 R2 R. set (vu := v * u) in *. replace ((v + 2) * u) with (vu + 2 * u) by (unfold vu; ring). clearbody vu. lia.
    - intros V17. apply LO. assert (17 * u <= v * u) by nia. set (vu := v * u) in *. clearbody vu. clear UP LO R1 R2 R. lia.
    - intros V16 H1 H2. specialize (R1 H1). specialize (R2 H2). assert (VU : 0 <= v * u <= 16 * u) by nia.
      assert (v <= w'); [apply LO|assert (w' < v + 1); [apply UP|lia]]; clear UP LO R H1 H2; set (vu := v * u) in *.
      + clearbody vu. lia.
      + replace ((v + 1) * u) with (vu + u) by (unfold vu; ring). clearbody vu. lia.
  Qed.
End Error.

(** ** The stream of samples at the source's rate *)
Definition float_value (G ch s : Z) : Z := clip (-15) 16 (Z.sgn s * (16 * scaled_units G ch (Z.abs s) / one)).
Lemma pcm_bound buf k : Z.abs (pcm buf k) <= 32768.
Proof. unfold pcm. match goal with |- context [?a mod 65536] => pose proof (Z.mod_pos_bound a 65536 ltac:(lia)) end. lia. Qed.
Definition channels (ch : Z) (buf : list Z) (i : Z) : list Z := map (fun c => pcm buf (i * ch + c)) (zrange ch).
Lemma channels_sum ch buf i : 0 < ch -> fold_left Z.add (channels ch buf i) 0 = mix ch buf i /\ Z.of_nat (length (channels ch buf i)) = ch /\ Forall (fun x => Z.abs x <= 32768) (channels ch buf i).
Proof.
  intros C. unfold channels, mix. split; [unfold zrange; apply fold_sum|]. split; [rewrite map_length; apply zrange_length; lia|].
  apply Forall_forall. intros x X. apply in_map_iff in X. destruct X as (c & <- & _). apply pcm_bound.
Qed.
Lemma mix_bound ch bytes i : 0 < ch -> Z.abs (mix ch bytes i) <= 32768 * ch.
Proof.
  intros C. unfold mix. assert (H : forall n, Z.abs (sum_to (fun c => pcm bytes (i * ch + c)) n) <= 32768 * Z.of_nat n).
  { induction n as [|n IH]; [cbn; lia|]. cbn [sum_to]. pose proof (pcm_bound bytes (i * ch + Z.of_nat n)). lia. }
  specialize (H (Z.to_nat ch)). lia.
Qed.
Lemma decode32_ok run ch buf : 0 < ch -> whole_frames ch buf ->
  decode32 run ch buf = Ok (run (map (fun i => mono32 (channels ch buf i)) (zrange (Z.of_nat (length buf) / (2 * ch))))).
Proof.
  intros C (B & n & N & L). unfold decode32.
  destruct (frombuffer_ok (Z.to_nat (ch * n)) buf B ltac:(lia)) as (l & E & LL & P). rewrite E. cbn [rbind].
  assert (LZ : Z.of_nat (length l) = ch * n) by lia.
  unfold reshape_channels. rewrite LZ. replace (ch <=? 0) with false by lia. rewrite (Z.mul_comm ch n), Z.mod_mul, Z.div_mul by lia. cbn [negb orb Z.eqb rbind].
  f_equal. f_equal. unfold to_mono32. cbn [fst snd]. rewrite L. replace (2 * ch * n) with (n * (2 * ch)) by lia. rewrite Z.div_mul by lia.
  apply map_zrange_ext. intros i I. f_equal. unfold channels. apply map_zrange_ext. intros c HC. apply P. nia.
Qed.
Lemma value_chain G ch buf i : 1 <= ch <= 512 -> 0 <= G <= 2 ^ 57 * one -> value32 (F G) (mono32 (channels ch buf i)) = float_value G ch (mix ch buf i).
Proof.
  intros C HG. destruct (channels_sum ch buf i ltac:(lia)) as (S & L & W). unfold value32, float_value. f_equal. exact (chain ch G C HG _ _ S L W).
Qed.
Definition values32 (G ch : Z) (buf : list Z) : list Z := map (fun i => float_value G ch (mix ch buf i)) (zrange (Z.of_nat (length buf) / (2 * ch))).
Lemma stream32_ok G ch bufs : 1 <= ch <= 512 -> 0 <= G <= 2 ^ 57 * one -> Forall (whole_frames ch) bufs ->
  stream32 (fun l => l) ch (F G) bufs = (flat_map (values32 G ch) bufs, None).
Proof.
  intros C HG W. induction W as [|b bufs W Ws IH]; [reflexivity|]. cbn [stream32 flat_map]. rewrite (decode32_ok _ ch b ltac:(lia) W), IH. cbv beta iota. f_equal. f_equal.
  rewrite map_map. unfold values32. apply map_ext. intros i. apply value_chain; assumption.
Qed.
Lemma values32_nth G ch bufs : 0 < ch -> Forall (whole_frames ch) bufs ->
  Z.of_nat (length (flat_map (values32 G ch) bufs)) = frames_in ch bufs /\
  forall i, 0 <= i < frames_in ch bufs -> nth (Z.to_nat i) (flat_map (values32 G ch) bufs) 0 = float_value G ch (mix ch (concat bufs) i).
Proof.
  intros C W. induction W as [|b bufs Wb W (L & N)]; [split; [reflexivity|]; intros i I; cbn in I; lia|].
  rewrite (frames_cons ch b bufs C Wb W). cbn [flat_map concat]. pose proof Wb as (_ & n & NP & LB).
  assert (DV : Z.of_nat (length b) / (2 * ch) = n) by (rewrite LB; replace (2 * ch * n) with (n * (2 * ch)) by lia; apply Z.div_mul; lia).
  assert (LV : Z.of_nat (length (values32 G ch b)) = n) by (unfold values32; rewrite map_length, DV; apply zrange_length; lia).
  rewrite DV. split; [rewrite app_length; lia|]. intros i I. destruct (Z_lt_le_dec i n) as [Lt|Ge].
  - rewrite app_nth1 by lia. rewrite (mix_app1 ch b (concat bufs) i n C LB ltac:(lia)). unfold values32. rewrite DV. exact (nth_map_zrange (fun i => float_value G ch (mix ch b i)) n i 0 ltac:(lia)).
  - rewrite app_nth2 by lia. rewrite (mix_app2 ch b (concat bufs) i n C LB ltac:(lia)). rewrite <- N by lia. f_equal. lia.
Qed.

(** ** Consequences for one sample *)
Lemma clip_lipschitz a b : Z.abs (clip (-15) 16 a - clip (-15) 16 b) <= Z.abs (a - b).
Proof. unfold clip. lia. Qed.
Section Value.
  Variables (ch G p q : Z).
  Hypothesis CH : 1 <= ch <= 512.
  Hypothesis HG : 0 <= G <= 2 ^ 57 * one.
  Hypothesis HP : 0 < p.
  Hypothesis HQ : 0 < q.
  Hypothesis NEAR : 2 ^ 23 * Z.abs (G * q - p * one) <= p * one.
  Lemma quot_signed s : Z.quot (s * p) (1024 * ch * q) = Z.sgn s * (Z.abs s * p / (1024 * ch * q)).
  Proof.
    assert (D : 0 < 1024 * ch * q) by nia. set (d := 1024 * ch * q) in *. clearbody d. rewrite <- (Z.abs_sgn s) at 1. pose proof (Z.abs_nonneg s) as N.
    rewrite <- (Z.quot_div_nonneg (Z.abs s * p) d) by nia. destruct (sgn_sign s) as [-> |[-> | ->]].
    - replace (Z.abs s * -1 * p) with (- (Z.abs s * p)) by ring. rewrite Z.quot_opp_l by lia. ring.
    - rewrite Z.mul_0_r, Z.mul_0_l. reflexivity.
    - rewrite Z.mul_1_r, Z.mul_1_l. reflexivity.
  Qed.
  Lemma float_close s : Z.abs s <= 32768 * ch -> let v := clip (-15) 16 (Z.quot (s * p) (1024 * ch * q)) in
    Z.abs (float_value G ch s - v) <= 1 /\
    let d := 1024 * ch * q in let r := (Z.abs s * p) mod d in (d <= 2 ^ 16 * r -> d <= 2 ^ 16 * (d - r) -> float_value G ch s = v).
  Proof.
    intros B v. unfold v, float_value. rewrite quot_signed. assert (D : 0 < 1024 * ch * q) by nia. pose proof (Z.abs_nonneg s) as N.
    pose proof (Z_div_mod_eq_full (Z.abs s * p) (1024 * ch * q)) as E. pose proof (Z.mod_pos_bound (Z.abs s * p) (1024 * ch * q) D) as R.
    pose proof (Z.div_pos (Z.abs s * p) (1024 * ch * q) ltac:(nia) D) as V. rewrite (Z.mul_comm (1024 * ch * q)) in E.
    destruct (compare ch G p q CH HG HP HQ NEAR (Z.abs s) _ _ (conj N B) E R V) as (W0 & C1 & C2 & C3). clear v.
    cbv zeta. set (vv := Z.abs s * p / (1024 * ch * q)) in *. set (r := (Z.abs s * p) mod (1024 * ch * q)) in *. set (w := 16 * scaled_units G ch (Z.abs s) / one) in *.
    set (d := 1024 * ch * q) in *. clearbody vv r w d. destruct (Z_le_gt_dec vv 16) as [L|L].
    - specialize (C1 L). specialize (C3 L). split.
      + apply (Z.le_trans _ _ _ (clip_lipschitz _ _)). clear - C1. destruct (sgn_sign s) as [-> |[-> | ->]]; lia.
      + intros H1 H2. rewrite (C3 H1 H2). reflexivity.
    - specialize (C2 ltac:(lia)). assert (Q : clip (-15) 16 (Z.sgn s * w) = clip (-15) 16 (Z.sgn s * vv)).
      { clear - C2 L. unfold clip. destruct (sgn_sign s) as [-> |[-> | ->]]; lia. }
      rewrite Q, Z.sub_diag. split; [cbn; lia|reflexivity].
  Qed.
End Value.
Lemma float_mono ch G s s' : 1 <= ch <= 512 -> 0 <= G <= 2 ^ 57 * one -> Z.abs s <= 32768 * ch -> Z.abs s' <= 32768 * ch -> s <= s' -> float_value G ch s <= float_value G ch s'.
Proof.
  intros C HG B B' L. unfold float_value. pose proof one_pos as OP.
  assert (P : forall M, 0 <= M <= 32768 * ch -> 0 <= 16 * scaled_units G ch M / one) by (intros M H; apply Z.div_pos; [pose proof (scaled_le ch G C HG M H); lia|exact OP]).
  assert (MO : forall M M', 0 <= M <= M' -> M' <= 32768 * ch -> 16 * scaled_units G ch M / one <= 16 * scaled_units G ch M' / one).
  { intros M M' H H'. apply Z.div_le_mono; [exact OP|]. pose proof (scaled_mono ch G C HG M M' H H'). lia. }
  assert (Q : Z.sgn s * (16 * scaled_units G ch (Z.abs s) / one) <= Z.sgn s' * (16 * scaled_units G ch (Z.abs s') / one)).
  { pose proof (P (Z.abs s) ltac:(lia)) as P1. pose proof (P (Z.abs s') ltac:(lia)) as P2. destruct (Z_lt_le_dec s 0) as [N|N].
    - replace (Z.sgn s) with (-1) by lia. destruct (Z_lt_le_dec s' 0) as [N'|N'].
      + replace (Z.sgn s') with (-1) by lia. pose proof (MO (Z.abs s') (Z.abs s) ltac:(lia) ltac:(lia)). lia.
      + assert (0 <= Z.sgn s') by lia. nia.
    - pose proof (MO (Z.abs s) (Z.abs s') ltac:(lia) ltac:(lia)) as M. destruct (Z.eq_dec s 0) as [->|NZ]; [change (Z.sgn 0) with 0; assert (0 <= Z.sgn s') by lia; nia|].
      replace (Z.sgn s) with 1 by lia. replace (Z.sgn s') with 1 by lia. lia. }
  unfold clip. lia.
Qed.
Lemma float_odd ch G s : 0 <= s -> 1 <= ch <= 512 -> 0 <= G <= 2 ^ 57 * one -> s <= 32768 * ch -> float_value G ch (- s) = Z.max (-15) (- float_value G ch s).
Proof.
  intros S C HG B. unfold float_value. rewrite Z.abs_opp, Z.sgn_opp. pose proof one_pos as OP.
  assert (P : 0 <= 16 * scaled_units G ch (Z.abs s) / one) by (apply Z.div_pos; [pose proof (scaled_le ch G C HG (Z.abs s) ltac:(lia)); lia|exact OP]).
  set (w := 16 * scaled_units G ch (Z.abs s) / one) in *. clearbody w. assert (Z.sgn s = 0 \/ Z.sgn s = 1) as [-> | ->] by lia; unfold clip; lia.
Qed.
Lemma factor_near p q : 0 < p -> 0 < q -> 2 ^ 23 * q <= p * one -> p <= 2 ^ 57 * q ->
  exists G, factor32 p q = F G /\ 0 <= G <= 2 ^ 57 * one /\ 2 ^ 23 * Z.abs (G * q - p * one) <= p * one.
Proof.
  intros P Q L U. pose proof one_pos as OP. exists (round24 (p * one) q). assert (N : 0 <= p * one) by nia.
  assert (B : round24 (p * one) q <= 2 ^ 57 * one).
  { change (2 ^ 57 * one) with (1 * 2 ^ 206). apply round24_le; try lia. change (1 * 2 ^ 206) with (2 ^ 57 * one).
    replace (2 ^ 57 * one * q) with (2 ^ 57 * q * one) by ring. apply Z.mul_le_mono_nonneg_r; lia. }
  split; [|split].
  - unfold factor32. rewrite <- (Z.mul_1_l (p * one)) at 1. rewrite round32_signed; [rewrite Z.mul_1_l; reflexivity|right; right; reflexivity|exact N|exact Q|].
    assert (2 ^ 57 * one < 2 ^ 277) by reflexivity. lia.
  - split; [apply round24_error; assumption|exact B].
  - pose proof (round24_error_big (p * one) q N Q L) as E. set (e := Z.abs _) in *. clearbody e. clear - E N. lia.
Qed.

From Verif Require Import Base BaseFacts OpcodeModel MovieSpec ClockModel.

(** ** Counting due frames *)
Lemma due_bounds clock n : 0 <= due clock n <= Z.of_nat n.
Proof. induction n as [|n IH]; cbn [due]; [lia|]. destruct (clock (Z.of_nat (S n)) (due clock n)); lia. Qed.

Section Count.
  Variable clock : Z -> Z -> bool.
  Variable bound : Z.
  Hypothesis start : forall t, 0 < t -> clock t 0 = true.
  Hypothesis second : clock 1 1 = false.
  Hypothesis later : forall t f, 0 <= t < bound -> 0 <= f <= t -> clock t f = true -> clock (t + 1) f = true.
  Hypothesis apart : forall t f, 0 <= t < bound -> 0 <= f <= t -> clock t f = false -> clock (t + 1) (f + 1) = false.

  Lemma due_exact n : (0 < n)%nat -> Z.of_nat n <= bound ->
    clock (Z.of_nat n) (due clock n) = false /\ forall f, 0 <= f < due clock n -> clock (Z.of_nat n) f = true.
  Proof.
    induction n as [|n IH]; [lia|]. intros _ B. destruct n as [|n].
    - cbn [due]. rewrite start by lia. split; [exact second|]. intros f Hf. assert (f = 0) by lia. subst f. apply start. lia.
    - destruct IH as [A1 A2]; [lia|lia|]. set (D := due clock (S n)) in *.
      pose proof (due_bounds clock (S n)) as DB. fold D in DB.
      assert (E : due clock (S (S n)) = if clock (Z.of_nat (S (S n))) D then D + 1 else D) by reflexivity.
      rewrite E. clear E. replace (Z.of_nat (S (S n))) with (Z.of_nat (S n) + 1) by lia.
      destruct (clock (Z.of_nat (S n) + 1) D) eqn:C.
      + split; [apply apart; [lia|lia|exact A1]|]. intros f Hf. destruct (Z.eq_dec f D) as [-> |N]; [exact C|].
        apply later; [lia|lia|]. apply A2. lia.
      + split; [exact C|]. intros f Hf. apply later; [lia|lia|]. apply A2, Hf.
  Qed.
End Count.

(** ** Exact clock *)
Lemma exact_due B R n : 0 < R -> R < B -> (0 < n)%nat -> due (exact_clock B R) n = 1 + Z.of_nat n * R / B.
Proof.
  intros HR HB Hn.
  destruct (due_exact (exact_clock B R) (Z.of_nat n)) with (n := n) as [A1 A2]; auto; try lia.
  - intros t Ht. unfold exact_clock. apply Z.leb_le. nia.
  - unfold exact_clock. apply Z.leb_gt. lia.
  - intros t f _ Hf. unfold exact_clock. rewrite !Z.leb_le. nia.
  - intros t f _ Hf. unfold exact_clock. rewrite !Z.leb_gt. nia.
  - pose proof (due_bounds (exact_clock B R) n) as DB. unfold exact_clock in A1, A2. fold (exact_clock B R) in A1, A2.
    set (D := due (exact_clock B R) n) in *. clearbody D. apply Z.leb_gt in A1.
    assert (1 <= D) by (destruct (Z.eq_dec D 0); [subst D; nia|lia]).
    specialize (A2 (D - 1) ltac:(lia)). apply Z.leb_le in A2.
    assert (Z.of_nat n * R / B = D - 1); [|lia]. symmetry. apply Z.div_unique with (Z.of_nat n * R - B * (D - 1)); lia.
Qed.
Lemma exact_due_fast B R n : 0 < B -> B <= R -> due (exact_clock B R) n = Z.of_nat n.
Proof.
  intros HB HR. induction n as [|n IH]; [reflexivity|]. cbn [due]. rewrite IH.
  unfold exact_clock at 1. replace (B * Z.of_nat n <=? Z.of_nat (S n) * R) with true; [lia|]. symmetry. apply Z.leb_le. nia.
Qed.
Lemma exact_due_min B R n : 0 < B -> 0 < R -> due (exact_clock B R) n = Z.min (Z.of_nat n) (1 + Z.of_nat n * R / B).
Proof.
  intros HB HR. destruct (Z_lt_ge_dec R B) as [L|L].
  - destruct n as [|n]; [change (due (exact_clock B R) 0) with 0; change (Z.of_nat 0) with 0; rewrite Z.mul_0_l, Z.div_0_l by lia; reflexivity|].
    rewrite exact_due by lia. rewrite Z.min_r; [reflexivity|].
    assert (Z.of_nat (S n) * R / B < Z.of_nat (S n)); [|lia]. apply Z.div_lt_upper_bound; nia.
  - rewrite exact_due_fast by lia. rewrite Z.min_l; [reflexivity|].
    assert (Z.of_nat n <= Z.of_nat n * R / B); [|lia]. apply Z.div_le_lower_bound; nia.
Qed.

(** ** Rounding *)
Lemma half_even_cases n k : 0 <= n -> 0 <= k -> exists q r, n = q * 2 ^ k + r /\ 0 <= r < 2 ^ k /\ 0 <= q /\
  ((round_half_even n k = q /\ 2 * r <= 2 ^ k) \/ (round_half_even n k = q + 1 /\ 2 ^ k <= 2 * r)).
Proof.
  intros Hn Hk. assert (P : 0 < 2 ^ k) by (apply Z.pow_pos_nonneg; lia).
  exists (n / 2 ^ k), (n mod 2 ^ k). pose proof (Z_div_mod_eq_full n (2 ^ k)) as E.
  pose proof (Z.mod_pos_bound n (2 ^ k) P) as Q. pose proof (Z.div_pos n (2 ^ k) Hn P).
  split; [lia|]. split; [exact Q|]. split; [lia|]. unfold round_half_even. cbn zeta.
  destruct (Z.ltb_spec (2 * (n mod 2 ^ k)) (2 ^ k)); [left; lia|].
  destruct (Z.ltb_spec (2 ^ k) (2 * (n mod 2 ^ k))); [right; lia|].
  destruct (Z.even (n / 2 ^ k)); [left|right]; lia.
Qed.

Definition exp53 (n : Z) : Z := Z.max 0 (Z.log2 n - 52).
Lemma exp53_scale n : 0 < n -> exp53 n = 0 \/ (0 < exp53 n /\ 2 ^ 52 * 2 ^ exp53 n <= n).
Proof.
  intros Hn. unfold exp53. destruct (Z.max_spec 0 (Z.log2 n - 52)) as [[A ->]|[A ->]]; [right|left; reflexivity].
  split; [lia|]. rewrite <- Z.pow_add_r by lia. replace (52 + (Z.log2 n - 52)) with (Z.log2 n) by lia. apply Z.log2_spec, Hn.
Qed.
(** relative error 2^-53 *)
Lemma round53_error n : 0 <= n -> 2 ^ 53 * Z.abs (round53 n - n) <= n.
Proof.
  intros Hn. destruct (Z.eq_dec n 0) as [-> |N0]; [reflexivity|].
  unfold round53. fold (exp53 n). cbn zeta. set (k := exp53 n).
  assert (K0 : 0 <= k) by (unfold k, exp53; lia).
  destruct (half_even_cases n k Hn K0) as (q & r & E & R & Q & C).
  destruct (exp53_scale n ltac:(lia)) as [S|[S1 S2]].
  - fold k in S. rewrite S in *. change (2 ^ 0) with 1 in *. assert (r = 0) by lia.
    assert (round_half_even n 0 = n) by lia. rewrite H0. replace (n * 1 - n) with 0 by lia. cbn. lia.
  - fold k in S1, S2. set (P := 2 ^ k) in *. clearbody P. set (x := round_half_even n k) in *. clearbody x. clear k S1 K0.
    change (2 ^ 53) with 9007199254740992. change (2 ^ 52) with 4503599627370496 in S2.
    assert (2 * Z.abs (x * P - n) <= P) by (destruct C as [[-> C]|[-> C]]; lia). lia.
Qed.
(** representable numbers bound rounded ones *)
Lemma round53_le n a e : 0 <= n -> 0 <= e -> 0 <= a <= 2 ^ 53 -> n <= a * 2 ^ e -> round53 n <= a * 2 ^ e.
Proof.
  intros Hn He Ha L. destruct (Z.eq_dec n 0) as [-> |N0]; [change (round53 0) with 0; nia|].
  unfold round53. fold (exp53 n). cbn zeta. set (k := exp53 n).
  assert (K0 : 0 <= k) by (unfold k, exp53; lia).
  destruct (half_even_cases n k Hn K0) as (q & r & E & R & Q & C).
  destruct (exp53_scale n ltac:(lia)) as [S|[S1 S2]].
  - fold k in S. rewrite S in *. change (2 ^ 0) with 1 in *. lia.
  - fold k in S1, S2.
    assert (Pk : 0 < 2 ^ k) by (apply Z.pow_pos_nonneg; lia).
    (* a * 2^e is a multiple of 2^k, or at least twice the scale *)
    destruct (Z_le_gt_dec k e) as [KE|KE].
    + replace e with ((e - k) + k) in * by lia. rewrite Z.pow_add_r in * by lia. rewrite Z.mul_assoc in *.
      set (g := a * 2 ^ (e - k)) in *. clearbody g. set (P := 2 ^ k) in *. clearbody P.
      destruct C as [[-> C]|[-> C]]; [nia|]. destruct (Z_le_gt_dec (q + 1) g) as [X|X]; [nia|].
      exfalso. assert (r = 0) by nia. lia.
    + assert (A : a * 2 ^ e <= 2 ^ 53 * 2 ^ e) by (apply Z.mul_le_mono_nonneg_r; [apply Z.pow_nonneg; lia|lia]).
      assert (B : 2 ^ 53 * 2 ^ e = 2 ^ (53 + e)) by (rewrite Z.pow_add_r by lia; reflexivity).
      assert (S3 : 2 ^ 52 * 2 ^ k = 2 ^ (52 + k)) by (rewrite Z.pow_add_r by lia; reflexivity).
      assert (D : 2 ^ (53 + e) <= 2 ^ (52 + k)) by (apply Z.pow_le_mono_r; lia).
      assert (X : n = 2 ^ 52 * 2 ^ k) by lia.
      assert (R0 : round_half_even n k * 2 ^ k = n).
      { set (P := 2 ^ k) in *. clearbody P. set (y := round_half_even n k) in *. clearbody y. clear - C E R X Pk.
        assert (q = 2 ^ 52) by nia. subst q. assert (r = 0) by lia. destruct C as [[-> C]|[-> C]]; lia. }
      rewrite R0. exact L.
Qed.
Lemma round53_ge n a e : 0 <= n -> 0 <= e -> 0 <= a <= 2 ^ 53 -> a * 2 ^ e <= n -> a * 2 ^ e <= round53 n.
Proof.
  intros Hn He Ha L. destruct (Z.eq_dec n 0) as [-> |N0]; [exact L|].
  unfold round53. fold (exp53 n). cbn zeta. set (k := exp53 n).
  assert (K0 : 0 <= k) by (unfold k, exp53; lia).
  destruct (half_even_cases n k Hn K0) as (q & r & E & R & Q & C).
  destruct (exp53_scale n ltac:(lia)) as [S|[S1 S2]].
  - fold k in S. rewrite S in *. change (2 ^ 0) with 1 in *. lia.
  - fold k in S1, S2.
    assert (Pk : 0 < 2 ^ k) by (apply Z.pow_pos_nonneg; lia).
    assert (QX : q <= round_half_even n k) by lia.
    assert (G : a * 2 ^ e <= q * 2 ^ k); [|nia].
    destruct (Z_le_gt_dec k e) as [KE|KE].
    + replace e with ((e - k) + k) in * by lia. rewrite Z.pow_add_r in * by lia. rewrite Z.mul_assoc in *.
      set (g := a * 2 ^ (e - k)) in *. clearbody g. set (P := 2 ^ k) in *. clearbody P. clear - L E R Pk.
      assert (g <= q); [|nia]. destruct (Z_le_gt_dec g q) as [X|X]; [exact X|exfalso]. assert ((q + 1) * P <= g * P) by (apply Z.mul_le_mono_nonneg_r; lia). lia.
    + assert (A : a * 2 ^ e <= 2 ^ 53 * 2 ^ e) by (apply Z.mul_le_mono_nonneg_r; [apply Z.pow_nonneg; lia|lia]).
      assert (B : 2 ^ 53 * 2 ^ e = 2 ^ (53 + e)) by (rewrite Z.pow_add_r by lia; reflexivity).
      assert (S3 : 2 ^ 52 * 2 ^ k = 2 ^ (52 + k)) by (rewrite Z.pow_add_r by lia; reflexivity).
      assert (D : 2 ^ (53 + e) <= 2 ^ (52 + k)) by (apply Z.pow_le_mono_r; lia).
      assert (2 ^ 52 <= q); [|nia]. set (P := 2 ^ k) in *. clearbody P. clear - S2 E R Pk. nia.
Qed.
Lemma round53_id n : 0 <= n <= 2 ^ 53 -> round53 n = n.
Proof.
  intros H. pose proof (round53_le n n 0 ltac:(lia) ltac:(lia) H ltac:(lia)).
  pose proof (round53_ge n n 0 ltac:(lia) ltac:(lia) H ltac:(lia)). lia.
Qed.

(** ** Clock in binary64 *)
Lemma float_due m s n : 0 <= s -> 2 * 2 ^ s <= m -> (0 < n)%nat -> Z.of_nat n <= 2 ^ 52 ->
  let D := due (float_clock m s) n in
  round53 ((D - 1) * m) <= Z.of_nat n * 2 ^ s < round53 (D * m) /\ 1 <= D <= Z.of_nat n.
Proof.
  intros Hs Hm Hn HB D.
  assert (P : 0 < 2 ^ s) by (apply Z.pow_pos_nonneg; lia).
  pose proof (due_bounds (float_clock m s) n) as DB. fold D in DB.
  assert (CL : forall t f, 0 <= f <= 2 ^ 53 -> float_clock m s t f = (round53 (f * m) <=? t * 2 ^ s)).
  { intros t f Hf. unfold float_clock. rewrite (round53_id f Hf). reflexivity. }
  assert (B53 : 2 ^ 53 = 2 * 2 ^ 52) by reflexivity. assert (B52 : 2 < 2 ^ 52) by reflexivity.
  destruct (due_exact (float_clock m s) (2 ^ 52)) with (n := n) as [A1 A2]; auto.
  - intros t Ht. rewrite CL by lia. apply Z.leb_le. change (round53 (0 * m)) with 0. nia.
  - rewrite CL by lia. apply Z.leb_gt. pose proof (round53_ge (1 * m) 2 s ltac:(lia) Hs ltac:(lia) ltac:(lia)). lia.
  - intros t f Ht Hf. rewrite !CL by lia. rewrite !Z.leb_le. nia.
  - intros t f Ht Hf. rewrite !CL by lia. rewrite !Z.leb_gt. intros X.
    assert (F : t * 2 ^ s < f * m).
    { destruct (Z_le_gt_dec (f * m) (t * 2 ^ s)) as [Y|Y]; [|lia]. exfalso.
      pose proof (round53_le (f * m) t s ltac:(nia) Hs ltac:(lia) Y). lia. }
    pose proof (round53_ge ((f + 1) * m) (t + 2) s ltac:(nia) Hs ltac:(lia) ltac:(nia)). nia.
  - fold D in A1, A2. rewrite CL in A1 by lia. apply Z.leb_gt in A1.
    assert (D1 : 1 <= D). { destruct (Z.eq_dec D 0) as [E|E]; [|lia]. rewrite E in A1. change (round53 (0 * m)) with 0 in A1. nia. }
    specialize (A2 (D - 1) ltac:(lia)). rewrite CL in A2 by lia. apply Z.leb_le in A2. lia.
Qed.

(** never more than one rounding error away from exact arithmetic *)
Lemma float_no_drift m s n : 0 <= s -> 2 * 2 ^ s <= m -> (0 < n)%nat -> Z.of_nat n <= 2 ^ 52 ->
  let D := due (float_clock m s) n in
  (D - 1) * m * (2 ^ 53 - 1) <= Z.of_nat n * 2 ^ s * 2 ^ 53 /\ Z.of_nat n * 2 ^ s * 2 ^ 53 < D * m * (2 ^ 53 + 1).
Proof.
  intros Hs Hm Hn HB D. destruct (float_due m s n Hs Hm Hn HB) as [[A1 A2] A3]. fold D in A1, A2, A3.
  assert (P : 0 < 2 ^ s) by (apply Z.pow_pos_nonneg; lia).
  pose proof (round53_error ((D - 1) * m) ltac:(nia)) as E1. pose proof (round53_error (D * m) ltac:(nia)) as E2.
  set (x := (D - 1) * m) in *. set (y := D * m) in *. set (T := Z.of_nat n * 2 ^ s) in *.
  clearbody x y T. change (2 ^ 53) with 9007199254740992 in *. lia.
Qed.

(** with [m/2^s] the correctly rounded quotient bitrate/rate *)
Lemma float_rate B R m s n : 0 < R -> 0 < B -> 0 <= s -> 2 * 2 ^ s <= m -> (0 < n)%nat -> Z.of_nat n <= 2 ^ 52 ->
  2 ^ 53 * Z.abs (m * R - B * 2 ^ s) <= B * 2 ^ s ->
  let D := due (float_clock m s) n in
  (D - 1) * B * (2 ^ 52 - 1) <= Z.of_nat n * R * 2 ^ 52 /\ Z.of_nat n * R * (2 ^ 52 - 1) < D * B * 2 ^ 52.
Proof.
  intros HR HB0 Hs Hm Hn HB HQ D. destruct (float_no_drift m s n Hs Hm Hn HB) as [A1 A2]. fold D in A1, A2.
  destruct (float_due m s n Hs Hm Hn HB) as [_ A3]. fold D in A3.
  assert (P : 0 < 2 ^ s) by (apply Z.pow_pos_nonneg; lia).
  set (p := 2 ^ s) in *. clearbody p. clearbody D. set (t := Z.of_nat n) in *. clearbody t.
  change (2 ^ 53) with 9007199254740992 in *. change (2 ^ 52) with 4503599627370496 in *.
  assert (L1 : B * p * 9007199254740991 <= m * R * 9007199254740992) by lia.
  assert (L2 : m * R * 9007199254740992 <= B * p * 9007199254740993) by lia.
  split.
  - assert (X1 : (D - 1) * R * m * 9007199254740991 <= t * p * R * 9007199254740992) by (clear - A1 HR; nia).
    assert (X2 : (D - 1) * (B * p * 9007199254740991) <= (D - 1) * (m * R * 9007199254740992)) by (apply Z.mul_le_mono_nonneg_l; lia).
    assert (X3 : p * ((D - 1) * B * 4503599627370495) <= p * (t * R * 4503599627370496)).
    { replace ((D - 1) * (m * R * 9007199254740992)) with ((D - 1) * R * m * 9007199254740992) in X2 by ring.
      replace ((D - 1) * (B * p * 9007199254740991)) with ((D - 1) * B * p * 9007199254740991) in X2 by ring.
      assert (W0 : 0 <= (D - 1) * B * p) by (apply Z.mul_nonneg_nonneg; [apply Z.mul_nonneg_nonneg|]; lia).
      replace (p * ((D - 1) * B * 4503599627370495)) with ((D - 1) * B * p * 4503599627370495) by ring.
      replace (p * (t * R * 4503599627370496)) with (t * p * R * 4503599627370496) by ring.
      set (u := (D - 1) * R * m) in *. set (w := (D - 1) * B * p) in *. set (z := t * p * R) in *. clearbody u w z.
      clear - X1 X2 W0. lia. }
    apply Z.mul_le_mono_pos_l in X3; lia.
  - assert (X1 : t * p * R * 9007199254740992 < D * R * m * 9007199254740993) by (clear - A2 HR; nia).
    assert (X2 : D * (m * R * 9007199254740992) <= D * (B * p * 9007199254740993)) by (apply Z.mul_le_mono_nonneg_l; lia).
    assert (X3 : p * (t * R * 4503599627370495) < p * (D * B * 4503599627370496)).
    { replace (D * (m * R * 9007199254740992)) with (D * R * m * 9007199254740992) in X2 by ring.
      replace (D * (B * p * 9007199254740993)) with (D * B * p * 9007199254740993) in X2 by ring.
      assert (W0 : 0 <= t * p * R \/ t * p * R < 0) by lia.
      assert (V0 : 0 <= D * B * p) by (apply Z.mul_nonneg_nonneg; [apply Z.mul_nonneg_nonneg|]; lia).
      replace (p * (t * R * 4503599627370495)) with (t * p * R * 4503599627370495) by ring.
      replace (p * (D * B * 4503599627370496)) with (D * B * p * 4503599627370496) by ring.
      set (u := D * R * m) in *. set (w := D * B * p) in *. set (z := t * p * R) in *. clearbody u w z.
      clear - X1 X2 W0 V0. lia. }
    apply Z.mul_lt_mono_pos_l in X3; lia.
Qed.

(** ** Audio *)
Lemma clip_bounds x : -15 <= clip (-15) 16 x <= 16.
Proof. unfold clip. lia. Qed.
Lemma duty_in a : In (duty a) tick_values.
Proof.
  unfold duty, tick_values, audio_value. set (v := clip (-15) 16 (to_int a)). pose proof (clip_bounds (to_int a)) as H. fold v in H.
  apply in_map_iff. exists (v + 15). split; [lia|]. apply in_zrange; lia.
Qed.
Lemma quot_cross a d b e : 0 < d -> 0 < e -> a * e <= b * d -> Z.quot a d <= Z.quot b e.
Proof.
  intros Hd He H. rewrite <- (Z.quot_mul_cancel_r a d e) by lia. rewrite <- (Z.quot_mul_cancel_r b e d) by lia.
  rewrite (Z.mul_comm e d). apply Z.quot_le_mono; nia.
Qed.

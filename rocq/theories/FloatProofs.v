(** The rounding of the model is IEEE-754's. *)
From Verif Require Import Base BaseFacts ClockModel AudioModel AudioStreamModel AudioStreamSpec AudioStreamProofs AudioFloatModel ClockProofs AudioFloatProofs FloatSpec.
Lemma ratio_tie n d : 0 <= n -> 0 < d -> 2 * Z.abs (round_ratio n d * d - n) = d -> Z.even (round_ratio n d) = true.
Proof.
  intros N D. unfold round_ratio. cbv zeta. pose proof (Z_div_mod_eq_full n d) as E. pose proof (Z.mod_pos_bound n d D) as B.
  set (q := n / d) in *. set (r := n mod d) in *. clearbody q r.
  assert (Q1 : (q + 1) * d - n = d - r) by lia. assert (Q0 : q * d - n = - r) by lia.
  destruct (Z.ltb_spec (2 * r) d); [lia|]. destruct (Z.ltb_spec d (2 * r)); [lia|]. destruct (Z.even q) eqn:V; [intros; exact V|].
  intros _. rewrite Z.even_add, V. reflexivity.
Qed.
Lemma ratio_nearest n d g : 0 <= n -> 0 < d -> Z.abs (round_ratio n d * d - n) <= Z.abs (g * d - n) /\
  (g <> round_ratio n d -> Z.abs (g * d - n) = Z.abs (round_ratio n d * d - n) -> 2 * Z.abs (round_ratio n d * d - n) = d).
Proof.
  intros N D. destruct (ratio_error n d N D) as [_ E]. set (x := round_ratio n d) in *. clearbody x.
  destruct (Z.eq_dec g x) as [->|G]; [split; [lia|congruence]|].
  assert (H : d <= Z.abs ((g - x) * d)) by (rewrite Z.abs_mul, (Z.abs_eq d) by lia; nia). replace ((g - x) * d) with (g * d - x * d) in H by ring. lia.
Qed.
Lemma round24_format n d : 0 <= n -> 0 < d -> in_format (round24 n d).
Proof.
  intros N D. destruct (round24_form n d N D) as (a & A & ->). destruct (Z.eq_dec a (2 ^ 24)) as [->|Q].
  - exists (2 ^ 23), (exp24 n d + 1). pose proof (exp24_0 n d). split; [lia|]. split; [lia|]. rewrite Z.pow_add_r by lia. change (2 ^ 24) with (2 ^ 23 * 2). ring.
  - exists a, (exp24 n d). pose proof (exp24_0 n d). split; [lia|]. split; [lia|reflexivity].
Qed.
(** the number of the format nearest to n/d, and if two are, the one with the even
    significand *)
Lemma round24_nearest n d : 0 <= n -> 0 < d -> forall w, in_format w ->
  Z.abs (round24 n d * d - n) <= Z.abs (w * d - n) /\
  (w <> round24 n d -> Z.abs (w * d - n) = Z.abs (round24 n d * d - n) -> even_significand (round24 n d)).
Proof.
  intros N D w (m & e & E & M & ->). destruct (round24_form n d N D) as (x & X & F).
  pose proof (exp24_0 n d) as K0. pose proof (exp24_num n d N D) as C.
  unfold round24 in *. cbv zeta in *. set (k := exp24 n d) in *. clearbody k. pose proof (pow_pos k K0) as PK. assert (DK : 0 < d * 2 ^ k) by (apply Z.mul_pos_pos; lia).
  set (r := round_ratio n (d * 2 ^ k)) in *. assert (RE : forall g, g * 2 ^ k * d - n = g * (d * 2 ^ k) - n) by (intros; ring).
  assert (SIG : 2 * Z.abs (r * (d * 2 ^ k) - n) = d * 2 ^ k -> even_significand (r * 2 ^ k)).
  { intros T. exists r, k. assert (R : 0 <= r <= 2 ^ 24) by (apply Z.mul_cancel_r in F; lia). split; [exact K0|]. split; [exact R|]. split; [|split; [reflexivity|exact (ratio_tie _ _ N DK T)]].
    destruct C as [[Q _]|[_ C]]; [right; exact Q|left]. apply ratio_ge; [exact N|exact DK|lia]. }
  assert (MULT : forall g, Z.abs (r * 2 ^ k * d - n) <= Z.abs (g * 2 ^ k * d - n) /\ (g * 2 ^ k <> r * 2 ^ k -> Z.abs (g * 2 ^ k * d - n) = Z.abs (r * 2 ^ k * d - n) -> even_significand (r * 2 ^ k))).
  { intros g. rewrite !RE. destruct (ratio_nearest n (d * 2 ^ k) g N DK) as [H1 H2]. split; [exact H1|]. intros G T. apply SIG, H2; [|exact T]. intros ->. apply G. reflexivity. }
  destruct (Z_le_gt_dec k e) as [KE|KE].
  - replace (m * 2 ^ e) with (m * 2 ^ (e - k) * 2 ^ k); [apply MULT|]. rewrite <- Z.mul_assoc, <- Z.pow_add_r by lia. do 2 f_equal. lia.
  - destruct C as [[-> C]|[_ C]]; [lia|]. assert (W : m * 2 ^ e * d <= 2 ^ 23 * (d * 2 ^ k)).
    { assert (2 ^ 24 * 2 ^ e <= 2 ^ 23 * 2 ^ k) by (rewrite <- !Z.pow_add_r by lia; apply Z.pow_le_mono_r; lia). pose proof (pow_pos e E).
      assert (m * 2 ^ e <= 2 ^ 24 * 2 ^ e) by (apply Z.mul_le_mono_nonneg_r; lia). replace (2 ^ 23 * (d * 2 ^ k)) with (2 ^ 23 * 2 ^ k * d) by ring. apply Z.mul_le_mono_nonneg_r; lia. }
    destruct (MULT (2 ^ 23)) as [H1 H2]. rewrite !RE in *. split; [lia|]. intros G T. 
    assert (EQ : m * 2 ^ e * d = 2 ^ 23 * (d * 2 ^ k)) by lia. assert (ME : m * 2 ^ e = 2 ^ 23 * 2 ^ k).
    { assert (H : m * 2 ^ e * d = 2 ^ 23 * 2 ^ k * d) by lia. apply Z.mul_cancel_r in H; [exact H|lia]. }
    apply H2; [rewrite <- ME; exact G|]. lia.
Qed.
Lemma round32_rounded num den : 0 < den -> rounded num den (round32 num den).
Proof.
  intros D. unfold round32. cbv zeta. set (v := round24 (Z.abs num) den). exists (Z.sgn num * v).
  assert (V0 : 0 <= v) by exact (proj1 (round24_error (Z.abs num) den ltac:(lia) D)).
  assert (Z0 : num = 0 -> v = 0) by (intros ->; exact (round24_0 den D)).
  assert (AV : Z.abs (Z.sgn num * v) = v).
  { rewrite Z.abs_mul, (Z.abs_eq v V0). destruct (Z.sgn_spec num) as [[? ->]|[[? ->]|[? ->]]]; cbn [Z.abs]; [lia| |lia]. rewrite (Z0 ltac:(lia)). reflexivity. }
  rewrite AV. split; [|reflexivity]. split; [rewrite AV; exact (round24_format (Z.abs num) den ltac:(lia) D)|].
  split; [destruct (Z.eq_dec v 0) as [->|N]; [left; ring|right]; assert (VP : 0 < v) by lia; destruct (Z.sgn_spec num) as [[S ->]|[[S ->]|[S ->]]];
    [replace (1 * v * num) with (v * num) by ring; apply Z.mul_pos_pos; assumption|exfalso; apply N, Z0; symmetry; exact S|assert (VN : 0 < v * - num) by (apply Z.mul_pos_pos; [exact VP|clear - S; lia]); clear - VN; nia]|].
  intros w W. destruct (round24_nearest (Z.abs num) den ltac:(lia) D (Z.abs w) W) as [H1 H2]. fold v in H1, H2.
  assert (EV : Z.abs (Z.sgn num * v * den - num) = Z.abs (v * den - Z.abs num)).
  { destruct (Z.sgn_spec num) as [[S ->]|[[S ->]|[S ->]]]; [rewrite (Z.abs_eq num) by lia; f_equal; ring|rewrite <- S, (Z0 ltac:(lia)); reflexivity|].
    rewrite (Z.abs_neq num) by lia. rewrite <- Z.abs_opp. f_equal. ring. }
  assert (EW : Z.abs (Z.abs w * den - Z.abs num) <= Z.abs (w * den - num) /\ (Z.abs (Z.abs w * den - Z.abs num) = Z.abs (w * den - num) -> 0 <= w * num)).
  { assert (WD : Z.abs (w * den) = Z.abs w * den) by (rewrite Z.abs_mul, (Z.abs_eq den); lia). rewrite <- WD. clear - D. set (x := w * den). 
    assert (K : 0 <= x * num -> 0 <= w * num) by (unfold x; nia). clearbody x. split; [lia|]. intros E. apply K. nia. }
  rewrite EV, AV. split; [lia|]. intros N T. destruct (Z.eq_dec (Z.abs w) v) as [Q|Q].
  - assert (SG : 0 <= w * num) by (apply EW; rewrite Q in *; lia). exfalso. apply N. rewrite <- Q.
    destruct (Z.sgn_spec num) as [[S ->]|[[S ->]|[S ->]]].
    + clear - SG S. nia.
    + rewrite (Z0 (eq_sym S)) in Q. clear - Q. lia.
    + clear - SG S. nia.
  - apply H2; [exact Q|]. clear - H1 T EV EW. destruct EW as [EW _]. lia.
Qed.

(** Bounds on the CIE2000 difference of two colours. *)
From Coq Require Import Reals Lra Psatz.
From Verif Require Import Base ColourModel TableModel CieModel.
Local Open Scope R_scope.

(** ** Angles *)
Lemma cos_atan_pos x : 0 < cos (atan x).
Proof. pose proof (atan_bound x). apply cos_gt_0; lra. Qed.
Lemma sqrt_pos_sq x : 0 <= x -> sqrt x * sqrt x = x.
Proof. apply sqrt_sqrt. Qed.
Lemma chroma_sq a b : chroma a b * chroma a b = a ^ 2 + b ^ 2.
Proof. unfold chroma. apply sqrt_sqrt. nra. Qed.
Lemma chroma_nonneg a b : 0 <= chroma a b.
Proof. apply sqrt_pos. Qed.
(** with x <> 0: |x| * sqrt (1 + (y/x)^2) = chroma *)
Lemma atan_polar x y : 0 < x -> chroma x y * cos (atan (y / x)) = x /\ chroma x y * sin (atan (y / x)) = y.
Proof.
  intros X. rewrite cos_atan, sin_atan. set (s := sqrt (1 + (y / x)²)).
  assert (SP : 0 < s). { apply sqrt_lt_R0. pose proof (Rle_0_sqr (y / x)). lra. }
  assert (E : chroma x y = x * s).
  { unfold chroma, s. rewrite <- (sqrt_square x) at 2 by lra. rewrite <- sqrt_mult; [|nra|pose proof (Rle_0_sqr (y / x)); lra].
    f_equal. unfold Rsqr. field. lra. }
  rewrite E. split; field; try split; lra.
Qed.
Lemma chroma_opp x y : chroma (- x) (- y) = chroma x y.
Proof. unfold chroma. f_equal. ring. Qed.
Lemma cos_shift x : cos (x + PI) = - cos x.
Proof. rewrite neg_cos. ring. Qed.
Lemma sin_shift x : sin (x + PI) = - sin x.
Proof. rewrite neg_sin. ring. Qed.
Lemma cos_shift' x : cos (x - PI) = - cos x.
Proof. rewrite cos_minus, cos_PI, sin_PI. ring. Qed.
Lemma sin_shift' x : sin (x - PI) = - sin x.
Proof. rewrite sin_minus, cos_PI, sin_PI. ring. Qed.
Lemma polar y x : chroma x y * cos (arctan2 y x) = x /\ chroma x y * sin (arctan2 y x) = y.
Proof.
  unfold arctan2. destruct (Rlt_dec 0 x) as [X|X]; [apply atan_polar, X|].
  destruct (Rlt_dec x 0) as [X'|X'].
  - destruct (atan_polar (- x) (- y)) as [A B]; [lra|]. rewrite chroma_opp in A, B. replace (- y / - x) with (y / x) in A, B by (field; lra).
    destruct (Rle_dec 0 y); rewrite ?cos_shift, ?sin_shift, ?cos_shift', ?sin_shift'; split; lra.
  - assert (x = 0) by lra. subst x. unfold chroma. replace (0 ^ 2 + y ^ 2) with (y * y) by ring.
    destruct (Rlt_dec 0 y) as [Y|Y].
    + rewrite sqrt_square, cos_PI2, sin_PI2 by lra. split; lra.
    + destruct (Rlt_dec y 0) as [Y'|Y'].
      * replace (y * y) with ((- y) * (- y)) by ring. rewrite sqrt_square by lra. replace (- PI / 2) with (- (PI / 2)) by lra. rewrite cos_neg, sin_neg, cos_PI2, sin_PI2. split; lra.
      * assert (y = 0) by lra. subst y. rewrite Rmult_0_l, sqrt_0. split; lra.
Qed.
Lemma radians_degrees x : radians (degrees x) = x.
Proof. unfold radians, degrees. field. pose proof PI_RGT_0. lra. Qed.
Lemma radians_plus x y : radians (x + y) = radians x + radians y.
Proof. unfold radians. field. Qed.
Lemma radians_360 : radians 360 = 2 * PI.
Proof. unfold radians. field. Qed.
Lemma hue_polar b a : chroma a b * cos (radians (hue b a)) = a /\ chroma a b * sin (radians (hue b a)) = b.
Proof.
  unfold hue. destruct (Rlt_dec _ 0).
  - rewrite radians_plus, radians_360, radians_degrees. rewrite cos_plus, sin_plus, cos_2PI, sin_2PI.
    pose proof (polar b a). split; lra.
  - rewrite radians_degrees. apply polar.
Qed.
Lemma cos_turn (f g : bool) x : cos (radians (x + (if f then 360 else 0) - (if g then 720 else 0))) = cos (radians x).
Proof.
  assert (E : radians (x + (if f then 360 else 0) - (if g then 720 else 0)) = radians x + (if f then 2 * PI else 0) - (if g then 2 * (2 * PI) else 0)).
  { unfold radians. destruct f, g; field. }
  rewrite E, cos_minus, cos_plus, sin_plus. 
  assert (C4 : cos (2 * (2 * PI)) = 1) by (rewrite cos_2a, cos_2PI, sin_2PI; ring).
  assert (S4 : sin (2 * (2 * PI)) = 0) by (rewrite sin_2a, cos_2PI, sin_2PI; ring).
  destruct f, g; rewrite ?C4, ?S4, ?cos_2PI, ?sin_2PI, ?cos_0, ?sin_0; ring.
Qed.

(** ** The difference as a quadratic form *)
Lemma sin_60 x : 0 <= x <= PI / 3 -> 0 <= sin x <= sqrt 3 / 2.
Proof.
  intros [A B]. pose proof PI_RGT_0. split; [apply sin_ge_0; lra|]. rewrite <- sin_PI3. apply sin_incr_1; lra.
Qed.
Lemma seventh_range c : 0 <= c -> 0 <= seventh c <= 1.
Proof.
  intros C. unfold seventh. split; [apply sqrt_pos|]. apply Rle_trans with (sqrt 1); [|rewrite sqrt_1; lra]. apply sqrt_le_1_alt.
  assert (0 <= c ^ 7) by (apply pow_le, C). apply (Rmult_le_reg_r (c ^ 7 + 25 ^ 7)); [lra|]. unfold Rdiv. rewrite Rmult_assoc, Rinv_l by lra. lra.
Qed.
Lemma form_bounds x y rt k : 0 <= k -> Rabs rt <= 2 * k -> (1 - k) * (x ^ 2 + y ^ 2) <= x ^ 2 + y ^ 2 + rt * x * y <= (1 + k) * (x ^ 2 + y ^ 2).
Proof.
  intros K R. assert (A : - (2 * k) <= rt <= 2 * k) by (unfold Rabs in R; destruct (Rcase_abs rt); lra).
  assert (B : Rabs (x * y) <= (x ^ 2 + y ^ 2) / 2). { pose proof (pow2_ge_0 (x - y)). pose proof (pow2_ge_0 (x + y)). unfold Rabs. destruct (Rcase_abs (x * y)); nra. }
  assert (C : Rabs (rt * (x * y)) <= 2 * k * ((x ^ 2 + y ^ 2) / 2)). { rewrite Rabs_mult. apply Rmult_le_compat; try apply Rabs_pos; assumption. }
  unfold Rabs in C. destruct (Rcase_abs (rt * (x * y))); lra.
Qed.
Lemma sl_range t : Rabs t <= 52 -> 1 <= 1 + 15 / 1000 * t ^ 2 / sqrt (20 + t ^ 2) <= 178 / 100.
Proof.
  intros T. assert (P : 0 < 20 + t ^ 2) by nra. assert (SP : 0 < sqrt (20 + t ^ 2)) by (apply sqrt_lt_R0, P).
  assert (G : Rabs t <= sqrt (20 + t ^ 2)). { rewrite <- sqrt_Rsqr_abs. apply sqrt_le_1_alt. unfold Rsqr. nra. }
  set (s := sqrt (20 + t ^ 2)) in *. clearbody s.
  assert (E : t ^ 2 = Rabs t * Rabs t) by (rewrite <- Rabs_mult, Rabs_right; [ring|nra]).
  assert (Q : 0 <= 15 / 1000 * t ^ 2 / s <= 15 / 1000 * Rabs t).
  { split.
    - apply Rmult_le_pos; [nra|]. left. apply Rinv_0_lt_compat, SP.
    - apply (Rmult_le_reg_r s); [exact SP|]. replace (15 / 1000 * t ^ 2 / s * s) with (15 / 1000 * t ^ 2) by (field; lra). pose proof (Rabs_pos t). rewrite E. nra. }
  lra.
Qed.
Lemma hue_weight h : 7 / 100 <= 1 - 17 / 100 * cos (radians (h - 30)) + 24 / 100 * cos (radians (2 * h))
             + 32 / 100 * cos (radians (3 * h + 6)) - 20 / 100 * cos (radians (4 * h - 63)) <= 193 / 100.
Proof.
  pose proof (COS_bound (radians (h - 30))). pose proof (COS_bound (radians (2 * h))). pose proof (COS_bound (radians (3 * h + 6))). pose proof (COS_bound (radians (4 * h - 63))). lra.
Qed.
Lemma rotation c h : 0 <= c -> Rabs (- 2 * seventh c * sin (2 * radians (30 * exp (- ((h - 275) / 25) ^ 2)))) <= 2 * (867 / 1000).
Proof.
  intros C. pose proof (seventh_range c C) as S7. set (r := 30 * exp _).
  assert (E : 0 <= exp (- ((h - 275) / 25) ^ 2) <= 1).
  { split; [left; apply exp_pos|]. rewrite <- exp_0. assert (Q : - ((h - 275) / 25) ^ 2 <= 0) by (pose proof (pow2_ge_0 ((h - 275) / 25)); lra).
    destruct Q as [Q|Q]; [left; apply exp_increasing, Q|rewrite Q; lra]. }
  pose proof PI_RGT_0 as PP.
  assert (R : 0 <= 2 * radians r <= PI / 3). { unfold radians. unfold r. split; [|]. - nra. - nra. }
  pose proof (sin_60 _ R) as [S0 S1].
  assert (Q3 : sqrt 3 / 2 <= 867 / 1000). { assert (sqrt 3 <= 1734 / 1000); [|lra]. rewrite <- (sqrt_square (1734 / 1000)) by lra. apply sqrt_le_1_alt. lra. }
  set (s := sin (2 * radians r)) in *. rewrite !Rabs_mult. rewrite (Rabs_right (seventh c)) by lra. rewrite (Rabs_right s) by lra.
  replace (Rabs (-2)) with 2 by (rewrite Rabs_left; lra). nra.
Qed.
(** chroma and hue differences together *)
Lemma plane a1 b1 a2 b2 (f g : bool) :
  let c1 := chroma a1 b1 in let c2 := chroma a2 b2 in
  (c2 - c1) ^ 2 + (2 * sqrt (c2 * c1) * sin (radians (hue b2 a2 - hue b1 a1 + (if f then 360 else 0) - (if g then 720 else 0)) / 2)) ^ 2
  = (a2 - a1) ^ 2 + (b2 - b1) ^ 2.
Proof.
  intros c1 c2. pose proof (chroma_nonneg a1 b1) as N1. pose proof (chroma_nonneg a2 b2) as N2. fold c1 in N1. fold c2 in N2.
  set (th := radians (hue b2 a2 - hue b1 a1 + _ - _)).
  assert (CT : c2 * c1 * cos th = a1 * a2 + b1 * b2).
  { unfold th. rewrite cos_turn. replace (radians (hue b2 a2 - hue b1 a1)) with (radians (hue b2 a2) - radians (hue b1 a1)) by (unfold radians; field).
    rewrite cos_minus. destruct (hue_polar b1 a1) as [A B]. destruct (hue_polar b2 a2) as [A' B']. fold c1 in A, B. fold c2 in A', B'.
    transitivity ((c2 * cos (radians (hue b2 a2))) * (c1 * cos (radians (hue b1 a1))) + (c2 * sin (radians (hue b2 a2))) * (c1 * sin (radians (hue b1 a1)))); [ring|].
    rewrite A, B, A', B'. ring. }
  assert (HALF : cos th = 1 - 2 * sin (th / 2) * sin (th / 2)). { rewrite <- cos_2a_sin. f_equal. field. }
  assert (SQ : sqrt (c2 * c1) * sqrt (c2 * c1) = c2 * c1) by (apply sqrt_sqrt; nra).
  pose proof (chroma_sq a1 b1) as Q1. pose proof (chroma_sq a2 b2) as Q2. fold c1 in Q1. fold c2 in Q2.
  transitivity (c2 * c2 + c1 * c1 - 2 * (c2 * c1) + 4 * (sqrt (c2 * c1) * sqrt (c2 * c1)) * (sin (th / 2) * sin (th / 2))); [ring|].
  rewrite SQ, Q1, Q2. rewrite HALF in CT. nra.
Qed.
Lemma chroma_scale k a b : 1 <= k <= 3 / 2 -> chroma (k * a) b <= 3 / 2 * chroma a b.
Proof.
  intros K. unfold chroma. rewrite <- (sqrt_square (3 / 2)) by lra. rewrite <- sqrt_mult; [|lra|nra]. apply sqrt_le_1_alt.
  assert (k * k <= 3 / 2 * (3 / 2)) by nra. pose proof (pow2_ge_0 a). pose proof (pow2_ge_0 b). replace ((k * a) ^ 2) with (k * k * a ^ 2) by ring. nra.
Qed.
Lemma sq_div x s : 0 < s -> (x / s) ^ 2 = x ^ 2 / (s * s).
Proof. intros S. field. lra. Qed.

Lemma div_le x d : 0 <= x -> 1 <= d -> x / d <= x.
Proof. intros X D. apply (Rmult_le_reg_r d); [lra|]. replace (x / d * d) with x by (field; lra). nra. Qed.

Theorem cie_bounds p q c : Rabs ((l_l p + l_l q) / 2 - 50) <= 52 -> chroma (l_a p) (l_b p) + chroma (l_a q) (l_b q) <= 2 * c ->
  sqrt (((l_l q - l_l p) / (178 / 100)) ^ 2 + 133 / 1000 * (((l_a q - l_a p) ^ 2 + (l_b q - l_b p) ^ 2) / (1 + 675 / 10000 * c) ^ 2)) <= cie2000 p q
  <= sqrt ((l_l q - l_l p) ^ 2 + 2 * (9 / 4 * (l_a q - l_a p) ^ 2 + (l_b q - l_b p) ^ 2)).
Proof.
  intros HL HC. unfold cie2000.
  set (c1 := chroma (l_a p) (l_b p)) in *. set (c2 := chroma (l_a q) (l_b q)) in *.
  assert (N1 : 0 <= c1) by apply chroma_nonneg. assert (N2 : 0 <= c2) by apply chroma_nonneg.
  set (g := 1 / 2 * (1 - seventh ((c1 + c2) / 2))).
  assert (G : 1 <= 1 + g <= 3 / 2). { pose proof (seventh_range ((c1 + c2) / 2) ltac:(lra)). unfold g. lra. }
  set (a1 := (1 + g) * l_a p). set (a2 := (1 + g) * l_a q).
  set (c1' := chroma a1 (l_b p)). set (c2' := chroma a2 (l_b q)).
  assert (N1' : 0 <= c1') by apply chroma_nonneg. assert (N2' : 0 <= c2') by apply chroma_nonneg.
  assert (M1 : c1' <= 3 / 2 * c1) by (apply chroma_scale, G). assert (M2 : c2' <= 3 / 2 * c2) by (apply chroma_scale, G).
  cbv zeta. set (avg_h := (_ + hue (l_b p) a1 + hue (l_b q) a2) / 2).
  set (t := 1 - 17 / 100 * cos (radians (avg_h - 30)) + _ + _ - _).
  assert (T : 7 / 100 <= t <= 193 / 100) by apply hue_weight.
  set (rt := - 2 * seventh ((c1' + c2') / 2) * _).
  assert (RT : Rabs rt <= 2 * (867 / 1000)) by (apply rotation; lra).
  set (dh := 2 * sqrt (c2' * c1') * _).
  set (sl := 1 + 15 / 1000 * ((l_l p + l_l q) / 2 - 50) ^ 2 / _). assert (SL : 1 <= sl <= 178 / 100) by (apply sl_range, HL).
  set (sc := 1 + 45 / 1000 * ((c1' + c2') / 2)). set (sh := 1 + 15 / 1000 * ((c1' + c2') / 2) * t).
  set (m := 1 + 675 / 10000 * c).
  assert (SC : 1 <= sc <= m) by (unfold sc, m; lra).
  assert (SH : 1 <= sh <= m). { assert (0 <= (c1' + c2') / 2 * t <= (c1' + c2') / 2 * (193 / 100)) by nra. unfold sh, m. lra. }
  assert (PL : (c2' - c1') ^ 2 + dh ^ 2 = (a2 - a1) ^ 2 + (l_b q - l_b p) ^ 2).
  { unfold dh, c1', c2'.
    match goal with |- context [if Rlt_dec ?u ?v then 360 else 0] => replace (if Rlt_dec u v then 360 else 0) with (if (if Rlt_dec u v then true else false) then 360 else 0) by (destruct (Rlt_dec u v); reflexivity) end.
    match goal with |- context [if Rlt_dec ?u ?v then 720 else 0] => replace (if Rlt_dec u v then 720 else 0) with (if (if Rlt_dec u v then true else false) then 720 else 0) by (destruct (Rlt_dec u v); reflexivity) end.
    apply plane. }
  clearbody t rt dh sl sc sh. clearbody c1' c2'. 
  assert (AA : (l_a q - l_a p) ^ 2 <= (a2 - a1) ^ 2 <= 9 / 4 * (l_a q - l_a p) ^ 2).
  { unfold a1, a2. replace ((1 + g) * l_a q - (1 + g) * l_a p) with ((1 + g) * (l_a q - l_a p)) by ring.
    set (u := l_a q - l_a p). replace (((1 + g) * u) ^ 2) with ((1 + g) * (1 + g) * u ^ 2) by ring. pose proof (pow2_ge_0 u).
    assert (1 <= (1 + g) * (1 + g) <= 9 / 4) by nra. nra. }
  set (dl := l_l q - l_l p) in *. set (da := (l_a q - l_a p) ^ 2) in *. set (db := (l_b q - l_b p) ^ 2) in *. set (da' := (a2 - a1) ^ 2) in *.
  set (x := (c2' - c1') / sc). set (y := dh / sh).
  assert (B0 : 0 <= da) by apply pow2_ge_0. assert (B1 : 0 <= db) by apply pow2_ge_0.
  assert (XY : (da' + db) / (m * m) <= x ^ 2 + y ^ 2 <= da' + db).
  { assert (X : (c2' - c1') ^ 2 / (m * m) <= x ^ 2 <= (c2' - c1') ^ 2).
    { unfold x. rewrite sq_div by lra. pose proof (pow2_ge_0 (c2' - c1')). split.
      - apply Rmult_le_compat_l; [assumption|]. apply Rinv_le_contravar; nra.
      - apply div_le; [assumption|nra]. }
    assert (Y : dh ^ 2 / (m * m) <= y ^ 2 <= dh ^ 2).
    { unfold y. rewrite sq_div by lra. pose proof (pow2_ge_0 dh). split.
      - apply Rmult_le_compat_l; [assumption|]. apply Rinv_le_contravar; nra.
      - apply div_le; [assumption|nra]. }
    rewrite <- PL. unfold Rdiv in *. rewrite Rmult_plus_distr_r. lra. }
  assert (L : (dl / (178 / 100)) ^ 2 <= (dl / sl) ^ 2 <= dl ^ 2).
  { rewrite !sq_div by lra. pose proof (pow2_ge_0 dl). split.
    - apply Rmult_le_compat_l; [assumption|]. apply Rinv_le_contravar; nra.
    - apply div_le; [assumption|nra]. }
  pose proof (form_bounds x y rt (867 / 1000) ltac:(lra) RT) as F.
  assert (MM : (da + db) / m ^ 2 <= (da' + db) / (m * m)).
  { replace (m ^ 2) with (m * m) by ring. apply Rmult_le_compat_r; [left; apply Rinv_0_lt_compat; nra|lra]. }
  split; apply sqrt_le_1_alt; lra.
Qed.
Lemma cie_same p : cie2000 p p = 0.
Proof.
  unfold cie2000. cbv zeta. apply (eq_trans (y := sqrt 0)); [|exact sqrt_0]. apply f_equal.
  set (h := hue _ _). set (c := chroma ((1 + _) * l_a p) _).
  destruct (Rlt_dec 180 (Rabs (h - h))) as [A|A]; [rewrite Rminus_eq_0, Rabs_R0 in A; lra|].
  destruct (Rlt_dec h h) as [B|B]; [lra|].
  replace (radians (h - h + 0 - 0) / 2) with 0 by (unfold radians; field). rewrite sin_0.
  replace (l_l p - l_l p) with 0 by ring. replace (c - c) with 0 by ring. unfold Rdiv. ring.
Qed.

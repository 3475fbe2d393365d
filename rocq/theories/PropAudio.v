(** Property C53: automatic normalisation. *)
From Verif Require Import Base ClockModel AudioModel AudioSpec AudioProofs.

(** At most one sample in a hundred, plus less than two, is beyond the value
    that is scaled to full scale, for every interpolation between neighbours
    (in particular the exact one). *)
Theorem C53_few_samples_exceed : forall lerp a, between lerp -> a <> [] ->
  100 * count (fun x => norm lerp a <? Z.abs x) a <= Z.of_nat (length a) + 198.
Proof. exact few_exceed. Qed.
Print Assumptions C53_few_samples_exceed.
Example C53_exact : between exact_lerp.
Proof. exact exact_between. Qed.
(** [exact_lerp] is the linear interpolation, rounded down. *)
Theorem C53_interpolation : forall a b t,
  1000 * exact_lerp a b t <= (1000 - t) * a + t * b < 1000 * (exact_lerp a b t + 1).
Proof. intros a b t. unfold exact_lerp. pose proof (Z.div_mod ((b - a) * t) 1000 ltac:(lia)). pose proof (Z.mod_pos_bound ((b - a) * t) 1000 ltac:(lia)). nia. Qed.
Print Assumptions C53_interpolation.

(** Every other sample is encoded without clipping, except those exactly at the
    bottom of the scale. *)
Theorem C53_rest_not_clipped : forall lerp a x, 0 < norm lerp a < 2 ^ 50 -> Z.abs x <= norm lerp a -> x <> - norm lerp a ->
  audio_value (normalised (norm lerp a) x) = Z.quot (16 * x) (norm lerp a) /\
  audio_value (normalised (norm lerp a) x) = to_int (normalised (norm lerp a) x).
Proof.
  intros lerp a x N X B. assert (R : - norm lerp a < x <= norm lerp a) by lia.
  pose proof (not_clipped _ _ N R) as E. split; [exact E|]. rewrite E. unfold normalised. replace (norm lerp a =? 0) with false by lia.
  unfold to_int. assert (Z.abs (16 * x ÷ norm lerp a) <= 16).
  { rewrite <- Z.quot_abs by lia. rewrite Z.quot_div_nonneg by lia. apply Z.div_le_upper_bound; lia. }
  replace ((- 2 ^ 63 <=? 16 * x ÷ norm lerp a) && (16 * x ÷ norm lerp a <? 2 ^ 63)) with true by lia. reflexivity.
Qed.
Print Assumptions C53_rest_not_clipped.

(** The docstring's "only <1% of samples will clip" is false because of those:
    half of the samples of a square wave are clipped (-16 becomes -15). *)
Definition square_wave : list Z := repeat 1000 100 ++ repeat (-1000) 100.
Theorem C53_docstring_refuted :
  norm exact_lerp square_wave = 1000 /\
  count (fun x => negb (audio_value (normalised 1000 x) =? to_int (normalised 1000 x))) square_wave = 100.
Proof. vm_compute. split; reflexivity. Qed.
Print Assumptions C53_docstring_refuted.
(** Silence has no scale: 16384/0 is infinite and every sample becomes -15. *)
Theorem C53_silence : forall lerp n, between lerp -> (0 < n)%nat ->
  norm lerp (repeat 0 n) = 0 /\ audio_value (normalised (norm lerp (repeat 0 n)) 0) = -15.
Proof.
  intros lerp n B N. assert (S : sort_z (repeat 0 n) = repeat 0 n).
  { clear. induction n; [reflexivity|]. change (insert_z 0 (sort_z (repeat 0 n)) = 0 :: repeat 0 n). rewrite IHn. destruct n; reflexivity. }
  assert (P : forall q, percentile lerp q (repeat 0 n) = 0).
  { intros q. unfold percentile. rewrite S. assert (E : forall i, nth i (repeat 0 n) 0 = 0) by (clear; induction n; intros [|i]; cbn; auto).
    rewrite !E. pose proof (B 0 0 ((Z.of_nat (length (repeat 0 n)) - 1) * q mod 1000) ltac:(lia)) as H.
    pose proof (Z.mod_pos_bound ((Z.of_nat (length (repeat 0 n)) - 1) * q) 1000 ltac:(lia)). lia. }
  assert (E : norm lerp (repeat 0 n) = 0) by (unfold norm; rewrite !P; reflexivity).
  split; [exact E|]. rewrite E. reflexivity.
Qed.
Print Assumptions C53_silence.
(** Louder samples than the analysed part: they are clipped to the top of the
    scale only as long as 16 times the ratio fits into 64 bits; beyond that (or
    after silence) [astype(int)] gives the most negative integer, and the loudest
    positive samples become -15, the lowest duty cycle. *)
Theorem C53_above_clips_high : forall norm x, 0 < norm -> norm <= x -> 16 * x < 2 ^ 63 * norm -> audio_value (normalised norm x) = 16.
Proof.
  intros norm x N X B. unfold normalised. replace (norm =? 0) with false by lia. unfold audio_value. cbn [to_int].
  assert (L : 16 <= 16 * x ÷ norm) by (rewrite Z.quot_div_nonneg by lia; apply Z.div_le_lower_bound; lia).
  assert (U : 16 * x ÷ norm < 2 ^ 63) by (rewrite Z.quot_div_nonneg by lia; apply Z.div_lt_upper_bound; lia).
  replace ((- 2 ^ 63 <=? 16 * x ÷ norm) && (16 * x ÷ norm <? 2 ^ 63)) with true by lia. unfold clip. lia.
Qed.
Print Assumptions C53_above_clips_high.
Theorem C53_overflow_is_lowest : forall norm x, 0 <= norm -> 2 ^ 63 * norm <= 16 * x -> audio_value (normalised norm x) = -15.
Proof.
  intros norm x N B. unfold normalised. destruct (norm =? 0) eqn:E; [destruct (x =? 0); reflexivity|]. apply Z.eqb_neq in E.
  unfold audio_value. cbn [to_int]. assert (L : 2 ^ 63 <= 16 * x ÷ norm) by (rewrite Z.quot_div_nonneg by lia; apply Z.div_le_lower_bound; lia).
  replace ((- 2 ^ 63 <=? 16 * x ÷ norm) && (16 * x ÷ norm <? 2 ^ 63)) with false by lia. reflexivity.
Qed.
Print Assumptions C53_overflow_is_lowest.

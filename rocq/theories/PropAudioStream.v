(** Property C73: the samples of the sound, from the file's bytes. *)
From Verif Require Import Base BaseFacts ClockModel AudioModel AudioSpec AudioProofs AudioStreamModel AudioStreamSpec AudioStreamProofs
  MovieSpec PropMovie.

(** audioread delivers the sound in buffers [bufs] of whole sample frames, at [from]
    Hz with [ch] channels; [to] is the rate of the movie. *)

(** Decoding never fails, every value has a duty cycle, and when buffer [k] begins
    the number of samples played is that of the source's time, never less and at
    most [k] more: the sound is never ahead of the source and lags by at most one
    sample per buffer. *)
Theorem C73_samples : forall rs from to ch f bufs,
  0 < ch -> 0 < from -> 0 < to -> resamples rs from to -> Forall (whole_frames ch) bufs ->
  exists out, audio_stream rs ch f bufs = (out, None) /\ good_audio out /\
  forall k, (k <= length bufs)%nat -> exists before after, out = before ++ after /\
    audio_stream rs ch f (firstn k bufs) = (before, None) /\
    frames_in ch (firstn k bufs) * to <= Z.of_nat (length before) * from <= frames_in ch (firstn k bufs) * to + Z.of_nat k * from.
Proof.
  intros rs from to ch f bufs C F T R W. exists (flat_map (values rs ch f) bufs). split; [apply stream_ok; assumption|]. split.
  - intros au H. apply in_flat_map in H. destruct H as (b & _ & H). unfold values in H. apply in_map_iff in H. destruct H as (x & <- & _). apply ClockProofs.clip_bounds.
  - intros k K. exists (flat_map (values rs ch f) (firstn k bufs)), (flat_map (values rs ch f) (skipn k bufs)).
    split; [rewrite <- flat_map_app, firstn_skipn; reflexivity|]. pose proof (Forall_firstn _ k _ W) as Wk.
    split; [apply stream_ok; assumption|]. pose proof (stream_count rs from to ch f _ C F T R Wk) as S. rewrite firstn_length_le in S by exact K. exact S.
Qed.
Print Assumptions C73_samples.

(** Together with the frame clock (C36): at the tick that plays the first sample
    of buffer [k], the source frame of that time has been started, and the last
    frame started is no later than that time plus [k + 1] samples. *)
Theorem C73_sync : forall rs from to ch f bufs rate k before,
  0 < ch -> 0 < from -> 0 < rate <= to -> resamples rs from to -> Forall (whole_frames ch) bufs -> (k <= length bufs)%nat ->
  audio_stream rs ch f (firstn k bufs) = (before, None) ->
  let started := due (exact_clock to rate) (S (length before)) in
  let frames := frames_in ch (firstn k bufs) in
  frames * rate < started * from /\ (started - 1) * from * to <= rate * (frames * to + (Z.of_nat k + 1) * from).
Proof.
  intros rs from to ch f bufs rate k before C F RT R W K E started frames.
  pose proof (Forall_firstn _ k _ W) as Wk. rewrite (stream_ok rs ch f _ C Wk) in E. injection E as <-.
  pose proof (stream_count rs from to ch f _ C F ltac:(lia) R Wk) as B. rewrite firstn_length_le in B by exact K. fold frames in B.
  unfold started. set (n := length (flat_map _ _)) in *. rewrite (C36_exact_clock to rate (S n)) by lia. assert (F0 : 0 <= frames) by (destruct (frames_whole ch _ C Wk) as (z & Z0 & _ & Z1); unfold frames; lia). clearbody n frames. clear - F F0 RT B.
  set (m := Z.of_nat (S n)). replace (Z.of_nat n) with (m - 1) in B by lia. assert (M : 0 < m) by lia. clearbody m. set (q := m * rate / to).
  assert (Q : to * q <= m * rate < to * q + to) by (pose proof (Z.div_mod (m * rate) to ltac:(lia)); pose proof (Z.mod_pos_bound (m * rate) to ltac:(lia)); unfold q; lia).
  assert (Q0 : q <= m) by (unfold q; apply Z.div_le_upper_bound; nia). clearbody q.
  set (kk := Z.of_nat k) in *. clearbody kk.
  assert (U : m * from <= frames * to + (kk + 1) * from) by lia. assert (D : frames * to < m * from) by lia. clear B.
  assert (RU : rate * (m * from) <= rate * (frames * to + (kk + 1) * from)) by (apply Z.mul_le_mono_nonneg_l; lia).
  split.
  - assert (A1 : frames * rate < m * from) by (apply Z.le_lt_trans with (frames * to); [apply Z.mul_le_mono_nonneg_l; lia|exact D]).
    assert (A2 : frames * rate < (1 + q) * from).
    { apply (Z.mul_lt_mono_pos_r to); [lia|]. apply Z.lt_trans with (rate * (m * from)).
      - replace (frames * rate * to) with (rate * (frames * to)) by ring. apply Z.mul_lt_mono_pos_l; lia.
      - replace (rate * (m * from)) with (m * rate * from) by ring. replace ((1 + q) * from * to) with ((to * q + to) * from) by ring. apply Z.mul_lt_mono_pos_r; lia. }
    destruct (Z.min_spec m (1 + q)) as [[_ ->]|[_ ->]]; assumption.
  - apply Z.le_trans with (rate * (m * from)); [|exact RU]. apply Z.le_trans with (q * from * to).
    + apply Z.mul_le_mono_nonneg_r; [lia|]. apply Z.mul_le_mono_nonneg_r; [lia|]. lia.
    + replace (q * from * to) with (to * q * from) by ring. replace (rate * (m * from)) with (m * rate * from) by ring. apply Z.mul_le_mono_nonneg_r; lia.
Qed.
Print Assumptions C73_sync.

(** The lag does grow: CD sound in buffers of 131072 bytes, which is what
    audio_stream asks for, at the default rate.  Each buffer of 32768 sample frames
    gives 10923 samples instead of 10922 2/3, so that after [k] buffers the sound is
    [k / 3] samples behind the pictures: about 0.11 s per hour. *)
Theorem C73_lag_grows : forall rs f bufs, resamples_exactly rs 44100 14700 ->
  Forall (whole_frames 2) bufs -> Forall (fun b => Z.of_nat (length b) = 131072) bufs ->
  exists out, audio_stream rs 2 f bufs = (out, None) /\
    Z.of_nat (length out) = 10923 * Z.of_nat (length bufs) /\
    3 * Z.of_nat (length out) = frames_in 2 bufs + Z.of_nat (length bufs).
Proof.
  intros rs f bufs (_ & R) W L. exists (flat_map (values rs 2 f) bufs). split; [apply stream_ok; [lia|exact W]|].
  assert (E : Z.of_nat (length (flat_map (values rs 2 f) bufs)) = 10923 * Z.of_nat (length bufs) /\ frames_in 2 bufs = 32768 * Z.of_nat (length bufs)).
  { induction W as [|b bufs Wb W IH]; [split; reflexivity|]. inversion L as [|? ? LB L']. subst. destruct (IH L') as [I1 I2].
    rewrite (frames_cons 2 b bufs ltac:(lia) Wb W), I2, LB. change (131072 / (2 * 2)) with 32768. cbn [flat_map]. rewrite app_length, Nat2Z.inj_add, I1.
    unfold values at 1. rewrite map_length, R, (mixed_length 2 b ltac:(lia) Wb), LB. change (- (- (131072 / (2 * 2) * 14700) / 44100)) with 10923. cbn [length]. lia. }
  destruct E as [E1 E2]. split; [exact E1|]. lia.
Qed.
Print Assumptions C73_lag_grows.

(** Sound that already has the movie's rate: sample [i] is the mean of the
    channels of sample frame [i] of the whole file, scaled by the factor p/q over
    1024, rounded towards zero and clipped to -15..16; the buffers do not matter. *)
Theorem C73_mix : forall ch p q bufs, 0 < ch -> 0 < q -> Forall (whole_frames ch) bufs ->
  exists out, audio_stream same_rate ch (Ratio p q) bufs = (out, None) /\
  Z.of_nat (length out) = frames_in ch bufs /\
  forall i, 0 <= i < frames_in ch bufs ->
    let v := Z.quot (mix ch (concat bufs) i * p) (1024 * ch * q) in
    Z.abs v < 2 ^ 63 -> nth (Z.to_nat i) out 0 = Z.min 16 (Z.max (-15) v).
Proof.
  intros ch p q bufs C Q W. exists (flat_map (values same_rate ch (Ratio p q)) bufs). split; [apply stream_ok; assumption|].
  destruct (same_rate_values ch (Ratio p q) bufs C W) as [L N]. split; [exact L|]. intros i I v V. rewrite N by exact I.
  set (x := mix ch (concat bufs) i) in *. unfold audio_value, scale, to_int, clip.
  assert (E : Z.quot (16 * (x * p)) (ch * 16384 * q) = v).
  { unfold v. replace (16 * (x * p)) with (x * p * 16) by lia. replace (ch * 16384 * q) with (1024 * ch * q * 16) by lia. apply Z.quot_mul_cancel_r; lia. }
  rewrite E. clear - V. change (2 ^ 63) with 9223372036854775808 in *. clearbody v. destruct ((- (9223372036854775808) <=? v) && (v <? 9223372036854775808)) eqn:B; [reflexivity|exfalso; lia].
Qed.
Print Assumptions C73_mix.

(** The bytes analysed for the normalisation are the file's first buffers: all of
    them if the file has at most 10 MiB, else more than 10 MiB. *)
Theorem C73_analysed : forall bufs, exists k, read_raw read_bytes [] bufs = concat (firstn k bufs) /\
  (Z.of_nat (length (concat bufs)) <= 10 * 2 ^ 20 -> concat (firstn k bufs) = concat bufs) /\
  (10 * 2 ^ 20 < Z.of_nat (length (concat bufs)) -> 10 * 2 ^ 20 < Z.of_nat (length (concat (firstn k bufs)))).
Proof.
  intros bufs. destruct (read_raw_prefix read_bytes bufs []) as (k & K1 & K2 & K3). cbn [app] in *. exists k. split; [exact K1|].
  change (10 * 2 ^ 20) with read_bytes. split.
  - intros L. rewrite (K3 L), firstn_all. reflexivity.
  - intros L. destruct K2 as [->|K2]; [rewrite firstn_all; exact L|rewrite <- K1; exact K2].
Qed.
Print Assumptions C73_analysed.
(** So for such a file, played at its own rate without the normalisation option,
    C53 is about the very samples that are played: some [n] is scaled to full scale,
    at most one in a hundred samples (plus less than two) is louder, and the others
    are encoded in proportion, but for those at exactly [-n].  [bufs0] are the
    buffers of the analysis. *)
Theorem C73_short_files : forall lerp ch bufs0 bufs given, between lerp -> 0 < ch ->
  bufs0 <> [] -> Forall (whole_frames ch) bufs0 -> Forall (whole_frames ch) bufs -> concat bufs0 = concat bufs ->
  Z.of_nat (length (concat bufs)) <= 10 * 2 ^ 20 -> given = None \/ (exists q, given = Some (0, q)) ->
  exists n f out, choose_normalization lerp same_rate ch bufs0 given = Ok f /\ audio_stream same_rate ch f bufs = (out, None) /\
  Z.of_nat (length out) = frames_in ch bufs /\
  100 * count (fun i => n <? Z.abs (mix ch (concat bufs) i)) (zrange (frames_in ch bufs)) <= frames_in ch bufs + 198 /\
  (0 < n < 2 ^ 50 -> forall i, 0 <= i < frames_in ch bufs -> let x := mix ch (concat bufs) i in
     Z.abs x <= n -> x <> - n -> nth (Z.to_nat i) out 0 = Z.quot (16 * x) n).
Proof.
  intros lerp ch bufs0 bufs given B C NE W0 W E L G.
  assert (EN : choose_normalization lerp same_rate ch bufs0 given = normalization lerp same_rate ch bufs0) by (destruct G as [->|(q & ->)]; reflexivity).
  destruct (read_raw_prefix read_bytes bufs0 []) as (k & K1 & _ & K3). cbn [app] in *. rewrite E in K3. specialize (K3 L). rewrite K3, firstn_all, E in K1.
  pose proof (whole_concat ch bufs0 C NE W0) as WC. rewrite E in WC.
  set (a := mixed ch (concat bufs)).
  assert (LA : Z.of_nat (length a) = frames_in ch bufs) by (unfold a; rewrite mixed_length by assumption; reflexivity).
  assert (NA : a <> []).
  { intros X. rewrite X in LA. cbn in LA. destruct WC as (_ & m & M & LM). unfold frames_in in LA. rewrite LM in LA. replace (2 * ch * m) with (m * (2 * ch)) in LA by lia. rewrite Z.div_mul in LA by lia. lia. }
  set (n := norm lerp a). assert (N0 : 0 <= n) by (unfold n, norm; lia).
  exists n, (if n =? 0 then Infinite else Ratio (16384 * ch) n). eexists. split.
  { rewrite EN. unfold normalization. rewrite K1, (decode_ok same_rate ch _ C WC). cbn [rbind same_rate r_run r_unit]. fold a. fold n. rewrite Z.mul_1_r. destruct a; [contradiction|reflexivity]. }
  split; [apply stream_ok; assumption|]. destruct (same_rate_values ch (if n =? 0 then Infinite else Ratio (16384 * ch) n) bufs C W) as [LO NO]. split; [exact LO|]. split.
  - pose proof (few_exceed lerp a B NA) as FE. fold n in FE. rewrite LA in FE. unfold count in *.
    assert (X : forall (g : Z -> bool) (h : Z -> Z) l, length (filter g (map h l)) = length (filter (fun i => g (h i)) l)).
    { intros g h l. induction l as [|y l IH]; [reflexivity|]. cbn [map filter]. destruct (g (h y)); cbn [length]; rewrite IH; reflexivity. }
    replace (filter (fun x => n <? Z.abs x) a) with (filter (fun x => n <? Z.abs x) (map (mix ch (concat bufs)) (zrange (frames_in ch bufs)))) in FE by reflexivity.
    rewrite X in FE. exact FE.
  - intros N i I X1 X2. rewrite NO by exact I. set (x := mix ch (concat bufs) i) in *. rewrite (auto_value n ch x C N0). apply not_clipped; [exact N|lia].
Qed.
Print Assumptions C73_short_files.

(** With the normalisation option, p/q other than 0, the file is not analysed: the
    channels' mean is scaled by p/q over 1024, whatever else is in the file. *)
Theorem C73_given : forall lerp ch p q bufs0 bufs, 0 < ch -> 0 < q -> p <> 0 -> Forall (whole_frames ch) bufs ->
  exists f out, choose_normalization lerp same_rate ch bufs0 (Some (p, q)) = Ok f /\ audio_stream same_rate ch f bufs = (out, None) /\
  Z.of_nat (length out) = frames_in ch bufs /\
  forall i, 0 <= i < frames_in ch bufs ->
    let v := Z.quot (mix ch (concat bufs) i * p) (1024 * ch * q) in
    Z.abs v < 2 ^ 63 -> nth (Z.to_nat i) out 0 = Z.min 16 (Z.max (-15) v).
Proof.
  intros lerp ch p q bufs0 bufs C Q P W. destruct (C73_mix ch p q bufs C Q W) as (out & H). exists (Ratio p q), out. split; [|exact H].
  unfold choose_normalization. destruct (Z.eqb_spec p 0); [contradiction|reflexivity].
Qed.
Print Assumptions C73_given.

(** A buffer that does not hold whole sample frames ends the stream with a
    ValueError, after the samples of all buffers before it. *)
Theorem C73_bad_buffer : forall rs ch f bufs b later, 0 < ch -> Forall (whole_frames ch) bufs -> Z.of_nat (length b) mod (2 * ch) <> 0 ->
  exists out, audio_stream rs ch f bufs = (out, None) /\ audio_stream rs ch f (bufs ++ b :: later) = (out, Some ValueError).
Proof.
  intros rs ch f bufs b later C W B. exists (flat_map (values rs ch f) bufs). split; [apply stream_ok; assumption|apply stream_bad; assumption].
Qed.
Print Assumptions C73_bad_buffer.

(** ** The hypotheses can be met *)
Example C73_case : let b := concat (repeat [0; 1; 255; 255] 100) in
  Forall (whole_frames 2) [b; b] /\ resamples same_rate 14700 14700 /\ mix 2 (b ++ b) 150 = 255 /\
  (exists rs, resamples_exactly rs 44100 14700 /\ resamples rs 44100 14700).
Proof.
  assert (W : whole_frames 2 (concat (repeat [0; 1; 255; 255] 100))).
  { split; [|exists 100; split; [lia|reflexivity]]. apply Forall_concat. apply Forall_forall. intros x H. apply repeat_spec in H. subst x. repeat constructor; lia. }
  split; [constructor; [exact W|constructor; [exact W|constructor]]|]. split; [split; [cbn; lia|intros l; cbn [same_rate r_run]; lia]|]. split; [reflexivity|].
  exists {| r_unit := 1; r_run := fun l => repeat 0 (Z.to_nat (- (- (Z.of_nat (length l) * 14700) / 44100))) |}.
  assert (P : forall l : list Z, 0 <= - (- (Z.of_nat (length l) * 14700) / 44100)) by (intros l; dlia).
  split; (split; [cbn; lia|]); intros l; cbn [r_run]; rewrite repeat_length, Z2Nat.id by apply P; [reflexivity|dlia].
Qed.
(** a buffer of the size that audio_stream asks for *)
Example C73_buffer : let b := repeat 0 (Z.to_nat 131072) in whole_frames 2 b /\ Z.of_nat (length b) = 131072.
Proof.
  cbv zeta. assert (L : Z.of_nat (length (repeat 0 (Z.to_nat 131072))) = 131072) by (rewrite repeat_length; apply Z2Nat.id; lia).
  split; [|exact L]. split; [apply Forall_forall; intros x H; apply repeat_spec in H; subst x; lia|]. exists 32768. split; [lia|]. rewrite L. reflexivity.
Qed.

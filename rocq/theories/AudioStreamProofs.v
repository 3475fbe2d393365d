(** Proofs about the stream of samples. *)
From Verif Require Import Base BaseFacts ClockModel AudioModel AudioSpec AudioProofs AudioStreamModel AudioStreamSpec MovieSpec ClockProofs.

(** ** Decoding *)
Lemma int16_pcm lo hi : 0 <= lo < 256 -> 0 <= hi < 256 -> int16 lo hi = (lo + 256 * hi + 32768) mod 65536 - 32768.
Proof. intros L H. unfold int16. destruct (256 * hi + lo <? 32768) eqn:E; rewrite ?Z.ltb_lt, ?Z.ltb_ge in E; dlia. Qed.
Lemma frombuffer_ok : forall n buf, Forall (fun b => 0 <= b < 256) buf -> length buf = (2 * n)%nat ->
  exists l, frombuffer buf = Ok l /\ length l = n /\ forall k, 0 <= k < Z.of_nat n -> nth (Z.to_nat k) l 0 = pcm buf k.
Proof.
  induction n as [|n IH]; intros buf B L.
  - destruct buf; [|discriminate]. exists []. split; [reflexivity|]. split; [reflexivity|]. intros k K. lia.
  - destruct buf as [|lo [|hi buf]]; cbn [length] in L; [lia|lia|]. inversion B as [|? ? B1 B']. inversion B' as [|? ? B2 B3]. subst.
    destruct (IH buf B3 ltac:(lia)) as (l & E & LL & N). exists (int16 lo hi :: l). cbn [frombuffer]. rewrite E. cbn [rbind]. split; [reflexivity|].
    split; [cbn [length]; lia|]. intros k K. destruct (Z.eq_dec k 0) as [->|NZ].
    + cbn [Z.to_nat nth]. rewrite int16_pcm by assumption. reflexivity.
    + replace (Z.to_nat k) with (S (Z.to_nat (k - 1))) by lia. cbn [nth]. rewrite N by lia. unfold pcm.
      replace (Z.to_nat (2 * k)) with (S (S (Z.to_nat (2 * (k - 1))))) by lia. replace (Z.to_nat (2 * k + 1)) with (S (S (Z.to_nat (2 * (k - 1) + 1)))) by lia. reflexivity.
Qed.
Lemma zrange_snoc a n : zrange_from a (S n) = zrange_from a n ++ [a + Z.of_nat n].
Proof.
  revert a. induction n as [|n IH]; intros a; [cbn; rewrite Z.add_0_r; reflexivity|].
  change (zrange_from a (S (S n))) with (a :: zrange_from (a + 1) (S n)). rewrite IH. cbn [zrange_from app]. do 3 f_equal. lia.
Qed.
Lemma fold_sum f n : fold_left Z.add (map f (zrange_from 0 n)) 0 = sum_to f n.
Proof. induction n as [|n IH]; [reflexivity|]. rewrite zrange_snoc, map_app, fold_left_app, IH. cbn [map fold_left sum_to]. rewrite Z.add_0_l. reflexivity. Qed.
Lemma sum_ext f g n : (forall k, 0 <= k < Z.of_nat n -> f k = g k) -> sum_to f n = sum_to g n.
Proof. induction n as [|n IH]; intros H; [reflexivity|]. cbn [sum_to]. rewrite IH by (intros; apply H; lia). rewrite H by lia. reflexivity. Qed.
Lemma zrange_length n : 0 <= n -> Z.of_nat (length (zrange n)) = n.
Proof. intros H. unfold zrange. enough (E : forall a k, length (zrange_from a k) = k) by (rewrite E; lia). intros a k. revert a. induction k; intros; cbn [zrange_from length]; auto. Qed.

(** the mix of a buffer *)
Definition mixed (ch : Z) (buf : list Z) : list Z := map (mix ch buf) (zrange (Z.of_nat (length buf) / (2 * ch))).
Lemma map_zrange_ext {A} (f g : Z -> A) n : (forall i, 0 <= i < n -> f i = g i) -> map f (zrange n) = map g (zrange n).
Proof.
  intros H. destruct (Z_le_gt_dec n 0) as [L|G]; [unfold zrange; replace (Z.to_nat n) with 0%nat by lia; reflexivity|].
  apply map_ext_in. intros i I. apply H. apply in_zrange in I; [exact I|lia].
Qed.
Lemma decode_ok rs ch buf : 0 < ch -> whole_frames ch buf -> decode_audio rs ch buf = Ok (r_run rs (mixed ch buf)).
Proof.
  intros C (B & n & N & L). unfold decode_audio.
  destruct (frombuffer_ok (Z.to_nat (ch * n)) buf B ltac:(lia)) as (l & E & LL & P). rewrite E. cbn [rbind].
  assert (LZ : Z.of_nat (length l) = ch * n) by lia.
  unfold reshape_channels. rewrite LZ. replace (ch <=? 0) with false by lia. rewrite (Z.mul_comm ch n), Z.mod_mul, Z.div_mul by lia. cbn [negb orb Z.eqb rbind].
  f_equal. f_equal. unfold to_mono, mixed. cbn [fst snd]. rewrite L. replace (2 * ch * n) with (n * (2 * ch)) by lia. rewrite Z.div_mul by lia.
  apply map_zrange_ext. intros i I. unfold zrange. rewrite fold_sum. unfold mix. apply sum_ext. intros c HC. apply P. nia.
Qed.
Lemma mixed_length ch buf : 0 < ch -> whole_frames ch buf -> Z.of_nat (length (mixed ch buf)) = Z.of_nat (length buf) / (2 * ch).
Proof. intros C W. unfold mixed. rewrite map_length. apply zrange_length. apply Z.div_pos; lia. Qed.

(** ** The stream *)
Definition values (rs : resampler) (ch : Z) (f : factor) (buf : list Z) : list Z :=
  map (fun x => audio_value (scale f (ch * r_unit rs) x)) (r_run rs (mixed ch buf)).
Lemma stream_ok rs ch f bufs : 0 < ch -> Forall (whole_frames ch) bufs -> audio_stream rs ch f bufs = (flat_map (values rs ch f) bufs, None).
Proof.
  intros C W. induction W as [|b bufs W Ws IH]; [reflexivity|]. cbn [audio_stream flat_map]. rewrite (decode_ok rs ch b C W), IH. reflexivity.
Qed.
Lemma frames_whole ch bufs : 0 < ch -> Forall (whole_frames ch) bufs -> exists n, 0 <= n /\ Z.of_nat (length (concat bufs)) = 2 * ch * n /\ frames_in ch bufs = n.
Proof.
  intros C W. assert (E : exists n, 0 <= n /\ Z.of_nat (length (concat bufs)) = 2 * ch * n).
  { induction W as [|b bufs (_ & n & N & L) Ws (k & K & E)]; [exists 0; cbn; lia|]. exists (n + k). cbn [concat]. rewrite app_length. lia. }
  destruct E as (n & N & E). exists n. split; [exact N|]. split; [exact E|]. unfold frames_in. rewrite E. replace (2 * ch * n) with (n * (2 * ch)) by lia. apply Z.div_mul. lia.
Qed.
Lemma frames_cons ch b bufs : 0 < ch -> whole_frames ch b -> Forall (whole_frames ch) bufs ->
  frames_in ch (b :: bufs) = Z.of_nat (length b) / (2 * ch) + frames_in ch bufs.
Proof.
  intros C (B & n & N & L) W. destruct (frames_whole ch bufs C W) as (k & K & E & F). rewrite F. unfold frames_in. cbn [concat]. rewrite app_length, Nat2Z.inj_add, E, L.
  replace (2 * ch * n + 2 * ch * k) with ((n + k) * (2 * ch)) by lia. replace (2 * ch * n) with (n * (2 * ch)) by lia. rewrite !Z.div_mul by lia. reflexivity.
Qed.
Lemma stream_count rs from to ch f bufs : 0 < ch -> 0 < from -> 0 < to -> resamples rs from to -> Forall (whole_frames ch) bufs ->
  frames_in ch bufs * to <= Z.of_nat (length (flat_map (values rs ch f) bufs)) * from <= frames_in ch bufs * to + Z.of_nat (length bufs) * from.
Proof.
  intros C F T (_ & R) W. induction W as [|b bufs Wb W IH]; [cbn; lia|].
  rewrite (frames_cons ch b bufs C Wb W). cbn [flat_map length]. rewrite app_length. unfold values at 1 3. rewrite map_length.
  pose proof (R (mixed ch b)) as RB. rewrite (mixed_length ch b C Wb) in RB. lia.
Qed.
Lemma Forall_firstn {A} (P : A -> Prop) n l : Forall P l -> Forall P (firstn n l).
Proof. intros H. revert n. induction H; intros [|n]; cbn [firstn]; constructor; auto. Qed.

(** ** No resampling *)
Lemma pcm_app1 a b k : 0 <= k -> 2 * k + 1 < Z.of_nat (length a) -> pcm (a ++ b) k = pcm a k.
Proof. intros K L. unfold pcm. rewrite !app_nth1 by lia. reflexivity. Qed.
Lemma pcm_app2 a b k n : Z.of_nat (length a) = 2 * n -> 0 <= k - n -> 0 <= n -> pcm (a ++ b) k = pcm b (k - n).
Proof.
  intros L K N. unfold pcm. rewrite !app_nth2 by lia. replace (Z.to_nat (2 * k) - length a)%nat with (Z.to_nat (2 * (k - n))) by lia.
  replace (Z.to_nat (2 * k + 1) - length a)%nat with (Z.to_nat (2 * (k - n) + 1)) by lia. reflexivity.
Qed.
Lemma mix_app1 ch a b i n : 0 < ch -> Z.of_nat (length a) = 2 * ch * n -> 0 <= i < n -> mix ch (a ++ b) i = mix ch a i.
Proof. intros C L I. unfold mix. apply sum_ext. intros c HC. apply pcm_app1; [nia|nia]. Qed.
Lemma mix_app2 ch a b i n : 0 < ch -> Z.of_nat (length a) = 2 * ch * n -> 0 <= n <= i -> mix ch (a ++ b) i = mix ch b (i - n).
Proof.
  intros C L I. unfold mix. apply sum_ext. intros c HC. rewrite (pcm_app2 a b _ (ch * n)) by nia. f_equal. lia.
Qed.
Lemma nth_map_zrange {A} (f : Z -> A) n i d : 0 <= i < n -> nth (Z.to_nat i) (map f (zrange n)) d = f i.
Proof.
  intros I. assert (E : forall a k j, (j < k)%nat -> nth j (map f (zrange_from a k)) d = f (a + Z.of_nat j)).
  { intros a k. revert a. induction k as [|k IH]; intros a j J; [lia|]. cbn [zrange_from map]. destruct j as [|j]; cbn [nth]; [f_equal; lia|]. rewrite IH by lia. f_equal. lia. }
  unfold zrange. rewrite E by lia. f_equal. lia.
Qed.
Lemma same_rate_values ch f bufs : 0 < ch -> Forall (whole_frames ch) bufs ->
  Z.of_nat (length (flat_map (values same_rate ch f) bufs)) = frames_in ch bufs /\
  forall i, 0 <= i < frames_in ch bufs -> nth (Z.to_nat i) (flat_map (values same_rate ch f) bufs) 0 = audio_value (scale f ch (mix ch (concat bufs) i)).
Proof.
  intros C W. induction W as [|b bufs Wb W (L & N)]; [split; [reflexivity|]; intros i I; cbn in I; lia|].
  rewrite (frames_cons ch b bufs C Wb W). cbn [flat_map concat]. pose proof Wb as (_ & n & NP & LB).
  assert (LV : Z.of_nat (length (values same_rate ch f b)) = n).
  { unfold values. rewrite map_length. cbn [same_rate r_run]. rewrite mixed_length by assumption. rewrite LB. replace (2 * ch * n) with (n * (2 * ch)) by lia. apply Z.div_mul. lia. }
  rewrite LB. replace (2 * ch * n) with (n * (2 * ch)) by lia. rewrite Z.div_mul by lia.
  split; [rewrite app_length; lia|]. intros i I. destruct (Z_lt_le_dec i n) as [Lt|Ge].
  - rewrite app_nth1 by lia. rewrite (mix_app1 ch b (concat bufs) i n C LB ltac:(lia)). unfold values, mixed. cbn [same_rate r_run r_unit]. rewrite map_map.
    rewrite LB. replace (2 * ch * n) with (n * (2 * ch)) by lia. rewrite Z.div_mul by lia. rewrite nth_map_zrange by lia. rewrite Z.mul_1_r. reflexivity.
  - rewrite app_nth2 by lia. rewrite (mix_app2 ch b (concat bufs) i n C LB ltac:(lia)). rewrite <- N by lia. f_equal. lia.
Qed.

(** ** Normalisation *)
Lemma read_raw_prefix limit bufs : forall raw, exists k, read_raw limit raw bufs = raw ++ concat (firstn k bufs) /\
  (k = length bufs \/ limit < Z.of_nat (length (read_raw limit raw bufs))) /\
  (Z.of_nat (length (raw ++ concat bufs)) <= limit -> k = length bufs).
Proof.
  induction bufs as [|b bufs IH]; intros raw.
  - exists 0%nat. cbn. rewrite app_nil_r. auto.
  - cbn [read_raw concat length]. destruct (limit <? Z.of_nat (length (raw ++ b))) eqn:E.
    + exists 1%nat. cbn [firstn concat]. rewrite app_nil_r. apply Z.ltb_lt in E. split; [reflexivity|]. split; [right; exact E|].
      intros L. rewrite !app_length in *. lia.
    + destruct (IH (raw ++ b)) as (k & K1 & K2 & K3). exists (S k). cbn [firstn concat]. rewrite K1, <- app_assoc. split; [reflexivity|].
      split; [destruct K2 as [->|K2]; [left; reflexivity|right; rewrite K1, <- app_assoc in K2; exact K2]|]. intros L. f_equal. apply K3. rewrite <- app_assoc. exact L.
Qed.
Lemma whole_concat ch bufs : 0 < ch -> bufs <> [] -> Forall (whole_frames ch) bufs -> whole_frames ch (concat bufs).
Proof.
  intros C NE W. split.
  - clear NE. induction W as [|b bufs (B & _) W IH]; cbn [concat]; [constructor|]. apply Forall_app. split; assumption.
  - destruct (frames_whole ch bufs C W) as (n & N & L & _). exists n. split; [|exact L]. destruct W as [|b bufs (_ & m & M & LB) W]; [contradiction|].
    cbn [concat] in L. rewrite app_length in L. destruct (Z.eq_dec n 0); [subst; lia|lia].
Qed.
Lemma auto_value n unit x : 0 < unit -> 0 <= n -> audio_value (scale (if n =? 0 then Infinite else Ratio (16384 * unit) n) unit x) = audio_value (normalised n x).
Proof.
  intros U N. unfold normalised, scale. destruct (n =? 0) eqn:E; [reflexivity|]. apply Z.eqb_neq in E. unfold audio_value, to_int.
  replace (16 * (x * (16384 * unit))) with (16 * x * (16384 * unit)) by lia. replace (unit * 16384 * n) with (n * (16384 * unit)) by lia.
  rewrite Z.quot_mul_cancel_r by lia. reflexivity.
Qed.

(** ** Buffers that do not hold whole sample frames *)
Lemma frombuffer_even : forall n buf, length buf = n -> match frombuffer buf with Ok l => length buf = (2 * length l)%nat | Raise e => e = ValueError /\ Nat.odd (length buf) = true end.
Proof.
  induction n as [n IH] using lt_wf_ind. intros buf L. destruct buf as [|lo [|hi rest]]; [reflexivity|split; reflexivity|].
  cbn [frombuffer]. cbn [length] in L. specialize (IH (length rest) ltac:(lia) rest eq_refl). destruct (frombuffer rest) as [l|e]; cbn [rbind].
  - cbn [length]. lia.
  - exact IH.
Qed.
Lemma decode_bad rs ch buf : 0 < ch -> Z.of_nat (length buf) mod (2 * ch) <> 0 -> decode_audio rs ch buf = Raise ValueError.
Proof.
  intros C B. unfold decode_audio. pose proof (frombuffer_even _ buf eq_refl) as F. destruct (frombuffer buf) as [l|e]; cbn [rbind]; [|destruct F as [-> _]; reflexivity].
  unfold reshape_channels. destruct (Z.leb_spec ch 0); [lia|]. cbn [orb]. destruct (Z.eqb_spec (Z.of_nat (length l) mod ch) 0) as [E|E]; [|reflexivity].
  exfalso. apply B. rewrite F. rewrite Nat2Z.inj_mul. change (Z.of_nat 2) with 2. rewrite Z.mul_mod_distr_l by lia. lia.
Qed.
Lemma stream_bad rs ch f bufs b later : 0 < ch -> Forall (whole_frames ch) bufs -> Z.of_nat (length b) mod (2 * ch) <> 0 ->
  audio_stream rs ch f (bufs ++ b :: later) = (flat_map (values rs ch f) bufs, Some ValueError).
Proof.
  intros C W B. induction W as [|x bufs Wx W IH]; cbn [app audio_stream flat_map]; [rewrite (decode_bad rs ch b C B); reflexivity|].
  rewrite (decode_ok rs ch x C Wx), IH. reflexivity.
Qed.

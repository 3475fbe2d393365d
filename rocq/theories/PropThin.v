(** C95: encoding every [n]-th frame is encoding a video thinned to those frames. *)
From Verif Require Import Base BaseFacts ScreenModel ScreenSpec BitmapModel BitmapSpec VideoModel VideoSpec OpcodeModel MovieModel MovieSpec MovieFinal ClockModel PropMovie
  SymbolModel AddrThms CpuModel PlayerModel PlaybackSpec PlaybackConv PropPlayback PropIndep SkipProofs ThinProofs ThinClock.
Opaque TABLES all_pairs next.

(** Let [frames'] be every [n]-th frame of [frames], from the first on, and [clock]
    the frame clock whose [j]-th frame falls due with the [n j]-th of [c].  If the
    grabber does not run out of frames before the sound ends, and no more than one
    frame falls due per tick, encoding each of [frames'] gives the same bytes as
    encoding every [n]-th of [frames]. *)
Theorem C95_thinned : forall c clock audio (frames frames' : list frame), let n := c_every_n c in
  1 <= n -> (forall t j, clock t j = c_clock c t (n * j)) ->
  due (c_clock c) (length audio) <= Z.of_nat (length frames) ->
  (forall t j, (t < length audio)%nat -> due (c_clock c) t < j -> c_clock c (Z.of_nat (S t)) j = false) ->
  (forall j, n * Z.of_nat j < Z.of_nat (length frames) -> nth_error frames' j = nth_error frames (Z.to_nat (n * Z.of_nat j))) ->
  transcode (thinned c clock) audio frames' = transcode c audio frames.
Proof. intros c clock audio frames frames' n N CL EN ONE FR. exact (transcode_thin c clock CL N (length audio) frames frames' EN FR ONE audio eq_refl). Qed.
Print Assumptions C95_thinned.

(** With the exact clock: skipping at [rate] frames per second is encoding all of
    the thinned video at [rate / n] frames per second. *)
Theorem C95_exact_rate : forall c bitrate rate audio (frames frames' : list frame), let n := c_every_n c in
  1 <= n -> 0 < rate < bitrate -> c_clock c = exact_clock bitrate rate ->
  1 + Z.of_nat (length audio) * rate / bitrate <= Z.of_nat (length frames) ->
  (forall j, n * Z.of_nat j < Z.of_nat (length frames) -> nth_error frames' j = nth_error frames (Z.to_nat (n * Z.of_nat j))) ->
  transcode (thinned c (exact_clock (n * bitrate) rate)) audio frames' = transcode c audio frames.
Proof.
  intros c bitrate rate audio frames frames' n N R E L FR.
  assert (D : forall t, (0 < t)%nat -> due (exact_clock bitrate rate) t = Z.min (Z.of_nat t) (1 + Z.of_nat t * rate / bitrate)) by (intros t H; apply C36_exact_clock; lia).
  apply C95_thinned; [exact N| | | |exact FR]; rewrite E.
  - intros t j. unfold exact_clock. fold n. f_equal. ring.
  - destruct (length audio) as [|t] eqn:LA; [cbn [due]; lia|]. rewrite D by lia. lia.
  - intros t j _ H. unfold exact_clock. apply Z.leb_gt. destruct t as [|t]; [cbn [due] in H; clear - H R; nia|]. remember (S t) as u eqn:U. rewrite D in H by lia.
    assert (U1 : 1 <= Z.of_nat u) by lia. rewrite Nat2Z.inj_succ. set (x := Z.of_nat u) in *. clearbody x. clear - H R U1.
    pose proof (Z.div_mod (x * rate) bitrate ltac:(lia)) as DM. pose proof (Z.mod_pos_bound (x * rate) bitrate ltac:(lia)) as DB.
    set (q := x * rate / bitrate) in *. clearbody q. set (r := (x * rate) mod bitrate) in *. clearbody r.
    destruct (Z.le_gt_cases x (1 + q)).
    + rewrite Z.min_l in H by lia. nia.
    + rewrite Z.min_r in H by lia. assert (bitrate * (q + 2) <= bitrate * j) by nia. nia.
Qed.
Print Assumptions C95_exact_rate.

(** With the clock as computed in binary64 ([m/2^s] is the double
    [ticks_per_frame], see C36_float_clock): the same when every second, fourth,
    ... frame is encoded (main.py's default is every second).  [2^q m / 2^s] is
    the double that is computed for the frame rate divided by [2^q]. *)
Theorem C95_computed_clock : forall c q m s audio (frames frames' : list frame), let n := c_every_n c in
  0 <= q -> n = 2 ^ q -> c_clock c = float_clock m s -> 0 <= s -> 2 * 2 ^ s <= m -> Z.of_nat (length audio) <= 2 ^ 52 ->
  due (c_clock c) (length audio) <= Z.of_nat (length frames) ->
  (forall j, n * Z.of_nat j < Z.of_nat (length frames) -> nth_error frames' j = nth_error frames (Z.to_nat (n * Z.of_nat j))) ->
  transcode (thinned c (float_clock (2 ^ q * m) s)) audio frames' = transcode c audio frames.
Proof.
  intros c q m s audio frames frames' n Q N E S M L EN FR.
  apply C95_thinned; [| |exact EN| |exact FR]; fold n.
  - rewrite N. assert (0 < 2 ^ q) by (apply Z.pow_pos_nonneg; lia). lia.
  - intros t j. rewrite E, N. exact (float_thin m s q t j Q).
  - intros t j H. rewrite E. apply float_one; [exact S|exact M|lia].
Qed.
Print Assumptions C95_computed_clock.

(** The hypotheses are met: 1000 samples at 14700 Hz, four frames at 30 Hz of which
    every other one is encoded, and the two of them at 15 Hz; both convert. *)
Definition white_ex : frame := ({| mm_page := 1; mm_data := fun _ _ => 127 |}, {| mm_page := 1; mm_data := fun _ _ => 0 |}).
Example C95_case : let frames : list frame := [black_ex; white_ex; white_ex; black_ex] in let frames' : list frame := [black_ex; white_ex] in let n := c_every_n (config_ex 0) in
  n = 2 /\ c_clock (config_ex 0) = exact_clock 14700 30 /\ 1 + Z.of_nat (length (audio_ex 1000)) * 30 / 14700 <= Z.of_nat (length frames) /\
  (forall j, n * Z.of_nat j < Z.of_nat (length frames) -> nth_error frames' j = nth_error frames (Z.to_nat (n * Z.of_nat j))) /\
  exists bytes, transcode (config_ex 0) (audio_ex 1000) frames = Ok bytes /\ transcode (thinned (config_ex 0) (exact_clock 29400 30)) (audio_ex 1000) frames' = Ok bytes.
Proof.
  intros frames frames' n.
  assert (A : 1 + Z.of_nat (length (audio_ex 1000)) * 30 / 14700 <= Z.of_nat (length frames)) by (unfold audio_ex; rewrite repeat_length; vm_compute; discriminate).
  assert (B : forall j, n * Z.of_nat j < Z.of_nat (length frames) -> nth_error frames' j = nth_error frames (Z.to_nat (n * Z.of_nat j))).
  { intros [|[|j]] L; [reflexivity|reflexivity|]. exfalso. change (2 * Z.of_nat (S (S j)) < 4) in L. clear - L. lia. }
  split; [reflexivity|]. split; [reflexivity|]. split; [exact A|]. split; [exact B|].
  assert (GF : good_frames HGR frames).
  { intros f H is_aux G. assert (F : f = black_ex \/ f = white_ex) by (cbn [In frames] in H; clear - H; intuition congruence).
    clear - F. split; [destruct F as [-> | ->], is_aux; reflexivity|]. split; [|discriminate]. intros p o _ _.
    destruct F as [-> | ->], is_aux; cbv [DisplaySpec.is_byte frame_bank black_ex white_ex fst snd mm_data]; clear; lia. }
  destruct (C31_never_raises (config_ex 0) (audio_ex 1000) frames (ex_config 0) (ex_audio 1000) GF) as (bytes & T).
  exists bytes. split; [exact T|]. rewrite <- T. exact (C95_exact_rate (config_ex 0) 14700 30 (audio_ex 1000) frames frames' ltac:(discriminate) ltac:(split; reflexivity) eq_refl A B).
Qed.
(** The default settings at 14700 Hz and 30000/1001 frames per second: 1000
    samples need three frames. *)
Example C95_computed_case : let m := 2157197833231401 in let s := 42 in
  2 = 2 ^ 1 /\ 2 * 2 ^ s <= m /\ due (float_clock m s) 1000 <= 3 /\
  map (fun n => due (float_clock m s) n) [490; 491; 980; 981]%nat = [1; 2; 2; 3] /\ map (fun n => due (float_clock (2 ^ 1 * m) s) n) [490; 491; 980; 981]%nat = [1; 1; 1; 2].
Proof. repeat split; vm_compute; (reflexivity || discriminate). Qed.

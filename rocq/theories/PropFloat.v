(** C79: sound as it is computed, in binary32. *)
From Verif Require Import Base BaseFacts ScreenModel ScreenSpec BitmapModel ColourModel DisplaySpec BitmapSpec TableModel TableSpec
  VideoModel VideoSpec VideoThms VideoDisplay PaletteFacts PropVideo OpcodeModel MovieModel MovieSpec MovieFinal PropMovie SymbolModel SymbolSpec SymData AddrThms
  ClockModel ClockProofs AudioModel AudioStreamModel AudioStreamSpec AudioFloatModel AudioFloatProofs FloatSpec FloatProofs PropAudioStream GrabberModel MainModel MainSpec MainProofs PropMain
  AsmModel PlayerCode CpuModel PlayerModel PlayerSpec PlayerExec EffectProofs TickThms RunProofs PlaybackSpec PlaybackThms PlaybackConv PropPlayback PropFidelity BootSpec BootThms PropBoot SmoothSpec PropSmooth PipeProofs PropPipe.
Opaque lowcode code hgr resident startup symbols op_cmds TABLES all_pairs next sym_lits.

(** Sound at the movie's rate, up to 512 channels, in any buffers; a
    normalisation factor whose float32 is [G] units of 2^-149, within 2^-23 of the
    ideal factor p/q.  Every value differs from the exact one by at most 1, and
    not at all unless the exact one, before truncation, is within 2^-16 of an
    integer. *)
Theorem C79_close : forall ch G p q bufs,
  1 <= ch <= 512 -> 0 < p -> 0 < q -> 0 <= G <= 2 ^ 57 * 2 ^ 149 -> 2 ^ 23 * Z.abs (G * q - p * 2 ^ 149) <= p * 2 ^ 149 ->
  Forall (AudioStreamSpec.whole_frames ch) bufs ->
  exists out, stream32 (fun l => l) ch (F G) bufs = (out, None) /\ Z.of_nat (length out) = frames_in ch bufs /\ good_audio out /\
  forall i, 0 <= i < frames_in ch bufs ->
    Z.abs (nth (Z.to_nat i) out 0 - sound_value ch p q bufs i) <= 1 /\
    let d := 1024 * ch * q in let r := (Z.abs (mix ch (concat bufs) i) * p) mod d in
    (d <= 2 ^ 16 * r -> d <= 2 ^ 16 * (d - r) -> nth (Z.to_nat i) out 0 = sound_value ch p q bufs i).
Proof.
  intros ch G p q bufs C P Q HG N W. exists (flat_map (values32 G ch) bufs). split; [exact (stream32_ok G ch bufs C HG W)|].
  destruct (values32_nth G ch bufs ltac:(lia) W) as [L V]. split; [exact L|]. split.
  - intros au H. apply in_flat_map in H. destruct H as (b & _ & H). unfold values32 in H. apply in_map_iff in H. destruct H as (x & <- & _). apply clip_bounds.
  - intros i I. rewrite (V i I). exact (float_close ch G p q C HG P Q N (mix ch (concat bufs) i) (AudioFloatProofs.mix_bound ch (concat bufs) i ltac:(lia))).
Qed.
Print Assumptions C79_close.

(** the option --audio_normalization p/q, if it is a normal number and not huge *)
Theorem C79_option : forall ch p q bufs,
  1 <= ch <= 512 -> 0 < p -> 0 < q -> q <= 2 ^ 126 * p -> p <= 2 ^ 57 * q -> Forall (AudioStreamSpec.whole_frames ch) bufs ->
  exists out, stream32 (fun l => l) ch (factor32 p q) bufs = (out, None) /\ Z.of_nat (length out) = frames_in ch bufs /\ good_audio out /\
  forall i, 0 <= i < frames_in ch bufs -> Z.abs (nth (Z.to_nat i) out 0 - sound_value ch p q bufs i) <= 1.
Proof.
  intros ch p q bufs C P Q L U W. destruct (factor_near p q P Q) as (G & E & HG & N); [change one with (2 ^ 23 * 2 ^ 126); lia|exact U|].
  destruct (C79_close ch G p q bufs C P Q HG N W) as (out & H1 & H2 & H3 & H4). exists out. rewrite E. split; [exact H1|]. split; [exact H2|]. split; [exact H3|].
  intros i I. exact (proj1 (H4 i I)).
Qed.
Print Assumptions C79_option.

(** A louder sample never has a smaller value, silence has value 0 and opposite
    samples have opposite values (but -16 does not exist). *)
Theorem C79_shape : forall ch G bufs, 1 <= ch <= 512 -> 0 <= G <= 2 ^ 57 * 2 ^ 149 -> Forall (AudioStreamSpec.whole_frames ch) bufs ->
  exists out, stream32 (fun l => l) ch (F G) bufs = (out, None) /\
  forall i j, 0 <= i < frames_in ch bufs -> 0 <= j < frames_in ch bufs ->
    let x := mix ch (concat bufs) i in let y := mix ch (concat bufs) j in
    let v := nth (Z.to_nat i) out 0 in let w := nth (Z.to_nat j) out 0 in
    (x <= y -> v <= w) /\ (x = 0 -> v = 0) /\ (0 <= x -> y = - x -> w = Z.max (-15) (- v)).
Proof.
  intros ch G bufs C HG W. exists (flat_map (values32 G ch) bufs). split; [exact (stream32_ok G ch bufs C HG W)|].
  destruct (values32_nth G ch bufs ltac:(lia) W) as [_ V]. intros i j I J. cbv zeta. rewrite (V i I), (V j J).
  pose proof (AudioFloatProofs.mix_bound ch (concat bufs) i ltac:(lia)) as BX. pose proof (AudioFloatProofs.mix_bound ch (concat bufs) j ltac:(lia)) as BY.
  split; [exact (float_mono ch G _ _ C HG BX BY)|]. split; [intros ->; reflexivity|]. intros X ->. apply float_odd; [exact X|exact C|exact HG|lia].
Qed.
Print Assumptions C79_shape.

(** The operations round as IEEE-754 prescribes: to the nearest number of the
    format, on a tie to the one with the even significand.  [F a] is a * 2^-149. *)
Theorem C79_operations : forall a b n, 0 < n ->
  rounded (a * b) (2 ^ 149) (mul32 (F a) (F b)) /\ rounded a n (div32 (F a) n) /\ rounded (a + b) 1 (add32 (F a) (F b)) /\
  rounded (n * 2 ^ 149) 1 (of_int n) /\ rounded (a * 2 ^ 149) n (factor32 a n).
Proof. intros a b n N. repeat match goal with |- _ /\ _ => split end; apply round32_rounded; assumption || reflexivity. Qed.
Print Assumptions C79_operations.
(** that determines the result *)
Example C79_tie : mul32 (F (3 * 2 ^ 149)) (F (5592406 * 2 ^ 149)) = F (16777218 * 2 ^ 149) /\
  div32 (F (16777217 * 2 ^ 149)) 1 = F (16777216 * 2 ^ 149) /\ div32 (F (16777219 * 2 ^ 149)) 1 = F (16777220 * 2 ^ 149).
Proof. repeat match goal with |- _ /\ _ => split end; vm_compute; reflexivity. Qed.

(** The difference of 1 does occur, for the loudest sample of a sound that is
    normalised: with 41 as its value and the factor 16384/41 it should get 16. *)
Theorem C79_differs : let bufs := [[41; 0]] in
  stream32 (fun l => l) 1 (factor32 16384 41) bufs = ([15], None) /\ audio_stream same_rate 1 (Ratio 16384 41) bufs = ([16], None).
Proof. split; vm_compute; reflexivity. Qed.
Print Assumptions C79_differs.

(** Through the converter and the player: the speaker's toggles are off the ideal
    sample's by at most two cycles more than C75 says. *)
Theorem C79_source_to_speaker : forall delta before contents start clock draws o k pid pal ch p q bufs frames,
  good_delta delta -> filter is_sym (split_on 10 contents) = sym_lines -> fill_opcode_addresses contents = Ok start ->
  dict_get (o_mode o) video_modes = Some k -> dict_get (o_palette o) palettes = Some pid -> colours_of pid = Some pal ->
  1 <= o_every_n o -> 0 <= o_mb_num o -> 0 < o_mb_den o -> (forall t, 0 < t -> clock t 0 = true) ->
  1 <= ch <= 512 -> 0 < p -> 0 < q -> q <= 2 ^ 126 * p -> p <= 2 ^ 57 * q -> Forall (AudioStreamSpec.whole_frames ch) bufs -> good_frames k frames ->
  exists audio c bytes rest,
    stream32 (fun l => l) ch (factor32 p q) bufs = (audio, None) /\
    main_config (make_tables delta before) start clock draws o = Some (Ok c) /\ transcode c audio frames = Ok bytes /\
    forall sched m0, started m0 -> answers sched -> accepts sched -> delivers sched -> user sched m0 ->
    (exists n m, run bytes sched n m0 = Some m /\ terminated m /\ taken m = taken m0 ++ first_bytes bytes (7 + total_size rest + 2)) /\
    forall i tick page content offsets, nth_error rest i = Some (Tick tick page content offsets) ->
    let j := count is_tick (firstn i rest) in
    exists n m n' m' new d, run bytes sched n m0 = Some m /\ at_opcode bytes rest i m0 m /\
      run bytes sched n' m0 = Some m' /\ at_opcode bytes rest (S i) m0 m' /\
      log m' = log m ++ new /\ clicks new = [cyc m + 4; cyc m + 4 + d] /\ cyc m' = cyc m + 73 /\
      0 <= j < frames_in ch bufs /\ 2 * sound_value ch p q bufs j + 31 <= d <= 2 * sound_value ch p q bufs j + 36.
Proof.
  intros delta before contents start clock draws o k pid pal ch p q bufs frames HD HS HF HM HP HC HN H0 H1 HK C P Q PL PU W GF.
  destruct (C79_option ch p q bufs C P Q PL PU W) as (audio & AS & LA & GA & NA).
  destruct (C71_converts delta before contents start clock draws o k pid pal audio frames HD HS HF HM HP HC HN H0 H1 HK GA GF) as (c & bytes & rest & MC & CV & KC & _ & PT).
  exists audio, c, bytes, rest. split; [exact AS|]. split; [exact MC|]. split; [exact (cv_output _ _ _ _ _ CV)|].
  intros sched m0 ST AN AC D U. destruct (connects bytes sched m0 ST AN AC) as (n0 & m1 & R0 & CC & TK & KB).
  pose proof (later_delivers n0 _ D) as D1. pose proof (later_user n0 _ _ _ KB U) as U1. split.
  - destruct (C58_plays_whole_movie c audio frames bytes rest sched m0 CV ST AN AC D U) as (_ & n & m & R & T & (_ & _ & A) & _). rewrite firstn_all in A. exists n, m. auto.
  - intros i tick page content offsets N j. assert (J0 : 0 <= j) by (unfold j, PlaybackSpec.count; lia).
    destruct (C46_samples c audio frames bytes rest (later n0 sched) m1 CV CC D1 U1 i tick page content offsets N) as (n & m & n' & m' & new & d & au & R & A & R' & A' & LG & CK & CY & AU & TI & DD).
    assert (LJ : 0 <= j < frames_in ch bufs).
    { split; [exact J0|]. rewrite <- LA. unfold j, PlaybackSpec.count. apply inj_lt. apply nth_error_Some. intros X. pose proof (eq_trans (eq_sym X) AU). discriminate. }
    exists (n0 + n)%nat, m, (n0 + n')%nat, m', new, d. split; [exact (run_app _ _ _ _ _ _ _ R0 R)|].
    split; [unfold at_opcode in *; rewrite <- TK; exact A|]. split; [exact (run_app _ _ _ _ _ _ _ R0 R')|]. split; [unfold at_opcode in *; rewrite <- TK; exact A'|].
    split; [exact LG|]. split; [exact CK|]. split; [exact CY|]. split; [exact LJ|].
    assert (EA : nth (Z.to_nat j) audio 0 = au) by (apply nth_error_nth; rewrite <- AU; f_equal; unfold j, PlaybackSpec.count; apply Nat2Z.id).
    pose proof (NA j LJ) as NJ. rewrite EA in NJ. lia.
Qed.
Print Assumptions C79_source_to_speaker.

(** Two channels, factor 3/2. *)
Example C79_case : let bufs := [concat (repeat [0; 64; 255; 191] 100); concat (repeat [16; 39; 32; 78] 50)] in
  Forall (AudioStreamSpec.whole_frames 2) bufs /\ mix 2 (concat bufs) 120 = 30000 /\ sound_value 2 3 2 bufs 120 = 16 /\
  factor32 3 2 = F (3 * 2 ^ 148) /\ fst (stream32 (fun l => l) 2 (factor32 3 2) [[16; 39; 0; 0]]) = [7].
Proof.
  cbv zeta. split; [|vm_compute; auto]. constructor; [|constructor; [|constructor]]; (split; [apply Forall_forall; intros b H; apply in_concat in H; destruct H as (x & H1 & H2); apply repeat_spec in H1; subst x; cbn in H2; lia|]);
    [exists 100|exists 50]; (split; [lia|vm_compute; reflexivity]).
Qed.

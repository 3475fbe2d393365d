(** C75: the whole pipeline, from the source's sound and pictures through the
    converter, the stream and the player to speaker and screen. *)
From Verif Require Import Base BaseFacts ScreenModel ScreenSpec BitmapModel ColourModel DisplaySpec BitmapSpec TableModel TableSpec
  VideoModel VideoSpec VideoThms VideoDisplay PaletteFacts PropVideo OpcodeModel MovieModel MovieSpec MovieFinal PropMovie SymbolModel SymbolSpec SymData AddrThms
  ClockModel AudioStreamModel AudioStreamSpec PropAudioStream GrabberModel MainModel MainSpec MainProofs PropMain
  AsmModel PlayerCode CpuModel PlayerModel PlayerSpec PlayerExec EffectProofs TickThms RunProofs PlaybackSpec PlaybackThms PlaybackConv PropPlayback PropFidelity BootSpec BootThms PropBoot SmoothSpec PropSmooth PipeProofs.
Opaque lowcode code hgr resident startup symbols op_cmds TABLES all_pairs next sym_lits.

(** The samples of sound at the movie's rate, with a normalisation factor p/q:
    the mean of the channels of sample frame [j], scaled and clipped. *)
Definition sound_value (ch p q : Z) (bufs : list (list Z)) (j : Z) : Z :=
  Z.min 16 (Z.max (-15) (Z.quot (mix ch (concat bufs) j * p) (1024 * ch * q))).

(** Sound: with tables made, any options, a source in any buffers, a normalisation
    option, any pictures, and a server that accepts: the conversion succeeds, the
    player plays all of it, and for the [j]-th sample the speaker is toggled
    twice, at a distance of 33 or 34 cycles plus twice the sample's value. *)
Theorem C75_source_to_speaker : forall delta before contents start clock draws o k pid pal ch p q bufs0 bufs frames lerp,
  good_delta delta -> filter is_sym (split_on 10 contents) = sym_lines -> fill_opcode_addresses contents = Ok start ->
  dict_get (o_mode o) video_modes = Some k -> dict_get (o_palette o) palettes = Some pid -> colours_of pid = Some pal ->
  1 <= o_every_n o -> 0 <= o_mb_num o -> 0 < o_mb_den o -> (forall t, 0 < t -> clock t 0 = true) ->
  0 < ch -> 0 < q -> p <> 0 -> Z.abs p < 2 ^ 57 -> Forall (AudioStreamSpec.whole_frames ch) bufs -> good_frames k frames ->
  exists f audio c bytes rest,
    choose_normalization lerp same_rate ch bufs0 (Some (p, q)) = Ok f /\ audio_stream same_rate ch f bufs = (audio, None) /\
    main_config (make_tables delta before) start clock draws o = Some (Ok c) /\ transcode c audio frames = Ok bytes /\
    (o_mb_num o = 0 -> count is_tick rest = frames_in ch bufs \/ Z.of_nat (length frames) < due clock (S (length (filter is_tick rest)))) /\
    forall sched m0, started m0 -> answers sched -> accepts sched -> delivers sched -> user sched m0 ->
    (exists n m, run bytes sched n m0 = Some m /\ terminated m /\ taken m = taken m0 ++ first_bytes bytes (7 + total_size rest + 2)) /\
    forall i tick page content offsets, nth_error rest i = Some (Tick tick page content offsets) ->
    let j := count is_tick (firstn i rest) in
    exists n m n' m' new d, run bytes sched n m0 = Some m /\ at_opcode bytes rest i m0 m /\
      run bytes sched n' m0 = Some m' /\ at_opcode bytes rest (S i) m0 m' /\
      log m' = log m ++ new /\ clicks new = [cyc m + 4; cyc m + 4 + d] /\ cyc m' = cyc m + 73 /\
      0 <= j < frames_in ch bufs /\ 2 * sound_value ch p q bufs j + 33 <= d <= 2 * sound_value ch p q bufs j + 34.
Proof.
  intros delta before contents start clock draws o k pid pal ch p q bufs0 bufs frames lerp HD HS HF HM HP HC HN H0 H1 HK C Q P PB W GF.
  destruct (C73_given lerp ch p q bufs0 bufs C Q P W) as (f & audio & CN & AS & LA & NA).
  assert (GA : good_audio audio).
  { intros au Hau. destruct (In_nth _ _ 0 Hau) as (j & J1 & J2). assert (J : 0 <= Z.of_nat j < frames_in ch bufs) by lia.
    rewrite <- J2, <- (Nat2Z.id j), (NA (Z.of_nat j) J (value_small ch p q bufs (Z.of_nat j) C Q PB)). lia. }
  destruct (C71_converts delta before contents start clock draws o k pid pal audio frames HD HS HF HM HP HC HN H0 H1 HK GA GF) as (c & bytes & rest & MC & CV & KC & _ & PT).
  exists f, audio, c, bytes, rest. split; [exact CN|]. split; [exact AS|]. split; [exact MC|]. split; [exact (cv_output _ _ _ _ _ CV)|]. split.
  { intros MB. destruct (cv_opcodes _ _ _ _ _ CV) as (zs & RS).
    assert (CM : c_max_bytes c = 0 /\ c_clock c = clock).
    { revert MC. unfold main_config. rewrite HM, HP. destruct (load_table _ _ _) as [t|]; cbn [rbind]; [|discriminate]. intros MC. injection MC as <-. split; [|reflexivity]. cbn [c_max_bytes].
      unfold max_bytes. rewrite MB. reflexivity. }
    destruct (C35_one_tick_per_sample c audio frames bytes player_which _ rest zs (cv_config _ _ _ _ _ CV) (cv_audio _ _ _ _ _ CV) (cv_frames _ _ _ _ _ CV) (proj1 CM) (cv_output _ _ _ _ _ CV)
      (conversion_knows _ _ _ _ _ CV) RS) as (n & LN & _ & CT & _ & [E|E]).
    - left. unfold PlaybackSpec.count. rewrite CT, E. exact LA.
    - right. rewrite CT. rewrite (proj2 CM) in E. exact E. }
  intros sched m0 ST AN AC D U. destruct (connects bytes sched m0 ST AN AC) as (n0 & m1 & R0 & CC & TK & KB).
  pose proof (later_delivers n0 _ D) as D1. pose proof (later_user n0 _ _ _ KB U) as U1. split.
  - destruct (C58_plays_whole_movie c audio frames bytes rest sched m0 CV ST AN AC D U) as (_ & n & m & R & T & (_ & _ & A) & _). rewrite firstn_all in A. exists n, m. auto.
  - intros i tick page content offsets N j. assert (J0 : 0 <= j) by (unfold j, PlaybackSpec.count; lia).
    destruct (C46_samples c audio frames bytes rest (later n0 sched) m1 CV CC D1 U1 i tick page content offsets N) as (n & m & n' & m' & new & d & au & R & A & R' & A' & LG & CK & CY & AU & TI & DD).
    assert (LJ : 0 <= j < frames_in ch bufs).
    { split; [exact J0|]. rewrite <- LA. unfold j, PlaybackSpec.count. apply inj_lt. apply nth_error_Some. intros X. pose proof (eq_trans (eq_sym X) AU). discriminate. }
    exists (n0 + n)%nat, m, (n0 + n')%nat, m', new, d. split; [exact (run_app _ _ _ _ _ _ _ R0 R)|].
    split; [unfold at_opcode in *; rewrite <- TK; exact A|]. split; [exact (run_app _ _ _ _ _ _ _ R0 R')|]. split; [unfold at_opcode in *; rewrite <- TK; exact A'|].
    split; [exact LG|]. split; [exact CK|]. split; [exact CY|]. split; [exact LJ|].
    assert (EA : sound_value ch p q bufs j = au).
    { unfold sound_value. rewrite <- (NA j LJ (value_small ch p q bufs j C Q PB)). apply nth_error_nth. rewrite <- AU. f_equal. unfold j, PlaybackSpec.count. apply Nat2Z.id. }
    rewrite EA. lia.
Qed.
Print Assumptions C75_source_to_speaker.

(** With a network that is fast enough and no key pressed, sample [j] sounds at
    its time: 73 j + 146 ((j + 1) / 292) cycles after the first one. *)
Theorem C75_sample_times : forall delta before contents start clock draws o k pid pal ch p q bufs0 bufs frames lerp,
  good_delta delta -> filter is_sym (split_on 10 contents) = sym_lines -> fill_opcode_addresses contents = Ok start ->
  dict_get (o_mode o) video_modes = Some k -> dict_get (o_palette o) palettes = Some pid -> colours_of pid = Some pal ->
  1 <= o_every_n o -> 0 <= o_mb_num o -> 0 < o_mb_den o -> (forall t, 0 < t -> clock t 0 = true) ->
  0 < ch -> 0 < q -> p <> 0 -> Z.abs p < 2 ^ 57 -> Forall (AudioStreamSpec.whole_frames ch) bufs -> good_frames k frames ->
  exists f audio c bytes rest,
    choose_normalization lerp same_rate ch bufs0 (Some (p, q)) = Ok f /\ audio_stream same_rate ch f bufs = (audio, None) /\
    main_config (make_tables delta before) start clock draws o = Some (Ok c) /\ transcode c audio frames = Ok bytes /\
    forall sched m0, started m0 -> answers sched -> accepts sched -> delivers sched -> never_pressed sched m0 -> bandwidth bytes sched m0 2048 21243 ->
    exists ns ms, run bytes sched ns m0 = Some ms /\ at_opcode bytes rest 0 m0 ms /\
    forall i tick page content offsets, nth_error rest i = Some (Tick tick page content offsets) ->
    let j := count is_tick (firstn i rest) in let t := cyc ms + 73 * j + 146 * ((j + 1) / 292) in
    exists n m n' m' new d, run bytes sched n m0 = Some m /\ at_opcode bytes rest i m0 m /\ cyc m = t /\
      run bytes sched n' m0 = Some m' /\ at_opcode bytes rest (S i) m0 m' /\ cyc m' = t + 73 /\
      log m' = log m ++ new /\ clicks new = [t + 4; t + 4 + d] /\
      0 <= j < frames_in ch bufs /\ 2 * sound_value ch p q bufs j + 33 <= d <= 2 * sound_value ch p q bufs j + 34.
Proof.
  intros delta before contents start clock draws o k pid pal ch p q bufs0 bufs frames lerp HD HS HF HM HP HC HN H0 H1 HK C Q P PB W GF.
  destruct (C73_given lerp ch p q bufs0 bufs C Q P W) as (f & audio & CN & AS & LA & NA).
  assert (GA : good_audio audio).
  { intros au Hau. destruct (In_nth _ _ 0 Hau) as (j & J1 & J2). assert (J : 0 <= Z.of_nat j < frames_in ch bufs) by lia.
    rewrite <- J2, <- (Nat2Z.id j), (NA (Z.of_nat j) J (value_small ch p q bufs (Z.of_nat j) C Q PB)). lia. }
  destruct (C71_converts delta before contents start clock draws o k pid pal audio frames HD HS HF HM HP HC HN H0 H1 HK GA GF) as (c & bytes & rest & MC & CV & KC & _ & PT).
  exists f, audio, c, bytes, rest. split; [exact CN|]. split; [exact AS|]. split; [exact MC|]. split; [exact (cv_output _ _ _ _ _ CV)|].
  intros sched m0 ST AN AC D NP BW. destruct (connects bytes sched m0 ST AN AC) as (n0 & m1 & R0 & CC & TK & KB).
  pose proof (later_delivers n0 _ D) as D1. pose proof (later_never n0 _ _ _ KB NP) as NP1. pose proof (later_bandwidth _ _ _ _ _ _ _ R0 BW) as BW1.
  destruct (C74_sample_times c audio frames bytes rest (later n0 sched) m1 CV CC D1 NP1 BW1) as (ns & ms & RS & AS0 & H).
  exists (n0 + ns)%nat, ms. split; [exact (run_app _ _ _ _ _ _ _ R0 RS)|]. split; [unfold at_opcode in *; rewrite <- TK; exact AS0|].
  intros i tick page content offsets N j t. assert (J0 : 0 <= j) by (unfold j, PlaybackSpec.count; lia).
  destruct (H i tick page content offsets N) as (n & m & n' & m' & new & d & au & _ & R & A & CM & R' & A' & CM' & LG & CK & AU & TI & DD). clear H.
  assert (LJ : 0 <= j < frames_in ch bufs).
  { split; [exact J0|]. rewrite <- LA. rewrite <- (Z2Nat.id j J0). apply inj_lt. apply nth_error_Some. intros X. pose proof (eq_trans (eq_sym X) AU). discriminate. }
  exists (n0 + n)%nat, m, (n0 + n')%nat, m', new, d. split; [exact (run_app _ _ _ _ _ _ _ R0 R)|].
  split; [unfold at_opcode in *; rewrite <- TK; exact A|]. split; [exact CM|]. split; [exact (run_app _ _ _ _ _ _ _ R0 R')|]. split; [unfold at_opcode in *; rewrite <- TK; exact A'|].
  split; [exact CM'|]. split; [exact LG|]. split; [exact CK|]. split; [exact LJ|].
  assert (EA : sound_value ch p q bufs j = au).
  { unfold sound_value. rewrite <- (NA j LJ (value_small ch p q bufs j C Q PB)). apply nth_error_nth. exact AU. }
  rewrite EA. lia.
Qed.
Print Assumptions C75_sample_times.

(** Picture: with the clock that movie.py computes with, whenever [n] samples
    have been sounded and the encoder is idle the screen shows the frame, counted
    in steps of [every_n], of the time [n] / bitrate, except for the error of a
    double.  HGR, either palette: *)
Theorem C75_hgr_in_sync : forall delta before contents start draws o pid pal audio frames bitrate rate m s,
  good_delta delta -> filter is_sym (split_on 10 contents) = sym_lines -> fill_opcode_addresses contents = Ok start ->
  dict_get (o_mode o) video_modes = Some HGR -> dict_get (o_palette o) palettes = Some pid -> colours_of pid = Some pal ->
  1 <= o_every_n o -> 0 <= o_mb_num o -> 0 < o_mb_den o -> good_audio audio -> good_frames HGR frames ->
  0 < rate -> 0 < bitrate -> 0 <= s -> 2 * 2 ^ s <= m -> 2 ^ 53 * Z.abs (m * rate - bitrate * 2 ^ s) <= bitrate * 2 ^ s ->
  exists c bytes rest, main_config (make_tables delta before) start (float_clock m s) draws o = Some (Ok c) /\ transcode c audio frames = Ok bytes /\
    forall sched m0, started m0 -> answers sched -> accepts sched -> delivers sched -> user sched m0 ->
    forall i, (i <= length rest)%nat -> let n := count is_tick (firstn i rest) in 0 < n <= 2 ^ 52 ->
    exists steps mach i' st, run bytes sched steps m0 = Some mach /\ at_opcode bytes rest i m0 mach /\
      (i' = i \/ (i' = S i /\ exists a, nth_error rest i = Some (Ack a))) /\
      stream_run c (movie_new c audio frames) (Header HGR :: firstn i' rest) st /\
      forall g, e_op_seq (s_enc st) = Some g -> is_pad g ->
      exists x f, nth_error frames (Z.to_nat x) = Some f /\ 0 <= x /\ x mod o_every_n o = 0 /\
      x * bitrate * (2 ^ 52 - 1) <= n * rate * 2 ^ 52 /\ n * rate * (2 ^ 52 - 1) < (x + o_every_n o) * bitrate * 2 ^ 52 /\
      forall x y p off r, visible_xy x y -> hires_offset x y = 256 * p + off -> 0 <= off < 256 -> 0 <= r < 14 -> 0 < r \/ 0 < x ->
        hgr_dot (fun o => CpuModel.mem mach false (0x2000 + 256 * p + o)) (14 * off + r) = hgr_dot (mm_data (fst f) p) (14 * off + r).
Proof.
  intros delta before contents start draws o pid pal audio frames bitrate rate m s HD HS HF HM HP HC HN H0 H1 GA GF RA BI SS MM DD.
  destruct (C71_converts delta before contents start (float_clock m s) draws o HGR pid pal audio frames HD HS HF HM HP HC HN H0 H1 (fun t T => float_clock_0 m s t SS T) GA GF)
    as (c & bytes & rest & MC & CV & KC & EC & PT).
  assert (CL : c_clock c = float_clock m s).
  { revert MC. unfold main_config. rewrite HM, HP. destruct (load_table _ _ _) as [tt|]; cbn [rbind]; [|discriminate]. intros MC. injection MC as <-. reflexivity. }
  exists c, bytes, rest. split; [exact MC|]. split; [exact (cv_output _ _ _ _ _ CV)|]. intros sched m0 ST AN AC D U i L n N.
  destruct (connects bytes sched m0 ST AN AC) as (n0 & m1 & R0 & CC & TK & KB).
  assert (RT : real_table HGR (c_table c)).
  { apply (palette_real HGR pal); [|exact PT]. destruct pid; cbn [colours_of] in HC; [discriminate| |]; injection HC as <-; auto. }
  destruct (C62_hgr_idle_screen c audio frames bytes rest (later n0 sched) m1 CV KC RT CC (later_delivers n0 _ D) (later_user n0 _ _ _ KB U) i L) as (k & mach & i' & st & R & A & HI & SR & H).
  exists (n0 + k)%nat, mach, i', st. split; [exact (run_app _ _ _ _ _ _ _ R0 R)|]. split; [unfold at_opcode in *; rewrite <- TK; exact A|]. split; [exact HI|]. split; [exact SR|].
  intros g G P. destruct (H g G P) as (f & NF & DOTS). clear H.
  assert (NN : n = Z.of_nat (length (filter is_tick (firstn i rest)))) by reflexivity. clearbody n.
  destruct (frame_of_time c bitrate rate m s (length (filter is_tick (firstn i rest))) CL ltac:(lia) RA BI SS MM ltac:(clear - N NN; lia) ltac:(clear - N NN; lia) DD) as [F1 F2].
  rewrite <- NN, EC in F1. rewrite <- NN, EC in F2. rewrite EC in NF.
  set (d := due _ _) in *. clearbody d.
  exists (o_every_n o * ((d - 1) / o_every_n o)), f. split; [exact NF|]. split; [exact (frame_nonneg _ _ _ _ _ HN RA BI (proj1 N) F2)|].
  split; [rewrite Z.mul_comm; apply Z.mod_mul; lia|]. split; [exact F1|]. split; [exact F2|exact DOTS].
Qed.
Print Assumptions C75_hgr_in_sync.

(** DHGR: the bank that the encoder serves.  With the IIGS palette every
    displayed byte; with the NTSC palette, in which the two greys are the same
    colour, every one but the first that shows no grey. *)
Theorem C75_dhgr_in_sync : forall delta before contents start draws o pid pal audio frames bitrate rate m s,
  good_delta delta -> filter is_sym (split_on 10 contents) = sym_lines -> fill_opcode_addresses contents = Ok start ->
  dict_get (o_mode o) video_modes = Some DHGR -> dict_get (o_palette o) palettes = Some pid -> colours_of pid = Some pal ->
  1 <= o_every_n o -> 0 <= o_mb_num o -> 0 < o_mb_den o -> good_audio audio -> good_frames DHGR frames ->
  0 < rate -> 0 < bitrate -> 0 <= s -> 2 * 2 ^ s <= m -> 2 ^ 53 * Z.abs (m * rate - bitrate * 2 ^ s) <= bitrate * 2 ^ s ->
  exists c bytes rest, main_config (make_tables delta before) start (float_clock m s) draws o = Some (Ok c) /\ transcode c audio frames = Ok bytes /\
    forall sched m0, started m0 -> answers sched -> accepts sched -> delivers sched -> user sched m0 ->
    forall i, (i <= length rest)%nat -> let n := count is_tick (firstn i rest) in 0 < n <= 2 ^ 52 ->
    exists steps mach i' st, run bytes sched steps m0 = Some mach /\ at_opcode bytes rest i m0 mach /\
      (i' = i \/ (i' = S i /\ exists a, nth_error rest i = Some (Ack a))) /\
      stream_run c (movie_new c audio frames) (Header DHGR :: firstn i' rest) st /\
      forall g, e_op_seq (s_enc st) = Some g -> is_pad g ->
      exists x f, nth_error frames (Z.to_nat x) = Some f /\ 0 <= x /\ x mod o_every_n o = 0 /\
      x * bitrate * (2 ^ 52 - 1) <= n * rate * 2 ^ 52 /\ n * rate * (2 ^ 52 - 1) < (x + o_every_n o) * bitrate * 2 ^ 52 /\
      let bank := e_last (s_enc st) in
      forall p off, in_page p off -> displayed p off -> pid = IIGS \/ (no_grey (frame_bitmap DHGR f) bank p off /\ (p <> 0 \/ off <> 0)) ->
        CpuModel.mem mach bank (0x2000 + 256 * p + off) = mm_data (frame_bank f bank) p off.
Proof.
  intros delta before contents start draws o pid pal audio frames bitrate rate m s HD HS HF HM HP HC HN H0 H1 GA GF RA BI SS MM DD.
  destruct (C71_converts delta before contents start (float_clock m s) draws o DHGR pid pal audio frames HD HS HF HM HP HC HN H0 H1 (fun t T => float_clock_0 m s t SS T) GA GF)
    as (c & bytes & rest & MC & CV & KC & EC & PT).
  assert (CL : c_clock c = float_clock m s).
  { revert MC. unfold main_config. rewrite HM, HP. destruct (load_table _ _ _) as [tt|]; cbn [rbind]; [|discriminate]. intros MC. injection MC as <-. reflexivity. }
  exists c, bytes, rest. split; [exact MC|]. split; [exact (cv_output _ _ _ _ _ CV)|]. intros sched m0 ST AN AC D U i L n N.
  destruct (connects bytes sched m0 ST AN AC) as (n0 & m1 & R0 & CC & TK & KB).
  assert (X : exists k mach i' st, run bytes (later n0 sched) k m1 = Some mach /\ at_opcode bytes rest i m1 mach /\
      (i' = i \/ (i' = S i /\ exists a, nth_error rest i = Some (Ack a))) /\
      stream_run c (movie_new c audio frames) (Header DHGR :: firstn i' rest) st /\
      forall g, e_op_seq (s_enc st) = Some g -> is_pad g ->
      exists f, nth_error frames (Z.to_nat (c_every_n c * ((due (c_clock c) (length (filter is_tick (firstn i rest))) - 1) / c_every_n c))) = Some f /\
      let bank := e_last (s_enc st) in
      forall p off, in_page p off -> displayed p off -> pid = IIGS \/ (no_grey (frame_bitmap DHGR f) bank p off /\ (p <> 0 \/ off <> 0)) ->
        CpuModel.mem mach bank (0x2000 + 256 * p + off) = mm_data (frame_bank f bank) p off).
  { destruct pid; cbn [colours_of] in HC; [discriminate| |]; injection HC as <-.
    - assert (RT : real_table DHGR (c_table c)) by (apply (palette_real DHGR iigs_rgb); [auto|exact PT]).
      destruct (C62_dhgr_idle_screen c audio frames bytes rest (later n0 sched) m1 CV KC RT CC (later_delivers n0 _ D) (later_user n0 _ _ _ KB U) i L) as (k & mach & i' & st & R & A & HI & SR & H).
      exists k, mach, i', st. split; [exact R|]. split; [exact A|]. split; [exact HI|]. split; [exact SR|]. intros g G P. destruct (H g G P) as (f & NF & E). exists f. split; [exact NF|].
      intros bank p off I1 I2 _. exact (E p off I1 I2).
    - destruct (C62_dhgr_ntsc_idle_screen c audio frames bytes rest (later n0 sched) m1 CV KC PT CC (later_delivers n0 _ D) (later_user n0 _ _ _ KB U) i L) as (k & mach & i' & st & R & A & HI & SR & H).
      exists k, mach, i', st. split; [exact R|]. split; [exact A|]. split; [exact HI|]. split; [exact SR|]. intros g G P. destruct (H g G P) as (f & NF & E). exists f. split; [exact NF|].
      intros bank p off I1 I2 [I3|[I3 I4]]; [discriminate|exact (E p off I1 I2 I3 I4)]. }
  destruct X as (k & mach & i' & st & R & A & HI & SR & H).
  exists (n0 + k)%nat, mach, i', st. split; [exact (run_app _ _ _ _ _ _ _ R0 R)|]. split; [unfold at_opcode in *; rewrite <- TK; exact A|]. split; [exact HI|]. split; [exact SR|].
  intros g G P. destruct (H g G P) as (f & NF & DOTS). clear H.
  assert (NN : n = Z.of_nat (length (filter is_tick (firstn i rest)))) by reflexivity. clearbody n.
  destruct (frame_of_time c bitrate rate m s (length (filter is_tick (firstn i rest))) CL ltac:(lia) RA BI SS MM ltac:(clear - N NN; lia) ltac:(clear - N NN; lia) DD) as [F1 F2].
  rewrite <- NN, EC in F1. rewrite <- NN, EC in F2. rewrite EC in NF.
  set (d := due _ _) in *. clearbody d.
  exists (o_every_n o * ((d - 1) / o_every_n o)), f. split; [exact NF|]. split; [exact (frame_nonneg _ _ _ _ _ HN RA BI (proj1 N) F2)|].
  split; [rewrite Z.mul_comm; apply Z.mod_mul; lia|]. split; [exact F1|]. split; [exact F2|exact DOTS].
Qed.
Print Assumptions C75_dhgr_in_sync.

(** ** The hypotheses can be met: the defaults, two buffers of stereo sound, and a
    network that accepts and brings three bytes every other instruction *)
Definition net_ex (i : nat) : env := Env (if Nat.even i then 3 else 0) None (if Nat.even i then Some 0x17 else None).
Definition sound_ex : list Z := concat (repeat [0; 1; 255; 255] 100).
Lemma offered_bytes n : forall s1 s2, (forall i, e_bytes (s1 i) = e_bytes (s2 i)) -> offered s1 n = offered s2 n.
Proof. induction n as [|n IH]; intros s1 s2 H; [reflexivity|]. cbn [offered]. rewrite H. f_equal. apply IH. intros i. apply H. Qed.
Example C75_case : (exists contents start, filter is_sym (split_on 10 contents) = sym_lines /\ fill_opcode_addresses contents = Ok start) /\
  good_delta delta_ex /\ dict_get (o_mode default_options) video_modes = Some DHGR /\ dict_get (o_palette default_options) palettes = Some NTSC /\ colours_of NTSC = Some ntsc_rgb /\
  1 <= o_every_n default_options /\ 0 <= o_mb_num default_options /\ 0 < o_mb_den default_options /\
  Forall (AudioStreamSpec.whole_frames 2) [sound_ex; sound_ex] /\ good_frames DHGR (repeat dframe_ex 5) /\ sound_value 2 100 1 [sound_ex; sound_ex] 150 = 12 /\
  started boot_ex /\ answers net_ex /\ accepts net_ex /\ delivers net_ex /\ never_pressed net_ex boot_ex /\ (forall bytes, bandwidth bytes net_ex boot_ex 2048 21243) /\
  (let m := 2157197833231401 in let s := 42 in 2 * 2 ^ s <= m /\ 2 ^ 53 * Z.abs (m * 30000 - 14700 * 1001 * 2 ^ s) <= 14700 * 1001 * 2 ^ s).
Proof.
  split. { destruct PropSymbols.contents_ex as (contents & LN). exists contents, player_start. split; [exact LN|exact (fill_player contents LN)]. }
  split; [exact good_delta_ex|]. split; [reflexivity|]. split; [reflexivity|]. split; [reflexivity|]. split; [discriminate|]. split; [discriminate|]. split; [reflexivity|].
  split; [exact (proj1 C73_case)|]. split; [exact (ex_dframes 0 5)|]. split; [vm_compute; reflexivity|]. split; [exact (proj1 C57_case)|].
  assert (EV : forall i, exists j, (i <= j)%nat /\ Nat.even j = true) by exact even_later.
  split. { split; [intros i v|intros i]. - unfold net_ex. cbn [e_status]. destruct (Nat.even i); [|discriminate]. intros H. injection H as <-. auto.
    - destruct (EV i) as (j & L & E). exists j. split; [exact L|]. unfold net_ex. rewrite E. discriminate. }
  split. { intros i. unfold net_ex. cbn [e_status]. destruct (Nat.even i); discriminate. }
  split. { intros i. destruct (EV i) as (j & L & E). exists j. split; [exact L|]. unfold net_ex. rewrite E. cbn [e_bytes]. lia. }
  split. { split; [reflexivity|]. intros i. reflexivity. }
  split. { intros bytes. apply SmoothProofs.enough_per_instruction. intros n1 n H. pose proof (offered_ex n n1) as O.
    rewrite (offered_bytes n _ (fun i => net_ex (n1 + i)%nat)) in O by (intros i; reflexivity). lia. }
  split; discriminate.
Qed.

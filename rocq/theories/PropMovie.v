(** Properties C30-C37 and C39: the emitted stream. *)
From Verif Require Import Base ScreenModel ScreenSpec BitmapModel DisplaySpec BitmapSpec VideoModel VideoSpec OpcodeModel MovieModel MovieSpec
  ClockModel BaseFacts MovieProofs MovieState MovieThms ClockProofs MovieFinal.
Opaque TABLES all_pairs next.

(** Common hypotheses: [c] any configuration (mode, frame skipping, size limit,
    frame clock, distance table, random numbers, opcode addresses), any audio
    samples and frames.  [which] decodes opcode addresses; C32 says that reading
    succeeds, so that the other theorems talk about the opcodes [rest] that are
    read from the bytes.  All hypotheses are met by these conversions of 1000
    samples, with and without size limit: *)
Example hypotheses_met : forall limit,
  good_config (config_ex limit) /\ good_audio (audio_ex 1000) /\ good_frames HGR frames_ex /\ recognises (config_ex limit) which_ex /\
  (exists bytes, transcode (config_ex limit) (audio_ex 1000) frames_ex = Ok bytes) /\
  good_config (dconfig_ex limit) /\ good_frames DHGR (repeat dframe_ex 5) /\ recognises (dconfig_ex limit) which_ex /\
  (exists bytes, transcode (dconfig_ex limit) (audio_ex 1000) (repeat dframe_ex 5) = Ok bytes).
Proof.
  exact (fun limit => conj (ex_config limit) (conj (ex_audio 1000) (conj (ex_frames limit) (conj (ex_recognises (config_ex limit) eq_refl)
    (conj (ex_transcode limit 1000) (conj (ex_dconfig limit) (conj (ex_dframes limit 5) (conj (ex_recognises (dconfig_ex limit) eq_refl)
    (ex_dtranscode limit 1000))))))))).
Qed.

(** C30 *)
Theorem C30_whole_frames : forall c audio frames bytes, transcode c audio frames = Ok bytes ->
  exists n, 0 < n /\ Z.of_nat (length bytes) = 2048 * n.
Proof.
  intros c audio frames bytes H. apply transcode_ops in H. destruct H as (ops & s & _ & _ & F & _ & L & _).
  exists (total_size ops / 2048 + 1). split; [|exact L].
  pose proof (Z.div_pos (total_size ops) 2048 (fr_nonneg _ _ _ F) eq_refl). apply Z.lt_succ_r in H. exact H.
Qed.
Print Assumptions C30_whole_frames.

Theorem C30_framing : forall c audio frames bytes which k rest zs,
  transcode c audio frames = Ok bytes -> 0 <= c_max_bytes c -> recognises c which ->
  read_stream which bytes = Some (k, rest, zs) ->
  let ops := Header k :: rest in
  exists n, Z.of_nat (length bytes) = 2048 * n /\
    (* opcodes do not straddle frames, ACKs are exactly what ends a frame *)
    (forall i op, nth_error ops i = Some op ->
       position ops i / 2048 = (position ops i + opcode_size op - 1) / 2048 /\
       (is_ack op = true <-> position ops i mod 2048 = 2044)) /\
    (forall q, 0 <= q < n - 1 -> exists i a, nth_error ops i = Some (Ack a) /\ position ops i = 2048 * q + 2044) /\
    (* TERMINATE fits into the last frame *)
    2048 * (n - 1) <= total_size ops /\ total_size ops + 2 <= 2048 * n.
Proof.
  intros c audio frames bytes which k rest zs H M W R ops.
  destruct (read_run c audio frames bytes which k rest zs H M W R) as (-> & s & A & B & F & _ & _ & L).
  fold ops in F, L. exists (total_size ops / 2048 + 1). split; [exact L|].
  split; [intros i op Hi; destruct (fr_place _ _ _ F i op Hi) as (P1 & _ & P2); auto|].
  split; [intros q Hq; apply (fr_acks _ _ _ F); lia|].
  destruct (fr_mod _ _ _ F) as (j & J1 & J2). clear - J1 J2. set (x := total_size ops) in *. clearbody x. dlia.
Qed.
Print Assumptions C30_framing.

(** C31 *)
Theorem C31_never_raises : forall c audio frames,
  good_config c -> good_audio audio -> good_frames (c_mode c) frames -> exists bytes, transcode c audio frames = Ok bytes.
Proof. exact transcode_ok. Qed.
Print Assumptions C31_never_raises.
(** The generator's object is consistent at every point, so stopping anywhere is
    possible as well. *)
Theorem C31_every_step : forall c audio frames ops s,
  good_config c -> good_audio audio -> good_frames (c_mode c) frames ->
  stream_run c (movie_new c audio frames) ops s -> exists o, emit_step c s = Ok o.
Proof.
  intros c audio frames ops s HC HA HF R. destruct (run_inv c audio frames HC HA HF ops s R) as (n & I).
  destruct (step_inv c audio frames HC HA HF ops s n I) as [(b & E & _)|(new & s' & n' & E & _)]; eauto.
Qed.
Print Assumptions C31_every_step.

(** C32 *)
Theorem C32_decodes : forall c audio frames bytes which,
  transcode c audio frames = Ok bytes -> 0 <= c_max_bytes c -> recognises c which ->
  exists rest s zs, read_stream which bytes = Some (c_mode c, rest, zs) /\ Forall (eq 0) zs /\
    Forall (fun op => is_tick op = true \/ is_ack op = true) rest /\
    (* these are the opcodes emit_stream compiled *)
    stream_run c (movie_new c audio frames) (Header (c_mode c) :: rest) s /\ emit_step c s = Ok (Finished bytes).
Proof.
  intros c audio frames bytes which H M W. destruct (read_back c audio frames bytes which H M W) as (rest & s & zs & A & B & C & D & E).
  exists rest, s, zs. auto.
Qed.
Print Assumptions C32_decodes.

Lemma shiftr_byte a : 0 <= a < 65536 -> 0 <= Z.shiftr a 8 < 256.
Proof. intros H. rewrite Z.shiftr_div_pow2 by lia. change (2 ^ 8) with 256. dlia. Qed.
Lemma land_byte a : 0 <= Z.land a 0xff < 256.
Proof. change 0xff with (Z.ones 8). rewrite Z.land_ones by lia. apply Z.mod_pos_bound. reflexivity. Qed.
Theorem C32_bytes : forall c audio frames bytes,
  good_config c -> good_audio audio -> good_frames (c_mode c) frames -> (forall cm, In cm op_cmds -> 0 <= c_start c cm < 65536) ->
  transcode c audio frames = Ok bytes -> Forall (fun b => 0 <= b < 256) bytes.
Proof.
  intros c audio frames bytes HC HA HF HS H. apply transcode_ops in H. destruct H as (ops & s & R & E & F & B & _ & _).
  rewrite B. apply Forall_app. split.
  - apply Forall_forall. intros b Hb. unfold compiled in Hb. apply in_flat_map in Hb. destruct Hb as (op & Ho & Hb).
    assert (SB : forall cm, In cm op_cmds -> 0 <= Z.shiftr (c_start c cm) 8 < 256 /\ 0 <= Z.land (c_start c cm) 0xff < 256)
      by (intros cm Hc; split; [apply shiftr_byte, HS, Hc|apply land_byte]).
    apply in_app_or in Ho. destruct Ho as [Ho|[<-|[]]].
    2:{ specialize (SB TERMINATE ltac:(right; left; reflexivity)). cbn [machine_emit emit_command emit_data command app] in Hb.
        destruct Hb as [<-|[<-|[]]]; apply SB. }
    destruct (In_nth_error _ _ Ho) as (i & Hi).
    pose proof (proj1 (Forall_forall _ _) (fr_fat _ _ _ F) op Ho) as FO.
    destruct op as [m| | |a|t p ct o]; cbn [machine_emit emit_command emit_data command app] in Hb.
    + cbn in Hb. destruct m; cbn [mode_value] in Hb; repeat destruct Hb as [<-|Hb]; try destruct Hb; lia.
    + destruct FO as [[]|FO]; discriminate.
    + destruct FO as [[]|FO]; discriminate.
    + specialize (SB ACK ltac:(right; right; right; left; reflexivity)).
      destruct Hb as [<-|[<-|[<-|[<-|[]]]]]; try apply SB; [destruct a; lia|lia].
    + destruct FO as [(T & P & _)|FO]; [|discriminate]. specialize (SB (TICK t p) (cmd_in t p T P)).
      destruct (all_serve c audio frames HC HA HF ops s R i t p ct o Hi) as (f & au & _ & _ & _ & _ & CB & _ & _ & OB).
      destruct Hb as [<-|[<-|[<-|Hb]]]; try apply SB; [exact CB|].
      apply (proj1 (Forall_forall _ _) OB) in Hb. apply Hb.
  - unfold padding. apply Forall_forall. intros x Hx. apply repeat_spec in Hx. subst x. lia.
Qed.
Print Assumptions C32_bytes.

(** C33: ACKs alternate in double hires and always select MAIN in hires ... *)
Theorem C33_acks_alternate : forall c audio frames bytes which k rest zs,
  transcode c audio frames = Ok bytes -> 0 <= c_max_bytes c -> recognises c which ->
  read_stream which bytes = Some (k, rest, zs) ->
  k = c_mode c /\
  forall i op, nth_error (filter is_ack rest) i = Some op ->
    op = Ack (match k with DHGR => Nat.even i | HGR => false end).
Proof.
  intros c audio frames bytes which k rest zs H M W R.
  destruct (read_run c audio frames bytes which k rest zs H M W R) as (-> & s & A & B & F & _).
  split; [reflexivity|]. intros i op Hi. rewrite (fr_altern _ _ _ F i op Hi). destruct (c_mode c); reflexivity.
Qed.
Print Assumptions C33_acks_alternate.

(** ... and the n-th tick carries the n-th sample's duty cycle and a byte of the
    frame due then, in the bank that the ACKs so far have selected, to be stored
    to four displayed locations. *)
Theorem C33_ticks_serve_selected_bank : forall c audio frames bytes which k rest zs,
  good_config c -> good_audio audio -> good_frames (c_mode c) frames ->
  transcode c audio frames = Ok bytes -> 0 <= c_max_bytes c -> recognises c which ->
  read_stream which bytes = Some (k, rest, zs) ->
  forall i tick page content offsets, nth_error rest i = Some (Tick tick page content offsets) ->
  let n := length (filter is_tick (firstn (S i) rest)) in
  let bank := d_bank (play (firstn i rest)) in
  exists f au, nth_error audio (n - 1) = Some au /\ tick = 2 * au + 34 /\
    nth_error frames (Z.to_nat (c_every_n c * ((due (c_clock c) n - 1) / c_every_n c))) = Some f /\
    content = mm_data (frame_bank f bank) (page - 32) (nth 0 offsets 0) /\
    32 <= page < 64 /\ length offsets = 4%nat /\ (forall o, In o offsets -> 0 <= o < 256 /\ displayed (page - 32) o).
Proof.
  intros c audio frames bytes which k rest zs HC HA HF H M W R i tick page content offsets Hi n bank.
  destruct (read_run c audio frames bytes which k rest zs H M W R) as (-> & s & A & _).
  destruct (all_serve c audio frames HC HA HF _ _ A (S i) tick page content offsets Hi) as (f & au & Q1 & Q2 & Q3 & Q4 & _ & Q5 & Q6 & Q7).
  exists f, au. split; [exact Q2|]. split; [exact Q3|]. split; [exact Q1|]. split; [exact Q4|]. split; [exact Q5|]. split; [exact Q6|].
  exact (proj1 (Forall_forall _ _) Q7).
Qed.
Print Assumptions C33_ticks_serve_selected_bank.

(** C34: the limit only truncates the opcode sequence, at the first opcode that
    would begin at or beyond it; output is at most one frame over the rounded-up
    limit. *)
Theorem C34_limit : forall c audio frames limit bytes0 bytes which k rest0 zs0 rest zs,
  0 < limit -> recognises c which ->
  transcode (with_limit c 0) audio frames = Ok bytes0 -> read_stream which bytes0 = Some (k, rest0, zs0) ->
  transcode (with_limit c limit) audio frames = Ok bytes -> read_stream which bytes = Some (k, rest, zs) ->
  (exists more, rest0 = rest ++ more /\ (more = [] \/ limit <= total_size (Header k :: rest))) /\
  (forall i op, nth_error (Header k :: rest) i = Some op -> is_ack op = false -> position (Header k :: rest) i < limit) /\
  Z.of_nat (length bytes) <= 2048 * ((limit + 2047) / 2048) + 2048.
Proof.
  intros c audio frames limit bytes0 bytes which k rest0 zs0 rest zs HL W T0 R0 T R.
  destruct (read_run (with_limit c 0) audio frames bytes0 which k rest0 zs0 T0 ltac:(apply Z.le_refl) W R0) as (EK & s0 & A0 & B0 & F0 & _).
  destruct (read_run (with_limit c limit) audio frames bytes which k rest zs T ltac:(apply Z.lt_le_incl, HL) W R) as (_ & s & A & B & F & _ & _ & L).
  cbn [c_mode with_limit] in *. subst k. set (h := Header (c_mode c)) in *.
  pose proof (run_unlimited c limit audio frames _ _ A) as A'.
  destruct (run_prefix _ _ _ _ A' _ _ _ A0 B0) as (more & E & RM). split; [|split].
  - exists more. split; [injection E as ->; reflexivity|].
    destruct (finish_unlimited c limit s bytes B) as [X|[_ X]]; [left|right; rewrite <- (fr_pos _ _ _ F); exact X].
    clear - RM X. destruct RM as [|m1 s1 n1 s2 RM E1]; [reflexivity|exfalso].
    induction RM as [|m3 s3 n3 s4 RM IH E3] in s2, n1, E1 |- *; [rewrite X in E1; discriminate|eapply IH; eauto].
  - clear - A HL. intros i op Hi HA.
    remember (h :: rest) as ops eqn:EO. clear EO rest. revert i op Hi HA.
    induction A as [|ops s new s' A IH E]; intros i op Hi HA; [destruct i; discriminate|].
    destruct (Nat.lt_ge_cases i (length ops)) as [Lt|Ge].
    + rewrite nth_error_app1 in Hi by exact Lt. rewrite position_app by (clear - Lt; lia). eapply IH; eauto.
    + rewrite nth_error_app2 in Hi by exact Ge. destruct (step_shape _ _ _ _ E) as (op' & FO & HN).
      assert (i = length ops).
      { destruct (i - length ops)%nat as [|[|j]] eqn:Ej; [clear - Ge Ej; lia| |]; destruct HN as [-> |(a & ->)]; cbn in Hi; try discriminate;
          [injection Hi as <-; discriminate|destruct j; discriminate]. }
      subst i. rewrite position_app by apply Nat.le_refl. rewrite position_end.
      pose proof (run_framed _ _ _ _ _ A) as F. rewrite <- (fr_pos _ _ _ F). clear - E HL.
      unfold emit_step in E. destruct (encode_next (with_limit c limit) (s_movie s) (s_enc s)) as [[[oop m1] e1]|] eqn:N; [|discriminate]. cbn [rbind] in E.
      apply encode_next_pos in N. destruct oop as [op|]; [|discriminate].
      destruct (negb (c_max_bytes (with_limit c limit) =? 0) && (c_max_bytes (with_limit c limit) <=? m_pos m1)) eqn:Q; [discriminate|].
      apply andb_false_iff in Q. rewrite <- N. cbn [c_max_bytes with_limit] in Q.
      destruct Q as [Q|Q]; [apply negb_false_iff, Z.eqb_eq in Q; clear - Q HL; lia|apply Z.leb_gt in Q; exact Q].
  - rewrite L. pose proof (limit_total _ _ _ _ _ A HL) as X. cbn [c_max_bytes with_limit] in X. fold h in X |- *. clear - X HL.
    set (x := total_size (h :: rest)) in *. clearbody x. dlia.
Qed.
Print Assumptions C34_limit.

Lemma total_ticks ops : 7 * Z.of_nat (length (duties ops)) <= total_size ops.
Proof.
  induction ops as [|op ops IH]; [cbn; lia|]. change (total_size (op :: ops)) with (opcode_size op + total_size ops).
  destruct op; cbn [duties flat_map app length opcode_size] in *; fold (duties ops); lia.
Qed.
(** The stronger reading, that output never exceeds the limit, is false: a limit
    of exactly one frame gives two. *)
Theorem C34_never_exceeds_refuted : exists c audio frames bytes,
  good_config c /\ good_audio audio /\ good_frames (c_mode c) frames /\
  c_max_bytes c = 2048 /\ transcode c audio frames = Ok bytes /\ 4096 <= Z.of_nat (length bytes).
Proof.
  destruct (ex_transcode 2048 400) as (bytes & H). exists (config_ex 2048), (audio_ex 400), frames_ex, bytes.
  split; [apply ex_config|]. split; [apply ex_audio|]. split; [apply ex_frames|]. split; [reflexivity|]. split; [exact H|].
  apply transcode_ops in H. destruct H as (ops & s & R & E & F & _ & L & _). rewrite L.
  destruct (stop_inv _ _ _ (ex_config 2048) (ex_audio 400) (ex_frames 2048) ops s bytes R E) as (n & I & S).
  assert (G : 2048 <= total_size ops).
  { destruct S as [[_ S]|[S|[S1 S2]]]; [exact S| |].
    - pose proof (total_ticks ops) as Q. rewrite (i_duties _ _ _ _ _ _ I), map_length, S, firstn_all in Q.
      unfold audio_ex in Q. rewrite repeat_length in Q. clear - Q. lia.
    - exfalso. cbn [c_clock config_ex] in S2. rewrite exact_due in S2 by lia. unfold audio_ex, frames_ex in S1, S2. rewrite !repeat_length in S1, S2.
      clear - S1 S2. dlia. }
  clear - G. set (x := total_size ops) in *. clearbody x. dlia.
Qed.
Print Assumptions C34_never_exceeds_refuted.

(** C35 *)
Theorem C35_one_tick_per_sample : forall c audio frames bytes which k rest zs,
  good_config c -> good_audio audio -> good_frames (c_mode c) frames -> c_max_bytes c = 0 ->
  transcode c audio frames = Ok bytes -> recognises c which -> read_stream which bytes = Some (k, rest, zs) ->
  exists n, (n <= length audio)%nat /\
    duties rest = map (fun au => 2 * au + 34) (firstn n audio) /\
    length (filter is_tick rest) = n /\
    (* all the samples, or as many as there are frames for *)
    due (c_clock c) n <= Z.of_nat (length frames) /\
    (n = length audio \/ Z.of_nat (length frames) < due (c_clock c) (S n)).
Proof.
  intros c audio frames bytes which k rest zs HC HA HF M H W R.
  destruct (read_run c audio frames bytes which k rest zs H ltac:(rewrite M; apply Z.le_refl) W R) as (-> & s & A & B & _).
  destruct (stop_inv c audio frames HC HA HF _ s bytes A B) as (n & I & S).
  exists n. split; [apply (i_le _ _ _ _ _ _ I)|]. split; [exact (i_duties _ _ _ _ _ _ I)|]. split.
  { rewrite <- duties_ticks. change (duties rest) with (duties (Header (c_mode c) :: rest)).
    rewrite (i_duties _ _ _ _ _ _ I), map_length. apply firstn_length_le, (i_le _ _ _ _ _ _ I). }
  split; [apply (i_due _ _ _ _ _ _ I)|].
  destruct S as [[S _]|[S|[_ S]]]; [contradiction|auto|auto].
Qed.
Print Assumptions C35_one_tick_per_sample.

(** C36: the frame clock.  In exact arithmetic ... *)
Theorem C36_exact_clock : forall bitrate rate n, 0 < bitrate -> 0 < rate -> (0 < n)%nat ->
  due (exact_clock bitrate rate) n = Z.min (Z.of_nat n) (1 + Z.of_nat n * rate / bitrate).
Proof. intros bitrate rate n HB HR _. exact (exact_due_min bitrate rate n HB HR). Qed.
Print Assumptions C36_exact_clock.
(** ... and as computed in binary64, with [m/2^s] the correctly rounded
    ticks_per_frame (at least two ticks per frame, at most 2^52 ticks): the
    number of frames started deviates from that by a relative error of 2^-52 in
    the time, however long the movie is. *)
Theorem C36_float_clock : forall bitrate rate m s n, 0 < rate -> 0 < bitrate -> 0 <= s -> 2 * 2 ^ s <= m -> (0 < n)%nat -> Z.of_nat n <= 2 ^ 52 ->
  2 ^ 53 * Z.abs (m * rate - bitrate * 2 ^ s) <= bitrate * 2 ^ s ->
  let started := due (float_clock m s) n in
  (started - 1) * bitrate * (2 ^ 52 - 1) <= Z.of_nat n * rate * 2 ^ 52 /\
  Z.of_nat n * rate * (2 ^ 52 - 1) < started * bitrate * 2 ^ 52.
Proof. exact float_rate. Qed.
Print Assumptions C36_float_clock.
(** 14700 Hz and 30000/1001 frames per second *)
Example C36_float_clock_met : let m := 2157197833231401 in let s := 42 in let bitrate := 14700 * 1001 in let rate := 30000 in
  2 * 2 ^ s <= m /\ 2 ^ 53 * Z.abs (m * rate - bitrate * 2 ^ s) <= bitrate * 2 ^ s /\
  map (fun n => due (float_clock m s) n) [1; 490; 491; 980; 981; 982]%nat = [1; 1; 2; 2; 3; 3].
Proof. split; [discriminate|split; [discriminate|vm_compute; reflexivity]]. Qed.
(** Frames [every_n * j] and no others are encoded, each as soon as it is due:
    see also C33_ticks_serve_selected_bank. *)
Theorem C36_encoded_frames : forall c audio frames ops s,
  good_config c -> good_audio audio -> good_frames (c_mode c) frames -> stream_run c (movie_new c audio frames) ops s ->
  let n := length (filter is_tick ops) in
  m_frame_number (s_movie s) = due (c_clock c) n /\
  ((0 < n)%nat -> exists f, nth_error frames (Z.to_nat (c_every_n c * ((due (c_clock c) n - 1) / c_every_n c))) = Some f /\
     exists t, e_target (s_enc s) = Some t /\ bm_kind t = c_mode c /\
       forall is_aux, good_bank (c_mode c) is_aux -> bank_data t is_aux = mm_data (frame_bank f is_aux)).
Proof.
  intros c audio frames ops s HC HA HF R n. destruct (run_inv c audio frames HC HA HF ops s R) as (n' & I).
  assert (E : n = n'). { unfold n. rewrite <- duties_ticks, (i_duties _ _ _ _ _ _ I), map_length. apply firstn_length_le, (i_le _ _ _ _ _ _ I). }
  rewrite E. split; [apply (i_fn _ _ _ _ _ _ I)|]. intros P.
  destruct (i_state _ _ _ _ _ _ I) as [(Z0 & _)|(_ & _ & f & g & A1 & A2 & _)]; [lia|]. exists f. split; [exact A1|]. eexists. split; [exact A2|].
  split; [destruct (c_mode c); reflexivity|]. intros a G. exact (frame_bitmap_bank _ f a G).
Qed.
Print Assumptions C36_encoded_frames.

(** C37 *)
Theorem C37_duty_has_opcode : forall a, In (duty a) tick_values /\ 4 <= duty a <= 66 /\ duty a mod 2 = 0.
Proof.
  intros a. split; [exact (duty_in a)|]. unfold duty, audio_value. pose proof (clip_bounds (to_int a)) as H.
  set (v := clip (-15) 16 (to_int a)) in *. clearbody v. dlia.
Qed.
Print Assumptions C37_duty_has_opcode.
(** so audio_stream's output always meets [good_audio] *)
Theorem C37_stream_is_good : forall samples, good_audio (map audio_value samples).
Proof. intros samples au H. apply in_map_iff in H. destruct H as (a & <- & _). apply clip_bounds. Qed.
Print Assumptions C37_stream_is_good.
Theorem C37_monotone : forall n d n' d', 0 < d -> 0 < d' -> n * d' <= n' * d ->
  16 * Z.abs n < 2 ^ 63 * d -> 16 * Z.abs n' < 2 ^ 63 * d' -> duty (Finite n d) <= duty (Finite n' d').
Proof.
  intros n d n' d' Hd Hd' L B B'. unfold duty, audio_value.
  assert (X : forall x y, 0 < y -> 16 * Z.abs x < 2 ^ 63 * y -> to_int (Finite x y) = Z.quot (16 * x) y).
  { intros x y Hy Hb. cbn [to_int]. replace ((- 2 ^ 63 <=? Z.quot (16 * x) y) && (Z.quot (16 * x) y <? 2 ^ 63)) with true; [reflexivity|].
    symmetry. apply andb_true_iff. rewrite Z.leb_le, Z.ltb_lt.
    assert (Y : Z.abs (Z.quot (16 * x) y) < 2 ^ 63).
    { rewrite <- Z.quot_abs by lia. rewrite Z.quot_div_nonneg by lia. apply Z.div_lt_upper_bound; lia. }
    lia. }
  rewrite !X by assumption. unfold clip.
  pose proof (quot_cross (16 * n) d (16 * n') d' Hd Hd' ltac:(lia)) as Q. lia.
Qed.
Print Assumptions C37_monotone.
(** exact inside the range: the duty cycle is 34 plus twice the sample times 16,
    rounded towards zero *)
Theorem C37_exact_inside : forall n d, 0 < d -> -16 * d < 16 * n -> 16 * n < 17 * d ->
  duty (Finite n d) = 34 + 2 * Z.quot (16 * n) d /\ (n = 0 -> duty (Finite n d) = 34).
Proof.
  intros n d Hd L U. assert (Q : -15 <= Z.quot (16 * n) d <= 16).
  { destruct (Z_le_gt_dec 0 n) as [P|P].
    - rewrite Z.quot_div_nonneg by lia. split; [pose proof (Z.div_pos (16 * n) d); lia|]. assert (16 * n / d < 17) by (apply Z.div_lt_upper_bound; lia). lia.
    - replace (16 * n) with (- (- 16 * n)) by ring. rewrite Z.quot_opp_l by lia. rewrite Z.quot_div_nonneg by lia.
      assert (-16 * n / d < 16) by (apply Z.div_lt_upper_bound; lia). pose proof (Z.div_pos (-16 * n) d). lia. }
  assert (E : duty (Finite n d) = 34 + 2 * Z.quot (16 * n) d).
  { unfold duty, audio_value, to_int. replace ((- 2 ^ 63 <=? Z.quot (16 * n) d) && (Z.quot (16 * n) d <? 2 ^ 63)) with true.
    - unfold clip. lia.
    - symmetry. apply andb_true_iff. rewrite Z.leb_le, Z.ltb_lt. change (2 ^ 63) with 9223372036854775808. lia. }
  split; [exact E|]. intros ->. rewrite E. reflexivity.
Qed.
Print Assumptions C37_exact_inside.
Example C37_met : duty (Finite 1 2) = 50 /\ duty (Finite (-1) 2) = 18 /\ duty (Finite 99 7) = 66 /\ duty NotANumber = 4.
Proof. repeat split. Qed.

(** C39 *)
Lemma list_eqb_spec a b : list_eqb a b = true <-> a = b.
Proof.
  revert b. induction a as [|x a IH]; intros [|y b]; cbn [list_eqb]; try (split; intros; congruence).
  rewrite andb_true_iff, Z.eqb_eq, IH. split; [intros [-> ->]; reflexivity|intros E; injection E; auto].
Qed.
Theorem C39_equality : forall a b, opcode_eq a b = true <-> a = b.
Proof.
  intros a b. destruct a as [m| | |x|t p c o], b as [m'| | |x'|t' p' c' o']; cbn [opcode_eq]; try (split; intros; congruence).
  - destruct m, m'; cbn; split; intros; congruence.
  - rewrite Bool.eqb_true_iff. split; intros; congruence.
  - rewrite !andb_true_iff, !Z.eqb_eq, list_eqb_spec. split; [intros [[-> ->] [-> ->]]; reflexivity|intros E; injection E; auto].
Qed.
Print Assumptions C39_equality.
(** Opcodes the transcoder can construct, with an injective address map below
    0xff00: equal opcodes are those that emit the same bytes. *)
Theorem C39_same_bytes : forall start a b,
  (forall x y, In x op_cmds -> In y op_cmds -> start x = start y -> x = y) ->
  (forall x, In x op_cmds -> 0 <= start x < 0xff00) ->
  In (command a) op_cmds -> In (command b) op_cmds ->
  opcode_eq a b = true <-> machine_emit start a = machine_emit start b.
Proof.
  intros start a b INJ RNG Ha Hb. rewrite C39_equality. split; [intros ->; reflexivity|].
  assert (TWO : forall x y r r', In x op_cmds -> In y op_cmds ->
    Z.shiftr (start x) 8 :: Z.land (start x) 0xff :: r = Z.shiftr (start y) 8 :: Z.land (start y) 0xff :: r' -> x = y /\ r = r').
  { intros x y r r' Hx Hy E. injection E as E1 E2 E3. split; [|exact E3]. apply INJ; auto.
    rewrite <- (hi_lo (start x)), <- (hi_lo (start y)), E1, E2. reflexivity. }
  assert (FF : forall x, In x op_cmds -> 0xff <> Z.shiftr (start x) 8).
  { intros x Hx E. specialize (RNG x Hx). rewrite Z.shiftr_div_pow2 in E by lia. change (2 ^ 8) with 256 in E. clear - E RNG. dlia. }
  intros E.
  destruct a as [m| | |x|t p c o], b as [m'| | |x'|t' p' c' o']; unfold machine_emit in E; cbn [emit_command emit_data app] in E;
    try (exfalso; injection E; intros; first [apply (FF _ Ha); congruence|apply (FF _ Hb); congruence]);
    try reflexivity;
    try (destruct (TWO _ _ _ _ Ha Hb E) as [C D]; cbn [command] in C; try discriminate C).
  - injection E as E. destruct m, m'; try discriminate E; reflexivity.
  - injection D as D. destruct x, x'; try discriminate D; reflexivity.
  - injection C as -> ->. injection D as -> ->. reflexivity.
Qed.
Print Assumptions C39_same_bytes.
Example C39_met : (forall x y, In x op_cmds -> In y op_cmds -> start_ex x = start_ex y -> x = y) /\
  (forall x, In x op_cmds -> 0 <= start_ex x < 0xff00) /\
  opcode_eq (Tick 4 32 7 [1; 2; 3; 4]) (Tick 4 32 7 [1; 2; 3; 5]) = false.
Proof.
  split; [|split; [|reflexivity]].
  - intros x y Hx Hy E. assert (R := ex_recognises (config_ex 0) eq_refl). pose proof (R x Hx) as A. pose proof (R y Hy) as B.
    cbn [c_start config_ex] in A, B. rewrite E in A. congruence.
  - intros x Hx. apply op_cmds_cases in Hx. destruct Hx as [-> |[-> |[-> |[-> |(t & p & -> & A & B)]]]]; cbn [start_ex]; try lia.
    apply tick_values_range in A. apply page_values_range in B. lia.
Qed.

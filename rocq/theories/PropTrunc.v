(** C65: the player given only the beginning of a stream. *)
From Verif Require Import Base BaseFacts ScreenModel ScreenSpec BitmapModel BitmapSpec VideoModel VideoSpec OpcodeModel MovieModel MovieSpec MovieProofs MovieFinal SymbolModel AddrThms
  AsmModel PlayerCode CpuModel PlayerModel PlayerSpec PlayerExec TickExec RecvCode LayoutProofs PlaybackSpec PlaybackRead PlaybackProofs PlaybackThms PlaybackConv TruncProofs PropMovie PropPlayback.
Opaque lowcode code hgr resident startup symbols code_map op_cmds TABLES.

(** Of a stream of which only the bytes [sent] ever arrive (the file was cut
    short, or the network stalls), all opcodes in frames that have arrived whole
    are played ... *)
Theorem C65_plays_whole_frames : forall bytes k rest sent more sched m0,
  playable bytes k rest -> bytes = sent ++ more -> connected sent m0 -> delivers sched -> user sched m0 ->
  forall i, (i <= length rest)%nat -> 7 + total_size (firstn i rest) + 2 <= whole_frames sent ->
  exists n m, run sent sched n m0 = Some m /\ at_opcode bytes rest i m0 m /\ shows k m (play (firstn i rest)).
Proof.
  intros bytes k rest sent more sched m0 PL -> C D U i L W. pose proof (proj1 (whole_pos sent more k rest PL i L) W) as B.
  destruct (reach_sent sent more k rest PL sched m0 C i D U L B) as (n & m & A). exists n, m. split; [exact (phase_run _ _ _ _ _ _ C _ _ _ A)|].
  split; [exact (phase_opcode _ _ _ _ _ _ _ _ PL A)|]. destruct A as (_ & _ & _ & _ & _ & passes & CM & _). exact (common_shows _ _ _ _ _ _ _ _ _ _ PL CM).
Qed.
Print Assumptions C65_plays_whole_frames.

(** ... and if the end is not among them, it then waits for ever, showing what
    these opcodes have drawn, having read exactly these frames (the header, if
    there is none), toggling the speaker every 25 cycles. *)
Theorem C65_then_waits : forall bytes k rest sent more sched m0,
  playable bytes k rest -> bytes = sent ++ more -> connected sent m0 -> delivers sched -> user sched m0 ->
  256 <= Z.of_nat (length sent) -> whole_frames sent < 7 + total_size rest + 2 ->
  exists i n0 mw, (i <= length rest)%nat /\ 7 + total_size (firstn i rest) = Z.max 7 (whole_frames sent) /\ run sent sched n0 m0 = Some mw /\
  forall n, (n0 <= n)%nat -> exists m, run sent sched n m0 = Some m /\
    shows k m (play (firstn i rest)) /\ taken m = taken m0 ++ first_bytes sent (Z.max 7 (whole_frames sent)) /\
    exists n' m' w new, (n <= n')%nat /\ run sent sched n' m0 = Some m' /\ waiting bytes (whole_frames sent) (Z.max 7 (whole_frames sent)) m' /\
      cyc m' = cyc mw + 25 * Z.of_nat w /\ log m' = log mw ++ new /\ clicks new = map (fun j => cyc mw + (25 * Z.of_nat j + 4)) (seq 0 w) /\ stores new = [].
Proof.
  intros bytes k rest sent more sched m0 PL -> C D U L W.
  assert (B : Z.of_nat (length sent) < PlaybackRead.acked_at rest (length rest) + 2048).
  { destruct (Z.lt_ge_cases (Z.of_nat (length sent)) (PlaybackRead.acked_at rest (length rest) + 2048)) as [X|X]; [exact X|exfalso].
    pose proof (proj2 (whole_pos sent more k rest PL (length rest) (le_n _)) X) as Y. unfold PlaybackRead.pos in Y. rewrite firstn_all in Y. lia. }
  destruct (stalls sent more k rest PL sched m0 C D U L B) as (i & n0 & mw & LI & P & AC & A & BI). exists i, n0, mw. split; [exact LI|]. split; [exact P|].
  split; [exact (phase_run _ _ _ _ _ _ C _ _ _ A)|]. intros n LN.
  destruct (stuck_all sent more k rest PL sched m0 C i n0 mw BI A n LN) as (m & R & SH & TK & n' & m' & w & LN' & R' & WT & PT). exists m. split; [exact R|]. split; [exact SH|].
  rewrite P in TK, WT. rewrite AC in WT. split.
  - rewrite TK. f_equal. unfold first_bytes. rewrite firstn_app. assert (Z0 : whole_frames sent <= Z.of_nat (length sent)).
    { unfold whole_frames. pose proof (Z.mul_div_le (Z.of_nat (length sent)) 2048). lia. }
    replace (Z.to_nat (Z.max 7 (whole_frames sent)) - length sent)%nat with O by lia. apply app_nil_r.
  - destruct (ef_log _ _ _ _ _ _ _ PT) as (new & LG & CK & ST & _). exists n', m', w, new. split; [exact LN'|]. split; [exact R'|]. split; [exact WT|].
    split; [exact (ef_cyc _ _ _ _ _ _ _ PT)|]. split; [exact LG|]. split; [|exact ST]. rewrite CK, map_map. reflexivity.
Qed.
Print Assumptions C65_then_waits.

(** On any schedule, at any time, it is in a defined state, has taken a prefix of
    these frames, and has changed nothing it should not. *)
Theorem C65_never_beyond : forall bytes k rest sent more sched m0,
  playable bytes k rest -> bytes = sent ++ more -> connected sent m0 -> whole_frames sent < 7 + total_size rest + 2 ->
  forall n, exists m c, run sent sched n m0 = Some m /\
    0 <= c <= Z.max 7 (whole_frames sent) /\ taken m = taken m0 ++ first_bytes sent c /\
    (forall b a, ~ may_change a -> CpuModel.mem m b a = CpuModel.mem m0 b a).
Proof.
  intros bytes k rest sent more sched m0 PL -> C W n.
  assert (B : Z.of_nat (length sent) < PlaybackRead.acked_at rest (length rest) + 2048).
  { destruct (Z.lt_ge_cases (Z.of_nat (length sent)) (PlaybackRead.acked_at rest (length rest) + 2048)) as [X|X]; [exact X|exfalso].
    pose proof (proj2 (whole_pos sent more k rest PL (length rest) (le_n _)) X) as Y. unfold PlaybackRead.pos in Y. rewrite firstn_all in Y. lia. }
  destruct (never_beyond sent more k rest PL sched m0 C n B) as (m & c & R & C1 & _ & T & M). exists m, c. auto.
Qed.
Print Assumptions C65_never_beyond.

(** So no opcode that is not in these frames is ever reached. *)
Theorem C65_no_further : forall bytes k rest sent more sched m0 n m i,
  playable bytes k rest -> bytes = sent ++ more -> connected sent m0 -> run sent sched n m0 = Some m ->
  (i <= length rest)%nat -> whole_frames sent < 7 + total_size (firstn i rest) + 2 -> ~ at_opcode bytes rest i m0 m.
Proof.
  intros bytes k rest sent more sched m0 n m i PL E C R L W (_ & _ & T).
  assert (W' : whole_frames sent < 7 + total_size rest + 2).
  { rewrite <- (firstn_skipn i rest) , total_size_app. pose proof (total_size_nonneg (skipn i rest)). lia. }
  destruct (C65_never_beyond bytes k rest sent more sched m0 PL E C W' n) as (m' & q & R' & B & T' & _). assert (m' = m) as -> by congruence.
  rewrite T in T'. apply app_inv_head in T'. destruct (read_at bytes k rest PL i L) as (_ & Q & _). unfold PlaybackRead.pos in Q.
  pose proof (f_equal (@length Z) T') as TL. unfold first_bytes in TL. rewrite !firstn_length in TL. pose proof (total_size_nonneg (firstn i rest)). lia.
Qed.
Print Assumptions C65_no_further.

(** With less than 256 bytes it does nothing at all. *)
Theorem C65_no_header : forall bytes k rest sent more sched m0,
  playable bytes k rest -> bytes = sent ++ more -> connected sent m0 -> Z.of_nat (length sent) < 256 ->
  forall n, exists m new, run sent sched n m0 = Some m /\ taken m = taken m0 /\ log m = log m0 ++ new /\ clicks new = [] /\ stores new = [].
Proof. intros bytes k rest sent more sched m0 PL -> C L n. exact (no_header_all sent more k rest PL sched m0 C n L). Qed.
Print Assumptions C65_no_header.

(** The first 3000 bytes of the conversion of [C47_case] *)
Example C65_case : exists bytes rest sent more, playable bytes DHGR rest /\ bytes = sent ++ more /\ connected sent start_ex /\
  delivers sched_ex /\ user sched_ex start_ex /\ Z.of_nat (length sent) = 3000 /\ whole_frames sent = 2048 /\ whole_frames sent < 7 + total_size rest + 2.
Proof.
  destruct C47_case as (bytes & rest & CV & CN & D & _ & U). pose proof (conversion_playable _ _ _ _ _ CV) as PL.
  exists bytes, rest, (firstn (Z.to_nat 3000) bytes), (skipn (Z.to_nat 3000) bytes). split; [exact PL|]. split; [symmetry; apply firstn_skipn|].
  assert (N : (1000 <= length (filter is_tick rest))%nat).
  { destruct (cv_opcodes _ _ _ _ _ CV) as (zs & RS).
    destruct (C35_one_tick_per_sample config_47 (audio_ex 1000) (repeat dframe_ex 5) bytes player_which _ rest zs (cv_config _ _ _ _ _ CV) (cv_audio _ _ _ _ _ CV) (cv_frames _ _ _ _ _ CV)
      eq_refl (cv_output _ _ _ _ _ CV) (conversion_knows _ _ _ _ _ CV) RS) as (n & LE & _ & -> & _ & [E|E]).
    - rewrite E. unfold audio_ex. rewrite repeat_length. apply le_n.
    - exfalso. unfold audio_ex in LE. rewrite repeat_length in LE, E.
      destruct (C36_float_clock (14700 * 1001) 30000 2157197833231401 42 (S n) eq_refl eq_refl ltac:(discriminate) ltac:(discriminate) ltac:(lia) ltac:(lia) ltac:(discriminate)) as [F _].
      change (c_clock config_47) with (ClockModel.float_clock 2157197833231401 42) in E. set (d := due _ _) in *. clearbody d. lia. }
  pose proof (total_ticks rest) as T. rewrite duties_ticks in T.
  assert (T7 : 7000 <= total_size rest) by (clear - N T; lia).
  assert (LB : 3000 <= Z.of_nat (length bytes)).
  { destruct (read_at bytes DHGR rest PL (length rest) (le_n _)) as (_ & Q & _). unfold PlaybackRead.pos in Q. rewrite firstn_all in Q. clear - Q T7. lia. }
  assert (LS : Z.of_nat (length (firstn (Z.to_nat 3000) bytes)) = 3000) by (rewrite firstn_length_le; [reflexivity|clear - LB; lia]).
  assert (WF : whole_frames (firstn (Z.to_nat 3000) bytes) = 2048) by (unfold whole_frames; rewrite LS; reflexivity).
  split; [|split; [exact D|split; [exact U|split; [exact LS|split; [exact WF|rewrite WF; clear - T7; lia]]]]].
  destruct CN as [H1 H2 H3 H4 H5 H6 H7 H8]. constructor; auto. destruct H4 as [G1 G2 G3 G4 G5 G6 G7 G8]. constructor; auto; [rewrite LS; discriminate|]. intros j J. cbn in J. lia.
Qed.

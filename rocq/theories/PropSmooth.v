(** C74: a fast enough network never interrupts playback. *)
From Verif Require Import Base BaseFacts ScreenModel ScreenSpec BitmapModel BitmapSpec VideoModel VideoSpec OpcodeModel MovieModel MovieSpec SymbolModel AddrThms
  AsmModel PlayerCode CpuModel PlayerModel PlayerSpec PlayerExec ChipProofs TickExec RecvCode EffectProofs TickThms RunProofs RecvProofs LayoutProofs PlaybackSpec StartupCode StartupProofs PlaybackRead PlaybackProofs PlaybackThms PlaybackConv
  MovieFinal PropMovie PropPlayback SmoothSpec SmoothProofs.
Opaque lowcode code hgr resident startup symbols code_map op_cmds TABLES.

(** If the network offers 2048 bytes per 21243 cycles, then from the first opcode
    on every opcode is reached without any waiting: all times and all toggles of
    the speaker are those of the opcodes alone. *)
Theorem C74_steady : forall bytes k rest sched m0,
  playable bytes k rest -> connected bytes m0 -> delivers sched -> never_pressed sched m0 -> bandwidth bytes sched m0 2048 21243 ->
  exists ns ms, run bytes sched ns m0 = Some ms /\ at_opcode bytes rest 0 m0 ms /\
    forall i, (i <= length rest)%nat -> exists n m new, (ns <= n)%nat /\ run bytes sched n m0 = Some m /\ at_opcode bytes rest i m0 m /\
      cyc m = cyc ms + 73 * count is_tick (firstn i rest) + 146 * count is_ack (firstn i rest) /\
      log m = log ms ++ new /\ clicks new = map (Z.add (cyc ms)) (steady_clicks 0 (firstn i rest)).
Proof.
  intros bytes k rest sched m0 PL C D NP BW. destruct (steady_0 bytes k rest PL sched m0 C NP D) as (ns & ms & S0).
  exists ns, ms. split; [exact (proj1 (proj1 S0))|]. split; [exact (phase_opcode _ _ _ _ _ _ _ _ PL (proj1 S0))|].
  intros i L. destruct (steady_all bytes k rest PL sched m0 NP BW ms ns S0 i L) as (n & m & LN & (A & _ & st & sw & got & E)).
  destruct (ef_log _ _ _ _ _ _ _ E) as (new & LG & CK & _). exists n, m, new. split; [exact LN|]. split; [exact (proj1 A)|].
  split; [exact (phase_opcode _ _ _ _ _ _ _ _ PL A)|]. split; [rewrite (ef_cyc _ _ _ _ _ _ _ E); unfold steady_time; lia|]. split; [exact LG|exact CK].
Qed.
Print Assumptions C74_steady.

(** A conversion then sounds its [j]-th sample exactly 73 j + 146 ((j + 1) / 292)
    cycles after the first: two toggles as far apart as the sample says. *)
Theorem C74_sample_times : forall c audio frames bytes rest sched m0,
  conversion c audio frames bytes rest -> connected bytes m0 -> delivers sched -> never_pressed sched m0 -> bandwidth bytes sched m0 2048 21243 ->
  exists ns ms, run bytes sched ns m0 = Some ms /\ at_opcode bytes rest 0 m0 ms /\
    forall i tick page content offsets, nth_error rest i = Some (Tick tick page content offsets) ->
    let j := count is_tick (firstn i rest) in let t := cyc ms + 73 * j + 146 * ((j + 1) / 292) in
    exists n m n' m' new d au, (ns <= n < n')%nat /\ run bytes sched n m0 = Some m /\ at_opcode bytes rest i m0 m /\ cyc m = t /\
      run bytes sched n' m0 = Some m' /\ at_opcode bytes rest (S i) m0 m' /\ cyc m' = t + 73 /\
      log m' = log m ++ new /\ clicks new = [t + 4; t + 4 + d] /\
      nth_error audio (Z.to_nat j) = Some au /\ tick = 2 * au + 34 /\ tick - 1 <= d <= tick.
Proof.
  intros c audio frames bytes rest sched m0 CV C D NP BW. pose proof (conversion_playable _ _ _ _ _ CV) as PL.
  destruct (steady_0 bytes _ rest PL sched m0 C NP D) as (ns & ms & S0).
  exists ns, ms. split; [exact (proj1 (proj1 S0))|]. split; [exact (phase_opcode _ _ _ _ _ _ _ _ PL (proj1 S0))|].
  intros i tick page content offsets N j t. assert (L : (i < length rest)%nat) by (apply nth_error_Some; congruence).
  destruct (steady_all bytes _ rest PL sched m0 NP BW ms ns S0 i ltac:(lia)) as (n & m & LN & (A & _ & st & sw & got & E)).
  assert (T : cyc m = t).
  { rewrite (ef_cyc _ _ _ _ _ _ _ E). unfold steady_time. rewrite (tick_acks _ _ _ PL _ _ _ _ _ N). subst t j. lia. }
  destruct (tick_advances bytes _ rest PL sched m0 n i m tick page content offsets A N) as (n' & m' & LN' & A' & (st' & got' & E') & _).
  destruct (ef_log _ _ _ _ _ _ _ E') as (new & LG & CK & _).
  destruct (cv_opcodes _ _ _ _ _ CV) as (zs & RS).
  destruct (C33_ticks_serve_selected_bank c audio frames bytes player_which _ rest zs (cv_config _ _ _ _ _ CV) (cv_audio _ _ _ _ _ CV) (cv_frames _ _ _ _ _ CV)
     (cv_output _ _ _ _ _ CV) (cv_limit _ _ _ _ _ CV) (conversion_knows _ _ _ _ _ CV) RS i tick page content offsets N) as (f & au & AU & TK & _).
  exists n, m, n', m', new, (tick_cycles tick), au. split; [lia|]. split; [exact (proj1 A)|]. split; [exact (phase_opcode _ _ _ _ _ _ _ _ PL A)|]. split; [exact T|].
  split; [exact (proj1 A')|]. split; [exact (phase_opcode _ _ _ _ _ _ _ _ PL A')|]. split; [rewrite (ef_cyc _ _ _ _ _ _ _ E'), T; reflexivity|]. split; [exact LG|].
  split; [rewrite CK; cbn [map]; rewrite T, Z.add_assoc; reflexivity|]. split; [|split; [exact TK|]].
  - rewrite <- AU. subst j. unfold count. rewrite Nat2Z.id. f_equal. rewrite (firstn_snoc _ _ _ N), filter_app, app_length. cbn [filter is_tick length]. lia.
  - unfold tick_cycles. destruct (Z.eqb_spec tick 22); [|destruct (Z.eqb_spec tick 40)]; lia.
Qed.
Print Assumptions C74_sample_times.

(** Such a network: three bytes every other instruction, for any player. *)
Lemma offered_ex n : forall n1, 3 * Z.of_nat n - 3 <= 2 * offered (fun i => sched_ex (n1 + i)) n.
Proof.
  induction n as [n IH] using lt_wf_ind. intros n1. destruct n as [|[|n]]; [cbn; lia|cbn [offered]; lia|].
  cbn [offered]. specialize (IH n ltac:(lia) (n1 + 2)%nat). rewrite (offered_ext n _ (fun i => sched_ex (n1 + 2 + i))) by (intros i; f_equal; lia).
  assert (P : Z.of_nat (e_bytes (sched_ex (n1 + 0))) + Z.of_nat (e_bytes (sched_ex (n1 + 1))) = 3).
  { rewrite Nat.add_0_r, Nat.add_1_r. unfold sched_ex. cbn [e_bytes]. rewrite Nat.even_succ, <- Nat.negb_even. destruct (Nat.even n1); reflexivity. }
  lia.
Qed.
Lemma bandwidth_ex : forall bytes m0, bandwidth bytes sched_ex m0 2048 21243.
Proof. intros bytes m0. apply enough_per_instruction. intros n1 n H. pose proof (offered_ex n n1). lia. Qed.
Example C74_case : exists bytes rest, conversion config_47 (audio_ex 1000) (repeat dframe_ex 5) bytes rest /\
  connected bytes start_ex /\ delivers sched_ex /\ never_pressed sched_ex start_ex /\ bandwidth bytes sched_ex start_ex 2048 21243.
Proof. destruct C47_case as (bytes & rest & CV & C & D & NP & _). exists bytes, rest. pose proof (bandwidth_ex bytes start_ex). auto. Qed.

(** C78: size of the file and playing time follow from the number of samples. *)
From Verif Require Import Base BaseFacts ScreenModel ScreenSpec BitmapModel BitmapSpec VideoModel VideoSpec OpcodeModel MovieModel MovieSpec SymbolModel AddrThms
  AsmModel PlayerCode CpuModel PlayerModel PlayerSpec PlayerExec ChipProofs TickExec RecvCode EffectProofs TickThms RunProofs RecvProofs LayoutProofs PlaybackSpec StartupCode StartupProofs PlaybackRead PlaybackProofs PlaybackThms PlaybackConv
  MovieProofs MovieFinal PropMovie PropPlayback SmoothSpec SmoothProofs PropSmooth ClockProofs PropIndep.
From Verif Require FidelityProofs.
Opaque lowcode code hgr resident startup symbols code_map op_cmds TABLES.

(** Everything but the opcodes of the samples is determined by their number [n]. *)
Theorem C78_size : forall c audio frames bytes rest, conversion c audio frames bytes rest ->
  let n := count is_tick rest in
  count is_ack rest = (n + 1) / 292 /\ Z.of_nat (length bytes) = 2048 * ((n + 1) / 292 + 1).
Proof.
  intros c audio frames bytes rest CV n. destruct (cv_opcodes _ _ _ _ _ CV) as (zs & RS).
  destruct (read_run c audio frames bytes player_which _ rest zs (cv_output _ _ _ _ _ CV) (cv_limit _ _ _ _ _ CV) (conversion_knows _ _ _ _ _ CV) RS) as (_ & s & _ & _ & F & _ & _ & L).
  destruct (acks_before bytes _ rest (conversion_playable _ _ _ _ _ CV) (length rest) ltac:(lia)) as [H1 H2].
  unfold acked_at, pos in H1, H2. rewrite firstn_all in H1, H2. destruct (fr_mod _ _ _ F) as (j & J & M).
  rewrite total_size_cons in L, M. cbn [opcode_size] in L, M. fold n in H2. set (a := count is_ack rest) in *. set (t := total_size rest) in *. clearbody a t n.
  assert (E : a = (n + 1) / 292).
  { apply (Z.div_unique (n + 1) 292 a (n + 1 - 292 * a)); [left|lia]. clear - H1 H2 J M. pose proof (Z.div_mod (7 + t) 2048 ltac:(lia)) as D. rewrite M in D. lia. }
  split; [exact E|]. rewrite L, <- E. clear - H1. lia.
Qed.
Print Assumptions C78_size.

(** Without a limit and with a frame for every sample, all the samples count: the
    size depends on nothing else, neither mode nor pictures nor sounds. *)
Theorem C78_size_of_samples : forall c audio frames bytes rest, conversion c audio frames bytes rest -> c_max_bytes c = 0 ->
  due (c_clock c) (length audio) <= Z.of_nat (length frames) ->
  let n := Z.of_nat (length audio) in
  count is_tick rest = n /\ Z.of_nat (length bytes) = 2048 * ((n + 1) / 292 + 1).
Proof.
  intros c audio frames bytes rest CV M E n. destruct (cv_opcodes _ _ _ _ _ CV) as (zs & RS).
  destruct (C35_one_tick_per_sample c audio frames bytes player_which _ rest zs (cv_config _ _ _ _ _ CV) (cv_audio _ _ _ _ _ CV) (cv_frames _ _ _ _ _ CV) M
     (cv_output _ _ _ _ _ CV) (conversion_knows _ _ _ _ _ CV) RS) as (k & K1 & _ & K2 & _ & K3).
  assert (K : k = length audio).
  { destruct K3 as [K3|K3]; [exact K3|]. destruct (Nat.eq_dec k (length audio)) as [Q|Q]; [exact Q|]. exfalso.
    pose proof (FidelityProofs.due_mono c (S k) (length audio) ltac:(lia)). lia. }
  assert (C : count is_tick rest = n) by (unfold count, n; rewrite K2, K; reflexivity).
  split; [exact C|]. rewrite (proj2 (C78_size _ _ _ _ _ CV)), C. reflexivity.
Qed.
Print Assumptions C78_size_of_samples.

(** Over a network that is fast enough, the time from the first opcode to the last
    is 73 cycles per sample and 146 per ACK: 73.5 cycles per sample but for at most
    146 cycles. *)
Theorem C78_time : forall c audio frames bytes rest sched m0,
  conversion c audio frames bytes rest -> connected bytes m0 -> delivers sched -> never_pressed sched m0 -> bandwidth bytes sched m0 2048 21243 ->
  let n := count is_tick rest in
  exists n1 m1 n2 m2, (n1 <= n2)%nat /\ run bytes sched n1 m0 = Some m1 /\ at_opcode bytes rest 0 m0 m1 /\
    run bytes sched n2 m0 = Some m2 /\ at_opcode bytes rest (length rest) m0 m2 /\
    cyc m2 - cyc m1 = 73 * n + 146 * ((n + 1) / 292) /\ 147 * n - 290 <= 2 * (cyc m2 - cyc m1) <= 147 * n + 1.
Proof.
  intros c audio frames bytes rest sched m0 CV C D NP BW n.
  destruct (C74_steady bytes _ rest sched m0 (conversion_playable _ _ _ _ _ CV) C D NP BW) as (n1 & m1 & R1 & A1 & ALL).
  destruct (ALL (length rest) ltac:(lia)) as (n2 & m2 & new & LN & R2 & A2 & T & _).
  rewrite firstn_all, (proj1 (C78_size _ _ _ _ _ CV)) in T. fold n in T. clearbody n.
  exists n1, m1, n2, m2. split; [exact LN|]. split; [exact R1|]. split; [exact A1|]. split; [exact R2|]. split; [exact A2|].
  rewrite T. clear. split; dlia.
Qed.
Print Assumptions C78_time.

(** So playback is slower than the sound was recorded, if it was sampled at the
    default 14700 Hz (main.py 24) and the processor runs at 1020484 Hz: [s] seconds
    last for more than 1.058 s. *)
Theorem C78_slower : forall c audio frames bytes rest sched m0 s,
  conversion c audio frames bytes rest -> connected bytes m0 -> delivers sched -> never_pressed sched m0 -> bandwidth bytes sched m0 2048 21243 ->
  1 <= s -> count is_tick rest = 14700 * s ->
  exists n1 m1 n2 m2, (n1 <= n2)%nat /\ run bytes sched n1 m0 = Some m1 /\ at_opcode bytes rest 0 m0 m1 /\
    run bytes sched n2 m0 = Some m2 /\ at_opcode bytes rest (length rest) m0 m2 /\
    1058 * s * 1020484 <= 1000 * (cyc m2 - cyc m1).
Proof.
  intros c audio frames bytes rest sched m0 s CV C D NP BW S1 N.
  destruct (C78_time _ _ _ _ _ _ _ CV C D NP BW) as (n1 & m1 & n2 & m2 & Q1 & Q2 & Q3 & Q4 & Q5 & _ & Q6).
  exists n1, m1, n2, m2. split; [exact Q1|]. split; [exact Q2|]. split; [exact Q3|]. split; [exact Q4|]. split; [exact Q5|]. rewrite N in Q6. lia.
Qed.
Print Assumptions C78_slower.

Lemma start_connected bytes : connected bytes start_ex.
Proof.
  destruct C47_case as (b0 & r0 & _ & C0 & _). destruct C0. constructor; try assumption.
  constructor; cbn [start_ex net wmode status regs rxbase wr buf]; try reflexivity; lia.
Qed.
(** Any number of seconds of sound at 14700 Hz, and as many frames as needed. *)
Example C78_case : forall s, 1 <= s -> let n := Z.to_nat (14700 * s) in
  exists bytes rest, conversion config_47 (audio_ex n) (repeat dframe_ex n) bytes rest /\ c_max_bytes config_47 = 0 /\
    due (c_clock config_47) (length (audio_ex n)) <= Z.of_nat (length (repeat dframe_ex n)) /\ count is_tick rest = 14700 * s /\
    connected bytes start_ex /\ delivers sched_ex /\ never_pressed sched_ex start_ex /\ bandwidth bytes sched_ex start_ex 2048 21243.
Proof.
  intros s S1 n. destruct C47_case as (b0 & r0 & CV & C0 & D & NP & _).
  destruct (converts_ex config_47 (audio_ex n) (repeat dframe_ex n) (cv_config _ _ _ _ _ CV) (ex_audio n) (ex_dframes 0 n) eq_refl eq_refl) as (bytes & rest & CV1).
  assert (LA : length (audio_ex n) = n) by apply repeat_length.
  assert (DU : due (c_clock config_47) (length (audio_ex n)) <= Z.of_nat (length (repeat dframe_ex n))).
  { rewrite LA, repeat_length. exact (proj2 (due_bounds _ n)). }
  exists bytes, rest. split; [exact CV1|]. split; [reflexivity|]. split; [exact DU|].
  split; [rewrite (proj1 (C78_size_of_samples _ _ _ _ _ CV1 eq_refl DU)), LA; subst n; apply Z2Nat.id; lia|].
  split; [exact (start_connected bytes)|]. split; [exact D|]. split; [exact NP|]. exact (bandwidth_ex bytes start_ex).
Qed.

(** C91: a network that is too slow delays each frame by what it is short of, and no more. *)
From Verif Require Import Base BaseFacts ScreenModel ScreenSpec BitmapModel BitmapSpec VideoModel VideoSpec OpcodeModel MovieModel MovieSpec SymbolModel AddrThms
  AsmModel PlayerCode CpuModel PlayerModel PlayerSpec PlayerExec ChipProofs TickExec RecvCode EffectProofs TickThms RunProofs RecvProofs LayoutProofs PlaybackSpec StartupCode StartupProofs PlaybackRead PlaybackProofs PlaybackThms PlaybackConv
  MovieFinal PropMovie PropPlayback ClockModel SmoothSpec SmoothProofs PropSmooth SlowProofs.
Opaque lowcode code hgr resident startup symbols code_map op_cmds TABLES.

(** If the network offers 2048 bytes per [T] cycles, whatever [T], and no key is
    pressed, then every opcode is reached no earlier than the opcodes before it
    take by themselves, and at most [T - 21292] cycles later for each ACK before
    it (not at all later if [T] is no more than 21292). *)
Theorem C91_slow_network : forall bytes k rest sched m0 T,
  playable bytes k rest -> connected bytes m0 -> delivers sched -> never_pressed sched m0 -> bandwidth bytes sched m0 2048 T ->
  exists ns ms, run bytes sched ns m0 = Some ms /\ at_opcode bytes rest 0 m0 ms /\
    forall i, (i <= length rest)%nat -> exists n m, (ns <= n)%nat /\ run bytes sched n m0 = Some m /\ at_opcode bytes rest i m0 m /\
      let due := 73 * count is_tick (firstn i rest) + 146 * count is_ack (firstn i rest) in
      due <= cyc m - cyc ms <= due + count is_ack (firstn i rest) * Z.max 0 (T - 21292).
Proof.
  intros bytes k rest sched m0 T PL C D NP BW. destruct (on_time_0 bytes k rest PL sched m0 C NP T D) as (ns & ms & S0).
  exists ns, ms. split; [exact (proj1 (proj1 S0))|]. split; [exact (phase_opcode _ _ _ _ _ _ _ _ PL (proj1 S0))|].
  intros i L. destruct (on_time_all bytes k rest PL sched m0 NP T BW ms ns S0 i L) as (n & m & LN & (A & _ & E)).
  exists n, m. split; [exact LN|]. split; [exact (proj1 A)|]. split; [exact (phase_opcode _ _ _ _ _ _ _ _ PL A)|].
  cbv zeta. unfold steady_time, extra in E. lia.
Qed.
Print Assumptions C91_slow_network.

(** So the [j]-th sample of a conversion comes at most (j + 1) / 292 times
    [T - 21292] cycles late. *)
Theorem C91_sample_lateness : forall c audio frames bytes rest sched m0 T,
  conversion c audio frames bytes rest -> connected bytes m0 -> delivers sched -> never_pressed sched m0 -> bandwidth bytes sched m0 2048 T ->
  exists ns ms, run bytes sched ns m0 = Some ms /\ at_opcode bytes rest 0 m0 ms /\
    forall i tick page content offsets, nth_error rest i = Some (Tick tick page content offsets) ->
    let j := count is_tick (firstn i rest) in let t := cyc ms + 73 * j + 146 * ((j + 1) / 292) in
    exists n m n' m' d, (ns <= n < n')%nat /\ run bytes sched n m0 = Some m /\ at_opcode bytes rest i m0 m /\
      t <= cyc m <= t + (j + 1) / 292 * Z.max 0 (T - 21292) /\
      run bytes sched n' m0 = Some m' /\ at_opcode bytes rest (S i) m0 m' /\ cyc m' = cyc m + 73 /\
      exists new, log m' = log m ++ new /\ clicks new = [cyc m + 4; cyc m + 4 + d] /\ tick - 1 <= d <= tick.
Proof.
  intros c audio frames bytes rest sched m0 T CV C D NP BW. pose proof (conversion_playable _ _ _ _ _ CV) as PL.
  destruct (on_time_0 bytes _ rest PL sched m0 C NP T D) as (ns & ms & S0).
  exists ns, ms. split; [exact (proj1 (proj1 S0))|]. split; [exact (phase_opcode _ _ _ _ _ _ _ _ PL (proj1 S0))|].
  intros i tick page content offsets N j t. assert (L : (i < length rest)%nat) by (apply nth_error_Some; congruence).
  destruct (on_time_all bytes _ rest PL sched m0 NP T BW ms ns S0 i ltac:(lia)) as (n & m & LN & (A & _ & E)).
  pose proof (tick_acks _ _ _ PL _ _ _ _ _ N) as TA. fold j in TA. unfold steady_time, extra in E. rewrite TA in E. fold j in E.
  destruct (tick_advances bytes _ rest PL sched m0 n i m tick page content offsets A N) as (n' & m' & LN' & A' & (st' & got' & E') & _).
  destruct (ef_log _ _ _ _ _ _ _ E') as (new & LG & CK & _).
  exists n, m, n', m', (tick_cycles tick). split; [lia|]. split; [exact (proj1 A)|]. split; [exact (phase_opcode _ _ _ _ _ _ _ _ PL A)|].
  split; [subst t; rewrite (Z.mul_comm ((j + 1) / 292)); lia|].
  split; [exact (proj1 A')|]. split; [exact (phase_opcode _ _ _ _ _ _ _ _ PL A')|]. split; [exact (ef_cyc _ _ _ _ _ _ _ E')|].
  exists new. split; [exact LG|]. split; [rewrite CK; cbn [map]; rewrite Z.add_assoc; reflexivity|].
  unfold tick_cycles. destruct (Z.eqb_spec tick 22); [|destruct (Z.eqb_spec tick 40)]; lia.
Qed.
Print Assumptions C91_sample_lateness.

(** It cannot be faster than the network either, whatever the user does: an opcode
    after [q] ACKs is reached only when 2048 (q + 1) bytes have been offered,
    counting those that were there already. *)
Theorem C91_no_faster : forall bytes k rest sched m0,
  playable bytes k rest -> connected bytes m0 -> delivers sched -> user sched m0 ->
  forall i, (i <= length rest)%nat -> exists n m, run bytes sched n m0 = Some m /\ at_opcode bytes rest i m0 m /\
    2048 * (count is_ack (firstn i rest) + 1) <= wr (net m0) + offered sched n.
Proof.
  intros bytes k rest sched m0 PL C D U i L. destruct (reach_at bytes k rest PL sched m0 C D U i L) as (n & m & A).
  exists n, m. split; [exact (proj1 A)|]. split; [exact (phase_opcode _ _ _ _ _ _ _ _ PL A)|].
  pose proof (h_wr _ _ _ (cn_held _ _ C)) as W0. pose proof (run_offered _ _ _ _ _ (proj1 A) (proj1 W0)) as W.
  pose proof (proj1 (acks_before _ _ _ PL i L)) as AB. pose proof (proj1 (proj2 (proj2 (proj2 (proj2 A))))) as WA. lia.
Qed.
Print Assumptions C91_no_faster.

(** Such a network: one byte every fourth instruction gives any player 2048 bytes
    per 57400 cycles, too few for steady playback. *)
Definition sched_slow (i : nat) : env := Env (if (i mod 4 =? 0)%nat then 1 else 0) None None.
Lemma offered_slow n : forall n1, Z.of_nat n - 3 <= 4 * offered (fun i => sched_slow (n1 + i)) n.
Proof.
  induction n as [n IH] using lt_wf_ind. intros n1. destruct n as [|[|[|[|n]]]]; try (cbn [offered]; lia).
  cbn [offered]. specialize (IH n ltac:(lia) (n1 + 4)%nat). rewrite (offered_ext n _ (fun i => sched_slow (n1 + 4 + i))) by (intros i; f_equal; lia).
  assert (P : Z.of_nat (e_bytes (sched_slow (n1 + 0))) + (Z.of_nat (e_bytes (sched_slow (n1 + 1))) + (Z.of_nat (e_bytes (sched_slow (n1 + 2))) + Z.of_nat (e_bytes (sched_slow (n1 + 3))))) = 1).
  { unfold sched_slow. cbn [e_bytes]. pose proof (Nat.div_mod n1 4 ltac:(lia)) as E. pose proof (Nat.mod_upper_bound n1 4 ltac:(lia)) as U.
    set (q := (n1 / 4)%nat) in *. set (r := (n1 mod 4)%nat) in *. clearbody q r. subst n1.
    assert (M : forall x, ((4 * q + x) mod 4 = x mod 4)%nat) by (intros x; rewrite (Nat.mul_comm 4 q), Nat.add_comm, Nat.mod_add by lia; reflexivity).
    rewrite <- !Nat.add_assoc, !M. destruct r as [|[|[|[|r]]]]; [reflexivity..|lia]. }
  lia.
Qed.
Example C91_case : exists bytes rest, conversion config_47 (audio_ex 1000) (repeat dframe_ex 5) bytes rest /\
  connected bytes start_ex /\ delivers sched_slow /\ never_pressed sched_slow start_ex /\ bandwidth bytes sched_slow start_ex 2048 57400 /\
  2 <= count is_ack rest.
Proof.
  destruct C47_case as (bytes & rest & CV & C & D & NP & _). exists bytes, rest. split; [exact CV|]. split; [exact C|].
  split. { intros i. exists (4 * i)%nat. split; [lia|]. unfold sched_slow. rewrite Nat.mul_comm, Nat.mod_mul by lia. cbn [Nat.eqb e_bytes]. lia. }
  split. { split; [exact (proj1 NP)|]. intros i. reflexivity. }
  split. { apply enough_per_instruction. intros n1 n H. pose proof (offered_slow n n1). lia. }
  pose proof (conversion_playable _ _ _ _ _ CV) as PL. destruct (cv_opcodes _ _ _ _ _ CV) as (zs & RS).
  destruct (C35_one_tick_per_sample config_47 (audio_ex 1000) (repeat dframe_ex 5) bytes player_which _ rest zs (cv_config _ _ _ _ _ CV) (cv_audio _ _ _ _ _ CV) (cv_frames _ _ _ _ _ CV)
    eq_refl (cv_output _ _ _ _ _ CV) (conversion_knows _ _ _ _ _ CV) RS) as (n & LE & _ & N & _ & E).
  assert (N1 : n = 1000%nat).
  { unfold audio_ex in LE, E. rewrite repeat_length in LE. rewrite !repeat_length in E. destruct E as [E|E]; [exact E|]. exfalso.
    destruct (C36_float_clock (14700 * 1001) 30000 2157197833231401 42 (S n) eq_refl eq_refl ltac:(discriminate) ltac:(discriminate) ltac:(lia) ltac:(lia) ltac:(discriminate)) as [F _].
    change (c_clock config_47) with (ClockModel.float_clock 2157197833231401 42) in E. set (d := due _ _) in *. clearbody d. lia. }
  destruct (acks_before _ _ _ PL (length rest) (le_n _)) as [A1 A2]. rewrite firstn_all in A1, A2.
  destruct (in_frame rest (length rest)) as (F & _). unfold count in *. rewrite N, N1 in A2. clear - A1 A2 F. lia.
Qed.

(** Properties C43-C47: playing a converted movie. *)
From Verif Require Import Base BaseFacts ScreenModel ScreenSpec BitmapModel BitmapSpec VideoModel VideoSpec TableModel TableSpec DisplaySpec OpcodeModel MovieModel MovieSpec
  MovieProofs MovieState MovieThms MovieFinal PropVideo PropMovie SymbolModel SymbolSpec SymData AddrThms
  AsmModel PlayerCode CpuModel PlayerModel PlayerSpec LayoutProofs RecvThms StartupCode PropSymbols PropPlayer PlaybackSpec EffectProofs TickThms StartupProofs PlaybackRead PlaybackProofs PlaybackThms PlaybackConv.
Opaque lowcode code hgr resident startup symbols op_cmds TABLES all_pairs next sym_lits program program_memory.

(** The theorems are about streams that are [playable], among them everything a
    conversion puts out with the opcode addresses of the shipped symbol file; [rest]
    are its opcodes after the header.  The player starts in any state in which it
    has a connection and waits for the header. *)
Theorem C44_conversions_are_playable : forall c audio frames bytes rest,
  conversion c audio frames bytes rest -> playable bytes (c_mode c) rest.
Proof. exact conversion_playable. Qed.
Print Assumptions C44_conversions_are_playable.
(** the reader of the stream knows exactly the addresses of the opcodes' routines *)
Theorem C44_addresses : forall a c, player_which a = Some c <-> In c op_cmds /\ label_address symbols (op_label c) = Some a.
Proof.
  intros a c. split.
  - intros H. apply which_some in H. destruct H as [I <-]. split; [exact I|apply op_address, I].
  - intros [I H]. assert (X : forall x y : Z, Some x = Some y -> x = y) by congruence. rewrite <- (X _ _ (eq_trans (eq_sym (op_address _ I)) H)). apply which_start, I.
Qed.
Print Assumptions C44_addresses.

(** C43: at any time before TERMINATE, on any schedule, the player is in a defined
    state and has read exactly a first part of the stream, of which everything had
    arrived. *)
Theorem C43_in_order : forall bytes k rest sched m0 n,
  playable bytes k rest -> connected bytes m0 -> not_over bytes sched m0 n ->
  exists m c, run bytes sched n m0 = Some m /\ taken m = taken m0 ++ first_bytes bytes c /\ 0 <= c <= wr (net m).
Proof.
  intros bytes k rest sched m0 n PL C NO. destruct (covered bytes k rest PL sched m0 n C NO) as (_ & _ & _ & m & _ & _ & R).
  destruct (in_order bytes k rest PL sched m0 n m C NO R) as (c & CW & T). exists m, c. auto.
Qed.
Print Assumptions C43_in_order.

(** C44 *)
Theorem C44_reaches_every_opcode : forall bytes k rest sched m0,
  playable bytes k rest -> connected bytes m0 -> delivers sched -> user sched m0 ->
  exists time : nat -> nat, forall i, (i <= length rest)%nat ->
    (i < length rest -> time i < time (S i))%nat /\ exists m, run bytes sched (time i) m0 = Some m /\ at_opcode bytes rest i m0 m.
Proof.
  intros bytes k rest sched m0 PL C D U. destruct (all_opcodes _ _ _ _ _ PL C D U) as (f & F). exists f. intros i L. destruct (F i L) as (F1 & m & A).
  split; [exact F1|]. exists m. split; [exact (proj1 A)|]. exact (phase_opcode _ _ _ _ _ _ _ _ PL A).
Qed.
Print Assumptions C44_reaches_every_opcode.
Theorem C44_terminates : forall c audio frames bytes rest sched m0,
  conversion c audio frames bytes rest -> connected bytes m0 -> delivers sched -> user sched m0 ->
  exists n m, run bytes sched n m0 = Some m /\ terminated m /\ at_opcode bytes rest (length rest) m0 m.
Proof.
  intros c audio frames bytes rest sched m0 CV C D U. pose proof (conversion_playable _ _ _ _ _ CV) as PL.
  destruct (reach_at bytes _ rest PL sched m0 C D U (length rest) ltac:(lia)) as (n & m & A). exists n, m. split; [exact (proj1 A)|].
  split; [exact (final_pc _ _ _ _ _ _ _ A)|exact (phase_opcode _ _ _ _ _ _ _ _ PL A)].
Qed.
Print Assumptions C44_terminates.

(** C45: whenever an opcode is about to be run, the screen is what the opcodes
    before it draw ... *)
Theorem C45_screen : forall bytes k rest sched m0,
  playable bytes k rest -> connected bytes m0 -> delivers sched -> user sched m0 ->
  forall i, (i <= length rest)%nat -> exists n m, run bytes sched n m0 = Some m /\ at_opcode bytes rest i m0 m /\
    shows k m (play (firstn i rest)) /\ (k = DHGR -> sw80 m = true /\ swhires m = true).
Proof.
  intros bytes k rest sched m0 PL C D U i L. destruct (reach_at bytes k rest PL sched m0 C D U i L) as (n & m & A). exists n, m. split; [exact (proj1 A)|].
  split; [exact (phase_opcode _ _ _ _ _ _ _ _ PL A)|]. destruct A as (_ & _ & _ & _ & _ & passes & CM & _). split; [exact (common_shows _ _ _ _ _ _ _ _ _ _ PL CM)|exact (cm_mode _ _ _ _ _ _ _ _ _ _ CM)].
Qed.
Print Assumptions C45_screen.
(** ... which, for a double hi-res movie, is the memory of the encoder when it had
    compiled these opcodes (an ACK is compiled together with the opcode before) ... *)
Theorem C45_dhgr_encoder_memory : forall c audio frames bytes rest sched m0,
  conversion c audio frames bytes rest -> c_mode c = DHGR -> real_table DHGR (c_table c) ->
  connected bytes m0 -> delivers sched -> user sched m0 ->
  forall i, (i <= length rest)%nat -> exists n m i' s, run bytes sched n m0 = Some m /\ at_opcode bytes rest i m0 m /\
    (i' = i \/ (i' = S i /\ exists a, nth_error rest i = Some (Ack a))) /\
    stream_run c (movie_new c audio frames) (Header DHGR :: firstn i' rest) s /\
    forall b p o, in_page p o -> CpuModel.mem m b (0x2000 + 256 * p + o) = bank_data (v_pix (m_video (s_movie s))) b p o.
Proof.
  intros c audio frames bytes rest sched m0 CV K RT C D U i L. pose proof (conversion_playable _ _ _ _ _ CV) as PL.
  destruct (C45_screen bytes _ rest sched m0 PL C D U i L) as (n & m & R & A & SH & _).
  destruct (conversion_state _ _ _ _ _ CV i L) as (i' & s & ST & H & q & mm & S1 & S2). rewrite K in ST, S1. exists n, m, i', s.
  split; [exact R|]. split; [exact A|]. split; [exact H|]. split; [exact ST|]. intros b p o IP.
  rewrite (SH b p o) by (apply IP || (intros X; rewrite K in X; discriminate)). rewrite S2. exact (C29_dhgr_exact _ _ _ _ RT S1 b p o IP).
Qed.
Print Assumptions C45_dhgr_encoder_memory.
(** ... for either kind of movie and any table that, except for the first byte of
    a bank ... *)
Theorem C45_all_but_first_byte : forall c audio frames bytes rest sched m0,
  conversion c audio frames bytes rest ->
  connected bytes m0 -> delivers sched -> user sched m0 ->
  forall i, (i <= length rest)%nat -> exists n m i' s, run bytes sched n m0 = Some m /\ at_opcode bytes rest i m0 m /\
    (i' = i \/ (i' = S i /\ exists a, nth_error rest i = Some (Ack a))) /\
    stream_run c (movie_new c audio frames) (Header (c_mode c) :: firstn i' rest) s /\
    forall b p o, (c_mode c = HGR -> b = false) -> in_page p o -> p <> 0 \/ o <> 0 ->
      CpuModel.mem m b (0x2000 + 256 * p + o) = bank_data (v_pix (m_video (s_movie s))) b p o.
Proof.
  intros c audio frames bytes rest sched m0 CV C D U i L. pose proof (conversion_playable _ _ _ _ _ CV) as PL.
  destruct (C45_screen bytes _ rest sched m0 PL C D U i L) as (n & m & R & A & SH & _).
  destruct (conversion_state _ _ _ _ _ CV i L) as (i' & s & ST & H & q & mm & S1 & S2). exists n, m, i', s.
  split; [exact R|]. split; [exact A|]. split; [exact H|]. split; [exact ST|]. intros b p o KB IP NE.
  rewrite (SH b p o KB) by apply IP. rewrite S2. refine (C29_all_but_first_byte _ _ _ _ _ _ S1 b p o IP NE).
  exact (proj1 (cv_config _ _ _ _ _ CV)).
Qed.
Print Assumptions C45_all_but_first_byte.
(** ... and for hi-res shows the same dots as that. *)
Theorem C45_hgr_encoder_dots : forall c audio frames bytes rest sched m0,
  conversion c audio frames bytes rest -> c_mode c = HGR -> real_table HGR (c_table c) ->
  connected bytes m0 -> delivers sched -> user sched m0 ->
  forall i, (i <= length rest)%nat -> exists n m i' s, run bytes sched n m0 = Some m /\ at_opcode bytes rest i m0 m /\
    (i' = i \/ (i' = S i /\ exists a, nth_error rest i = Some (Ack a))) /\
    stream_run c (movie_new c audio frames) (Header HGR :: firstn i' rest) s /\
    exists mm, (forall p o, in_page p o -> CpuModel.mem m false (0x2000 + 256 * p + o) = mm p o) /\
      forall p d, 0 <= p < 32 -> hgr_dot (mm p) d = hgr_dot (mm_data (bm_main (v_pix (m_video (s_movie s)))) p) d.
Proof.
  intros c audio frames bytes rest sched m0 CV K RT C D U i L. pose proof (conversion_playable _ _ _ _ _ CV) as PL.
  destruct (C45_screen bytes _ rest sched m0 PL C D U i L) as (n & m & R & A & SH & _).
  destruct (conversion_state _ _ _ _ _ CV i L) as (i' & s & ST & H & q & mm & S1 & S2). rewrite K in ST, S1. exists n, m, i', s.
  split; [exact R|]. split; [exact A|]. split; [exact H|]. split; [exact ST|]. exists (mm false). split.
  - intros p o IP. rewrite (SH false p o) by (apply IP || reflexivity). rewrite S2. reflexivity.
  - exact (C29_hgr_same_dots _ _ _ _ RT S1).
Qed.
Print Assumptions C45_hgr_encoder_dots.

(** C46: from [m1], where the player begins to wait for the first frame, all
    toggles and times up to any opcode are those of the opcodes and of the passes
    through the receive check. *)
Theorem C46_clicks : forall bytes k rest sched m0,
  playable bytes k rest -> connected bytes m0 -> delivers sched -> user sched m0 ->
  forall i, (i <= length rest)%nat -> exists n1 m1 n m passes new,
    run bytes sched n1 m0 = Some m1 /\ waiting bytes 0 7 m1 /\ run bytes sched n m0 = Some m /\ at_opcode bytes rest i m0 m /\
    log m = log m1 ++ new /\ clicks new = map (Z.add (cyc m1)) (clicks_of 0 (Header k :: firstn i rest) passes) /\
    cyc m = cyc m1 + time_of 0 (Header k :: firstn i rest) passes /\
    Z.of_nat (length passes) = 1 + count is_ack (firstn i rest) /\
    (* without key presses: 73 cycles per tick, 146 per ACK, 73 for the header and
       25 for each of the [ws] polls that find less than a frame *)
    (never_pressed sched m0 -> exists ws, passes = map quiet_pass ws /\
       cyc m = cyc m1 + 73 * count is_tick (firstn i rest) + 146 * count is_ack (firstn i rest) + 73 + 25 * Z.of_nat (list_sum ws)).
Proof.
  intros bytes k rest sched m0 PL C D U i L. destruct (reach_at bytes k rest PL sched m0 C D U i L) as (n & m & A).
  pose proof (phase_opcode _ _ _ _ _ _ _ _ PL A) as AO. destruct A as (R & _ & _ & _ & _ & passes & CM & Q).
  destruct (cm_start _ _ _ _ _ _ _ _ _ _ CM) as (n1 & m1 & _ & R1 & (B1 & _) & got & E). destruct (ef_log _ _ _ _ _ _ _ E) as (new & LG & CK & _).
  exists n1, m1, n, m, passes, new. pose proof (cm_passes _ _ _ _ _ _ _ _ _ _ CM) as LP. pose proof (timed_done bytes k rest PL i) as TD. unfold PlaybackProofs.done in *.
  assert (CNT : count_passes (Header k :: firstn i rest) = S (length (filter is_ack (firstn i rest)))).
  { unfold count_passes. cbn [filter takes_pass length]. f_equal. inversion TD as [|? ? _ TD']; subst. pose proof (pl_ops _ _ _ PL) as PO.
    assert (F : Forall (fun op => is_tick op = true \/ is_ack op = true) (firstn i rest)).
    { apply Forall_forall. intros op I. refine (proj1 (Forall_forall _ _) PO op _). rewrite <- (firstn_skipn i rest). apply in_or_app. left. exact I. }
    clear - F. induction F as [|op l [H|H] F IH]; [reflexivity| |]; destruct op; try discriminate; cbn [filter takes_pass is_ack length]; congruence. }
  split; [exact R1|]. split; [exact B1|]. split; [exact R|]. split; [exact AO|]. split; [exact LG|]. split; [exact CK|]. split; [exact (ef_cyc _ _ _ _ _ _ _ E)|].
  split; [rewrite LP, CNT; unfold count; lia|]. intros NP. destruct (undisturbed_list passes (Q NP)) as (ws & ->). exists ws. split; [reflexivity|].
  rewrite (ef_cyc _ _ _ _ _ _ _ E). rewrite map_length in LP. rewrite (quiet_time _ _ _ TD LP). unfold count. cbn [filter is_tick is_ack headers length].
  assert (H0 : length (filter headers (firstn i rest)) = O).
  { pose proof (pl_ops _ _ _ PL) as PO. assert (F : Forall (fun op => is_tick op = true \/ is_ack op = true) (firstn i rest)).
    { apply Forall_forall. intros op I. refine (proj1 (Forall_forall _ _) PO op _). rewrite <- (firstn_skipn i rest). apply in_or_app. left. exact I. }
    clear - F. induction F as [|op l [H|H] F IH]; [reflexivity| |]; destruct op; try discriminate; cbn [filter headers]; exact IH. }
  rewrite H0. lia.
Qed.
Print Assumptions C46_clicks.
(** Each tick toggles the speaker twice, as far apart as its sample says (to
    within one cycle), and takes 73 cycles. *)
Theorem C46_samples : forall c audio frames bytes rest sched m0,
  conversion c audio frames bytes rest -> connected bytes m0 -> delivers sched -> user sched m0 ->
  forall i tick page content offsets, nth_error rest i = Some (Tick tick page content offsets) ->
  exists n m n' m' new d au, run bytes sched n m0 = Some m /\ at_opcode bytes rest i m0 m /\
    run bytes sched n' m0 = Some m' /\ at_opcode bytes rest (S i) m0 m' /\
    log m' = log m ++ new /\ clicks new = [cyc m + 4; cyc m + 4 + d] /\ cyc m' = cyc m + 73 /\
    nth_error audio (length (filter is_tick (firstn i rest))) = Some au /\ tick = 2 * au + 34 /\ tick - 1 <= d <= tick.
Proof.
  intros c audio frames bytes rest sched m0 CV C D U i tick page content offsets N. pose proof (conversion_playable _ _ _ _ _ CV) as PL.
  assert (L : (i < length rest)%nat) by (apply nth_error_Some; congruence).
  destruct (reach_at bytes _ rest PL sched m0 C D U i ltac:(lia)) as (n & m & A).
  destruct (tick_advances bytes _ rest PL sched m0 n i m tick page content offsets A N) as (n' & m' & _ & A' & (st & got & E) & _).
  destruct (ef_log _ _ _ _ _ _ _ E) as (new & LG & CK & _).
  destruct (cv_opcodes _ _ _ _ _ CV) as (zs & RS).
  destruct (C33_ticks_serve_selected_bank c audio frames bytes player_which _ rest zs (cv_config _ _ _ _ _ CV) (cv_audio _ _ _ _ _ CV) (cv_frames _ _ _ _ _ CV)
     (cv_output _ _ _ _ _ CV) (cv_limit _ _ _ _ _ CV) (conversion_knows _ _ _ _ _ CV) RS i tick page content offsets N) as (f & au & AU & TK & _).
  exists n, m, n', m', new, (tick_cycles tick), au. split; [exact (proj1 A)|]. split; [exact (phase_opcode _ _ _ _ _ _ _ _ PL A)|].
  split; [exact (proj1 A')|]. split; [exact (phase_opcode _ _ _ _ _ _ _ _ PL A')|]. split; [exact LG|].
  split; [rewrite CK; cbn [map]; rewrite Z.add_assoc; reflexivity|]. split; [exact (ef_cyc _ _ _ _ _ _ _ E)|].
  split; [|split; [exact TK|]].
  - rewrite <- AU. f_equal. rewrite (firstn_snoc _ _ _ N), filter_app, app_length. cbn [filter is_tick length]. lia.
  - unfold tick_cycles. destruct (Z.eqb_spec tick 22); [|destruct (Z.eqb_spec tick 40)]; lia.
Qed.
Print Assumptions C46_samples.

(** C47: at any time before TERMINATE, on any schedule, all writes are where they
    may be: the startup code's to I/O space, the stack and location 0xE6; from the
    moment [m1] when it waits for the first frame only those [allowed] ... *)
Theorem C47_writes : forall bytes k rest sched m0 n m,
  playable bytes k rest -> connected bytes m0 -> not_over bytes sched m0 n -> run bytes sched n m0 = Some m ->
  exists new1 new2, log m = log m0 ++ new1 ++ new2 /\ Forall start_write new1 /\ Forall allowed new2 /\
    (new2 <> [] -> exists n1 m1, (n1 <= n)%nat /\ run bytes sched n1 m0 = Some m1 /\ waiting bytes 0 7 m1 /\ log m1 = log m0 ++ new1).
Proof.
  intros bytes k rest sched m0 n m PL C NO R. destruct (covered bytes k rest PL sched m0 n C NO) as (j & ph & mj & m2 & L & A & R2).
  exact (writes_before _ _ _ _ _ _ _ _ _ _ R A L).
Qed.
Print Assumptions C47_writes.
(** ... and nothing else changes; in particular not the code (other than the
    operands it patches). *)
Theorem C47_memory_intact : forall bytes k rest sched m0 n m,
  playable bytes k rest -> connected bytes m0 -> not_over bytes sched m0 n -> run bytes sched n m0 = Some m ->
  (forall b a, ~ may_change a -> CpuModel.mem m b a = CpuModel.mem m0 b a) /\ loaded resident m.
Proof.
  intros bytes k rest sched m0 n m PL C NO R. split; [exact (memory_intact _ _ _ PL sched m0 n m C NO R)|exact (code_intact _ _ _ _ _ _ _ PL C NO R)].
Qed.
Print Assumptions C47_memory_intact.

(** A conversion of 1000 samples, a connected player and a schedule that delivers
    three bytes every other instruction. *)
Definition config_47 : config :=
  {| c_mode := DHGR; c_every_n := 1; c_max_bytes := 0; c_clock := ClockModel.float_clock 2157197833231401 42; c_table := fun _ _ => 0;
     c_draws := fun _ => fun _ => 0; c_start := player_start |}.
Definition sched_ex (i : nat) : env := Env (if Nat.even i then 3 else 0) None None.
Definition start_ex : machine :=
  M 0x214A 1 0 2 0xFF false false false program_memory true false true 0
    (Chip 3 0x400 (fun a => if a =? 0x1A then 3 else 0) 0x17 0 0 0 (fun _ => 0)) 1000 [] [].
Example C47_case : exists bytes rest, conversion config_47 (audio_ex 1000) (repeat dframe_ex 5) bytes rest /\
  connected bytes start_ex /\ delivers sched_ex /\ never_pressed sched_ex start_ex /\ user sched_ex start_ex.
Proof.
  assert (GC : good_config config_47).
  { destruct (ex_dconfig 0) as (_ & _ & H). split; [intros o x y _ _ _; cbn; lia|]. split; [cbn [c_every_n config_47]; lia|exact H]. }
  assert (GF : good_frames DHGR (repeat dframe_ex 5)) by exact (ex_dframes 0 5).
  destruct (C31_never_raises config_47 (audio_ex 1000) (repeat dframe_ex 5) GC (ex_audio 1000) GF) as (bytes & TR).
  assert (RC : recognises config_47 player_which) by (intros cm I; apply which_start, I).
  destruct (C32_decodes config_47 (audio_ex 1000) (repeat dframe_ex 5) bytes player_which TR (Z.le_refl 0) RC) as (rest & s & zs & RS & _).
  exists bytes, rest. split; [|split; [|split; [|split]]].
  - constructor; [exact GC|exact (ex_audio 1000)|exact GF|exact (Z.le_refl 0)| |exact TR|exists zs; exact RS].
    destruct PropSymbols.contents_ex as (contents & LN). exists contents. split; [exact LN|]. exact (fill_player contents LN).
  - destruct (memory_loaded start_ex eq_refl) as [L1 L2]. constructor; [exact (proj1 boot_labels)|exact L1|exact L2| |reflexivity|reflexivity|reflexivity|cbn; lia].
    constructor; cbn [start_ex net wmode status regs rxbase wr buf]; try reflexivity; lia.
  - intros i. exists (2 * i)%nat. split; [lia|]. unfold sched_ex. rewrite Nat.even_mul. cbn [Nat.even orb e_bytes]. lia.
  - split; [cbn; lia|]. intros i. reflexivity.
  - left. split; [cbn; lia|]. intros i. reflexivity.
Qed.

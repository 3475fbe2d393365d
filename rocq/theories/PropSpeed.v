(** C90: how fast the picture can change. *)
From Verif Require Import Base BaseFacts ScreenModel ScreenSpec ScreenProofs BitmapModel ColourModel DisplaySpec BitmapSpec TableModel TableSpec VideoModel VideoSpec VideoThms VideoDisplay PropVideo
  OpcodeModel MovieModel MovieSpec SymbolModel AddrThms
  AsmModel PlayerCode CpuModel PlayerModel PlayerSpec PlayerExec ChipProofs TickExec RecvCode EffectProofs TickThms RunProofs RecvProofs LayoutProofs PlaybackSpec StartupCode StartupProofs PlaybackRead PlaybackProofs PlaybackThms PlaybackConv
  MovieProofs MovieFinal PropMovie PropPlayback ClockProofs PropIndep PropSize SpeedProofs.
From Verif Require FidelityProofs PriorityProofs.
Opaque lowcode code hgr resident startup symbols code_map op_cmds TABLES all_pairs next.

(** The fourth store of an opcode repeats the first. *)
Theorem C90_fourth_store_repeats : forall c audio frames bytes rest, conversion c audio frames bytes rest ->
  forall tick page content offsets, In (Tick tick page content offsets) rest -> exists o1 o2 o3, offsets = [o1; o2; o3; o1].
Proof.
  intros c audio frames bytes rest CV tick page content offsets H.
  exact (proj1 (Forall_forall _ _) (conversion_repeats _ _ _ _ _ CV) _ H).
Qed.
Print Assumptions C90_fourth_store_repeats.

(** So in any part of a movie at most three times as many bytes of the screen
    change as there are ticks. *)
Theorem C90_three_per_tick : forall c audio frames bytes rest, conversion c audio frames bytes rest ->
  forall i j cells, (i <= j)%nat -> NoDup cells ->
  (forall b p o, In (b, p, o) cells -> d_mem (play (firstn i rest)) b p o <> d_mem (play (firstn j rest)) b p o) ->
  Z.of_nat (length cells) <= 3 * (count is_tick (firstn j rest) - count is_tick (firstn i rest)).
Proof.
  intros c audio frames bytes rest CV i j cells. exact (three_per_tick rest i j cells (conversion_repeats _ _ _ _ _ CV)).
Qed.
Print Assumptions C90_three_per_tick.

(** On the Apple II: whatever the network does, at most three bytes of the screen
    change per 73 cycles. *)
Theorem C90_picture_speed : forall c audio frames bytes rest sched m0,
  conversion c audio frames bytes rest -> connected bytes m0 -> delivers sched -> user sched m0 ->
  exists time : nat -> nat,
    (forall i, (i <= length rest)%nat -> exists m, run bytes sched (time i) m0 = Some m /\ at_opcode bytes rest i m0 m /\
       shows (c_mode c) m (play (firstn i rest))) /\
    (forall i, (i < length rest)%nat -> (time i < time (S i))%nat) /\
    forall i j m m' cells, (i <= j <= length rest)%nat -> run bytes sched (time i) m0 = Some m -> run bytes sched (time j) m0 = Some m' ->
      NoDup cells ->
      (forall b p o, In (b, p, o) cells -> (c_mode c = HGR -> b = false) /\ in_page p o /\
         CpuModel.mem m b (0x2000 + 256 * p + o) <> CpuModel.mem m' b (0x2000 + 256 * p + o)) ->
      73 * Z.of_nat (length cells) <= 3 * (cyc m' - cyc m).
Proof.
  intros c audio frames bytes rest sched m0 CV C D U. pose proof (conversion_playable _ _ _ _ _ CV) as PL.
  destruct (all_times bytes _ rest sched m0 PL D U C) as (time & T1 & T2 & T3). exists time.
  assert (SH : forall i m, at_phase bytes (c_mode c) rest sched m0 (time i) (At i) m -> shows (c_mode c) m (play (firstn i rest))).
  { intros i m (_ & _ & _ & _ & _ & passes & CM & _). exact (common_shows _ _ _ _ _ _ _ _ _ _ PL CM). }
  split; [|split; [exact T2|]].
  - intros i L. destruct (T1 i L) as (m & A). exists m. split; [exact (proj1 A)|]. split; [exact (phase_opcode _ _ _ _ _ _ _ _ PL A)|exact (SH i m A)].
  - intros i j m m' cells L R R' ND CH. destruct (T1 i ltac:(lia)) as (m1 & A). destruct (T1 j ltac:(lia)) as (m2 & A').
    pose proof (proj1 A) as RA. pose proof (proj1 A') as RA'. assert (m1 = m) as -> by congruence. assert (m2 = m') as -> by congruence.
    pose proof (T3 i j m m' L A A') as T.
    assert (N : Z.of_nat (length cells) <= 3 * (count is_tick (firstn j rest) - count is_tick (firstn i rest))).
    { apply (C90_three_per_tick c audio frames bytes rest CV i j cells (proj1 L) ND). intros b p o H. destruct (CH b p o H) as (B & IP & NE).
      rewrite <- (SH i m A b p o B (proj1 IP) (proj2 IP)), <- (SH j m' A' b p o B (proj1 IP) (proj2 IP)). exact NE. }
    lia.
Qed.
Print Assumptions C90_picture_speed.

(** Every byte of bank [b] that is displayed is another one. *)
Definition redrawn (b : bool) (d d' : display) : Prop := forall p o, in_page p o -> displayed p o -> d_mem d b p o <> d_mem d' b p o.

(** The 7680 bytes of a screen take 2560 ticks. *)
Definition screen_cells (b : bool) : list (bool * Z * Z) :=
  map (fun po => (b, fst po, snd po)) (filter (fun po => negb (screen_holes TABLES (fst po) (snd po))) all_pairs).
Lemma cells_nodup b : NoDup (screen_cells b).
Proof. unfold screen_cells. apply tag_nodup. exact PriorityProofs.all_pairs_NoDup. Qed.
Lemma cells_length b : Z.of_nat (length (screen_cells b)) = 7680.
Proof. unfold screen_cells. rewrite map_length. exact count_visible. Qed.
Lemma cells_in b b' p o : In (b', p, o) (screen_cells b) -> b' = b /\ in_page p o /\ displayed p o.
Proof.
  unfold screen_cells. intros H. apply tag_in in H. destruct H as (-> & H1 & H2). apply in_all_pairs in H1. apply negb_true_iff in H2.
  split; [reflexivity|]. split; [exact H1|]. exact (proj1 (holes_iff p o H1) H2).
Qed.
Theorem C90_redraw_ticks : forall c audio frames bytes rest, conversion c audio frames bytes rest ->
  forall i j b, (i <= j)%nat -> redrawn b (play (firstn i rest)) (play (firstn j rest)) ->
  2560 <= count is_tick (firstn j rest) - count is_tick (firstn i rest).
Proof.
  intros c audio frames bytes rest CV i j b L H.
  pose proof (C90_three_per_tick c audio frames bytes rest CV i j (screen_cells b) L (cells_nodup b)) as T. rewrite cells_length in T.
  assert (3 * 2560 <= 3 * (count is_tick (firstn j rest) - count is_tick (firstn i rest))); [|lia]. apply T.
  intros b' p o Hc. apply cells_in in Hc. destruct Hc as (-> & IP & DP). exact (H p o IP DP).
Qed.
Print Assumptions C90_redraw_ticks.

(** README.md 39 says: "about 8 full redraws of the hires graphics screen per second
    (i.e. if the entire screen contents change between frames)".  [r] redraws one
    after the other take at least 186880 cycles each, so of a processor at 1020484 Hz
    a second is enough for five at most. *)
Theorem C90_five_redraws_a_second : forall c audio frames bytes rest sched m0,
  conversion c audio frames bytes rest -> connected bytes m0 -> delivers sched -> user sched m0 ->
  exists time : nat -> nat,
    (forall i, (i <= length rest)%nat -> exists m, run bytes sched (time i) m0 = Some m /\ at_opcode bytes rest i m0 m /\
       shows (c_mode c) m (play (firstn i rest))) /\
    forall (at_ : nat -> nat) b r m m',
      (forall s, (s < r)%nat -> (at_ s <= at_ (S s) <= length rest)%nat /\ redrawn b (play (firstn (at_ s) rest)) (play (firstn (at_ (S s)) rest))) ->
      (at_ O <= length rest)%nat ->
      run bytes sched (time (at_ O)) m0 = Some m -> run bytes sched (time (at_ r)) m0 = Some m' ->
      186880 * Z.of_nat r <= cyc m' - cyc m /\ (cyc m' - cyc m <= 1020484 -> (r <= 5)%nat).
Proof.
  intros c audio frames bytes rest sched m0 CV C D U. pose proof (conversion_playable _ _ _ _ _ CV) as PL.
  destruct (all_times bytes _ rest sched m0 PL D U C) as (time & T1 & _ & T3). exists time.
  split.
  { intros i L. destruct (T1 i L) as (m & A). exists m. split; [exact (proj1 A)|]. split; [exact (phase_opcode _ _ _ _ _ _ _ _ PL A)|].
    destruct A as (_ & _ & _ & _ & _ & passes & CM & _). exact (common_shows _ _ _ _ _ _ _ _ _ _ PL CM). }
  intros at_ b r m m' RD L0 R R'.
  assert (H : (at_ O <= at_ r <= length rest)%nat /\ 2560 * Z.of_nat r <= count is_tick (firstn (at_ r) rest) - count is_tick (firstn (at_ O) rest)).
  { clear R R'. induction r as [|r IH]; [split; lia|]. destruct (IH (fun s Hs => RD s (Nat.lt_trans _ _ _ Hs (Nat.lt_succ_diag_r r)))) as (A1 & A2). destruct (RD r (Nat.lt_succ_diag_r r)) as (B1 & B2).
    pose proof (C90_redraw_ticks c audio frames bytes rest CV _ _ b (proj1 B1) B2). split; lia. }
  destruct H as (LE & N). destruct (T1 (at_ O) L0) as (m1 & A). destruct (T1 (at_ r) (proj2 LE)) as (m2 & A').
  pose proof (proj1 A) as RA. pose proof (proj1 A') as RA'. assert (m1 = m) as -> by congruence. assert (m2 = m') as -> by congruence.
  pose proof (T3 _ _ m m' LE A A') as T. split; [lia|]. intros Q. lia.
Qed.
Print Assumptions C90_five_redraws_a_second.

(** ** Example: a movie that redraws the screen as often as one likes *)
(** what C63 says, for the display that the opcodes draw *)
Lemma still_dots c audio frames bytes rest : conversion c audio frames bytes rest -> c_mode c = HGR -> real_table HGR (c_table c) ->
  forall i j, (i <= length rest)%nat ->
  let n := length (filter is_tick (firstn i rest)) in
  let frame_at t := c_every_n c * ((due (c_clock c) t - 1) / c_every_n c) in
  (j < n)%nat -> 7680 <= Z.of_nat j -> frame_at (n - j)%nat = frame_at n ->
  exists f, nth_error frames (Z.to_nat (frame_at n)) = Some f /\
    forall x y p off r, visible_xy x y -> hires_offset x y = 256 * p + off -> 0 <= off < 256 -> 0 <= r < 14 -> 0 < r \/ 0 < x ->
      hgr_dot (d_mem (play (firstn i rest)) false p) (14 * off + r) = hgr_dot (mm_data (fst f) p) (14 * off + r).
Proof.
  intros CV K RT i j L n frame_at Hj J E.
  destruct (conversion_state _ _ _ _ _ CV i L) as (i' & s & ST & H & q & mm & S1 & S2).
  assert (EN : n = length (filter is_tick (Header (c_mode c) :: firstn i' rest))).
  { unfold n. cbn [filter is_tick]. destruct H as [->|[-> (a & N)]]; [reflexivity|].
    rewrite (firstn_snoc _ _ _ N), filter_app. cbn [filter is_tick]. rewrite app_nil_r. reflexivity. }
  destruct (FidelityProofs.still_idle c audio frames (cv_config _ _ _ _ _ CV) (cv_audio _ _ _ _ _ CV) (cv_frames _ _ _ _ _ CV) K _ s n j ST EN Hj J E) as (g & G1 & G2).
  destruct (FidelityProofs.idle_run c audio frames (cv_config _ _ _ _ _ CV) (cv_audio _ _ _ _ _ CV) (cv_frames _ _ _ _ _ CV) _ _ g ST G1) as (f & q' & v0 & l & F1 & F2 & F3 & F4 & F5).
  rewrite <- EN in F1. exists f. split; [exact F1|]. rewrite K in F2, F3, F4, F5, S1. destruct F4 as [F4|F4]; [discriminate|]. rewrite F4 in F5.
  intros x y p off r V E' O Hr X. destruct (coordinates p off x y V E' O) as (Hin & _ & _). rewrite S2, (C29_hgr_same_dots _ _ _ _ RT S1 p _ (proj1 Hin)).
  exact (C25_hgr_display_converges _ _ _ _ _ _ _ RT F2 F3 F5 G2 x y p off r V E' O Hr X).
Qed.
(** black and white pictures in turn, each due for 7700 ticks *)
Definition white_ex : frame := ({| mm_page := 1; mm_data := fun _ _ => 0x7f |}, {| mm_page := 1; mm_data := fun _ _ => 0 |}).
Definition flashing_ex (n : nat) : list frame := map (fun i => if Nat.even i then black_ex else white_ex) (seq 0 n).
Definition config_90 (ed : table) : config :=
  {| c_mode := HGR; c_every_n := 1; c_max_bytes := 0; c_clock := fun t n => 7700 * n <=? t; c_table := ed; c_draws := fun i j => (3 * i + j) mod 256; c_start := player_start |}.
Lemma nth_map_seq {A} (f : nat -> A) i : forall n b, (i < n)%nat -> nth_error (map f (seq b n)) i = Some (f (b + i)%nat).
Proof.
  induction i as [|i IH]; intros n b L; (destruct n as [|n]; [lia|]); cbn [seq map nth_error]; [rewrite Nat.add_0_r; reflexivity|].
  rewrite IH by lia. do 2 f_equal. lia.
Qed.
Lemma dot_of_byte (d d' : Z -> Z) o : 0 <= o < 256 -> d o = d' o -> hgr_dot d (14 * o + 2) = hgr_dot d' (14 * o + 2).
Proof.
  intros O E. unfold hgr_dot. replace ((14 * o + 2) / 14) with o by (clear; dlia). replace ((14 * o + 2) mod 14) with 2 by (clear; dlia).
  assert (C : clip_row d o = clip_row d' o) by (unfold clip_row; rewrite E; reflexivity). rewrite C. cbv zeta.
  destruct (Z.testbit (clip_row d' o) 7); reflexivity.
Qed.
Lemma black_dot p o : 0 <= o < 256 -> hgr_dot (mm_data (fst black_ex) p) (14 * o + 2) = false.
Proof.
  intros O. rewrite (dot_of_byte (mm_data (fst black_ex) p) (fun _ => 0) o O eq_refl). unfold hgr_dot. replace ((14 * o + 2) / 14) with o by (clear; dlia). replace ((14 * o + 2) mod 14) with 2 by (clear; dlia).
  assert (C : clip_row (fun _ => 0) o = 0) by (unfold clip_row; destruct ((0 <=? o) && (o <? 256)); reflexivity). rewrite C. reflexivity.
Qed.
Lemma white_dot p o : 0 <= o < 256 -> hgr_dot (mm_data (fst white_ex) p) (14 * o + 2) = true.
Proof.
  intros O. rewrite (dot_of_byte (mm_data (fst white_ex) p) (fun _ => 0x7f) o O eq_refl). unfold hgr_dot. replace ((14 * o + 2) / 14) with o by (clear; dlia). replace ((14 * o + 2) mod 14) with 2 by (clear; dlia).
  assert (C : clip_row (fun _ => 0x7f) o = 0x7f).
  { unfold clip_row. destruct (Z.leb_spec 0 o); [|lia]. destruct (Z.ltb_spec o 256); [|lia]. reflexivity. }
  rewrite C. reflexivity.
Qed.
Example C90_case : forall ed r, real_table HGR ed -> exists audio frames bytes rest (at_ : nat -> nat),
  conversion (config_90 ed) audio frames bytes rest /\ connected bytes start_ex /\ delivers sched_ex /\ user sched_ex start_ex /\
  (at_ O <= length rest)%nat /\
  forall s, (s < r)%nat -> (at_ s <= at_ (S s) <= length rest)%nat /\ redrawn false (play (firstn (at_ s) rest)) (play (firstn (at_ (S s)) rest)).
Proof.
  intros ed r RT. set (n := Z.to_nat (7700 * (Z.of_nat r + 1))). destruct C47_case as (b0 & r0 & _ & _ & D & _ & U).
  assert (GC : good_config (config_90 ed)).
  { split; [exact (real_u16 _ _ RT)|]. split; [cbn; lia|]. intros t T. cbn [config_90 c_clock]. apply Z.leb_le. lia. }
  assert (GF : good_frames (c_mode (config_90 ed)) (flashing_ex (S (S r)))).
  { intros f H b G. apply in_map_iff in H. destruct H as (i & <- & _). destruct G as [G|G]; [discriminate|]. subst b.
    split; [destruct (Nat.even i); reflexivity|]. split; [|discriminate]. intros p o _ _. unfold is_byte. destruct (Nat.even i); cbn; lia. }
  assert (LA : length (audio_ex n) = n) by apply repeat_length.
  assert (NZ : Z.of_nat n = 7700 * (Z.of_nat r + 1)) by (unfold n; rewrite Z2Nat.id; lia). clearbody n.
  destruct (converts_ex (config_90 ed) (audio_ex n) (flashing_ex (S (S r))) GC (ex_audio n) GF eq_refl eq_refl) as (bytes & rest & CV).
  assert (DU : due (c_clock (config_90 ed)) (length (audio_ex n)) <= Z.of_nat (length (flashing_ex (S (S r))))).
  { rewrite LA. unfold flashing_ex. rewrite map_length, seq_length. cbn [config_90 c_clock].
    pose proof (slow_due_at 7700 n (Z.of_nat r + 1) ltac:(lia) ltac:(lia) ltac:(lia)). lia. }
  pose proof (proj1 (C78_size_of_samples _ _ _ _ _ CV eq_refl DU)) as CT. rewrite LA in CT. unfold count in CT.
  set (tk := fun s => Z.to_nat (7700 * (Z.of_nat s + 1) - 1)).
  assert (TK : forall s, Z.of_nat (tk s) = 7700 * (Z.of_nat s + 1) - 1) by (intros s; unfold tk; rewrite Z2Nat.id; lia). clearbody tk.
  exists (audio_ex n), (flashing_ex (S (S r))), bytes, rest, (fun s => after rest (tk s)).
  split; [exact CV|]. split; [exact (start_connected bytes)|]. split; [exact D|]. split; [exact U|].
  assert (IN : forall s, (s <= r)%nat -> (tk s <= length (filter is_tick rest))%nat) by (intros s Hs; pose proof (TK s); lia).
  split; [apply after_count, IN; lia|]. intros s Hs.
  split. { split; [apply after_mono; pose proof (TK s); pose proof (TK (S s)); pose proof (IN (S s) ltac:(lia)); lia|apply after_count, IN; lia]. }
  assert (SHOW : forall u, (u <= r)%nat -> forall p o, in_page p o -> displayed p o ->
    hgr_dot (d_mem (play (firstn (after rest (tk u)) rest)) false p) (14 * o + 2) = negb (Nat.even u)).
  { intros u Hu p o IP (x & y & V & E). destruct (after_count rest (tk u) (IN u Hu)) as [A1 A2].
    pose proof (still_dots _ _ _ _ _ CV eq_refl RT (after rest (tk u)) (Z.to_nat 7680) A2) as S. cbv zeta in S. rewrite A1 in S.
    cbn [config_90 c_every_n c_clock] in S. pose proof (TK u) as TU.
    assert (S1 : due (fun t n => 7700 * n <=? t) (tk u) - 1 = Z.of_nat u) by (apply slow_due_at; lia).
    assert (S2 : due (fun t n => 7700 * n <=? t) (tk u - Z.to_nat 7680) - 1 = Z.of_nat u) by (apply slow_due_at; lia).
    rewrite S1, S2, Z.div_1_r, Z.mul_1_l, Nat2Z.id in S. destruct S as (f & F & DOT); [lia|lia|reflexivity|].
    unfold flashing_ex in F. rewrite nth_map_seq in F by lia. cbn [Nat.add] in F. assert (EF : f = if Nat.even u then black_ex else white_ex) by congruence.
    rewrite (DOT x y p o 2 V E (proj2 IP) ltac:(lia) (or_introl eq_refl)), EF.
    destruct (Nat.even u); [apply black_dot|apply white_dot]; apply IP. }
  intros p o IP DP E. pose proof (SHOW s ltac:(lia) p o IP DP) as H1. pose proof (SHOW (S s) ltac:(lia) p o IP DP) as H2.
  rewrite (dot_of_byte _ _ o (proj2 IP) E), H2 in H1. rewrite Nat.even_succ, <- Nat.negb_even in H1. destruct (Nat.even s); discriminate.
Qed.

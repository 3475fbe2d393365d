(** Properties C61-C63: what is shown once the encoder has caught up. *)
From Verif Require Import Base BaseFacts ScreenModel ScreenSpec BitmapModel ColourModel DisplaySpec BitmapSpec TableModel TableSpec
  VideoModel VideoSpec VideoThms VideoDisplay PropVideo OpcodeModel MovieModel MovieSpec MovieProofs MovieState MovieThms MovieFinal PropMovie
  AsmModel PlayerCode CpuModel PlayerModel PlayerSpec PlaybackSpec PlaybackThms PlaybackConv PropPlayback FidelityProofs.
Opaque lowcode code hgr resident startup symbols op_cmds TABLES all_pairs next.

(** C61: the debugging assertions that video.py 191-219 describes (commented out
    there), for the displayed bytes.  Hi-res, any of the shipped palettes
    (C25_palette_tables): when the encoder is idle a byte differs from the
    target's only as 0x00/0x80 or 0x7f/0xff. *)
Theorem C61_hgr_idle_bytes : forall ed n v0 t l v g,
  real_table HGR ed -> encoder ed HGR n v0 -> good_target HGR t -> frame_run ed v0 t false l v g -> is_pad g ->
  forall p o, in_page p o -> displayed p o ->
  let x := bank_data (v_pix v) false p o in let y := bank_data t false p o in
  x = y \/ (Z.land x 0x7f = 0 /\ Z.land y 0x7f = 0) \/ (Z.land x 0x7f = 0x7f /\ Z.land y 0x7f = 0x7f).
Proof. exact idle_hgr_bytes. Qed.
Print Assumptions C61_hgr_idle_bytes.
(** Double hi-res: after becoming idle on one bank and then on the other, both
    banks are the target's. *)
Theorem C61_dhgr_both_banks : forall ed n v0 t a l v g l' v' g',
  real_table DHGR ed -> encoder ed DHGR n v0 -> good_target DHGR t ->
  frame_run ed v0 t a l v g -> is_pad g -> frame_run ed v t (negb a) l' v' g' -> is_pad g' ->
  forall b p o, in_page p o -> displayed p o -> bank_data (v_pix v') b p o = bank_data t b p o.
Proof.
  intros ed n v0 t a l v g l' v' g' HR HV HT HF HP HF' HP' b p o Hin Hd.
  assert (HG : forall x, good_bank DHGR x) by (intros x; left; reflexivity).
  pose proof (enc_frame ed DHGR n v0 t a l v g HV HT (HG a) HF) as HV'.
  destruct (Bool.bool_dec b a) as [->|N].
  - pose proof (C27_banks_independent ed DHGR (n + 1) v t (negb a) l' v' g' (real_u16 _ _ HR) HV' HT (HG _) HF') as (E & _).
    rewrite Bool.negb_involutive in E. rewrite (E p o). exact (C25_dhgr_converges ed n v0 t a l v g HR HV HT HF HP p o Hin Hd).
  - replace b with (negb a) by (destruct a, b; try reflexivity; exfalso; apply N; reflexivity). exact (C25_dhgr_converges ed (n + 1) v t (negb a) l' v' g' HR HV' HT HF' HP' p o Hin Hd).
Qed.
Print Assumptions C61_dhgr_both_banks.

(** C62: from file to screen.  When opcode [i] is about to be run and the encoder
    was idle after compiling the opcodes before it, the bank it works on shows the
    source frame that is due: in double hi-res every displayed byte ... *)
Theorem C62_dhgr_idle_screen : forall c audio frames bytes rest sched m0,
  conversion c audio frames bytes rest -> c_mode c = DHGR -> real_table DHGR (c_table c) ->
  connected bytes m0 -> delivers sched -> user sched m0 ->
  forall i, (i <= length rest)%nat -> exists n m i' s, run bytes sched n m0 = Some m /\ at_opcode bytes rest i m0 m /\
    (i' = i \/ (i' = S i /\ exists a, nth_error rest i = Some (Ack a))) /\
    stream_run c (movie_new c audio frames) (Header DHGR :: firstn i' rest) s /\
    forall g, e_op_seq (s_enc s) = Some g -> is_pad g ->
    exists f, nth_error frames (Z.to_nat (c_every_n c * ((due (c_clock c) (length (filter is_tick (firstn i rest))) - 1) / c_every_n c))) = Some f /\
    let bank := e_last (s_enc s) in
    forall p o, in_page p o -> displayed p o ->
      CpuModel.mem m bank (0x2000 + 256 * p + o) = mm_data (frame_bank f bank) p o.
Proof.
  intros c audio frames bytes rest sched m0 CV K RT C D U i L.
  destruct (C45_dhgr_encoder_memory c audio frames bytes rest sched m0 CV K RT C D U i L) as (n & m & i' & s & R & A & H & ST & M).
  exists n, m, i', s. split; [exact R|]. split; [exact A|]. split; [exact H|]. split; [exact ST|]. intros g G P.
  destruct (idle_run c audio frames (cv_config _ _ _ _ _ CV) (cv_audio _ _ _ _ _ CV) (cv_frames _ _ _ _ _ CV) _ _ g ST G) as (f & q & v0 & l & F1 & F2 & F3 & F4 & F5).
  rewrite K in F2, F3, F5. exists f. split.
  - rewrite <- F1. cbn [filter is_tick]. unfold shown_index. destruct H as [->|[-> (a & N)]]; [reflexivity|].
    rewrite (firstn_snoc _ _ _ N), filter_app. cbn [filter is_tick]. rewrite app_nil_r. reflexivity.
  - cbv zeta. intros p o Hin Hd. rewrite (M _ p o Hin), (C25_dhgr_converges _ _ _ _ _ _ _ _ RT F2 F3 F5 P p o Hin Hd).
    destruct (e_last (s_enc s)); reflexivity.
Qed.
Print Assumptions C62_dhgr_idle_screen.
(** ... with the NTSC palette, the default, every displayed byte around which the
    frame shows no grey, but for the very first of the bank ... *)
Theorem C62_dhgr_ntsc_idle_screen : forall c audio frames bytes rest sched m0,
  conversion c audio frames bytes rest -> c_mode c = DHGR -> palette_table DHGR ntsc_rgb (c_table c) ->
  connected bytes m0 -> delivers sched -> user sched m0 ->
  forall i, (i <= length rest)%nat -> exists n m i' s, run bytes sched n m0 = Some m /\ at_opcode bytes rest i m0 m /\
    (i' = i \/ (i' = S i /\ exists a, nth_error rest i = Some (Ack a))) /\
    stream_run c (movie_new c audio frames) (Header DHGR :: firstn i' rest) s /\
    forall g, e_op_seq (s_enc s) = Some g -> is_pad g ->
    exists f, nth_error frames (Z.to_nat (c_every_n c * ((due (c_clock c) (length (filter is_tick (firstn i rest))) - 1) / c_every_n c))) = Some f /\
    let bank := e_last (s_enc s) in
    forall p o, in_page p o -> displayed p o -> no_grey (frame_bitmap DHGR f) bank p o -> p <> 0 \/ o <> 0 ->
      CpuModel.mem m bank (0x2000 + 256 * p + o) = mm_data (frame_bank f bank) p o.
Proof.
  intros c audio frames bytes rest sched m0 CV K PT C D U i L.
  destruct (C45_all_but_first_byte c audio frames bytes rest sched m0 CV C D U i L) as (n & m & i' & s & R & A & H & ST & M). rewrite K in ST.
  exists n, m, i', s. split; [exact R|]. split; [exact A|]. split; [exact H|]. split; [exact ST|]. intros g G P.
  destruct (idle_run c audio frames (cv_config _ _ _ _ _ CV) (cv_audio _ _ _ _ _ CV) (cv_frames _ _ _ _ _ CV) _ _ g ST G) as (f & q & v0 & l & F1 & F2 & F3 & F4 & F5).
  rewrite K in F2, F3, F5. exists f. split.
  - rewrite <- F1. cbn [filter is_tick]. unfold shown_index. destruct H as [->|[-> (a & N)]]; [reflexivity|].
    rewrite (firstn_snoc _ _ _ N), filter_app. cbn [filter is_tick]. rewrite app_nil_r. reflexivity.
  - cbv zeta. intros p o Hin Hd NG NF. rewrite (M _ p o ltac:(intros X; rewrite K in X; discriminate) Hin NF), (C25_dhgr_ntsc_converges _ _ _ _ _ _ _ _ PT F2 F3 F5 P p o Hin Hd NG).
    destruct (e_last (s_enc s)); reflexivity.
Qed.
Print Assumptions C62_dhgr_ntsc_idle_screen.
(** ... in hi-res every dot (in the first column but the first dot of a delayed
    byte). *)
Theorem C62_hgr_idle_screen : forall c audio frames bytes rest sched m0,
  conversion c audio frames bytes rest -> c_mode c = HGR -> real_table HGR (c_table c) ->
  connected bytes m0 -> delivers sched -> user sched m0 ->
  forall i, (i <= length rest)%nat -> exists n m i' s, run bytes sched n m0 = Some m /\ at_opcode bytes rest i m0 m /\
    (i' = i \/ (i' = S i /\ exists a, nth_error rest i = Some (Ack a))) /\
    stream_run c (movie_new c audio frames) (Header HGR :: firstn i' rest) s /\
    forall g, e_op_seq (s_enc s) = Some g -> is_pad g ->
    exists f, nth_error frames (Z.to_nat (c_every_n c * ((due (c_clock c) (length (filter is_tick (firstn i rest))) - 1) / c_every_n c))) = Some f /\
    forall x y p off r, visible_xy x y -> hires_offset x y = 256 * p + off -> 0 <= off < 256 -> 0 <= r < 14 -> 0 < r \/ 0 < x ->
      hgr_dot (fun o => CpuModel.mem m false (0x2000 + 256 * p + o)) (14 * off + r) = hgr_dot (mm_data (fst f) p) (14 * off + r).
Proof.
  intros c audio frames bytes rest sched m0 CV K RT C D U i L.
  destruct (C45_hgr_encoder_dots c audio frames bytes rest sched m0 CV K RT C D U i L) as (n & m & i' & s & R & A & H & ST & mm & M1 & M2).
  exists n, m, i', s. split; [exact R|]. split; [exact A|]. split; [exact H|]. split; [exact ST|]. intros g G P.
  destruct (idle_run c audio frames (cv_config _ _ _ _ _ CV) (cv_audio _ _ _ _ _ CV) (cv_frames _ _ _ _ _ CV) _ _ g ST G) as (f & q & v0 & l & F1 & F2 & F3 & F4 & F5).
  rewrite K in F2, F3, F4, F5. destruct F4 as [F4|F4]; [discriminate|]. rewrite F4 in F5. exists f. split.
  - rewrite <- F1. cbn [filter is_tick]. unfold shown_index. destruct H as [->|[-> (a & N)]]; [reflexivity|].
    rewrite (firstn_snoc _ _ _ N), filter_app. cbn [filter is_tick]. rewrite app_nil_r. reflexivity.
  - intros x y p off r V E O Hr X. destruct (coordinates p off x y V E O) as (Hin & _ & _).
    assert (Q : hgr_dot (fun o => CpuModel.mem m false (0x2000 + 256 * p + o)) (14 * off + r) = hgr_dot (mm p) (14 * off + r)).
    { assert (CR : forall o, clip_row (fun o => CpuModel.mem m false (0x2000 + 256 * p + o)) o = clip_row (mm p) o).
      { intros o. unfold clip_row. destruct ((0 <=? o) && (o <? 256)) eqn:B; [|reflexivity].
        apply andb_true_iff in B. destruct B as [B1 B2]. apply Z.leb_le in B1. apply Z.ltb_lt in B2. apply M1. split; [apply Hin|split; assumption]. }
      unfold hgr_dot. rewrite !CR. reflexivity. }
    rewrite Q, (M2 p _ (proj1 Hin)). exact (C25_hgr_display_converges _ _ _ _ _ _ _ RT F2 F3 F5 P x y p off r V E O Hr X).
Qed.
Print Assumptions C62_hgr_idle_screen.

(** C63: a hi-res picture that is due for 7680 ticks (about half a second) is
    shown exactly from then on: if the same frame is due after [n - j] and after [n]
    ticks, [j] at least 7680, the player shows it when it has run [n] ticks. *)
Theorem C63_still_picture : forall c audio frames bytes rest sched m0,
  conversion c audio frames bytes rest -> c_mode c = HGR -> real_table HGR (c_table c) ->
  connected bytes m0 -> delivers sched -> user sched m0 ->
  forall i j, (i <= length rest)%nat ->
  let n := length (filter is_tick (firstn i rest)) in
  let frame_at t := c_every_n c * ((due (c_clock c) t - 1) / c_every_n c) in
  (j < n)%nat -> 7680 <= Z.of_nat j -> frame_at (n - j)%nat = frame_at n ->
  exists steps m f, run bytes sched steps m0 = Some m /\ at_opcode bytes rest i m0 m /\
    nth_error frames (Z.to_nat (frame_at n)) = Some f /\
    forall x y p off r, visible_xy x y -> hires_offset x y = 256 * p + off -> 0 <= off < 256 -> 0 <= r < 14 -> 0 < r \/ 0 < x ->
      hgr_dot (fun o => CpuModel.mem m false (0x2000 + 256 * p + o)) (14 * off + r) = hgr_dot (mm_data (fst f) p) (14 * off + r).
Proof.
  intros c audio frames bytes rest sched m0 CV K RT C D U i j L n frame_at Hj J E.
  destruct (C62_hgr_idle_screen c audio frames bytes rest sched m0 CV K RT C D U i L) as (k & m & i' & s & R & A & H & ST & M).
  assert (EN : n = length (filter is_tick (Header HGR :: firstn i' rest))).
  { unfold n. cbn [filter is_tick]. destruct H as [->|[-> (a & N)]]; [reflexivity|].
    rewrite (firstn_snoc _ _ _ N), filter_app. cbn [filter is_tick]. rewrite app_nil_r. reflexivity. }
  destruct (still_idle c audio frames (cv_config _ _ _ _ _ CV) (cv_audio _ _ _ _ _ CV) (cv_frames _ _ _ _ _ CV) K _ s n j ST EN Hj J E) as (g & G1 & G2).
  destruct (M g G1 G2) as (f & F1 & F2). exists k, m, f. split; [exact R|]. split; [exact A|]. split; [exact F1|exact F2].
Qed.
Print Assumptions C63_still_picture.
(** 30 frames a second at 14700 ticks a second, every 20th frame encoded: the first
    frame is still due after 8000 ticks *)
Lemma example_due : forall t, let d := due (fun t n => 490 * n <=? t) (S t) in 490 * (d - 1) <= Z.of_nat (S t) < 490 * d.
Proof.
  induction t as [|t IH].
  - cbn. lia.
  - cbv zeta in *. remember (S t) as u eqn:U. assert (E : due (fun t n => 490 * n <=? t) (S u) =
      let d := due (fun t n => 490 * n <=? t) u in if 490 * d <=? Z.of_nat (S u) then d + 1 else d) by reflexivity.
    rewrite E. cbv zeta. set (d := due _ u) in *. clearbody d. clear E U.
    destruct (490 * d <=? Z.of_nat (S u)) eqn:Q; rewrite ?Z.leb_le, ?Z.leb_gt in Q; lia.
Qed.
Example C63_due_that_long : let clock := fun t n => 490 * n <=? t in
  let frame_at t := 20 * ((due clock t - 1) / 20) in
  frame_at (Z.to_nat 8000 - Z.to_nat 7680)%nat = frame_at (Z.to_nat 8000).
Proof.
  assert (H : forall z, 0 < z -> due (fun t n => 490 * n <=? t) (Z.to_nat z) = z / 490 + 1).
  { intros z Z. destruct (Z.to_nat z) as [|k] eqn:K; [lia|]. pose proof (example_due k) as E. cbv zeta in E.
    replace (Z.of_nat (S k)) with z in E by lia. set (d := due _ _) in *. clearbody d.
    rewrite <- (Z.div_unique z 490 (d - 1) (z - 490 * (d - 1))) by lia. lia. }
  cbv zeta. rewrite <- Z2Nat.inj_sub by lia. rewrite !H by lia. reflexivity.
Qed.

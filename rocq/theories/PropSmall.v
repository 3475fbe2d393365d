(** Property C72: small changes are shown exactly. *)
From Verif Require Import Base BaseFacts ScreenModel ScreenSpec BitmapModel ColourModel DisplaySpec BitmapSpec TableModel TableSpec
  VideoModel VideoSpec VideoThms VideoDisplay VideoExample PaletteFacts PropVideo OpcodeModel MovieModel MovieSpec MovieProofs MovieState MovieThms MovieFinal PropMovie
  SymbolModel SymbolSpec SymData AsmModel PlayerCode AddrThms CpuModel PlayerModel PlayerSpec LayoutProofs RecvThms StartupCode PropSymbols PropPlayer PlaybackSpec EffectProofs TickThms StartupProofs PlaybackRead PlaybackProofs PlaybackThms PlaybackConv PropPlayback FidelityProofs PropFidelity
  SmallSpec SmallEnc SmallMovie SmallProofs.
Opaque lowcode code hgr resident startup symbols op_cmds TABLES all_pairs next sym_lits program program_memory.

(** Double hi-res, a table that tells all colours apart (the IIGS palette: see
    C25_palette_tables).  A frame becomes due after [i0] opcodes, at which time the
    screen differs from it in at most 97 of its 16384 bytes.  If it is still due
    877 ticks later or at any time after, the player's screen is then the frame,
    in every byte of both banks. *)
Theorem C72_dhgr_small_change : forall c audio frames bytes rest sched m0,
  conversion c audio frames bytes rest -> c_mode c = DHGR -> real_table DHGR (c_table c) ->
  connected bytes m0 -> delivers sched -> user sched m0 ->
  forall i0 i f, (i <= length rest)%nat ->
  let t0 := ticks_before rest i0 in let t := ticks_before rest i in
  new_frame_after c t0 -> nth_error frames (Z.to_nat (frame_at c (S t0))) = Some f -> holes_empty DHGR f ->
  (let m := d_mem (play (firstn i0 rest)) in differing m f true + differing m f false <= 97) ->
  Z.of_nat t0 + 877 <= Z.of_nat t -> frame_at c t = frame_at c (S t0) ->
  exists steps m, run bytes sched steps m0 = Some m /\ at_opcode bytes rest i m0 m /\
    forall b p o, in_page p o -> CpuModel.mem m b (0x2000 + 256 * p + o) = mm_data (frame_bank f b) p o.
Proof.
  intros c audio frames bytes rest sched m0 CV K RT C D U i0 i f L t0 t NW F HE DF TM EQ.
  destruct (C45_screen bytes _ rest sched m0 (conversion_playable _ _ _ _ _ CV) C D U i L) as (n & m & R & A & SH & _).
  exists n, m. split; [exact R|]. split; [exact A|]. intros b p o Hin.
  assert (GT : good_target DHGR (frame_bitmap DHGR f)).
  { pose proof (cv_frames _ _ _ _ _ CV) as HF. rewrite K in HF. apply (frames_target DHGR frames HF). eapply nth_error_In; exact F. }
  rewrite (SH b p o) by (apply Hin || (intros X; rewrite K in X; discriminate)).
  refine (small_play c audio frames bytes rest CV true i0 i f K (real_built _ _ RT) (real_tells _ _ RT GT) _ L NW F HE TM EQ DF b p o Hin (or_introl eq_refl)).
  intros q v mm b' p' o' S1 Hi _. exact (C29_dhgr_exact _ _ _ _ RT S1 b' p' o' Hi).
Qed.
Print Assumptions C72_dhgr_small_change.

(** With the NTSC palette, the default, whose two greys cannot be told apart: the
    same for a frame without grey pixels, 95 bytes, and all bytes but the first of
    each bank. *)
Theorem C72_dhgr_ntsc_small_change : forall c audio frames bytes rest sched m0,
  conversion c audio frames bytes rest -> c_mode c = DHGR -> palette_table DHGR ntsc_rgb (c_table c) ->
  connected bytes m0 -> delivers sched -> user sched m0 ->
  forall i0 i f, (i <= length rest)%nat ->
  let t0 := ticks_before rest i0 in let t := ticks_before rest i in
  new_frame_after c t0 -> nth_error frames (Z.to_nat (frame_at c (S t0))) = Some f -> holes_empty DHGR f ->
  (forall a p o, in_page p o -> displayed p o -> no_grey (frame_bitmap DHGR f) a p o) ->
  (let m := d_mem (play (firstn i0 rest)) in differing m f true + differing m f false <= 95) ->
  Z.of_nat t0 + 877 <= Z.of_nat t -> frame_at c t = frame_at c (S t0) ->
  exists steps m, run bytes sched steps m0 = Some m /\ at_opcode bytes rest i m0 m /\
    forall b p o, in_page p o -> p <> 0 \/ o <> 0 -> CpuModel.mem m b (0x2000 + 256 * p + o) = mm_data (frame_bank f b) p o.
Proof.
  intros c audio frames bytes rest sched m0 CV K PT C D U i0 i f L t0 t NW F HE NG DF TM EQ.
  destruct (C45_screen bytes _ rest sched m0 (conversion_playable _ _ _ _ _ CV) C D U i L) as (n & m & R & A & SH & _).
  exists n, m. split; [exact R|]. split; [exact A|]. intros b p o Hin NF.
  assert (GT : good_target DHGR (frame_bitmap DHGR f)).
  { pose proof (cv_frames _ _ _ _ _ CV) as HF. rewrite K in HF. apply (frames_target DHGR frames HF). eapply nth_error_In; exact F. }
  pose proof (palette_grey ntsc_rgb _ (or_introl eq_refl) PT) as GR.
  rewrite (SH b p o) by (apply Hin || (intros X; rewrite K in X; discriminate)).
  refine (small_play c audio frames bytes rest CV false i0 i f K (grey_built _ GR) (grey_tells _ _ GR GT NG) _ L NW F HE TM EQ DF b p o Hin (or_intror NF)).
  intros q v mm b' p' o' S1 Hi [X|N]; [discriminate|]. exact (shown_but_first _ _ _ _ _ (palette_u16 _ _ _ PT) S1 b' p' o' Hi N).
Qed.
Print Assumptions C72_dhgr_ntsc_small_change.

(** Hi-res, any of the shipped palettes: a frame that differs from the screen in
    [d] bytes when it becomes due is shown, dot by dot, after 3 * d + 4 ticks. *)
Theorem C72_hgr_small_change : forall c audio frames bytes rest sched m0,
  conversion c audio frames bytes rest -> c_mode c = HGR -> real_table HGR (c_table c) ->
  connected bytes m0 -> delivers sched -> user sched m0 ->
  forall i0 i f, (i <= length rest)%nat ->
  let t0 := ticks_before rest i0 in let t := ticks_before rest i in
  new_frame_after c t0 -> nth_error frames (Z.to_nat (frame_at c (S t0))) = Some f ->
  Z.of_nat t0 + 3 * differing (d_mem (play (firstn i0 rest))) f false + 3 < Z.of_nat t -> frame_at c t = frame_at c (S t0) ->
  exists steps m, run bytes sched steps m0 = Some m /\ at_opcode bytes rest i m0 m /\
    forall x y p off r, visible_xy x y -> hires_offset x y = 256 * p + off -> 0 <= off < 256 -> 0 <= r < 14 -> 0 < r \/ 0 < x ->
      hgr_dot (fun o => CpuModel.mem m false (0x2000 + 256 * p + o)) (14 * off + r) = hgr_dot (mm_data (fst f) p) (14 * off + r).
Proof.
  intros c audio frames bytes rest sched m0 CV K RT C D U i0 i f L t0 t NW F TM EQ.
  destruct (C45_screen bytes _ rest sched m0 (conversion_playable _ _ _ _ _ CV) C D U i L) as (n & m & R & A & SH & _).
  exists n, m. split; [exact R|]. split; [exact A|]. intros x y p off r V E O Hr X.
  destruct (coordinates p off x y V E O) as (Hin & _ & _).
  rewrite <- (small_play_hgr c audio frames bytes rest CV i0 i f K RT L NW F TM EQ x y p off r V E O Hr X).
  assert (CR : forall o, clip_row (fun o => CpuModel.mem m false (0x2000 + 256 * p + o)) o = clip_row (d_mem (play (firstn i rest)) false p) o).
  { intros o. unfold clip_row. destruct ((0 <=? o) && (o <? 256)) eqn:B; [|reflexivity].
    apply andb_true_iff in B. destruct B as [B1 B2]. apply Z.leb_le in B1. apply Z.ltb_lt in B2. apply SH; [reflexivity|apply Hin|split; assumption]. }
  unfold hgr_dot. rewrite !CR. reflexivity.
Qed.
Print Assumptions C72_hgr_small_change.

(** In terms of the input only: a double hi-res movie whose encoded frames are due
    for at least 877 ticks each and differ each from the one before, the first from
    a blank screen, in at most 97 bytes.  The player shows every one of them
    exactly, from 877 ticks after it became due until the next one does. *)
Theorem C72_slow_movie : forall c audio frames bytes rest sched m0,
  conversion c audio frames bytes rest -> c_mode c = DHGR -> real_table DHGR (c_table c) ->
  connected bytes m0 -> delivers sched -> user sched m0 ->
  (forall n0 n1, new_frame_after c n0 -> new_frame_after c n1 -> (n0 < n1)%nat -> Z.of_nat n0 + 877 <= Z.of_nat n1) ->
  (forall f, In f frames -> holes_empty DHGR f) ->
  (forall f, nth_error frames 0 = Some f -> differing (fun _ _ _ => 0) f true + differing (fun _ _ _ => 0) f false <= 97) ->
  (forall i f g, 0 <= i -> nth_error frames (Z.to_nat i) = Some f -> nth_error frames (Z.to_nat (i + c_every_n c)) = Some g ->
    let old := fun b => mm_data (frame_bank f b) in differing old g true + differing old g false <= 97) ->
  forall i n0, (i <= length rest)%nat -> let t := ticks_before rest i in
  new_frame_after c n0 -> Z.of_nat n0 + 877 <= Z.of_nat t -> frame_at c t = frame_at c (S n0) ->
  exists steps m f, run bytes sched steps m0 = Some m /\ at_opcode bytes rest i m0 m /\
    nth_error frames (Z.to_nat (frame_at c t)) = Some f /\
    forall b p o, in_page p o -> CpuModel.mem m b (0x2000 + 256 * p + o) = mm_data (frame_bank f b) p o.
Proof.
  intros c audio frames bytes rest sched m0 CV K RT C D U STAY HOLES FIRST SMALL i n0 L t NW TM EQ.
  destruct (C45_screen bytes _ rest sched m0 (conversion_playable _ _ _ _ _ CV) C D U i L) as (n & m & R & A & SH & _).
  destruct (frame_exists c audio frames bytes rest CV i L ltac:(unfold t in TM; lia)) as (f & F).
  exists n, m, f. split; [exact R|]. split; [exact A|]. split; [exact F|]. intros b p o Hin.
  rewrite (SH b p o) by (apply Hin || (intros X; rewrite K in X; discriminate)).
  refine (slow_movie c audio frames bytes rest CV K true (real_built _ _ RT) _ _ STAY HOLES FIRST SMALL n0 i f L NW TM EQ F b p o Hin (or_introl eq_refl)).
  - intros g Hg. apply (real_tells _ _ RT). pose proof (cv_frames _ _ _ _ _ CV) as HF. rewrite K in HF. exact (frames_target DHGR frames HF g Hg).
  - intros q v mm b' p' o' S1 Hi _. exact (C29_dhgr_exact _ _ _ _ RT S1 b' p' o' Hi).
Qed.
Print Assumptions C72_slow_movie.

(** The same with the NTSC palette, the default, for frames without grey pixels:
    changes of at most 93 bytes, and all bytes but the first of each bank. *)
Theorem C72_ntsc_slow_movie : forall c audio frames bytes rest sched m0,
  conversion c audio frames bytes rest -> c_mode c = DHGR -> palette_table DHGR ntsc_rgb (c_table c) ->
  connected bytes m0 -> delivers sched -> user sched m0 ->
  (forall n0 n1, new_frame_after c n0 -> new_frame_after c n1 -> (n0 < n1)%nat -> Z.of_nat n0 + 877 <= Z.of_nat n1) ->
  (forall f, In f frames -> holes_empty DHGR f /\ forall a p o, in_page p o -> displayed p o -> no_grey (frame_bitmap DHGR f) a p o) ->
  (forall f, nth_error frames 0 = Some f -> differing (fun _ _ _ => 0) f true + differing (fun _ _ _ => 0) f false <= 93) ->
  (forall i f g, 0 <= i -> nth_error frames (Z.to_nat i) = Some f -> nth_error frames (Z.to_nat (i + c_every_n c)) = Some g ->
    let old := fun b => mm_data (frame_bank f b) in differing old g true + differing old g false <= 93) ->
  forall i n0, (i <= length rest)%nat -> let t := ticks_before rest i in
  new_frame_after c n0 -> Z.of_nat n0 + 877 <= Z.of_nat t -> frame_at c t = frame_at c (S n0) ->
  exists steps m f, run bytes sched steps m0 = Some m /\ at_opcode bytes rest i m0 m /\
    nth_error frames (Z.to_nat (frame_at c t)) = Some f /\
    forall b p o, in_page p o -> p <> 0 \/ o <> 0 -> CpuModel.mem m b (0x2000 + 256 * p + o) = mm_data (frame_bank f b) p o.
Proof.
  intros c audio frames bytes rest sched m0 CV K PT C D U STAY HG FIRST SMALL i n0 L t NW TM EQ.
  destruct (C45_screen bytes _ rest sched m0 (conversion_playable _ _ _ _ _ CV) C D U i L) as (n & m & R & A & SH & _).
  destruct (frame_exists c audio frames bytes rest CV i L ltac:(unfold t in TM; lia)) as (f & F).
  pose proof (palette_grey ntsc_rgb _ (or_introl eq_refl) PT) as GR.
  exists n, m, f. split; [exact R|]. split; [exact A|]. split; [exact F|]. intros b p o Hin NF.
  rewrite (SH b p o) by (apply Hin || (intros X; rewrite K in X; discriminate)).
  refine (slow_movie c audio frames bytes rest CV K false (grey_built _ GR) _ _ STAY (fun g Hg => proj1 (HG g Hg)) FIRST SMALL n0 i f L NW TM EQ F b p o Hin (or_intror NF)).
  - intros g Hg. pose proof (cv_frames _ _ _ _ _ CV) as HF. rewrite K in HF. exact (grey_tells _ _ GR (frames_target DHGR frames HF g Hg) (proj2 (HG g Hg))).
  - intros q v mm b' p' o' S1 Hi [X|N]; [discriminate|]. exact (shown_but_first _ _ _ _ _ (palette_u16 _ _ _ PT) S1 b' p' o' Hi N).
Qed.
Print Assumptions C72_ntsc_slow_movie.

(** ** The hypotheses can be met *)
(** 30 frames a second at 14700 ticks a second, every second frame encoded, as by
    default: every encoded frame is due for 980 ticks *)
Definition clock_72 (t n : Z) : bool := 490 * n <=? t.
Definition config_72 (ed : table) : config :=
  {| c_mode := DHGR; c_every_n := 2; c_max_bytes := 0; c_clock := clock_72; c_table := ed; c_draws := fun _ => fun _ => 0; c_start := player_start |}.
Lemma due_72 t : (0 < t)%nat -> due clock_72 t = Z.of_nat t / 490 + 1.
Proof.
  intros P. destruct t as [|k]; [lia|]. pose proof (example_due k) as E. cbv zeta in E. fold clock_72 in E.
  set (d := due clock_72 (S k)) in *. clearbody d. rewrite <- (Z.div_unique (Z.of_nat (S k)) 490 (d - 1) (Z.of_nat (S k) - 490 * (d - 1))) by lia. lia.
Qed.
Lemma frame_72 ed t : (0 < t)%nat -> frame_at (config_72 ed) t = 2 * (Z.of_nat t / 980).
Proof.
  intros P. unfold frame_at. cbn [c_every_n c_clock config_72]. rewrite (due_72 t P). replace (Z.of_nat t / 490 + 1 - 1) with (Z.of_nat t / 490) by lia.
  rewrite Z.div_div by lia. reflexivity.
Qed.
Example C72_frames_stay : forall ed n0 n1, new_frame_after (config_72 ed) n0 -> new_frame_after (config_72 ed) n1 -> (n0 < n1)%nat -> Z.of_nat n0 + 877 <= Z.of_nat n1.
Proof.
  intros ed n0 n1 H0 H1 L. unfold new_frame_after in H0, H1. rewrite !frame_72 in H1 by lia.
  destruct n0 as [|k].
  - assert (G : Z.of_nat (S n1) < 877 -> False); [|lia]. intros Q. apply H1. rewrite !Z.div_small by lia. reflexivity.
  - rewrite !frame_72 in H0 by lia. set (a := Z.of_nat (S k)) in *. replace (Z.of_nat (S (S k))) with (a + 1) in H0 by lia.
    set (b := Z.of_nat n1) in *. replace (Z.of_nat (S n1)) with (b + 1) in H1 by lia. assert (a < b) by lia. assert (0 < a) by lia. clearbody a b. clear L.
    assert (A : (a + 1) mod 980 = 0) by (pose proof (Z.div_mod a 980 ltac:(lia)); pose proof (Z.div_mod (a + 1) 980 ltac:(lia)); pose proof (Z.mod_pos_bound a 980 ltac:(lia));
      pose proof (Z.mod_pos_bound (a + 1) 980 ltac:(lia)); lia).
    assert (B : (b + 1) mod 980 = 0) by (pose proof (Z.div_mod b 980 ltac:(lia)); pose proof (Z.div_mod (b + 1) 980 ltac:(lia)); pose proof (Z.mod_pos_bound b 980 ltac:(lia));
      pose proof (Z.mod_pos_bound (b + 1) 980 ltac:(lia)); lia).
    pose proof (Z.div_mod (a + 1) 980 ltac:(lia)). pose proof (Z.div_mod (b + 1) 980 ltac:(lia)). lia.
Qed.

(** a small white square moves one byte to the right and changes bank at every
    encoded frame: frame number [n] is blank but for 8 bytes *)
Definition square (n : Z) (aux : bool) (p o : Z) : Z :=
  if Bool.eqb aux (Z.odd n) && (o =? n mod 40) && (p mod 4 =? 0) then 0x7f else 0.
Definition frame_sq (n : Z) : frame := ({| mm_page := 1; mm_data := square (n / 2) false |}, {| mm_page := 1; mm_data := square (n / 2) true |}).
Definition frames_72 (n : nat) : list frame := map (fun k => frame_sq (Z.of_nat k)) (seq 0 n).
Lemma nth_72 n i f : 0 <= i -> nth_error (frames_72 n) (Z.to_nat i) = Some f -> f = frame_sq i.
Proof.
  intros P H. unfold frames_72 in H. rewrite nth_error_map in H. destruct (nth_error (seq 0 n) (Z.to_nat i)) as [k|] eqn:E; [|discriminate].
  injection H as <-. assert (L : (Z.to_nat i < n)%nat) by (rewrite <- (seq_length n 0); apply nth_error_Some; congruence).
  rewrite (nth_error_nth' _ 0%nat) in E by (rewrite seq_length; exact L). rewrite seq_nth in E by exact L. injection E as <-. f_equal. lia.
Qed.
Definition eight (x : Z) : list (Z * Z) := map (fun p => (4 * p, x)) [0; 1; 2; 3; 4; 5; 6; 7].
Lemma few_72 old g b (l : list (Z * Z)) : (forall p o, in_page p o -> old b p o <> mm_data (frame_bank g b) p o -> In (p, o) l) -> differing old g b <= Z.of_nat (length l).
Proof.
  intros H. unfold differing, count_bytes, count. apply inj_le, NoDup_incl_length; [apply NoDup_filter, PriorityProofs.all_pairs_NoDup|].
  intros [p o] X. apply filter_In in X. destruct X as [X1 X2]. cbn [fst snd] in X2. apply negb_true_iff, Z.eqb_neq in X2. apply in_pairs in X1. exact (H p o X1 X2).
Qed.
Lemma square_in n b p o : in_page p o -> square n b p o <> 0 -> In (p, o) (eight (n mod 40)).
Proof.
  intros Hin H. unfold square in H. destruct (_ && _ && _) eqn:E; [|congruence]. apply andb_true_iff in E. destruct E as [E1 E2].
  apply andb_true_iff in E1. destruct E1 as [_ E1]. apply Z.eqb_eq in E1, E2. subst o.
  apply (in_map_iff (fun p => (4 * p, n mod 40))). exists (p / 4). pose proof (Z.div_mod p 4 ltac:(lia)) as D. split; [f_equal; lia|].
  assert (0 <= p / 4 < 8) by (destruct Hin; split; [apply Z.div_pos; lia|apply Z.div_lt_upper_bound; lia]).
  set (q := p / 4) in *. clearbody q. clear - H0. cbn [In]. lia.
Qed.
Lemma sq_bank n b : mm_data (frame_bank (frame_sq n) b) = square (n / 2) b.
Proof. destruct b; reflexivity. Qed.
Lemma sq_zero n b p o : ~ (o = n mod 40) -> square n b p o = 0.
Proof. intros H. unfold square. rewrite (proj2 (Z.eqb_neq _ _) H), andb_false_r. reflexivity. Qed.
Example C72_small_frames : forall n,
  (forall f, In f (frames_72 n) -> holes_empty DHGR f) /\
  (forall f, nth_error (frames_72 n) 0 = Some f -> differing (fun _ _ _ => 0) f true + differing (fun _ _ _ => 0) f false <= 97) /\
  (forall i f g, 0 <= i -> nth_error (frames_72 n) (Z.to_nat i) = Some f -> nth_error (frames_72 n) (Z.to_nat (i + 2)) = Some g ->
    let old := fun b => mm_data (frame_bank f b) in differing old g true + differing old g false <= 97).
Proof.
  intros n. split; [|split].
  - intros f H b p o _ Hin ND. apply in_map_iff in H. destruct H as (k & <- & _). rewrite sq_bank. destruct (Z.eq_dec (square (Z.of_nat k / 2) b p o) 0) as [E|NE]; [exact E|].
    exfalso. apply ND. apply square_in in NE; [|exact Hin]. apply in_map_iff in NE. destruct NE as (q & E & Q). assert (EP : p = 4 * q) by (symmetry; exact (f_equal fst E)). assert (EO : o = (Z.of_nat k / 2) mod 40) by (symmetry; exact (f_equal snd E)).
    clear E Hin ND. subst p o. assert (H : 0 <= q < 8) by (cbn [In] in Q; lia). pose proof (Z.mod_pos_bound (Z.of_nat k / 2) 40 ltac:(lia)) as MB. set (x := (Z.of_nat k / 2) mod 40) in *. clearbody x.
    exists x, q. unfold visible_xy, hires_offset. rewrite (Z.mod_small q 8), (Z.div_small q 64), (Z.div_small q 8) by lia. change (0 mod 8) with 0. clear - H MB. lia.
  - intros f H. change 0%nat with (Z.to_nat 0) in H. apply nth_72 in H; [|lia]. subst f.
    assert (B : forall b, differing (fun _ _ _ => 0) (frame_sq 0) b <= 8).
    { intros b. change 8 with (Z.of_nat (length (eight (0 / 2 mod 40)))). apply few_72. intros p o Hin NE. rewrite sq_bank in NE. apply (square_in _ b); [exact Hin|congruence]. }
    pose proof (B true). pose proof (B false). lia.
  - intros i f g P F G old. apply nth_72 in F; [|exact P]. apply nth_72 in G; [|lia]. subst f g.
    assert (B : forall b, differing old (frame_sq (i + 2)) b <= 16).
    { intros b. change 16 with (Z.of_nat (length (eight (i / 2 mod 40) ++ eight ((i + 2) / 2 mod 40)))). apply few_72. intros p o Hin NE. unfold old in NE. rewrite !sq_bank in NE.
      apply in_app_iff. destruct (Z.eq_dec (square (i / 2) b p o) 0) as [Z0|N0]; [right|left; exact (square_in _ b _ _ Hin N0)].
      apply (square_in _ b); [exact Hin|congruence]. }
    pose proof (B true). pose proof (B false). lia.
Qed.
(** and such a movie, of any length, is converted and played: all the hypotheses
    of C72_slow_movie are met together *)
Example C72_case : forall n, exists ed bytes rest, let c := config_72 ed in
  real_table DHGR ed /\ conversion c (audio_ex (200 * n)) (frames_72 n) bytes rest /\
  connected bytes start_ex /\ delivers sched_ex /\ user sched_ex start_ex.
Proof.
  intros n. destruct (real_table_exists DHGR) as (ed & RT). exists ed.
  assert (GC : good_config (config_72 ed)).
  { split; [exact (real_u16 _ _ RT)|]. split; [cbn [c_every_n config_72]; lia|]. intros t Ht. cbn [c_clock config_72]. unfold clock_72. apply Z.leb_le. lia. }
  assert (GF : good_frames DHGR (frames_72 n)).
  { intros f H a _. apply in_map_iff in H. destruct H as (k & <- & _). rewrite sq_bank. split; [destruct a; reflexivity|].
    split; [intros p o _ _|intros _ p o _ _]; unfold is_byte, square; destruct (_ && _ && _); lia. }
  destruct (C31_never_raises (config_72 ed) (audio_ex (200 * n)) (frames_72 n) GC (ex_audio _) GF) as (bytes & TR).
  assert (RC : recognises (config_72 ed) player_which) by (intros cm I; apply which_start, I).
  destruct (C32_decodes (config_72 ed) (audio_ex (200 * n)) (frames_72 n) bytes player_which TR (Z.le_refl 0) RC) as (rest & s & zs & RS & _).
  exists bytes, rest. split; [exact RT|]. split; [|split; [|split]].
  - constructor; [exact GC|exact (ex_audio _)|exact GF|exact (Z.le_refl 0)| |exact TR|exists zs; exact RS].
    destruct PropSymbols.contents_ex as (contents & LN). exists contents. split; [exact LN|]. exact (fill_player contents LN).
  - destruct (memory_loaded start_ex eq_refl) as [L1 L2]. constructor; [exact (proj1 boot_labels)|exact L1|exact L2| |reflexivity|reflexivity|reflexivity|cbn; lia].
    constructor; cbn [start_ex net wmode status regs rxbase wr buf]; try reflexivity; lia.
  - intros i. exists (2 * i)%nat. split; [lia|]. unfold sched_ex. rewrite Nat.even_mul. cbn [Nat.even orb e_bytes]. lia.
  - left. split; [cbn; lia|]. intros i. reflexivity.
Qed.

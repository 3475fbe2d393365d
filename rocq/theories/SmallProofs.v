(** C72 on the opcodes of a conversion. *)
From Verif Require Import Base BaseFacts ScreenModel ScreenSpec ScreenProofs BitmapModel ColourModel DisplaySpec BitmapSpec BitmapProofs TableModel TableSpec
  VideoModel VideoSpec VideoProofs VideoFacts VideoThms VideoDisplay PaletteFacts PropVideo
  OpcodeModel MovieModel MovieSpec MovieProofs MovieState MovieThms MovieFinal FidelityProofs PlayerModel PlaybackSpec PlaybackConv SmallSpec SmallEnc SmallMovie.
Opaque TABLES all_pairs next.

Lemma ticks_none_play l : filter is_tick l = [] -> forall d, forall b, d_mem (fold_left play1 l d) b = d_mem d b.
Proof.
  induction l as [|op l IH]; intros H d b; [reflexivity|]. cbn [fold_left]. cbn [filter] in H.
  destruct op; cbn [is_tick] in H; try discriminate; rewrite (IH H); reflexivity.
Qed.
Lemma play_more ops l b : filter is_tick l = [] -> d_mem (play (ops ++ l)) b = d_mem (play ops) b.
Proof. intros H. unfold play. rewrite fold_left_app. apply ticks_none_play, H. Qed.
Lemma firstn_le_app {A} (l : list A) i j : (i <= j)%nat -> exists m, firstn j l = firstn i l ++ m.
Proof. intros L. exists (skipn i (firstn j l)). rewrite <- (firstn_skipn i (firstn j l)) at 1. rewrite firstn_firstn, Nat.min_l by lia. reflexivity. Qed.
(** the screen depends on the number of ticks only *)
Lemma play_ticks rest i j b : ticks_before rest i = ticks_before rest j -> d_mem (play (firstn i rest)) b = d_mem (play (firstn j rest)) b.
Proof.
  assert (W : forall i j, (i <= j)%nat -> ticks_before rest i = ticks_before rest j -> d_mem (play (firstn i rest)) b = d_mem (play (firstn j rest)) b).
  { clear. intros i j L E. destruct (firstn_le_app rest i j L) as (m & M). unfold ticks_before in E. rewrite M in E |- *. rewrite filter_app, app_length in E.
    symmetry. apply play_more. apply length_zero_iff_nil. lia. }
  intros E. destruct (Nat.le_ge_cases i j) as [L|L]; [apply W; auto|symmetry; apply W; auto].
Qed.

Section Conv.
  Variables (c : config) (audio : list Z) (frames : list frame) (bytes : list Z) (rest : list opcode).
  Hypothesis CV : conversion c audio frames bytes rest.
  Notation HC := (cv_config _ _ _ _ _ CV).
  Notation HA := (cv_audio _ _ _ _ _ CV).
  Notation HF := (cv_frames _ _ _ _ _ CV).

  Lemma index_frame t : shown_index c t = frame_at c t.
  Proof. reflexivity. Qed.

  (** the run up to opcode [i] *)
  Lemma run_to i : (i <= length rest)%nat -> exists i' s, stream_run c (movie_new c audio frames) (Header (c_mode c) :: firstn i' rest) s /\
    ticks_before rest i' = ticks_before rest i /\ ticks_of (Header (c_mode c) :: firstn i' rest) = ticks_before rest i /\
    exists q mm, shown (c_table c) (c_mode c) q (m_video (s_movie s)) mm /\ forall b, d_mem (play (firstn i rest)) b = mm b.
  Proof.
    intros L. destruct (conversion_state _ _ _ _ _ CV i L) as (i' & s & R & H & SH).
    assert (T : ticks_before rest i' = ticks_before rest i).
    { destruct H as [->|[-> (a & N)]]; [reflexivity|]. unfold ticks_before. rewrite (firstn_snoc _ _ _ N), filter_app. cbn [filter is_tick]. rewrite app_nil_r. reflexivity. }
    exists i', s. split; [exact R|]. split; [exact T|]. split; [exact T|exact SH].
  Qed.
  (** and an earlier state of it *)
  Lemma earlier i' i0 ops0 more s0 : Header (c_mode c) :: firstn i' rest = ops0 ++ more -> ops0 <> [] -> ticks_of ops0 = ticks_before rest i0 ->
    stream_run c (movie_new c audio frames) ops0 s0 ->
    exists q mm, shown (c_table c) (c_mode c) q (m_video (s_movie s0)) mm /\ forall b, d_mem (play (firstn i0 rest)) b = mm b.
  Proof.
    intros E NE T R. destruct ops0 as [|x ops1]; [contradiction|]. cbn [app] in E. injection E as <- E.
    destruct (run_inv c audio frames HC HA HF _ _ R) as (n & I). destruct (inv_shows _ _ _ _ _ _ I) as (q & mm & SH & M).
    exists q, mm. split; [exact SH|]. intros b. rewrite <- M. change (play (Header (c_mode c) :: ops1)) with (play ops1).
    assert (P : exists j, ops1 = firstn j rest).
    { exists (length ops1). assert (Q : firstn (length ops1) (firstn i' rest) = ops1) by (rewrite E, firstn_app, Nat.sub_diag, firstn_all; cbn [firstn]; apply app_nil_r).
      rewrite firstn_firstn in Q. rewrite <- Q at 1. destruct (Nat.le_ge_cases (length ops1) i') as [LE|GE]; [rewrite Nat.min_l by lia; reflexivity|].
      rewrite Nat.min_r in Q |- * by lia. assert (LL : length ops1 = i' \/ (length rest <= i')%nat).
      { assert (length ops1 <= length (firstn i' rest))%nat by (rewrite E, app_length; lia). rewrite firstn_length in H. lia. }
      destruct LL as [->|LL]; [reflexivity|]. rewrite !firstn_all2 by lia. reflexivity. }
    destruct P as (j & ->). apply play_ticks. symmetry. exact T.
  Qed.

  Lemma frame_clean k f : holes_empty k f -> clean k (frame_bitmap k f).
  Proof.
    intros H a p o G Hin Hh. assert (ND : ~ displayed p o) by (intros D; apply hole_displayed in D; [congruence|exact Hin]).
    specialize (H a p o G Hin ND). destruct k; [destruct G as [G|G]; [discriminate|subst a]; exact H|]. destruct a; exact H.
  Qed.
  Lemma frame_bytes k f b p o : good_bank k b -> bank_data (frame_bitmap k f) b p o = mm_data (frame_bank f b) p o.
  Proof. destruct k, b; intros [G|G]; try discriminate; reflexivity. Qed.

  (** ** Double hi-res *)
  (** [skip]: the first byte of each bank need not be the encoder's *)
  Lemma small_play (first : bool) i0 i f : c_mode c = DHGR -> built DHGR (c_table c) -> tells (c_table c) (frame_bitmap DHGR f) ->
    (forall q v m b p o, shown (c_table c) DHGR q v m -> in_page p o -> first = true \/ p <> 0 \/ o <> 0 -> m b p o = bank_data (v_pix v) b p o) ->
    (i <= length rest)%nat -> new_frame_after c (ticks_before rest i0) ->
    nth_error frames (Z.to_nat (frame_at c (S (ticks_before rest i0)))) = Some f -> holes_empty DHGR f ->
    Z.of_nat (ticks_before rest i0) + 877 <= Z.of_nat (ticks_before rest i) -> frame_at c (ticks_before rest i) = frame_at c (S (ticks_before rest i0)) ->
    differing (d_mem (play (firstn i0 rest))) f true + differing (d_mem (play (firstn i0 rest))) f false <= (if first then 97 else 95) ->
    forall b p o, in_page p o -> first = true \/ p <> 0 \/ o <> 0 -> d_mem (play (firstn i rest)) b p o = mm_data (frame_bank f b) p o.
  Proof.
    intros K BT TL EX L NW F HE TM EQ DF b p o Hin NF.
    destruct (run_to i L) as (i' & s & R & T1 & T2 & q & mm & SH & M).
    assert (F' : nth_error frames (Z.to_nat (shown_index c (ticks_of (Header (c_mode c) :: firstn i' rest)))) = Some f) by (rewrite T2, index_frame, EQ; exact F).
    destruct (small_dhgr c audio frames HC HA HF K BT _ s (ticks_before rest i0) f R ltac:(rewrite T2; exact TM) NW ltac:(rewrite T2; exact EQ) F' TL (frame_clean DHGR f HE))
      as (ops0 & more & s0 & A1 & A2 & A3 & A4 & A5).
    destruct (earlier i' i0 ops0 more s0 A1 A2 A3 A4) as (q0 & mm0 & SH0 & M0). rewrite K in SH, SH0.
    rewrite M, (EX q _ mm b p o SH Hin NF), A5; [apply frame_bytes; left; reflexivity| |exact Hin].
    assert (CB : forall b, count_bytes (wrong (m_video (s_movie s0)) (frame_bitmap DHGR f) b) <= differing (d_mem (play (firstn i0 rest))) f b + (if first then 0 else 1)).
    { intros b'. eapply Z.le_trans; [apply (count_or _ (fun po => negb (d_mem (play (firstn i0 rest)) b' (fst po) (snd po) =? mm_data (frame_bank f b') (fst po) (snd po)))
        (fun po => negb first && ((fst po =? 0) && (snd po =? 0))) all_pairs)|].
      - intros [p' o'] Hi W. cbn [fst snd] in *. apply in_pairs in Hi. destruct (negb first && ((p' =? 0) && (o' =? 0))) eqn:Z0; [right; reflexivity|left].
        unfold wrong in W. rewrite (frame_bytes DHGR f b' p' o' (or_introl eq_refl)) in W. rewrite M0, (EX q0 _ mm0 b' p' o' SH0 Hi); [exact W|].
        destruct first; [left; reflexivity|right]. cbn [negb andb] in Z0. apply andb_false_iff in Z0. rewrite !Z.eqb_neq in Z0. exact Z0.
      - apply Z.add_le_mono; [apply Z.le_refl|]. destruct first; cbn [negb andb].
        + rewrite count_none by reflexivity. lia.
        + unfold count. apply (inj_le _ 1). apply (NoDup_incl_length (l' := [(0, 0)])); [apply NoDup_filter, PriorityProofs.all_pairs_NoDup|].
          intros [p' o'] H. apply filter_In in H. destruct H as [_ H]. cbn [fst snd] in H. apply andb_true_iff in H. rewrite !Z.eqb_eq in H. destruct H as [-> ->]. left. reflexivity. }
    unfold few. pose proof (CB true). pose proof (CB false). destruct first; lia.
  Qed.

  (** ** Hi-res *)
  Lemma small_play_hgr i0 i f : c_mode c = HGR -> real_table HGR (c_table c) ->
    (i <= length rest)%nat -> new_frame_after c (ticks_before rest i0) ->
    nth_error frames (Z.to_nat (frame_at c (S (ticks_before rest i0)))) = Some f ->
    Z.of_nat (ticks_before rest i0) + 3 * differing (d_mem (play (firstn i0 rest))) f false + 3 < Z.of_nat (ticks_before rest i) ->
    frame_at c (ticks_before rest i) = frame_at c (S (ticks_before rest i0)) ->
    forall x y p off r, visible_xy x y -> hires_offset x y = 256 * p + off -> 0 <= off < 256 -> 0 <= r < 14 -> 0 < r \/ 0 < x ->
      hgr_dot (d_mem (play (firstn i rest)) false p) (14 * off + r) = hgr_dot (mm_data (fst f) p) (14 * off + r).
  Proof.
    intros K RT L NW F TM EQ x y p off r V E O Hr X.
    destruct (run_to i L) as (i' & s & R & T1 & T2 & q & mm & SH & M).
    assert (F' : nth_error frames (Z.to_nat (shown_index c (ticks_of (Header (c_mode c) :: firstn i' rest)))) = Some f) by (rewrite T2, index_frame, EQ; exact F).
    assert (NN : 0 <= differing (d_mem (play (firstn i0 rest))) f false) by apply Nat2Z.is_nonneg.
    destruct (small_hgr c audio frames HC HA HF K (real_built _ _ RT) _ s (ticks_before rest i0) f R ltac:(rewrite T2; lia) NW ltac:(rewrite T2; exact EQ) F')
      as (ops0 & more & s0 & A1 & A2 & A3 & A4 & A5).
    destruct (earlier i' i0 ops0 more s0 A1 A2 A3 A4) as (q0 & mm0 & SH0 & M0). rewrite K in SH, SH0.
    assert (CB : count_bytes (wrong (m_video (s_movie s0)) (frame_bitmap HGR f) false) <= differing (d_mem (play (firstn i0 rest))) f false + 1).
    { eapply Z.le_trans; [apply (count_or _ (fun po => negb (d_mem (play (firstn i0 rest)) false (fst po) (snd po) =? mm_data (frame_bank f false) (fst po) (snd po)))
        (fun po => (fst po =? 0) && (snd po =? 0)) all_pairs)|].
      - intros [p' o'] Hi W. cbn [fst snd] in *. apply in_pairs in Hi. destruct ((p' =? 0) && (o' =? 0)) eqn:Z0; [right; reflexivity|left].
        unfold wrong in W. rewrite (frame_bytes HGR f false p' o' (or_intror eq_refl)) in W. rewrite M0, (shown_but_first _ _ _ _ _ (real_u16 _ _ RT) SH0 false p' o' Hi); [exact W|].
        apply andb_false_iff in Z0. rewrite !Z.eqb_neq in Z0. exact Z0.
      - apply Z.add_le_mono; [apply Z.le_refl|].
        unfold count. apply (inj_le _ 1). apply (NoDup_incl_length (l' := [(0, 0)])); [apply NoDup_filter, PriorityProofs.all_pairs_NoDup|].
        intros [p' o'] H. apply filter_In in H. destruct H as [_ H]. cbn [fst snd] in H. apply andb_true_iff in H. rewrite !Z.eqb_eq in H. destruct H as [-> ->]. left. reflexivity. }
    rewrite T2 in A5. destruct (A5 ltac:(lia)) as (q1 & v0 & l & g & G1 & G2 & G3 & G4).
    destruct (coordinates p off x y V E O) as (Hin & _ & _).
    rewrite M, (shown_dots _ _ _ _ RT SH p (14 * off + r) (proj1 Hin)).
    exact (C25_hgr_display_converges _ _ _ _ _ _ _ RT G1 G2 G3 G4 x y p off r V E O Hr X).
  Qed.

  (** ** A movie of small changes *)
  Lemma frame_step t : frame_at c (S t) = frame_at c t \/ frame_at c (S t) = frame_at c t + c_every_n c.
  Proof.
    destruct HC as (_ & E1 & _). unfold frame_at. cbn [due]. destruct (c_clock c (Z.of_nat (S t)) (due (c_clock c) t)); [|left; reflexivity].
    set (d := due (c_clock c) t). set (e := c_every_n c) in *. clearbody d e. replace (d + 1 - 1) with d by lia.
    destruct (Z.eq_dec (d mod e) 0) as [M|M].
    - right. pose proof (Z.div_mod d e ltac:(lia)) as D. rewrite M in D.
      rewrite <- (Z.div_unique (d - 1) e (d / e - 1) (e - 1)) by lia. lia.
    - left. f_equal. pose proof (Z.div_mod d e ltac:(lia)) as D. pose proof (Z.mod_pos_bound d e ltac:(lia)).
      apply (Z.div_unique (d - 1) e (d / e) (d mod e - 1)); lia.
  Qed.
  Lemma frame_zero : frame_at c 0 < 0 /\ frame_at c 1 = 0.
  Proof.
    destruct HC as (_ & E1 & E2). unfold frame_at. cbn [due]. rewrite (E2 (Z.of_nat 1)) by lia. rewrite (Z.div_small (0 + 1 - 1)) by lia.
    split; [|lia]. rewrite <- (Z.div_unique (0 - 1) (c_every_n c) (-1) (c_every_n c - 1)) by lia. lia.
  Qed.
  Lemma last_change n : (0 < n)%nat -> exists n0, (n0 < n)%nat /\ new_frame_after c n0 /\ frame_at c n = frame_at c (S n0).
  Proof.
    induction n as [|n IH]; [lia|]. intros _. destruct (Z.eq_dec (frame_at c (S n)) (frame_at c n)) as [E|NE].
    - destruct n as [|n]; [destruct frame_zero; lia|]. destruct (IH ltac:(lia)) as (n0 & L & NW & Q). exists n0. split; [lia|]. split; [exact NW|congruence].
    - exists n. split; [lia|]. split; [exact NE|reflexivity].
  Qed.
  Lemma opcode_at n : forall i, (n <= ticks_before rest i)%nat -> exists i0, (i0 <= i)%nat /\ ticks_before rest i0 = n.
  Proof.
    induction i as [|i IH]; intros L.
    - exists 0%nat. split; [lia|]. unfold ticks_before in *. cbn [firstn filter length] in *. lia.
    - destruct (Nat.le_gt_cases n (ticks_before rest i)) as [LE|GT]; [destruct (IH LE) as (i0 & A & B); exists i0; split; [lia|exact B]|].
      exists (S i). split; [lia|]. enough (ticks_before rest (S i) <= S (ticks_before rest i))%nat by lia.
      unfold ticks_before. destruct (nth_error rest i) as [op|] eqn:N.
      + rewrite (firstn_snoc _ _ _ N), filter_app, app_length. cbn [filter]. destruct (is_tick op); cbn [length]; lia.
      + apply nth_error_None in N. rewrite !firstn_all2 by lia. lia.
  Qed.
  Lemma frame_exists i : (i <= length rest)%nat -> (0 < ticks_before rest i)%nat -> exists f, nth_error frames (Z.to_nat (frame_at c (ticks_before rest i))) = Some f.
  Proof.
    intros L P. destruct (run_to i L) as (i' & s & R & T1 & T2 & _). destruct (run_inv c audio frames HC HA HF _ _ R) as (n & I).
    rewrite (inv_ticks _ _ _ _ _ _ I) in T2. destruct (i_state _ _ _ _ _ _ I) as [(X & _)|(_ & _ & f & g & A1 & _)]; [lia|]. exists f. rewrite <- T2. exact A1.
  Qed.

  Hypothesis K : c_mode c = DHGR.
  Variable first : bool.
  Hypothesis BT : built DHGR (c_table c).
  Hypothesis TL : forall f, In f frames -> tells (c_table c) (frame_bitmap DHGR f).
  Hypothesis EX : forall q v m b p o, shown (c_table c) DHGR q v m -> in_page p o -> first = true \/ p <> 0 \/ o <> 0 -> m b p o = bank_data (v_pix v) b p o.
  Hypothesis STAY : forall n0 n1, new_frame_after c n0 -> new_frame_after c n1 -> (n0 < n1)%nat -> Z.of_nat n0 + 877 <= Z.of_nat n1.
  Hypothesis HOLES : forall f, In f frames -> holes_empty DHGR f.
  Notation bound := (if first then 97 else 93).
  Hypothesis FIRST : forall f, nth_error frames 0 = Some f -> differing (fun _ _ _ => 0) f true + differing (fun _ _ _ => 0) f false <= bound.
  Hypothesis SMALL : forall i f g, 0 <= i -> nth_error frames (Z.to_nat i) = Some f -> nth_error frames (Z.to_nat (i + c_every_n c)) = Some g ->
    let old := fun b => mm_data (frame_bank f b) in differing old g true + differing old g false <= bound.

  Lemma differing_ext m m' f b : (forall p o, in_page p o -> m b p o = m' b p o) -> differing m f b = differing m' f b.
  Proof.
    intros H. apply Z.le_antisymm; apply count_le; intros [p o] Hi; cbn [fst snd]; apply in_pairs in Hi; rewrite (H p o Hi); exact (fun X => X).
  Qed.
  Lemma differing_but_first m m' f b : (forall p o, in_page p o -> first = true \/ p <> 0 \/ o <> 0 -> m b p o = m' b p o) -> differing m f b <= differing m' f b + (if first then 0 else 1).
  Proof.
    intros H. unfold differing, count_bytes.
    eapply Z.le_trans; [apply (count_or _ (fun po => negb (m' b (fst po) (snd po) =? mm_data (frame_bank f b) (fst po) (snd po))) (fun po => negb first && ((fst po =? 0) && (snd po =? 0))) all_pairs)|].
    - intros [p o] Hi W. cbn [fst snd] in *. apply in_pairs in Hi. destruct (negb first && ((p =? 0) && (o =? 0))) eqn:Z0; [right; reflexivity|left].
      rewrite <- H; [exact W|exact Hi|]. destruct first; [left; reflexivity|right]. cbn [negb andb] in Z0. apply andb_false_iff in Z0. rewrite !Z.eqb_neq in Z0. exact Z0.
    - apply Z.add_le_mono; [apply Z.le_refl|]. destruct first; cbn [negb andb].
      + rewrite count_none by reflexivity. lia.
      + unfold count. apply (inj_le _ 1). apply (NoDup_incl_length (l' := [(0, 0)])); [apply NoDup_filter, PriorityProofs.all_pairs_NoDup|].
        intros [p o] X. apply filter_In in X. destruct X as [_ X]. cbn [fst snd] in X. apply andb_true_iff in X. rewrite !Z.eqb_eq in X. destruct X as [-> ->]. left. reflexivity.
  Qed.

  Lemma frame_nonneg n : (0 < n)%nat -> 0 <= frame_at c n.
  Proof. intros P. assert (M : frame_at c 1 <= frame_at c n) by exact (index_mono c HC 1 n ltac:(lia)). destruct frame_zero as [_ Z0]. rewrite Z0 in M. exact M. Qed.

  Lemma slow_movie n0 : forall i f, (i <= length rest)%nat -> new_frame_after c n0 -> Z.of_nat n0 + 877 <= Z.of_nat (ticks_before rest i) ->
    frame_at c (ticks_before rest i) = frame_at c (S n0) -> nth_error frames (Z.to_nat (frame_at c (ticks_before rest i))) = Some f ->
    forall b p o, in_page p o -> first = true \/ p <> 0 \/ o <> 0 -> d_mem (play (firstn i rest)) b p o = mm_data (frame_bank f b) p o.
  Proof.
    induction n0 as [n0 IH] using (well_founded_induction lt_wf). intros i f L NW TM EQ F b p o Hin NF.
    destruct (opcode_at n0 i ltac:(lia)) as (i0 & L0 & T0).
    assert (D : differing (d_mem (play (firstn i0 rest))) f true + differing (d_mem (play (firstn i0 rest))) f false <= (if first then 97 else 95)).
    { destruct n0 as [|n0'].
      - assert (B : forall b, differing (d_mem (play (firstn i0 rest))) f b = differing (fun _ _ _ => 0) f b).
        { intros b'. apply differing_ext. intros p' o' _. unfold play. rewrite ticks_none_play; [reflexivity|]. apply length_zero_iff_nil, T0. }
        rewrite !B. rewrite EQ, (proj2 frame_zero) in F. specialize (FIRST f F). destruct first; lia.
      - destruct (last_change (S n0') ltac:(lia)) as (n1 & L1 & NW1 & Q1).
        assert (I0 : (i0 <= length rest)%nat) by lia.
        destruct (frame_exists i0 I0 ltac:(lia)) as (f1 & F1).
        assert (E0 : forall b p o, in_page p o -> first = true \/ p <> 0 \/ o <> 0 -> d_mem (play (firstn i0 rest)) b p o = mm_data (frame_bank f1 b) p o).
        { refine (IH n1 L1 i0 f1 I0 NW1 _ _ F1); rewrite T0; [|exact Q1]. exact (STAY n1 (S n0') NW1 NW L1). }
        assert (B : forall b, differing (d_mem (play (firstn i0 rest))) f b <= differing (fun b => mm_data (frame_bank f1 b)) f b + (if first then 0 else 1)).
        { intros b'. apply differing_but_first. intros p' o' Hin' NF'. apply E0; assumption. }
        pose proof (B true) as B1. pose proof (B false) as B2. rewrite T0 in F1.
        assert (B3 : let old := fun b => mm_data (frame_bank f1 b) in differing old f true + differing old f false <= bound).
        { refine (SMALL (frame_at c (S n0')) f1 f (frame_nonneg (S n0') ltac:(lia)) F1 _).
          destruct (frame_step (S n0')) as [X|X]; [exfalso; exact (NW X)|]. rewrite <- X, <- EQ. exact F. }
        cbv zeta in B3. destruct first; lia. }
    refine (small_play first i0 i f K BT (TL f (nth_error_In _ _ F)) EX L _ _ _ _ _ D b p o Hin NF); rewrite ?T0; auto.
    - rewrite <- EQ. exact F.
    - apply HOLES. eapply nth_error_In; exact F.
  Qed.
End Conv.

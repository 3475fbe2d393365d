(** The shipped palettes: which tables they give, and what the encoder does with
    the double hi-res table of the NTSC palette, whose two greys are the same. *)
From Verif Require Import Base BaseFacts BitFacts ScreenModel ScreenSpec ScreenProofs BitmapModel ColourModel ColourProofs DisplaySpec
  BitmapSpec BitmapProofs BitmapApply BitmapState BitmapFacts TableModel TableSpec TableProofs TableFacts
  VideoModel VideoSpec HeapFacts VideoProofs VideoStep VideoFacts VideoThms VideoDisplay.
Opaque TABLES all_pairs.

Lemma iigs_distinct c1 c2 : iigs_rgb c1 = iigs_rgb c2 -> c1 = c2.
Proof. destruct c1, c2; intros E; try reflexivity; discriminate E. Qed.
Lemma ntsc_distinct c1 c2 : ntsc_rgb c1 = ntsc_rgb c2 -> c1 = c2 \/ (c1 = GREY1 /\ c2 = GREY2) \/ (c1 = GREY2 /\ c2 = GREY1).
Proof. destruct c1, c2; intros E; auto; discriminate E. Qed.

Section Palette.
  Variables (delta : rgb -> rgb -> Z) (pal : colour_name -> rgb).
  Hypothesis HB : forall x y, 0 <= delta x y <= 3640.
  Hypothesis HP : forall x y, x <> y -> 0 < delta x y.
  Lemma palette_small : small_matrix (compute_diff_matrix delta pal).
  Proof.
    intros i j Hi Hj. destruct (hgr_enum i Hi) as (c1 & _ & <-). destruct (hgr_enum j Hj) as (c2 & _ & <-).
    rewrite diff_matrix_entries. apply HB.
  Qed.
  Lemma palette_positive i j : 0 <= j < i -> i < 16 ->
    (forall c1 c2, pal c1 = pal c2 -> c1 = c2 \/ (c1 = GREY1 /\ c2 = GREY2) \/ (c1 = GREY2 /\ c2 = GREY1)) ->
    (i = 10 /\ j = 5) \/ 0 < compute_diff_matrix delta pal i j.
  Proof.
    intros Hj Hi D. assert (Ni : nib i) by (split; lia). assert (Nj : nib j) by (split; lia).
    destruct (hgr_enum i Ni) as (c1 & _ & E1). destruct (hgr_enum j Nj) as (c2 & _ & E2). rewrite <- E1, <- E2 in *.
    rewrite diff_matrix_entries.
    assert (Q : {pal c1 = pal c2} + {pal c1 <> pal c2}) by (repeat decide equality).
    destruct Q as [Q|Q]; [|right; apply HP, Q]. left. destruct (D _ _ Q) as [->|[[-> ->]|[-> ->]]]; cbn in *; lia.
  Qed.
  Lemma palette_positive_all i j : 0 <= j < i -> i < 16 -> (forall c1 c2, pal c1 = pal c2 -> c1 = c2) ->
    0 < compute_diff_matrix delta pal i j.
  Proof.
    intros Hj Hi D. assert (Ni : nib i) by (split; lia). assert (Nj : nib j) by (split; lia).
    destruct (hgr_enum i Ni) as (c1 & _ & E1). destruct (hgr_enum j Nj) as (c2 & _ & E2). rewrite <- E1, <- E2 in *.
    rewrite diff_matrix_entries. apply HP. intros Q. apply D in Q. clear HB. subst. lia.
  Qed.
End Palette.

Lemma palette_real k pal ed : (k = HGR /\ pal = ntsc_rgb) \/ pal = iigs_rgb -> palette_table k pal ed -> real_table k ed.
Proof.
  intros C (delta & t & HB & HP & HT & ->). exists (compute_diff_matrix delta pal), (match k with HGR => hgr_value | DHGR => dhgr_value end), t.
  split; [destruct k; auto|]. split; [apply palette_small, HB|]. split; [|split; [exact HT|reflexivity]].
  intros i j Hj Hi. destruct C as [[-> ->]| ->].
  - destruct (palette_positive delta ntsc_rgb HP i j Hj Hi ntsc_distinct) as [X|X]; auto.
  - right. exact (palette_positive_all delta iigs_rgb HP i j Hj Hi iigs_distinct).
Qed.
Lemma palette_grey pal ed : pal = ntsc_rgb \/ pal = iigs_rgb -> palette_table DHGR pal ed -> grey_table ed.
Proof.
  intros C (delta & t & HB & HP & HT & ->). exists (compute_diff_matrix delta pal), dhgr_value, t.
  split; [auto|]. split; [apply palette_small, HB|]. split; [|split; [exact HT|reflexivity]].
  intros i j Hj Hi. destruct C as [-> | ->].
  - exact (palette_positive delta ntsc_rgb HP i j Hj Hi ntsc_distinct).
  - right. exact (palette_positive_all delta iigs_rgb HP i j Hj Hi iigs_distinct).
Qed.
Lemma palette_u16 k pal ed : palette_table k pal ed -> u16_table k ed.
Proof.
  intros (delta & t & HB & HP & HT & ->) o x y Ho Hx Hy.
  refine (proj1 (proj2 (proj2 (table_symmetric (compute_diff_matrix delta pal) k _ t _ (palette_small _ _ HB) HT o x y Ho Hx Hy)))). destruct k; auto.
Qed.
Lemma palette_exists k pal : exists ed, palette_table k pal ed.
Proof.
  set (delta := fun x y : rgb => if (fst (fst x) =? fst (fst y)) && (snd (fst x) =? snd (fst y)) && (snd x =? snd y) then 0 else 7).
  assert (HB : forall x y, 0 <= delta x y <= 3640) by (intros x y; unfold delta; destruct (_ && _); lia).
  assert (HP : forall x y, x <> y -> 0 < delta x y).
  { intros x y N. unfold delta. destruct (_ && _) eqn:E; [|lia]. exfalso. apply N. destruct x as [[x1 x2] x3], y as [[y1 y2] y3]. cbn in E.
    apply andb_true_iff in E. destruct E as [E E3]. apply andb_true_iff in E. destruct E as [E1 E2].
    apply Z.eqb_eq in E1, E2, E3. congruence. }
  destruct (table_spec (compute_diff_matrix delta pal) k (match k with HGR => hgr_value | DHGR => dhgr_value end)) as (t & E & _).
  - destruct k; [left|right]; reflexivity.
  - apply palette_small, HB.
  - exists (edit_distances k t), delta, t. split; [exact HB|]. split; [exact HP|]. split; [exact E|reflexivity].
Qed.

Lemma grey_u16 ed : grey_table ed -> u16_table DHGR ed.
Proof.
  intros (dm & value & t & V & HD & _ & HT & ->) o x y Ho Hx Hy.
  pose proof (table_symmetric dm DHGR value t V HD HT o x y Ho Hx Hy) as (_ & _ & B & _). exact B.
Qed.

(** ** windows without grey *)
Lemma dhgr_dot_byte (main aux : row) (off : Z) (a : bool) (i : Z) : 0 <= i < 7 -> 0 <= off < 256 ->
  dhgr_dot aux main (7 * (2 * off + (if a then 0 else 1)) + i) = Z.testbit ((if a then aux else main) off) i.
Proof.
  intros Hi Ho. unfold dhgr_dot. cbv zeta.
  replace ((7 * (2 * off + (if a then 0 else 1)) + i) / 7) with (2 * off + (if a then 0 else 1)) by (clear - Hi; destruct a; dlia).
  replace ((7 * (2 * off + (if a then 0 else 1)) + i) mod 7) with i by (clear - Hi; destruct a; dlia).
  rewrite Z.even_add, Z.even_mul. replace ((2 * off + (if a then 0 else 1)) / 2) with off by (clear; destruct a; dlia).
  unfold clip_row. destruct a; cbn; replace ((0 <=? off) && (off <? 256)) with true by (clear - Ho; bcase; reflexivity || lia); reflexivity.
Qed.

Lemma zero_no_grey ed b b' p off a dist : grey_table ed -> reachable b -> reachable b' -> bm_kind b = DHGR -> bm_kind b' = DHGR ->
  in_page p off -> diff_weights ed b b' a = Ok dist -> dist p off = 0 ->
  no_grey b a p off \/ no_grey b' a p off ->
  bank_data b a p off < 128 -> bank_data b' a p off < 128 ->
  bank_data b a p off = bank_data b' a p off.
Proof.
  intros (dm & value & t & V & HD & HP & HT & ->) R R' K K' Hin HW H0 NG B1 B2.
  pose proof (screen_zero_gen dm value t b b' p off a dist V HD) as S. rewrite K in S.
  specialize (S HT R R' K' (proj1 Hin) (proj2 Hin) (or_introl eq_refl) HW). destruct S as [S _]. specialize (S H0).
  assert (E : forall d, window_start DHGR off a <= d < window_start DHGR off a + 10 ->
    dhgr_dot (aux_data (bm_aux b) p) (mm_data (bm_main b) p) d = dhgr_dot (aux_data (bm_aux b') p) (mm_data (bm_main b') p) d).
  { intros d Hd. specialize (S d Hd). cbv zeta in S. cbn [row_dot] in S.
    assert (E : pixel_colour (dhgr_dot (aux_data (bm_aux b) p) (mm_data (bm_main b) p)) d = pixel_colour (dhgr_dot (aux_data (bm_aux b') p) (mm_data (bm_main b') p)) d).
    { destruct S as [S|S]; [exact S|].
      assert (G : let x := pixel_colour (dhgr_dot (aux_data (bm_aux b) p) (mm_data (bm_main b) p)) d in
                  let y := pixel_colour (dhgr_dot (aux_data (bm_aux b') p) (mm_data (bm_main b') p)) d in (x <> 5 /\ x <> 10) \/ (y <> 5 /\ y <> 10)).
      { destruct NG as [NG|NG]; [left|right]; apply (NG d Hd). }
      pose proof (pixel_colour_nib (dhgr_dot (aux_data (bm_aux b) p) (mm_data (bm_main b) p)) d) as N.
      pose proof (pixel_colour_nib (dhgr_dot (aux_data (bm_aux b') p) (mm_data (bm_main b') p)) d) as N'.
      unfold nib in N, N'. cbv zeta in G. set (x := pixel_colour (dhgr_dot (aux_data (bm_aux b) p) (mm_data (bm_main b) p)) d) in *.
      set (y := pixel_colour (dhgr_dot (aux_data (bm_aux b') p) (mm_data (bm_main b') p)) d) in *. clearbody x y.
      destruct (Z.eq_dec x y) as [EQ|NE]; [exact EQ|]. exfalso.
      assert (L : 0 <= Z.min x y < Z.max x y /\ Z.max x y < 16) by (clear - N N' NE; lia).
      destruct (HP (Z.max x y) (Z.min x y) (proj1 L) (proj2 L)) as [(X1 & X2)|X]; [|clear - X S; lia].
      clear - X1 X2 G NE. lia. }
    pose proof (pixel_colour_bits (dhgr_dot (aux_data (bm_aux b) p) (mm_data (bm_main b) p)) d d) as P1.
    pose proof (pixel_colour_bits (dhgr_dot (aux_data (bm_aux b') p) (mm_data (bm_main b') p)) d d) as P2.
    rewrite E in P1. rewrite <- P1, <- P2 by (clear; lia). reflexivity. }
  apply (byte_of_bits DHGR); [apply bank_byte; auto|apply bank_byte; auto|auto|]. intros i Hi.
  specialize (E (7 * (2 * off + (if a then 0 else 1)) + i)). rewrite !dhgr_dot_byte in E by (exact Hi || apply Hin).
  assert (W : forall m : Z -> Z -> Z, forall x : Z -> Z -> Z, (if a then x p else m p) off = (if a then x else m) p off) by (destruct a; reflexivity).
  rewrite !W in E. unfold bank_data. apply E. cbn [window_start]. clear - Hi. destruct a; lia.
Qed.

Lemma pad_no_grey ed n v0 t a l v g : grey_table ed -> encoder ed DHGR n v0 -> good_target DHGR t -> frame_run ed v0 t a l v g -> is_pad g ->
  forall p o, in_page p o -> displayed p o -> no_grey t a p o -> bank_data (v_pix v) a p o = bank_data t a p o.
Proof.
  intros HR HV HT HF HP p o Hin Hd NG. pose proof (grey_u16 _ HR) as HE.
  assert (HG : good_bank DHGR a) by (left; reflexivity). pose proof HT as (RT & KT & TT).
  pose proof (now_vinv ed DHGR n v0 t a l v g HE HV HT HG HF) as VI. pose proof (start_vinv ed DHGR n v0 HE HV) as VI0.
  destruct (pad_settled ed DHGR n v0 t a l v g HE HV HT HG HF HP p o Hin Hd) as [H|[[H1 H2]|(t' & dist & A & W & Z0)]]; [exact H| |].
  - unfold start_distance in H1. assert (Hh : hole p o = false) by (apply hole_displayed; auto). rewrite Hh in H1.
    destruct (diff_weights_ok ed t (v_pix v0) a ltac:(rewrite KT; exact HG)) as (f & W & _). rewrite W in H1.
    rewrite H2. symmetry. apply (zero_no_grey ed t (v_pix v0) p o a f HR RT (vi_reach _ _ _ VI0) KT (vi_kind _ _ _ VI0) Hin W H1 (or_introl NG)).
    + apply TT; auto.
    + apply (vi_top _ _ _ VI0); auto.
  - assert (Hb : is_byte (bank_data (v_pix v) a p o)) by (apply bank_byte; auto; apply (vi_reach _ _ _ VI)).
    destruct (apply_bank t p o a _ RT Hin ltac:(rewrite KT; exact HG) Hb) as (t2 & A2 & R2 & K2 & B2 & _).
    rewrite A in A2. injection A2 as <-.
    assert (B3 : bank_data t' a p o = bank_data (v_pix v) a p o) by (rewrite B2; apply upd2_same).
    rewrite <- B3. apply (zero_no_grey ed t' t p o a dist HR R2 RT ltac:(congruence) KT Hin W Z0 (or_intror NG)).
    + rewrite B3. apply (vi_top _ _ _ VI); auto.
    + apply TT; auto.
Qed.

(** any table: only byte 0 of page 0 of a bank can differ *)
Lemma shown_but_first ed k n v m : u16_table k ed -> shown ed k n v m ->
  forall b p o, in_page p o -> p <> 0 \/ o <> 0 -> m b p o = bank_data (v_pix v) b p o.
Proof.
  intros HE H b p o Hin NE. destruct (shown_inv ed k (fun _ _ => True) HE (fun _ => I) (fun _ _ _ _ _ _ _ _ _ _ _ _ => I) n v m H) as [_ S].
  destruct (S b p o Hin) as [E|(-> & -> & _)]; [exact E|lia].
Qed.

(** The encoder: what the display shows. *)
From Verif Require Import Base BaseFacts BitFacts ScreenModel ScreenSpec ScreenProofs BitmapModel ColourModel DisplaySpec
  BitmapSpec BitmapProofs BitmapApply BitmapState BitmapFacts TableModel TableSpec TableFacts
  VideoModel VideoSpec HeapFacts VideoProofs VideoStep VideoFacts VideoThms.
Opaque TABLES all_pairs.

Lemma real_u16 k ed : real_table k ed -> u16_table k ed.
Proof.
  intros (dm & value & t & V & HD & _ & HT & ->) o x y Ho Hx Hy.
  pose proof (table_symmetric dm k value t V HD HT o x y Ho Hx Hy) as (_ & _ & B & _). exact B.
Qed.

Lemma real_discriminating ed : real_table DHGR ed -> discriminating DHGR ed.
Proof.
  intros (dm & value & t & V & HD & HP & HT & ->) o x y Ho Hx Hy E.
  apply (dhgr_zero_iff_equal dm value t o x y V HD HT); auto. intros i j H1 H2. destruct (HP i j H1 H2) as [[X _]|X]; [discriminate|exact X].
Qed.

(** the dots of one byte, given the last bit of its left neighbour *)
Definition byte_dot (b : Z) (gap : bool) (r : Z) : bool :=
  let delay := b2z (Z.testbit b 7) in
  if r <? delay then gap else Z.testbit b ((r - delay) / 2).

Lemma hgr_dot_at main off r : 0 <= r < 14 ->
  hgr_dot main (14 * off + r) = byte_dot (clip_row main off) (Z.testbit (clip_row main (off - 1)) 6) r.
Proof.
  intros Hr. unfold hgr_dot, byte_dot.
  replace ((14 * off + r) / 14) with off by (clear - Hr; dlia).
  replace ((14 * off + r) mod 14) with r by (clear - Hr; dlia). reflexivity.
Qed.

Lemma byte_dot_last b g : byte_dot b g 13 = Z.testbit b 6.
Proof. unfold byte_dot. destruct (Z.testbit b 7); reflexivity. Qed.
Lemma byte_dot_gap b g g' r : 0 < r -> byte_dot b g r = byte_dot b g' r.
Proof. intros H. unfold byte_dot. destruct (Z.testbit b 7); cbn [b2z]; bcase; reflexivity. Qed.

(** no grey in hi-res: of four dots in a row two adjacent ones are the same *)
Lemma hgr_pairs main d : hgr_dot main d = hgr_dot main (d + 1) \/ hgr_dot main (d + 1) = hgr_dot main (d + 2) \/ hgr_dot main (d + 2) = hgr_dot main (d + 3).
Proof.
  set (off := d / 14). set (r := d mod 14). assert (E : d = 14 * off + r) by (apply Z.div_mod; lia).
  assert (Hr : 0 <= r < 14) by (apply Z.mod_pos_bound; lia). clearbody off r. subst d.
  set (b := clip_row main off). set (b' := clip_row main (off + 1)).
  set (gap := Z.testbit (clip_row main (off - 1)) 6).
  assert (A : forall q, 0 <= q < 14 -> hgr_dot main (14 * off + q) = byte_dot b gap q) by (intros q Hq; apply hgr_dot_at, Hq).
  assert (A' : forall q, 0 <= q < 14 -> hgr_dot main (14 * off + 14 + q) = byte_dot b' (Z.testbit b 6) q).
  { intros q Hq. replace (14 * off + 14 + q) with (14 * (off + 1) + q) by lia. rewrite hgr_dot_at by exact Hq.
    replace (off + 1 - 1) with off by lia. reflexivity. }
  clearbody b b' gap. unfold byte_dot in A, A'.
  assert (r <= 10 \/ r = 11 \/ r = 12 \/ r = 13) as [H|[H|[H|H]]] by lia.
  - (* in one byte *)
    rewrite <- !Z.add_assoc. rewrite !A by lia. destruct (Z.testbit b 7); cbn [b2z].
    + assert (r = 0 \/ exists q, r = 2 * q + 1 \/ (r = 2 * q /\ 0 < q)) as [->|(q & [Hq|[Hq Q0]])].
      { destruct (Z.Even_or_Odd r) as [(q & Hq)|(q & Hq)]; [destruct (Z.eq_dec q 0); [left; lia|right; exists q; right; lia]|right; exists q; left; lia]. }
      * right. left. reflexivity.
      * left. destruct (Z.ltb_spec r 1), (Z.ltb_spec (r + 1) 1); try lia. replace ((r - 1) / 2) with ((r + 1 - 1) / 2) by (subst r; clear; dlia). reflexivity.
      * right. left. destruct (Z.ltb_spec (r + 1) 1), (Z.ltb_spec (r + 2) 1); try lia. replace ((r + 1 - 1) / 2) with ((r + 2 - 1) / 2) by (subst r; clear; dlia). reflexivity.
    + destruct (Z.Even_or_Odd r) as [(q & Hq)|(q & Hq)].
      * left. destruct (Z.ltb_spec r 0), (Z.ltb_spec (r + 1) 0); try lia. replace ((r - 0) / 2) with ((r + 1 - 0) / 2) by (subst r; clear; dlia). reflexivity.
      * right. left. destruct (Z.ltb_spec (r + 1) 0), (Z.ltb_spec (r + 2) 0); try lia. replace ((r + 1 - 0) / 2) with ((r + 2 - 0) / 2) by (subst r; clear; dlia). reflexivity.
  - subst r. rewrite <- !Z.add_assoc. cbn [Z.add Pos.add Pos.succ Pos.add_carry]. rewrite !A by lia. destruct (Z.testbit b 7); cbn; auto.
  - subst r. rewrite <- !Z.add_assoc. change (12 + 1) with 13. change (12 + 2) with (14 + 0). change (12 + 3) with (14 + 1). rewrite !A by lia. rewrite !Z.add_assoc, !A' by lia.
    destruct (Z.testbit b 7), (Z.testbit b' 7); cbn; auto.
  - subst r. rewrite <- !Z.add_assoc. change (13 + 1) with (14 + 0). change (13 + 2) with (14 + 1). change (13 + 3) with (14 + 2). rewrite !A by lia. rewrite !Z.add_assoc, !A' by lia.
    destruct (Z.testbit b 7), (Z.testbit b' 7); cbn; auto.
Qed.
Lemma hgr_no_grey main d : pixel_colour (hgr_dot main) d <> 5 /\ pixel_colour (hgr_dot main) d <> 10.
Proof.
  assert (L : d <= d < d + 4 /\ d <= d + 1 < d + 4 /\ d <= d + 2 < d + 4 /\ d <= d + 3 < d + 4) by lia. destruct L as (L0 & L1 & L2 & L3).
  pose proof (pixel_colour_bits (hgr_dot main) d d L0) as B0. pose proof (pixel_colour_bits (hgr_dot main) d (d + 1) L1) as B1.
  pose proof (pixel_colour_bits (hgr_dot main) d (d + 2) L2) as B2. pose proof (pixel_colour_bits (hgr_dot main) d (d + 3) L3) as B3.
  pose proof (hgr_pairs main d) as P. rewrite <- B0, <- B1, <- B2, <- B3 in P.
  assert (M : forall i, Z.testbit 5 ((d + i) mod 4) <> Z.testbit 5 ((d + (i + 1)) mod 4) /\ Z.testbit 10 ((d + i) mod 4) <> Z.testbit 10 ((d + (i + 1)) mod 4)).
  { clear. intros i. rewrite Z.add_assoc. rewrite <- (Zplus_mod_idemp_l (d + i) 1 4). pose proof (Z.mod_pos_bound (d + i) 4 eq_refl) as B. set (x := (d + i) mod 4) in *. clearbody x.
    assert (x = 0 \/ x = 1 \/ x = 2 \/ x = 3) as [->|[->|[->| ->]]] by lia; cbn; split; discriminate. }
  destruct (M 0) as [M1 M1']. destruct (M 1) as [M2 M2']. destruct (M 2) as [M3 M3']. clear M.
  change (0 + 1) with 1 in *. change (1 + 1) with 2 in *. change (2 + 1) with 3 in *. rewrite Z.add_0_r in *.
  split; intros E; rewrite E in P; destruct P as [P|[P|P]]; contradiction.
Qed.

Lemma real_dots ed bm bm' p off dist : real_table HGR ed -> reachable bm -> reachable bm' ->
  bm_kind bm = HGR -> bm_kind bm' = HGR -> in_page p off ->
  diff_weights ed bm bm' false = Ok dist -> dist p off = 0 ->
  forall d, 14 * off - 3 <= d < 14 * off + 15 ->
  hgr_dot (mm_data (bm_main bm) p) d = hgr_dot (mm_data (bm_main bm') p) d.
Proof.
  intros (dm & value & t & V & HD & HP & HT & ->) R R' K K' [Hp Ho] HW H0 d Hd.
  pose proof (screen_zero_gen dm value t bm bm' p off false dist V HD) as S.
  rewrite K in S. specialize (S HT R R' K' Hp Ho (or_intror eq_refl) HW).
  destruct S as [S _]. specialize (S H0 d). cbn [window_start row_dot] in S. change (MASKED_DOTS HGR) with 18 in S.
  specialize (S ltac:(lia)). cbv zeta in S.
  assert (E : pixel_colour (hgr_dot (mm_data (bm_main bm) p)) d = pixel_colour (hgr_dot (mm_data (bm_main bm') p)) d).
  { destruct S as [S|S]; [exact S|]. destruct (hgr_no_grey (mm_data (bm_main bm) p) d) as [G1 G2]. destruct (hgr_no_grey (mm_data (bm_main bm') p) d) as [G1' G2'].
    pose proof (TableProofs.pixel_colour_nib (hgr_dot (mm_data (bm_main bm) p)) d) as N. pose proof (TableProofs.pixel_colour_nib (hgr_dot (mm_data (bm_main bm') p)) d) as N'.
    unfold ColourProofs.nib in N, N'. set (x := pixel_colour (hgr_dot (mm_data (bm_main bm) p)) d) in *. set (y := pixel_colour (hgr_dot (mm_data (bm_main bm') p)) d) in *. clearbody x y.
    destruct (Z.eq_dec x y) as [EQ|NE]; [exact EQ|]. exfalso. destruct (HP (Z.max x y) (Z.min x y) ltac:(lia) ltac:(lia)) as [(_ & X1 & X2)|X]; [|lia].
    clear - X1 X2 G1 G2 G1' G2' NE. lia. }
  rewrite <- (pixel_colour_bits (hgr_dot (mm_data (bm_main bm) p)) d d) by lia.
  rewrite E. apply pixel_colour_bits. lia.
Qed.

Section Hgr.
  Variables (ed : table) (n : Z) (v0 : video) (t : bitmap) (l : list change) (v : video) (g : gen).
  Hypothesis HE : real_table HGR ed.
  Hypothesis HV : encoder ed HGR n v0.
  Hypothesis HT : good_target HGR t.
  Hypothesis HF : frame_run ed v0 t false l v g.
  Hypothesis HP : is_pad g.

  (** a settled byte shows the target's dots in the target's context *)
  Lemma settled_dots p off r : in_page p off -> displayed p off -> 0 <= r < 14 ->
    byte_dot (mm_data (bm_main (v_pix v)) p off) (Z.testbit (clip_row (mm_data (bm_main t) p) (off - 1)) 6) r =
    byte_dot (mm_data (bm_main t) p off) (Z.testbit (clip_row (mm_data (bm_main t) p) (off - 1)) 6) r.
  Proof.
    intros Hin Hd Hr. pose proof (real_u16 _ _ HE) as HU.
    assert (HG : good_bank HGR false) by (right; reflexivity).
    pose proof HT as (RT & KT & _).
    pose proof (now_vinv ed HGR n v0 t false l v g HU HV HT HG HF) as VI.
    pose proof (start_vinv ed HGR n v0 HU HV) as VI0.
    destruct (pad_settled ed HGR n v0 t false l v g HU HV HT HG HF HP p off Hin Hd) as [H|[[H1 H2]|(t' & dist & A & W & Z0)]];
      cbn [bank_data] in *.
    - rewrite H. reflexivity.
    - unfold start_distance in H1. assert (Hh : hole p off = false) by (apply hole_displayed; auto). rewrite Hh in H1.
      destruct (diff_weights ed t (v_pix v0) false) as [f|] eqn:W.
      2:{ destruct (diff_weights_ok ed t (v_pix v0) false ltac:(rewrite KT; exact HG)) as (f & E & _). congruence. }
      pose proof (real_dots ed t (v_pix v0) p off f HE RT (vi_reach _ _ _ VI0) KT (vi_kind _ _ _ VI0) Hin W H1) as DD.
      assert (G : Z.testbit (clip_row (mm_data (bm_main t) p) (off - 1)) 6 = Z.testbit (clip_row (mm_data (bm_main (v_pix v0)) p) (off - 1)) 6).
      { pose proof (DD (14 * (off - 1) + 13) ltac:(lia)) as Q. rewrite !hgr_dot_at, !byte_dot_last in Q by lia. exact Q. }
      pose proof (DD (14 * off + r) ltac:(lia)) as Q. rewrite !hgr_dot_at in Q by lia. rewrite <- G in Q.
      rewrite !(clip_in _ off) in Q by apply Hin. rewrite H2. symmetry. exact Q.
    - assert (Hb : is_byte (bank_data (v_pix v) false p off)) by (apply bank_byte; auto; apply (vi_reach _ _ _ VI)).
      cbn [bank_data] in Hb.
      destruct (apply_bank t p off false _ RT Hin ltac:(rewrite KT; exact HG) Hb) as (t2 & A2 & R2 & K2 & B2 & _).
      rewrite A in A2. injection A2 as <-. cbn [bank_data] in B2.
      pose proof (real_dots ed t' t p off dist HE R2 RT ltac:(congruence) KT Hin W Z0 (14 * off + r) ltac:(lia)) as Q.
      rewrite !hgr_dot_at in Q by lia. rewrite B2 in Q.
      assert (C1 : clip_row (upd2 (mm_data (bm_main t)) p off (mm_data (bm_main (v_pix v)) p off) p) off = mm_data (bm_main (v_pix v)) p off).
      { rewrite clip_in by apply Hin. apply upd2_same. }
      assert (C2 : clip_row (upd2 (mm_data (bm_main t)) p off (mm_data (bm_main (v_pix v)) p off) p) (off - 1) = clip_row (mm_data (bm_main t) p) (off - 1)).
      { unfold clip_row. destruct ((0 <=? off - 1) && (off - 1 <? 256)); [|reflexivity]. apply upd2_other. right. lia. }
      rewrite C1, C2, (clip_in (mm_data (bm_main t) p) off) in Q by apply Hin. exact Q.
  Qed.

  Lemma settled_bit6 p off : in_page p off -> displayed p off ->
    Z.testbit (mm_data (bm_main (v_pix v)) p off) 6 = Z.testbit (mm_data (bm_main t) p off) 6.
  Proof. intros Hin Hd. pose proof (settled_dots p off 13 Hin Hd ltac:(lia)) as Q. rewrite !byte_dot_last in Q. exact Q. Qed.

  Lemma converged_dots p off r : in_page p off -> displayed p off -> 0 <= r < 14 ->
    0 < r \/ off = 0 \/ displayed p (off - 1) ->
    hgr_dot (mm_data (bm_main (v_pix v)) p) (14 * off + r) = hgr_dot (mm_data (bm_main t) p) (14 * off + r).
  Proof.
    intros Hin Hd Hr HC. rewrite !hgr_dot_at by auto. rewrite !(clip_in _ off) by apply Hin.
    rewrite <- settled_dots by auto. destruct HC as [HC|HC]; [apply byte_dot_gap; auto|].
    f_equal. unfold clip_row. destruct ((0 <=? off - 1) && (off - 1 <? 256)) eqn:C; [|reflexivity].
    destruct HC as [->|HC]; [discriminate|]. apply settled_bit6; auto. split; [apply Hin|lia].
  Qed.
End Hgr.

(** in screen coordinates *)
Lemma coordinates p off x y : visible_xy x y -> hires_offset x y = 256 * p + off -> 0 <= off < 256 ->
  in_page p off /\ displayed p off /\ (0 < x -> displayed p (off - 1)).
Proof.
  intros (Hx & Hy) E Ho. unfold hires_offset in E.
  assert (0 <= p < 32) by (clear - Hx Hy E Ho; dlia).
  split; [split; auto|]. split; [exists x, y; split; [split; auto|exact E]|].
  intros Hx0. exists (x - 1), y. split; [split; lia|]. unfold hires_offset. lia.
Qed.

(** ** the player's memory *)
Lemma store4_cell c p o : (exists x, forall m, store4 m c p o = x) \/ (forall m, store4 m c p o = m p o).
Proof.
  destruct c as [[page content] offsets]. unfold store4.
  destruct ((p =? page - 32) && existsb (Z.eqb o) offsets) eqn:E.
  - left. exists content. intros m. rewrite fold_upd, E. reflexivity.
  - right. intros m. rewrite fold_upd, E. reflexivity.
Qed.

Lemma replay_cell l p o : (exists x, forall m, replay m l p o = x) \/ (forall m, replay m l p o = m p o).
Proof.
  induction l as [|c l IH] using rev_ind; [right; reflexivity|].
  destruct (store4_cell c p o) as [[x H]|H].
  - left. exists x. intros m. rewrite replay_app. apply H.
  - destruct IH as [[x IH]|IH].
    + left. exists x. intros m. rewrite replay_app, H. apply IH.
    + right. intros m. rewrite replay_app, H. apply IH.
Qed.

Lemma replay_pads t a j m : forall p o, replay m (repeat (pad_change t a) j) p o =
  if (p =? 0) && (o =? 0) && negb (Nat.eqb j 0) then bank_data t a 0 0 else m p o.
Proof.
  revert m. induction j as [|j IH]; intros m p o.
  - cbn. rewrite andb_false_r. reflexivity.
  - change (replay m (repeat (pad_change t a) (S j))) with (replay (store4 m (pad_change t a)) (repeat (pad_change t a) j)).
    rewrite IH. unfold pad_change, store4. rewrite fold_upd. change (32 - 32) with 0. cbn [existsb Nat.eqb negb].
    rewrite !orb_diag || idtac. destruct (Z.eqb_spec p 0), (Z.eqb_spec o 0); cbn [andb orb]; auto.
    destruct (negb (Nat.eqb j 0)); reflexivity.
Qed.

Section Shown.
  Variables (ed : table) (k : kind) (Q : Z -> Z -> Prop).
  Hypothesis HE : u16_table k ed.
  Hypothesis Qrefl : forall x, Q x x.
  Hypothesis Qpad : forall n v0 t a l v g, encoder ed k n v0 -> good_target k t -> good_bank k a ->
    frame_run ed v0 t a l v g -> is_pad g -> Q (bank_data t a 0 0) (bank_data (v_pix v) a 0 0).

  Lemma shown_inv n v m : shown ed k n v m -> encoder ed k n v /\
    forall b p o, in_page p o -> m b p o = bank_data (v_pix v) b p o \/ (p = 0 /\ o = 0 /\ Q (m b 0 0) (bank_data (v_pix v) b 0 0)).
  Proof.
    intros H. induction H as [|n v0 m t a l v g H IH HT HG HF|n v m H IH].
    3:{ destruct IH as [HV IH]. split; [apply enc_reset; auto|exact IH]. }
    - split; [constructor|]. intros b p o _. left.
      unfold video_new, bank_data. cbn [v_pix]. destruct k, b; reflexivity.
    - destruct IH as [HV IH]. split; [econstructor; eauto|].
      intros b p o Hin. destruct (Bool.eqb b a) eqn:Eb.
      + apply Bool.eqb_prop in Eb. subst b.
        destruct (replay_screen ed k n v0 t a l v g HE HV HT HG HF) as (work & j & El & Ej & MM & _).
        assert (EP : replay (m a) l p o = replay (replay (m a) work) (repeat (pad_change t a) j) p o).
        { rewrite El. unfold replay. rewrite fold_left_app. reflexivity. }
        rewrite EP, replay_pads.
        assert (W : replay (m a) work p o = bank_data (v_pix v) a p o \/ (p = 0 /\ o = 0 /\ Q (replay (m a) work 0 0) (bank_data (v_pix v) a 0 0))).
        { rewrite (MM p o Hin). destruct (replay_cell work p o) as [[x R]|R].
          - left. rewrite !R. reflexivity.
          - rewrite !R. destruct (IH a p o Hin) as [E|(-> & -> & E)]; [left; exact E|].
            right. split; [reflexivity|]. split; [reflexivity|]. rewrite (MM 0 0 Hin), !R. exact E. }
        assert (EP0 : replay (m a) l 0 0 = replay (replay (m a) work) (repeat (pad_change t a) j) 0 0).
        { rewrite El. unfold replay. rewrite fold_left_app. reflexivity. }
        rewrite EP0, replay_pads. cbn [Z.eqb andb].
        destruct (Nat.eqb_spec j 0) as [->|NJ]; cbn [negb].
        * rewrite andb_false_r. exact W.
        * rewrite andb_true_r. destruct (Z.eqb_spec p 0) as [->|]; [|destruct W as [W|W]; [left; exact W|lia]].
          destruct (Z.eqb_spec o 0) as [->|]; [|destruct W as [W|W]; [left; exact W|lia]].
          right. split; [reflexivity|]. split; [reflexivity|].
          eapply Qpad; eauto. apply Ej. exact NJ.
      + assert (Hb : b = negb a) by (apply other_bank; intros ->; rewrite Bool.eqb_reflx in Eb; discriminate). subst b.
        destruct (encoder_vinv ed k n v0 HE HV) as [VI HN].
        pose proof (run_fstate ed k n v0 t a HE HT HG VI HN l v g HF) as FS.
        apply fstate_other in FS. destruct FS as [FS _]. rewrite FS. apply IH; auto.
  Qed.
End Shown.

Lemma shown_exact ed k n v m : u16_table k ed -> discriminating k ed -> shown ed k n v m ->
  forall b p o, in_page p o -> m b p o = bank_data (v_pix v) b p o.
Proof.
  intros HE HD H b p o Hin.
  destruct (shown_inv ed k eq HE (fun x => eq_refl)) with (n := n) (v := v) (m := m) as [_ S]; auto.
  - intros n' v0 t a l v' g HV HT HG HF HP. symmetry.
    apply (pad_converged ed k n' v0 t a l v' g HE HV HT HG HF HD HP); [split; lia|apply displayed_00].
  - destruct (S b p o Hin) as [E|(-> & -> & E)]; auto.
Qed.

Lemma shown_dots ed n v m : real_table HGR ed -> shown ed HGR n v m ->
  forall p d, 0 <= p < 32 -> hgr_dot (m false p) d = hgr_dot (mm_data (bm_main (v_pix v)) p) d.
Proof.
  intros HR H p d Hp. pose proof (real_u16 _ _ HR) as HE.
  set (Q := fun x y => forall r, 0 <= r < 14 -> byte_dot x false r = byte_dot y false r).
  destruct (shown_inv ed HGR Q HE) with (n := n) (v := v) (m := m) as [_ S]; auto.
  - intros x r _. reflexivity.
  - intros n' v0 t a l v' g HV HT HG HF HP r Hr.
    destruct HG as [HG| ->]; [discriminate|].
    pose proof (settled_dots ed n' v0 t l v' g HR HV HT HF HP 0 0 r ltac:(split; lia) displayed_00 Hr) as E.
    symmetry. exact E.
  - assert (C : forall o, clip_row (m false p) o = clip_row (mm_data (bm_main (v_pix v)) p) o \/
       (p = 0 /\ o = 0 /\ Q (clip_row (m false p) o) (clip_row (mm_data (bm_main (v_pix v)) p) o))).
    { intros o. destruct (Z_lt_ge_dec o 0); [left; rewrite !clip_out by lia; reflexivity|].
      destruct (Z_lt_ge_dec o 256); [|left; rewrite !clip_out by lia; reflexivity].
      rewrite !clip_in by lia. destruct (S false p o ltac:(split; lia)) as [E|(-> & -> & E)]; auto. }
    assert (B6 : forall o, Z.testbit (clip_row (m false p) o) 6 = Z.testbit (clip_row (mm_data (bm_main (v_pix v)) p) o) 6).
    { intros o. destruct (C o) as [->|(_ & _ & E)]; [reflexivity|]. specialize (E 13 ltac:(lia)). rewrite !byte_dot_last in E. exact E. }
    rewrite (Z.div_mod d 14) by lia. set (off := d / 14). pose proof (Z.mod_pos_bound d 14 ltac:(lia)) as Hr. set (r := d mod 14) in *.
    rewrite !hgr_dot_at by auto. rewrite B6.
    destruct (C off) as [->|(-> & Eo & E)]; [reflexivity|].
    rewrite Eo in *. change (0 - 1) with (-1).
    change (clip_row (mm_data (bm_main (v_pix v)) 0) (-1)) with 0. change (Z.testbit 0 6) with false. apply E; auto.
Qed.

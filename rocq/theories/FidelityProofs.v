(** When the encoder has caught up: what its map, and the player's screen, then
    show. *)
From Verif Require Import Base BaseFacts BitFacts ScreenModel ScreenSpec BitmapModel ColourModel DisplaySpec BitmapSpec BitmapFacts TableModel TableSpec
  VideoModel VideoSpec BitmapProofs VideoProofs VideoFacts VideoThms VideoDisplay PaletteFacts PropVideo
  OpcodeModel MovieModel MovieSpec MovieProofs MovieState MovieThms MovieFinal PropMovie.
Opaque TABLES all_pairs next.

(** ** Two bytes that show the same dots after the same dot *)
Lemma byte_dot_even b g i : Z.testbit b 7 = false -> 0 <= i < 7 -> byte_dot b g (2 * i) = Z.testbit b i /\ byte_dot b g (2 * i + 1) = Z.testbit b i.
Proof.
  intros H Hi. unfold byte_dot. rewrite H. cbn [b2z]. rewrite !Z.sub_0_r.
  replace (2 * i / 2) with i by (clear; dlia). replace ((2 * i + 1) / 2) with i by (clear; dlia).
  split; bcase; try reflexivity; exfalso; lia.
Qed.
Lemma byte_dot_late b g i : Z.testbit b 7 = true -> 0 <= i < 7 -> byte_dot b g (2 * i + 1) = Z.testbit b i.
Proof.
  intros H Hi. unfold byte_dot. rewrite H. cbn [b2z]. replace (2 * i + 1 - 1) with (i * 2) by lia. rewrite Z.div_mul by lia.
  bcase; try reflexivity; exfalso; lia.
Qed.
Lemma byte_dot_late' b g i : Z.testbit b 7 = true -> 0 <= i < 6 -> byte_dot b g (2 * i + 2) = Z.testbit b i.
Proof.
  intros H Hi. unfold byte_dot. rewrite H. cbn [b2z]. replace ((2 * i + 2 - 1) / 2) with i by (clear; dlia).
  bcase; try reflexivity; exfalso; lia.
Qed.
Lemma constant_bits (b : Z) (v : bool) : is_byte b -> (forall i, 0 <= i < 7 -> Z.testbit b i = v) -> Z.land b 0x7f = if v then 0x7f else 0.
Proof.
  intros B H. apply (bits_eq 7); [lia| |destruct v; cbn; lia|].
  - change 0x7f with (Z.ones 7). rewrite Z.land_ones by lia. apply Z.mod_pos_bound. reflexivity.
  - intros i Hi. rewrite Z.land_spec, (H i Hi). 
    assert (i = 0 \/ i = 1 \/ i = 2 \/ i = 3 \/ i = 4 \/ i = 5 \/ i = 6) as C by (clear - Hi; lia).
    destruct v; decompose [or] C; subst i; reflexivity.
Qed.
Lemma late_early x y g : is_byte x -> is_byte y -> Z.testbit x 7 = false -> Z.testbit y 7 = true ->
  (forall r, 0 <= r < 14 -> byte_dot x g r = byte_dot y g r) ->
  Z.land x 0x7f = (if g then 0x7f else 0) /\ Z.land y 0x7f = (if g then 0x7f else 0).
Proof.
  intros Bx By X Y H.
  assert (S : forall i, 0 <= i < 7 -> Z.testbit x i = Z.testbit y i).
  { intros i Hi. rewrite <- (proj2 (byte_dot_even x g i X Hi)), <- (byte_dot_late y g i Y Hi). apply H. lia. }
  assert (N : forall i, 0 <= i < 6 -> Z.testbit x (i + 1) = Z.testbit y i).
  { intros i Hi. rewrite <- (proj1 (byte_dot_even x g (i + 1) X ltac:(lia))), <- (byte_dot_late' y g i Y Hi). replace (2 * (i + 1)) with (2 * i + 2) by lia. apply H. lia. }
  assert (Z0 : Z.testbit x 0 = g).
  { rewrite <- (proj1 (byte_dot_even x g 0 X ltac:(lia))). change (2 * 0) with 0. rewrite (H 0 ltac:(lia)). unfold byte_dot. rewrite Y. reflexivity. }
  assert (C : forall i, 0 <= i < 7 -> Z.testbit x i = g).
  { assert (R : forall i, 0 <= i < 6 -> 0 <= i < 7) by (clear; lia).
    assert (M : forall i, 0 <= i < 6 -> Z.testbit x (i + 1) = Z.testbit x i) by (intros i Hi; rewrite (N i Hi), (S i (R i Hi)); reflexivity). clear - M Z0.
    assert (M0 : Z.testbit x 1 = g) by (rewrite <- Z0; apply (M 0); clear; lia).
    assert (M1 : Z.testbit x 2 = g) by (rewrite <- M0; apply (M 1); clear; lia).
    assert (M2 : Z.testbit x 3 = g) by (rewrite <- M1; apply (M 2); clear; lia).
    assert (M3 : Z.testbit x 4 = g) by (rewrite <- M2; apply (M 3); clear; lia).
    assert (M4 : Z.testbit x 5 = g) by (rewrite <- M3; apply (M 4); clear; lia).
    assert (M5 : Z.testbit x 6 = g) by (rewrite <- M4; apply (M 5); clear; lia).
    intros i Hi. assert (K : i = 0 \/ i = 1 \/ i = 2 \/ i = 3 \/ i = 4 \/ i = 5 \/ i = 6) by (clear - Hi; lia). decompose [or] K; subst i; assumption. }
  split; apply constant_bits; auto. intros i Hi. rewrite <- S by auto. apply C, Hi.
Qed.
Lemma same_dots_bytes x y g : is_byte x -> is_byte y -> (forall r, 0 <= r < 14 -> byte_dot x g r = byte_dot y g r) ->
  x = y \/ (Z.land x 0x7f = 0 /\ Z.land y 0x7f = 0) \/ (Z.land x 0x7f = 0x7f /\ Z.land y 0x7f = 0x7f).
Proof.
  intros Bx By H. destruct (Z.testbit x 7) eqn:X, (Z.testbit y 7) eqn:Y.
  - left. apply (bits_eq 8); [discriminate|exact Bx|exact By|]. intros i Hi. destruct (Z.eq_dec i 7) as [->|N]; [congruence|].
    rewrite <- (byte_dot_late x g i X ltac:(lia)), <- (byte_dot_late y g i Y ltac:(lia)). apply H. lia.
  - right. destruct (late_early y x g By Bx Y X) as [A B]; [intros r Hr; symmetry; apply H, Hr|]. destruct g; auto.
  - right. destruct (late_early x y g Bx By X Y) as [A B]; [exact H|]. destruct g; auto.
  - left. apply (bits_eq 8); [discriminate|exact Bx|exact By|]. intros i Hi. destruct (Z.eq_dec i 7) as [->|N]; [congruence|].
    rewrite <- (proj1 (byte_dot_even x g i X ltac:(lia))), <- (proj1 (byte_dot_even y g i Y ltac:(lia))). apply H. lia.
Qed.

Lemma idle_hgr_bytes ed n v0 t l v g : real_table HGR ed -> encoder ed HGR n v0 -> good_target HGR t -> frame_run ed v0 t false l v g -> is_pad g ->
  forall p o, in_page p o -> displayed p o ->
  let x := mm_data (bm_main (v_pix v)) p o in let y := mm_data (bm_main t) p o in
  x = y \/ (Z.land x 0x7f = 0 /\ Z.land y 0x7f = 0) \/ (Z.land x 0x7f = 0x7f /\ Z.land y 0x7f = 0x7f).
Proof.
  intros HR HV HT HF HP p o Hin Hd x y. pose proof (real_u16 _ _ HR) as HE.
  pose proof (now_vinv ed HGR n v0 t false l v g HE HV HT (or_intror eq_refl) HF) as VI.
  apply (same_dots_bytes x y (Z.testbit (clip_row (mm_data (bm_main t) p) (o - 1)) 6)).
  - apply (bank_byte (v_pix v) false p o (vi_reach _ _ _ VI) Hin).
  - apply (bank_byte t false p o (proj1 HT) Hin).
  - intros r Hr. exact (settled_dots ed n v0 t l v g HR HV HT HF HP p o r Hin Hd Hr).
Qed.

(** ** Idle after the latest opcode *)
Section Idle.
  Variables (c : config) (audio : list Z) (frames : list frame).
  Hypothesis HC : good_config c.
  Hypothesis HA : good_audio audio.
  Hypothesis HF : good_frames (c_mode c) frames.

  Lemma idle_run ops s g : stream_run c (movie_new c audio frames) ops s -> e_op_seq (s_enc s) = Some g ->
    exists f q v0 l, nth_error frames (Z.to_nat (shown_index c (length (filter is_tick ops)))) = Some f /\
      encoder (c_table c) (c_mode c) q v0 /\ good_target (c_mode c) (frame_bitmap (c_mode c) f) /\ good_bank (c_mode c) (e_last (s_enc s)) /\
      frame_run (c_table c) v0 (frame_bitmap (c_mode c) f) (e_last (s_enc s)) l (m_video (s_movie s)) g.
  Proof.
    intros R G. destruct (run_inv c audio frames HC HA HF ops s R) as (n & I).
    assert (E : length (filter is_tick ops) = n).
    { rewrite <- duties_ticks, (i_duties _ _ _ _ _ _ I), map_length. apply firstn_length_le, (i_le _ _ _ _ _ _ I). }
    rewrite E. destruct (i_state _ _ _ _ _ _ I) as [(_ & _ & _ & _ & X & _)|(_ & _ & f & g' & A1 & _ & A3 & (q & v0 & m0 & l & S & T & B & F & _))]; [congruence|].
    rewrite G in A3. injection A3 as <-. exists f, q, v0, l. split; [exact A1|]. split; [exact (shown_encoder _ _ _ _ _ S)|]. auto.
  Qed.

  (** ** the age of the generator (hi-res: one generator per encoded frame) *)
  Hypothesis HK : c_mode c = HGR.
  Lemma due_mono a b : (a <= b)%nat -> due (c_clock c) a <= due (c_clock c) b.
  Proof. induction 1 as [|b L IH]; [lia|]. cbn [due]. destruct (c_clock c (Z.of_nat (S b)) (due (c_clock c) b)); lia. Qed.
  Lemma index_mono a b : (a <= b)%nat -> shown_index c a <= shown_index c b.
  Proof.
    intros L. pose proof (due_mono a b L) as D. destruct HC as (_ & E & _). unfold shown_index.
    apply Z.mul_le_mono_nonneg_l; [lia|]. apply Z.div_le_mono; lia.
  Qed.
  Lemma index_below a : shown_index c a < due (c_clock c) a.
  Proof. destruct HC as (_ & E & _). unfold shown_index. pose proof (Z.mul_div_le (due (c_clock c) a - 1) (c_every_n c) ltac:(lia)). lia. Qed.

  Definition Aged (s : stream) (n : nat) : Prop := (0 < n)%nat -> exists q v0 t l g,
    e_op_seq (s_enc s) = Some g /\ e_target (s_enc s) = Some t /\ encoder (c_table c) HGR q v0 /\ good_target HGR t /\
    frame_run (c_table c) v0 t false l (m_video (s_movie s)) g /\
    forall j, (j < n)%nat -> shown_index c (n - j) = shown_index c n -> (j < length l)%nat.

  Lemma step_keeps s new s' : emit_step c s = Ok (More new s') -> exists op m1,
    encode_next c (s_movie s) (s_enc s) = Ok (Some op, m1, s_enc s') /\ m_video (s_movie s') = m_video m1.
  Proof.
    unfold emit_step. destruct (encode_next c (s_movie s) (s_enc s)) as [[[oop m1] e1]|] eqn:N; [|discriminate]. cbn [rbind].
    destruct oop as [op|]; [|discriminate]. destruct (negb (c_max_bytes c =? 0) && (c_max_bytes c <=? m_pos m1)); [discriminate|].
    destruct (2044 <=? _).
    - destruct (_ =? 0); [|discriminate]. cbn [assert_]. intros E. injection E as _ <-. exists op, m1. unfold emit_bytes, advance, flip_bank. cbn [s_enc s_movie m_video].
      split; [reflexivity|]. destruct (c_mode c); reflexivity.
    - intros E. injection E as _ <-. exists op, m1. split; reflexivity.
  Qed.

  Lemma aged_next ops s n new s' : Inv c audio frames ops s n -> Aged s n -> e_at (s_enc s) <> AtStart ->
    emit_step c s = Ok (More new s') -> Aged s' (S n).
  Proof.
    intros I AG NS E _. destruct (step_keeps _ _ _ E) as (op & m1 & N & V). rewrite V. clear V E.
    set (e1 := s_enc s') in *. clearbody e1. clear s'. pose proof HC as (HC1 & HC2 & HC3).
    assert (GB : m_aux (s_movie s) = false).
    { pose proof (inv_bank c audio frames HF ops s n I) as B. rewrite HK in B. destruct B as [B|B]; [discriminate|exact B]. }
    assert (LB : (0 < n)%nat -> e_last (s_enc s) = false).
    { intros P. destruct (i_state _ _ _ _ _ _ I) as [(X & _)|(_ & _ & f & g & _ & _ & _ & (q & v0 & m0 & l & _ & _ & B & _))]; [lia|].
      rewrite HK in B. destruct B as [B|B]; [discriminate|exact B]. }
    unfold encode_next in N.
    assert (AT : e_at (s_enc s) = AfterHeader \/ e_at (s_enc s) = InLoop).
    { destruct (i_state _ _ _ _ _ _ I) as [(_ & A & _)|(_ & A & _)]; tauto. }
    set (last := match e_at (s_enc s) with AfterHeader => m_aux (s_movie s) | _ => e_last (s_enc s) end) in N.
    assert (LF : (0 < n)%nat -> last = false).
    { intros P. unfold last. rewrite (LB P), GB. destruct (e_at (s_enc s)); reflexivity. }
    assert (N2 : exists au rest, e_audio (s_enc s) = au :: rest /\ tick_body c (s_movie s) {| e_at := InLoop; e_last := last; e_target := e_target (s_enc s);
       e_op_seq := e_op_seq (s_enc s); e_audio := rest; e_frames := e_frames (s_enc s) |} au = Ok (Some op, m1, e1)).
    { destruct (e_audio (s_enc s)) as [|au rest]; [destruct AT as [A|A]; rewrite A in N; discriminate|]. exists au, rest. split; [reflexivity|].
      destruct AT as [A|A]; rewrite A in N; exact N. }
    clear N. destruct N2 as (au & rest & _ & N). unfold tick_body in N. cbv zeta in N.
    assert (DU : due (c_clock c) (S n) = if c_clock c (m_ticks (s_movie s) + 1) (m_frame_number (s_movie s)) then due (c_clock c) n + 1 else due (c_clock c) n).
    { cbn [due]. rewrite (i_ticks _ _ _ _ _ _ I), (i_fn _ _ _ _ _ _ I). replace (Z.of_nat n + 1) with (Z.of_nat (S n)) by lia. reflexivity. }
    assert (OLD : (0 < n)%nat -> forall m2 e2, m_video m2 = m_video (s_movie s) -> m_aux m2 = false -> e_last e2 = last -> e_op_seq e2 = e_op_seq (s_enc s) -> e_target e2 = e_target (s_enc s) ->
       (let! e3 := follow_bank m2 e2 in
        match e_op_seq e3 with None => Raise TypeError | Some g =>
          let! (change, v', g') := next (c_table c) (c_draws c (m_ticks (s_movie s) + 1)) (m_video m2) g in
          let '(page, content, offsets) := change in
          let! op := tick_opcode (au * 2 + 34) page content offsets in
          Ok (Some op, {| m_pos := m_pos m2; m_ticks := m_ticks m2; m_aux := m_aux m2; m_frame_number := m_frame_number m2; m_video := v' |},
              {| e_at := InLoop; e_last := e_last e3; e_target := e_target e3; e_op_seq := Some g'; e_audio := e_audio e3; e_frames := e_frames e3 |}) end) = Ok (Some op, m1, e1) ->
       exists q v0 t l g, e_op_seq e1 = Some g /\ e_target e1 = Some t /\ encoder (c_table c) HGR q v0 /\ good_target HGR t /\ frame_run (c_table c) v0 t false l (m_video m1) g /\
         forall j, (j < S n)%nat -> shown_index c (S n - j) = shown_index c (S n) -> (j < length l)%nat).
    { intros P m2 e2 Q1 Q2 Q3 Q4 Q5 H. destruct (AG P) as (q & v0 & t & l & g & G1 & G2 & G3 & G4 & G5 & G6).
      unfold follow_bank in H. rewrite Q2, Q3, (LF P) in H. cbn [Bool.eqb rbind] in H. rewrite Q4, G1, Q1 in H.
      destruct (next (c_table c) (c_draws c (m_ticks (s_movie s) + 1)) (m_video (s_movie s)) g) as [[[ch v'] g']|] eqn:NX; [|discriminate]. cbn [rbind] in H.
      destruct ch as [[page content] offsets]. destruct (tick_opcode (au * 2 + 34) page content offsets) as [op'|]; [|discriminate]. cbn [rbind] in H.
      injection H as _ <- <-. cbn [e_op_seq e_target m_video]. exists q, v0, t, (l ++ [(page, content, offsets)]), g'.
      split; [reflexivity|]. split; [rewrite Q5; exact G2|]. split; [exact G3|]. split; [exact G4|]. split; [eapply fr_next; eauto|].
      intros j Hj EI. rewrite app_length. cbn [length]. destruct j as [|j]; [lia|]. specialize (G6 j ltac:(lia)).
      cbn [Nat.sub] in EI. assert (M1 : shown_index c (n - j) <= shown_index c n) by (apply index_mono; lia).
      assert (M2 : shown_index c n <= shown_index c (S n)) by (apply index_mono; lia). specialize (G6 ltac:(lia)). lia. }
    assert (NEW : forall m2 e2 f, m_video m2 = reset_oow (m_video (s_movie s)) -> m_aux m2 = false -> e_op_seq e2 = Some (GStart (frame_bitmap (c_mode c) f) false) -> e_target e2 = Some (frame_bitmap (c_mode c) f) ->
       In f frames -> shown_index c (S n) = due (c_clock c) n ->
       (let! e3 := follow_bank m2 e2 in
        match e_op_seq e3 with None => Raise TypeError | Some g =>
          let! (change, v', g') := next (c_table c) (c_draws c (m_ticks (s_movie s) + 1)) (m_video m2) g in
          let '(page, content, offsets) := change in
          let! op := tick_opcode (au * 2 + 34) page content offsets in
          Ok (Some op, {| m_pos := m_pos m2; m_ticks := m_ticks m2; m_aux := m_aux m2; m_frame_number := m_frame_number m2; m_video := v' |},
              {| e_at := InLoop; e_last := e_last e3; e_target := e_target e3; e_op_seq := Some g'; e_audio := e_audio e3; e_frames := e_frames e3 |}) end) = Ok (Some op, m1, e1) ->
       exists q v0 t l g, e_op_seq e1 = Some g /\ e_target e1 = Some t /\ encoder (c_table c) HGR q v0 /\ good_target HGR t /\ frame_run (c_table c) v0 t false l (m_video m1) g /\
         forall j, (j < S n)%nat -> shown_index c (S n - j) = shown_index c (S n) -> (j < length l)%nat).
    { intros m2 e2 f Q1 Q2 Q3 Q4 Q5 Q6 H.
      assert (F : exists e3, follow_bank m2 e2 = Ok e3 /\ e_op_seq e3 = Some (GStart (frame_bitmap (c_mode c) f) false) /\ e_target e3 = Some (frame_bitmap (c_mode c) f)).
      { unfold follow_bank. rewrite Q2. destruct (Bool.eqb false (e_last e2)); [eauto|]. rewrite Q4. eexists. split; [reflexivity|]. split; reflexivity. }
      destruct F as (e3 & F1 & F2 & F3). rewrite F1 in H. cbn [rbind] in H. rewrite F2, Q1 in H.
      destruct (next (c_table c) (c_draws c (m_ticks (s_movie s) + 1)) (reset_oow (m_video (s_movie s))) (GStart (frame_bitmap (c_mode c) f) false)) as [[[ch v'] g']|] eqn:NX; [|discriminate]. cbn [rbind] in H.
      destruct ch as [[page content] offsets]. destruct (tick_opcode (au * 2 + 34) page content offsets) as [op'|]; [|discriminate]. cbn [rbind] in H.
      injection H as _ <- <-. cbn [e_op_seq e_target m_video].
      destruct (inv_shows _ _ _ _ _ _ I) as (q & mm & SH & _). rewrite HK in SH.
      pose proof (frames_target _ _ HF f Q5) as GT. rewrite HK in GT, NX, F3.
      exists q, (reset_oow (m_video (s_movie s))), (frame_bitmap HGR f), ([] ++ [(page, content, offsets)]), g'.
      split; [reflexivity|]. split; [exact F3|]. split; [apply enc_reset, (shown_encoder _ _ _ _ _ SH)|]. split; [exact GT|].
      split; [eapply fr_next; [constructor|exact NX]|]. intros j Hj EI. cbn [app length]. destruct j as [|j]; [apply Nat.lt_0_succ|]. exfalso.
      cbn [Nat.sub] in EI. pose proof (index_below (n - j)) as B1. pose proof (due_mono (n - j) n (Nat.le_sub_l n j)) as B2. clear - B1 B2 EI Q6. lia. }
    destruct (c_clock c (m_ticks (s_movie s) + 1) (m_frame_number (s_movie s))) eqn:CK.
    - unfold new_frame in N. cbn [e_frames m_frame_number] in N.
      destruct (e_frames (s_enc s)) as [|f frs] eqn:FR; [discriminate|].
      destruct (c_every_n c =? 0); [discriminate|]. rewrite (i_fn _ _ _ _ _ _ I) in N.
      replace (due (c_clock c) n + 1 - 1) with (due (c_clock c) n) in N by lia.
      destruct (Z.eqb_spec (due (c_clock c) n mod c_every_n c) 0) as [H0|H0].
      + cbn [rbind m_aux] in N. rewrite GB in N.
        refine (NEW _ _ f _ _ _ _ _ _ N); try reflexivity.
        * pose proof (i_frames _ _ _ _ _ _ I) as IFR. rewrite FR in IFR. symmetry in IFR. eapply nth_error_In. apply (proj1 (skipn_cons _ _ _ _ IFR)).
        * unfold shown_index. rewrite DU. replace (due (c_clock c) n + 1 - 1) with (due (c_clock c) n) by lia. apply index_exact; auto.
      + cbn [rbind] in N.
        assert (P : (0 < n)%nat). { destruct n; [|lia]. exfalso. apply H0. cbn [due]. apply Z.mod_0_l. lia. }
        refine (OLD P _ _ _ _ _ _ _ N); try reflexivity. exact GB.
    - cbn [rbind] in N.
      assert (P : (0 < n)%nat). { destruct n; [|lia]. exfalso. rewrite (i_ticks _ _ _ _ _ _ I), (i_fn _ _ _ _ _ _ I) in CK. cbn [due] in CK. rewrite HC3 in CK; [discriminate|lia]. }
      refine (OLD P _ _ _ _ _ _ _ N); try reflexivity. exact GB.
  Qed.

  Lemma aged ops s : stream_run c (movie_new c audio frames) ops s -> exists n, Inv c audio frames ops s n /\ Aged s n.
  Proof.
    intros H. induction H as [|ops s new s' H (n & I & A) E]; [exists 0%nat; split; [apply inv_new|intros X; lia]|].
    destruct (step_inv c audio frames HC HA HF ops s n I) as [(b & E' & _)|(new' & s'' & n' & E' & I' & _ & _ & ST & _)]; rewrite E in E'; [discriminate|].
    injection E' as <- <-. exists n'. split; [exact I'|]. destruct ST as [[A1 ->]|[A1 ->]].
    - intros P. exfalso. destruct (i_state _ _ _ _ _ _ I) as [(X & _)|(_ & X & _)]; [lia|congruence].
    - eapply aged_next; eauto.
  Qed.

  Lemma still_idle ops s n j : stream_run c (movie_new c audio frames) ops s -> n = length (filter is_tick ops) ->
    (j < n)%nat -> 7680 <= Z.of_nat j -> shown_index c (n - j) = shown_index c n ->
    exists g, e_op_seq (s_enc s) = Some g /\ is_pad g.
  Proof.
    intros R -> L J EI. destruct (aged ops s R) as (n & I & A).
    assert (E : length (filter is_tick ops) = n).
    { rewrite <- duties_ticks, (i_duties _ _ _ _ _ _ I), map_length. apply firstn_length_le, (i_le _ _ _ _ _ _ I). }
    rewrite E in *. destruct (A ltac:(lia)) as (q & v0 & t & l & g & G1 & G2 & G3 & G4 & G5 & G6).
    exists g. split; [exact G1|]. pose proof (proj1 HC) as HU. rewrite HK in HU.
    destruct (C24_bounded_work (c_table c) HGR q v0 t false l (m_video (s_movie s)) g HU G3 G4 (or_intror eq_refl) G5) as [B1 B2].
    apply B2. specialize (G6 j L EI). clear - B1 G6 J. lia.
  Qed.
End Idle.

(** Small changes in a movie: the visits of the two banks while one frame is due. *)
From Verif Require Import Base BaseFacts ScreenModel ScreenSpec BitmapModel ColourModel DisplaySpec BitmapSpec BitmapProofs TableModel TableSpec
  VideoModel VideoSpec VideoProofs VideoFacts VideoThms VideoDisplay PropVideo
  OpcodeModel MovieModel MovieSpec MovieProofs MovieState MovieThms MovieFinal FidelityProofs SmallEnc.
Opaque TABLES all_pairs next.

Lemma step_shape c s new s' : emit_step c s = Ok (More new s') -> exists op m1,
  encode_next c (s_movie s) (s_enc s) = Ok (Some op, m1, s_enc s') /\ m_video (s_movie s') = m_video m1 /\ (new = [op] \/ exists b, new = [op; Ack b]).
Proof.
  unfold emit_step. destruct (encode_next c (s_movie s) (s_enc s)) as [[[oop m1] e1]|] eqn:N; [|discriminate]. cbn [rbind].
  destruct oop as [op|]; [|discriminate]. destruct (negb (c_max_bytes c =? 0) && (c_max_bytes c <=? m_pos m1)); [discriminate|].
  destruct (2044 <=? _).
  - destruct (_ =? 0); [|discriminate]. cbn [assert_]. intros E. injection E as <- <-. exists op, m1. unfold emit_bytes, advance, flip_bank. cbn [s_enc s_movie m_video].
    split; [reflexivity|]. split; [destruct (c_mode c); reflexivity|]. right. eexists. reflexivity.
  - intros E. injection E as <- <-. exists op, m1. split; [reflexivity|]. split; [reflexivity|left; reflexivity].
Qed.

Section Small.
  Variables (c : config) (audio : list Z) (frames : list frame).
  Hypothesis HC : good_config c.
  Hypothesis HA : good_audio audio.
  Hypothesis HF : good_frames (c_mode c) frames.

  (** ** what one tick does *)
  Definition ticked (s : stream) (n : nat) (s' : stream) (t : bitmap) : Prop := exists v1 g1 ch g',
    e_target (s_enc s') = Some t /\ e_op_seq (s_enc s') = Some g' /\ e_last (s_enc s') = m_aux (s_movie s) /\
    next (c_table c) (c_draws c (m_ticks (s_movie s) + 1)) v1 g1 = Ok (ch, m_video (s_movie s'), g') /\
    ((shown_index c (S n) <> shown_index c n /\ v1 = reset_oow (m_video (s_movie s)) /\ g1 = GStart t (m_aux (s_movie s))) \/
     ((0 < n)%nat /\ shown_index c (S n) = shown_index c n /\ v1 = m_video (s_movie s) /\ e_target (s_enc s) = Some t /\
      ((m_aux (s_movie s) = e_last (s_enc s) /\ e_op_seq (s_enc s) = Some g1) \/
       (m_aux (s_movie s) <> e_last (s_enc s) /\ g1 = GStart t (m_aux (s_movie s)))))).

  Lemma tick_cases ops s n new s' : Inv c audio frames ops s n -> e_at (s_enc s) <> AtStart ->
    emit_step c s = Ok (More new s') ->
    exists f, nth_error frames (Z.to_nat (shown_index c (S n))) = Some f /\ ticked s n s' (frame_bitmap (c_mode c) f).
  Proof.
    intros I NS E. destruct (step_shape _ _ _ _ E) as (op & m1 & N & V & _). unfold ticked. rewrite V. clear V E.
    set (e1 := s_enc s') in *. clearbody e1. clear s'. pose proof HC as (HC1 & HC2 & HC3).
    unfold encode_next in N.
    assert (AT : e_at (s_enc s) = AfterHeader \/ e_at (s_enc s) = InLoop).
    { destruct (i_state _ _ _ _ _ _ I) as [(_ & A & _)|(_ & A & _)]; tauto. }
    set (last := match e_at (s_enc s) with AfterHeader => m_aux (s_movie s) | _ => e_last (s_enc s) end) in N.
    assert (LF : (0 < n)%nat -> last = e_last (s_enc s)).
    { intros P. unfold last. destruct (i_state _ _ _ _ _ _ I) as [(X & _)|(_ & A & _)]; [lia|]. rewrite A. reflexivity. }
    assert (N2 : exists au rest, e_audio (s_enc s) = au :: rest /\ tick_body c (s_movie s) {| e_at := InLoop; e_last := last; e_target := e_target (s_enc s);
       e_op_seq := e_op_seq (s_enc s); e_audio := rest; e_frames := e_frames (s_enc s) |} au = Ok (Some op, m1, e1)).
    { destruct (e_audio (s_enc s)) as [|au rest]; [destruct AT as [A|A]; rewrite A in N; discriminate|]. exists au, rest. split; [reflexivity|].
      destruct AT as [A|A]; rewrite A in N; exact N. }
    clear N. destruct N2 as (au & rest & _ & N). unfold tick_body in N. cbv zeta in N.
    assert (DU : due (c_clock c) (S n) = if c_clock c (m_ticks (s_movie s) + 1) (m_frame_number (s_movie s)) then due (c_clock c) n + 1 else due (c_clock c) n).
    { cbn [due]. rewrite (i_ticks _ _ _ _ _ _ I), (i_fn _ _ _ _ _ _ I). replace (Z.of_nat n + 1) with (Z.of_nat (S n)) by lia. reflexivity. }
    (* the end of the body, from the state after the frame handling *)
    assert (BODY : forall m2 e2 t, e_target e2 = Some t -> m_aux m2 = m_aux (s_movie s) ->
       (let! e3 := follow_bank m2 e2 in
        match e_op_seq e3 with None => Raise TypeError | Some g =>
          let! (change, v', g') := next (c_table c) (c_draws c (m_ticks (s_movie s) + 1)) (m_video m2) g in
          let '(page, content, offsets) := change in
          let! op := tick_opcode (au * 2 + 34) page content offsets in
          Ok (Some op, {| m_pos := m_pos m2; m_ticks := m_ticks m2; m_aux := m_aux m2; m_frame_number := m_frame_number m2; m_video := v' |},
              {| e_at := InLoop; e_last := e_last e3; e_target := e_target e3; e_op_seq := Some g'; e_audio := e_audio e3; e_frames := e_frames e3 |}) end) = Ok (Some op, m1, e1) ->
       exists g1 ch g', e_target e1 = Some t /\ e_op_seq e1 = Some g' /\ e_last e1 = m_aux (s_movie s) /\
         next (c_table c) (c_draws c (m_ticks (s_movie s) + 1)) (m_video m2) g1 = Ok (ch, m_video m1, g') /\
         ((m_aux (s_movie s) = e_last e2 /\ e_op_seq e2 = Some g1) \/ (m_aux (s_movie s) <> e_last e2 /\ g1 = GStart t (m_aux (s_movie s))))).
    { intros m2 e2 t Q1 Q2 H.
      assert (FB : exists e3 g1, follow_bank m2 e2 = Ok e3 /\ e_target e3 = Some t /\ e_last e3 = m_aux (s_movie s) /\ (e_op_seq e3 = Some g1 \/ (e_op_seq e3 = None /\ g1 = GStart t true)) /\
         ((m_aux (s_movie s) = e_last e2 /\ e_op_seq e2 = e_op_seq e3) \/ (m_aux (s_movie s) <> e_last e2 /\ e_op_seq e3 = Some (GStart t (m_aux (s_movie s)))))).
      { unfold follow_bank. rewrite Q2. destruct (Bool.eqb (m_aux (s_movie s)) (e_last e2)) eqn:B.
        - apply Bool.eqb_prop in B. exists e2. destruct (e_op_seq e2) as [g1|] eqn:G; [exists g1|exists (GStart t true)]; auto 10.
        - rewrite Q1. eexists _, _. split; [reflexivity|]. cbn [e_target e_last e_op_seq]. split; [reflexivity|]. split; [reflexivity|]. split; [left; reflexivity|].
          right. split; [|reflexivity]. intros X. rewrite X, Bool.eqb_reflx in B. discriminate. }
      destruct FB as (e3 & g1 & F1 & F2 & F3 & F4 & F5). rewrite F1 in H. cbn [rbind] in H.
      destruct F4 as [F4|[F4 _]]; rewrite F4 in H; [|discriminate].
      destruct (next (c_table c) (c_draws c (m_ticks (s_movie s) + 1)) (m_video m2) g1) as [[[ch v'] g']|] eqn:NX; [|discriminate]. cbn [rbind] in H.
      destruct ch as [[page content] offsets]. destruct (tick_opcode (au * 2 + 34) page content offsets) as [op'|]; [|discriminate]. cbn [rbind] in H.
      injection H as _ <- <-. cbn [e_op_seq e_target e_last m_video]. exists g1, (page, content, offsets), g'.
      split; [exact F2|]. split; [reflexivity|]. split; [exact F3|]. split; [exact NX|].
      destruct F5 as [[F5 F6]|[F5 F6]]; [left|right]; split; [exact F5|congruence|exact F5|congruence]. }
    assert (OLD : (0 < n)%nat -> shown_index c (S n) = shown_index c n -> forall m2 e2, m_video m2 = m_video (s_movie s) -> m_aux m2 = m_aux (s_movie s) -> e_last e2 = last -> e_op_seq e2 = e_op_seq (s_enc s) -> e_target e2 = e_target (s_enc s) ->
       (let! e3 := follow_bank m2 e2 in
        match e_op_seq e3 with None => Raise TypeError | Some g =>
          let! (change, v', g') := next (c_table c) (c_draws c (m_ticks (s_movie s) + 1)) (m_video m2) g in
          let '(page, content, offsets) := change in
          let! op := tick_opcode (au * 2 + 34) page content offsets in
          Ok (Some op, {| m_pos := m_pos m2; m_ticks := m_ticks m2; m_aux := m_aux m2; m_frame_number := m_frame_number m2; m_video := v' |},
              {| e_at := InLoop; e_last := e_last e3; e_target := e_target e3; e_op_seq := Some g'; e_audio := e_audio e3; e_frames := e_frames e3 |}) end) = Ok (Some op, m1, e1) ->
       exists f, nth_error frames (Z.to_nat (shown_index c (S n))) = Some f /\ exists v1 g1 ch g',
         e_target e1 = Some (frame_bitmap (c_mode c) f) /\ e_op_seq e1 = Some g' /\ e_last e1 = m_aux (s_movie s) /\
         next (c_table c) (c_draws c (m_ticks (s_movie s) + 1)) v1 g1 = Ok (ch, m_video m1, g') /\
         ((shown_index c (S n) <> shown_index c n /\ v1 = reset_oow (m_video (s_movie s)) /\ g1 = GStart (frame_bitmap (c_mode c) f) (m_aux (s_movie s))) \/
         ((0 < n)%nat /\ shown_index c (S n) = shown_index c n /\ v1 = m_video (s_movie s) /\ e_target (s_enc s) = Some (frame_bitmap (c_mode c) f) /\
         ((m_aux (s_movie s) = e_last (s_enc s) /\ e_op_seq (s_enc s) = Some g1) \/ (m_aux (s_movie s) <> e_last (s_enc s) /\ g1 = GStart (frame_bitmap (c_mode c) f) (m_aux (s_movie s))))))).
    { intros P EI m2 e2 Q1 Q2 Q3 Q4 Q5 H.
      destruct (i_state _ _ _ _ _ _ I) as [(X & _)|(_ & _ & f & g & A1 & A2 & _)]; [lia|].
      rewrite A2 in Q5. destruct (BODY m2 e2 _ Q5 Q2 H) as (g1 & ch & g' & B1 & B2 & B3 & B4 & B5). rewrite Q1 in B4. rewrite Q3, Q4, (LF P) in B5.
      exists f. split; [rewrite EI; exact A1|]. exists (m_video (s_movie s)), g1, ch, g'. split; [exact B1|]. split; [exact B2|]. split; [exact B3|]. split; [exact B4|].
      right. auto. }
    destruct (c_clock c (m_ticks (s_movie s) + 1) (m_frame_number (s_movie s))) eqn:CK.
    - unfold new_frame in N. cbn [e_frames m_frame_number] in N.
      destruct (e_frames (s_enc s)) as [|f frs] eqn:FR; [discriminate|].
      destruct (c_every_n c =? 0); [discriminate|]. rewrite (i_fn _ _ _ _ _ _ I) in N.
      replace (due (c_clock c) n + 1 - 1) with (due (c_clock c) n) in N by lia.
      assert (SI : shown_index c (S n) = c_every_n c * (due (c_clock c) n / c_every_n c)).
      { unfold shown_index. rewrite DU. replace (due (c_clock c) n + 1 - 1) with (due (c_clock c) n) by lia. reflexivity. }
      destruct (Z.eqb_spec (due (c_clock c) n mod c_every_n c) 0) as [H0|H0].
      + cbn [rbind m_aux] in N.
        assert (SE : shown_index c (S n) = due (c_clock c) n) by (rewrite SI; apply index_exact; auto).
        match type of N with (let! e3 := follow_bank ?m2 ?e2 in _) = _ => destruct (BODY m2 e2 _ eq_refl eq_refl N) as (g1 & ch & g' & B1 & B2 & B3 & B4 & B5) end.
        cbn [e_last e_op_seq m_video] in B4, B5. exists f. split.
        { rewrite SE. pose proof (i_frames _ _ _ _ _ _ I) as IFR. rewrite FR in IFR. symmetry in IFR. apply (proj1 (skipn_cons _ _ _ _ IFR)). }
        exists (reset_oow (m_video (s_movie s))), g1, ch, g'. split; [exact B1|]. split; [exact B2|]. split; [exact B3|]. split; [exact B4|].
        left. split; [|split; [reflexivity|]].
        * pose proof (index_below c HC n) as IB. rewrite SE. clear - IB. lia.
        * destruct B5 as [[_ B5]|[_ B5]]; [injection B5 as <-; reflexivity|exact B5].
      + cbn [rbind] in N.
        assert (P : (0 < n)%nat). { destruct n; [|lia]. exfalso. apply H0. cbn [due]. apply Z.mod_0_l. lia. }
        assert (EI : shown_index c (S n) = shown_index c n).
        { rewrite SI. unfold shown_index. rewrite (index_step (due (c_clock c) n) (c_every_n c)); auto. apply due_pos; auto. }
        refine (OLD P EI _ _ _ _ _ _ _ N); reflexivity.
    - cbn [rbind] in N.
      assert (P : (0 < n)%nat). { destruct n; [|lia]. exfalso. rewrite (i_ticks _ _ _ _ _ _ I), (i_fn _ _ _ _ _ _ I) in CK. cbn [due] in CK. rewrite HC3 in CK; [discriminate|lia]. }
      assert (EI : shown_index c (S n) = shown_index c n) by (unfold shown_index; rewrite DU; reflexivity).
      refine (OLD P EI _ _ _ _ _ _ _ N); reflexivity.
  Qed.

  (** ** when the banks are changed *)
  Definition ticks_of (ops : list opcode) : nat := length (filter is_tick ops).
  Definition acks_of (ops : list opcode) : nat := length (filter is_ack ops).
  Lemma total_rest rest : Forall (fun op => is_tick op = true \/ is_ack op = true) rest ->
    total_size rest = 7 * Z.of_nat (ticks_of rest) + 4 * Z.of_nat (acks_of rest).
  Proof.
    induction 1 as [|op rest H _ IH]; [reflexivity|]. unfold ticks_of, acks_of in *. cbn [total_size fold_right filter]. fold (total_size rest). rewrite IH.
    destruct op; cbn [is_tick is_ack opcode_size] in *; try (destruct H; discriminate); cbn [length]; lia.
  Qed.
  Lemma inv_ticks ops s n : Inv c audio frames ops s n -> ticks_of ops = n.
  Proof. intros I. unfold ticks_of. rewrite <- duties_ticks, (i_duties _ _ _ _ _ _ I), map_length. apply firstn_length_le, (i_le _ _ _ _ _ _ I). Qed.
  Lemma inv_total ops s n : Inv c audio frames ops s n -> ops <> [] -> total_size ops = 7 * (Z.of_nat n + 1) + 4 * Z.of_nat (acks_of ops).
  Proof.
    intros I NE. pose proof (inv_ticks _ _ _ I) as T. destruct (fr_start _ _ _ (i_framed _ _ _ _ _ _ I)) as [[X _]|(_ & rest & -> & FA)]; [contradiction|].
    change (total_size (Header (c_mode c) :: rest)) with (7 + total_size rest). rewrite (total_rest rest FA).
    change (ticks_of (Header (c_mode c) :: rest)) with (ticks_of rest) in T. change (acks_of (Header (c_mode c) :: rest)) with (acks_of rest). lia.
  Qed.

  Definition paced (ops : list opcode) (n : nat) : Prop := exists j, 0 <= j <= 291 /\ Z.of_nat n + 1 = 292 * Z.of_nat (acks_of ops) + j.

  Lemma acks_snoc ops op : acks_of (ops ++ [op]) = (acks_of ops + (if is_ack op then 1 else 0))%nat.
  Proof. unfold acks_of. rewrite filter_app, app_length. cbn [filter]. destruct (is_ack op); reflexivity. Qed.

  Lemma paced_step ops s n new s' n' : Inv c audio frames ops s n -> (ops = [] \/ paced ops n) ->
    emit_step c s = Ok (More new s') -> Inv c audio frames (ops ++ new) s' n' -> (ops = [] -> n' = 0%nat) -> (ops <> [] -> n' = S n) ->
    paced (ops ++ new) n'.
  Proof.
    intros I P E I' N1 N2. destruct (step_shape _ _ _ _ E) as (op & m1 & N & _ & SH).
    pose proof (encode_next_shape _ _ _ _ _ _ N) as (_ & _ & FO & _). destruct (fat_size op FO) as [_ NA].
    assert (NE : ops ++ new <> []). { intros X. apply app_eq_nil in X. destruct X as [_ X]. destruct SH as [S|[b S]]; rewrite S in X; discriminate. }
    pose proof (inv_total _ _ _ I' NE) as T. destruct (fr_mod _ _ _ (i_framed _ _ _ _ _ _ I')) as (j' & J1 & J2). rewrite T in J2.
    assert (Q : exists j, 0 <= j <= 292 /\ Z.of_nat n' + 1 = 292 * Z.of_nat (acks_of ops) + j).
    { destruct ops as [|x ops']; [exists 1; rewrite (N1 eq_refl); split; [lia|reflexivity]|].
      destruct P as [P|(j & P1 & P2)]; [discriminate|]. exists (j + 1). rewrite (N2 ltac:(discriminate)). lia. }
    destruct Q as (j & Q1 & Q2). destruct SH as [S|[b S]]; rewrite S in *; clear S.
    - rewrite acks_snoc, NA in J2. unfold paced. rewrite acks_snoc, NA. rewrite Nat.add_0_r in *. exists j. split; [|exact Q2].
      rewrite Q2 in J2. replace (7 * (292 * Z.of_nat (acks_of ops) + j) + 4 * Z.of_nat (acks_of ops)) with (7 * j + Z.of_nat (acks_of ops) * 2048) in J2 by lia.
      rewrite Z.mod_add in J2 by lia. rewrite Z.mod_small in J2 by lia. lia.
    - replace (ops ++ [op; Ack b]) with ((ops ++ [op]) ++ [Ack b]) in * by (rewrite <- app_assoc; reflexivity).
      unfold paced. rewrite !acks_snoc, NA in *. cbn [is_ack] in *. rewrite Nat.add_0_r in *.
      rewrite Q2 in J2. replace (7 * (292 * Z.of_nat (acks_of ops) + j) + 4 * Z.of_nat (acks_of ops + 1)) with (7 * j + 4 + Z.of_nat (acks_of ops) * 2048) in J2 by lia.
      rewrite Z.mod_add in J2 by lia. destruct (Z.eq_dec j 292) as [->|NJ].
      + exists 0. split; [lia|]. lia.
      + exfalso. rewrite Z.mod_small in J2 by lia. lia.
  Qed.

  Lemma paced_run ops s : stream_run c (movie_new c audio frames) ops s -> exists n, Inv c audio frames ops s n /\ (ops = [] \/ paced ops n).
  Proof.
    intros H. induction H as [|ops s new s' H (n & I & P) E]; [exists 0%nat; split; [apply inv_new|auto]|].
    destruct (step_inv c audio frames HC HA HF ops s n I) as [(b & E' & _)|(new' & s'' & n' & E' & I' & _ & _ & ST & _)]; rewrite E in E'; [discriminate|].
    injection E' as <- <-. exists n'. split; [exact I'|]. right.
    apply (paced_step ops s n new s' n' I P E I').
    - intros X. destruct (fr_start _ _ _ (i_framed _ _ _ _ _ _ I)) as [[_ Y]|(_ & rest & Y & _)]; [|congruence].
      destruct ST as [[_ ->]|[Z0 _]]; [|contradiction]. destruct (i_state _ _ _ _ _ _ I) as [(W & _)|(_ & W & _)]; [exact W|congruence].
    - intros X. destruct (fr_start _ _ _ (i_framed _ _ _ _ _ _ I)) as [[Y _]|(Y & _)]; [contradiction|]. destruct ST as [[Z0 _]|[_ ->]]; [contradiction|reflexivity].
  Qed.

  (** the bank the next tick stores into *)
  Lemma bank_now ops s n : stream_run c (movie_new c audio frames) ops s -> Inv c audio frames ops s n -> ops <> [] -> c_mode c = DHGR ->
    m_aux (s_movie s) = Z.odd ((Z.of_nat n + 1) / 292).
  Proof.
    intros R I NE K. rewrite (fr_alt _ _ _ (i_framed _ _ _ _ _ _ I)), K. cbn [kind_eqb andb].
    destruct (paced_run ops s R) as (n' & I' & [P|(j & P1 & P2)]); [contradiction|].
    rewrite <- (inv_ticks _ _ _ I') in P2. rewrite <- (inv_ticks _ _ _ I).
    rewrite <- (Z.div_unique (Z.of_nat (ticks_of ops) + 1) 292 (Z.of_nat (acks_of ops)) j) by lia.
    unfold acks_of. set (m := length (filter is_ack ops)). clearbody m. clear. induction m as [|m IH]; [reflexivity|].
    rewrite Nat.odd_succ, <- Nat.negb_odd, IH, Nat2Z.inj_succ, Z.odd_succ, <- Z.negb_odd. reflexivity.
  Qed.

  (** ** following one frame from the tick it is first due *)
  Section Follow.
    Variable P : stream -> nat -> stream -> nat -> Prop.
    Hypothesis Pbase : forall ops s n new s', stream_run c (movie_new c audio frames) ops s -> Inv c audio frames ops s n -> e_at (s_enc s) <> AtStart ->
      emit_step c s = Ok (More new s') -> shown_index c (S n) <> shown_index c n -> P s n s' (S n).
    Hypothesis Pstep : forall s0 n0 ops s n new s', stream_run c (movie_new c audio frames) ops s -> Inv c audio frames ops s n -> e_at (s_enc s) <> AtStart ->
      emit_step c s = Ok (More new s') -> (n0 < n)%nat -> P s0 n0 s n -> shown_index c (S n) = shown_index c n -> shown_index c (S n) = shown_index c (S n0) -> P s0 n0 s' (S n).

    Lemma follow_frame ops s : stream_run c (movie_new c audio frames) ops s -> forall n0, (n0 < ticks_of ops)%nat ->
      shown_index c (S n0) <> shown_index c n0 -> shown_index c (ticks_of ops) = shown_index c (S n0) ->
      exists ops0 more s0, ops = ops0 ++ more /\ ops0 <> [] /\ ticks_of ops0 = n0 /\ stream_run c (movie_new c audio frames) ops0 s0 /\ P s0 n0 s (ticks_of ops).
    Proof.
      intros H. induction H as [|ops s new s' H IH E]; intros n0 L NW EQ; [inversion L|].
      destruct (run_inv c audio frames HC HA HF ops s H) as (n & I). pose proof (inv_ticks _ _ _ I) as T.
      destruct (step_inv c audio frames HC HA HF ops s n I) as [(b & E' & _)|(new' & s'' & n' & E' & I' & _ & _ & ST & _)]; rewrite E in E'; [discriminate|].
      injection E' as <- <-. pose proof (inv_ticks _ _ _ I') as T'. rewrite T' in *. rewrite T in IH.
      destruct ST as [[A ->]|[A ->]].
      { exfalso. destruct (i_state _ _ _ _ _ _ I) as [(X & _)|(_ & X & _)]; [lia|congruence]. }
      assert (NE : ops <> []). { intros X. destruct (fr_start _ _ _ (i_framed _ _ _ _ _ _ I)) as [[_ Y]|(_ & rest & Y & _)]; congruence. }
      destruct (Nat.eq_dec n0 n) as [->|ND].
      - exists ops, new, s. split; [reflexivity|]. split; [exact NE|]. split; [exact T|]. split; [exact H|]. exact (Pbase ops s n new s' H I A E NW).
      - assert (L' : (n0 < n)%nat) by lia.
        assert (EQ' : shown_index c n = shown_index c (S n0)).
        { pose proof (index_mono c HC (S n0) n ltac:(lia)). pose proof (index_mono c HC n (S n) ltac:(lia)). lia. }
        destruct (IH n0 L' NW EQ') as (ops0 & more & s0 & B1 & B2 & B3 & B4 & B5).
        exists ops0, (more ++ new), s0. split; [rewrite B1, app_assoc; reflexivity|]. split; [exact B2|]. split; [exact B3|]. split; [exact B4|].
        refine (Pstep s0 n0 ops s n new s' H I A E L' B5 _ EQ). congruence.
    Qed.
  End Follow.

  (** ** The stages, double hi-res *)
  Section Dhgr.
    Hypothesis HK : c_mode c = DHGR.
    Hypothesis BT : built DHGR (c_table c).

    (** [n0] ticks were over when the frame became due, [n] are now; [W] are the
        bytes that had to change *)
    Definition Stage (W : bool -> Z -> Z -> bool) (n0 : nat) (s : stream) (n : nat) (t : bitmap) : Prop := exists q v0 l g,
      e_op_seq (s_enc s) = Some g /\ e_last (s_enc s) = Z.odd (Z.of_nat n / 292) /\ encoder (c_table c) DHGR q v0 /\ good_target DHGR t /\
      frame_run (c_table c) v0 t (e_last (s_enc s)) l (m_video (s_movie s)) g /\
      let A := Z.odd ((Z.of_nat n0 + 1) / 292) in let k := Z.of_nat n / 292 - (Z.of_nat n0 + 1) / 292 in
      0 <= k /\ (1 <= k -> Z.of_nat (length l) = Z.of_nat n mod 292 + 1) /\
      (k = 0 -> forall b, within (wrong v0 t b) (W b)) /\
      (k = 1 -> within (wrong v0 t A) (spread W A) /\ within (wrong v0 t (negb A)) (W (negb A))) /\
      (k = 2 -> within (wrong v0 t A) (spread W A) /\ within (wrong v0 t (negb A)) none) /\
      (3 <= k -> forall b, within (wrong v0 t b) none).

    Definition few (W : bool -> Z -> Z -> bool) : Prop := 3 * (count_bytes (W true) + count_bytes (W false)) < 292.
    Definition Staged (s0 : stream) (n0 : nat) (s : stream) (n : nat) : Prop := forall t, e_target (s_enc s) = Some t ->
      tells (c_table c) t -> clean DHGR t -> few (wrong (m_video (s_movie s0)) t) -> Stage (wrong (m_video (s_movie s0)) t) n0 s n t.

    Lemma nonempty ops s n : Inv c audio frames ops s n -> e_at (s_enc s) <> AtStart -> ops <> [].
    Proof. intros I A X. destruct (fr_start _ _ _ (i_framed _ _ _ _ _ _ I)) as [[_ Y]|(_ & rest & Y & _)]; congruence. Qed.

    Lemma staged_base ops s n new s' : stream_run c (movie_new c audio frames) ops s -> Inv c audio frames ops s n -> e_at (s_enc s) <> AtStart ->
      emit_step c s = Ok (More new s') -> shown_index c (S n) <> shown_index c n -> Staged s n s' (S n).
    Proof.
      intros R I A E NW t T TL CL FW. destruct (tick_cases ops s n new s' I A E) as (f & F & v1 & g1 & ch & g' & T1 & T2 & T3 & T4 & T5).
      rewrite T1 in T. injection T as <-. destruct T5 as [(_ & V1 & G1)|(_ & X & _)]; [|contradiction].
      destruct (inv_shows _ _ _ _ _ _ I) as (q & mm & SH & _). rewrite HK in SH, T1, G1, TL, CL, FW |- *.
      exists q, v1, ([] ++ [ch]), g'. split; [exact T2|]. pose proof (bank_now ops s n R I (nonempty _ _ _ I A) HK) as BN. rewrite T3.
      split; [rewrite BN; f_equal; f_equal; lia|]. split; [rewrite V1; apply enc_reset, (shown_encoder _ _ _ _ _ SH)|].
      pose proof HF as HF'. rewrite HK in HF'. split; [apply (frames_target DHGR frames HF'); eapply nth_error_In; exact F|].
      split; [eapply fr_next; [constructor|rewrite <- G1; exact T4]|]. cbv zeta.
      replace (Z.of_nat (S n)) with (Z.of_nat n + 1) by lia. rewrite Z.sub_diag.
      split; [lia|]. split; [intros Y; lia|]. split; [intros _ b p o _; rewrite V1; exact (fun X => X)|]. split; [intros Y; lia|]. split; intros Y; lia.
    Qed.

    Lemma parity x y : y = x \/ y = x + 1 -> (Z.odd y = Z.odd x <-> y = x).
    Proof. intros [->| ->]; [tauto|]. rewrite Z.add_1_r, Z.odd_succ, <- Z.negb_odd. split; [destruct (Z.odd x); discriminate|lia]. Qed.
    Lemma next_tick (n : nat) : (Z.of_nat (S n) / 292 = Z.of_nat n / 292 /\ Z.of_nat (S n) mod 292 = Z.of_nat n mod 292 + 1) \/
      (Z.of_nat (S n) / 292 = Z.of_nat n / 292 + 1 /\ Z.of_nat (S n) mod 292 = 0 /\ Z.of_nat n mod 292 = 291).
    Proof. rewrite Nat2Z.inj_succ. set (z := Z.of_nat n). clearbody z. clear. unfold Z.succ. dlia. Qed.

    Lemma few_one (W : bool -> Z -> Z -> bool) A : few W -> 3 * count_bytes (W (negb A)) + 2 * count_bytes (W A) < 292 /\ count_bytes (W A) + 2 * count_bytes (W (negb A)) < 292.
    Proof.
      unfold few. assert (P : forall f, 0 <= count_bytes f) by (intros f; apply Nat2Z.is_nonneg). pose proof (P (W true)). pose proof (P (W false)). destruct A; cbn [negb]; lia.
    Qed.

    Lemma staged_step s0 n0 ops s n new s' : stream_run c (movie_new c audio frames) ops s -> Inv c audio frames ops s n -> e_at (s_enc s) <> AtStart ->
      emit_step c s = Ok (More new s') -> (n0 < n)%nat -> Staged s0 n0 s n -> shown_index c (S n) = shown_index c n -> shown_index c (S n) = shown_index c (S n0) -> Staged s0 n0 s' (S n).
    Proof.
      intros R I A E L ST EI _ t T TL CL FW. destruct (tick_cases ops s n new s' I A E) as (f & F & v1 & g1 & ch & g' & T1 & T2 & T3 & T4 & T5).
      rewrite T1 in T. injection T as <-. destruct T5 as [(X & _)|(_ & _ & V1 & T0 & T5)]; [contradiction|].
      specialize (ST _ T0 TL CL FW). set (W := wrong (m_video (s_movie s0)) (frame_bitmap (c_mode c) f)) in *. clearbody W.
      set (t := frame_bitmap (c_mode c) f) in *. clearbody t.
      destruct ST as (q & v0 & l & g & S1 & S2 & S3 & S4 & S5 & S6). cbv zeta in S6. destruct S6 as (K0 & K1 & K2 & K3 & K4 & K5).
      pose proof (bank_now ops s n R I (nonempty _ _ _ I A) HK) as BN. replace (Z.of_nat n + 1) with (Z.of_nat (S n)) in BN by lia.
      pose proof (next_tick n) as NT. unfold Stage. rewrite T3.
      set (A0 := Z.odd ((Z.of_nat n0 + 1) / 292)) in *.
      set (k := Z.of_nat n / 292 - (Z.of_nat n0 + 1) / 292) in *.
      assert (PAR : Z.of_nat (S n) / 292 = Z.of_nat n / 292 <-> m_aux (s_movie s) = e_last (s_enc s)).
      { rewrite BN, S2. symmetry. apply parity. destruct NT as [[-> _]|[-> _]]; auto. }
      destruct T5 as [[B1 B2]|[B1 B2]].
      - (* the same visit goes on *)
        destruct NT as [[N1 N2]|[N1 _]]; [|exfalso; apply PAR in B1; clear - B1 N1; lia]. rewrite S1 in B2. injection B2 as <-.
        exists q, v0, (l ++ [ch]), g'. split; [exact T2|]. split; [exact BN|]. split; [exact S3|]. split; [exact S4|].
        split; [rewrite B1; eapply fr_next; [exact S5|rewrite <- V1; exact T4]|]. cbv zeta. fold A0. rewrite N1. fold k.
        split; [exact K0|]. split; [|auto].
        intros Y. rewrite app_length, Nat2Z.inj_add, (K1 Y), N2. reflexivity.
      - (* the bank was changed *)
        destruct NT as [[N1 _]|(N1 & N2 & N3)]; [exfalso; apply B1, PAR, N1|].
        pose proof (enc_frame _ _ _ _ _ _ _ _ _ S3 S4 (or_introl eq_refl) S5) as EN.
        exists (q + 1), (m_video (s_movie s)), ([] ++ [ch]), g'. split; [exact T2|]. split; [exact BN|]. split; [exact EN|]. split; [exact S4|].
        split; [eapply fr_next; [constructor|rewrite <- B2, <- V1; exact T4]|]. cbv zeta. fold A0. rewrite N1, N2.
        replace (Z.of_nat n / 292 + 1 - (Z.of_nat n0 + 1) / 292) with (k + 1) by (unfold k; clear; lia).
        split; [clear - K0; lia|]. split; [intros _; reflexivity|].
        split; [intros Y; exfalso; clear - Y K0; lia|].
        assert (LEN : 1 <= k -> Z.of_nat (length l) = 292) by (intros Y; rewrite (K1 Y), N3; reflexivity).
        assert (BANK : e_last (s_enc s) = if Z.odd k then negb A0 else A0).
        { rewrite S2. replace (Z.of_nat n / 292) with (k + (Z.of_nat n0 + 1) / 292) by (unfold k; clear; lia). rewrite Z.odd_add. fold A0. destruct (Z.odd k), A0; reflexivity. }
        clear PAR S2 T4 V1 N1 N2 N3 B1 B2 K1.
        destruct (few_one W A0 FW) as [F1 F2].
        set (v := m_video (s_movie s)) in *. set (a := e_last (s_enc s)) in *. clearbody v a k. 
        pose proof (visit_wrong (c_table c) q v0 t a l v g BT S3 S4 S5 TL CL) as VW.
        pose proof (visit_done (c_table c) q v0 t a l v g BT S3 S4 S5 TL CL) as VD.
        pose proof (visit_other (c_table c) q v0 t a l v g BT S3 S4 S5) as VO.
        split; [|split].
        + intros Y. assert (k = 0) as -> by (clear - Y; lia). specialize (K2 eq_refl). cbn in BANK. subst a. split.
          * eapply within_trans; [exact VW|]. apply spread_within; apply K2.
          * eapply within_trans; [exact VO|]. apply K2.
        + intros Y. assert (k = 1) as -> by (clear - Y; lia). specialize (K3 eq_refl). destruct K3 as [K3 K3']. cbn in BANK. subst a. split.
          * pose proof VO as VO'. rewrite Bool.negb_involutive in VO'. eapply within_trans; [exact VO'|exact K3].
          * apply VD. rewrite (LEN ltac:(lia)). eapply Z.le_lt_trans; [|exact F1]. eapply Z.le_trans; [|apply count_second]. apply count_fewer.
            apply within_or; [exact K3'|]. rewrite Bool.negb_involutive. apply near_within, K3.
        + intros Y b. destruct (Z.eq_dec k 2) as [->|NK].
          * specialize (K4 eq_refl). destruct K4 as [K4 K4']. cbn in BANK. subst a. destruct (Bool.bool_dec b A0) as [->|NB].
            -- apply VD. rewrite (LEN ltac:(lia)). eapply Z.le_lt_trans; [|exact F2]. eapply Z.le_trans; [|apply count_spread]. apply count_fewer.
               intros p o Hin X. unfold spread in X. apply orb_true_iff in X. destruct X as [X|X]; [exact (K4 p o Hin X)|].
               apply (near_within A0 _ _ K4' p o Hin) in X. unfold near, moved, none in X. rewrite !andb_false_r in X. discriminate.
            -- replace b with (negb A0) by (clear - NB; destruct A0, b; try reflexivity; exfalso; apply NB; reflexivity). eapply within_trans; [exact VO|exact K4'].
          * assert (K5' : forall b, within (wrong v0 t b) none) by (apply K5; clear - Y NK; lia).
            destruct (Bool.bool_dec b a) as [->|NB].
            -- eapply within_trans; [exact VW|]. apply spread_none; apply K5'.
            -- replace b with (negb a) by (clear - NB; destruct a, b; try reflexivity; exfalso; apply NB; reflexivity). eapply within_trans; [exact VO|apply K5'].
    Qed.

    (** the encoder's map is the frame's *)
    Lemma small_dhgr ops s n0 f : stream_run c (movie_new c audio frames) ops s ->
      Z.of_nat n0 + 877 <= Z.of_nat (ticks_of ops) -> shown_index c (S n0) <> shown_index c n0 -> shown_index c (ticks_of ops) = shown_index c (S n0) ->
      nth_error frames (Z.to_nat (shown_index c (ticks_of ops))) = Some f ->
      let t := frame_bitmap DHGR f in tells (c_table c) t -> clean DHGR t ->
      exists ops0 more s0, ops = ops0 ++ more /\ ops0 <> [] /\ ticks_of ops0 = n0 /\ stream_run c (movie_new c audio frames) ops0 s0 /\
        (few (wrong (m_video (s_movie s0)) t) -> forall b p o, in_page p o -> bank_data (v_pix (m_video (s_movie s))) b p o = bank_data t b p o).
    Proof.
      intros R L NW EQ F t TL CL. destruct (run_inv c audio frames HC HA HF ops s R) as (n & I). pose proof (inv_ticks _ _ _ I) as T. rewrite T in *.
      destruct (follow_frame Staged staged_base staged_step ops s R n0 ltac:(rewrite T; lia) NW ltac:(rewrite T; exact EQ)) as (ops0 & more & s0 & B1 & B2 & B3 & B4 & B5).
      exists ops0, more, s0. split; [exact B1|]. split; [exact B2|]. split; [exact B3|]. split; [exact B4|]. intros FW b p o Hin.
      rewrite T in B5. assert (TG : e_target (s_enc s) = Some t).
      { destruct (i_state _ _ _ _ _ _ I) as [(X & _)|(_ & _ & f' & g & A1 & A2 & _)]; [lia|]. rewrite F in A1. injection A1 as <-. rewrite A2, HK. reflexivity. }
      destruct (B5 t TG TL CL FW) as (q & v0 & l & g & S1 & S2 & S3 & S4 & S5 & S6). cbv zeta in S6. destruct S6 as (K0 & _ & _ & _ & _ & K5).
      assert (K5' : forall b, within (wrong v0 t b) none).
      { apply K5. clear - L. set (x := Z.of_nat n) in *. set (y := Z.of_nat n0) in *. clearbody x y.
        assert (Z0 : (y + 1) / 292 + 3 <= x / 292); [|lia]. apply Z.div_le_lower_bound; [lia|]. pose proof (Z.mul_div_le (y + 1) 292 ltac:(lia)). lia. }
      assert (WN : within (wrong (m_video (s_movie s)) t b) none).
      { set (a := e_last (s_enc s)) in *. clearbody a. destruct (Bool.bool_dec b a) as [->|NB].
        - eapply within_trans; [exact (visit_wrong _ _ _ _ _ _ _ _ BT S3 S4 S5 TL CL)|]. apply spread_none; apply K5'.
        - replace b with (negb a) by (clear - NB; destruct a, b; try reflexivity; exfalso; apply NB; reflexivity).
          eapply within_trans; [exact (visit_other _ _ _ _ _ _ _ _ BT S3 S4 S5)|apply K5']. }
      destruct (wrong (m_video (s_movie s)) t b p o) eqn:WR; [specialize (WN p o Hin WR); discriminate|].
      unfold wrong in WR. apply negb_false_iff, Z.eqb_eq in WR. exact WR.
    Qed.
  End Dhgr.

  (** ** The stage, hi-res: one visit only *)
  Section Hgr.
    Hypothesis HK : c_mode c = HGR.
    Hypothesis BT : built HGR (c_table c).

    Definition Visit (s0 : stream) (n0 : nat) (s : stream) (n : nat) : Prop := forall t, e_target (s_enc s) = Some t -> exists q v0 l g,
      e_op_seq (s_enc s) = Some g /\ e_last (s_enc s) = false /\ encoder (c_table c) HGR q v0 /\ good_target HGR t /\
      frame_run (c_table c) v0 t false l (m_video (s_movie s)) g /\ v_pix v0 = v_pix (m_video (s_movie s0)) /\ length l = (n - n0)%nat.

    Lemma no_aux ops s n : Inv c audio frames ops s n -> m_aux (s_movie s) = false.
    Proof. intros I. pose proof (inv_bank c audio frames HF ops s n I) as B. rewrite HK in B. destruct B as [B|B]; [discriminate|exact B]. Qed.

    Lemma visit_base ops s n new s' : stream_run c (movie_new c audio frames) ops s -> Inv c audio frames ops s n -> e_at (s_enc s) <> AtStart ->
      emit_step c s = Ok (More new s') -> shown_index c (S n) <> shown_index c n -> Visit s n s' (S n).
    Proof.
      intros R I A E NW t T. destruct (tick_cases ops s n new s' I A E) as (f & F & v1 & g1 & ch & g' & T1 & T2 & T3 & T4 & T5).
      rewrite T1 in T. injection T as <-. destruct T5 as [(_ & V1 & G1)|(_ & X & _)]; [|contradiction].
      pose proof (no_aux _ _ _ I) as NA. rewrite NA in *.
      destruct (inv_shows _ _ _ _ _ _ I) as (q & mm & SH & _). rewrite HK in SH, T1, G1 |- *.
      exists q, v1, ([] ++ [ch]), g'. split; [exact T2|]. split; [exact T3|]. split; [rewrite V1; apply enc_reset, (shown_encoder _ _ _ _ _ SH)|].
      pose proof HF as HF'. rewrite HK in HF'. split; [apply (frames_target HGR frames HF'); eapply nth_error_In; exact F|].
      split; [eapply fr_next; [constructor|rewrite <- G1; exact T4]|]. split; [rewrite V1; reflexivity|]. cbn [app length]. lia.
    Qed.
    Lemma visit_step s0 n0 ops s n new s' : stream_run c (movie_new c audio frames) ops s -> Inv c audio frames ops s n -> e_at (s_enc s) <> AtStart ->
      emit_step c s = Ok (More new s') -> (n0 < n)%nat -> Visit s0 n0 s n -> shown_index c (S n) = shown_index c n -> shown_index c (S n) = shown_index c (S n0) -> Visit s0 n0 s' (S n).
    Proof.
      intros R I A E L ST EI _ t T. destruct (tick_cases ops s n new s' I A E) as (f & F & v1 & g1 & ch & g' & T1 & T2 & T3 & T4 & T5).
      rewrite T1 in T. injection T as <-. destruct T5 as [(X & _)|(_ & _ & V1 & T0 & T5)]; [contradiction|].
      destruct (ST _ T0) as (q & v0 & l & g & S1 & S2 & S3 & S4 & S5 & S6 & S7). pose proof (no_aux _ _ _ I) as NA. rewrite NA in *.
      destruct T5 as [[B1 B2]|[B1 B2]]; [|congruence]. rewrite S1 in B2. injection B2 as <-.
      exists q, v0, (l ++ [ch]), g'. split; [exact T2|]. split; [exact T3|]. split; [exact S3|]. split; [exact S4|].
      split; [eapply fr_next; [exact S5|rewrite <- V1; exact T4]|]. split; [exact S6|]. rewrite app_length, S7. cbn [length]. lia.
    Qed.

    Lemma small_hgr ops s n0 f : stream_run c (movie_new c audio frames) ops s ->
      (n0 < ticks_of ops)%nat -> shown_index c (S n0) <> shown_index c n0 -> shown_index c (ticks_of ops) = shown_index c (S n0) ->
      nth_error frames (Z.to_nat (shown_index c (ticks_of ops))) = Some f ->
      let t := frame_bitmap HGR f in
      exists ops0 more s0, ops = ops0 ++ more /\ ops0 <> [] /\ ticks_of ops0 = n0 /\ stream_run c (movie_new c audio frames) ops0 s0 /\
        (Z.of_nat n0 + 3 * count_bytes (wrong (m_video (s_movie s0)) t false) < Z.of_nat (ticks_of ops) ->
         exists q v0 l g, encoder (c_table c) HGR q v0 /\ good_target HGR t /\ frame_run (c_table c) v0 t false l (m_video (s_movie s)) g /\ is_pad g).
    Proof.
      intros R L NW EQ F t. destruct (run_inv c audio frames HC HA HF ops s R) as (n & I). pose proof (inv_ticks _ _ _ I) as T. rewrite T in *.
      destruct (follow_frame Visit visit_base visit_step ops s R n0 ltac:(rewrite T; exact L) NW ltac:(rewrite T; exact EQ)) as (ops0 & more & s0 & B1 & B2 & B3 & B4 & B5).
      exists ops0, more, s0. split; [exact B1|]. split; [exact B2|]. split; [exact B3|]. split; [exact B4|]. intros FW.
      rewrite T in B5. assert (TG : e_target (s_enc s) = Some t).
      { destruct (i_state _ _ _ _ _ _ I) as [(X & _)|(_ & _ & f' & g & A1 & A2 & _)]; [lia|]. rewrite F in A1. injection A1 as <-. rewrite A2, HK. reflexivity. }
      destruct (B5 t TG) as (q & v0 & l & g & S1 & S2 & S3 & S4 & S5 & S6 & S7). exists q, v0, l, g. split; [exact S3|]. split; [exact S4|]. split; [exact S5|].
      apply (idle_after (c_table c) HGR q v0 t false l _ g (built_u16 _ _ BT) S3 S4 (or_intror eq_refl) S5 _ (needs_hgr (c_table c) HGR q v0 t false l _ g (built_u16 _ _ BT) S3 S4 (or_intror eq_refl) S5 eq_refl BT)).
      pose proof (count_either (wrong v0 t false) (near3 (wrong v0 t false))) as C1. pose proof (count_near3 (wrong v0 t false)) as C2. rewrite S7.
      assert (C3 : count_bytes (wrong v0 t false) = count_bytes (wrong (m_video (s_movie s0)) t false)) by (unfold wrong; rewrite S6; reflexivity).
      rewrite C3 in *. rewrite Nat2Z.inj_sub by lia. lia.
    Qed.
  End Hgr.
End Small.

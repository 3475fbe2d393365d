(** Whole conversions. *)
From Verif Require Import Base BaseFacts ScreenModel ScreenSpec BitmapModel BitmapSpec VideoModel VideoSpec VideoProofs VideoFacts VideoThms
  VideoDisplay OpcodeModel MovieModel MovieSpec MovieProofs MovieState.
Opaque TABLES all_pairs next.

Lemma encode_next_pos c m e oop m' e' : encode_next c m e = Ok (oop, m', e') -> m_pos m' = m_pos m.
Proof.
  destruct oop as [op|]; [intros H; apply encode_next_shape in H; apply H|].
  assert (T : forall e au, tick_body c m e au = Ok (None, m', e') -> m_pos m' = m_pos m).
  { intros e0 au. unfold tick_body. cbn zeta.
    set (r := if c_clock c (m_ticks m + 1) (m_frame_number m) then _ else _). clearbody r.
    destruct r as [[[m2 e2]|]|]; [|cbn [rbind]; intros E; injection E as <- <-; reflexivity|discriminate]. cbn [rbind].
    destruct (follow_bank m2 e2) as [e3|]; [|discriminate]. cbn [rbind]. destruct (e_op_seq e3) as [g|]; [|discriminate].
    destruct (next (c_table c) (c_draws c (m_ticks m + 1)) (m_video m2) g) as [[[[[page ct] o] v'] g']|]; [|discriminate].
    cbn [rbind]. destruct (tick_opcode (au * 2 + 34) page ct o); [|discriminate]. cbn [rbind]. discriminate. }
  unfold encode_next. destruct (e_at e).
  - discriminate.
  - destruct (e_audio e); [|apply T]. intros E. injection E as <- <-. reflexivity.
  - destruct (e_audio e); [|apply T]. intros E. injection E as <- <-. reflexivity.
  - intros E. injection E as <- <-. reflexivity.
Qed.

(** the finished output *)
Definition padding (ops : list opcode) : list Z := repeat 0 (Z.to_nat (2048 - (total_size ops + 2) mod 2048)).
Lemma finished_form c ops s bytes : Framed c ops s -> emit_step c s = Ok (Finished bytes) ->
  bytes = compiled c (ops ++ [Terminate]) ++ padding ops.
Proof.
  intros F E.
  assert (D : forall m1 e1, m_pos m1 = m_pos (s_movie s) ->
    done c {| s_out := s_out s; s_movie := m1; s_enc := e1 |} = compiled c (ops ++ [Terminate]) ++ padding ops).
  { intros m1 e1 P. unfold done, emit_bytes, advance, padding. cbn [s_out s_movie m_pos]. rewrite P, (fr_pos _ _ _ F), (fr_out _ _ _ F).
    unfold compiled. rewrite flat_map_app. cbn [flat_map]. rewrite app_nil_r. reflexivity. }
  unfold emit_step in E. destruct (encode_next c (s_movie s) (s_enc s)) as [[[oop m1] e1]|] eqn:N; [|discriminate]. cbn [rbind] in E.
  apply encode_next_pos in N. destruct oop as [op|].
  - destruct (negb (c_max_bytes c =? 0) && (c_max_bytes c <=? m_pos m1)).
    + injection E as <-. apply D, N.
    + destruct (2044 <=? _); [|discriminate]. destruct (_ =? 0); discriminate.
  - injection E as <-. apply D, N.
Qed.

Lemma finished_length c ops s : Framed c ops s ->
  Z.of_nat (length (compiled c (ops ++ [Terminate]) ++ padding ops)) = 2048 * (total_size ops / 2048 + 1).
Proof.
  intros F. unfold compiled, padding. rewrite flat_map_app. rewrite <- (fr_out _ _ _ F : _ = flat_map _ ops).
  cbn [flat_map]. rewrite app_nil_r, !app_length, repeat_length, !Nat2Z.inj_add, (fr_len _ _ _ F).
  rewrite (size_emit _ Terminate I : Z.of_nat (length (machine_emit _ Terminate)) = 2).
  destruct (fr_mod _ _ _ F) as (j & J1 & J2). pose proof (fr_nonneg _ _ _ F) as P. clear F.
  set (n := total_size ops) in *. clearbody n. rewrite Z2Nat.id by dlia. dlia.
Qed.

Lemma emit_stream_run c audio frames fuel : forall ops s bytes,
  stream_run c (movie_new c audio frames) ops s -> emit_stream fuel c s = Ok bytes ->
  exists ops' s', stream_run c (movie_new c audio frames) ops' s' /\ emit_step c s' = Ok (Finished bytes).
Proof.
  induction fuel as [|fuel IH]; intros ops s bytes R E; [discriminate|]. cbn [emit_stream] in E.
  destruct (emit_step c s) as [[new s'|b]|] eqn:S; [| |discriminate]; cbn [rbind] in E.
  - eapply IH; [|exact E]. eapply run_more; eauto.
  - injection E as <-. exists ops, s. auto.
Qed.
Lemma transcode_run c audio frames bytes : transcode c audio frames = Ok bytes ->
  exists ops s, stream_run c (movie_new c audio frames) ops s /\ emit_step c s = Ok (Finished bytes).
Proof. intros H. eapply emit_stream_run; [constructor|exact H]. Qed.

Section Conversion.
  Variables (c : config) (audio : list Z) (frames : list frame).
  Hypothesis HC : good_config c.
  Hypothesis HA : good_audio audio.
  Hypothesis HF : good_frames (c_mode c) frames.
  Notation Inv := (Inv c audio frames).

  (** why the loop ends *)
  Definition stops (ops : list opcode) (n : nat) : Prop :=
    (c_max_bytes c <> 0 /\ c_max_bytes c <= total_size ops) \/
    n = length audio \/
    ((n < length audio)%nat /\ Z.of_nat (length frames) < due (c_clock c) (S n)).

  Definition remaining (s : stream) (n : nat) : nat :=
    ((length audio - n) + match e_at (s_enc s) with AtStart => 1 | _ => 0 end)%nat.

  (** the common tail of an iteration that compiles [op] *)
  Lemma compile_step ops s n n' op m1 e1 :
    Inv ops s n -> encode_next c (s_movie s) (s_enc s) = Ok (Some op, m1, e1) ->
    (n' <= length audio)%nat -> m_ticks m1 = Z.of_nat n' -> duties (ops ++ [op]) = map (fun au => 2 * au + 34) (firstn n' audio) ->
    e_audio e1 = skipn n' audio -> m_frame_number m1 = due (c_clock c) n' ->
    0 <= due (c_clock c) n' <= Z.of_nat (length frames) -> e_frames e1 = skipn (Z.to_nat (due (c_clock c) n')) frames ->
    (n' = 0%nat /\ (e_at e1 = AtStart \/ e_at e1 = AfterHeader) /\
        m_video m1 = video_new (c_mode c) /\ e_target e1 = None /\ e_op_seq e1 = None /\
        forall b, d_mem (play (ops ++ [op])) b = d_mem blank b) \/
      ((0 < n')%nat /\ e_at e1 = InLoop /\ exists f g,
        nth_error frames (Z.to_nat (shown_index c n')) = Some f /\
        e_target e1 = Some (frame_bitmap (c_mode c) f) /\ e_op_seq e1 = Some g /\
        Ready (c_table c) (c_mode c) (play (ops ++ [op])) (m_video m1) (frame_bitmap (c_mode c) f) (e_last e1) g) ->
    (exists bytes, emit_step c s = Ok (Finished bytes) /\ c_max_bytes c <> 0 /\ c_max_bytes c <= total_size ops) \/
    (exists new s', emit_step c s = Ok (More new s') /\ Inv (ops ++ new) s' n' /\ s_enc s' = e1 /\
       (new = [op] \/ exists a, new = [op; Ack a]) /\ m_video (s_movie s') = m_video m1 /\
       (c_max_bytes c <> 0 -> total_size ops < c_max_bytes c)).
  Proof.
    intros I N H1 H2 H3 H4 H5 H6 H7 H8.
    assert (P : m_pos m1 = total_size ops). { apply encode_next_pos in N. rewrite N. apply (fr_pos _ _ _ (i_framed _ _ _ _ _ _ I)). }
    assert (S : emit_step c s = emit_step c s) by reflexivity. unfold emit_step in S at 2. rewrite N in S. cbn [rbind] in S.
    rewrite P in S.
    destruct (negb (c_max_bytes c =? 0) && (c_max_bytes c <=? total_size ops)) eqn:LIM.
    { left. eexists. split; [exact S|]. apply andb_true_iff in LIM. destruct LIM as [L1 L2].
      apply negb_true_iff, Z.eqb_neq in L1. apply Z.leb_le in L2. auto. }
    assert (LIM' : c_max_bytes c <> 0 -> total_size ops < c_max_bytes c).
    { intros X. apply andb_false_iff in LIM. destruct LIM as [L|L]; [apply negb_false_iff, Z.eqb_eq in L; contradiction|apply Z.leb_gt in L; exact L]. }
    clear LIM. right.
    set (s2 := emit_bytes c {| s_out := s_out s; s_movie := m1; s_enc := e1 |} op) in *.
    destruct (2044 <=? m_pos (s_movie s2) mod 2048) eqn:L.
    - set (m3 := flip_bank c (s_movie s2)) in *. set (s3 := emit_bytes c _ (Ack (m_aux m3))) in *.
      assert (V3 : m_ticks (s_movie s3) = m_ticks m1 /\ m_frame_number (s_movie s3) = m_frame_number m1 /\
                   m_video (s_movie s3) = m_video m1 /\ s_enc s3 = e1).
      { unfold s3, emit_bytes, advance, m3, flip_bank, s2. destruct (c_mode c); cbn; auto. }
      destruct V3 as (V1 & V2 & V3 & V4).
      assert (PM : forall b, d_mem (play (ops ++ [op; Ack (m_aux m3)])) b = d_mem (play (ops ++ [op])) b).
      { intros b. replace (ops ++ [op; Ack (m_aux m3)]) with ((ops ++ [op]) ++ [Ack (m_aux m3)]) by (rewrite <- app_assoc; reflexivity).
        unfold play. rewrite (fold_left_app _ (ops ++ [op])). reflexivity. }
      assert (DM : duties (ops ++ [op; Ack (m_aux m3)]) = duties (ops ++ [op])).
      { unfold duties. rewrite !flat_map_app. cbn [flat_map]. rewrite ?app_nil_r. reflexivity. }
      assert (A0 : m_pos (s_movie s3) mod 2048 =? 0 = true).
      { apply Z.eqb_eq. pose proof N as N'. apply encode_next_shape in N'. destruct N' as (_ & _ & FO & _).
        destruct (fr_mod _ _ _ (i_framed _ _ _ _ _ _ I)) as (j & J1 & J2).
        assert (P2 : m_pos (s_movie s2) = total_size ops + 7).
        { unfold s2, emit_bytes, advance. cbn [s_movie m_pos]. rewrite P, (fat_len _ _ FO). reflexivity. }
        assert (P3 : m_pos (s_movie s3) = total_size ops + 11).
        { unfold s3, emit_bytes, advance. cbn [s_movie m_pos]. replace (m_pos m3) with (m_pos (s_movie s2)) by (unfold m3, flip_bank; destruct (c_mode c); reflexivity).
          rewrite P2. cbn [machine_emit emit_command emit_data app length]. clear; lia. }
        apply Z.leb_le in L. rewrite P2 in L. rewrite P3. clear - L J1 J2. set (x := total_size ops) in *. clearbody x. dlia. }
      rewrite A0 in S. cbn [assert_] in S.
      exists [op; Ack (m_aux m3)], s3. split; [exact S|]. split; [|split; [exact V4|split; [right; eauto|split; auto]]].
      constructor; rewrite ?DM, ?V1, ?V2, ?V4; auto.
      + eapply framed_step; [apply (i_framed _ _ _ _ _ _ I)|exact S].
      + destruct H8 as [(Q1 & Q2 & Q3 & Q4 & Q5 & Q6)|(Q1 & Q2 & f & g & Q3 & Q4 & Q5 & Q6)]; [left|right].
        * repeat split; auto. { rewrite V3. auto. } intros b. rewrite PM. apply Q6.
        * repeat split; auto. exists f, g. repeat split; auto. rewrite V3.
          destruct Q6 as (q & v0 & m0 & l & R1 & R2 & R3 & R4 & R5). exists q, v0, m0, l. repeat split; auto; try apply R2.
          intros b. rewrite PM. apply R5.
    - exists [op], s2. split; [exact S|]. split; [|split; [reflexivity|split; [left; reflexivity|split; [reflexivity|auto]]]].
      constructor; auto. eapply framed_step; [apply (i_framed _ _ _ _ _ _ I)|exact S].
  Qed.

  Lemma step_inv ops s n : Inv ops s n ->
    (exists bytes, emit_step c s = Ok (Finished bytes) /\ stops ops n) \/
    (exists new s' n', emit_step c s = Ok (More new s') /\ Inv (ops ++ new) s' n' /\ (remaining s' n' < remaining s n)%nat /\
       (c_max_bytes c <> 0 -> total_size ops < c_max_bytes c) /\
       ((e_at (s_enc s) = AtStart /\ n' = n) \/ (e_at (s_enc s) <> AtStart /\ n' = S n)) /\
       (forall t p ct o, In (Tick t p ct o) new -> exists au f v0 g0 g, t = 2 * au + 34 /\ nth_error audio n = Some au /\
          nth_error frames (Z.to_nat (shown_index c (S n))) = Some f /\
          good_change (p, ct, o) /\ Ready (c_table c) (c_mode c) (play ops) v0 (frame_bitmap (c_mode c) f) (d_bank (play ops)) g0 /\
          next (c_table c) (c_draws c (Z.of_nat (S n))) v0 g0 = Ok ((p, ct, o), m_video (s_movie s'), g))).
  Proof.
    intros I. destruct (e_at (s_enc s)) eqn:AT.
    - (* header *)
      assert (N0 : n = 0%nat). { destruct (i_state _ _ _ _ _ _ I) as [(A & _)|(_ & A & _)]; [auto|congruence]. } subst n.
      assert (E : encode_next c (s_movie s) (s_enc s) = Ok (Some (Header (c_mode c)), s_movie s,
          {| e_at := AfterHeader; e_last := e_last (s_enc s); e_target := e_target (s_enc s); e_op_seq := e_op_seq (s_enc s);
             e_audio := e_audio (s_enc s); e_frames := e_frames (s_enc s) |})) by (unfold encode_next; rewrite AT; reflexivity).
      destruct (compile_step ops s 0 0 _ _ _ I E) as [(b & B1 & B2 & B3)|(new & s' & S1 & S2 & S3 & S4 & _ & S5)]; auto.
      + apply (i_le _ _ _ _ _ _ I).
      + apply (i_ticks _ _ _ _ _ _ I).
      + unfold duties. rewrite flat_map_app. cbn [flat_map]. rewrite !app_nil_r. apply (i_duties _ _ _ _ _ _ I).
      + apply (i_audio _ _ _ _ _ _ I).
      + apply (i_fn _ _ _ _ _ _ I).
      + apply (i_due _ _ _ _ _ _ I).
      + apply (i_frames _ _ _ _ _ _ I).
      + left. destruct (i_state _ _ _ _ _ _ I) as [(_ & _ & A1 & A2 & A3 & A4)|(A & _)]; [|lia].
        cbn [e_at e_target e_op_seq]. repeat split; auto. intros b. unfold play. rewrite fold_left_app. apply A4.
      + left. exists b. split; [auto|]. left. auto.
      + right. exists new, s', 0%nat. split; [auto|]. split; [auto|]. split.
        { unfold remaining. rewrite S3, AT. cbn [e_at]. lia. } split; [auto|]. split; [left; auto|].
        intros t p ct o Hin. exfalso. destruct S4 as [-> |(a & ->)]; destruct Hin as [X|X]; try discriminate;
          [destruct X|destruct X as [X|[]]; discriminate].
    - destruct (draw c audio frames HC HA HF ops s n I) as [(D1 & m & e & D2 & D3)|[(D1 & D2 & m & e & D3 & D4)|D]]; [congruence| | |].
      + left. unfold emit_step. rewrite D2. cbn [rbind]. eexists. split; [reflexivity|]. right. left. exact D1.
      + left. unfold emit_step. rewrite D3. cbn [rbind]. eexists. split; [reflexivity|]. right. right. auto.
      + destruct D as (au & page & ct & o & m & e & f & g & D1 & D2 & D3 & D4 & D5 & D6 & D7 & D8 & D9 & D10 & D11 & D12 & D13 & D14 & D15).
        destruct (compile_step ops s n (S n) _ _ _ I D2) as [(b & B1 & B2 & B3)|(new & s' & S1 & S2 & S3 & S4 & SV & S5)]; auto.
        * apply nth_error_lt in D1. exact D1.
        * unfold duties. rewrite flat_map_app. cbn [flat_map]. fold (duties ops). rewrite (i_duties _ _ _ _ _ _ I), (firstn_snoc _ _ _ D1), map_app. reflexivity.
        * split; [apply due_nonneg|exact D4].
        * right. split; [lia|]. split; [exact D9|]. exists f, g. repeat split; auto. rewrite D13. exact D15.
        * left. exists b. split; [auto|]. left. auto.
        * right. exists new, s', (S n). split; [auto|]. split; [auto|].
          split. { unfold remaining. rewrite S3, D9, AT. apply nth_error_lt in D1. lia. }
          split; [auto|]. split; [right; split; [congruence|auto]|].
          intros t p ct' o' Hin. destruct D14 as (g0 & v0 & R & N).
          assert (EQ : Tick t p ct' o' = Tick (2 * au + 34) page ct o).
          { destruct S4 as [-> |(a & ->)]; destruct Hin as [X|X]; try congruence; [destruct X|destruct X as [X|[]]; discriminate]. }
          injection EQ as -> -> -> ->. exists au, f, v0, g0, g.
          rewrite <- (fr_bank _ _ _ (i_framed _ _ _ _ _ _ I)). rewrite SV. repeat split; auto; apply D3.
    - destruct (draw c audio frames HC HA HF ops s n I) as [(D1 & m & e & D2 & D3)|[(D1 & D2 & m & e & D3 & D4)|D]]; [congruence| | |].
      + left. unfold emit_step. rewrite D2. cbn [rbind]. eexists. split; [reflexivity|]. right. left. exact D1.
      + left. unfold emit_step. rewrite D3. cbn [rbind]. eexists. split; [reflexivity|]. right. right. auto.
      + destruct D as (au & page & ct & o & m & e & f & g & D1 & D2 & D3 & D4 & D5 & D6 & D7 & D8 & D9 & D10 & D11 & D12 & D13 & D14 & D15).
        destruct (compile_step ops s n (S n) _ _ _ I D2) as [(b & B1 & B2 & B3)|(new & s' & S1 & S2 & S3 & S4 & SV & S5)]; auto.
        * apply nth_error_lt in D1. exact D1.
        * unfold duties. rewrite flat_map_app. cbn [flat_map]. fold (duties ops). rewrite (i_duties _ _ _ _ _ _ I), (firstn_snoc _ _ _ D1), map_app. reflexivity.
        * split; [apply due_nonneg|exact D4].
        * right. split; [lia|]. split; [exact D9|]. exists f, g. repeat split; auto. rewrite D13. exact D15.
        * left. exists b. split; [auto|]. left. auto.
        * right. exists new, s', (S n). split; [auto|]. split; [auto|].
          split. { unfold remaining. rewrite S3, D9, AT. apply nth_error_lt in D1. lia. }
          split; [auto|]. split; [right; split; [congruence|auto]|].
          intros t p ct' o' Hin. destruct D14 as (g0 & v0 & R & N).
          assert (EQ : Tick t p ct' o' = Tick (2 * au + 34) page ct o).
          { destruct S4 as [-> |(a & ->)]; destruct Hin as [X|X]; try congruence; [destruct X|destruct X as [X|[]]; discriminate]. }
          injection EQ as -> -> -> ->. exists au, f, v0, g0, g.
          rewrite <- (fr_bank _ _ _ (i_framed _ _ _ _ _ _ I)). rewrite SV. repeat split; auto; apply D3.
    - exfalso. destruct (i_state _ _ _ _ _ _ I) as [(_ & [A|A] & _)|(_ & A & _)]; congruence.
  Qed.

  Lemma run_inv ops s : stream_run c (movie_new c audio frames) ops s -> exists n, Inv ops s n.
  Proof.
    intros H. induction H as [|ops s new s' H (n & IH) E]; [exists 0%nat; apply inv_new|].
    destruct (step_inv ops s n IH) as [(b & E' & _)|(new' & s'' & n' & E' & I & _)]; rewrite E in E'; [discriminate|].
    injection E' as <- <-. exists n'. exact I.
  Qed.

  Lemma emit_stream_ok fuel : forall ops s n, Inv ops s n -> (remaining s n < fuel)%nat -> exists bytes, emit_stream fuel c s = Ok bytes.
  Proof.
    induction fuel as [|fuel IH]; intros ops s n I L; [lia|]. cbn [emit_stream].
    destruct (step_inv ops s n I) as [(b & E & _)|(new & s' & n' & E & I' & R & _)]; rewrite E; cbn [rbind]; [eauto|].
    eapply IH; [exact I'|lia].
  Qed.
  Lemma transcode_ok : exists bytes, transcode c audio frames = Ok bytes.
  Proof. eapply emit_stream_ok; [apply inv_new|]. unfold remaining. cbn. lia. Qed.
End Conversion.

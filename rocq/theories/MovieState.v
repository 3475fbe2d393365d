(** The state of a conversion and the player's screen, step by step. *)
From Verif Require Import Base BaseFacts ScreenModel ScreenSpec BitmapModel BitmapSpec BitmapState VideoModel VideoSpec VideoProofs VideoFacts VideoThms
  VideoDisplay OpcodeModel MovieModel MovieSpec MovieProofs.
Opaque TABLES all_pairs next.

Lemma shown_encoder ed k n v m : shown ed k n v m -> encoder ed k n v.
Proof.
  intros H. induction H; [constructor|eapply enc_frame; eauto|apply enc_reset; auto].
Qed.

(** an ongoing encoding [g] of [t] into bank [a], and the player's memory *)
Definition Ready (ed : table) (k : kind) (d : display) (v : video) (t : bitmap) (a : bool) (g : gen) : Prop :=
  exists q v0 m0 l, shown ed k q v0 m0 /\ good_target k t /\ good_bank k a /\ frame_run ed v0 t a l v g /\
    forall b, d_mem d b = (if Bool.eqb b a then replay (m0 b) l else m0 b).
Definition Shows (ed : table) (k : kind) (d : display) (v : video) : Prop :=
  exists q m, shown ed k q v m /\ forall b, d_mem d b = m b.

Lemma ready_shows ed k d v t a g : Ready ed k d v t a g -> Shows ed k d v.
Proof.
  intros (q & v0 & m0 & l & S & T & B & F & M).
  exists (q + 1), (fun b => if Bool.eqb b a then replay (m0 b) l else m0 b). split; [|exact M].
  eapply sh_frame; eauto.
Qed.
Lemma shows_reset ed k d v : Shows ed k d v -> Shows ed k d (reset_oow v).
Proof. intros (q & m & S & M). exists q, m. split; [apply sh_reset; auto|auto]. Qed.
Lemma shows_start ed k d v t a : Shows ed k d v -> good_target k t -> good_bank k a -> Ready ed k d v t a (GStart t a).
Proof.
  intros (q & m & S & M) T B. exists q, v, m, []. repeat split; auto; try apply T; [constructor|].
  intros b. rewrite M. destruct (Bool.eqb b a); reflexivity.
Qed.
Definition good_change (c : change) : Prop :=
  let '(page, content, offsets) := c in
  32 <= page < 64 /\ 0 <= content < 256 /\ length offsets = 4%nat /\ Forall (fun o => 0 <= o < 256) offsets.
Lemma ready_next ed k d v t a g : u16_table k ed -> Ready ed k d v t a g -> d_bank d = a -> forall rnd,
  exists page content offsets v' g', next ed rnd v g = Ok ((page, content, offsets), v', g') /\
    good_change (page, content, offsets) /\
    forall tick, Ready ed k (play1 d (Tick tick page content offsets)) v' t a g'.
Proof.
  intros HE (q & v0 & m0 & l & S & T & B & F & M) D rnd.
  pose proof (shown_encoder _ _ _ _ _ S) as HV.
  destruct (never_raises ed k q v0 t a l v g HE HV T B F rnd) as ([[page content] offsets] & v' & g' & E).
  exists page, content, offsets, v', g'. split; [exact E|].
  pose proof (fr_next _ _ _ _ _ _ _ _ _ _ _ F E) as F'.
  pose proof (proj1 (Forall_forall _ _) (all_well_formed ed k q v0 t a _ v' g' HE HV T B F') (page, content, offsets)
    ltac:(apply in_or_app; right; left; reflexivity)) as (W1 & W2 & W3 & W4).
  split.
  - split; [exact W1|]. assert (W3' : Forall (fun o => 0 <= o < 256) offsets).
    { eapply Forall_impl; [|exact W3]. intros o Ho. apply Ho. }
    split; [|auto]. rewrite W4.
    assert (Hn : In (nth 0 offsets 0) offsets) by (apply nth_In; rewrite W2; lia).
    apply (proj1 (Forall_forall _ _) W3') in Hn.
    apply (bank_byte t a (page - 32)); [apply T|]. split; [clear - W1; lia|exact Hn].
  - intros tick. exists q, v0, m0, (l ++ [(page, content, offsets)]). repeat split; auto; try apply T.
    intros b. cbn [play1 d_mem]. rewrite D. destruct (Bool.eqb b a) eqn:Eb; [|rewrite M, Eb; reflexivity].
    unfold replay. rewrite fold_left_app. cbn [fold_left]. rewrite M, Eb. reflexivity.
Qed.

Lemma skipn_all_iff_len {A} (l : list A) j : skipn j l = [] -> (length l <= j)%nat.
Proof. intros H. pose proof (skipn_length j l) as E. rewrite H in E. cbn in E. lia. Qed.

(** ** Invariant of the conversion *)
Section Conversion.
  Variables (c : config) (audio : list Z) (frames : list frame).
  Let k := c_mode c.
  Hypothesis HC : good_config c.
  Hypothesis HA : good_audio audio.
  Hypothesis HF : good_frames k frames.

  Definition shown_index (n : nat) : Z := c_every_n c * ((due (c_clock c) n - 1) / c_every_n c).
  Record Inv (ops : list opcode) (s : stream) (n : nat) : Prop := {
    i_framed : Framed c ops s;
    i_le : (n <= length audio)%nat;
    i_ticks : m_ticks (s_movie s) = Z.of_nat n;
    i_duties : duties ops = map (fun au => 2 * au + 34) (firstn n audio);
    i_audio : e_audio (s_enc s) = skipn n audio;
    i_fn : m_frame_number (s_movie s) = due (c_clock c) n;
    i_due : 0 <= due (c_clock c) n <= Z.of_nat (length frames);
    i_frames : e_frames (s_enc s) = skipn (Z.to_nat (due (c_clock c) n)) frames;
    i_state :
      (n = 0%nat /\ (e_at (s_enc s) = AtStart \/ e_at (s_enc s) = AfterHeader) /\
        m_video (s_movie s) = video_new k /\ e_target (s_enc s) = None /\ e_op_seq (s_enc s) = None /\
        forall b, d_mem (play ops) b = d_mem blank b) \/
      ((0 < n)%nat /\ e_at (s_enc s) = InLoop /\ exists f g,
        nth_error frames (Z.to_nat (shown_index n)) = Some f /\
        e_target (s_enc s) = Some (frame_bitmap k f) /\ e_op_seq (s_enc s) = Some g /\
        Ready (c_table c) k (play ops) (m_video (s_movie s)) (frame_bitmap k f) (e_last (s_enc s)) g)
  }.

  Lemma inv_new : Inv [] (movie_new c audio frames) 0.
  Proof.
    constructor; try reflexivity; try (cbn; lia).
    - apply framed_new.
    - left. repeat split; auto.
  Qed.

  Lemma inv_shows ops s n : Inv ops s n -> Shows (c_table c) k (play ops) (m_video (s_movie s)).
  Proof.
    intros I. destruct (i_state _ _ _ I) as [(_ & _ & V & _ & _ & M)|(_ & _ & f & g & _ & _ & _ & R)].
    - exists 0, (d_mem blank). rewrite V. split; [constructor|exact M].
    - eapply ready_shows; eauto.
  Qed.
  Lemma inv_bank ops s n : Inv ops s n -> good_bank k (m_aux (s_movie s)).
  Proof.
    intros I. rewrite (fr_alt _ _ _ (i_framed _ _ _ I)). fold k. unfold good_bank.
    destruct k; [right; reflexivity|left; reflexivity].
  Qed.

  Lemma due_nonneg n : 0 <= due (c_clock c) n.
  Proof. induction n as [|n IH]; cbn [due]; [lia|]. destruct (c_clock c (Z.of_nat (S n)) (due (c_clock c) n)); lia. Qed.
  Lemma due_pos n : (0 < n)%nat -> 0 < due (c_clock c) n.
  Proof.
    destruct HC as (_ & _ & H0). induction n as [|n IH]; [lia|]. intros _. cbn [due].
    destruct n as [|n]; [cbn [due]; rewrite (H0 (Z.of_nat 1)) by lia; lia|].
    specialize (IH ltac:(lia)). destruct (c_clock c (Z.of_nat (S (S n))) (due (c_clock c) (S n))); lia.
  Qed.

  Lemma skipn_cons {A} (l : list A) j x r : skipn j l = x :: r -> nth_error l j = Some x /\ skipn (S j) l = r /\ (j < length l)%nat.
  Proof.
    revert l. induction j as [|j IH]; intros [|y l]; cbn [skipn nth_error length]; intros H; try discriminate.
    - injection H as <- <-. repeat split; auto. lia.
    - destruct (IH l H) as (A1 & A2 & A3). repeat split; auto. lia.
  Qed.
  Lemma firstn_snoc {A} (l : list A) j x : nth_error l j = Some x -> firstn (S j) l = firstn j l ++ [x].
  Proof.
    revert l. induction j as [|j IH]; intros [|y l]; cbn; intros H; try discriminate.
    - injection H as <-. reflexivity.
    - f_equal. apply IH, H.
  Qed.

  (** after the frame and bank handling of one iteration the generator is one
      for the player's bank and the latest frame to be shown *)
  Definition Prepared (ops : list opcode) (n : nat) (m : movie) (e : enc) : Prop :=
    exists f g, nth_error frames (Z.to_nat (shown_index n)) = Some f /\
      e_target e = Some (frame_bitmap k f) /\ e_op_seq e = Some g /\ e_last e = m_aux m /\
      Ready (c_table c) k (play ops) (m_video m) (frame_bitmap k f) (m_aux m) g.

  Lemma follow ops n m e f g :
    nth_error frames (Z.to_nat (shown_index n)) = Some f -> e_target e = Some (frame_bitmap k f) ->
    good_bank k (m_aux m) -> e_op_seq e = Some g ->
    (Ready (c_table c) k (play ops) (m_video m) (frame_bitmap k f) (m_aux m) g \/
     Ready (c_table c) k (play ops) (m_video m) (frame_bitmap k f) (e_last e) g) ->
    exists e', follow_bank m e = Ok e' /\ e_audio e' = e_audio e /\ e_frames e' = e_frames e /\ Prepared ops n m e'.
  Proof.
    intros Hf Ht Hb Hg R. unfold follow_bank. destruct (Bool.eqb (m_aux m) (e_last e)) eqn:E.
    - apply Bool.eqb_prop in E. exists e. repeat split; auto. exists f, g. rewrite <- E in *.
      repeat split; auto. destruct R; auto.
    - rewrite Ht. eexists. split; [reflexivity|]. cbn [e_audio e_frames]. repeat split; auto.
      exists f, (GStart (frame_bitmap k f) (m_aux m)). cbn [e_target e_op_seq e_last]. repeat split; auto.
      apply shows_start; auto.
      + destruct R as [R|R]; eapply ready_shows; eauto.
      + apply (frames_target k frames HF). eapply nth_error_In; eauto.
  Qed.

  Lemma index_step d n : 1 <= n -> 0 < d -> d mod n <> 0 -> d / n = (d - 1) / n.
  Proof.
    intros Hn Hd Hm. pose proof (Z.div_mod d n ltac:(lia)) as E. pose proof (Z.mod_pos_bound d n ltac:(lia)) as B.
    apply (Z.div_unique (d - 1) n (d / n) (d mod n - 1)); lia.
  Qed.
  Lemma index_exact d n : 1 <= n -> d mod n = 0 -> n * (d / n) = d.
  Proof. intros Hn Hm. pose proof (Z.div_mod d n ltac:(lia)). lia. Qed.

  Lemma tick_opcode_ok au page content offsets : -15 <= au <= 16 -> good_change (page, content, offsets) ->
    tick_opcode (au * 2 + 34) page content offsets = Ok (Tick (2 * au + 34) page content offsets).
  Proof.
    intros Ha (Hp & _ & Ho & _). unfold tick_opcode.
    assert (T : existsb (Z.eqb (au * 2 + 34)) tick_values = true).
    { apply existsb_eqb. apply in_map_iff. exists (au + 15). split; [lia|]. apply in_zrange; lia. }
    assert (P : existsb (Z.eqb page) page_values = true).
    { apply existsb_eqb. unfold page_values, zrange2. apply in_zrange_from. lia. }
    rewrite T, P, Ho. replace (au * 2 + 34) with (2 * au + 34) by lia. reflexivity.
  Qed.

  (** the frame handling of one iteration *)
  Lemma frame_part ops s n last rest : Inv ops s n -> e_at (s_enc s) <> AtStart ->
    ((0 < n)%nat -> last = e_last (s_enc s)) ->
    let m := s_movie s in let e := s_enc s in
    let t := m_ticks m + 1 in
    let b := c_clock c t (m_frame_number m) in
    let m1 := {| m_pos := m_pos m; m_ticks := t; m_aux := m_aux m;
                 m_frame_number := if b then m_frame_number m + 1 else m_frame_number m; m_video := m_video m |} in
    let e1 := {| e_at := InLoop; e_last := last; e_target := e_target e; e_op_seq := e_op_seq e;
                 e_audio := rest; e_frames := e_frames e |} in
    (if b then new_frame c m1 e1 else Ok (Some (m1, e1))) = Ok None /\ Z.of_nat (length frames) < due (c_clock c) (S n) \/
    exists m2 e2 f g, (if b then new_frame c m1 e1 else Ok (Some (m1, e1))) = Ok (Some (m2, e2)) /\
      due (c_clock c) (S n) <= Z.of_nat (length frames) /\
      m_pos m2 = m_pos m /\ m_aux m2 = m_aux m /\ m_ticks m2 = Z.of_nat (S n) /\ m_frame_number m2 = due (c_clock c) (S n) /\
      e_audio e2 = rest /\ e_frames e2 = skipn (Z.to_nat (due (c_clock c) (S n))) frames /\
      nth_error frames (Z.to_nat (shown_index (S n))) = Some f /\
      e_target e2 = Some (frame_bitmap k f) /\ e_op_seq e2 = Some g /\
      (Ready (c_table c) k (play ops) (m_video m2) (frame_bitmap k f) (m_aux m2) g \/
       Ready (c_table c) k (play ops) (m_video m2) (frame_bitmap k f) (e_last e2) g).
  Proof.
    intros I HS HL m e t b m1 e1. pose proof HC as (HC1 & HC2 & HC3).
    assert (Et : t = Z.of_nat (S n)) by (unfold t, m; rewrite (i_ticks _ _ _ I); lia).
    assert (Eb : b = c_clock c (Z.of_nat (S n)) (due (c_clock c) n)) by (unfold b, m; rewrite Et, (i_fn _ _ _ I); reflexivity).
    assert (ED : due (c_clock c) (S n) = if b then due (c_clock c) n + 1 else due (c_clock c) n)
      by (cbn [due]; rewrite <- Eb; reflexivity).
    pose proof (i_due _ _ _ I) as DU. set (d := due (c_clock c) n) in *.
    (* what is known when the target is kept *)
    assert (KEEP : forall m' , m_video m' = m_video m -> m_aux m' = m_aux m -> (0 < n)%nat -> shown_index (S n) = shown_index n ->
       exists f g, nth_error frames (Z.to_nat (shown_index (S n))) = Some f /\
      e_target e = Some (frame_bitmap k f) /\ e_op_seq e = Some g /\
      (Ready (c_table c) k (play ops) (m_video m') (frame_bitmap k f) (m_aux m') g \/
       Ready (c_table c) k (play ops) (m_video m') (frame_bitmap k f) last g)).
    { intros m' Hv _ Hn EI. destruct (i_state _ _ _ I) as [(Z0 & _)|(_ & _ & f & g & S1 & S2 & S3 & S4)]; [lia|].
      exists f, g. rewrite EI. repeat split; auto. right. rewrite (HL Hn), Hv. exact S4. }
    destruct b.
    - unfold new_frame. cbn [e_frames e1]. unfold e. rewrite (i_frames _ _ _ I). fold d.
      destruct (skipn (Z.to_nat d) frames) as [|f frs] eqn:SK.
      + left. split; [reflexivity|]. apply skipn_all_iff_len in SK. rewrite ED. lia.
      + right. destruct (skipn_cons _ _ _ _ SK) as (F1 & F2 & F3).
        rewrite (proj2 (Z.eqb_neq (c_every_n c) 0)) by lia. cbn [m_frame_number m1]. unfold m. rewrite (i_fn _ _ _ I). fold d.
        replace (d + 1 - 1) with d by lia.
        assert (SK1 : skipn (Z.to_nat (due (c_clock c) (S n))) frames = frs).
        { rewrite ED. replace (Z.to_nat (d + 1)) with (S (Z.to_nat d)) by lia. exact F2. }
        assert (SI : shown_index (S n) = c_every_n c * (d / c_every_n c)).
        { unfold shown_index. rewrite ED. replace (d + 1 - 1) with d by lia. reflexivity. }
        destruct (Z.eqb_spec (d mod c_every_n c) 0) as [H0|H0].
        * eexists _, _, f, _. split; [reflexivity|]. cbn [m_pos m_ticks m_aux m_frame_number m_video e_audio e_frames e_target e_op_seq].
          rewrite SK1, SI, (index_exact d _ HC2 H0). repeat split; auto; try (rewrite ED; lia).
          left. apply shows_start.
          -- apply shows_reset. apply (inv_shows _ _ _ I).
          -- apply (frames_target k frames HF). eapply nth_error_In; eauto.
          -- apply (inv_bank _ _ _ I).
        * assert (Hn : (0 < n)%nat). { destruct n; [|lia]. exfalso. apply H0. unfold d. cbn [due]. apply Z.mod_0_l. lia. }
          pose proof (due_pos n Hn) as DP. fold d in DP.
          destruct (KEEP m1 eq_refl eq_refl Hn) as (f' & g' & K1 & K2 & K3 & K4).
          { rewrite SI. unfold shown_index. fold d. rewrite (index_step d (c_every_n c)) by auto. reflexivity. }
          eexists _, _, f', g'. split; [reflexivity|]. cbn [m_pos m_ticks m_aux m_frame_number m_video e_audio e_frames e_target e_op_seq m1 e1].
          rewrite SK1. repeat split; auto; try (rewrite ED; lia).
          rewrite ED. unfold m. rewrite (i_fn _ _ _ I). reflexivity.
    - right. assert (Hn : (0 < n)%nat).
      { destruct n; [|lia]. exfalso. symmetry in Eb. unfold d in Eb. cbn [due] in Eb. rewrite HC3 in Eb; [discriminate|lia]. }
      destruct (KEEP m1 eq_refl eq_refl Hn) as (f' & g' & K1 & K2 & K3 & K4).
      { unfold shown_index. rewrite ED. reflexivity. }
      eexists _, _, f', g'. split; [reflexivity|]. cbn [m_pos m_ticks m_aux m_frame_number m_video e_audio e_frames e_target e_op_seq m1 e1].
      rewrite ED. repeat split; auto; try lia.
      + apply (i_fn _ _ _ I).
      + apply (i_frames _ _ _ I).
  Qed.

  (** one draw from [encode] *)
  Lemma draw ops s n : Inv ops s n -> e_at (s_enc s) <> AtStart ->
    (n = length audio /\
       exists m e, encode_next c (s_movie s) (s_enc s) = Ok (None, m, e) /\ m_pos m = m_pos (s_movie s)) \/
    ((n < length audio)%nat /\ Z.of_nat (length frames) < due (c_clock c) (S n) /\
       exists m e, encode_next c (s_movie s) (s_enc s) = Ok (None, m, e) /\ m_pos m = m_pos (s_movie s)) \/
    (exists au page content offsets m e f g, nth_error audio n = Some au /\
       encode_next c (s_movie s) (s_enc s) = Ok (Some (Tick (2 * au + 34) page content offsets), m, e) /\
       good_change (page, content, offsets) /\
       due (c_clock c) (S n) <= Z.of_nat (length frames) /\
       m_ticks m = Z.of_nat (S n) /\ e_audio e = skipn (S n) audio /\
       m_frame_number m = due (c_clock c) (S n) /\ e_frames e = skipn (Z.to_nat (due (c_clock c) (S n))) frames /\
       e_at e = InLoop /\ nth_error frames (Z.to_nat (shown_index (S n))) = Some f /\
       e_target e = Some (frame_bitmap k f) /\ e_op_seq e = Some g /\ e_last e = m_aux (s_movie s) /\
       (exists g0 v0, Ready (c_table c) k (play ops) v0 (frame_bitmap k f) (m_aux (s_movie s)) g0 /\
          next (c_table c) (c_draws c (Z.of_nat (S n))) v0 g0 = Ok ((page, content, offsets), m_video m, g)) /\
       Ready (c_table c) k (play (ops ++ [Tick (2 * au + 34) page content offsets])) (m_video m) (frame_bitmap k f) (m_aux (s_movie s)) g).
  Proof.
    intros I HS. unfold encode_next.
    set (last := match e_at (s_enc s) with AfterHeader => m_aux (s_movie s) | _ => e_last (s_enc s) end).
    assert (HL : (0 < n)%nat -> last = e_last (s_enc s)).
    { intros Hn. unfold last. destruct (i_state _ _ _ I) as [(Z0 & _)|(_ & A & _)]; [lia|]. rewrite A. reflexivity. }
    assert (HE : e_at (s_enc s) = AfterHeader \/ e_at (s_enc s) = InLoop).
    { destruct (i_state _ _ _ I) as [(_ & A & _)|(_ & A & _)]; tauto. }
    assert (EQ : match e_at (s_enc s) with
      | AtStart => Ok (Some (Header (c_mode c)), s_movie s,
          {| e_at := AfterHeader; e_last := e_last (s_enc s); e_target := e_target (s_enc s); e_op_seq := e_op_seq (s_enc s);
             e_audio := e_audio (s_enc s); e_frames := e_frames (s_enc s) |})
      | AtEnd => Ok (None, s_movie s, s_enc s)
      | _ => match e_audio (s_enc s) with
             | [] => Ok (None, s_movie s, {| e_at := AtEnd; e_last := last; e_target := e_target (s_enc s); e_op_seq := e_op_seq (s_enc s);
                              e_audio := []; e_frames := e_frames (s_enc s) |})
             | au :: audio => tick_body c (s_movie s) {| e_at := InLoop; e_last := last; e_target := e_target (s_enc s);
                                e_op_seq := e_op_seq (s_enc s); e_audio := audio; e_frames := e_frames (s_enc s) |} au
             end
      end = match e_audio (s_enc s) with
             | [] => Ok (None, s_movie s, {| e_at := AtEnd; e_last := last; e_target := e_target (s_enc s); e_op_seq := e_op_seq (s_enc s);
                              e_audio := []; e_frames := e_frames (s_enc s) |})
             | au :: audio => tick_body c (s_movie s) {| e_at := InLoop; e_last := last; e_target := e_target (s_enc s);
                                e_op_seq := e_op_seq (s_enc s); e_audio := audio; e_frames := e_frames (s_enc s) |} au
             end).
    { destruct HE as [-> | ->]; reflexivity. }
    rewrite EQ. clear EQ. rewrite (i_audio _ _ _ I).
    destruct (skipn n audio) as [|au rest] eqn:SK.
    { left. apply skipn_all_iff_len in SK. split; [pose proof (i_le _ _ _ I); lia|]. eexists _, _. split; reflexivity. }
    right. destruct (skipn_cons _ _ _ _ SK) as (A1 & A2 & A3).
    unfold tick_body. cbn zeta.
    destruct (frame_part ops s n last rest I HS HL) as [[E DUE]|(m2 & e2 & f & g & E & DUE & P1 & P2 & P3 & P4 & P5 & P6 & P7 & P8 & P9 & P10)];
      cbn zeta in E; rewrite E; cbn [rbind].
    { left. split; [auto|]. split; [exact DUE|]. eexists _, _. split; reflexivity. }
    right. assert (HB : good_bank k (m_aux m2)) by (rewrite P2; apply (inv_bank _ _ _ I)).
    destruct (follow ops (S n) m2 e2 f g P7 P8 HB P9 P10) as (e3 & F1 & F2 & F3 & f3 & g3 & R1 & R2 & R3 & R4 & R5).
    rewrite F1. cbn [rbind]. rewrite R3.
    rewrite P7 in R1. injection R1 as <-.
    assert (DB : d_bank (play ops) = m_aux m2) by (rewrite P2; symmetry; apply (fr_bank _ _ _ (i_framed _ _ _ I))).
    destruct (ready_next _ _ _ _ _ _ _ (proj1 HC) R5 DB (c_draws c (Z.of_nat (S n)))) as (page & content & offsets & v' & g' & N & GC & RN).
    replace (m_ticks (s_movie s) + 1) with (Z.of_nat (S n)) by (rewrite (i_ticks _ _ _ I); lia). rewrite N. cbn [rbind].
    rewrite (tick_opcode_ok au page content offsets) by (auto; apply HA; eapply nth_error_In; eauto). cbn [rbind].
    exists au, page, content, offsets. eexists _, _, f, g'. split; [exact A1|]. split; [reflexivity|].
    cbn [m_ticks m_frame_number m_aux m_video e_audio e_frames e_at e_target e_op_seq e_last].
    rewrite <- P2. repeat split; auto; try (apply GC); try congruence.
    - exists g3, (m_video m2). split; auto.
    - unfold play. rewrite fold_left_app. cbn [fold_left]. apply RN.
  Qed.
End Conversion.

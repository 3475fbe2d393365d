(** Proofs about the emitted stream. *)
From Verif Require Import Base BaseFacts ScreenModel ScreenSpec BitmapModel BitmapSpec VideoModel VideoSpec VideoProofs VideoFacts VideoThms
  VideoDisplay OpcodeModel MovieModel MovieSpec.
Opaque TABLES all_pairs next.

(** ** Shapes *)
Definition fat (op : opcode) : Prop :=
  match op with Header _ => True | Tick t p _ o => In t tick_values /\ In p page_values /\ length o = 4%nat | _ => False end.

Lemma existsb_eqb x l : existsb (Z.eqb x) l = true <-> In x l.
Proof.
  rewrite existsb_exists. split.
  - intros (y & H & E). apply Z.eqb_eq in E. subst. auto.
  - intros H. exists x. split; auto. apply Z.eqb_refl.
Qed.
Lemma tick_opcode_fat t p ct o op : tick_opcode t p ct o = Ok op -> op = Tick t p ct o /\ fat op.
Proof.
  unfold tick_opcode. destruct (existsb (Z.eqb t) tick_values) eqn:A; [|discriminate].
  destruct (existsb (Z.eqb p) page_values) eqn:B; [|discriminate]. cbn [andb].
  destruct (Z.eqb_spec (Z.of_nat (length o)) 4); [|discriminate]. intros E. injection E as <-.
  split; [reflexivity|]. cbn. rewrite <- !existsb_eqb. repeat split; auto. lia.
Qed.
Lemma size_emit st op : (match op with Tick _ _ _ o => length o = 4%nat | _ => True end) ->
  Z.of_nat (length (machine_emit st op)) = opcode_size op.
Proof. destruct op; cbn; auto. intros ->. reflexivity. Qed.
Lemma fat_size op : fat op -> opcode_size op = 7 /\ is_ack op = false.
Proof. destruct op; cbn; tauto. Qed.
Lemma fat_len st op : fat op -> Z.of_nat (length (machine_emit st op)) = 7.
Proof. intros H. rewrite size_emit; [apply fat_size, H|]. destruct op; cbn in *; tauto. Qed.

(** what drawing one opcode leaves alone *)
Lemma tick_body_shape c m e au op m' e' : tick_body c m e au = Ok (Some op, m', e') ->
  m_pos m' = m_pos m /\ m_aux m' = m_aux m /\ fat op /\ is_tick op = true /\ e_at e' <> AtStart.
Proof.
  unfold tick_body. cbn zeta. set (m1 := Build_movie _ _ _ _ _).
  assert (H1 : m_pos m1 = m_pos m /\ m_aux m1 = m_aux m) by (split; reflexivity). clearbody m1.
  set (r := if c_clock c (m_ticks m + 1) (m_frame_number m) then new_frame c m1 e else Ok (Some (m1, e))).
  assert (H2 : forall m2 e2, r = Ok (Some (m2, e2)) -> m_pos m2 = m_pos m1 /\ m_aux m2 = m_aux m1).
  { intros m2 e2. unfold r. destruct (c_clock c (m_ticks m + 1) (m_frame_number m)).
    - unfold new_frame. destruct (e_frames e); [discriminate|]. destruct (c_every_n c =? 0); [discriminate|].
      destruct (_ =? 0); intros E; injection E as <- <-; auto.
    - intros E. injection E as <- <-. auto. }
  clearbody r. destruct r as [[[m2 e2]|]|]; [|discriminate|discriminate]. cbn [rbind].
  destruct (H2 m2 e2 eq_refl) as [P A].
  destruct (follow_bank m2 e2) as [e3|]; [|discriminate]. cbn [rbind].
  destruct (e_op_seq e3) as [g|]; [|discriminate].
  destruct (next (c_table c) (c_draws c (m_ticks m + 1)) (m_video m2) g) as [[[[[page ct] o] v'] g']|]; [|discriminate].
  cbn [rbind]. destruct (tick_opcode (au * 2 + 34) page ct o) as [op'|] eqn:T; [|discriminate]. cbn [rbind].
  intros E. injection E as <- <- <-. cbn [m_pos m_aux e_at]. apply tick_opcode_fat in T. destruct T as [-> F].
  destruct H1. repeat split; try congruence; try apply F.
Qed.
Lemma encode_next_shape c m e op m' e' : encode_next c m e = Ok (Some op, m', e') ->
  m_pos m' = m_pos m /\ m_aux m' = m_aux m /\ fat op /\
  (e_at e = AtStart -> op = Header (c_mode c)) /\ (e_at e <> AtStart -> is_tick op = true) /\ e_at e' <> AtStart.
Proof.
  unfold encode_next. destruct (e_at e) eqn:A.
  - intros E. injection E as <- <- <-. cbn. repeat split; auto; discriminate.
  - destruct (e_audio e); [discriminate|]. intros E. apply tick_body_shape in E. destruct E as (E1 & E2 & E3 & E4 & E5).
    repeat split; auto; discriminate.
  - destruct (e_audio e); [discriminate|]. intros E. apply tick_body_shape in E. destruct E as (E1 & E2 & E3 & E4 & E5).
    repeat split; auto; discriminate.
  - discriminate.
Qed.

(** ** Framing *)
Lemma total_app a b : total_size (a ++ b) = total_size a + total_size b.
Proof.
  induction a as [|x a IH]; [reflexivity|]. cbn [app].
  change (total_size (x :: a ++ b)) with (opcode_size x + total_size (a ++ b)).
  change (total_size (x :: a)) with (opcode_size x + total_size a). rewrite IH. apply Z.add_assoc.
Qed.
Definition compiled (c : config) (ops : list opcode) : list Z := flat_map (machine_emit (c_start c)) ops.

Record Framed (c : config) (ops : list opcode) (s : stream) : Prop := {
  fr_out : s_out s = compiled c ops;
  fr_pos : m_pos (s_movie s) = total_size ops;
  fr_len : Z.of_nat (length (s_out s)) = total_size ops;
  fr_nonneg : 0 <= total_size ops;
  fr_mod : exists j, 0 <= j <= 291 /\ total_size ops mod 2048 = 7 * j;
  fr_place : forall k op, nth_error ops k = Some op ->
    (is_ack op = true <-> position ops k mod 2048 = 2044) /\
    0 <= position ops k /\ position ops k / 2048 = (position ops k + opcode_size op - 1) / 2048;
  fr_acks : forall q, 0 <= q < total_size ops / 2048 ->
    exists k a, nth_error ops k = Some (Ack a) /\ position ops k = 2048 * q + 2044;
  fr_start : (ops = [] /\ e_at (s_enc s) = AtStart) \/
    (e_at (s_enc s) <> AtStart /\ exists rest, ops = Header (c_mode c) :: rest /\
       Forall (fun op => is_tick op = true \/ is_ack op = true) rest);
  fr_bank : m_aux (s_movie s) = d_bank (play ops);
  fr_alt : m_aux (s_movie s) = (kind_eqb (c_mode c) DHGR && Nat.odd (length (filter is_ack ops)))%bool;
  fr_altern : forall i op, nth_error (filter is_ack ops) i = Some op -> op = Ack (kind_eqb (c_mode c) DHGR && Nat.even i);
  fr_fat : Forall (fun op => fat op \/ is_ack op = true) ops
}.

Lemma nth_error_snoc {A} (l : list A) x k y : nth_error (l ++ [x]) k = Some y ->
  nth_error l k = Some y \/ (k = length l /\ y = x).
Proof.
  intros H. destruct (Nat.lt_ge_cases k (length l)) as [L|L].
  - rewrite nth_error_app1 in H by auto. auto.
  - rewrite nth_error_app2 in H by auto. right.
    destruct (k - length l)%nat eqn:E; [cbn in H; injection H as <-; split; [lia|auto]|]. destruct n; discriminate.
Qed.
Lemma position_app ops x k : (k <= length ops)%nat -> position (ops ++ x) k = position ops k.
Proof.
  intros H. unfold position. rewrite firstn_app. replace (k - length ops)%nat with 0%nat by lia.
  cbn [firstn]. rewrite app_nil_r. reflexivity.
Qed.
Lemma position_end ops : position ops (length ops) = total_size ops.
Proof. unfold position. rewrite firstn_all. reflexivity. Qed.
Lemma nth_error_lt {A} (l : list A) k x : nth_error l k = Some x -> (k < length l)%nat.
Proof. intros H. apply nth_error_Some. congruence. Qed.
Lemma place_snoc ops x :
  (forall k op, nth_error ops k = Some op ->
    (is_ack op = true <-> position ops k mod 2048 = 2044) /\
    0 <= position ops k /\ position ops k / 2048 = (position ops k + opcode_size op - 1) / 2048) ->
  (is_ack x = true <-> total_size ops mod 2048 = 2044) ->
  0 <= total_size ops -> total_size ops / 2048 = (total_size ops + opcode_size x - 1) / 2048 ->
  forall k op, nth_error (ops ++ [x]) k = Some op ->
    (is_ack op = true <-> position (ops ++ [x]) k mod 2048 = 2044) /\
    0 <= position (ops ++ [x]) k /\ position (ops ++ [x]) k / 2048 = (position (ops ++ [x]) k + opcode_size op - 1) / 2048.
Proof.
  intros H H1 H2 H3 k op E. apply nth_error_snoc in E. destruct E as [E|[-> ->]].
  - rewrite position_app by (apply nth_error_lt in E; lia). auto.
  - rewrite position_app by lia. rewrite position_end. auto.
Qed.
Lemma mid_frame t j : 0 <= j <= 291 -> t mod 2048 = 7 * j -> (t + 7) mod 2048 = 7 * j + 7 /\ (t + 7) / 2048 = t / 2048 /\
  t / 2048 = (t + 7 - 1) / 2048.
Proof. intros H E. dlia. Qed.

Lemma odd_even n : Nat.odd (S n) = Nat.even n.
Proof. rewrite Nat.odd_succ. reflexivity. Qed.
Lemma even_negb n : Nat.even n = negb (Nat.odd n).
Proof. unfold Nat.odd. rewrite negb_involutive. reflexivity. Qed.

Lemma framed_new c audio frames : Framed c [] (movie_new c audio frames).
Proof.
  constructor; cbn [movie_new s_out s_movie m_pos total_size fold_right length]; try reflexivity; try lia.
  - exists 0. split; [lia|reflexivity].
  - intros k op H. destruct k; discriminate.
  - left. auto.
  - cbn. rewrite andb_false_r. reflexivity.
  - intros i op H. destruct i; discriminate.
  - constructor.
Qed.

Lemma framed_step c ops s new s' : Framed c ops s -> emit_step c s = Ok (More new s') -> Framed c (ops ++ new) s'.
Proof.
  intros F E. unfold emit_step in E.
  destruct (encode_next c (s_movie s) (s_enc s)) as [[[oop m1] e1]|] eqn:N; [|discriminate]. cbn [rbind] in E.
  destruct oop as [op|]; [|discriminate].
  destruct (negb (c_max_bytes c =? 0) && (c_max_bytes c <=? m_pos m1)); [discriminate|].
  apply encode_next_shape in N. destruct N as (N1 & N2 & FO & N3 & N4 & N5).
  destruct F as [F1 F2 F3 F0 [j [F4 F5]] F6 F7 F8 F9 F10 F11 F12].
  destruct (fat_size op FO) as [SZ NA]. pose proof (fat_len (c_start c) op FO) as LN.
  destruct (mid_frame _ _ F4 F5) as (M1 & M2 & M3).
  set (s1 := {| s_out := s_out s; s_movie := m1; s_enc := e1 |}) in *.
  set (s2 := emit_bytes c s1 op) in *.
  assert (T1 : total_size (ops ++ [op]) = total_size ops + 7) by (rewrite total_app; change (total_size [op]) with (opcode_size op + 0); rewrite SZ; reflexivity).
  assert (P2 : m_pos (s_movie s2) = total_size ops + 7) by (unfold s2, emit_bytes, advance, s1; cbn; rewrite LN, N1, F2; reflexivity).
  assert (O2 : s_out s2 = compiled c (ops ++ [op])).
  { unfold s2, emit_bytes, s1, compiled. cbn [s_out]. rewrite flat_map_app, F1. cbn [flat_map]. rewrite app_nil_r. reflexivity. }
  assert (L2 : Z.of_nat (length (s_out s2)) = total_size ops + 7).
  { unfold s2, emit_bytes, s1. cbn [s_out]. rewrite app_length, Nat2Z.inj_add, LN, F3. reflexivity. }
  assert (PL : forall k x, nth_error (ops ++ [op]) k = Some x ->
    (is_ack x = true <-> position (ops ++ [op]) k mod 2048 = 2044) /\
    0 <= position (ops ++ [op]) k /\ position (ops ++ [op]) k / 2048 = (position (ops ++ [op]) k + opcode_size x - 1) / 2048).
  { apply place_snoc; auto; [rewrite NA|rewrite SZ; exact M3]. split; [discriminate|]. intros Q. exfalso. rewrite F5 in Q. clear - F4 Q. lia. }
  assert (ST : e_at (s_enc s2) <> AtStart /\ exists rest, ops ++ [op] = Header (c_mode c) :: rest /\
       Forall (fun op => is_tick op = true \/ is_ack op = true) rest).
  { split; [exact N5|]. destruct F8 as [[-> A]|[A (rest & -> & R)]].
    - exists []. rewrite (N3 A). auto.
    - exists (rest ++ [op]). split; [reflexivity|]. apply Forall_app. split; [exact R|]. constructor; auto. }
  assert (FF : Forall (fun op => fat op \/ is_ack op = true) (ops ++ [op])).
  { apply Forall_app. split; [exact F12|]. constructor; auto. }
  assert (FA : filter is_ack (ops ++ [op]) = filter is_ack ops) by (rewrite filter_app; cbn; rewrite NA, app_nil_r; reflexivity).
  assert (PB : d_bank (play (ops ++ [op])) = d_bank (play ops)).
  { unfold play. rewrite fold_left_app. cbn [fold_left]. destruct op; try reflexivity. discriminate NA. }
  assert (AU : m_aux (s_movie s2) = m_aux (s_movie s)) by exact N2.
  destruct (Z.leb_spec 2044 (m_pos (s_movie s2) mod 2048)) as [L|L].
  - (* the opcode was the last of its frame *)
    rewrite P2, M1 in L. assert (j = 291) by (clear - L F4; lia). subst j. change (7 * 291 + 7) with 2044 in M1.
    set (m3 := flip_bank c (s_movie s2)) in *. set (s3 := emit_bytes c _ (Ack (m_aux m3))) in *.
    destruct (m_pos (s_movie s3) mod 2048 =? 0); [|discriminate]. cbn [assert_] in E. injection E as <- <-.
    assert (M3' : m_pos m3 = total_size ops + 7) by (unfold m3, flip_bank; destruct (c_mode c); exact P2).
    assert (A3 : m_aux m3 = (kind_eqb (c_mode c) DHGR && Nat.even (length (filter is_ack ops)))%bool).
    { rewrite even_negb. unfold m3, flip_bank. destruct (c_mode c); cbn [m_aux kind_eqb andb] in *.
      - rewrite AU, F10. reflexivity.
      - rewrite AU, F10. reflexivity. }
    replace (ops ++ [op; Ack (m_aux m3)]) with ((ops ++ [op]) ++ [Ack (m_aux m3)]) by (rewrite <- app_assoc; reflexivity).
    assert (T2 : total_size ((ops ++ [op]) ++ [Ack (m_aux m3)]) = total_size ops + 11) by (rewrite total_app, T1; change (total_size [Ack (m_aux m3)]) with 4; clear; lia).
    assert (D11 : (total_size ops + 11) mod 2048 = 0 /\ (total_size ops + 11) / 2048 = total_size ops / 2048 + 1) by (clear - F5; dlia).
    assert (FA3 : filter is_ack ((ops ++ [op]) ++ [Ack (m_aux m3)]) = filter is_ack ops ++ [Ack (m_aux m3)])
      by (rewrite filter_app, FA; reflexivity).
    constructor; rewrite ?T2, ?FA3.
    + unfold s3, emit_bytes. cbn [s_out]. rewrite O2. unfold compiled. rewrite (flat_map_app _ (ops ++ [op])). cbn [flat_map].
      rewrite app_nil_r. reflexivity.
    + unfold s3, emit_bytes, advance. cbn [s_movie m_pos]. rewrite M3'. cbn [machine_emit emit_command emit_data app length]. clear; lia.
    + unfold s3, emit_bytes. cbn [s_out]. rewrite app_length, Nat2Z.inj_add, L2. cbn [machine_emit emit_command emit_data app length]. clear; lia.
    + clear - F0; lia.
    + exists 0. split; [clear; lia|]. apply D11.
    + apply place_snoc; auto; rewrite ?T1; cbn [is_ack opcode_size].
      * rewrite M1. tauto.
      * clear - F0; lia.
      * clear - F5 M1 M2. dlia.
    + intros q Hq. destruct D11 as [_ D11]. rewrite D11 in Hq.
      destruct (Z_lt_ge_dec q (total_size ops / 2048)) as [Hl|Hl].
      * destruct (F7 q (conj (proj1 Hq) Hl)) as (k & a & K1 & K2). exists k, a. pose proof (nth_error_lt _ _ _ K1).
        rewrite <- app_assoc. rewrite nth_error_app1 by auto. split; [auto|].
        rewrite position_app by (clear - H; lia). exact K2.
      * exists (length (ops ++ [op])), (m_aux m3). rewrite nth_error_app2 by apply Nat.le_refl. rewrite Nat.sub_diag. split; [reflexivity|].
        rewrite position_app by apply Nat.le_refl. rewrite position_end, T1. clear - Hq Hl M1 F5. assert (q = total_size ops / 2048) by lia. subst q. dlia.
    + right. destruct ST as [S1 (rest & S2 & S3)]. split; [exact S1|]. exists (rest ++ [Ack (m_aux m3)]).
      split; [rewrite S2; reflexivity|]. apply Forall_app. split; [exact S3|]. constructor; auto.
    + unfold play. rewrite fold_left_app. cbn. reflexivity.
    + rewrite app_length. cbn [length]. rewrite Nat.add_1_r, odd_even. exact A3.
    + intros i x Hi. apply nth_error_snoc in Hi. destruct Hi as [Hi|[-> ->]]; [eapply F11; eauto|]. rewrite A3. reflexivity.
    + apply Forall_app. split; [exact FF|]. constructor; auto.
  - injection E as <- <-. rewrite P2, M1 in L.
    constructor; rewrite ?T1, ?FA, ?PB, ?AU; auto.
    + clear - F0; lia.
    + exists (j + 1). split; [clear - L F4; lia|]. rewrite M1. clear; lia.
    + intros q Hq. rewrite M2 in Hq. destruct (F7 q Hq) as (k & a & K1 & K2). exists k, a. pose proof (nth_error_lt _ _ _ K1).
      rewrite nth_error_app1 by auto. split; [auto|]. rewrite position_app by (clear - H; lia). exact K2.
Qed.

Lemma run_framed c audio frames ops s : stream_run c (movie_new c audio frames) ops s -> Framed c ops s.
Proof. intros H. induction H; [apply framed_new|eapply framed_step; eauto]. Qed.

(** ** Source frames as targets *)
Lemma frame_bitmap_bank k f a : good_bank k a -> bank_data (frame_bitmap k f) a = mm_data (frame_bank f a).
Proof. intros [-> | ->]; [destruct a; reflexivity|destruct k; reflexivity]. Qed.
Lemma frames_target k frames : good_frames k frames -> forall f, In f frames -> good_target k (frame_bitmap k f).
Proof.
  intros H f I. pose proof (H f I false (or_intror eq_refl)) as (M1 & M2 & M3). cbn [frame_bank] in *. destruct k.
  - split; [apply reach_hgr; assumption|]. split; [reflexivity|discriminate].
  - pose proof (H f I true (or_introl eq_refl)) as (A1 & A2 & A3). cbn [frame_bank] in *.
    split; [apply reach_dhgr; assumption|]. split; [reflexivity|].
    intros _ [|] p o Hin Hd; [exact (A3 eq_refl p o Hin Hd)|exact (M3 eq_refl p o Hin Hd)].
Qed.

(** Which frames a conversion depends on (C93): two runs that differ only in frames
    that are never looked at go through the same states. *)
From Verif Require Import Base BaseFacts ScreenModel BitmapModel VideoModel OpcodeModel MovieModel MovieSpec.
Opaque next.

(** What a frame grabber has to agree on: whether there is a frame, and, for the
    frames that are encoded, the main memory and in DHGR mode the auxiliary one. *)
Definition same_input (k : kind) (encoded : bool) (f f' : option frame) : Prop :=
  match f, f' with
  | None, None => True
  | Some f, Some f' => encoded = true -> fst f' = fst f /\ (k = DHGR -> snd f' = snd f)
  | _, _ => False
  end.

Lemma due_step clock t : due clock t <= due clock (S t) <= due clock t + 1.
Proof. cbn [due]. destruct (clock _ _); lia. Qed.
Lemma due_le clock b : forall a, (a <= b)%nat -> due clock a <= due clock b.
Proof. induction b as [|b IH]; intros a L; [replace a with 0%nat by lia; lia|]. inversion L as [|? L']; subst; [lia|]. specialize (IH a L'). pose proof (due_step clock b). lia. Qed.

Section S.
Variable c : config.
Variable N : nat.
Let B := due (c_clock c) N.
Definition rel (j : Z) (l l' : list frame) : Prop :=
  0 <= j /\ forall i, j + Z.of_nat i < B -> same_input (c_mode c) ((j + Z.of_nat i) mod c_every_n c =? 0) (nth_error l i) (nth_error l' i).
Definition with_frames (e : enc) (l : list frame) : enc :=
  {| e_at := e_at e; e_last := e_last e; e_target := e_target e; e_op_seq := e_op_seq e; e_audio := e_audio e; e_frames := l |}.
Lemma rel_tail j f f' l l' : rel j (f :: l) (f' :: l') -> rel (j + 1) l l'.
Proof. intros [J H]. split; [lia|]. intros i L. specialize (H (S i) ltac:(lia)). cbn [nth_error] in H. replace (j + 1 + Z.of_nat i) with (j + Z.of_nat (S i)) by lia. exact H. Qed.
Lemma bitmap_same f f' : fst f' = fst f /\ (c_mode c = DHGR -> snd f' = snd f) -> frame_bitmap (c_mode c) f' = frame_bitmap (c_mode c) f.
Proof. intros [A D]. unfold frame_bitmap. destruct (c_mode c); rewrite ?A, ?D; reflexivity. Qed.

Lemma new_frame_same m e l' : m_frame_number m - 1 < B -> rel (m_frame_number m - 1) (e_frames e) l' ->
  match new_frame c m e, new_frame c m (with_frames e l') with
  | Ok None, Ok None => True
  | Ok (Some (m1, e1)), Ok (Some (m2, e2)) => m2 = m1 /\ m_ticks m1 = m_ticks m /\ m_frame_number m1 = m_frame_number m /\ e_audio e1 = e_audio e /\
      exists l2, e2 = with_frames e1 l2 /\ rel (m_frame_number m) (e_frames e1) l2
  | Raise x, Raise y => y = x
  | _, _ => False
  end.
Proof.
  intros L R. pose proof (proj2 R 0%nat) as H. rewrite Z.add_0_r in H. specialize (H L). unfold new_frame. cbn [e_frames with_frames].
  destruct (e_frames e) as [|f fs] eqn:EF, l' as [|f' fs']; cbn [nth_error same_input] in H; try contradiction; [exact I|].
  pose proof (rel_tail _ _ _ _ _ R) as RT. replace (m_frame_number m - 1 + 1) with (m_frame_number m) in RT by lia.
  destruct (c_every_n c =? 0); [reflexivity|]. destruct ((m_frame_number m - 1) mod c_every_n c =? 0).
  - rewrite (bitmap_same f f' (H eq_refl)). cbn [m_ticks m_frame_number e_audio e_frames]. repeat (split; [reflexivity|]). exists fs'. split; [reflexivity|exact RT].
  - cbn [e_audio e_frames]. repeat (split; [reflexivity|]). exists fs'. split; [reflexivity|exact RT].
Qed.
Lemma follow_same m e l' : match follow_bank m e, follow_bank m (with_frames e l') with
  | Ok e1, Ok e2 => e2 = with_frames e1 l' /\ e_frames e1 = e_frames e /\ e_audio e1 = e_audio e
  | Raise x, Raise y => y = x | _, _ => False end.
Proof. unfold follow_bank. cbn [with_frames e_last e_target]. destruct (Bool.eqb _ _); [auto|]. destruct (e_target e); [|reflexivity]. cbn. auto. Qed.

(** the state after [n] ticks *)
Definition state (n : nat) (m : movie) (e : enc) (l' : list frame) : Prop :=
  m_ticks m = Z.of_nat n /\ m_frame_number m = due (c_clock c) n /\ (n + length (e_audio e) = N)%nat /\ rel (m_frame_number m) (e_frames e) l'.
Lemma tick_same n m e l' au : m_ticks m = Z.of_nat n -> m_frame_number m = due (c_clock c) n -> (S n + length (e_audio e) = N)%nat -> rel (m_frame_number m) (e_frames e) l' ->
  match tick_body c m e au, tick_body c m (with_frames e l') au with
  | Ok (None, m1, _), Ok (None, m2, _) => m2 = m1
  | Ok (Some op, m1, e1), Ok (Some op', m2, e2) => op' = op /\ m2 = m1 /\ exists l2, e2 = with_frames e1 l2 /\ state (S n) m1 e1 l2
  | Raise x, Raise y => y = x
  | _, _ => False
  end.
Proof.
  intros T F A R. unfold tick_body.
  assert (ED : due (c_clock c) (S n) = if c_clock c (m_ticks m + 1) (m_frame_number m) then m_frame_number m + 1 else m_frame_number m).
  { cbn [due]. rewrite <- F, T. replace (Z.of_nat (S n)) with (Z.of_nat n + 1) by lia. reflexivity. }
  assert (ET : m_ticks m + 1 = Z.of_nat (S n)) by lia.
  pose proof (due_le (c_clock c) N (S n) ltac:(lia)) as LE. fold B in LE.
  set (d := c_clock c (m_ticks m + 1) (m_frame_number m)) in *. cbv zeta. set (m1 := Build_movie _ _ _ _ _).
  assert (NF : match (if d then new_frame c m1 e else Ok (Some (m1, e))), (if d then new_frame c m1 (with_frames e l') else Ok (Some (m1, with_frames e l'))) with
    | Ok None, Ok None => True
    | Ok (Some (ma, ea)), Ok (Some (mb, eb)) => mb = ma /\ m_ticks ma = Z.of_nat (S n) /\ m_frame_number ma = due (c_clock c) (S n) /\ e_audio ea = e_audio e /\
        exists l2, eb = with_frames ea l2 /\ rel (m_frame_number ma) (e_frames ea) l2
    | Raise x, Raise y => y = x | _, _ => False end).
  { rewrite ED in *. destruct d.
    - pose proof (new_frame_same m1 e l') as H. cbn [m1 m_frame_number m_ticks] in H. replace (m_frame_number m + 1 - 1) with (m_frame_number m) in H by lia.
      specialize (H ltac:(lia) R). fold m1 in H. destruct (new_frame c m1 e) as [[[ma ea]|]|]; destruct (new_frame c m1 (with_frames e l')) as [[[mb eb]|]|]; auto.
      destruct H as (E & X1 & X2 & X3 & l2 & X4 & X5). split; [exact E|]. split; [rewrite X1; exact ET|]. split; [exact X2|]. split; [exact X3|]. exists l2. split; [exact X4|]. rewrite X2. exact X5.
    - split; [reflexivity|]. split; [exact ET|]. split; [reflexivity|]. split; [reflexivity|]. exists l'. split; [reflexivity|exact R]. }
  clearbody m1 d. destruct (if d then new_frame c m1 e else _) as [[[ma ea]|]|]; destruct (if d then new_frame c m1 (with_frames e l') else _) as [[[mb eb]|]|]; cbn [rbind]; auto; try contradiction.
  destruct NF as (-> & X1 & X2 & X3 & l2 & -> & X5).
  pose proof (follow_same ma ea l2) as FS. destruct (follow_bank ma ea) as [e1|]; destruct (follow_bank ma (with_frames ea l2)) as [e2|]; cbn [rbind]; auto; try contradiction.
  destruct FS as (-> & FF & FA). cbn [with_frames e_op_seq]. destruct (e_op_seq e1) as [g|]; [|reflexivity].
  destruct (next (c_table c) (c_draws c (m_ticks m + 1)) (m_video ma) g) as [[[ch v'] g']|]; cbn [rbind]; [|reflexivity]. destruct ch as [[p ct] os].
  destruct (tick_opcode (au * 2 + 34) p ct os) as [op|]; cbn [rbind]; [|reflexivity].
  split; [reflexivity|]. split; [reflexivity|]. exists l2. split; [reflexivity|].
  unfold state. cbn [m_ticks m_frame_number e_audio e_frames]. rewrite FF, FA, X3. auto.
Qed.

Lemma encode_same n m e l' : state n m e l' ->
  match encode_next c m e, encode_next c m (with_frames e l') with
  | Ok (None, m1, _), Ok (None, m2, _) => m2 = m1
  | Ok (Some op, m1, e1), Ok (Some op', m2, e2) => op' = op /\ m2 = m1 /\ exists n2 l2, e2 = with_frames e1 l2 /\ state n2 m1 e1 l2
  | Raise x, Raise y => y = x
  | _, _ => False
  end.
Proof.
  intros (T & F & A & R). unfold encode_next. cbn [with_frames e_at e_last e_target e_op_seq e_audio e_frames].
  assert (G : forall last, match (match e_audio e with
      | [] => Ok (None, m, {| e_at := AtEnd; e_last := last; e_target := e_target e; e_op_seq := e_op_seq e; e_audio := []; e_frames := e_frames e |})
      | au :: audio => tick_body c m {| e_at := InLoop; e_last := last; e_target := e_target e; e_op_seq := e_op_seq e; e_audio := audio; e_frames := e_frames e |} au
      end), (match e_audio e with
      | [] => Ok (None, m, {| e_at := AtEnd; e_last := last; e_target := e_target e; e_op_seq := e_op_seq e; e_audio := []; e_frames := l' |})
      | au :: audio => tick_body c m {| e_at := InLoop; e_last := last; e_target := e_target e; e_op_seq := e_op_seq e; e_audio := audio; e_frames := l' |} au
      end) with
  | Ok (None, m1, _), Ok (None, m2, _) => m2 = m1
  | Ok (Some op, m1, e1), Ok (Some op', m2, e2) => op' = op /\ m2 = m1 /\ exists n2 l2, e2 = with_frames e1 l2 /\ state n2 m1 e1 l2
  | Raise x, Raise y => y = x
  | _, _ => False
  end).
  { intros last. destruct (e_audio e) as [|au audio] eqn:EA; [reflexivity|]. cbn [length] in A.
    pose proof (tick_same n m {| e_at := InLoop; e_last := last; e_target := e_target e; e_op_seq := e_op_seq e; e_audio := audio; e_frames := e_frames e |} l' au T F ltac:(cbn [e_audio]; lia) R) as H.
    change (with_frames {| e_at := InLoop; e_last := last; e_target := e_target e; e_op_seq := e_op_seq e; e_audio := audio; e_frames := e_frames e |} l')
      with {| e_at := InLoop; e_last := last; e_target := e_target e; e_op_seq := e_op_seq e; e_audio := audio; e_frames := l' |} in H.
    destruct (tick_body c m {| e_at := InLoop; e_last := last; e_target := e_target e; e_op_seq := e_op_seq e; e_audio := audio; e_frames := e_frames e |} au) as [[[[op|] m1] e1]|];
      destruct (tick_body c m {| e_at := InLoop; e_last := last; e_target := e_target e; e_op_seq := e_op_seq e; e_audio := audio; e_frames := l' |} au) as [[[[op'|] m2] e2]|]; auto; try contradiction.
    destruct H as (H1 & H2 & l2 & H3 & H4). split; [exact H1|]. split; [exact H2|]. exists (S n), l2. auto. }
  destruct (e_at e).
  - split; [reflexivity|]. split; [reflexivity|]. exists n, l'. split; [reflexivity|]. unfold state. auto.
  - exact (G (m_aux m)).
  - exact (G (e_last e)).
  - reflexivity.
Qed.

Definition s_with (s : stream) (l : list frame) : stream := {| s_out := s_out s; s_movie := s_movie s; s_enc := with_frames (s_enc s) l |}.
Lemma emit_same : forall fuel n s l', state n (s_movie s) (s_enc s) l' -> emit_stream fuel c (s_with s l') = emit_stream fuel c s.
Proof.
  induction fuel as [|fuel IH]; intros n s l' ST; [reflexivity|]. cbn [emit_stream]. unfold emit_step. cbn [s_with s_out s_movie s_enc].
  pose proof (encode_same n (s_movie s) (s_enc s) l' ST) as H.
  destruct (encode_next c (s_movie s) (s_enc s)) as [[[[op|] m1] e1]|]; destruct (encode_next c (s_movie s) (with_frames (s_enc s) l')) as [[[[op'|] m2] e2]|]; cbn [rbind]; try contradiction.
  - destruct H as (-> & -> & n2 & l2 & -> & S2). destruct (_ && _); [reflexivity|].
    assert (K : forall out m, m_ticks m = m_ticks m1 -> m_frame_number m = m_frame_number m1 ->
      emit_stream fuel c {| s_out := out; s_movie := m; s_enc := with_frames e1 l2 |} = emit_stream fuel c {| s_out := out; s_movie := m; s_enc := e1 |}).
    { intros out m M1 M2. refine (IH n2 {| s_out := out; s_movie := m; s_enc := e1 |} l2 _). cbn [s_movie s_enc]. unfold state in *. rewrite M1, M2. exact S2. }
    unfold emit_bytes. cbn [s_out s_movie s_enc advance m_pos]. destruct (2044 <=? _).
    + unfold assert_. destruct (_ =? 0); [|reflexivity]. cbn [rbind].
      apply K; unfold advance, flip_bank; destruct (c_mode c); reflexivity.
    + cbn [rbind]. apply K; reflexivity.
  - subst m2. reflexivity.
  - subst. reflexivity.
Qed.
End S.

Lemma transcode_same c audio frames frames' :
  (forall j, Z.of_nat j < due (c_clock c) (length audio) -> same_input (c_mode c) (Z.of_nat j mod c_every_n c =? 0) (nth_error frames j) (nth_error frames' j)) ->
  transcode c audio frames' = transcode c audio frames.
Proof.
  intros H. unfold transcode. refine (emit_same c (length audio) (length audio + 3) 0 (movie_new c audio frames) frames' _).
  unfold state, movie_new, rel. cbn [s_movie s_enc m_ticks m_frame_number e_audio e_frames due]. split; [reflexivity|]. split; [reflexivity|]. split; [reflexivity|].
  split; [lia|]. intros i L. exact (H i L).
Qed.

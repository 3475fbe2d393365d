(** Skipping frames and thinning the video (C95). *)
From Verif Require Import Base BaseFacts ScreenModel BitmapModel VideoModel OpcodeModel MovieModel MovieSpec SkipProofs.
Opaque next.

(** The settings for the thinned video: every frame is encoded; [clock] is that of
    a video with a lower frame rate. *)
Definition thinned (c : config) (clock : Z -> Z -> bool) : config :=
  {| c_mode := c_mode c; c_every_n := 1; c_max_bytes := c_max_bytes c; c_clock := clock;
     c_table := c_table c; c_draws := c_draws c; c_start := c_start c |}.
Section S.
Variable c : config.
Variable clock : Z -> Z -> bool.
Let c' := thinned c clock.
Let n := c_every_n c.
Hypothesis CL : forall t j, clock t j = c_clock c t (n * j).
Hypothesis N1 : 1 <= n.
Variable total : nat.
Variables frames frames' : list frame.
Hypothesis EN : due (c_clock c) total <= Z.of_nat (length frames).
Hypothesis FR : forall j, n * Z.of_nat j < Z.of_nat (length frames) -> nth_error frames' j = nth_error frames (Z.to_nat (n * Z.of_nat j)).
(** at most one frame falls due per tick *)
Hypothesis ONE : forall t j, (t < total)%nat -> due (c_clock c) t < j -> c_clock c (Z.of_nat (S t)) j = false.

Definition set_fn (m : movie) (k : Z) : movie := {| m_pos := m_pos m; m_ticks := m_ticks m; m_aux := m_aux m; m_frame_number := k; m_video := m_video m |}.
Definition thin (t : nat) (m : movie) (e : enc) (k : Z) (l' : list frame) : Prop :=
  m_ticks m = Z.of_nat t /\ m_frame_number m = due (c_clock c) t /\ (t + length (e_audio e) = total)%nat /\
  0 <= k /\ n * (k - 1) < m_frame_number m <= n * k /\ 0 <= m_frame_number m /\
  e_frames e = skipn (Z.to_nat (m_frame_number m)) frames /\ l' = skipn (Z.to_nat k) frames'.
Lemma skip_nth (l : list frame) i f : nth_error l i = Some f -> skipn i l = f :: skipn (S i) l.
Proof. revert l. induction i as [|i IH]; intros [|x l] H; try discriminate; cbn [nth_error skipn] in *; [congruence|]. exact (IH l H). Qed.

Lemma tick_thin t m e k l' au : e_at e = InLoop -> m_ticks m = Z.of_nat t -> m_frame_number m = due (c_clock c) t -> (S t + length (e_audio e) = total)%nat ->
  0 <= k -> n * (k - 1) < m_frame_number m <= n * k -> 0 <= m_frame_number m ->
  e_frames e = skipn (Z.to_nat (m_frame_number m)) frames -> l' = skipn (Z.to_nat k) frames' ->
  match tick_body c m e au, tick_body c' (set_fn m k) (with_frames e l') au with
  | Ok (Some op, m1, e1), Ok (Some op', m2, e2) => op' = op /\ exists k2 l2, m2 = set_fn m1 k2 /\ e2 = with_frames e1 l2 /\ thin (S t) m1 e1 k2 l2
  | Raise x, Raise y => y = x
  | _, _ => False
  end.
Proof.
  intros AT T F A K B D0 EF EF'. unfold tick_body. cbn [set_fn m_ticks m_frame_number m_pos m_aux m_video].
  assert (ED : due (c_clock c) (S t) = if c_clock c (m_ticks m + 1) (m_frame_number m) then m_frame_number m + 1 else m_frame_number m).
  { cbn [due]. rewrite <- F, T. replace (Z.of_nat (S t)) with (Z.of_nat t + 1) by lia. reflexivity. }
  pose proof (due_le (c_clock c) total (S t) ltac:(lia)) as LE.
  assert (ET : m_ticks m + 1 = Z.of_nat (S t)) by lia.
  change (c_clock c' (m_ticks m + 1) k) with (clock (m_ticks m + 1) k). rewrite (CL (m_ticks m + 1) k).
  assert (NF : exists k2 l2 ma ea b, 
    (if c_clock c (m_ticks m + 1) (m_frame_number m)
     then new_frame c {| m_pos := m_pos m; m_ticks := m_ticks m + 1; m_aux := m_aux m; m_frame_number := if c_clock c (m_ticks m + 1) (m_frame_number m) then m_frame_number m + 1 else m_frame_number m; m_video := m_video m |} e
     else Ok (Some ({| m_pos := m_pos m; m_ticks := m_ticks m + 1; m_aux := m_aux m; m_frame_number := if c_clock c (m_ticks m + 1) (m_frame_number m) then m_frame_number m + 1 else m_frame_number m; m_video := m_video m |}, e))) = Ok (Some (ma, ea)) /\
    c_clock c (m_ticks m + 1) (n * k) = b /\
    (if b then new_frame c' {| m_pos := m_pos m; m_ticks := m_ticks m + 1; m_aux := m_aux m; m_frame_number := if b then k + 1 else k; m_video := m_video m |} (with_frames e l')
     else Ok (Some ({| m_pos := m_pos m; m_ticks := m_ticks m + 1; m_aux := m_aux m; m_frame_number := if b then k + 1 else k; m_video := m_video m |}, with_frames e l'))) = Ok (Some (set_fn ma k2, with_frames ea l2)) /\
    m_ticks ma = Z.of_nat (S t) /\ m_frame_number ma = due (c_clock c) (S t) /\ e_audio ea = e_audio e /\
    0 <= k2 /\ n * (k2 - 1) < m_frame_number ma <= n * k2 /\ 0 <= m_frame_number ma /\
    e_frames ea = skipn (Z.to_nat (m_frame_number ma)) frames /\ l2 = skipn (Z.to_nat k2) frames').
  { set (d := m_frame_number m) in *. clearbody d. rewrite ED in *. set (b := c_clock c (m_ticks m + 1) d) in *.
    assert (HD : forall f fs, e_frames e = f :: fs -> nth_error frames (Z.to_nat d) = Some f /\ fs = skipn (Z.to_nat (d + 1)) frames).
    { intros f fs H. rewrite EF in H. assert (LT : (Z.to_nat d < length frames)%nat) by (apply Nat.nle_gt; intros G; rewrite skipn_all2 in H by exact G; discriminate).
      destruct (nth_error frames (Z.to_nat d)) as [g|] eqn:G; [|apply nth_error_None in G; lia]. rewrite (skip_nth _ _ _ G) in H. injection H as -> <-. split; [reflexivity|].
      f_equal. rewrite Z2Nat.inj_add by lia. rewrite Nat.add_comm. reflexivity. }
    assert (HB : b = true -> exists f, e_frames e = f :: skipn (Z.to_nat (d + 1)) frames /\ nth_error frames (Z.to_nat d) = Some f).
    { intros Bt. rewrite Bt in LE. assert (LT : (Z.to_nat d < length frames)%nat) by lia.
      destruct (e_frames e) as [|f fs] eqn:G; [exfalso; apply (f_equal (@length frame)) in EF; rewrite skipn_length in EF; cbn [length] in EF; lia|].
      destruct (HD f fs eq_refl) as [H1 ->]. exists f. auto. }
    assert (NZ : c_every_n c <> 0) by (fold n; lia).
    destruct (Z.eq_dec d (n * k)) as [E|E].
    - rewrite <- E. fold b. destruct b eqn:Eb.
      + destruct (HB eq_refl) as (f & G1 & G2). exists (k + 1), (skipn (Z.to_nat (k + 1)) frames').
        assert (G3 : l' = f :: skipn (Z.to_nat (k + 1)) frames').
        { rewrite EF'. replace (Z.to_nat (k + 1)) with (S (Z.to_nat k)) by (rewrite Z2Nat.inj_add by lia; lia). apply skip_nth. rewrite FR; rewrite Z2Nat.id by lia.
          - rewrite <- E. exact G2.
          - rewrite <- E. lia. }
        eexists _, _, true. unfold new_frame. cbn [with_frames e_frames e_at e_last e_target e_op_seq e_audio m_frame_number]. rewrite G1, G3.
        rewrite (proj2 (Z.eqb_neq _ _) NZ). change (c_every_n c' =? 0) with false. cbv iota.
        replace (d + 1 - 1) with d by ring. replace (k + 1 - 1) with k by ring. change (c_every_n c') with 1. rewrite Z.mod_1_r. cbn [Z.eqb].
        assert (M0 : d mod c_every_n c = 0) by (fold n; rewrite E, Z.mul_comm; apply Z.mod_mul; lia). rewrite M0. cbn [Z.eqb].
        split; [reflexivity|]. split; [reflexivity|]. split; [reflexivity|]. cbn [m_ticks m_frame_number e_audio e_frames].
        split; [exact ET|]. split; [reflexivity|]. split; [reflexivity|]. split; [lia|]. split; [nia|]. split; [lia|]. split; reflexivity.
      + exists k, l'. eexists _, _, false. split; [reflexivity|]. split; [reflexivity|]. split; [reflexivity|]. cbn [m_ticks m_frame_number e_audio e_frames].
        split; [exact ET|]. split; [reflexivity|]. split; [reflexivity|]. split; [lia|]. split; [lia|]. split; [lia|]. split; assumption.
    - assert (FB : c_clock c (m_ticks m + 1) (n * k) = false) by (rewrite ET; apply ONE; [lia|rewrite <- F; lia]). rewrite FB. exists k, l'.
      destruct b eqn:Eb.
      + destruct (HB eq_refl) as (f & G1 & G2). eexists _, _, false. unfold new_frame. rewrite G1. cbn [m_frame_number].
        rewrite (proj2 (Z.eqb_neq _ _) NZ). replace (d + 1 - 1) with d by ring.
        assert (M0 : d mod c_every_n c <> 0).
        { fold n. intros M. apply Z.mod_divide in M; [|lia]. destruct M as (q & M). assert (q < k) by nia. assert (k - 1 < q) by nia. lia. }
        rewrite (proj2 (Z.eqb_neq _ _) M0). split; [reflexivity|]. split; [reflexivity|]. split; [unfold with_frames; rewrite AT; reflexivity|]. cbn [m_ticks m_frame_number e_audio e_frames].
        split; [exact ET|]. split; [reflexivity|]. split; [reflexivity|]. split; [lia|]. split; [lia|]. split; [lia|]. split; [reflexivity|assumption].
      + eexists _, _, false. split; [reflexivity|]. split; [reflexivity|]. split; [reflexivity|]. cbn [m_ticks m_frame_number e_audio e_frames].
        split; [exact ET|]. split; [reflexivity|]. split; [reflexivity|]. split; [lia|]. split; [lia|]. split; [lia|]. split; assumption. }
  destruct NF as (k2 & l2 & ma & ea & b & E1 & E2 & E3 & X). cbv zeta. rewrite E1, E2, E3. clear E1 E2 E3. cbn [rbind].
  destruct X as (X1 & X2 & X3 & X4 & X5 & X6 & X7 & X8).
  assert (FW : follow_bank (set_fn ma k2) (with_frames ea l2) = follow_bank ma (with_frames ea l2)) by reflexivity. rewrite FW.
  pose proof (follow_same ma ea l2) as FS. destruct (follow_bank ma ea) as [e1|]; destruct (follow_bank ma (with_frames ea l2)) as [e2|]; cbn [rbind]; auto; try contradiction.
  destruct FS as (-> & FF & FA). cbn [with_frames e_op_seq]. destruct (e_op_seq e1) as [g|]; [|reflexivity].
  change (c_table c') with (c_table c). change (c_draws c') with (c_draws c). cbn [set_fn m_video].
  destruct (next (c_table c) (c_draws c (m_ticks m + 1)) (m_video ma) g) as [[[ch v'] g']|]; cbn [rbind]; [|reflexivity]. destruct ch as [[p ct] os].
  destruct (tick_opcode (au * 2 + 34) p ct os) as [op|]; cbn [rbind]; [|reflexivity].
  split; [reflexivity|]. exists k2, l2. split; [reflexivity|]. split; [reflexivity|].
  unfold thin. cbn [m_ticks m_frame_number e_audio e_frames]. rewrite FF, FA, X3. repeat (split; [first [assumption|lia]|]). assumption.
Qed.

Lemma encode_thin t m e k l' : thin t m e k l' ->
  match encode_next c m e, encode_next c' (set_fn m k) (with_frames e l') with
  | Ok (None, m1, _), Ok (None, m2, _) => exists k2, m2 = set_fn m1 k2
  | Ok (Some op, m1, e1), Ok (Some op', m2, e2) => op' = op /\ exists t2 k2 l2, m2 = set_fn m1 k2 /\ e2 = with_frames e1 l2 /\ thin t2 m1 e1 k2 l2
  | Raise x, Raise y => y = x
  | _, _ => False
  end.
Proof.
  intros TH. pose proof TH as (T & F & A & K & B & D0 & EF & EF'). unfold encode_next. cbn [with_frames e_at e_last e_target e_op_seq e_audio e_frames].
  assert (G : forall last, match (match e_audio e with
      | [] => Ok (None, m, {| e_at := AtEnd; e_last := last; e_target := e_target e; e_op_seq := e_op_seq e; e_audio := []; e_frames := e_frames e |})
      | au :: audio => tick_body c m {| e_at := InLoop; e_last := last; e_target := e_target e; e_op_seq := e_op_seq e; e_audio := audio; e_frames := e_frames e |} au
      end), (match e_audio e with
      | [] => Ok (None, set_fn m k, {| e_at := AtEnd; e_last := last; e_target := e_target e; e_op_seq := e_op_seq e; e_audio := []; e_frames := l' |})
      | au :: audio => tick_body c' (set_fn m k) {| e_at := InLoop; e_last := last; e_target := e_target e; e_op_seq := e_op_seq e; e_audio := audio; e_frames := l' |} au
      end) with
  | Ok (None, m1, _), Ok (None, m2, _) => exists k2, m2 = set_fn m1 k2
  | Ok (Some op, m1, e1), Ok (Some op', m2, e2) => op' = op /\ exists t2 k2 l2, m2 = set_fn m1 k2 /\ e2 = with_frames e1 l2 /\ thin t2 m1 e1 k2 l2
  | Raise x, Raise y => y = x
  | _, _ => False
  end).
  { intros last. destruct (e_audio e) as [|au audio] eqn:EA; [exists k; reflexivity|]. cbn [length] in A.
    pose proof (tick_thin t m {| e_at := InLoop; e_last := last; e_target := e_target e; e_op_seq := e_op_seq e; e_audio := audio; e_frames := e_frames e |} k l' au eq_refl T F
      ltac:(cbn [e_audio]; lia) K B D0 EF EF') as H.
    change (with_frames {| e_at := InLoop; e_last := last; e_target := e_target e; e_op_seq := e_op_seq e; e_audio := audio; e_frames := e_frames e |} l')
      with {| e_at := InLoop; e_last := last; e_target := e_target e; e_op_seq := e_op_seq e; e_audio := audio; e_frames := l' |} in H.
    destruct (tick_body c m {| e_at := InLoop; e_last := last; e_target := e_target e; e_op_seq := e_op_seq e; e_audio := audio; e_frames := e_frames e |} au) as [[[[op|] m1] e1]|];
      destruct (tick_body c' (set_fn m k) {| e_at := InLoop; e_last := last; e_target := e_target e; e_op_seq := e_op_seq e; e_audio := audio; e_frames := l' |} au) as [[[[op'|] m2] e2]|]; auto; try contradiction.
    destruct H as (H1 & k2 & l2 & H2 & H3 & H4). split; [exact H1|]. exists (S t), k2, l2. auto. }
  destruct (e_at e).
  - split; [reflexivity|]. exists t, k, l'. split; [reflexivity|]. split; [reflexivity|]. unfold thin. auto 10.
  - exact (G (m_aux m)).
  - exact (G (e_last e)).
  - exists k. reflexivity.
Qed.
Definition s_thin (s : stream) (k : Z) (l : list frame) : stream := {| s_out := s_out s; s_movie := set_fn (s_movie s) k; s_enc := with_frames (s_enc s) l |}.
Lemma emit_thin : forall fuel t s k l', thin t (s_movie s) (s_enc s) k l' -> emit_stream fuel c' (s_thin s k l') = emit_stream fuel c s.
Proof.
  induction fuel as [|fuel IH]; intros t s k l' ST; [reflexivity|]. cbn [emit_stream]. unfold emit_step. cbn [s_thin s_out s_movie s_enc].
  pose proof (encode_thin t (s_movie s) (s_enc s) k l' ST) as H.
  destruct (encode_next c (s_movie s) (s_enc s)) as [[[[op|] m1] e1]|]; destruct (encode_next c' (set_fn (s_movie s) k) (with_frames (s_enc s) l')) as [[[[op'|] m2] e2]|]; cbn [rbind]; try contradiction.
  - destruct H as (-> & t2 & k2 & l2 & -> & -> & S2). change (c_max_bytes c') with (c_max_bytes c). cbn [set_fn m_pos]. destruct (_ && _); [reflexivity|].
    assert (Q : forall out m, m_ticks m = m_ticks m1 -> m_frame_number m = m_frame_number m1 ->
      emit_stream fuel c' {| s_out := out; s_movie := set_fn m k2; s_enc := with_frames e1 l2 |} = emit_stream fuel c {| s_out := out; s_movie := m; s_enc := e1 |}).
    { intros out m M1 M2. refine (IH t2 {| s_out := out; s_movie := m; s_enc := e1 |} k2 l2 _). cbn [s_movie s_enc]. unfold thin in *. rewrite M1, M2. exact S2. }
    unfold emit_bytes. change (c_start c') with (c_start c). cbn [s_out s_movie s_enc advance m_pos set_fn]. destruct (2044 <=? _).
    + unfold flip_bank. change (c_mode c') with (c_mode c). destruct (c_mode c); cbn [advance set_fn m_pos m_aux]; (unfold assert_; destruct (_ =? 0); [|reflexivity]; cbn [rbind]).
      * exact (Q _ {| m_pos := _; m_ticks := _; m_aux := _; m_frame_number := m_frame_number m1; m_video := _ |} eq_refl eq_refl).
      * exact (Q _ {| m_pos := _; m_ticks := _; m_aux := _; m_frame_number := m_frame_number m1; m_video := _ |} eq_refl eq_refl).
    + cbn [rbind]. exact (Q _ {| m_pos := _; m_ticks := _; m_aux := _; m_frame_number := m_frame_number m1; m_video := _ |} eq_refl eq_refl).
  - destruct H as (k2 & ->). reflexivity.
  - subst. reflexivity.
Qed.
Lemma transcode_thin audio : length audio = total -> transcode c' audio frames' = transcode c audio frames.
Proof.
  intros L. unfold transcode. refine (emit_thin (length audio + 3) 0 (movie_new c audio frames) 0 frames' _).
  unfold thin, movie_new. cbn [s_movie s_enc m_ticks m_frame_number e_audio e_frames due]. repeat (split; [first [reflexivity|lia|exact L]|]). reflexivity.
Qed.
End S.

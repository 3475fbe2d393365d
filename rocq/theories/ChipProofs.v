(** The network chip during playback: arrivals never disturb unread data. *)
From Verif Require Import Base BaseFacts CpuModel PlayerSpec.

Lemma rx_size_8k stream ch rd : held stream ch rd -> rx_size ch = 8192.
Proof. intros H. unfold rx_size. rewrite (h_size _ _ _ H). reflexivity. Qed.
Lemma count_held stream ch rd : held stream ch rd -> rx_count ch = wr ch - rd.
Proof. intros H. unfold rx_count. rewrite (h_base _ _ _ H). pose proof (h_wr _ _ _ H). clear - H0. dlia. Qed.

Lemma arrive1_held stream ch rd : held stream ch rd ->
  held stream (arrive1 stream ch) rd /\ wr ch <= wr (arrive1 stream ch) /\ ptr (arrive1 stream ch) = ptr ch /\ rxrd (arrive1 stream ch) = rxrd ch.
Proof.
  intros H. unfold arrive1. rewrite (h_open _ _ _ H), (rx_size_8k _ _ _ H), (count_held _ _ _ H). cbn [Z.eqb Pos.eqb andb].
  destruct (Z.ltb_spec (wr ch) (Z.of_nat (length stream))) as [L|L]; cbn [andb]; [|split; [exact H|split; [lia|auto]]].
  destruct (Z.ltb_spec (wr ch - rd) 8192) as [W|W]; [|split; [exact H|split; [lia|auto]]].
  split; [|cbn; split; [lia|auto]]. destruct H as [A B C D E F G I]. constructor; cbn [wmode status regs rxbase wr buf]; auto; try lia.
  intros j J. unfold upd1. destruct (Z.eqb_spec (j mod 8192) (wr ch mod 8192)) as [X|X].
  - assert (j = wr ch) by (clear - X J F W; dlia). subst j. reflexivity.
  - apply I. assert (j <> wr ch) by (intros ->; apply X; reflexivity). lia.
Qed.
Lemma arrive_held stream n : forall ch rd, held stream ch rd ->
  held stream (arrive stream n ch) rd /\ wr ch <= wr (arrive stream n ch) /\ ptr (arrive stream n ch) = ptr ch /\ rxrd (arrive stream n ch) = rxrd ch.
Proof.
  induction n as [|n IH]; intros ch rd H; [cbn; split; [exact H|split; [lia|auto]]|]. cbn [arrive].
  destruct (arrive1_held stream ch rd H) as (A & B & C & D). destruct (IH _ _ A) as (A' & B' & C' & D'). split; [exact A'|]. rewrite C', D'. split; [lia|auto].
Qed.
(** everything but the chip's receive side and the keyboard is left alone *)
Lemma before_shape stream e m : before stream e m =
  with_kbd (match e_key e with Some v => 128 + v mod 128 | None => kbd m end) (with_net (arrive stream (e_bytes e) (connect (e_status e) (net m))) m).
Proof. unfold before, press. destruct (e_key e); reflexivity. Qed.
Lemma connect_held stream s ch rd : held stream ch rd -> connect s ch = ch.
Proof. intros H. unfold connect. rewrite (h_open _ _ _ H). destruct s; reflexivity. Qed.
Lemma before_held stream e m rd : held stream (net m) rd ->
  let m' := before stream e m in
  held stream (net m') rd /\ wr (net m) <= wr (net m') /\ ptr (net m') = ptr (net m) /\ rxrd (net m') = rxrd (net m) /\
  m' = with_kbd (kbd m') (with_net (net m') m) /\ (e_key e = None -> kbd m' = kbd m).
Proof.
  intros H m'. unfold m'. rewrite before_shape, (connect_held _ _ _ _ H). destruct (arrive_held stream (e_bytes e) _ _ H) as (A & B & C & D).
  cbn [net with_kbd with_net kbd]. split; [exact A|]. split; [exact B|]. split; [exact C|]. split; [exact D|]. split; [reflexivity|]. intros ->. reflexivity.
Qed.

(** reading the next byte *)
Lemma next_ptr_held stream ch rd p : held stream ch rd -> at_stream ch p -> 0 <= p ->
  held stream (next_ptr ch) rd /\ at_stream (next_ptr ch) (p + 1) /\ wr (next_ptr ch) = wr ch /\ rxrd (next_ptr ch) = rxrd ch.
Proof.
  unfold at_stream, next_ptr. intros H A P. rewrite (h_mode _ _ _ H). cbn [Z.eqb Pos.eqb].
  split; [destruct H; constructor; assumption|]. cbn [ptr set_ptr wr rxrd]. split; [|auto]. rewrite A. clear.
  destruct (Z.eqb_spec (0x6000 + p mod 8192) 0x7FFF) as [E|E]; [dlia|]. destruct (Z.eqb_spec (0x6000 + p mod 8192) 0x5FFF) as [E'|E']; dlia.
Qed.
Lemma peek_held stream ch rd p : held stream ch rd -> at_stream ch p -> rd <= p < wr ch ->
  chip_peek ch = sb stream p /\ in_rx (ptr ch) = true.
Proof.
  unfold at_stream. intros H A P. assert (R : in_rx (ptr ch) = true) by (rewrite A; unfold in_rx; apply andb_true_iff; clear; split; dlia).
  unfold chip_peek. rewrite R. split; [|reflexivity]. rewrite A. replace (0x6000 + p mod 8192 - 0x6000) with (p mod 8192) by lia. apply (h_buf _ _ _ H). exact P.
Qed.

(** all that is offered arrives, up to the end of the stream and the window *)
Lemma arrive1_wr stream ch rd : held stream ch rd -> Z.min (wr ch + 1) (Z.min (Z.of_nat (length stream)) (rd + 8192)) <= wr (arrive1 stream ch).
Proof.
  intros H. unfold arrive1. rewrite (h_open _ _ _ H), (rx_size_8k _ _ _ H), (count_held _ _ _ H). cbn [Z.eqb Pos.eqb andb].
  destruct (Z.ltb_spec (wr ch) (Z.of_nat (length stream))) as [L|L]; cbn [andb]; [|lia].
  destruct (Z.ltb_spec (wr ch - rd) 8192) as [W|W]; cbn [wr]; lia.
Qed.
Lemma arrive_wr stream n : forall ch rd, held stream ch rd ->
  Z.min (wr ch + Z.of_nat n) (Z.min (Z.of_nat (length stream)) (rd + 8192)) <= wr (arrive stream n ch).
Proof.
  induction n as [|n IH]; intros ch rd H; [cbn [arrive]; lia|]. cbn [arrive]. destruct (arrive1_held stream ch rd H) as (A & _).
  pose proof (arrive1_wr stream ch rd H). specialize (IH _ _ A). lia.
Qed.
Lemma before_wr stream e m rd : held stream (net m) rd ->
  Z.min (wr (net m) + Z.of_nat (e_bytes e)) (Z.min (Z.of_nat (length stream)) (rd + 8192)) <= wr (net (before stream e m)).
Proof. intros H. rewrite before_shape, (connect_held _ _ _ _ H). cbn [net with_kbd with_net]. apply arrive_wr, H. Qed.

(** The player's network setup on the simulator. *)
From Verif Require Import Base BaseFacts SimModel SimSpec SimProofs SimNetSpec.

Lemma do_all_app l1 l2 s : do_all (l1 ++ l2) s = bind (do_all l1) (fun a => bind (do_all l2) (fun b => ret (a ++ b))) s.
Proof.
  revert s. induction l1 as [|[ad a] l1 IH]; intros s; cbn [app do_all].
  - unfold bind, ret. destruct (do_all l2 s) as [s2 [b|e]]; reflexivity.
  - unfold bind at 1 3. unfold bind at 2. destruct (do_access ad a s) as [s1 [v|e]]; [|reflexivity]. unfold bind at 1. rewrite IH. unfold bind, ret.
    destruct (do_all l1 s1) as [s2 [x|e]]; [|reflexivity]. destruct (do_all l2 s2) as [s3 [y|e]]; [|reflexivity]. destruct a; reflexivity.
Qed.

(** what is known about a state: the pointer and the chip's memory *)
Definition goes (l : list (Z * access)) (s : sim) (vs : list Z) (s' : sim) : Prop := do_all l s = (s', inl vs).
Lemma goes_app l1 l2 s s1 s2 v1 v2 : goes l1 s v1 s1 -> goes l2 s1 v2 s2 -> goes (l1 ++ l2) s (v1 ++ v2) s2.
Proof. unfold goes. intros A B. rewrite do_all_app. unfold bind, ret. rewrite A, B. reflexivity. Qed.

Lemma next_small s p : s_ptr s = p -> 0 <= p < 0x7fff -> s_ptr (next_ptr s) = p + 1.
Proof. intros E R. cbn [next_ptr set_ptr s_ptr]. rewrite E, land_7fff. apply Z.mod_small. lia. Qed.
(** registers without a function of their own *)
Definition plain_reg (a : Z) : bool := match zget a u_io_map with Some (m, Plain) => can_read m && can_write m | _ => false end.
Lemma plain_read a s : 0 <= a < 0x10000 -> u_intercepted a = true -> plain_reg a = true -> u_read a s = (s, inl (s_uram s a)).
Proof.
  intros R I P. unfold u_read, u_intercept. rewrite Z.mod_small by exact R. rewrite I. unfold io_interceptor, plain_reg in *.
  destruct (zget a u_io_map) as [[m []]|]; try discriminate. apply andb_true_iff in P. destruct P as [P1 P2]. cbn [allowed]. rewrite P1. reflexivity.
Qed.
Lemma plain_write a v s : 0 <= a < 0x10000 -> u_intercepted a = true -> plain_reg a = true -> u_write a v s = (set_uram s a v, inl tt).
Proof.
  intros R I P. unfold u_write, u_intercept. rewrite Z.mod_small by exact R. rewrite I. unfold io_interceptor, plain_reg in *.
  destruct (zget a u_io_map) as [[m []]|]; try discriminate. apply andb_true_iff in P. destruct P as [P1 P2]. cbn [allowed]. rewrite P2. reflexivity.
Qed.
Lemma mode_write v s : Z.land v 131 =? v = true -> exists s', goes (wmode v) s [] s' /\ s_ptr s' = s_ptr s /\ s_uram s' = upd1 (s_uram s) 0 v /\ s_auto s' = Z.testbit v 1 /\ s_indirect s' = Z.testbit v 0.
Proof.
  intros H. eexists. split; [|split; [|split; [|split]]].
  { unfold goes, wmode. cbn [do_all do_access]. unfold a_write, bind. rewrite intercept_cases. change (is_io (49300 mod 65536)) with true. cbv iota. rewrite io_some.
    change (supported_io (49300 mod 65536) (Some v)) with (Some Wmode). cbn [a_call]. unfold write_mode, u_write, u_intercept, bind, put_state, ret, io_interceptor. 
    change (u_intercepted (0 mod 65536)) with true. cbv iota. change (zget (0 mod 65536) u_io_map) with (Some (RW, UMode)). cbv beta iota. change (allowed RW (Some v)) with true. cbv iota.
    cbn [u_call]. rewrite H. reflexivity. }
  all: reflexivity.
Qed.
Lemma seek_low v s h : 0 <= v < 256 -> s_ptr s / 256 = h -> 0 <= h < 128 -> exists s', goes (wadrl v) s [] s' /\ s_ptr s' = 256 * h + v /\ s_uram s' = s_uram s /\ s_auto s' = s_auto s /\ s_indirect s' = s_indirect s.
Proof.
  intros V P H. eexists. split; [unfold goes, wadrl; cbn [do_all do_access]; unfold bind at 1; rewrite low_write; reflexivity|]. cbn [s_ptr set_ram set_ptr s_uram].
  split; [|auto]. rewrite land_7f00, P, (Z.mod_small h) by lia. apply lor_bytes, V.
Qed.
Lemma seek_high v s : 0 <= v < 128 -> exists s', goes (wadrh v) s [] s' /\ s_ptr s' / 256 = v /\ s_uram s' = s_uram s /\ s_auto s' = s_auto s /\ s_indirect s' = s_indirect s.
Proof.
  intros V. eexists. split; [unfold goes, wadrh; cbn [do_all do_access]; unfold bind at 1; rewrite high_write; reflexivity|]. cbn [s_ptr set_ram set_ptr s_uram].
  split; [|auto]. pose proof (Z.mod_pos_bound (s_ptr s) 128 ltac:(lia)). rewrite land_7f, shiftl8, lor_bytes by lia. dlia.
Qed.
Lemma write1 v s p : s_ptr s = p -> 0 <= p < 0x7fff -> u_intercepted p = true -> plain_reg p = true ->
  exists s', goes (wdata [v]) s [] s' /\ s_ptr s' = p + 1 /\ s_uram s' = upd1 (s_uram s) p v /\ s_auto s' = s_auto s /\ s_indirect s' = s_indirect s.
Proof.
  intros P R I PR. eexists. split; [unfold goes, wdata; cbn [map do_all do_access]; unfold bind at 1; rewrite data_write, P, plain_write by (assumption || lia); reflexivity|].
  split; [|split; [reflexivity|auto]]. change (s_ptr (next_ptr (set_uram s p v)) = p + 1). apply next_small; [exact P|exact R].
Qed.
Lemma read1 s p : s_ptr s = p -> 0 <= p < 0x7fff -> u_intercepted p = true -> plain_reg p = true ->
  exists s', goes rdata s [s_uram s p] s' /\ s_ptr s' = p + 1 /\ s_uram s' = s_uram s /\ s_auto s' = s_auto s /\ s_indirect s' = s_indirect s.
Proof.
  intros P R I PR. eexists. split; [unfold goes, rdata; cbn [map do_all do_access]; unfold bind at 1; rewrite data_read, P, plain_read by (assumption || lia); reflexivity|].
  split; [|split; [reflexivity|auto]]. apply next_small; [exact P|exact R].
Qed.
(** a list into consecutive registers *)
Fixpoint fill (f : Z -> Z) (p : Z) (l : list Z) : Z -> Z := match l with [] => f | v :: l' => fill (upd1 f p v) (p + 1) l' end.
Lemma write_list : forall l s p, s_ptr s = p -> 0 <= p -> p + Z.of_nat (length l) <= 0x7fff -> forallb (fun a => u_intercepted a && plain_reg a) (zrange_from p (length l)) = true ->
  exists s', goes (wdata l) s [] s' /\ s_ptr s' = p + Z.of_nat (length l) /\ s_uram s' = fill (s_uram s) p l /\ s_auto s' = s_auto s /\ s_indirect s' = s_indirect s.
Proof.
  induction l as [|v l IH]; intros s p P R E F.
  - exists s. split; [reflexivity|]. cbn [length Z.of_nat fill]. split; [rewrite Z.add_0_r; exact P|auto].
  - cbn [length] in E. cbn [length zrange_from forallb] in F. apply andb_true_iff in F. destruct F as [F1 F2]. apply andb_true_iff in F1. destruct F1 as [F1 F3].
    destruct (write1 v s p P ltac:(lia) F1 F3) as (s1 & G1 & P1 & U1 & A1 & I1). destruct (IH s1 (p + 1) P1 ltac:(lia) ltac:(lia) F2) as (s2 & G2 & P2 & U2 & A2 & I2).
    exists s2. split; [exact (goes_app _ _ _ _ _ _ _ G1 G2)|]. cbn [length fill]. split; [lia|]. rewrite U2, U1. split; [reflexivity|]. split; congruence.
Qed.
(** socket mode and commands *)
Lemma write_smode s : s_ptr s = 0x400 -> exists s', goes (wdata [0x21]) s [] s' /\ s_ptr s' = 0x401 /\ s_uram s' = upd1 (s_uram s) 0x400 0x21 /\ s_auto s' = s_auto s /\ s_indirect s' = s_indirect s.
Proof.
  intros P. eexists. split; [unfold goes, wdata; cbn [map do_all do_access]; unfold bind at 1; rewrite data_write, P; reflexivity|].
  split; [|split; [reflexivity|auto]]. change (s_ptr (next_ptr (set_uram s 0x400 0x21)) = 0x401). apply (next_small _ 0x400); [exact P|lia].
Qed.
Lemma write_command s v st : s_ptr s = 0x401 -> (v = 1 /\ st = 0x13) \/ (v = 4 /\ st = 0x17) ->
  exists s', goes (wdata [v]) s [] s' /\ s_ptr s' = 0x402 /\ s_uram s' = upd1 (upd1 (s_uram s) 0x403 st) 0x401 v /\ s_auto s' = s_auto s /\ s_indirect s' = s_indirect s.
Proof.
  intros P C. exists (set_ram (next_ptr (set_uram (set_uram s 0x403 st) 0x401 v)) 0xc097 v). split.
  - unfold goes, wdata. cbn [map do_all do_access]. unfold bind at 1. rewrite data_write, P. destruct C as [[-> ->]|[-> ->]]; reflexivity.
  - split; [|split; [reflexivity|auto]]. change (s_ptr (next_ptr (set_uram (set_uram s 0x403 st) 0x401 v)) = 0x402). apply (next_small _ 0x401); [exact P|lia].
Qed.

Lemma write_known n l s p : s_ptr s = p -> 0 <= p -> p + Z.of_nat n <= 0x7fff -> forallb (fun a => u_intercepted a && plain_reg a) (zrange_from p n) = true -> length l = n ->
  exists s', goes (wdata l) s [] s' /\ s_ptr s' = p + Z.of_nat n /\ s_uram s' = fill (s_uram s) p l /\ s_auto s' = s_auto s /\ s_indirect s' = s_indirect s.
Proof. intros P R E F <-. apply write_list; assumption. Qed.
Ltac lit := split; [intro; discriminate|reflexivity].
Ltac lit1 := intro; discriminate.
Ltac dest5 H s G P U A I := destruct H as (s & G & P & U & A & I).
Lemma handshake_goes mac ip remote port s : length mac = 6%nat -> length ip = 4%nat -> length remote = 4%nat -> length port = 2%nat ->
  exists s', goes (handshake mac ip remote port) s [0x13; 0x17] s' /\ s_ptr s' = 0x404 /\ s_auto s' = true /\ s_indirect s' = true /\
    s_uram s' = upd1 (upd1 (upd1 (upd1 (fill (fill (fill (upd1 (fill (fill (fill (upd1 (upd1 (s_uram s) 0 0x80) 0 3) 0x09 mac) 0x0f ip) 0x1a [3; 3]) 0x400 0x21) 0x404 [0xc0; 0]) 0x40c remote) 0x410 port)
      0x403 0x13) 0x401 1) 0x403 0x17) 0x401 4.
Proof.
  intros L1 L2 L3 L4.
  dest5 (mode_write 0x80 s eq_refl) a1 G1 P1 U1 A1 I1.
  dest5 (mode_write 3 a1 eq_refl) a2 G2 P2 U2 A2 I2.
  dest5 (seek_high 0 a2 ltac:(lit)) a3 G3 P3 U3 A3 I3.
  dest5 (seek_low 0x09 a3 0 ltac:(lit) P3 ltac:(lit)) a4 G4 P4 U4 A4 I4.
  dest5 (write_known 6 mac a4 _ P4 ltac:(lit1) ltac:(lit1) eq_refl L1) a5 G5 P5 U5 A5 I5.
  dest5 (seek_low 0x0f a5 0 ltac:(lit) ltac:(rewrite P5; reflexivity) ltac:(lit)) a6 G6 P6 U6 A6 I6.
  dest5 (write_known 4 ip a6 _ P6 ltac:(lit1) ltac:(lit1) eq_refl L2) a7 G7 P7 U7 A7 I7.
  dest5 (seek_low 0x1a a7 0 ltac:(lit) ltac:(rewrite P7; reflexivity) ltac:(lit)) a8 G8 P8 U8 A8 I8.
  dest5 (write_list [3; 3] a8 0x1a P8 ltac:(lit1) ltac:(lit1) eq_refl) a9 G9 P9 U9 A9 I9.
  dest5 (seek_high 4 a9 ltac:(lit)) b1 H1 Q1 V1 B1 J1.
  dest5 (seek_low 0 b1 4 ltac:(lit) Q1 ltac:(lit)) b2 H2 Q2 V2 B2 J2.
  dest5 (write_smode b2 Q2) b3 H3 Q3 V3 B3 J3.
  dest5 (seek_low 4 b3 4 ltac:(lit) ltac:(rewrite Q3; reflexivity) ltac:(lit)) b4 H4 Q4 V4 B4 J4.
  dest5 (write_list [0xc0; 0] b4 0x404 Q4 ltac:(lit1) ltac:(lit1) eq_refl) b5 H5 Q5 V5 B5 J5.
  dest5 (seek_low 0x0c b5 4 ltac:(lit) ltac:(rewrite Q5; reflexivity) ltac:(lit)) b6 H6 Q6 V6 B6 J6.
  dest5 (write_known 4 remote b6 _ Q6 ltac:(lit1) ltac:(lit1) eq_refl L3) b7 H7 Q7 V7 B7 J7.
  dest5 (write_known 2 port b7 _ Q7 ltac:(lit1) ltac:(lit1) eq_refl L4) b8 H8 Q8 V8 B8 J8.
  dest5 (seek_low 1 b8 4 ltac:(lit) ltac:(rewrite Q8; reflexivity) ltac:(lit)) c1 K1 R1 W1 C1 M1.
  dest5 (write_command c1 1 0x13 R1 (or_introl (conj eq_refl eq_refl))) c2 K2 R2 W2 C2 M2.
  dest5 (seek_low 3 c2 4 ltac:(lit) ltac:(rewrite R2; reflexivity) ltac:(lit)) c3 K3 R3 W3 C3 M3.
  dest5 (read1 c3 0x403 R3 ltac:(lit) eq_refl eq_refl) c4 K4 R4 W4 C4 M4.
  dest5 (seek_low 1 c4 4 ltac:(lit) ltac:(rewrite R4; reflexivity) ltac:(lit)) c5 K5 R5 W5 C5 M5.
  dest5 (write_command c5 4 0x17 R5 (or_intror (conj eq_refl eq_refl))) c6 K6 R6 W6 C6 M6.
  dest5 (seek_low 3 c6 4 ltac:(lit) ltac:(rewrite R6; reflexivity) ltac:(lit)) c7 K7 R7 W7 C7 M7.
  dest5 (read1 c7 0x403 R7 ltac:(lit) eq_refl eq_refl) c8 K8 R8 W8 C8 M8.
  assert (E4 : s_uram c3 0x403 = 0x13) by (rewrite W3, W2; reflexivity). rewrite E4 in K4.
  assert (E8 : s_uram c7 0x403 = 0x17) by (rewrite W7, W6; reflexivity). rewrite E8 in K8.
  exists c8. split; [|split; [exact R8|split; [|split]]].
  - unfold handshake. change [0x13; 0x17] with (([] : list Z) ++ [] ++ [] ++ [] ++ [] ++ [] ++ [] ++ [] ++ [] ++ [] ++ [] ++ [] ++ [] ++ [] ++ [] ++ [] ++ [] ++ [] ++ [] ++ [] ++ [0x13] ++ [] ++ [] ++ [] ++ [0x17]).
    repeat (eapply goes_app; [eassumption|]). exact K8.
  - rewrite C8, C7, C6, C5, C4, C3, C2, C1, B8, B7, B6, B5, B4, B3, B2, B1, A9, A8, A7, A6, A5, A4, A3, A2. reflexivity.
  - rewrite M8, M7, M6, M5, M4, M3, M2, M1, J8, J7, J6, J5, J4, J3, J2, J1, I9, I8, I7, I6, I5, I4, I3, I2. reflexivity.
  - rewrite W8, W7, W6, W5, W4, W3, W2, W1, V8, V7, V6, V5, V4, V3, V2, V1, U9, U8, U7, U6, U5, U4, U3, U2, U1. reflexivity.
Qed.

(** nothing is ever received *)
Lemma poll_goes s : s_ptr s / 256 = 4 -> exists s', goes poll s [s_uram s 0x426] s' /\ s_ptr s' / 256 = 4 /\ s_uram s' = s_uram s.
Proof.
  intros P. dest5 (seek_low 0x26 s 4 ltac:(lit) P ltac:(lit)) s1 G1 P1 U1 A1 I1. dest5 (read1 s1 0x426 P1 ltac:(lit) eq_refl eq_refl) s2 G2 P2 U2 A2 I2.
  exists s2. split; [unfold poll; rewrite <- U1; exact (goes_app _ _ _ _ _ _ _ G1 G2)|]. split; [rewrite P2; reflexivity|congruence].
Qed.
Lemma polls_go n : forall s, s_ptr s / 256 = 4 -> exists s', goes (concat (repeat poll n)) s (repeat (s_uram s 0x426) n) s' /\ s_uram s' = s_uram s.
Proof.
  induction n as [|n IH]; intros s P; [exists s; split; reflexivity|]. destruct (poll_goes s P) as (s1 & G1 & P1 & U1). destruct (IH s1 P1) as (s2 & G2 & U2).
  exists s2. cbn [repeat concat]. split; [|congruence]. rewrite <- U1 in *. exact (goes_app _ _ _ _ _ _ _ G1 G2).
Qed.

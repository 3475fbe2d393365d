(** Property C84: the decimal flag. *)
From Verif Require Import Base BaseFacts OpcodeModel SymbolModel SymbolSpec SymData SymCert AddrThms AsmModel PlayerCode CpuModel PlayerModel PlayerSpec PlayerExec ChipProofs RecvThms LayoutProofs
  DecimalModel DecimalProofs.
Opaque lowcode code hgr resident startup symbols code_map op_cmds program program_memory.

(** No instruction of the assembled player is CLD or SED. *)
Theorem C84_no_flag_instruction : forall a s bytes b,
  In (a, s) program -> match s with Ins _ _ | Patched _ _ | PatchedLo _ _ => True | _ => False end ->
  encode symbols a s = Some bytes -> nth_error (map snd bytes) 0 = Some b -> b <> 0xD8 /\ b <> 0xF8.
Proof.
  intros a s bytes b _ I E B.
  assert (K : forall i md x, opcode_byte i md = Some x -> x <> 0xD8 /\ x <> 0xF8).
  { intros i md x X. destruct i, md; cbn [opcode_byte] in X; try discriminate; injection X as <-; split; discriminate. }
  assert (KE : forall i o l, encode_ins symbols a i o = Some l -> forall x, nth_error l 0 = Some x -> x <> 0xD8 /\ x <> 0xF8).
  { intros i o l X x Y. unfold encode_ins in X. destruct (opcode_byte i (mode_of o)) eqn:OB; [|discriminate]. destruct (operand_value symbols a o); [|discriminate].
    destruct (operand_fits o _); [|discriminate]. injection X as <-. injection Y as <-. exact (K _ _ _ OB). }
  destruct s as [l|i o|i o|i o|l|e]; try contradiction; cbn [encode] in E.
  - destruct (encode_ins symbols a i o) as [l|] eqn:X; [|discriminate]. injection E as <-. apply (KE i o l X). rewrite map_map in B. cbn [snd] in B. rewrite map_id in B. exact B.
  - destruct (encode_ins symbols a i o) as [[|x l]|] eqn:X; try discriminate. injection E as <-. apply (KE i o _ X). exact B.
  - destruct (encode_ins symbols a i o) as [[|x [|y l]]|] eqn:X; try discriminate. injection E as <-. apply (KE i o _ X). exact B.
Qed.
Print Assumptions C84_no_flag_instruction.

(** Started with the flag clear, the machine with the flag does what the machine
    without it does, and the flag stays clear: every theorem about runs of the
    player holds of it. *)
Theorem C84_flag_clear : forall stream sched n m m',
  run stream sched n m = Some m' -> run_d stream sched n (false, m) = Some (false, m').
Proof. intros stream sched n m m' R. exact (run_clear stream n sched m m' R). Qed.
Print Assumptions C84_flag_clear.

(** With the flag set, ADC adds decimally: on two decimal digits each, and a carry,
    the result's digits and carry are the sum's. *)
Theorem C84_decimal_adc : forall a1 a0 b1 b0 c, 0 <= a1 <= 9 -> 0 <= a0 <= 9 -> 0 <= b1 <= 9 -> 0 <= b0 <= 9 -> 0 <= c <= 1 ->
  let t := decimal_sum (16 * a1 + a0) (16 * b1 + b0) c in
  exists h l, t mod 256 = 16 * h + l /\ 0 <= h <= 9 /\ 0 <= l <= 9 /\
    (if 256 <=? t then 100 else 0) + 10 * h + l = (10 * a1 + a0) + (10 * b1 + b0) + c.
Proof.
  intros a1 a0 b1 b0 c A1 A0 B1 B0 C. cbv zeta. unfold decimal_sum.
  assert (DM : forall x y, 0 <= y <= 9 -> (16 * x + y) mod 16 = y /\ (16 * x + y) / 16 = x).
  { intros x y Y. split; symmetry; [apply (Z.mod_unique _ 16 x); lia|apply (Z.div_unique _ 16 x y); lia]. }
  destruct (DM a1 a0 A0) as [E1 E2]. destruct (DM b1 b0 B0) as [E3 E4]. clear DM. rewrite E1, E2, E3, E4. clear E1 E2 E3 E4.
  set (lo := a0 + b0 + c). assert (L : 0 <= lo <= 19) by lia. cbv zeta.
  assert (LO : lo = a0 + b0 + c) by reflexivity. clearbody lo.
  assert (M : forall s h l, s = 16 * h + l + (if 256 <=? s then 256 else 0) -> 0 <= h <= 9 -> 0 <= l <= 9 -> s mod 256 = 16 * h + l).
  { intros s h l E H K. destruct (Z.leb_spec 256 s); [symmetry; apply (Z.mod_unique _ 256 1); lia|rewrite Z.mod_small; lia]. }
  assert (G : forall s h l, s = 16 * h + l + (if 256 <=? s then 256 else 0) -> 0 <= h <= 9 -> 0 <= l <= 9 ->
    (if 256 <=? s then 100 else 0) + 10 * h + l = (10 * a1 + a0) + (10 * b1 + b0) + c ->
    exists h l, s mod 256 = 16 * h + l /\ 0 <= h <= 9 /\ 0 <= l <= 9 /\ (if 256 <=? s then 100 else 0) + 10 * h + l = (10 * a1 + a0) + (10 * b1 + b0) + c).
  { intros s h l E H K V. exists h, l. split; [apply M; assumption|]. split; [exact H|]. split; [exact K|exact V]. }
  destruct (Z.leb_spec 10 lo) as [H|H].
  - assert (EM : (lo + 6) mod 16 = lo - 10) by (symmetry; apply (Z.mod_unique _ 16 1); lia). rewrite EM. clear EM.
    destruct (Z.leb_spec 0xA0 (16 * a1 + 16 * b1 + (lo - 10 + 16))) as [K|K].
    + apply (G _ (a1 + b1 + 1 - 10) (lo - 10)); destruct (Z.leb_spec 256 (16 * a1 + 16 * b1 + (lo - 10 + 16) + 0x60)); lia.
    + apply (G _ (a1 + b1 + 1) (lo - 10)); destruct (Z.leb_spec 256 (16 * a1 + 16 * b1 + (lo - 10 + 16))); lia.
  - destruct (Z.leb_spec 0xA0 (16 * a1 + 16 * b1 + lo)) as [K|K].
    + apply (G _ (a1 + b1 - 10) lo); destruct (Z.leb_spec 256 (16 * a1 + 16 * b1 + lo + 0x60)); lia.
    + apply (G _ (a1 + b1) lo); destruct (Z.leb_spec 256 (16 * a1 + 16 * b1 + lo)); lia.
Qed.
Print Assumptions C84_decimal_adc.

Example C84_adc : decimal_sum 0x58 0x47 1 = 0x106.
Proof. reflexivity. Qed.

Lemma at_ack m : label_address symbols L_op_ack = Some (pc m) -> pc m = 0xBA72.
Proof. intros A. pose proof (op_address _ ack_cmd) as X. cbn [op_label] in X. rewrite A in X. transitivity (player_start ACK); [congruence|exact ack_start]. Qed.
(** Started with the flag set, nothing clears it up to and including an ACK, and
    every second ACK gives the chip a wrong read position (compare C41). *)
Theorem C84_flag_set : forall stream sched m rd,
  label_address symbols L_op_ack = Some (pc m) ->
  ready stream rd (rd + 2046) m -> rd mod 4096 = 2048 -> rd + 2048 <= wr (net m) ->
  sb stream (rd + 2046) = 0x54 \/ sb stream (rd + 2046) = 0x55 ->
  exists n m', run_d stream sched n (true, m) = Some (true, m') /\
    pc m' = 0x4037 (* checkrecv *) /\
    taken m' = taken m ++ [sb stream (rd + 2046); sb stream (rd + 2047)] /\ wr (net m) <= wr (net m') /\
    rxbase (net m') <> (rd + 2048) mod 65536.
Proof.
  intros stream sched m rd PC R RD W SW.
  assert (P : pc m = 0xBA72) by (exact (at_ack m PC)).
  assert (R0 : rd mod 256 = 0) by (clear - RD; dlia).
  destruct (ack_decimal stream sched m rd P R R0 W SW) as (n & m' & RN & P' & B & WR & T).
  exists n, m'. split; [exact RN|]. split; [exact P'|]. split; [exact T|]. split; [exact WR|].
  rewrite B. intros E. clear - E RD.
  assert (K : rd mod 65536 / 256 = 16 * (rd / 4096 mod 16) + 8) by dlia.
  assert (K' : (rd + 2048) mod 65536 = 4096 * ((rd / 4096 mod 16 + 1) mod 16)) by dlia.
  rewrite K, K' in E. assert (I : 0 <= rd / 4096 mod 16 < 16) by (apply Z.mod_pos_bound; reflexivity).
  set (k := rd / 4096 mod 16) in *. clearbody k. clear K K' RD.
  assert (C : forallb (fun k => negb (256 * (decimal_sum (16 * k + 8) 8 0 mod 256) =? 4096 * ((k + 1) mod 16))) (zrange 16) = true) by reflexivity.
  rewrite forallb_forall in C. specialize (C k). rewrite E, Z.eqb_refl in C. discriminate C. apply in_zrange; lia.
Qed.
Print Assumptions C84_flag_set.
(** At the second ACK of a movie the chip is told that 5632 bytes have been read
    although 4096 have. *)
Theorem C84_second_ack : forall stream sched m,
  label_address symbols L_op_ack = Some (pc m) -> ready stream 2048 4094 m -> 4096 <= wr (net m) ->
  sb stream 4094 = 0x54 \/ sb stream 4094 = 0x55 ->
  exists n m', run_d stream sched n (true, m) = Some (true, m') /\ pc m' = 0x4037 (* checkrecv *) /\
    wr (net m) <= wr (net m') /\ rx_count (net m') = (wr (net m') - 5632) mod 65536.
Proof.
  intros stream sched m PC R W SW.
  assert (P : pc m = 0xBA72) by (exact (at_ack m PC)).
  destruct (ack_decimal stream sched m 2048 P R eq_refl W SW) as (n & m' & RN & P' & B & WR & _).
  exists n, m'. split; [exact RN|]. split; [exact P'|]. split; [exact WR|].
  unfold rx_count. rewrite B. reflexivity.
Qed.
Print Assumptions C84_second_ack.

Definition stream2 : list Z := repeat 0x54 (Z.to_nat 8192).
Definition chip2 (w : Z) : chip := Chip 3 (0x6000 + 4094) (fun a => if a =? 0x1A then 3 else 0) 0x17 2048 2048 w (fun j => sb stream2 j).
Definition machine2 (w : Z) : machine := M 0xBA72 1 0 2 0xFF false false false program_memory true true true 0 (chip2 w) 1000 [] [].
Lemma ready2 w : 4096 <= w <= 8192 -> ready stream2 2048 4094 (machine2 w).
Proof.
  intros B. destruct (memory_loaded (machine2 w) eq_refl) as [L _]. constructor; [exact L| |reflexivity|reflexivity|reflexivity|lia].
  assert (E : Z.of_nat (length stream2) = 8192) by (unfold stream2; rewrite repeat_length, Z2Nat.id; lia).
  unfold machine2, chip2. cbn [net]. constructor; cbn [wmode status regs rxbase wr buf]; try rewrite E; try reflexivity; try lia.
  intros j J. rewrite Z.mod_small by lia. reflexivity.
Qed.
(** With exactly two frames arrived the chip then claims 64000 bytes; with three,
    512, so that the player does not go on although the third frame is there. *)
Example C84_case : 
  (label_address symbols L_op_ack = Some (pc (machine2 4096)) /\ ready stream2 2048 4094 (machine2 4096) /\ 2048 mod 4096 = 2048 /\ 4096 <= wr (net (machine2 4096)) /\
   (sb stream2 4094 = 0x54 \/ sb stream2 4094 = 0x55)) /\
  ready stream2 2048 4094 (machine2 6144) /\ (4096 - 5632) mod 65536 = 64000 /\ (6144 - 5632) mod 65536 / 256 < 8.
Proof.
  split; [split; [pose proof (op_address ACK ltac:(exact ack_cmd)) as X; rewrite ack_start in X; exact X|split; [apply ready2; lia|split; [reflexivity|split; [cbn; lia|left]]]]|split; [apply ready2; lia|split; reflexivity]].
  unfold sb, stream2. assert (I : (Z.to_nat 4094 < length (repeat 0x54%Z (Z.to_nat 8192)))%nat) by (rewrite repeat_length; lia).
  exact (repeat_spec _ _ _ (nth_In _ 0 I)).
Qed.

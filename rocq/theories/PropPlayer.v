(** Properties C40-C42: the player's routines. *)
From Verif Require Import Base BaseFacts OpcodeModel MovieSpec SymbolModel SymbolSpec SymData SymCert AddrThms AsmModel PlayerCode CpuModel PlayerModel PlayerSpec
  PlayerExec ChipProofs TickExec TickCheck TickThms EffectProofs RecvProofs RecvThms LayoutProofs PropSymbols.
Opaque lowcode code hgr resident startup symbols code_map op_table op_cmds program program_memory sym_lits.

(** C40: in any state in which the player's code is in memory, X is 0 and seven
    more bytes of the stream have arrived, under any schedule. *)
Theorem C40_tick_routine : forall stream sched m rd c t p,
  bytes_ok stream -> In (TICK t p) op_cmds -> label_address symbols (OpTick t p) = Some (pc m) ->
  ready stream rd c m -> c + 7 <= wr (net m) ->
  exists n m', run stream sched n m = Some m' /\
    ready stream rd (c + 7) m' /\ pc m' = 256 * sb stream (c + 5) + sb stream (c + 6) /\ rx m' = 0 /\
    effect m m' 73 [4; 4 + tick_cycles t]
      (map (fun k => (bank m 0x2000, 256 * p + sb stream (c + k), sb stream c)) [1; 2; 3; 4]) []
      (map (fun k => sb stream (c + k)) [0; 1; 2; 3; 4; 5; 6]) /\
    same_switches m m'.
Proof.
  intros stream sched m rd c t p BO I A R W.
  destruct (tick_runs stream sched m rd c t p BO R (tick_table _ _ _ I A) W) as (n & m' & _ & RN & RD & PC & EF & SW & _).
  exists n, m'. split; [exact RN|]. split; [exact RD|]. split; [exact PC|]. split; [exact (rdy_x _ _ _ _ RD)|]. split; [exact EF|exact SW].
Qed.
Print Assumptions C40_tick_routine.
(** The duty cycle is the opcode's, up to one cycle. *)
Theorem C40_duty_cycle : forall t p, In (TICK t p) op_cmds -> 4 <= t <= 66 /\ 32 <= p < 64 /\ t - 1 <= tick_cycles t <= t.
Proof. intros t p H. apply cmd_range in H. unfold tick_cycles. destruct (Z.eqb_spec t 22); [|destruct (Z.eqb_spec t 40)]; lia. Qed.
Print Assumptions C40_duty_cycle.

(** a machine as required: stream position 9, double hires, auxiliary bank, the
    routine for tick 22 on page 0x21 *)
Definition stream_ex : list Z := repeat 0x54 4096.
Definition chip_ex (p : Z) : chip := Chip 3 (0x6000 + p mod 8192) (fun a => if a =? 0x1A then 3 else 0) 0x17 0 0 4096 (fun j => sb stream_ex j).
Definition machine_ex (a p : Z) : machine := M a 1 0 2 0xFF false false false program_memory true true true 0 (chip_ex p) 1000 [] [].
Lemma bytes_ex : bytes_ok stream_ex.
Proof. intros b H. apply repeat_spec in H. subst b. lia. Qed.
Lemma ready_ex a p : 0 <= p -> ready stream_ex 0 p (machine_ex a p).
Proof.
  intros P. destruct (memory_loaded (machine_ex a p) eq_refl) as [L _]. constructor; [exact L| |reflexivity|reflexivity|reflexivity|exact P].
  assert (E : Z.of_nat (length stream_ex) = 4096) by (unfold stream_ex; rewrite repeat_length; reflexivity).
  unfold machine_ex, chip_ex. cbn [net]. constructor; cbn [wmode status regs rxbase wr buf]; try rewrite E; try reflexivity; try lia.
  intros j J. rewrite Z.mod_small by lia. reflexivity.
Qed.
Example C40_case : exists a, In (TICK 22 0x21) op_cmds /\ label_address symbols (OpTick 22 0x21) = Some (pc (machine_ex a 9)) /\
  bytes_ok stream_ex /\ ready stream_ex 0 9 (machine_ex a 9) /\ 9 + 7 <= wr (net (machine_ex a 9)) /\ bank (machine_ex a 9) 0x2000 = true.
Proof.
  assert (I : In (TICK 22 0x21) op_cmds) by exact tick_22.
  exists (player_start (TICK 22 0x21)). split; [exact I|]. split; [exact (op_address _ I)|]. split; [exact bytes_ex|]. split; [apply ready_ex; lia|]. split; [cbn; lia|reflexivity].
Qed.

(** C41 *)
Theorem C41_ack : forall stream sched m rd,
  bytes_ok stream -> label_address symbols L_op_ack = Some (pc m) ->
  (* at the end of a frame, the next frame has arrived, no key is pressed *)
  ready stream rd (rd + 2046) m -> rd mod 2048 = 0 -> rd + 4096 <= wr (net m) ->
  kbd m < 128 -> (forall i, e_key (sched i) = None) ->
  sb stream (rd + 2046) = 0x54 \/ sb stream (rd + 2046) = 0x55 ->
  exists n m', run stream sched n m = Some m' /\
    (* at the opcode whose address comes first in the next frame *)
    ready stream (rd + 2048) (rd + 2048 + 2) m' /\ pc m' = 256 * sb stream (rd + 2048) + sb stream (rd + 2049) /\ rx m' = 0 /\
    rxrd (net m') = (rd + 2048) mod 65536 /\
    effect m m' (2 * 73) [4; 4 + 34; 73 + 4; 73 + 4 + 34] [] [0xC000 + sb stream (rd + 2046)]
      [sb stream (rd + 2046); sb stream (rd + 2047); sb stream (rd + 2048); sb stream (rd + 2049)] /\
    sw80 m' = sw80 m /\ swpage2 m' = (sb stream (rd + 2046) =? 0x55) /\ swhires m' = swhires m.
Proof.
  intros stream sched m rd BO A R RM W K NK SW.
  assert (I : In ACK op_cmds) by (exact ack_cmd).
  assert (P : pc m = 0xBA72). { pose proof (op_address _ I) as X. cbn [op_label] in X. rewrite A in X. injection X as ->. exact ack_start. }
  destruct (ack_wait_runs stream sched m rd BO P R ltac:(clear - RM; dlia) W SW K NK) as (n & m' & _ & RN & RD & PC & EF & S1 & S2 & S3 & RX).
  exists n, m'. split; [exact RN|]. replace (rd + 2048 + 2) with (rd + 2050) by (clear; lia). split; [exact RD|]. split; [exact PC|]. split; [exact (rdy_x _ _ _ _ RD)|].
  split; [exact RX|]. split; [exact EF|]. auto.
Qed.
Print Assumptions C41_ack.
Example C41_case : bytes_ok stream_ex /\ label_address symbols L_op_ack = Some (pc (machine_ex 0xBA72 2046)) /\
  ready stream_ex 0 2046 (machine_ex 0xBA72 2046) /\ 4096 <= wr (net (machine_ex 0xBA72 2046)) /\ kbd (machine_ex 0xBA72 2046) < 128 /\
  sb stream_ex 2046 = 0x54.
Proof.
  split; [exact bytes_ex|]. split; [|split; [apply ready_ex; lia|split; [cbn; lia|split; [cbn; lia|reflexivity]]]].
  pose proof (op_address ACK ltac:(exact ack_cmd)) as X. rewrite ack_start in X. exact X.
Qed.

(** C42: [start] is what the transcoder reads from the shipped symbol file. *)
Theorem C42_symbols_match : forall contents start c,
  filter is_sym (split_on 10 contents) = sym_lines -> fill_opcode_addresses contents = Ok start ->
  In c op_cmds -> label_address symbols (op_label c) = Some (start c).
Proof. intros contents start c L F I. rewrite (fill_player _ L) in F. injection F as <-. apply op_address, I. Qed.
Print Assumptions C42_symbols_match.
(** every label has the address of its place in the assembled program, and
    everything can be encoded *)
Theorem C42_assembles : forall a s, In (a, s) (resident ++ startup) ->
  (exists bytes, encode symbols a s = Some bytes /\ Z.of_nat (length bytes) = size s) /\
  forall l, s = Lab l -> label_address symbols l = Some a.
Proof.
  intros a s H. split; [destruct (assembles a s H) as (b & E); exists b; split; [exact E|exact (encode_length _ _ _ E)]|].
  intros l ->. apply label_once, H.
Qed.
Print Assumptions C42_assembles.
(** Nothing that stays resident is on the hi-res page 0x2000-0x3FFF or overlaps;
    the startup code fits in there. *)
Theorem C42_layout :
  (forall a s, In (a, s) resident -> (0x800 <= a /\ a + size s <= 0x2000) \/ (0x4000 <= a /\ a + size s <= 0xBB00)) /\
  (forall a s a' s', In (a, s) resident -> In (a', s') resident -> a + size s <= a' \/ a' + size s' <= a \/ (a = a' /\ s = s')) /\
  (forall a s, In (a, s) startup -> 0x2000 <= a /\ a + size s <= 0x4000).
Proof.
  split; [intros a s H; apply resident_bounds in H; lia|]. split; [exact resident_disjoint|]. intros a s H. apply startup_bounds in H. lia.
Qed.
Print Assumptions C42_layout.
(** No branch of the resident code crosses a page. *)
Theorem C42_branches : forall a i e, In (a, Ins i (Rel e)) resident ->
  exists t, resolve symbols e = Some t /\ (a + 2) / 256 = t / 256.
Proof. exact branch_page. Qed.
Print Assumptions C42_branches.
Example C42_case : In (0x4044, Ins iBCS (Rel (Lbl L_recv 0))) resident /\ In (0x4054, Ins iBPL (Rel (Lbl L_recv_at2 0))) resident /\
  In (TICK 22 0x21) op_cmds /\ exists contents, filter is_sym (split_on 10 contents) = sym_lines.
Proof. split; [exact branch_recv|]. split; [exact branch_key|]. split; [exact tick_22|exact PropSymbols.contents_ex]. Qed.

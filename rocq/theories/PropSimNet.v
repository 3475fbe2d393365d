(** Property C87: the player's network setup on the simulated Uthernet II. *)
From Verif Require Import Base BaseFacts SimModel SimSpec SimProofs SimNetSpec SimNetProofs.
From Verif Require CpuModel RecvThms PropSim PropBoot.


(** C87: from any state, whatever the addresses: the player's setup (the accesses
    of player/main.s 141-256) raises no exception; the two status reads give "open"
    and "connected"; the addresses it wrote are in the registers they belong to, and
    the data port is in indirect, auto-incrementing mode. *)
Theorem C87_handshake : forall s mac ip remote port, length mac = 6%nat -> length ip = 4%nat -> length remote = 4%nat -> length port = 2%nat ->
  exists s', do_all (handshake mac ip remote port) s = (s', inl [0x13; 0x17]) /\ s_auto s' = true /\ s_indirect s' = true /\
    holds s' 0x09 mac /\ holds s' 0x0f ip /\ holds s' 0x1a [3; 3] /\ holds s' 0x400 [0x21] /\ holds s' 0x404 [0xc0; 0] /\ holds s' 0x40c remote /\ holds s' 0x410 port /\
    s_uram s' 0x426 = s_uram s 0x426 /\ s_uram s' 0x427 = s_uram s 0x427.
Proof.
  intros s mac ip remote port L1 L2 L3 L4. destruct (handshake_goes mac ip remote port s L1 L2 L3 L4) as (s' & G & _ & A & I & U). exists s'.
  split; [exact G|]. split; [exact A|]. split; [exact I|]. clear G A I.
  do 6 (destruct mac as [|? mac]; [discriminate L1|]). destruct mac; [|discriminate L1].
  do 4 (destruct ip as [|? ip]; [discriminate L2|]). destruct ip; [|discriminate L2].
  do 4 (destruct remote as [|? remote]; [discriminate L3|]). destruct remote; [|discriminate L3].
  do 2 (destruct port as [|? port]; [discriminate L4|]). destruct port; [|discriminate L4].
  cbn [holds]. rewrite U. cbv. repeat split; reflexivity.
Qed.
Print Assumptions C87_handshake.

(** But no byte is ever received: the simulator has no network.  However long the
    player polls the received-size register, it reads what was there before. *)
Theorem C87_nothing_received : forall s mac ip remote port n, length mac = 6%nat -> length ip = 4%nat -> length remote = 4%nat -> length port = 2%nat ->
  exists s', do_all (handshake mac ip remote port ++ concat (repeat poll n)) s = (s', inl (0x13 :: 0x17 :: repeat (s_uram s 0x426) n)).
Proof.
  intros s mac ip remote port n L1 L2 L3 L4. destruct (handshake_goes mac ip remote port s L1 L2 L3 L4) as (s1 & G1 & P & _ & _ & U).
  assert (P4 : s_ptr s1 / 256 = 4) by (rewrite P; reflexivity).
  destruct (polls_go n s1 P4) as (s2 & G2 & _). exists s2.
  assert (E : s_uram s1 0x426 = s_uram s 0x426).
  { rewrite U. clear - L1 L2 L3 L4. do 6 (destruct mac as [|? mac]; [discriminate L1|]). destruct mac; [|discriminate L1].
    do 4 (destruct ip as [|? ip]; [discriminate L2|]). destruct ip; [|discriminate L2].
    do 4 (destruct remote as [|? remote]; [discriminate L3|]). destruct remote; [|discriminate L3].
    do 2 (destruct port as [|? port]; [discriminate L4|]). destruct port; [|discriminate L4]. reflexivity. }
  rewrite E in G2. exact (goes_app _ _ _ _ _ _ _ G1 G2).
Qed.
Print Assumptions C87_nothing_received.

(** The addresses in player/main.s 60-82, at power on: after a thousand polls, still nothing. *)
Example C87_case : exists s', do_all (handshake [0; 8; 0xdc; 1; 2; 3] [10; 0; 65; 2] [10; 0; 0; 1] [1977 / 256; 1977 mod 256] ++ concat (repeat poll 1000)) PropSim.power_on =
  (s', inl (0x13 :: 0x17 :: repeat 0 1000)).
Proof. apply (C87_nothing_received PropSim.power_on [0; 8; 0xdc; 1; 2; 3] [10; 0; 65; 2] [10; 0; 0; 1] [1977 / 256; 1977 mod 256] 1000 eq_refl eq_refl eq_refl eq_refl). Qed.
(** These are the writes of the player's machine code: those of its first 134
    instructions, up to the first poll, with the server accepting (the machine of
    CpuModel.v, whose card is not the simulated one; PropBoot.v has the start state). *)
Definition writes (l : list (Z * access)) : list (Z * Z) := flat_map (fun x : Z * access => match snd x with Some v => [(fst x, v)] | None => [] end) l.
Definition card_writes (m : CpuModel.machine) : list (Z * Z) :=
  map (fun w => (CpuModel.w_addr w, CpuModel.w_val w)) (filter (fun w => (0xc094 <=? CpuModel.w_addr w) && (CpuModel.w_addr w <=? 0xc097)) (CpuModel.log m)).
Example C87_same_writes :
  (let image := RecvThms.image_of RecvThms.program in
   match CpuModel.run [] PropBoot.accept_ex 134
     (CpuModel.M 0x800 17 3 9 0xF0 true false true (fun b a => if b then 0 else RecvThms.image_at image a) false false true 65
       (CpuModel.Chip 0x80 0x1234 (fun a => a mod 256) 0x17 99 5 7 (fun _ => 1)) 0 [] []) with
   | Some m => Some (CpuModel.pc m, card_writes m)
   | None => None
   end) = Some (0x214A, writes (handshake [0; 8; 0xdc; 1; 2; 3] [10; 0; 65; 2] [10; 0; 0; 1] [1977 / 256; 1977 mod 256])).
Proof. vm_compute. reflexivity. Qed.

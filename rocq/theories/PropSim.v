(** Properties C54-C56: the simulator's devices. *)
From Verif Require Import Base BaseFacts SimModel SimSpec SimProofs.

(** A state to start from. *)
Definition power_on : sim :=
  {| s_ram := fun _ => 0; s_uram := fun _ => 0; s_ptr := 0; s_indirect := false; s_auto := false; s_switch := fun _ => false |}.

(** C54 *)
(** The recorded state of a switch is what the last access to its set or clear
    address made it, for every sequence of accesses to any addresses. *)
Theorem C54_state_partial : forall ss l s, In ss soft_switches ->
  s_switch (accesses l s) (ss_name ss) = fold_left (switched ss) l (s_switch s (ss_name ss)).
Proof. intros ss l s I. apply accesses_switch, I. Qed.
Print Assumptions C54_state_partial.
(** But it never reads back as set: the status address returns 0 whatever
    happened before (0x80 & True is 0), and changes nothing. *)
Theorem C54_refuted : forall ss l s, In ss soft_switches ->
  a_read (ss_status ss) (accesses l s) = (accesses l s, inl 0).
Proof. intros ss l s I. apply status_read, I. Qed.
Print Assumptions C54_refuted.
(** The switches are those of the machine, at its addresses. *)
Theorem C54_documented_partial : map (fun ss => (ss_name ss, ss_clear ss, ss_set ss, ss_status ss, ss_mode ss, ss_unimplemented ss)) soft_switches = documented.
Proof. reflexivity. Qed.
Print Assumptions C54_documented_partial.
(** Writing to a switch succeeds and changes nothing but that switch (and the
    byte behind it); to one that selects memory banks, it raises
    NotImplementedError. *)
Theorem C54_banking_refused_partial : forall w off on st mode banking s v, In (w, off, on, st, mode, banking) documented ->
  snd (a_write off v s) = (if banking then inr Unimplemented else inl 0) /\ snd (a_write on v s) = (if banking then inr Unimplemented else inl 0) /\
  forall w', w' <> w -> s_switch (fst (a_write on v s)) w' = s_switch s w' /\ s_switch (fst (a_write off v s)) w' = s_switch s w'.
Proof.
  intros w off on st mode banking s v I. unfold documented in I. cbn [In] in I.
  repeat (destruct I as [I|I]; [injection I as <- <- <- <- <- <-; split; [reflexivity|]; split; [reflexivity|]; intros w' N; destruct w'; try (contradiction N; reflexivity); split; reflexivity|]). destruct I.
Qed.
Print Assumptions C54_banking_refused_partial.
Example C54_hires : In (mk Hires 0xc056 0xc057 0xc01d RW false) soft_switches /\
  s_switch (accesses [(0xc057, None)] power_on) Hires = true /\
  s_switch (accesses [(0xc057, None); (0xc000, Some 1); (0xc0ff, None); (0xc056, Some 3)] power_on) Hires = false /\
  snd (a_read 0xc01d (accesses [(0xc057, None)] power_on)) = inl 0.
Proof. split; [cbn; tauto|]. vm_compute. auto. Qed.

(** C55 *)
(** High byte, then low byte: the next access to the data port uses the combined
    address (here: an address in the buffers, not a register). *)
Theorem C55_high_then_low_partial : forall hi lo s, 0 <= hi < 128 -> 0 <= lo < 256 ->
  exists s1 s2, write_high hi s = (s1, inl 0) /\ write_low lo s1 = (s2, inl 0) /\ s_ptr s2 = 256 * hi + lo /\
    (0x800 <= 256 * hi + lo ->
     snd (a_read 0xc097 s2) = inl (s_uram s (256 * hi + lo)) /\
     forall v, s_uram (fst (a_write 0xc097 v s2)) = upd1 (s_uram s) (256 * hi + lo) v).
Proof.
  intros hi lo s H L. eexists. eexists. split; [apply high_write|]. split; [apply low_write|].
  assert (P : Z.lor (Z.land (Z.lor (Z.shiftl hi 8) (Z.land (s_ptr s) 127)) 32512) lo = 256 * hi + lo).
  { pose proof (Z.mod_pos_bound (s_ptr s) 128 ltac:(lia)). rewrite shiftl8, land_7f, lor_bytes by lia. rewrite land_7f00, lor_bytes by lia. dlia. }
  cbn [s_ptr set_ram set_ptr]. rewrite P. split; [reflexivity|]. intros B. split.
  - rewrite data_read. cbn [s_ptr set_ram set_ptr]. rewrite u_plain_read by (unfold u_intercepted; lia). reflexivity.
  - intros v. rewrite data_write. cbn [s_ptr set_ram set_ptr]. rewrite u_plain_write by (unfold u_intercepted; lia). reflexivity.
Qed.
Print Assumptions C55_high_then_low_partial.
(** Low byte, then high byte: the top bit of the low byte is lost, for all
    addresses. *)
Theorem C55_low_then_high_refuted : forall hi lo s, 0 <= hi < 128 -> 0 <= lo < 256 ->
  exists s1 s2, write_low lo s = (s1, inl 0) /\ write_high hi s1 = (s2, inl 0) /\ s_ptr s2 = 256 * hi + lo mod 128.
Proof.
  intros hi lo s H L. eexists. eexists. split; [apply low_write|]. split; [apply high_write|].
  cbn [s_ptr set_ram set_ptr]. rewrite shiftl8, land_7f, land_7f00, !lor_bytes by (try apply Z.mod_pos_bound; lia || dlia). dlia.
Qed.
Print Assumptions C55_low_then_high_refuted.
(** Sequential reads visit consecutive addresses up to the end of the buffer... *)
Theorem C55_sequential_partial : forall n s, 0x800 <= s_ptr s < 0x8000 -> s_ptr s + Z.of_nat n <= 0x8000 ->
  snd (data_reads n s) = inl (map (s_uram s) (zrange_from (s_ptr s) n)) /\
  s_ptr (fst (data_reads n s)) = (s_ptr s + Z.of_nat n) mod 0x8000.
Proof.
  assert (G : forall n s p, s_ptr s = p mod 0x8000 -> 0x800 <= p -> p + Z.of_nat n <= 0x8000 ->
    snd (data_reads n s) = inl (map (s_uram s) (zrange_from p n)) /\ s_ptr (fst (data_reads n s)) = (p + Z.of_nat n) mod 0x8000).
  { induction n as [|n IH]; intros s p P B E.
    - cbn. rewrite Z.add_0_r. auto.
    - rewrite Z.mod_small in P by lia. cbn [data_reads]. unfold bind at 1 3. rewrite data_read, P, u_plain_read by (unfold u_intercepted; lia). cbv beta iota.
      assert (P1 : s_ptr (next_ptr s) = (p + 1) mod 0x8000) by (cbn; rewrite land_7fff, P; reflexivity).
      destruct (IH (next_ptr s) (p + 1) P1 ltac:(lia) ltac:(lia)) as [A C]. unfold bind.
      destruct (data_reads n (next_ptr s)) as [s2 [vs|e]]; cbn [fst snd] in *; [|discriminate]. cbn. injection A as ->.
      split; [reflexivity|]. rewrite C. f_equal. lia. }
  intros n s P E. apply G; [rewrite Z.mod_small by lia; reflexivity|lia|exact E].
Qed.
Print Assumptions C55_sequential_partial.
(** ... but do not wrap inside the receive buffer: after 0x7fff comes 0x0000. *)
Theorem C55_wrap_refuted : forall s, s_ptr s = 0x7fff ->
  s_ptr (fst (a_read 0xc097 s)) = 0 /\ s_ptr (fst (a_read 0xc097 s)) <> 0x6000.
Proof.
  intros s P. rewrite data_read, P, u_plain_read by (unfold u_intercepted; lia). cbn [fst]. cbn. rewrite P. cbn. split; [reflexivity|discriminate].
Qed.
Print Assumptions C55_wrap_refuted.
Example C55_states : exists s, s_ptr s = 0x7fff /\ 0x800 <= s_ptr s < 0x8000 /\ s_ptr s + Z.of_nat 1 <= 0x8000.
Proof. exists (set_ptr power_on 0x7fff). cbn. lia. Qed.

(** C56 *)
(** An access to the I/O page for which nothing is registered traps and changes
    nothing at all; any other gets to its handler. *)
Theorem C56_trap : forall a acc s, is_io a = true -> io_supported a acc = false -> do_access a acc s = (s, inr (Trap a)).
Proof.
  intros a acc s I U. assert (R : a mod 0x10000 = a) by (apply Z.mod_small; unfold is_io in I; lia).
  assert (T : intercept regions a acc s = (s, inr (Trap a))).
  { rewrite intercept_cases, I, io_some. rewrite <- supported_eq in U. destruct (supported_io a acc); [discriminate|reflexivity]. }
  destruct acc; cbn [do_access]; unfold a_read, a_write, bind; rewrite R, T; reflexivity.
Qed.
Print Assumptions C56_trap.
(** Supported accesses: reading or writing a switch's address leaves the W5100
    alone, and only the addresses of a switch change it. *)
Definition switch_address (a : Z) : bool := existsb (fun ss => (a =? ss_set ss) || (a =? ss_clear ss) || (a =? ss_status ss)) soft_switches.
Theorem C56_right_device : forall a acc s, is_io a = true ->
  (switch_address a = true -> let s' := fst (do_access a acc s) in
     s_uram s' = s_uram s /\ s_ptr s' = s_ptr s /\ s_indirect s' = s_indirect s /\ s_auto s' = s_auto s) /\
  (forall ss, In ss soft_switches -> a <> ss_set ss -> a <> ss_clear ss ->
     s_switch (fst (do_access a acc s)) (ss_name ss) = s_switch s (ss_name ss)).
Proof.
  intros a acc s I. assert (R : a mod 0x10000 = a) by (apply Z.mod_small; unfold is_io in I; lia). split.
  - intros S. cbn zeta.
    assert (K : forall c, supported_io a acc = Some c -> exists w, c = SwClear w \/ c = SwSet w \/ c = SwGet w).
    { intros c C. unfold supported_io in C. destruct (zget a a_keys) as [[m c']|] eqn:G; [|discriminate]. destruct (allowed m acc); [|discriminate]. injection C as ->.
      apply zget_in in G. assert (L : forallb (fun '(k, (m, c)) => negb (switch_address k) || match c with SwClear _ | SwSet _ | SwGet _ => true | _ => false end) a_keys = true) by (vm_compute; reflexivity).
      rewrite forallb_forall in L. specialize (L _ G). cbn beta iota in L. rewrite S in L. destruct c; try discriminate; eauto. }
    assert (F : let s1 := fst (intercept regions a acc s) in s_uram s1 = s_uram s /\ s_ptr s1 = s_ptr s /\ s_indirect s1 = s_indirect s /\ s_auto s1 = s_auto s).
    { cbn zeta. rewrite intercept_cases, I, io_some. destruct (supported_io a acc) as [c|]; [|auto].
      destruct (K c eq_refl) as (w & [-> |[-> | ->]]); destruct acc; cbn [a_call]; unfold switch_to, bind, put_state, throw, ret, get_state; try destruct (unimplemented_callback w); cbn; auto. }
    destruct (access_shape a acc s) as (s1 & E & H). rewrite R in E, H. rewrite <- E in F. destruct H as [-> |(v & _ & -> & _)]; exact F.
  - intros ss J N1 N2. pose proof (switch_step ss J (a, acc) s) as H. cbn [fst snd] in H. rewrite H. unfold switched. cbn [fst snd]. rewrite R.
    apply Z.eqb_neq in N1. apply Z.eqb_neq in N2. rewrite N1, N2. destruct (allowed (ss_mode ss) acc); reflexivity.
Qed.
Print Assumptions C56_right_device.
(** Data port accesses with the pointer at a register that does not exist trap
    and change nothing. *)
Theorem C56_register_trap : forall s acc, 0 <= s_ptr s < 0x10000 -> u_intercepted (s_ptr s) = true -> u_register (s_ptr s) = false ->
  do_access 0xc097 acc s = (s, inr (Trap (s_ptr s))).
Proof.
  intros s acc P I U. destruct acc as [v|]; cbn [do_access]; [rewrite data_write; unfold u_write|rewrite data_read; unfold u_read];
    unfold bind; rewrite Z.mod_small by exact P; rewrite u_unmapped by assumption; reflexivity.
Qed.
Print Assumptions C56_register_trap.
(** Protected memory never changes, and writing to it raises. *)
Theorem C56_write_protected : forall l s p, protected p = true ->
  s_ram (accesses l s) p = s_ram s p /\ forall v, do_access p (Some v) s = (s, inr (WriteDenied p)).
Proof.
  intros l s p P. split; [apply accesses_protected, P|]. intros v. cbn [do_access]. unfold a_write, bind.
  assert (R : p mod 0x10000 = p) by (apply Z.mod_small; unfold protected in P; lia). rewrite R, intercept_cases, P.
  assert (is_io p = false) as -> by (unfold is_io, protected in *; lia). reflexivity.
Qed.
Print Assumptions C56_write_protected.
Example C56_cases : is_io 0xc010 = true /\ io_supported 0xc010 None = false /\ is_io 0xc095 = true /\ io_supported 0xc095 None = false /\
  io_supported 0xc095 (Some 3) = true /\ protected 0x4123 = true /\ protected 0xfded = true /\ switch_address 0xc055 = true /\
  u_intercepted 0x13 = true /\ u_register 0x13 = false /\ u_register 0x428 = true.
Proof. vm_compute. repeat split. Qed.

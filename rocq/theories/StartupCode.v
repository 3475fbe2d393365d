(** The startup code (segment HGR), read off the assembled program. *)
From Verif Require Import Base BaseFacts OpcodeModel AsmModel PlayerCode CpuModel PlayerModel PlayerSpec PlayerExec ChipProofs TickExec RecvCode LayoutProofs.
From Coq Require Import FMapPositive.
Transparent lowcode code hgr resident startup symbols code_map.

Definition boot : list (Z * entry) := [
  (0x2010, (iLDA, mImm, Some 0xAC)); (0x2012, (iSTA, mAbs, Some 0x3F2)); (0x2015, (iLDA, mImm, Some 0xBA)); (0x2017, (iSTA, mAbs, Some 0x3F3));
  (0x201A, (iEOR, mImm, Some 0xA5)); (0x201C, (iSTA, mAbs, Some 0x3F4)); (0x201F, (iLDA, mImm, Some 0x6)); (0x2021, (iSTA, mZp, Some 0x6));
  (0x2023, (iLDA, mImm, Some 0x80)); (0x2025, (iSTA, mAbs, Some 0xC094)); (0x2028, (iLDA, mImm, Some 0x3)); (0x202A, (iSTA, mAbs, Some 0xC094));
  (0x202D, (iLDA, mImm, Some 0x0)); (0x202F, (iSTA, mAbs, Some 0xC095)); (0x2032, (iLDA, mImm, Some 0x9)); (0x2034, (iSTA, mAbs, Some 0xC096));
  (0x2037, (iLDX, mImm, Some 0x0)); (0x2039, (iLDA, mAbsX, Some 0x200A)); (0x203C, (iSTA, mAbs, Some 0xC097)); (0x203F, (iINX, mImpl, Some 0x0));
  (0x2040, (iCPX, mImm, Some 0x6)); (0x2042, (iBNE, mRel, Some (-11))); (0x2044, (iLDA, mImm, Some 0xF)); (0x2046, (iSTA, mAbs, Some 0xC096));
  (0x2049, (iLDX, mImm, Some 0x0)); (0x204B, (iLDA, mAbsX, Some 0x2000)); (0x204E, (iSTA, mAbs, Some 0xC097)); (0x2051, (iINX, mImpl, Some 0x0));
  (0x2052, (iCPX, mImm, Some 0x4)); (0x2054, (iBNE, mRel, Some (-11))); (0x2056, (iLDA, mImm, Some 0x1A)); (0x2058, (iSTA, mAbs, Some 0xC096));
  (0x205B, (iLDA, mImm, Some 0x3)); (0x205D, (iSTA, mAbs, Some 0xC097)); (0x2060, (iSTA, mAbs, Some 0xC097)); (0x2063, (iLDA, mImm, Some 0x4));
  (0x2065, (iSTA, mAbs, Some 0xC095)); (0x2068, (iLDA, mImm, Some 0x0)); (0x206A, (iSTA, mAbs, Some 0xC096)); (0x206D, (iLDA, mImm, Some 0x21));
  (0x206F, (iSTA, mAbs, Some 0xC097)); (0x2072, (iLDA, mImm, Some 0x4)); (0x2074, (iSTA, mAbs, Some 0xC096)); (0x2077, (iLDA, mImm, Some 0xC0));
  (0x2079, (iSTA, mAbs, Some 0xC097)); (0x207C, (iLDA, mImm, Some 0x0)); (0x207E, (iSTA, mAbs, Some 0xC097)); (0x2081, (iLDA, mImm, Some 0xC));
  (0x2083, (iSTA, mAbs, Some 0xC096)); (0x2086, (iLDX, mImm, Some 0x0)); (0x2088, (iLDA, mAbsX, Some 0x2004)); (0x208B, (iSTA, mAbs, Some 0xC097));
  (0x208E, (iINX, mImpl, Some 0x0)); (0x208F, (iCPX, mImm, Some 0x4)); (0x2091, (iBNE, mRel, Some (-11))); (0x2093, (iLDA, mAbs, Some 0x2008));
  (0x2096, (iSTA, mAbs, Some 0xC097)); (0x2099, (iLDA, mAbs, Some 0x2009)); (0x209C, (iSTA, mAbs, Some 0xC097)); (0x209F, (iLDA, mImm, Some 0x1));
  (0x20A1, (iSTA, mAbs, Some 0xC096)); (0x20A4, (iLDA, mImm, Some 0x1)); (0x20A6, (iSTA, mAbs, Some 0xC097)); (0x20A9, (iLDA, mImm, Some 0x3));
  (0x20AB, (iSTA, mAbs, Some 0xC096)); (0x20AE, (iLDA, mAbs, Some 0xC097)); (0x20B1, (iCMP, mImm, Some 0x13)); (0x20B3, (iBEQ, mRel, Some 0x33));
  (0x20B5, (iLDY, mImm, Some 0x0)); (0x20B7, (iLDA, mAbsY, Some 0x20C3)); (0x20BA, (iBEQ, mRel, Some 0x6)); (0x20BC, (iJSR, mAbs, Some 0xFDED));
  (0x20BF, (iINY, mImpl, Some 0x0)); (0x20C0, (iBNE, mRel, Some (-11))); (0x20C2, (iBRK, mImpl, Some 0x0)); (0x20E8, (iLDA, mImm, Some 0x1));
  (0x20EA, (iSTA, mAbs, Some 0xC096)); (0x20ED, (iLDA, mImm, Some 0x4)); (0x20EF, (iSTA, mAbs, Some 0xC097)); (0x20F2, (iLDA, mImm, Some 0x3));
  (0x20F4, (iSTA, mAbs, Some 0xC096)); (0x20F7, (iLDA, mAbs, Some 0xC097)); (0x20FA, (iBEQ, mRel, Some 0x6)); (0x20FC, (iCMP, mImm, Some 0x17));
  (0x20FE, (iBEQ, mRel, Some 0x4A)); (0x2100, (iBNE, mRel, Some (-16))); (0x2102, (iDEC, mZp, Some 0x6)); (0x2104, (iBEQ, mRel, Some 0x8));
  (0x2106, (iLDA, mImm, Some 0xAE)); (0x2108, (iJSR, mAbs, Some 0xFDED)); (0x210B, (iJMP, mAbs, Some 0x2023)); (0x210E, (iLDY, mImm, Some 0x0));
  (0x2110, (iLDA, mAbsY, Some 0x211C)); (0x2113, (iBEQ, mRel, Some 0x6)); (0x2115, (iJSR, mAbs, Some 0xFDED)); (0x2118, (iINY, mImpl, Some 0x0));
  (0x2119, (iBNE, mRel, Some (-11))); (0x211B, (iBRK, mImpl, Some 0x0)); (0x214A, (iLDA, mImm, Some 0x26)); (0x214C, (iSTA, mAbs, Some 0xC096));
  (0x214F, (iLDA, mAbs, Some 0xC097)); (0x2152, (iCMP, mImm, Some 0x1)); (0x2154, (iBCS, mRel, Some 0x5)); (0x2156, (iNOP, mImpl, Some 0x0));
  (0x2157, (iNOP, mImpl, Some 0x0)); (0x2158, (iJMP, mAbs, Some 0x214A)); (0x215B, (iLDA, mImm, Some 0x60)); (0x215D, (iSTA, mAbs, Some 0xC095));
  (0x2160, (iLDA, mImm, Some 0x0)); (0x2162, (iSTA, mAbs, Some 0xC096)); (0x2165, (iLDA, mAbs, Some 0xC097)); (0x2168, (iLDA, mAbs, Some 0xC097));
  (0x216B, (iLDA, mAbs, Some 0xC097)); (0x216E, (iLDA, mAbs, Some 0xC097)); (0x2171, (iLDA, mAbs, Some 0xC097)); (0x2174, (iLDA, mAbs, Some 0xC097));
  (0x2177, (iJMP, mAbs, Some 0x4000))
].
Definition boot_map := code_of startup.
Lemma boot_ok : find_all (find_code boot_map) boot = map (fun ae => Some (snd ae)) boot.
Proof. vm_compute. reflexivity. Qed.
Lemma boot_labels : label_address symbols L_wait_read_header = Some 0x214A /\ label_address symbols L_bootstrap = Some 0x2010 /\ label_address symbols L_exit = Some 0xBAAC.
Proof. vm_compute. auto. Qed.
Opaque lowcode code hgr resident startup symbols code_map.
Lemma boot_listed a e : In (a, e) boot -> find_code boot_map a = Some e.
Proof. exact (listed_gen _ _ boot_ok a e). Qed.
Lemma boot_find_in a e : find_code boot_map a = Some e -> exists s, In (a, s) startup /\ entry_of a s = Some e.
Proof.
  destruct a as [|k|k]; try discriminate. intros H. apply code_of_in in H; [exact H|].
  intros a s X. apply startup_bounds in X. lia.
Qed.
(** with PAGE2 off the startup code is seen *)
Lemma bank_page2 m a : swpage2 m = false -> bank m a = false.
Proof. intros H. unfold bank. rewrite H, andb_false_r. reflexivity. Qed.
Lemma fetch_boot m i md v : loaded startup m -> swpage2 m = false -> In (pc m, (i, md, Some v)) boot -> fetch m = Some (i, md, v).
Proof.
  intros L P2 IN. apply boot_listed, boot_find_in in IN. destruct IN as (s & H & E). pose proof (L (pc m) s) as LS.
  assert (PK : forall k, peek m k = mem m false k) by (intros k; unfold peek; rewrite bank_page2 by exact P2; reflexivity).
  destruct s as [l|i' o|i' o|i' o|l|e]; cbn [entry_of] in E; try discriminate.
  - destruct (opcode_byte i' (mode_of o)) as [b|] eqn:OB; [|discriminate]. destruct (operand_value symbols (pc m) o) as [v'|] eqn:OV; [|discriminate].
    destruct (operand_fits o v') eqn:F; [|discriminate]. injection E as <- <- <-.
    destruct (decode_opcode _ _ _ OB) as [D _].
    assert (EN : encode symbols (pc m) (Ins i' o) = Some (map (pair true) (b :: operand_bytes o v'))).
    { cbn [encode]. unfold encode_ins. rewrite OB, OV, F. reflexivity. }
    assert (M0 : mem m false (pc m) = b).
    { rewrite <- (LS _ O b H EN); [rewrite Z.add_0_r; reflexivity|reflexivity]. }
    assert (M1 : forall k x, nth_error (operand_bytes o v') k = Some x -> mem m false (pc m + Z.of_nat (S k)) = x).
    { intros k x X. apply (LS _ (S k) x H EN). cbn [map nth_error]. rewrite nth_error_map, X. reflexivity. }
    unfold fetch. rewrite !PK, M0, D.
    destruct o as [|e|e|e|e|e|e]; cbn [mode_of operand_size operand_bytes operand_fits] in *;
      try (injection OV as <-; reflexivity);
      try (pose proof (M1 0%nat _ eq_refl) as A0; change (Z.of_nat 1) with 1 in A0);
      try (pose proof (M1 1%nat _ eq_refl) as A1; change (Z.of_nat 2) with 2 in A1);
      rewrite ?A0, ?A1, ?lohi; try reflexivity.
    + rewrite Z.mod_small by lia. reflexivity.
    + rewrite Z.mod_small by lia. reflexivity.
    + rewrite signed_mod by lia. reflexivity.
  - destruct i'; try discriminate. destruct o as [|e|e|e|e|e|e]; try discriminate.
    destruct (resolve symbols e); [|discriminate]. destruct (_ && _); discriminate.
Qed.
Lemma boot_range a e : In (a, e) boot -> 0x2000 <= a < 0x2200.
Proof. intros H. apply boot_listed, boot_find_in in H. destruct H as (s & H & _). apply startup_bounds in H. pose proof (size_nonneg s). lia. Qed.
Lemma exec_boot m i md v : loaded startup m -> swpage2 m = false -> In (pc m, (i, md, Some v)) boot ->
  exec m = exec_ins i md v (with_cyc (cyc m + cycles i md v m) (with_pc (pc m + mode_length md) m)).
Proof. intros L P H. pose proof (boot_range _ _ H). apply exec_fetch; [apply fetch_boot; assumption|lia|lia]. Qed.

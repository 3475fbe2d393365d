(** The code of the header, receive and ACK routines, read off the assembled
    program. *)
From Verif Require Import Base OpcodeModel AsmModel PlayerCode CpuModel PlayerModel PlayerSpec PlayerExec.

Definition listing : list (Z * entry) := [
  (0x4000, (iSTA, mAbs, Some 0xC057)); (0x4003, (iSTA, mAbs, Some 0xC052)); (0x4006, (iLDA, mImm, Some 0x20)); (0x4008, (iSTA, mZp, Some 0xE6));
  (0x400A, (iJSR, mAbs, Some 0xF3F2)); (0x400D, (iLDA, mAbs, Some 0xC097)); (0x4010, (iBEQ, mRel, Some 0x19)); (0x4012, (iSTA, mAbs, Some 0xC001));
  (0x4015, (iSTA, mAbs, Some 0xC055)); (0x4018, (iLDA, mImm, Some 0x20)); (0x401A, (iSTA, mZp, Some 0xE6)); (0x401C, (iJSR, mAbs, Some 0xF3F2));
  (0x401F, (iSTA, mAbs, Some 0xC054)); (0x4022, (iSTA, mAbs, Some 0xC050)); (0x4025, (iSTA, mAbs, Some 0xC00D)); (0x4028, (iSTA, mAbs, Some 0xC05E));
  (0x402B, (iSTA, mAbs, Some 0xC050)); (0x402E, (iLDY, mImm, Some 0x60)); (0x4030, (iLDX, mImm, Some 0x7)); (0x4032, (iLDA, mImm, Some 0x4));
  (0x4034, (iSTA, mAbs, Some 0xC095)); (0x4037, (iSTA, mAbs, Some 0xC030)); (0x403A, (iLDA, mImm, Some 0x26)); (0x403C, (iSTA, mAbs, Some 0xC096));
  (0x403F, (iLDA, mAbs, Some 0xC097)); (0x4042, (iCMP, mImm, Some 0x8)); (0x4044, (iBCS, mRel, Some 0x5)); (0x4046, (iNOP, mImpl, Some 0x0));
  (0x4047, (iNOP, mImpl, Some 0x0)); (0x4048, (iJMP, mAbs, Some 0x4037)); (0x404B, (iSTY, mAbs, Some 0xC095)); (0x404E, (iSTX, mAbs, Some 0xC096));
  (0x4051, (iBIT, mAbs, Some 0xC000)); (0x4054, (iBPL, mRel, Some 0xB)); (0x4056, (iBIT, mAbs, Some 0xC010)); (0x4059, (iBIT, mAbs, Some 0xC000));
  (0x405C, (iBPL, mRel, Some (-5))); (0x405E, (iBIT, mAbs, Some 0xC010)); (0x4061, (iSTA, mAbs, Some 0xC030)); (0x4064, (iLDX, mImm, Some 0x0));
  (0x4066, (iNOP, mImpl, Some 0x0)); (0x4067, (iSTA, mAbs, Some 0xFFFF)); (0x406A, (iSTA, mAbs, Some 0xFFFF)); (0x406D, (iSTA, mAbs, Some 0xFFFF));
  (0x4070, (iLDY, mAbs, Some 0xC097)); (0x4073, (iSTY, mAbs, Some 0x407E)); (0x4076, (iLDY, mAbs, Some 0xC097)); (0x4079, (iSTY, mAbs, Some 0x407D));
  (0x407C, (iJMP, mAbs, None)); (0xBA64, (iLDA, mAbs, Some 0xC010)); (0xBA67, (iLDA, mAbs, Some 0xC000)); (0xBA6A, (iBPL, mRel, Some (-5)));
  (0xBA6C, (iLDA, mAbs, Some 0xC010)); (0xBA6F, (iJMP, mAbs, Some 0xBAAC)); (0xBA72, (iSTA, mAbs, Some 0xC030)); (0xBA75, (iLDA, mAbs, Some 0xC097));
  (0xBA78, (iSTA, mAbs, Some 0xBA7C)); (0xBA7E, (iLDA, mAbs, Some 0xC097)); (0xBA81, (iLDY, mAbs, Some 0xC095)); (0xBA84, (iLDA, mImm, Some 0x4));
  (0xBA86, (iSTA, mAbs, Some 0xC095)); (0xBA89, (iLDX, mImm, Some 0x28)); (0xBA8B, (iCLC, mImpl, Some 0x0)); (0xBA8C, (iSTA, mAbs, Some 0xC030));
  (0xBA8F, (iSTX, mAbs, Some 0xC096)); (0xBA92, (iLDA, mAbs, Some 0xC097)); (0xBA95, (iADC, mImm, Some 0x8)); (0xBA97, (iSTX, mAbs, Some 0xC096));
  (0xBA9A, (iSTA, mAbs, Some 0xC097)); (0xBA9D, (iLDA, mImm, Some 0x1)); (0xBA9F, (iSTA, mAbs, Some 0xC096)); (0xBAA2, (iLDA, mImm, Some 0x40));
  (0xBAA4, (iSTA, mAbs, Some 0xC097)); (0xBAA7, (iLDX, mImm, Some 0x0)); (0xBAA9, (iJMP, mAbs, Some 0x4037))
].
Definition find_all (find : Z -> option entry) (l : list (Z * entry)) : list (option entry) := map (fun ae => find (fst ae)) l.
Lemma listing_ok : find_all (find_code code_map) listing = map (fun ae => Some (snd ae)) listing.
Proof. vm_compute. reflexivity. Qed.
Lemma listed_gen find l : find_all find l = map (fun ae => Some (snd ae)) l -> forall a e, In (a, e) l -> find a = Some e.
Proof.
  induction l as [|[a' e'] l IH]; intros H a e I; [destruct I|]. cbn [find_all map fst snd] in H. injection H as H1 H2.
  destruct I as [E|I]; [injection E as <- <-; exact H1|]. apply IH; assumption.
Qed.
Lemma listed a e : In (a, e) listing -> find_code code_map a = Some e.
Proof. exact (listed_gen _ _ listing_ok a e). Qed.

(** the soft switch access in op_ack *)
Definition is_switch (ae : Z * stmt) : bool :=
  match ae with (a, PatchedLo iSTA (Abs (Num z))) => (a =? 0xBA7B) && (z =? 0xC0FF) | _ => false end.
Lemma switch_exists : existsb is_switch resident = true.
Proof. vm_compute. reflexivity. Qed.
Lemma switch_in : In (0xBA7B, PatchedLo iSTA (Abs (Num 0xC0FF))) resident.
Proof.
  pose proof switch_exists as H. apply existsb_exists in H. destruct H as ([a s] & H & E). unfold is_switch in E.
  destruct s as [| | |i o| |]; try discriminate. destruct i; try discriminate. destruct o as [| | |e| | |]; try discriminate. destruct e as [z| | |]; try discriminate.
  apply andb_true_iff in E. destruct E as [E1 E2]. apply Z.eqb_eq in E1. apply Z.eqb_eq in E2. subst. exact H.
Qed.

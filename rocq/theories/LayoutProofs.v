(** Layout of the player. *)
From Verif Require Import Base BaseFacts OpcodeModel SymbolModel AddrProofs AddrThms SymCert AsmModel PlayerCode CpuModel PlayerModel PlayerSpec PlayerExec TickExec TickCheck.
From Coq Require Import FMapPositive.
Lemma cmd_range t p : In (TICK t p) op_cmds -> (4 <= t <= 66 /\ Z.even t = true) /\ 32 <= p < 64.
Proof.
  unfold op_cmds. intros H. apply in_app_or in H. destruct H as [H|H]; [repeat destruct H as [H|H]; try discriminate; destruct H|].
  apply in_flat_map in H. destruct H as (t' & T & H). apply in_map_iff in H. destruct H as (p' & E & P). injection E as -> ->.
  unfold tick_values in T. apply in_map_iff in T. destruct T as (i & <- & T). apply in_zrange in T; [|lia]. unfold page_values in P. apply in_zrange2 in P.
  split; [|exact P]. split; [lia|]. rewrite Z.even_add_mul_2. reflexivity.
Qed.
Opaque op_table op_cmds.

(** addresses of the special opcodes *)
Definition known (l : list (cmd * Z)) (c : cmd) (a : Z) : bool := existsb (fun ca => cmd_eqb (fst ca) c && (snd ca =? a)) l.
Lemma known_special : known op_table ACK 0xBA72 && known op_table NOP 0x4070 && known op_table TERMINATE 0xBA64 && known op_table HEADER 0x215B = true.
Proof. vm_compute. reflexivity. Qed.
Lemma known_in l c a : known l c a = true -> In (c, a) l.
Proof.
  unfold known. intros H. apply existsb_exists in H. destruct H as ([c' a'] & I & E). apply andb_true_iff in E. destruct E as [E1 E2]. cbn [fst snd] in *.
  apply cmd_eqb_spec in E1. apply Z.eqb_eq in E2. subst. exact I.
Qed.
Lemma special_in : In (ACK, 0xBA72) op_table /\ In (NOP, 0x4070) op_table /\ In (TERMINATE, 0xBA64) op_table /\ In (HEADER, 0x215B) op_table.
Proof. pose proof known_special as H. rewrite !andb_true_iff in H. destruct H as (((A & B) & C) & D). repeat split; apply known_in; assumption. Qed.
Lemma ack_start : player_start ACK = 0xBA72.
Proof. apply start_in, special_in. Qed.
Lemma nop_start : player_start NOP = 0x4070.
Proof. apply start_in, special_in. Qed.
Lemma terminate_start : player_start TERMINATE = 0xBA64.
Proof. apply start_in, special_in. Qed.

Definition branches_ok (l : list (Z * stmt)) : bool :=
  forallb (fun '(a, s) => match s with Ins _ (Rel e) => match resolve symbols e with Some t => (a + 2) / 256 =? t / 256 | None => false end | _ => true end) l.
Lemma all_branches : branches_ok resident = true.
Proof. vm_compute. reflexivity. Qed.
Definition is_branch (a0 : Z) (i0 : instr) (l0 : label) (st : Z * stmt) : bool :=
  match st with (a, Ins i (Rel (Lbl l 0))) => (a =? a0) && match opcode_byte i mRel, opcode_byte i0 mRel with Some x, Some y => x =? y | _, _ => false end && label_eqb l l0 | _ => false end.
Lemma branches_there : existsb (is_branch 0x4044 iBCS L_recv) resident && existsb (is_branch 0x4054 iBPL L_recv_at2) resident = true.
Proof. vm_compute. reflexivity. Qed.
Opaque lowcode code hgr resident symbols code_map startup.
Lemma branch_page a i e : In (a, Ins i (Rel e)) resident -> exists t, resolve symbols e = Some t /\ (a + 2) / 256 = t / 256.
Proof.
  intros H. pose proof all_branches as B. unfold branches_ok in B. rewrite forallb_forall in B. specialize (B _ H). cbv beta iota in B.
  destruct (resolve symbols e) as [t|]; [|discriminate]. apply Z.eqb_eq in B. eauto.
Qed.
Lemma op_address c : In c op_cmds -> label_address symbols (op_label c) = Some (player_start c).
Proof.
  intros H. apply start_pair in H. pose proof all_addresses as A. unfold addresses_ok in A. rewrite forallb_forall in A. specialize (A _ H). cbv beta iota in A.
  destruct (label_address symbols (op_label c)) as [b|]; [|discriminate]. apply Z.eqb_eq in A. rewrite A. reflexivity.
Qed.
Lemma label_once l a : In (a, Lab l) (resident ++ startup) -> label_address symbols l = Some a.
Proof.
  intros H. pose proof labels_distinct as A. rewrite forallb_forall in A. specialize (A (l, a)).
  assert (I : In (l, a) (labels_of (resident ++ startup))) by (unfold labels_of; apply in_flat_map; exists (a, Lab l); split; [exact H|left; reflexivity]).
  specialize (A I). cbv beta iota in A. destruct (label_address symbols l) as [b|]; [|discriminate]. apply Z.eqb_eq in A. rewrite A. reflexivity.
Qed.
Lemma assembles a s : In (a, s) (resident ++ startup) -> exists bytes, encode symbols a s = Some bytes.
Proof. intros H. pose proof all_encode as A. rewrite forallb_forall in A. specialize (A _ H). cbv beta iota in A. destruct (encode symbols a s); [eauto|discriminate]. Qed.
Lemma tick_table t p a : In (TICK t p) op_cmds -> label_address symbols (OpTick t p) = Some a -> In (TICK t p, a) op_table.
Proof. intros H E. pose proof (op_address _ H) as X. cbn [op_label] in X. assert (a = player_start (TICK t p)) by congruence. subst a. apply start_pair, H. Qed.
Transparent startup.
Lemma startup_bounds a s : In (a, s) startup -> 0x2000 <= a /\ a + size s <= 0x217A.
Proof. unfold startup. intros H. apply layout_bounds in H. rewrite total_hgr in H. lia. Qed.

Lemma is_branch_in l a i lb : existsb (is_branch a i lb) l = true -> opcode_byte i mRel <> None -> (forall l', label_eqb l' lb = true -> l' = lb) -> In (a, Ins i (Rel (Lbl lb 0))) l.
Proof.
  intros H N LE. apply existsb_exists in H. destruct H as ([a' s] & I & E). unfold is_branch in E.
  destruct s as [|i' o| | | |]; try discriminate. destruct o as [| | | | | |e]; try discriminate. destruct e as [|l' off| |]; try discriminate. destruct off; try discriminate.
  rewrite !andb_true_iff, Z.eqb_eq in E. destruct E as ((-> & E) & L). apply LE in L. subst l'.
  assert (i' = i). { destruct i', i; try reflexivity; try (exfalso; apply N; reflexivity); discriminate. }
  subst i'. exact I.
Qed.
Lemma branch_recv : In (0x4044, Ins iBCS (Rel (Lbl L_recv 0))) resident.
Proof. pose proof branches_there as B. apply andb_true_iff in B. apply is_branch_in; [apply B|discriminate|]. intros l'. destruct l'; try discriminate. reflexivity. Qed.
Lemma branch_key : In (0x4054, Ins iBPL (Rel (Lbl L_recv_at2 0))) resident.
Proof. pose proof branches_there as B. apply andb_true_iff in B. apply is_branch_in; [apply B|discriminate|]. intros l'. destruct l'; try discriminate. reflexivity. Qed.
Transparent op_cmds.
Lemma ack_cmd : In ACK op_cmds.
Proof. right; right; right; left; reflexivity. Qed.
Lemma tick_22 : In (TICK 22 0x21) op_cmds.
Proof. apply in_or_app. right. apply in_flat_map. exists 22. split; [unfold tick_values; apply in_map_iff; exists 9; split; [reflexivity|apply in_zrange; lia]|apply in_map, in_zrange2; lia]. Qed.

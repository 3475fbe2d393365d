(** From the start of the program to the connection, or to giving up. *)
From Verif Require Import Base BaseFacts OpcodeModel AsmModel PlayerCode CpuModel PlayerModel PlayerSpec PlayerExec ChipProofs TickExec RecvCode TickThms RunProofs RecvProofs LayoutProofs PlaybackSpec StartupCode StartupProofs BootSpec BootExec.
From Coq Require Import FMapPositive.
Opaque lowcode code hgr resident startup symbols code_map boot_map.

Transparent lowcode code hgr resident startup symbols code_map.
Lemma more_labels : label_address symbols L_OPENED = Some 0x20E8 /\ label_address symbols L_ERRDONE_atDONE = Some 0x211B.
Proof. vm_compute. auto. Qed.
Lemma entry_code : find_code code_map 0x800 = Some (iJMP, mAbs, Some 0x2010).
Proof. vm_compute. reflexivity. Qed.
Opaque lowcode code hgr resident startup symbols code_map.
Lemma opened m : is_at L_OPENED m = (pc m =? 0x20E8).
Proof. unfold is_at. rewrite (proj1 more_labels). reflexivity. Qed.

Lemma rts_is m r s : mem m false (0x100 + (rs m + 1) mod 256) + 256 * mem m false (0x100 + (rs m + 2) mod 256) + 1 = r -> (rs m + 2) mod 256 = s ->
  rts m = M r (ra m) (rx m) (ry m) s (fc m) (fz m) (fn m) (mem m) (sw80 m) (swpage2 m) (swhires m) (kbd m) (net m) (cyc m) (log m) (taken m).
Proof. intros <- <-. reflexivity. Qed.

Section Boot.
Variable stream : list Z.

(** [n] instructions lead from [m] to [m'], print [out] and try to connect [k] times *)
Definition does (sched : nat -> env) (m : machine) (n : nat) (m' : machine) (out : list Z) (k : nat) : Prop :=
  run stream sched n m = Some m' /\ printed (states stream sched n m) = out /\ attempts (states stream sched n m) = k /\ frame m m'.
Lemma printed_app a b : printed (a ++ b) = printed a ++ printed b.
Proof. unfold printed. rewrite filter_app, map_app. reflexivity. Qed.
Lemma attempts_app a b : attempts (a ++ b) = (attempts a + attempts b)%nat.
Proof. unfold attempts. rewrite filter_app, app_length. reflexivity. Qed.
Lemma states_app n1 n2 : forall sched m m1, run stream sched n1 m = Some m1 ->
  states stream sched (n1 + n2) m = states stream sched n1 m ++ states stream (fun i => sched (n1 + i)%nat) n2 m1.
Proof.
  induction n1 as [|n1 IH]; intros sched m m1 R; cbn [run states Nat.add app] in *; [injection R as <-; reflexivity|].
  destruct (step stream (sched O) m) as [m'|]; [|discriminate]. rewrite (IH _ _ _ R). reflexivity.
Qed.
Lemma does_app sched m n1 m1 o1 k1 n2 m2 o2 k2 : does sched m n1 m1 o1 k1 -> does (fun i => sched (n1 + i)%nat) m1 n2 m2 o2 k2 ->
  does sched m (n1 + n2) m2 (o1 ++ o2) (k1 + k2).
Proof.
  intros (R1 & P1 & A1 & F1) (R2 & P2 & A2 & F2). split; [exact (run_app _ _ _ _ _ _ _ R1 R2)|].
  rewrite (states_app n1 n2 _ _ _ R1), printed_app, attempts_app. split; [congruence|]. split; [congruence|exact (frame_trans _ _ _ F1 F2)].
Qed.
Lemma does_nil sched m : does sched m 0 m [] 0.
Proof. split; [reflexivity|]. split; [reflexivity|]. split; [reflexivity|]. apply frame_refl; reflexivity. Qed.
Lemma does_one sched m m' : step stream (sched O) m = Some m' -> pc m <> 0xFDED -> frame m m' -> does sched m 1 m' [] (is_opened (pc m)).
Proof.
  intros S N F. split; [cbn [run]; rewrite S; reflexivity|]. cbn [states]. rewrite S. unfold printed, attempts. cbn [filter]. rewrite opened.
  destruct (Z.eqb_spec (pc m) 0xFDED); [contradiction|]. split; [reflexivity|]. split; [unfold is_opened; destruct (pc m =? 0x20E8); reflexivity|exact F].
Qed.

(** ** Symbolic steps are steps *)
Lemma repr_next b m md q cy t : repr b m ->
  repr (B q (b_a b) (b_x b) (b_y b) (b_z b) (b_mem b) (b_card b) (b_out b) t) (with_cyc cy (with_pc (pc m + mode_length md) m)) \/ q <> b_pc b + mode_length md.
Proof.
  intros [R1 R2 R3 R4 R5 R6 R7 R8 R9 R10 R11]. destruct (Z.eq_dec q (b_pc b + mode_length md)) as [->|]; [left|right; assumption].
  constructor; cbn; try assumption. rewrite R1. reflexivity.
Qed.
Lemma frame_before e b m : repr b m -> still b = true -> frame m (before stream e m).
Proof.
  intros R S. destruct (before_still stream e b m R S) as (_ & L & T & MM & _ & (S1 & S2 & S3) & RS & _). apply frame_refl; assumption.
Qed.
Lemma bins_shape i md v b k b' : bins i md v b = Some (k, b') ->
  (k = 1%nat /\ b_out b' = b_out b /\ b_tries b' = b_tries b) \/
  (k = 2%nat /\ i = iJSR /\ md = mAbs /\ v = 0xFDED /\ b' = B (b_pc b) (b_a b) (b_x b) (b_y b) (b_z b) (b_mem b) (b_card b) (b_out b ++ [b_a b]) (b_tries b)).
Proof.
  assert (ST : forall a x c c', store a x c = Some c' -> b_out c' = b_out c /\ b_tries c' = b_tries c).
  { intros a x c c' H. unfold store in H. repeat match goal with H : context [if ?t then _ else _] |- _ => destruct t end; try discriminate;
      try (injection H as <-; auto); destruct (b_card c) as [k0|]; try discriminate; try (injection H as <-; auto).
    destruct (card_poke x k0); [|discriminate]. injection H as <-. auto. }
  intros H. unfold bins in H.
  destruct i; try discriminate; destruct md; try discriminate;
    try (injection H as <- <-; left; repeat split; try reflexivity; destruct (b_z b); reflexivity).
  - destruct (v =? 0xC097).
    + destruct (b_card b) as [c|]; [|discriminate]. destruct (card_peek c); [|discriminate]. injection H as <- <-. auto.
    + destruct (data_at boot_data v); [|discriminate]. injection H as <- <-. auto.
  - destruct (_ && _); [|discriminate]. destruct (data_at _ _); [|discriminate]. injection H as <- <-. auto.
  - destruct (_ && _); [|discriminate]. destruct (data_at _ _); [|discriminate]. injection H as <- <-. auto.
  - destruct (store _ _ _) eqn:S; [|discriminate]. injection H as <- <-. apply ST in S. left. auto.
  - destruct (store _ _ _) eqn:S; [|discriminate]. injection H as <- <-. apply ST in S. left. auto.
  - destruct (assoc _ _); [|discriminate]. cbv zeta in H. destruct (store _ _ _) eqn:S; [|discriminate]. injection H as <- <-. apply ST in S. left. auto.
  - destruct (Z.eqb_spec v 0xFDED) as [->|]; [|discriminate]. injection H as <- <-. right. auto.
Qed.
Lemma bstep_sound sched b m k b' : repr b m -> bstep b = Some (k, b') ->
  exists m' out j, does sched m k m' out j /\ repr b' m' /\ b_out b' = b_out b ++ out /\ b_tries b' = (b_tries b + j)%nat.
Proof.
  intros R H. unfold bstep in H. destruct (still b) eqn:ST; [|discriminate].
  destruct (lookup (b_pc b) boot) as [[[i md] [v|]]|] eqn:LK; try discriminate. apply lookup_in in LK.
  destruct (before_still stream (sched O) b m R ST) as (R1 & L1 & T1 & M1 & _ & SW1 & RS1 & PC1 & RA1).
  pose proof (frame_before (sched O) b m R ST) as F1.
  assert (PN : pc m <> 0xFDED) by (apply boot_range in LK; rewrite (r_pc _ _ R); lia).
  assert (E : step stream (sched O) m = exec_ins i md v (with_cyc (cyc (before stream (sched O) m) + cycles i md v (before stream (sched O) m))
    (with_pc (pc (before stream (sched O) m) + mode_length md) (before stream (sched O) m)))).
  { unfold step. apply exec_boot; [exact (r_startup _ _ R1)|exact (r_page2 _ _ R1)|]. rewrite (r_pc _ _ R1). exact LK. }
  set (m1 := before stream (sched O) m) in *.
  match type of H with bins _ _ _ ?c = _ => set (b1 := c) in H end.
  assert (R2 : repr b1 (with_cyc (cyc m1 + cycles i md v m1) (with_pc (pc m1 + mode_length md) m1))).
  { destruct (repr_next b m1 md (b_pc b + mode_length md) (cyc m1 + cycles i md v m1) (b_tries b + is_opened (b_pc b)) R1) as [X|X]; [exact X|contradiction]. }
  assert (F2 : frame m (with_cyc (cyc m1 + cycles i md v m1) (with_pc (pc m1 + mode_length md) m1))) by (apply (frame_trans _ m1); [exact F1|apply frame_refl; reflexivity]).
  set (m2 := with_cyc _ _) in *.
  destruct (bins_shape _ _ _ _ _ _ H) as [(-> & O1 & O2)|(-> & -> & -> & -> & ->)].
  - destruct (bins_sound _ _ _ _ _ _ R2 H) as (m' & E2 & R3 & F3). exists m', [], (is_opened (pc m)).
    split; [apply does_one; [rewrite E; exact E2|exact PN|exact (frame_trans _ _ _ F2 F3)]|]. split; [exact R3|].
    rewrite app_nil_r, O1, O2, (r_pc _ _ R). auto.
  - (* a call of COUT *)
    assert (exists m3, exec_ins iJSR mAbs 0xFDED m2 = Some m3 /\ pc m3 = 0xFDED /\ ra m3 = b_a b /\ rs m3 = (rs m2 - 2) mod 256 /\
       repr (set_pc 0xFDED b) m3 /\ mem m3 false (0x100 + (rs m2 - 1) mod 256) = (pc m2 - 1) mod 256 /\ mem m3 false (0x100 + rs m2) = (pc m2 - 1) / 256 /\
       (forall c a, ~ boot_cell a -> mem m3 c a = mem m2 c a) /\ (exists new, log m3 = log m2 ++ new /\ Forall boot_write new) /\ taken m3 = taken m2 /\ same_switches m2 m3)
      as (m3 & E3 & P3 & A3 & S3 & R3 & LO & HI & MM3 & LG3 & TK3 & SW3).
    { clear - R2. destruct R2 as [Q1 Q2 Q3 Q4 Q5 Q6 Q7 Q8 Q9 Q10 Q11]. generalize dependent m2. intros m2. destruct m2 as [p a x y s c z n mm s80 p2 hr kb nt cy lg tk].
      cbn [pc ra rx ry rs fz mem net swpage2] in *. intros. subst b1. cbn [b_pc b_a b_x b_y b_z b_mem b_card b_out b_tries] in *.
      pose proof (Z.mod_pos_bound (s - 1) 256 eq_refl) as MB. assert (NE : (s - 1) mod 256 <> s) by (clear - Q11; dlia).
      set (w1 := Wrt cy (0x100 + s) ((p - 1) / 256) false). set (w2 := Wrt cy (0x100 + (s - 1) mod 256) ((p - 1) mod 256) false).
      assert (MS : forall d q, ~ boot_cell q -> write1 w2 (write1 w1 mm) d q = mm d q).
      { intros d q N. rewrite !write_off; [reflexivity| |]; cbn [w_addr w1 w2]; intros ->; apply N; unfold boot_cell; lia. }
      eexists. split; [apply jsr; exact Q11|]. cbn [pc ra rs mem log taken]. fold w1 w2.
      split; [reflexivity|]. split; [exact Q2|]. split; [reflexivity|]. split.
      { constructor; cbn [pc ra rx ry rs fz mem net swpage2 set_pc b_pc b_a b_x b_y b_z b_mem b_card b_out b_tries]; try assumption; try reflexivity.
        - intros q v' X. destruct (Q6 _ _ X) as [X1 X2]. split; [|exact X2]. rewrite !write_off; [exact X1| |]; cbn [w_addr w1 w2]; unfold cell in X2; lia.
        - exact (ldd_frame _ _ MS Q8).
        - exact (sldd_frame _ _ MS Q9).
        - apply Z.mod_pos_bound. reflexivity. }
      split; [apply (write_at w2); cbn [w_aux w_addr w2]; [reflexivity|lia]|].
      split; [rewrite write_off by (cbn [w_addr w2]; lia); apply (write_at w1); cbn [w_aux w_addr w1]; [reflexivity|lia]|].
      split; [exact MS|]. split; [|split; [reflexivity|split; [reflexivity|split; reflexivity]]].
      exists [w1; w2]. split; [rewrite <- app_assoc; reflexivity|].
      repeat (apply Forall_cons || apply Forall_nil); unfold boot_write, boot_cell; cbn [w_addr w1 w2]; lia. }
    assert (ST3 : still (set_pc 0xFDED b) = true) by exact ST.
    destruct (before_still stream (sched 1%nat) _ _ R3 ST3) as (R4 & L4 & T4 & M4 & _ & SW4 & RS4 & PC4 & RA4).
    set (m4 := before stream (sched 1%nat) m3) in *.
    exists (rts m4), [b_a b], (is_opened (pc m)).
    assert (E4 : step stream (sched 1%nat) m3 = Some (rts m4)).
    { unfold step. fold m4. unfold exec. rewrite PC4, P3. reflexivity. }
    pose proof (r_stack _ _ R2) as Q11.
    assert (RL : rts m4 = M (pc m2) (ra m4) (rx m4) (ry m4) (rs m2) (fc m4) (fz m4) (fn m4) (mem m4) (sw80 m4) (swpage2 m4) (swhires m4) (kbd m4) (net m4) (cyc m4) (log m4) (taken m4)).
    { apply rts_is; rewrite RS4, S3, ?M4.
      - replace (((rs m2 - 2) mod 256 + 1) mod 256) with ((rs m2 - 1) mod 256) by (clear; dlia).
        replace (((rs m2 - 2) mod 256 + 2) mod 256) with (rs m2) by (clear - Q11; dlia). rewrite LO, HI. clear; dlia.
      - clear - Q11; dlia. }
    assert (FR : frame m (rts m4)).
    { apply (frame_trans _ m2); [exact F2|]. rewrite RL. destruct SW3 as (X1 & X2 & X3), SW4 as (Y1 & Y2 & Y3).
      constructor; cbn [log taken mem sw80 swpage2 swhires rs]; [rewrite L4; exact LG3|congruence|intros c a N; rewrite M4; apply MM3, N|repeat split; congruence|reflexivity]. }
    split; [|split; [|split]].
    + split; [cbn [run]; rewrite E, E3, E4; reflexivity|]. cbn [states]. rewrite E, E3, E4. unfold printed, attempts. cbn [filter]. rewrite !opened.
      destruct (Z.eqb_spec (pc m) 0xFDED); [contradiction|]. rewrite P3. cbn [Z.eqb Pos.eqb map]. rewrite A3. split; [reflexivity|]. split; [|exact FR].
      unfold is_opened. destruct (pc m =? 0x20E8); reflexivity.
    + rewrite RL. destruct R4 as [Q1 Q2 Q3 Q4 Q5 Q6 Q7 Q8 Q9 Q10 _]. constructor; cbn [pc ra rx ry rs fz mem net swpage2]; try assumption.
      exact (r_pc _ _ R2).
    + reflexivity.
    + unfold b1. cbn [b_tries]. rewrite (r_pc _ _ R). reflexivity.
Qed.
Lemma bexec_sound stop fuel : forall sched b m n b', repr b m -> bexec fuel stop b = Some (n, b') ->
  exists m' out j, does sched m n m' out j /\ repr b' m' /\ b_out b' = b_out b ++ out /\ b_tries b' = (b_tries b + j)%nat /\ b_pc b' = stop.
Proof.
  induction fuel as [|f IH]; intros sched b m n b' R H; cbn [bexec] in H; destruct (Z.eqb_spec (b_pc b) stop) as [E|E];
    try (injection H as <- <-; exists m, [], O; split; [apply does_nil|]; split; [exact R|]; rewrite app_nil_r, Nat.add_0_r; auto); try discriminate.
  destruct (bstep b) as [[k b1]|] eqn:S; [|discriminate]. destruct (bexec f stop b1) as [[n1 b2]|] eqn:X; [|discriminate]. injection H as <- <-.
  destruct (bstep_sound sched _ _ _ _ R S) as (m1 & o1 & j1 & D1 & R1 & O1 & T1).
  destruct (IH (fun i => sched (k + i)%nat) _ _ _ _ R1 X) as (m2 & o2 & j2 & D2 & R2 & O2 & T2 & P2).
  exists m2, (o1 ++ o2), (j1 + j2)%nat. split; [exact (does_app _ _ _ _ _ _ _ _ _ _ D1 D2)|]. split; [exact R2|].
  rewrite O2, O1, T2, T1, app_assoc, Nat.add_assoc. auto.
Qed.

(** ** Waiting for the server *)
Definition good (e : env) : Prop := forall v, e_status e = Some v -> v = 0x17 \/ v = 0.
Record net_ok (c : chip) : Prop := {
  no_conf : configured c;
  no_ptr : ptr c / 256 = 4;
  no_rxrd : rxrd c = 0;
  no_base : rxbase c = 0;
  no_state : (status c = 0x15 /\ wr c = 0) \/ (status c = 0x17 /\ held stream c 0) \/ status c = 0
}.
Definition evolves (e : env) (c c' : chip) : Prop :=
  (status c = 0x17 -> status c' = 0x17) /\ (status c = 0 -> status c' = 0) /\ (e_status e <> None \/ status c <> 0x15 -> status c' <> 0x15) /\
  (status c' = status c \/ e_status e = Some (status c')).
Lemma arrive_rest n : forall c, let c' := arrive stream n c in wmode c' = wmode c /\ regs c' = regs c /\ status c' = status c /\ rxbase c' = rxbase c /\ rxrd c' = rxrd c /\ ptr c' = ptr c.
Proof.
  induction n as [|n IH]; intros c; cbn [arrive]; [cbn; auto 10|]. destruct (IH (arrive1 stream c)) as (A & B & C & D & E & F). cbv zeta. rewrite A, B, C, D, E, F.
  unfold arrive1. destruct (_ && _); cbn; auto 10.
Qed.
Lemma conf_same c c' : wmode c' = wmode c -> regs c' = regs c -> configured c -> configured c'.
Proof. intros W R [C1 C2 C3 C4 C5 C6 C7]. constructor; unfold at_regs in *; rewrite ?W, ?R; assumption. Qed.
Lemma conf_size c : configured c -> regs c 0x1A mod 4 = 3.
Proof. intros C. pose proof (cf_sizes _ C O 3 eq_refl) as X. change (0x1A + Z.of_nat 0) with 0x1A in X. rewrite X. reflexivity. Qed.
Lemma net_before e c : net_ok c -> good e -> let c' := arrive stream (e_bytes e) (connect (e_status e) c) in net_ok c' /\ ptr c' = ptr c /\ evolves e c c'.
Proof.
  intros [N1 N2 N3 N4 N5] G. cbv zeta. set (c1 := connect (e_status e) c).
  assert (X : wmode c1 = wmode c /\ regs c1 = regs c /\ ptr c1 = ptr c /\ rxrd c1 = rxrd c /\ rxbase c1 = rxbase c /\ wr c1 = wr c /\ buf c1 = buf c /\ (status c1 = status c \/ (status c = 0x15 /\ e_status e = Some (status c1))) /\ (e_status e <> None -> status c1 <> 0x15)).
  { unfold c1, connect. destruct (e_status e) as [v|] eqn:E; [|repeat split; auto; congruence]. destruct (Z.eqb_spec (status c) 0x15) as [S|S]; repeat split; auto; cbn; auto.
    intros _. destruct (G _ E); lia. }
  destruct X as (X1 & X2 & X3 & X4 & X5 & X6 & X7 & X8 & X9).
  destruct (arrive_rest (e_bytes e) c1) as (A1 & A2 & A3 & A4 & A5 & A6). set (c2 := arrive stream (e_bytes e) c1) in *.
  assert (EV : evolves e c c2).
  { unfold evolves. rewrite A3. repeat split; [intros S; destruct X8 as [-> |[S' _]]; [exact S|lia]|intros S; destruct X8 as [-> |[S' _]]; [exact S|lia]| |tauto].
    intros [S|S]; [exact (X9 S)|]. destruct X8 as [-> |[S' _]]; [exact S|contradiction]. }
  split; [|split; [congruence|exact EV]].
  assert (C1 : configured c1) by (apply (conf_same c); assumption).
  constructor; [apply (conf_same c1); assumption|congruence|congruence|congruence|].
  assert (H17 : status c1 = 0x17 -> held stream c1 0).
  { intros S. destruct X8 as [X8|[X8 X8']].
    - destruct N5 as [[N5 _]|[[N5 H]|N5]]; [lia| |lia]. destruct H. constructor; rewrite ?X1, ?X2, ?X5, ?X6, ?X7; assumption || lia.
    - destruct N5 as [[_ W]|[[N5 _]|N5]]; [|lia|lia]. constructor; rewrite ?X5, ?X6, ?X7, ?W; try lia; [rewrite X1; apply N1|apply conf_size, C1]. }
  assert (ST : status c1 = 0x15 \/ status c1 = 0x17 \/ status c1 = 0).
  { destruct X8 as [-> |[_ E]]; [tauto|]. destruct (G _ E); auto. }
  rewrite A3. destruct ST as [ST|[ST|ST]]; [left; split; [exact ST|]|right; left; split; [exact ST|]|right; right; exact ST].
  - assert (W : forall n, arrive stream n c1 = c1).
    { induction n as [|n IH]; [reflexivity|]. cbn [arrive]. unfold arrive1. rewrite ST. exact IH. }
    unfold c2. rewrite W, X6. destruct X8 as [X8|[X8 _]]; destruct N5 as [[_ W']|[[N5 _]|N5]]; lia.
  - destruct (arrive_held stream (e_bytes e) _ _ (H17 ST)) as (A & _). exact A.
Qed.

(** one instruction while waiting *)
Lemma step_try e p a x y s c z n mm s80 hr kb nt cy lg tk i md v :
  In (p, (i, md, Some v)) boot -> sldd mm -> net_ok nt -> good e ->
  exists nt' kb' cy', net_ok nt' /\ ptr nt' = ptr nt /\ evolves e nt nt' /\
    step stream e (M p a x y s c z n mm s80 false hr kb nt cy lg tk) = exec_ins i md v (M (p + mode_length md) a x y s c z n mm s80 false hr kb' nt' cy' lg tk).
Proof.
  intros IN L N G. destruct (net_before e nt N G) as (B1 & B2 & B3). cbv zeta in *.
  eexists _, _, _. split; [exact B1|]. split; [exact B2|]. split; [exact B3|].
  unfold step. rewrite before_shape. cbn [net].
  match goal with |- exec ?m = _ => rewrite (exec_boot m i md v) end; [reflexivity|exact L|reflexivity|exact IN].
Qed.

(** state of memory and the stack; [k] attempts are left *)
Record base (k : Z) (m : machine) : Prop := {
  ba_code : ldd (mem m);
  ba_startup : sldd (mem m);
  ba_page2 : swpage2 m = false;
  ba_stack : 0 <= rs m < 256;
  ba_left : mem m false 0x6 = k;
  ba_reset : mem m false 0x3F2 = 0xAC /\ mem m false 0x3F3 = 0xBA /\ mem m false 0x3F4 = 0x1F
}.
Record trying (k : Z) (m : machine) : Prop := { ty_pc : pc m = 0x20F2; ty_base : base k m; ty_net : net_ok (net m) }.
Record failing (k : Z) (m : machine) : Prop := { fl_pc : pc m = 0x2102; fl_base : base k m; fl_status : status (net m) = 0 }.
Record online (k : Z) (m : machine) : Prop := { ol_pc : pc m = 0x214A; ol_base : base k m; ol_net : net_ok (net m); ol_status : status (net m) = 0x17 }.

Ltac in_boot := match goal with |- In (?p, _) _ => let k := eval vm_compute in (index_of p boot) in apply (nth_error_In boot k); reflexivity end.
Definition evolve (l : list env) (c c' : chip) : Prop :=
  (status c = 0x17 -> status c' = 0x17) /\ (status c = 0 -> status c' = 0) /\ ((exists e, In e l /\ e_status e <> None) \/ status c <> 0x15 -> status c' <> 0x15) /\
  (status c' = status c \/ exists e, In e l /\ e_status e = Some (status c')).
Lemma evolve_nil c c' : status c' = status c -> evolve [] c c'.
Proof. intros E. unfold evolve. rewrite E. repeat split; auto. intros [(e & [] & _)|H]; exact H. Qed.
Lemma evolve_cons e l c c1 c2 : evolves e c c1 -> evolve l c1 c2 -> evolve (e :: l) c c2.
Proof.
  intros (A1 & A2 & A3 & A4) (B1 & B2 & B3 & B4). unfold evolve. split; [auto|]. split; [auto|]. split.
  - intros [(e' & [<-|I] & N)|N]; apply B3; [right; auto|left; eauto|right; auto].
  - destruct B4 as [-> |(e' & I & E)]; [|right; exists e'; split; [right; exact I|exact E]]. destruct A4 as [-> |E]; [auto|]. right. exists e. split; [left; reflexivity|exact E].
Qed.
Lemma evolve_same l c c1 c2 : status c1 = status c -> evolve l c1 c2 -> evolve l c c2.
Proof. intros E. unfold evolve. rewrite E. auto. Qed.
Lemma set_ptr_ok p c : p / 256 = 4 -> net_ok c -> net_ok (set_ptr p c).
Proof.
  intros P [N1 N2 N3 N4 N5]. constructor; cbn; try assumption; [apply (conf_same c); assumption || reflexivity|].
  destruct N5 as [N5|[[N5 H]|N5]]; [left; exact N5|right; left; split; [exact N5|]|right; right; exact N5]. destruct H. constructor; assumption.
Qed.
Lemma base_same k m m' : mem m' = mem m -> swpage2 m' = swpage2 m -> rs m' = rs m -> base k m -> base k m'.
Proof. intros E1 E2 E3 [B1 B2 B3 B4 B5 B6]. constructor; rewrite ?E1, ?E2, ?E3; assumption. Qed.
Lemma does_none sched m n m' : run stream sched n m = Some m' -> Forall (fun s => pc s <> 0xFDED /\ pc s <> 0x20E8) (states stream sched n m) -> frame m m' -> does sched m n m' [] 0.
Proof.
  intros R F FR. split; [exact R|]. unfold printed, attempts. split; [|split; [|exact FR]].
  - induction F as [|s l [H _] F IH]; [reflexivity|]. cbn [filter]. destruct (Z.eqb_spec (pc s) 0xFDED); [contradiction|exact IH].
  - induction F as [|s l [_ H] F IH]; [reflexivity|]. cbn [filter]. rewrite opened. destruct (Z.eqb_spec (pc s) 0x20E8); [contradiction|exact IH].
Qed.
Lemma run_step sched n m m1 r : step stream (sched O) m = Some m1 -> run stream (fun i => sched (S i)) n m1 = r -> run stream sched (S n) m = r.
Proof. intros E <-. cbn [run]. rewrite E. reflexivity. Qed.
Lemma states_step sched n m m1 (F : machine -> Prop) : step stream (sched O) m = Some m1 -> F m -> Forall F (states stream (fun i => sched (S i)) n m1) -> Forall F (states stream sched (S n) m).
Proof. intros E H R. cbn [states]. rewrite E. constructor; assumption. Qed.
Lemma pass sched k m : trying k m -> (forall i, good (sched i)) ->
  exists n m', does sched m n m' [] 0 /\ (0 < n <= 7)%nat /\
    (trying k m' \/ failing k m' \/ online k m') /\
    (status (net m) = 0x17 -> online k m') /\ (status (net m) = 0 -> failing k m') /\
    evolve (map sched (seq 0 n)) (net m) (net m').
Proof.
  intros [T1 T2 T3] G. destruct m as [p a x y s c z n mm s80 p2 hr kb nt cy lg tk]. cbn [pc net] in *.
  assert (P2 : p2 = false) by exact (ba_page2 _ _ T2). assert (SL : sldd mm) by exact (ba_startup _ _ T2). subst p p2.
  destruct (step_try (sched 0%nat) 0x20F2 a x y s c z n mm s80 hr kb nt cy lg tk iLDA mImm 0x3 ltac:(in_boot) SL T3 (G _)) as (nt1 & kb1 & cy1 & O1 & Q1 & V1 & E1).
  cbn [exec_ins load alu] in E1. cbv beta iota zeta delta [nz with_flags with_regs mode_length pc ra rx ry rs fc fz fn mem sw80 swpage2 swhires kbd net cyc log taken] in E1. cbn [Z.eqb Z.leb Z.compare Pos.compare Pos.compare_cont] in E1.
  match type of E1 with _ = Some (M ?p ?a ?x ?y ?s ?c ?z ?n ?mm ?s80 false ?hr ?kb ?nt ?cy ?lg ?tk) =>
    destruct (step_try (sched 1%nat) p a x y s c z n mm s80 hr kb nt cy lg tk iSTA mAbs 0xC096 ltac:(in_boot) SL O1 (G _)) as (nt2 & kb2 & cy2 & O2 & Q2 & V2 & E2) end.
  cbn [exec_ins ea ra] in E2. rewrite bw_adrl in E2.
  assert (Q3 : 256 * (ptr nt2 / 256) + 3 = 0x403) by (rewrite (no_ptr _ O2); reflexivity). rewrite Q3 in E2.
  assert (O2' := set_ptr_ok 0x403 nt2 eq_refl O2).
  match type of E2 with _ = Some (M ?p ?a ?x ?y ?s ?c ?z ?n ?mm ?s80 false ?hr ?kb ?nt ?cy ?lg ?tk) =>
    destruct (step_try (sched 2%nat) p a x y s c z n mm s80 hr kb nt cy lg tk iLDA mAbs 0xC097 ltac:(in_boot) SL O2' (G _)) as (nt3 & kb3 & cy3 & O3 & Q4 & V3 & E3) end.
  cbn [exec_ins load ea] in E3. rewrite br_data in E3. cbn [ptr set_ptr] in Q4.
  assert (PK : chip_peek nt3 = status nt3) by (unfold chip_peek; rewrite Q4; reflexivity).
  assert (NP : next_ptr nt3 = set_ptr 0x404 nt3) by (unfold next_ptr; rewrite (cf_mode _ (no_conf _ O3)), Q4; reflexivity).
  rewrite PK, NP, Q4 in E3. change (in_rx 0x403) with false in E3. cbv iota in E3.
  cbv beta iota zeta delta [alu nz with_flags with_regs mode_length pc ra rx ry rs fc fz fn mem sw80 swpage2 swhires kbd net cyc log taken] in E3.
  assert (O3' := set_ptr_ok 0x404 nt3 eq_refl O3).
  match type of E3 with _ = Some (M ?p ?a ?x ?y ?s ?c ?z ?n ?mm ?s80 false ?hr ?kb ?nt ?cy ?lg ?tk) =>
    destruct (step_try (sched 3%nat) p a x y s c z n mm s80 hr kb nt cy lg tk iBEQ mRel 6 ltac:(in_boot) SL O3' (G _)) as (nt4 & kb4 & cy4 & O4 & Q5 & V4 & E4) end.
  cbn [exec_ins fz branch] in E4. cbv beta iota zeta delta [branch with_cyc with_pc mode_length pc ra rx ry rs fc fz fn mem sw80 swpage2 swhires kbd net cyc log taken] in E4.
  assert (FR : forall p' a' c' z' n' kb' nt' cy' w, 0xC094 <= w_addr w <= 0xC097 -> frame (M 0x20F2 a x y s c z n mm s80 false hr kb nt cy lg tk) (M p' a' x y s c' z' n' mm s80 false hr kb' nt' cy' (lg ++ [w]) tk)).
  { intros. constructor; cbn; auto. exists [w]. split; [reflexivity|]. constructor; [right; assumption|constructor]. }
  assert (BS : forall p' a' c' z' n' kb' nt' cy' l', base k (M p' a' x y s c' z' n' mm s80 false hr kb' nt' cy' l' tk)) by (intros; refine (base_same _ _ _ _ _ _ T2); reflexivity).
  destruct (Z.eqb_spec (status nt3) 0) as [S0|S0].
  { change (0x20F7 + 3 + 2 + 6) with 0x2102 in E4. eexists 4%nat, _. split; [apply does_none|].
    - apply (run_step _ _ _ _ _ E1). apply (run_step _ _ _ _ _ E2). apply (run_step _ _ _ _ _ E3). apply (run_step _ _ _ _ _ E4). reflexivity.
    - apply (states_step _ _ _ _ _ E1); [cbn [pc]; lia|]. apply (states_step _ _ _ _ _ E2); [cbn [pc]; lia|]. apply (states_step _ _ _ _ _ E3); [cbn [pc]; lia|]. apply (states_step _ _ _ _ _ E4); [cbn [pc]; lia|]. constructor.
    - apply FR. cbn. lia.
    - assert (S4 : status nt4 = 0) by (apply V4; exact S0).
      assert (EV : evolve (map sched (seq 0 4)) nt nt4).
      { cbn [seq map]. apply (evolve_cons _ _ _ nt1 _ V1), (evolve_cons _ _ _ nt2 _ V2). apply (evolve_same _ _ (set_ptr 0x403 nt2)); [reflexivity|].
        apply (evolve_cons _ _ _ nt3 _ V3). apply (evolve_same _ _ (set_ptr 0x404 nt3)); [reflexivity|]. apply (evolve_cons _ _ _ nt4 _ V4), evolve_nil. reflexivity. }
      assert (FL : forall p', p' = 0x2102 -> forall a' c' z' n' kb' cy' l', failing k (M p' a' x y s c' z' n' mm s80 false hr kb' nt4 cy' l' tk)) by (intros; constructor; [assumption|apply BS|exact S4]).
      split; [lia|]. split; [right; left; apply FL; reflexivity|]. cbn [net]. split; [|split; [intros _; apply FL; reflexivity|exact EV]].
      intros S. apply EV in S. lia. }
  match type of E4 with _ = Some (M ?p ?a ?x ?y ?s ?c ?z ?n ?mm ?s80 false ?hr ?kb ?nt ?cy ?lg ?tk) =>
    destruct (step_try (sched 4%nat) p a x y s c z n mm s80 hr kb nt cy lg tk iCMP mImm 0x17 ltac:(in_boot) SL O4 (G _)) as (nt5 & kb5 & cy5 & O5 & Q6 & V5 & E5) end.
  cbn [exec_ins load alu] in E5. cbv beta iota zeta delta [nz with_flags with_regs mode_length pc ra rx ry rs fc fz fn mem sw80 swpage2 swhires kbd net cyc log taken] in E5.
  match type of E5 with _ = Some (M ?p ?a ?x ?y ?s ?c ?z ?n ?mm ?s80 false ?hr ?kb ?nt ?cy ?lg ?tk) =>
    destruct (step_try (sched 5%nat) p a x y s c z n mm s80 hr kb nt cy lg tk iBEQ mRel 0x4A ltac:(in_boot) SL O5 (G _)) as (nt6 & kb6 & cy6 & O6 & Q7 & V6 & E6) end.
  cbn [exec_ins fz branch] in E6. cbv beta iota zeta delta [branch with_cyc with_pc mode_length pc ra rx ry rs fc fz fn mem sw80 swpage2 swhires kbd net cyc log taken] in E6.
  assert (S3 : status nt3 = 0x15 \/ status nt3 = 0x17) by (destruct (no_state _ O3) as [[H _]|[[H _]|H]]; tauto).
  assert (EV3 : forall l c', evolve l nt3 c' -> evolve (sched 0%nat :: sched 1%nat :: sched 2%nat :: l) nt c').
  { intros l c' H. apply (evolve_cons _ _ _ nt1 _ V1), (evolve_cons _ _ _ nt2 _ V2). apply (evolve_same _ _ (set_ptr 0x403 nt2)); [reflexivity|]. exact (evolve_cons _ _ _ nt3 _ V3 H). }
  destruct (Z.eqb_spec ((status nt3 - 0x17) mod 256) 0) as [SE|SE].
  { assert (S17 : status nt3 = 0x17) by (destruct S3 as [H|H]; [rewrite H in SE; discriminate|exact H]).
    assert (S6 : status nt6 = 0x17) by (apply V6, V5, V4; exact S17).
    eexists 6%nat, _. split; [apply does_none|].
    - apply (run_step _ _ _ _ _ E1). apply (run_step _ _ _ _ _ E2). apply (run_step _ _ _ _ _ E3). apply (run_step _ _ _ _ _ E4). apply (run_step _ _ _ _ _ E5). apply (run_step _ _ _ _ _ E6). reflexivity.
    - apply (states_step _ _ _ _ _ E1); [cbn [pc]; lia|]. apply (states_step _ _ _ _ _ E2); [cbn [pc]; lia|]. apply (states_step _ _ _ _ _ E3); [cbn [pc]; lia|]. apply (states_step _ _ _ _ _ E4); [cbn [pc]; lia|]. apply (states_step _ _ _ _ _ E5); [cbn [pc]; lia|]. apply (states_step _ _ _ _ _ E6); [cbn [pc]; lia|]. constructor.
    - apply FR. cbn. lia.
    - assert (EV : evolve (map sched (seq 0 6)) nt nt6).
      { cbn [seq map]. apply EV3. apply (evolve_same _ _ (set_ptr 0x404 nt3)); [reflexivity|]. apply (evolve_cons _ _ _ nt4 _ V4), (evolve_cons _ _ _ nt5 _ V5), (evolve_cons _ _ _ nt6 _ V6), evolve_nil. reflexivity. }
      assert (OL : forall p', p' = 0x214A -> forall a' c' z' n' kb' cy' l', online k (M p' a' x y s c' z' n' mm s80 false hr kb' nt6 cy' l' tk)) by (intros; constructor; [assumption|apply BS|exact O6|exact S6]).
      split; [lia|]. split; [right; right; apply OL; reflexivity|]. cbn [net]. split; [intros _; apply OL; reflexivity|split; [|exact EV]].
      intros S. apply EV in S. lia. }
  assert (S15 : status nt3 = 0x15) by (destruct S3 as [H|H]; [exact H|rewrite H in SE; contradiction]).
  match type of E6 with _ = Some (M ?p ?a ?x ?y ?s ?c ?z ?n ?mm ?s80 false ?hr ?kb ?nt ?cy ?lg ?tk) =>
    destruct (step_try (sched 6%nat) p a x y s c z n mm s80 hr kb nt cy lg tk iBNE mRel (-16) ltac:(in_boot) SL O6 (G _)) as (nt7 & kb7 & cy7 & O7 & Q8 & V7 & E7) end.
  cbn [exec_ins fz branch negb] in E7. cbv beta iota zeta delta [branch with_cyc with_pc mode_length pc ra rx ry rs fc fz fn mem sw80 swpage2 swhires kbd net cyc log taken] in E7.
  eexists 7%nat, _. split; [apply does_none|].
    - apply (run_step _ _ _ _ _ E1). apply (run_step _ _ _ _ _ E2). apply (run_step _ _ _ _ _ E3). apply (run_step _ _ _ _ _ E4). apply (run_step _ _ _ _ _ E5). apply (run_step _ _ _ _ _ E6). apply (run_step _ _ _ _ _ E7). reflexivity.
    - apply (states_step _ _ _ _ _ E1); [cbn [pc]; lia|]. apply (states_step _ _ _ _ _ E2); [cbn [pc]; lia|]. apply (states_step _ _ _ _ _ E3); [cbn [pc]; lia|]. apply (states_step _ _ _ _ _ E4); [cbn [pc]; lia|]. apply (states_step _ _ _ _ _ E5); [cbn [pc]; lia|]. apply (states_step _ _ _ _ _ E6); [cbn [pc]; lia|]. apply (states_step _ _ _ _ _ E7); [cbn [pc]; lia|]. constructor.
  - apply FR. cbn. lia.
  - assert (EV : evolve (map sched (seq 0 7)) nt nt7).
    { cbn [seq map]. apply EV3. apply (evolve_same _ _ (set_ptr 0x404 nt3)); [reflexivity|]. apply (evolve_cons _ _ _ nt4 _ V4), (evolve_cons _ _ _ nt5 _ V5), (evolve_cons _ _ _ nt6 _ V6), (evolve_cons _ _ _ nt7 _ V7), evolve_nil. reflexivity. }
    split; [lia|]. split; [left; constructor; [reflexivity|apply BS|exact O7]|]. cbn [net].
    pose proof (EV3 [] nt3 (evolve_nil nt3 nt3 eq_refl)) as EV'. split; [|split; [|exact EV]]; intros S; apply EV' in S; lia.
Qed.

Lemma wait_answer : forall j sched k m, trying k m -> (forall i, good (sched i)) -> e_status (sched j) <> None ->
  exists n m', does sched m n m' [] 0 /\ (failing k m' \/ online k m') /\ (status (net m') = status (net m) \/ exists i, e_status (sched i) = Some (status (net m'))).
Proof.
  induction j as [j IH] using lt_wf_ind. intros sched k m T G A.
  destruct (pass sched k m T G) as (n & m1 & D & N & ST & S17 & S0 & (V1 & V2 & V3 & V4)).
  assert (V4' : status (net m1) = status (net m) \/ exists i, e_status (sched i) = Some (status (net m1))).
  { destruct V4 as [V4|(e & I & V4)]; [left; exact V4|right]. apply in_map_iff in I. destruct I as (i & <- & _). eauto. }
  destruct ST as [T1|ST]; [|exists n, m1; auto].
  destruct (Nat.lt_ge_cases j n) as [L|L].
  - assert (NS : status (net m1) <> 0x15) by (apply V3; left; exists (sched j); split; [apply in_map, in_seq; lia|exact A]).
    destruct (pass (fun i => sched (n + i)%nat) k m1 T1 (fun i => G _)) as (n2 & m2 & D2 & N2 & _ & T17 & T0 & (W1 & W2 & W3 & W4)).
    exists (n + n2)%nat, m2. split; [exact (does_app _ _ _ _ _ _ _ _ _ _ D D2)|].
    assert (X : status (net m2) = status (net m1) /\ (failing k m2 \/ online k m2)).
    { destruct (no_state _ (ty_net _ _ T1)) as [[H _]|[[H _]|H]]; [contradiction|rewrite (W1 H), H; auto|rewrite (W2 H), H; auto]. }
    destruct X as [X1 X2]. split; [exact X2|]. rewrite X1. exact V4'.
  - destruct (IH (j - n)%nat ltac:(lia) (fun i => sched (n + i)%nat) k m1 T1 (fun i => G _)) as (n2 & m2 & D2 & F2 & W).
    { replace (n + (j - n))%nat with j by lia. exact A. }
    exists (n + n2)%nat, m2. split; [exact (does_app _ _ _ _ _ _ _ _ _ _ D D2)|]. split; [exact F2|].
    destruct W as [-> |(i & W)]; [exact V4'|right; eauto].
Qed.

(** ** The attempts *)
Definition resets : list (Z * Z) := [(0x3F4, 0x1F); (0x3F3, 0xBA); (0x3F2, 0xAC)].
Definition set_up : card := Card 3 0x402 final_regs 0x15.
Lemma first_attempt a x y z : exists n, bexec 400 0x20F2 (B 0x2010 a x y z [] None [] 0) = Some (n, B 0x20F2 4 4 y false ((0x6, 6) :: resets) (Some set_up) [] 1).
Proof. eexists. vm_compute. reflexivity. Qed.
Definition left6 (k : Z) : bool := match k with 2 | 3 | 4 | 5 | 6 => true | _ => false end.
Lemma next_attempt k a x y z : left6 k = true ->
  exists n l, bexec 400 0x20F2 (B 0x2102 a x y z ((0x6, k) :: resets) None [] 0) = Some (n, B 0x20F2 4 4 y false ((0x6, k - 1) :: l) (Some set_up) [0xAE] 1) /\
    forall q v, In (q, v) resets -> assoc ((0x6, k - 1) :: l) q = Some v.
Proof.
  intros H. assert (K : k = 2 \/ k = 3 \/ k = 4 \/ k = 5 \/ k = 6).
  { unfold left6 in H. destruct k as [|[[[]|[]|]|[[]|[]|]|]|]; try discriminate; tauto. }
  destruct K as [-> |[-> |[-> |[-> | ->]]]]; eexists _, _; (split; [vm_compute; reflexivity|]); intros q v [[= <- <-]|[[= <- <-]|[[= <- <-]|[]]]]; reflexivity.
Qed.
Lemma last_attempt a x y z : exists n b, bexec 400 0x211B (B 0x2102 a x y z ((0x6, 1) :: resets) None [] 0) = Some (n, b) /\ b_out b = high error_message /\ b_tries b = O /\
  forall q v, In (q, v) resets -> assoc (b_mem b) q = Some v.
Proof. eexists _, _. split; [vm_compute; reflexivity|]. split; [reflexivity|]. split; [reflexivity|]. intros q v [[= <- <-]|[[= <- <-]|[[= <- <-]|[]]]]; reflexivity. Qed.

Lemma at_listed l : forall c a, (forall x, regs c x = reg (k_regs set_up) x) -> forallb (fun ib => reg (k_regs set_up) (a + Z.of_nat (fst ib)) =? snd ib) (combine (seq 0 (length l)) l) = true -> at_regs c a l.
Proof.
  intros c a K H i b N. rewrite K. rewrite forallb_forall in H. apply Z.eqb_eq, (H (i, b)).
  assert (L : (i < length l)%nat) by (apply nth_error_Some; congruence).
  apply (nth_error_In _ i). rewrite (nth_error_nth' _ (O, 0)) by (rewrite combine_length, seq_length; lia).
  rewrite combine_nth by (rewrite seq_length; reflexivity). rewrite seq_nth by exact L. f_equal. f_equal. apply nth_error_nth, N.
Qed.
Lemma final_configured c : card_is set_up c -> net_ok c.
Proof.
  intros [K1 K2 K3 K4 K5 K6 K7]. constructor; try assumption; [|rewrite K2; reflexivity|left; auto].
  constructor; try assumption; try (apply at_listed; [exact K3|vm_compute; reflexivity]).
  rewrite K3. reflexivity.
Qed.
Lemma tried k b m : repr b m -> b_pc b = 0x20F2 -> b_card b = Some set_up -> assoc (b_mem b) 0x6 = Some k -> (forall q v, In (q, v) resets -> assoc (b_mem b) q = Some v) ->
  trying k m /\ status (net m) = 0x15.
Proof.
  intros [R1 R2 R3 R4 R5 R6 R7 R8 R9 R10 R11] P C K RS. rewrite C in R7. split; [|apply R7]. constructor; [congruence| |exact (final_configured _ R7)].
  constructor; try assumption; [apply (R6 _ _ K)|]. split; [|split]; apply R6, RS; cbn; auto.
Qed.
Lemma failing_repr k m : failing k m -> repr (B 0x2102 (ra m) (rx m) (ry m) (fz m) ((0x6, k) :: resets) None [] 0) m.
Proof.
  intros [P [B1 B2 B3 B4 B5 (B6 & B7 & B8)] S]. constructor; cbn [b_pc b_a b_x b_y b_z b_mem b_card]; auto. unfold resets, cell.
  intros a v H. cbn [assoc] in H. repeat match type of H with (if ?t =? ?u then _ else _) = _ => destruct (Z.eqb_spec t u) as [->|]; [injection H as <-; auto|] end. discriminate.
Qed.
Lemma start_tries sched m : started m -> exists n m', does sched m n m' [] 1 /\ trying 6 m' /\ status (net m') = 0x15.
Proof.
  intros [S1 S2 S3 S4 S5].
  assert (exists m1, step stream (sched O) m = Some m1 /\ frame m m1 /\ repr (B 0x2010 (ra m1) (rx m1) (ry m1) (fz m1) [] None [] 0) m1) as (m1 & E & F & R).
  { assert (EX : step stream (sched O) m = exec_ins iJMP mAbs 0x2010 (with_cyc (cyc (before stream (sched O) m) + 3) (with_pc 0x803 (before stream (sched O) m)))).
    { unfold step. rewrite before_shape. match goal with |- exec ?mb = _ => set (m2 := mb) end.
      assert (FC : find_code code_map (pc m2) = Some (iJMP, mAbs, Some 0x2010)) by (change (pc m2) with (pc m); rewrite S1; exact entry_code).
      pose proof (exec_code m2 iJMP mAbs (Some 0x2010) S2 FC) as X. cbv zeta iota in X. rewrite X. change (pc m2) with (pc m). rewrite S1. reflexivity. }
    rewrite before_shape in EX. eexists. split; [exact EX|]. split; [apply frame_refl; reflexivity|]. constructor; cbn; auto; discriminate. }
  pose proof (does_one sched m m1 E ltac:(rewrite S1; lia) F) as D1. rewrite S1 in D1. change (is_opened 0x800) with O in D1.
  destruct (first_attempt (ra m1) (rx m1) (ry m1) (fz m1)) as (n & X).
  destruct (bexec_sound _ _ (fun i => sched (1 + i)%nat) _ _ _ _ R X) as (m2 & out & j & D & R2 & O2 & T2 & P2). cbn [b_out b_tries app Nat.add] in O2, T2. subst out j.
  exists (1 + n)%nat, m2. split; [exact (does_app _ _ _ _ _ _ _ _ _ _ D1 D)|]. apply (tried 6 _ _ R2); try reflexivity.
  intros q v [[= <- <-]|[[= <- <-]|[[= <- <-]|[]]]]; reflexivity.
Qed.
Lemma retry sched k m : failing k m -> left6 k = true -> exists n m', does sched m n m' [0xAE] 1 /\ trying (k - 1) m' /\ status (net m') = 0x15.
Proof.
  intros F L. destruct (next_attempt k (ra m) (rx m) (ry m) (fz m) L) as (n & l & X & RS).
  destruct (bexec_sound _ _ sched _ _ _ _ (failing_repr _ _ F) X) as (m2 & out & j & D & R2 & O2 & T2 & P2). cbn [b_out b_tries app Nat.add] in O2, T2. subst out j.
  exists n, m2. split; [exact D|]. apply (tried (k - 1) _ _ R2); try reflexivity. exact RS.
Qed.
Definition resets_in (m : machine) : Prop := mem m false 0x3F2 = 0xAC /\ mem m false 0x3F3 = 0xBA /\ mem m false 0x3F4 = 0x1F.
Lemma give_up sched m : failing 1 m -> exists n m', does sched m n m' (high error_message) 0 /\ pc m' = 0x211B /\ resets_in m'.
Proof.
  intros F. destruct (last_attempt (ra m) (rx m) (ry m) (fz m)) as (n & b & X & O1 & T1 & RS).
  destruct (bexec_sound _ _ sched _ _ _ _ (failing_repr _ _ F) X) as (m2 & out & j & D & R2 & O2 & T2 & P2). cbn [b_out b_tries app Nat.add] in O2, T2.
  exists n, m2. rewrite <- O1, O2. rewrite T1 in T2. subst j. split; [exact D|]. split; [rewrite (r_pc _ _ R2); exact P2|].
  split; [|split]; apply (r_mem _ _ R2), RS; cbn; auto.
Qed.

Definition answered (sched : nat -> env) (m : machine) : Prop := exists i, e_status (sched i) = Some (status (net m)).
(** [f] more failures *)
Lemma attempts_run : forall (k : nat) sched m, (k <= 5)%nat -> trying (Z.of_nat (S k)) m -> status (net m) = 0x15 -> answers sched ->
  exists n m' f, (f <= k)%nat /\ (f = O \/ exists i, e_status (sched i) = Some 0) /\
    ((does sched m n m' (repeat 0xAE f) f /\ online (Z.of_nat (S k - f)) m' /\ exists i, e_status (sched i) = Some 0x17) \/
     (f = k /\ does sched m n m' (repeat 0xAE k ++ high error_message) k /\ pc m' = 0x211B /\ resets_in m' /\ exists i, e_status (sched i) = Some 0)).
Proof.
  induction k as [|k IH]; intros sched m L T ST0 A.
  - destruct (proj2 A O) as (j & _ & AJ). destruct (wait_answer j sched _ m T (fun i => proj1 A i) AJ) as (n & m1 & D & [F|O1] & W).
    + destruct (give_up (fun i => sched (n + i)%nat) m1 F) as (n2 & m2 & D2 & P2 & R2). exists (n + n2)%nat, m2, O. split; [lia|]. split; [auto|]. right.
      split; [reflexivity|]. split; [exact (does_app _ _ _ _ _ _ _ _ _ _ D D2)|]. split; [exact P2|]. split; [exact R2|].
      destruct W as [W|(i & W)]; rewrite (fl_status _ _ F) in W; [lia|eauto].
    + exists n, m1, O. split; [lia|]. split; [auto|]. left. split; [exact D|]. split; [exact O1|].
      destruct W as [W|(i & W)]; rewrite (ol_status _ _ O1) in W; [lia|eauto].
  - destruct (proj2 A O) as (j & _ & AJ). destruct (wait_answer j sched _ m T (fun i => proj1 A i) AJ) as (n & m1 & D & [F|O1] & W).
    + assert (Z0 : exists i, e_status (sched i) = Some 0) by (destruct W as [W|(i & W)]; rewrite (fl_status _ _ F) in W; [lia|eauto]).
      destruct (retry (fun i => sched (n + i)%nat) (Z.of_nat (S (S k))) m1 F) as (n2 & m2 & D2 & T2 & S2).
      { do 5 (destruct k as [|k]; [reflexivity|]). lia. }
      replace (Z.of_nat (S (S k)) - 1) with (Z.of_nat (S k)) in T2 by lia.
      assert (A2 : answers (fun i => sched (n + n2 + i)%nat)).
      { split; [intros i v; apply A|]. intros i. destruct (proj2 A (n + n2 + i)%nat) as (j' & L' & H'). exists (j' - (n + n2))%nat. split; [lia|]. replace (n + n2 + (j' - (n + n2)))%nat with j' by lia. exact H'. }
      destruct (IH (fun i => sched (n + n2 + i)%nat) m2 ltac:(lia) T2 S2 A2) as (n3 & m3 & f & LF & _ & R).
      pose proof (does_app _ _ _ _ _ _ _ _ _ _ D D2) as D12. cbn [app Nat.add] in D12.
      exists (n + n2 + n3)%nat, m3, (S f). split; [lia|]. split; [right; exact Z0|].
      destruct R as [(D3 & O3 & i & E3)|(-> & D3 & P3 & R3 & E3)]; [left|right].
      * split; [exact (does_app _ _ _ _ _ _ _ _ _ _ D12 D3)|]. split; [exact O3|]. eauto.
      * split; [reflexivity|]. split; [exact (does_app _ _ _ _ _ _ _ _ _ _ D12 D3)|]. auto.
    + exists n, m1, O. split; [lia|]. split; [auto|]. left. split; [exact D|]. split; [exact O1|].
      destruct W as [W|(i & W)]; rewrite (ol_status _ _ O1) in W; [lia|eauto].
Qed.
Lemma online_connected k m : online k m -> connected stream m /\ configured (net m) /\ resets_in m.
Proof.
  intros [P [B1 B2 B3 B4 B5 B6] N S]. destruct (no_state _ N) as [[H _]|[[_ H]|H]]; try lia. split; [|split; [apply N|exact B6]].
  constructor; [rewrite P; exact (proj1 boot_labels)|exact B1|exact B2|exact H|apply N|apply N|exact B3|exact B4].
Qed.
Lemma resets_leave m : resets_in m -> reset_leaves m.
Proof. intros (A & B & C). unfold reset_leaves. rewrite A, B, C. split; [exact (proj2 (proj2 boot_labels))|reflexivity]. Qed.

(** the whole start *)
Lemma starts sched m : started m -> answers sched ->
  exists n m' f, (f <= 5)%nat /\ (f = O \/ exists i, e_status (sched i) = Some 0) /\ reset_leaves m' /\
    ((does sched m n m' (repeat 0xAE f) (S f) /\ connected stream m' /\ configured (net m') /\ exists i, e_status (sched i) = Some 0x17) \/
     (f = 5%nat /\ does sched m n m' (repeat 0xAE 5 ++ high error_message) 6 /\ gave_up m' /\ exists i, e_status (sched i) = Some 0)).
Proof.
  intros ST A. destruct (start_tries sched m ST) as (n & m1 & D & T & S).
  assert (A2 : answers (fun i => sched (n + i)%nat)).
  { split; [intros i v; apply A|]. intros i. destruct (proj2 A (n + i)%nat) as (j' & L' & H'). exists (j' - n)%nat. split; [lia|]. replace (n + (j' - n))%nat with j' by lia. exact H'. }
  destruct (attempts_run 5 _ m1 ltac:(lia) T S A2) as (n2 & m2 & f & LF & Z0 & R). exists (n + n2)%nat, m2, f. split; [exact LF|].
  split; [destruct Z0 as [Z0|(i & Z0)]; eauto|].
  destruct R as [(D2 & O2 & i & E2)|(-> & D2 & P2 & R2 & i & E2)].
  - destruct (online_connected _ _ O2) as (C1 & C2 & C3). split; [apply resets_leave, C3|]. left. split; [exact (does_app _ _ _ _ _ _ _ _ _ _ D D2)|]. eauto.
  - split; [apply resets_leave, R2|]. right. split; [reflexivity|]. split; [exact (does_app _ _ _ _ _ _ _ _ _ _ D D2)|]. split; [|eauto].
    unfold gave_up. rewrite P2. exact (proj2 more_labels).
Qed.
End Boot.

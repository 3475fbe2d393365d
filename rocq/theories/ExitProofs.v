(** From TERMINATE to the exit. *)
From Verif Require Import Base BaseFacts OpcodeModel AsmModel PlayerCode CpuModel PlayerModel PlayerSpec PlayerExec ChipProofs TickExec RecvCode TickThms RunProofs RecvProofs LayoutProofs PlaybackSpec StartupCode StartupProofs BootSpec BootExec BootProofs.
From Coq Require Import FMapPositive.
Opaque lowcode code hgr resident startup symbols code_map boot_map.

Transparent lowcode code hgr resident startup symbols code_map.
Lemma exit_labels : label_address symbols L_op_terminate = Some 0xBA64 /\ label_address symbols L_exit_parmtable = Some 0xBAB5.
Proof. vm_compute. auto. Qed.
Lemma exit_code : find_all (find_code code_map) [(0xBAAC, (iINC, mAbs, Some 0x3F4)); (0xBAAF, (iJSR, mAbs, Some 0xBF00))] = [Some (iINC, mAbs, Some 0x3F4); Some (iJSR, mAbs, Some 0xBF00)].
Proof. vm_compute. reflexivity. Qed.
(** the data behind the JSR *)
Definition same_stmt (s t : stmt) : bool :=
  match s, t with
  | Bytes [a], Bytes [b] => a =? b
  | Word (Num a), Word (Num b) => a =? b
  | Word (Lbl L_exit_parmtable 0), Word (Lbl L_exit_parmtable 0) => true
  | _, _ => false
  end.
Definition exit_data : list (Z * stmt) :=
  [(0xBAB2, Bytes [0x65]); (0xBAB3, Word (Lbl L_exit_parmtable 0)); (0xBAB5, Bytes [4]); (0xBAB6, Bytes [0]); (0xBAB7, Word (Num 0)); (0xBAB9, Bytes [0]); (0xBABA, Word (Num 0))].
Definition has (as_ bt : Z * stmt) : bool := (fst as_ =? fst bt) && same_stmt (snd as_) (snd bt).
Lemma exit_there : (fun tail => forallb (fun d => existsb (has d) tail) exit_data) (filter (fun a => 0xBAB2 <=? fst a) resident) = true.
Proof. vm_compute. reflexivity. Qed.
Opaque lowcode code hgr resident startup symbols code_map.
Lemma same_stmt_eq s t : same_stmt s t = true -> s = t.
Proof.
  unfold same_stmt. destruct s as [| | | |[|a [|]]|[|l i| |]]; destruct t as [| | | |[|b [|]]|[|l' i'| |]]; try discriminate; intros H.
  1, 2: apply Z.eqb_eq in H; subst; reflexivity.
  all: destruct l; try discriminate; destruct i; try discriminate; destruct l'; try discriminate; destruct i'; try discriminate; reflexivity.
Qed.
Lemma exit_in a s : In (a, s) exit_data -> In (a, s) resident.
Proof.
  intros H. pose proof exit_there as D. cbv beta in D. rewrite forallb_forall in D. specialize (D _ H). apply existsb_exists in D.
  destruct D as ([a' s'] & I & E). apply andb_true_iff in E. cbn [fst snd] in E. destruct E as [E1 E2]. apply Z.eqb_eq in E1. apply same_stmt_eq in E2. rewrite E1, E2.
  exact (proj1 (proj1 (filter_In (fun x => 0xBAB2 <=? fst x) (a', s') resident) I)).
Qed.
Lemma exit_bytes mm : ldd mm -> mm false 0xBAB2 = 0x65 /\ mm false 0xBAB3 = 0xB5 /\ mm false 0xBAB4 = 0xBA /\
  forall i b, nth_error [4; 0; 0; 0; 0; 0; 0] i = Some b -> mm false (0xBAB5 + Z.of_nat i) = b.
Proof.
  intros L. assert (X : forall a s bytes i b, In (a, s) exit_data -> encode symbols a s = Some bytes -> nth_error bytes i = Some (true, b) -> mm false (a + Z.of_nat i) = b).
  { intros a s bytes i b I. apply L, exit_in, I. }
  assert (W : encode symbols 0xBAB3 (Word (Lbl L_exit_parmtable 0)) = Some [(true, 0xB5); (true, 0xBA)]).
  { cbn [encode resolve]. rewrite (proj2 exit_labels). reflexivity. }
  split; [exact (X 0xBAB2 (Bytes [0x65]) _ 0%nat _ ltac:(cbn; auto 10) eq_refl eq_refl)|].
  split; [exact (X 0xBAB3 _ _ 0%nat _ ltac:(right; left; reflexivity) W eq_refl)|].
  split; [exact (X 0xBAB3 _ _ 1%nat _ ltac:(right; left; reflexivity) W eq_refl)|].
  pose proof (X 0xBAB5 (Bytes [4]) _ 0%nat _ ltac:(cbn; auto 10) eq_refl eq_refl) as B0.
  pose proof (X 0xBAB6 (Bytes [0]) _ 0%nat _ ltac:(cbn; auto 10) eq_refl eq_refl) as B1.
  pose proof (X 0xBAB7 (Word (Num 0)) _ 0%nat _ ltac:(cbn; auto 10) eq_refl eq_refl) as B2.
  pose proof (X 0xBAB7 (Word (Num 0)) _ 1%nat _ ltac:(cbn; auto 10) eq_refl eq_refl) as B3.
  pose proof (X 0xBAB9 (Bytes [0]) _ 0%nat _ ltac:(cbn; auto 10) eq_refl eq_refl) as B4.
  pose proof (X 0xBABA (Word (Num 0)) _ 0%nat _ ltac:(cbn; auto 10) eq_refl eq_refl) as B5.
  pose proof (X 0xBABA (Word (Num 0)) _ 1%nat _ ltac:(cbn; auto 10) eq_refl eq_refl) as B6.
  intros i b H. destruct i as [|[|[|[|[|[|[|i]]]]]]]; cbn [nth_error] in H; try (injection H as <-; assumption). destruct i; discriminate.
Qed.

Ltac in_listing := unfold listing; repeat (first [left; reflexivity|right]).
Section Exit.
Variable stream : list Z.
(** an instruction, whatever the network card does *)
Lemma step_any e p a x y s c z n mm s80 p2 hr kb nt cy lg tk i md v :
  find_code code_map p = Some (i, md, Some v) -> ldd mm ->
  exists nt' kb' cy', keyed e kb kb' /\
    step stream e (M p a x y s c z n mm s80 p2 hr kb nt cy lg tk) = exec_ins i md v (M (p + mode_length md) a x y s c z n mm s80 p2 hr kb' nt' cy' lg tk).
Proof.
  intros F L. set (m := M p a x y s c z n mm s80 p2 hr kb nt cy lg tk). unfold step. rewrite before_shape. cbn [net m kbd].
  match goal with |- context [with_kbd ?k (with_net ?c _)] => set (kb1 := k); set (nt1 := c) end.
  exists nt1, kb1. eexists. split; [unfold keyed, kb1; destruct (e_key e) as [w|]; [right; split; [discriminate|pose proof (Z.mod_pos_bound w 128 eq_refl); lia]|left; auto]|].
  match goal with |- exec ?m1 = _ => pose proof (exec_code m1 i md (Some v) L F) as X end. cbv zeta iota in X. rewrite X. reflexivity.
Qed.
Lemma quiet_refl m : quiet m m.
Proof. repeat split. Qed.
Lemma quiet_trans a b c : quiet a b -> quiet b c -> quiet a c.
Proof. unfold quiet, same_switches. intuition congruence. Qed.
Definition idle (m : machine) : Prop :=
  ldd (mem m) /\ (pc m = 0xBA64 \/ (pc m = 0xBA67 /\ kbd m < 128) \/ (pc m = 0xBA6A /\ kbd m < 128 /\ fn m = false)).
Lemma idle_step e m : idle m -> e_key e = None \/ pc m = 0xBA64 -> exists m', step stream e m = Some m' /\ idle m' /\ pc m' <> 0xBA64 /\ quiet m m'.
Proof.
  intros (L & H) K. destruct m as [p a x y s c z n mm s80 p2 hr kb nt cy lg tk]. cbn [pc mem kbd fn] in *.
  destruct H as [-> |[[-> H]|[-> [H N]]]].
  - destruct (step_any e 0xBA64 a x y s c z n mm s80 p2 hr kb nt cy lg tk iLDA mAbs 0xC010 ltac:(apply listed; in_listing) L) as (nt1 & kb1 & cy1 & KD & E).
    eexists. split; [rewrite E; cbn [exec_ins load ea]; rewrite br_strobe; reflexivity|]. split; [|split; [cbn; lia|repeat split]].
    split; [exact L|]. right. left. cbn. split; [reflexivity|]. pose proof (Z.mod_pos_bound kb1 128 eq_refl). lia.
  - destruct K as [K|K]; [|lia].
    destruct (step_any e 0xBA67 a x y s c z n mm s80 p2 hr kb nt cy lg tk iLDA mAbs 0xC000 ltac:(apply listed; in_listing) L) as (nt1 & kb1 & cy1 & KD & E).
    destruct KD as [[_ ->]|[KD _]]; [|contradiction].
    eexists. split; [rewrite E; cbn [exec_ins load ea]; rewrite br_kbd; reflexivity|]. split; [|split; [cbn; lia|repeat split]].
    split; [exact L|]. right. right. cbn. split; [reflexivity|]. split; [exact H|]. apply Z.leb_gt. exact H.
  - destruct K as [K|K]; [|lia]. subst n.
    destruct (step_any e 0xBA6A a x y s c z false mm s80 p2 hr kb nt cy lg tk iBPL mRel (-5) ltac:(apply listed; in_listing) L) as (nt1 & kb1 & cy1 & KD & E).
    destruct KD as [[_ ->]|[KD _]]; [|contradiction].
    eexists. split; [rewrite E; cbn [exec_ins fn negb branch]; reflexivity|]. split; [|split; [cbn; lia|repeat split]].
    split; [exact L|]. right. left. cbn. split; [reflexivity|exact H].
Qed.

Lemma idle_run : forall n sched m, idle m -> (forall i, (i < n)%nat -> e_key (sched i) = None \/ (i = O /\ pc m = 0xBA64)) ->
  exists m', run stream sched n m = Some m' /\ idle m' /\ quiet m m' /\ ((0 < n)%nat \/ pc m <> 0xBA64 -> pc m' <> 0xBA64).
Proof.
  induction n as [|n IH]; intros sched m I K.
  - exists m. split; [reflexivity|]. split; [exact I|]. split; [apply quiet_refl|]. intros [H|H]; [lia|exact H].
  - destruct (idle_step (sched O) m I) as (m1 & E & I1 & P1 & Q1).
    { destruct (K O ltac:(lia)) as [H|[_ H]]; auto. }
    destruct (IH (fun i => sched (S i)) m1 I1) as (m2 & R2 & I2 & Q2 & P2).
    { intros i L. left. destruct (K (S i) ltac:(lia)) as [H|[H _]]; [exact H|discriminate]. }
    exists m2. split; [cbn [run]; rewrite E; exact R2|]. split; [exact I2|]. split; [exact (quiet_trans _ _ _ Q1 Q2)|]. auto.
Qed.
Lemma key_exit sched m : ldd (mem m) -> pc m = 0xBA67 -> 128 <= kbd m \/ e_key (sched O) <> None ->
  exists m', run stream sched 4 m = Some m' /\ pc m' = 0xBAAC /\ quiet m m'.
Proof.
  intros L P K. destruct m as [p a x y s c z n mm s80 p2 hr kb nt cy lg tk]. cbn [pc mem kbd] in *. subst p.
  destruct (step_any (sched 0%nat) 0xBA67 a x y s c z n mm s80 p2 hr kb nt cy lg tk iLDA mAbs 0xC000 ltac:(apply listed; in_listing) L) as (nt1 & kb1 & cy1 & KD & E1).
  assert (KB : 128 <= kb1) by (destruct KD as [[KD ->]|[_ KD]]; [destruct K; [assumption|contradiction]|lia]).
  cbn [exec_ins load ea] in E1. rewrite br_kbd in E1.
  cbv beta iota zeta delta [alu nz with_flags with_regs mode_length pc ra rx ry rs fc fz fn mem sw80 swpage2 swhires kbd net cyc log taken] in E1.
  replace (128 <=? kb1) with true in E1 by (symmetry; apply Z.leb_le, KB).
  match type of E1 with _ = Some (M ?p ?a ?x ?y ?s ?c ?z ?n ?mm ?s80 ?p2 ?hr ?kb ?nt ?cy ?lg ?tk) =>
    destruct (step_any (sched 1%nat) p a x y s c z n mm s80 p2 hr kb nt cy lg tk iBPL mRel (-5) ltac:(apply listed; in_listing) L) as (nt2 & kb2 & cy2 & _ & E2) end.
  cbn [exec_ins fn negb branch] in E2. unfold branch in E2.
  match type of E2 with _ = Some (M ?p ?a ?x ?y ?s ?c ?z ?n ?mm ?s80 ?p2 ?hr ?kb ?nt ?cy ?lg ?tk) =>
    destruct (step_any (sched 2%nat) p a x y s c z n mm s80 p2 hr kb nt cy lg tk iLDA mAbs 0xC010 ltac:(apply listed; in_listing) L) as (nt3 & kb3 & cy3 & _ & E3) end.
  cbn [exec_ins load ea] in E3. rewrite br_strobe in E3.
  cbv beta iota zeta delta [alu nz with_flags with_regs mode_length pc ra rx ry rs fc fz fn mem sw80 swpage2 swhires kbd net cyc log taken] in E3.
  match type of E3 with _ = Some (M ?p ?a ?x ?y ?s ?c ?z ?n ?mm ?s80 ?p2 ?hr ?kb ?nt ?cy ?lg ?tk) =>
    destruct (step_any (sched 3%nat) p a x y s c z n mm s80 p2 hr kb nt cy lg tk iJMP mAbs 0xBAAC ltac:(apply listed; in_listing) L) as (nt4 & kb4 & cy4 & _ & E4) end.
  cbn [exec_ins] in E4. eexists. split; [apply (run_step _ _ _ _ _ _ E1), (run_step _ _ _ _ _ _ E2), (run_step _ _ _ _ _ _ E3), (run_step _ _ _ _ _ _ E4); reflexivity|].
  split; [reflexivity|]. repeat split.
Qed.
Lemma idle_exit sched m j : idle m -> (forall i, (i < j)%nat -> e_key (sched i) = None \/ (i = O /\ pc m = 0xBA64)) ->
  e_key (sched j) <> None -> (0 < j)%nat \/ pc m <> 0xBA64 ->
  exists n m', (j < n <= j + 5)%nat /\ run stream sched n m = Some m' /\ pc m' = 0xBAAC /\ quiet m m'.
Proof.
  intros I K KJ J. destruct (idle_run j sched m I K) as (mj & RJ & (L & H) & QJ & PJ). specialize (PJ J).
  destruct H as [H|[[H _]|[H [HK HN]]]]; [contradiction| |].
  - destruct (key_exit (fun i => sched (j + i)%nat) mj L H) as (m' & R & P & Q); [right; rewrite Nat.add_0_r; exact KJ|].
    exists (j + 4)%nat, m'. split; [lia|]. split; [exact (run_app _ _ _ _ _ _ _ RJ R)|]. split; [exact P|exact (quiet_trans _ _ _ QJ Q)].
  - assert (exists m1, step stream (sched j) mj = Some m1 /\ pc m1 = 0xBA67 /\ 128 <= kbd m1 /\ quiet mj m1) as (m1 & E & P1 & K1 & Q1).
    { clear RJ PJ QJ. destruct mj as [p a x y s c z n mm s80 p2 hr kb nt cy lg tk]. cbn [pc mem kbd fn] in *. subst p n.
      destruct (step_any (sched j) 0xBA6A a x y s c z false mm s80 p2 hr kb nt cy lg tk iBPL mRel (-5) ltac:(apply listed; in_listing) L) as (nt1 & kb1 & cy1 & KD & E).
      destruct KD as [[KD _]|[_ KD]]; [contradiction|].
      eexists. split; [rewrite E; cbn [exec_ins fn negb branch]; reflexivity|]. split; [reflexivity|]. split; [cbn; lia|repeat split]. }
    assert (L1 : ldd (mem m1)) by (destruct Q1 as (_ & _ & -> & _); exact L).
    destruct (key_exit (fun i => sched (j + (1 + i))%nat) m1 L1 P1 (or_introl K1)) as (m' & R & P & Q).
    exists (j + (1 + 4))%nat, m'. split; [lia|]. split; [apply (run_app _ _ _ _ _ _ _ RJ)|].
    { apply (run_step _ _ _ _ m1); [rewrite Nat.add_0_r; exact E|exact R]. }
    split; [exact P|exact (quiet_trans _ _ _ QJ (quiet_trans _ _ _ Q1 Q))].
Qed.

Lemma exit_quits sched m : ldd (mem m) -> pc m = 0xBAAC -> 0 <= rs m < 256 ->
  exists m', run stream sched 2 m = Some m' /\ quits m' /\ mem m' false 0x3F4 = (mem m false 0x3F4 + 1) mod 256 /\ mem m' false 0x3F3 = mem m false 0x3F3.
Proof.
  intros L P S0. destruct m as [p a x y s c z n mm s80 p2 hr kb nt cy lg tk]. cbn [pc mem rs] in *. subst p.
  pose proof exit_code as EC. unfold find_all in EC. cbn [map fst snd] in EC. assert (EC1 := f_equal (hd None) EC). assert (EC2 := f_equal (fun l => hd None (tl l)) EC). cbn [hd tl] in EC1, EC2.
  destruct (step_any (sched 0%nat) 0xBAAC a x y s c z n mm s80 p2 hr kb nt cy lg tk iINC mAbs 0x3F4 EC1 L) as (nt1 & kb1 & cy1 & _ & E1).
  cbn [exec_ins ea] in E1.
  assert (BR : forall m, bus_read 0x3F4 m = Some (mem m false 0x3F4, m)).
  { intros m. unfold bus_read. cbn [Z.leb Z.compare Pos.compare Pos.compare_cont andb]. unfold peek. rewrite (bank_low (fun _ _ => 0) false 0x3F4 m) by lia. reflexivity. }
  rewrite BR in E1. cbv beta iota zeta in E1. cbn [mem] in E1.
  set (v := (mm false 0x3F4 + 1) mod 256) in *. unfold nz, with_flags in E1. cbn [pc ra rx ry rs fc fz fn mem sw80 swpage2 swhires kbd net cyc log taken] in E1.
  rewrite bw_low in E1 by (clear; lia). set (w0 := Wrt _ 0x3F4 v false) in *.
  assert (L1 : ldd (write1 w0 mm)) by (apply (ldd_other mm); [intros ad AD; apply write_off; cbn [w_addr w0]; clear - AD; lia|exact L]).
  match type of E1 with _ = Some (M ?p ?a ?x ?y ?s ?c ?z ?n ?mm ?s80 ?p2 ?hr ?kb ?nt ?cy ?lg ?tk) =>
    destruct (step_any (sched 1%nat) p a x y s c z n mm s80 p2 hr kb nt cy lg tk iJSR mAbs 0xBF00 EC2 L1) as (nt2 & kb2 & cy2 & _ & E2) end.
  rewrite jsr in E2 by exact S0. change (0xBAAC + mode_length mAbs + mode_length mAbs - 1) with 0xBAB1 in E2.
  change (0xBAB1 / 256) with 0xBA in E2. change (0xBAB1 mod 256) with 0xB1 in E2.
  set (w1 := Wrt _ (0x100 + s) 0xBA false) in *. set (w2 := Wrt _ (0x100 + (s - 1) mod 256) 0xB1 false) in *.
  eexists. split; [apply (run_step _ _ _ _ _ _ E1), (run_step _ _ _ _ _ _ E2); reflexivity|]. cbn [mem].
  pose proof (Z.mod_pos_bound (s - 1) 256 eq_refl) as MB. assert (NE : (s - 1) mod 256 <> s) by (clear - S0; dlia).
  set (mm2 := write1 w2 (write1 w1 (write1 w0 mm))).
  assert (L2 : ldd mm2) by (apply (ldd_other (write1 w0 mm)); [intros ad AD; unfold mm2; rewrite !write_off by (cbn [w_addr w0 w1 w2]; clear - AD MB S0; lia); reflexivity|exact L1]).
  assert (LO : mm2 false (0x100 + (s - 1) mod 256) = 0xB1) by (apply (write_at w2); cbn [w_aux w_addr w2]; [reflexivity|clear - MB S0; lia]).
  assert (HI : mm2 false (0x100 + s) = 0xBA) by (unfold mm2; rewrite write_off by (cbn [w_addr w2]; clear - MB S0 NE; lia); apply (write_at w1); cbn [w_aux w_addr w1]; [reflexivity|clear - MB S0; lia]).
  split; [|split].
  - split; [reflexivity|]. exists 0xBAB1. cbn [mem rs]. fold mm2.
    replace (((s - 2) mod 256 + 1) mod 256) with ((s - 1) mod 256) by (clear; dlia).
    replace (((s - 2) mod 256 + 2) mod 256) with s by (clear - S0; dlia). rewrite LO, HI.
    destruct (exit_bytes mm2 L2) as (B1 & B2 & B3 & B4). split; [reflexivity|]. split; [exact B1|].
    change (0xBAB1 + 2) with 0xBAB3. change (0xBAB1 + 3) with 0xBAB4. rewrite B2, B3. exact B4.
  - unfold mm2. rewrite !write_off with (w := w2), write_off with (w := w1) by (cbn [w_addr w1 w2]; clear - MB S0; lia). apply (write_at w0); cbn [w_aux w_addr w0]; [reflexivity|clear - MB S0; lia].
  - unfold mm2. rewrite !write_off by (cbn [w_addr w0 w1 w2]; clear - MB S0; lia). reflexivity.
Qed.

(** ** The stack pointer *)
Definition sok (m : machine) : Prop := 0 <= rs m < 256.
Definition ssame (m m' : machine) : Prop := rs m' = rs m.
Lemma read_rs a m v m' : bus_read a m = Some (v, m') -> rs m' = rs m.
Proof.
  unfold bus_read. destruct (_ && _); [|intros H; injection H as _ <-; reflexivity].
  destruct (a =? 0xC097). { intros H. injection H as _ <-. destruct (in_rx _); reflexivity. }
  repeat match goal with |- context [if ?b then _ else _] => destruct b end; try discriminate; intros H; injection H as _ <-; reflexivity.
Qed.
Lemma io_rs a v m m' : io_write a v m = Some m' -> rs m' = rs m.
Proof.
  unfold io_write. repeat match goal with |- context [if ?b then _ else _] => destruct b end; try (intros H; injection H as <-; reflexivity); try discriminate.
  destruct (chip_poke v (net m)); [|discriminate]. intros H. injection H as <-. reflexivity.
Qed.
Lemma write_rs a v m m' : bus_write a v m = Some m' -> rs m' = rs m.
Proof. unfold bus_write. destruct (_ && _); [|intros H; injection H as <-; reflexivity]. intros H. apply io_rs in H. rewrite H. reflexivity. Qed.
Lemma alu_rs i b m m' : alu i b m = Some m' -> rs m' = rs m.
Proof. destruct i; cbn [alu]; try discriminate; intros H; injection H as <-; reflexivity. Qed.
Lemma load_rs i md v m m' : load i md v m = Some m' -> rs m' = rs m.
Proof.
  unfold load. destruct md; try (destruct (bus_read _ m) as [[b m1]|] eqn:R; [|discriminate]; intros H; apply alu_rs in H; apply read_rs in R; congruence). apply alu_rs.
Qed.
Lemma push_rs v m m' : push v m = Some m' -> sok m'.
Proof. unfold push. destruct (bus_write _ v m) as [m1|]; [|discriminate]. intros H. injection H as <-. apply Z.mod_pos_bound. reflexivity. Qed.
Lemma ins_rs i md v m m' : sok m -> exec_ins i md v m = Some m' -> sok m'.
Proof.
  intros S0. assert (T : rs m' = rs m -> sok m') by (unfold sok; intros ->; exact S0).
  destruct i; cbn [exec_ins]; try (intros H; apply T; apply load_rs in H; exact H); try (intros H; apply T; apply write_rs in H; exact H); try discriminate;
    try (intros H; injection H as <-; exact S0).
  1, 2: destruct (bus_read _ m) as [[b m1]|] eqn:R; [|discriminate]; intros H; apply T; apply write_rs in H; apply read_rs in R; cbn [rs nz with_flags] in H; congruence.
  1: destruct (push _ m) as [m1|]; [|discriminate]; destruct (push _ m1) as [m2|] eqn:P2; [|discriminate]; intros H; injection H as <-; exact (push_rs _ _ _ P2).
  all: unfold branch; intros H; injection H as <-; match goal with |- sok (if ?b then _ else _) => destruct b end; exact S0.
Qed.
Lemma exec_rs m m' : sok m -> exec m = Some m' -> sok m'.
Proof.
  intros S0. unfold exec. destruct (pc m =? 0xF3F2).
  { unfold rom_clear. destruct (_ =? 0x20); [|discriminate]. intros H. injection H as <-. apply Z.mod_pos_bound. reflexivity. }
  destruct (pc m =? 0xFDED). { intros H. injection H as <-. apply Z.mod_pos_bound. reflexivity. }
  destruct (fetch m) as [[[i md] v]|]; [|discriminate]. apply ins_rs. exact S0.
Qed.
Lemma run_rs n : forall sched m m', sok m -> run stream sched n m = Some m' -> sok m'.
Proof.
  induction n as [|n IH]; intros sched m m' S0 R; cbn [run] in R; [injection R as <-; exact S0|].
  destruct (step stream (sched O) m) as [m1|] eqn:E; [|discriminate]. refine (IH _ m1 m' _ R). unfold step in E. apply exec_rs in E; [exact E|].
  unfold sok. rewrite before_shape. exact S0.
Qed.
End Exit.

(** Playing a whole stream: every run, and runs on schedules that deliver it. *)
From Verif Require Import Base BaseFacts ScreenModel ScreenSpec BitmapModel BitmapSpec VideoModel VideoSpec OpcodeModel MovieModel MovieSpec SymbolModel AddrThms
  AsmModel PlayerCode CpuModel PlayerModel PlayerSpec PlayerExec ChipProofs TickExec RecvCode EffectProofs TickThms RunProofs RecvProofs LayoutProofs PlaybackSpec StartupCode StartupProofs PlaybackRead PlaybackProofs.
Opaque lowcode code hgr resident startup symbols code_map op_cmds TABLES.

(** ** What may change in memory *)
(** what the ROM's routine to clear the screen changes *)
Definition on_screen (a : Z) : Prop := 0x2000 <= a < 0x4000 \/ 0x1A <= a <= 0x1C.
Definition logged (m m' : machine) : Prop :=
  exists new, log m' = log m ++ new /\
    forall b a, ~ on_screen a -> (forall w, In w new -> w_addr w <> a) -> CpuModel.mem m' b a = CpuModel.mem m b a.
Lemma logged_refl m : logged m m.
Proof. exists []. rewrite app_nil_r. auto. Qed.
Lemma logged_same m m' : log m' = log m -> CpuModel.mem m' = CpuModel.mem m -> logged m m'.
Proof. intros L M. exists []. rewrite app_nil_r, M. auto. Qed.
Lemma logged_trans a b c : logged a b -> logged b c -> logged a c.
Proof.
  intros (n1 & L1 & M1) (n2 & L2 & M2). exists (n1 ++ n2). split; [rewrite L2, L1, app_assoc; reflexivity|].
  intros bb x S W. rewrite M2, M1; auto; intros w H; apply W, in_or_app; auto.
Qed.
Ltac lsame := apply logged_same; reflexivity.
Lemma read_logged a m v m' : bus_read a m = Some (v, m') -> logged m m'.
Proof.
  unfold bus_read. repeat match goal with |- context [if ?b then _ else _] => destruct b end; try discriminate; intros H; injection H as _ <-; lsame || apply logged_refl.
Qed.
Lemma io_logged a v m m' : io_write a v m = Some m' -> logged m m'.
Proof.
  unfold io_write. repeat match goal with |- context [if ?b then _ else _] => destruct b end;
    try (intros H; injection H as <-; lsame); try discriminate.
  destruct (chip_poke v (net m)); [|discriminate]. intros H. injection H as <-. lsame.
Qed.
Lemma write_logged a v m m' : bus_write a v m = Some m' -> logged m m'.
Proof.
  unfold bus_write. set (w := Wrt _ _ _ _). set (m1 := with_mem _ _ m).
  assert (L : logged m m1).
  { exists [w]. split; [reflexivity|]. intros b x _ W. specialize (W w (or_introl eq_refl)). subst m1 w. cbv beta iota delta [with_mem CpuModel.mem w_addr write1] in *.
    destruct (a <? 0xC000); [|reflexivity]. destruct (Bool.eqb b (w_aux _)); [|reflexivity]. unfold upd1. destruct (Z.eqb_spec x a); congruence. }
  destruct (_ && _); [|intros H; injection H as <-; exact L]. intros H. exact (logged_trans _ _ _ L (io_logged _ _ _ _ H)).
Qed.

Lemma alu_logged i b m m' : alu i b m = Some m' -> logged m m'.
Proof. destruct i; cbn [alu]; try discriminate; intros H; injection H as <-; lsame. Qed.
Lemma load_logged i md v m m' : load i md v m = Some m' -> logged m m'.
Proof.
  unfold load. destruct md; try (destruct (bus_read _ m) as [[b m1]|] eqn:R; [|discriminate]; intros H; exact (logged_trans _ _ _ (read_logged _ _ _ _ R) (alu_logged _ _ _ _ H))).
  apply alu_logged.
Qed.
Lemma push_logged v m m' : push v m = Some m' -> logged m m'.
Proof.
  unfold push. destruct (bus_write _ v m) as [m1|] eqn:W; [|discriminate]. intros H. injection H as <-. refine (logged_trans _ _ _ (write_logged _ _ _ _ W) _). lsame.
Qed.
Lemma branch_logged b v m m' : branch b v m = Some m' -> logged m m'.
Proof. unfold branch. intros H. injection H as <-. destruct b; lsame. Qed.
Lemma ins_logged i md v m m' : exec_ins i md v m = Some m' -> logged m m'.
Proof.
  destruct i; cbn [exec_ins]; try (apply load_logged); try (apply write_logged); try (apply branch_logged); try discriminate;
    try (intros H; injection H as <-; lsame).
  - destruct (bus_read _ m) as [[b m1]|] eqn:R; [|discriminate]. intros H. apply write_logged in H. apply read_logged in R.
    refine (logged_trans _ _ _ R (logged_trans _ _ _ _ H)). lsame.
  - destruct (bus_read _ m) as [[b m1]|] eqn:R; [|discriminate]. intros H. apply write_logged in H. apply read_logged in R.
    refine (logged_trans _ _ _ R (logged_trans _ _ _ _ H)). lsame.
  - destruct (push _ m) as [m1|] eqn:P1; [|discriminate]. destruct (push _ m1) as [m2|] eqn:P2; [|discriminate]. intros H. injection H as <-.
    refine (logged_trans _ _ _ (push_logged _ _ _ P1) (logged_trans _ _ _ (push_logged _ _ _ P2) _)). lsame.
Qed.
Lemma exec_logged m m' : exec m = Some m' -> logged m m'.
Proof.
  unfold exec. destruct (pc m =? 0xF3F2).
  { unfold rom_clear. destruct (_ =? 0x20); [|discriminate]. intros H. injection H as <-. exists []. rewrite app_nil_r. split; [reflexivity|].
    intros b a NS _. cbv beta iota zeta delta [nz with_flags rts with_pc with_regs with_mem CpuModel.mem]. unfold on_screen in NS.
    assert (A1 : (0x2000 <=? a) && (a <? 0x4000) = false) by (destruct (Z.leb_spec 0x2000 a), (Z.ltb_spec a 0x4000); cbn; try reflexivity; exfalso; apply NS; left; split; assumption).
    rewrite A1, andb_false_r.
    destruct (Z.eqb_spec a 0x1A) as [->|]; [exfalso; apply NS; right; split; discriminate|]. destruct (Z.eqb_spec a 0x1B) as [->|]; [exfalso; apply NS; right; split; discriminate|].
    destruct (Z.eqb_spec a 0x1C) as [->|]; [exfalso; apply NS; right; split; discriminate|]. rewrite !andb_false_r. reflexivity. }
  destruct (pc m =? 0xFDED). { intros H. injection H as <-. lsame. }
  destruct (fetch m) as [[[i md] v]|]; [|discriminate]. intros H. apply ins_logged in H. refine (logged_trans _ _ _ _ H). lsame.
Qed.
Lemma step_logged stream e m m' : step stream e m = Some m' -> logged m m'.
Proof. unfold step. intros H. apply exec_logged in H. refine (logged_trans _ _ _ _ H). apply logged_same; unfold before, press; destruct (e_key e); reflexivity. Qed.
Lemma run_logged stream n : forall sched m m', run stream sched n m = Some m' -> logged m m'.
Proof.
  induction n as [|n IH]; intros sched m m' R; cbn [run] in R; [injection R as <-; apply logged_refl|].
  destruct (step stream (sched O) m) as [m1|] eqn:ST; [|discriminate]. exact (logged_trans _ _ _ (step_logged _ _ _ _ ST) (IH _ _ _ R)).
Qed.

(** the first [N] instructions of a schedule, then nothing happens any more *)
Definition quiet : env := Env 0 None None.
Definition upto (N : nat) (sched : nat -> env) : nat -> env := fun i => if (i <? N)%nat then sched i else quiet.
Lemma run_ext stream n : forall s1 s2 m, (forall i, (i < n)%nat -> s1 i = s2 i) -> run stream s1 n m = run stream s2 n m.
Proof.
  induction n as [|n IH]; intros s1 s2 m H; [reflexivity|]. cbn [run]. rewrite (H O) by lia. destruct (step _ _ m); [|reflexivity]. apply IH. intros i Hi. apply (H (S i)). lia.
Qed.
Lemma run_quiet stream n : forall m m', run stream (fun _ => quiet) n m = Some m' -> no_more m m'.
Proof.
  induction n as [|n IH]; intros m m' R; cbn [run] in R; [injection R as <-; apply nm_refl|].
  destruct (step stream quiet m) as [m1|] eqn:ST; [|discriminate]. unfold step in ST. apply exec_nm in ST. refine (nm_trans _ _ _ ST (IH _ _ R)).
Qed.

Section Playback.
Variables (bytes : list Z) (k : kind) (rest : list opcode).
Hypothesis PL : playable bytes k rest.
Local Notation pos := (pos rest).
Local Notation acked_at := (acked_at rest).
Local Notation len := (Z.of_nat (length bytes)).
Local Notation final := (At (length rest)).

Lemma advance sched m0 n ph m : connected bytes m0 -> at_phase bytes k rest sched m0 n ph m -> ph = final \/
  exists n' ph' m', (n < n')%nat /\ at_phase bytes k rest sched m0 n' ph' m'.
Proof.
  intros C0 A. destruct ph as [|i|i|i].
  - right. destruct (advance_start bytes k rest PL sched m0 n m A) as (n' & ph' & m' & L & A' & _). exists n', ph', m'. auto.
  - right. destruct (advance_wait bytes k rest PL sched m0 n i m A) as (n' & ph' & m' & L & A' & _). exists n', ph', m'. auto.
  - right. destruct (advance_pause bytes k rest PL sched m0 n i m A) as (n' & ph' & m' & L & A' & _). exists n', ph', m'. auto.
  - destruct (Nat.eq_dec i (length rest)) as [->|NE]; [left; reflexivity|right]. pose proof A as (_ & LE & _).
    destruct (advance_at bytes k rest PL sched m0 n i m A ltac:(lia)) as (n' & ph' & m' & L & A' & _). exists n', ph', m'. auto.
Qed.
Lemma at_start sched m0 : connected bytes m0 -> at_phase bytes k rest sched m0 0 Start m0.
Proof. intros C. split; [reflexivity|]. split; [exact C|]. split; [|reflexivity]. exists []. rewrite app_nil_r. repeat split. constructor. Qed.
(** sooner or later a checkpoint, or the end has been reached before *)
Lemma checkpoint sched m0 (C0 : connected bytes m0) N :
  (exists j m, (j <= N)%nat /\ at_phase bytes k rest sched m0 j final m) \/ (exists j ph m, (N <= j)%nat /\ at_phase bytes k rest sched m0 j ph m).
Proof.
  induction N as [|N [(j & m & L & A)|(j & ph & m & L & A)]].
  - right. exists O, Start, m0. split; [lia|]. apply at_start, C0.
  - left. exists j, m. split; [lia|exact A].
  - destruct (Nat.eq_dec j N) as [->|NE]; [|right; exists j, ph, m; split; [lia|exact A]].
    destruct (advance sched m0 N ph m C0 A) as [->|(n' & ph' & m' & L' & A')]; [left; exists N, m; split; [lia|exact A]|].
    right. exists n', ph', m'. split; [lia|exact A'].
Qed.

(** what holds at every checkpoint *)
Lemma phase_taken sched m0 n ph m : at_phase bytes k rest sched m0 n ph m -> exists c, 0 <= c <= wr (net m) /\ taken m = taken m0 ++ first_bytes bytes c.
Proof.
  intros (R & P). destruct ph as [|i|i|i].
  - destruct P as (C & _ & T). exists 0. split; [pose proof (h_wr _ _ _ (cn_held _ _ C)); lia|]. rewrite T. symmetry. apply app_nil_r.
  - destruct P as (_ & _ & _ & passes & p & C & _). exists (pos i). split; [|apply (cm_taken _ _ _ _ _ _ _ _ _ _ C)].
    pose proof (pos_ge rest i). pose proof (cm_wr _ _ _ _ _ _ _ _ _ _ C). lia.
  - destruct P as (_ & _ & _ & _ & passes & p & C). exists (pos i). split; [|apply (cm_taken _ _ _ _ _ _ _ _ _ _ C)].
    pose proof (pos_ge rest i). pose proof (cm_wr _ _ _ _ _ _ _ _ _ _ C). lia.
  - destruct P as (_ & _ & _ & _ & passes & C & _). exists (pos i + 2). split; [|apply (cm_taken _ _ _ _ _ _ _ _ _ _ C)].
    pose proof (pos_ge rest i). pose proof (cm_wr _ _ _ _ _ _ _ _ _ _ C). lia.
Qed.
Definition writes (sched : nat -> env) (m0 : machine) (n : nat) (m : machine) : Prop :=
  exists new1 new2, log m = log m0 ++ new1 ++ new2 /\ Forall start_write new1 /\ Forall allowed new2 /\
    (new2 <> [] -> exists n1 m1, (n1 <= n)%nat /\ run bytes sched n1 m0 = Some m1 /\ waiting bytes 0 7 m1 /\ log m1 = log m0 ++ new1).
Lemma app_cut {A} : forall (a b c d : list A), a ++ b = c ++ d -> (length c <= length a)%nat -> exists e, a = c ++ e /\ d = e ++ b.
Proof.
  intros a b c. revert a. induction c as [|x c IH]; intros a d E L; [exists a; auto|].
  destruct a as [|y a]; [cbn in L; lia|]. cbn in E, L. injection E as -> E. destruct (IH a d E ltac:(lia)) as (e & -> & ->). exists e. auto.
Qed.
Lemma phase_log sched m0 n ph m : at_phase bytes k rest sched m0 n ph m ->
  (exists new, log m = log m0 ++ new /\ Forall start_write new) \/
  (exists n0 ms new1 new2, run bytes sched n0 m0 = Some ms /\ waiting bytes 0 7 ms /\ log ms = log m0 ++ new1 /\ Forall start_write new1 /\
     log m = log ms ++ new2 /\ Forall allowed new2).
Proof.
  assert (CM : forall i passes c, common bytes k rest sched m0 n i passes c m ->
    exists n0 ms new1 new2, run bytes sched n0 m0 = Some ms /\ waiting bytes 0 7 ms /\ log ms = log m0 ++ new1 /\ Forall start_write new1 /\
     log m = log ms ++ new2 /\ Forall allowed new2).
  { intros i passes c C. destruct (cm_start _ _ _ _ _ _ _ _ _ _ C) as (n0 & ms & _ & R0 & (B1 & _ & _ & _ & (new1 & L1 & _ & _ & S1) & _) & got & E).
    destruct (ef_log _ _ _ _ _ _ _ E) as (new2 & L2 & _ & _ & _ & A2). exists n0, ms, new1, new2. auto 10. }
  intros (R & P). destruct ph as [|i|i|i].
  - left. destruct P as (_ & (new & L & _ & _ & S) & _). exists new. auto.
  - right. destruct P as (_ & _ & _ & passes & p & C & _). apply (CM _ _ _ C).
  - right. destruct P as (_ & _ & _ & _ & passes & p & C). apply (CM _ _ _ C).
  - right. destruct P as (_ & _ & _ & _ & passes & C & _). apply (CM _ _ _ C).
Qed.
Lemma log_prefix stream sched m0 N m j mj : run stream sched N m0 = Some m -> run stream sched j m0 = Some mj -> (N <= j)%nat ->
  (exists new, log mj = log m ++ new) /\ (exists got, taken mj = taken m ++ got) /\ exists n', run stream (fun i => sched (N + i)%nat) n' m = Some mj.
Proof.
  intros R RJ L. destruct (run_split stream N j sched m0 mj L RJ) as (m1 & R1 & R2). assert (m1 = m) as -> by congruence.
  destruct (run_log _ _ _ _ _ R2) as (A & B & _). split; [exact A|]. split; [exact B|]. exists (j - N)%nat. exact R2.
Qed.
Lemma writes_before sched m0 n j ph mj m : run bytes sched n m0 = Some m -> at_phase bytes k rest sched m0 j ph mj -> (n <= j)%nat -> writes sched m0 n m.
Proof.
  intros R A L. destruct (log_prefix _ _ _ _ _ _ _ R (proj1 A) L) as ((nx & LX) & _ & _). destruct (run_log _ _ _ _ _ R) as ((nn & LN) & _ & _).
  destruct (phase_log _ _ _ _ _ A) as [(new & LJ & SW)|(n0 & ms & new1 & new2 & R0 & WT & L1 & SW & L2 & AL)].
  - assert (E : nn ++ nx = new) by (rewrite LN in LX; rewrite LJ in LX; rewrite <- app_assoc in LX; apply app_inv_head in LX; symmetry; exact LX). subst new.
    exists nn, []. rewrite app_nil_r. apply Forall_app in SW. split; [exact LN|]. split; [apply SW|]. split; [constructor|]. intros H. contradiction.
  - destruct (Nat.le_gt_cases n0 n) as [LE|GT].
    + destruct (log_prefix _ _ _ _ _ _ _ R0 R LE) as ((n2 & LM) & _ & _).
      assert (E : n2 ++ nx = new2). { rewrite LM, L2, <- app_assoc in LX. apply app_inv_head in LX. symmetry. exact LX. } subst new2.
      apply Forall_app in AL. exists new1, n2. split; [rewrite LM, L1, app_assoc; reflexivity|]. split; [exact SW|]. split; [apply AL|]. intros _. exists n0, ms. auto.
    + destruct (log_prefix _ _ _ _ _ _ _ R R0 ltac:(lia)) as ((n2 & LM) & _ & _).
      assert (E : nn ++ n2 = new1). { rewrite LM, LN, <- app_assoc in L1. apply app_inv_head in L1. exact L1. } subst new1.
      apply Forall_app in SW. exists nn, []. rewrite app_nil_r. split; [exact LN|]. split; [apply SW|]. split; [constructor|]. intros H. contradiction.
Qed.

(** every state before TERMINATE is reached *)
Lemma term_cmd : In TERMINATE op_cmds.
Proof. Transparent op_cmds. right. left. reflexivity. Opaque op_cmds. Qed.
Lemma final_pc sched m0 j m : at_phase bytes k rest sched m0 j final m -> terminated m.
Proof.
  intros (_ & _ & _ & P & _). unfold terminated. rewrite P. refine (eq_trans (op_address _ term_cmd) _). f_equal. f_equal. unfold nth_command. destruct (nth_error rest (length rest)) eqn:E; [|reflexivity].
  assert (H : nth_error rest (length rest) <> None) by congruence. apply nth_error_Some in H. lia.
Qed.
Lemma covered sched m0 N : connected bytes m0 -> not_over bytes sched m0 N -> exists j ph mj m, (N <= j)%nat /\ at_phase bytes k rest sched m0 j ph mj /\ run bytes sched N m0 = Some m.
Proof.
  intros C0 NO. assert (H : exists j ph mj, (N <= j)%nat /\ at_phase bytes k rest sched m0 j ph mj).
  { destruct (checkpoint sched m0 C0 N) as [(j & m & L & A)|H]; [|exact H]. exists j, final, m. split; [|exact A].
    destruct (Nat.le_gt_cases N j) as [LE|GT]; [exact LE|]. exfalso. exact (NO j m GT (proj1 A) (final_pc _ _ _ _ A)). }
  destruct H as (j & ph & mj & L & A). destruct (run_split bytes N j sched m0 mj L (proj1 A)) as (m & R & _). exists j, ph, mj, m. auto.
Qed.
Lemma prefix_first (c : Z) (a g : list Z) : a ++ g = first_bytes bytes c -> exists c', 0 <= c' <= Z.max 0 c /\ a = first_bytes bytes c'.
Proof.
  unfold first_bytes. intros E. assert (L : (length a <= Z.to_nat c)%nat).
  { pose proof (f_equal (@length Z) E) as F. rewrite app_length, firstn_length in F. lia. }
  exists (Z.of_nat (length a)). split; [lia|]. rewrite Nat2Z.id. apply (f_equal (firstn (length a))) in E.
  rewrite firstn_app, Nat.sub_diag, firstn_all, app_nil_r, firstn_firstn, Nat.min_l in E by exact L. exact E.
Qed.
Lemma held_wr stream sched n : forall m m', 0 <= wr (net m) -> run stream sched n m = Some m' -> 0 <= wr (net m').
Proof.
  assert (AR : forall q c, 0 <= wr c -> 0 <= wr (arrive stream q c)).
  { induction q as [|q IH]; intros c H; [exact H|]. cbn [arrive]. apply IH. unfold arrive1. destruct (_ && _); [cbn [wr]; lia|exact H]. }
  revert sched. induction n as [|n IH]; intros sched m m' W R; cbn [run] in R; [injection R as <-; exact W|].
  destruct (step stream (sched O) m) as [m1|] eqn:ST; [|discriminate]. unfold step in ST. apply exec_nm in ST. refine (IH _ m1 m' _ R).
  assert (B : 0 <= wr (net (before stream (sched O) m))).
  { unfold before, press. assert (H : 0 <= wr (arrive stream (e_bytes (sched O)) (connect (e_status (sched O)) (net m)))).
    { apply AR. unfold connect. destruct (e_status _); [|exact W]. destruct (_ =? _); exact W. }
    destruct (e_key (sched O)); exact H. }
  destruct ST as [->| ->]; [exact B|lia].
Qed.
Theorem in_order sched m0 N m : connected bytes m0 -> not_over bytes sched m0 N -> run bytes sched N m0 = Some m ->
  exists c, 0 <= c <= wr (net m) /\ taken m = taken m0 ++ first_bytes bytes c.
Proof.
  intros C0 NO R. set (s2 := upto N sched).
  assert (EX : forall i, (i <= N)%nat -> run bytes s2 i m0 = run bytes sched i m0).
  { intros i L. apply run_ext. intros x Hx. unfold s2, upto. destruct (Nat.ltb_spec x N); [reflexivity|lia]. }
  assert (NO2 : not_over bytes s2 m0 N). { intros j mj L RJ. rewrite EX in RJ by lia. exact (NO j mj L RJ). }
  destruct (covered s2 m0 N C0 NO2) as (j & ph & mj & m2 & L & A & R2). rewrite EX in R2 by lia. assert (m2 = m) as -> by congruence.
  rewrite <- (EX N) in R by lia. destruct (log_prefix _ _ _ _ _ _ _ R (proj1 A) L) as (_ & (g & TG) & (n' & RN)).
  assert (Q : no_more m mj). { apply (run_quiet bytes n'). rewrite <- RN. apply run_ext. intros i _. unfold s2, upto. destruct (Nat.ltb_spec (N + i) N); [lia|reflexivity]. }
  destruct (phase_taken _ _ _ _ _ A) as (c & CW & TC). destruct (run_log _ _ _ _ _ R) as (_ & (g0 & T0) & _).
  assert (E : g0 ++ g = first_bytes bytes c). { rewrite T0, TC, <- app_assoc in TG. apply app_inv_head in TG. symmetry. exact TG. }
  destruct (prefix_first _ _ _ E) as (c' & CB & ->). exists c'. split; [|exact T0].
  assert (0 <= wr (net m)) by (refine (held_wr _ _ _ _ _ _ R); pose proof (h_wr _ _ _ (cn_held _ _ C0)); lia).
  destruct Q as [Q|Q]; rewrite Q in CW; lia.
Qed.

(** ** Playback goes on *)
Lemma bound_start : 256 <= len.
Proof. pose proof (frame_there bytes k rest PL 0 ltac:(lia)) as F. destruct (in_frame rest 0) as (_ & B & _). lia. Qed.
Lemma leave_wait sched (D : delivers sched) b (BL : b <= len) (Q T : nat -> machine -> Prop)
  (ADV : forall n m, Q n m -> exists n' m', (n < n')%nat /\ (T n' m' \/
     (Q n' m' /\ wr (net m) <= wr (net m') /\ wr (net m) < b /\ (forall j, (n <= j < n')%nat -> (0 < e_bytes (sched j))%nat -> wr (net m) < len -> wr (net m) < wr (net m'))))) :
  forall n m, Q n m -> exists n' m', (n < n')%nat /\ T n' m'.
Proof.
  assert (H : forall x d n m, Z.to_nat (b - wr (net m)) = x -> (0 < e_bytes (sched (n + d)))%nat -> Q n m -> exists n' m', (n < n')%nat /\ T n' m').
  { induction x as [x IHx] using lt_wf_ind. induction d as [d IHd] using lt_wf_ind. intros n m X DL HQ.
    destruct (ADV n m HQ) as (n' & m' & LN & [HT|(HQ' & W1 & W2 & W3)]); [exists n', m'; auto|].
    assert (G : exists n2 m2, (n' < n2)%nat /\ T n2 m2); [|destruct G as (n2 & m2 & L2 & HT); exists n2, m2; split; [lia|exact HT]].
    assert (SM : Z.to_nat (b - wr (net m')) = x \/ (Z.to_nat (b - wr (net m')) < x)%nat) by lia. destruct SM as [SM|SM].
    - destruct (Nat.le_gt_cases n' (n + d)) as [LE|GT].
      + refine (IHd (n + d - n')%nat ltac:(lia) n' m' SM _ HQ'). replace (n' + (n + d - n'))%nat with (n + d)%nat by lia. exact DL.
      + exfalso. pose proof (W3 (n + d)%nat ltac:(lia) DL ltac:(lia)). lia.
    - destruct (D n') as (j & LJ & DJ). refine (IHx _ SM (j - n')%nat n' m' eq_refl _ HQ'). replace (n' + (j - n'))%nat with j by lia. exact DJ. }
  intros n m HQ. destruct (D n) as (j & LJ & DJ). refine (H _ (j - n)%nat n m eq_refl _ HQ). replace (n + (j - n))%nat with j by lia. exact DJ.
Qed.
Lemma start_left sched m0 (D : delivers sched) n m : at_phase bytes k rest sched m0 n Start m -> exists n' m', (n < n')%nat /\ at_phase bytes k rest sched m0 n' (Wait 0) m'.
Proof.
  apply (leave_wait sched D 256 bound_start (fun n m => at_phase bytes k rest sched m0 n Start m) (fun n m => at_phase bytes k rest sched m0 n (Wait 0) m)).
  intros a ma A. destruct (advance_start bytes k rest PL sched m0 a ma A) as (n' & ph' & m' & L & A' & [->|[-> ST]]); exists n', m'; split; auto.
Qed.
Lemma wait_left sched m0 (D : delivers sched) i n m : at_phase bytes k rest sched m0 n (Wait i) m ->
  exists n' m', (n < n')%nat /\ (at_phase bytes k rest sched m0 n' (Pause i) m' \/ at_phase bytes k rest sched m0 n' (At i) m').
Proof.
  intros A0. pose proof A0 as (_ & LI & _).
  refine (leave_wait sched D (acked_at i + 2048) (frame_there _ _ _ PL i LI) (fun n m => at_phase bytes k rest sched m0 n (Wait i) m)
    (fun n' m' => at_phase bytes k rest sched m0 n' (Pause i) m' \/ at_phase bytes k rest sched m0 n' (At i) m') _ n m A0).
  intros a ma A. destruct (advance_wait bytes k rest PL sched m0 a i ma A) as (n' & ph' & m' & L & A' & [[->|[-> _]]|[-> ST]]); exists n', m'; split; auto.
Qed.
Lemma pause_left sched m0 (U : user sched m0) i n m : at_phase bytes k rest sched m0 n (Pause i) m ->
  exists n' m', (n < n')%nat /\ at_phase bytes k rest sched m0 n' (At i) m'.
Proof.
  intros A0. destruct U as [NP|KP]; [destruct A0 as (_ & _ & _ & _ & NN & _); contradiction|].
  assert (H : forall d n m, e_key (sched (n + d)%nat) <> None -> at_phase bytes k rest sched m0 n (Pause i) m -> exists n' m', (n < n')%nat /\ at_phase bytes k rest sched m0 n' (At i) m').
  { clear n m A0. induction d as [d IH] using lt_wf_ind. intros n m DK A.
    destruct (advance_pause bytes k rest PL sched m0 n i m A) as (n' & ph' & m' & L & A' & [->|[-> (-> & K1 & K2 & K3)]]); [exists n', m'; auto|].
    destruct d as [|[|d]].
    - rewrite Nat.add_0_r in DK. contradiction.
    - specialize (K3 DK). destruct (advance_pause bytes k rest PL sched m0 _ i m' A') as (n2 & ph2 & m2 & L2 & A2 & [->|[-> (_ & K4 & _)]]); [|lia].
      exists n2, m2. split; [lia|exact A2].
    - destruct (IH d ltac:(lia) (n + 2)%nat m') as (n2 & m2 & L2 & A2); [replace (n + 2 + d)%nat with (n + S (S d))%nat by lia; exact DK|exact A'|]. exists n2, m2. split; [lia|exact A2]. }
  destruct (KP n) as (j & LJ & KJ). apply (H (j - n)%nat n m); [|exact A0]. replace (n + (j - n))%nat with j by lia. exact KJ.
Qed.
Lemma wait_done sched m0 (D : delivers sched) (U : user sched m0) i n m : at_phase bytes k rest sched m0 n (Wait i) m ->
  exists n' m', (n < n')%nat /\ at_phase bytes k rest sched m0 n' (At i) m'.
Proof.
  intros A. destruct (wait_left sched m0 D i n m A) as (n1 & m1 & L1 & [A1|A1]); [|exists n1, m1; auto].
  destruct (pause_left sched m0 U i n1 m1 A1) as (n2 & m2 & L2 & A2). exists n2, m2. split; [lia|exact A2].
Qed.
(** every opcode is reached, in order *)
Lemma reach_at sched m0 (C0 : connected bytes m0) (D : delivers sched) (U : user sched m0) i : (i <= length rest)%nat ->
  exists n m, at_phase bytes k rest sched m0 n (At i) m.
Proof.
  induction i as [|i IH]; intros L.
  - destruct (start_left sched m0 D 0 m0 (at_start _ _ C0)) as (n1 & m1 & _ & A1). destruct (wait_done sched m0 D U _ _ _ A1) as (n2 & m2 & _ & A2). eauto.
  - destruct (IH ltac:(lia)) as (n & m & A). destruct (advance_at bytes k rest PL sched m0 n i m A ltac:(lia)) as (n' & ph' & m' & _ & A' & [->| ->]); [eauto|].
    destruct (wait_done sched m0 D U _ _ _ A') as (n2 & m2 & _ & A2). eauto.
Qed.
(** from one opcode to the next, other opcodes' states are not passed twice *)
Lemma next_at sched m0 (D : delivers sched) (U : user sched m0) i n m : (i < length rest)%nat -> at_phase bytes k rest sched m0 n (At i) m ->
  exists n' m', (n < n')%nat /\ at_phase bytes k rest sched m0 n' (At (S i)) m'.
Proof.
  intros L A. destruct (advance_at bytes k rest PL sched m0 n i m A L) as (n' & ph' & m' & L' & A' & [->| ->]); [eauto|].
  destruct (wait_done sched m0 D U _ _ _ A') as (n2 & m2 & L2 & A2). exists n2, m2. split; [lia|exact A2].
Qed.

(** ** Memory *)
Lemma start_may w : start_write w -> may_change (w_addr w).
Proof. intros [H|[H|H]]; unfold may_change; auto 10. Qed.
Lemma allowed_may w : allowed w -> may_change (w_addr w).
Proof.
  intros [H|[H|[H|[H|H]]]]; unfold may_change; auto 12. unfold screen_write in H. apply andb_true_iff in H. rewrite Z.leb_le, Z.ltb_lt in H. auto 10.
Qed.
Lemma memory_intact sched m0 n m : connected bytes m0 -> not_over bytes sched m0 n -> run bytes sched n m0 = Some m ->
  forall b a, ~ may_change a -> CpuModel.mem m b a = CpuModel.mem m0 b a.
Proof.
  intros C0 NO R b a NM. destruct (covered sched m0 n C0 NO) as (j & ph & mj & m2 & L & A & R2). assert (m2 = m) as -> by congruence.
  destruct (writes_before _ _ _ _ _ _ _ R A L) as (new1 & new2 & LG & S1 & S2 & _).
  destruct (run_logged _ _ _ _ _ R) as (new & LN & MM). assert (new = new1 ++ new2) as -> by (rewrite LN in LG; apply app_inv_head in LG; exact LG).
  apply MM; [unfold on_screen; intros [H|H]; apply NM; unfold may_change; auto 10|].
  intros w I E. apply NM. rewrite <- E. apply in_app_or in I. destruct I as [I|I]; [apply start_may|apply allowed_may]; refine (proj1 (Forall_forall _ _) _ w I); assumption.
Qed.
End Playback.

(** A network that is fast enough never makes the player wait. *)
From Verif Require Import Base BaseFacts ScreenModel ScreenSpec BitmapModel BitmapSpec VideoModel VideoSpec OpcodeModel MovieModel MovieSpec SymbolModel AddrThms
  AsmModel PlayerCode CpuModel PlayerModel PlayerSpec PlayerExec ChipProofs TickExec RecvCode EffectProofs TickThms RunProofs RecvProofs LayoutProofs PlaybackSpec StartupCode StartupProofs PlaybackRead PlaybackProofs PlaybackThms SmoothSpec.
Opaque lowcode code hgr resident startup symbols code_map op_cmds TABLES.

Lemma offered_ext n : forall s1 s2, (forall i, s1 i = s2 i) -> offered s1 n = offered s2 n.
Proof. induction n as [|n IH]; intros s1 s2 H; [reflexivity|]. cbn [offered]. rewrite H. f_equal. apply IH. intros i. apply H. Qed.
Lemma offered_plus a : forall s b, offered s (a + b) = offered s a + offered (fun i => s (a + i)%nat) b.
Proof. induction a as [|a IH]; intros s b; [reflexivity|]. cbn [Nat.add offered]. rewrite IH. lia. Qed.

(** ** Times and toggles *)
Definition played (op : opcode) : Prop := is_tick op = true \/ is_ack op = true.
Definition steady_time (ops : list opcode) : Z := 73 * count is_tick ops + 146 * count is_ack ops.
Lemma count_snoc f ops op : count f (ops ++ [op]) = count f ops + (if f op then 1 else 0).
Proof. unfold count. rewrite filter_app, app_length. cbn [filter]. destruct (f op); cbn [length]; lia. Qed.
Lemma steady_snoc ops : Forall played ops -> forall t op, steady_clicks t (ops ++ [op]) = steady_clicks t ops ++ steady_clicks (t + steady_time ops) [op].
Proof.
  induction 1 as [|x ops P F IH]; intros t op; [unfold steady_time, count; cbn [filter length app]; rewrite Z.add_0_r; reflexivity|].
  assert (ST : steady_time (x :: ops) = (if is_tick x then 73 else 146) + steady_time ops).
  { unfold steady_time, count. destruct P as [P|P]; destruct x; try discriminate; cbn [filter is_tick is_ack length]; lia. }
  rewrite ST. destruct P as [P|P]; destruct x; try discriminate; cbn [app steady_clicks is_tick]; rewrite IH, Z.add_assoc; reflexivity.
Qed.

Section Smooth.
Variables (bytes : list Z) (k : kind) (rest : list opcode).
Hypothesis PL : playable bytes k rest.
Variables (sched : nat -> env) (m0 : machine).
Hypothesis C0 : connected bytes m0.
Hypothesis NP : never_pressed sched m0.
Local Notation pos := (pos rest).
Local Notation acked_at := (acked_at rest).
Local Notation len := (Z.of_nat (length bytes)).

(** the next frame is there: no waiting *)
Lemma ack_smooth n i m a : at_phase bytes k rest sched m0 n (At i) m -> nth_error rest i = Some (Ack a) -> acked_at i + 4096 <= wr (net m) ->
  exists n' m', (n < n')%nat /\ at_phase bytes k rest sched m0 n' (At (S i)) m' /\ exists sw got, effect m m' 146 [4; 38; 77; 111] [] sw got.
Proof.
  intros A N W. destruct (ack_advances bytes k rest PL sched m0 n i m a A N) as (n1 & m1 & L1 & A1 & (sw & got & E1) & W1).
  destruct (ack_frame _ _ _ PL _ _ N) as (_ & AA & _).
  destruct (advance_wait bytes k rest PL sched m0 n1 (S i) m1 A1) as (n2 & ph2 & m2 & L2 & A2 & [[->|[-> (got2 & E2)]]|[-> ST]]).
  - destruct A2 as (_ & _ & _ & _ & NN & _). contradiction.
  - exists n2, m2. split; [lia|]. split; [exact A2|]. exists (sw ++ []), (got ++ got2). exact (effect_trans _ _ _ _ _ _ _ _ _ _ _ _ _ E1 E2).
  - exfalso. destruct ST as (_ & ST & _). rewrite AA in ST. lia.
Qed.

Hypothesis BW : bandwidth bytes sched m0 2048 21243.

(** since the last frame was found *)
Definition since (i n : nat) (m : machine) : Prop := exists nf mf, (nf <= n)%nat /\ run bytes sched nf m0 = Some mf /\ acked_at i + 2048 <= wr (net mf) /\
  Z.min (wr (net mf) + offered (sched_from sched nf) (n - nf)) (Z.min len (acked_at i + 8192)) <= wr (net m) /\
  73 * (pos i - acked_at i - 7) <= 7 * (cyc m - cyc mf).
Lemma since_now i n m : run bytes sched n m0 = Some m -> acked_at i + 2048 <= wr (net m) -> pos i - acked_at i <= 7 -> since i n m.
Proof.
  intros R W P. exists n, m. split; [lia|]. split; [exact R|]. split; [exact W|]. rewrite Nat.sub_diag. cbn [offered]. split; lia.
Qed.

Definition started ms i m : Prop := exists st sw got, effect ms m (steady_time (firstn i rest)) (steady_clicks 0 (firstn i rest)) st sw got.
Lemma played_first i : Forall played (firstn i rest).
Proof.
  apply Forall_forall. intros op H. refine (proj1 (Forall_forall _ _) (pl_ops _ _ _ PL) op _). rewrite <- (firstn_skipn i rest). apply in_or_app. left. exact H.
Qed.
Lemma started_more ms i m m' op t ck st sw got : nth_error rest i = Some op -> started ms i m -> effect m m' t ck st sw got ->
  t = (if is_tick op then 73 else if is_ack op then 146 else 0) -> ck = steady_clicks 0 [op] -> started ms (S i) m'.
Proof.
  intros N (st1 & sw1 & g1 & E1) E2 T CK. exists (st1 ++ st), (sw1 ++ sw), (g1 ++ got). rewrite (firstn_snoc _ _ _ N).
  rewrite (steady_snoc _ (played_first i)), Z.add_0_l.
  assert (T1 : steady_time (firstn i rest ++ [op]) = steady_time (firstn i rest) + t).
  { unfold steady_time. rewrite !count_snoc, T. pose proof (proj1 (Forall_forall _ _) (pl_ops _ _ _ PL) op (nth_error_In _ _ N)) as P.
    destruct P as [P|P]; destruct op; try discriminate; cbn [is_tick is_ack]; lia. }
  rewrite T1. assert (C1 : steady_clicks (steady_time (firstn i rest)) [op] = map (Z.add (steady_time (firstn i rest))) ck).
  { rewrite CK. generalize (steady_time (firstn i rest)). intros u. destruct op; cbn [steady_clicks map]; rewrite ?Z.add_0_l; try reflexivity. rewrite Z.add_assoc. reflexivity. }
  rewrite C1. exact (effect_trans _ _ _ _ _ _ _ _ _ _ _ _ _ E1 E2).
Qed.

Definition steadily ms (i n : nat) m : Prop := at_phase bytes k rest sched m0 n (At i) m /\ since i n m /\ started ms i m.
Lemma steady_next ms i n m : (i < length rest)%nat -> steadily ms i n m -> exists n' m', (n < n')%nat /\ steadily ms (S i) n' m'.
Proof.
  intros LT (A & (nf & mf & LF & RF & WF & WM & CM) & ST). destruct (nth_error rest i) as [op|] eqn:N; [|apply nth_error_None in N; lia].
  pose proof (pos_next _ _ _ N) as PN.
  destruct (op_kind _ _ _ PL _ _ N) as [(t & p & ct & o & ->)|(a & ->)].
  - destruct (tick_advances bytes k rest PL sched m0 n i m t p ct o A N) as (n' & m' & LN & A' & (st & got & E) & WR). exists n', m'. split; [exact LN|].
    destruct (tick_frame _ _ _ PL _ _ _ _ _ N) as [_ TA]. cbn [opcode_size] in PN. split; [exact A'|]. split.
    + exists nf, mf. split; [lia|]. split; [exact RF|]. rewrite TA. split; [exact WF|].
      replace (n' - nf)%nat with ((n - nf) + (n' - n))%nat by lia. rewrite offered_plus.
      rewrite (offered_ext (n' - n) (fun j => sched_from sched nf (n - nf + j)) (sched_from sched n)) by (intros j; unfold sched_from; f_equal; lia).
      pose proof (offered_nonneg (n' - n) (sched_from sched n)). rewrite (ef_cyc _ _ _ _ _ _ _ E). rewrite PN. split; lia.
    + eapply (started_more ms i m m' _ 73 _ st [] got N ST E); reflexivity.
  - destruct (ack_frame _ _ _ PL _ _ N) as (AF & AA & AP).
    assert (W4 : acked_at i + 4096 <= wr (net m)).
    { assert (PA : pos i = acked_at i + 2044) by lia. pose proof (BW nf n mf m LF RF (proj1 A) ltac:(lia)) as B. fold (sched_from sched nf) in B.
      pose proof (frame_there _ _ _ PL (S i) ltac:(lia)) as FT. rewrite AA in FT. lia. }
    destruct (ack_smooth n i m a A N W4) as (n' & m' & LN & A' & sw & got & E). exists n', m'. split; [exact LN|]. split; [exact A'|]. split.
    + apply since_now; [exact (proj1 A')|exact (proj1 (proj2 (proj2 (proj2 (proj2 A')))))|lia].
    + eapply (started_more ms i m m' _ 146 _ [] sw got N ST E); reflexivity.
Qed.
Lemma steady_0 (D : delivers sched) : exists n m, steadily m 0 n m.
Proof.
  destruct (reach_at bytes k rest PL sched m0 C0 D (or_introl NP) 0 ltac:(lia)) as (n & m & A). exists n, m. split; [exact A|]. split.
  - apply since_now; [exact (proj1 A)|exact (proj1 (proj2 (proj2 (proj2 (proj2 A)))))|]. unfold pos, acked_at. cbn. lia.
  - exists [], [], []. exact (effect_refl m).
Qed.
Lemma steady_all ms n0 : steadily ms 0 n0 ms -> forall i, (i <= length rest)%nat -> exists n m, (n0 <= n)%nat /\ steadily ms i n m.
Proof.
  intros S0 i. induction i as [|i IH]; intros L; [exists n0, ms; auto|]. destruct (IH ltac:(lia)) as (n & m & LN & S1).
  destruct (steady_next ms i n m ltac:(lia) S1) as (n' & m' & LN' & S2). exists n', m'. split; [lia|exact S2].
Qed.
End Smooth.

(** ** Which samples are before an opcode *)
Section Counts.
Variables (bytes : list Z) (k : kind) (rest : list opcode).
Hypothesis PL : playable bytes k rest.
Lemma acks_before i : (i <= length rest)%nat -> acked_at rest i = 2048 * count is_ack (firstn i rest) /\ pos rest i = 7 + 7 * count is_tick (firstn i rest) + 4 * count is_ack (firstn i rest).
Proof.
  induction i as [|i IH]; intros L; [split; reflexivity|]. destruct (IH ltac:(lia)) as [H1 H2].
  destruct (nth_error rest i) as [op|] eqn:N; [|apply nth_error_None in N; lia]. rewrite (firstn_snoc _ _ _ N), !count_snoc. pose proof (pos_next _ _ _ N) as PN.
  destruct (op_kind _ _ _ PL _ _ N) as [(t & p & ct & o & ->)|(a & ->)]; cbn [is_ack is_tick opcode_size] in *.
  - destruct (tick_frame _ _ _ PL _ _ _ _ _ N) as [_ TA]. lia.
  - destruct (ack_frame _ _ _ PL _ _ N) as (_ & AA & _). lia.
Qed.
Lemma tick_acks i t p ct o : nth_error rest i = Some (Tick t p ct o) -> count is_ack (firstn i rest) = (count is_tick (firstn i rest) + 1) / 292.
Proof.
  intros N. assert (L : (i < length rest)%nat) by (apply nth_error_Some; congruence). destruct (acks_before i ltac:(lia)) as [H1 H2].
  destruct (tick_frame _ _ _ PL _ _ _ _ _ N) as [F _]. destruct (in_frame rest i) as [G _].
  set (a := count is_ack _) in *. set (c := count is_tick _) in *. clearbody a c. clear - H1 H2 F G. apply (Z.div_unique (c + 1) 292 a (c + 1 - 292 * a)); lia.
Qed.
End Counts.

(** ** Instructions take at most 6 cycles *)
Lemma read_cyc a m v m' : bus_read a m = Some (v, m') -> cyc m' = cyc m.
Proof. unfold bus_read. repeat match goal with |- context [if ?b then _ else _] => destruct b end; try discriminate; intros H; injection H as _ <-; reflexivity. Qed.
Lemma io_cyc a v m m' : io_write a v m = Some m' -> cyc m' = cyc m.
Proof.
  unfold io_write. repeat match goal with |- context [if ?b then _ else _] => destruct b end; try (intros H; injection H as <-; reflexivity); try discriminate.
  destruct (chip_poke v (net m)); [|discriminate]. intros H. injection H as <-. reflexivity.
Qed.
Lemma write_cyc a v m m' : bus_write a v m = Some m' -> cyc m' = cyc m.
Proof. unfold bus_write. destruct (_ && _); intros H; [apply io_cyc in H; exact H|injection H as <-; reflexivity]. Qed.
Lemma alu_cyc i b m m' : alu i b m = Some m' -> cyc m' = cyc m.
Proof. destruct i; cbn [alu]; try discriminate; intros H; injection H as <-; reflexivity. Qed.
Lemma load_cyc i md v m m' : load i md v m = Some m' -> cyc m' = cyc m.
Proof.
  unfold load. destruct md; try (destruct (bus_read _ m) as [[b m1]|] eqn:R; [|discriminate]; intros H; apply alu_cyc in H; apply read_cyc in R; congruence).
  apply alu_cyc.
Qed.
Lemma push_cyc v m m' : push v m = Some m' -> cyc m' = cyc m.
Proof. unfold push. destruct (bus_write _ v m) as [m1|] eqn:W; [|discriminate]. intros H. injection H as <-. apply write_cyc in W. exact W. Qed.
Lemma ins_cyc i md v m m' : exec_ins i md v m = Some m' -> cyc m <= cyc m' <= cyc m + match i with iBCS | iBPL | iBEQ | iBNE => 2 | _ => 0 end.
Proof.
  assert (B : forall b, branch b v m = Some m' -> cyc m <= cyc m' <= cyc m + 2).
  { intros b H. unfold branch in H. injection H as <-. destruct b; [|lia]. cbv beta iota zeta delta [with_cyc with_pc cyc]. destruct (_ =? _); lia. }
  assert (Q : forall a b, a = b -> b <= a <= b + 0) by lia.
  destruct i; cbn [exec_ins]; try discriminate; try (intros H; apply Q; first [exact (load_cyc _ _ _ _ _ H)|exact (write_cyc _ _ _ _ H)|injection H as <-; reflexivity]); try apply B.
  - destruct (bus_read _ m) as [[b m1]|] eqn:R; [|discriminate]. intros H. apply Q. apply write_cyc in H. apply read_cyc in R. rewrite H. exact R.
  - destruct (bus_read _ m) as [[b m1]|] eqn:R; [|discriminate]. intros H. apply Q. apply write_cyc in H. apply read_cyc in R. rewrite H. exact R.
  - destruct (push _ m) as [m1|] eqn:P1; [|discriminate]. destruct (push _ m1) as [m2|] eqn:P2; [|discriminate]. intros H. apply Q. injection H as <-.
    apply push_cyc in P1, P2. rewrite <- P1, <- P2. reflexivity.
Qed.
Lemma cycles_bound i md v m : 2 <= cycles i md v m /\ cycles i md v m + match i with iBCS | iBPL | iBEQ | iBNE => 2 | _ => 0 end <= 7.
Proof. destruct i, md; cbn [cycles]; try (destruct (_ =? _)); lia. Qed.
Lemma step_cyc stream e m m' : step stream e m = Some m' -> cyc m <= cyc m' <= cyc m + 7.
Proof.
  unfold step. set (b := before stream e m). assert (BC : cyc b = cyc m) by (subst b; unfold before, press; destruct (e_key e); reflexivity). rewrite <- BC. clearbody b. clear BC m.
  unfold exec. destruct (pc b =? 0xF3F2). { unfold rom_clear. destruct (_ =? 0x20); [|discriminate]. intros H. injection H as <-. cbn. lia. }
  destruct (pc b =? 0xFDED). { intros H. injection H as <-. cbn. lia. }
  destruct (fetch b) as [[[i md] v]|]; [|discriminate]. intros H. apply ins_cyc in H. set (b1 := with_cyc _ _) in H. assert (C1 : cyc b1 = cyc b + cycles i md v b) by reflexivity. clearbody b1. pose proof (cycles_bound i md v b). lia.
Qed.
Lemma run_cyc stream n : forall sched m m', run stream sched n m = Some m' -> cyc m <= cyc m' <= cyc m + 7 * Z.of_nat n.
Proof.
  induction n as [|n IH]; intros sched m m' R; cbn [run] in R; [injection R as <-; lia|].
  destruct (step stream (sched O) m) as [m1|] eqn:ST; [|discriminate]. apply step_cyc in ST. apply IH in R. lia.
Qed.
(** a schedule that offers enough bytes per instruction has the bandwidth *)
Lemma enough_per_instruction stream sched m0 B T : (forall n1 n, T <= 7 * Z.of_nat n -> B <= offered (fun i => sched (n1 + i)%nat) n) -> bandwidth stream sched m0 B T.
Proof.
  intros H n1 n2 m1 m2 L R1 R2 TT. destruct (run_split stream n1 n2 sched m0 m2 L R2) as (m & R & R3). assert (m = m1) as -> by congruence.
  apply run_cyc in R3. apply H. lia.
Qed.

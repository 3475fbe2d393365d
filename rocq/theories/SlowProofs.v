(** A slow network delays each frame by no more than it is short of. *)
From Verif Require Import Base BaseFacts ScreenModel ScreenSpec BitmapModel BitmapSpec VideoModel VideoSpec OpcodeModel MovieModel MovieSpec SymbolModel AddrThms
  AsmModel PlayerCode CpuModel PlayerModel PlayerSpec PlayerExec ChipProofs TickExec RecvCode EffectProofs TickThms RunProofs RecvProofs LayoutProofs PlaybackSpec StartupCode StartupProofs PlaybackRead PlaybackProofs PlaybackThms SmoothSpec SmoothProofs.
Opaque lowcode code hgr resident startup symbols code_map op_cmds TABLES.

Section Slow.
Variables (bytes : list Z) (k : kind) (rest : list opcode).
Hypothesis PL : playable bytes k rest.
Variables (sched : nat -> env) (m0 : machine).
Hypothesis C0 : connected bytes m0.
Hypothesis NP : never_pressed sched m0.
Variable T : Z.
Hypothesis BW : bandwidth bytes sched m0 2048 T.
Local Notation pos := (pos rest).
Local Notation acked_at := (acked_at rest).
Local Notation len := (Z.of_nat (length bytes)).
Local Notation since := (since bytes rest sched m0).
(** how much later each frame can be *)
Definition extra : Z := Z.max 0 (T - 21292).

Lemma offered_more nf n n' : (nf <= n <= n')%nat -> offered (sched_from sched nf) (n' - nf) = offered (sched_from sched nf) (n - nf) + offered (sched_from sched n) (n' - n).
Proof.
  intros L. replace (n' - nf)%nat with ((n - nf) + (n' - n))%nat by lia. rewrite offered_plus. f_equal.
  apply offered_ext. intros j. unfold sched_from. f_equal. lia.
Qed.

(** The polls: the next frame is complete within [T] cycles of the time at which
    the last one was found. *)
Lemma polls_end nf mf j : run bytes sched nf m0 = Some mf -> (j <= length rest)%nat -> acked_at j <= wr (net mf) ->
  forall fuel n m, (Z.to_nat (T - (cyc m - cyc mf)) <= fuel)%nat -> (nf <= n)%nat -> at_phase bytes k rest sched m0 n (Wait j) m ->
  Z.min (wr (net mf) + offered (sched_from sched nf) (n - nf)) (Z.min len (acked_at j + 6144)) <= wr (net m) ->
  exists n' m', (n < n')%nat /\ at_phase bytes k rest sched m0 n' (At j) m' /\ cyc m + 73 <= cyc m' <= Z.max (cyc m + 73) (cyc mf + T + 97).
Proof.
  intros RF LJ WF fuel. induction fuel as [|fuel IH]; intros n m FU LN A W;
    destruct (advance_wait_full bytes k rest PL sched m0 n j m A) as (n2 & ph2 & m2 & L2 & A2 & [(-> & _)|[(-> & (got2 & E2) & _)|(-> & (_ & ST & _) & _ & E2 & FI)]]);
    try (exfalso; destruct A2 as (_ & _ & _ & _ & NN & _); contradiction);
    try (exists n2, m2; split; [exact L2|]; split; [exact A2|]; rewrite (ef_cyc _ _ _ _ _ _ _ E2); lia).
  - exfalso. pose proof (frame_there _ _ _ PL j LJ) as FT. pose proof (BW nf n mf m LN RF (proj1 A) ltac:(lia)) as B. fold (sched_from sched nf) in B. lia.
  - pose proof (frame_there _ _ _ PL j LJ) as FT.
    assert (TM : cyc m - cyc mf < T).
    { destruct (Z.lt_ge_cases (cyc m - cyc mf) T) as [H|H]; [exact H|]. exfalso. pose proof (BW nf n mf m LN RF (proj1 A) H) as B. fold (sched_from sched nf) in B. lia. }
    pose proof (ef_cyc _ _ _ _ _ _ _ E2) as C2.
    destruct (IH n2 m2) as (n' & m' & LN' & A' & CC); [lia|lia|exact A2| |].
    + unfold fills in FI. rewrite (offered_more nf n n2) by lia. pose proof (offered_nonneg (n2 - n) (sched_from sched n)). lia.
    + exists n', m'. split; [lia|]. split; [exact A'|]. lia.
Qed.

Definition on_time ms i n m : Prop := at_phase bytes k rest sched m0 n (At i) m /\ since i n m /\
  steady_time (firstn i rest) <= cyc m - cyc ms <= steady_time (firstn i rest) + extra * count is_ack (firstn i rest).
Lemma on_time_next ms i n m : (i < length rest)%nat -> on_time ms i n m -> exists n' m', (n < n')%nat /\ on_time ms (S i) n' m'.
Proof.
  intros LT (A & SI & ST). pose proof SI as (nf & mf & LF & RF & WF & WM & CM). destruct (nth_error rest i) as [op|] eqn:N; [|apply nth_error_None in N; lia].
  pose proof (pos_next _ _ _ N) as PN. unfold on_time, steady_time in *. rewrite (firstn_snoc _ _ _ N), !count_snoc.
  destruct (op_kind _ _ _ PL _ _ N) as [(t & p & ct & o & ->)|(a & ->)]; cbn [is_tick is_ack].
  - destruct (tick_advances bytes k rest PL sched m0 n i m t p ct o A N) as (n' & m' & LN & A' & (st & got & E) & WR). exists n', m'. split; [exact LN|].
    destruct (tick_frame _ _ _ PL _ _ _ _ _ N) as [_ TA]. cbn [opcode_size] in PN. split; [exact A'|]. rewrite (ef_cyc _ _ _ _ _ _ _ E). split; [|lia].
    exists nf, mf. split; [lia|]. split; [exact RF|]. rewrite TA. split; [exact WF|].
    rewrite (offered_more nf n n') by lia. pose proof (offered_nonneg (n' - n) (sched_from sched n)). rewrite (ef_cyc _ _ _ _ _ _ _ E), PN. split; lia.
  - destruct (ack_frame _ _ _ PL _ _ N) as (AF & AA & AP).
    destruct (ack_advances_full bytes k rest PL sched m0 n i m a A N) as (n1 & m1 & L1 & A1 & (sw & got & E1) & W1 & _ & FI).
    pose proof (ef_cyc _ _ _ _ _ _ _ E1) as C1.
    destruct (polls_end nf mf (S i) RF ltac:(lia) ltac:(lia) (Z.to_nat (T - (cyc m1 - cyc mf))) n1 m1) as (n2 & m2 & L2 & A2 & C2); [lia|lia|exact A1| |].
    + unfold fills in FI. rewrite (offered_more nf n n1) by lia. pose proof (offered_nonneg (n1 - n) (sched_from sched n)). lia.
    + exists n2, m2. split; [lia|]. split; [exact A2|]. split.
      * apply since_now; [exact (proj1 A2)|exact (proj1 (proj2 (proj2 (proj2 (proj2 A2)))))|lia].
      * assert (PA : pos i = acked_at i + 2044) by lia. unfold extra in *. lia.
Qed.
Lemma on_time_0 (D : delivers sched) : exists n m, on_time m 0 n m.
Proof.
  destruct (reach_at bytes k rest PL sched m0 C0 D (or_introl NP) 0 ltac:(lia)) as (n & m & A). exists n, m. split; [exact A|]. split.
  - apply since_now; [exact (proj1 A)|exact (proj1 (proj2 (proj2 (proj2 (proj2 A)))))|]. unfold pos, acked_at. cbn. lia.
  - cbn. lia.
Qed.
Lemma on_time_all ms n0 : on_time ms 0 n0 ms -> forall i, (i <= length rest)%nat -> exists n m, (n0 <= n)%nat /\ on_time ms i n m.
Proof.
  intros S0 i. induction i as [|i IH]; intros L; [exists n0, ms; auto|]. destruct (IH ltac:(lia)) as (n & m & LN & S1).
  destruct (on_time_next ms i n m ltac:(lia) S1) as (n' & m' & LN' & S2). exists n', m'. split; [lia|exact S2].
Qed.
End Slow.

(** ** Nothing is played before it has been offered *)
Lemma arrive1_le stream c : wr c <= wr (arrive1 stream c) <= wr c + 1.
Proof. unfold arrive1. destruct (_ && _ && _); cbn [wr]; lia. Qed.
Lemma arrive_le stream n : forall c, wr c <= wr (arrive stream n c) <= wr c + Z.of_nat n.
Proof. induction n as [|n IH]; intros c; cbn [arrive]; [lia|]. pose proof (arrive1_le stream c). specialize (IH (arrive1 stream c)). lia. Qed.
Lemma before_le stream e m : wr (net m) <= wr (net (before stream e m)) <= wr (net m) + Z.of_nat (e_bytes e).
Proof.
  rewrite before_shape. cbn [net with_kbd with_net]. pose proof (arrive_le stream (e_bytes e) (connect (e_status e) (net m))) as A.
  assert (C : wr (connect (e_status e) (net m)) = wr (net m)) by (unfold connect; destruct (e_status e); [destruct (_ =? _)|]; reflexivity). rewrite C in A. exact A.
Qed.
Lemma run_offered stream n : forall sched m m', run stream sched n m = Some m' -> 0 <= wr (net m) -> 0 <= wr (net m') <= wr (net m) + offered sched n.
Proof.
  induction n as [|n IH]; intros sched m m' R P; cbn [run offered] in *; [injection R as <-; lia|].
  destruct (step stream (sched O) m) as [m1|] eqn:ST; [|discriminate]. unfold step in ST. apply exec_nm in ST. unfold no_more in ST. pose proof (before_le stream (sched O) m) as B.
  assert (P1 : 0 <= wr (net m1) <= wr (net m) + Z.of_nat (e_bytes (sched O))) by (destruct ST as [-> | ->]; lia).
  specialize (IH _ _ _ R (proj1 P1)). lia.
Qed.

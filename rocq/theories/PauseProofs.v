(** Pausing and resuming playback by keys. *)
From Verif Require Import Base BaseFacts ScreenModel ScreenSpec BitmapModel BitmapSpec VideoModel VideoSpec OpcodeModel MovieModel MovieSpec SymbolModel AddrThms
  AsmModel PlayerCode CpuModel PlayerModel PlayerSpec PlayerExec ChipProofs TickExec RecvCode EffectProofs TickThms RunProofs RecvProofs LayoutProofs PlaybackSpec StartupCode StartupProofs PlaybackRead PlaybackProofs PlaybackThms PlaybackConv PauseSpec.
Opaque lowcode code hgr resident startup symbols code_map op_cmds TABLES.

Section Pause.
Variables (bytes : list Z) (k : kind) (rest : list opcode).
Hypothesis PL : playable bytes k rest.
Local Notation pos := (pos rest).
Local Notation acked_at := (acked_at rest).
Local Notation len := (Z.of_nat (length bytes)).
Local Notation final := (At (length rest)).
Local Notation at_phase := (at_phase bytes k rest).

(** ** Bytes taken at a checkpoint *)
Definition held_at (ph : phase) : Z := match ph with Start => 0 | Wait i | Pause i => pos i | At i => pos i + 2 end.
Lemma phase_held sched m0 n ph m : at_phase sched m0 n ph m -> taken m = taken m0 ++ first_bytes bytes (held_at ph) /\ 0 <= held_at ph <= len.
Proof.
  intros (R & P). destruct ph as [|i|i|i]; cbn [held_at].
  - destruct P as (_ & _ & T). split; [rewrite T; symmetry; apply app_nil_r|lia].
  - destruct P as (L & _ & _ & passes & p & C & _). split; [apply (cm_taken _ _ _ _ _ _ _ _ _ _ C)|]. pose proof (pos_ge rest i). pose proof (frame_there _ _ _ PL i L). pose proof (in_frame rest i). lia.
  - destruct P as (L & _ & _ & _ & passes & p & C). split; [apply (cm_taken _ _ _ _ _ _ _ _ _ _ C)|]. pose proof (pos_ge rest i). pose proof (frame_there _ _ _ PL i L). pose proof (in_frame rest i). lia.
  - destruct P as (L & _ & _ & _ & passes & C & _). split; [apply (cm_taken _ _ _ _ _ _ _ _ _ _ C)|]. pose proof (pos_ge rest i). pose proof (frame_there _ _ _ PL i L). pose proof (address_frame _ _ _ PL i L). lia.
Qed.
Lemma phase_length sched m0 n ph m : at_phase sched m0 n ph m -> Z.of_nat (length (taken m)) = Z.of_nat (length (taken m0)) + held_at ph.
Proof.
  intros A. destruct (phase_held _ _ _ _ _ A) as [T B]. rewrite T, app_length. unfold first_bytes. rewrite firstn_length. lia.
Qed.

(** ** Keys *)
Lemma quiet_kbd sched n : forall n' m m', run bytes (sched_from sched n) (n' - n) m = Some m' -> kbd m < 128 -> (forall j, (n <= j < n')%nat -> e_key (sched j) = None) -> kbd m' < 128.
Proof. intros n' m m' R K NK. apply (proj2 (proj2 (run_log _ _ _ _ _ R))); [exact K|]. intros i Hi. apply NK. lia. Qed.
Lemma phase_kbd sched m0 n ph m n' ph' m' : at_phase sched m0 n ph m -> at_phase sched m0 n' ph' m' -> (n <= n')%nat -> kbd m < 128 -> (forall j, (n <= j < n')%nat -> e_key (sched j) = None) -> kbd m' < 128.
Proof.
  intros (R & _) (R' & _) L K NK. destruct (run_split bytes n n' sched m0 m' L R') as (m1 & R1 & R2). assert (m1 = m) as -> by congruence.
  exact (quiet_kbd sched n n' m m' R2 K NK).
Qed.

(** how much is taken at most when a pending key takes effect *)
Definition limit (ph : phase) : Z := match ph with Start => 7 | Wait i | Pause i => pos i | At i => acked_at i + 2048 end.
(** with a key pending, a pause follows or the end *)
Lemma pending_wait sched m0 (D : delivers sched) i n m : at_phase sched m0 n (Wait i) m -> 128 <= kbd m ->
  exists n' m', (n < n')%nat /\ at_phase sched m0 n' (Pause i) m' /\ kbd m' < 128.
Proof.
  intros A0 K0. pose proof A0 as (_ & LI & _).
  refine (leave_wait bytes sched D (acked_at i + 2048) (frame_there _ _ _ PL i LI) (fun n m => at_phase sched m0 n (Wait i) m /\ 128 <= kbd m)
    (fun n' m' => at_phase sched m0 n' (Pause i) m' /\ kbd m' < 128) _ n m (conj A0 K0)).
  intros a ma (A & K). destruct (advance_wait_keys bytes k rest PL sched m0 a i ma A) as (n' & ph' & m' & L & A' & [(-> & KL & _)|[(_ & _ & KL & _)|(-> & (S1 & S2 & S3) & PD)]]).
  - exists n', m'. split; [exact L|]. left. split; assumption.
  - lia.
  - exists n', m'. split; [exact L|]. right. split; [split; [exact A'|apply PD; left; exact K]|]. auto.
Qed.
Lemma pending_at sched m0 (D : delivers sched) : forall d i n m, (i + d)%nat = length rest -> at_phase sched m0 n (At i) m -> 128 <= kbd m ->
  exists n' m' ph, (n <= n')%nat /\ at_phase sched m0 n' ph m' /\ held_at ph <= acked_at i + 2048 /\ ((exists i', ph = Pause i' /\ kbd m' < 128) \/ ph = final).
Proof.
  induction d as [|d IH]; intros i n m E A K.
  - exists n, m, final. rewrite Nat.add_0_r in E. subst i. split; [lia|]. split; [exact A|]. split; [|right; reflexivity]. cbn [held_at]. apply (address_frame _ _ _ PL). lia.
  - destruct (nth_error rest i) as [op|] eqn:N; [|apply nth_error_None in N; lia]. destruct (op_kind _ _ _ PL _ _ N) as [(t & p & ct & o & ->)|(a & ->)].
    + destruct (tick_advances_keys bytes k rest PL sched m0 n i m t p ct o A N) as (n1 & m1 & L1 & A1 & _ & _ & PD).
      destruct (IH (S i) n1 m1 ltac:(lia) A1 (PD (or_introl K))) as (n2 & m2 & ph & L2 & A2 & H2 & O). exists n2, m2, ph. split; [lia|]. split; [exact A2|].
      destruct (tick_frame _ _ _ PL _ _ _ _ _ N) as [_ TA]. rewrite TA in H2. auto.
    + destruct (ack_advances_keys bytes k rest PL sched m0 n i m a A N) as (n1 & m1 & L1 & A1 & _ & _ & PD).
      destruct (pending_wait sched m0 D (S i) n1 m1 A1 (PD (or_introl K))) as (n2 & m2 & L2 & A2 & K2). exists n2, m2, (Pause (S i)). split; [lia|]. split; [exact A2|].
      destruct (ack_frame _ _ _ PL _ _ N) as (_ & _ & AP). cbn [held_at]. split; [lia|]. left. eauto.
Qed.
Lemma pending_any sched m0 (D : delivers sched) n ph m : at_phase sched m0 n ph m -> 128 <= kbd m -> (forall i, ph <> Pause i) ->
  exists n' m' ph', (n <= n')%nat /\ at_phase sched m0 n' ph' m' /\ held_at ph' <= limit ph /\ ((exists i', ph' = Pause i' /\ kbd m' < 128) \/ ph' = final).
Proof.
  intros A K NP. destruct ph as [|i|i|i].
  - (* until the header is there *)
    destruct (leave_wait bytes sched D 256 (bound_start bytes k rest PL) (fun n m => at_phase sched m0 n Start m /\ 128 <= kbd m) (fun n m => at_phase sched m0 n (Wait 0) m /\ 128 <= kbd m)) with (n := n) (m := m) as (n1 & m1 & L1 & A1 & K1); [|auto|].
    { intros a ma (A1 & K1). destruct (advance_start_keys bytes k rest PL sched m0 a ma A1) as (n' & ph' & m' & L & A' & [->|[-> (S1 & S2 & S3)]] & PD); exists n', m'; (split; [exact L|]); [left|right].
      - split; [exact A'|apply PD; left; exact K1].
      - split; [split; [exact A'|apply PD; left; exact K1]|]. auto. }
    destruct (pending_wait sched m0 D 0 n1 m1 A1 K1) as (n2 & m2 & L2 & A2 & K2). exists n2, m2, (Pause 0). split; [lia|]. split; [exact A2|]. split; [|left; eauto].
    cbn [held_at limit]. unfold PlaybackRead.pos. cbn. lia.
  - destruct (pending_wait sched m0 D i n m A K) as (n2 & m2 & L2 & A2 & K2). exists n2, m2, (Pause i). split; [lia|]. split; [exact A2|]. split; [cbn [held_at limit]; lia|left; eauto].
  - exfalso. exact (NP i eq_refl).
  - pose proof A as (_ & LI & _). destruct (pending_at sched m0 D (length rest - i) i n m ltac:(lia) A K) as (n2 & m2 & ph & L2 & A2 & H2 & O). exists n2, m2, ph. split; [exact L2|]. split; [exact A2|]. split; [exact H2|exact O].
Qed.

(** one step from a checkpoint that is no pause; the keyboard *)
Lemma advance_keys sched m0 n ph m : at_phase sched m0 n ph m -> (forall i, ph <> Pause i) -> ph <> final ->
  exists n' ph' m', (n < n')%nat /\ at_phase sched m0 n' ph' m' /\
    (((exists i, ph' = Pause i /\ held_at ph' <= held_at ph + 2048) /\ kbd m' < 128 /\ ~ (kbd m < 128 /\ no_keys (sched_from sched n) (n' - n))) \/ ((forall i, ph' <> Pause i) /\ limit ph' <= held_at ph + 2048 /\ pends sched n n' m m')).
Proof.
  intros A NP NF. destruct ph as [|i|i|i].
  - destruct (advance_start_keys bytes k rest PL sched m0 n m A) as (n' & ph' & m' & L & A' & H & PD). exists n', ph', m'. split; [exact L|]. split; [exact A'|]. right. split; [|split; [|exact PD]].
    + intros i E. destruct H as [->|[-> _]]; discriminate.
    + destruct H as [->|[-> _]]; cbn [held_at limit]; unfold PlaybackRead.pos; cbn; lia.
  - destruct (advance_wait_keys bytes k rest PL sched m0 n i m A) as (n' & ph' & m' & L & A' & [(-> & KL & NK)|[(-> & _ & KL & PD)|(-> & _ & PD)]]); exists n'; eexists; exists m'; (split; [exact L|]); (split; [exact A'|]).
    + left. split; [exists i; split; [reflexivity|cbn [held_at]; lia]|auto].
    + right. split; [discriminate|]. split; [|exact PD]. pose proof (in_frame rest i) as (B & _). cbn [held_at limit]. lia.
    + right. split; [discriminate|]. split; [|exact PD]. cbn [held_at limit]. lia.
  - exfalso. exact (NP i eq_refl).
  - pose proof A as (_ & LI & _). destruct (nth_error rest i) as [op|] eqn:N; [|apply nth_error_None in N; exfalso; apply NF; f_equal; lia]. destruct (op_kind _ _ _ PL _ _ N) as [(t & p & ct & o & ->)|(a & ->)].
    + destruct (tick_advances_keys bytes k rest PL sched m0 n i m t p ct o A N) as (n1 & m1 & L1 & A1 & _ & _ & PD). exists n1, (At (S i)), m1. split; [exact L1|]. split; [exact A1|]. right. split; [discriminate|]. split; [|exact PD].
      destruct (tick_frame _ _ _ PL _ _ _ _ _ N) as [_ TA]. pose proof (in_frame rest i) as (B & _). cbn [held_at limit]. lia.
    + destruct (ack_advances_keys bytes k rest PL sched m0 n i m a A N) as (n1 & m1 & L1 & A1 & _ & _ & PD). exists n1, (Wait (S i)), m1. split; [exact L1|]. split; [exact A1|]. right. split; [discriminate|]. split; [|exact PD].
      destruct (ack_frame _ _ _ PL _ _ N) as (_ & _ & AP). pose proof (in_frame rest i) as (B & _). cbn [held_at limit]. lia.
Qed.
Lemma is_final (ph : phase) : ph = final \/ ph <> final.
Proof. destruct ph as [|i|i|i]; try (right; discriminate). destruct (Nat.eq_dec i (length rest)) as [->|NE]; [left; reflexivity|right; congruence]. Qed.

(** the checkpoint after which the key at [q] has been pressed *)
Lemma key_there sched m0 q (C0 : connected bytes m0) (K0 : kbd m0 < 128) (P1 : forall j, (j < q)%nat -> e_key (sched j) = None) (PQ : e_key (sched q) <> None) (NO : not_over bytes sched m0 (S q)) :
  exists n ph m n' ph' m', (n <= q < n')%nat /\ at_phase sched m0 n ph m /\ at_phase sched m0 n' ph' m' /\
    ((exists i, ph' = Pause i /\ kbd m' < 128 /\ held_at ph' <= held_at ph + 2048) \/ ((forall i, ph' <> Pause i) /\ 128 <= kbd m' /\ limit ph' <= held_at ph + 2048)).
Proof.
  assert (H : forall d n ph m, (q - n <= d)%nat -> (n <= q)%nat -> at_phase sched m0 n ph m -> (forall i, ph <> Pause i) ->
    exists n ph m n' ph' m', (n <= q < n')%nat /\ at_phase sched m0 n ph m /\ at_phase sched m0 n' ph' m' /\
    ((exists i, ph' = Pause i /\ kbd m' < 128 /\ held_at ph' <= held_at ph + 2048) \/ ((forall i, ph' <> Pause i) /\ 128 <= kbd m' /\ limit ph' <= held_at ph + 2048))).
  { induction d as [d IH] using lt_wf_ind. intros n ph m LD LQ A NP.
    assert (NF : ph <> final). { intros ->. exact (NO n m ltac:(lia) (proj1 A) (final_pc bytes k rest _ _ _ _ A)). }
    assert (K : kbd m < 128) by (apply (phase_kbd sched m0 0 Start m0 n ph m (at_start _ _ _ _ _ C0) A ltac:(lia) K0); intros j J; apply P1; lia).
    destruct (advance_keys sched m0 n ph m A NP NF) as (n' & ph' & m' & LN & A' & [((i & E & HL) & KL & NK)|(NP' & LM & PD)]).
    - assert (LQ' : (q < n')%nat). { destruct (Nat.lt_ge_cases q n') as [X|X]; [exact X|]. exfalso. apply NK. split; [exact K|]. intros j J. apply P1. lia. }
      exists n, ph, m, n', ph', m'. split; [lia|]. split; [exact A|]. split; [exact A'|]. left. eauto.
    - destruct (Nat.lt_ge_cases q n') as [X|X].
      + exists n, ph, m, n', ph', m'. split; [lia|]. split; [exact A|]. split; [exact A'|]. right. split; [exact NP'|]. split.
        * apply PD. right. exists (q - n)%nat. split; [lia|]. unfold sched_from. replace (n + (q - n))%nat with q by lia. exact PQ.
        * exact LM.
      + exact (IH (q - n')%nat ltac:(lia) n' ph' m' ltac:(lia) X A' NP'). }
  apply (H q 0%nat Start m0); [lia|lia|apply at_start, C0|discriminate].
Qed.

(** the key at [q] leads to a pause, or to the end *)
Lemma key_pauses sched m0 q mq (C0 : connected bytes m0) (D : delivers sched) (K0 : kbd m0 < 128) (P1 : forall j, (j < q)%nat -> e_key (sched j) = None) (PQ : e_key (sched q) <> None)
  (NO : not_over bytes sched m0 (S q)) : run bytes sched q m0 = Some mq ->
  exists n ph m, (q < n)%nat /\ at_phase sched m0 n ph m /\ (length (taken m) <= length (taken mq) + Z.to_nat 2048)%nat /\ ((exists i, ph = Pause i /\ kbd m < 128) \/ ph = final).
Proof.
  intros RQ. destruct (key_there sched m0 q C0 K0 P1 PQ NO) as (n & ph & m & n' & ph' & m' & [L1 L2] & A & A' & O).
  assert (T : Z.of_nat (length (taken m)) <= Z.of_nat (length (taken mq))).
  { destruct (log_prefix _ _ _ _ _ _ _ (proj1 A) RQ L1) as (_ & (g & ->) & _). rewrite app_length. lia. }
  rewrite (phase_length _ _ _ _ _ A) in T. destruct O as [(i & -> & K & H)|(NP & K & H)].
  - exists n', (Pause i), m'. split; [exact L2|]. split; [exact A'|]. split; [|left; eauto]. apply Nat2Z.inj_le. rewrite (phase_length _ _ _ _ _ A'). clear - T H. lia.
  - destruct (pending_any sched m0 D n' ph' m' A' K NP) as (n2 & m2 & ph2 & L3 & A2 & H2 & O). exists n2, ph2, m2. split; [lia|]. split; [exact A2|]. split; [|exact O].
    apply Nat2Z.inj_le. rewrite (phase_length _ _ _ _ _ A2). clear - T H H2. lia.
Qed.

(** ** While paused *)
Lemma pause_even sched m0 i : forall d n m, at_phase sched m0 n (Pause i) m -> kbd m < 128 -> (forall j, (n <= j < n + 2 * d)%nat -> e_key (sched j) = None) ->
  exists m', at_phase sched m0 (n + 2 * d) (Pause i) m' /\ log m' = log m /\ taken m' = taken m /\ CpuModel.mem m' = CpuModel.mem m /\ kbd m' < 128.
Proof.
  induction d as [|d IH]; intros n m A K NK; [exists m; rewrite Nat.mul_0_r, Nat.add_0_r; auto 6|].
  destruct (advance_pause_keys bytes k rest PL sched m0 n i m A) as (n' & ph' & m' & L & A' & [(_ & _ & [KK|KK] & _)|(-> & (-> & _) & F1 & F2 & F3 & F4)]); [lia|rewrite NK in KK by lia; contradiction|].
  destruct (IH (n + 2)%nat m' A' (F4 (NK (n + 1)%nat ltac:(lia))) ltac:(intros; apply NK; lia)) as (m2 & A2 & G1 & G2 & G3 & G4). exists m2. replace (n + 2 * S d)%nat with (n + 2 + 2 * d)%nat by lia. split; [exact A2|]. split; [congruence|]. split; [congruence|]. split; [congruence|exact G4].
Qed.
Lemma app_same {A} (l a b : list A) : (l ++ a) ++ b = l -> a = [].
Proof. intros E. apply (f_equal (@length A)) in E. rewrite !app_length in E. destruct a; [reflexivity|]. cbn [length] in E. lia. Qed.
Lemma pause_frozen sched m0 i n n1 m : at_phase sched m0 n (Pause i) m -> kbd m < 128 -> (forall j, (n <= j < n1)%nat -> e_key (sched j) = None) -> frozen bytes sched m0 n n1 m.
Proof.
  intros A K NK n' L. destruct (Nat.Even_or_Odd (n' - n)) as [(d & E)|(d & E)].
  - destruct (pause_even sched m0 i d n m A K ltac:(intros; apply NK; lia)) as (m' & A' & G). replace (n + 2 * d)%nat with n' in A' by lia. exists m'. split; [exact (proj1 A')|]. tauto.
  - destruct (pause_even sched m0 i d n m A K ltac:(intros; apply NK; lia)) as (m1 & A1 & G1 & G2 & G3 & G4).
    destruct (advance_pause_keys bytes k rest PL sched m0 _ i m1 A1) as (n2 & ph2 & m2 & _ & A2 & [(_ & _ & [KK|KK] & _)|(-> & (-> & _) & F1 & F2 & F3 & _)]); [lia|rewrite NK in KK by lia; contradiction|].
    destruct A1 as (R1 & _ & _ & P1 & _). destruct (pause_step bytes (sched_from sched (n + 2 * d)) m1 _ _ P1) as (x & m' & R' & -> & M').
    pose proof (run_app _ _ _ _ _ _ _ R1 R') as RA. replace (n + 2 * d + 1)%nat with n' in RA by lia. exists m'. split; [exact RA|].
    destruct (log_prefix _ _ _ _ _ _ _ RA (proj1 A2) ltac:(lia)) as ((l2 & L2) & (g2 & T2) & _). destruct (run_log _ _ _ _ _ R') as ((l1 & L1) & (g1 & T1) & _).
    rewrite L1 in L2. rewrite T1 in T2. rewrite F2 in L2. rewrite F3 in T2. symmetry in L2, T2. apply app_same in L2, T2. rewrite L1, T1, L2, T2, !app_nil_r, M'. auto.
Qed.

(** ** Going on *)
Lemma same_phase s1 s2 m0 i n m q : same_before n s1 s2 -> (q < n)%nat -> e_key (s1 q) <> None -> at_phase s1 m0 n (Pause i) m -> at_phase s2 m0 n (Pause i) m.
Proof.
  intros E L KQ (R & LI & W & P & _ & passes & p & [(n0 & ms & LN & R0 & B) C2 C3 C4 C5 C6]).
  split; [rewrite <- R; symmetry; apply run_ext; exact E|]. split; [exact LI|]. split; [exact W|]. split; [exact P|]. split.
  - intros (_ & NK). apply KQ. rewrite (E q L). apply NK.
  - exists passes, p. constructor; auto. exists n0, ms. split; [exact LN|]. split; [rewrite <- R0; symmetry; apply run_ext; intros j J; apply E; lia|exact B].
Qed.
Lemma key_resumes sched m0 i q : forall d n m, (n + d)%nat = q -> at_phase sched m0 n (Pause i) m -> kbd m < 128 -> one_key_from n q sched ->
  exists n' m', (q < n')%nat /\ at_phase sched m0 n' (At i) m' /\ kbd m' < 128.
Proof.
  induction d as [d IH] using lt_wf_ind. intros n m E A K OK.
  assert (NK : forall j, (n <= j)%nat -> j <> q -> e_key (sched j) = None). { intros j J N. destruct (e_key (sched j)) eqn:X; [|reflexivity]. exfalso. apply N. apply (OK j J). congruence. }
  destruct (advance_pause_keys bytes k rest PL sched m0 n i m A) as (n' & ph' & m' & L & A' & [(-> & _ & [KK|KK] & QK)|(-> & (-> & S1 & S2 & S3) & _ & _ & _ & F4)]); [lia| |].
  - assert (n = q) by (apply (OK n (Nat.le_refl n)); exact KK). exists n', m'. split; [lia|]. split; [exact A'|]. apply QK. intros j J. unfold sched_from. apply NK; lia.
  - destruct d as [|[|d]].
    + exfalso. assert (X : n = q) by lia. apply (OK n (Nat.le_refl n)) in X. contradiction.
    + assert (KQ : 128 <= kbd m') by (apply S3; apply (OK (n + 1)%nat ltac:(lia)); lia).
      destruct (advance_pause_keys bytes k rest PL sched m0 _ i m' A') as (n2 & ph2 & m2 & L2 & A2 & [(-> & _ & _ & QK)|(-> & (_ & X & _) & _)]); [|lia].
      exists n2, m2. split; [lia|]. split; [exact A2|]. apply QK. intros j J. unfold sched_from. apply NK; lia.
    + apply (IH d ltac:(lia) (n + 2)%nat m' ltac:(lia) A'); [apply F4, NK; lia|]. intros j J. apply OK. lia.
Qed.
Lemma quiet_wait sched m0 (D : delivers sched) i n m : at_phase sched m0 n (Wait i) m -> kbd m < 128 -> (forall j, (n <= j)%nat -> e_key (sched j) = None) ->
  exists n' m', (n < n')%nat /\ at_phase sched m0 n' (At i) m' /\ kbd m' < 128.
Proof.
  intros A0 K0 NK0. pose proof A0 as (_ & LI & _).
  refine (leave_wait bytes sched D (acked_at i + 2048) (frame_there _ _ _ PL i LI) (fun n m => at_phase sched m0 n (Wait i) m /\ kbd m < 128 /\ forall j, (n <= j)%nat -> e_key (sched j) = None)
    (fun n' m' => at_phase sched m0 n' (At i) m' /\ kbd m' < 128) _ n m (conj A0 (conj K0 NK0))).
  intros a ma (A & K & NK). destruct (advance_wait_keys bytes k rest PL sched m0 a i ma A) as (n' & ph' & m' & L & A' & O).
  assert (K' : kbd m' < 128) by (apply (phase_kbd sched m0 a _ ma n' ph' m' A A' ltac:(lia) K); intros; apply NK; lia).
  exists n', m'. split; [exact L|]. destruct O as [(_ & _ & X)|[(-> & _)|(-> & (S1 & S2 & S3) & _)]].
  - exfalso. apply X. split; [exact K|]. intros j J. apply NK. lia.
  - left. auto.
  - right. split; [split; [exact A'|split; [exact K'|intros; apply NK; lia]]|]. auto.
Qed.
Lemma quiet_next sched m0 (D : delivers sched) i : forall d n m, (i + d <= length rest)%nat -> at_phase sched m0 n (At i) m -> kbd m < 128 -> (forall j, (n <= j)%nat -> e_key (sched j) = None) ->
  exists n' m', (n <= n')%nat /\ at_phase sched m0 n' (At (i + d)) m' /\ kbd m' < 128.
Proof.
  induction d as [|d IH]; intros n m L A K NK; [exists n, m; rewrite Nat.add_0_r; auto|].
  destruct (IH n m ltac:(lia) A K NK) as (n1 & m1 & L1 & A1 & K1). replace (i + S d)%nat with (S (i + d)) by lia.
  assert (NK1 : forall j, (n1 <= j)%nat -> e_key (sched j) = None) by (intros; apply NK; lia).
  destruct (advance_at bytes k rest PL sched m0 n1 (i + d) m1 A1 ltac:(lia)) as (n2 & ph2 & m2 & L2 & A2 & [->| ->]);
    (assert (K2 : kbd m2 < 128) by (apply (phase_kbd sched m0 n1 _ m1 n2 _ m2 A1 A2 ltac:(lia) K1); intros; apply NK1; lia)).
  - exists n2, m2. split; [lia|]. auto.
  - destruct (quiet_wait sched m0 D _ n2 m2 A2 K2 ltac:(intros; apply NK1; lia)) as (n3 & m3 & L3 & A3 & K3). exists n3, m3. split; [lia|]. auto.
Qed.

(** ** Every pause ended *)
Lemma ended_pause sched m0 (U : forall n m, run bytes sched n m0 = Some m -> pausing m -> 128 <= kbd m \/ exists j, (n <= j)%nat /\ e_key (sched j) <> None) i n m :
  at_phase sched m0 n (Pause i) m -> exists n' m', (n < n')%nat /\ at_phase sched m0 n' (At i) m'.
Proof.
  intros A0. assert (H : forall d n m, e_key (sched (n + d)%nat) <> None -> at_phase sched m0 n (Pause i) m -> exists n' m', (n < n')%nat /\ at_phase sched m0 n' (At i) m').
  { clear n m A0. induction d as [d IH] using lt_wf_ind. intros n m DK A.
    destruct (advance_pause bytes k rest PL sched m0 n i m A) as (n' & ph' & m' & L & A' & [->|[-> (-> & K1 & K2 & K3)]]); [exists n', m'; auto|].
    destruct d as [|[|d]].
    - rewrite Nat.add_0_r in DK. contradiction.
    - specialize (K3 DK). destruct (advance_pause bytes k rest PL sched m0 _ i m' A') as (n2 & ph2 & m2 & L2 & A2 & [->|[-> (_ & K4 & _)]]); [|lia].
      exists n2, m2. split; [lia|exact A2].
    - destruct (IH d ltac:(lia) (n + 2)%nat m') as (n2 & m2 & L2 & A2); [replace (n + 2 + d)%nat with (n + S (S d))%nat by lia; exact DK|exact A'|]. exists n2, m2. split; [lia|exact A2]. }
  pose proof A0 as (R & _ & _ & P & _). destruct (U n m R (pz_pc _ _ _ _ P)) as [K|(j & LJ & KJ)].
  - destruct (advance_pause bytes k rest PL sched m0 n i m A0) as (n' & ph' & m' & L & A' & [->|[-> (_ & X & _)]]); [eauto|lia].
  - apply (H (j - n)%nat n m); [|exact A0]. replace (n + (j - n))%nat with j by lia. exact KJ.
Qed.
Lemma ended_reach sched m0 (C0 : connected bytes m0) (D : delivers sched)
  (U : forall n m, run bytes sched n m0 = Some m -> pausing m -> 128 <= kbd m \/ exists j, (n <= j)%nat /\ e_key (sched j) <> None) i : (i <= length rest)%nat ->
  exists n m, at_phase sched m0 n (At i) m.
Proof.
  assert (W : forall i n m, at_phase sched m0 n (Wait i) m -> exists n' m', (n < n')%nat /\ at_phase sched m0 n' (At i) m').
  { intros j n m A. destruct (wait_left bytes k rest PL sched m0 D j n m A) as (n1 & m1 & L1 & [A1|A1]); [|exists n1, m1; auto].
    destruct (ended_pause sched m0 U j n1 m1 A1) as (n2 & m2 & L2 & A2). exists n2, m2. split; [lia|exact A2]. }
  induction i as [|i IH]; intros L.
  - destruct (start_left bytes k rest PL sched m0 D 0 m0 (at_start _ _ _ _ _ C0)) as (n1 & m1 & _ & A1). destruct (W _ _ _ A1) as (n2 & m2 & _ & A2). eauto.
  - destruct (IH ltac:(lia)) as (n & m & A). destruct (advance_at bytes k rest PL sched m0 n i m A ltac:(lia)) as (n' & ph' & m' & _ & A' & [->| ->]); [eauto|].
    destruct (W _ _ _ A') as (n2 & m2 & _ & A2). eauto.
Qed.
End Pause.

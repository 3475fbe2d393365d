(** C86: a key pauses playback and another one resumes it. *)
From Verif Require Import Base BaseFacts ScreenModel ScreenSpec BitmapModel BitmapSpec VideoModel VideoSpec OpcodeModel MovieModel MovieSpec SymbolModel AddrThms
  AsmModel PlayerCode CpuModel PlayerModel PlayerSpec PlaybackSpec PlaybackRead PlaybackProofs PlaybackThms PlaybackConv PauseSpec PauseProofs ExitProofs PropPlayback.
Opaque lowcode code hgr resident startup symbols op_cmds TABLES.

(** One key, pressed at instruction [q] before the movie is over.  After at most
    2048 more bytes of the stream the player pauses: it has run the opcodes
    before the [i]-th one and shows what they draw, and from then on nothing is
    written (so there are no clicks), nothing is read and the screen stays as it
    is.  If now another key is pressed, at any later instruction [q'], nothing
    changes until then and every opcode from the [i]-th on is run, with the
    right picture.  The only other possibility is that there is no further frame
    of the stream to wait for, and TERMINATE is reached first. *)
Theorem C86_key_pauses : forall bytes k rest sched m0 q mq,
  playable bytes k rest -> connected bytes m0 -> delivers sched -> kbd m0 < 128 ->
  one_key_from 0 q sched -> not_over bytes sched m0 (S q) -> run bytes sched q m0 = Some mq ->
  exists n m, (q < n)%nat /\ run bytes sched n m0 = Some m /\ (length (taken m) <= length (taken mq) + Z.to_nat 2048)%nat /\
   ((exists i, (i <= length rest)%nat /\ pausing m /\
      taken m = taken m0 ++ first_bytes bytes (7 + total_size (firstn i rest)) /\ shows k m (play (firstn i rest)) /\
      (forall n1, frozen bytes sched m0 n n1 m) /\
      (forall sched' q', same_before n sched sched' -> delivers sched' -> (n <= q')%nat -> one_key_from n q' sched' ->
        frozen bytes sched' m0 n q' m /\
        forall i', (i <= i' <= length rest)%nat -> exists n2 m2, (q' < n2)%nat /\ run bytes sched' n2 m0 = Some m2 /\ at_opcode bytes rest i' m0 m2 /\ shows k m2 (play (firstn i' rest)))) \/
    (terminated m /\ at_opcode bytes rest (length rest) m0 m /\ shows k m (play rest))).
Proof.
  intros bytes k rest sched m0 q mq PL C D K0 OK NO RQ.
  assert (NK : forall j, j <> q -> e_key (sched j) = None). { intros j N. destruct (e_key (sched j)) eqn:X; [|reflexivity]. exfalso. apply N. apply (OK j (Nat.le_0_l j)). congruence. }
  assert (PQ : e_key (sched q) <> None) by (apply (OK q (Nat.le_0_l q)); reflexivity).
  destruct (key_pauses bytes k rest PL sched m0 q mq C D K0 ltac:(intros; apply NK; lia) PQ NO RQ) as (n & ph & m & L & A & T & O).
  exists n, m. split; [exact L|]. split; [exact (proj1 A)|]. split; [exact T|]. destruct O as [(i & -> & K)| ->].
  - left. exists i. pose proof A as (_ & LI & _ & P & _ & passes & p & CM). split; [exact LI|]. split; [exact (pz_pc _ _ _ _ P)|].
    split; [exact (cm_taken _ _ _ _ _ _ _ _ _ _ CM)|]. split; [exact (common_shows _ _ _ _ _ _ _ _ _ _ PL CM)|].
    split; [intros n1; apply (pause_frozen bytes k rest PL sched m0 i n n1 m A K); intros j J; apply NK; lia|].
    intros s2 q' E D' LQ OK'. pose proof (same_phase bytes k rest sched s2 m0 i n m q E L PQ A) as A'.
    assert (NK' : forall j, (n <= j)%nat -> j <> q' -> e_key (s2 j) = None). { intros j J N. destruct (e_key (s2 j)) eqn:X; [|reflexivity]. exfalso. apply N. apply (OK' j J). congruence. }
    split; [apply (pause_frozen bytes k rest PL s2 m0 i n q' m A' K); intros j J; apply NK'; lia|].
    intros i' LI'. destruct (key_resumes bytes k rest PL s2 m0 i q' (q' - n) n m ltac:(lia) A' K OK') as (n1 & m1 & L1 & A1 & K1).
    destruct (quiet_next bytes k rest PL s2 m0 D' i (i' - i) n1 m1 ltac:(lia) A1 K1 ltac:(intros; apply NK'; lia)) as (n2 & m2 & L2 & A2 & _).
    replace (i + (i' - i))%nat with i' in A2 by lia. exists n2, m2. split; [lia|]. split; [exact (proj1 A2)|]. split; [exact (phase_opcode _ _ _ _ _ _ _ _ PL A2)|].
    destruct A2 as (_ & _ & _ & _ & _ & passes2 & CM2 & _). exact (common_shows _ _ _ _ _ _ _ _ _ _ PL CM2).
  - right. split; [exact (final_pc _ _ _ _ _ _ _ A)|]. split; [exact (phase_opcode _ _ _ _ _ _ _ _ PL A)|].
    destruct A as (_ & _ & _ & _ & _ & passes2 & CM2 & _). rewrite <- (firstn_all rest) at 1. exact (common_shows _ _ _ _ _ _ _ _ _ _ PL CM2).
Qed.
Print Assumptions C86_key_pauses.

(** However often keys are pressed: if in every pause a key is pressed sooner or
    later, every opcode is run, with the right picture.  (C44 and C45 assume no
    key at all, or keys for ever.) *)
Theorem C86_pauses_ended : forall bytes k rest sched m0,
  playable bytes k rest -> connected bytes m0 -> delivers sched ->
  (forall n m, run bytes sched n m0 = Some m -> pausing m -> 128 <= kbd m \/ exists j, (n <= j)%nat /\ e_key (sched j) <> None) ->
  forall i, (i <= length rest)%nat -> exists n m, run bytes sched n m0 = Some m /\ at_opcode bytes rest i m0 m /\
    shows k m (play (firstn i rest)) /\ (k = DHGR -> sw80 m = true /\ swhires m = true).
Proof.
  intros bytes k rest sched m0 PL C D U i L. destruct (ended_reach bytes k rest PL sched m0 C D U i L) as (n & m & A). exists n, m. split; [exact (proj1 A)|].
  split; [exact (phase_opcode _ _ _ _ _ _ _ _ PL A)|]. destruct A as (_ & _ & _ & _ & _ & passes & CM & _). split; [exact (common_shows _ _ _ _ _ _ _ _ _ _ PL CM)|exact (cm_mode _ _ _ _ _ _ _ _ _ _ CM)].
Qed.
Print Assumptions C86_pauses_ended.

(** C47's conversion, and one key, at the very first instruction. *)
Definition sched_key (i : nat) : env := Env (if Nat.even i then 3 else 0) (if (i =? 0)%nat then Some 0x20 else None) None.
Example C86_case : exists bytes rest, playable bytes DHGR rest /\ connected bytes start_ex /\ delivers sched_key /\ kbd start_ex < 128 /\ one_key_from 0 0 sched_key /\
  not_over bytes sched_key start_ex 1 /\ run bytes sched_key 0 start_ex = Some start_ex.
Proof.
  destruct C47_case as (bytes & rest & CV & C & _). exists bytes, rest. split; [exact (conversion_playable _ _ _ _ _ CV)|]. split; [exact C|]. split; [|split; [|split; [|split]]].
  - intros i. exists (2 * i)%nat. split; [lia|]. unfold sched_key. rewrite Nat.even_mul. cbn [Nat.even orb e_bytes]. lia.
  - cbn. lia.
  - intros j _. split; intros H; [destruct j as [|j]; [reflexivity|exfalso; apply H; reflexivity]|subst j; intros X; cbn in X; discriminate X].
  - intros j m L R. assert (j = 0%nat) as -> by lia. cbn [run] in R. injection R as <-. unfold terminated. rewrite (proj1 exit_labels). cbn [pc start_ex]. discriminate.
  - reflexivity.
Qed.

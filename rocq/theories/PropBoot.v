(** Properties C57-C60: starting, playing to the end, leaving, reset. *)
From Verif Require Import Base BaseFacts BitmapModel VideoModel OpcodeModel MovieModel MovieSpec AsmModel PlayerCode CpuModel PlayerModel PlayerSpec StartupCode StartupProofs
  PlaybackSpec PlaybackConv BootSpec BootExec BootProofs ExitProofs BootThms RecvThms MovieFinal PropMovie PropPlayback.
Opaque lowcode code hgr resident startup symbols program program_memory.

Lemma dots f : high (repeat dot f) = repeat 0xAE f.
Proof. unfold high. induction f as [|f IH]; [reflexivity|]. cbn [repeat map]. rewrite IH. reflexivity. Qed.

(** C57: the player tries to connect up to six times.  Each failed attempt but the
    last prints a dot; after the last it prints the error message and stops.  It
    ends up connected, with the card set up, or stopped; nothing but the reset
    vector, the retry counter, the stack and the card's registers is written. *)
Theorem C57_connects_or_gives_up : forall stream sched m, started m -> answers sched ->
  exists n m' new, run stream sched n m = Some m' /\
    ((exists f, (f <= 5)%nat /\ connected stream m' /\ configured (net m') /\
        attempts (states stream sched n m) = S f /\ printed (states stream sched n m) = high (repeat dot f)) \/
     (gave_up m' /\ attempts (states stream sched n m) = 6%nat /\ printed (states stream sched n m) = high (repeat dot 5 ++ error_message))) /\
    log m' = log m ++ new /\ Forall boot_write new /\ (forall b a, ~ boot_cell a -> CpuModel.mem m' b a = CpuModel.mem m b a) /\
    same_switches m m' /\ taken m' = taken m.
Proof.
  intros stream sched m ST AN. destruct (starts stream sched m ST AN) as (n & m' & f & LF & _ & _ & H).
  destruct H as [((R & P & A & F) & C & CF & _)|(E & (R & P & A & F) & G & _)]; destruct (f_log _ _ F) as (new & LG & W); exists n, m', new;
    (split; [exact R|]); (split; [|split; [exact LG|split; [exact W|split; [exact (f_mem _ _ F)|split; [exact (f_sw _ _ F)|exact (f_taken _ _ F)]]]]]).
  - left. exists f. rewrite dots. auto 10.
  - right. split; [exact G|]. split; [exact A|]. rewrite P. reflexivity.
Qed.
Print Assumptions C57_connects_or_gives_up.
Theorem C57_accepted : forall stream sched m, started m -> answers sched -> accepts sched ->
  exists n m', run stream sched n m = Some m' /\ connected stream m' /\ configured (net m') /\
    attempts (states stream sched n m) = 1%nat /\ printed (states stream sched n m) = [].
Proof.
  intros stream sched m ST AN AC. destruct (starts stream sched m ST AN) as (n & m' & f & LF & [Z0|(i & Z0)] & _ & H); [|destruct (AC i Z0)]. subst f.
  destruct H as [((R & P & A & F) & C & CF & _)|(E & _)]; [|discriminate]. exists n, m'. auto 10.
Qed.
Print Assumptions C57_accepted.
Theorem C57_refused : forall stream sched m, started m -> answers sched -> refuses sched ->
  exists n m', run stream sched n m = Some m' /\ gave_up m' /\
    attempts (states stream sched n m) = 6%nat /\ printed (states stream sched n m) = high (repeat dot 5 ++ error_message).
Proof.
  intros stream sched m ST AN RF. destruct (starts stream sched m ST AN) as (n & m' & f & LF & _ & _ & H).
  destruct H as [(_ & _ & _ & i & E)|(E & (R & P & A & F) & G & _)]; [destruct (RF i E)|]. exists n, m'. split; [exact R|]. split; [exact G|]. split; [exact A|].
  rewrite P. reflexivity.
Qed.
Print Assumptions C57_refused.

(** C58: from the start of the program, with a server that accepts, the player
    reaches every opcode of a converted movie with the right picture, ends up in
    TERMINATE, and, if keys are pressed, quits to ProDOS. *)
Theorem C58_plays_whole_movie : forall c audio frames bytes rest sched m0,
  conversion c audio frames bytes rest -> started m0 -> answers sched -> accepts sched -> delivers sched -> user sched m0 ->
  (forall i, (i <= length rest)%nat -> exists n m, run bytes sched n m0 = Some m /\ at_opcode bytes rest i m0 m /\
     shows (c_mode c) m (play (firstn i rest)) /\ (c_mode c = DHGR -> sw80 m = true /\ swhires m = true)) /\
  (exists n m, run bytes sched n m0 = Some m /\ terminated m /\ at_opcode bytes rest (length rest) m0 m /\ shows (c_mode c) m (play rest) /\
     (keeps_pressing sched -> exists n' m', (n < n')%nat /\ run bytes sched n' m0 = Some m' /\ quits m' /\ reset_restarts m')).
Proof.
  intros c audio frames bytes rest sched m0 CV ST AN AC D U. pose proof (conversion_playable _ _ _ _ _ CV) as PL.
  assert (H : forall i, (i <= length rest)%nat -> exists n m, run bytes sched n m0 = Some m /\ at_opcode bytes rest i m0 m /\ shows (c_mode c) m (play (firstn i rest)) /\
     (c_mode c = DHGR -> sw80 m = true /\ swhires m = true) /\ loaded resident m /\ reset_leaves m /\ 0 <= rs m < 256 /\ (i = length rest -> terminated m)).
  { exact (plays_accepted _ _ _ _ _ PL ST AN AC D U). }
  split.
  - intros i L. destruct (H i L) as (n & m & R & A & SH & MD & _). exists n, m. auto.
  - destruct (H (length rest) (Nat.le_refl _)) as (n & m & R & A & SH & _ & L & RL & S0 & T). rewrite firstn_all in SH. specialize (T eq_refl).
    exists n, m. split; [exact R|]. split; [exact T|]. split; [exact A|]. split; [exact SH|]. intros KP. exact (ends _ _ _ _ _ R T L RL S0 KP).
Qed.
Print Assumptions C58_plays_whole_movie.
(** Without knowing that the server accepts: that, or it gives up. *)
Theorem C58_plays_or_gives_up : forall c audio frames bytes rest sched m0,
  conversion c audio frames bytes rest -> started m0 -> answers sched -> delivers sched -> user sched m0 ->
  (exists n m, run bytes sched n m0 = Some m /\ gave_up m /\ attempts (states bytes sched n m0) = 6%nat) \/
  (exists n m, run bytes sched n m0 = Some m /\ terminated m /\ at_opcode bytes rest (length rest) m0 m /\ shows (c_mode c) m (play rest)).
Proof.
  intros c audio frames bytes rest sched m0 CV ST AN D U. pose proof (conversion_playable _ _ _ _ _ CV) as PL.
  destruct (plays_whole _ _ _ _ _ PL ST AN D U) as [G|H]; [left; exact G|right].
  destruct (H (length rest) (Nat.le_refl _)) as (n & m & R & A & SH & _ & _ & _ & _ & T). rewrite firstn_all in SH. exists n, m. auto.
Qed.
Print Assumptions C58_plays_or_gives_up.

(** C59: after TERMINATE the player waits, changing nothing, until a key is
    pressed after its first instruction, and then leaves within five more. *)
Theorem C59_waits : forall stream sched m n, loaded resident m -> terminated m -> (forall i, (0 < i < n)%nat -> e_key (sched i) = None) ->
  exists m', run stream sched n m = Some m' /\ ~ leaving m' /\ quiet m m'.
Proof. exact terminated_waits. Qed.
Print Assumptions C59_waits.
Theorem C59_leaves_on_key : forall stream sched m j, loaded resident m -> terminated m ->
  (0 < j)%nat -> e_key (sched j) <> None -> (forall i, (0 < i < j)%nat -> e_key (sched i) = None) ->
  exists n m', (j < n <= j + 5)%nat /\ run stream sched n m = Some m' /\ leaving m' /\ quiet m m'.
Proof. exact terminated_leaves. Qed.
Print Assumptions C59_leaves_on_key.

(** C60: when the player has a connection or has given up, and from then on until
    TERMINATE, a reset leaves: it leads to ProDOS's QUIT, and the next one restarts
    the computer. *)
Theorem C60_after_start : forall stream sched m, started m -> answers sched ->
  exists n m', run stream sched n m = Some m' /\ (connected stream m' \/ gave_up m') /\ loaded resident m' /\ reset_leaves m'.
Proof.
  intros stream sched m ST AN. destruct (starts stream sched m ST AN) as (n & m' & f & _ & _ & RL & H). exists n, m'.
  destruct H as [((R & _ & _ & F) & C & _)|(_ & (R & _ & _ & F) & G & _)]; (split; [exact R|]); (split; [auto|]); (split; [|exact RL]);
    exact (ldd_frame _ _ (f_mem _ _ F) (st_code _ ST)).
Qed.
Print Assumptions C60_after_start.
Theorem C60_while_playing : forall bytes k rest sched m0 n m,
  playable bytes k rest -> connected bytes m0 -> reset_leaves m0 -> not_over bytes sched m0 n -> run bytes sched n m0 = Some m ->
  loaded resident m /\ reset_leaves m.
Proof.
  intros bytes k rest sched m0 n m PL C RL NO R. destruct (C47_memory_intact _ _ _ _ _ _ _ PL C NO R) as [MM L]. split; [exact L|].
  apply (leaves_same m0); [intros a B; apply MM, vector_kept, B|exact RL].
Qed.
Print Assumptions C60_while_playing.
Theorem C60_reset : forall stream sched m m', loaded resident m -> reset_leaves m -> warm_reset m m' ->
  exists m'', run stream sched 2 m' = Some m'' /\ quits m'' /\ reset_restarts m''.
Proof. exact resets. Qed.
Print Assumptions C60_reset.

(** A started machine, and schedules: the server accepts, or never does. *)
Definition boot_ex : machine :=
  M 0x800 17 3 9 0xF0 true false true program_memory false false true 65
    (Chip 0x80 0x1234 (fun a => a mod 256) 0x17 99 5 7 (fun _ => 1)) 0 [] [].
Definition accept_ex (i : nat) : env := Env (if Nat.even i then 3 else 0) (if Nat.even i then None else Some 32) (if Nat.even i then Some 0x17 else None).
Definition refuse_ex (i : nat) : env := Env 0 None (if Nat.even i then Some 0 else None).
Lemma even_later i : exists j, (i <= j)%nat /\ Nat.even j = true.
Proof. exists (2 * i)%nat. split; [lia|]. rewrite Nat.even_mul. reflexivity. Qed.
Lemma odd_later i : exists j, (i <= j)%nat /\ Nat.even j = false.
Proof. exists (S (2 * i)). split; [lia|]. rewrite Nat.even_succ, Nat.odd_mul. reflexivity. Qed.
Example C57_case : started boot_ex /\ answers accept_ex /\ accepts accept_ex /\ answers refuse_ex /\ refuses refuse_ex.
Proof.
  split. { destruct (memory_loaded boot_ex eq_refl) as [L1 L2]. constructor; [reflexivity|exact L1|exact L2|reflexivity|cbn; lia]. }
  unfold answers, accepts, refuses, accept_ex, refuse_ex. cbn [e_status].
  repeat split; try (intros i v; destruct (Nat.even i); intros H; [injection H as <-; auto|discriminate]); try (intros i; destruct (Nat.even i); congruence);
    intros i; destruct (even_later i) as (j & L & E); exists j; rewrite E; split; congruence || exact L.
Qed.
Example C58_case : exists bytes rest, conversion config_47 (audio_ex 1000) (repeat dframe_ex 5) bytes rest /\
  started boot_ex /\ answers accept_ex /\ accepts accept_ex /\ delivers accept_ex /\ user accept_ex boot_ex /\ keeps_pressing accept_ex.
Proof.
  destruct C47_case as (bytes & rest & CV & _). destruct C57_case as (ST & A1 & A2 & _). exists bytes, rest.
  assert (KP : keeps_pressing accept_ex) by (intros i; destruct (odd_later i) as (j & L & E); exists j; unfold accept_ex; rewrite E; split; [exact L|discriminate]).
  split; [exact CV|]. split; [exact ST|]. split; [exact A1|]. split; [exact A2|]. split; [|split; [right; exact KP|exact KP]].
  intros i. destruct (even_later i) as (j & L & E). exists j. unfold accept_ex. rewrite E. split; [exact L|cbn; lia].
Qed.
(** After TERMINATE; a reset. *)
Definition vector_memory (b : bool) (a : Z) : Z := if a =? 0x3F2 then 0xAC else if a =? 0x3F3 then 0xBA else if a =? 0x3F4 then 0x1F else program_memory b a.
Definition end_ex : machine :=
  M 0xBA64 17 3 9 0xF0 true false true vector_memory true false true 65 (Chip 3 0x6000 (fun a => a mod 256) 0x17 99 5 7 (fun _ => 1)) 0 [] [].
Definition reset_ex : machine :=
  M 0xBAAC 0 0 0 0xFF true false true vector_memory false false false 0 (Chip 0 0 (fun _ => 0) 0 0 0 0 (fun _ => 0)) 0 [] [].
Example C59_case : loaded resident end_ex /\ terminated end_ex /\ e_key (accept_ex 1) <> None.
Proof.
  split; [|split; [apply terminate_address; reflexivity|discriminate]].
  apply (ldd_other program_memory); [|exact (proj1 (memory_loaded boot_ex eq_refl))]. intros a A. change (CpuModel.mem end_ex false a) with (vector_memory false a). unfold vector_memory.
  replace (a =? 0x3F2) with false by (symmetry; apply Z.eqb_neq; clear - A; lia). replace (a =? 0x3F3) with false by (symmetry; apply Z.eqb_neq; clear - A; lia).
  replace (a =? 0x3F4) with false by (symmetry; apply Z.eqb_neq; clear - A; lia). reflexivity.
Qed.
Example C60_case : reset_leaves end_ex /\ warm_reset end_ex reset_ex.
Proof.
  split.
  - split; [exact (proj2 (proj2 boot_labels))|reflexivity].
  - constructor; [reflexivity|reflexivity|intros; reflexivity|cbn; lia].
Qed.

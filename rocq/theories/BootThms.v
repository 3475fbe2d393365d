(** From the start of the program to its end. *)
From Verif Require Import Base BaseFacts BitmapModel VideoModel OpcodeModel MovieModel MovieSpec AsmModel PlayerCode CpuModel PlayerModel PlayerSpec PlayerExec RecvProofs RunProofs LayoutProofs StartupCode StartupProofs
  TickThms PlaybackSpec PlaybackProofs PlaybackThms PlaybackConv BootSpec BootExec BootProofs ExitProofs.
Opaque lowcode code hgr resident startup symbols code_map boot_map.

Lemma phase_memory bytes k rest sched m0 n ph m : playable bytes k rest -> at_phase bytes k rest sched m0 n ph m ->
  forall b a, ~ may_change a -> CpuModel.mem m b a = CpuModel.mem m0 b a.
Proof.
  intros PL A b a NM. pose proof (proj1 A) as R.
  destruct (writes_before _ _ _ _ _ _ _ _ _ _ R A (Nat.le_refl n)) as (new1 & new2 & LG & S1 & S2 & _).
  destruct (run_logged _ _ _ _ _ R) as (new & LN & MM). assert (new = new1 ++ new2) as -> by (rewrite LN in LG; apply app_inv_head in LG; exact LG).
  apply MM; [unfold on_screen; intros [H|H]; apply NM; unfold may_change; auto 10|].
  intros w I E. apply NM. rewrite <- E. apply in_app_or in I. destruct I as [I|I]; [apply start_may|apply allowed_may]; refine (proj1 (Forall_forall _ _) _ w I); assumption.
Qed.
Lemma vector_kept a : 0x3F2 <= a <= 0x3F4 -> ~ may_change a.
Proof.
  intros B. unfold may_change. intros [H|[H|[H|[H|[H|[H|[H|H]]]]]]]; try (clear - B H; lia).
  destruct H as [(j & e & I & H)|(j & e & I & H)]; apply PlayerExec.resident_bounds in I; clear - B I H; lia.
Qed.
Lemma leaves_same m m' : (forall a, 0x3F2 <= a <= 0x3F4 -> CpuModel.mem m' false a = CpuModel.mem m false a) -> reset_leaves m -> reset_leaves m'.
Proof. intros E [H1 H2]. unfold reset_leaves. rewrite !E by (clear; lia). split; assumption. Qed.

Lemma exit_address m : leaving m <-> pc m = 0xBAAC.
Proof.
  destruct boot_labels as (_ & _ & E). unfold leaving. split; intros H.
  - assert (X : forall x y : Z, Some x = Some y -> x = y) by congruence. exact (X _ _ (eq_trans (eq_sym H) E)).
  - rewrite H. exact E.
Qed.
Lemma terminate_address m : terminated m <-> pc m = 0xBA64.
Proof.
  pose proof (proj1 exit_labels) as E. unfold terminated. split; intros H.
  - assert (X : forall x y : Z, Some x = Some y -> x = y) by congruence. exact (X _ _ (eq_trans (eq_sym H) E)).
  - rewrite H. exact E.
Qed.
Lemma restarts x m : CpuModel.mem m false 0x3F4 = (x + 1) mod 256 -> x = Z.lxor (CpuModel.mem m false 0x3F3) 0xA5 -> reset_restarts m.
Proof. unfold reset_restarts. intros -> <-. dlia. Qed.

(** leaving, from the label [exit] *)
Lemma leave stream sched m : loaded resident m -> leaving m -> 0 <= rs m < 256 -> CpuModel.mem m false 0x3F4 = Z.lxor (CpuModel.mem m false 0x3F3) 0xA5 ->
  exists m', run stream sched 2 m = Some m' /\ quits m' /\ reset_restarts m'.
Proof.
  intros L P S0 V. apply exit_address in P. destruct (exit_quits stream sched m L P S0) as (m' & R & Q & E4 & E3).
  exists m'. split; [exact R|]. split; [exact Q|]. apply (restarts _ _ E4). rewrite E3. exact V.
Qed.
Lemma resets stream sched m m' : loaded resident m -> reset_leaves m -> warm_reset m m' ->
  exists m'', run stream sched 2 m' = Some m'' /\ quits m'' /\ reset_restarts m''.
Proof.
  intros L [R1 R2] [V P MM S0]. apply leave; [| |exact S0|].
  - apply (ldd_other (CpuModel.mem m)); [|exact L]. intros a A. apply MM. clear - A. lia.
  - unfold leaving. rewrite P. exact R1.
  - rewrite !MM by (clear; lia). exact V.
Qed.

Lemma first_key (sched : nat -> env) a : (exists j, (a <= j)%nat /\ e_key (sched j) <> None) ->
  exists j, (a <= j)%nat /\ e_key (sched j) <> None /\ forall i, (a <= i < j)%nat -> e_key (sched i) = None.
Proof.
  intros (j & L & K). revert L K. induction j as [j IH] using lt_wf_ind. intros L K.
  assert (D : (exists i, (a <= i < j)%nat /\ e_key (sched i) <> None) \/ forall i, (a <= i < j)%nat -> e_key (sched i) = None).
  { clear. induction j as [|j IH]; [right; intros i H; lia|]. destruct IH as [(i & H & K)|IH]; [left; exists i; split; [lia|exact K]|].
    destruct (e_key (sched j)) eqn:E.
    - destruct (le_lt_dec a j); [left; exists j; split; [lia|congruence]|right; intros i H; lia].
    - right. intros i H. destruct (Nat.eq_dec i j) as [->|]; [exact E|]. apply IH. lia. }
  destruct D as [(i & H & KI)|D]; [exact (IH i (proj2 H) (proj1 H) KI)|]. exists j. auto.
Qed.

Lemma terminated_leaves stream sched m j : loaded resident m -> terminated m -> (0 < j)%nat -> e_key (sched j) <> None -> (forall i, (0 < i < j)%nat -> e_key (sched i) = None) ->
  exists n m', (j < n <= j + 5)%nat /\ run stream sched n m = Some m' /\ leaving m' /\ quiet m m'.
Proof.
  intros L T J K F. apply terminate_address in T.
  destruct (idle_exit stream sched m j (conj L (or_introl T))) as (n & m' & LN & R & P & Q); [|exact K|left; exact J|].
  - intros i LI. destruct (Nat.eq_dec i 0) as [->|]; [right; auto|left; apply F; lia].
  - exists n, m'. split; [exact LN|]. split; [exact R|]. split; [apply exit_address, P|exact Q].
Qed.
Lemma terminated_waits stream sched m n : loaded resident m -> terminated m -> (forall i, (0 < i < n)%nat -> e_key (sched i) = None) ->
  exists m', run stream sched n m = Some m' /\ ~ leaving m' /\ quiet m m'.
Proof.
  intros L T F. apply terminate_address in T.
  destruct (idle_run stream n sched m (conj L (or_introl T))) as (m' & R & (_ & I) & Q & _).
  - intros i LI. destruct (Nat.eq_dec i 0) as [->|]; [right; auto|left; apply F; lia].
  - exists m'. split; [exact R|]. split; [|exact Q]. rewrite exit_address. clear - I. lia.
Qed.
Lemma quiet_loaded m m' : quiet m m' -> loaded resident m -> loaded resident m'.
Proof. intros (_ & _ & E & _) L. unfold loaded. rewrite E. exact L. Qed.

Lemma starts_run stream sched m n m' out k : does stream sched m n m' out k -> run stream sched n m = Some m' /\ taken m' = taken m /\ (kbd m < 128 -> (forall i, e_key (sched i) = None) -> kbd m' < 128).
Proof.
  intros (R & _ & _ & F). split; [exact R|]. split; [exact (f_taken _ _ F)|]. intros K N. apply (run_log _ _ _ _ _ R); [exact K|]. intros i _. apply N.
Qed.

(** the whole of it *)
Lemma plays_whole0 bytes k rest sched m0 : playable bytes k rest -> started m0 -> answers sched -> delivers sched -> user sched m0 ->
  ((exists n m, run bytes sched n m0 = Some m /\ gave_up m /\ attempts (states bytes sched n m0) = 6%nat) /\ exists i, e_status (sched i) = Some 0) \/
  (forall i, (i <= length rest)%nat -> exists n m, run bytes sched n m0 = Some m /\ at_opcode bytes rest i m0 m /\ shows k m (play (firstn i rest)) /\
     (k = DHGR -> sw80 m = true /\ swhires m = true) /\ loaded resident m /\ reset_leaves m /\ 0 <= rs m < 256 /\ (i = length rest -> terminated m)).
Proof.
  intros PL ST AN D U. destruct (starts bytes sched m0 ST AN) as (n0 & m1 & f & _ & _ & RL & [(DS & C & _ & _)|(_ & DS & G & RF)]).
  2: { left. split; [|exact RF]. exists n0, m1. destruct DS as (R & _ & AT & _). auto. }
  right. destruct (starts_run _ _ _ _ _ _ _ DS) as (R0 & TK & KB). set (s1 := fun i => sched (n0 + i)%nat).
  assert (D1 : delivers s1).
  { intros i. destruct (D (n0 + i)%nat) as (j & L & B). exists (j - n0)%nat. split; [lia|]. unfold s1. replace (n0 + (j - n0))%nat with j by lia. exact B. }
  assert (U1 : user s1 m1).
  { destruct U as [[U1 U2]|U]; [left|right].
    - split; [exact (KB U1 U2)|]. intros i. apply U2.
    - intros i. destruct (U (n0 + i)%nat) as (j & L & B). exists (j - n0)%nat. split; [lia|]. unfold s1. replace (n0 + (j - n0))%nat with j by lia. exact B. }
  intros i L. destruct (reach_at bytes k rest PL s1 m1 C D1 U1 i L) as (n & m & A).
  pose proof (phase_opcode _ _ _ _ _ _ _ _ PL A) as AO. pose proof (run_app _ _ _ _ _ _ _ R0 (proj1 A)) as R.
  exists (n0 + n)%nat, m. split; [exact R|].
  split. { unfold at_opcode in *. rewrite <- TK. exact AO. }
  pose proof (phase_memory _ _ _ _ _ _ _ _ PL A) as MM. pose proof A as A2. destruct A as (_ & _ & RD & _ & _ & passes & CM & _).
  split; [exact (common_shows _ _ _ _ _ _ _ _ _ _ PL CM)|]. split; [exact (cm_mode _ _ _ _ _ _ _ _ _ _ CM)|]. split; [exact (rdy_code _ _ _ _ RD)|].
  split; [apply (leaves_same m1); [intros a B; apply MM, vector_kept, B|exact RL]|].
  split; [exact (run_rs _ _ _ _ _ (st_stack _ ST) R)|]. intros ->. exact (final_pc _ _ _ _ _ _ _ A2).
Qed.

Lemma plays_whole bytes k rest sched m0 : playable bytes k rest -> started m0 -> answers sched -> delivers sched -> user sched m0 ->
  (exists n m, run bytes sched n m0 = Some m /\ gave_up m /\ attempts (states bytes sched n m0) = 6%nat) \/
  (forall i, (i <= length rest)%nat -> exists n m, run bytes sched n m0 = Some m /\ at_opcode bytes rest i m0 m /\ shows k m (play (firstn i rest)) /\
     (k = DHGR -> sw80 m = true /\ swhires m = true) /\ loaded resident m /\ reset_leaves m /\ 0 <= rs m < 256 /\ (i = length rest -> terminated m)).
Proof. intros PL ST AN D U. destruct (plays_whole0 _ _ _ _ _ PL ST AN D U) as [[G _]|H]; auto. Qed.
Lemma plays_accepted bytes k rest sched m0 : playable bytes k rest -> started m0 -> answers sched -> accepts sched -> delivers sched -> user sched m0 ->
  (forall i, (i <= length rest)%nat -> exists n m, run bytes sched n m0 = Some m /\ at_opcode bytes rest i m0 m /\ shows k m (play (firstn i rest)) /\
     (k = DHGR -> sw80 m = true /\ swhires m = true) /\ loaded resident m /\ reset_leaves m /\ 0 <= rs m < 256 /\ (i = length rest -> terminated m)).
Proof. intros PL ST AN AC D U. destruct (plays_whole0 _ _ _ _ _ PL ST AN D U) as [[_ (i & E)]|H]; [destruct (AC i E)|exact H]. Qed.

Lemma ends bytes sched n m0 m : run bytes sched n m0 = Some m -> terminated m -> loaded resident m -> reset_leaves m -> 0 <= rs m < 256 -> keeps_pressing sched ->
  exists n' m', (n < n')%nat /\ run bytes sched n' m0 = Some m' /\ quits m' /\ reset_restarts m'.
Proof.
  intros R T L [_ RL] S0 KP. destruct (first_key (fun i => sched (n + i)%nat) 1) as (j & J & K & F).
  { destruct (KP (n + 1)%nat) as (j & J & K). exists (j - n)%nat. split; [lia|]. replace (n + (j - n))%nat with j by lia. exact K. }
  destruct (terminated_leaves bytes (fun i => sched (n + i)%nat) m j L T J K F) as (n1 & m1 & LN & R1 & LV & Q).
  pose proof (run_app _ _ _ _ _ _ _ R R1) as R2. destruct Q as (Q1 & Q2 & QM & Q3 & QS).
  destruct (leave bytes (fun i => sched (n + n1 + i)%nat) m1) as (m2 & R3 & QT & RR).
  - apply (quiet_loaded m); [repeat split; try assumption; apply Q3|exact L].
  - exact LV.
  - rewrite QS. exact S0.
  - rewrite QM. exact RL.
  - exists (n + n1 + 2)%nat, m2. split; [lia|]. split; [exact (run_app _ _ _ _ _ _ _ R2 R3)|]. auto.
Qed.

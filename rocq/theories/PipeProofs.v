(** From the start of the program to a connected player, for any schedule. *)
From Verif Require Import Base BaseFacts ScreenModel ScreenSpec BitmapModel BitmapSpec VideoModel VideoSpec OpcodeModel MovieModel MovieSpec SymbolModel AddrThms
  ClockModel AsmModel PlayerCode CpuModel PlayerModel PlayerSpec TickThms RunProofs PlaybackSpec PlaybackThms BootSpec BootProofs ExitProofs BootThms SmoothSpec AudioStreamSpec PropMovie.
From Verif Require SmoothProofs.
Opaque lowcode code hgr resident startup symbols op_cmds TABLES.

(** from instruction [n0] on *)
Definition later (n0 : nat) (sched : nat -> env) : nat -> env := fun i => sched (n0 + i)%nat.
Lemma connects bytes sched m0 : started m0 -> answers sched -> accepts sched -> exists n0 m1, run bytes sched n0 m0 = Some m1 /\ connected bytes m1 /\ taken m1 = taken m0 /\
  (kbd m0 < 128 -> (forall i, e_key (sched i) = None) -> kbd m1 < 128).
Proof.
  intros ST AN AC. destruct (starts bytes sched m0 ST AN) as (n0 & m1 & f & _ & _ & RL & [(DS & C & _ & _)|(_ & DS & G & (i & E))]).
  - destruct (starts_run _ _ _ _ _ _ _ DS) as (R0 & TK & KB). exists n0, m1. auto.
  - destruct (AC i E).
Qed.
Lemma later_delivers n0 sched : delivers sched -> delivers (later n0 sched).
Proof. intros D i. destruct (D (n0 + i)%nat) as (j & L & B). exists (j - n0)%nat. split; [lia|]. unfold later. replace (n0 + (j - n0))%nat with j by lia. exact B. Qed.
Lemma later_user n0 sched m0 m1 : (kbd m0 < 128 -> (forall i, e_key (sched i) = None) -> kbd m1 < 128) -> user sched m0 -> user (later n0 sched) m1.
Proof.
  intros KB [[U1 U2]|U]; [left|right].
  - split; [exact (KB U1 U2)|]. intros i. apply U2.
  - intros i. destruct (U (n0 + i)%nat) as (j & L & B). exists (j - n0)%nat. split; [lia|]. unfold later. replace (n0 + (j - n0))%nat with j by lia. exact B.
Qed.
Lemma later_never n0 sched m0 m1 : (kbd m0 < 128 -> (forall i, e_key (sched i) = None) -> kbd m1 < 128) -> never_pressed sched m0 -> never_pressed (later n0 sched) m1.
Proof. intros KB [U1 U2]. split; [exact (KB U1 U2)|]. intros i. apply U2. Qed.
Lemma later_bandwidth bytes sched m0 n0 m1 B T : run bytes sched n0 m0 = Some m1 -> bandwidth bytes sched m0 B T -> bandwidth bytes (later n0 sched) m1 B T.
Proof.
  intros R H a b ma mb L RA RB C. specialize (H (n0 + a)%nat (n0 + b)%nat ma mb ltac:(lia) (run_app _ _ _ _ _ _ _ R RA) (run_app _ _ _ _ _ _ _ R RB) C).
  replace (n0 + b - (n0 + a))%nat with (b - a)%nat in H by lia.
  replace (offered (fun i => later n0 sched (a + i)%nat) (b - a)) with (offered (fun i => sched (n0 + a + i)%nat) (b - a)); [exact H|].
  apply SmoothProofs.offered_ext. intros i. unfold later. f_equal. lia.
Qed.

(** ** Which frame is due *)
(** With ticks_per_frame = m/2^s, the double nearest to bitrate / rate, the frame
    due after [n] ticks is that of the time n / bitrate, but for the relative
    error 2^-52 of a double. *)
Lemma frame_of_time c bitrate rate m s n : c_clock c = float_clock m s -> 0 < c_every_n c ->
  0 < rate -> 0 < bitrate -> 0 <= s -> 2 * 2 ^ s <= m -> (0 < n)%nat -> Z.of_nat n <= 2 ^ 52 ->
  2 ^ 53 * Z.abs (m * rate - bitrate * 2 ^ s) <= bitrate * 2 ^ s ->
  let x := c_every_n c * ((due (c_clock c) n - 1) / c_every_n c) in
  x * bitrate * (2 ^ 52 - 1) <= Z.of_nat n * rate * 2 ^ 52 /\ Z.of_nat n * rate * (2 ^ 52 - 1) < (x + c_every_n c) * bitrate * 2 ^ 52.
Proof.
  intros C E R B S M N N2 D x. destruct (C36_float_clock bitrate rate m s n R B S M N N2 D) as [H1 H2]. unfold x. rewrite C. clear x.
  set (d := due (float_clock m s) n) in *. clearbody d. set (e := c_every_n c) in *. clearbody e.
  pose proof (Z.div_mod (d - 1) e ltac:(lia)) as DM. pose proof (Z.mod_pos_bound (d - 1) e E) as MB. set (q := (d - 1) / e) in *. set (r := (d - 1) mod e) in *. clearbody q r.
  change (2 ^ 52) with 4503599627370496 in *. clear - E B H1 H2 DM MB. split.
  - apply Z.le_trans with ((d - 1) * bitrate * (4503599627370496 - 1)); [|exact H1]. apply Z.mul_le_mono_nonneg_r; [lia|]. apply Z.mul_le_mono_nonneg_r; lia.
  - apply Z.lt_le_trans with (d * bitrate * 4503599627370496); [exact H2|]. apply Z.mul_le_mono_nonneg_r; [lia|]. apply Z.mul_le_mono_nonneg_r; lia.
Qed.

(** ** Sound values are small *)
Lemma sum_bound f n b : (forall i, Z.abs (f i) <= b) -> Z.abs (sum_to f n) <= Z.of_nat n * b.
Proof. intros H. induction n as [|n IH]; [cbn; lia|]. cbn [sum_to]. specialize (H (Z.of_nat n)). lia. Qed.
Lemma mix_bound ch bytes i : 0 < ch -> Z.abs (mix ch bytes i) <= ch * 32768.
Proof.
  intros C. unfold mix. rewrite <- (Z2Nat.id ch) at 2 by lia. apply sum_bound. intros c. unfold pcm.
  pose proof (Z.mod_pos_bound (nth (Z.to_nat (2 * (i * ch + c))) bytes 0 + 256 * nth (Z.to_nat (2 * (i * ch + c) + 1)) bytes 0 + 32768) 65536 ltac:(lia)). lia.
Qed.
Lemma value_small ch p q bufs j : 0 < ch -> 0 < q -> Z.abs p < 2 ^ 57 -> Z.abs (Z.quot (mix ch (concat bufs) j * p) (1024 * ch * q)) < 2 ^ 63.
Proof.
  intros C Q P. pose proof (mix_bound ch (concat bufs) j C) as M. set (x := mix _ _ _) in *. clearbody x. rewrite <- Z.quot_abs by lia. rewrite Z.abs_mul, (Z.abs_eq (1024 * ch * q)) by nia.
  change (2 ^ 63) with (32 * 2 ^ 58). change (2 ^ 58) with (2 * 2 ^ 57). set (B := 2 ^ 57) in *. clearbody B. rewrite Z.quot_div_nonneg by nia.
  apply Z.div_lt_upper_bound; [nia|]. set (y := Z.abs x) in *. set (r := Z.abs p) in *. assert (0 <= y) by (unfold y; lia). assert (0 <= r) by (unfold r; lia). clearbody y r.
  apply Z.le_lt_trans with (ch * 32768 * r); [apply Z.mul_le_mono_nonneg_r; lia|]. apply Z.lt_le_trans with (ch * 32768 * B); [apply Z.mul_lt_mono_pos_l; lia|].
  replace (1024 * ch * q * (32 * (2 * B))) with (ch * 65536 * B * q) by ring. apply Z.le_trans with (ch * 65536 * B * 1); [|apply Z.mul_le_mono_nonneg_l; [|lia]]; nia.
Qed.

Lemma float_clock_0 m s t : 0 <= s -> 0 < t -> float_clock m s t 0 = true.
Proof. intros S T. unfold float_clock. change (round53 (round53 0 * m)) with 0. apply Z.leb_le. pose proof (Z.pow_pos_nonneg 2 s ltac:(lia) S). nia. Qed.
Lemma frame_nonneg e q bitrate rate n : 1 <= e -> 0 < rate -> 0 < bitrate -> 0 < n -> n * rate * (2 ^ 52 - 1) < (e * q + e) * bitrate * 2 ^ 52 -> 0 <= e * q.
Proof.
  intros E R B N H. change (2 ^ 52) with 4503599627370496 in H. apply Z.mul_nonneg_nonneg; [lia|]. destruct (Z_lt_le_dec q 0) as [Q|Q]; [|exact Q]. exfalso.
  assert (A : 0 < n * rate) by (apply Z.mul_pos_pos; lia). assert (X : e * q + e <= 0) by nia. assert (Y : (e * q + e) * bitrate <= 0) by (apply Z.mul_nonpos_nonneg; lia). lia.
Qed.

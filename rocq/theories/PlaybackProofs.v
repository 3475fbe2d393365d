(** Playing a whole stream: the states the player passes through. *)
From Verif Require Import Base BaseFacts ScreenModel ScreenSpec BitmapModel BitmapSpec VideoModel VideoSpec OpcodeModel MovieModel MovieSpec SymbolModel AddrThms
  AsmModel PlayerCode CpuModel PlayerModel PlayerSpec PlayerExec ChipProofs TickExec RecvCode EffectProofs TickThms RunProofs RecvProofs LayoutProofs PlaybackSpec StartupCode StartupProofs PlaybackRead.
Opaque lowcode code hgr resident startup symbols code_map op_cmds TABLES.

(** ** Times and toggles *)
Definition timed (op : opcode) : Prop := is_tick op = true \/ takes_pass op = true.
Definition count_passes (ops : list opcode) : nat := length (filter takes_pass ops).
Lemma time_app b q : forall a t p, Forall timed a -> length p = count_passes a -> time_of t (a ++ b) (p ++ q) = time_of (time_of t a p) b q.
Proof.
  induction a as [|op a IH]; intros t p F L; [destruct p; [reflexivity|discriminate]|]. inversion F as [|? ? T F']; subst. unfold count_passes in L. cbn [filter] in L.
  destruct op as [m| | |x|d pg c o]; destruct T as [T|T]; try discriminate; cbn [takes_pass app time_of] in *; try (apply IH; assumption);
    (destruct p as [|[cl d] p]; [discriminate|]; cbn [length app] in *; apply IH; [assumption|unfold count_passes; lia]).
Qed.
Lemma clicks_app' b q : forall a t p, Forall timed a -> length p = count_passes a -> clicks_of t (a ++ b) (p ++ q) = clicks_of t a p ++ clicks_of (time_of t a p) b q.
Proof.
  induction a as [|op a IH]; intros t p F L; [destruct p; [reflexivity|discriminate]|]. inversion F as [|? ? T F']; subst. unfold count_passes in L. cbn [filter] in L.
  destruct op as [m| | |x|d pg c o]; destruct T as [T|T]; try discriminate; cbn [takes_pass app time_of clicks_of] in *;
    try (rewrite IH by assumption; reflexivity);
    (destruct p as [|[cl d] p]; [discriminate|]; cbn [length app] in *; rewrite IH by (assumption || (unfold count_passes; lia)); rewrite <- ?app_assoc; reflexivity).
Qed.
Lemma count_app a b : count_passes (a ++ b) = (count_passes a + count_passes b)%nat.
Proof. unfold count_passes. rewrite filter_app, app_length. reflexivity. Qed.
Lemma map_add_add t d cl : map (Z.add t) (map (Z.add d) cl) = map (Z.add (t + d)) cl.
Proof. rewrite map_map. apply map_ext. intros x. lia. Qed.
(** a longer last pass *)
Lemma last_pass ops op p cl d cl2 d2 : Forall timed ops -> length p = count_passes ops -> takes_pass op = true ->
  time_of 0 (ops ++ [op]) (p ++ [(cl ++ map (Z.add d) cl2, d + d2)]) = time_of 0 (ops ++ [op]) (p ++ [(cl, d)]) + d2 /\
  clicks_of 0 (ops ++ [op]) (p ++ [(cl ++ map (Z.add d) cl2, d + d2)]) =
  clicks_of 0 (ops ++ [op]) (p ++ [(cl, d)]) ++ map (Z.add (time_of 0 (ops ++ [op]) (p ++ [(cl, d)]))) cl2.
Proof.
  intros F L T. rewrite !time_app, !clicks_app' by assumption. set (t := time_of 0 ops p). clearbody t.
  destruct op as [m| | |x|? ? ? ?]; try discriminate; cbn [time_of clicks_of]; (split; [lia|]); rewrite !app_nil_r, map_app, map_add_add, <- !app_assoc; reflexivity.
Qed.

(** ** Bytes taken *)
Lemma first_more stream c : 0 <= c -> c + 1 <= Z.of_nat (length stream) -> first_bytes stream (c + 1) = first_bytes stream c ++ [sb stream c].
Proof.
  intros C L. unfold first_bytes, sb. replace (Z.to_nat (c + 1)) with (S (Z.to_nat c)) by lia. apply firstn_snoc. apply nth_error_nth'. lia.
Qed.
Lemma first_plus stream c k : 0 <= c -> c + Z.of_nat k <= Z.of_nat (length stream) ->
  first_bytes stream (c + Z.of_nat k) = first_bytes stream c ++ map (fun j => sb stream (c + Z.of_nat j)) (seq 0 k).
Proof.
  intros C. induction k as [|k IH]; intros L; [rewrite Z.add_0_r, app_nil_r; reflexivity|].
  replace (c + Z.of_nat (S k)) with (c + Z.of_nat k + 1) by lia. rewrite first_more, IH by lia. rewrite seq_S, map_app, app_assoc. reflexivity.
Qed.

Section Playback.
Variables (bytes : list Z) (k : kind) (rest : list opcode).
Hypothesis PL : playable bytes k rest.
Variables (sched : nat -> env) (m0 : machine).
Hypothesis C0 : connected bytes m0.
Local Notation pos := (pos rest).
Local Notation acked_at := (acked_at rest).
Local Notation len := (Z.of_nat (length bytes)).
(** the header and the first [i] opcodes after it *)
Definition done (i : nat) : list opcode := Header k :: firstn i rest.
Lemma timed_done i : Forall timed (done i).
Proof.
  constructor; [right; reflexivity|]. apply Forall_forall. intros op H. assert (I : In op rest) by (rewrite <- (firstn_skipn i rest); apply in_or_app; left; exact H).
  pose proof (proj1 (Forall_forall _ _) (pl_ops _ _ _ PL) _ I) as [T|T]; [left; exact T|right; destruct op; try discriminate; reflexivity].
Qed.
Lemma done_snoc i op : nth_error rest i = Some op -> done (S i) = done i ++ [op].
Proof. intros H. unfold done. rewrite (firstn_snoc _ _ _ H). reflexivity. Qed.

Record common (n i : nat) (passes : list pass) (c : Z) (m : machine) : Prop := {
  cm_start : exists n0 ms, (n0 <= n)%nat /\ run bytes sched n0 m0 = Some ms /\ begun bytes k m0 ms /\
    exists got, effect ms m (time_of 0 (done i) passes) (clicks_of 0 (done i) passes) (stores_of false (firstn i rest)) (switches_of (firstn i rest)) got;
  cm_passes : length passes = count_passes (done i);
  cm_taken : taken m = taken m0 ++ first_bytes bytes c;
  cm_bank : swpage2 m = d_bank (play (firstn i rest));
  cm_mode : k = DHGR -> sw80 m = true /\ swhires m = true;
  cm_wr : c <= wr (net m)
}.
Lemma common_more n n' i passes c m m' passes' i' t ck st sw got c' : (n <= n')%nat ->
  common n i passes c m -> effect m m' t ck st sw got -> length passes' = count_passes (done i') ->
  time_of 0 (done i') passes' = time_of 0 (done i) passes + t ->
  clicks_of 0 (done i') passes' = clicks_of 0 (done i) passes ++ map (Z.add (time_of 0 (done i) passes)) ck ->
  stores_of false (firstn i' rest) = stores_of false (firstn i rest) ++ st ->
  switches_of (firstn i' rest) = switches_of (firstn i rest) ++ sw ->
  first_bytes bytes c' = first_bytes bytes c ++ got ->
  swpage2 m' = d_bank (play (firstn i' rest)) -> sw80 m' = sw80 m -> swhires m' = swhires m -> c' <= wr (net m') ->
  common n' i' passes' c' m'.
Proof.
  intros LN [(n0 & ms & L0 & R & B & g & E) C2 C3 C4 C5 C6] E2 H1 H2 H3 H4 H5 H6 H7 H8 H9 H10. constructor; auto.
  - exists n0, ms. split; [exact (Nat.le_trans _ _ _ L0 LN)|]. split; [exact R|]. split; [exact B|]. exists (g ++ got). rewrite H2, H3, H4, H5. exact (effect_trans _ _ _ _ _ _ _ _ _ _ _ _ _ E E2).
  - rewrite (ef_taken _ _ _ _ _ _ _ E2), C3, H6, app_assoc. reflexivity.
  - intros D. rewrite H8, H9. apply C5, D.
Qed.

Inductive phase := Start | Wait (i : nat) | Pause (i : nat) | At (i : nat).
Definition waits (i : nat) : Prop := exists op ops, done i = ops ++ [op] /\ Forall timed ops /\ takes_pass op = true.
Definition polls (w : nat) : pass := (map (fun j => 25 * Z.of_nat j + 4) (seq 0 w), 25 * Z.of_nat w).
Definition at_phase (n : nat) (ph : phase) (m : machine) : Prop :=
  run bytes sched n m0 = Some m /\
  match ph with
  | Start => connected bytes m /\ (exists new, log m = log m0 ++ new /\ clicks new = [] /\ stores new = [] /\ Forall start_write new) /\ taken m = taken m0
  | Wait i => (i <= length rest)%nat /\ waits i /\ waiting bytes (acked_at i) (pos i) m /\
      exists passes p, common n i (passes ++ [p]) (pos i) m /\ (never_pressed sched m0 -> Forall undisturbed passes /\ exists w, p = polls w)
  | Pause i => (i <= length rest)%nat /\ waits i /\ paused bytes (acked_at i) (pos i) m /\ ~ never_pressed sched m0 /\
      exists passes p, common n i (passes ++ [p]) (pos i) m
  | At i => (i <= length rest)%nat /\ ready bytes (acked_at i) (pos i + 2) m /\ pc m = player_start (nth_command rest i) /\ acked_at i + 2048 <= wr (net m) /\
      exists passes, common n i passes (pos i + 2) m /\ (never_pressed sched m0 -> Forall undisturbed passes)
  end.
Definition sched_from (n : nat) : nat -> env := fun i => sched (n + i)%nat.
(** what is known when the phase stays the same *)
Definition stays (n n' : nat) (ph : phase) (m m' : machine) : Prop :=
  match ph with
  | Start | Wait _ =>
      wr (net m) <= wr (net m') /\ wr (net m) < (match ph with Wait i => acked_at i + 2048 | _ => 256 end) /\
      (forall j, (n <= j < n')%nat -> (0 < e_bytes (sched j))%nat -> wr (net m) < len -> wr (net m) < wr (net m'))
  | Pause _ => n' = (n + 2)%nat /\ kbd m < 128 /\ e_key (sched n) = None /\ (e_key (sched (n + 1)%nat) <> None -> 128 <= kbd m')
  | At _ => False
  end.

Lemma addr_pc i : (i <= length rest)%nat -> 256 * sb bytes (pos i) + sb bytes (pos i + 1) = player_start (nth_command rest i).
Proof. intros L. destruct (read_at _ _ _ PL i L) as (W & _). apply which_some in W. symmetry. apply W. Qed.

Lemma waits_0 : waits 0.
Proof. exists (Header k), []. split; [reflexivity|]. split; [constructor|reflexivity]. Qed.
Lemma waits_count i op ops (passes : list pass) p : done i = ops ++ [op] -> takes_pass op = true -> length (passes ++ [p]) = count_passes (done i) -> length passes = count_passes ops.
Proof. intros E T H. rewrite E, count_app, app_length in H. unfold count_passes in H at 2. cbn [filter] in H. rewrite T in H. cbn [length] in H. lia. Qed.

(** extending the last pass *)
Lemma common_pass n n' i passes cl d c m m' cl2 d2 got c' : (n <= n')%nat -> waits i ->
  common n i (passes ++ [(cl, d)]) c m -> effect m m' d2 cl2 [] [] got -> same_switches m m' -> first_bytes bytes c' = first_bytes bytes c ++ got -> c' <= wr (net m') ->
  common n' i (passes ++ [(cl ++ map (Z.add d) cl2, d + d2)]) c' m'.
Proof.
  intros LN (op & ops & E & F & T) C EF (S1 & S2 & S3) FB W. pose proof (cm_passes _ _ _ _ _ C) as CP.
  destruct (last_pass ops op passes cl d cl2 d2 F (waits_count _ _ _ _ _ E T CP) T) as [A B].
  eapply (common_more n n' i _ c m m' _ i d2 cl2 [] [] got c' LN C EF); try (rewrite app_nil_r; reflexivity); auto.
  - rewrite app_length in *. exact CP.
  - rewrite E. exact A.
  - rewrite E. exact B.
  - rewrite S2. apply (cm_bank _ _ _ _ _ C).
Qed.

Lemma kbd_quiet n m : run bytes sched n m0 = Some m -> never_pressed sched m0 -> kbd m < 128.
Proof. intros R [K N]. apply (proj2 (proj2 (run_log _ _ _ _ _ R))); [exact K|intros i _; apply N]. Qed.

Lemma resume_common n n' i passes cl d m m' t ck : (n <= n')%nat -> (i <= length rest)%nat -> waits i -> common n i (passes ++ [(cl, d)]) (pos i) m -> resumed bytes (acked_at i) (pos i) t ck m m' ->
  ready bytes (acked_at i) (pos i + 2) m' /\ pc m' = player_start (nth_command rest i) /\ acked_at i + 2048 <= wr (net m') /\
  common n' i (passes ++ [(cl ++ map (Z.add d) ck, d + t)]) (pos i + 2) m'.
Proof.
  intros LN L WT C (R & P & E & S & W). split; [exact R|]. split; [rewrite P; apply addr_pc, L|]. split; [exact W|].
  pose proof (address_frame _ _ _ PL i L) as AF. destruct (read_at _ _ _ PL i L) as (_ & LB & _). pose proof (pos_ge rest i) as PG.
  apply (common_pass n n' i passes cl d (pos i) m m' ck t [sb bytes (pos i); sb bytes (pos i + 1)] (pos i + 2) LN WT C E S); [|lia].
  replace (pos i + 2) with (pos i + 1 + 1) by lia. rewrite !first_more by lia. rewrite <- app_assoc. reflexivity.
Qed.
Lemma polls_last w : (fst (polls w) ++ map (Z.add (snd (polls w))) [4], snd (polls w) + 25) = polls (S w).
Proof. unfold polls. cbn [fst snd]. rewrite seq_S, map_app. cbn [map Nat.add]. f_equal. lia. Qed.
Lemma polls_done w : undisturbed (fst (polls w) ++ map (Z.add (snd (polls w))) [4; 38], snd (polls w) + 73).
Proof. exists w. unfold polls, poll_clicks. cbn [fst snd map]. reflexivity. Qed.

(** a key pressed between [n] and [n'], or pending before, is pending *)
Definition pends (n n' : nat) (m m' : machine) : Prop := pend (sched_from n) (n' - n) (kbd m) (kbd m').
Lemma pends_run n n1 m m' : pend (sched_from n) n1 (kbd m) (kbd m') -> pends n (n + n1) m m'.
Proof. unfold pends. replace (n + n1 - n)%nat with n1 by lia. auto. Qed.
Lemma advance_start_keys n m : at_phase n Start m -> exists n' ph' m', (n < n')%nat /\ at_phase n' ph' m' /\ (ph' = Wait 0 \/ (ph' = Start /\ stays n n' Start m m')) /\ pends n n' m m'.
Proof.
  intros (R & C & (new & LG & CK & ST & SW) & TK).
  destruct (wait_header bytes (sched_from n) m C) as (n1 & m1 & R1 & N1 & O). pose proof (run_app _ _ _ _ _ _ _ R R1) as RA.
  destruct O as [(C1 & W1 & W2 & W3 & (new1 & LG1 & CK1 & ST1 & SW1) & TK1 & PD1)|(P & LR & LS & H & HI & RX & P2 & RS & W & WL & (new1 & LG1 & CK1 & ST1 & SW1) & TK1 & PD1)].
  - exists (n + n1)%nat, Start, m1. split; [lia|]. split; [split; [exact RA|]; split; [exact C1|]; split; [|congruence]|split; [right; split; [reflexivity|]|exact (pends_run _ _ _ _ PD1)]].
    + exists (new ++ new1). rewrite LG1, LG, app_assoc, clicks_app, stores_app, CK, CK1, ST, ST1. split; [reflexivity|]. split; [reflexivity|]. split; [reflexivity|]. apply Forall_app. auto.
    + split; [exact W2|]. split; [exact W1|]. intros j J B L. apply (W3 (j - n)%nat); [lia| |exact L]. unfold sched_from. replace (n + (j - n))%nat with j by lia. exact B.
  - destruct (header_runs bytes (sched_from (n + n1)) m1 k P LR LS H HI RX P2 RS W (mode_byte _ _ _ PL)) as (n2 & m2 & R2 & N2 & B & PD2).
    pose proof (run_app _ _ _ _ _ _ _ RA R2) as RB.
    assert (B0 : begun bytes k m0 m2).
    { destruct B as (B1 & B2 & B3 & B4 & (new2 & LG2 & CK2 & ST2 & SW2) & B6 & B7). split; [exact B1|]. split; [exact B2|]. split; [exact B3|]. split; [exact B4|]. split; [|split].
      - exists (new ++ new1 ++ new2). rewrite LG2, LG1, LG, !app_assoc, !clicks_app, !stores_app, CK, CK1, CK2, ST, ST1, ST2. split; [reflexivity|]. split; [reflexivity|]. split; [reflexivity|].
        apply Forall_app. split; [apply Forall_app; auto|exact SW2].
      - rewrite B6, TK1, TK. reflexivity.
      - exact B7. }
    exists (n + n1 + n2)%nat, (Wait 0), m2. split; [lia|]. split; [|split; [left; auto|rewrite <- Nat.add_assoc; apply pends_run; refine (pend_trans _ _ _ _ _ _ PD1 _); intros X; apply PD2; unfold sched_from in *; destruct X as [X|(i & LI & X)]; [left; exact X|right; exists i; split; [exact LI|rewrite <- Nat.add_assoc; exact X]]]]. split; [exact RB|]. split; [lia|]. split; [exact waits_0|].
    pose proof B0 as (B1 & B2 & B3 & B4 & B5 & B6 & B7). split; [exact B1|]. exists [], ([], 0). split.
    + constructor.
      * exists (n + n1 + n2)%nat, m2. split; [lia|]. split; [exact RB|]. split; [exact B0|]. exists []. exact (effect_refl m2).
      * reflexivity.
      * exact B6.
      * exact B2.
      * exact B3.
      * cbn. lia.
    + intros _. split; [constructor|]. exists O. reflexivity.
Qed.

Lemma advance_start n m : at_phase n Start m -> exists n' ph' m', (n < n')%nat /\ at_phase n' ph' m' /\ (ph' = Wait 0 \/ (ph' = Start /\ stays n n' Start m m')).
Proof. intros A. destruct (advance_start_keys n m A) as (n' & ph' & m' & H1 & H2 & H3 & _). exists n', ph', m'. auto. Qed.

(** all that is offered arrives *)
Definition fills (n n' i : nat) (m m' : machine) : Prop := Z.min (wr (net m) + offered (sched_from n) (n' - n)) (Z.min len (acked_at i + 8192)) <= wr (net m').
Lemma advance_wait_full n i m : at_phase n (Wait i) m -> exists n' ph' m', (n < n')%nat /\ at_phase n' ph' m' /\
  ((ph' = Pause i /\ kbd m' < 128 /\ ~ (kbd m < 128 /\ no_keys (sched_from n) (n' - n))) \/ (ph' = At i /\ (exists got, effect m m' 73 [4; 38] [] [] got) /\ kbd m < 128 /\ pends n n' m m') \/
   (ph' = Wait i /\ stays n n' (Wait i) m m' /\ pends n n' m m' /\ effect m m' 25 [4] [] [] [] /\ fills n n' i m m')).
Proof.
  intros (R & L & WT & W & passes & [cl d] & C & QT).
  destruct (wait_runs bytes (sched_from n) m _ _ W) as (n1 & m1 & R1 & N1 & O). pose proof (run_app _ _ _ _ _ _ _ R R1) as RA.
  destruct O as [(W1 & E1 & S1 & K1 & K2 & K3 & PD & AR)|[(P1 & (t & E1) & S1 & K1 & KL)|(RS & KL & PD)]].
  - exists (n + n1)%nat, (Wait i), m1. split; [lia|]. split; [|right; right; split; [reflexivity|]; split; [|split; [exact (pends_run _ _ _ _ PD)|split; [exact E1|unfold fills; replace (n + n1 - n)%nat with n1 by lia; exact AR]]]].
    + split; [exact RA|]. split; [exact L|]. split; [exact WT|]. split; [exact W1|]. exists passes, (cl ++ map (Z.add d) [4], d + 25). split.
      * apply (common_pass n (n + n1) i passes cl d (pos i) m m1 [4] 25 [] (pos i) ltac:(lia) WT C E1 S1); [rewrite app_nil_r; reflexivity|]. pose proof (cm_wr _ _ _ _ _ C). lia.
      * intros NP. destruct (QT NP) as (Q1 & w & Q2). split; [exact Q1|]. exists (S w). rewrite <- polls_last, <- Q2. reflexivity.
    + split; [exact K2|]. split; [exact K1|]. intros j J B LB. apply (K3 (j - n)%nat); [lia| |exact LB]. unfold sched_from. replace (n + (j - n))%nat with j by lia. exact B.
  - exists (n + n1)%nat, (Pause i), m1. split; [lia|]. split; [|left; split; [reflexivity|split; [exact KL|replace (n + n1 - n)%nat with n1 by lia; exact K1]]]. split; [exact RA|]. split; [exact L|]. split; [exact WT|]. split; [exact P1|]. split.
    + intros NP. apply K1. split; [exact (kbd_quiet _ _ R NP)|]. intros j _. apply NP.
    + exists passes, (cl ++ map (Z.add d) [4], d + t). apply (common_pass n (n + n1) i passes cl d (pos i) m m1 [4] t [] (pos i) ltac:(lia) WT C E1 S1); [rewrite app_nil_r; reflexivity|].
      pose proof (pz_wr _ _ _ _ P1). pose proof (in_frame rest i). lia.
  - destruct (resume_common n (n + n1) i passes cl d m m1 73 [4; 38] ltac:(lia) L WT C RS) as (A1 & A2 & A3 & A4).
    exists (n + n1)%nat, (At i), m1. split; [lia|]. split; [|right; left; split; [reflexivity|]; split; [destruct RS as (_ & _ & RE & _); eauto|split; [exact KL|exact (pends_run _ _ _ _ PD)]]]. split; [exact RA|]. split; [exact L|]. split; [exact A1|]. split; [exact A2|]. split; [exact A3|].
    eexists. split; [exact A4|]. intros NP. destruct (QT NP) as (Q1 & w & Q2). apply Forall_app. split; [exact Q1|]. constructor; [|constructor].
    injection Q2 as -> ->. exact (polls_done w).
Qed.

Lemma advance_wait_keys n i m : at_phase n (Wait i) m -> exists n' ph' m', (n < n')%nat /\ at_phase n' ph' m' /\
  ((ph' = Pause i /\ kbd m' < 128 /\ ~ (kbd m < 128 /\ no_keys (sched_from n) (n' - n))) \/ (ph' = At i /\ (exists got, effect m m' 73 [4; 38] [] [] got) /\ kbd m < 128 /\ pends n n' m m') \/ (ph' = Wait i /\ stays n n' (Wait i) m m' /\ pends n n' m m')).
Proof. intros A. destruct (advance_wait_full n i m A) as (n' & ph' & m' & H1 & H2 & [H|[H|(H3 & H4 & H5 & _)]]); exists n', ph', m'; auto 7. Qed.

Lemma advance_wait n i m : at_phase n (Wait i) m -> exists n' ph' m', (n < n')%nat /\ at_phase n' ph' m' /\ ((ph' = Pause i \/ (ph' = At i /\ exists got, effect m m' 73 [4; 38] [] [] got)) \/ (ph' = Wait i /\ stays n n' (Wait i) m m')).
Proof. intros A. destruct (advance_wait_keys n i m A) as (n' & ph' & m' & H1 & H2 & [(E & _)|[(E & H & _)|(E & H & _)]]); exists n', ph', m'; auto 6. Qed.

Lemma advance_pause_keys n i m : at_phase n (Pause i) m -> exists n' ph' m', (n < n')%nat /\ at_phase n' ph' m' /\
  ((ph' = At i /\ (exists got, effect m m' 49 [14] [] [] got) /\ (128 <= kbd m \/ e_key (sched n) <> None) /\ (no_keys (sched_from (S n)) (n' - S n) -> kbd m' < 128)) \/
   (ph' = Pause i /\ stays n n' (Pause i) m m' /\ CpuModel.mem m' = CpuModel.mem m /\ log m' = log m /\ taken m' = taken m /\ (e_key (sched (n + 1)%nat) = None -> kbd m' < 128))).
Proof.
  intros (R & L & WT & P & NN & passes & [cl d] & C).
  destruct (pause_runs bytes (sched_from n) m _ _ P) as (n1 & m1 & R1 & N1 & O). pose proof (run_app _ _ _ _ _ _ _ R R1) as RA.
  destruct O as [(-> & P1 & E1 & S1 & K1 & K2 & K3 & F1 & F2 & F3 & F4)|(RS & K1 & K2)].
  - exists (n + 2)%nat, (Pause i), m1. split; [lia|]. split; [|right; split; [reflexivity|]; split; [|split; [exact F1|split; [exact F2|split; [exact F3|exact F4]]]]].
    + split; [exact RA|]. split; [exact L|]. split; [exact WT|]. split; [exact P1|]. split; [exact NN|]. exists passes, (cl ++ map (Z.add d) [], d + 7).
      apply (common_pass n (n + 2) i passes cl d (pos i) m m1 [] 7 [] (pos i) ltac:(lia) WT C E1 S1); [rewrite app_nil_r; reflexivity|]. pose proof (pz_wr _ _ _ _ P1). pose proof (in_frame rest i). lia.
    + split; [reflexivity|]. split; [exact K1|]. split; [unfold sched_from in K2; rewrite Nat.add_0_r in K2; exact K2|exact K3].
  - destruct (resume_common n (n + n1) i passes cl d m m1 49 [14] ltac:(lia) L WT C RS) as (A1 & A2 & A3 & A4).
    exists (n + n1)%nat, (At i), m1. split; [lia|].
    split; [|left; split; [reflexivity|]; split; [destruct RS as (_ & _ & RE & _); eauto|]; unfold sched_from in K1; rewrite Nat.add_0_r in K1; split; [exact K1|];
      intros NK; apply K2; intros j J; replace (sched_from n (S j)) with (sched_from (S n) j) by (unfold sched_from; f_equal; lia); apply NK; lia]. split; [exact RA|]. split; [exact L|]. split; [exact A1|]. split; [exact A2|]. split; [exact A3|].
    eexists. split; [exact A4|]. intros NP. contradiction.
Qed.

Lemma advance_pause n i m : at_phase n (Pause i) m -> exists n' ph' m', (n < n')%nat /\ at_phase n' ph' m' /\ (ph' = At i \/ (ph' = Pause i /\ stays n n' (Pause i) m m')).
Proof. intros A. destruct (advance_pause_keys n i m A) as (n' & ph' & m' & H1 & H2 & [(E & _)|(E & H & _)]); exists n', ph', m'; auto 6. Qed.

Lemma bank_in_use n i passes c m : common n i passes c m -> bank m 0x2000 = d_bank (play (firstn i rest)).
Proof.
  intros C. unfold bank. cbn [Z.leb Z.ltb Z.compare Pos.compare Pos.compare_cont andb orb]. rewrite andb_true_r. rewrite (cm_bank _ _ _ _ _ C).
  destruct k eqn:K.
  - assert (E : d_bank (play (firstn i rest)) = false); [|rewrite E, andb_false_r; reflexivity].
    rewrite play_bank. assert (A : forall op a, In op (firstn i rest) -> op = Ack a -> a = false).
    { intros op a I ->. apply (pl_bank _ _ _ PL eq_refl). rewrite <- (firstn_skipn i rest). apply in_or_app. left. exact I. }
    revert A. generalize (firstn i rest). intros l. induction l as [|op l IH]; intros A; [reflexivity|]. cbn [fold_left].
    destruct op; try (apply IH; intros; eapply A; eauto; right; assumption). match goal with A : forall op a, In op (Ack ?x :: _) -> _ |- _ => rewrite (A (Ack x) x (or_introl eq_refl) eq_refl) end. apply IH. intros op a' I E. eapply A; [right; exact I|exact E].
  - destruct (cm_mode _ _ _ _ _ C K) as [-> ->]. rewrite andb_true_r. reflexivity.
Qed.
Lemma switches_snoc ops op : switches_of (ops ++ [op]) = switches_of ops ++ match op with Ack a => [if a then 0xC055 else 0xC054] | _ => [] end.
Proof. unfold switches_of. rewrite flat_map_app. cbn [flat_map]. rewrite app_nil_r. reflexivity. Qed.

Lemma tick_advances_keys n i m t p ct o : at_phase n (At i) m -> nth_error rest i = Some (Tick t p ct o) -> exists n' m', (n < n')%nat /\ at_phase n' (At (S i)) m' /\
  (exists st got, effect m m' 73 [4; 4 + tick_cycles t] st [] got) /\
  Z.min (wr (net m) + offered (sched_from n) (n' - n)) (Z.min len (acked_at i + 8192)) <= wr (net m') /\ pends n n' m m'.
Proof.
  intros (R & L & RD & P & W & passes & C & QT) N. assert (LT : (i < length rest)%nat) by (apply nth_error_Some; congruence).
  destruct (read_at _ _ _ PL i L) as (WH & LB & DA). destruct (DA _ N) as [LO DT]. apply which_some in WH. destruct WH as [IC _].
  assert (NC : nth_command rest i = TICK t p) by (unfold nth_command; rewrite N; reflexivity). rewrite NC in P, IC.
  pose proof (pos_ge rest i) as PG. pose proof (pos_next _ _ _ N) as PN. pose proof (firstn_snoc _ _ _ N) as FS. cbn [opcode_size] in *.
  destruct (tick_frame _ _ _ PL _ _ _ _ _ N) as [TF TA].
    assert (IT : In (TICK t p, pc m) SymCert.op_table) by (rewrite P; apply start_pair, IC).
    destruct (tick_runs_keys bytes (sched_from n) m (acked_at i) (pos i + 2) t p (pl_bytes _ _ _ PL) RD IT ltac:(lia)) as (n1 & m1 & N1 & R1 & RD1 & P1 & E1 & (S1 & S2 & S3) & _ & W1 & AR & PD).
    pose proof (run_app _ _ _ _ _ _ _ R R1) as RA.
    exists (n + n1)%nat, m1. split; [lia|]. split; [|split; [eauto|split; [replace (n + n1 - n)%nat with n1 by lia; exact AR|exact (pends_run _ _ _ _ PD)]]]. split; [exact RA|]. split; [lia|]. rewrite TA, PN. replace (pos i + 7 + 2) with (pos i + 2 + 7) by lia.
    split; [exact RD1|]. split; [rewrite P1, <- addr_pc by lia; rewrite PN; f_equal; [f_equal|]; f_equal; lia|].
    destruct DT as [DC DO]. split; [lia|]. exists passes. split; [|exact QT].
    assert (CNT : count_passes (done (S i)) = count_passes (done i)) by (rewrite (done_snoc _ _ N), count_app; unfold count_passes at 2; cbn [filter takes_pass length]; lia).
    eapply (common_more n (n + n1) i passes _ m m1 passes (S i) 73 _ _ _ _ _ ltac:(lia) C E1).
    + rewrite CNT. apply (cm_passes _ _ _ _ _ C).
    + rewrite (done_snoc _ _ N), <- (app_nil_r passes) at 1. rewrite time_app by (apply timed_done || apply (cm_passes _ _ _ _ _ C)). reflexivity.
    + rewrite (done_snoc _ _ N), <- (app_nil_r passes) at 1. rewrite clicks_app' by (apply timed_done || apply (cm_passes _ _ _ _ _ C)). cbn [clicks_of map]. rewrite Z.add_assoc. reflexivity.
    + rewrite FS, stores_of_snoc. f_equal. rewrite <- (bank_in_use _ _ _ _ _ C), DC, DO. cbn [map]. rewrite <- !Z.add_assoc. reflexivity.
    + rewrite FS, switches_snoc, ?app_nil_r. reflexivity.
    + pose proof (first_plus bytes (pos i + 2) 7 ltac:(lia)) as FP. cbn [seq map Z.of_nat] in FP. apply FP. pose proof (frame_there _ _ _ PL i L). lia.
    + rewrite S2, (cm_bank _ _ _ _ _ C), FS, play_snoc. reflexivity.
    + exact S1.
    + exact S3.
    + lia.
Qed.
Lemma tick_advances n i m t p ct o : at_phase n (At i) m -> nth_error rest i = Some (Tick t p ct o) -> exists n' m', (n < n')%nat /\ at_phase n' (At (S i)) m' /\
  (exists st got, effect m m' 73 [4; 4 + tick_cycles t] st [] got) /\
  Z.min (wr (net m) + offered (sched_from n) (n' - n)) (Z.min len (acked_at i + 8192)) <= wr (net m').
Proof. intros A N. destruct (tick_advances_keys n i m t p ct o A N) as (n' & m' & H1 & H2 & H3 & H4 & _). exists n', m'. auto. Qed.
Lemma ack_advances_full n i m a : at_phase n (At i) m -> nth_error rest i = Some (Ack a) -> exists n' m', (n < n')%nat /\ at_phase n' (Wait (S i)) m' /\
  (exists sw got, effect m m' 73 [4; 38] [] sw got) /\ wr (net m) <= wr (net m') /\ pends n n' m m' /\ fills n n' i m m'.
Proof.
  intros (R & L & RD & P & W & passes & C & QT) N. assert (LT : (i < length rest)%nat) by (apply nth_error_Some; congruence).
  destruct (read_at _ _ _ PL i L) as (WH & LB & DA). destruct (DA _ N) as [LO DT]. apply which_some in WH. destruct WH as [IC _].
  pose proof P as P0. assert (NC : nth_command rest i = command (Ack a)) by (unfold nth_command; rewrite N; reflexivity). rewrite NC in P, IC.
  pose proof (pos_ge rest i) as PG. pose proof (pos_next _ _ _ N) as PN. pose proof (firstn_snoc _ _ _ N) as FS. cbn [command opcode_size] in *.
  destruct (ack_frame _ _ _ PL _ _ N) as (AF & AA & AP). pose proof (in_frame rest i) as (_ & _ & AM).
    assert (SWB : sb bytes (acked_at i + 2046) = (if a then 0x55 else 0x54)) by (rewrite <- AF; exact DT).
    rewrite AF in RD. rewrite ack_start in P.
    destruct (ack_runs bytes (sched_from n) m (acked_at i) P RD ltac:(clear - AM; dlia) W ltac:(rewrite SWB; destruct a; auto)) as (n1 & m1 & R1 & N1 & (WT1 & E1 & S1 & S2 & S3 & W1) & PD & AR).
    pose proof (run_app _ _ _ _ _ _ _ R R1) as RA.
    exists (n + n1)%nat, m1. split; [lia|]. split; [|split; [eauto|split; [lia|split; [exact (pends_run _ _ _ _ PD)|unfold fills; replace (n + n1 - n)%nat with n1 by lia; exact AR]]]]. split; [exact RA|]. split; [lia|].
    split; [exists (Ack a), (done i); split; [apply done_snoc, N|]; split; [apply timed_done|reflexivity]|].
    rewrite AA, AP. split; [exact WT1|]. exists passes, ([], 0). split; [|intros NP; split; [apply QT, NP|exists O; reflexivity]].
    assert (CNT : count_passes (done (S i)) = (count_passes (done i) + 1)%nat) by (rewrite (done_snoc _ _ N), count_app; unfold count_passes at 2; cbn [filter takes_pass length]; lia).
    eapply (common_more n (n + n1) i passes _ m m1 (passes ++ [([], 0)]) (S i) 73 _ _ _ _ _ ltac:(lia) C E1).
    + rewrite CNT, app_length, (cm_passes _ _ _ _ _ C). reflexivity.
    + rewrite (done_snoc _ _ N). rewrite time_app by (apply timed_done || apply (cm_passes _ _ _ _ _ C)). cbn [time_of]. lia.
    + rewrite (done_snoc _ _ N). rewrite clicks_app' by (apply timed_done || apply (cm_passes _ _ _ _ _ C)). reflexivity.
    + rewrite FS, stores_of_snoc. reflexivity.
    + rewrite FS, switches_snoc, SWB. destruct a; reflexivity.
    + rewrite AF. pose proof (first_plus bytes (acked_at i + 2046) 2 ltac:(lia)) as FP. cbn [seq map Z.of_nat] in FP.
      replace (acked_at i + 2048) with (acked_at i + 2046 + 2) by lia. replace (acked_at i + 2047) with (acked_at i + 2046 + 1) by lia.
      rewrite <- (Z.add_0_r (acked_at i + 2046)) at 3. apply FP. pose proof (frame_there _ _ _ PL i L). lia.
    + rewrite S2, SWB, FS, play_snoc. destruct a; reflexivity.
    + exact S1.
    + exact S3.
    + lia.
Qed.
Lemma ack_advances_keys n i m a : at_phase n (At i) m -> nth_error rest i = Some (Ack a) -> exists n' m', (n < n')%nat /\ at_phase n' (Wait (S i)) m' /\
  (exists sw got, effect m m' 73 [4; 38] [] sw got) /\ wr (net m) <= wr (net m') /\ pends n n' m m'.
Proof. intros A N. destruct (ack_advances_full n i m a A N) as (n' & m' & H1 & H2 & H3 & H4 & H5 & _). exists n', m'. auto 6. Qed.
Lemma ack_advances n i m a : at_phase n (At i) m -> nth_error rest i = Some (Ack a) -> exists n' m', (n < n')%nat /\ at_phase n' (Wait (S i)) m' /\
  (exists sw got, effect m m' 73 [4; 38] [] sw got) /\ wr (net m) <= wr (net m').
Proof. intros A N. destruct (ack_advances_keys n i m a A N) as (n' & m' & H1 & H2 & H3 & H4 & _). exists n', m'. auto. Qed.
Lemma advance_at n i m : at_phase n (At i) m -> (i < length rest)%nat -> exists n' ph' m', (n < n')%nat /\ at_phase n' ph' m' /\ (ph' = At (S i) \/ ph' = Wait (S i)).
Proof.
  intros A LT. destruct (nth_error rest i) as [op|] eqn:N; [|apply nth_error_None in N; lia].
  destruct (op_kind _ _ _ PL _ _ N) as [(t & p & ct & o & ->)|(a & ->)].
  - destruct (tick_advances n i m t p ct o A N) as (n' & m' & LN & A' & _). exists n', (At (S i)), m'. auto.
  - destruct (ack_advances n i m a A N) as (n' & m' & LN & A' & _). exists n', (Wait (S i)), m'. auto.
Qed.
End Playback.

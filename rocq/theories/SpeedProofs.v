(** At most three bytes of the screen change per tick. *)
From Verif Require Import Base BaseFacts ScreenModel ScreenSpec BitmapModel BitmapSpec VideoModel VideoSpec VideoProofs VideoStep VideoFacts VideoThms
  VideoDisplay DisplaySpec OpcodeModel MovieModel ClockModel MovieSpec MovieProofs MovieState MovieThms MovieFinal
  SymbolModel AddrThms AsmModel PlayerCode CpuModel PlayerModel PlayerSpec PlayerExec ChipProofs TickExec RecvCode EffectProofs TickThms RunProofs RecvProofs LayoutProofs PlaybackSpec StartupCode StartupProofs PlaybackRead PlaybackProofs PlaybackThms PlaybackConv SmoothProofs.
Opaque TABLES all_pairs next.
Opaque lowcode code hgr resident startup symbols code_map op_cmds.

(** ** The fourth store of a change repeats the first *)
Lemma fourth_first ed k n v0 t a l v g rnd p ct o v' g' : u16_table k ed -> encoder ed k n v0 -> good_target k t -> good_bank k a -> frame_run ed v0 t a l v g ->
  next ed rnd v g = Ok ((p, ct, o), v', g') -> exists o0 o1 o2, o = [o0; o1; o2; o0].
Proof.
  intros HE HV HT HG HF E0. destruct (step_all ed k n v0 t a l v g HE HV HT HG HF rnd) as (c1 & v1 & g1 & E & S).
  rewrite E0 in E. assert (EC : c1 = (p, ct, o)) by congruence. clear E E0. subst c1.
  destruct S as [[S]|[S|S]].
  - destruct S as (page1 & offset & new & dw' & heap' & E1 & _ & _ & _ & _ & _ & _ & _ & _ & _ & _ & L & _).
    pose proof (f_equal snd E1) as Eo. cbn [snd] in Eo. subst o.
    destruct new as [|x [|y [|z new]]]; [| | |cbn in L; lia]; unfold pad4; cbn [app length nth repeat Nat.sub]; eauto.
  - destruct S as [E1 _ _ _]. pose proof (f_equal snd E1) as Eo. cbn [snd] in Eo. subst o. eauto.
  - destruct S as (_ & E1 & _). pose proof (f_equal snd E1) as Eo. cbn [snd pad_change] in Eo. subst o. eauto.
Qed.

Definition repeats (op : opcode) : Prop := match op with Tick _ _ _ o => exists o0 o1 o2, o = [o0; o1; o2; o0] | _ => True end.
Lemma all_repeat c audio frames : good_config c -> good_audio audio -> good_frames (c_mode c) frames ->
  forall ops s, stream_run c (movie_new c audio frames) ops s -> Forall repeats ops.
Proof.
  intros HC HA HF ops s H. induction H as [|ops s new s' H IH E]; [constructor|]. apply Forall_app. split; [exact IH|].
  destruct (run_inv c audio frames HC HA HF _ _ H) as (n & I).
  destruct (step_inv c audio frames HC HA HF ops s n I) as [(b & E' & _)|(new' & s'' & n' & E' & _ & _ & _ & _ & HT)]; rewrite E in E'; [discriminate|].
  injection E' as <- <-. apply Forall_forall. intros op Hop. destruct op as [| | | |t p ct o]; try exact Logic.I.
  destruct (HT t p ct o Hop) as (au & f & v0 & g0 & g & _ & _ & _ & _ & (q & w0 & m0 & l & S & T & B & F & _) & N).
  exact (fourth_first _ _ _ _ _ _ _ _ _ _ _ _ _ _ _ (proj1 HC) (shown_encoder _ _ _ _ _ S) T B F N).
Qed.
Lemma conversion_repeats c audio frames bytes rest : conversion c audio frames bytes rest -> Forall repeats rest.
Proof.
  intros CV. pose proof (conversion_knows _ _ _ _ _ CV) as W. destruct (cv_opcodes _ _ _ _ _ CV) as (zs & R).
  destruct (read_run c audio frames bytes player_which _ rest zs (cv_output _ _ _ _ _ CV) (cv_limit _ _ _ _ _ CV) W R) as (_ & s & A & _).
  pose proof (all_repeat c audio frames (cv_config _ _ _ _ _ CV) (cv_audio _ _ _ _ _ CV) (cv_frames _ _ _ _ _ CV) _ _ A) as F. inversion F; assumption.
Qed.

(** ** Which cells opcodes store to *)
Local Notation cell := (bool * Z * Z)%type.
Fixpoint touched (b : bool) (ops : list opcode) : list cell :=
  match ops with
  | [] => []
  | Tick _ p _ o :: ops' => map (fun x => (b, p - 32, x)) (firstn 3 o) ++ touched b ops'
  | Ack a :: ops' => touched a ops'
  | _ :: ops' => touched b ops'
  end.
Lemma touched_length ops : forall b, Z.of_nat (length (touched b ops)) <= 3 * count is_tick ops.
Proof.
  unfold count. induction ops as [|op ops IH]; intros b; [cbn; lia|].
  destruct op as [m| | |a|t p ct o]; cbn [touched filter is_tick length]; try apply IH.
  rewrite app_length, map_length. pose proof (firstn_le_length 3 o). specialize (IH b). lia.
Qed.
Lemma store_other m p ct o : forall p' x, ~ (p' = p - 32 /\ In x o) -> store4 m (p, ct, o) p' x = m p' x.
Proof.
  unfold store4. revert m. induction o as [|y o IH]; intros m p' x N; [reflexivity|]. cbn [fold_left]. rewrite IH by (intros [A B]; apply N; split; [exact A|right; exact B]).
  unfold upd2. destruct (Z.eqb_spec p' (p - 32)) as [A|A]; [|reflexivity]. destruct (Z.eqb_spec x y) as [B|B]; [|reflexivity]. exfalso. apply N. split; [exact A|left; symmetry; exact B].
Qed.
Lemma untouched ops : Forall repeats ops -> forall d b p o, ~ In (b, p, o) (touched (d_bank d) ops) -> d_mem (fold_left play1 ops d) b p o = d_mem d b p o.
Proof.
  induction 1 as [|op ops R F IH]; intros d b p o N; [reflexivity|]. cbn [fold_left]. destruct op as [m| | |a|t pg ct off]; cbn [touched] in N.
  - exact (IH d b p o N).
  - exact (IH d b p o N).
  - exact (IH d b p o N).
  - exact (IH (play1 d (Ack a)) b p o N).
  - rewrite IH by (intros Q; apply N, in_or_app; right; exact Q). cbn [play1 d_mem]. destruct (Bool.eqb b (d_bank d)) eqn:EB; [|reflexivity].
    apply Bool.eqb_prop in EB. subst b. apply store_other. intros [P Q]. apply N, in_or_app. left. destruct R as (o0 & o1 & o2 & ->). cbn [firstn map].
    subst p. destruct Q as [<-|[<-|[<-|[<-|[]]]]]; cbn [In]; auto.
Qed.
(** in the opcodes between two points *)
Lemma between {A} (l : list A) i j : (i <= j)%nat -> firstn j l = firstn i l ++ firstn (j - i) (skipn i l).
Proof.
  intros H. rewrite <- (firstn_skipn i (firstn j l)) at 1. rewrite firstn_firstn, Nat.min_l by exact H. f_equal.
  revert j l H. induction i as [|i IH]; intros j l H; [rewrite Nat.sub_0_r; reflexivity|]. destruct j as [|j]; [lia|]. destruct l as [|x l]; [rewrite !skipn_nil, !firstn_nil; reflexivity|].
  cbn [firstn skipn Nat.sub]. apply IH. lia.
Qed.
Lemma count_between f (l : list opcode) i j : (i <= j)%nat -> count f (firstn j l) = count f (firstn i l) + count f (firstn (j - i) (skipn i l)).
Proof. intros H. rewrite (between l i j H). unfold count. rewrite filter_app, app_length. lia. Qed.
Lemma three_per_tick rest i j cells : Forall repeats rest -> (i <= j)%nat -> NoDup cells ->
  (forall b p o, In (b, p, o) cells -> d_mem (play (firstn i rest)) b p o <> d_mem (play (firstn j rest)) b p o) ->
  Z.of_nat (length cells) <= 3 * (count is_tick (firstn j rest) - count is_tick (firstn i rest)).
Proof.
  intros R L ND D. set (mid := firstn (j - i) (skipn i rest)). set (d := play (firstn i rest)) in *.
  assert (RM : Forall repeats mid).
  { rewrite Forall_forall in *. intros x Hx. apply R. rewrite <- (firstn_skipn i rest). apply in_or_app. right.
    rewrite <- (firstn_skipn (j - i) (skipn i rest)). apply in_or_app. left. exact Hx. }
  assert (PJ : play (firstn j rest) = fold_left play1 mid d) by (rewrite (between rest i j L); unfold play; rewrite fold_left_app; reflexivity).
  assert (I : incl cells (touched (d_bank d) mid)).
  { intros [[b p] o] H. destruct (in_dec (fun x y : cell => ltac:(decide equality; [apply Z.eq_dec|decide equality; [apply Z.eq_dec|apply Bool.bool_dec]])) (b, p, o) (touched (d_bank d) mid)) as [Y|N]; [exact Y|].
    exfalso. apply (D b p o H). rewrite PJ. symmetry. exact (untouched mid RM d b p o N). }
  pose proof (NoDup_incl_length ND I) as LE. pose proof (touched_length mid (d_bank d)) as T. rewrite (count_between is_tick rest i j L). fold mid. lia.
Qed.

(** cells of a bank *)
Lemma tag_nodup (b : bool) (l : list (Z * Z)) (f : Z * Z -> bool) : NoDup l -> NoDup (map (fun po => (b, fst po, snd po)) (filter f l)).
Proof.
  intros N. apply FinFun.Injective_map_NoDup; [|apply NoDup_filter, N]. intros [p o] [p' o'] E. cbn [fst snd] in E. congruence.
Qed.
Lemma tag_in (b b' : bool) p o (l : list (Z * Z)) (f : Z * Z -> bool) : In (b', p, o) (map (fun po => (b, fst po, snd po)) (filter f l)) -> b' = b /\ In (p, o) l /\ f (p, o) = true.
Proof.
  intros H. apply in_map_iff in H. destruct H as ([p' o'] & E & H). cbn [fst snd] in E. apply filter_In in H. assert (b' = b /\ p' = p /\ o' = o) as (-> & -> & ->) by (repeat split; congruence). tauto.
Qed.

(** ** How long the player takes *)
Section Player.
Variables (bytes : list Z) (k : kind) (rest : list opcode) (sched : nat -> env) (m0 : machine).
Hypothesis PL : playable bytes k rest.
Hypothesis D : delivers sched.
Hypothesis U : user sched m0.
Lemma runs_cyc n n' m m' : (n <= n')%nat -> run bytes sched n m0 = Some m -> run bytes sched n' m0 = Some m' -> cyc m <= cyc m'.
Proof.
  intros L R R'. replace n' with (n + (n' - n))%nat in R' by lia.
  assert (X : run bytes (fun i => sched (n + i)%nat) (n' - n) m = Some m').
  { revert R'. generalize (n' - n)%nat as d. intros d R'. clear L. clear - R R'. revert sched m0 R R'. induction n as [|n IH]; intros sched m0 R R'.
    - cbn in R. injection R as <-. exact R'.
    - cbn [run Nat.add] in R, R'. destruct (step bytes (sched O) m0) as [m1|]; [|discriminate].
      exact (IH (fun i => sched (S i)) m1 R R'). }
  apply run_cyc in X. lia.
Qed.
Lemma next_time i n m : (i < length rest)%nat -> at_phase bytes k rest sched m0 n (At i) m ->
  exists n' m', (n < n')%nat /\ at_phase bytes k rest sched m0 n' (At (S i)) m' /\
    73 * (count is_tick (firstn (S i) rest) - count is_tick (firstn i rest)) <= cyc m' - cyc m.
Proof.
  intros L A. destruct (nth_error rest i) as [op|] eqn:N; [|apply nth_error_None in N; lia].
  rewrite (firstn_snoc _ _ _ N), count_snoc.
  destruct (op_kind _ _ _ PL _ _ N) as [(t & p & ct & o & ->)|(a & ->)]; cbn [is_tick].
  - destruct (tick_advances bytes k rest PL sched m0 n i m t p ct o A N) as (n' & m' & LN & A' & (st & got & E) & _). exists n', m'.
    split; [exact LN|]. split; [exact A'|]. rewrite (ef_cyc _ _ _ _ _ _ _ E). lia.
  - destruct (next_at bytes k rest PL sched m0 D U i n m L A) as (n' & m' & LN & A'). exists n', m'. split; [exact LN|]. split; [exact A'|].
    pose proof (runs_cyc n n' m m' ltac:(lia) (proj1 A) (proj1 A')). lia.
Qed.
(** instants at which the opcodes are reached, 73 cycles or more apart for ticks *)
Lemma all_times : connected bytes m0 -> exists time : nat -> nat, (forall i, (i <= length rest)%nat -> exists m, at_phase bytes k rest sched m0 (time i) (At i) m) /\
  (forall i, (i < length rest)%nat -> (time i < time (S i))%nat) /\
  forall i j m m', (i <= j <= length rest)%nat -> at_phase bytes k rest sched m0 (time i) (At i) m -> at_phase bytes k rest sched m0 (time j) (At j) m' ->
    73 * (count is_tick (firstn j rest) - count is_tick (firstn i rest)) <= cyc m' - cyc m.
Proof.
  intros C.
  assert (H : forall j, (j <= length rest)%nat -> exists time : nat -> nat, (forall i, (i <= j)%nat -> exists m, at_phase bytes k rest sched m0 (time i) (At i) m) /\
    (forall i, (i < j)%nat -> (time i < time (S i))%nat) /\
    forall i m m', (i < j)%nat -> at_phase bytes k rest sched m0 (time i) (At i) m -> at_phase bytes k rest sched m0 (time (S i)) (At (S i)) m' ->
      73 * (count is_tick (firstn (S i) rest) - count is_tick (firstn i rest)) <= cyc m' - cyc m).
  { induction j as [|j IH]; intros L.
    - destruct (reach_at bytes k rest PL sched m0 C D U 0 ltac:(lia)) as (n & m & A). exists (fun _ => n).
      split; [intros i Hi; replace i with O by lia; eauto|]. split; intros; lia.
    - destruct (IH ltac:(lia)) as (f & F1 & F2 & F3). destruct (F1 j ltac:(lia)) as (m & A). destruct (next_time j _ m ltac:(lia) A) as (n' & m' & L' & A' & T).
      exists (fun i => if Nat.eq_dec i (S j) then n' else f i). split; [|split].
      + intros i Hi. destruct (Nat.eq_dec i (S j)) as [->|NE]; [eauto|apply F1; lia].
      + intros i Hi. destruct (Nat.eq_dec i (S j)) as [->|NE]; [lia|]. destruct (Nat.eq_dec (S i) (S j)) as [E|NE2]; [injection E as ->; exact L'|apply F2; lia].
      + intros i ma mb Hi AA AB. destruct (Nat.eq_dec i (S j)) as [->|NE]; [lia|]. destruct (Nat.eq_dec (S i) (S j)) as [E|NE2].
        * injection E as ->. pose proof (proj1 A) as R1. pose proof (proj1 AA) as R2. pose proof (proj1 A') as R3. pose proof (proj1 AB) as R4.
          assert (ma = m) as -> by congruence. assert (mb = m') as -> by congruence. exact T.
        * apply F3; [lia|exact AA|exact AB]. }
  destruct (H (length rest) ltac:(lia)) as (f & F1 & F2 & F3). exists f. split; [exact F1|]. split; [exact F2|].
  intros i j m m' [LI LJ] A A'. revert m' A'. induction LI as [|j LI IH]; intros m' A'.
  - pose proof (proj1 A) as R1. pose proof (proj1 A') as R2. assert (m' = m) as -> by congruence. lia.
  - destruct (F1 j ltac:(lia)) as (mj & AJ). specialize (IH ltac:(lia) mj AJ). pose proof (F3 j mj m' ltac:(lia) AJ A'). lia.
Qed.
End Player.

(** ** For the example *)
(** how far to go for [n] ticks *)
Fixpoint after (ops : list opcode) (n : nat) : nat :=
  match n, ops with
  | O, _ | _, [] => O
  | S n', op :: ops' => S (after ops' (if is_tick op then n' else n))
  end.
Lemma after_count ops : forall n, (n <= length (filter is_tick ops))%nat -> length (filter is_tick (firstn (after ops n) ops)) = n /\ (after ops n <= length ops)%nat.
Proof.
  induction ops as [|op ops IH]; intros n L; [cbn in L; destruct n; [split; [reflexivity|apply le_n]|lia]|].
  destruct n as [|n]; [cbn; split; [reflexivity|lia]|]. cbn [after firstn filter length] in *. destruct (is_tick op) eqn:T; cbn [filter length]; rewrite ?T; cbn [length] in *;
    [destruct (IH n ltac:(lia))|destruct (IH (S n) L)]; lia.
Qed.
Lemma after_mono ops n n' : (n <= n' <= length (filter is_tick ops))%nat -> (after ops n <= after ops n')%nat.
Proof.
  intros L. destruct (after_count ops n ltac:(lia)) as [A _]. destruct (after_count ops n' ltac:(lia)) as [B _].
  destruct (Nat.le_gt_cases (after ops n) (after ops n')) as [H|H]; [exact H|]. pose proof (between ops (after ops n') (after ops n) ltac:(lia)) as E.
  rewrite E, filter_app, app_length in A. assert (n = n') as -> by lia. lia.
Qed.
Lemma slow_due C : 1 < C -> forall t, let d := due (fun t n => C * n <=? t) (S t) in C * (d - 1) <= Z.of_nat (S t) < C * d.
Proof.
  intros HC. induction t as [|t IH].
  - cbn [due]. replace (C * 0 <=? Z.of_nat 1) with true by (symmetry; apply Z.leb_le; lia). lia.
  - cbv zeta in *. remember (S t) as u eqn:U. assert (E : due (fun t n => C * n <=? t) (S u) =
      let d := due (fun t n => C * n <=? t) u in if C * d <=? Z.of_nat (S u) then d + 1 else d) by reflexivity.
    rewrite E. cbv zeta. set (d := due _ u) in *. clearbody d. clear E U.
    destruct (C * d <=? Z.of_nat (S u)) eqn:Q; rewrite ?Z.leb_le, ?Z.leb_gt in Q; lia.
Qed.
Lemma slow_due_at C n s : 1 < C -> (0 < n)%nat -> C * s <= Z.of_nat n < C * (s + 1) -> due (fun t n => C * n <=? t) n - 1 = s.
Proof.
  intros HC N B. destruct n as [|n]; [lia|]. pose proof (slow_due C HC n) as D. cbv zeta in D. set (d := due _ _) in *. clearbody d. nia.
Qed.

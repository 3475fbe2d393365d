(** Playing the beginning of a stream: what arrives of it before the connection
    stalls. *)
From Verif Require Import Base BaseFacts ScreenModel ScreenSpec BitmapModel BitmapSpec VideoModel VideoSpec OpcodeModel MovieModel MovieSpec SymbolModel AddrThms
  AsmModel PlayerCode CpuModel PlayerModel PlayerSpec PlayerExec ChipProofs TickExec RecvCode EffectProofs TickThms RunProofs RecvProofs LayoutProofs PlaybackSpec StartupCode StartupProofs PlaybackRead PlaybackProofs PlaybackThms PlaybackConv.
Opaque lowcode code hgr resident startup symbols code_map op_cmds TABLES.

(** ** A run on the beginning is a run on all of it in which less arrives *)
Lemma run_last stream n : forall sched m, run stream sched (S n) m = match run stream sched n m with Some m' => step stream (sched n) m' | None => None end.
Proof.
  induction n as [|n IH]; intros sched m.
  - cbn [run]. destruct (step stream (sched O) m); reflexivity.
  - remember (S n) as n1. cbn [run]. subst n1. destruct (step stream (sched O) m) as [m1|] eqn:E.
    + rewrite IH. cbn [run]. rewrite E. reflexivity.
    + cbn [run]. rewrite E. reflexivity.
Qed.
Lemma arrive_stuck stream n : forall c, arrive1 stream c = c -> arrive stream n c = c.
Proof. induction n as [|n IH]; intros c E; [reflexivity|]. cbn [arrive]. rewrite E. apply IH, E. Qed.
Lemma sb_prefix sent more j : 0 <= j < Z.of_nat (length sent) -> sb (sent ++ more) j = sb sent j.
Proof. intros H. unfold sb. apply app_nth1. lia. Qed.
Lemma arrive_prefix sent more n : forall c, 0 <= wr c ->
  arrive sent n c = arrive (sent ++ more) (Nat.min n (Z.to_nat (Z.of_nat (length sent) - wr c))) c.
Proof.
  induction n as [|n IH]; intros c W; [reflexivity|]. destruct (Z.lt_ge_cases (wr c) (Z.of_nat (length sent))) as [L|L].
  - destruct (Z.to_nat (Z.of_nat (length sent) - wr c)) as [|d] eqn:D; [lia|]. rewrite <- Nat.succ_min_distr. cbn [arrive].
    assert (E : arrive1 sent c = arrive1 (sent ++ more) c).
    { unfold arrive1. rewrite app_length. destruct (Z.ltb_spec (wr c) (Z.of_nat (length sent))); [|lia].
      destruct (Z.ltb_spec (wr c) (Z.of_nat (length sent + length more))); [|lia].
      destruct (_ && _); [|reflexivity]. f_equal. f_equal. symmetry. apply app_nth1. lia. }
    rewrite E. set (c1 := arrive1 (sent ++ more) c). assert (CS : c1 = c \/ wr c1 = wr c + 1) by (unfold c1, arrive1; destruct (_ && _); auto).
    destruct CS as [CS|CS].
    + assert (arrive1 sent c = c) by exact (eq_trans E CS). rewrite CS. rewrite arrive_stuck by assumption. symmetry. apply arrive_stuck. exact CS.
    + rewrite IH by lia. f_equal. f_equal. lia.
  - replace (Z.to_nat (Z.of_nat (length sent) - wr c)) with O by lia. rewrite Nat.min_0_r.
    apply (arrive_stuck sent (S n) c). unfold arrive1. destruct (Z.ltb_spec (wr c) (Z.of_nat (length sent))); [lia|]. rewrite andb_false_r. reflexivity.
Qed.
Lemma connect_wr s c : wr (connect s c) = wr c.
Proof. unfold connect. destruct s; [|reflexivity]. destruct (_ =? _); reflexivity. Qed.
Definition cap (sent : list Z) (sched : nat -> env) (m0 : machine) (n : nat) : env :=
  match run sent sched n m0 with
  | Some m => Env (Nat.min (e_bytes (sched n)) (Z.to_nat (Z.of_nat (length sent) - wr (net m)))) (e_key (sched n)) (e_status (sched n))
  | None => sched n
  end.
Lemma run_cap sent more sched m0 n : 0 <= wr (net m0) -> run (sent ++ more) (cap sent sched m0) n m0 = run sent sched n m0.
Proof.
  intros W. induction n as [|n IH]; [reflexivity|]. rewrite !run_last, IH. destruct (run sent sched n m0) as [m|] eqn:R; [|reflexivity].
  unfold cap. rewrite R. unfold step, before. cbn [e_key e_bytes e_status]. f_equal. f_equal. f_equal.
  rewrite (arrive_prefix sent more) by (rewrite connect_wr; exact (held_wr _ _ _ _ _ W R)). rewrite connect_wr. reflexivity.
Qed.
Lemma cap_key sent sched m0 n : e_key (cap sent sched m0 n) = e_key (sched n).
Proof. unfold cap. destruct (run sent sched n m0); reflexivity. Qed.
Lemma cap_user sent sched m0 m : user sched m -> user (cap sent sched m0) m.
Proof.
  intros [[K N]|P]; [left; split; [exact K|]; intros i; rewrite cap_key; apply N|right]. intros i. destruct (P i) as (j & L & E). exists j. split; [exact L|]. rewrite cap_key. exact E.
Qed.
Lemma cap_never sent sched m0 m : never_pressed (cap sent sched m0) m -> never_pressed sched m.
Proof. intros [K N]. split; [exact K|]. intros i. rewrite <- (cap_key sent sched m0). apply N. Qed.
(** no more than there is arrives *)
Lemma wr_bound stream sched n : forall m m', wr (net m) <= Z.of_nat (length stream) -> run stream sched n m = Some m' -> wr (net m') <= Z.of_nat (length stream).
Proof.
  assert (AR : forall q c, wr c <= Z.of_nat (length stream) -> wr (arrive stream q c) <= Z.of_nat (length stream)).
  { induction q as [|q IH]; intros c H; [exact H|]. cbn [arrive]. apply IH. unfold arrive1. destruct (Z.ltb_spec (wr c) (Z.of_nat (length stream))); [|rewrite andb_false_r; exact H].
    destruct (_ && _); [cbn [wr]; lia|exact H]. }
  revert sched. induction n as [|n IH]; intros sched m m' W R; cbn [run] in R; [injection R as <-; exact W|].
  destruct (step stream (sched O) m) as [m1|] eqn:ST; [|discriminate]. unfold step in ST. apply exec_nm in ST. refine (IH _ m1 m' _ R).
  assert (B : wr (net (before stream (sched O) m)) <= Z.of_nat (length stream)).
  { unfold before, press. assert (H : wr (arrive stream (e_bytes (sched O)) (connect (e_status (sched O)) (net m))) <= Z.of_nat (length stream)).
    { apply AR. rewrite connect_wr. exact W. }
    destruct (e_key (sched O)); exact H. }
  destruct ST as [->| ->]; [exact B|lia].
Qed.

(** ** What is on the screen stays there unless it is stored to or cleared *)
Definition fades (m m' : machine) : Prop :=
  exists new, log m' = log m ++ new /\
    forall b a, 0x2000 <= a < 0x4000 -> (forall w, In w new -> w_addr w <> a) -> CpuModel.mem m' b a = CpuModel.mem m b a \/ CpuModel.mem m' b a = 0.
Lemma fades_refl m : fades m m.
Proof. exists []. rewrite app_nil_r. auto. Qed.
Lemma fades_same m m' : log m' = log m -> CpuModel.mem m' = CpuModel.mem m -> fades m m'.
Proof. intros L M. exists []. rewrite app_nil_r, M. auto. Qed.
Lemma fades_trans a b c : fades a b -> fades b c -> fades a c.
Proof.
  intros (n1 & L1 & M1) (n2 & L2 & M2). exists (n1 ++ n2). split; [rewrite L2, L1, app_assoc; reflexivity|].
  intros bb x S W. destruct (M2 bb x S) as [E|E]; [intros w H; apply W, in_or_app; auto| |right; exact E]. rewrite E. apply M1; [exact S|]. intros w H; apply W, in_or_app; auto.
Qed.
Ltac fsame := apply fades_same; reflexivity.
Lemma read_fades a m v m' : bus_read a m = Some (v, m') -> fades m m'.
Proof.
  unfold bus_read. repeat match goal with |- context [if ?b then _ else _] => destruct b end; try discriminate; intros H; injection H as _ <-; fsame || apply fades_refl.
Qed.
Lemma io_fades a v m m' : io_write a v m = Some m' -> fades m m'.
Proof.
  unfold io_write. repeat match goal with |- context [if ?b then _ else _] => destruct b end;
    try (intros H; injection H as <-; fsame); try discriminate.
  destruct (chip_poke v (net m)); [|discriminate]. intros H. injection H as <-. fsame.
Qed.
Lemma write_fades a v m m' : bus_write a v m = Some m' -> fades m m'.
Proof.
  unfold bus_write. set (w := Wrt _ _ _ _). set (m1 := with_mem _ _ m).
  assert (L : fades m m1).
  { exists [w]. split; [reflexivity|]. intros b x _ W. specialize (W w (or_introl eq_refl)). left. subst m1 w. cbv beta iota delta [with_mem CpuModel.mem w_addr write1] in *.
    destruct (a <? 0xC000); [|reflexivity]. destruct (Bool.eqb b (w_aux _)); [|reflexivity]. unfold upd1. destruct (Z.eqb_spec x a); congruence. }
  destruct (_ && _); [|intros H; injection H as <-; exact L]. intros H. exact (fades_trans _ _ _ L (io_fades _ _ _ _ H)).
Qed.
Lemma alu_fades i b m m' : alu i b m = Some m' -> fades m m'.
Proof. destruct i; cbn [alu]; try discriminate; intros H; injection H as <-; fsame. Qed.
Lemma load_fades i md v m m' : load i md v m = Some m' -> fades m m'.
Proof.
  unfold load. destruct md; try (destruct (bus_read _ m) as [[b m1]|] eqn:R; [|discriminate]; intros H; exact (fades_trans _ _ _ (read_fades _ _ _ _ R) (alu_fades _ _ _ _ H))).
  apply alu_fades.
Qed.
Lemma push_fades v m m' : push v m = Some m' -> fades m m'.
Proof.
  unfold push. destruct (bus_write _ v m) as [m1|] eqn:W; [|discriminate]. intros H. injection H as <-. refine (fades_trans _ _ _ (write_fades _ _ _ _ W) _). fsame.
Qed.
Lemma branch_fades b v m m' : branch b v m = Some m' -> fades m m'.
Proof. unfold branch. intros H. injection H as <-. destruct b; fsame. Qed.
Lemma ins_fades i md v m m' : exec_ins i md v m = Some m' -> fades m m'.
Proof.
  destruct i; cbn [exec_ins]; try (apply load_fades); try (apply write_fades); try (apply branch_fades); try discriminate;
    try (intros H; injection H as <-; fsame).
  - destruct (bus_read _ m) as [[b m1]|] eqn:R; [|discriminate]. intros H. apply write_fades in H. apply read_fades in R.
    refine (fades_trans _ _ _ R (fades_trans _ _ _ _ H)). fsame.
  - destruct (bus_read _ m) as [[b m1]|] eqn:R; [|discriminate]. intros H. apply write_fades in H. apply read_fades in R.
    refine (fades_trans _ _ _ R (fades_trans _ _ _ _ H)). fsame.
  - destruct (push _ m) as [m1|] eqn:P1; [|discriminate]. destruct (push _ m1) as [m2|] eqn:P2; [|discriminate]. intros H. injection H as <-.
    refine (fades_trans _ _ _ (push_fades _ _ _ P1) (fades_trans _ _ _ (push_fades _ _ _ P2) _)). fsame.
Qed.
Lemma exec_fades m m' : exec m = Some m' -> fades m m'.
Proof.
  unfold exec. destruct (pc m =? 0xF3F2).
  { unfold rom_clear. destruct (_ =? 0x20); [|discriminate]. intros H. injection H as <-. exists []. rewrite app_nil_r. split; [reflexivity|].
    intros b a NS _. cbv beta iota zeta delta [nz with_flags rts with_pc with_regs with_mem CpuModel.mem].
    destruct (Bool.eqb b (bank m 0x2000) && ((0x2000 <=? a) && (a <? 0x4000))) eqn:B1.
    - right. repeat match goal with |- context [if ?b then _ else _] => destruct b eqn:? end; auto; exfalso; lia.
    - left. repeat match goal with |- context [if ?b then _ else _] => destruct b eqn:? end; auto; exfalso; lia. }
  destruct (pc m =? 0xFDED). { intros H. injection H as <-. fsame. }
  destruct (fetch m) as [[[i md] v]|]; [|discriminate]. intros H. apply ins_fades in H. refine (fades_trans _ _ _ _ H). fsame.
Qed.
Lemma step_fades stream e m m' : step stream e m = Some m' -> fades m m'.
Proof. unfold step. intros H. apply exec_fades in H. refine (fades_trans _ _ _ _ H). apply fades_same; unfold before, press; destruct (e_key e); reflexivity. Qed.
Lemma run_fades stream n : forall sched m m', run stream sched n m = Some m' -> fades m m'.
Proof.
  induction n as [|n IH]; intros sched m m' R; cbn [run] in R; [injection R as <-; apply fades_refl|].
  destruct (step stream (sched O) m) as [m1|] eqn:ST; [|discriminate]. exact (fades_trans _ _ _ (step_fades _ _ _ _ ST) (IH _ _ _ R)).
Qed.

Section Truncated.
Variables (sent more : list Z) (k : kind) (rest : list opcode).
Local Notation bytes := (sent ++ more).
Hypothesis PL : playable bytes k rest.
Variables (sched : nat -> env) (m0 : machine).
Hypothesis C0 : connected sent m0.
Local Notation pos := (pos rest).
Local Notation acked_at := (acked_at rest).
Local Notation len := (Z.of_nat (length sent)).
Local Notation capped := (cap sent sched m0).
Local Notation at_phase := (at_phase bytes k rest capped m0).

Lemma held_more ch rd : held sent ch rd -> held bytes ch rd.
Proof.
  intros [H1 H2 H3 H4 H5 H6 H7 H8]. constructor; auto; [rewrite app_length; lia|]. intros j J. rewrite H8 by exact J. symmetry. apply sb_prefix. lia.
Qed.
Lemma held_less ch rd : held bytes ch rd -> wr ch <= len -> held sent ch rd.
Proof. intros [H1 H2 H3 H4 H5 H6 H7 H8] W. constructor; auto. intros j J. rewrite H8 by exact J. apply sb_prefix. lia. Qed.
Lemma connected_more m : connected sent m -> connected bytes m.
Proof. intros [H1 H2 H3 H4 H5 H6 H7 H8]. constructor; auto. apply held_more, H4. Qed.
Lemma wr0 : 0 <= wr (net m0).
Proof. pose proof (h_wr _ _ _ (cn_held _ _ C0)). lia. Qed.
Lemma same_run n : run bytes capped n m0 = run sent sched n m0.
Proof. apply run_cap, wr0. Qed.
Lemma phase_run n ph m : at_phase n ph m -> run sent sched n m0 = Some m.
Proof. intros A. rewrite <- same_run. apply A. Qed.
Lemma phase_wr n ph m : at_phase n ph m -> wr (net m) <= len.
Proof. intros A. apply phase_run in A. refine (wr_bound _ _ _ _ _ _ A). apply (cn_held _ _ C0). Qed.

(** ** Progress while more arrives *)
Definition idles (rd : Z) (n n' : nat) (m m' : machine) : Prop :=
  wr (net m) <= wr (net m') /\ wr (net m) < rd /\
  (forall j, (n <= j < n')%nat -> (0 < e_bytes (sched j))%nat -> wr (net m) < len -> wr (net m) < wr (net m')).
Lemma start_sent n m : at_phase n Start m -> exists n' m', (n < n')%nat /\
  ((256 <= len /\ at_phase n' (Wait 0) m') \/ (at_phase n' Start m' /\ idles 256 n n' m m')).
Proof.
  intros A. pose proof (phase_run _ _ _ A) as R'. pose proof (phase_wr _ _ _ A) as W. pose proof A as (R & C & (new & LG & CK & ST & SW) & TK).
  assert (CS : connected sent m). { destruct C as [H1 H2 H3 H4 H5 H6 H7 H8]. constructor; auto. apply held_less; auto. }
  destruct (wait_header sent (sched_from sched n) m CS) as (n1 & m1 & R1 & N1 & O). pose proof (run_app _ _ _ _ _ _ _ R' R1) as RA.
  pose proof RA as RB. rewrite <- same_run in RB.
  destruct O as [(C1 & W1 & W2 & W3 & (new1 & LG1 & CK1 & ST1 & SW1) & TK1 & _)|(P & LR & LS & H & HI & RX & P2 & RS & WH & WL & (new1 & LG1 & CK1 & ST1 & SW1) & TK1 & _)].
  - exists (n + n1)%nat, m1. split; [lia|]. right. split; [split; [exact RB|]; split; [exact (connected_more _ C1)|]; split; [|congruence]|].
    + exists (new ++ new1). rewrite LG1, LG, app_assoc, clicks_app, stores_app, CK, CK1, ST, ST1. split; [reflexivity|]. split; [reflexivity|]. split; [reflexivity|]. apply Forall_app. auto.
    + split; [exact W2|]. split; [exact W1|]. intros j J B L. apply (W3 (j - n)%nat); [lia| |exact L]. unfold sched_from. replace (n + (j - n))%nat with j by lia. exact B.
  - assert (WB : 256 <= len) by (pose proof (h_len _ _ _ H); lia).
    assert (E : exists n' m', (n < n')%nat /\ at_phase n' (Wait 0) m').
    { destruct (header_runs bytes (sched_from capped (n + n1)) m1 k P LR LS (held_more _ _ H) HI RX P2 RS WH (mode_byte _ _ _ PL)) as (n2 & m2 & R2 & N2 & B & _).
      pose proof (run_app _ _ _ _ _ _ _ RB R2) as RC.
      assert (B0 : begun bytes k m0 m2).
      { destruct B as (B1 & B2 & B3 & B4 & (new2 & LG2 & CK2 & ST2 & SW2) & B6 & B7). split; [exact B1|]. split; [exact B2|]. split; [exact B3|]. split; [exact B4|]. split; [|split].
        - exists (new ++ new1 ++ new2). rewrite LG2, LG1, LG, !app_assoc, !clicks_app, !stores_app, CK, CK1, CK2, ST, ST1, ST2. split; [reflexivity|]. split; [reflexivity|]. split; [reflexivity|].
          apply Forall_app. split; [apply Forall_app; auto|exact SW2].
        - rewrite B6, TK1, TK. reflexivity.
        - exact B7. }
      exists (n + n1 + n2)%nat, m2. split; [lia|]. split; [exact RC|]. split; [lia|]. split; [apply waits_0|].
      pose proof B0 as (B1 & B2 & B3 & B4 & B5 & B6 & B7). split; [exact B1|]. exists [], ([], 0). split.
      + constructor.
        * exists (n + n1 + n2)%nat, m2. split; [lia|]. split; [exact RC|]. split; [exact B0|]. exists []. exact (effect_refl m2).
        * reflexivity.
        * exact B6.
        * exact B2.
        * exact B3.
        * cbn. lia.
      + intros _. split; [constructor|]. exists O. reflexivity. }
    destruct E as (n' & m' & LN & A'). exists n', m'. split; [exact LN|]. left. auto.
Qed.
(** one unsuccessful poll *)
Definition polled (m m' : machine) : Prop := effect m m' 25 [4] [] [] [].
Lemma wait_sent n i m : at_phase n (Wait i) m -> exists n' m', (n < n')%nat /\
  ((acked_at i + 2048 <= len /\ (at_phase n' (Pause i) m' \/ at_phase n' (At i) m')) \/ (at_phase n' (Wait i) m' /\ polled m m' /\ idles (acked_at i + 2048) n n' m m')).
Proof.
  intros A. pose proof (phase_run _ _ _ A) as R'. pose proof (phase_wr _ _ _ A) as WL. pose proof A as (R & L & WT & W & passes & [cl d] & C & QT).
  assert (WS : waiting sent (acked_at i) (pos i) m). { destruct W as [H1 H2 H3 H4 H5 H6 H7 H8]. constructor; auto. apply held_less; auto. }
  destruct (wait_runs sent (sched_from sched n) m _ _ WS) as (n1 & m1 & R1 & N1 & O). pose proof (run_app _ _ _ _ _ _ _ R' R1) as RA.
  pose proof RA as RB. rewrite <- same_run in RB.
  destruct O as [(W1 & E1 & S1 & K1 & K2 & K3 & _)|[(P1 & (t & E1) & S1 & K1 & _)|(RS & _)]].
  - exists (n + n1)%nat, m1. split; [lia|]. right. split; [|split; [exact E1|]].
    + split; [exact RB|]. split; [exact L|]. split; [exact WT|].
      split; [destruct W1 as [H1 H2 H3 H4 H5 H6 H7 H8]; constructor; auto; apply held_more; exact H3|]. exists passes, (cl ++ map (Z.add d) [4], d + 25). split.
      * apply (common_pass bytes k rest capped m0 n (n + n1) i passes cl d (pos i) m m1 [4] 25 [] (pos i) ltac:(lia) WT C E1 S1); [rewrite app_nil_r; reflexivity|]. pose proof (cm_wr _ _ _ _ _ _ _ _ _ _ C). lia.
      * intros NP. destruct (QT NP) as (Q1 & w & Q2). split; [exact Q1|]. exists (S w). rewrite <- (polls_last capped), <- Q2. reflexivity.
    + split; [exact K2|]. split; [exact K1|]. intros j J B LB. apply (K3 (j - n)%nat); [lia| |exact LB]. unfold sched_from. replace (n + (j - n))%nat with j by lia. exact B.
  - exists (n + n1)%nat, m1. split; [lia|]. left. split; [pose proof (pz_wr _ _ _ _ P1); pose proof (h_len _ _ _ (pz_held _ _ _ _ P1)); lia|]. left.
    split; [exact RB|]. split; [exact L|]. split; [exact WT|].
    split; [destruct P1 as [H1 H2 H3 H4 H5 H6 H7]; constructor; auto; apply held_more; exact H3|]. split.
    + intros NP. apply K1. split; [exact (kbd_quiet _ _ _ _ _ R NP)|]. intros j _. apply (cap_never _ _ _ _ NP).
    + exists passes, (cl ++ map (Z.add d) [4], d + t). apply (common_pass bytes k rest capped m0 n (n + n1) i passes cl d (pos i) m m1 [4] t [] (pos i) ltac:(lia) WT C E1 S1); [rewrite app_nil_r; reflexivity|].
      pose proof (pz_wr _ _ _ _ P1). pose proof (in_frame rest i). lia.
  - destruct RS as (RD & PC & EF & SS & WW). assert (LL : acked_at i + 2048 <= len) by (pose proof (h_len _ _ _ (rdy_held _ _ _ _ RD)); lia).
    assert (RS : resumed bytes (acked_at i) (pos i) 73 [4; 38] m m1).
    { pose proof (address_frame _ _ _ PL i L) as AF. pose proof (pos_ge rest i) as PG.
      split; [destruct RD as [H1 H2 H3 H4 H5 H6]; constructor; auto; apply held_more; exact H2|]. rewrite !sb_prefix by lia. auto. }
    destruct (resume_common bytes k rest PL capped m0 n (n + n1) i passes cl d m m1 73 [4; 38] ltac:(lia) L WT C RS) as (A1 & A2 & A3 & A4).
    exists (n + n1)%nat, m1. split; [lia|]. left. split; [exact LL|]. right. split; [exact RB|]. split; [exact L|]. split; [exact A1|]. split; [exact A2|]. split; [exact A3|].
    eexists. split; [exact A4|]. intros NP. destruct (QT NP) as (Q1 & w & Q2). apply Forall_app. split; [exact Q1|]. constructor; [|constructor].
    injection Q2 as -> ->. exact (polls_done w).
Qed.
Lemma start_left' n m : delivers sched -> 256 <= len -> at_phase n Start m -> exists n' m', (n < n')%nat /\ at_phase n' (Wait 0) m'.
Proof.
  intros D B. apply (leave_wait sent sched D 256 B (fun n m => at_phase n Start m) (fun n m => at_phase n (Wait 0) m)).
  intros a ma A. destruct (start_sent a ma A) as (n' & m' & L & [[_ A']|[A' ST]]); exists n', m'; split; auto.
Qed.
Lemma wait_left' i n m : delivers sched -> acked_at i + 2048 <= len -> at_phase n (Wait i) m ->
  exists n' m', (n < n')%nat /\ (at_phase n' (Pause i) m' \/ at_phase n' (At i) m').
Proof.
  intros D B. apply (leave_wait sent sched D (acked_at i + 2048) B (fun n m => at_phase n (Wait i) m) (fun n' m' => at_phase n' (Pause i) m' \/ at_phase n' (At i) m')).
  intros a ma A. destruct (wait_sent a i ma A) as (n' & m' & L & [[_ A']|(A' & _ & ST)]); exists n', m'; split; auto.
Qed.
Lemma wait_done' i n m : delivers sched -> user sched m0 -> acked_at i + 2048 <= len -> at_phase n (Wait i) m -> exists n' m', (n < n')%nat /\ at_phase n' (At i) m'.
Proof.
  intros D U B A. destruct (wait_left' i n m D B A) as (n1 & m1 & L1 & [A1|A1]); [|exists n1, m1; auto].
  destruct (pause_left bytes k rest PL capped m0 (cap_user _ _ _ _ U) i n1 m1 A1) as (n2 & m2 & L2 & A2). exists n2, m2. split; [lia|exact A2].
Qed.
Lemma acked_mono i : (S i <= length rest)%nat -> acked_at i <= acked_at (S i).
Proof.
  intros L. destruct (nth_error rest i) as [op|] eqn:E; [|apply nth_error_None in E; lia].
  destruct (op_kind _ _ _ PL _ _ E) as [(t & p & c & o & ->)|(a & ->)]; [destruct (tick_frame _ _ _ PL _ _ _ _ _ E)|destruct (ack_frame _ _ _ PL _ _ E)]; lia.
Qed.
Lemma reach_sent i : delivers sched -> user sched m0 -> (i <= length rest)%nat -> acked_at i + 2048 <= len -> exists n m, at_phase n (At i) m.
Proof.
  intros D U. induction i as [|i IH]; intros L B.
  - rewrite acked_0 in B. destruct (start_left' 0 m0 D ltac:(lia) (at_start bytes k rest capped m0 (connected_more _ C0))) as (n1 & m1 & _ & A1).
    destruct (wait_done' _ _ _ D U ltac:(rewrite acked_0; lia) A1) as (n2 & m2 & _ & A2). eauto.
  - pose proof (acked_mono i L) as AM. destruct (IH ltac:(lia) ltac:(lia)) as (n & m & A). destruct (advance_at bytes k rest PL capped m0 n i m A ltac:(lia)) as (n' & ph' & m' & _ & A' & [->| ->]); [eauto|].
    destruct (wait_done' _ _ _ D U B A') as (n2 & m2 & _ & A2). eauto.
Qed.

(** ** and when nothing more arrives *)
Lemma at_there n i m : at_phase n (At i) m -> acked_at i + 2048 <= len.
Proof. intros A. pose proof (phase_wr _ _ _ A). destruct A as (_ & _ & _ & _ & W & _). lia. Qed.
Lemma whole_acked i : acked_at i + 2048 <= len <-> acked_at i + 2048 <= whole_frames sent.
Proof. unfold whole_frames. pose proof (in_frame rest i) as (_ & _ & M). set (a := acked_at i) in *. set (l := len). clearbody a l. clear - M. split; intros; dlia. Qed.
Lemma whole_pos i : (i <= length rest)%nat -> pos i + 2 <= whole_frames sent <-> acked_at i + 2048 <= len.
Proof.
  intros L. rewrite whole_acked. pose proof (address_frame _ _ _ PL i L) as AF. pose proof (in_frame rest i) as (B & _ & M). unfold whole_frames.
  set (a := acked_at i) in *. set (q := pos i) in *. set (l := len). clearbody a q l. clear - M AF B. split; intros; dlia.
Qed.
(** from a wait that cannot end *)
Definition polled_times (w : nat) (m m' : machine) : Prop := effect m m' (25 * Z.of_nat w) (map (fun j => 25 * Z.of_nat j + 4) (seq 0 w)) [] [] [].
Lemma stuck i : len < acked_at i + 2048 -> forall n m, at_phase n (Wait i) m -> forall N, exists n' m' w, (N <= n')%nat /\ (n <= n')%nat /\ at_phase n' (Wait i) m' /\ polled_times w m m'.
Proof.
  intros B n m A. induction N as [|N IH].
  - exists n, m, O. split; [lia|]. split; [lia|]. split; [exact A|]. exact (effect_refl m).
  - destruct IH as (n' & m' & w & L1 & L2 & A' & P). destruct (wait_sent n' i m' A') as (n2 & m2 & L3 & [[X _]|(A2 & P2 & _)]); [lia|].
    exists n2, m2, (S w). split; [lia|]. split; [lia|]. split; [exact A2|].
    unfold polled_times. rewrite seq_S, map_app. cbn [map Nat.add]. replace (25 * Z.of_nat (S w)) with (25 * Z.of_nat w + 25) by lia.
    exact (effect_trans m m' m2 _ _ _ _ _ _ _ _ _ _ P P2).
Qed.
Lemma stuck_all i n m : len < acked_at i + 2048 -> at_phase n (Wait i) m -> forall N, (n <= N)%nat -> exists mN, run sent sched N m0 = Some mN /\
  shows k mN (play (firstn i rest)) /\ taken mN = taken m0 ++ first_bytes bytes (pos i) /\
  exists n' m' w, (N <= n')%nat /\ run sent sched n' m0 = Some m' /\ waiting bytes (acked_at i) (pos i) m' /\ polled_times w m m'.
Proof.
  intros B A N LN. destruct (stuck i B n m A N) as (n' & m' & w & L1 & L2 & A' & P).
  pose proof (phase_run _ _ _ A) as R. pose proof (phase_run _ _ _ A') as R'.
  destruct (run_split sent N n' sched m0 m' L1 R') as (mN & RN & RR). exists mN. split; [exact RN|].
  destruct (run_split sent n N sched m0 mN LN RN) as (mx & RX & RY). assert (mx = m) as -> by congruence.
  pose proof (run_fades _ _ _ _ _ RY) as (g1 & L3 & F1). pose proof (run_fades _ _ _ _ _ RR) as (g2 & L4 & F2).
  destruct (ef_log _ _ _ _ _ _ _ P) as (new & LN' & _ & SN & _). assert (E : new = g1 ++ g2). { rewrite L4, L3, <- app_assoc in LN'. apply app_inv_head in LN'. symmetry. exact LN'. }
  assert (NS : forall w0, In w0 new -> screen_write w0 = false).
  { intros w0 I. destruct (screen_write w0) eqn:SW; [|reflexivity]. exfalso. assert (X : In (w_aux w0, w_addr w0, w_val w0) (stores new)) by (unfold stores; apply in_map_iff; exists w0; split; [reflexivity|apply filter_In; auto]).
    rewrite SN in X. exact X. }
  assert (NA : forall a w0, 0x2000 <= a < 0x4000 -> In w0 new -> w_addr w0 <> a).
  { intros a w0 I1 I2 E1. specialize (NS w0 I2). unfold screen_write in NS. destruct (Z.leb_spec 0x2000 (w_addr w0)), (Z.ltb_spec (w_addr w0) 0x4000); try discriminate; lia. }
  assert (MM : forall b a, 0x2000 <= a < 0x4000 -> CpuModel.mem mN b a = CpuModel.mem m b a).
  { intros b a I. pose proof (ef_screen _ _ _ _ _ _ _ P b a I) as SE. cbn [fold_left] in SE.
    destruct (F1 b a I) as [X|X]; [intros w0 I0; apply NA; [exact I|rewrite E; apply in_or_app; auto]|exact X|].
    destruct (F2 b a I) as [Y|Y]; [intros w0 I0; apply NA; [exact I|rewrite E; apply in_or_app; auto]| |]; congruence. }
  split; [|split].
  - destruct A as (_ & _ & _ & _ & passes & p & CM & _). pose proof (common_shows _ _ _ _ _ _ _ _ _ _ PL CM) as SH. intros b p' o OK P1 O1. rewrite MM by lia. apply SH; assumption.
  - destruct (run_log _ _ _ _ _ RY) as (_ & (t1 & T1) & _). destruct (run_log _ _ _ _ _ RR) as (_ & (t2 & T2) & _). pose proof (ef_taken _ _ _ _ _ _ _ P) as T3.
    assert (t1 = []) as ->. { rewrite T2, T1, <- app_assoc in T3. apply app_inv_head in T3. destruct t1; [reflexivity|discriminate]. }
    rewrite app_nil_r in T1. rewrite T1. destruct A as (_ & _ & _ & _ & passes & p & CM & _). apply (cm_taken _ _ _ _ _ _ _ _ _ _ CM).
  - exists n', m', w. split; [exact L1|]. split; [exact R'|]. split; [apply A'|exact P].
Qed.
(** the last opcode that can be reached *)
Lemma last_whole : len < acked_at (length rest) + 2048 -> 2048 <= len ->
  exists i a, nth_error rest i = Some (Ack a) /\ acked_at i + 2048 <= len < acked_at i + 4096.
Proof.
  intros B L. assert (H : forall d i, (i + d)%nat = length rest -> acked_at i + 2048 <= len -> exists i a, nth_error rest i = Some (Ack a) /\ acked_at i + 2048 <= len < acked_at i + 4096).
  { induction d as [|d IH]; intros i E C; [replace i with (length rest) in C by lia; lia|].
    destruct (nth_error rest i) as [op|] eqn:N; [|apply nth_error_None in N; lia].
    destruct (op_kind _ _ _ PL _ _ N) as [(t & p & c & o & ->)|(a & ->)].
    - destruct (tick_frame _ _ _ PL _ _ _ _ _ N) as [_ T]. apply (IH (S i)); lia.
    - destruct (ack_frame _ _ _ PL _ _ N) as (_ & T & _). destruct (Z.lt_ge_cases len (acked_at i + 4096)) as [X|X]; [exists i, a; split; [exact N|lia]|]. apply (IH (S i)); lia. }
  apply (H (length rest) O); [lia|]. rewrite acked_0. lia.
Qed.
Lemma stalls : delivers sched -> user sched m0 -> 256 <= len -> len < acked_at (length rest) + 2048 ->
  exists i n m, (i <= length rest)%nat /\ pos i = Z.max 7 (whole_frames sent) /\ acked_at i = whole_frames sent /\ at_phase n (Wait i) m /\ len < acked_at i + 2048.
Proof.
  intros D U L B. destruct (Z.lt_ge_cases len 2048) as [SH|SH].
  - destruct (start_left' 0 m0 D L (at_start bytes k rest capped m0 (connected_more _ C0))) as (n1 & m1 & _ & A1). exists O, n1, m1. split; [lia|].
    assert (W : whole_frames sent = 0) by (unfold whole_frames; rewrite Z.div_small by lia; reflexivity). rewrite W, acked_0. split; [reflexivity|]. split; [reflexivity|]. split; [exact A1|lia].
  - destruct (last_whole B SH) as (i & a & N & C1 & C2). assert (LI : (i < length rest)%nat) by (apply nth_error_Some; congruence).
    destruct (ack_frame _ _ _ PL _ _ N) as (_ & T & Q). destruct (reach_sent i D U ltac:(lia) C1) as (n & m & A).
    destruct (advance_at bytes k rest PL capped m0 n i m A LI) as (n' & ph' & m' & _ & A' & [->| ->]); [pose proof (at_there _ _ _ A'); lia|].
    assert (W : whole_frames sent = acked_at i + 2048).
    { unfold whole_frames. pose proof (in_frame rest i) as (_ & _ & M). set (q := acked_at i) in *. set (l := len) in *. clearbody q l. clear - M C1 C2. dlia. }
    exists (S i), n', m'. split; [lia|]. split; [rewrite Q, W; pose proof (in_frame rest i); lia|]. split; [rewrite T, W; reflexivity|]. split; [exact A'|lia].
Qed.
(** ** On any schedule *)
Lemma always_phase : len < acked_at (length rest) + 2048 -> forall N, exists j ph m, (N <= j)%nat /\ at_phase j ph m.
Proof.
  intros B N. destruct (checkpoint bytes k rest PL capped m0 (connected_more _ C0) N) as [(j & m & _ & A)|H]; [|exact H]. pose proof (at_there _ _ _ A). lia.
Qed.
Lemma phase_taken' n ph m : at_phase n ph m -> exists c, 0 <= c <= Z.max 7 (whole_frames sent) /\ c <= len /\ taken m = taken m0 ++ first_bytes bytes c.
Proof.
  intros A. pose proof (phase_wr _ _ _ A) as W. pose proof (whole_frames sent) as _.
  assert (WT : forall i passes p, (i <= length rest)%nat -> waits k rest i -> common bytes k rest capped m0 n i (passes ++ [p]) (pos i) m -> 0 <= pos i <= Z.max 7 (whole_frames sent) /\ pos i <= len).
  { intros i passes p LI (op & ops & E & F & T) CM. pose proof (cm_wr _ _ _ _ _ _ _ _ _ _ CM) as CW. pose proof (pos_ge rest i) as PG. split; [|lia]. split; [lia|].
    destruct i as [|i]; [change (pos 0) with 7; lia|]. destruct (nth_error rest i) as [o|] eqn:N.
    - rewrite (done_snoc _ _ _ _ N) in E. apply app_inj_tail in E. destruct E as [_ <-]. destruct (op_kind _ _ _ PL _ _ N) as [(t & pg & c & o' & ->)|(a & ->)]; [discriminate|].
      destruct (ack_frame _ _ _ PL _ _ N) as (_ & _ & Q). pose proof (in_frame rest i) as (_ & Z0 & M). assert (pos (S i) <= whole_frames sent); [|lia].
      rewrite Q in *. unfold whole_frames. set (q := acked_at i) in *. assert (CL : q + 2048 <= len) by lia. set (l := len) in *. clearbody q l. clear - M CL. dlia.
    - apply nth_error_None in N. lia. }
  destruct A as (R & P). destruct ph as [|i|i|i].
  - destruct P as (C & _ & T). exists 0. pose proof (h_wr _ _ _ (cn_held _ _ C)). split; [lia|]. split; [lia|]. rewrite T. symmetry. apply app_nil_r.
  - destruct P as (LI & WA & _ & passes & p & C & _). exists (pos i). destruct (WT _ _ _ LI WA C). split; [assumption|]. split; [assumption|]. apply (cm_taken _ _ _ _ _ _ _ _ _ _ C).
  - destruct P as (LI & WA & _ & _ & passes & p & C). exists (pos i). destruct (WT _ _ _ LI WA C). split; [assumption|]. split; [assumption|]. apply (cm_taken _ _ _ _ _ _ _ _ _ _ C).
  - destruct P as (LI & _ & _ & WR & passes & C & _). exists (pos i + 2). pose proof (pos_ge rest i). pose proof (proj2 (whole_pos i LI) ltac:(lia)). pose proof (cm_wr _ _ _ _ _ _ _ _ _ _ C).
    split; [lia|]. split; [lia|]. apply (cm_taken _ _ _ _ _ _ _ _ _ _ C).
Qed.
Lemma never_beyond N : len < acked_at (length rest) + 2048 -> exists m c, run sent sched N m0 = Some m /\
  0 <= c <= Z.max 7 (whole_frames sent) /\ c <= len /\ taken m = taken m0 ++ first_bytes sent c /\
  (forall b a, ~ may_change a -> CpuModel.mem m b a = CpuModel.mem m0 b a).
Proof.
  intros B. destruct (always_phase B N) as (j & ph & mj & L & A). destruct (run_split bytes N j capped m0 mj L (proj1 A)) as (m & R & RR).
  destruct (phase_taken' _ _ _ A) as (c & C1 & C2 & TC). destruct (run_log _ _ _ _ _ R) as (_ & (g0 & T0) & _). destruct (run_log _ _ _ _ _ RR) as (_ & (g & TG) & _).
  assert (E : g0 ++ g = first_bytes bytes c). { rewrite T0, TC, <- app_assoc in TG. apply app_inv_head in TG. symmetry. exact TG. }
  destruct (prefix_first _ _ _ _ E) as (c' & CB & ->). exists m, c'. split; [rewrite <- same_run; exact R|]. split; [lia|]. split; [lia|]. split.
  - rewrite T0. f_equal. unfold first_bytes. rewrite firstn_app. replace (Z.to_nat c' - length sent)%nat with O by lia. apply app_nil_r.
  - intros b a NM. destruct (writes_before bytes k rest capped m0 N j ph mj m R A L) as (new1 & new2 & LG & S1 & S2 & _).
    destruct (run_logged _ _ _ _ _ R) as (new & LN & MM). assert (new = new1 ++ new2) as -> by (rewrite LN in LG; apply app_inv_head in LG; exact LG).
    apply MM; [unfold on_screen; intros [H|H]; apply NM; unfold may_change; auto 10|].
    intros w I E'. apply NM. rewrite <- E'. apply in_app_or in I. destruct I as [I|I]; [apply start_may|apply allowed_may]; refine (proj1 (Forall_forall _ _) _ w I); assumption.
Qed.
(** before the header *)
Lemma no_header N : len < 256 -> exists n' m', (N <= n')%nat /\ at_phase n' Start m'.
Proof.
  intros B. induction N as [|N (n & m & L & A)]; [exists O, m0; split; [lia|]; apply at_start, connected_more, C0|].
  destruct (start_sent n m A) as (n' & m' & L' & [[X _]|[A' _]]); [lia|]. exists n', m'. split; [lia|exact A'].
Qed.
Lemma no_header_all N : len < 256 -> exists m new, run sent sched N m0 = Some m /\ taken m = taken m0 /\ log m = log m0 ++ new /\ clicks new = [] /\ stores new = [].
Proof.
  intros B. destruct (no_header N B) as (n' & m' & L & A). destruct (run_split bytes N n' capped m0 m' L (proj1 A)) as (m & R & RR).
  destruct (run_log _ _ _ _ _ R) as ((l0 & L0) & (g0 & T0) & _). destruct (run_log _ _ _ _ _ RR) as ((l1 & L1) & (g & TG) & _).
  destruct A as (_ & _ & (new & LG & CK & ST & _) & TK). exists m, l0. split; [rewrite <- same_run; exact R|].
  assert (new = l0 ++ l1) as ->. { rewrite L1, L0, <- app_assoc in LG. apply app_inv_head in LG. symmetry. exact LG. }
  rewrite clicks_app in CK. rewrite stores_app in ST. apply app_eq_nil in CK, ST. split; [|split; [exact L0|split; [apply CK|apply ST]]].
  rewrite TG, T0, <- app_assoc in TK. rewrite <- (app_nil_r (taken m0)) in TK at 2. apply app_inv_head, app_eq_nil in TK. destruct TK as [-> _]. rewrite T0. apply app_nil_r.
Qed.
End Truncated.

(** Conversions produce streams that can be played, and what is shown and heard
    then. *)
From Verif Require Import Base BaseFacts ScreenModel ScreenSpec BitmapModel BitmapSpec VideoModel VideoSpec VideoDisplay DisplaySpec OpcodeModel MovieModel MovieSpec
  MovieProofs MovieState MovieThms MovieFinal PropMovie SymbolModel SymbolSpec SymData AddrThms
  AsmModel PlayerCode CpuModel PlayerModel PlayerSpec PlaybackSpec PlaybackRead EffectProofs StartupProofs PlaybackProofs PlaybackThms.
Opaque lowcode code hgr resident startup symbols op_cmds TABLES all_pairs next sym_lits.

Lemma conversion_start c audio frames bytes rest : conversion c audio frames bytes rest -> c_start c = player_start.
Proof. intros CV. destruct (cv_addresses _ _ _ _ _ CV) as (contents & L & F). rewrite (fill_player _ L) in F. injection F as F. symmetry. exact F. Qed.
Lemma conversion_knows c audio frames bytes rest : conversion c audio frames bytes rest -> recognises c player_which.
Proof. intros CV cm I. rewrite (conversion_start _ _ _ _ _ CV). apply which_start, I. Qed.

Lemma position_next ops i op : nth_error ops i = Some op -> position ops (S i) = position ops i + opcode_size op.
Proof.
  intros H. unfold position. rewrite (firstn_snoc _ _ _ H). clear H. induction (firstn i ops) as [|x l IH]; cbn [app total_size fold_right] in *; [lia|].
  unfold total_size in IH. lia.
Qed.
(** positions in a frame are multiples of seven *)
Lemma sevens c ops s : Framed c ops s -> Forall (fun op => is_ack op = true \/ opcode_size op = 7) ops ->
  forall i, (i <= length ops)%nat -> exists j, 0 <= j <= 292 /\ position ops i mod 2048 = 7 * j.
Proof.
  intros F SZ. induction i as [|i IH]; intros L; [exists 0; split; [lia|reflexivity]|].
  destruct (IH ltac:(lia)) as (j & J & E). destruct (nth_error ops i) as [op|] eqn:N; [|apply nth_error_None in N; lia].
  destruct (fr_place _ _ _ F i op N) as (A & P & _). rewrite (position_next _ _ _ N).
  pose proof (proj1 (Forall_forall _ _) SZ op (nth_error_In _ _ N)) as H.
  destruct (is_ack op) eqn:K.
  - exists 0. split; [lia|]. destruct op; try discriminate. cbn [opcode_size]. pose proof (proj1 A K) as M. clear - M P. set (x := position ops i) in *. clearbody x. dlia.
  - destruct H as [H|H]; [congruence|]. rewrite H. assert (NE : position ops i mod 2048 <> 2044) by (intros X; apply A in X; congruence).
    exists (j + 1). clear - J E NE P. set (x := position ops i) in *. clearbody x. split; dlia.
Qed.

Lemma conversion_playable c audio frames bytes rest : conversion c audio frames bytes rest -> playable bytes (c_mode c) rest.
Proof.
  intros CV. pose proof (conversion_knows _ _ _ _ _ CV) as W. pose proof (conversion_start _ _ _ _ _ CV) as ST.
  destruct (cv_opcodes _ _ _ _ _ CV) as (zs & R).
  destruct (read_run c audio frames bytes player_which _ rest zs (cv_output _ _ _ _ _ CV) (cv_limit _ _ _ _ _ CV) W R) as (_ & s & A & B & F & _ & _ & L).
  assert (OPS : Forall (fun op => is_tick op = true \/ is_ack op = true) rest).
  { destruct (fr_start _ _ _ F) as [[X _]|[_ (r & X & H)]]; [discriminate|]. injection X as <-. exact H. }
  constructor.
  - intros b Hb. refine (proj1 (Forall_forall _ _) (C32_bytes c audio frames bytes (cv_config _ _ _ _ _ CV) (cv_audio _ _ _ _ _ CV) (cv_frames _ _ _ _ _ CV) _ (cv_output _ _ _ _ _ CV)) b Hb).
    intros cm I. rewrite ST. pose proof (start_range cm I). lia.
  - exists zs. exact R.
  - exact OPS.
  - intros ops i op N. destruct (fr_place _ _ _ F i op N) as (K & P & _).
    assert (SZ : Forall (fun op => is_ack op = true \/ opcode_size op = 7) ops).
    { constructor; [right; reflexivity|]. eapply Forall_impl; [|exact OPS]. intros x [T|T]; [right; destruct x; try discriminate; reflexivity|left; exact T]. }
    destruct (is_ack op) eqn:KA; [apply K; reflexivity|].
    pose proof (proj1 (Forall_forall _ _) SZ op (nth_error_In _ _ N)) as [H|H]; [congruence|]. rewrite H.
    destruct (sevens c ops s F SZ i) as (j & J & E). { apply Nat.lt_le_incl, nth_error_Some. congruence. }
    assert (NE : position ops i mod 2048 <> 2044) by (intros X; apply K in X; congruence).
    fold ops in P. clear - J E NE P. set (x := position ops i) in *. clearbody x. dlia.
  - rewrite L. rewrite Z.mul_comm. apply Z.mod_mul. lia.
  - intros KH a IA. destruct (C33_acks_alternate c audio frames bytes player_which _ rest zs (cv_output _ _ _ _ _ CV) (cv_limit _ _ _ _ _ CV) W R) as (_ & AL).
    assert (IF : In (Ack a) (filter is_ack rest)) by (apply filter_In; split; [exact IA|reflexivity]).
    destruct (In_nth_error _ _ IF) as (i & N). specialize (AL i _ N). rewrite KH in AL. injection AL as ->. reflexivity.
Qed.

(** ** What is shown *)
Lemma cmd_page t p : In (TICK t p) op_cmds -> 32 <= p < 64.
Proof. intros H. apply LayoutProofs.cmd_range in H. lia. Qed.
Lemma rest_drawable bytes k rest : playable bytes k rest -> forall i, Forall drawable (firstn i rest).
Proof.
  intros PL i. apply Forall_forall. intros op H. assert (I : In op rest) by (rewrite <- (firstn_skipn i rest); apply in_or_app; left; exact H).
  destruct (In_nth_error _ _ I) as (j & N). assert (L : (j <= length rest)%nat) by (apply Nat.lt_le_incl, nth_error_Some; congruence).
  destruct (read_at _ _ _ PL j L) as (W & _ & D). destruct (D _ N) as [LB DT]. apply which_some in W. destruct W as [IC _]. unfold nth_command in IC. rewrite N in IC.
  destruct op as [| | | |t p c o]; cbn [drawable]; auto. split; [apply (cmd_page _ _ IC)|]. cbn in DT. destruct DT as [_ ->].
  assert (SB : forall j, 0 <= sb bytes j < 256).
  { intros x. unfold sb. destruct (nth_in_or_default (Z.to_nat x) bytes 0) as [H1|H1]; [apply (pl_bytes _ _ _ PL), H1|rewrite H1; lia]. }
  repeat constructor; apply SB.
Qed.
Lemma common_shows bytes k rest sched m0 n i passes c m : playable bytes k rest -> common bytes k rest sched m0 n i passes c m -> shows k m (play (firstn i rest)).
Proof.
  intros PL C b p o OK P O. destruct (cm_start _ _ _ _ _ _ _ _ _ _ C) as (n0 & ms & _ & _ & (_ & _ & _ & BL & _) & got & E).
  rewrite (ef_screen _ _ _ _ _ _ _ E) by lia.
  apply (stores_show (fun b => k = HGR -> b = false) (firstn i rest) (rest_drawable _ _ _ PL i)); auto.
  intros b' a' OK' A'. destruct (BL a' A') as [B1 B2]. destruct b'; [|exact B1]. apply B2. destruct k; [specialize (OK' eq_refl); discriminate|reflexivity].
Qed.

(** the encoder's state when the first [i] opcodes have been compiled; an ACK is
    compiled together with the opcode before it *)
Lemma run_prefixes c s0 ops s : stream_run c s0 ops s -> forall i, (i <= length ops)%nat ->
  exists i' s', stream_run c s0 (firstn i' ops) s' /\ (i' = i \/ (i' = S i /\ exists a, nth_error ops i = Some (Ack a))).
Proof.
  induction 1 as [|ops s new s' R IH E]; intros i L.
  - exists O, s0. split; [constructor|]. cbn in L. left. lia.
  - destruct (Nat.le_gt_cases i (length ops)) as [LE|GT].
    + destruct (Nat.eq_dec i (length ops)) as [->|NE].
      * exists (length ops), s. rewrite firstn_app, Nat.sub_diag, firstn_all, app_nil_r. auto.
      * destruct (IH i LE) as (i' & s1 & R1 & H1). exists i', s1.
        assert (L' : (i' <= length ops)%nat) by (destruct H1 as [->|[-> _]]; lia).
        rewrite firstn_app. replace (i' - length ops)%nat with O by lia. cbn [firstn]. rewrite app_nil_r. split; [exact R1|].
        destruct H1 as [H1|[H1 (a & H2)]]; [auto|right]. split; [exact H1|]. exists a. rewrite nth_error_app1 by lia. exact H2.
    + exists (length (ops ++ new)), s'. rewrite firstn_all. split; [econstructor; eauto|].
      destruct (step_shape _ _ _ _ E) as (op & _ & [->|(a & ->)]); rewrite app_length in *; cbn [length] in *.
      * left. lia.
      * destruct (Nat.eq_dec i (length ops + 2)) as [->|NE]; [left; reflexivity|right]. split; [lia|]. exists a. rewrite nth_error_app2 by lia. replace (i - length ops)%nat with 1%nat by lia. reflexivity.
Qed.
Lemma conversion_state c audio frames bytes rest : conversion c audio frames bytes rest -> forall i, (i <= length rest)%nat ->
  exists i' s, stream_run c (movie_new c audio frames) (Header (c_mode c) :: firstn i' rest) s /\
    (i' = i \/ (i' = S i /\ exists a, nth_error rest i = Some (Ack a))) /\
    exists q mm, shown (c_table c) (c_mode c) q (m_video (s_movie s)) mm /\ forall b, d_mem (play (firstn i rest)) b = mm b.
Proof.
  intros CV i L. pose proof (conversion_knows _ _ _ _ _ CV) as W. destruct (cv_opcodes _ _ _ _ _ CV) as (zs & R).
  destruct (read_run c audio frames bytes player_which _ rest zs (cv_output _ _ _ _ _ CV) (cv_limit _ _ _ _ _ CV) W R) as (_ & s & A & _).
  destruct (run_prefixes c _ _ _ A (S i) ltac:(cbn [length]; lia)) as (i' & s' & A' & H').
  assert (exists j, i' = S j /\ (j = i \/ (j = S i /\ exists a, nth_error rest i = Some (Ack a)))) as (j & -> & H).
  { destruct H' as [->|[-> H']]; eauto 6. }
  cbn [firstn] in A'. exists j, s'. split; [exact A'|]. split; [exact H|].
  destruct (run_inv c audio frames (cv_config _ _ _ _ _ CV) (cv_audio _ _ _ _ _ CV) (cv_frames _ _ _ _ _ CV) _ _ A') as (n & I).
  destruct (inv_shows _ _ _ _ _ _ I) as (q & mm & SH & E). exists q, mm. split; [exact SH|]. intros b. rewrite <- E.
  change (play (Header (c_mode c) :: firstn j rest)) with (play (firstn j rest)).
  destruct H as [->|[-> (a & N)]]; [reflexivity|]. rewrite (firstn_snoc _ _ _ N), play_snoc. reflexivity.
Qed.

(** ** Playback, opcode by opcode *)
Lemma phase_opcode bytes k rest sched m0 n i m : playable bytes k rest -> at_phase bytes k rest sched m0 n (At i) m -> at_opcode bytes rest i m0 m.
Proof.
  intros PL (R & L & RD & P & W & passes & C & _). destruct (read_at _ _ _ PL i L) as (WH & _). apply which_some in WH. destruct WH as [IC _].
  split; [rewrite P; apply LayoutProofs.op_address, IC|]. split; [apply (rdy_ptr _ _ _ _ RD)|]. apply (cm_taken _ _ _ _ _ _ _ _ _ _ C).
Qed.
Lemma all_opcodes bytes k rest sched m0 : playable bytes k rest -> connected bytes m0 -> delivers sched -> user sched m0 ->
  exists time : nat -> nat, forall i, (i <= length rest)%nat -> (i < length rest -> time i < time (S i))%nat /\ exists m, at_phase bytes k rest sched m0 (time i) (At i) m.
Proof.
  intros PL C D U.
  assert (H : forall j, (j <= length rest)%nat -> exists time : nat -> nat, forall i, (i <= j)%nat -> (i < j -> time i < time (S i))%nat /\ exists m, at_phase bytes k rest sched m0 (time i) (At i) m).
  { induction j as [|j IH]; intros L.
    - destruct (reach_at bytes k rest PL sched m0 C D U 0 ltac:(lia)) as (n & m & A). exists (fun _ => n). intros i Hi. split; [lia|]. replace i with O by lia. eauto.
    - destruct (IH ltac:(lia)) as (f & F). destruct (F j ltac:(lia)) as (_ & m & A).
      destruct (next_at bytes k rest PL sched m0 D U j _ m ltac:(lia) A) as (n' & m' & L' & A').
      exists (fun i => if Nat.eq_dec i (S j) then n' else f i). intros i Hi.
      destruct (Nat.eq_dec i (S j)) as [->|NE].
      + split; [lia|]. eauto.
      + destruct (F i ltac:(lia)) as (F1 & F2). split; [|exact F2]. intros _. destruct (Nat.eq_dec (S i) (S j)) as [E|NE2]; [injection E as ->; exact L'|apply F1; lia]. }
  apply (H (length rest) ltac:(lia)).
Qed.
(** closed form of the time *)
Definition headers (op : opcode) : bool := match op with Header _ => true | _ => false end.
Lemma quiet_time : forall ops t ws, Forall timed ops -> length ws = count_passes ops ->
  time_of t ops (map quiet_pass ws) = t + 73 * count is_tick ops + 146 * count is_ack ops + 73 * count headers ops + 25 * Z.of_nat (list_sum ws).
Proof.
  unfold count_passes, count. induction ops as [|op ops IH]; intros t ws F L.
  - destruct ws; [cbn; lia|discriminate].
  - inversion F as [|? ? T F']; subst. destruct op as [x| | |x|d p c o]; destruct T as [T|T]; try discriminate; cbn [filter takes_pass is_tick is_ack headers length time_of] in *.
    + destruct ws as [|w ws]; [discriminate|]. cbn [map quiet_pass time_of list_sum fold_right length] in *. rewrite IH by (assumption || lia). cbn [list_sum fold_right]. unfold list_sum. lia.
    + destruct ws as [|w ws]; [discriminate|]. cbn [map quiet_pass time_of list_sum fold_right length] in *. rewrite IH by (assumption || lia). unfold list_sum. lia.
    + rewrite IH by assumption. lia.
Qed.
Lemma undisturbed_list passes : Forall undisturbed passes -> exists ws, passes = map quiet_pass ws.
Proof. induction 1 as [|p l (w & ->) F (ws & ->)]; [exists []; reflexivity|]. exists (w :: ws). reflexivity. Qed.

(** ** The player's code *)
Lemma own_not_code a s bytes i b : In (a, s) resident -> encode symbols a s = Some bytes -> nth_error bytes i = Some (true, b) -> ~ own_operand (a + Z.of_nat i).
Proof.
  intros I E N. pose proof (PlayerExec.encode_length _ _ _ E) as L. assert (LI : (i < length bytes)%nat) by (apply nth_error_Some; congruence).
  assert (L2 : Z.of_nat i < size s) by lia. clear L LI.
  intros [(j & e & J & X)|(j & e & J & X)].
  - destruct (PlayerExec.resident_disjoint _ _ _ _ I J) as [D|[D|[-> ->]]]; cbn [size operand_size] in *; [lia|lia|].
    cbn [encode] in E. unfold encode_ins in E. destruct (opcode_byte iJMP _); [|discriminate]. destruct (operand_value symbols j (Abs e)); [|discriminate].
    destruct (operand_fits _ _); [|discriminate]. cbn [operand_bytes map] in E. injection E as <-.
    destruct X as [X|X]; assert (i = 1%nat \/ i = 2%nat) as [->| ->] by lia; discriminate.
  - destruct (PlayerExec.resident_disjoint _ _ _ _ I J) as [D|[D|[-> ->]]]; cbn [size operand_size] in *; [lia|lia|].
    cbn [encode] in E. unfold encode_ins in E. destruct (opcode_byte iSTA _); [|discriminate]. destruct (operand_value symbols j (Abs e)); [|discriminate].
    destruct (operand_fits _ _); [|discriminate]. cbn [operand_bytes map] in E. injection E as <-.
    assert (i = 1%nat) as -> by lia. discriminate.
Qed.
Lemma code_fixed a s bytes i b : In (a, s) resident -> encode symbols a s = Some bytes -> nth_error bytes i = Some (true, b) -> ~ may_change (a + Z.of_nat i).
Proof.
  intros I E N. pose proof (own_not_code _ _ _ _ _ I E N) as NO. pose proof (PlayerExec.encode_length _ _ _ E) as L.
  assert (LI : (i < length bytes)%nat) by (apply nth_error_Some; congruence). pose proof (PlayerExec.resident_bounds _ _ I) as B. unfold may_change.
  intros [H|[H|[H|[H|[H|[H|[H|H]]]]]]]; try (clear NO; lia). exact (NO H).
Qed.
Lemma code_intact bytes k rest sched m0 n m : playable bytes k rest -> connected bytes m0 -> not_over bytes sched m0 n -> run bytes sched n m0 = Some m -> loaded resident m.
Proof.
  intros PL C NO R a s bs i b I E N. rewrite (memory_intact _ _ _ PL sched m0 n m C NO R) by (apply (code_fixed _ _ _ _ _ I E N)). exact (cn_code _ _ C a s bs i b I E N).
Qed.

(** How far apart the toggles of the speaker are (C92): lists of toggles in which
    each is 4 to 69 cycles after the one before. *)
From Verif Require Import Base BaseFacts ScreenModel BitmapModel VideoModel VideoSpec OpcodeModel MovieModel MovieSpec SymbolModel SymbolSpec SymData AddrThms
  AsmModel PlayerCode CpuModel PlayerModel PlayerSpec PlaybackSpec PlaybackRead PlaybackProofs PropPlayer PropPlayback.
Opaque lowcode code hgr resident startup symbols op_cmds TABLES.

(** [l] goes from [a] (included) to [b] (excluded) *)
Fixpoint path (a : Z) (l : list Z) (b : Z) : Prop :=
  match l with [] => a = b | x :: l' => x = a /\ exists c, 4 <= c - a <= 69 /\ path c l' b end.
Lemma path_app l' c : forall l a b, path a l b -> path b l' c -> path a (l ++ l') c.
Proof.
  induction l as [|x l IH]; intros a b H1 H2; cbn [path app] in *; [subst; exact H2|].
  destruct H1 as (E & d & L & P). split; [exact E|]. exists d. split; [exact L|]. exact (IH d b P H2).
Qed.
Lemma path_map t : forall l a b, path a l b -> path (t + a) (map (Z.add t) l) (t + b).
Proof.
  induction l as [|x l IH]; intros a b H; cbn [path map] in *; [congruence|]. destruct H as (E & d & L & P). split; [congruence|].
  exists (t + d). split; [lia|]. exact (IH d b P).
Qed.
Lemma path_polls w : path 4 (map (fun j => 25 * Z.of_nat j + 4) (seq 0 w)) (25 * Z.of_nat w + 4).
Proof.
  induction w as [|w IH]; [reflexivity|]. rewrite seq_S, map_app. eapply path_app; [exact IH|]. cbn [map path Nat.add].
  split; [reflexivity|]. exists (25 * Z.of_nat (S w) + 4). split; [lia|reflexivity].
Qed.
Lemma path_pass w : path 4 (poll_clicks w) (25 * Z.of_nat w + 73 + 4).
Proof.
  unfold poll_clicks. eapply path_app; [exact (path_polls w)|]. cbn [path]. split; [reflexivity|]. exists (25 * Z.of_nat w + 38). split; [lia|].
  split; [reflexivity|]. eexists. split; [|reflexivity]. lia.
Qed.
(** ticks whose toggles are less than 73 cycles apart *)
Definition tick_ok (op : opcode) : Prop := match op with Tick d _ _ _ => 4 <= tick_cycles d <= 66 | Header _ | Ack _ => True | _ => False end.
Lemma path_clicks : forall ops t ws, Forall tick_ok ops -> length ws = count_passes ops ->
  path (t + 4) (clicks_of t ops (map quiet_pass ws)) (time_of t ops (map quiet_pass ws) + 4).
Proof.
  induction ops as [|op ops IH]; intros t ws F L; [reflexivity|]. inversion F as [|? ? K F']; subst.
  destruct op; cbn [tick_ok] in K; try contradiction; unfold count_passes in L; cbn [filter takes_pass length] in L.
  - destruct ws as [|w ws]; [discriminate|]. cbn [map clicks_of time_of quiet_pass].
    eapply path_app; [exact (path_map t _ _ _ (path_pass w))|]. replace (t + (25 * Z.of_nat w + 73 + 4)) with (t + (25 * Z.of_nat w + 73) + 4) by lia.
    apply IH; [exact F'|]. injection L as L. exact L.
  - destruct ws as [|w ws]; [discriminate|]. cbn [map clicks_of time_of quiet_pass].
    change ([t + 4; t + 38] ++ ?x) with ([t + 4; t + 38] ++ x). eapply path_app with (b := t + 73 + 4).
    + cbn [path]. split; [reflexivity|]. exists (t + 38). split; [lia|]. split; [reflexivity|]. eexists. split; [|reflexivity]. lia.
    + eapply path_app; [exact (path_map (t + 73) _ _ _ (path_pass w))|]. replace (t + 73 + (25 * Z.of_nat w + 73 + 4)) with (t + 73 + (25 * Z.of_nat w + 73) + 4) by lia.
      apply IH; [exact F'|]. injection L as L. exact L.
  - cbn [clicks_of time_of]. eapply path_app with (b := t + 73 + 4); [|apply IH; [exact F'|exact L]].
    cbn [path]. split; [reflexivity|]. eexists. split; [|split; [reflexivity|]]; [lia|]. eexists. split; [|reflexivity]. lia.
Qed.

(** what a path says about its list *)
Lemma path_hd a l b : path a l b -> a < b -> hd_error l = Some a.
Proof. destruct l as [|x l]; cbn [path hd_error]; intros H L; [lia|]. destruct H as [-> _]. reflexivity. Qed.
Lemma path_gaps : forall l a b, path a l b -> forall i x y, nth_error l i = Some x -> nth_error l (S i) = Some y -> 4 <= y - x <= 69.
Proof.
  induction l as [|z l IH]; intros a b H i x y N1 N2; [destruct i; discriminate|]. destruct H as (E & c & L & P).
  destruct i as [|i]; [|exact (IH c b P i x y N1 N2)]. cbn [nth_error] in N1, N2. destruct l as [|z' l]; [discriminate|]. destruct P as (E' & _). cbn [nth_error] in N2.
  injection N1 as <-. injection N2 as <-. lia.
Qed.
Lemma path_covers : forall l a b, path a l b -> forall x, a <= x < b -> exists c, In c l /\ x - 69 < c <= x.
Proof.
  induction l as [|z l IH]; intros a b H x L; cbn [path] in H; [lia|]. destruct H as (E & c & G & P).
  destruct (Z.lt_ge_cases x c) as [X|X].
  - exists a. split; [left; exact E|lia].
  - destruct (IH c b P x ltac:(lia)) as (d & I & D). exists d. split; [right; exact I|exact D].
Qed.

Section S.
Variable bytes : list Z.
Variable k : kind.
Variable rest : list opcode.
Hypothesis PL : playable bytes k rest.
Lemma ticks_ok i : Forall tick_ok (Header k :: firstn i rest).
Proof.
  constructor; [exact I|]. apply Forall_forall. intros op H. assert (J : In op rest) by (rewrite <- (firstn_skipn i rest); apply in_or_app; left; exact H).
  destruct (In_nth_error _ _ J) as (j & N). assert (L : (j <= length rest)%nat) by (apply Nat.lt_le_incl, nth_error_Some; congruence).
  destruct (op_kind _ _ _ PL _ _ N) as [(t & p & c & o & ->)|(a & ->)]; [|exact I].
  destruct (read_at _ _ _ PL j L) as (W & _). unfold nth_command in W. rewrite N in W. cbn [command] in W.
  apply C44_addresses in W. destruct W as (W & _). pose proof (C40_duty_cycle t p W) as (T1 & _ & T2). cbn [tick_ok].
  unfold tick_cycles in *. destruct (Z.eqb_spec t 22); [|destruct (Z.eqb_spec t 40)]; lia.
Qed.
End S.

(** C66: serving a movie. *)
From Verif Require Import Base BaseFacts OpcodeModel MovieSpec ServerModel ServerSpec ServerProofs.
From Verif Require CpuModel PlayerSpec PlaybackSpec PlaybackThms PlaybackConv BootSpec TruncProofs PropPlayback PropBoot PropTrunc.

(** Whatever clients connect, drop and take, and however the file changes: every
    client has at any time received the beginning of one version of the file ... *)
Theorem C66_beginning_of_file : forall content es c,
  exists v, In v (versions content es) /\ begins (got (after content es) c) v.
Proof.
  intros content es c. destruct (g_data _ _ (after_given content es) c) as (v & I & (more & ->) & _). exists (got (after content es) c ++ flight (after content es) c ++ more).
  split; [rewrite app_assoc; exact I|]. eexists. reflexivity.
Qed.
Print Assumptions C66_beginning_of_file.
(** ... all of it once the server is done with it (but for what is still on its
    way), unless it has dropped the connection ... *)
Theorem C66_all_of_it : forall content es c, let s := after content es in
  finished s c -> gone s c = false -> In (got s c ++ flight s c) (versions content es).
Proof.
  intros content es c s F G. destruct (g_data _ _ (after_given content es) c) as (v & I & _ & _ & E). fold s in E. rewrite (E F G). exact I.
Qed.
Print Assumptions C66_all_of_it.
(** ... in the order of the connections: nothing is sent to a client before all
    earlier ones are done. *)
Theorem C66_in_turn : forall content es c d, let s := after content es in
  (c < d)%nat -> got s d <> [] -> finished s c.
Proof. intros content es c d s L G. apply (in_turn content es c d L). fold s. destruct (got s d); [contradiction|discriminate]. Qed.
Print Assumptions C66_in_turn.
(** So a client that takes nothing more and does not drop the connection blocks
    all others for ever. *)
Theorem C66_stalled_client_blocks : forall content es es' c d, let s := after content es in let s' := after content (es ++ es') in
  in_service s c -> gone s c = false -> (c < d)%nat -> (forall e, In e es' -> e <> Drop c /\ forall n, e <> Pass (S n)) ->
  in_service s' c /\ got s' d = [].
Proof.
  intros content es es' c d s s' (l & B) G L H. destruct (after_ordered content es) as [(a & _ & _ & BB & N)]. fold s in BB, N. destruct (BB c l B) as [AC NE].
  destruct (blocked s c l es' B NE G H) as [B' D']. assert (E : s' = fold_left step es' s) by (unfold s', s, after; rewrite fold_left_app; reflexivity).
  rewrite E. split; [exists l; exact B'|]. specialize (D' d ltac:(lia)). destruct (N d ltac:(lia)) as [F0 G0]. rewrite F0, G0 in D'. apply app_eq_nil in D'. apply D'.
Qed.
Print Assumptions C66_stalled_client_blocks.
(** If the network goes on accepting data, every client has its turn. *)
Theorem C66_everyone_served : forall content sched c t, serves sched -> connected (at_time content sched t) c ->
  exists t', (t <= t')%nat /\ forall t2, (t' <= t2)%nat -> finished (at_time content sched t2) c.
Proof.
  intros content sched c t SV C. destruct (everyone_served content sched SV c t C) as (t' & L & F). exists t'. split; [exact L|].
  intros t2 L2. exact (finished_stays content sched t' t2 c F L2).
Qed.
Print Assumptions C66_everyone_served.

(** A movie served while it is still being converted: the file holds a part of the
    finished movie.  The player that has connected is given such a part, [sent]; no
    opcode beyond its whole frames, such as the end of the movie, is ever reached,
    whatever the network does (see C65 for what it shows). *)
Theorem C66_served_while_converting : forall bytes k rest content es c, let s := after content es in
  PlaybackSpec.playable bytes k rest -> (forall v, In v (versions content es) -> begins v bytes) ->
  finished s c -> gone s c = false -> let sent := got s c ++ flight s c in
  begins sent bytes /\
  forall sched m0 n m i, PlaybackSpec.connected sent m0 -> CpuModel.run sent sched n m0 = Some m ->
    (i <= length rest)%nat -> PlaybackSpec.whole_frames sent < 7 + total_size (firstn i rest) + 2 ->
    ~ PlaybackSpec.at_opcode bytes rest i m0 m.
Proof.
  intros bytes k rest content es c s PL V F G sent. pose proof (C66_all_of_it content es c F G) as I. fold s in I. destruct (V _ I) as (more & E). fold sent in E.
  split; [exists more; exact E|]. intros sched m0 n m i CN R L W. exact (PropTrunc.C65_no_further bytes k rest sent more sched m0 n m i PL E CN R L W).
Qed.
Print Assumptions C66_served_while_converting.
(** A finished movie: the file is not written any more.  Every client the server is
    done with, and has not dropped, is given exactly the movie; a player started
    with that as its stream plays all of it (C58), whatever the network does. *)
Theorem C66_served_movie_plays : forall cfg audio frames bytes rest es c, let s := after bytes es in
  PlaybackSpec.conversion cfg audio frames bytes rest -> (forall e v, In e es -> e <> Write v) ->
  finished s c -> gone s c = false -> let sent := got s c ++ flight s c in
  sent = bytes /\
  forall sched m0, BootSpec.started m0 -> BootSpec.answers sched -> BootSpec.accepts sched -> PlaybackSpec.delivers sched -> PlaybackSpec.user sched m0 ->
    exists n m, CpuModel.run sent sched n m0 = Some m /\ PlaybackSpec.terminated m /\
      PlaybackSpec.at_opcode bytes rest (length rest) m0 m /\ PlaybackSpec.shows (MovieModel.c_mode cfg) m (play rest).
Proof.
  intros cfg audio frames bytes rest es c s CV NW F G sent. pose proof (C66_all_of_it bytes es c F G) as I. fold s in I. fold sent in I.
  assert (V : versions bytes es = [bytes]).
  { unfold versions. clear - NW. induction es as [|e es IH]; [reflexivity|]. cbn [flat_map].
    assert (E : match e with Write l => [l] | _ => [] end = []) by (destruct e; try reflexivity; exfalso; eapply NW; [left|]; reflexivity).
    rewrite E. cbn [app]. apply IH. intros e' v H. apply NW. right. exact H. }
  rewrite V in I. destruct I as [I|[]]. split; [symmetry; exact I|]. intros sched m0 ST AN AC D U. rewrite <- I.
  destruct (PropBoot.C58_plays_whole_movie _ _ _ _ _ sched m0 CV ST AN AC D U) as [_ (n & m & R & T & A & S & _)]. exists n, m. auto.
Qed.
Print Assumptions C66_served_movie_plays.
(** The port is the one the player connects to. *)
Theorem C66_same_port : forall stream sched m, BootSpec.started m -> BootSpec.answers sched -> BootSpec.accepts sched ->
  exists n m', CpuModel.run stream sched n m = Some m' /\ PlaybackSpec.connected stream m' /\
    256 * CpuModel.regs (CpuModel.net m') 0x410 + CpuModel.regs (CpuModel.net m') 0x411 = default_port.
Proof.
  intros stream sched m ST AN AC. destruct (PropBoot.C57_accepted stream sched m ST AN AC) as (n & m' & R & C & CF & _). exists n, m'. split; [exact R|]. split; [exact C|].
  pose proof (BootSpec.cf_port _ CF) as P. pose proof (P O _ eq_refl) as P0. pose proof (P 1%nat _ eq_refl) as P1. cbn [Z.of_nat Z.add Pos.of_succ_nat Pos.succ Pos.add] in P0, P1. rewrite P0, P1. reflexivity.
Qed.
Print Assumptions C66_same_port.

(** Two clients; the first takes its time, the second gets another version. *)
Definition serve_ex : list event := [Connect; Accept; Connect; Pass 2; Arrive 0 1; Write [9; 8]; Accept; Pass 5; Arrive 0 9; Accept; Pass 1; Arrive 1 4].
Example C66_case : let s := after [1; 2; 3; 4] serve_ex in
  got s 0%nat = [1; 2; 3; 4] /\ got s 1%nat = [9] /\ finished s 0%nat /\ in_service s 1%nat /\ versions [1; 2; 3; 4] serve_ex = [[1; 2; 3; 4]; [9; 8]].
Proof.
  split; [reflexivity|]. split; [reflexivity|]. split; [|split; [exists [8]; reflexivity|reflexivity]]. split; [cbv; lia|]. split; [cbn; auto|]. intros (l & H). discriminate.
Qed.
Definition fair_ex (i : nat) : event := if Nat.even i then Accept else Pass 1.
Example C66_fair : serves fair_ex.
Proof.
  split; intros i; [destruct (PropBoot.even_later i) as (j & L & E); exists j|destruct (PropBoot.odd_later i) as (j & L & E); exists j, O]; (split; [exact L|]); unfold fair_ex; rewrite E; reflexivity.
Qed.

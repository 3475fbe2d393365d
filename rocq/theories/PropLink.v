(** C94: a conversion depends on the build of the player only through the opcode
    addresses it writes. *)
From Verif Require Import Base BaseFacts ScreenModel ScreenSpec BitmapModel BitmapSpec VideoModel VideoSpec OpcodeModel MovieModel MovieSpec MovieProofs MovieThms MovieFinal PropMovie
  SymbolModel AddrThms CpuModel PlayerModel PlaybackSpec PlaybackConv PropPlayback IndepProofs PropIndep LinkProofs.
Opaque TABLES all_pairs next.

(** Whatever the opcode addresses of two builds are, the same conversion fails for
    both in the same way or succeeds for both, with the same opcodes written one
    after the other, each with its address in that build, and the same padding. *)
Theorem C94_same_opcodes : forall c start audio frames,
  match transcode c audio frames, transcode (for_build c start) audio frames with
  | Ok bytes, Ok bytes' => exists ops zeros,
      bytes = flat_map (machine_emit (c_start c)) ops ++ zeros /\ bytes' = flat_map (machine_emit start) ops ++ zeros /\ Forall (eq 0) zeros
  | Raise x, Raise y => y = x
  | _, _ => False
  end.
Proof. exact transcode_linked. Qed.
Print Assumptions C94_same_opcodes.

(** So the streams have the same length, and each player, reading its own, finds
    the same mode, the same opcodes with the same data, and the same padding. *)
Lemma zeros_same : forall l l', Forall (eq 0) l -> Forall (eq 0) l' -> length l' = length l -> l' = l.
Proof.
  induction l as [|x l IH]; intros [|y l'] F F' L; try discriminate; [reflexivity|]. inversion F as [|? ? Z F1]; inversion F' as [|? ? Z' F1']; subst.
  f_equal. apply IH; auto.
Qed.
Lemma same_size c start ops : length (compiled (for_build c start) ops) = length (compiled c ops).
Proof.
  unfold compiled. induction ops as [|op ops IH]; cbn [flat_map]; [reflexivity|]. rewrite !app_length, IH. f_equal. exact (emit_length (c_start c) start op).
Qed.
Theorem C94_same_reading : forall c start audio frames bytes bytes' which which' k k' rest rest' zs zs',
  0 <= c_max_bytes c -> transcode c audio frames = Ok bytes -> transcode (for_build c start) audio frames = Ok bytes' ->
  recognises c which -> recognises (for_build c start) which' ->
  read_stream which bytes = Some (k, rest, zs) -> read_stream which' bytes' = Some (k', rest', zs') ->
  length bytes' = length bytes /\ k' = k /\ rest' = rest /\ zs' = zs.
Proof.
  intros c start audio frames bytes bytes' which which' k k' rest rest' zs zs' M T T' W W' R R'.
  destruct (read_run c audio frames bytes which k rest zs T M W R) as (K & s & A & B & _ & E & Z & L).
  destruct (read_run (for_build c start) audio frames bytes' which' k' rest' zs' T' M W' R') as (K' & s' & A' & B' & _ & E' & Z' & L').
  pose proof (build_ops c start audio frames _ _ _ _ _ _ A B A' B') as O. injection O as O. subst rest'.
  change (c_mode (for_build c start)) with (c_mode c) in *.
  assert (LB : length bytes' = length bytes) by (apply Nat2Z.inj; rewrite L, L'; reflexivity).
  split; [exact LB|]. split; [congruence|]. split; [reflexivity|].
  apply zeros_same; [exact Z|exact Z'|]. rewrite E, E', !app_length, same_size in LB. clear - LB. lia.
Qed.
Print Assumptions C94_same_reading.

(** The hypotheses are met: C47's conversion, and the same for a player whose
    opcodes are all 0x100 bytes further on. *)
Definition moved_start (cm : cmd) : Z := player_start cm + 256.
Definition moved_which (a : Z) : option cmd := player_which (a - 256).
Example C94_case : exists bytes bytes' rest rest' zs zs',
  transcode config_47 (audio_ex 1000) (repeat dframe_ex 5) = Ok bytes /\ transcode (for_build config_47 moved_start) (audio_ex 1000) (repeat dframe_ex 5) = Ok bytes' /\
  recognises config_47 player_which /\ recognises (for_build config_47 moved_start) moved_which /\
  read_stream player_which bytes = Some (DHGR, rest, zs) /\ read_stream moved_which bytes' = Some (DHGR, rest', zs').
Proof.
  destruct C47_case as (bytes & rest & CV & _). pose proof (cv_config _ _ _ _ _ CV) as GC. destruct (cv_opcodes _ _ _ _ _ CV) as (zs & R).
  pose proof (cv_output _ _ _ _ _ CV) as T. pose proof (transcode_linked config_47 moved_start (audio_ex 1000) (repeat dframe_ex 5)) as H. rewrite T in H.
  destruct (transcode (for_build config_47 moved_start) (audio_ex 1000) (repeat dframe_ex 5)) as [bytes'|] eqn:T'; [|contradiction]. clear H.
  assert (RC : recognises (for_build config_47 moved_start) moved_which).
  { intros cm I. unfold moved_which, for_build, moved_start. cbn [c_start]. replace (player_start cm + 256 - 256) with (player_start cm) by ring. apply which_start, I. }
  destruct (C32_decodes (for_build config_47 moved_start) (audio_ex 1000) (repeat dframe_ex 5) bytes' moved_which T' (Z.le_refl 0) RC) as (rest' & s' & zs' & R' & _).
  exists bytes, bytes', rest, rest', zs, zs'. split; [exact T|]. split; [reflexivity|]. split; [intros cm I; apply which_start, I|]. split; [exact RC|]. split; [exact R|exact R'].
Qed.

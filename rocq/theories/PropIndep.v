(** C76, C77: what a conversion does not depend on. *)
From Verif Require Import Base BaseFacts ScreenModel ScreenSpec BitmapModel DisplaySpec BitmapSpec VideoModel VideoSpec OpcodeModel MovieModel MovieSpec MovieProofs MovieThms MovieFinal PropMovie
  SymbolModel SymbolSpec SymData AddrThms AsmModel PlayerCode CpuModel PlayerModel PlayerSpec PlayerExec EffectProofs TickThms RunProofs PlaybackSpec PlaybackThms PlaybackConv PropPlayback SmoothSpec PropSmooth IndepSpec IndepProofs.
Opaque lowcode code hgr resident startup symbols op_cmds TABLES all_pairs next.

(** C76: sound and size do not depend on the pictures.  Two conversions of the
    same sound, with the same frame clock, size limit and number of frames, but
    with any frames, palettes and tables, random numbers, video modes, numbers of
    frames skipped and opcode addresses, have the same length, the same opcodes
    at the same places, and the same duty cycles. *)
Theorem C76_sound_independent : forall c c' audio frames frames' bytes bytes' which which' k k' rest rest' zs zs',
  c_clock c' = c_clock c -> c_max_bytes c' = c_max_bytes c -> 0 <= c_max_bytes c -> length frames' = length frames ->
  transcode c audio frames = Ok bytes -> recognises c which -> read_stream which bytes = Some (k, rest, zs) ->
  transcode c' audio frames' = Ok bytes' -> recognises c' which' -> read_stream which' bytes' = Some (k', rest', zs') ->
  length bytes' = length bytes /\ Forall2 same_sound rest rest'.
Proof.
  intros c c' audio frames frames' bytes bytes' which which' k k' rest rest' zs zs' CL MB M L T W R T' W' R'.
  destruct (read_run c audio frames bytes which k rest zs T M W R) as (_ & s & A & B & _).
  destruct (read_run c' audio frames' bytes' which' k' rest' zs' T' ltac:(rewrite MB; exact M) W' R') as (_ & s' & A' & B' & _).
  destruct (sound_independent c c' audio frames frames' _ _ s s' bytes bytes' CL MB (eq_sym L) A B A' B') as [F E].
  split; [exact (eq_sym E)|]. inversion F; assumption.
Qed.
Print Assumptions C76_sound_independent.

(** so on a fast enough network the speaker is toggled at the same times *)
Lemma steady_same ops ops' : Forall2 same_sound ops ops' -> forall t, steady_clicks t ops = steady_clicks t ops'.
Proof.
  intros H. induction H as [|op op' ops ops' S H IH]; intros t; [reflexivity|]. destruct op, op'; cbn [same_sound] in S; try contradiction; cbn [steady_clicks]; try reflexivity.
  - rewrite (IH (t + 146)). reflexivity.
  - subst. rewrite (IH (t + 73)). reflexivity.
Qed.
Lemma count_same ops ops' : Forall2 same_sound ops ops' -> count is_tick ops = count is_tick ops' /\ count is_ack ops = count is_ack ops'.
Proof.
  intros H. unfold count. induction H as [|op op' ops ops' S H IH]; [auto|]. destruct op, op'; cbn [same_sound] in S; try contradiction; cbn [filter is_tick is_ack length]; lia.
Qed.
Lemma same_length ops ops' : Forall2 same_sound ops ops' -> length ops = length ops'.
Proof. intros H. induction H; cbn [length]; congruence. Qed.
Lemma firstn_same ops ops' i : Forall2 same_sound ops ops' -> Forall2 same_sound (firstn i ops) (firstn i ops').
Proof. intros H. revert i. induction H; intros [|i]; cbn [firstn]; constructor; auto. Qed.
Lemma clicks_from t l : map (fun x => x - t) (map (Z.add t) l) = l.
Proof. induction l as [|x l IH]; [reflexivity|]. cbn [map]. rewrite IH. f_equal. lia. Qed.
Theorem C76_same_toggles : forall c c' audio frames frames' bytes bytes' rest rest' sched sched' m0 m0',
  conversion c audio frames bytes rest -> conversion c' audio frames' bytes' rest' ->
  c_clock c' = c_clock c -> c_max_bytes c' = c_max_bytes c -> length frames' = length frames ->
  connected bytes m0 -> delivers sched -> never_pressed sched m0 -> bandwidth bytes sched m0 2048 21243 ->
  connected bytes' m0' -> delivers sched' -> never_pressed sched' m0' -> bandwidth bytes' sched' m0' 2048 21243 ->
  length rest' = length rest /\
  exists ns ms ns' ms', run bytes sched ns m0 = Some ms /\ at_opcode bytes rest 0 m0 ms /\ run bytes' sched' ns' m0' = Some ms' /\ at_opcode bytes' rest' 0 m0' ms' /\
    forall i, (i <= length rest)%nat -> exists n m new n' m' new',
      run bytes sched n m0 = Some m /\ at_opcode bytes rest i m0 m /\ log m = log ms ++ new /\
      run bytes' sched' n' m0' = Some m' /\ at_opcode bytes' rest' i m0' m' /\ log m' = log ms' ++ new' /\
      cyc m' - cyc ms' = cyc m - cyc ms /\ map (fun t => t - cyc ms') (clicks new') = map (fun t => t - cyc ms) (clicks new).
Proof.
  intros c c' audio frames frames' bytes bytes' rest rest' sched sched' m0 m0' CV CV' CL MB L C D NP BW C' D' NP' BW'.
  destruct (cv_opcodes _ _ _ _ _ CV) as (zs & R). destruct (cv_opcodes _ _ _ _ _ CV') as (zs' & R').
  destruct (C76_sound_independent c c' audio frames frames' bytes bytes' player_which player_which _ _ rest rest' zs zs' CL MB (cv_limit _ _ _ _ _ CV) L
    (cv_output _ _ _ _ _ CV) (conversion_knows _ _ _ _ _ CV) R (cv_output _ _ _ _ _ CV') (conversion_knows _ _ _ _ _ CV') R') as [_ F].
  assert (LR : length rest' = length rest) by (symmetry; exact (same_length _ _ F)). split; [exact LR|].
  destruct (C74_steady bytes _ rest sched m0 (conversion_playable _ _ _ _ _ CV) C D NP BW) as (ns & ms & RS & AS & H).
  destruct (C74_steady bytes' _ rest' sched' m0' (conversion_playable _ _ _ _ _ CV') C' D' NP' BW') as (ns' & ms' & RS' & AS' & H').
  exists ns, ms, ns', ms'. split; [exact RS|]. split; [exact AS|]. split; [exact RS'|]. split; [exact AS'|].
  intros i LI. destruct (H i LI) as (n & m & new & _ & A1 & A2 & A3 & A4 & A5). destruct (H' i ltac:(rewrite LR; exact LI)) as (n' & m' & new' & _ & B1 & B2 & B3 & B4 & B5).
  exists n, m, new, n', m', new'. split; [exact A1|]. split; [exact A2|]. split; [exact A4|]. split; [exact B1|]. split; [exact B2|]. split; [exact B4|].
  pose proof (firstn_same _ _ i F) as FI. destruct (count_same _ _ FI) as [K1 K2]. split.
  - rewrite A3, B3, K1, K2. lia.
  - rewrite A5, B5, !clicks_from, (steady_same _ _ FI). reflexivity.
Qed.
Print Assumptions C76_same_toggles.

(** The pictures do not depend on the sound: for the same configuration and
    frames, and any two sounds of the same length, every tick stores the same
    byte at the same places, and all along the same is displayed. *)
Theorem C76_pictures_independent : forall c audio audio' frames bytes bytes' which k k' rest rest' zs zs',
  0 <= c_max_bytes c -> length audio' = length audio -> recognises c which ->
  transcode c audio frames = Ok bytes -> read_stream which bytes = Some (k, rest, zs) ->
  transcode c audio' frames = Ok bytes' -> read_stream which bytes' = Some (k', rest', zs') ->
  length bytes' = length bytes /\ Forall2 same_picture rest rest' /\ forall i, play (firstn i rest') = play (firstn i rest).
Proof.
  intros c audio audio' frames bytes bytes' which k k' rest rest' zs zs' M L W T R T' R'.
  destruct (read_run c audio frames bytes which k rest zs T M W R) as (_ & s & A & B & _).
  destruct (read_run c audio' frames bytes' which k' rest' zs' T' M W R') as (_ & s' & A' & B' & _).
  destruct (picture_independent c audio audio' frames _ _ s s' bytes bytes' L A B A' B') as [F E].
  assert (F2 : Forall2 same_picture rest rest') by (inversion F; assumption).
  split; [exact (eq_sym E)|]. split; [exact F2|]. unfold play. generalize blank as d. clear - F2.
  induction F2 as [|op op' ops ops' S H IH]; intros d [|i]; cbn [firstn fold_left]; try reflexivity. rewrite IH. f_equal.
  destruct op, op'; cbn [same_picture] in S; try contradiction; cbn [play1]; try reflexivity; [subst; reflexivity|destruct S as (-> & -> & ->); reflexivity].
Qed.
Print Assumptions C76_pictures_independent.

(** C77: a conversion does not depend on the future.  If the sound and the
    pictures go on, the stream goes on: its opcodes begin with those of the
    shorter movie. *)
Theorem C77_causal : forall c audio more_audio frames more_frames bytes bytes' which k k' rest rest' zs zs',
  0 <= c_max_bytes c -> recognises c which ->
  transcode c audio frames = Ok bytes -> read_stream which bytes = Some (k, rest, zs) ->
  transcode c (audio ++ more_audio) (frames ++ more_frames) = Ok bytes' -> read_stream which bytes' = Some (k', rest', zs') ->
  k' = k /\ exists more, rest' = rest ++ more.
Proof.
  intros c audio more_audio frames more_frames bytes bytes' which k k' rest rest' zs zs' M W T R T' R'.
  destruct (read_run c audio frames bytes which k rest zs T M W R) as (K & s & A & B & _).
  destruct (read_run c _ _ bytes' which k' rest' zs' T' M W R') as (K' & s' & A' & B' & _). split; [congruence|].
  destruct (extended_prefix c audio more_audio frames more_frames _ _ s s' bytes bytes' A B A' B') as (more & E). exists more. injection E as E. exact E.
Qed.
Print Assumptions C77_causal.

(** Two sounds and sequences of frames that agree up to some point give streams
    that agree up to the opcode for which the first of the agreeing inputs is
    missing: all opcodes of the movie cut there. *)
Theorem C77_agree : forall c audio a1 a2 frames f1 f2 bytes bytes1 bytes2 which k k1 k2 rest rest1 rest2 zs zs1 zs2,
  0 <= c_max_bytes c -> recognises c which ->
  transcode c audio frames = Ok bytes -> read_stream which bytes = Some (k, rest, zs) ->
  transcode c (audio ++ a1) (frames ++ f1) = Ok bytes1 -> read_stream which bytes1 = Some (k1, rest1, zs1) ->
  transcode c (audio ++ a2) (frames ++ f2) = Ok bytes2 -> read_stream which bytes2 = Some (k2, rest2, zs2) ->
  firstn (length rest) rest1 = rest /\ firstn (length rest) rest2 = rest.
Proof.
  intros c audio a1 a2 frames f1 f2 bytes bytes1 bytes2 which k k1 k2 rest rest1 rest2 zs zs1 zs2 M W T R T1 R1 T2 R2.
  destruct (C77_causal c audio a1 frames f1 bytes bytes1 which k k1 rest rest1 zs zs1 M W T R T1 R1) as (_ & m1 & ->).
  destruct (C77_causal c audio a2 frames f2 bytes bytes2 which k k2 rest rest2 zs zs2 M W T R T2 R2) as (_ & m2 & ->).
  rewrite !firstn_app, firstn_all, Nat.sub_diag. cbn [firstn]. rewrite app_nil_r. auto.
Qed.
Print Assumptions C77_agree.

(** ** The hypotheses can be met *)
Lemma converts_ex c audio frames : good_config c -> good_audio audio -> good_frames (c_mode c) frames -> c_max_bytes c = 0 -> c_start c = player_start ->
  exists bytes rest, conversion c audio frames bytes rest.
Proof.
  intros GC GA GF MB ST. destruct (C31_never_raises c audio frames GC GA GF) as (bytes & TR).
  assert (RC : recognises c player_which) by (intros cm I; rewrite ST; apply which_start, I).
  destruct (C32_decodes c audio frames bytes player_which TR ltac:(rewrite MB; apply Z.le_refl) RC) as (rest & s & zs & RS & _).
  exists bytes, rest. constructor; [exact GC|exact GA|exact GF|rewrite MB; apply Z.le_refl| |exact TR|exists zs; exact RS].
  rewrite ST. destruct PropSymbols.contents_ex as (contents & LN). exists contents. split; [exact LN|]. exact (fill_player contents LN).
Qed.
(** the frames of config_47 and black ones, in HGR, two of three skipped, with
    another table and other random numbers; a rising and a constant sound *)
Definition config_76 : config :=
  {| c_mode := HGR; c_every_n := 3; c_max_bytes := 0; c_clock := c_clock config_47; c_table := fun o x => (o + x) mod 7; c_draws := fun i j => (3 * i + j) mod 256; c_start := player_start |}.
Definition black_ex : frame := ({| mm_page := 1; mm_data := fun _ _ => 0 |}, {| mm_page := 1; mm_data := fun _ _ => 0 |}).
Definition rising_ex (n : nat) : list Z := map (fun i => Z.of_nat i mod 16) (seq 0 n).
Lemma rising_good n : good_audio (rising_ex n).
Proof. intros au H. apply in_map_iff in H. destruct H as (i & <- & _). pose proof (Z.mod_pos_bound (Z.of_nat i) 16 ltac:(lia)). lia. Qed.
Example C76_case : exists bytes rest bytes' rest' bytes2 rest2,
  conversion config_47 (audio_ex 1000) (repeat dframe_ex 5) bytes rest /\ conversion config_76 (audio_ex 1000) (repeat black_ex 5) bytes' rest' /\
  conversion config_47 (rising_ex 1000) (repeat dframe_ex 5) bytes2 rest2 /\
  c_clock config_76 = c_clock config_47 /\ c_max_bytes config_76 = c_max_bytes config_47 /\ length (rising_ex 1000) = length (audio_ex 1000).
Proof.
  destruct C47_case as (bytes & rest & CV & _). pose proof (cv_config _ _ _ _ _ CV) as GC.
  destruct (converts_ex config_76 (audio_ex 1000) (repeat black_ex 5)) as (bytes' & rest' & CV'); try reflexivity.
  { destruct GC as (_ & _ & H). split; [|split; [discriminate|exact H]]. intros o x y _ _ _. cbn [c_table config_76]. match goal with |- context [?a mod 7] => pose proof (Z.mod_pos_bound a 7 ltac:(lia)) end. lia. }
  { apply ex_audio. }
  { intros f H. apply repeat_spec in H. subst f. intros a _. split; [destruct a; reflexivity|]. split; [|discriminate]. intros p o _ _; unfold is_byte; destruct a; cbn; lia. }
  destruct (converts_ex config_47 (rising_ex 1000) (repeat dframe_ex 5) GC (rising_good 1000) (ex_dframes 0 5) eq_refl eq_refl) as (bytes2 & rest2 & CV2).
  exists bytes, rest, bytes', rest', bytes2, rest2. split; [exact CV|]. split; [exact CV'|]. split; [exact CV2|]. split; [reflexivity|]. split; [reflexivity|].
  unfold rising_ex, audio_ex. rewrite map_length, seq_length, repeat_length. reflexivity.
Qed.
Example C77_case : exists bytes rest bytes' rest', conversion config_47 (rising_ex 600) (repeat dframe_ex 2) bytes rest /\
  conversion config_47 (rising_ex 600 ++ audio_ex 400) (repeat dframe_ex 2 ++ repeat dframe_ex 3) bytes' rest'.
Proof.
  destruct C47_case as (b0 & r0 & CV & _). pose proof (cv_config _ _ _ _ _ CV) as GC.
  destruct (converts_ex config_47 (rising_ex 600) (repeat dframe_ex 2) GC (rising_good 600) (ex_dframes 0 2) eq_refl eq_refl) as (bytes & rest & C1).
  assert (GA : good_audio (rising_ex 600 ++ audio_ex 400)) by (intros au H; apply in_app_or in H; destruct H as [H|H]; [exact (rising_good 600 au H)|exact (ex_audio 400 au H)]).
  assert (GF : good_frames DHGR (repeat dframe_ex 2 ++ repeat dframe_ex 3)) by (rewrite <- repeat_app; exact (ex_dframes 0 5)).
  destruct (converts_ex config_47 _ _ GC GA GF eq_refl eq_refl) as (bytes' & rest' & C2). exists bytes, rest, bytes', rest'. auto.
Qed.

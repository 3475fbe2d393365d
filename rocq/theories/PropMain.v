(** Properties C70 and C71: the options of main.py and the table files. *)
From Verif Require Import Base BaseFacts ScreenModel ScreenSpec BitmapModel ColourModel TableModel TableSpec PaletteFacts VideoModel VideoSpec VideoProofs SymbolModel SymbolSpec SymbolProofs SymData
  AddrThms OpcodeModel MovieModel MovieSpec MovieProofs MovieThms MovieFinal PropVideo PropMovie GrabberModel PlaybackConv PlaybackSpec MainModel MainSpec MainProofs.
From Verif Require PropSymbols.
Opaque TABLES all_pairs sym_lits op_cmds.

(** C70: when make_data_tables has run to its end, whatever table files there were
    before, the encoder loads for every mode and palette the table computed from
    this palette's colours for this mode; bmp2dhr is given the palette's number. *)
Theorem C70_right_table : forall delta before k p pal, good_delta delta -> colours_of p = Some pal ->
  exists t, load_table (make_tables delta before) k p = Ok (edit_distances k t) /\ table_for delta k pal t.
Proof. exact right_table. Qed.
Print Assumptions C70_right_table.
Theorem C70_bmp2dhr_palette : palette_arg IIGS = str "P0" /\ palette_arg NTSC = str "P5" /\
  forall p q, palette_arg p = palette_arg q -> p = q.
Proof.
  split; [reflexivity|]. split; [reflexivity|]. intros p q H. destruct p, q; try reflexivity; vm_compute in H; discriminate H.
Qed.
Print Assumptions C70_bmp2dhr_palette.
(** Killed at any point: a table that can be loaded is the old one or the right
    one. *)
Theorem C70_killed : forall delta n before k p ed, load_table (make_tables_killed delta n before) k p = Ok ed ->
  load_table before k p = Ok ed \/ exists pal t, colours_of p = Some pal /\ table_for delta k pal t /\ ed = edit_distances k t.
Proof. exact killed_load. Qed.
Print Assumptions C70_killed.
(** Every offered choice should work, but UNKNOWN is offered and has no table. *)
Theorem C70_unknown_refuted : forall delta n before k start clock draws o,
  (forall k p, before (loaded_name k p) = None) -> dict_get (o_mode o) video_modes = Some k -> o_palette o = str "UNKNOWN" ->
  main_config (make_tables_killed delta n before) start clock draws o = Some (Raise KeyError).
Proof.
  intros delta n before k start clock draws o B M P. unfold main_config. rewrite M, P.
  replace (dict_get (str "UNKNOWN") palettes) with (Some UNKNOWN) by reflexivity. rewrite (no_unknown delta n before k (B _ _)). reflexivity.
Qed.
Print Assumptions C70_unknown_refuted.

(** C71: with the tables in place, every combination of the options that main.py
    accepts (other than the palette UNKNOWN) converts every input: to a movie the
    player plays (C43-C47), in the mode asked for, encoded for the palette asked
    for. *)
Theorem C71_converts : forall delta before contents start clock draws o k p pal audio frames,
  good_delta delta -> filter is_sym (split_on 10 contents) = sym_lines -> fill_opcode_addresses contents = Ok start ->
  dict_get (o_mode o) video_modes = Some k -> dict_get (o_palette o) palettes = Some p -> colours_of p = Some pal ->
  1 <= o_every_n o -> 0 <= o_mb_num o -> 0 < o_mb_den o -> (forall t, 0 < t -> clock t 0 = true) ->
  good_audio audio -> good_frames k frames ->
  exists c bytes rest, main_config (make_tables delta before) start clock draws o = Some (Ok c) /\
    conversion c audio frames bytes rest /\ c_mode c = k /\ c_every_n c = o_every_n o /\ palette_table k pal (c_table c).
Proof.
  intros delta before contents start clock draws o k p pal audio frames HD HS HF HM HP HC HN H0 H1 HK HA HFr.
  destruct (right_table delta before k p pal HD HC) as (t & LT & TF).
  set (c := {| c_mode := k; c_every_n := o_every_n o; c_max_bytes := max_bytes (o_mb_num o) (o_mb_den o); c_clock := clock; c_table := edit_distances k t; c_draws := draws; c_start := start |}).
  assert (PT : palette_table k pal (c_table c)) by (exists delta, t; split; [apply HD|]; split; [apply HD|]; split; [exact TF|reflexivity]).
  assert (GC : good_config c) by (split; [exact (palette_u16 _ _ _ PT)|]; split; [exact HN|exact HK]).
  assert (MB : 0 <= c_max_bytes c).
  { cbn [c_max_bytes c]. unfold max_bytes. destruct (o_mb_num o =? 0); [lia|]. replace (o_mb_num o <? 0) with false by (symmetry; apply Z.ltb_ge; exact H0).
    apply Z.div_pos; lia. }
  destruct (C31_never_raises c audio frames GC HA HFr) as (bytes & TR).
  assert (ES : start = player_start) by (rewrite (fill_player _ HS) in HF; congruence).
  assert (RC : recognises c player_which) by (intros cm I; cbn [c_start c]; rewrite ES; apply which_start, I).
  destruct (C32_decodes c audio frames bytes player_which TR MB RC) as (rest & s & zs & RS & _).
  exists c, bytes, rest. split; [unfold main_config; rewrite HM, HP, LT; reflexivity|]. split; [|split; [reflexivity|split; [reflexivity|exact PT]]].
  constructor; [exact GC|exact HA|exact HFr|exact MB|exists contents; split; [exact HS|exact HF]|exact TR|exists zs; exact RS].
Qed.
Print Assumptions C71_converts.
(** The choices, literally: --video_mode is HGR or DHGR, --palette IIGS or NTSC (or
    UNKNOWN); anything else is refused.  With the tables in place the mode and
    colours are those named. *)
Theorem C71_choices : forall delta before start clock draws o, good_delta delta ->
  (main_config (make_tables delta before) start clock draws o = None <->
     ~ ((o_mode o = str "HGR" \/ o_mode o = str "DHGR") /\ (o_palette o = str "IIGS" \/ o_palette o = str "NTSC" \/ o_palette o = str "UNKNOWN"))) /\
  (forall c, main_config (make_tables delta before) start clock draws o = Some (Ok c) ->
     c_every_n c = o_every_n o /\ c_max_bytes c = max_bytes (o_mb_num o) (o_mb_den o) /\
     (o_mode o = str "HGR" -> c_mode c = HGR) /\ (o_mode o = str "DHGR" -> c_mode c = DHGR) /\
     (o_palette o = str "IIGS" -> palette_table (c_mode c) iigs_rgb (c_table c)) /\ (o_palette o = str "NTSC" -> palette_table (c_mode c) ntsc_rgb (c_table c))).
Proof.
  intros delta before start clock draws o GD. unfold main_config.
  assert (RT : forall k p pal, colours_of p = Some pal -> exists t, load_table (make_tables delta before) k p = Ok t /\ palette_table k pal t).
  { intros k p pal C. destruct (right_table delta before k p pal GD C) as (t & LT & TF). exists (edit_distances k t). split; [exact LT|].
    exists delta, t. split; [apply GD|]. split; [apply GD|]. split; [exact TF|reflexivity]. }
  generalize dependent (load_table (make_tables delta before)). intros load RT.
  assert (M : (o_mode o = str "HGR" /\ dict_get (o_mode o) video_modes = Some HGR) \/ (o_mode o = str "DHGR" /\ dict_get (o_mode o) video_modes = Some DHGR) \/
              (o_mode o <> str "HGR" /\ o_mode o <> str "DHGR" /\ dict_get (o_mode o) video_modes = None)).
  { unfold video_modes. cbn [dict_get]. destruct (text_eqb (o_mode o) (str "HGR")) eqn:E1; [left; split; [apply text_eqb_spec, E1|reflexivity]|].
    destruct (text_eqb (o_mode o) (str "DHGR")) eqn:E2; [right; left; split; [apply text_eqb_spec, E2|reflexivity]|].
    right. right. split; [|split; [|reflexivity]]; intros X; rewrite X, text_eqb_refl in *; discriminate. }
  assert (P : (o_palette o = str "IIGS" /\ dict_get (o_palette o) palettes = Some IIGS) \/ (o_palette o = str "NTSC" /\ dict_get (o_palette o) palettes = Some NTSC) \/
              (o_palette o = str "UNKNOWN" /\ dict_get (o_palette o) palettes = Some UNKNOWN) \/
              (o_palette o <> str "IIGS" /\ o_palette o <> str "NTSC" /\ o_palette o <> str "UNKNOWN" /\ dict_get (o_palette o) palettes = None)).
  { unfold palettes. cbn [dict_get]. destruct (text_eqb (o_palette o) (str "UNKNOWN")) eqn:E1; [right; right; left; split; [apply text_eqb_spec, E1|reflexivity]|].
    destruct (text_eqb (o_palette o) (str "IIGS")) eqn:E2; [left; split; [apply text_eqb_spec, E2|reflexivity]|].
    destruct (text_eqb (o_palette o) (str "NTSC")) eqn:E3; [right; left; split; [apply text_eqb_spec, E3|reflexivity]|].
    right. right. right. split; [|split; [|split; [|reflexivity]]]; intros X; rewrite X, text_eqb_refl in *; discriminate. }
  destruct M as [[MT ->]|[[MT ->]|(MT1 & MT2 & ->)]]; [| |split; [split; [intros _ [[X|X] _]; contradiction|reflexivity]|discriminate]];
    (destruct P as [[PT ->]|[[PT ->]|[[PT ->]|(PT1 & PT2 & PT3 & ->)]]]; [| | |split; [split; [intros _ [_ [X|[X|X]]]; contradiction|reflexivity]|discriminate]]);
    (split; [split; [discriminate|intros X; exfalso; apply X; rewrite MT, PT; auto]|]); intros c H;
    match type of H with context [load ?k ?p] =>
      try (destruct (RT k p _ eq_refl) as (t & LT & PTB); rewrite LT in H; cbn [rbind] in H);
      try (destruct (load k p) as [t|]; [|discriminate H]; cbn [rbind] in H)
    end;
    injection H as <-; cbn [c_every_n c_max_bytes c_mode c_table]; rewrite MT, PT;
    (split; [reflexivity|split; [reflexivity|split; [|split; [|split]]]]); intros X; first [discriminate X|exact PTB|reflexivity].
Qed.
Print Assumptions C71_choices.
(** With --max_output_mb = num/den > 0 the file is less than 4096 bytes larger
    than that many MB (and with 0 there is no limit); a file smaller than the limit
    is the whole movie. *)
Theorem C71_size : forall c audio frames bytes rest num den, 0 < num -> 0 < den -> c_max_bytes c = max_bytes num den ->
  conversion c audio frames bytes rest ->
  den * (Z.of_nat (length bytes) - 4096) < 1024 * 1024 * num /\
  (den * Z.of_nat (length bytes) <= 1024 * 1024 * num -> transcode (with_limit c 0) audio frames = Ok bytes).
Proof.
  intros c audio frames bytes rest num den HN HD HL CV.
  assert (LP : 0 < max_bytes num den /\ forall x, max_bytes num den <= x <-> 1024 * 1024 * num <= x * den).
  { unfold max_bytes. replace (num =? 0) with false by (symmetry; apply Z.eqb_neq; lia). replace (num <? 0) with false by (symmetry; apply Z.ltb_ge; lia).
    split; [apply Z.div_str_pos; lia|]. intros x. apply ceil_spec, HD. }
  destruct LP as [LP LS]. set (L := max_bytes num den) in *. clearbody L.
  assert (EC : with_limit c L = c) by (rewrite <- HL; destruct c; reflexivity).
  destruct (cv_addresses _ _ _ _ _ CV) as (contents & HS & HF).
  assert (RC : recognises c player_which) by (intros cm I; assert (ES : c_start c = player_start) by (rewrite (fill_player _ HS) in HF; congruence); rewrite ES; apply which_start, I).
  destruct (cv_opcodes _ _ _ _ _ CV) as (zs & RS).
  destruct (C31_never_raises (with_limit c 0) audio frames (cv_config _ _ _ _ _ CV) (cv_audio _ _ _ _ _ CV) (cv_frames _ _ _ _ _ CV)) as (bytes0 & T0).
  destruct (C32_decodes (with_limit c 0) audio frames bytes0 player_which T0 (Z.le_refl 0) RC) as (rest0 & s0 & zs0 & RS0 & _ & _ & A0 & B0).
  pose proof (cv_output _ _ _ _ _ CV) as T. rewrite <- EC in T.
  destruct (C34_limit c audio frames L bytes0 bytes player_which (c_mode c) rest0 zs0 rest zs LP RC T0 RS0 T RS) as (_ & _ & SZ). split.
  - set (n := Z.of_nat (length bytes)) in *. clearbody n. clear - SZ LS HD.
    assert (X : n <= L + 4095) by (revert SZ; generalize (2048 * ((L + 2047) / 2048)), (Z.mul_div_le (L + 2047) 2048 ltac:(lia)); intros; lia).
    assert (Y : ~ L <= L - 1) by lia. rewrite LS in Y. nia.
  - intros LT. destruct (read_run (with_limit c L) audio frames bytes player_which (c_mode c) rest zs T ltac:(apply Z.lt_le_incl, LP) RC RS) as (_ & s & A & B & F & _ & _ & LN).
    pose proof (run_unlimited c L audio frames _ _ A) as A'.
    destruct (finish_unlimited c L s bytes B) as [X|[_ X]].
    + destruct (run_prefix _ _ _ _ A' _ _ _ A0 B0) as (more & _ & RM).
      assert (E : s0 = s).
      { clear - RM X. destruct RM as [|m1 s1 n1 s2 RM E1]; [reflexivity|exfalso].
        induction RM as [|m3 s3 n3 s4 RM IH E3] in s2, n1, E1 |- *; [rewrite X in E1; discriminate|eapply IH; eauto]. }
      subst s0. rewrite X in B0. assert (bytes0 = bytes) by congruence. subst bytes0. exact T0.
    + exfalso. rewrite (fr_pos _ _ _ F) in X. apply LS in X. cbn [c_mode with_limit] in *. set (x := total_size _) in *. clearbody x.
      set (n := Z.of_nat (length bytes)) in *. clearbody n. pose proof (Z.div_mod x 2048 ltac:(lia)) as DM. pose proof (Z.mod_pos_bound x 2048 ltac:(lia)) as MB.
      set (q := x / 2048) in *. set (r := x mod 2048) in *. clearbody q r. clear - LT X LN DM MB HD. nia.
Qed.
Print Assumptions C71_size.
Theorem C71_limit_test : forall num den pos, 0 < den -> 0 <= pos ->
  negb (max_bytes num den =? 0) && (max_bytes num den <=? pos) = negb (num =? 0) && (1024 * 1024 * num <=? pos * den).
Proof. exact limit_exact. Qed.
Print Assumptions C71_limit_test.

(** The defaults, from an empty data directory, and with half a megabyte *)
Definition delta_ex (x y : rgb) : Z := if (fst (fst x) =? fst (fst y)) && (snd (fst x) =? snd (fst y)) && (snd x =? snd y) then 0 else 7.
Example good_delta_ex : good_delta delta_ex.
Proof.
  split; [intros x y; unfold delta_ex; destruct (_ && _); lia|]. intros x y N. unfold delta_ex. destruct (_ && _) eqn:E; [|lia]. exfalso. apply N.
  destruct x as [[x1 x2] x3], y as [[y1 y2] y3]. cbn in E. apply andb_true_iff in E. destruct E as [E E3]. apply andb_true_iff in E. destruct E as [E1 E2].
  apply Z.eqb_eq in E1, E2, E3. congruence.
Qed.
Example C71_defaults : forall draws, exists contents start c bytes rest,
  filter is_sym (split_on 10 contents) = sym_lines /\ fill_opcode_addresses contents = Ok start /\
  main_config (make_tables delta_ex (fun _ => None)) start (c_clock (dconfig_ex 0)) draws default_options = Some (Ok c) /\
  conversion c (audio_ex 1000) (repeat dframe_ex 5) bytes rest /\ c_mode c = DHGR /\ c_every_n c = 2 /\ c_max_bytes c = 0 /\ palette_table DHGR ntsc_rgb (c_table c).
Proof.
  intros draws. destruct PropSymbols.contents_ex as (contents & LN). pose proof (fill_player contents LN) as FP. exists contents, player_start.
  assert (G : good_config (dconfig_ex 0)) by apply ex_dconfig.
  destruct (C71_converts delta_ex (fun _ => None) contents player_start (c_clock (dconfig_ex 0)) draws default_options DHGR NTSC ntsc_rgb (audio_ex 1000) (repeat dframe_ex 5)
    good_delta_ex LN FP eq_refl eq_refl eq_refl) as (c & bytes & rest & A & B & C & D & E); cbn [o_every_n o_mb_num o_mb_den default_options]; try lia.
  - exact (proj2 (proj2 G)).
  - apply ex_audio.
  - exact (ex_dframes 0 5).
  - exists c, bytes, rest. split; [exact LN|]. split; [exact FP|]. split; [exact A|]. split; [exact B|]. split; [exact C|]. split; [exact D|]. split; [|exact E].
    revert A. unfold main_config. cbn [o_mode o_palette default_options]. replace (dict_get (str "DHGR") video_modes) with (Some DHGR) by reflexivity.
    replace (dict_get (str "NTSC") palettes) with (Some NTSC) by reflexivity. destruct (load_table _ _ _) as [t|]; [|discriminate]. cbn [rbind]. intros A. injection A as <-. reflexivity.
Qed.
Example C71_half_mb : max_bytes 1 2 = 524288 /\ max_bytes 0 1 = 0 /\ max_bytes 1 3 = 349526.
Proof. vm_compute. auto. Qed.
Example C70_killed_case : let fs := make_tables_killed delta_ex 0 (fun f => if text_eqb f (saved_name HGR NTSC) then Some (Saved (fun _ _ => 3)) else None) in
  exists ed, load_table fs HGR NTSC = Ok ed.
Proof. eexists. reflexivity. Qed.

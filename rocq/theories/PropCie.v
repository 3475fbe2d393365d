(** Property C85: the colour differences of the shipped palettes. *)
From Coq Require Import Reals Lra.
From Verif Require Import Base BaseFacts ScreenModel ScreenSpec BitmapModel ColourModel ColourProofs TableModel TableSpec TableProofs TableFacts OpcodeModel MovieModel MovieSpec SymbolModel SymbolSpec SymData
  GrabberModel MainModel MainSpec MainProofs PlaybackSpec PaletteFacts PropMain CieModel CieProofs CieCert CieThms.
Opaque TABLES all_pairs.

(** In exact arithmetic the CIE2000 difference of two colours of a palette is 0 if
    they are the same and between 2 and 800 if not. *)
Theorem C85_differences : forall pal, pal = ntsc_rgb \/ pal = iigs_rgb -> forall c1 c2,
  (pal c1 = pal c2 -> cie2000 (lab_of (pal c1)) (lab_of (pal c2)) = 0)%R /\
  (pal c1 <> pal c2 -> 2 <= cie2000 (lab_of (pal c1)) (lab_of (pal c2)) <= 800)%R.
Proof. exact differences. Qed.
Print Assumptions C85_differences.

(** So the integer matrix that make_data_tables.py computes has a 0 where two
    colours are the same and a positive entry where they are not, whatever the
    rounding (up to 1) of the computation: a substitution costs at least as much as
    a transposition. *)
Theorem C85_costs : forall delta pal c1 c2, pal = ntsc_rgb \/ pal = iigs_rgb -> accurate delta pal ->
  let cost := compute_diff_matrix delta pal (hgr_value c1) (hgr_value c2) in
  (pal c1 = pal c2 -> cost = 0) /\ (pal c1 <> pal c2 -> 1 <= cost <= 801).
Proof.
  intros delta pal c1 c2 HP HA. cbv zeta. rewrite diff_matrix_entries. destruct (delta_range delta pal HP HA c1 c2) as [A B].
  split; [apply B|]. intros N. assert (delta (pal c1) (pal c2) <> 0) by (intros X; apply N, B, X). lia.
Qed.
Print Assumptions C85_costs.


(** The distance tables built from such a matrix are the ones that the theorems on
    convergence ask for (C25_palette_tables, C62, C63, C72). *)
Theorem C85_tables : forall delta k pal, accurate delta ntsc_rgb -> accurate delta iigs_rgb -> pal = ntsc_rgb \/ pal = iigs_rgb ->
  exists t, table_for delta k pal t /\ palette_table k pal (edit_distances k t).
Proof.
  intros delta k pal HN HI HP. pose proof (tame_good delta HN HI) as HD. destruct (job_ok (tame delta) HD k pal) as (t & E).
  exists t. split; [unfold table_for in *; rewrite <- (tame_matrix delta pal HP); exact E|].
  exists (tame delta), t. split; [apply HD|]. split; [apply HD|]. split; [exact E|reflexivity].
Qed.
Print Assumptions C85_tables.

(** C71_converts without its assumption on colour differences *)
Theorem C85_converts : forall delta before contents start clock draws o k p pal audio frames,
  accurate delta ntsc_rgb -> accurate delta iigs_rgb -> filter is_sym (split_on 10 contents) = sym_lines -> fill_opcode_addresses contents = Ok start ->
  dict_get (o_mode o) video_modes = Some k -> dict_get (o_palette o) palettes = Some p -> colours_of p = Some pal ->
  1 <= o_every_n o -> 0 <= o_mb_num o -> 0 < o_mb_den o -> (forall t, 0 < t -> clock t 0 = true) ->
  good_audio audio -> good_frames k frames ->
  exists c bytes rest, main_config (make_tables delta before) start clock draws o = Some (Ok c) /\
    conversion c audio frames bytes rest /\ c_mode c = k /\ c_every_n c = o_every_n o /\ palette_table k pal (c_table c).
Proof.
  intros delta before contents start clock draws o k p pal audio frames HN HI. rewrite <- (tame_tables delta before).
  exact (C71_converts (tame delta) before contents start clock draws o k p pal audio frames (tame_good delta HN HI)).
Qed.
Print Assumptions C85_converts.

(** the exact difference, rounded down, is accurate *)
Example C85_accurate : forall pal, exists delta, accurate delta pal.
Proof. exact accurate_exists. Qed.

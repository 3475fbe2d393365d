(** Properties C15-C18: the edit-distance tables. *)
From Verif Require Import Base ScreenModel BitmapModel ColourModel DisplaySpec BitmapSpec
  TableModel TableSpec TableProofs TableFacts CostProofs.

(** [small_matrix dm]: every entry of the perceptual difference matrix is within
    0..3640 (CIE2000 differences of RGB colours are about 0..101). *)
Example small_matrix_example : small_matrix (fun i j => 7 * Z.abs (i - j)).
Proof. intros i j Hi Hj. lia. Qed.

(** C15: building the table raises no exception (in particular the 16-bit
    assertion holds for every pair). *)
Theorem C15_table_generation_never_raises : forall dm k value,
  value = hgr_value \/ value = dhgr_value -> small_matrix dm ->
  exists t, compute_edit_distance (compute_substitute_costs dm) k value = Ok t.
Proof. exact (fun dm k value V H => match table_spec dm k value V H with ex_intro _ t (conj E _) => ex_intro _ t E end). Qed.
Print Assumptions C15_table_generation_never_raises.

(** C15/C16: the loaded table, for every pair of masked values. *)
Theorem C15_table_is_symmetric_edit_distance : forall dm k value t,
  value = hgr_value \/ value = dhgr_value -> small_matrix dm ->
  compute_edit_distance (compute_substitute_costs dm) k value = Ok t ->
  forall o a b, 0 <= o < SCREEN_BYTES k -> 0 <= a < 2 ^ MASKED_BITS k -> 0 <= b < 2 ^ MASKED_BITS k ->
    edit_distances k t o (pair_index k a b) = edit_distances k t o (pair_index k b a) /\
    edit_distances k t o (pair_index k a a) = 0 /\
    0 <= edit_distances k t o (pair_index k a b) < 2 ^ 16 /\
    exists pa pb sa sb, window_pixels k value a o = Ok pa /\ window_pixels k value b o = Ok pb /\
      pixel_string pa = Ok sa /\ pixel_string pb = Ok sb /\
      edit_distance (compute_substitute_costs dm) sa sb false = Ok (edit_distances k t o (pair_index k a b)).
Proof. exact table_symmetric. Qed.
Print Assumptions C15_table_is_symmetric_edit_distance.

(** C16: with positive costs between distinct colours, distance 0 means the same
    colours are displayed. *)
Theorem C16_zero_iff_same_colours : forall dm k value t,
  value = hgr_value \/ value = dhgr_value -> small_matrix dm ->
  compute_edit_distance (compute_substitute_costs dm) k value = Ok t ->
  forall o a b, (forall i j, 0 <= j < i -> i < 16 -> 0 < dm i j) ->
    0 <= o < SCREEN_BYTES k -> 0 <= a < 2 ^ MASKED_BITS k -> 0 <= b < 2 ^ MASKED_BITS k ->
    (edit_distances k t o (pair_index k a b) = 0 <-> window_pixels k value a o = window_pixels k value b o).
Proof. exact zero_iff_same_colours. Qed.
Print Assumptions C16_zero_iff_same_colours.

Theorem C16_dhgr_zero_iff_equal : forall dm value t o a b,
  value = hgr_value \/ value = dhgr_value -> small_matrix dm ->
  compute_edit_distance (compute_substitute_costs dm) DHGR value = Ok t ->
  (forall i j, 0 <= j < i -> i < 16 -> 0 < dm i j) ->
  0 <= o < 4 -> 0 <= a < 2 ^ 13 -> 0 <= b < 2 ^ 13 ->
  (edit_distances DHGR t o (pair_index DHGR a b) = 0 <-> a = b).
Proof. exact dhgr_zero_iff_equal. Qed.
Print Assumptions C16_dhgr_zero_iff_equal.

(** C16 on whole screens: a byte's distance between two screens is 0 exactly
    when its window shows the same colours on both. *)
Theorem C16_zero_distance_is_invisible : forall dm value t bm bm' p off is_aux dist,
  value = hgr_value \/ value = dhgr_value -> small_matrix dm ->
  compute_edit_distance (compute_substitute_costs dm) (bm_kind bm) value = Ok t ->
  (forall i j, 0 <= j < i -> i < 16 -> 0 < dm i j) ->
  reachable bm -> reachable bm' -> bm_kind bm' = bm_kind bm ->
  0 <= p < 32 -> 0 <= off < 256 -> (bm_kind bm = DHGR \/ is_aux = false) ->
  diff_weights (edit_distances (bm_kind bm) t) bm bm' is_aux = Ok dist ->
  (dist p off = 0 <->
   forall d, window_start (bm_kind bm) off is_aux <= d < window_start (bm_kind bm) off is_aux + MASKED_DOTS (bm_kind bm) ->
   pixel_colour (row_dot (bm_kind bm) (mm_data (bm_main bm) p) (aux_data (bm_aux bm) p)) d =
   pixel_colour (row_dot (bm_kind bm) (mm_data (bm_main bm') p) (aux_data (bm_aux bm') p)) d).
Proof. exact screen_zero_iff. Qed.
Print Assumptions C16_zero_distance_is_invisible.

Example C16_positive_example : small_matrix (fun i j => 7 * Z.abs (i - j)) /\
  (forall i j, 0 <= j < i -> i < 16 -> 0 < 7 * Z.abs (i - j)).
Proof. split; [exact small_matrix_example|intros; lia]. Qed.

(** C16's hypothesis fails for the shipped NTSC palette (palette.py 38, 43: GREY1
    and GREY2 have the same RGB value): whatever the perceptual distance, two
    DHGR byte windows showing solid GREY1 and solid GREY2 get distance 0 although
    every dot differs, so the encoder never replaces one by the other. *)
Theorem C16_ntsc_greys_refuted : forall delta t,
  (forall x, delta x x = 0) -> (forall x y, 0 <= delta x y <= 3640) ->
  compute_edit_distance (compute_substitute_costs (compute_diff_matrix delta ntsc_rgb)) DHGR dhgr_value = Ok t ->
  edit_distances DHGR t 0 (pair_index DHGR 0x1555 0x0aaa) = 0.
Proof. exact ntsc_grey. Qed.
Print Assumptions C16_ntsc_greys_refuted.

Example C16_ntsc_windows :
  window_pixels DHGR dhgr_value 0x1555 0 = Ok (repeat (dhgr_value GREY1) 10) /\
  window_pixels DHGR dhgr_value 0x0aaa 0 = Ok (repeat (dhgr_value GREY2) 10).
Proof. split; vm_compute; reflexivity. Qed.

Example C16_distance_example :
  let e := compute_substitute_costs (fun i j => 7 * Z.abs (i - j)) in
  edit_distance e [48; 49; 65; 65] [49; 48; 65; 66] false = Ok 8.
Proof. vm_compute. reflexivity. Qed.

(** C17: [chr i] is the character code of colour [i]. *)
Theorem C17_costs_are_pair_differences : forall dm i j, 0 <= i < 16 -> 0 <= j < 16 ->
  e_sub (compute_substitute_costs dm) (chr i) (chr j) = dm (Z.max i j) (Z.min i j) /\
  e_err (compute_substitute_costs dm) (chr i) (chr j) = 5 * dm (Z.max i j) (Z.min i j).
Proof. exact sub_costs. Qed.
Print Assumptions C17_costs_are_pair_differences.

Theorem C17_costs_symmetric : forall dm c d,
  e_sub (compute_substitute_costs dm) c d = e_sub (compute_substitute_costs dm) d c /\
  e_err (compute_substitute_costs dm) c d = 5 * e_sub (compute_substitute_costs dm) c d.
Proof.
  exact (fun dm c d => match sub_costs_inv (fun _ => True) dm I (fun _ _ _ _ => I) c d with
                       | conj A (conj B _) => conj A B end).
Qed.
Print Assumptions C17_costs_symmetric.

(** C18 for HGR colours: the cost is the perceptual distance of the two colours. *)
Theorem C18_hgr_costs_partial : forall delta pal c1 c2,
  e_sub (compute_substitute_costs (compute_diff_matrix delta pal)) (chr (hgr_value c1)) (chr (hgr_value c2))
    = delta (pal c1) (pal c2) \/
  e_sub (compute_substitute_costs (compute_diff_matrix delta pal)) (chr (hgr_value c1)) (chr (hgr_value c2))
    = delta (pal c2) (pal c1).
Proof. exact sub_costs_hgr. Qed.
Print Assumptions C18_hgr_costs_partial.

(** C18 for DHGR colours is false: the cost of DHGR MAGENTA against BLACK is
    the distance of the palette's BROWN from BLACK, for every perceptual
    distance and palette (with CIE2000 on the NTSC palette: 31 instead of 35). *)
Theorem C18_dhgr_costs_refuted : forall delta pal,
  e_sub (compute_substitute_costs (compute_diff_matrix delta pal))
    (chr (dhgr_value MAGENTA)) (chr (dhgr_value BLACK)) = delta (pal BROWN) (pal BLACK).
Proof. exact (fun delta pal => eq_trans (proj1 (sub_costs (compute_diff_matrix delta pal) 8 0 ltac:(lia) ltac:(lia)))
   (diff_matrix_entries delta pal BROWN BLACK)). Qed.
Print Assumptions C18_dhgr_costs_refuted.

(** Exactly which cost is used: that of the hi-res colours [n1], [n2] that have
    the values of the double hi-res colours [c1], [c2]; it is the right one
    between BLACK and WHITE and between the two greys. *)
Theorem C18_dhgr_costs_partial : forall delta pal c1 c2 n1 n2,
  hgr_value n1 = dhgr_value c1 -> hgr_value n2 = dhgr_value c2 ->
  e_sub (compute_substitute_costs (compute_diff_matrix delta pal)) (chr (dhgr_value c1)) (chr (dhgr_value c2))
    = delta (pal n1) (pal n2) \/
  e_sub (compute_substitute_costs (compute_diff_matrix delta pal)) (chr (dhgr_value c1)) (chr (dhgr_value c2))
    = delta (pal n2) (pal n1).
Proof. exact sub_costs_dhgr. Qed.
Print Assumptions C18_dhgr_costs_partial.
Example C18_every_colour_has_one : forall c, exists n, hgr_value n = dhgr_value c.
Proof.
  intros []; [exists BLACK|exists BROWN|exists DARK_GREEN|exists GREEN|exists DARK_BLUE|exists GREY2|exists MED_BLUE|exists AQUA
    |exists MAGENTA|exists ORANGE|exists GREY1|exists YELLOW|exists VIOLET|exists PINK|exists LIGHT_BLUE|exists WHITE]; reflexivity.
Qed.
Theorem C18_black_white_greys_partial : forall delta pal c1 c2,
  (In c1 [BLACK; WHITE] /\ In c2 [BLACK; WHITE]) \/ (In c1 [GREY1; GREY2] /\ In c2 [GREY1; GREY2] /\ c1 <> c2) ->
  e_sub (compute_substitute_costs (compute_diff_matrix delta pal)) (chr (dhgr_value c1)) (chr (dhgr_value c2))
    = delta (pal c1) (pal c2) \/
  e_sub (compute_substitute_costs (compute_diff_matrix delta pal)) (chr (dhgr_value c1)) (chr (dhgr_value c2))
    = delta (pal c2) (pal c1).
Proof. exact sub_costs_dhgr_same. Qed.
Print Assumptions C18_black_white_greys_partial.

Example C18_palettes_differ : ntsc_rgb BROWN <> ntsc_rgb MAGENTA /\ iigs_rgb BROWN <> iigs_rgb MAGENTA.
Proof. split; discriminate. Qed.

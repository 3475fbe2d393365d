(** Properties C05-C14: packed bitmaps, dots and colours. *)
From Verif Require Import Base BaseFacts BitFacts ScreenModel ScreenSpec ScreenProofs BitmapModel
  ColourModel DisplaySpec BitmapSpec BitmapProofs BitmapApply BitmapState ColourProofs DotsProofs BitmapFacts LineSpec LineProofs.

(** a non-trivial reachable DHGR bitmap, with a store *)
Definition ex_main : memory_map := {| mm_page := 1; mm_data := fun p o => (p * 37 + o * 11) mod 256 |}.
Definition ex_aux : memory_map := {| mm_page := 1; mm_data := fun p o => (p * 5 + o * 29 + 3) mod 256 |}.

Lemma ex_bytes_main : bytes_mem (mm_data ex_main).
Proof. intros p o _ _. apply Z.mod_pos_bound; reflexivity. Qed.
Lemma ex_bytes_aux : bytes_mem (mm_data ex_aux).
Proof. intros p o _ _. apply Z.mod_pos_bound; reflexivity. Qed.

Example reachable_example : exists bm, apply (dhgr_new ex_main ex_aux) 3 40 true 0x55 = Ok bm
  /\ reachable bm /\ bm_packed (dhgr_new ex_main ex_aux) 3 20 <> bm_packed bm 3 20.
Proof.
  assert (R : reachable (dhgr_new ex_main ex_aux)) by (apply reach_dhgr; auto using ex_bytes_main, ex_bytes_aux).
  assert (G : good_store (bm_kind (dhgr_new ex_main ex_aux)) (3, 40, true, 0x55))
    by (cbn [bm_kind dhgr_new good_store]; unfold is_byte; repeat split; auto; lia).
  destruct (store_never_raises _ _ _ _ _ R G) as (bm & E & R').
  exists bm. split; [exact E|split; [exact R'|]].
  assert (V : match apply (dhgr_new ex_main ex_aux) 3 40 true 0x55 with
              | Ok b => bm_packed b 3 20 | Raise _ => 0 end <> bm_packed (dhgr_new ex_main ex_aux) 3 20)
    by (vm_compute; discriminate).
  rewrite E in V. intro Q. apply V. symmetry. exact Q.
Qed.

Example reachable_example_hgr : exists bm, apply (hgr_new ex_main) 3 41 false 0xd5 = Ok bm
  /\ reachable bm /\ bm_packed (hgr_new ex_main) 3 20 <> bm_packed bm 3 20.
Proof.
  assert (R : reachable (hgr_new ex_main)) by (apply reach_hgr; auto using ex_bytes_main).
  assert (G : good_store (bm_kind (hgr_new ex_main)) (3, 41, false, 0xd5))
    by (cbn [bm_kind hgr_new good_store]; unfold is_byte; repeat split; auto; lia).
  destruct (store_never_raises _ _ _ _ _ R G) as (bm & E & R').
  exists bm. split; [exact E|split; [exact R'|]].
  assert (V : match apply (hgr_new ex_main) 3 41 false 0xd5 with
              | Ok b => bm_packed b 3 20 | Raise _ => 0 end <> bm_packed (hgr_new ex_main) 3 20)
    by (vm_compute; discriminate).
  rewrite E in V. intro Q. apply V. symmetry. exact Q.
Qed.

(** Stores inside the screen never raise (used by C05-C08). *)
Theorem C08_store_never_raises : forall bm p o a v,
  reachable bm -> good_store (bm_kind bm) (p, o, a, v) ->
  exists bm', apply bm p o a v = Ok bm' /\ reachable bm'.
Proof. exact store_never_raises. Qed.
Print Assumptions C08_store_never_raises.

(** C05: every packed DHGR word is the 34 displayed dots starting 3 before the
    column. *)
Theorem C05_packed_is_displayed_dots : forall bm p c,
  reachable bm -> bm_kind bm = DHGR -> 0 <= p < 32 -> 0 <= c < 128 ->
  0 <= bm_packed bm p c < 2 ^ 34 /\
  forall i, 0 <= i < 34 -> Z.testbit (bm_packed bm p c) i =
    dhgr_dot (aux_data (bm_aux bm) p) (mm_data (bm_main bm) p) (28 * c - 3 + i).
Proof. exact packed_is_dots. Qed.
Print Assumptions C05_packed_is_displayed_dots.

(** C06: masked HGR data converts to exactly the displayed dots. *)
Theorem C06_masked_is_displayed_dots : forall bm p off,
  reachable bm -> bm_kind bm = HGR -> 0 <= p < 32 -> 0 <= off < 256 ->
  exists o mv d, byte_offset HGR off false = Ok o /\
    mask_and_shift_data HGR (bm_packed bm p (off / 2)) o = Ok mv /\ to_dots HGR mv o = Ok d /\
    0 <= d < 2 ^ 21 /\
    forall i, 0 <= i < 21 -> Z.testbit d i = hgr_dot (mm_data (bm_main bm) p) (14 * off - 3 + i).
Proof. exact masked_is_dots_HGR. Qed.
Print Assumptions C06_masked_is_displayed_dots.

(** C07: incremental updates equal repacking from scratch. *)
Theorem C07_incremental_is_repack_HGR : forall bm p c,
  reachable bm -> bm_kind bm = HGR -> 0 <= p < 32 -> 0 <= c < 128 ->
  bm_packed bm p c = bm_packed (hgr_new (bm_main bm)) p c.
Proof. exact incremental_HGR. Qed.
Print Assumptions C07_incremental_is_repack_HGR.

Theorem C07_incremental_is_repack_DHGR : forall bm aux p c,
  reachable bm -> bm_kind bm = DHGR -> bm_aux bm = Some aux -> 0 <= p < 32 -> 0 <= c < 128 ->
  bm_packed bm p c = bm_packed (dhgr_new (bm_main bm) aux) p c.
Proof. exact incremental_DHGR. Qed.
Print Assumptions C07_incremental_is_repack_DHGR.

(** C08: frame condition of a store. *)
Theorem C08_store_changes_one_byte : forall bm p o a v,
  reachable bm -> good_store (bm_kind bm) (p, o, a, v) ->
  exists bm', apply bm p o a v = Ok bm' /\ bm_kind bm' = bm_kind bm /\
    (forall p' o', mm_data (bm_main bm') p' o' =
       if negb a && (p' =? p) && (o' =? o) then v else mm_data (bm_main bm) p' o') /\
    (forall p' o', aux_data (bm_aux bm') p' o' =
       if a && (p' =? p) && (o' =? o) then v else aux_data (bm_aux bm) p' o') /\
    exists nb, (nb = o / 2 - 1 \/ nb = o / 2 + 1) /\
      forall p' c', p' <> p \/ (c' <> o / 2 /\ c' <> nb) -> bm_packed bm' p' c' = bm_packed bm p' c'.
Proof. exact store_frame. Qed.
Print Assumptions C08_store_changes_one_byte.

(** C09: masked values are table indices, for any packed word at all. *)
Theorem C09_mask_assertion_never_fires : forall k w o, 0 <= o < SCREEN_BYTES k ->
  mask_and_shift_data k w o = Ok (mask_and_shift k w o) /\
  0 <= mask_and_shift k w o < 2 ^ MASKED_BITS k.
Proof. exact (fun k w o H => conj (mask_assertion k w o H) (masked_bound k w o H)). Qed.
Print Assumptions C09_mask_assertion_never_fires.

Theorem C09_pair_index_in_table : forall k a b,
  0 <= a < 2 ^ MASKED_BITS k -> 0 <= b < 2 ^ MASKED_BITS k ->
  0 <= pair_index k a b < 2 ^ (2 * MASKED_BITS k).
Proof. exact pair_index_bound. Qed.
Print Assumptions C09_pair_index_in_table.

Theorem C09_pair_index_one_to_one : forall k a b a' b',
  0 <= b < 2 ^ MASKED_BITS k -> 0 <= b' < 2 ^ MASKED_BITS k ->
  pair_index k a b = pair_index k a' b' -> a = a' /\ b = b'.
Proof. exact pair_index_inj. Qed.
Print Assumptions C09_pair_index_one_to_one.

(** Packed words stay below 2^34 (so they fit np.uint64). *)
Theorem C09_packed_words_fit : forall bm p c, reachable bm -> 0 <= p < 32 -> 0 <= c < 128 ->
  0 <= bm_packed bm p c < 2 ^ (HEADER_BITS (bm_kind bm) + BODY_BITS (bm_kind bm) + FOOTER_BITS (bm_kind bm)).
Proof. exact (fun bm p c R Hp Hc => proj1 (ok_rows bm (reachable_ok bm R) p Hp c Hc)). Qed.
Print Assumptions C09_packed_words_fit.

(** C10: compute_delta_page at [off] is the distance of the bitmap in which the
    content byte is really stored at [off], minus the recorded weight. *)
Theorem C10_what_if_is_real_store : forall ed bm page content dw is_aux off bm',
  reachable bm -> 0 <= page < 32 -> 0 <= off < 256 ->
  (bm_kind bm = DHGR \/ is_aux = false) -> is_byte content ->
  apply bm page off is_aux content = Ok bm' ->
  exists delta dist, compute_delta_page ed bm page content dw is_aux = Ok delta /\
    diff_weights ed bm bm' is_aux = Ok dist /\
    delta off = dist page off - dw off.
Proof. exact what_if. Qed.
Print Assumptions C10_what_if_is_real_store.

Theorem C10_byte_pair_difference_is_real_store : forall ed bm page content is_aux off bm' o,
  reachable bm -> 0 <= page < 32 -> 0 <= off < 256 ->
  (bm_kind bm = DHGR \/ is_aux = false) -> is_byte content ->
  apply bm page off is_aux content = Ok bm' ->
  byte_offset (bm_kind bm) off is_aux = Ok o ->
  exists r dist, byte_pair_difference (bm_kind bm) ed o (bm_packed bm page (off / 2)) content = Ok r /\
    diff_weights ed bm' bm is_aux = Ok dist /\ r = dist page off.
Proof. exact byte_pair_difference_is_distance. Qed.
Print Assumptions C10_byte_pair_difference_is_real_store.

(** C11: [dot] is any infinite dot string; [dots] holds its positions
    d .. d+num+2, and the initial phase is d mod 4. *)
Theorem C11_sliding_window : forall value num dots phase dot d,
  value = hgr_value \/ value = dhgr_value ->
  0 <= num -> 0 <= phase < 4 -> phase = d mod 4 ->
  (forall t, 0 <= t < num + 3 -> Z.testbit dots t = dot (d + t)) ->
  exists l, dots_to_nominal_colour_pixels num dots value phase = Ok l /\
    map value l = map (fun i => pixel_colour dot (d + i)) (zrange num).
Proof. exact colours_spec_enum. Qed.
Print Assumptions C11_sliding_window.

Theorem C11_colour_depends_on_four_dots : forall dot dot' d,
  (forall t, 0 <= t < 4 -> dot (d + t) = dot' (d + t)) -> pixel_colour dot d = pixel_colour dot' d.
Proof. exact pixel_colour_local. Qed.
Print Assumptions C11_colour_depends_on_four_dots.

Theorem C11_colour_bits : forall dot d e, d <= e < d + 4 ->
  Z.testbit (pixel_colour dot d) (e mod 4) = dot e.
Proof. exact pixel_colour_bits. Qed.
Print Assumptions C11_colour_bits.

Example C11_example : dots_to_nominal_colour_pixel_values 5 0xB5 hgr_value 1 = Ok [10; 10; 14; 6; 7].
Proof. vm_compute. reflexivity. Qed.

(** C12 (a): the window of a byte shows the pixels of the whole page. *)
Theorem C12_window_is_screen : forall bm p off is_aux o,
  reachable bm -> 0 <= p < 32 -> 0 <= off < 256 ->
  (bm_kind bm = DHGR \/ is_aux = false) ->
  byte_offset (bm_kind bm) off is_aux = Ok o ->
  forall value, value = hgr_value \/ value = dhgr_value ->
  window_pixels (bm_kind bm) value (mask_and_shift (bm_kind bm) (bm_packed bm p (off / 2)) o) o =
  Ok (map (fun i => pixel_colour (row_dot (bm_kind bm) (mm_data (bm_main bm) p) (aux_data (bm_aux bm) p))
                      (window_start (bm_kind bm) off is_aux + i)) (zrange (MASKED_DOTS (bm_kind bm)))).
Proof. exact window_is_screen. Qed.
Print Assumptions C12_window_is_screen.

(** C12 (b): a store changes no pixel outside that window. *)
Theorem C12_store_changes_only_window : forall bm p off is_aux v bm',
  reachable bm -> good_store (bm_kind bm) (p, off, is_aux, v) -> apply bm p off is_aux v = Ok bm' ->
  forall p' d, 0 <= p' < 32 ->
  p' <> p \/ ~ (window_start (bm_kind bm) off is_aux <= d < window_start (bm_kind bm) off is_aux + MASKED_DOTS (bm_kind bm)) ->
  pixel_colour (row_dot (bm_kind bm) (mm_data (bm_main bm') p') (aux_data (bm_aux bm') p')) d =
  pixel_colour (row_dot (bm_kind bm) (mm_data (bm_main bm) p') (aux_data (bm_aux bm) p')) d.
Proof. exact store_outside_window. Qed.
Print Assumptions C12_store_changes_only_window.

(** C13 *)
Theorem C13_rotations_inverse : forall x n, 0 <= x < 16 ->
  ror (rol x n) n = x /\ rol (ror x n) n = x /\ 0 <= rol x n < 16 /\ 0 <= ror x n < 16.
Proof. exact rotations_inverse. Qed.
Print Assumptions C13_rotations_inverse.

Theorem C13_rotations_period : forall x n, 0 <= x < 16 -> 0 <= n ->
  rol x (n + 4) = rol x n /\ ror x (n + 4) = ror x n.
Proof. exact rol_period. Qed.
Print Assumptions C13_rotations_period.

(** A repeating 4-dot pattern of any length shows as one colour. *)
Theorem C13_uniform_run : forall value num dots phase,
  value = hgr_value \/ value = dhgr_value ->
  0 <= num -> 0 <= phase < 4 ->
  (forall t, 0 <= t < num - 1 -> Z.testbit dots t = Z.testbit dots (t + 4)) ->
  exists l c, dots_to_nominal_colour_pixels num dots value phase = Ok l /\
    map value l = repeat c (Z.to_nat num).
Proof. exact uniform_run. Qed.
Print Assumptions C13_uniform_run.

Example C13_example : dots_to_nominal_colour_pixel_values 6 0x555 dhgr_value 3 = Ok [10; 10; 10; 10; 10; 10].
Proof. vm_compute. reflexivity. Qed.

(** C14: refuted.  The byte at (page 0, offset 40) is the left end of line 64;
    a store at (page 0, offset 39), the right end of line 0, changes its window. *)
Theorem C14_context_on_scan_line_refuted :
  exists bm bm' p off off' y y' x x', reachable bm /\ bm_kind bm = HGR /\
    apply bm p off false 0x7f = Ok bm' /\
    visible_xy x y /\ hires_offset x y = 256 * p + off /\
    visible_xy x' y' /\ hires_offset x' y' = 256 * p + off' /\ y <> y' /\
    mask_and_shift HGR (bm_packed bm' p (off' / 2)) (off' mod 2) <>
    mask_and_shift HGR (bm_packed bm p (off' / 2)) (off' mod 2).
Proof. exact context_refuted. Qed.
Print Assumptions C14_context_on_scan_line_refuted.

(** C14, the part that holds: the window of a byte only depends on the bytes at
    its own and the two adjacent offsets, and for a byte that is not at either
    end of its line these are its neighbours on the same line. *)
Theorem C14_interior_context_partial : forall p off x y,
  visible_xy x y -> hires_offset x y = 256 * p + off -> in_page p off -> 0 < x < 39 ->
  hires_offset (x - 1) y = 256 * p + (off - 1) /\ hires_offset (x + 1) y = 256 * p + (off + 1) /\
  visible_xy (x - 1) y /\ visible_xy (x + 1) y /\ in_page p (off - 1) /\ in_page p (off + 1).
Proof. exact interior_neighbours. Qed.
Print Assumptions C14_interior_context_partial.

Theorem C14_window_depends_on_adjacent_bytes_partial : forall bm p off is_aux v bm' off' is_aux' o',
  reachable bm -> good_store (bm_kind bm) (p, off, is_aux, v) -> apply bm p off is_aux v = Ok bm' ->
  0 <= off' < 256 -> (bm_kind bm = DHGR \/ is_aux' = false) ->
  byte_offset (bm_kind bm) off' is_aux' = Ok o' ->
  off' < off - 1 \/ off + 1 < off' ->
  mask_and_shift (bm_kind bm) (bm_packed bm' p (off' / 2)) o' =
  mask_and_shift (bm_kind bm) (bm_packed bm p (off' / 2)) o'.
Proof. exact window_context. Qed.
Print Assumptions C14_window_depends_on_adjacent_bytes_partial.

(** The mistake is confined to the right edge of the screen (and, in hi-res, the
    first half dot of the left edge): every pixel of line [y] whose four dots lie
    on the line has, in the transcoder's picture of the memory page, the colour
    that the 40 bytes of the line show by themselves.  A line has 560 dots. *)
Theorem C14_line_pixels_partial : forall k (main aux : mem) y p off d,
  visible_xy 0 y -> hires_offset 0 y = 256 * p + off -> 0 <= off < 256 ->
  0 <= d <= 556 -> (k = HGR -> 0 < d) ->
  pixel_colour (row_dot k (main p) (aux p)) (14 * off + d) =
  pixel_colour (row_dot k (scan_line main y) (scan_line aux y)) d.
Proof. exact line_pixels. Qed.
Print Assumptions C14_line_pixels_partial.
Example C14_line_case : visible_xy 0 127 /\ hires_offset 0 127 = 256 * 31 + 168.
Proof. split; [split; lia|reflexivity]. Qed.

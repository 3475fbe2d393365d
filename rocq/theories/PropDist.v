(** Property C88: the distance is the cost of the cheapest repainting. *)
From Verif Require Import Base ScreenModel ScreenSpec BitmapModel ColourModel DisplaySpec BitmapSpec BitmapFacts TableModel TableSpec TableProofs
  VideoModel VideoSpec PropTables DistSpec DistProofs.

(** For every table that make_data_tables.py can build, the distance of two masked
    values is the least total cost of turning the one row of pixel colours into the
    other. *)
Theorem C88_distance_is_least_cost : forall dm k value t,
  value = hgr_value \/ value = dhgr_value -> small_matrix dm ->
  compute_edit_distance (compute_substitute_costs dm) k value = Ok t ->
  forall o a b, 0 <= o < SCREEN_BYTES k -> 0 <= a < 2 ^ MASKED_BITS k -> 0 <= b < 2 ^ MASKED_BITS k ->
  exists pa pb, window_pixels k value a o = Ok pa /\ window_pixels k value b o = Ok pb /\
    least_cost (colour_cost dm) pa pb (edit_distances k t o (pair_index k a b)).
Proof.
  intros dm k value t V HD HT o a b Ho Ha Hb.
  destruct (window_pixels_ok k value a o V Ha Ho) as (_ & pa & _ & Ea & _). destruct (window_pixels_ok k value b o V Hb Ho) as (_ & pb & _ & Eb & _).
  exists pa, pb. split; [exact Ea|]. split; [exact Eb|]. exact (table_least dm k value t V HD HT o a b pa pb Ho Ha Hb Ea Eb).
Qed.
Print Assumptions C88_distance_is_least_cost.

(** If one pixel differs, the distance is the difference of its two colours. *)
Theorem C88_one_pixel : forall dm k value t,
  value = hgr_value \/ value = dhgr_value -> small_matrix dm ->
  compute_edit_distance (compute_substitute_costs dm) k value = Ok t ->
  forall o a b p q x y, 0 <= o < SCREEN_BYTES k -> 0 <= a < 2 ^ MASKED_BITS k -> 0 <= b < 2 ^ MASKED_BITS k ->
  window_pixels k value a o = Ok (p ++ x :: q) -> window_pixels k value b o = Ok (p ++ y :: q) -> x <> y ->
  edit_distances k t o (pair_index k a b) = colour_cost dm x y.
Proof.
  intros dm k value t V HD HT o a b p q x y Ho Ha Hb Ea Eb N.
  exact (table_one dm k value t V HD HT o a b p q x y Ho Ha Hb Ea Eb N).
Qed.
Print Assumptions C88_one_pixel.

(** In the encoder: whatever was encoded before, the distance with which a byte
    starts a frame is the least cost of turning the colours around it on screen into
    the frame's ... *)
Theorem C88_frame_distance : forall dm value k tb n v0 t a p o,
  value = hgr_value \/ value = dhgr_value -> small_matrix dm ->
  compute_edit_distance (compute_substitute_costs dm) k value = Ok tb ->
  encoder (edit_distances k tb) k n v0 -> good_target k t -> good_bank k a -> in_page p o -> displayed p o ->
  least_cost (colour_cost dm) (colours_at (v_pix v0) p o a) (colours_at t p o a)
    (start_distance (edit_distances k tb) t (v_pix v0) a p o).
Proof. exact frame_least. Qed.
Print Assumptions C88_frame_distance.

(** ... and the error by which an extra offset is judged is the least cost of turning
    the colours around it, with [c] stored there in the frame, into the frame's. *)
Theorem C88_store_error : forall dm value k tb t a p o c,
  value = hgr_value \/ value = dhgr_value -> small_matrix dm ->
  compute_edit_distance (compute_substitute_costs dm) k value = Ok tb ->
  reachable t -> bm_kind t = k -> good_store k (p, o, a, c) ->
  exists t', apply t p o a c = Ok t' /\
    least_cost (colour_cost dm) (colours_at t' p o a) (colours_at t p o a) (store_error (edit_distances k tb) t a p o c).
Proof. exact store_least. Qed.
Print Assumptions C88_store_error.

(** The least cost is unique ... *)
Theorem C88_least_cost_unique : forall cost s t c c', least_cost cost s t c -> least_cost cost s t c' -> c = c'.
Proof. exact least_unique. Qed.
Print Assumptions C88_least_cost_unique.

(** ... for instance exchanging two neighbours beats repainting both. *)
Example C88_swap : least_cost (colour_cost (fun i j => 7 * Z.abs (i - j))) [3; 0; 1; 5] [3; 1; 0; 7] 15.
Proof.
  split.
  - apply way_keep. change 15 with (1 + (14 + 0)). apply way_swap. change 14 with (colour_cost (fun i j => 7 * Z.abs (i - j)) 5 7).
    apply way_repaint, way_nil.
  - intros c W. repeat match goal with W : way _ _ _ _ |- _ => inversion W; clear W; subst end; unfold colour_cost; cbn; lia.
Qed.
(** two double hi-res windows that differ in one pixel *)
Example C88_windows : exists q, window_pixels DHGR dhgr_value 0 0 = Ok ([] ++ 0 :: q) /\ window_pixels DHGR dhgr_value 1 0 = Ok ([] ++ 2 :: q).
Proof. eexists. split; vm_compute; reflexivity. Qed.

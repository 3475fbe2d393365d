(** Vocabulary for the distance tables. *)
From Verif Require Import Base ScreenModel BitmapModel ColourModel DisplaySpec BitmapSpec TableModel.

(** every entry of the perceptual difference matrix is within 0..3640 (CIE2000
    differences of RGB colours are about 0..101) *)
Definition small_matrix (dm : Z -> Z -> Z) : Prop :=
  forall i j, 0 <= i < 16 -> 0 <= j < 16 -> 0 <= dm i j <= 3640.

(** a distance table built from a colour difference matrix that is positive for
    distinct colours (in hi-res the two greys, 5 and 10, may be the same: they
    never appear) *)
Definition real_table (k : kind) (ed : table) : Prop := exists dm value t,
  (value = hgr_value \/ value = dhgr_value) /\ small_matrix dm /\
  (forall i j, 0 <= j < i -> i < 16 -> (k = HGR /\ i = 10 /\ j = 5) \/ 0 < dm i j) /\
  compute_edit_distance (compute_substitute_costs dm) k value = Ok t /\ ed = edit_distances k t.

(** the distance table that make_data_tables.py 178-197 builds from a palette, for
    any perceptual difference [delta] that is positive for different colours *)
Definition palette_table (k : kind) (pal : colour_name -> rgb) (ed : table) : Prop := exists delta t,
  (forall x y, 0 <= delta x y <= 3640) /\ (forall x y, x <> y -> 0 < delta x y) /\
  compute_edit_distance (compute_substitute_costs (compute_diff_matrix delta pal)) k
    (match k with HGR => hgr_value | DHGR => dhgr_value end) = Ok t /\
  ed = edit_distances k t.

(** a double hi-res table from a matrix that is positive for distinct colours
    except perhaps between the two greys, 5 and 10 *)
Definition grey_table (ed : table) : Prop := exists dm value t,
  (value = hgr_value \/ value = dhgr_value) /\ small_matrix dm /\
  (forall i j, 0 <= j < i -> i < 16 -> (i = 10 /\ j = 5) \/ 0 < dm i j) /\
  compute_edit_distance (compute_substitute_costs dm) DHGR value = Ok t /\ ed = edit_distances DHGR t.
(** none of the ten pixels that a double hi-res byte takes part in is grey *)
Definition no_grey (b : bitmap) (a : bool) (p o : Z) : Prop :=
  forall d, window_start DHGR o a <= d < window_start DHGR o a + 10 ->
    let c := pixel_colour (dhgr_dot (aux_data (bm_aux b) p) (mm_data (bm_main b) p)) d in c <> 5 /\ c <> 10.

(** Vocabulary for the options and the table files. *)
From Verif Require Import Base ScreenModel BitmapModel ColourModel TableModel TableSpec SymbolModel GrabberModel MainModel.

(** the colours of a palette that can be used *)
Definition colours_of (p : palette_id) : option (colour_name -> rgb) :=
  match p with IIGS => Some iigs_rgb | NTSC => Some ntsc_rgb | UNKNOWN => None end.
(** a perceptual difference of colours, as in TableSpec.v *)
Definition good_delta (delta : rgb -> rgb -> Z) : Prop := (forall x y, 0 <= delta x y <= 3640) /\ (forall x y, x <> y -> 0 < delta x y).
(** the table for a mode and a palette *)
Definition table_for (delta : rgb -> rgb -> Z) (k : kind) (pal : colour_name -> rgb) (t : table) : Prop :=
  compute_edit_distance (compute_substitute_costs (compute_diff_matrix delta pal)) k (match k with HGR => hgr_value | DHGR => dhgr_value end) = Ok t.

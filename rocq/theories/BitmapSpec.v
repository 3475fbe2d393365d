(** Specification vocabulary for the packed bitmaps: store histories, reachable
    bitmaps, and where a byte's window lies on the displayed line. *)
From Verif Require Import Base ScreenModel BitmapModel ColourModel DisplaySpec.

(** A store request: page (0..31), offset, bank, value. *)
Definition store := (Z * Z * bool * Z)%type.
Definition good_store (k : kind) (s : store) : Prop :=
  let '(p, o, a, v) := s in
  0 <= p < 32 /\ 0 <= o < 256 /\ (k = DHGR \/ a = false) /\ is_byte v.

Fixpoint apply_all (bm : bitmap) (l : list store) : res bitmap :=
  match l with
  | [] => Ok bm
  | (p, o, a, v) :: l' => let! bm' := apply bm p o a v in apply_all bm' l'
  end.

(** memory contents after a list of stores, read off the request list *)
Fixpoint mem_after (is_aux : bool) (m : mem) (l : list store) : mem :=
  match l with
  | [] => m
  | (p, o, a, v) :: l' =>
      mem_after is_aux (if Bool.eqb a is_aux then upd2 m p o v else m) l'
  end.

(** Bitmaps obtainable by construction from memory maps of screen page 1 and
    any sequence of in-range byte stores. *)
Inductive reachable : bitmap -> Prop :=
| reach_hgr main : mm_page main = 1 -> bytes_mem (mm_data main) -> reachable (hgr_new main)
| reach_dhgr main aux : mm_page main = 1 -> mm_page aux = 1 ->
    bytes_mem (mm_data main) -> bytes_mem (mm_data aux) -> reachable (dhgr_new main aux)
| reach_apply bm p o a v bm' : reachable bm -> good_store (bm_kind bm) (p, o, a, v) ->
    apply bm p o a v = Ok bm' -> reachable bm'.

(** the colour string the distance tables use for a masked value:
    make_data_tables.py 147-152 *)
Definition window_pixels (k : kind) (value : colour_name -> Z) (mv o : Z) : res (list Z) :=
  let! d := to_dots k mv o in
  dots_to_nominal_colour_pixel_values (MASKED_DOTS k) d value (nth (Z.to_nat o) (PHASES k) 0).

(** absolute position of the first dot of the window of a byte *)
Definition window_start (k : kind) (off : Z) (is_aux : bool) : Z :=
  match k with
  | HGR => 14 * off - 3
  | DHGR => 7 * (2 * off + (if is_aux then 0 else 1)) - 3
  end.
Definition row_dot (k : kind) (main aux : row) : Z -> bool :=
  match k with HGR => hgr_dot main | DHGR => dhgr_dot aux main end.


(** Vocabulary for C14: a scan line of the screen. *)
From Verif Require Import Base ScreenModel ScreenSpec DisplaySpec.

(** the 40 bytes of scan line [y] of one bank, alone: nothing to their left or
    right, as on the screen *)
Definition scan_line (m : mem) (y : Z) : row := fun x =>
  if (0 <=? x) && (x <? 40) then m (hires_offset x y / 256) (hires_offset x y mod 256) else 0.

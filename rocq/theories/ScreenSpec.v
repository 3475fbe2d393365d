(** Independent specification of the Apple II hi-res screen layout
    (hardware reference): the 192 lines are three groups of 64; inside a group
    line [8*b + c] of group [a] starts at 1024*c + 128*b + 40*a. *)
From Verif Require Import Base.

(** Offset inside the 8K screen page of byte column [x] of line [y], written
    with the hardware's address bits: y = aabbbccc gives ccc bbb 0aa0 + x
    arithmetic. *)
Definition hires_offset (x y : Z) : Z :=
  (y mod 8) * 1024 + ((y / 8) mod 8) * 128 + (y / 64) * 40 + x.

Definition visible_xy (x y : Z) : Prop := 0 <= x < 40 /\ 0 <= y < 192.

(** Byte [offset] of memory page [page] (0..31, relative to the screen page)
    is displayed if some coordinate lives there. *)
Definition displayed (page offset : Z) : Prop :=
  exists x y, visible_xy x y /\ hires_offset x y = 256 * page + offset.

Definition in_page (page offset : Z) : Prop := 0 <= page < 32 /\ 0 <= offset < 256.

(** Count of the elements of a list satisfying a test. *)
Definition count {A} (f : A -> bool) (l : list A) : Z := Z.of_nat (length (filter f l)).
(** all (page, offset) pairs *)
Definition all_pairs : list (Z * Z) :=
  flat_map (fun p => map (fun o => (p, o)) (zrange 256)) (zrange 32).

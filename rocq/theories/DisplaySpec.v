(** Independent specification of what the Apple II displays.

    A [row] is the 256 bytes of one memory page, as a function of the offset
    (bytes outside 0..255 do not exist and count as 0: the transcoder treats
    each memory page as isolated). *)
From Verif Require Import Base.

Definition row := Z -> Z.
Definition clip_row (r : row) : row := fun i => if (0 <=? i) && (i <? 256) then r i else 0.

(** Double hi-res: dots are read seven per byte, alternating aux and main, low
    bit first; bit 7 is not displayed. *)
Definition dhgr_dot (aux main : row) (d : Z) : bool :=
  let byte_no := d / 7 in
  let bank := if Z.even byte_no then aux else main in
  Z.testbit (clip_row bank (byte_no / 2)) (d mod 7).

(** Hi-res at double resolution: each byte owns 14 dots; each of bits 0..6 shows
    as two dots, low bit first; bit 7 (palette) delays the byte by one dot, the
    gap shows the last bit of the previous byte. *)
Definition hgr_dot (main : row) (d : Z) : bool :=
  let byte_no := d / 14 in
  let r := d mod 14 in
  let b := clip_row main byte_no in
  let delay := b2z (Z.testbit b 7) in
  if r <? delay then Z.testbit (clip_row main (byte_no - 1)) 6
  else Z.testbit b ((r - delay) / 2).

(** A memory whose cells are bytes. *)
Definition is_byte (v : Z) : Prop := 0 <= v < 256.
Definition bytes_mem (m : Z -> Z -> Z) : Prop := forall p o, 0 <= p < 32 -> 0 <= o < 256 -> is_byte (m p o).

(** Nominal colour of the pixel at absolute dot position [d] of a dot string:
    a 4-bit value whose bit [j] is the one dot among positions d..d+3 whose
    position is congruent to [j] modulo 4 (NTSC colour clock). *)
Definition pixel_colour (dot : Z -> bool) (d : Z) : Z :=
  let at_phase j := b2z (dot (d + (j - d) mod 4)) in
  at_phase 0 + 2 * at_phase 1 + 4 * at_phase 2 + 8 * at_phase 3.

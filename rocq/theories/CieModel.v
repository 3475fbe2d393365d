(** The colour difference behind make_data_tables.py 55-70, in exact arithmetic.
    Not code of the repository: colormath's conversion sRGB -> XYZ -> L*a*b* (D65)
    and its CIE2000 difference, on real numbers.  make_data_tables.py takes [int]
    of the latter. *)
From Coq Require Import Reals.
From Verif Require Import Base ColourModel TableModel.
Local Open Scope R_scope.

(** ** L*a*b* of an sRGB colour with 8-bit channels (palette.py 14-15) *)
(** the sRGB transfer function; channel value out of 255 *)
Definition linear (v : Z) : R :=
  let x := IZR v / 255 in
  if Rle_dec x (4045 / 100000) then x / (1292 / 100) else Rpower ((x + 55 / 1000) / (1055 / 1000)) (24 / 10).
(** XYZ relative to the D65 white point *)
Definition rel_x (r g b : R) : R := (412424 / 1000000 * r + 357579 / 1000000 * g + 180464 / 1000000 * b) / (95047 / 100000).
Definition rel_y (r g b : R) : R := 212656 / 1000000 * r + 715158 / 1000000 * g + 721856 / 10000000 * b.
Definition rel_z (r g b : R) : R := (193324 / 10000000 * r + 119193 / 1000000 * g + 950444 / 1000000 * b) / (108883 / 100000).
Definition lab_f (t : R) : R := if Rlt_dec (216 / 24389) t then Rpower t (1 / 3) else 7787 / 1000 * t + 16 / 116.
Record lab := Lab { l_l : R; l_a : R; l_b : R }.
Definition lab_of (c : rgb) : lab :=
  let '(r, g, b) := c in
  let fx := lab_f (rel_x (linear r) (linear g) (linear b)) in
  let fy := lab_f (rel_y (linear r) (linear g) (linear b)) in
  let fz := lab_f (rel_z (linear r) (linear g) (linear b)) in
  Lab (116 * fy - 16) (500 * (fx - fy)) (200 * (fy - fz)).

(** ** CIE2000 *)
Definition degrees (x : R) : R := x * 180 / PI.
Definition radians (x : R) : R := x * PI / 180.
Definition arctan2 (y x : R) : R :=
  if Rlt_dec 0 x then atan (y / x)
  else if Rlt_dec x 0 then (if Rle_dec 0 y then atan (y / x) + PI else atan (y / x) - PI)
  else if Rlt_dec 0 y then PI / 2 else if Rlt_dec y 0 then - PI / 2 else 0.
(** hue angle, 0 to 360 *)
Definition hue (b a : R) : R := let h := degrees (arctan2 b a) in if Rlt_dec h 0 then h + 360 else h.
Definition chroma (a b : R) : R := sqrt (a ^ 2 + b ^ 2).
Definition seventh (c : R) : R := sqrt (c ^ 7 / (c ^ 7 + 25 ^ 7)).

Definition cie2000 (p q : lab) : R :=
  let avg_l := (l_l p + l_l q) / 2 in
  let c1 := chroma (l_a p) (l_b p) in
  let c2 := chroma (l_a q) (l_b q) in
  let g := 1 / 2 * (1 - seventh ((c1 + c2) / 2)) in
  let a1 := (1 + g) * l_a p in
  let a2 := (1 + g) * l_a q in
  let c1' := chroma a1 (l_b p) in
  let c2' := chroma a2 (l_b q) in
  let avg_c := (c1' + c2') / 2 in
  let h1 := hue (l_b p) a1 in
  let h2 := hue (l_b q) a2 in
  let avg_h := ((if Rlt_dec 180 (Rabs (h1 - h2)) then 360 else 0) + h1 + h2) / 2 in
  let t := 1 - 17 / 100 * cos (radians (avg_h - 30)) + 24 / 100 * cos (radians (2 * avg_h))
             + 32 / 100 * cos (radians (3 * avg_h + 6)) - 20 / 100 * cos (radians (4 * avg_h - 63)) in
  let d := h2 - h1 in
  let delta_h := d + (if Rlt_dec 180 (Rabs d) then 360 else 0) - (if Rlt_dec h1 h2 then 720 else 0) in
  let dl := l_l q - l_l p in
  let dc := c2' - c1' in
  let dh := 2 * sqrt (c2' * c1') * sin (radians delta_h / 2) in
  let sl := 1 + 15 / 1000 * (avg_l - 50) ^ 2 / sqrt (20 + (avg_l - 50) ^ 2) in
  let sc := 1 + 45 / 1000 * avg_c in
  let sh := 1 + 15 / 1000 * avg_c * t in
  let ro := 30 * exp (- ((avg_h - 275) / 25) ^ 2) in
  let rt := - 2 * seventh avg_c * sin (2 * radians ro) in
  sqrt ((dl / sl) ^ 2 + (dc / sc) ^ 2 + (dh / sh) ^ 2 + rt * (dc / sc) * (dh / sh)).

(** [delta] is [int] of a computed difference that is within 1 of the exact one, on
    the colours of a palette. *)
Definition accurate (delta : rgb -> rgb -> Z) (pal : colour_name -> rgb) : Prop :=
  forall c1 c2, exists d : R,
    0 <= d /\ Rabs (d - cie2000 (lab_of (pal c1)) (lab_of (pal c2))) < 1 /\
    IZR (delta (pal c1) (pal c2)) <= d < IZR (delta (pal c1) (pal c2)) + 1.

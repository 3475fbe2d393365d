(** Vocabulary for C79: rounding as IEEE-754 defines it, to the nearest number of
    the format, and to the one with the even significand if two are nearest.
    Numbers are in units of 2^-149, the least positive binary32. *)
From Verif Require Import Base AudioFloatModel.

(** magnitudes with 24 significant bits, exponent unbounded *)
Definition in_format (v : Z) : Prop := exists m e, 0 <= e /\ 0 <= m < 2 ^ 24 /\ v = m * 2 ^ e.
(** the significand, of full length or at the least exponent, is even *)
Definition even_significand (v : Z) : Prop :=
  exists m e, 0 <= e /\ 0 <= m <= 2 ^ 24 /\ (2 ^ 23 <= m \/ e = 0) /\ v = m * 2 ^ e /\ Z.even m = true.
(** [v] is num/den rounded *)
Definition nearest_even (num den v : Z) : Prop :=
  in_format (Z.abs v) /\ (v = 0 \/ 0 < v * num) /\
  forall w, in_format (Z.abs w) ->
    Z.abs (v * den - num) <= Z.abs (w * den - num) /\
    (w <> v -> Z.abs (w * den - num) = Z.abs (v * den - num) -> even_significand (Z.abs v)).
(** [r] is num/den as a float32: 2^128 and more overflow *)
Definition rounded (num den : Z) (r : f32) : Prop :=
  exists v, nearest_even num den v /\ r = if 2 ^ 277 <=? Z.abs v then FInf (num <? 0) else F v.

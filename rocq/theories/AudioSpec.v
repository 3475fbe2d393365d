(** Vocabulary for the normalisation property. *)
From Verif Require Import Base.

(** an interpolation between neighbours; number of samples with a property *)
Definition between (lerp : Z -> Z -> Z -> Z) : Prop := forall a b t, a <= b -> 0 <= t < 1000 -> a <= lerp a b t <= b.
Definition count (f : Z -> bool) (l : list Z) : Z := Z.of_nat (length (filter f l)).

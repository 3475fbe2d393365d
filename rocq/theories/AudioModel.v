(** Model of Audio._normalization (transcoder/audio.py 64-82) and of what
    audio_stream does with a decoded sample (93-98).  Decoding and resampling
    (47-62, 73-79) are not modelled: the samples are any numbers.  They are
    integers in some unit (floats are multiples of a power of two). *)
From Verif Require Import Base ClockModel.

(** [sorted] *)
Fixpoint insert_z (x : Z) (l : list Z) : list Z :=
  match l with [] => [x] | y :: l' => if x <=? y then x :: l else y :: insert_z x l' end.
Definition sort_z (l : list Z) : list Z := fold_right insert_z [] l.

(** [np.percentile(a, q)] for [q] in tenths of a percent: linear interpolation
    between the neighbours of position (n-1)*q.  [lerp a b t] interpolates at
    t/1000; numpy's rounding is not modelled, the theorems hold for every [lerp]
    that stays between its arguments. *)
Definition percentile (lerp : Z -> Z -> Z -> Z) (q : Z) (a : list Z) : Z :=
  let s := sort_z a in
  let h := (Z.of_nat (length a) - 1) * q in
  let f := h / 1000 in
  lerp (nth (Z.to_nat f) s 0) (nth (Z.to_nat (Z.min (f + 1) (Z.of_nat (length a) - 1))) s 0) (h mod 1000).
(** audio.py 80 *)
Definition norm (lerp : Z -> Z -> Z -> Z) (a : list Z) : Z :=
  Z.max (Z.abs (percentile lerp 5 a)) (Z.abs (percentile lerp 995 a)).
(** audio.py 82 and 93-94: the sample [x] after [/= 16384] and
    [*= 16384. / norm]; 0/0 and x/0 as in IEEE arithmetic *)
Definition normalised (norm x : Z) : sample :=
  if norm =? 0 then if x =? 0 then NotANumber else Inf (x <? 0)
  else Finite x norm.
(** exact interpolation, if the unit is fine enough *)
Definition exact_lerp (a b t : Z) : Z := a + (b - a) * t / 1000.

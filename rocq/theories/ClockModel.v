(** Model of Video.tick's comparison (transcoder/video.py 30-33 and 67) and of
    the audio sample conversion (transcoder/audio.py 84-100). *)
From Verif Require Import Base.

(** The comparison in exact arithmetic, for [ticks_per_frame = bitrate / rate]
    (a rational frame rate num/den is [bitrate*den], [num]). *)
Definition exact_clock (bitrate rate : Z) : Z -> Z -> bool := fun ticks frame_number => bitrate * frame_number <=? ticks * rate.

(** IEEE-754 binary64 rounding (to nearest, ties to even) of a non-negative
    integer to 53 significant bits.  Exponent range is not modelled: the numbers
    here are neither subnormal nor infinite. *)
Definition round_half_even (n k : Z) : Z :=
  let q := n / 2 ^ k in
  let r := n mod 2 ^ k in
  if 2 * r <? 2 ^ k then q else if 2 ^ k <? 2 * r then q + 1 else if Z.even q then q else q + 1.
Definition round53 (n : Z) : Z :=
  let k := Z.max 0 (Z.log2 n - 52) in round_half_even n k * 2 ^ k.

(** video.py 67 as computed: [ticks_per_frame] is the double m/2^s,
    [frame_number] is converted to a double, the product is rounded, and Python
    compares an int with a float exactly. *)
Definition float_clock (m s : Z) : Z -> Z -> bool :=
  fun ticks frame_number => round53 (round53 frame_number * m) <=? ticks * 2 ^ s.

(** A sample after resampling and normalisation (audio.py 91-94): a rational
    num/den (den > 0), an infinity or not a number. *)
Inductive sample := Finite (num den : Z) | Inf (negative : bool) | NotANumber.

(** audio.py 97: [(a * 16).astype(np.int)], truncation towards zero; what does
    not fit into 64 bits becomes -2^63 (x86-64). Multiplying by 16 is exact. *)
Definition to_int (a : sample) : Z :=
  match a with
  | Finite num den => let v := Z.quot (16 * num) den in
                      if (- 2 ^ 63 <=? v) && (v <? 2 ^ 63) then v else - 2 ^ 63
  | Inf _ | NotANumber => - 2 ^ 63
  end.
(** audio.py 98 *)
Definition clip (lo hi x : Z) : Z := Z.min hi (Z.max lo x).
Definition audio_value (a : sample) : Z := clip (-15) 16 (to_int a).
(** audio.py 100 and movie.py 106-107: the duty cycle *)
Definition duty (a : sample) : Z := audio_value a * 2 + 34.

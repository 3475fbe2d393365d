(** Model of the sound conversion of transcoder/audio.py as it is computed, in
    IEEE-754 binary32 ([astype('float32')], audio.py 54-55).  numpy's rules (1.22,
    requirements.txt): [mean], [/=], [*=] and [*] of a float32 array with a Python
    number are float32 operations, each correctly rounded, and the number is
    rounded to float32 first.  Simplified: zeros have no sign. *)
From Verif Require Import Base ClockModel AudioModel AudioStreamModel.

(** a float32: a multiple of 2^-149, an infinity or not a number *)
Inductive f32 := F (units : Z) | FInf (negative : bool) | FNaN.
Definition one : Z := 2 ^ 149.
(** num/den to the nearest integer, ties to even (num >= 0, den > 0) *)
Definition round_ratio (num den : Z) : Z :=
  let q := num / den in
  let r := num mod den in
  if 2 * r <? den then q else if den <? 2 * r then q + 1 else if Z.even q then q else q + 1.
(** ... to 24 significant bits *)
Definition exp24 (num den : Z) : Z := Z.max 0 (Z.log2 (num / den) - 23).
Definition round24 (num den : Z) : Z := let k := exp24 num den in round_ratio num (den * 2 ^ k) * 2 ^ k.
(** num/den units as a float32; 2^128 and more are infinite *)
Definition round32 (num den : Z) : f32 :=
  let v := round24 (Z.abs num) den in
  if 2 ^ 277 <=? v then FInf (num <? 0) else F (Z.sgn num * v).

Definition is_neg (x : f32) : bool := match x with F a => a <? 0 | FInf b => b | FNaN => false end.
Definition mul32 (x y : f32) : f32 :=
  match x, y with
  | F a, F b => round32 (a * b) one
  | FNaN, _ | _, FNaN => FNaN
  | _, _ =>
      match x, y with
      | F 0, _ | _, F 0 => FNaN (* infinity times zero *)
      | _, _ => FInf (xorb (is_neg x) (is_neg y))
      end
  end.
(** division by a positive integer *)
Definition div32 (x : f32) (n : Z) : f32 := match x with F a => round32 a n | _ => x end.
Definition of_int (n : Z) : f32 := round32 (n * one) 1.
(** addition *)
Definition add32 (x y : f32) : f32 :=
  match x, y with
  | F a, F b => round32 (a + b) 1
  | FNaN, _ | _, FNaN => FNaN
  | FInf a, FInf b => if Bool.eqb a b then x else FNaN
  | FInf _, _ => x
  | _, _ => y
  end.

(** 57: [to_mono]: the mean over the channels, summed in order *)
Definition mono32 (l : list Z) : f32 := div32 (fold_left add32 (map of_int l) (F 0)) (Z.of_nat (length l)).
Definition to_mono32 (ch : Z) (cols : Z * (Z -> Z -> Z)) : list f32 :=
  map (fun i => mono32 (map (fun c => snd cols c i) (zrange ch))) (zrange (fst cols)).
(** 47-62; [run] is [librosa.resample] *)
Definition decode32 (run : list f32 -> list f32) (ch : Z) (buf : list Z) : res (list f32) :=
  let! data := frombuffer buf in
  let! cols := reshape_channels ch data in
  Ok (run (to_mono32 ch cols)).

(** 93-94 *)
Definition scale32 (g a : f32) : f32 := mul32 (div32 a 16384) g.
(** 97: [(a * 16).astype(np.int)]; 98: clipping *)
Definition to_int32 (a : f32) : Z :=
  match mul32 a (of_int 16) with
  | F z => let v := Z.quot z one in if (- 2 ^ 63 <=? v) && (v <? 2 ^ 63) then v else - 2 ^ 63
  | _ => - 2 ^ 63
  end.
Definition value32 (g a : f32) : Z := clip (-15) 16 (to_int32 (scale32 g a)).
(** the option --audio_normalization, a double p/q *)
Definition factor32 (p q : Z) : f32 := round32 (p * one) q.
(** 84-100: [audio_stream] with normalisation factor [g] *)
Fixpoint stream32 (run : list f32 -> list f32) (ch : Z) (g : f32) (bufs : list (list Z)) : list Z * option exn :=
  match bufs with
  | [] => ([], None)
  | b :: rest =>
      match decode32 run ch b with
      | Raise e => ([], Some e)
      | Ok a => let (l, e) := stream32 run ch g rest in (map (value32 g) a ++ l, e)
      end
  end.

(** Vocabulary for C73: interleaved 16 bit sound. *)
From Verif Require Import Base AudioStreamModel.

(** buffers that hold whole sample frames: [ch] signed 16 bit numbers each *)
Definition whole_frames (ch : Z) (buf : list Z) : Prop :=
  Forall (fun b => 0 <= b < 256) buf /\ exists n, 0 < n /\ Z.of_nat (length buf) = 2 * ch * n.
(** number of sample frames in some buffers *)
Definition frames_in (ch : Z) (bufs : list (list Z)) : Z := Z.of_nat (length (concat bufs)) / (2 * ch).
(** what librosa documents about the length of its result: the rounded up number
    of samples that the new rate needs for the same time (at most one more if the
    product with the ratio, a float, is off); nothing is done if the rates agree *)
Definition resamples (rs : resampler) (from to : Z) : Prop :=
  0 < r_unit rs /\ forall l, Z.of_nat (length l) * to <= Z.of_nat (length (r_run rs l)) * from <= Z.of_nat (length l) * to + from.
Definition resamples_exactly (rs : resampler) (from to : Z) : Prop :=
  0 < r_unit rs /\ forall l, Z.of_nat (length (r_run rs l)) = - (- (Z.of_nat (length l) * to) / from).
Definition same_rate : resampler := {| r_unit := 1; r_run := fun l => l |}.

(** two's complement number at position [k]; sum of the channels of sample frame [i] *)
Definition pcm (bytes : list Z) (k : Z) : Z :=
  (nth (Z.to_nat (2 * k)) bytes 0 + 256 * nth (Z.to_nat (2 * k + 1)) bytes 0 + 32768) mod 65536 - 32768.
Fixpoint sum_to (f : Z -> Z) (n : nat) : Z := match n with O => 0 | S n' => sum_to f n' + f (Z.of_nat n') end.
Definition mix (ch : Z) (bytes : list Z) (i : Z) : Z := sum_to (fun c => pcm bytes (i * ch + c)) (Z.to_nat ch).

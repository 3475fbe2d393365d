(** Model of Audio (transcoder/audio.py 31-100): decoding of the buffers that
    audioread delivers, normalisation, and the stream of samples.  Not modelled:
    audioread (the buffers are any lists of bytes), librosa's resampling (any
    function; see the specification for what is assumed about lengths) and the
    rounding of float32 arithmetic (samples are rationals; AudioFloatModel has the rounding). *)
From Verif Require Import Base ClockModel AudioModel.

(** audio.py 54: [np.frombuffer(buf, dtype='int16')], little endian; an odd number
    of bytes is a ValueError *)
Definition int16 (lo hi : Z) : Z := let w := 256 * hi + lo in if w <? 32768 then w else w - 65536.
Fixpoint frombuffer (b : list Z) : res (list Z) :=
  match b with
  | [] => Ok []
  | [_] => Raise ValueError
  | lo :: hi :: rest => let! l := frombuffer rest in Ok (int16 lo hi :: l)
  end.
(** 55: [reshape((f.channels, -1), order='F')]: number of columns, and the entry
    of channel [c] in column [i] *)
Definition reshape_channels (ch : Z) (data : list Z) : res (Z * (Z -> Z -> Z)) :=
  let n := Z.of_nat (length data) in
  if (ch <=? 0) || negb (n mod ch =? 0) then Raise ValueError
  else Ok (n / ch, fun c i => nth (Z.to_nat (i * ch + c)) data 0).
(** 57: [to_mono], the mean of the channels, as a multiple of 1/ch *)
Definition to_mono (ch : Z) (cols : Z * (Z -> Z -> Z)) : list Z :=
  map (fun i => fold_left Z.add (map (fun c => snd cols c i) (zrange ch)) 0) (zrange (fst cols)).
(** 58-60: [resample]; its results are multiples of 1/r_unit of its arguments' unit *)
Record resampler := { r_unit : Z; r_run : list Z -> list Z }.
(** 47-62: [_decode]; the samples are multiples of 1/(ch * r_unit) *)
Definition decode_audio (rs : resampler) (ch : Z) (buf : list Z) : res (list Z) :=
  let! data := frombuffer buf in
  let! cols := reshape_channels ch data in
  Ok (r_run rs (to_mono ch cols)).

(** the normalisation factor: p/q, or 16384./0 *)
Inductive factor := Ratio (p q : Z) | Infinite.
(** 73-78: the bytes that are analysed *)
Fixpoint read_raw (limit : Z) (raw : list Z) (bufs : list (list Z)) : list Z :=
  match bufs with
  | [] => raw
  | b :: rest => let raw' := raw ++ b in if limit <? Z.of_nat (length raw') then raw' else read_raw limit raw' rest
  end.
Definition read_bytes : Z := 1024 * 1024 * 10. (* 64 *)
(** 64-82: [_normalization]; percentiles of no samples are modelled as IndexError *)
Definition normalization (lerp : Z -> Z -> Z -> Z) (rs : resampler) (ch : Z) (bufs : list (list Z)) : res factor :=
  let! a := decode_audio rs ch (read_raw read_bytes [] bufs) in
  match a with
  | [] => Raise IndexError
  | _ => let n := norm lerp a in Ok (if n =? 0 then Infinite else Ratio (16384 * ch * r_unit rs) n)
  end.
(** 44-45: [normalization or self._normalization()]; the option is p/q *)
Definition choose_normalization lerp rs ch bufs (given : option (Z * Z)) : res factor :=
  match given with
  | Some (p, q) => if p =? 0 then normalization lerp rs ch bufs else Ok (Ratio p q)
  | None => normalization lerp rs ch bufs
  end.

(** 93-94: a decoded sample, given as a multiple of 1/unit *)
Definition scale (f : factor) (unit x : Z) : sample :=
  match f with
  | Ratio p q => Finite (x * p) (unit * 16384 * q)
  | Infinite => if x =? 0 then NotANumber else Inf (x <? 0)
  end.
(** 84-100: what is yielded, and the exception that ends the stream *)
Fixpoint audio_stream (rs : resampler) (ch : Z) (f : factor) (bufs : list (list Z)) : list Z * option exn :=
  match bufs with
  | [] => ([], None)
  | b :: rest =>
      match decode_audio rs ch b with
      | Raise e => ([], Some e)
      | Ok a => let (l, e) := audio_stream rs ch f rest in (map (fun x => audio_value (scale f (ch * r_unit rs) x)) a ++ l, e)
      end
  end.

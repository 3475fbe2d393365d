(** Vocabulary for comparing two conversions. *)
From Verif Require Import Base BitmapModel OpcodeModel.

(** The two opcodes sound the same: two ticks of the same duty cycle, or two
    opcodes of the same other kind. *)
Definition same_sound (op op' : opcode) : Prop :=
  match op, op' with
  | Tick t _ _ _, Tick t' _ _ _ => t = t'
  | Ack _, Ack _ => True
  | Header _, Header _ => True
  | _, _ => False
  end.
(** The two opcodes do the same to the screen. *)
Definition same_picture (op op' : opcode) : Prop :=
  match op, op' with
  | Tick _ p c os, Tick _ p' c' os' => p = p' /\ c = c' /\ os = os'
  | Ack a, Ack a' => a = a'
  | Header k, Header k' => k = k'
  | _, _ => False
  end.

(** Vocabulary for C72: how far a screen is from a frame. *)
From Verif Require Import Base ScreenModel ScreenSpec BitmapModel DisplaySpec BitmapSpec VideoModel VideoSpec OpcodeModel MovieModel MovieSpec.

(** number of bytes (of 8192) of one bank that are not the frame's *)
Definition differing (m : bool -> mem) (f : frame) (b : bool) : Z :=
  count_bytes (fun p o => negb (m b p o =? mm_data (frame_bank f b) p o)).
(** the bytes of the frame that are not displayed are 0 *)
Definition holes_empty (k : kind) (f : frame) : Prop := forall b p o, good_bank k b -> in_page p o -> ~ displayed p o -> mm_data (frame_bank f b) p o = 0.

(** number of ticks among the first [i] opcodes; index of the source frame due at a
    tick *)
Definition ticks_before (rest : list opcode) (i : nat) : nat := length (filter is_tick (firstn i rest)).
Definition frame_at (c : config) (t : nat) : Z := c_every_n c * ((due (c_clock c) t - 1) / c_every_n c).
(** a new frame is due at the tick that follows the first [t] *)
Definition new_frame_after (c : config) (t : nat) : Prop := frame_at c (S t) <> frame_at c t.

(** Vocabulary for the properties of the emitted stream. *)
From Verif Require Import Base ScreenModel ScreenSpec BitmapModel DisplaySpec BitmapSpec VideoModel VideoSpec OpcodeModel MovieModel.

(** ** Runs of a conversion *)
(** [stream_run c s0 ops s]: from [s0] the loop of emit_stream has gone round
    some number of times, compiling [ops] (drawn opcodes and inserted ACKs). *)
Inductive stream_run (c : config) (s0 : stream) : list opcode -> stream -> Prop :=
| run_new : stream_run c s0 [] s0
| run_more ops s new s' : stream_run c s0 ops s -> emit_step c s = Ok (More new s') ->
    stream_run c s0 (ops ++ new) s'.

(** inputs of a conversion *)
Definition good_config (c : config) : Prop :=
  u16_table (c_mode c) (c_table c) /\ 1 <= c_every_n c /\ (forall t, 0 < t -> c_clock c t 0 = true).
Definition good_audio (audio : list Z) : Prop := forall au, In au audio -> -15 <= au <= 16.
(** one bank of a source frame *)
Definition frame_bank (f : frame) (is_aux : bool) : memory_map := if is_aux then snd f else fst f.
Definition good_frames (k : kind) (frames : list frame) : Prop :=
  forall f, In f frames -> forall is_aux, good_bank k is_aux ->
  mm_page (frame_bank f is_aux) = 1 /\ bytes_mem (mm_data (frame_bank f is_aux)) /\
  (k = DHGR -> forall p o, in_page p o -> displayed p o -> mm_data (frame_bank f is_aux) p o < 128).

(** number of frames started after [t] ticks if there are always more *)
Fixpoint due (clock : Z -> Z -> bool) (t : nat) : Z :=
  match t with
  | O => 0
  | S t' => let d := due clock t' in if clock (Z.of_nat t) d then d + 1 else d
  end.

(** ** The byte stream *)
Definition opcode_size (op : opcode) : Z :=
  match op with Header _ | Tick _ _ _ _ => 7 | Ack _ => 4 | Nop | Terminate => 2 end.
Definition total_size (ops : list opcode) : Z := fold_right (fun op n => opcode_size op + n) 0 ops.
(** offset in the stream of the k-th opcode *)
Definition position (ops : list opcode) (k : nat) : Z := total_size (firstn k ops).
Definition is_ack (op : opcode) : bool := match op with Ack _ => true | _ => false end.
Definition is_tick (op : opcode) : bool := match op with Tick _ _ _ _ => true | _ => false end.

(** Reading a stream as the player does: addresses select opcodes ([which]),
    each with its own number of data bytes; stops at TERMINATE and returns what
    follows it. *)
Fixpoint read_opcodes (which : Z -> option cmd) (fuel : nat) (bytes : list Z) : option (list opcode * list Z) :=
  match fuel, bytes with
  | S f, hi :: lo :: rest =>
      match which (256 * hi + lo), rest with
      | Some TERMINATE, _ => Some ([], rest)
      | Some NOP, _ =>
          match read_opcodes which f rest with Some (ops, r) => Some (Nop :: ops, r) | None => None end
      | Some ACK, switch :: _ :: rest' =>
          if (switch =? 0x54) || (switch =? 0x55) then
            match read_opcodes which f rest' with Some (ops, r) => Some (Ack (switch =? 0x55) :: ops, r) | None => None end
          else None
      | Some (TICK t p), content :: o1 :: o2 :: o3 :: o4 :: rest' =>
          match read_opcodes which f rest' with
          | Some (ops, r) => Some (Tick t p content [o1; o2; o3; o4] :: ops, r)
          | None => None
          end
      | _, _ => None
      end
  | _, _ => None
  end.
(** seven header bytes, the last one is the video mode *)
Definition read_stream (which : Z -> option cmd) (bytes : list Z) : option (kind * list opcode * list Z) :=
  match bytes with
  | _ :: _ :: _ :: _ :: _ :: _ :: mode :: rest =>
      match read_opcodes which (length rest) rest with
      | Some (ops, r) => if mode =? 0 then Some (HGR, ops, r) else if mode =? 1 then Some (DHGR, ops, r) else None
      | None => None
      end
  | _ => None
  end.

(** [which] knows the address of every opcode *)
Definition recognises (c : config) (which : Z -> option cmd) : Prop :=
  forall cm, In cm op_cmds -> which (c_start c cm) = Some cm.

(** ** What a player shows *)
Record display := { d_bank : bool; d_mem : bool -> mem }.
Definition blank : display := {| d_bank := false; d_mem := fun _ _ _ => 0 |}.
Definition play1 (d : display) (op : opcode) : display :=
  match op with
  | Tick _ page content offsets =>
      {| d_bank := d_bank d;
         d_mem := fun b => if Bool.eqb b (d_bank d) then store4 (d_mem d b) (page, content, offsets) else d_mem d b |}
  | Ack aux => {| d_bank := aux; d_mem := d_mem d |}
  | _ => d
  end.
Definition play (ops : list opcode) : display := fold_left play1 ops blank.

(** speaker duty cycles of the tick opcodes *)
Definition duties (ops : list opcode) : list Z :=
  flat_map (fun op => match op with Tick t _ _ _ => [t] | _ => [] end) ops.

(** Model of transcoder/opcodes.py (opcode classes and their byte form) and of
    transcoder/machine.py. *)
From Verif Require Import Base BitmapModel.

(** opcodes.py 11-26: [OpcodeCommand], the enumeration of player opcodes. *)
Inductive cmd := HEADER | TERMINATE | NOP | ACK | TICK (tick page : Z).

(** opcodes.py 20-22, 153-154: [range(4, 68, 2)] and [range(32, 64)]. *)
Definition tick_values : list Z := map (fun i => 4 + 2 * i) (zrange 32).
Definition page_values : list Z := zrange2 32 64.
(** opcodes.py 14-23: all members, in order. *)
Definition op_cmds : list cmd :=
  [HEADER; TERMINATE; NOP; ACK] ++ flat_map (fun t => map (TICK t) page_values) tick_values.

(** opcodes.py 64-146: instances of the opcode classes. *)
Inductive opcode :=
| Header (mode : kind)
| Nop
| Terminate
| Ack (aux_active : bool)
| Tick (tick page content : Z) (offsets : list Z).

(** the class attribute [COMMAND] (66, 95, 103, 111, 159) *)
Definition command (op : opcode) : cmd :=
  match op with
  | Header _ => HEADER | Nop => NOP | Terminate => TERMINATE | Ack _ => ACK
  | Tick t p _ _ => TICK t p
  end.

(** opcodes.py 135-139, 149-165 and movie.py 111:
    [TICK_OPCODES[(tick, page)](content, offsets)]. *)
Definition tick_opcode (tick page content : Z) (offsets : list Z) : res opcode :=
  if existsb (Z.eqb tick) tick_values && existsb (Z.eqb page) page_values then
    if Z.of_nat (length offsets) =? 4 then Ok (Tick tick page content offsets) else Raise ValueError
  else Raise KeyError.

(** opcodes.py 39-43 and the [__data_eq__] methods (71-72, 97-98, 105-106,
    123-124, 141-142).  Every tick opcode has its own class. *)
Fixpoint list_eqb (a b : list Z) : bool :=
  match a, b with
  | [], [] => true
  | x :: a', y :: b' => (x =? y) && list_eqb a' b'
  | _, _ => false
  end.
Definition kind_eqb (a b : kind) : bool := match a, b with HGR, HGR | DHGR, DHGR => true | _, _ => false end.
Definition opcode_eq (a b : opcode) : bool :=
  match a, b with
  | Header m, Header m' => kind_eqb m m'
  | Nop, Nop => true
  | Terminate, Terminate => true
  | Ack x, Ack y => Bool.eqb x y
  | Tick t p c o, Tick t' p' c' o' => (t =? t') && (p =? p') && ((c =? c') && list_eqb o o')
  | _, _ => false
  end.

(** video_mode.py 6-8: [VideoMode.value] *)
Definition mode_value (m : kind) : Z := match m with HGR => 0 | DHGR => 1 end.

(** opcodes.py 49-52 and 75-78: [emit_command]; [start] is the class attribute
    [_START] of each command. *)
Definition emit_command (start : cmd -> Z) (op : opcode) : list Z :=
  match op with
  | Header _ => []
  | _ => [Z.shiftr (start (command op)) 8; Z.land (start (command op)) 0xff]
  end.

(** opcodes.py 54-55, 80-90, 116-121, 144-146: [emit_data]. *)
Definition emit_data (op : opcode) : list Z :=
  match op with
  | Header m => [0xff; 0xff; 0xff; 0xff; 0xff; 0xff; mode_value m]
  | Nop | Terminate => []
  | Ack aux_active => [if aux_active then 0x55 else 0x54; 0xff]
  | Tick _ _ content offsets => content :: offsets
  end.

(** machine.py 11-25: [Machine.emit]; [apply] does nothing (opcodes.py 57-61). *)
Definition machine_emit (start : cmd -> Z) (op : opcode) : list Z :=
  emit_command start op ++ emit_data op.

(** The assembly language of player/main.s and its assembler (ca65/ld65 with
    apple2-asm-hgr.cfg): statements, sizes, addresses, 6502 encoding. *)
From Verif Require Import Base.
From Coq Require Import FMapPositive.

(** 6502 instructions that occur in main.s *)
Inductive instr :=
| iLDA | iLDX | iLDY | iSTA | iSTX | iSTY | iCMP | iCPX | iADC | iEOR | iBIT | iCLC | iINX | iINY | iINC | iDEC
| iNOP | iJMP | iJSR | iBRK | iBCS | iBPL | iBEQ | iBNE.

(** labels of main.s; [@x] local labels are prefixed with their global label.
    [OpTick], [Tail], [JmpOf]: the labels that the macros op_tick_* build with
    [.ident (.concat ...)] (480-1173; [JmpOf t page] is also the [@D] of
    op_tick_t). *)
Inductive label :=
| L_SRCADDR | L_FADDR | L_FPORT | L_MAC | L_bootstrap | L_exit | L_reset_w5100 | L_reset_w5100_atL1 | L_reset_w5100_atL2
| L_reset_w5100_atL3 | L_OPENED | L_reset_w5100_atL4 | L_reset_w5100_atLDONE | L_reset_w5100_atSOCKERR
| L_CHECKTEST | L_FAILED | L_wait_read_header | L_ERRDONE | L_ERRDONE_atL | L_ERRDONE_atDONE | L_ERRMSG
| L_op_header | L_op_header_hgr | L_op_header_hgr_at1 | L_checkrecv | L_recv | L_recv_at0 | L_recv_at1 | L_recv_at2
| L_op_nop | L_op_nop_atD | L_op_terminate | L_op_terminate_at0 | L_op_terminate_at1 | L_op_ack | L_op_ack_atD
| L_exit_parmtable | L_CLOSECONN
| OpTick (tick page : Z) | Tail (page cycles : Z) | JmpOf (tick page : Z).

Inductive expr := Num (z : Z) | Lbl (l : label) (offset : Z) | Lo (e : expr) | Hi (e : expr).
Inductive operand := Impl | Imm (e : expr) | Zp (e : expr) | Abs (e : expr) | AbsX (e : expr) | AbsY (e : expr) | Rel (e : expr).
(** [Patched]: an instruction whose two operand bytes the player overwrites at
    run time; [PatchedLo]: only the low one.  They assemble like [Ins]. *)
Inductive stmt :=
| Lab (l : label)
| Ins (i : instr) (o : operand)
| Patched (i : instr) (o : operand)
| PatchedLo (i : instr) (o : operand)
| Bytes (l : list Z)
| Word (e : expr).

Definition operand_size (o : operand) : Z :=
  match o with Impl => 0 | Imm _ | Zp _ | Rel _ => 1 | Abs _ | AbsX _ | AbsY _ => 2 end.
Definition size (s : stmt) : Z :=
  match s with
  | Lab _ => 0
  | Ins _ o | Patched _ o | PatchedLo _ o => 1 + operand_size o
  | Bytes l => Z.of_nat (length l)
  | Word _ => 2
  end.
Definition total (l : list stmt) : Z := fold_right (fun s n => size s + n) 0 l.

(** the statements of a segment with their addresses *)
Fixpoint layout (pc : Z) (l : list stmt) : list (Z * stmt) :=
  match l with
  | [] => []
  | s :: l' => (pc, s) :: layout (pc + size s) l'
  end.

(** the symbol table *)
Definition labels_of (l : list (Z * stmt)) : list (label * Z) :=
  flat_map (fun '(a, s) => match s with Lab l => [(l, a)] | _ => [] end) l.

Definition label_key (l : label) : positive :=
  match l with
  | OpTick t p => Z.to_pos (4 * (64 * t + p) + 1)
  | Tail p c => Z.to_pos (4 * (64 * c + p) + 2)
  | JmpOf t p => Z.to_pos (4 * (64 * t + p) + 3)
  | L_SRCADDR => 4 | L_FADDR => 8 | L_FPORT => 12 | L_MAC => 16 | L_bootstrap => 20 | L_exit => 24 | L_reset_w5100 => 28
  | L_reset_w5100_atL1 => 32 | L_reset_w5100_atL2 => 36 | L_reset_w5100_atL3 => 40 | L_OPENED => 44
  | L_reset_w5100_atL4 => 48 | L_reset_w5100_atLDONE => 52 | L_reset_w5100_atSOCKERR => 56 | L_CHECKTEST => 60
  | L_FAILED => 64 | L_wait_read_header => 68 | L_ERRDONE => 72 | L_ERRDONE_atL => 76 | L_ERRDONE_atDONE => 80
  | L_ERRMSG => 84 | L_op_header => 88 | L_op_header_hgr => 92 | L_op_header_hgr_at1 => 96 | L_checkrecv => 100
  | L_recv => 104 | L_recv_at0 => 108 | L_recv_at1 => 112 | L_recv_at2 => 116 | L_op_nop => 120 | L_op_nop_atD => 124
  | L_op_terminate => 128 | L_op_terminate_at0 => 132 | L_op_terminate_at1 => 136 | L_op_ack => 140 | L_op_ack_atD => 144
  | L_exit_parmtable => 148 | L_CLOSECONN => 152
  end%positive.
Definition label_eqb (a b : label) : bool :=
  match a, b with
  | OpTick t p, OpTick t' p' => (t =? t') && (p =? p')
  | Tail t p, Tail t' p' => (t =? t') && (p =? p')
  | JmpOf t p, JmpOf t' p' => (t =? t') && (p =? p')
  | (OpTick _ _ | Tail _ _ | JmpOf _ _), _ => false
  | _, (OpTick _ _ | Tail _ _ | JmpOf _ _) => false
  | _, _ => Pos.eqb (label_key a) (label_key b)
  end.
Definition label_map (t : list (label * Z)) : PositiveMap.t (label * Z) :=
  fold_left (fun m '(l, a) => PositiveMap.add (label_key l) (l, a) m) t (PositiveMap.empty _).
Definition label_address (m : PositiveMap.t (label * Z)) (l : label) : option Z :=
  match PositiveMap.find (label_key l) m with
  | Some (l', a) => if label_eqb l l' then Some a else None
  | None => None
  end.

Fixpoint resolve (m : PositiveMap.t (label * Z)) (e : expr) : option Z :=
  match e with
  | Num z => Some z
  | Lbl l off => match label_address m l with Some a => Some (a + off) | None => None end
  | Lo e => match resolve m e with Some z => Some (z mod 256) | None => None end
  | Hi e => match resolve m e with Some z => Some (z / 256) | None => None end
  end.

(** instruction formats and their operation codes (MOS 6502) *)
Inductive mode := mImpl | mImm | mZp | mAbs | mAbsX | mAbsY | mRel.
Definition mode_of (o : operand) : mode :=
  match o with Impl => mImpl | Imm _ => mImm | Zp _ => mZp | Abs _ => mAbs | AbsX _ => mAbsX | AbsY _ => mAbsY | Rel _ => mRel end.
Definition opcode_byte (i : instr) (md : mode) : option Z :=
  match i, md with
  | iLDA, mImm => Some 0xA9 | iLDA, mZp => Some 0xA5 | iLDA, mAbs => Some 0xAD | iLDA, mAbsX => Some 0xBD | iLDA, mAbsY => Some 0xB9
  | iLDX, mImm => Some 0xA2 | iLDX, mAbs => Some 0xAE
  | iLDY, mImm => Some 0xA0 | iLDY, mAbs => Some 0xAC
  | iSTA, mZp => Some 0x85 | iSTA, mAbs => Some 0x8D | iSTA, mAbsX => Some 0x9D | iSTA, mAbsY => Some 0x99
  | iSTX, mAbs => Some 0x8E
  | iSTY, mAbs => Some 0x8C
  | iCMP, mImm => Some 0xC9 | iCPX, mImm => Some 0xE0 | iADC, mImm => Some 0x69 | iEOR, mImm => Some 0x49
  | iBIT, mAbs => Some 0x2C | iCLC, mImpl => Some 0x18 | iINX, mImpl => Some 0xE8 | iINY, mImpl => Some 0xC8
  | iINC, mAbs => Some 0xEE | iDEC, mZp => Some 0xC6
  | iNOP, mImpl => Some 0xEA | iJMP, mAbs => Some 0x4C | iJSR, mAbs => Some 0x20 | iBRK, mImpl => Some 0x00
  | iBCS, mRel => Some 0xB0 | iBPL, mRel => Some 0x10 | iBEQ, mRel => Some 0xF0 | iBNE, mRel => Some 0xD0
  | _, _ => None
  end.

(** The value of an operand (for branches, the distance from the next
    instruction). *)
Definition operand_value (m : PositiveMap.t (label * Z)) (pc : Z) (o : operand) : option Z :=
  match o with
  | Impl => Some 0
  | Imm e | Zp e | Abs e | AbsX e | AbsY e => resolve m e
  | Rel e => match resolve m e with Some t => Some (t - (pc + 2)) | None => None end
  end.
Definition operand_fits (o : operand) (v : Z) : bool :=
  match o with
  | Impl => true
  | Imm _ | Zp _ => (0 <=? v) && (v <? 256)
  | Abs _ | AbsX _ | AbsY _ => (0 <=? v) && (v <? 65536)
  | Rel _ => (-128 <=? v) && (v <? 128)
  end.
Definition operand_bytes (o : operand) (v : Z) : list Z :=
  match o with
  | Impl => []
  | Imm _ | Zp _ | Rel _ => [v mod 256]
  | Abs _ | AbsX _ | AbsY _ => [v mod 256; v / 256]
  end.
(** The bytes of a statement at address [pc], with [false] for bytes that are
    overwritten at run time. *)
Definition encode_ins (m : PositiveMap.t (label * Z)) (pc : Z) (i : instr) (o : operand) : option (list Z) :=
  match opcode_byte i (mode_of o), operand_value m pc o with
  | Some b, Some v => if operand_fits o v then Some (b :: operand_bytes o v) else None
  | _, _ => None
  end.
Definition encode (m : PositiveMap.t (label * Z)) (pc : Z) (s : stmt) : option (list (bool * Z)) :=
  match s with
  | Lab _ => Some []
  | Ins i o => option_map (map (pair true)) (encode_ins m pc i o)
  | Patched i o =>
      match encode_ins m pc i o with Some (b :: l) => Some ((true, b) :: map (pair false) l) | _ => None end
  | PatchedLo i o =>
      match encode_ins m pc i o with Some (b :: c :: l) => Some ((true, b) :: (false, c) :: map (pair true) l) | _ => None end
  | Bytes l => Some (map (pair true) l)
  | Word e => match resolve m e with Some v => Some [(true, v mod 256); (true, v / 256)] | None => None end
  end.

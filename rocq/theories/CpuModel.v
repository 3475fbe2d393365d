(** The machine the player runs on: 6502, Apple II memory and soft switches,
    W5100 Ethernet controller (Uthernet II in slot 1), and its environment.  This
    is what player/main.s assumes of the hardware; it is not code of the
    repository.  Simplifications: only the instructions of main.s; decimal mode
    off; no overflow flag (never tested); [None] for anything outside the model
    (other soft switches and W5100 commands, reads of other I/O locations, BRK,
    ProDOS). *)
From Verif Require Import Base AsmModel.

(** ** W5100 in indirect mode with auto-increment (main.s 45-48, 87-116) *)
Record chip := Chip {
  wmode : Z;        (* mode register *)
  ptr : Z;          (* address register *)
  regs : Z -> Z;    (* common and socket registers not listed below *)
  status : Z;       (* S0SR *)
  rxrd : Z;         (* S0RXRD as last written *)
  rxbase : Z;       (* read pointer as of the last RECV command, 16 bits *)
  wr : Z;           (* number of bytes received since OPEN *)
  buf : Z -> Z      (* socket 0 receive memory, [RXBASE] = 0 *)
}.
(** RMSR (0x1A): two bits per socket, 1K, 2K, 4K or 8K *)
Definition rx_size (c : chip) : Z := 1024 * 2 ^ (regs c 0x1A mod 4).
(** S0RXRSR *)
Definition rx_count (c : chip) : Z := (wr c - rxbase c) mod 65536.

Definition set_ptr (p : Z) (c : chip) : chip :=
  Chip (wmode c) p (regs c) (status c) (rxrd c) (rxbase c) (wr c) (buf c).
Definition set_rxrd (v : Z) (c : chip) : chip :=
  Chip (wmode c) (ptr c) (regs c) (status c) v (rxbase c) (wr c) (buf c).
Definition set_status (v : Z) (c : chip) : chip :=
  Chip (wmode c) (ptr c) (regs c) v (rxrd c) (rxbase c) (wr c) (buf c).
Definition set_reg (a v : Z) (c : chip) : chip :=
  Chip (wmode c) (ptr c) (upd1 (regs c) a v) (status c) (rxrd c) (rxbase c) (wr c) (buf c).
(** "the W5100 automatically wraps the address pointer at the end of the 8K RX/TX
    buffers" (main.s 416-417) *)
Definition next_ptr (c : chip) : chip :=
  if wmode c =? 3 then
    set_ptr (if ptr c =? 0x7FFF then 0x6000 else if ptr c =? 0x5FFF then 0x4000 else (ptr c + 1) mod 65536) c
  else c.

Definition in_rx (p : Z) : bool := (0x6000 <=? p) && (p <? 0x8000).
Definition chip_peek (c : chip) : Z :=
  let p := ptr c in
  if in_rx p then buf c (p - 0x6000)
  else if p =? 0x403 then status c
  else if p =? 0x426 then rx_count c / 256
  else if p =? 0x427 then rx_count c mod 256
  else if p =? 0x428 then rxrd c / 256
  else if p =? 0x429 then rxrd c mod 256
  else regs c p.
(** socket 0 commands (main.s 107-112): OPEN in TCP mode, CONNECT, DISCONNECT, RECV *)
Definition chip_command (v : Z) (c : chip) : option chip :=
  if v =? 0x01 then
    if regs c 0x400 mod 16 =? 1 then Some (Chip (wmode c) (ptr c) (regs c) 0x13 0 0 0 (buf c)) else None
  else if v =? 0x04 then (if status c =? 0x13 then Some (set_status 0x15 c) else None)
  else if v =? 0x08 then Some (set_status 0 c)
  else if v =? 0x40 then Some (Chip (wmode c) (ptr c) (regs c) (status c) (rxrd c) (rxrd c) (wr c) (buf c))
  else None.
Definition chip_poke (v : Z) (c : chip) : option chip :=
  let p := ptr c in
  if (0x4000 <=? p) && (p <? 0x8000) then None
  else if p =? 0x401 then chip_command v c
  else if p =? 0x428 then Some (set_rxrd (256 * v + rxrd c mod 256) c)
  else if p =? 0x429 then Some (set_rxrd (256 * (rxrd c / 256) + v) c)
  else Some (set_reg p v c).
(** reset (main.s 142-143): the reset registers are zero *)
Definition chip_mode (v : Z) (c : chip) : chip :=
  if v =? 0x80 then Chip 0 0 (fun _ => 0) 0 0 0 0 (buf c)
  else Chip v (ptr c) (regs c) (status c) (rxrd c) (rxbase c) (wr c) (buf c).

(** ** The computer *)
(** A write on the bus: when, where, what and (RAM) to which bank. *)
Record wrt := Wrt { w_time : Z; w_addr : Z; w_val : Z; w_aux : bool }.
Record machine := M {
  pc : Z; ra : Z; rx : Z; ry : Z; rs : Z; fc : bool; fz : bool; fn : bool;
  mem : bool -> Z -> Z;             (* main and auxiliary memory *)
  sw80 : bool; swpage2 : bool; swhires : bool;  (* 80STORE, PAGE2, HIRES *)
  kbd : Z;                          (* keyboard latch, bit 7: strobe *)
  net : chip;
  cyc : Z;                          (* cycles executed *)
  log : list wrt;                   (* all writes, oldest first *)
  taken : list Z                    (* all bytes read from the receive memory *)
}.

(** with 80STORE, PAGE2 selects the bank of the text and hi-res pages *)
Definition bank (m : machine) (a : Z) : bool :=
  sw80 m && swpage2 m && (((0x400 <=? a) && (a <? 0x800)) || (swhires m && (0x2000 <=? a) && (a <? 0x4000))).
Definition peek (m : machine) (a : Z) : Z := mem m (bank m a) a.

(** memory after a write; nothing is writable above 0xC000 (I/O, ROM) *)
Definition write1 (w : wrt) (mm : bool -> Z -> Z) : bool -> Z -> Z :=
  if w_addr w <? 0xC000 then fun b => if Bool.eqb b (w_aux w) then upd1 (mm b) (w_addr w) (w_val w) else mm b else mm.

Definition with_net (c : chip) (m : machine) : machine :=
  M (pc m) (ra m) (rx m) (ry m) (rs m) (fc m) (fz m) (fn m) (mem m) (sw80 m) (swpage2 m) (swhires m) (kbd m) c (cyc m) (log m) (taken m).
Definition with_kbd (k : Z) (m : machine) : machine :=
  M (pc m) (ra m) (rx m) (ry m) (rs m) (fc m) (fz m) (fn m) (mem m) (sw80 m) (swpage2 m) (swhires m) k (net m) (cyc m) (log m) (taken m).
Definition with_switches (s80 p2 hr : bool) (m : machine) : machine :=
  M (pc m) (ra m) (rx m) (ry m) (rs m) (fc m) (fz m) (fn m) (mem m) s80 p2 hr (kbd m) (net m) (cyc m) (log m) (taken m).
Definition with_pc (p : Z) (m : machine) : machine :=
  M p (ra m) (rx m) (ry m) (rs m) (fc m) (fz m) (fn m) (mem m) (sw80 m) (swpage2 m) (swhires m) (kbd m) (net m) (cyc m) (log m) (taken m).
Definition with_cyc (n : Z) (m : machine) : machine :=
  M (pc m) (ra m) (rx m) (ry m) (rs m) (fc m) (fz m) (fn m) (mem m) (sw80 m) (swpage2 m) (swhires m) (kbd m) (net m) n (log m) (taken m).
Definition with_regs (a x y s : Z) (m : machine) : machine :=
  M (pc m) a x y s (fc m) (fz m) (fn m) (mem m) (sw80 m) (swpage2 m) (swhires m) (kbd m) (net m) (cyc m) (log m) (taken m).
Definition with_flags (c z n : bool) (m : machine) : machine :=
  M (pc m) (ra m) (rx m) (ry m) (rs m) c z n (mem m) (sw80 m) (swpage2 m) (swhires m) (kbd m) (net m) (cyc m) (log m) (taken m).
Definition with_mem (mm : bool -> Z -> Z) (l : list wrt) (m : machine) : machine :=
  M (pc m) (ra m) (rx m) (ry m) (rs m) (fc m) (fz m) (fn m) mm (sw80 m) (swpage2 m) (swhires m) (kbd m) (net m) (cyc m) l (taken m).
Definition with_taken (l : list Z) (m : machine) : machine :=
  M (pc m) (ra m) (rx m) (ry m) (rs m) (fc m) (fz m) (fn m) (mem m) (sw80 m) (swpage2 m) (swhires m) (kbd m) (net m) (cyc m) (log m) l.

(** reading and writing the bus (soft switches: main.s 64-74) *)
Definition bus_read (a : Z) (m : machine) : option (Z * machine) :=
  if (0xC000 <=? a) && (a <? 0xC100) then
    if a =? 0xC097 then
      let v := chip_peek (net m) in
      let m' := with_net (next_ptr (net m)) m in
      Some (v, if in_rx (ptr (net m)) then with_taken (taken m ++ [v]) m' else m')
    else if a =? 0xC095 then Some (ptr (net m) / 256, m)
    else if a =? 0xC096 then Some (ptr (net m) mod 256, m)
    else if a =? 0xC000 then Some (kbd m, m)
    else if a =? 0xC010 then Some (kbd m mod 128, with_kbd (kbd m mod 128) m)
    else None
  else Some (peek m a, m).
Definition io_write (a v : Z) (m : machine) : option machine :=
  if a =? 0xC094 then Some (with_net (chip_mode v (net m)) m)
  else if a =? 0xC095 then Some (with_net (set_ptr (256 * v + ptr (net m) mod 256) (net m)) m)
  else if a =? 0xC096 then Some (with_net (set_ptr (256 * (ptr (net m) / 256) + v) (net m)) m)
  else if a =? 0xC097 then match chip_poke v (net m) with Some c => Some (with_net (next_ptr c) m) | None => None end
  else if a =? 0xC030 then Some m
  else if a =? 0xC000 then Some (with_switches false (swpage2 m) (swhires m) m)
  else if a =? 0xC001 then Some (with_switches true (swpage2 m) (swhires m) m)
  else if (a =? 0xC00C) || (a =? 0xC00D) then Some m
  else if a =? 0xC010 then Some (with_kbd (kbd m mod 128) m)
  else if a =? 0xC054 then Some (with_switches (sw80 m) false (swhires m) m)
  else if a =? 0xC055 then Some (with_switches (sw80 m) true (swhires m) m)
  else if a =? 0xC056 then Some (with_switches (sw80 m) (swpage2 m) false m)
  else if a =? 0xC057 then Some (with_switches (sw80 m) (swpage2 m) true m)
  else if (0xC050 <=? a) && (a <? 0xC060) then Some m
  else None.
(** every write is logged with the time at which its instruction ends *)
Definition bus_write (a v : Z) (m : machine) : option machine :=
  let w := Wrt (cyc m) a v (bank m a) in
  let m' := with_mem (write1 w (mem m)) (log m ++ [w]) m in
  if (0xC000 <=? a) && (a <? 0xC100) then io_write a v m' else Some m'.

(** ** Instructions *)
Definition decode (b : Z) : option (instr * mode) :=
  match b with
  | 0xA9 => Some (iLDA, mImm) | 0xA5 => Some (iLDA, mZp) | 0xAD => Some (iLDA, mAbs) | 0xBD => Some (iLDA, mAbsX) | 0xB9 => Some (iLDA, mAbsY)
  | 0xA2 => Some (iLDX, mImm) | 0xAE => Some (iLDX, mAbs)
  | 0xA0 => Some (iLDY, mImm) | 0xAC => Some (iLDY, mAbs)
  | 0x85 => Some (iSTA, mZp) | 0x8D => Some (iSTA, mAbs) | 0x9D => Some (iSTA, mAbsX) | 0x99 => Some (iSTA, mAbsY)
  | 0x8E => Some (iSTX, mAbs) | 0x8C => Some (iSTY, mAbs)
  | 0xC9 => Some (iCMP, mImm) | 0xE0 => Some (iCPX, mImm) | 0x69 => Some (iADC, mImm) | 0x49 => Some (iEOR, mImm)
  | 0x2C => Some (iBIT, mAbs) | 0x18 => Some (iCLC, mImpl) | 0xE8 => Some (iINX, mImpl) | 0xC8 => Some (iINY, mImpl)
  | 0xEE => Some (iINC, mAbs) | 0xC6 => Some (iDEC, mZp)
  | 0xEA => Some (iNOP, mImpl) | 0x4C => Some (iJMP, mAbs) | 0x20 => Some (iJSR, mAbs) | 0x00 => Some (iBRK, mImpl)
  | 0xB0 => Some (iBCS, mRel) | 0x10 => Some (iBPL, mRel) | 0xF0 => Some (iBEQ, mRel) | 0xD0 => Some (iBNE, mRel)
  | _ => None
  end.
Definition mode_length (md : mode) : Z :=
  match md with mImpl => 1 | mImm | mZp | mRel => 2 | mAbs | mAbsX | mAbsY => 3 end.
Definition signed (b : Z) : Z := if b <? 128 then b else b - 256.
Definition fetch (m : machine) : option (instr * mode * Z) :=
  match decode (peek m (pc m)) with
  | None => None
  | Some (i, md) =>
      Some (i, md, match md with
                   | mImpl => 0
                   | mImm | mZp => peek m (pc m + 1)
                   | mRel => signed (peek m (pc m + 1))
                   | mAbs | mAbsX | mAbsY => peek m (pc m + 1) + 256 * peek m (pc m + 2)
                   end)
  end.
(** effective address *)
Definition ea (md : mode) (v : Z) (m : machine) : Z :=
  match md with mAbsX => (v + rx m) mod 65536 | mAbsY => (v + ry m) mod 65536 | _ => v end.
(** cycles, without the extra ones for branches taken *)
Definition cycles (i : instr) (md : mode) (v : Z) (m : machine) : Z :=
  match i, md with
  | iJMP, _ => 3
  | iJSR, _ => 6
  | iINC, _ => 6
  | iDEC, _ => 5
  | iSTA, (mAbsX | mAbsY) => 5
  | _, (mImpl | mImm | mRel) => 2
  | _, mZp => 3
  | _, mAbs => 4
  | _, (mAbsX | mAbsY) => if ea md v m / 256 =? v / 256 then 4 else 5
  end.
Definition nz (v : Z) (m : machine) : machine := with_flags (fc m) (v =? 0) (128 <=? v) m.
Definition alu (i : instr) (b : Z) (m : machine) : option machine :=
  match i with
  | iLDA => Some (nz b (with_regs b (rx m) (ry m) (rs m) m))
  | iLDX => Some (nz b (with_regs (ra m) b (ry m) (rs m) m))
  | iLDY => Some (nz b (with_regs (ra m) (rx m) b (rs m) m))
  | iEOR => let r := Z.lxor (ra m) b in Some (nz r (with_regs r (rx m) (ry m) (rs m) m))
  | iADC => let t := ra m + b + b2z (fc m) in let r := t mod 256 in
            Some (with_flags (256 <=? t) (r =? 0) (128 <=? r) (with_regs r (rx m) (ry m) (rs m) m))
  | iCMP => let r := (ra m - b) mod 256 in Some (with_flags (b <=? ra m) (r =? 0) (128 <=? r) m)
  | iCPX => let r := (rx m - b) mod 256 in Some (with_flags (b <=? rx m) (r =? 0) (128 <=? r) m)
  | iBIT => Some (with_flags (fc m) (Z.land (ra m) b =? 0) (128 <=? b) m)
  | _ => None
  end.
Definition load (i : instr) (md : mode) (v : Z) (m : machine) : option machine :=
  match md with
  | mImm => alu i v m
  | _ => match bus_read (ea md v m) m with Some (b, m') => alu i b m' | None => None end
  end.
Definition branch (taken : bool) (v : Z) (m : machine) : option machine :=
  Some (if taken then
          let t := pc m + v in
          with_cyc (cyc m + (if t / 256 =? pc m / 256 then 1 else 2)) (with_pc t m)
        else m).
Definition push (v : Z) (m : machine) : option machine :=
  match bus_write (0x100 + rs m) v m with
  | Some m' => Some (with_regs (ra m') (rx m') (ry m') ((rs m' - 1) mod 256) m')
  | None => None
  end.
(** One instruction; [m] already has the cycles added and the program counter
    behind the instruction. *)
Definition exec_ins (i : instr) (md : mode) (v : Z) (m : machine) : option machine :=
  match i with
  | iLDA | iLDX | iLDY | iCMP | iCPX | iADC | iEOR | iBIT => load i md v m
  | iSTA => bus_write (ea md v m) (ra m) m
  | iSTX => bus_write (ea md v m) (rx m) m
  | iSTY => bus_write (ea md v m) (ry m) m
  | iCLC => Some (with_flags false (fz m) (fn m) m)
  | iINX => let r := (rx m + 1) mod 256 in Some (nz r (with_regs (ra m) r (ry m) (rs m) m))
  | iINY => let r := (ry m + 1) mod 256 in Some (nz r (with_regs (ra m) (rx m) r (rs m) m))
  | iINC | iDEC =>
      match bus_read (ea md v m) m with
      | Some (b, m') => let r := (match i with iINC => b + 1 | _ => b - 1 end) mod 256 in bus_write (ea md v m) r (nz r m')
      | None => None
      end
  | iNOP => Some m
  | iJMP => Some (with_pc v m)
  | iJSR =>
      let r := pc m - 1 in
      match push (r / 256) m with
      | Some m1 => match push (r mod 256) m1 with Some m2 => Some (with_pc v m2) | None => None end
      | None => None
      end
  | iBRK => None
  | iBCS => branch (fc m) v m
  | iBPL => branch (negb (fn m)) v m
  | iBEQ => branch (fz m) v m
  | iBNE => branch (negb (fz m)) v m
  end.

(** ROM routines, called with JSR.  HGR0 = 0xF3F2 (main.s 78): clear the page in
    0xE6 of the selected bank; COUT = 0xFDED (79): print a character.  Only their
    effect on the model's state; their cycles and stack use are left out. *)
Definition rts (m : machine) : machine :=
  let lo := mem m false (0x100 + (rs m + 1) mod 256) in
  let hi := mem m false (0x100 + (rs m + 2) mod 256) in
  with_regs (ra m) (rx m) (ry m) ((rs m + 2) mod 256) (with_pc (lo + 256 * hi + 1) m).
Definition rom_clear (m : machine) : option machine :=
  if mem m false 0xE6 =? 0x20 then
    let b := bank m 0x2000 in
    let mm := fun b' a => if Bool.eqb b' b && ((0x2000 <=? a) && (a <? 0x4000)) then 0
                          else if negb b' && (a =? 0x1A) then 0 else if negb b' && (a =? 0x1B) then 0x40
                          else if negb b' && (a =? 0x1C) then 0 else mem m b' a in
    Some (nz 0 (rts (with_regs 0 (rx m) 0 (rs m) (with_mem mm (log m) m))))
  else None.

Definition exec (m : machine) : option machine :=
  if pc m =? 0xF3F2 then rom_clear m
  else if pc m =? 0xFDED then Some (rts m)
  else
    match fetch m with
    | Some (i, md, v) =>
        exec_ins i md v (with_cyc (cyc m + cycles i md v m) (with_pc (pc m + mode_length md) m))
    | None => None
    end.

(** ** Environment *)
(** What happens before an instruction: bytes of the TCP stream arriving, a key
    pressed, the connection attempt succeeding (0x17) or failing (0). *)
Record env := Env { e_bytes : nat; e_key : option Z; e_status : option Z }.

(** One byte is accepted if the connection is established and the window is open. *)
Definition arrive1 (stream : list Z) (c : chip) : chip :=
  if (status c =? 0x17) && (wr c <? Z.of_nat (length stream)) && (rx_count c <? rx_size c) then
    Chip (wmode c) (ptr c) (regs c) (status c) (rxrd c) (rxbase c) (wr c + 1)
      (upd1 (buf c) (wr c mod rx_size c) (nth (Z.to_nat (wr c)) stream 0))
  else c.
Fixpoint arrive (stream : list Z) (n : nat) (c : chip) : chip :=
  match n with O => c | S n' => arrive stream n' (arrive1 stream c) end.
Definition press (k : option Z) (m : machine) : machine :=
  match k with Some v => with_kbd (128 + v mod 128) m | None => m end.
Definition connect (s : option Z) (c : chip) : chip :=
  match s with Some v => if status c =? 0x15 then set_status v c else c | None => c end.
Definition before (stream : list Z) (e : env) (m : machine) : machine :=
  press (e_key e) (with_net (arrive stream (e_bytes e) (connect (e_status e) (net m))) m).
Definition step (stream : list Z) (e : env) (m : machine) : option machine := exec (before stream e m).

(** [n] instructions under a schedule *)
Fixpoint run (stream : list Z) (sched : nat -> env) (n : nat) (m : machine) : option machine :=
  match n with
  | O => Some m
  | S n' => match step stream (sched O) m with Some m' => run stream (fun i => sched (S i)) n' m' | None => None end
  end.

(** Model of the simulator's memory-mapped devices: simulator/machine.py,
    memory.py, apple2.py and uthernet.py.  The 65C02 (py65) and the printed log
    are not modelled.  py65's ObservableMemory is: reading or writing an address
    calls the subscribed interceptors in order; a result that is not None
    replaces the value; the plain memory behind it is read or written after
    that.  Addresses are taken modulo 2^16. *)
From Verif Require Import Base.

(** exceptions: machine.py 36-42, memory.py 6-13, NotImplementedError, assert *)
Inductive err := Trap (address : Z) | WriteDenied (address : Z) | Unimplemented | AssertFailed.

(** the soft switches of apple2.py 94-174 *)
Inductive switch := S80Store | RamRd | RamWrt | IntCxROM | AltZP | SlotC3ROM | S80Col | AltCharSet | Text | Mixed | Page2 | Hires.
Definition switch_eqb (a b : switch) : bool :=
  match a, b with
  | S80Store, S80Store | RamRd, RamRd | RamWrt, RamWrt | IntCxROM, IntCxROM | AltZP, AltZP | SlotC3ROM, SlotC3ROM
  | S80Col, S80Col | AltCharSet, AltCharSet | Text, Text | Mixed, Mixed | Page2, Page2 | Hires, Hires => true
  | _, _ => false
  end.

(** state of the whole machine *)
Record sim := {
  s_ram : Z -> Z;          (* memory of the Apple II *)
  s_uram : Z -> Z;         (* memory of the W5100 *)
  s_ptr : Z;               (* uthernet.py 31 *)
  s_indirect : bool;       (* uthernet.py 27-28 *)
  s_auto : bool;
  s_switch : switch -> bool (* machine.py 58 *)
}.
Definition set_ram (s : sim) (a v : Z) : sim :=
  {| s_ram := upd1 (s_ram s) a v; s_uram := s_uram s; s_ptr := s_ptr s; s_indirect := s_indirect s; s_auto := s_auto s; s_switch := s_switch s |}.
Definition set_uram (s : sim) (a v : Z) : sim :=
  {| s_ram := s_ram s; s_uram := upd1 (s_uram s) a v; s_ptr := s_ptr s; s_indirect := s_indirect s; s_auto := s_auto s; s_switch := s_switch s |}.
Definition set_ptr (s : sim) (p : Z) : sim :=
  {| s_ram := s_ram s; s_uram := s_uram s; s_ptr := p; s_indirect := s_indirect s; s_auto := s_auto s; s_switch := s_switch s |}.
Definition set_flags (s : sim) (i a : bool) : sim :=
  {| s_ram := s_ram s; s_uram := s_uram s; s_ptr := s_ptr s; s_indirect := i; s_auto := a; s_switch := s_switch s |}.
Definition set_switch (s : sim) (w : switch) (b : bool) : sim :=
  {| s_ram := s_ram s; s_uram := s_uram s; s_ptr := s_ptr s; s_indirect := s_indirect s; s_auto := s_auto s;
     s_switch := fun w' => if switch_eqb w' w then b else s_switch s w' |}.

(** Computations: the state survives an exception. *)
Definition run (A : Type) : Type := sim -> sim * (A + err).
Definition ret {A} (a : A) : run A := fun s => (s, inl a).
Definition throw {A} (e : err) : run A := fun s => (s, inr e).
Definition bind {A B} (m : run A) (f : A -> run B) : run B :=
  fun s => match m s with (s', inl a) => f a s' | (s', inr e) => (s', inr e) end.
Definition get_state : run sim := fun s => (s, inl s).
Definition put_state (f : sim -> sim) : run unit := fun s => (f s, inl tt).
Notation "'do!' x ':=' a 'in' b" := (bind a (fun x => b)) (at level 200, x pattern, a at level 100, b at level 200).

(** an access: [None] reads, [Some v] writes *)
Definition access := option Z.
(** machine.py 9-12: (READ in mode, WRITE in mode) *)
Record access_mode := { can_read : bool; can_write : bool }.
Definition READ := {| can_read := true; can_write := false |}.
Definition WRITE := {| can_read := false; can_write := true |}.
Definition RW := {| can_read := true; can_write := true |}.
Definition allowed (m : access_mode) (a : access) : bool := match a with None => can_read m | Some _ => can_write m end.

(** dictionaries with integer keys *)
Definition zdict (A : Type) := list (Z * A).
Fixpoint zget {A} (k : Z) (d : zdict A) : option A :=
  match d with [] => None | (k', v) :: d' => if k =? k' then Some v else zget k d' end.
Fixpoint zset {A} (k : Z) (v : A) (d : zdict A) : zdict A :=
  match d with [] => [(k, v)] | (k', v') :: d' => if k =? k' then (k', v) :: d' else (k', v') :: zset k v d' end.

(** machine.py 112-136: [io_interceptor]; [call] runs a registered callback, which
    returns an int or None *)
Definition io_interceptor {H} (call : H -> access -> run (option Z)) (io_map : zdict (access_mode * H)) (address : Z) (a : access) : run (option Z) :=
  match zget address io_map with
  | None => throw (Trap address)
  | Some (mode, callback) => if allowed mode a then call callback a else throw (Trap address)
  end.

(** ** uthernet.py *)
(** callbacks of the register map (36-93, 95-274); [Plain] is None *)
Inductive ucallback := Plain | UMode | USocketMode | USocketCommand | UUnimplemented.
Definition entries (c : ucallback) (l : list Z) : zdict (access_mode * ucallback) := map (fun a => (a, (RW, c))) l.
(** 95-274 *)
Definition u_io_map : zdict (access_mode * ucallback) :=
  entries UMode [0x0000] ++
  entries Plain (zrange2 0x0001 0x0013) ++
  entries UUnimplemented (zrange2 0x0015 0x001a) ++
  entries Plain [0x001a; 0x001b] ++
  entries UUnimplemented ([0x001c; 0x001d] ++ zrange2 0x0028 0x0030) ++
  entries USocketMode [0x0400] ++
  entries USocketCommand [0x0401] ++
  entries UUnimplemented [0x0402] ++
  entries Plain [0x0403; 0x0404; 0x0405] ++
  entries UUnimplemented (zrange2 0x0406 0x040c) ++
  entries Plain (zrange2 0x040c 0x0412) ++
  entries UUnimplemented (zrange2 0x0412 0x0417 ++ zrange2 0x0420 0x0426) ++
  entries Plain (zrange2 0x0426 0x042a).
(** 9-20: addresses with interceptors *)
Definition u_intercepted (a : Z) : bool := ((0 <=? a) && (a <=? 0x2f)) || ((0x400 <=? a) && (a <=? 0x7ff)).
(** 36-93 *)
Definition u_call (c : ucallback) (a : access) : run (option Z) :=
  match c, a with
  | UUnimplemented, _ => throw Unimplemented
  | Plain, _ | UMode, None | USocketMode, None | USocketCommand, None => ret None
  | UMode, Some v =>
      if Z.land v 131 =? v then do! _ := put_state (fun s => set_flags s (Z.testbit v 0) (Z.testbit v 1)) in ret None
      else throw AssertFailed
  | USocketMode, Some v => if v =? 33 then ret None else throw AssertFailed
  | USocketCommand, Some v =>
      (* the inner assignments go through the interceptor of 0x403, whose callback is None *)
      if v =? 0x01 then do! _ := put_state (fun s => set_uram s 0x403 0x13) in ret None
      else if v =? 0x04 then do! _ := put_state (fun s => set_uram s 0x403 0x17) in ret None
      else if v =? 0x40 then throw Unimplemented
      else ret None
  end.
Definition u_intercept (a : Z) (acc : access) : run (option Z) :=
  if u_intercepted a then io_interceptor u_call u_io_map a acc else ret None.
Definition value_or (r : option Z) (v : Z) : Z := match r with Some x => x | None => v end.
(** [self.memory[address]] and [self.memory[address] = value] *)
Definition u_read (address : Z) : run Z :=
  let a := address mod 0x10000 in
  do! r := u_intercept a None in do! s := get_state in ret (value_or r (s_uram s a)).
Definition u_write (address value : Z) : run unit :=
  let a := address mod 0x10000 in
  do! r := u_intercept a (Some value) in put_state (fun s => set_uram s a (value_or r value)).
(** 276-290 *)
Definition next_ptr (s : sim) : sim := set_ptr s (Z.land (s_ptr s + 1) 0x7fff).
Definition read_data : run Z := do! s := get_state in do! val := u_read (s_ptr s) in do! _ := put_state next_ptr in ret val.
Definition write_data (value : Z) : run unit := do! s := get_state in do! _ := u_write (s_ptr s) value in put_state next_ptr.
Definition read_mode : run Z := u_read 0x0000.
Definition write_mode (value : Z) : run unit := u_write 0x0000 value.

(** ** apple2.py *)
(** callbacks: apple2.py 53-76 and machine.py 82-90 *)
Inductive callback := Tick | Wmode | Wadrh | Wadrl | Wdata | SwClear (w : switch) | SwSet (w : switch) | SwGet (w : switch).
(** machine.py 45-59 and apple2.py 94-174: name, addresses, mode, whether the
    callback is [unimplemented] *)
Record soft_switch := { ss_name : switch; ss_clear : Z; ss_set : Z; ss_status : Z; ss_mode : access_mode; ss_unimplemented : bool }.
Definition mk (n : switch) (c s st : Z) (m : access_mode) (u : bool) : soft_switch :=
  {| ss_name := n; ss_clear := c; ss_set := s; ss_status := st; ss_mode := m; ss_unimplemented := u |}.
Definition soft_switches : list soft_switch :=
  [ mk S80Store 0xc000 0xc001 0xc018 WRITE true; mk RamRd 0xc002 0xc003 0xc013 WRITE true; mk RamWrt 0xc004 0xc005 0xc014 WRITE true;
    mk IntCxROM 0xc006 0xc007 0xc015 WRITE true; mk AltZP 0xc008 0xc009 0xc016 WRITE true; mk SlotC3ROM 0xc00a 0xc00b 0xc017 WRITE true;
    mk S80Col 0xc00c 0xc00d 0xc01f WRITE false; mk AltCharSet 0xc00e 0xc00f 0xc01e WRITE false;
    mk Text 0xc050 0xc051 0xc01a RW false; mk Mixed 0xc052 0xc053 0xc01b RW false;
    mk Page2 0xc054 0xc055 0xc01c RW false; mk Hires 0xc056 0xc057 0xc01d RW false ].
(** machine.py 82-97: [register] *)
Definition register (io_map : zdict (access_mode * callback)) (ss : soft_switch) : zdict (access_mode * callback) :=
  zset (ss_status ss) (READ, SwGet (ss_name ss))
    (zset (ss_set ss) (ss_mode ss, SwSet (ss_name ss))
      (zset (ss_clear ss) (ss_mode ss, SwClear (ss_name ss)) io_map)).
(** apple2.py 80-91, 93-176 *)
Definition a_io_map : zdict (access_mode * callback) :=
  fold_left register soft_switches
    [(0xc030, (RW, Tick)); (0xc094, (RW, Wmode)); (0xc095, (WRITE, Wadrh)); (0xc096, (WRITE, Wadrl)); (0xc097, (RW, Wdata))].
Definition unimplemented_callback (w : switch) : bool :=
  existsb (fun ss => switch_eqb (ss_name ss) w && ss_unimplemented ss) soft_switches.
(** machine.py 61-71 *)
Definition switch_to (w : switch) (b : bool) : run (option Z) :=
  do! _ := put_state (fun s => set_switch s w b) in
  if unimplemented_callback w then throw Unimplemented else ret None.
Definition a_call (c : callback) (a : access) : run (option Z) :=
  match c, a with
  | Tick, _ => ret None
  | Wmode, None => do! v := read_mode in ret (Some v)
  | Wmode, Some v => do! _ := write_mode v in ret None
  | Wadrh, Some v => do! _ := put_state (fun s => set_ptr s (Z.lor (Z.shiftl v 8) (Z.land (s_ptr s) 0x7f))) in ret None
  | Wadrl, Some v => do! _ := put_state (fun s => set_ptr s (Z.lor (Z.land (s_ptr s) 0x7f00) v)) in ret None
  | Wadrh, None | Wadrl, None => throw AssertFailed (* [None << 8]: not reached, the mode is WRITE *)
  | Wdata, None => do! v := read_data in ret (Some v)
  | Wdata, Some v => do! _ := write_data v in ret None
  | SwClear w, _ => switch_to w false
  | SwSet w, _ => switch_to w true
  (* machine.py 73-76: [0x80 & self.state] *)
  | SwGet w, _ => do! s := get_state in ret (Some (Z.land 0x80 (b2z (s_switch s w))))
  end.

(** memory.py 28-43 and apple2.py 10-43: regions; entry points are left out *)
Record region := { r_start : Z; r_end : Z; r_io : bool; r_writable : bool }.
Definition regions : list region :=
  map (fun '(a, b, io, w) => {| r_start := a; r_end := b; r_io := io; r_writable := w |})
    [ (0x0000, 0x00ff, false, true); (0x0100, 0x01ff, false, true);
      (0x0400, 0x07ff, false, true); (* its write interceptor only prints (apple2.py 184-187) *)
      (0x2000, 0x2fff, false, true); (0x4000, 0x4fff, false, false); (0xc000, 0xc0ff, true, true);
      (0xc100, 0xc1ff, false, false); (0xc200, 0xc2ff, false, false); (0xc300, 0xc3ff, false, false); (0xc400, 0xc4ff, false, false);
      (0xc500, 0xc5ff, false, false); (0xc600, 0xc6ff, false, false); (0xc700, 0xc7ff, false, false); (0xd000, 0xffff, false, false) ].
(** memory.py 81-92 (subscriptions) and 102-107 ([DenyWritesToRegion]) with
    ObservableMemory: the interceptors of an address, in order *)
Fixpoint intercept (rs : list region) (address : Z) (a : access) : run (option Z) :=
  match rs with
  | [] => ret None
  | r :: rs' =>
      if (r_start r <=? address) && (address <=? r_end r) then
        do! x := (if r_io r then io_interceptor a_call a_io_map address a else ret None) in
        (* a write interceptor's result is the value the next one sees *)
        let a' := match a, x with Some _, Some v => Some v | _, _ => a end in
        do! _ := (if negb (r_writable r) && match a with Some _ => true | None => false end then throw (WriteDenied address) else ret tt) in
        do! z := intercept rs' address a' in
        ret (match z with Some _ => z | None => x end)
      else intercept rs' address a
  end.
(** the CPU reads or writes *)
Definition a_read (address : Z) : run Z :=
  let a := address mod 0x10000 in
  do! r := intercept regions a None in do! s := get_state in ret (value_or r (s_ram s a)).
Definition a_write (address value : Z) : run Z :=
  let a := address mod 0x10000 in
  do! r := intercept regions a (Some value) in do! _ := put_state (fun s => set_ram s a (value_or r value)) in ret 0.
Definition do_access (address : Z) (a : access) : run Z :=
  match a with None => a_read address | Some v => a_write address v end.
(** any sequence of accesses; an exception is handled by the user *)
Fixpoint accesses (l : list (Z * access)) (s : sim) : sim :=
  match l with [] => s | (address, a) :: l' => accesses l' (fst (do_access address a s)) end.

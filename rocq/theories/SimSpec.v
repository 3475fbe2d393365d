(** Vocabulary for the simulator properties. *)
From Verif Require Import Base SimModel.

Definition is_io (a : Z) : bool := (0xc000 <=? a) && (a <=? 0xc0ff).
(** I/O addresses with a read or write function *)
Definition io_readable : list Z := [0xc030; 0xc094; 0xc097] ++ zrange2 0xc013 0xc019 ++ zrange2 0xc01a 0xc020 ++ zrange2 0xc050 0xc058.
Definition io_writable : list Z := [0xc030; 0xc094; 0xc095; 0xc096; 0xc097] ++ zrange2 0xc000 0xc010 ++ zrange2 0xc050 0xc058.
Definition io_supported (a : Z) (acc : access) : bool :=
  existsb (Z.eqb a) (match acc with None => io_readable | Some _ => io_writable end).
(** hi-res page 2, slot ROMs, ROM *)
Definition protected (a : Z) : bool :=
  ((0x4000 <=? a) && (a <=? 0x4fff)) || ((0xc100 <=? a) && (a <=? 0xc7ff)) || ((0xd000 <=? a) && (a <=? 0xffff)).
(** registers of the W5100 that exist *)
Definition u_register (a : Z) : bool :=
  existsb (Z.eqb a) (zrange2 0 0x13 ++ zrange2 0x15 0x1e ++ zrange2 0x28 0x30 ++ zrange2 0x400 0x417 ++ zrange2 0x420 0x42a).

(** whether a switch is on after an access, if it was [b] before *)
Definition switched (ss : soft_switch) (b : bool) (x : Z * access) : bool :=
  let a := fst x mod 0x10000 in
  if allowed (ss_mode ss) (snd x) then if a =? ss_set ss then true else if a =? ss_clear ss then false else b else b.

(** [n] reads of the data port: the values, or the first exception *)
Fixpoint data_reads (n : nat) : run (list Z) :=
  match n with
  | O => ret []
  | S n' => do! v := a_read 0xc097 in do! vs := data_reads n' in ret (v :: vs)
  end.
(** writes to the address registers *)
Definition write_high (v : Z) : run Z := a_write 0xc095 v.
Definition write_low (v : Z) : run Z := a_write 0xc096 v.
(** The soft switches of an Apple IIe (Apple IIe Reference Manual): name, address
    that turns it off, on, that reads it, whether reading also switches, and
    whether it selects memory banks (which the simulator does not do). *)
Definition documented : list (switch * Z * Z * Z * access_mode * bool) :=
  [ (S80Store, 0xc000, 0xc001, 0xc018, WRITE, true); (RamRd, 0xc002, 0xc003, 0xc013, WRITE, true); (RamWrt, 0xc004, 0xc005, 0xc014, WRITE, true);
    (IntCxROM, 0xc006, 0xc007, 0xc015, WRITE, true); (AltZP, 0xc008, 0xc009, 0xc016, WRITE, true); (SlotC3ROM, 0xc00a, 0xc00b, 0xc017, WRITE, true);
    (S80Col, 0xc00c, 0xc00d, 0xc01f, WRITE, false); (AltCharSet, 0xc00e, 0xc00f, 0xc01e, WRITE, false);
    (Text, 0xc050, 0xc051, 0xc01a, RW, false); (Mixed, 0xc052, 0xc053, 0xc01b, RW, false);
    (Page2, 0xc054, 0xc055, 0xc01c, RW, false); (Hires, 0xc056, 0xc057, 0xc01d, RW, false) ].

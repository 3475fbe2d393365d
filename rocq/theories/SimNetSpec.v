(** Vocabulary: the player's network setup, as accesses to the Apple's I/O page. *)
From Verif Require Import Base SimModel.

(** Accesses one after the other: the values read, or the first exception *)
Fixpoint do_all (l : list (Z * access)) : run (list Z) :=
  match l with
  | [] => ret []
  | (address, a) :: l' => do! v := do_access address a in do! vs := do_all l' in ret (match a with None => v :: vs | Some _ => vs end)
  end.
Definition wmode (v : Z) : list (Z * access) := [(0xc094, Some v)].
Definition wadrh (v : Z) : list (Z * access) := [(0xc095, Some v)].
Definition wadrl (v : Z) : list (Z * access) := [(0xc096, Some v)].
Definition wdata (l : list Z) : list (Z * access) := map (fun v => (0xc097, Some v)) l.
Definition rdata : list (Z * access) := [(0xc097, None)].
(** player/main.s 141-256, with any MAC address, own address, remote address and
    port: the socket is opened and connected *)
Definition handshake (mac ip remote port : list Z) : list (Z * access) :=
  wmode 0x80 ++ wmode 3 ++ wadrh 0x00 ++ wadrl 0x09 ++ wdata mac ++ wadrl 0x0f ++ wdata ip ++ wadrl 0x1a ++ wdata [3; 3] ++
  wadrh 0x04 ++ wadrl 0x00 ++ wdata [0x21] ++ wadrl 0x04 ++ wdata [0xc0; 0] ++ wadrl 0x0c ++ wdata remote ++ wdata port ++
  wadrl 0x01 ++ wdata [0x01] ++ wadrl 0x03 ++ rdata ++ wadrl 0x01 ++ wdata [0x04] ++ wadrl 0x03 ++ rdata.
(** player/main.s 277-286: has anything been received? *)
Definition poll : list (Z * access) := wadrl 0x26 ++ rdata.
(** consecutive registers *)
Fixpoint holds (s : sim) (a : Z) (l : list Z) : Prop := match l with [] => True | v :: l' => s_uram s a = v /\ holds s (a + 1) l' end.

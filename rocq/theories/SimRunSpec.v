(** Vocabulary for the simulator's guard. *)
From Verif Require Import Base SimModel SimRunModel.

(** the memory map as a user knows it: apple2.py 11-43 *)
Inductive area := ZeroPage | Stack | TextPage1 | HiRes1 | HiRes2 | IO | Slot (n : Z) | ROM | Elsewhere.
Definition area_of (a : Z) : area :=
  if (0 <=? a) && (a <? 0x100) then ZeroPage
  else if (0x100 <=? a) && (a <? 0x200) then Stack
  else if (0x400 <=? a) && (a <? 0x800) then TextPage1
  else if (0x2000 <=? a) && (a <? 0x3000) then HiRes1
  else if (0x4000 <=? a) && (a <? 0x5000) then HiRes2
  else if (0xc000 <=? a) && (a <? 0xc100) then IO
  else if (0xc100 <=? a) && (a <? 0xc800) then Slot (a / 0x100 - 0xc0)
  else if (0xd000 <=? a) && (a <? 0x10000) then ROM
  else Elsewhere.

(** [x], [y] are neighbours in the list *)
Definition follows {A} (l : list A) (x y : A) : Prop := exists l1 l2, l = l1 ++ x :: y :: l2.

(** the processor touches the machine only by reading and writing memory *)
Definition by_accesses {cpu} (step : cpu -> run cpu) : Prop := forall c s, exists l, fst (step c s) = accesses l s.

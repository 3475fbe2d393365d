(** Model of the player binary: player/main.s assembled and linked with
    player/apple2-asm-hgr.cfg, and loaded into memory. *)
From Verif Require Import Base OpcodeModel AsmModel PlayerCode CpuModel.
From Coq Require Import FMapPositive.

(** apple2-asm-hgr.cfg 4, 18-20: the segments' start addresses *)
Definition resident : list (Z * stmt) := layout 0x800 lowcode ++ layout 0x4000 code.
Definition startup : list (Z * stmt) := layout 0x2000 hgr.
Definition symbols : PositiveMap.t (label * Z) := label_map (labels_of (resident ++ startup)).

(** Memory holds the assembled statements (bytes that the player itself patches
    may have any value). *)
Definition loaded (prog : list (Z * stmt)) (m : machine) : Prop :=
  forall a s bytes i b, In (a, s) prog -> encode symbols a s = Some bytes -> nth_error bytes i = Some (true, b) ->
    mem m false (a + Z.of_nat i) = b.

(** the label of each opcode's routine *)
Definition op_label (c : cmd) : label :=
  match c with HEADER => L_op_header | TERMINATE => L_op_terminate | NOP => L_op_nop | ACK => L_op_ack | TICK t p => OpTick t p end.

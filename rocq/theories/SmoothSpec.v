(** Vocabulary for playing without interruption. *)
From Verif Require Import Base OpcodeModel MovieSpec CpuModel PlayerModel PlayerSpec PlaybackSpec.

(** The network offers at least [B] bytes in any part of the run that takes [T]
    cycles or more.  (What is offered arrives unless the chip's buffer is full or
    the stream is at its end.) *)
Definition bandwidth (bytes : list Z) (sched : nat -> env) (m0 : machine) (B T : Z) : Prop :=
  forall n1 n2 m1 m2, (n1 <= n2)%nat -> run bytes sched n1 m0 = Some m1 -> run bytes sched n2 m0 = Some m2 ->
    T <= cyc m2 - cyc m1 -> B <= offered (fun i => sched (n1 + i)%nat) (n2 - n1).

(** The toggles of opcodes if no pass through the receive check ever waits: two
    for a tick, as far apart as it says, four for an ACK. *)
Fixpoint steady_clicks (t : Z) (ops : list opcode) : list Z :=
  match ops with
  | Tick d _ _ _ :: ops' => t + 4 :: t + 4 + tick_cycles d :: steady_clicks (t + 73) ops'
  | Ack _ :: ops' => t + 4 :: t + 38 :: t + 77 :: t + 111 :: steady_clicks (t + 146) ops'
  | _ => []
  end.

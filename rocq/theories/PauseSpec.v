(** Vocabulary for pausing. *)
From Verif Require Import Base OpcodeModel CpuModel PlayerModel PlayerSpec PlaybackSpec.

(** keys are pressed at instruction [q] and at no other one from [n] on *)
Definition one_key_from (n q : nat) (sched : nat -> env) : Prop := forall j, (n <= j)%nat -> (e_key (sched j) <> None <-> j = q).
(** two schedules are the same up to instruction [n] *)
Definition same_before (n : nat) (s1 s2 : nat -> env) : Prop := forall j, (j < n)%nat -> s1 j = s2 j.
(** from instruction [n] to instruction [n1] nothing is written, nothing is read
    from the stream and no location of memory changes *)
Definition frozen (bytes : list Z) (sched : nat -> env) (m0 : machine) (n n1 : nat) (m : machine) : Prop :=
  forall n', (n <= n' <= n1)%nat -> exists m', run bytes sched n' m0 = Some m' /\ log m' = log m /\ taken m' = taken m /\ CpuModel.mem m' = CpuModel.mem m.
(** the player is in the loop that waits for a key *)
Definition pausing (m : machine) : Prop := pc m = 0x4059.

(** Vocabulary for starting and leaving the player. *)
From Verif Require Import Base AsmModel PlayerCode CpuModel PlayerModel PlayerSpec.

(** The program has just been loaded and started (apple2-asm-hgr.cfg 4: at 0x800);
    nothing is assumed of registers, other memory or the network card. *)
Record started (m : machine) : Prop := {
  st_pc : pc m = 0x800;
  st_code : loaded resident m;
  st_startup : loaded startup m;
  st_page2 : swpage2 m = false;
  st_stack : 0 <= rs m < 256
}.

(** The network card: addresses of main.s 36-39, 8K buffers for socket 0, TCP. *)
Definition at_regs (ch : chip) (a : Z) (l : list Z) : Prop := forall i b, nth_error l i = Some b -> regs ch (a + Z.of_nat i) = b.
Record configured (ch : chip) : Prop := {
  cf_mode : wmode ch = 3; (* indirect, auto-increment *)
  cf_mac : at_regs ch 0x09 [0x00; 0x08; 0xDC; 0x01; 0x02; 0x03];
  cf_ip : at_regs ch 0x0F [10; 0; 65; 2];
  cf_sizes : at_regs ch 0x1A [3; 3];
  cf_tcp : regs ch 0x400 mod 16 = 1;
  cf_server : at_regs ch 0x40C [10; 0; 0; 1];
  cf_port : at_regs ch 0x410 [1977 / 256; 1977 mod 256] (* server.py 12 *)
}.

(** ** What happened during [n] instructions *)
Fixpoint states (stream : list Z) (sched : nat -> env) (n : nat) (m : machine) : list machine :=
  match n with
  | O => []
  | S n' => m :: match step stream (sched O) m with
                 | Some m' => states stream (fun i => sched (S i)) n' m'
                 | None => []
                 end
  end.
(** characters printed: calls of COUT *)
Definition printed (l : list machine) : list Z := map ra (filter (fun m => pc m =? 0xFDED) l).
(** connection attempts: the label OPENED, after which CONNECT is issued *)
Definition is_at (l : label) (m : machine) : bool := match label_address symbols l with Some a => pc m =? a | None => false end.
Definition attempts (l : list machine) : nat := length (filter (is_at L_OPENED) l).

(** Attempts are answered again and again: the server accepts (ESTABLISHED) or
    the connection is closed. *)
Definition answers (sched : nat -> env) : Prop :=
  (forall i v, e_status (sched i) = Some v -> v = 0x17 \/ v = 0) /\
  forall i, exists j, (i <= j)%nat /\ e_status (sched j) <> None.
(** no answer is a refusal, or all are *)
Definition accepts (sched : nat -> env) : Prop := forall i, e_status (sched i) <> Some 0.
Definition refuses (sched : nat -> env) : Prop := forall i, e_status (sched i) <> Some 0x17.

(** The error message (main.s 273-275), as ASCII: with the high bits set. *)
Definition high (l : list Z) : list Z := map (fun c => c + 128) l.
(** "SOCKET COULD NOT CONNECT - CHECK REMOTE HOST" and a carriage return *)
Definition error_message : list Z :=
  [83; 79; 67; 75; 69; 84; 32; 67; 79; 85; 76; 68; 32; 78; 79; 84; 32; 67; 79; 78; 78; 69; 67; 84; 32; 45; 32;
   67; 72; 69; 67; 75; 32; 82; 69; 77; 79; 84; 69; 32; 72; 79; 83; 84; 13].
(** a dot *)
Definition dot : Z := 46.
(** The player has stopped (BRK into the monitor) behind the loop that prints the
    message. *)
Definition gave_up (m : machine) : Prop := label_address symbols L_ERRDONE_atDONE = Some (pc m).

(** Where the code before the connection writes, besides I/O space: the reset
    vector, its retry counter and the stack. *)
Definition boot_cell (a : Z) : Prop := 0x3F2 <= a <= 0x3F4 \/ a = 0x6 \/ 0x100 <= a < 0x200.
Definition boot_write (w : wrt) : Prop := boot_cell (w_addr w) \/ 0xC094 <= w_addr w <= 0xC097.

(** The reset vector points to [exit], and is marked as valid (the power-up byte
    is the high byte exclusive-or 0xA5). *)
Definition reset_leaves (m : machine) : Prop :=
  label_address symbols L_exit = Some (CpuModel.mem m false 0x3F2 + 256 * CpuModel.mem m false 0x3F3) /\
  CpuModel.mem m false 0x3F4 = Z.lxor (CpuModel.mem m false 0x3F3) 0xA5.
(** the marking has been destroyed: the next reset restarts the computer *)
Definition reset_restarts (m : machine) : Prop := CpuModel.mem m false 0x3F4 <> Z.lxor (CpuModel.mem m false 0x3F3) 0xA5.
(** a ProDOS call: JSR 0xBF00, followed in memory by the call number and the
    address of the parameters; [r] is the return address minus one *)
Definition calls_prodos (m : machine) (number : Z) (params : list Z) : Prop :=
  pc m = 0xBF00 /\
  exists r, CpuModel.mem m false (0x100 + (rs m + 1) mod 256) + 256 * CpuModel.mem m false (0x100 + (rs m + 2) mod 256) = r /\
    CpuModel.mem m false (r + 1) = number /\
    forall i b, nth_error params i = Some b ->
      CpuModel.mem m false (CpuModel.mem m false (r + 2) + 256 * CpuModel.mem m false (r + 3) + Z.of_nat i) = b.

(** RESET while the vector is marked as valid: the ROM jumps to it.  The ROM may
    change registers, switches and memory, but not the player nor the vector. *)
Record warm_reset (m m' : machine) : Prop := {
  wr_valid : CpuModel.mem m false 0x3F4 = Z.lxor (CpuModel.mem m false 0x3F3) 0xA5;
  wr_pc : pc m' = CpuModel.mem m false 0x3F2 + 256 * CpuModel.mem m false 0x3F3;
  wr_mem : forall a, 0x3F2 <= a <= 0x3F4 \/ 0x800 <= a < 0x2000 \/ 0x4000 <= a < 0xBF00 -> CpuModel.mem m' false a = CpuModel.mem m false a;
  wr_stack : 0 <= rs m' < 256
}.
(** memory, write log, data read, switches and stack are as before *)
Definition quiet (m m' : machine) : Prop := log m' = log m /\ taken m' = taken m /\ CpuModel.mem m' = CpuModel.mem m /\ same_switches m m' /\ rs m' = rs m.
(** the player is about to leave *)
Definition leaving (m : machine) : Prop := label_address symbols L_exit = Some (pc m).
(** ProDOS call QUIT and its parameters *)
Definition quits (m : machine) : Prop := calls_prodos m 0x65 [4; 0; 0; 0; 0; 0; 0].

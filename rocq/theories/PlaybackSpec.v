(** Vocabulary for playing a whole stream. *)
From Verif Require Import Base ScreenModel BitmapModel VideoModel VideoSpec OpcodeModel MovieModel MovieSpec SymbolModel SymbolSpec SymData AddrThms AsmModel CpuModel PlayerModel PlayerSpec.

(** Streams the player can play: what a conversion produces. [rest] are the
    opcodes between the header and TERMINATE. *)
Record playable (bytes : list Z) (k : kind) (rest : list opcode) : Prop := {
  pl_bytes : bytes_ok bytes;
  pl_read : exists zs, read_stream player_which bytes = Some (k, rest, zs);
  pl_ops : Forall (fun op => is_tick op = true \/ is_ack op = true) rest;
  (* an ACK fills up a frame of 2048 bytes, other opcodes are in one frame with
     the address that follows them *)
  pl_frames : let ops := Header k :: rest in
    forall i op, nth_error ops i = Some op ->
      if is_ack op then position ops i mod 2048 = 2044
      else position ops i / 2048 = (position ops i + opcode_size op + 1) / 2048;
  pl_length : Z.of_nat (length bytes) mod 2048 = 0;
  pl_bank : k = HGR -> forall a, In (Ack a) rest -> a = false
}.

(** A conversion with the opcode addresses of the shipped symbol file; the player
    reads [rest] from its output after the header. *)
Record conversion (c : config) (audio : list Z) (frames : list frame) (bytes : list Z) (rest : list opcode) : Prop := {
  cv_config : good_config c;
  cv_audio : good_audio audio;
  cv_frames : good_frames (c_mode c) frames;
  cv_limit : 0 <= c_max_bytes c;
  cv_addresses : exists contents, filter is_sym (split_on 10 contents) = sym_lines /\ fill_opcode_addresses contents = Ok (c_start c);
  cv_output : transcode c audio frames = Ok bytes;
  cv_opcodes : exists zs, read_stream player_which bytes = Some (c_mode c, rest, zs)
}.

(** The player has a connection and is about to wait for the header; all of its
    code is in memory. *)
Record connected (stream : list Z) (m : machine) : Prop := {
  cn_pc : label_address symbols L_wait_read_header = Some (pc m);
  cn_code : loaded resident m;
  cn_startup : loaded startup m;
  cn_held : held stream (net m) 0;
  cn_hi : ptr (net m) / 256 = 4;
  cn_rxrd : rxrd (net m) = 0;
  cn_page2 : swpage2 m = false;
  cn_stack : 0 <= rs m < 256
}.

(** Where the startup code may write: I/O space, the stack, and the location that
    tells the ROM which hi-res page to clear. *)
Definition start_write (w : wrt) : Prop := 0xC000 <= w_addr w < 0xC100 \/ 0x100 <= w_addr w < 0x200 \/ w_addr w = 0xE6.

(** ** What the opcodes ask for *)
(** stores to the screen, in order; [b] is the bank selected at the beginning *)
Fixpoint stores_of (b : bool) (ops : list opcode) : list (bool * Z * Z) :=
  match ops with
  | [] => []
  | Tick _ page content offsets :: ops' => map (fun o => (b, 256 * page + o, content)) offsets ++ stores_of b ops'
  | Ack a :: ops' => stores_of a ops'
  | _ :: ops' => stores_of b ops'
  end.
(** soft switches, in order *)
Definition switches_of (ops : list opcode) : list Z :=
  flat_map (fun op => match op with Ack a => [if a then 0xC055 else 0xC054] | _ => [] end) ops.

(** Speaker toggles, in cycles since the beginning.  A tick toggles twice; ACK
    and the header are followed by a pass through the receive check, whose
    toggles and duration are given by [passes], one for each. *)
Definition pass := (list Z * Z)%type.
Fixpoint clicks_of (t : Z) (ops : list opcode) (passes : list pass) : list Z :=
  match ops, passes with
  | Tick d _ _ _ :: ops', _ => [t + 4; t + 4 + tick_cycles d] ++ clicks_of (t + 73) ops' passes
  | Header _ :: ops', (cl, d) :: passes' => map (Z.add t) cl ++ clicks_of (t + d) ops' passes'
  | Ack _ :: ops', (cl, d) :: passes' => [t + 4; t + 38] ++ map (Z.add (t + 73)) cl ++ clicks_of (t + 73 + d) ops' passes'
  | _, _ => []
  end.
Fixpoint time_of (t : Z) (ops : list opcode) (passes : list pass) : Z :=
  match ops, passes with
  | Tick d _ _ _ :: ops', _ => time_of (t + 73) ops' passes
  | Header _ :: ops', (_, d) :: passes' => time_of (t + d) ops' passes'
  | Ack _ :: ops', (_, d) :: passes' => time_of (t + 73 + d) ops' passes'
  | _, _ => t
  end.
(** A pass in which no key is pressed: [w] unsuccessful polls of 25 cycles, then
    two toggles 34 cycles apart. *)
Definition poll_clicks (w : nat) : list Z :=
  map (fun j => 25 * Z.of_nat j + 4) (seq 0 w) ++ [25 * Z.of_nat w + 4; 25 * Z.of_nat w + 38].
Definition quiet_pass (w : nat) : pass := (poll_clicks w, 25 * Z.of_nat w + 73).
Definition undisturbed (p : pass) : Prop := exists w : nat, p = quiet_pass w.
Definition takes_pass (op : opcode) : bool := match op with Header _ | Ack _ => true | _ => false end.

(** the first [c] bytes of the stream *)
Definition first_bytes (stream : list Z) (c : Z) : list Z := firstn (Z.to_nat c) stream.

(** The hi-res memory of the machine is that of a display (the auxiliary bank
    is not displayed in hi-res mode). *)
Definition shows (k : kind) (m : machine) (d : display) : Prop :=
  forall b p o, (k = HGR -> b = false) -> 0 <= p < 32 -> 0 <= o < 256 -> CpuModel.mem m b (0x2000 + 256 * p + o) = d_mem d b p o.

(** The address of the [i]-th opcode after the header, or of TERMINATE. *)
Definition nth_command (rest : list opcode) (i : nat) : cmd :=
  match nth_error rest i with Some op => command op | None => TERMINATE end.

(** The player is about to run the [i]-th opcode after the header (TERMINATE
    after the last), whose data is next in the stream. *)
Definition at_opcode (bytes : list Z) (rest : list opcode) (i : nat) (m0 m : machine) : Prop :=
  let data := 7 + total_size (firstn i rest) + 2 in
  label_address symbols (op_label (nth_command rest i)) = Some (pc m) /\ at_stream (net m) data /\
  taken m = taken m0 ++ first_bytes bytes data.
Definition terminated (m : machine) : Prop := label_address symbols L_op_terminate = Some (pc m).

Definition count (f : opcode -> bool) (ops : list opcode) : Z := Z.of_nat (length (filter f ops)).

(** Schedules: the network delivers more again and again; either no key is ever
    pressed or again and again one is. *)
Definition delivers (sched : nat -> env) : Prop := forall i, exists j, (i <= j)%nat /\ (0 < e_bytes (sched j))%nat.
Definition keeps_pressing (sched : nat -> env) : Prop := forall i, exists j, (i <= j)%nat /\ e_key (sched j) <> None.
Definition never_pressed (sched : nat -> env) (m : machine) : Prop := kbd m < 128 /\ forall i, e_key (sched i) = None.
(** every pause is ended by another key *)
Definition user (sched : nat -> env) (m : machine) : Prop := never_pressed sched m \/ keeps_pressing sched.
(** not yet terminated before instruction [n] *)
Definition not_over (bytes : list Z) (sched : nat -> env) (m0 : machine) (n : nat) : Prop :=
  forall j m, (j < n)%nat -> run bytes sched j m0 = Some m -> ~ terminated m.
(** Where a write may go, and with it the only locations that may change: the
    stack, the zero page locations of the ROM's routine, the hi-res pages, two
    dummy locations and operands of the player's own instructions. *)
Definition may_change (a : Z) : Prop :=
  0x100 <= a < 0x200 \/ a = 0xE6 \/ 0x1A <= a <= 0x1C \/ 0x2000 <= a < 0x4000 \/ a = 0x8 \/ a = 0xFFFF \/ 0xC000 <= a < 0xC100 \/ own_operand a.

(** What of a stream is in frames of 2048 bytes that have been received whole. *)
Definition whole_frames (received : list Z) : Z := 2048 * (Z.of_nat (length received) / 2048).

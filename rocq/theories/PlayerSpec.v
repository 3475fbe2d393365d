(** Vocabulary for the properties of the player. *)
From Verif Require Import Base OpcodeModel AsmModel CpuModel PlayerModel.

(** byte [j] of the stream *)
Definition sb (stream : list Z) (j : Z) : Z := nth (Z.to_nat j) stream 0.
Definition bytes_ok (stream : list Z) : Prop := forall b, In b stream -> 0 <= b < 256.

(** The chip has been told that the first [rd] bytes of the stream are consumed,
    and holds the ones that have arrived since. *)
Record held (stream : list Z) (ch : chip) (rd : Z) : Prop := {
  h_mode : wmode ch = 3;
  h_open : status ch = 0x17;
  h_size : regs ch 0x1A mod 4 = 3;
  h_base : rxbase ch = rd mod 65536;
  h_pos : 0 <= rd;
  h_wr : rd <= wr ch <= rd + 8192;
  h_len : wr ch <= Z.of_nat (length stream);
  h_buf : forall j, rd <= j < wr ch -> buf ch (j mod 8192) = sb stream j
}.
(** the chip's address register is at position [p] of the stream *)
Definition at_stream (ch : chip) (p : Z) : Prop := ptr ch = 0x6000 + p mod 8192.

(** ** Observations *)
(** times of the speaker toggles *)
Definition clicks (l : list wrt) : list Z := map w_time (filter (fun w => w_addr w =? 0xC030) l).
(** stores to the hi-res pages: bank, address, value *)
Definition screen_write (w : wrt) : bool := (0x2000 <=? w_addr w) && (w_addr w <? 0x4000).
Definition stores (l : list wrt) : list (bool * Z * Z) :=
  map (fun w => (w_aux w, w_addr w, w_val w)) (filter screen_write l).
(** soft switches touched, other than the speaker and the network card *)
Definition switches (l : list wrt) : list Z :=
  map w_addr (filter (fun w => (0xC000 <=? w_addr w) && (w_addr w <? 0xC100) && negb (w_addr w =? 0xC030)
                               && negb ((0xC094 <=? w_addr w) && (w_addr w <=? 0xC097))) l).

(** Where the player may write: hi-res pages, two dummy locations, I/O space, and
    the operands of its own dispatch jumps (any [JMP] marked as patched) and of
    the soft switch access in op_ack. *)
Definition own_operand (a : Z) : Prop :=
  (exists j e, In (j, Patched iJMP (Abs e)) resident /\ (a = j + 1 \/ a = j + 2)) \/
  (exists j e, In (j, PatchedLo iSTA (Abs e)) resident /\ a = j + 1).
Definition allowed (w : wrt) : Prop :=
  screen_write w = true \/ w_addr w = 0x8 \/ w_addr w = 0xFFFF \/ 0xC000 <= w_addr w < 0xC100 \/ own_operand (w_addr w).

(** Cycles between the two toggles of a tick routine: as its name says, except 21
    for op_tick_22 (as noted in main.s 680) and 39 for op_tick_40 (main.s 837
    says 41, which is wrong). *)
Definition tick_cycles (t : Z) : Z := if t =? 22 then 21 else if t =? 40 then 39 else t.

(** ** What a piece of execution from [m] to [m'] did *)
Definition store1 (mm : bool -> Z -> Z) (s : bool * Z * Z) : bool -> Z -> Z :=
  let '(b, a, v) := s in fun b' => if Bool.eqb b' b then upd1 (mm b') a v else mm b'.
(** [t] cycles, speaker toggles [ck] cycles after the start, stores [st] to the
    hi-res pages (and no other change of them), soft switches [sw] touched,
    bytes [got] read from the receive buffer; nothing written elsewhere than
    allowed *)
Record effect (m m' : machine) (t : Z) (ck : list Z) (st : list (bool * Z * Z)) (sw got : list Z) : Prop := {
  ef_cyc : cyc m' = cyc m + t;
  ef_log : exists new, log m' = log m ++ new /\ clicks new = map (Z.add (cyc m)) ck /\ stores new = st /\ switches new = sw /\ Forall allowed new;
  ef_screen : forall b a, 0x2000 <= a < 0x4000 -> mem m' b a = fold_left store1 st (mem m) b a;
  ef_taken : taken m' = taken m ++ got
}.

(** The player is about to run the routine of an opcode whose data begins at
    position [c] of the stream; [rd] bytes of the stream have been acknowledged. *)
Record ready (stream : list Z) (rd c : Z) (m : machine) : Prop := {
  rdy_code : loaded resident m;
  rdy_held : held stream (net m) rd;
  rdy_ptr : at_stream (net m) c;
  rdy_x : rx m = 0;
  rdy_rxrd : rxrd (net m) = rd mod 65536;
  rdy_pos : rd <= c
}.
(** The player is in checkrecv, waiting for the next 2048 bytes; it will go on at
    position [c] of the stream. *)
Record waiting (stream : list Z) (rd c : Z) (m : machine) : Prop := {
  wt_pc : pc m = 0x4037;
  wt_code : loaded resident m;
  wt_held : held stream (net m) rd;
  wt_hi : ptr (net m) / 256 = 4;
  wt_rxrd : rxrd (net m) = rd mod 65536;
  wt_pos : 256 * ry m + rx m = 0x6000 + c mod 8192;
  wt_x : 0 <= rx m < 256;
  wt_rdc : rd <= c <= rd + 2046
}.
(** Those bytes are there, but a key has been pressed: it waits for another one. *)
Record paused (stream : list Z) (rd c : Z) (m : machine) : Prop := {
  pz_pc : pc m = 0x4059;
  pz_code : loaded resident m;
  pz_held : held stream (net m) rd;
  pz_ptr : at_stream (net m) c;
  pz_rxrd : rxrd (net m) = rd mod 65536;
  pz_wr : rd + 2048 <= wr (net m);
  pz_rdc : rd <= c <= rd + 2046
}.
Definition same_switches (m m' : machine) : Prop := sw80 m' = sw80 m /\ swpage2 m' = swpage2 m /\ swhires m' = swhires m.
(** bytes that the network offers during the first [n] instructions *)
Fixpoint offered (sched : nat -> env) (n : nat) : Z :=
  match n with O => 0 | S n' => Z.of_nat (e_bytes (sched O)) + offered (fun i => sched (S i)) n' end.
(** no key is pressed during the first [n] instructions *)
Definition no_keys (sched : nat -> env) (n : nat) : Prop := forall i, (i < n)%nat -> e_key (sched i) = None.

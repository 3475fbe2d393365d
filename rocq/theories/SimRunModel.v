(** Model of the simulator's main loop and loader: apple2.py 189-208, memory.py
    46-104 and simulator.py 8-48.  The processor (py65's MPU) is a parameter:
    any type of processor states with a program counter and a step that may use
    the machine.  Not modelled: the printed trace ([trace=True] also reads memory
    to disassemble) and the text printed by entry point handlers, which do
    nothing else (machine.py 24-33, apple2.py 178-180). *)
From Verif Require Import Base SimModel.

(** memory.py 94-95: the region of an address, as a position in the memory map;
    [None] is the default region.  A later region replaces an earlier one. *)
Definition region_of (address : Z) : option nat :=
  snd (fold_left (fun '(i, r) x => (S i, if (r_start x <=? address) && (address <=? r_end x) then Some i else r)) regions (0%nat, None)).
Definition same_region (a b : option nat) : bool :=
  match a, b with None, None => true | Some i, Some j => Nat.eqb i j | _, _ => false end.

(** apple2.py 35-40: entry points of the ROM *)
Definition entry_points : list Z := [0xf3e2; 0xfca8; 0xfded; 0xfe89].

(** memory.py 16-24 *)
Inductive failure := UndefinedEntryPoint (prev address : Z) | Device (e : err).

(** memory.py 65-80: [MaybeInterceptExecution] *)
Definition maybe_intercept (old new : Z) (s : sim) : sim * option failure :=
  if same_region (region_of old) (region_of new) then (s, None)
  else match a_read old s with
       | (s', inr e) => (s', Some (Device e))
       | (s', inl b) => if negb (b =? 0x60) && negb (existsb (Z.eqb new) entry_points)
                        then (s', Some (UndefinedEntryPoint old new)) else (s', None)
       end.

Inductive status := Going | Stopped | Failed (f : failure).
Section Run.
  Variables (cpu : Type) (pc : cpu -> Z) (step : cpu -> run cpu).
  (** apple2.py 193-208: up to [n] rounds of the loop.  Returns the instructions
      executed, each with the machine's state after it, and how it ended. *)
  Fixpoint run_loop (n : nat) (c : cpu) (old : Z) (s : sim) : list (Z * sim) * cpu * sim * status :=
    match n with
    | O => ([], c, s, Going)
    | S n' =>
        match maybe_intercept old (pc c) s with
        | (s1, Some f) => ([], c, s1, Failed f)
        | (s1, None) =>
            match step c s1 with
            | (s2, inr e) => ([(pc c, s2)], c, s2, Failed (Device e))
            | (s2, inl c') =>
                if pc c' =? pc c then ([(pc c, s2)], c', s2, Stopped)
                else let '(l, c2, s3, st) := run_loop n' c' (pc c) s2 in ((pc c, s2) :: l, c2, s3, st)
            end
        end
    end.
  (** apple2.py 189-192: [cpu.pc = pc] has been done *)
  Definition run_from (n : nat) (c : cpu) (s : sim) : list (Z * sim) * cpu * sim * status := run_loop n c (pc c) s.
End Run.

(** py65's [ObservableMemory.write]: a block is stored past the interceptors *)
Fixpoint load (ram : Z -> Z) (start : Z) (bytes : list Z) : Z -> Z :=
  match bytes with [] => ram | b :: r => load (upd1 ram start b) (start + 1) r end.
(** [rom[a:b]] *)
Definition slice (l : list Z) (a b : nat) : list Z := firstn (b - a) (skipn a l).
(** simulator.py 14-41: the memory before the run *)
Definition loaded (rom code : list Z) : Z -> Z :=
  let r := fun _ => 0 in
  let r := load r 0xc600 (slice rom (Z.to_nat 0x600) (Z.to_nat 0x6ff)) in
  let r := load r 0xd000 (slice rom (Z.to_nat 0x5000) (Z.to_nat 0x7fff)) in
  let r := load r 0x8000 code in
  upd1 (upd1 r 0x36 0xf0) 0x37 0xfd.

(** The processor's decimal flag, which CpuModel leaves out (there: off).  Not code
    of the repository: what player/main.s, which has an ADC (1327) but neither CLD
    nor SED, relies on. *)
From Verif Require Import Base AsmModel CpuModel.

(** ADC in decimal mode: result and carry *)
Definition decimal_sum (a b c : Z) : Z :=
  let lo := a mod 16 + b mod 16 + c in
  let lo' := if 10 <=? lo then (lo + 6) mod 16 + 16 else lo in
  let t := 16 * (a / 16) + 16 * (b / 16) + lo' in
  if 0xA0 <=? t then t + 0x60 else t.

(** One instruction with decimal flag [d].  0xD8 is CLD, 0xF8 SED; ADC is the only
    other instruction of CpuModel that involves the flag.  (Z and N after a decimal
    ADC as on the 65C02.)  The ROM routines are unaffected. *)
Definition exec_d (d : bool) (m : machine) : option (bool * machine) :=
  let keep := match exec m with Some m' => Some (d, m') | None => None end in
  if (pc m =? 0xF3F2) || (pc m =? 0xFDED) then keep
  else if peek m (pc m) =? 0xD8 then Some (false, with_cyc (cyc m + 2) (with_pc (pc m + 1) m))
  else if peek m (pc m) =? 0xF8 then Some (true, with_cyc (cyc m + 2) (with_pc (pc m + 1) m))
  else match fetch m with
       | Some (iADC, mImm, v) =>
           if d then
             let t := decimal_sum (ra m) v (b2z (fc m)) in
             let r := t mod 256 in
             Some (d, with_flags (256 <=? t) (r =? 0) (128 <=? r)
                        (with_regs r (rx m) (ry m) (rs m) (with_cyc (cyc m + 2) (with_pc (pc m + 2) m))))
           else keep
       | _ => keep
       end.
Definition step_d (stream : list Z) (e : env) (dm : bool * machine) : option (bool * machine) := exec_d (fst dm) (before stream e (snd dm)).
(** [n] instructions under a schedule *)
Fixpoint run_d (stream : list Z) (sched : nat -> env) (n : nat) (dm : bool * machine) : option (bool * machine) :=
  match n with
  | O => Some dm
  | S n' => match step_d stream (sched O) dm with Some dm' => run_d stream (fun i => sched (S i)) n' dm' | None => None end
  end.

(** Vocabulary for the frame grabber properties. *)
From Verif Require Import Base ScreenModel ScreenSpec GrabberModel SymbolModel.

(** [thread_run n s s']: some interleaving of [n] steps *)
Inductive thread_run : nat -> threads -> threads -> Prop :=
| run_here s : thread_run 0 s s
| run_then n s s1 s2 : thread_run n s s1 -> thread_step s1 s2 -> thread_run (S n) s s2.
Definition stuck (s : threads) : Prop := forall s', ~ thread_step s s'.
(** a screen of 8192 bytes, page by page *)
Definition holds (data : list Z) (m : memory_map) : Prop :=
  Z.of_nat (length data) = 8192 /\ mm_page m = 1 /\ forall p o, in_page p o -> mm_data m p o = nth (Z.to_nat (256 * p + o)) data 0.
(** the frame a decoder outcome stands for *)
Definition frame_of (r : res decoded) (m : memory_map * option memory_map) : Prop :=
  match r, m with
  | Ok (main, None), (m1, None) => holds main m1
  | Ok (main, Some aux), (m1, Some m2) => holds main m1 /\ holds aux m2
  | _, _ => False
  end.
(** a decoder outcome that is a whole frame *)
Definition complete_frame (d : decoded) : Prop :=
  Z.of_nat (length (fst d)) = 8192 /\ match snd d with Some aux => Z.of_nat (length aux) = 8192 | None => True end.

(** a file is absent or has exactly these contents *)
Definition whole (d : disk) (f : file) (chunks : list (list Z)) : Prop := d f = None \/ d f = Some (concat chunks).
Definition whole_outputs (d : disk) (j : job) : Prop :=
  whole d MainFile (j_main j) /\ match j_aux j with Some aux => whole d AuxFile aux | None => True end.

(** no "." in an extension *)
Definition dotless (s : text) : Prop := ~ In 46 s.

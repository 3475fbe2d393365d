(** All 1024 tick routines, by computation. *)
From Verif Require Import Base OpcodeModel AsmModel PlayerCode CpuModel PlayerModel PlayerSpec PlayerExec TickExec SymCert.
From Coq Require Import FMapPositive.

Definition clicks_of (l : list (Z * aev)) : list Z := flat_map (fun '(t, e) => match e with Click => [t] | _ => [] end) l.
Definition puts_of (l : list (Z * aev)) : list (Z * Z * Z) := flat_map (fun '(t, e) => match e with Put b k i => [(b, k, i)] | _ => [] end) l.
Definition zero_x (v : aval) : bool := match v with K 0 => true | _ => false end.
Definition good_puts (p : Z) (l : list (Z * Z * Z)) : bool :=
  match l with
  | [(b1, k1, i1); (b2, k2, i2); (b3, k3, i3); (b4, k4, i4)] =>
      (b1 =? 256 * p) && (b2 =? 256 * p) && (b3 =? 256 * p) && (b4 =? 256 * p) &&
      (k1 =? 1) && (k2 =? 2) && (k3 =? 3) && (k4 =? 4) && (i1 =? 0) && (i2 =? 0) && (i3 =? 0) && (i4 =? 0)
  | _ => false
  end.
Definition good_clicks (t : Z) (l : list Z) : bool :=
  match l with [x; y] => (x =? 4) && (y =? 4 + tick_cycles t) | _ => false end.
Definition routine_ok (find : Z -> option entry) (a t p : Z) : bool :=
  match aexec find 40 (start_at a) with
  | Some (s, hi, lo) =>
      (hi =? 5) && (lo =? 6) && (ak s =? 7) && (acyc s =? 73) && zero_x (ax s) && good_clicks t (clicks_of (aevs s)) && good_puts p (puts_of (aevs s))
  | None => false
  end.
Definition routines_ok (find : Z -> option entry) (l : list (cmd * Z)) : bool :=
  forallb (fun '(c, a) => match c with TICK t p => routine_ok find a t p | _ => true end) l.
Lemma all_routines : routines_ok (find_code code_map) op_table = true.
Proof. vm_compute. reflexivity. Qed.

(** addresses of the opcodes' labels *)
Definition addresses_ok (l : list (cmd * Z)) : bool :=
  forallb (fun '(c, a) => match label_address symbols (op_label c) with Some b => a =? b | None => false end) l.
Lemma all_addresses : addresses_ok op_table = true.
Proof. vm_compute. reflexivity. Qed.
(** no label is defined twice *)
Lemma labels_distinct :
  forallb (fun '(l, a) => match label_address symbols l with Some b => a =? b | None => false end) (labels_of (resident ++ startup)) = true.
Proof. vm_compute. reflexivity. Qed.
(** everything assembles *)
Lemma all_encode : forallb (fun '(a, s) => match encode symbols a s with Some _ => true | None => false end) (resident ++ startup) = true.
Proof. vm_compute. reflexivity. Qed.

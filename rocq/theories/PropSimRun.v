(** Properties C68-C69: the simulator's main loop and loader. *)
From Verif Require Import Base BaseFacts SimModel SimSpec SimProofs SimRunModel SimRunSpec SimRunProofs.

(** C68.  [cpu], [pc], [step]: any processor.  [l]: the instructions executed in [n]
    rounds at most, each with the machine's state after it; [c'], [s']: the final
    states; [st]: how it ended. *)
(** An instruction runs next only in the same area of memory, at one of the
    ROM's four entry points, or after an RTS. *)
Theorem C68_guarded : forall cpu pc step n c s l c' s' st, (forall c, 0 <= pc c < 0x10000) ->
  run_from cpu pc step n c s = (l, c', s', st) ->
  forall x sx y sy, follows l (x, sx) (y, sy) ->
    area_of x = area_of y \/ In y [0xf3e2; 0xfca8; 0xfded; 0xfe89] \/ snd (a_read x sx) = inl 0x60.
Proof.
  intros cpu pc step n c s l c' s' st HP E x sx y sy (l1 & l2 & F).
  refine (proj1 (loop_facts cpu pc step HP n c (pc c) s l c' s' st (HP c) E) x sx y sy _).
  exists ((pc c, s) :: l1), l2. rewrite F. reflexivity.
Qed.
Print Assumptions C68_guarded.

(** "Undefined entry point" is reported only for a real violation, names the last
    instruction executed and the address reached, and stops before executing it. *)
Theorem C68_refused : forall cpu pc step n c s l c' s' x y, (forall c, 0 <= pc c < 0x10000) ->
  run_from cpu pc step n c s = (l, c', s', Failed (UndefinedEntryPoint x y)) ->
  exists r sx, l = r ++ [(x, sx)] /\ y = pc c' /\
    area_of x <> area_of y /\ ~ In y [0xf3e2; 0xfca8; 0xfded; 0xfe89] /\ snd (a_read x sx) <> inl 0x60.
Proof.
  intros cpu pc step n c s l c' s' x y HP E.
  pose proof (loop_facts cpu pc step HP n c (pc c) s l c' s' _ (HP c) E) as (_ & _ & _ & Y & X & N).
  destruct (exists_last (l := l)) as (r & [z sz] & L).
  - intros ->. cbn [last fst snd] in *. destruct n as [|n]; [discriminate|]. unfold run_from in E. cbn [run_loop] in E.
    unfold maybe_intercept in E. rewrite (proj2 (same_region_eq _ _) eq_refl) in E.
    destruct (step c s) as [s2 [c1|e]]; [|discriminate]. destruct (_ =? _); [discriminate|].
    destruct (run_loop _ _ _ _ _ _ _) as [[[? ?] ?] ?]. discriminate.
  - subst l. rewrite last_last in X, N. cbn [fst snd] in X, N. subst z. exists r, sz. split; [reflexivity|]. split; [exact Y|].
    unfold ok_cross in N. split; [|split]; intros Q; apply N; auto.
Qed.
Print Assumptions C68_refused.

(** The run ends normally exactly when an instruction leaves the program counter
    where it was; no instruction before the last did. *)
Theorem C68_stops_at_self_jump : forall cpu pc step n c s l c' s' st, (forall c, 0 <= pc c < 0x10000) ->
  run_from cpu pc step n c s = (l, c', s', st) ->
  (forall x sx y sy, follows l (x, sx) (y, sy) -> x <> y) /\
  (st = Stopped -> exists r, l = r ++ [(pc c', s')]) /\ (st = Going -> length l = n).
Proof.
  intros cpu pc step n c s l c' s' st HP E.
  pose proof (loop_facts cpu pc step HP n c (pc c) s l c' s' _ (HP c) E) as (_ & D & _ & ST).
  split; [exact D|]. split; intros ->; [|exact ST]. destruct ST as (x & sx & r & -> & -> & ->). exists r. reflexivity.
Qed.
Print Assumptions C68_stops_at_self_jump.

(** Whatever the program does, hi-res page 2, the slot ROMs and the ROM keep
    their contents. *)
Theorem C68_rom_intact : forall cpu pc step n c s l c' s' st, by_accesses step ->
  run_from cpu pc step n c s = (l, c', s', st) -> forall a, protected a = true -> s_ram s' a = s_ram s a.
Proof.
  intros cpu pc step n c s l c' s' st BA E a P. destruct (loop_accesses cpu pc step BA n c (pc c) s l c' s' st E) as (al & ->).
  apply accesses_protected, P.
Qed.
Print Assumptions C68_rom_intact.

(** A processor that only knows JMP and RTS to $8003: a jump from $8000 to COUT in
    the ROM, RTS there, then a jump to itself; a jump into the middle of the ROM
    is refused. *)
Definition toy_step (c : Z) : run Z :=
  do! op := a_read c in
  if op =? 0x4c then do! lo := a_read (c + 1) in do! hi := a_read (c + 2) in ret ((256 * hi + lo) mod 0x10000)
  else if op =? 0x60 then ret 0x8003 else ret ((c + 1) mod 0x10000).
Definition toy_ram (target : Z) : Z -> Z :=
  load (load (load (fun _ => 0) 0x8000 [0x4c; target mod 256; target / 256]) 0x8003 [0x4c; 0x03; 0x80]) 0xfded [0x60].
Definition toy_start (target : Z) : sim :=
  {| s_ram := toy_ram target; s_uram := fun _ => 0; s_ptr := 0; s_indirect := false; s_auto := false; s_switch := fun _ => false |}.
Example C68_case :
  (let '(l, _, _, st) := run_from Z (fun c => c mod 0x10000) toy_step 9 0x8000 (toy_start 0xfded) in (map fst l, st)) =
    ([0x8000; 0xfded; 0x8003], Stopped) /\
  (let '(l, _, _, st) := run_from Z (fun c => c mod 0x10000) toy_step 9 0x8000 (toy_start 0xfdee) in (map fst l, st)) =
    ([0x8000], Failed (UndefinedEntryPoint 0x8000 0xfdee)) /\
  by_accesses toy_step /\ area_of 0x8003 = Elsewhere /\ area_of 0xfded = ROM.
Proof.
  split; [vm_compute; reflexivity|]. split; [vm_compute; reflexivity|]. split; [|split; reflexivity].
  intros c s. unfold toy_step, bind.
  destruct (a_read c s) as [s1 [b|e]] eqn:A1; [|exists [(c, None)]; cbn [accesses do_access fst]; rewrite A1; reflexivity].
  destruct (b =? 0x4c).
  - destruct (a_read (c + 1) s1) as [s2 [b2|e]] eqn:A2;
      [|exists [(c, None); (c + 1, None)]; cbn [accesses do_access]; rewrite A1; cbn [fst]; rewrite A2; reflexivity].
    destruct (a_read (c + 2) s2) as [s3 [b3|e]] eqn:A3;
      exists [(c, None); (c + 1, None); (c + 2, None)]; cbn [accesses do_access]; rewrite A1; cbn [fst]; rewrite A2; cbn [fst]; rewrite A3; reflexivity.
  - exists [(c, None)]; cbn [accesses do_access]; rewrite A1; destruct (b =? 0x60); reflexivity.
Qed.

(** C69: the ROM image (32 KB: slot ROMs at 0x0000, main ROM at 0x5000) and the
    player's code are found where the machine expects them ... *)
Theorem C69_loaded_partial : forall rom code, length rom = Z.to_nat 0x8000 -> Z.of_nat (length code) <= 0x4000 ->
  (forall a, 0xc600 <= a < 0xc6ff -> loaded rom code a = nth (Z.to_nat (a - 0xc000)) rom 0) /\
  (forall a, 0xd000 <= a < 0xffff -> loaded rom code a = nth (Z.to_nat (a - 0x8000)) rom 0) /\
  (forall a, 0x8000 <= a < 0x8000 + Z.of_nat (length code) -> loaded rom code a = nth (Z.to_nat (a - 0x8000)) code 0) /\
  loaded rom code 0x36 + 256 * loaded rom code 0x37 = 0xfdf0.
Proof.
  intros rom code HR HC.
  assert (SL : forall a b, (a <= b <= Z.to_nat 0x8000)%nat -> length (slice rom a b) = (b - a)%nat).
  { intros a b H. unfold slice. rewrite firstn_length, skipn_length, HR. lia. }
  assert (SN : forall a b i, (i < b - a)%nat -> nth i (slice rom a b) 0 = nth (a + i) rom 0).
  { intros a b i H. unfold slice. rewrite <- (firstn_skipn a rom) at 2.
    destruct (Nat.le_gt_cases (length rom) a) as [G|G].
    - rewrite (skipn_all2 rom G), firstn_nil. rewrite app_nil_r. rewrite (nth_overflow (firstn a rom)) by (rewrite firstn_length; lia). destruct i; reflexivity.
    - rewrite app_nth2 by (rewrite firstn_length; lia). rewrite firstn_length, Nat.min_l by lia.
      replace (a + i - a)%nat with i by lia. rewrite nth_firstn_lt by exact H. reflexivity. }
  assert (U : forall ram a, 0x100 <= a -> upd1 (upd1 ram 0x36 0xf0) 0x37 0xfd a = ram a).
  { intros ram a H. unfold upd1. destruct (Z.eqb_spec a 0x37); [lia|]. destruct (Z.eqb_spec a 0x36); [lia|reflexivity]. }
  pose proof (SL (Z.to_nat 0x600) (Z.to_nat 0x6ff) ltac:(lia)) as L1.
  pose proof (SL (Z.to_nat 0x5000) (Z.to_nat 0x7fff) ltac:(lia)) as L2.
  unfold loaded. cbv zeta. split; [|split; [|split]].
  - intros a H. rewrite U by lia. rewrite load_other by lia. rewrite load_other by lia.
    replace a with (0xc600 + Z.of_nat (Z.to_nat (a - 0xc600))) at 1 by lia. rewrite load_in by lia. rewrite SN by lia. f_equal. lia.
  - intros a H. rewrite U by lia. rewrite load_other by lia.
    replace a with (0xd000 + Z.of_nat (Z.to_nat (a - 0xd000))) at 1 by lia. rewrite load_in by lia. rewrite SN by lia. f_equal. lia.
  - intros a H. rewrite U by lia.
    replace a with (0x8000 + Z.of_nat (Z.to_nat (a - 0x8000))) at 1 by lia. rewrite load_in by lia. reflexivity.
  - reflexivity.
Qed.
Print Assumptions C69_loaded_partial.
(** ... but for the last byte of each: simulator.py 19 and 22 slice one byte short,
    so $C6FF and $FFFF (the high byte of the interrupt vector) are 0 whatever the
    image. *)
Theorem C69_last_byte_refuted : forall rom code, length rom = Z.to_nat 0x8000 -> Z.of_nat (length code) <= 0x4000 ->
  loaded rom code 0xc6ff = 0 /\ loaded rom code 0xffff = 0.
Proof.
  intros rom code HR HC.
  assert (SL : forall a b, (a <= b <= Z.to_nat 0x8000)%nat -> length (slice rom a b) = (b - a)%nat).
  { intros a b H. unfold slice. rewrite firstn_length, skipn_length, HR. lia. }
  pose proof (SL (Z.to_nat 0x600) (Z.to_nat 0x6ff) ltac:(lia)) as L1.
  pose proof (SL (Z.to_nat 0x5000) (Z.to_nat 0x7fff) ltac:(lia)) as L2.
  unfold loaded. cbv zeta. unfold upd1. rewrite !load_other by lia. split; reflexivity.
Qed.
Print Assumptions C69_last_byte_refuted.
Example C69_case : length (repeat 1 (Z.to_nat 0x8000)) = Z.to_nat 0x8000 /\ Z.of_nat (length (repeat 2 (Z.to_nat 0x4000))) <= 0x4000.
Proof. rewrite !repeat_length. split; [reflexivity|lia]. Qed.

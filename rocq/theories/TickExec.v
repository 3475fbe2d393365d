(** Symbolic execution of the tick routines. *)
From Verif Require Import Base BaseFacts OpcodeModel AsmModel PlayerCode CpuModel PlayerModel PlayerSpec PlayerExec ChipProofs.
From Coq Require Import FMapPositive.
Opaque lowcode code hgr resident symbols code_map.

(** register contents: a constant, the k-th byte read since the start, unknown *)
Inductive aval := K (z : Z) | SB (k : Z) | U.
Inductive aev := Click | Put (base k val : Z) | Cell (addr : Z) | Scratch (addr : Z).
Record ast := A { apc : Z; aa : aval; ax : aval; ay : aval; acell : list (Z * Z); ak : Z; acyc : Z; aevs : list (Z * aev) }.
Inductive out := Next (s : ast) | Done (s : ast) (hi lo : Z).

Definition emit (s : ast) (len n : Z) (e : aev) : ast :=
  A (apc s + len) (aa s) (ax s) (ay s) (acell s) (ak s) (acyc s + n) (aevs s ++ [(acyc s + n, e)]).
Definition is_patched (find : Z -> option entry) (a : Z) : bool :=
  match find a with Some (iJMP, mAbs, None) => true | _ => false end.
Definition cell (find : Z -> option entry) (s : ast) (n a : Z) : option out :=
  if is_patched find (a - 1) || is_patched find (a - 2) then
    match aa s with
    | SB i => Some (Next (A (apc s + 3) (aa s) (ax s) (ay s) ((a, i) :: acell s) (ak s) (acyc s + n) (aevs s ++ [(acyc s + n, Cell a)])))
    | _ => None
    end
  else None.
Definition put (s : ast) (base : Z) (off : aval) : option out :=
  if (base mod 256 =? 0) && (0x2000 <=? base) && (base <? 0x4000) then
    match off, aa s with SB k, SB i => Some (Next (emit s 3 5 (Put base k i))) | _, _ => None end
  else None.
Fixpoint get_cell (a : Z) (l : list (Z * Z)) : option Z :=
  match l with [] => None | (a', i) :: l' => if a =? a' then Some i else get_cell a l' end.
Definition read7 (s : ast) (v : Z) (f : aval -> ast) : option out :=
  if (v =? 0xC097) && (ak s <? 7) then Some (Next (f (SB (ak s)))) else None.

Definition astep (find : Z -> option entry) (s : ast) : option out :=
  match find (apc s) with
  | Some (iSTA, mAbs, Some v) =>
      if v =? 0xC030 then Some (Next (emit s 3 4 Click))
      else if v =? 0xFFFF then Some (Next (emit s 3 4 (Scratch v)))
      else cell find s 4 v
  | Some (iSTA, mZp, Some v) => if v =? 8 then Some (Next (emit s 2 3 (Scratch v))) else None
  | Some (iSTA, mAbsX, Some v) =>
      match ax s with K 0 => cell find s 5 v | off => put s v off end
  | Some (iSTA, mAbsY, Some v) => put s v (ay s)
  | Some (iLDA, mAbs, Some v) => read7 s v (fun b => A (apc s + 3) b (ax s) (ay s) (acell s) (ak s + 1) (acyc s + 4) (aevs s))
  | Some (iLDX, mAbs, Some v) => read7 s v (fun b => A (apc s + 3) (aa s) b (ay s) (acell s) (ak s + 1) (acyc s + 4) (aevs s))
  | Some (iLDY, mAbs, Some v) => read7 s v (fun b => A (apc s + 3) (aa s) (ax s) b (acell s) (ak s + 1) (acyc s + 4) (aevs s))
  | Some (iLDX, mImm, Some v) => Some (Next (A (apc s + 2) (aa s) (K v) (ay s) (acell s) (ak s) (acyc s + 2) (aevs s)))
  | Some (iNOP, mImpl, Some _) => Some (Next (A (apc s + 1) (aa s) (ax s) (ay s) (acell s) (ak s) (acyc s + 2) (aevs s)))
  | Some (iJMP, mAbs, Some v) => Some (Next (A v (aa s) (ax s) (ay s) (acell s) (ak s) (acyc s + 3) (aevs s)))
  | Some (iJMP, mAbs, None) =>
      match get_cell (apc s + 2) (acell s), get_cell (apc s + 1) (acell s) with
      | Some hi, Some lo => Some (Done (A (apc s) (aa s) (ax s) (ay s) (acell s) (ak s) (acyc s + 3) (aevs s)) hi lo)
      | _, _ => None
      end
  | _ => None
  end.
Fixpoint aexec (find : Z -> option entry) (fuel : nat) (s : ast) : option (ast * Z * Z) :=
  match fuel with
  | O => None
  | S f => match astep find s with
           | Some (Next s') => aexec find f s'
           | Some (Done s' hi lo) => Some (s', hi, lo)
           | None => None
           end
  end.
Definition start_at (a : Z) : ast := A a U (K 0) U [] 0 0 [].

(** ** Soundness *)
Section Sound.
Variable stream : list Z.
Hypothesis bytes : bytes_ok stream.
Variables rd c : Z.
Hypothesis rdc : rd <= c.
Hypothesis rd0 : 0 <= rd.
Variable m0 : machine.

Definition val (v : aval) (z : Z) : Prop :=
  match v with K k => z = k | SB i => z = sb stream (c + i) | U => True end.
Definition ev_rel (te : Z * aev) (w : wrt) : Prop :=
  let '(t, e) := te in
  w_time w = cyc m0 + t /\
  match e with
  | Click => w_addr w = 0xC030
  | Put base k i => w_addr w = base + sb stream (c + k) /\ w_val w = sb stream (c + i) /\ w_aux w = bank m0 0x2000 /\ 0x2000 <= base < 0x4000 /\ base mod 256 = 0
  | Cell a => w_addr w = a /\ exists j e, In (j, Patched iJMP (Abs e)) resident /\ (a = j + 1 \/ a = j + 2)
  | Scratch a => w_addr w = a /\ (a = 8 \/ a = 0xFFFF)
  end.
(** the part of the relation about the write log *)
Definition logged (evs : list (Z * aev)) (m : machine) : Prop :=
  exists new, log m = log m0 ++ new /\ Forall2 ev_rel evs new /\ mem m = fold_left (fun mm w => write1 w mm) new (mem m0).
Record rel (s : ast) (m : machine) : Prop := {
  r_pc : pc m = apc s;
  r_a : val (aa s) (ra m);
  r_x : val (ax s) (rx m);
  r_y : val (ay s) (ry m);
  r_cell : forall a i, get_cell a (acell s) = Some i -> mem m false a = sb stream (c + i);
  r_k : 0 <= ak s <= 7;
  r_held : held stream (net m) rd;
  r_ptr : at_stream (net m) (c + ak s);
  r_wr : c + 7 <= wr (net m) /\ wr (net m0) <= wr (net m);
  r_rxrd : rxrd (net m) = rxrd (net m0);
  r_cyc : cyc m = cyc m0 + acyc s;
  r_log : logged (aevs s) m;
  r_taken : taken m = taken m0 ++ map (fun i => sb stream (c + i)) (zrange (ak s));
  r_loaded : loaded resident m;
  r_sw : sw80 m = sw80 m0 /\ swpage2 m = swpage2 m0 /\ swhires m = swhires m0 /\ rs m = rs m0
}.

Lemma sb_range j : 0 <= sb stream j < 256.
Proof.
  unfold sb. destruct (nth_in_or_default (Z.to_nat j) stream 0) as [H| ->]; [apply bytes, H|lia].
Qed.

Lemma rel_before s m e : rel s m -> rel s (before stream e m).
Proof.
  intros R. destruct (before_held stream e m rd (r_held _ _ R)) as (H1 & H2 & H3 & H4 & H5 & _). rewrite H5.
  destruct R. constructor; cbn [pc ra rx ry rs mem net cyc log taken sw80 swpage2 swhires with_kbd with_net]; auto.
  - unfold at_stream in *. congruence.
  - lia.
  - congruence.
Qed.
Lemma exec_fetch m i md v : fetch m = Some (i, md, v) -> pc m <> 0xF3F2 -> pc m <> 0xFDED ->
  exec m = exec_ins i md v (with_cyc (cyc m + cycles i md v m) (with_pc (pc m + mode_length md) m)).
Proof.
  intros F N1 N2. unfold exec. destruct (Z.eqb_spec (pc m) 0xF3F2); [contradiction|]. destruct (Z.eqb_spec (pc m) 0xFDED); [contradiction|]. rewrite F. reflexivity.
Qed.
Lemma not_rom a e : find_code code_map a = Some e -> a <> 0xF3F2 /\ a <> 0xFDED.
Proof. intros F. apply find_code_in in F. destruct F as (s & H & _). apply resident_bounds in H. pose proof (size_nonneg s). lia. Qed.
Lemma exec_code m i md ov : loaded resident m -> find_code code_map (pc m) = Some (i, md, ov) ->
  let v := match ov with Some v => v | None => mem m false (pc m + 1) + 256 * mem m false (pc m + 2) end in
  exec m = exec_ins i md v (with_cyc (cyc m + cycles i md v m) (with_pc (pc m + mode_length md) m)).
Proof.
  intros L F v. pose proof (not_rom _ _ F) as [N1 N2]. apply exec_fetch; auto. exact (fetch_code m i md ov L F).
Qed.

Lemma logged_more evs m e w mm :
  logged evs m -> ev_rel e w -> mm = write1 w (mem m) ->
  exists new, log m ++ [w] = log m0 ++ new /\ Forall2 ev_rel (evs ++ [e]) new /\ mm = fold_left (fun mm w => write1 w mm) new (mem m0).
Proof.
  intros (new & E & F & G) W ->. exists (new ++ [w]). split; [rewrite E, app_assoc; reflexivity|].
  split; [apply Forall2_app; [exact F|constructor; [exact W|constructor]]|]. rewrite fold_left_app. cbn [fold_left]. rewrite G. reflexivity.
Qed.
Lemma bank_text m a : 0x2000 <= a < 0x4000 -> bank m a = bank m 0x2000.
Proof.
  intros H. unfold bank. destruct (Z.leb_spec 0x400 a), (Z.ltb_spec a 0x800), (Z.leb_spec 0x2000 a), (Z.ltb_spec a 0x4000); reflexivity || lia.
Qed.
Lemma bank_same m a : sw80 m = sw80 m0 -> swpage2 m = swpage2 m0 -> swhires m = swhires m0 -> bank m a = bank m0 a.
Proof. unfold bank. intros -> -> ->. reflexivity. Qed.
Lemma patched_in a : is_patched (find_code code_map) a = true -> exists e, In (a, Patched iJMP (Abs e)) resident.
Proof.
  unfold is_patched. destruct (find_code code_map a) as [[[i md] ov]|] eqn:F; [|discriminate].
  destruct i; try discriminate. destruct md; try discriminate. destruct ov; [discriminate|]. intros _.
  apply find_code_in in F. destruct F as (s & H & E). destruct s as [l|i o|i o|i o|l|e]; cbn [entry_of] in E; try discriminate.
  - destruct (opcode_byte i (mode_of o)); [|discriminate]. destruct (operand_value symbols a o) as [v|]; [|discriminate].
    destruct (operand_fits o v); discriminate.
  - destruct i; try discriminate. destruct o; try discriminate. eauto.
Qed.
Lemma cells_in a : is_patched (find_code code_map) (a - 1) || is_patched (find_code code_map) (a - 2) = true ->
  exists j e, In (j, Patched iJMP (Abs e)) resident /\ (a = j + 1 \/ a = j + 2).
Proof.
  intros H. apply orb_true_iff in H. destruct H as [H|H]; apply patched_in in H; destruct H as (e & H); [exists (a - 1), e|exists (a - 2), e]; (split; [exact H|lia]).
Qed.

(** a write that the relation allows *)
Lemma rel_write s m len n a v e cells :
  rel s m -> let m1 := with_cyc (cyc m + n) (with_pc (pc m + len) m) in let w := Wrt (cyc m + n) a v (bank m a) in
  ev_rel (acyc s + n, e) w -> a = 0xC030 \/ ~ (0xC000 <= a < 0xC100) ->
  w_aux w = true \/ ~ (exists a0 s bytes i b, In (a0, s) resident /\ encode symbols a0 s = Some bytes /\ nth_error bytes i = Some (true, b) /\ w_addr w = a0 + Z.of_nat i) ->
  (forall x i, get_cell x cells = Some i -> write1 w (mem m) false x = sb stream (c + i)) ->
  exists m', bus_write a v m1 = Some m' /\
    rel (A (apc s + len) (aa s) (ax s) (ay s) cells (ak s) (acyc s + n) (aevs s ++ [(acyc s + n, e)])) m'.
Proof.
  intros R m1 w EV IO NC CL. exists (with_mem (write1 w (mem m)) (log m ++ [w]) m1). split.
  - unfold bus_write. change (bank m1 a) with (bank m a). cbn [cyc mem log with_cyc with_pc m1]. fold w.
    destruct ((0xC000 <=? a) && (a <? 0xC100)) eqn:B; [|reflexivity].
    apply andb_true_iff in B. destruct B as [B1 B2]. apply Z.leb_le in B1. apply Z.ltb_lt in B2. destruct IO as [-> |IO]; [reflexivity|lia].
  - assert (L' := loaded_write m w (r_loaded _ _ R) NC). pose proof (logged_more _ _ _ w _ (r_log _ _ R) EV eq_refl) as LG.
    destruct R. constructor; cbn [apc aa ax ay acell ak acyc aevs pc ra rx ry rs mem net cyc log taken sw80 swpage2 swhires with_mem with_cyc with_pc m1]; auto.
    + congruence.
    + lia.
Qed.
Lemma write_other w mm a : w_aux w = true \/ a <> w_addr w \/ 0xC000 <= w_addr w -> write1 w mm false a = mm false a.
Proof.
  intros H. unfold write1. destruct (Z.ltb_spec (w_addr w) 0xC000) as [L|L]; [|reflexivity].
  destruct (Bool.eqb false (w_aux w)) eqn:B; [|reflexivity]. unfold upd1. destruct (Z.eqb_spec a (w_addr w)) as [E|E]; [|reflexivity].
  apply Bool.eqb_prop in B. destruct H as [H|[H|H]]; [congruence|contradiction|lia].
Qed.
(** the cells are in the program *)
Definition cells_ok (s : ast) : Prop := forall a i, get_cell a (acell s) = Some i -> 0x800 <= a < 0x1FFE \/ 0x4000 <= a < 0xBACB.

Lemma rel_plain_write s m len n a v e : cells_ok s -> ~ (0x800 <= a < 0x1FFE) -> ~ (0x4000 <= a < 0xBACB) ->
  rel s m -> let m1 := with_cyc (cyc m + n) (with_pc (pc m + len) m) in let w := Wrt (cyc m + n) a v (bank m a) in
  ev_rel (acyc s + n, e) w -> a = 0xC030 \/ ~ (0xC000 <= a < 0xC100) ->
  exists m', bus_write a v m1 = Some m' /\ rel (emit s len n e) m'.
Proof.
  intros CO N1 N2 R m1 w EV IO. apply (rel_write s m len n a v e (acell s) R EV IO).
  - right. exact (not_code a N1 N2).
  - intros x i G. rewrite write_other; [exact (r_cell _ _ R x i G)|]. right. left. cbn [w_addr]. specialize (CO x i G). lia.
Qed.
Lemma rel_cell_write s m n a i : cells_ok s -> rel s m -> aa s = SB i ->
  (exists j e, In (j, Patched iJMP (Abs e)) resident /\ (a = j + 1 \/ a = j + 2)) ->
  exists m', bus_write a (ra m) (with_cyc (cyc m + n) (with_pc (pc m + 3) m)) = Some m' /\
    rel (A (apc s + 3) (aa s) (ax s) (ay s) ((a, i) :: acell s) (ak s) (acyc s + n) (aevs s ++ [(acyc s + n, Cell a)])) m'.
Proof.
  intros CO R AA (j & e & J & JA). pose proof (resident_bounds _ _ J) as B. cbn [size operand_size] in B.
  assert (BK : bank m a = false).
  { destruct JA as [-> | ->]; apply (bank_resident m _ _ _ J); cbn [size operand_size]; lia. }
  apply rel_write; [exact R| | | |].
  - cbn [ev_rel]. rewrite (r_cyc _ _ R). split; [cbn [w_time]; lia|]. cbn [w_addr]. eauto 6.
  - lia.
  - right. cbn [w_addr]. destruct JA as [-> | ->]; apply (patched_not_code _ _ _ J); auto.
  - intros x k G. unfold write1. cbn [w_addr w_aux w_val]. rewrite BK. destruct (Z.ltb_spec a 0xC000) as [L|L]; [|lia]. cbn [Bool.eqb]. unfold upd1.
    cbn [get_cell] in G. destruct (Z.eqb_spec x a) as [->|NE].
    + injection G as <-. pose proof (r_a _ _ R) as RA. rewrite AA in RA. exact RA.
    + exact (r_cell _ _ R _ _ G).
Qed.
Lemma zrange_snoc k : 0 <= k -> zrange (k + 1) = zrange k ++ [k].
Proof.
  intros H. unfold zrange. replace (Z.to_nat (k + 1)) with (S (Z.to_nat k)) by lia.
  assert (G : forall n a, zrange_from a (S n) = zrange_from a n ++ [a + Z.of_nat n]).
  { induction n as [|n IH]; intros a; [cbn; rewrite Z.add_0_r; reflexivity|]. change (zrange_from a (S (S n))) with (a :: zrange_from (a + 1) (S n)).
    rewrite IH. replace (a + Z.of_nat (S n)) with (a + 1 + Z.of_nat n) by lia. reflexivity. }
  rewrite G. replace (0 + Z.of_nat (Z.to_nat k)) with k by lia. reflexivity.
Qed.
(** reading the next stream byte *)
Lemma rel_read s m n : rel s m -> ak s < 7 ->
  exists m2, bus_read 0xC097 (with_cyc (cyc m + n) (with_pc (pc m + 3) m)) = Some (sb stream (c + ak s), m2) /\
    rel (A (apc s + 3) (aa s) (ax s) (ay s) (acell s) (ak s + 1) (acyc s + n) (aevs s)) m2.
Proof.
  intros R K. pose proof (r_k _ _ R) as RK.
  destruct (peek_held stream (net m) rd (c + ak s) (r_held _ _ R) (r_ptr _ _ R)) as [P1 P2].
  { pose proof (r_wr _ _ R). lia. }
  destruct (next_ptr_held stream (net m) rd (c + ak s) (r_held _ _ R) (r_ptr _ _ R)) as (N1 & N2 & N3 & N4); [lia|].
  eexists. split.
  - unfold bus_read. cbn [Z.leb Z.compare Pos.compare Pos.compare_cont Z.ltb andb Z.eqb Pos.eqb net with_cyc with_pc taken].
    rewrite P1, P2. reflexivity.
  - destruct R. constructor; cbn [apc aa ax ay acell ak acyc aevs pc ra rx ry rs mem net cyc log taken sw80 swpage2 swhires with_mem with_cyc with_pc with_net with_taken]; auto.
    + congruence.
    + lia.
    + rewrite Z.add_assoc. exact N2.
    + lia.
    + congruence.
    + lia.
    + rewrite r_taken0, <- app_assoc, zrange_snoc, map_app by lia. reflexivity.
Qed.
Lemma nz_rel s m v : rel s m -> rel s (nz v m).
Proof. intros R. destruct R. constructor; assumption. Qed.
Lemma read_seven s v f o : read7 s v f = Some o -> v = 0xC097 /\ ak s < 7 /\ o = Next (f (SB (ak s))).
Proof.
  unfold read7. destruct ((v =? 0xC097) && (ak s <? 7)) eqn:B; [|discriminate]. apply andb_true_iff in B. destruct B as [B1 B2].
  apply Z.eqb_eq in B1. apply Z.ltb_lt in B2. intros E. injection E as <-. auto.
Qed.
Lemma cells_ok_more s a i pc' A' X' Y' k' c' e' : cells_ok s -> (exists j e, In (j, Patched iJMP (Abs e)) resident /\ (a = j + 1 \/ a = j + 2)) ->
  cells_ok (A pc' A' X' Y' ((a, i) :: acell s) k' c' e').
Proof.
  intros CO (j & e & J & JA) x y G. cbn [acell get_cell] in G. destruct (Z.eqb_spec x a) as [->|NE]; [|exact (CO _ _ G)].
  apply resident_bounds in J. cbn [size operand_size] in J. lia.
Qed.
Lemma cell_sound s m n a o : cells_ok s -> rel s m -> cell (find_code code_map) s n a = Some o ->
  exists s' m', o = Next s' /\ bus_write a (ra m) (with_cyc (cyc m + n) (with_pc (pc m + 3) m)) = Some m' /\ rel s' m' /\ cells_ok s'.
Proof.
  intros CO R H. unfold cell in H. destruct (_ || _) eqn:P in H; [|discriminate]. apply cells_in in P.
  destruct (aa s) as [|i|] eqn:AA; try discriminate. injection H as <-.
  destruct (rel_cell_write s m n a i CO R AA P) as (m' & E & R'). exists (A (apc s + 3) (aa s) (ax s) (ay s) ((a, i) :: acell s) (ak s) (acyc s + n) (aevs s ++ [(acyc s + n, Cell a)])), m'.
  split; [rewrite AA; reflexivity|]. split; [exact E|]. split; [exact R'|]. apply cells_ok_more; assumption.
Qed.
Lemma put_sound s m base off z o : cells_ok s -> rel s m -> put s base off = Some o -> val off z ->
  exists s' m', o = Next s' /\ bus_write ((base + z) mod 65536) (ra m) (with_cyc (cyc m + 5) (with_pc (pc m + 3) m)) = Some m' /\ rel s' m' /\ cells_ok s'.
Proof.
  intros CO R H V. unfold put in H. destruct ((base mod 256 =? 0) && (0x2000 <=? base) && (base <? 0x4000)) eqn:B; [|discriminate].
  rewrite !andb_true_iff, Z.eqb_eq, Z.leb_le, Z.ltb_lt in B. destruct B as [[B1 B2] B3].
  destruct off as [|k|]; try discriminate. destruct (aa s) as [|i|] eqn:AA; try discriminate. injection H as <-. cbn [val] in V.
  pose proof (sb_range (c + k)) as SR. assert (AD : (base + z) mod 65536 = base + z) by (apply Z.mod_small; lia). rewrite AD.
  assert (RG : 0x2000 <= base + z < 0x4000) by (clear - B1 B2 B3 V SR; subst z; set (x := sb stream (c + k)) in *; clearbody x; dlia).
  destruct (rel_plain_write s m 3 5 (base + z) (ra m) (Put base k i)) as (m' & E & R'); auto; try lia.
  - cbn [ev_rel w_time w_addr w_val w_aux]. rewrite (r_cyc _ _ R). split; [lia|]. split; [congruence|].
    pose proof (r_a _ _ R) as RA. rewrite AA in RA. split; [exact RA|]. destruct (r_sw _ _ R) as (S1 & S2 & S3 & _).
    split; [rewrite bank_text by exact RG; apply bank_same; assumption|]. lia.
  - exists (emit s 3 5 (Put base k i)), m'. split; [reflexivity|]. split; [exact E|]. split; [exact R'|exact CO].
Qed.
Ltac open_exec R F :=
  rewrite (exec_code _ _ _ _ (r_loaded _ _ R)) by (rewrite (r_pc _ _ R); exact F);
  cbn [exec_ins mode_length cycles ea load bus_read alu].

Lemma astep_sound s m o : cells_ok s -> rel s m -> astep (find_code code_map) s = Some o ->
  exists m', exec m = Some m' /\
    match o with
    | Next s' => rel s' m' /\ cells_ok s'
    | Done s' hi lo => rel (A (256 * sb stream (c + hi) + sb stream (c + lo)) (aa s') (ax s') (ay s') (acell s') (ak s') (acyc s') (aevs s')) m'
    end.
Proof.
  intros CO R H. unfold astep in H. destruct (find_code code_map (apc s)) as [[[i md] ov]|] eqn:F; [|discriminate].
  destruct i; try discriminate; destruct md; try discriminate; (destruct ov as [v|]; try discriminate); open_exec R F.
  - (* LDA *) apply read_seven in H. destruct H as (-> & K & ->). destruct (rel_read s m 4 R K) as (m2 & E & R2).
    unfold load. cbn [ea]. rewrite E. cbn [alu]. eexists. split; [reflexivity|]. split; [|exact CO]. apply nz_rel.
    destruct R2. constructor; assumption || reflexivity.
  - (* LDX imm *) injection H as <-. eexists. split; [reflexivity|]. split; [|exact CO].
    destruct R. constructor; cbn [apc aa ax ay acell ak acyc aevs pc ra rx ry rs mem net cyc log taken sw80 swpage2 swhires with_mem with_cyc with_pc with_net with_taken with_regs with_flags nz]; auto.
    + congruence.
    + reflexivity.
    + lia.
  - (* LDX *) apply read_seven in H. destruct H as (-> & K & ->). destruct (rel_read s m 4 R K) as (m2 & E & R2).
    unfold load. cbn [ea]. rewrite E. cbn [alu]. eexists. split; [reflexivity|]. split; [|exact CO]. apply nz_rel.
    destruct R2. constructor; assumption || reflexivity.
  - (* LDY *) apply read_seven in H. destruct H as (-> & K & ->). destruct (rel_read s m 4 R K) as (m2 & E & R2).
    unfold load. cbn [ea]. rewrite E. cbn [alu]. eexists. split; [reflexivity|]. split; [|exact CO]. apply nz_rel.
    destruct R2. constructor; assumption || reflexivity.
  - (* STA zp *) destruct (Z.eqb_spec v 8) as [->|NE]; [|discriminate]. injection H as <-. cbn [ra with_cyc with_pc].
    destruct (rel_plain_write s m 2 3 8 (ra m) (Scratch 8)) as (m' & E & R'); auto; try lia.
    { cbn [ev_rel w_time w_addr]. rewrite (r_cyc _ _ R). split; [lia|auto]. }
    exists m'. split; [exact E|split; [exact R'|exact CO]].
  - (* STA abs *) cbn [ra with_cyc with_pc]. destruct (Z.eqb_spec v 0xC030) as [->|NE]; [|destruct (Z.eqb_spec v 0xFFFF) as [->|NE2]].
    + injection H as <-. destruct (rel_plain_write s m 3 4 0xC030 (ra m) Click) as (m' & E & R'); auto; try lia.
      { cbn [ev_rel w_time w_addr]. rewrite (r_cyc _ _ R). split; [lia|auto]. }
      exists m'. split; [exact E|split; [exact R'|exact CO]].
    + injection H as <-. destruct (rel_plain_write s m 3 4 0xFFFF (ra m) (Scratch 0xFFFF)) as (m' & E & R'); auto; try lia.
      { cbn [ev_rel w_time w_addr]. rewrite (r_cyc _ _ R). split; [lia|auto]. }
      exists m'. split; [exact E|split; [exact R'|exact CO]].
    + destruct (cell_sound s m 4 v o CO R H) as (s' & m' & -> & E & R' & CO'). eauto.
  - (* STA abs,X *) cbn [ra rx with_cyc with_pc].
    assert (G : (ax s = K 0 /\ cell (find_code code_map) s 5 v = Some o) \/ put s v (ax s) = Some o).
    { destruct (ax s) as [[| |]| |]; auto; right; exact H. }
    destruct G as [[AX G]|G].
    + pose proof (r_x _ _ R) as RX. rewrite AX in RX. cbn [val] in RX. rewrite RX, Z.add_0_r.
      destruct (cell_sound s m 5 v o CO R G) as (s' & m' & -> & E & R' & CO'). exists m'. split; [|auto].
      rewrite Z.mod_small; [exact E|]. apply find_code_in in F. destruct F as (st & _ & F). clear - F.
      destruct st as [l|i o|i o|i o|l|e]; cbn [entry_of] in F; try discriminate; [|destruct i; try discriminate; destruct o; try discriminate; destruct (resolve symbols e) as [x|]; try discriminate; destruct ((0 <=? x) && (x <? 65536)); discriminate].
      destruct (opcode_byte i (mode_of o)); [|discriminate]. destruct (operand_value symbols (apc s) o) as [x|]; [|discriminate].
      destruct (operand_fits o x) eqn:OF; [|discriminate]. injection F as _ M <-. destruct o; cbn [mode_of] in M; try discriminate.
      cbn [operand_fits] in OF. apply andb_true_iff in OF. lia.
    + destruct (put_sound s m v (ax s) (rx m) o CO R G (r_x _ _ R)) as (s' & m' & -> & E & R' & CO'). eauto.
  - (* STA abs,Y *) cbn [ra ry with_cyc with_pc]. destruct (put_sound s m v (ay s) (ry m) o CO R H (r_y _ _ R)) as (s' & m' & -> & E & R' & CO'). eauto.
  - (* NOP *) injection H as <-. eexists. split; [reflexivity|]. split; [|exact CO].
    destruct R. constructor; cbn [apc aa ax ay acell ak acyc aevs pc ra rx ry rs mem net cyc log taken sw80 swpage2 swhires with_cyc with_pc]; auto; [congruence|lia].
  - (* JMP *) injection H as <-. eexists. split; [reflexivity|]. split; [|exact CO].
    destruct R. constructor; cbn [apc aa ax ay acell ak acyc aevs pc ra rx ry rs mem net cyc log taken sw80 swpage2 swhires with_cyc with_pc]; auto; lia.
  - (* dispatch *) destruct (get_cell (apc s + 2) (acell s)) as [hi|] eqn:G2; [|discriminate]. destruct (get_cell (apc s + 1) (acell s)) as [lo|] eqn:G1; [|discriminate].
    injection H as <-. eexists. split; [reflexivity|]. pose proof (r_cell _ _ R _ _ G2) as C2. pose proof (r_cell _ _ R _ _ G1) as C1.
    rewrite <- (r_pc _ _ R) in C1, C2.
    destruct R. constructor; cbn [apc aa ax ay acell ak acyc aevs pc ra rx ry rs mem net cyc log taken sw80 swpage2 swhires with_cyc with_pc]; auto; [|lia].
    rewrite C1, C2. lia.
Qed.
End Sound.

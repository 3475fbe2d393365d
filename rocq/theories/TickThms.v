(** The tick routines, under every schedule. *)
From Verif Require Import Base BaseFacts OpcodeModel AsmModel PlayerCode CpuModel PlayerModel PlayerSpec PlayerExec ChipProofs TickExec TickCheck EffectProofs RunProofs SymCert.
Opaque lowcode code hgr resident symbols code_map op_table.

Lemma run_app stream n : forall sched k m m' m'', run stream sched n m = Some m' -> run stream (fun i => sched (n + i)%nat) k m' = Some m'' ->
  run stream sched (n + k) m = Some m''.
Proof.
  induction n as [|n IH]; intros sched k m m' m'' H1 H2; [injection H1 as <-; exact H2|]. cbn [run Nat.add] in *.
  destruct (step stream (sched O) m) as [m1|]; [|discriminate]. exact (IH (fun i => sched (S i)) k m1 m' m'' H1 H2).
Qed.

Lemma offered_nonneg n : forall sched, 0 <= offered sched n.
Proof. induction n as [|n IH]; intros sched; cbn [offered]; [lia|]. specialize (IH (fun i => sched (S i))). lia. Qed.
Section Tick.
Variable stream : list Z.
Hypothesis bytes : bytes_ok stream.
Variables rd c : Z.
Hypothesis rdc : rd <= c.
Hypothesis rd0 : 0 <= rd.
Variable m0 : machine.

(** none of these instructions clears the keyboard strobe *)
Lemma find_abs a v i o : find_code code_map a = Some (i, o, Some v) -> o = mAbsX -> 0 <= v < 65536.
Proof.
  intros F ->. apply find_code_in in F. destruct F as (st & _ & F).
  destruct st as [l|i' o|i' o|i' o|l|e]; cbn [entry_of] in F; try discriminate; [|destruct i'; try discriminate; destruct o; try discriminate; destruct (resolve symbols e) as [x|]; try discriminate; destruct ((0 <=? x) && (x <? 65536)); discriminate].
  destruct (opcode_byte i' (mode_of o)); [|discriminate]. destruct (operand_value symbols a o) as [x|]; [|discriminate].
  destruct (operand_fits o x) eqn:OF; [|discriminate]. injection F as _ M <-. destruct o; cbn [mode_of] in M; try discriminate.
  cbn [operand_fits] in OF. apply andb_true_iff in OF. lia.
Qed.
Lemma cell_kbd s n a o : cell (find_code code_map) s n a = Some o -> a <> 0xC010.
Proof.
  unfold cell. destruct (_ || _) eqn:P; [|discriminate]. intros _. apply cells_in in P. destruct P as (j & e & J & JA).
  apply resident_bounds in J. cbn [size operand_size] in J. lia.
Qed.
Lemma put_kbd s base off z o : put s base off = Some o -> val stream c off z -> (base + z) mod 65536 <> 0xC010.
Proof.
  unfold put. destruct ((base mod 256 =? 0) && (0x2000 <=? base) && (base <? 0x4000)) eqn:B; [|discriminate].
  rewrite !andb_true_iff, Z.eqb_eq, Z.leb_le, Z.ltb_lt in B. destruct B as [[B1 B2] B3].
  destruct off as [|k|]; try discriminate. intros _ V. cbn [val] in V. pose proof (sb_range stream bytes (c + k)) as SR. subst z.
  rewrite Z.mod_small by lia. lia.
Qed.
Lemma astep_kbd s m o m' : rel stream rd c m0 s m -> astep (find_code code_map) s = Some o -> exec m = Some m' -> kbd m' = kbd m.
Proof.
  intros R H X. unfold astep in H. destruct (find_code code_map (apc s)) as [[[i md] ov]|] eqn:F; [|discriminate].
  assert (E := exec_code m i md ov (r_loaded _ _ _ _ _ _ R)). rewrite (r_pc _ _ _ _ _ _ R) in E. specialize (E F). cbv zeta in E. rewrite X in E. clear X.
  symmetry in E. set (m1 := with_cyc _ _) in E. assert (K1 : kbd m1 = kbd m) by reflexivity. assert (A1 : ra m1 = ra m) by reflexivity.
  assert (X1 : rx m1 = rx m) by reflexivity. assert (Y1 : ry m1 = ry m) by reflexivity. clearbody m1. rewrite <- K1.
  destruct i; try discriminate; destruct md; try discriminate; (destruct ov as [v|]; try discriminate); cbn [exec_ins load ea] in E.
  - apply read_seven in H. destruct H as (-> & _). destruct (bus_read 0xC097 m1) as [[b m2]|] eqn:B; [|discriminate].
    apply alu_kbd in E. apply read_kbd in B; [congruence|lia].
  - apply alu_kbd in E. exact E.
  - apply read_seven in H. destruct H as (-> & _). destruct (bus_read 0xC097 m1) as [[b m2]|] eqn:B; [|discriminate].
    apply alu_kbd in E. apply read_kbd in B; [congruence|lia].
  - apply read_seven in H. destruct H as (-> & _). destruct (bus_read 0xC097 m1) as [[b m2]|] eqn:B; [|discriminate].
    apply alu_kbd in E. apply read_kbd in B; [congruence|lia].
  - destruct (Z.eqb_spec v 8) as [->|NE]; [|discriminate]. apply (write_kbd _ _ _ _ E). lia.
  - apply (write_kbd _ _ _ _ E). destruct (Z.eqb_spec v 0xC030) as [->|NE]; [lia|]. destruct (Z.eqb_spec v 0xFFFF) as [->|NE2]; [lia|]. apply (cell_kbd _ _ _ _ H).
  - apply (write_kbd _ _ _ _ E). rewrite X1.
    assert (G : (ax s = K 0 /\ cell (find_code code_map) s 5 v = Some o) \/ put s v (ax s) = Some o).
    { destruct (ax s) as [[| |]| |]; auto; right; exact H. }
    destruct G as [[AX G]|G]; [|exact (put_kbd _ _ _ _ _ G (r_x _ _ _ _ _ _ R))].
    pose proof (r_x _ _ _ _ _ _ R) as RX. rewrite AX in RX. cbn [val] in RX. rewrite RX, Z.add_0_r.
    rewrite Z.mod_small by exact (find_abs _ _ _ _ F eq_refl). exact (cell_kbd _ _ _ _ G).
  - apply (write_kbd _ _ _ _ E). rewrite Y1. exact (put_kbd _ _ _ _ _ H (r_y _ _ _ _ _ _ R)).
  - injection E as <-. reflexivity.
  - injection E as <-. reflexivity.
  - injection E as <-. reflexivity.
Qed.

Lemma aexec_sound fuel : forall sched s m s' hi lo, cells_ok s -> rel stream rd c m0 s m -> aexec (find_code code_map) fuel s = Some (s', hi, lo) ->
  exists n m', (0 < n)%nat /\ run stream sched n m = Some m' /\
    rel stream rd c m0 (A (256 * sb stream (c + hi) + sb stream (c + lo)) (aa s') (ax s') (ay s') (acell s') (ak s') (acyc s') (aevs s')) m' /\
    Z.min (wr (net m) + offered sched n) (Z.min (Z.of_nat (length stream)) (rd + 8192)) <= wr (net m') /\ pend sched n (kbd m) (kbd m').
Proof.
  induction fuel as [|f IH]; intros sched s m s' hi lo CO R H; [discriminate|]. cbn [aexec] in H.
  destruct (astep (find_code code_map) s) as [o|] eqn:E; [|discriminate].
  destruct (astep_sound stream bytes rd c rdc rd0 m0 s (before stream (sched O) m) o CO (rel_before _ _ _ _ _ _ _ R) E) as (m1 & X & Y).
  pose proof (before_wr stream (sched O) m rd (r_held _ _ _ _ _ _ R)) as BW.
  assert (WE : forall s1, rel stream rd c m0 s1 m1 -> wr (net m1) = wr (net (before stream (sched O) m))).
  { intros s1 R1. destruct (exec_nm _ _ X) as [N|N]; [exact N|]. pose proof (proj1 (r_wr _ _ _ _ _ _ R1)). lia. }
  pose proof (astep_kbd s _ o m1 (rel_before _ _ _ _ _ _ _ R) E X) as KE. pose proof (before_keyed stream (sched O) m) as KB. rewrite <- KE in KB. clear KE.
  destruct o as [s1|s1 h l].
  - destruct Y as [R1 CO1]. specialize (WE _ R1). destruct (IH (fun i => sched (S i)) s1 m1 s' hi lo CO1 R1 H) as (n & m' & N & RN & RR & AR & PD).
    pose proof (offered_nonneg n (fun i => sched (S i))) as ON.
    exists (S n), m'. split; [lia|]. split; [|split; [exact RR|split; [cbn [offered]; lia|exact (pend_step _ _ _ _ _ KB PD)]]]. cbn [run]. unfold step. rewrite X. exact RN.
  - specialize (WE _ Y). injection H as -> -> ->. exists 1%nat, m1. split; [lia|]. split; [|split; [exact Y|split; [cbn [offered]; lia|exact (pend_step _ _ _ _ _ KB (pend_nil _ _))]]]. cbn [run]. unfold step. rewrite X. reflexivity.
Qed.
Lemma start_rel a : pc m0 = a -> ready stream rd c m0 -> c + 7 <= wr (net m0) -> rel stream rd c m0 (start_at a) m0.
Proof.
  intros P [L H A X R _] W. constructor; cbn [start_at apc aa ax ay acell ak acyc aevs val get_cell]; auto; try lia; try discriminate.
  - rewrite Z.add_0_r. exact A.
  - exists []. rewrite app_nil_r. split; [reflexivity|]. split; [constructor|reflexivity].
  - cbn. rewrite app_nil_r. reflexivity.
Qed.
(** reading the observations off the abstract events *)
Lemma clicks_events evs new : Forall2 (ev_rel stream c m0) evs new -> clicks new = map (Z.add (cyc m0)) (clicks_of evs).
Proof.
  induction 1 as [|[t e] w evs new E F IH]; [reflexivity|]. cbn [clicks_of flat_map]. fold (clicks_of evs). rewrite map_app, <- IH.
  unfold clicks. cbn [filter]. destruct E as [T E]. destruct e as [|b k v|a|a]; cbn [map app].
  - rewrite E. cbn [Z.eqb Pos.eqb map]. rewrite T. reflexivity.
  - destruct E as (E & _ & _ & RG & M). pose proof (sb_range stream bytes (c + k)) as SR. destruct (Z.eqb_spec (w_addr w) 0xC030) as [X|X]; [|reflexivity].
    exfalso. clear - E RG M SR X. set (z := sb stream (c + k)) in *. clearbody z. dlia.
  - destruct E as [-> (j & e' & J & JA)]. apply resident_bounds in J. cbn [size operand_size] in J. destruct (Z.eqb_spec a 0xC030); [lia|reflexivity].
  - destruct E as [-> [-> | ->]]; reflexivity.
Qed.
Lemma stores_events evs new : Forall2 (ev_rel stream c m0) evs new ->
  stores new = map (fun '(b, k, i) => (bank m0 0x2000, b + sb stream (c + k), sb stream (c + i))) (puts_of evs).
Proof.
  induction 1 as [|[t e] w evs new E F IH]; [reflexivity|]. cbn [puts_of flat_map]. fold (puts_of evs). rewrite map_app, <- IH.
  unfold stores. cbn [filter]. destruct E as [T E]. unfold screen_write at 1. destruct e as [|b k v|a|a]; cbn [map app].
  - rewrite E. reflexivity.
  - destruct E as (E & V & B & RG & M). pose proof (sb_range stream bytes (c + k)) as SR.
    assert (Q : 0x2000 <= w_addr w < 0x4000) by (clear - E RG M SR; set (z := sb stream (c + k)) in *; clearbody z; dlia).
    destruct (Z.leb_spec 0x2000 (w_addr w)), (Z.ltb_spec (w_addr w) 0x4000); try lia. cbn [andb map]. rewrite E, V, B. reflexivity.
  - destruct E as [-> (j & e' & J & JA)]. apply resident_bounds in J. cbn [size operand_size] in J.
    destruct (Z.leb_spec 0x2000 a), (Z.ltb_spec a 0x4000); cbn [andb]; try reflexivity; lia.
  - destruct E as [-> [-> | ->]]; reflexivity.
Qed.
Lemma switches_events evs new : Forall2 (ev_rel stream c m0) evs new -> switches new = [].
Proof.
  induction 1 as [|[t e] w evs new E F IH]; [reflexivity|]. unfold switches. cbn [filter]. destruct E as [T E].
  destruct (Z.eq_dec (w_addr w) 0xC030) as [X|X]; [rewrite X; exact IH|].
  assert (N : ~ (0xC000 <= w_addr w < 0xC100)).
  { destruct e as [|b k v|a|a].
    - contradiction.
    - destruct E as (E & _ & _ & RG & M). pose proof (sb_range stream bytes (c + k)) as SR. clear - E RG M SR. set (z := sb stream (c + k)) in *. clearbody z. dlia.
    - destruct E as [-> (j & e' & J & JA)]. apply resident_bounds in J. cbn [size operand_size] in J. lia.
    - lia. }
  destruct (Z.leb_spec 0xC000 (w_addr w)), (Z.ltb_spec (w_addr w) 0xC100); cbn [andb]; try exact IH; lia.
Qed.
Lemma allowed_events evs new : Forall2 (ev_rel stream c m0) evs new -> Forall allowed new.
Proof.
  induction 1 as [|[t e] w evs new E F IH]; constructor; [|exact IH]. destruct E as [T E]. unfold allowed. destruct e as [|b k v|a|a].
  - lia.
  - destruct E as (E & V & B & RG & M). pose proof (sb_range stream bytes (c + k)) as SR. left. unfold screen_write.
    apply andb_true_iff. rewrite Z.leb_le, Z.ltb_lt. clear - E RG M SR. set (z := sb stream (c + k)) in *. clearbody z. dlia.
  - destruct E as [-> E]. right. right. right. right. left. exact E.
  - destruct E as [-> [-> | ->]]; auto.
Qed.
End Tick.

Lemma routine_of t p a : In (TICK t p, a) op_table -> routine_ok (find_code code_map) a t p = true.
Proof.
  intros H. assert (G : forall find l, routines_ok find l = true -> In (TICK t p, a) l -> routine_ok find a t p = true).
  { intros find l R I. unfold routines_ok in R. rewrite forallb_forall in R. exact (R _ I). }
  exact (G _ _ all_routines H).
Qed.

Lemma tick_runs_keys stream sched m rd c t p :
  bytes_ok stream -> ready stream rd c m -> In (TICK t p, pc m) op_table -> c + 7 <= wr (net m) ->
  exists n m', (0 < n)%nat /\ run stream sched n m = Some m' /\ ready stream rd (c + 7) m' /\
    pc m' = 256 * sb stream (c + 5) + sb stream (c + 6) /\
    effect m m' 73 [4; 4 + tick_cycles t] (map (fun k => (bank m 0x2000, 256 * p + sb stream (c + k), sb stream c)) [1; 2; 3; 4]) []
      (map (fun k => sb stream (c + k)) [0; 1; 2; 3; 4; 5; 6]) /\
    (sw80 m' = sw80 m /\ swpage2 m' = swpage2 m /\ swhires m' = swhires m) /\ c + 7 <= wr (net m') /\ wr (net m) <= wr (net m') /\
    Z.min (wr (net m) + offered sched n) (Z.min (Z.of_nat (length stream)) (rd + 8192)) <= wr (net m') /\ pend sched n (kbd m) (kbd m').
Proof.
  intros BO RD IN W. pose proof (rdy_pos _ _ _ _ RD) as RP. pose proof (h_pos _ _ _ (rdy_held _ _ _ _ RD)) as R0.
  pose proof (routine_of _ _ _ IN) as RO. unfold routine_ok in RO.
  destruct (aexec (find_code code_map) 40 (start_at (pc m))) as [[[s hi] lo]|] eqn:AE; [|discriminate].
  rewrite !andb_true_iff, !Z.eqb_eq in RO. destruct RO as ((((((-> & ->) & K7) & C73) & ZX) & GC) & GP).
  destruct (aexec_sound stream BO rd c RP R0 m 40 sched (start_at (pc m)) m s 5 6) as (n & m' & N & RN & R & AR & PD).
  { intros a i G. discriminate. }
  { exact (start_rel stream rd c m (pc m) eq_refl RD W). }
  { exact AE. }
  exists n, m'. split; [exact N|]. split; [exact RN|].
  destruct R as [P RA RX RY RC RK RH RPT RW RR RCY (new & LG & F2 & MM) RT RL RS]. cbn [apc aa ax ay acell ak acyc aevs] in *. rewrite K7 in *. rewrite C73 in *.
  split; [|split; [exact P|split; [|split; [|split; [apply RW|split; [apply RW|split; [exact AR|exact PD]]]]]]].
  - constructor; auto; [|rewrite RR; apply (rdy_rxrd _ _ _ _ RD)|lia].
    destruct (ax s) as [[| |]| |]; try discriminate. exact RX.
  - unfold good_clicks in GC. destruct (clicks_of (aevs s)) as [|x [|y [|]]] eqn:CK; try discriminate. apply andb_true_iff in GC. rewrite !Z.eqb_eq in GC. destruct GC as [-> ->].
    unfold good_puts in GP. destruct (puts_of (aevs s)) as [|[[b1 k1] i1] [|[[b2 k2] i2] [|[[b3 k3] i3] [|[[b4 k4] i4] [|]]]]] eqn:PT; try discriminate.
    rewrite !andb_true_iff, !Z.eqb_eq in GP. decompose [and] GP. subst.
    eapply effect_of with (new := new); [exact RCY|exact LG| | | | |exact MM|exact RT].
    + rewrite (clicks_events stream BO c m _ _ F2), CK. reflexivity.
    + rewrite (stores_events stream BO c m _ _ F2), PT. cbn [map]. rewrite !Z.add_0_r. reflexivity.
    + exact (switches_events stream BO c m _ _ F2).
    + exact (allowed_events stream BO c m _ _ F2).
  - destruct RS as (S1 & S2 & S3 & _). auto.
Qed.
Lemma tick_runs stream sched m rd c t p :
  bytes_ok stream -> ready stream rd c m -> In (TICK t p, pc m) op_table -> c + 7 <= wr (net m) ->
  exists n m', (0 < n)%nat /\ run stream sched n m = Some m' /\ ready stream rd (c + 7) m' /\
    pc m' = 256 * sb stream (c + 5) + sb stream (c + 6) /\
    effect m m' 73 [4; 4 + tick_cycles t] (map (fun k => (bank m 0x2000, 256 * p + sb stream (c + k), sb stream c)) [1; 2; 3; 4]) []
      (map (fun k => sb stream (c + k)) [0; 1; 2; 3; 4; 5; 6]) /\
    (sw80 m' = sw80 m /\ swpage2 m' = swpage2 m /\ swhires m' = swhires m) /\ c + 7 <= wr (net m') /\ wr (net m) <= wr (net m') /\
    Z.min (wr (net m) + offered sched n) (Z.min (Z.of_nat (length stream)) (rd + 8192)) <= wr (net m').
Proof.
  intros BO RD IN W. destruct (tick_runs_keys stream sched m rd c t p BO RD IN W) as (n & m' & H1 & H2 & H3 & H4 & H5 & H6 & H7 & H8 & H9 & _).
  exists n, m'. auto 12.
Qed.

(** The player under either setting of the decimal flag. *)
From Verif Require Import Base BaseFacts OpcodeModel AsmModel PlayerCode CpuModel PlayerModel PlayerSpec PlayerExec ChipProofs TickExec RecvCode EffectProofs TickThms RunProofs RecvProofs DecimalModel.
Opaque lowcode code hgr resident symbols code_map.

(** ** Flag clear: the machine of CpuModel *)
Lemma fetch_known m x : fetch m = Some x -> peek m (pc m) <> 0xD8 /\ peek m (pc m) <> 0xF8.
Proof. unfold fetch. intros F. split; intros E; rewrite E in F; discriminate F. Qed.
Lemma exec_clear m m' : exec m = Some m' -> exec_d false m = Some (false, m').
Proof.
  intros E. unfold exec_d. rewrite E. unfold exec in E.
  destruct (Z.eqb_spec (pc m) 0xF3F2) as [_|_]; [reflexivity|]. destruct (Z.eqb_spec (pc m) 0xFDED) as [_|_]; [reflexivity|]. cbn [orb].
  destruct (fetch m) as [x|] eqn:F; [|discriminate]. destruct (fetch_known _ _ F) as [N1 N2].
  destruct (Z.eqb_spec (peek m (pc m)) 0xD8); [contradiction|]. destruct (Z.eqb_spec (peek m (pc m)) 0xF8); [contradiction|].
  destruct x as [[[] []] v]; reflexivity.
Qed.
Lemma run_clear stream n : forall sched m m', run stream sched n m = Some m' -> run_d stream sched n (false, m) = Some (false, m').
Proof.
  induction n as [|n IH]; intros sched m m' R; [injection R as <-; reflexivity|]. cbn [run] in R. cbn [run_d].
  destruct (step stream (sched O) m) as [m1|] eqn:E; [|discriminate]. unfold step_d. cbn [fst snd].
  rewrite (exec_clear _ _ E). exact (IH _ _ _ R).
Qed.

(** ** Flag set *)
Lemma exec_set m i md v : fetch m = Some (i, md, v) -> pc m <> 0xF3F2 -> pc m <> 0xFDED -> i <> iADC ->
  exec_d true m = match exec m with Some m' => Some (true, m') | None => None end.
Proof.
  intros F N1 N2 NA. unfold exec_d. destruct (Z.eqb_spec (pc m) 0xF3F2); [contradiction|]. destruct (Z.eqb_spec (pc m) 0xFDED); [contradiction|]. cbn [orb].
  destruct (fetch_known _ _ F) as [N3 N4]. destruct (Z.eqb_spec (peek m (pc m)) 0xD8); [contradiction|]. destruct (Z.eqb_spec (peek m (pc m)) 0xF8); [contradiction|].
  rewrite F. destruct i; try reflexivity. contradiction.
Qed.
Lemma adc_set m v : fetch m = Some (iADC, mImm, v) -> pc m <> 0xF3F2 -> pc m <> 0xFDED ->
  exec_d true m = let t := decimal_sum (ra m) v (b2z (fc m)) in let r := t mod 256 in
    Some (true, with_flags (256 <=? t) (r =? 0) (128 <=? r) (with_regs r (rx m) (ry m) (rs m) (with_cyc (cyc m + 2) (with_pc (pc m + 2) m)))).
Proof.
  intros F N1 N2. unfold exec_d. destruct (Z.eqb_spec (pc m) 0xF3F2); [contradiction|]. destruct (Z.eqb_spec (pc m) 0xFDED); [contradiction|]. cbn [orb].
  destruct (fetch_known _ _ F) as [N3 N4]. destruct (Z.eqb_spec (peek m (pc m)) 0xD8); [contradiction|]. destruct (Z.eqb_spec (peek m (pc m)) 0xF8); [contradiction|].
  rewrite F. reflexivity.
Qed.

Section Set_.
Variable stream : list Z.
Local Notation chip_is := (chip_is stream).
Local Notation heard := (heard stream).
Local Notation peek_rx := (peek_rx stream).
Local Notation chip_next_stream := (chip_next_stream stream).
Local Notation chip_adrh := (chip_adrh stream).
Local Notation chip_adrl := (chip_adrl stream).
Local Notation chip_rxrd := (chip_rxrd stream).
Local Notation chip_inc := (chip_inc stream).
Local Notation poke_rxrd := (poke_rxrd stream).
Local Notation chip_set_rxrd := (chip_set_rxrd stream).
Local Notation poke_recv := (poke_recv stream).
Definition reach (sched : nat -> env) (m : machine) (Q : nat -> machine -> Prop) : Prop :=
  exists n m', run_d stream sched n (true, m) = Some (true, m') /\ Q n m'.
Lemma reach_step sched m m1 Q : step_d stream (sched O) (true, m) = Some (true, m1) -> reach (fun i => sched (S i)) m1 (fun n => Q (S n)) -> reach sched m Q.
Proof. intros E (n & m' & R & H). exists (S n), m'. split; [|exact H]. cbn [run_d]. rewrite E. exact R. Qed.
Lemma reach_here sched m (Q : nat -> machine -> Prop) : Q O m -> reach sched m Q.
Proof. intros H. exists O, m. split; [reflexivity|exact H]. Qed.
Definition flagged (o : option machine) : option (bool * machine) := match o with Some m => Some (true, m) | None => None end.
Lemma step_listed_d e p a x y s c z n mm s80 p2 hr kb nt cy lg tk rd P R W i md v :
  In (p, (i, md, Some v)) listing -> i <> iADC -> ldd mm -> chip_is nt rd P R W ->
  exists nt' kb', chip_is nt' rd P R W /\ heard rd e nt nt' /\ keyed e kb kb' /\
    step_d stream e (true, M p a x y s c z n mm s80 p2 hr kb nt cy lg tk) =
    flagged (exec_ins i md v (M (p + mode_length md) a x y s c z n mm s80 p2 hr kb' nt'
                       (cy + cycles i md v (M p a x y s c z n mm s80 p2 hr kb' nt' cy lg tk)) lg tk)).
Proof.
  intros IN NA L (H & HP & HR & HW). set (m := M p a x y s c z n mm s80 p2 hr kb nt cy lg tk).
  destruct (before_held stream e m rd H) as (B1 & B2 & B3 & B4 & B5 & _). destruct (before_heard stream e m rd H) as [B6 B7].
  exists (net (before stream e m)), (kbd (before stream e m)).
  cbn [net m] in B2. split; [split; [exact B1|split; [rewrite B3; exact HP|split; [rewrite B4; exact HR|lia]]]|].
  split; [exact B6|]. split; [exact B7|].
  unfold step_d. cbn [fst snd]. rewrite B5 at 1. set (m1 := with_kbd (kbd (before stream e m)) (with_net (net (before stream e m)) m)).
  pose proof (fetch_code m1 i md (Some v) L (listed _ _ IN)) as F. pose proof (not_rom _ _ (listed _ _ IN)) as [N1 N2].
  rewrite (exec_set m1 i md v F N1 N2 NA). unfold flagged. rewrite (exec_code m1 i md (Some v) L (listed _ _ IN)). reflexivity.
Qed.
Lemma step_adc_d e p a x y s c z n mm s80 p2 hr kb nt cy lg tk rd P R W v :
  In (p, (iADC, mImm, Some v)) listing -> ldd mm -> chip_is nt rd P R W ->
  exists nt' kb', chip_is nt' rd P R W /\ heard rd e nt nt' /\ keyed e kb kb' /\
    let t := decimal_sum a v (b2z c) in
    step_d stream e (true, M p a x y s c z n mm s80 p2 hr kb nt cy lg tk) =
    Some (true, M (p + 2) (t mod 256) x y s (256 <=? t) (t mod 256 =? 0) (128 <=? t mod 256) mm s80 p2 hr kb' nt' (cy + 2) lg tk).
Proof.
  intros IN L (H & HP & HR & HW). set (m := M p a x y s c z n mm s80 p2 hr kb nt cy lg tk).
  destruct (before_held stream e m rd H) as (B1 & B2 & B3 & B4 & B5 & _). destruct (before_heard stream e m rd H) as [B6 B7].
  exists (net (before stream e m)), (kbd (before stream e m)).
  cbn [net m] in B2. split; [split; [exact B1|split; [rewrite B3; exact HP|split; [rewrite B4; exact HR|lia]]]|].
  split; [exact B6|]. split; [exact B7|].
  unfold step_d. cbn [fst snd]. rewrite B5 at 1. set (m1 := with_kbd (kbd (before stream e m)) (with_net (net (before stream e m)) m)).
  pose proof (fetch_code m1 iADC mImm (Some v) L (listed _ _ IN)) as F. pose proof (not_rom _ _ (listed _ _ IN)) as [N1 N2].
  rewrite (adc_set m1 v F N1 N2). reflexivity.
Qed.
Lemma step_switch_d e a x y s c z n mm s80 p2 hr kb nt cy lg tk rd P R W :
  ldd mm -> chip_is nt rd P R W -> mm false 0xBA7C = 0x54 \/ mm false 0xBA7C = 0x55 ->
  exists nt' kb', chip_is nt' rd P R W /\ heard rd e nt nt' /\ keyed e kb kb' /\
    step_d stream e (true, M 0xBA7B a x y s c z n mm s80 p2 hr kb nt cy lg tk) =
    Some (true, M 0xBA7E a x y s c z n mm s80 (mm false 0xBA7C =? 0x55) hr kb' nt' (cy + 4) (lg ++ [Wrt (cy + 4) (0xC000 + mm false 0xBA7C) a false]) tk).
Proof.
  intros L (H & HP & HR & HW) SW. set (m := M 0xBA7B a x y s c z n mm s80 p2 hr kb nt cy lg tk).
  destruct (before_held stream e m rd H) as (B1 & B2 & B3 & B4 & B5 & _). destruct (before_heard stream e m rd H) as [B6 B7].
  exists (net (before stream e m)), (kbd (before stream e m)).
  cbn [net m] in B2. split; [split; [exact B1|split; [rewrite B3; exact HP|split; [rewrite B4; exact HR|lia]]]|].
  split; [exact B6|]. split; [exact B7|].
  unfold step_d. cbn [fst snd]. rewrite B5 at 1. set (m1 := with_kbd (kbd (before stream e m)) (with_net (net (before stream e m)) m)).
  assert (EN : encode symbols 0xBA7B (PatchedLo iSTA (Abs (Num 0xC0FF))) = Some [(true, 0x8D); (false, 0xFF); (true, 0xC0)]) by reflexivity.
  assert (F : fetch m1 = Some (iSTA, mAbs, 0xC000 + mm false 0xBA7C)).
  { unfold fetch. unfold peek. change (pc m1) with 0xBA7B. rewrite !bank_high by lia. change (mem m1) with mm.
    pose proof (L _ _ _ 0%nat _ switch_in EN eq_refl) as E0. pose proof (L _ _ _ 2%nat _ switch_in EN eq_refl) as E2.
    change (0xBA7B + Z.of_nat 0) with 0xBA7B in E0. change (0xBA7B + Z.of_nat 2) with (0xBA7B + 2) in E2. rewrite E0, E2. cbn [decode].
    change (0xBA7B + 1) with 0xBA7C. f_equal. f_equal. lia. }
  rewrite (exec_set m1 _ _ _ F) by (cbn; (lia || discriminate)). rewrite (exec_fetch m1 _ _ _ F) by (cbn; lia). cbn [exec_ins ea].
  exact (f_equal flagged (bw_switch 0xBA7E a x y s c z n mm s80 p2 hr (kbd (before stream e m)) (net (before stream e m)) (cy + 4) lg tk a _ SW)).
Qed.

Ltac ifs := repeat match goal with |- context [if ?b then _ else _] => let r := eval vm_compute in b in change b with r; cbv iota end.
Ltac in_listing := unfold listing; repeat (first [left; reflexivity|right]).
Ltac numerals := repeat match goal with
  | |- context [Zpos ?a + Zpos ?b] => let r := eval vm_compute in (Zpos a + Zpos b) in change (Zpos a + Zpos b) with r
  | |- context [Zpos ?a + Zneg ?b] => let r := eval vm_compute in (Zpos a + Zneg b) in change (Zpos a + Zneg b) with r
  end.
(** executes the next instruction; leaves the chip's new name in the context *)
Ltac ins nt' kb' KB WM :=
  match goal with L : ldd ?mm, Hh : chip_is ?nt _ _ _ _ |- reach ?sc (M ?p ?a ?x ?y ?s ?c ?z ?n ?mm ?s80 ?p2 ?hr ?kb ?nt ?cy ?lg ?tk) _ =>
    let h := fresh "CH" in let E := fresh "E" in
    edestruct (step_listed_d (sc O) p a x y s c z n mm s80 p2 hr kb nt cy lg tk) as (nt' & kb' & h & WM & KB & E);
      [in_listing|discriminate|exact L|exact Hh|]; clear Hh; rename h into CH;
    eapply reach_step; [etransitivity; [exact E|]; clear E|clear E]
  end.
Ltac unf := cbv beta iota delta [exec_ins load alu ea nz branch with_net with_kbd with_switches with_pc with_cyc with_regs with_flags with_mem with_taken
   cycles mode_length pc ra rx ry rs fc fz fn mem sw80 swpage2 swhires kbd net cyc log taken negb].
Ltac plain_ins := let nt := fresh "nt" in let kb := fresh "kb" in let KB := fresh "KB" in let WM := fresh "WM" in ins nt kb KB WM.
Ltac tidy := unf; numerals.
Ltac wr_ins L := plain_ins; [unf; rewrite L; reflexivity|tidy].
Ltac im_ins := plain_ins; [unf; reflexivity|tidy].


Ltac hyp_chip k := match goal with H : chip_is ?nt _ _ _ _ |- chip_is (_ ?nt) _ _ _ _ => k H | H : chip_is ?nt _ _ _ _ |- chip_is (_ _ ?nt) _ _ _ _ => k H end.

(** gives the chip [nt] in the goal a name of its own *)
Ltac name_chip ch P :=
  match goal with Hh : chip_is _ ?rd _ ?R ?W |- reach _ (M _ _ _ _ _ _ _ _ _ _ _ _ _ ?nt _ _ _) _ =>
    let h := fresh "CH" in let e := fresh "WE" in
    assert (h : chip_is nt rd P R W);
      [|clear Hh;
        match nt with
        | set_ptr ?p ?i => pose proof (eq_refl (wr i) : wr (set_ptr p i) = wr i) as e
        | next_ptr ?i => pose proof (wr_next i) as e
        end; generalize dependent nt; intros ch CH e]
  end.



(** the two instructions after RECV, whatever the chip thinks *)
Lemma arrive1_same ch : rxbase (arrive1 stream ch) = rxbase ch /\ rxrd (arrive1 stream ch) = rxrd ch /\ wr ch <= wr (arrive1 stream ch).
Proof. unfold arrive1. destruct (_ && _); cbn [rxbase rxrd wr]; repeat split; lia. Qed.
Lemma arrive_same n : forall ch, rxbase (arrive stream n ch) = rxbase ch /\ rxrd (arrive stream n ch) = rxrd ch /\ wr ch <= wr (arrive stream n ch).
Proof.
  induction n as [|n IH]; intros ch; [cbn [arrive]; repeat split; lia|]. cbn [arrive]. destruct (IH (arrive1 stream ch)) as (A & B & C). destruct (arrive1_same ch) as (A1 & B1 & C1).
  repeat split; try congruence. lia.
Qed.
Lemma connect_same s ch : rxbase (connect s ch) = rxbase ch /\ rxrd (connect s ch) = rxrd ch /\ wr (connect s ch) = wr ch.
Proof. unfold connect. destruct s as [v|]; [|auto]. destruct (_ =? _); auto. Qed.
Definition same_chip (ch ch' : chip) : Prop := rxbase ch' = rxbase ch /\ rxrd ch' = rxrd ch /\ wr ch <= wr ch'.
Lemma same_trans a b c : same_chip a b -> same_chip b c -> same_chip a c.
Proof. unfold same_chip. intros (A & B & C) (D & E & F). repeat split; try congruence. lia. Qed.
Lemma step_any_d e p a x y s c z n mm s80 p2 hr kb nt cy lg tk i md v :
  In (p, (i, md, Some v)) listing -> i <> iADC -> ldd mm ->
  exists nt' kb', same_chip nt nt' /\
    step_d stream e (true, M p a x y s c z n mm s80 p2 hr kb nt cy lg tk) =
    flagged (exec_ins i md v (M (p + mode_length md) a x y s c z n mm s80 p2 hr kb' nt'
                       (cy + cycles i md v (M p a x y s c z n mm s80 p2 hr kb' nt' cy lg tk)) lg tk)).
Proof.
  intros IN NA L. set (m := M p a x y s c z n mm s80 p2 hr kb nt cy lg tk).
  exists (net (before stream e m)), (kbd (before stream e m)). split.
  { rewrite before_shape. cbn [net with_net with_kbd m]. destruct (connect_same (e_status e) nt) as (A & B & C). unfold same_chip.
    match goal with |- context [arrive stream ?k ?c0] => destruct (arrive_same k c0) as (D & E & F) end.
    rewrite A in D || idtac. repeat split; try congruence; try lia. }
  unfold step_d. cbn [fst snd]. rewrite before_shape. cbn [net kbd with_net with_kbd m].
  match goal with |- exec_d true ?m1 = _ => 
    pose proof (fetch_code m1 i md (Some v) L (listed _ _ IN)) as F; pose proof (not_rom _ _ (listed _ _ IN)) as [N1 N2];
    rewrite (exec_set m1 i md v F N1 N2 NA); unfold flagged; rewrite (exec_code m1 i md (Some v) L (listed _ _ IN)); reflexivity end.
Qed.
Ltac any_ins :=
  match goal with L : ldd ?mm |- reach ?sc (M ?p ?a ?x ?y ?s ?c ?z ?n ?mm ?s80 ?p2 ?hr ?kb ?nt ?cy ?lg ?tk) _ =>
    let h := fresh "SC" in let E := fresh "E" in let nt' := fresh "ntz" in let kb' := fresh "kbz" in
    edestruct (step_any_d (sc O) p a x y s c z n mm s80 p2 hr kb nt cy lg tk) as (nt' & kb' & h & E);
      [in_listing|discriminate|exact L|];
    eapply reach_step; [etransitivity; [exact E|]; clear E; unf; reflexivity|clear E; tidy]
  end.

Lemma ack_decimal sched m rd : pc m = 0xBA72 -> ready stream rd (rd + 2046) m -> rd mod 256 = 0 -> rd + 2048 <= wr (net m) ->
  sb stream (rd + 2046) = 0x54 \/ sb stream (rd + 2046) = 0x55 ->
  reach sched m (fun n m' => pc m' = 0x4037 /\ rxbase (net m') = 256 * (decimal_sum (rd mod 65536 / 256) 8 0 mod 256) /\ wr (net m) <= wr (net m') /\
    taken m' = taken m ++ [sb stream (rd + 2046); sb stream (rd + 2047)]).
Proof.
  intros H1 [H2 H3 H4 H5 H6 _] H7 H8 H9. destruct m as [p a x y s cc z n mm s80 p2 hr kb nt cy lg tk]. cbn [pc ry rx net] in *. subst p.
  assert (L : ldd mm) by exact H2. clear H2. pose proof (h_pos _ _ _ H3) as R0.
  assert (CH : chip_is nt rd (0x6000 + (rd + 2046) mod 8192) (rd mod 65536) (wr nt)) by (repeat split; auto; try apply H3; apply Z.le_refl). clear H3 H4 H6.
  match goal with |- reach _ ?m0 _ => set (start := m0) end.
  match goal with |- reach _ _ ?q => set (Q := q) end. unfold start.
  wr_ins bw_click.
  plain_ins. { unf. rewrite br_data. reflexivity. } tidy.
  destruct (peek_rx _ _ _ _ _ CH) as [E1 E2]; [lia|]. rewrite E1, E2. clear E1 E2.
  name_chip ch1 (0x6000 + (rd + 2046 + 1) mod 8192). { apply chip_next_stream; [exact CH|lia]. }
  plain_ins. { unf. rewrite bw_cell by lia. reflexivity. } tidy.
  match goal with |- reach _ (M _ _ _ _ _ _ _ _ ?mm' _ _ _ _ _ _ _ _) _ => assert (L1 : ldd mm'); [|assert (CELL : mm' false 0xBA7C = sb stream (rd + 2046)) by reflexivity] end.
  { exact (ldd_celllo mm _ _ 0xBA7B _ L switch_in). }
  match goal with |- reach ?sc (M ?p ?a ?x ?y ?s ?c ?z ?n ?mm ?s80 ?p2 ?hr ?kb ?nt ?cy ?lg ?tk) _ =>
    edestruct (step_switch_d (sc O) a x y s c z n mm s80 p2 hr kb nt cy lg tk) as (ntl & kbl & h & WML & KBL & E); [exact L1|exact CH|rewrite CELL; exact H9|] end.
  eapply reach_step; [exact E|]. clear E CH. rename h into CH. rewrite CELL.
  plain_ins. { unf. rewrite br_data. reflexivity. } tidy.
  destruct (peek_rx _ _ _ _ _ CH) as [E1 E2]; [lia|]. rewrite E1, E2. clear E1 E2.
  name_chip ch2 (0x6000 + (rd + 2048) mod 8192). { replace (rd + 2048) with (rd + 2046 + 1 + 1) by lia. replace (rd + 2046 + 1 + 1) with (rd + 2048) at 2 by lia. apply chip_next_stream; [exact CH|lia]. }
  wr_ins br_adrh. 
  pose proof (proj1 (proj2 CH)) as PT. rewrite PT. 
  im_ins.
  wr_ins bw_adrh. name_chip ch3 (256 * 4 + (0x6000 + (rd + 2048) mod 8192) mod 256). { hyp_chip ltac:(fun H => apply (chip_adrh _ _ _ _ _ _ _ H)). reflexivity. }
  im_ins. im_ins. wr_ins bw_click.
  wr_ins bw_adrl. name_chip ch4 0x428. { hyp_chip ltac:(fun H => apply (chip_adrl _ _ _ _ _ _ _ H)). clear - H7. dlia. }
  plain_ins. { unf. rewrite br_data. reflexivity. } tidy.
  match goal with |- context [in_rx (ptr ?n)] => rewrite (not_rx n 0x428) by (reflexivity || apply CH) end. rewrite (chip_rxrd _ _ _ _ CH).
  name_chip ch5 0x429. { hyp_chip ltac:(fun H => apply (chip_inc _ _ _ _ _ _ H)); lia. }
  match goal with |- reach ?sc (M ?p ?a ?x ?y ?s ?c ?z ?n ?mm ?s80 ?p2 ?hr ?kb ?nt ?cy ?lg ?tk) _ =>
    edestruct (step_adc_d (sc O) p a x y s c z n mm s80 p2 hr kb nt cy lg tk) as (nta & kba & h & WMA & KBA & E); [in_listing|exact L1|exact CH|] end.
  cbv zeta in E. eapply reach_step; [exact E|]. clear E CH. rename h into CH. tidy.
  set (hi := decimal_sum (rd mod 65536 / 256) 8 (b2z false) mod 256) in *.
  wr_ins bw_adrl. name_chip ch6 0x428. { hyp_chip ltac:(fun H => apply (chip_adrl _ _ _ _ _ _ _ H)). reflexivity. }
  plain_ins. { unf. erewrite bw_data; [reflexivity|]. apply (poke_rxrd _ _ _ _ _ CH). } tidy.
  match goal with |- reach _ (M _ _ _ _ _ _ _ _ _ _ _ _ _ ?nt' _ _ _) _ =>
    assert (CH' : chip_is nt' rd 0x429 (256 * hi) (wr nt)); [|clear CH; rename CH' into CH; generalize dependent nt'; intros ch7 CH] end.
  { apply (chip_inc _ _ 0x428); [|lia|lia]. replace (256 * hi + _) with (256 * hi) by (clear - R0 H7; dlia). apply (chip_set_rxrd _ _ _ _ _ _ CH). }
  im_ins.
  wr_ins bw_adrl. name_chip ch8 0x401. { hyp_chip ltac:(fun H => apply (chip_adrl _ _ _ _ _ _ _ H)). reflexivity. }
  im_ins.
  plain_ins. { unf. erewrite bw_data; [reflexivity|]. apply (poke_recv _ _ _ _ CH). } tidy.
  match goal with |- reach _ (M _ _ _ _ _ _ _ _ _ _ _ _ _ ?nt' _ _ _) _ =>
    assert (CB : rxbase nt' = 256 * hi /\ wr nt <= wr nt'); [|generalize dependent nt'; intros ch9 CB] end.
  { unfold next_ptr. destruct CH as (_ & _ & A & B). destruct (_ =? 3); cbn [rxbase wr set_ptr]; auto. }
  any_ins. any_ins.
  apply reach_here. unfold Q. cbn [pc net taken start].
  split; [reflexivity|]. unfold same_chip in *. split; [|split; [lia|]].
  - destruct CB as [CB _]. destruct SC as (C1 & _). destruct SC0 as (C2 & _). transitivity (256 * hi); [congruence|reflexivity].
  - rewrite <- !app_assoc. replace (rd + 2046 + 1) with (rd + 2047) by lia. reflexivity.
Qed.

End Set_.

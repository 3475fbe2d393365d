(** Step-by-step execution of op_ack, checkrecv and recv. *)
From Verif Require Import Base BaseFacts OpcodeModel AsmModel PlayerCode CpuModel PlayerModel PlayerSpec PlayerExec ChipProofs TickExec RecvCode EffectProofs TickThms RunProofs.
Opaque lowcode code hgr resident symbols code_map.

(** ** The bus, for machines written out *)
Lemma bank_high m a : 0x4000 <= a -> bank m a = false.
Proof.
  intros H. unfold bank. destruct (Z.ltb_spec a 0x800) as [|_]; [lia|]. destruct (Z.ltb_spec a 0x4000) as [|_]; [lia|]. rewrite !andb_false_r. reflexivity.
Qed.
Section Bus.
Variables (p a x y s : Z) (c z n : bool) (mm : bool -> Z -> Z) (s80 p2 hr : bool) (kb : Z) (nt : chip) (cy : Z) (lg : list wrt) (tk : list Z).
Notation mach := (M p a x y s c z n mm s80 p2 hr kb nt cy lg tk).
Notation logged w := (M p a x y s c z n mm s80 p2 hr kb nt cy (lg ++ [w]) tk).
Lemma bw_io ad v : 0xC000 <= ad < 0xC100 -> bus_write ad v mach = io_write ad v (logged (Wrt cy ad v false)).
Proof.
  intros H. unfold bus_write. rewrite bank_high by lia. destruct (Z.leb_spec 0xC000 ad); [|lia]. destruct (Z.ltb_spec ad 0xC100); [|lia].
  cbn [andb]. unfold with_mem, write1. cbn [w_addr]. destruct (Z.ltb_spec ad 0xC000); [lia|]. reflexivity.
Qed.
Lemma bw_click v : bus_write 0xC030 v mach = Some (logged (Wrt cy 0xC030 v false)).
Proof. rewrite bw_io by lia. reflexivity. Qed.
Lemma bw_dummy v : bus_write 0xFFFF v mach = Some (logged (Wrt cy 0xFFFF v false)).
Proof. unfold bus_write. rewrite bank_high by lia. reflexivity. Qed.
Lemma bw_adrh v : bus_write 0xC095 v mach =
  Some (M p a x y s c z n mm s80 p2 hr kb (set_ptr (256 * v + ptr nt mod 256) nt) cy (lg ++ [Wrt cy 0xC095 v false]) tk).
Proof. rewrite bw_io by lia. reflexivity. Qed.
Lemma bw_adrl v : bus_write 0xC096 v mach =
  Some (M p a x y s c z n mm s80 p2 hr kb (set_ptr (256 * (ptr nt / 256) + v) nt) cy (lg ++ [Wrt cy 0xC096 v false]) tk).
Proof. rewrite bw_io by lia. reflexivity. Qed.
Lemma bw_data v ch : chip_poke v nt = Some ch -> bus_write 0xC097 v mach =
  Some (M p a x y s c z n mm s80 p2 hr kb (next_ptr ch) cy (lg ++ [Wrt cy 0xC097 v false]) tk).
Proof. intros H. rewrite bw_io by lia. unfold io_write. cbn [Z.eqb Pos.eqb net]. rewrite H. reflexivity. Qed.
Lemma bw_switch v sw : sw = 0x54 \/ sw = 0x55 -> bus_write (0xC000 + sw) v mach =
  Some (M p a x y s c z n mm s80 (sw =? 0x55) hr kb nt cy (lg ++ [Wrt cy (0xC000 + sw) v false]) tk).
Proof. intros [-> | ->]; rewrite bw_io by lia; reflexivity. Qed.
Lemma bw_cell ad v : 0x4000 <= ad < 0xC000 -> bus_write ad v mach =
  Some (M p a x y s c z n (write1 (Wrt cy ad v false) mm) s80 p2 hr kb nt cy (lg ++ [Wrt cy ad v false]) tk).
Proof. intros H. unfold bus_write. rewrite bank_high by lia. destruct (Z.leb_spec 0xC000 ad); [lia|]. reflexivity. Qed.
Lemma br_kbd : bus_read 0xC000 mach = Some (kb, mach).
Proof. reflexivity. Qed.
Lemma br_strobe : bus_read 0xC010 mach = Some (kb mod 128, M p a x y s c z n mm s80 p2 hr (kb mod 128) nt cy lg tk).
Proof. reflexivity. Qed.
Lemma br_adrh : bus_read 0xC095 mach = Some (ptr nt / 256, mach).
Proof. reflexivity. Qed.
Lemma br_data : bus_read 0xC097 mach =
  Some (chip_peek nt, M p a x y s c z n mm s80 p2 hr kb (next_ptr nt) cy lg (if in_rx (ptr nt) then tk ++ [chip_peek nt] else tk)).
Proof. unfold bus_read. cbn [Z.leb Z.compare Pos.compare Pos.compare_cont Z.ltb andb Z.eqb Pos.eqb net with_cyc with_pc taken]. destruct (in_rx (ptr nt)); reflexivity. Qed.
End Bus.

(** code in memory, as a property of the memory alone *)
Definition ldd (mm : bool -> Z -> Z) : Prop :=
  forall a s bytes i b, In (a, s) resident -> encode symbols a s = Some bytes -> nth_error bytes i = Some (true, b) -> mm false (a + Z.of_nat i) = b.
Lemma ldd_cell mm t v j e k : ldd mm -> In (j, Patched iJMP (Abs e)) resident -> k = 1 \/ k = 2 -> ldd (write1 (Wrt t (j + k) v false) mm).
Proof.
  intros L J K. pose (m := M 0 0 0 0 0 false false false mm false false false 0 (Chip 0 0 (fun _ => 0) 0 0 0 0 (fun _ => 0)) 0 [] []).
  exact (loaded_write m (Wrt t (j + k) v false) L (or_intror (patched_not_code _ _ _ J K))).
Qed.
Lemma ldd_celllo mm t v j e : ldd mm -> In (j, PatchedLo iSTA (Abs e)) resident -> ldd (write1 (Wrt t (j + 1) v false) mm).
Proof.
  intros L J. pose (m := M 0 0 0 0 0 false false false mm false false false 0 (Chip 0 0 (fun _ => 0) 0 0 0 0 (fun _ => 0)) 0 [] []).
  exact (loaded_write m (Wrt t (j + 1) v false) L (or_intror (patchedlo_not_code _ _ J))).
Qed.

Section Recv.
Variable stream : list Z.

Definition reach (sched : nat -> env) (m : machine) (Q : nat -> machine -> Prop) : Prop :=
  exists n m', run stream sched n m = Some m' /\ Q n m'.
Lemma reach_step sched m m1 Q : step stream (sched O) m = Some m1 -> reach (fun i => sched (S i)) m1 (fun n => Q (S n)) -> reach sched m Q.
Proof. intros E (n & m' & R & H). exists (S n), m'. split; [|exact H]. cbn [run]. rewrite E. exact R. Qed.
Lemma reach_here sched m (Q : nat -> machine -> Prop) : Q O m -> reach sched m Q.
Proof. intros H. exists O, m. split; [reflexivity|exact H]. Qed.

(** the chip as far as it matters *)
Definition chip_is (nt : chip) (rd P R W : Z) : Prop := held stream nt rd /\ ptr nt = P /\ rxrd nt = R /\ W <= wr nt.
Lemma chip_ptr nt rd P R W P' : chip_is nt rd P R W -> chip_is (set_ptr P' nt) rd P' R W.
Proof. intros (H & HP & HR & HW). split; [destruct H; constructor; assumption|auto]. Qed.
Lemma chip_next nt rd P R W : chip_is nt rd P R W -> 0 <= P < 0x4000 -> chip_is (next_ptr nt) rd (P + 1) R W.
Proof.
  intros (H & HP & HR & HW) B. unfold next_ptr. rewrite (h_mode _ _ _ H). cbn [Z.eqb Pos.eqb]. rewrite HP.
  destruct (Z.eqb_spec P 0x7FFF); [lia|]. destruct (Z.eqb_spec P 0x5FFF); [lia|].
  rewrite Z.mod_small by lia. apply chip_ptr with (P := P). repeat split; auto; apply H.
Qed.
Lemma chip_next_stream nt rd q R W : chip_is nt rd (0x6000 + q mod 8192) R W -> 0 <= q -> chip_is (next_ptr nt) rd (0x6000 + (q + 1) mod 8192) R W.
Proof.
  intros (H & HP & HR & HW) B. destruct (next_ptr_held stream nt rd q H HP B) as (A1 & A2 & A3 & A4).
  split; [exact A1|]. split; [exact A2|]. split; [congruence|lia].
Qed.
Lemma peek_rx nt rd q R W : chip_is nt rd (0x6000 + q mod 8192) R W -> rd <= q < W -> chip_peek nt = sb stream q /\ in_rx (ptr nt) = true.
Proof. intros (H & HP & HR & HW) B. apply (peek_held stream nt rd q H HP). lia. Qed.


(** bytes that arrive are counted *)
Definition heard (rd : Z) (e : env) (nt nt' : chip) : Prop :=
  wr nt <= wr nt' /\ Z.min (wr nt + Z.of_nat (e_bytes e)) (Z.min (Z.of_nat (length stream)) (rd + 8192)) <= wr nt'.
Lemma before_heard e m rd : held stream (net m) rd -> heard rd e (net m) (net (before stream e m)) /\ keyed e (kbd m) (kbd (before stream e m)).
Proof.
  intros H. rewrite before_shape, (connect_held _ _ _ _ H). cbn [net with_net with_kbd kbd]. split.
  - destruct (arrive_held stream (e_bytes e) _ _ H) as (_ & B & _). split; [exact B|]. exact (arrive_wr stream (e_bytes e) _ _ H).
  - unfold keyed. destruct (e_key e) as [v|]; [right; split; [discriminate|]|left; auto]. pose proof (Z.mod_pos_bound v 128 eq_refl). lia.
Qed.

(** One instruction of the listing. *)
Lemma step_listed e p a x y s c z n mm s80 p2 hr kb nt cy lg tk rd P R W i md v :
  In (p, (i, md, Some v)) listing -> ldd mm -> chip_is nt rd P R W ->
  exists nt' kb', chip_is nt' rd P R W /\ heard rd e nt nt' /\ keyed e kb kb' /\
    step stream e (M p a x y s c z n mm s80 p2 hr kb nt cy lg tk) =
    exec_ins i md v (M (p + mode_length md) a x y s c z n mm s80 p2 hr kb' nt'
                       (cy + cycles i md v (M p a x y s c z n mm s80 p2 hr kb' nt' cy lg tk)) lg tk).
Proof.
  intros IN L (H & HP & HR & HW). set (m := M p a x y s c z n mm s80 p2 hr kb nt cy lg tk).
  destruct (before_held stream e m rd H) as (B1 & B2 & B3 & B4 & B5 & _). destruct (before_heard e m rd H) as [B6 B7].
  exists (net (before stream e m)), (kbd (before stream e m)).
  cbn [net m] in B2. split; [split; [exact B1|split; [rewrite B3; exact HP|split; [rewrite B4; exact HR|lia]]]|].
  split; [exact B6|]. split; [exact B7|].
  unfold step. rewrite B5 at 1.
  exact (exec_code (with_kbd (kbd (before stream e m)) (with_net (net (before stream e m)) m)) i md (Some v) L (listed _ _ IN)).
Qed.
(** the dispatch jump of op_nop *)
Lemma step_jump e a x y s c z n mm s80 p2 hr kb nt cy lg tk rd P R W : In (0x407C, (iJMP, mAbs, None)) listing ->
  ldd mm -> chip_is nt rd P R W ->
  exists nt' kb', chip_is nt' rd P R W /\ heard rd e nt nt' /\ keyed e kb kb' /\
    step stream e (M 0x407C a x y s c z n mm s80 p2 hr kb nt cy lg tk) =
    Some (M (mm false 0x407D + 256 * mm false 0x407E) a x y s c z n mm s80 p2 hr kb' nt' (cy + 3) lg tk).
Proof.
  intros IN L (H & HP & HR & HW). set (m := M 0x407C a x y s c z n mm s80 p2 hr kb nt cy lg tk).
  destruct (before_held stream e m rd H) as (B1 & B2 & B3 & B4 & B5 & _). destruct (before_heard e m rd H) as [B6 B7].
  exists (net (before stream e m)), (kbd (before stream e m)).
  cbn [net m] in B2. split; [split; [exact B1|split; [rewrite B3; exact HP|split; [rewrite B4; exact HR|lia]]]|].
  split; [exact B6|]. split; [exact B7|].
  unfold step. rewrite B5 at 1.
  exact (exec_code (with_kbd (kbd (before stream e m)) (with_net (net (before stream e m)) m)) iJMP mAbs None L (listed _ _ IN)).
Qed.
(** the soft switch access of op_ack *)
Lemma step_switch e a x y s c z n mm s80 p2 hr kb nt cy lg tk rd P R W :
  ldd mm -> chip_is nt rd P R W -> mm false 0xBA7C = 0x54 \/ mm false 0xBA7C = 0x55 ->
  exists nt' kb', chip_is nt' rd P R W /\ heard rd e nt nt' /\ keyed e kb kb' /\
    step stream e (M 0xBA7B a x y s c z n mm s80 p2 hr kb nt cy lg tk) =
    Some (M 0xBA7E a x y s c z n mm s80 (mm false 0xBA7C =? 0x55) hr kb' nt' (cy + 4) (lg ++ [Wrt (cy + 4) (0xC000 + mm false 0xBA7C) a false]) tk).
Proof.
  intros L (H & HP & HR & HW) SW. set (m := M 0xBA7B a x y s c z n mm s80 p2 hr kb nt cy lg tk).
  destruct (before_held stream e m rd H) as (B1 & B2 & B3 & B4 & B5 & _). destruct (before_heard e m rd H) as [B6 B7].
  exists (net (before stream e m)), (kbd (before stream e m)).
  cbn [net m] in B2. split; [split; [exact B1|split; [rewrite B3; exact HP|split; [rewrite B4; exact HR|lia]]]|].
  split; [exact B6|]. split; [exact B7|].
  unfold step. rewrite B5 at 1. set (m1 := with_kbd (kbd (before stream e m)) (with_net (net (before stream e m)) m)).
  assert (EN : encode symbols 0xBA7B (PatchedLo iSTA (Abs (Num 0xC0FF))) = Some [(true, 0x8D); (false, 0xFF); (true, 0xC0)]) by reflexivity.
  assert (F : fetch m1 = Some (iSTA, mAbs, 0xC000 + mm false 0xBA7C)).
  { unfold fetch. unfold peek. change (pc m1) with 0xBA7B. rewrite !bank_high by lia. change (mem m1) with mm.
    pose proof (L _ _ _ 0%nat _ switch_in EN eq_refl) as E0. pose proof (L _ _ _ 2%nat _ switch_in EN eq_refl) as E2.
    change (0xBA7B + Z.of_nat 0) with 0xBA7B in E0. change (0xBA7B + Z.of_nat 2) with (0xBA7B + 2) in E2. rewrite E0, E2. cbn [decode].
    change (0xBA7B + 1) with 0xBA7C. f_equal. f_equal. lia. }
  rewrite (exec_fetch m1 _ _ _ F) by (cbn; lia). cbn [exec_ins ea].
  exact (bw_switch 0xBA7E a x y s c z n mm s80 p2 hr (kbd (before stream e m)) (net (before stream e m)) (cy + 4) lg tk a _ SW).
Qed.

Ltac ifs := repeat match goal with |- context [if ?b then _ else _] => let r := eval vm_compute in b in change b with r; cbv iota end.
Ltac in_listing := unfold listing; repeat (first [left; reflexivity|right]).
Ltac numerals := repeat match goal with
  | |- context [Zpos ?a + Zpos ?b] => let r := eval vm_compute in (Zpos a + Zpos b) in change (Zpos a + Zpos b) with r
  | |- context [Zpos ?a + Zneg ?b] => let r := eval vm_compute in (Zpos a + Zneg b) in change (Zpos a + Zneg b) with r
  end.
(** executes the next instruction; leaves the chip's new name in the context *)
Ltac ins nt' kb' KB WM :=
  match goal with L : ldd ?mm, Hh : chip_is ?nt _ _ _ _ |- reach ?sc (M ?p ?a ?x ?y ?s ?c ?z ?n ?mm ?s80 ?p2 ?hr ?kb ?nt ?cy ?lg ?tk) _ =>
    let h := fresh "CH" in let E := fresh "E" in
    edestruct (step_listed (sc O) p a x y s c z n mm s80 p2 hr kb nt cy lg tk) as (nt' & kb' & h & WM & KB & E);
      [in_listing|exact L|exact Hh|]; clear Hh; rename h into CH;
    eapply reach_step; [etransitivity; [exact E|]; clear E|clear E]
  end.
Ltac unf := cbv beta iota delta [exec_ins load alu ea nz branch with_net with_kbd with_switches with_pc with_cyc with_regs with_flags with_mem with_taken
   cycles mode_length pc ra rx ry rs fc fz fn mem sw80 swpage2 swhires kbd net cyc log taken negb].
Ltac plain_ins := let nt := fresh "nt" in let kb := fresh "kb" in let KB := fresh "KB" in let WM := fresh "WM" in ins nt kb KB WM.
Ltac tidy := unf; numerals.
Ltac wr_ins L := plain_ins; [unf; rewrite L; reflexivity|tidy].
Ltac im_ins := plain_ins; [unf; reflexivity|tidy].


Lemma chip_count nt rd R W : chip_is nt rd 0x426 R W -> chip_peek nt = (wr nt - rd) / 256.
Proof. intros (H & HP & _). unfold chip_peek. rewrite HP. cbn [in_rx Z.leb Z.ltb Z.compare Pos.compare Pos.compare_cont andb Z.eqb Pos.eqb]. rewrite (count_held _ _ _ H). reflexivity. Qed.
Lemma wr_next nt : wr (next_ptr nt) = wr nt.
Proof. unfold next_ptr. destruct (wmode nt =? 3); reflexivity. Qed.
Lemma not_rx nt P : ptr nt = P -> P < 0x6000 -> in_rx (ptr nt) = false.
Proof. intros -> H. unfold in_rx. destruct (Z.leb_spec 0x6000 P); [lia|reflexivity]. Qed.

Lemma chip_adrl nt rd P R W v P' : chip_is nt rd P R W -> 256 * (P / 256) + v = P' -> chip_is (set_ptr (256 * (ptr nt / 256) + v) nt) rd P' R W.
Proof. intros H <-. pose proof H as (_ & -> & _). apply chip_ptr with (P := P). exact H. Qed.
Lemma chip_adrh nt rd P R W v P' : chip_is nt rd P R W -> 256 * v + P mod 256 = P' -> chip_is (set_ptr (256 * v + ptr nt mod 256) nt) rd P' R W.
Proof. intros H <-. pose proof H as (_ & -> & _). apply chip_ptr with (P := P). exact H. Qed.
Lemma chip_inc nt rd P R W P' : chip_is nt rd P R W -> 0 <= P < 0x4000 -> P + 1 = P' -> chip_is (next_ptr nt) rd P' R W.
Proof. intros H B <-. apply chip_next; assumption. Qed.
Ltac hyp_chip k := match goal with H : chip_is ?nt _ _ _ _ |- chip_is (_ ?nt) _ _ _ _ => k H | H : chip_is ?nt _ _ _ _ |- chip_is (_ _ ?nt) _ _ _ _ => k H end.

(** gives the chip [nt] in the goal a name of its own *)
Ltac name_chip ch P :=
  match goal with Hh : chip_is _ ?rd _ ?R ?W |- reach _ (M _ _ _ _ _ _ _ _ _ _ _ _ _ ?nt _ _ _) _ =>
    let h := fresh "CH" in let e := fresh "WE" in
    assert (h : chip_is nt rd P R W);
      [|clear Hh;
        match nt with
        | set_ptr ?p ?i => pose proof (eq_refl (wr i) : wr (set_ptr p i) = wr i) as e
        | next_ptr ?i => pose proof (wr_next i) as e
        end; generalize dependent nt; intros ch CH e]
  end.

Local Notation waiting := (waiting stream).
Local Notation paused := (paused stream).

Lemma nop_jump : exists e, In (0x407C, Patched iJMP (Abs e)) resident.
Proof. apply patched_in. unfold is_patched. rewrite (listed 0x407C (iJMP, mAbs, None)) by in_listing. reflexivity. Qed.
Lemma own_nop k : k = 1 \/ k = 2 -> own_operand (0x407C + k).
Proof. intros K. destruct nop_jump as (e & J). left. exists 0x407C, e. split; [exact J|]. destruct K as [-> | ->]; auto. Qed.
Lemma own_switch : own_operand 0xBA7C.
Proof. right. exists 0xBA7B, (Num 0xC0FF). split; [exact switch_in|reflexivity]. Qed.

Definition resumed (rd c t : Z) (ck : list Z) (m m' : machine) : Prop :=
  ready stream rd (c + 2) m' /\ pc m' = 256 * sb stream c + sb stream (c + 1) /\
  effect m m' t ck [] [] [sb stream c; sb stream (c + 1)] /\ same_switches m m' /\ rd + 2048 <= wr (net m').

Ltac is_allowed := repeat (apply Forall_cons || apply Forall_nil); unfold allowed; cbn [w_addr]; first [lia|exact (or_intror (or_intror (or_intror (or_intror (own_nop 1 (or_introl eq_refl))))))|exact (or_intror (or_intror (or_intror (or_intror (own_nop 2 (or_intror eq_refl))))))|exact (or_intror (or_intror (or_intror (or_intror own_switch))))|idtac].
Lemma keyed_low e a b : keyed e a b -> b < 128 -> a < 128.
Proof. intros [[_ ->]|[_ H]]; lia. Qed.
Ltac pends := repeat (eapply pend_step; [eassumption|]); apply pend_nil.
(** the second half of recv, and op_nop *)
Lemma resume_runs sched m rd c :
  pc m = 0x4061 -> loaded resident m -> held stream (net m) rd -> at_stream (net m) c -> rxrd (net m) = rd mod 65536 ->
  rd <= c <= rd + 2046 -> rd + 2048 <= wr (net m) -> reach sched m (fun n m' => (0 < n)%nat /\ resumed rd c 39 [4] m m' /\ pend sched n (kbd m) (kbd m')).
Proof.
  intros H1 H2 H3 H4 H5 H6 H7. destruct m as [p a x y s cc z n mm s80 p2 hr kb nt cy lg tk]. cbn [pc net] in *. subst p.
  assert (L : ldd mm) by exact H2. clear H2. pose proof (h_pos _ _ _ H3) as R0.
  assert (CH : chip_is nt rd (0x6000 + c mod 8192) (rd mod 65536) (rd + 2048)) by (repeat split; auto; apply H3). clear H3 H5 H4 H7.
  match goal with |- reach _ ?m0 _ => set (start := m0) end.
  match goal with |- reach _ _ ?q => set (Q := q) end. unfold start.
  wr_ins bw_click. im_ins. im_ins. wr_ins bw_dummy. wr_ins bw_dummy. wr_ins bw_dummy.
  plain_ins. { unf. rewrite br_data. reflexivity. } tidy.
  destruct (peek_rx _ _ _ _ _ CH) as [E1 E2]; [lia|]. rewrite E1, E2. clear E1 E2.
  name_chip ch1 (0x6000 + (c + 1) mod 8192). { apply chip_next_stream; [exact CH|lia]. }
  plain_ins. { unf. rewrite bw_cell by lia. reflexivity. } tidy.
  match goal with |- reach _ (M _ _ _ _ _ _ _ _ ?mm' _ _ _ _ _ _ _ _) _ => assert (L1 : ldd mm') end.
  { destruct nop_jump as (e & J). apply (ldd_cell mm _ _ 0x407C e 2 L J). auto. }
  plain_ins. { unf. rewrite br_data. reflexivity. } tidy.
  destruct (peek_rx _ _ _ _ _ CH) as [E1 E2]; [lia|]. rewrite E1, E2. clear E1 E2.
  name_chip ch2 (0x6000 + (c + 1 + 1) mod 8192). { apply chip_next_stream; [exact CH|lia]. }
  plain_ins. { unf. rewrite bw_cell by lia. reflexivity. } tidy.
  match goal with |- reach _ (M _ _ _ _ _ _ _ _ ?mm' _ _ _ _ _ _ _ _) _ => assert (L2 : ldd mm') end.
  { destruct nop_jump as (e & J). apply (ldd_cell _ _ _ 0x407C e 1 L1 J). auto. }
  match goal with |- reach ?sc (M ?p ?a ?x ?y ?s ?c ?z ?n ?mm ?s80 ?p2 ?hr ?kb ?nt ?cy ?lg ?tk) _ =>
    edestruct (step_jump (sc O) a x y s c z n mm s80 p2 hr kb nt cy lg tk) as (ntl & kbl & h & WML & KBL & E); [in_listing|exact L2|exact CH|] end.
  eapply reach_step; [exact E|]. clear E CH. apply reach_here. split; [lia|].
  split; [|cbn [kbd start]; pends].
  destruct h as (HH & HP & HR & HW). split; [|split; [|split; [|split]]].
  - constructor; cbn [net rx]; auto; try lia. unfold at_stream. rewrite HP. f_equal. f_equal. lia.
  - cbn [pc]. unfold write1. cbn [w_addr w_aux w_val Bool.eqb]. unfold upd1. cbn [Z.ltb Z.compare Pos.compare Pos.compare_cont Z.eqb Pos.eqb]. cbn [Bool.eqb Z.eqb Pos.eqb]. lia.
  - eapply effect_of; cbn [cyc log start taken mem].
    + lia.
    + rewrite <- !app_assoc. cbn [app]. reflexivity.
    + reflexivity.
    + reflexivity.
    + reflexivity.
    + is_allowed.
    + reflexivity.
    + rewrite <- !app_assoc. reflexivity.
  - repeat split.
  - exact HW.
Qed.


Lemma reach_trans sched m m1 k P (Q : nat -> machine -> Prop) : run stream sched k m = Some m1 ->
  reach (fun i => sched (k + i)%nat) m1 P -> (forall n m', P n m' -> Q (k + n)%nat m') -> reach sched m Q.
Proof. intros R (n & m' & R' & H) PQ. exists (k + n)%nat, m'. split; [eapply run_app; eauto|auto]. Qed.
Ltac no_key k := match goal with H : keyed (?sc k) ?a ?b |- _ => destruct H as [[_ ->]|[H _]]; [|exfalso; apply H; auto] end.

Definition bytes_in (es : list env) : Z := fold_right (fun e t => Z.of_nat (e_bytes e) + t) 0 es.
Definition grows (rd : Z) (es : list env) (a b : chip) : Prop :=
  wr a <= wr b /\ Z.min (wr a + bytes_in es) (Z.min (Z.of_nat (length stream)) (rd + 8192)) <= wr b.
Lemma grows_nil rd a b : wr a = wr b -> grows rd [] a b.
Proof. intros H. split; [lia|]. cbn [bytes_in fold_right]. lia. Qed.
Lemma bytes_in_cons e es : bytes_in (e :: es) = Z.of_nat (e_bytes e) + bytes_in es.
Proof. reflexivity. Qed.
Lemma bytes_in_pos es : 0 <= bytes_in es.
Proof. induction es as [|e es IH]; [reflexivity|]. rewrite bytes_in_cons. lia. Qed.
Lemma grows_cons rd e es a b c : heard rd e a b -> grows rd es b c -> grows rd (e :: es) a c.
Proof.
  intros [H1 H2] [G1 G2]. pose proof (bytes_in_pos es). split; [lia|]. rewrite bytes_in_cons. lia.
Qed.
Lemma grows_eq rd es a b c : wr a = wr b -> grows rd es b c -> grows rd es a c.
Proof. intros E [G1 G2]. split; [lia|]. rewrite E. exact G2. Qed.
Lemma heard_later rd rd' e a b : heard rd' e a b -> rd <= rd' -> heard rd e a b.
Proof. intros [H1 H2] L. split; [exact H1|]. lia. Qed.
Lemma grows_any rd es a b : grows rd es a b -> forall e, In e es -> (0 < e_bytes e)%nat -> wr a < Z.of_nat (length stream) -> wr a < rd + 8192 -> wr a < wr b.
Proof.
  intros [G1 G2] e I P L W. assert (0 < bytes_in es); [|lia]. clear - I P. induction es as [|x es IH]; [destruct I|]. rewrite bytes_in_cons. pose proof (bytes_in_pos es).
  destruct I as [->|I]; [lia|]. specialize (IH I). lia.
Qed.
Definition wait_outcome (sched : nat -> env) (rd c : Z) (m : machine) (n : nat) (m' : machine) : Prop :=
  (0 < n)%nat /\
  ((waiting rd c m' /\ effect m m' 25 [4] [] [] [] /\ same_switches m m' /\ wr (net m) < rd + 2048 /\ wr (net m) <= wr (net m') /\
    (forall i, (i < n)%nat -> (0 < e_bytes (sched i))%nat -> wr (net m) < Z.of_nat (length stream) -> wr (net m) < wr (net m')) /\
    pend sched n (kbd m) (kbd m') /\
    Z.min (wr (net m) + offered sched n) (Z.min (Z.of_nat (length stream)) (rd + 8192)) <= wr (net m')) \/
   (paused rd c m' /\ (exists t, effect m m' t [4] [] [] []) /\ same_switches m m' /\ ~ (kbd m < 128 /\ no_keys sched n) /\ kbd m' < 128) \/
   (resumed rd c 73 [4; 38] m m' /\ kbd m < 128 /\ pend sched n (kbd m) (kbd m'))).

Ltac here n := apply reach_here.
(** recv *)
Lemma recv_runs sched m rd c :
  pc m = 0x404B -> loaded resident m -> held stream (net m) rd -> 256 * ry m + rx m = 0x6000 + c mod 8192 -> 0 <= rx m < 256 -> rxrd (net m) = rd mod 65536 ->
  rd <= c <= rd + 2046 -> rd + 2048 <= wr (net m) ->
  reach sched m (fun n m' => (0 < n)%nat /\
    ((paused rd c m' /\ (exists t, effect m m' t [] [] [] []) /\ same_switches m m' /\ ~ (kbd m < 128 /\ no_keys sched n) /\ kbd m' < 128) \/
     (resumed rd c 54 [19] m m' /\ kbd m < 128 /\ pend sched n (kbd m) (kbd m')))).
Proof.
  intros H1 H2 H3 H4 H4' H5 H6 H7. destruct m as [p a x y s cc z n mm s80 p2 hr kb nt cy lg tk]. cbn [pc net rx ry] in *. subst p.
  assert (L : ldd mm) by exact H2. clear H2. pose proof (h_pos _ _ _ H3) as R0.
  assert (CH : chip_is nt rd (ptr nt) (rd mod 65536) (rd + 2048)) by (repeat split; auto; apply H3). clear H3 H5 H7.
  match goal with |- reach _ ?m0 _ => set (start := m0) end.
  match goal with |- reach _ _ ?q => set (Q := q) end. unfold start.
  wr_ins bw_adrh. name_chip ch1 (256 * y + ptr nt mod 256). { hyp_chip ltac:(fun H => apply (chip_adrh _ _ _ _ _ _ _ H)). reflexivity. }
  wr_ins bw_adrl. name_chip ch2 (0x6000 + c mod 8192).
  { hyp_chip ltac:(fun H => apply (chip_adrl _ _ _ _ _ _ _ H)). rewrite <- H4. f_equal. f_equal. clear. dlia. }
  wr_ins br_kbd.
  destruct (Z.leb_spec 128 kb2) as [K|K].
  - (* a key *) im_ins. wr_ins br_strobe. apply reach_here. split; [lia|]. left. split; [|split; [|split; [|split; [|cbn [kbd]; apply strobe_small]]]].
    + destruct CH as (A1 & A2 & A3 & A4). constructor; cbn [pc net]; auto.
    + exists 18. eapply effect_of with (got := []); cbn [cyc log start taken mem].
      * lia.
      * rewrite <- !app_assoc. cbn [app]. reflexivity.
      * reflexivity.
      * reflexivity.
      * reflexivity.
      * is_allowed.
      * reflexivity.
      * rewrite app_nil_r. reflexivity.
    + repeat split.
    + cbn [kbd start]. intros [K0 NK]. clear - K K0 NK KB KB0 KB1. 
      pose proof (NK 0%nat ltac:(lia)) as N0. pose proof (NK 1%nat ltac:(lia)) as N1. pose proof (NK 2%nat ltac:(lia)) as N2.
      destruct KB as [[_ ->]|[X _]]; [|contradiction]. destruct KB0 as [[_ ->]|[X _]]; [|contradiction]. destruct KB1 as [[_ ->]|[X _]]; [|contradiction]. lia.
  - (* none *) im_ins.
    match goal with |- reach ?sc ?m1 ?q => 
      destruct (resume_runs sc m1 rd c) as (n1 & m' & RN & N1 & RS); [reflexivity|exact L|apply CH|apply CH|apply CH|exact H6|apply CH|] end.
    exists n1, m'. split; [exact RN|]. split; [lia|]. right. destruct RS as [(S1 & S2 & S3 & S4 & S5) PD].
    assert (KB0' : kb < 128) by (clear - K KB KB0 KB1; destruct KB1 as [[_ ->]|[_ X]]; [|lia]; destruct KB0 as [[_ ->]|[_ X]]; [|lia]; destruct KB as [[_ ->]|[_ X]]; lia).
    split; [|split; [exact KB0'|cbn [kbd start] in *; repeat (eapply pend_step; [eassumption|]); exact PD]].
    split; [exact S1|]. split; [exact S2|].
    split; [|split; [exact S4|exact S5]].
    refine (effect_trans start _ m' 15 39 [] [4] [] [] [] [] [] _ _ S3).
    eapply effect_of with (got := []); cbn [cyc log start taken mem].
      * ifs. lia.
      * rewrite <- !app_assoc. cbn [app]. reflexivity.
      * reflexivity.
      * reflexivity.
      * reflexivity.
      * is_allowed.
      * reflexivity.
      * rewrite app_nil_r. reflexivity.
Qed.

(** checkrecv *)
Lemma wait_runs sched m rd c : waiting rd c m -> reach sched m (wait_outcome sched rd c m).
Proof.
  intros [H1 H2 H3 H4 H5 H6 H7 H8]. destruct m as [p a x y s cc z n mm s80 p2 hr kb nt cy lg tk]. cbn [pc ry rx net] in *. subst p.
  assert (L : ldd mm) by exact H2. clear H2.
  assert (CH : chip_is nt rd (ptr nt) (rd mod 65536) (wr nt)) by (repeat split; auto; try apply H3; apply Z.le_refl).
  pose proof (h_wr _ _ _ H3) as H9. clear H3 H5.
  match goal with |- reach _ ?m0 _ => set (start := m0) end.
  match goal with |- reach _ _ ?q => set (Q := q) end. unfold start.
  wr_ins bw_click. im_ins. wr_ins bw_adrl.
  name_chip ch1 0x426. { hyp_chip ltac:(fun H => apply (chip_adrl _ _ _ _ _ _ _ H)). rewrite H4. reflexivity. }
  plain_ins. { unf. rewrite br_data. reflexivity. } tidy.
  rewrite (not_rx nt3 0x426) by (reflexivity || apply CH). rewrite (chip_count _ _ _ _ CH).
  name_chip ch2 0x427. { hyp_chip ltac:(fun H => apply (chip_inc _ _ _ _ _ _ H)); lia. }
  im_ins.
  assert (W3 : wr nt <= wr nt3) by (clear - WM WM0 WM1 WM2 WE; unfold heard in *; lia).
  destruct (Z.leb_spec 8 ((wr nt3 - rd) / 256)) as [K|K].
  - assert (K' : rd + 2048 <= wr nt3) by (clear - K; dlia). 
    assert (CH' : chip_is nt4 rd 0x427 (rd mod 65536) (rd + 2048)).
    { destruct CH as (A1 & A2 & A3 & A4). repeat split; auto; try apply A1. clear - K' WM3 WE0. unfold heard in *. lia. }
    clear CH. rename CH' into CH. im_ins.
    match goal with |- reach ?sc ?m1 ?q => 
      destruct (recv_runs sc m1 rd c) as (n1 & m' & RN & N1 & RS); [reflexivity|exact L|apply CH|exact H6|exact H7|apply CH|exact H8|apply CH|] end.
    exists n1, m'. split; [exact RN|]. unfold Q, wait_outcome. split; [lia|]. right.
    match type of RN with run _ _ _ ?m1 = _ => assert (EF : effect start m1 19 [4] [] [] []) end.
    { eapply effect_of with (got := []); cbn [cyc log start taken mem].
      * ifs. lia.
      * rewrite <- !app_assoc. cbn [app]. reflexivity.
      * reflexivity.
      * reflexivity.
      * reflexivity.
      * is_allowed.
      * reflexivity.
      * rewrite app_nil_r. reflexivity. }
    destruct RS as [(S1 & (t & S2) & S3 & S4 & S6)|((S1 & S2 & S3 & S4 & S5) & KL & PD)].
    + left. split; [exact S1|]. split; [|split; [exact S3|split; [|exact S6]]].
      * exists (19 + t). exact (effect_trans _ _ _ _ _ _ _ _ _ _ _ _ _ EF S2).
      * cbn [kbd start]. intros [K0 NK]. apply S4. cbn [kbd]. split.
        -- repeat match goal with H : keyed (sched ?k) _ _ |- _ => pose proof (NK k ltac:(lia)); destruct H as [[_ ->]|[H _]]; [|contradiction] end. exact K0.
        -- intros i Hi. apply (NK (S (S (S (S (S (S i))))))). lia.
    + right. cbn [kbd] in KL, PD.
      split; [|split; [cbn [kbd start]; repeat (eapply keyed_low; [eassumption|]); exact KL
                      |cbn [kbd start]; repeat (eapply pend_step; [eassumption|]); exact PD]].
      split; [exact S1|]. split; [exact S2|]. split; [|split; [exact S4|exact S5]].
      refine (effect_trans start _ m' 19 54 [4] [19] [] [] [] [] [] _ EF S3).
  - assert (K' : wr nt3 < rd + 2048) by (clear - K; dlia).
    im_ins. im_ins. im_ins. im_ins. apply reach_here. split; [lia|]. left.
    assert (G : grows rd (map sched (seq 0 9)) nt nt8).
    { cbn [seq map]. eapply grows_cons; [exact WM|]. eapply grows_cons; [exact WM0|]. eapply grows_cons; [exact WM1|]. eapply grows_eq; [symmetry; exact WE|].
      eapply grows_cons; [exact WM2|]. eapply grows_eq; [symmetry; exact WE0|]. eapply grows_cons; [exact WM3|]. eapply grows_cons; [exact WM4|].
      eapply grows_cons; [exact WM5|]. eapply grows_cons; [exact WM6|]. eapply grows_cons; [exact WM7|]. apply grows_nil. reflexivity. }
    split; [|split; [|split; [|split; [|split; [|split; [|split; [cbn [kbd start]; pends|exact (proj2 G)]]]]]]].
    + destruct CH as (A1 & A2 & A3 & A4). constructor; cbn [pc net rx ry]; auto. rewrite A2. reflexivity.
    + eapply effect_of with (got := []); cbn [cyc log start taken mem].
      * lia.
      * rewrite <- !app_assoc. cbn [app]. reflexivity.
      * reflexivity.
      * reflexivity.
      * reflexivity.
      * is_allowed.
      * reflexivity.
      * rewrite app_nil_r. reflexivity.
    + repeat split.
    + cbn [net start]. lia.
    + cbn [net start]. apply CH.
    + cbn [net start]. intros i Hi Hb HL.
      apply (grows_any _ _ _ _ G (sched i)); auto; [apply in_map, in_seq; lia|lia].
Qed.


(** waiting for a second key *)
Lemma pause_step sched m rd c : paused rd c m -> reach sched m (fun n m' => n = 1%nat /\ CpuModel.mem m' = CpuModel.mem m).
Proof.
  intros [H1 H2 H3 H4 H5 H6 H7]. destruct m as [p a x y s cc z n mm s80 p2 hr kb nt cy lg tk]. cbn [pc ry rx net] in *. subst p.
  assert (L : ldd mm) by exact H2. clear H2.
  assert (CH : chip_is nt rd (0x6000 + c mod 8192) (rd mod 65536) (rd + 2048)) by (repeat split; auto; apply H3). clear H3 H5 H4 H6.
  wr_ins br_kbd. apply reach_here. split; reflexivity.
Qed.
Lemma pause_runs sched m rd c : paused rd c m ->
  reach sched m (fun n m' => (0 < n)%nat /\
    ((n = 2%nat /\ paused rd c m' /\ effect m m' 7 [] [] [] [] /\ same_switches m m' /\
      kbd m < 128 /\ e_key (sched 0%nat) = None /\ (e_key (sched 1%nat) <> None -> 128 <= kbd m') /\
      CpuModel.mem m' = CpuModel.mem m /\ log m' = log m /\ taken m' = taken m /\ (e_key (sched 1%nat) = None -> kbd m' < 128)) \/
     (resumed rd c 49 [14] m m' /\ (128 <= kbd m \/ e_key (sched 0%nat) <> None) /\ (no_keys (fun i => sched (S i)) (n - 1) -> kbd m' < 128)))).
Proof.
  intros [H1 H2 H3 H4 H5 H6 H7]. destruct m as [p a x y s cc z n mm s80 p2 hr kb nt cy lg tk]. cbn [pc ry rx net] in *. subst p.
  assert (L : ldd mm) by exact H2. clear H2.
  assert (CH : chip_is nt rd (0x6000 + c mod 8192) (rd mod 65536) (rd + 2048)) by (repeat split; auto; apply H3). clear H3 H5 H4 H6.
  match goal with |- reach _ ?m0 _ => set (start := m0) end.
  match goal with |- reach _ _ ?q => set (Q := q) end. unfold start.
  wr_ins br_kbd. destruct (Z.leb_spec 128 kb0) as [K|K].
  - im_ins. wr_ins br_strobe.
    match goal with |- reach ?sc ?m1 ?q => 
      destruct (resume_runs sc m1 rd c) as (n1 & m' & RN & N1 & RS); [reflexivity|exact L|apply CH|apply CH|apply CH|exact H7|apply CH|] end.
    exists n1, m'. split; [exact RN|]. split; [lia|]. right. destruct RS as [(S1 & S2 & S3 & S4 & S5) _].
    split; [|split; [clear - K KB; destruct KB as [[_ ->]|[X _]]; auto|]].
    2:{ intros NK. apply (proj2 (proj2 (run_log _ _ _ _ _ RN))); [apply strobe_small|]. intros i Hi. apply (NK (S (S i))). lia. }
    split; [exact S1|]. split; [exact S2|]. split; [|split; [exact S4|exact S5]].
    refine (effect_trans start _ m' 10 39 [] [4] [] [] [] [] [] _ _ S3).
    eapply effect_of with (got := []); cbn [cyc log start taken mem].
      * ifs. lia.
      * rewrite app_nil_r. reflexivity.
      * reflexivity.
      * reflexivity.
      * reflexivity.
      * constructor.
      * reflexivity.
      * rewrite app_nil_r. reflexivity.
  - im_ins. apply reach_here. split; [lia|]. left. split; [reflexivity|]. split; [|split; [|split; [|split; [|split; [|split; [|split; [reflexivity|split; [reflexivity|split; [reflexivity|]]]]]]]]].
    + destruct CH as (A1 & A2 & A3 & A4). constructor; cbn [pc net]; auto.
    + eapply effect_of with (got := []); cbn [cyc log start taken mem].
      * ifs. lia.
      * rewrite app_nil_r. reflexivity.
      * reflexivity.
      * reflexivity.
      * reflexivity.
      * constructor.
      * reflexivity.
      * rewrite app_nil_r. reflexivity.
    + repeat split.
    + cbn [kbd start]. clear - K KB. destruct KB as [[_ ->]|[_ X]]; lia.
    + clear - K KB. destruct KB as [[X _]|[_ X]]; [exact X|lia].
    + cbn [kbd]. clear - KB0. intros N. destruct KB0 as [[X _]|[_ X]]; [contradiction|lia].
    + cbn [kbd]. clear - K KB0. intros N. destruct KB0 as [[_ ->]|[X _]]; [exact K|contradiction].
Qed.

(** op_ack *)
Lemma rxrd_next nt : rxrd (next_ptr nt) = rxrd nt.
Proof. unfold next_ptr. destruct (wmode nt =? 3); reflexivity. Qed.
Definition acked (rd : Z) (m m' : machine) : Prop :=
  waiting (rd + 2048) (rd + 2048) m' /\
  effect m m' 73 [4; 38] [] [0xC000 + sb stream (rd + 2046)] [sb stream (rd + 2046); sb stream (rd + 2047)] /\
  sw80 m' = sw80 m /\ swpage2 m' = (sb stream (rd + 2046) =? 0x55) /\ swhires m' = swhires m /\ wr (net m) <= wr (net m').
Lemma chip_rxrd nt rd R W : chip_is nt rd 0x428 R W -> chip_peek nt = R / 256.
Proof. intros (H & HP & HR & _). unfold chip_peek. rewrite HP. cbn [in_rx Z.leb Z.ltb Z.compare Pos.compare Pos.compare_cont andb Z.eqb Pos.eqb]. rewrite HR. reflexivity. Qed.
Lemma poke_rxrd nt rd R W v : chip_is nt rd 0x428 R W -> chip_poke v nt = Some (set_rxrd (256 * v + R mod 256) nt).
Proof. intros (H & HP & HR & _). unfold chip_poke. rewrite HP. cbn [Z.leb Z.ltb Z.compare Pos.compare Pos.compare_cont andb Z.eqb Pos.eqb]. rewrite HR. reflexivity. Qed.
Lemma poke_recv nt rd R W : chip_is nt rd 0x401 R W ->
  chip_poke 0x40 nt = Some (Chip (wmode nt) (ptr nt) (regs nt) (status nt) (rxrd nt) (rxrd nt) (wr nt) (buf nt)).
Proof. intros (H & HP & HR & _). transitivity (chip_command 0x40 nt); [unfold chip_poke; rewrite HP; reflexivity|reflexivity]. Qed.
Lemma chip_set_rxrd nt rd P R W R' : chip_is nt rd P R W -> chip_is (set_rxrd R' nt) rd P R' W.
Proof. intros (H & HP & HR & HW). split; [destruct H; constructor; assumption|auto]. Qed.
Lemma chip_recv nt rd P W : chip_is nt rd P ((rd + 2048) mod 65536) W -> 0 <= rd -> rd + 2048 <= W ->
  chip_is (Chip (wmode nt) (ptr nt) (regs nt) (status nt) (rxrd nt) (rxrd nt) (wr nt) (buf nt)) (rd + 2048) P ((rd + 2048) mod 65536) W.
Proof.
  intros (H & HP & HR & HW) R0 HW'. split; [|auto]. destruct H. constructor; cbn [wmode status regs rxbase wr buf]; auto; try lia.
  intros j J. apply h_buf. lia.
Qed.
Lemma ack_runs sched m rd : pc m = 0xBA72 -> ready stream rd (rd + 2046) m -> rd mod 256 = 0 -> rd + 2048 <= wr (net m) ->
  sb stream (rd + 2046) = 0x54 \/ sb stream (rd + 2046) = 0x55 ->
  reach sched m (fun n m' => (0 < n)%nat /\ acked rd m m' /\ pend sched n (kbd m) (kbd m') /\
    Z.min (wr (net m) + offered sched n) (Z.min (Z.of_nat (length stream)) (rd + 8192)) <= wr (net m')).
Proof.
  intros H1 [H2 H3 H4 H5 H6 _] H7 H8 H9. destruct m as [p a x y s cc z n mm s80 p2 hr kb nt cy lg tk]. cbn [pc ry rx net] in *. subst p.
  assert (L : ldd mm) by exact H2. clear H2. pose proof (h_pos _ _ _ H3) as R0.
  assert (CH : chip_is nt rd (0x6000 + (rd + 2046) mod 8192) (rd mod 65536) (wr nt)) by (repeat split; auto; try apply H3; apply Z.le_refl). clear H3 H4 H6.
  match goal with |- reach _ ?m0 _ => set (start := m0) end.
  match goal with |- reach _ _ ?q => set (Q := q) end. unfold start.
  wr_ins bw_click.
  plain_ins. { unf. rewrite br_data. reflexivity. } tidy.
  destruct (peek_rx _ _ _ _ _ CH) as [E1 E2]; [lia|]. rewrite E1, E2. clear E1 E2.
  name_chip ch1 (0x6000 + (rd + 2046 + 1) mod 8192). { apply chip_next_stream; [exact CH|lia]. }
  plain_ins. { unf. rewrite bw_cell by lia. reflexivity. } tidy.
  match goal with |- reach _ (M _ _ _ _ _ _ _ _ ?mm' _ _ _ _ _ _ _ _) _ => assert (L1 : ldd mm'); [|assert (CELL : mm' false 0xBA7C = sb stream (rd + 2046)) by reflexivity] end.
  { exact (ldd_celllo mm _ _ 0xBA7B _ L switch_in). }
  match goal with |- reach ?sc (M ?p ?a ?x ?y ?s ?c ?z ?n ?mm ?s80 ?p2 ?hr ?kb ?nt ?cy ?lg ?tk) _ =>
    edestruct (step_switch (sc O) a x y s c z n mm s80 p2 hr kb nt cy lg tk) as (ntl & kbl & h & WML & KBL & E); [exact L1|exact CH|rewrite CELL; exact H9|] end.
  eapply reach_step; [exact E|]. clear E CH. rename h into CH. rewrite CELL.
  plain_ins. { unf. rewrite br_data. reflexivity. } tidy.
  destruct (peek_rx _ _ _ _ _ CH) as [E1 E2]; [lia|]. rewrite E1, E2. clear E1 E2.
  name_chip ch2 (0x6000 + (rd + 2048) mod 8192). { replace (rd + 2048) with (rd + 2046 + 1 + 1) by lia. replace (rd + 2046 + 1 + 1) with (rd + 2048) at 2 by lia. apply chip_next_stream; [exact CH|lia]. }
  wr_ins br_adrh. 
  pose proof (proj1 (proj2 CH)) as PT. rewrite PT. 
  im_ins.
  wr_ins bw_adrh. name_chip ch3 (256 * 4 + (0x6000 + (rd + 2048) mod 8192) mod 256). { hyp_chip ltac:(fun H => apply (chip_adrh _ _ _ _ _ _ _ H)). reflexivity. }
  im_ins. im_ins. wr_ins bw_click.
  wr_ins bw_adrl. name_chip ch4 0x428. { hyp_chip ltac:(fun H => apply (chip_adrl _ _ _ _ _ _ _ H)). clear - H7. dlia. }
  plain_ins. { unf. rewrite br_data. reflexivity. } tidy.
  match goal with |- context [in_rx (ptr ?n)] => rewrite (not_rx n 0x428) by (reflexivity || apply CH) end. rewrite (chip_rxrd _ _ _ _ CH).
  name_chip ch5 0x429. { hyp_chip ltac:(fun H => apply (chip_inc _ _ _ _ _ _ H)); lia. }
  im_ins.
  wr_ins bw_adrl. name_chip ch6 0x428. { hyp_chip ltac:(fun H => apply (chip_adrl _ _ _ _ _ _ _ H)). reflexivity. }
  plain_ins. { unf. erewrite bw_data; [reflexivity|]. apply (poke_rxrd _ _ _ _ _ CH). } tidy.
  match goal with CH0 : chip_is ?old _ _ _ _ |- reach _ (M _ _ _ _ _ _ _ _ _ _ _ _ _ ?nt' _ _ _) _ => assert (WR1 : wr nt' = wr old) by (rewrite wr_next; reflexivity) end.
  match goal with |- reach _ (M _ _ _ _ _ _ _ _ _ _ _ _ _ ?nt' _ _ _) _ =>
    assert (CH' : chip_is nt' rd 0x429 ((rd + 2048) mod 65536) (wr nt)); [|clear CH; rename CH' into CH; generalize dependent nt'; intros ch7 WR1 CH] end.
  { apply (chip_inc _ _ 0x428); [|lia|lia]. replace (256 * _ + _) with ((rd + 2048) mod 65536) by (clear - R0 H7; cbn [b2z]; dlia). apply (chip_set_rxrd _ _ _ _ _ _ CH). }
  im_ins.
  wr_ins bw_adrl. name_chip ch8 0x401. { hyp_chip ltac:(fun H => apply (chip_adrl _ _ _ _ _ _ _ H)). reflexivity. }
  im_ins.
  plain_ins. { unf. erewrite bw_data; [reflexivity|]. apply (poke_recv _ _ _ _ CH). } tidy.
  match goal with CH0 : chip_is ?old _ _ _ _ |- reach _ (M _ _ _ _ _ _ _ _ _ _ _ _ _ ?nt' _ _ _) _ => assert (WR2 : wr nt' = wr old) by (rewrite wr_next; reflexivity) end.
  match goal with |- reach _ (M _ _ _ _ _ _ _ _ _ _ _ _ _ ?nt' _ _ _) _ =>
    assert (CH' : chip_is nt' (rd + 2048) 0x402 ((rd + 2048) mod 65536) (wr nt)); [|clear CH; rename CH' into CH; generalize dependent nt'; intros ch9 WR2 CH] end.
  { apply (chip_inc _ _ 0x401); [|lia|lia]. apply (chip_recv _ _ _ _ CH R0 H8). }
  im_ins. im_ins. apply reach_here. split; [lia|].
  assert (G : grows rd (map sched (seq 0 22)) nt nt20).
  { cbn [map seq]. repeat first [apply grows_nil; reflexivity|eapply grows_cons; [first [eassumption|eapply heard_later; [eassumption|clear; lia]]|]|eapply grows_eq; [symmetry; eassumption|]]. }
  split; [|split; [cbn [kbd start]; pends|exact (proj2 G)]]. unfold acked.
  split; [|split; [|split; [reflexivity|split; [reflexivity|split; [reflexivity|cbn [net start]; apply CH]]]]].
  - destruct CH as (A1 & A2 & A3 & A4). constructor; cbn [pc net rx ry]; auto; [rewrite A2; reflexivity|clear - H7; dlia|lia|lia].
  - replace (rd + 2047) with (rd + 2046 + 1) by lia.
    eapply effect_of; cbn [cyc log start taken mem].
    + lia.
    + rewrite <- !app_assoc. cbn [app]. reflexivity.
    + clear - H9. set (v := sb stream (rd + 2046)) in *. clearbody v. destruct H9 as [-> | ->]; numerals; unfold clicks; cbn [filter w_addr map w_time Z.eqb Pos.eqb]; (f_equal; f_equal; lia).
    + clear - H9. set (v := sb stream (rd + 2046)) in *. clearbody v. destruct H9 as [-> | ->]; reflexivity.
    + clear - H9. set (v := sb stream (rd + 2046)) in *. clearbody v. destruct H9 as [-> | ->]; reflexivity.
    + is_allowed.
    + clear - H9. destruct H9 as [E|E]; rewrite !E; reflexivity.
    + rewrite <- !app_assoc. reflexivity.
Qed.

End Recv.

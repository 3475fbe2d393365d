(** Execution from the wait for the header to the first receive check. *)
From Verif Require Import Base BaseFacts OpcodeModel AsmModel PlayerCode CpuModel PlayerModel PlayerSpec PlayerExec ChipProofs TickExec RecvCode EffectProofs TickThms RunProofs RecvProofs BitmapModel PlaybackSpec LayoutProofs StartupCode.
Opaque lowcode code hgr resident startup symbols code_map boot_map.

(** startup code in memory *)
Definition sldd (mm : bool -> Z -> Z) : Prop :=
  forall a s bytes i b, In (a, s) startup -> encode symbols a s = Some bytes -> nth_error bytes i = Some (true, b) -> mm false (a + Z.of_nat i) = b.
Lemma ldd_other mm mm' : (forall a, 0x800 <= a < 0x1FFE \/ 0x4000 <= a < 0xBACB -> mm' false a = mm false a) -> ldd mm -> ldd mm'.
Proof. intros E L a s bytes i b H EN N. rewrite E; [exact (L _ _ _ _ _ H EN N)|]. exact (proj2 (code_range _ _ _ _ _ H EN N)). Qed.

Section Bus2.
Variables (p a x y s : Z) (c z n : bool) (mm : bool -> Z -> Z) (s80 p2 hr : bool) (kb : Z) (nt : chip) (cy : Z) (lg : list wrt) (tk : list Z).
Notation mach := (M p a x y s c z n mm s80 p2 hr kb nt cy lg tk).
Lemma bank_low ad m : ad < 0x400 -> bank m ad = false.
Proof. intros H. unfold bank. destruct (Z.leb_spec 0x400 ad) as [|_]; [lia|]. destruct (Z.leb_spec 0x2000 ad) as [|_]; [lia|]. rewrite !andb_false_r. reflexivity. Qed.
Lemma bw_low ad v : ad < 0x400 -> bus_write ad v mach =
  Some (M p a x y s c z n (write1 (Wrt cy ad v false) mm) s80 p2 hr kb nt cy (lg ++ [Wrt cy ad v false]) tk).
Proof. intros H. unfold bus_write. rewrite bank_low by lia. destruct (Z.leb_spec 0xC000 ad); [lia|]. reflexivity. Qed.
Lemma bw_hires v : bus_write 0xC057 v mach = Some (M p a x y s c z n mm s80 p2 true kb nt cy (lg ++ [Wrt cy 0xC057 v false]) tk).
Proof. rewrite bw_io by lia. reflexivity. Qed.
Lemma bw_80store v : bus_write 0xC001 v mach = Some (M p a x y s c z n mm true p2 hr kb nt cy (lg ++ [Wrt cy 0xC001 v false]) tk).
Proof. rewrite bw_io by lia. reflexivity. Qed.
Lemma bw_page2 v : bus_write 0xC055 v mach = Some (M p a x y s c z n mm s80 true hr kb nt cy (lg ++ [Wrt cy 0xC055 v false]) tk).
Proof. rewrite bw_io by lia. reflexivity. Qed.
Lemma bw_page1 v : bus_write 0xC054 v mach = Some (M p a x y s c z n mm s80 false hr kb nt cy (lg ++ [Wrt cy 0xC054 v false]) tk).
Proof. rewrite bw_io by lia. reflexivity. Qed.
(** switches outside of the model's state *)
Lemma bw_plain ad v : ad = 0xC052 \/ ad = 0xC050 \/ ad = 0xC00D \/ ad = 0xC05E -> bus_write ad v mach = Some (M p a x y s c z n mm s80 p2 hr kb nt cy (lg ++ [Wrt cy ad v false]) tk).
Proof. intros [-> |[-> |[-> | ->]]]; rewrite bw_io by lia; reflexivity. Qed.
End Bus2.

Fixpoint index_of (p : Z) (l : list (Z * entry)) : nat := match l with [] => O | (a, _) :: l' => if a =? p then O else S (index_of p l') end.
Section Startup.
Variable stream : list Z.
Local Notation reach := (reach stream).
Local Notation chip_is := (chip_is stream).

(** One instruction of the startup code. *)
Lemma step_boot e p a x y s c z n mm s80 hr kb nt cy lg tk rd P R W i md v :
  In (p, (i, md, Some v)) boot -> sldd mm -> chip_is nt rd P R W ->
  exists nt' kb', chip_is nt' rd P R W /\ heard stream rd e nt nt' /\ keyed e kb kb' /\
    step stream e (M p a x y s c z n mm s80 false hr kb nt cy lg tk) =
    exec_ins i md v (M (p + mode_length md) a x y s c z n mm s80 false hr kb' nt'
                       (cy + cycles i md v (M p a x y s c z n mm s80 false hr kb' nt' cy lg tk)) lg tk).
Proof.
  intros IN L (H & HP & HR & HW). set (m := M p a x y s c z n mm s80 false hr kb nt cy lg tk).
  destruct (before_held stream e m rd H) as (B1 & B2 & B3 & B4 & B5 & _). destruct (before_heard stream e m rd H) as [B6 B7].
  exists (net (before stream e m)), (kbd (before stream e m)).
  cbn [net m] in B2. split; [split; [exact B1|split; [rewrite B3; exact HP|split; [rewrite B4; exact HR|lia]]]|].
  split; [exact B6|]. split; [exact B7|].
  unfold step. rewrite B5 at 1.
  exact (exec_boot (with_kbd (kbd (before stream e m)) (with_net (net (before stream e m)) m)) i md v L eq_refl IN).
Qed.

Ltac in_listing := unfold listing; repeat (first [left; reflexivity|right]).
Ltac ifs := repeat match goal with |- context [if ?b then _ else _] => let r := eval vm_compute in b in change b with r; cbv iota end.
Ltac in_boot := match goal with |- In (?p, _) _ => let k := eval vm_compute in (index_of p boot) in apply (nth_error_In boot k); reflexivity end.
Ltac numerals := repeat match goal with
  | |- context [Zpos ?a + Zpos ?b] => let r := eval vm_compute in (Zpos a + Zpos b) in change (Zpos a + Zpos b) with r
  | |- context [Zpos ?a + Zneg ?b] => let r := eval vm_compute in (Zpos a + Zneg b) in change (Zpos a + Zneg b) with r
  end.
Ltac ins nt' kb' KB WM :=
  match goal with L : ldd ?mm, Hh : chip_is ?nt _ _ _ _ |- reach ?sc (M ?p ?a ?x ?y ?s ?c ?z ?n ?mm ?s80 ?p2 ?hr ?kb ?nt ?cy ?lg ?tk) _ =>
    let h := fresh "CH" in let E := fresh "E" in
    edestruct (step_listed stream (sc O) p a x y s c z n mm s80 p2 hr kb nt cy lg tk) as (nt' & kb' & h & WM & KB & E);
      [in_listing|exact L|exact Hh|]; clear Hh; rename h into CH;
    eapply reach_step; [etransitivity; [exact E|]; clear E|clear E]
  end.
Ltac bins nt' kb' KB WM :=
  match goal with L : sldd ?mm, Hh : chip_is ?nt _ _ _ _ |- reach ?sc (M ?p ?a ?x ?y ?s ?c ?z ?n ?mm ?s80 false ?hr ?kb ?nt ?cy ?lg ?tk) _ =>
    let h := fresh "CH" in let E := fresh "E" in
    edestruct (step_boot (sc O) p a x y s c z n mm s80 hr kb nt cy lg tk) as (nt' & kb' & h & WM & KB & E);
      [in_boot|exact L|exact Hh|]; clear Hh; rename h into CH;
    eapply reach_step; [etransitivity; [exact E|]; clear E|clear E]
  end.
Ltac unf := cbv beta iota delta [exec_ins load alu ea nz branch with_net with_kbd with_switches with_pc with_cyc with_regs with_flags with_mem with_taken
   cycles mode_length pc ra rx ry rs fc fz fn mem sw80 swpage2 swhires kbd net cyc log taken negb].
Ltac plain_ins := let nt := fresh "nt" in let kb := fresh "kb" in let KB := fresh "KB" in let WM := fresh "WM" in ins nt kb KB WM.
Ltac plain_bins := let nt := fresh "nt" in let kb := fresh "kb" in let KB := fresh "KB" in let WM := fresh "WM" in bins nt kb KB WM.
Ltac tidy := unf; numerals.
Ltac wr_ins L := plain_ins; [unf; rewrite L; reflexivity|tidy].
Ltac im_ins := plain_ins; [unf; reflexivity|tidy].
Ltac wr_bins L := plain_bins; [unf; rewrite L; reflexivity|tidy].
Ltac im_bins := plain_bins; [unf; reflexivity|tidy].
Ltac hyp_chip k := match goal with H : chip_is ?nt _ _ _ _ |- chip_is (_ ?nt) _ _ _ _ => k H | H : chip_is ?nt _ _ _ _ |- chip_is (_ _ ?nt) _ _ _ _ => k H end.
Ltac name_chip ch P :=
  match goal with Hh : chip_is _ ?rd _ ?R ?W |- reach _ (M _ _ _ _ _ _ _ _ _ _ _ _ _ ?nt _ _ _) _ =>
    let h := fresh "CH" in let e := fresh "WE" in
    assert (h : chip_is nt rd P R W);
      [|clear Hh;
        match nt with
        | set_ptr ?p ?i => pose proof (eq_refl (wr i) : wr (set_ptr p i) = wr i) as e
        | next_ptr ?i => pose proof (wr_next i) as e
        end; generalize dependent nt; intros ch CH e]
  end.

(** A call of HGR0 clears the selected bank of the hi-res page and returns. *)
Definition cleared (mm mm' : bool -> Z -> Z) (b : bool) : Prop :=
  (forall a, 0x2000 <= a < 0x4000 -> mm' b a = 0) /\
  (forall a, 0x2000 <= a < 0x4000 -> mm' (negb b) a = mm (negb b) a) /\
  (ldd mm -> ldd mm') /\ (forall b' a, 0x200 <= a -> ~ (0x2000 <= a < 0x4000) -> mm' b' a = mm b' a).
Lemma step_clear e p a x y s c z n mm s80 p2 kb nt cy lg tk rd P R W r :
  chip_is nt rd P R W -> p = 0xF3F2 -> mm false 0xE6 = 0x20 -> 0 <= s < 256 ->
  mm false (0x100 + (s - 1) mod 256) = r mod 256 -> mm false (0x100 + s) = r / 256 ->
  exists nt' kb' mm', chip_is nt' rd P R W /\ heard stream rd e nt nt' /\ keyed e kb kb' /\ cleared mm mm' (s80 && p2) /\
    step stream e (M p a x y ((s - 2) mod 256) c z n mm s80 p2 true kb nt cy lg tk) = Some (M (r + 1) 0 x 0 s c true false mm' s80 p2 true kb' nt' cy lg tk).
Proof.
  intros (H & HP & HR & HW) -> E6 S0 LO HI. set (m := M 0xF3F2 a x y ((s - 2) mod 256) c z n mm s80 p2 true kb nt cy lg tk).
  destruct (before_held stream e m rd H) as (B1 & B2 & B3 & B4 & B5 & _). destruct (before_heard stream e m rd H) as [B6 B7].
  exists (net (before stream e m)), (kbd (before stream e m)).
  set (b := s80 && p2).
  exists (fun b' a => if Bool.eqb b' b && ((0x2000 <=? a) && (a <? 0x4000)) then 0
                      else if negb b' && (a =? 0x1A) then 0 else if negb b' && (a =? 0x1B) then 0x40
                      else if negb b' && (a =? 0x1C) then 0 else mm b' a).
  cbn [net m] in B2. split; [split; [exact B1|split; [rewrite B3; exact HP|split; [rewrite B4; exact HR|lia]]]|].
  split; [exact B6|]. split; [exact B7|]. split.
  - split; [|split; [|split]].
    + intros a' A. rewrite Bool.eqb_reflx. destruct (Z.leb_spec 0x2000 a'); [|lia]. destruct (Z.ltb_spec a' 0x4000); [|lia]. reflexivity.
    + intros a' A. replace (Bool.eqb (negb b) b) with false by (destruct b; reflexivity). cbn [andb].
      destruct (Z.eqb_spec a' 0x1A); [lia|]. destruct (Z.eqb_spec a' 0x1B); [lia|]. destruct (Z.eqb_spec a' 0x1C); [lia|]. rewrite !andb_false_r. reflexivity.
    + apply ldd_other. intros a' A. destruct (Z.leb_spec 0x2000 a'), (Z.ltb_spec a' 0x4000); try lia; rewrite ?andb_false_r;
        (destruct (Z.eqb_spec a' 0x1A); [lia|]; destruct (Z.eqb_spec a' 0x1B); [lia|]; destruct (Z.eqb_spec a' 0x1C); [lia|]; rewrite ?andb_false_r; reflexivity).
    + intros b' a' A A'. destruct (Z.leb_spec 0x2000 a'), (Z.ltb_spec a' 0x4000); try lia; rewrite ?andb_false_r;
        (destruct (Z.eqb_spec a' 0x1A); [lia|]; destruct (Z.eqb_spec a' 0x1B); [lia|]; destruct (Z.eqb_spec a' 0x1C); [lia|]; rewrite ?andb_false_r; reflexivity).
  - unfold step. rewrite B5 at 1. generalize (net (before stream e m)) (kbd (before stream e m)). intros ch k.
    change (with_kbd k (with_net ch m)) with (M 0xF3F2 a x y ((s - 2) mod 256) c z n mm s80 p2 true k ch cy lg tk).
    assert (BK : bank (M 0xF3F2 a x y ((s - 2) mod 256) c z n mm s80 p2 true k ch cy lg tk) 0x2000 = b).
    { unfold bank. cbn [sw80 swpage2 swhires Z.leb Z.ltb Z.compare Pos.compare Pos.compare_cont andb orb]. rewrite andb_true_r. reflexivity. }
    unfold exec. cbn [pc Z.eqb Pos.eqb]. unfold rom_clear. cbn [mem]. rewrite E6, BK. cbn [Z.eqb Pos.eqb].
    assert (ST : forall j, 0 <= j < 256 -> (if Bool.eqb false b && ((0x2000 <=? 0x100 + j) && (0x100 + j <? 0x4000)) then 0
      else if negb false && (0x100 + j =? 0x1A) then 0 else if negb false && (0x100 + j =? 0x1B) then 0x40
      else if negb false && (0x100 + j =? 0x1C) then 0 else mm false (0x100 + j)) = mm false (0x100 + j)).
    { intros j J. destruct (Z.leb_spec 0x2000 (0x100 + j)); [lia|]. rewrite !andb_false_r.
      destruct (Z.eqb_spec (0x100 + j) 0x1A); [lia|]. destruct (Z.eqb_spec (0x100 + j) 0x1B); [lia|]. destruct (Z.eqb_spec (0x100 + j) 0x1C); [lia|]. reflexivity. }
    unfold rts. unf. cbn [pc ra rx ry rs fc fz fn mem sw80 swpage2 swhires kbd net cyc log taken].
    replace (((s - 2) mod 256 + 1) mod 256) with ((s - 1) mod 256) by (clear; dlia).
    replace (((s - 2) mod 256 + 2) mod 256) with s by (clear - S0; dlia).
    rewrite !ST by (clear - S0; dlia). rewrite LO, HI. cbn [Z.eqb Z.leb Z.compare].
    replace (r mod 256 + 256 * (r / 256) + 1) with (r + 1) by (clear; dlia). reflexivity.
Qed.

Lemma jsr v p a x y s c z n mm s80 p2 hr kb nt cy lg tk : 0 <= s < 256 ->
  exec_ins iJSR mAbs v (M p a x y s c z n mm s80 p2 hr kb nt cy lg tk) =
  Some (M v a x y ((s - 2) mod 256) c z n (write1 (Wrt cy (0x100 + (s - 1) mod 256) ((p - 1) mod 256) false) (write1 (Wrt cy (0x100 + s) ((p - 1) / 256) false) mm))
    s80 p2 hr kb nt cy ((lg ++ [Wrt cy (0x100 + s) ((p - 1) / 256) false]) ++ [Wrt cy (0x100 + (s - 1) mod 256) ((p - 1) mod 256) false]) tk).
Proof.
  intros S0. cbn [exec_ins pc]. unfold push. cbn [rs]. rewrite bw_low by lia. cbn [rs ra rx ry]. cbv beta iota delta [with_regs ra rx ry rs pc fc fz fn mem sw80 swpage2 swhires kbd net cyc log taken].
  pose proof (Z.mod_pos_bound (s - 1) 256 eq_refl) as MB. rewrite bw_low by (clear - MB; lia). cbv beta iota delta [with_pc ra rx ry rs pc fc fz fn mem sw80 swpage2 swhires kbd net cyc log taken].
  replace (((s - 1) mod 256 - 1) mod 256) with ((s - 2) mod 256) by (clear; dlia). reflexivity.
Qed.
Lemma write_at w mm : w_aux w = false -> w_addr w < 0xC000 -> write1 w mm false (w_addr w) = w_val w.
Proof. intros A B. unfold write1. destruct (Z.ltb_spec (w_addr w) 0xC000); [|lia]. rewrite A. cbn [Bool.eqb]. unfold upd1. rewrite Z.eqb_refl. reflexivity. Qed.
Lemma write_off w mm b a : a <> w_addr w -> write1 w mm b a = mm b a.
Proof. intros N. unfold write1. destruct (_ <? _); [|reflexivity]. destruct (Bool.eqb b _); [|reflexivity]. unfold upd1. destruct (Z.eqb_spec a (w_addr w)); [contradiction|reflexivity]. Qed.

Ltac pends := repeat first [apply pend_nil|eapply pend_step; [eassumption|]|eapply (pend_trans _ 3); [eassumption|]].
(** where the startup code writes *)
Definition begun (k : kind) (m m' : machine) : Prop :=
  waiting stream 0 7 m' /\ swpage2 m' = false /\ (k = DHGR -> sw80 m' = true /\ swhires m' = true) /\
  (forall a, 0x2000 <= a < 0x4000 -> mem m' false a = 0 /\ (k = DHGR -> mem m' true a = 0)) /\
  (exists new, log m' = log m ++ new /\ clicks new = [] /\ stores new = [] /\ Forall start_write new) /\
  taken m' = taken m ++ first_bytes stream 7 /\ 256 <= wr (net m').

Lemma wait_header sched m : connected stream m ->
  reach sched m (fun n m' => (0 < n)%nat /\
    ((connected stream m' /\ wr (net m) < 256 /\ wr (net m) <= wr (net m') /\
      (forall i, (i < n)%nat -> (0 < e_bytes (sched i))%nat -> wr (net m) < Z.of_nat (length stream) -> wr (net m) < wr (net m')) /\
      (exists new, log m' = log m ++ new /\ clicks new = [] /\ stores new = [] /\ Forall start_write new) /\ taken m' = taken m /\ pend sched n (kbd m) (kbd m')) \/
     (pc m' = 0x215B /\ loaded resident m' /\ loaded startup m' /\ held stream (net m') 0 /\ ptr (net m') / 256 = 4 /\ rxrd (net m') = 0 /\
      swpage2 m' = false /\ 0 <= rs m' < 256 /\ 256 <= wr (net m') /\ wr (net m) <= wr (net m') /\
      (exists new, log m' = log m ++ new /\ clicks new = [] /\ stores new = [] /\ Forall start_write new) /\ taken m' = taken m /\ pend sched n (kbd m) (kbd m')))).
Proof.
  intros [H1 H2 H3 H4 H5 H6 H7 H8]. rewrite (proj1 boot_labels) in H1. injection H1 as H1. symmetry in H1.
  destruct m as [p a x y s cc z n mm s80 p2 hr kb nt cy lg tk]. cbn [pc net rs swpage2] in *. subst p p2.
  assert (L : sldd mm) by exact H3. clear H3.
  assert (CH : chip_is nt 0 (ptr nt) 0 (wr nt)) by (repeat split; auto; try apply H4; apply Z.le_refl).
  pose proof (h_wr _ _ _ H4) as H9. clear H4 H6.
  match goal with |- reach _ ?m0 _ => set (start := m0) end.
  match goal with |- reach _ _ ?q => set (Q := q) end. unfold start.
  im_bins. wr_bins bw_adrl.
  name_chip ch1 0x426. { hyp_chip ltac:(fun H => apply (chip_adrl stream _ _ _ _ _ _ _ H)). rewrite H5. reflexivity. }
  plain_bins. { unf. rewrite br_data. reflexivity. } tidy.
  rewrite (not_rx nt2 0x426) by (reflexivity || apply CH). rewrite (chip_count _ _ _ _ _ CH). rewrite Z.sub_0_r.
  name_chip ch2 0x427. { hyp_chip ltac:(fun H => apply (chip_inc stream _ _ _ _ _ _ H)); lia. }
  im_bins.
  destruct (Z.leb_spec 1 (wr nt2 / 256)) as [K|K].
  - im_bins. apply reach_here. split; [lia|]. right. pose proof CH as (A1 & A2 & A3 & A4).
    assert (K' : 256 <= wr nt4) by (clear - K WM2 WM3 WE0; unfold heard in *; dlia).
    cbn [pc mem net swpage2 rs log taken start]. split; [reflexivity|]. split; [exact H2|]. split; [exact L|]. split; [exact A1|]. split; [rewrite A2; reflexivity|].
    split; [exact A3|]. split; [reflexivity|]. split; [exact H8|]. split; [exact K'|]. split; [exact A4|]. split; [|split; [reflexivity|cbn [kbd]; pends]].
    eexists. split; [rewrite <- ?app_assoc; cbn [app]; reflexivity|]. split; [reflexivity|]. split; [reflexivity|].
    repeat (apply Forall_cons || apply Forall_nil); unfold start_write; cbn [w_addr]; lia.
  - assert (K' : wr nt2 < 256) by (clear - K; dlia).
    im_bins. im_bins. im_bins. im_bins. apply reach_here. split; [lia|]. left. pose proof CH as (A1 & A2 & A3 & A4).
    cbn [net start]. split; [|split; [|split; [exact A4|split; [|split; [|split; [reflexivity|cbn [kbd]; pends]]]]]].
    + constructor; cbn [pc net swpage2 rs]; [exact (proj1 boot_labels)|exact H2|exact L|exact A1|rewrite A2; reflexivity|exact A3|reflexivity|exact H8].
    + clear - K' WM WM0 WM1 WE. unfold heard in *. lia.
    + intros i Hi Hb HL.
      assert (G : grows stream 0 (map sched (seq 0 8)) nt nt7).
      { cbn [seq map]. eapply grows_cons; [exact WM|]. eapply grows_cons; [exact WM0|]. eapply grows_eq; [symmetry; exact WE|]. eapply grows_cons; [exact WM1|].
        eapply grows_eq; [symmetry; exact WE0|]. eapply grows_cons; [exact WM2|]. eapply grows_cons; [exact WM3|]. eapply grows_cons; [exact WM4|].
        eapply grows_cons; [exact WM5|]. eapply grows_cons; [exact WM6|]. apply grows_nil. reflexivity. }
      assert (wr nt < 256) by (clear - K' WM WM0 WM1 WE; unfold heard in *; lia).
      apply (grows_any _ _ _ _ _ G (sched i)); auto; [apply in_map, in_seq; lia|lia].
    + cbn [log]. eexists. split; [rewrite <- ?app_assoc; cbn [app]; reflexivity|]. split; [reflexivity|]. split; [reflexivity|].
      repeat (apply Forall_cons || apply Forall_nil); unfold start_write; cbn [w_addr]; lia.
Qed.

Lemma first7 : 7 <= Z.of_nat (length stream) -> first_bytes stream 7 = map (sb stream) [0; 1; 2; 3; 4; 5; 6].
Proof.
  intros H. unfold first_bytes, sb. destruct stream as [|b0 [|b1 [|b2 [|b3 [|b4 [|b5 [|b6 l]]]]]]]; cbn [length] in H; try lia. reflexivity.
Qed.
(** storing the page in 0xE6, and a JSR to HGR0 *)
Lemma call_clear sched q x y s c z n mm s80 p2 kb nt cy lg tk rd P R W (Q : nat -> machine -> Prop) :
  q = 0x4008 \/ q = 0x401A -> ldd mm -> chip_is nt rd P R W -> 0 <= s < 256 ->
  (forall mm' nt' kb' new, cleared mm mm' (s80 && p2) -> ldd mm' -> chip_is nt' rd P R W -> Forall start_write new -> clicks new = [] -> stores new = [] -> pend sched 3 kb kb' ->
    reach (fun i => sched (3 + i)%nat) (M (q + 5) 0 x 0 s c true false mm' s80 p2 true kb' nt' (cy + 9) (lg ++ new) tk) (fun n => Q (3 + n)%nat)) ->
  reach sched (M q 0x20 x y s c z n mm s80 p2 true kb nt cy lg tk) Q.
Proof.
  intros HQ L CH S0 K.
  edestruct (step_listed stream (sched 0%nat) q 0x20 x y s c z n mm s80 p2 true kb nt cy lg tk rd P R W iSTA mZp 0xE6) as (nt1 & kb1 & h & _ & KB1 & E1);
    [destruct HQ as [-> | ->]; in_listing|exact L|exact CH|]. clear CH. rename h into CH.
  cbn [exec_ins ea mode_length cycles ra] in E1. rewrite bw_low in E1 by lia.
  set (mm1 := write1 _ mm) in E1. assert (L1 : ldd mm1) by (apply (ldd_other mm); [intros ad AD; apply write_off; cbn [w_addr]; lia|exact L]).
  eapply reach_step; [exact E1|]. clear E1.
  match goal with |- reach ?sc (M ?p ?a ?x ?y ?s ?c ?z ?n ?mm ?s80 ?p2 ?hr ?kb ?nt ?cy ?lg ?tk) _ =>
    edestruct (step_listed stream (sc 0%nat) p a x y s c z n mm s80 p2 hr kb nt cy lg tk rd P R W iJSR mAbs 0xF3F2) as (nt2 & kb2 & h & _ & KB2 & E2);
    [destruct HQ as [-> | ->]; in_listing|exact L1|exact CH|] end. clear CH. rename h into CH.
  rewrite jsr in E2 by exact S0. cbn [mode_length cycles] in E2. replace (q + 2 + 3 - 1) with (q + 4) in E2 by lia.
  match type of E2 with _ = Some (M _ _ _ _ _ _ _ _ ?m2 _ _ _ _ _ _ _ _) => set (mm2 := m2) in E2 end.
  assert (L2 : ldd mm2) by (apply (ldd_other mm1); [intros ad AD; unfold mm2; rewrite !write_off; [reflexivity| |]; cbn [w_addr]; [lia|pose proof (Z.mod_pos_bound (s - 1) 256 eq_refl); lia]|exact L1]).
  assert (MB : 0 <= (s - 1) mod 256 < 256) by (apply Z.mod_pos_bound; reflexivity). assert (NE : (s - 1) mod 256 <> s) by (clear - S0; dlia).
  eapply reach_step; [exact E2|]. clear E2.
  match goal with |- reach ?sc (M ?p ?a ?x ?y _ ?c ?z ?n ?mm ?s80 ?p2 ?hr ?kb ?nt ?cy ?lg ?tk) _ =>
    edestruct (step_clear (sc 0%nat) p a x y s c z n mm s80 p2 kb nt cy lg tk rd P R W (q + 4)) as (nt3 & kb3 & mm3 & h & _ & KB3 & CL & E3);
    [exact CH|reflexivity| |exact S0| | |] end.
  - unfold mm2. rewrite !write_off by (cbn [w_addr]; lia). unfold mm1. apply (write_at (Wrt _ 0xE6 0x20 false)); cbn [w_aux w_addr]; [reflexivity|lia].
  - unfold mm2. apply (write_at (Wrt _ (0x100 + (s - 1) mod 256) _ false)); cbn [w_aux w_addr]; [reflexivity|lia].
  - unfold mm2. rewrite write_off by (cbn [w_addr]; lia). apply (write_at (Wrt _ (0x100 + s) _ false)); cbn [w_aux w_addr]; [reflexivity|lia].
  - eapply reach_step; [exact E3|]. clear E3. replace (q + 4 + 1) with (q + 5) by lia. replace (cy + 3 + 6) with (cy + 9) by lia.
    rewrite <- !app_assoc. cbn [app]. apply K.
    + destruct CL as (C1 & C2 & C3 & C4). assert (SM : forall b a, 0x200 <= a -> mm2 b a = mm b a).
      { intros b a A. unfold mm2. rewrite !write_off by (cbn [w_addr]; lia). unfold mm1. apply write_off. cbn [w_addr]. lia. }
      split; [exact C1|]. split; [intros a A; rewrite C2, SM by lia; reflexivity|]. split; [intros _; exact (C3 L2)|]. intros b a A B. rewrite C4, SM by assumption. reflexivity.
    + apply CL, L2.
    + exact h.
    + repeat (apply Forall_cons || apply Forall_nil); unfold start_write; cbn [w_addr]; lia.
    + unfold clicks. cbn [filter w_addr]. destruct (Z.eqb_spec (0x100 + s) 0xC030); [lia|]. destruct (Z.eqb_spec (0x100 + (s - 1) mod 256) 0xC030); [lia|]. reflexivity.
    + unfold stores, screen_write. cbn [filter w_addr]. destruct (Z.leb_spec 0x2000 (0x100 + s)); [lia|]. destruct (Z.leb_spec 0x2000 (0x100 + (s - 1) mod 256)); [lia|]. reflexivity.
    + pends.
Qed.
Ltac rx_byte q :=
  plain_bins; [unf; rewrite br_data; reflexivity|tidy];
  match goal with CH : chip_is _ _ _ _ _ |- _ => destruct (peek_rx _ _ _ _ _ _ CH ltac:(lia)) as [E1 E2]; rewrite E1, E2; clear E1 E2 end;
  let ch := fresh "ch" in name_chip ch (0x6000 + q mod 8192); [match goal with |- chip_is _ _ (0x6000 + ?z mod 8192) _ _ => change z with (z - 1 + 1) end; apply chip_next_stream; [match goal with H : chip_is ?n _ _ _ _ |- chip_is ?n _ _ _ _ => exact H end|lia]|].

Lemma header_runs sched m k : pc m = 0x215B -> loaded resident m -> loaded startup m -> held stream (net m) 0 -> ptr (net m) / 256 = 4 -> rxrd (net m) = 0 ->
  swpage2 m = false -> 0 <= rs m < 256 -> 256 <= wr (net m) -> sb stream 6 = (if kind_eqb k DHGR then 1 else 0) ->
  reach sched m (fun n m' => (0 < n)%nat /\ begun k m m' /\ pend sched n (kbd m) (kbd m')).
Proof.
  intros H1 H2 H3 H4 H5 H6 H7 H8 H9 H10. destruct m as [p a x y s cc z n mm s80 p2 hr kb nt cy lg tk]. cbn [pc net rs swpage2] in *. subst p p2.
  assert (L : sldd mm) by exact H3. assert (L' : ldd mm) by exact H2. clear H2 H3.
  assert (CH : chip_is nt 0 (ptr nt) 0 (wr nt)) by (repeat split; auto; try apply H4; apply Z.le_refl). pose proof (h_len _ _ _ H4) as LEN. clear H4 H6.
  match goal with |- reach _ ?m0 _ => set (start := m0) end.
  match goal with |- reach _ _ ?q => set (Q := q) end. unfold start.
  im_bins. wr_bins bw_adrh. name_chip ch1 (256 * 0x60 + ptr nt mod 256). { hyp_chip ltac:(fun H => apply (chip_adrh stream _ _ _ _ _ _ _ H)). reflexivity. }
  im_bins. wr_bins bw_adrl. name_chip ch2 (0x6000 + 0 mod 8192). { hyp_chip ltac:(fun H => apply (chip_adrl stream _ _ _ _ _ _ _ H)). clear. dlia. }
  rx_byte 1. rx_byte 2. rx_byte 3. rx_byte 4. rx_byte 5. rx_byte 6.
  im_bins. clear L. rename L' into L.
  wr_ins bw_hires. plain_ins. { unf. rewrite bw_plain by auto. reflexivity. } tidy. im_ins.
  eapply call_clear; [left; reflexivity|exact L|exact CH|exact H8|]. clear CH L.
  intros mm1 nt1' kb1' new1 CL1 L CH NS1 NC1 NT1 PD1. numerals. cbn [Nat.add].
  plain_ins; [unf; rewrite br_data; reflexivity|tidy].
  destruct (peek_rx _ _ _ _ _ _ CH ltac:(lia)) as [E1 E2]; rewrite E1, E2; clear E1 E2.
  name_chip ch9 (0x6000 + 7 mod 8192). { change 7 with (6 + 1). apply chip_next_stream; [exact CH|lia]. }
  repeat match goal with H : heard _ _ _ _ _ |- _ => clear H | H : wr _ = wr _ |- _ => clear H end.
  rewrite H10. destruct k; cbn [kind_eqb Z.eqb].
  - im_ins. cbv zeta. ifs. plain_ins. { unf. rewrite bw_plain by auto. reflexivity. } tidy.
    im_ins. im_ins. im_ins. wr_ins bw_adrh.
    name_chip ch10 (256 * 4 + (0x6000 + 7 mod 8192) mod 256). { hyp_chip ltac:(fun H => apply (chip_adrh stream _ _ _ _ _ _ _ H)). reflexivity. }
    apply reach_here. split; [lia|]. cbn [pc net rx ry log taken kbd start]. split; [|pends]. destruct CH as (A1 & A2 & A3 & A4).
    split; [constructor; cbn [pc net rx ry]; [reflexivity|exact L|exact A1|rewrite A2; reflexivity|exact A3|reflexivity|lia|lia]|].
    split; [reflexivity|]. split; [discriminate|]. cbn [mem log taken net].
    split; [intros a' HA; split; [|discriminate]; rewrite andb_false_r in CL1; apply CL1, HA|].
    split; [|split; [rewrite first7 by lia; cbn [map]; rewrite H10, <- !app_assoc; reflexivity|lia]].
    eexists. split; [rewrite <- !app_assoc; reflexivity|]. rewrite !clicks_app, !stores_app, NC1, NT1. split; [reflexivity|]. split; [reflexivity|].
    repeat (apply Forall_app; split); auto; repeat (apply Forall_cons || apply Forall_nil); unfold start_write; cbn [w_addr]; lia.
  - im_ins. cbv zeta. wr_ins bw_80store. wr_ins bw_page2. im_ins.
    eapply call_clear; [right; reflexivity|exact L|exact CH|exact H8|]. clear CH L.
    intros mm2 nt2' kb2' new2 CL2 L CH NS2 NC2 NT2 PD2. numerals. cbn [Nat.add].
    wr_ins bw_page1.
    plain_ins. { unf. rewrite bw_plain by auto. reflexivity. } tidy.
    plain_ins. { unf. rewrite bw_plain by auto. reflexivity. } tidy.
    plain_ins. { unf. rewrite bw_plain by auto. reflexivity. } tidy.
    plain_ins. { unf. rewrite bw_plain by auto. reflexivity. } tidy.
    im_ins. im_ins. im_ins. wr_ins bw_adrh.
    name_chip ch10 (256 * 4 + (0x6000 + 7 mod 8192) mod 256). { hyp_chip ltac:(fun H => apply (chip_adrh stream _ _ _ _ _ _ _ H)). reflexivity. }
    apply reach_here. split; [lia|]. cbn [pc net rx ry log taken kbd start]. split; [|pends]. destruct CH as (A1 & A2 & A3 & A4).
    split; [constructor; cbn [pc net rx ry]; [reflexivity|exact L|exact A1|rewrite A2; reflexivity|exact A3|reflexivity|lia|lia]|].
    split; [reflexivity|]. split; [auto|]. cbn [mem log taken net].
    split; [|split; [|split; [rewrite first7 by lia; cbn [map]; rewrite H10, <- !app_assoc; reflexivity|lia]]].
    + rewrite andb_false_r in CL1. cbn [andb] in CL2. destruct CL1 as (B1 & _). destruct CL2 as (B2 & B3 & _).
      intros a' HA. split; [etransitivity; [exact (B3 a' HA)|]; apply B1, HA|]. intros _. apply B2, HA.
    + eexists. split; [rewrite <- !app_assoc; reflexivity|]. rewrite !clicks_app, !stores_app, NC1, NT1, NC2, NT2. split; [reflexivity|]. split; [reflexivity|].
      repeat (apply Forall_app; split); auto; repeat (apply Forall_cons || apply Forall_nil); unfold start_write; cbn [w_addr]; lia.
Qed.
End Startup.

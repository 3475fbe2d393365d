(** Symbolic execution of the startup code before the connection. *)
From Verif Require Import Base BaseFacts OpcodeModel AsmModel PlayerCode CpuModel PlayerModel PlayerSpec PlayerExec ChipProofs TickExec RecvCode RunProofs RecvProofs LayoutProofs StartupCode StartupProofs BootSpec.
Opaque lowcode code hgr resident startup symbols code_map boot_map.

(** ** Data of the startup segment *)
Definition boot_data : list (Z * list Z) := [
  (0x2000, [0x0A; 0x00; 0x41; 0x02]); (0x2004, [0x0A; 0x00; 0x00; 0x01]); (0x2008, [0x07; 0xB9]); (0x200A, [0x00; 0x08; 0xDC; 0x01; 0x02; 0x03]);
  (0x211C, [0xD3; 0xCF; 0xC3; 0xCB; 0xC5; 0xD4; 0xA0; 0xC3; 0xCF; 0xD5; 0xCC; 0xC4; 0xA0; 0xCE; 0xCF; 0xD4; 0xA0; 0xC3; 0xCF; 0xCE; 0xCE; 0xC5; 0xC3; 0xD4; 0xA0; 0xAD; 0xA0;
            0xC3; 0xC8; 0xC5; 0xC3; 0xCB; 0xA0; 0xD2; 0xC5; 0xCD; 0xCF; 0xD4; 0xC5; 0xA0; 0xC8; 0xCF; 0xD3; 0xD4]);
  (0x2148, [0x8D; 0x00])
].
Definition is_data (al : Z * list Z) (st : Z * stmt) : bool :=
  match st with (a, Bytes l) => (a =? fst al) && list_eqb l (snd al) | _ => false end.
Transparent startup hgr.
Lemma data_there : forallb (fun al => existsb (is_data al) startup) boot_data = true.
Proof. vm_compute. reflexivity. Qed.
Opaque startup hgr.
Lemma list_eqb_eq a : forall b, list_eqb a b = true -> a = b.
Proof.
  induction a as [|x a IH]; intros [|y b]; cbn [list_eqb]; intros H; try discriminate; [reflexivity|].
  apply andb_true_iff in H. destruct H as [H1 H2]. apply Z.eqb_eq in H1. f_equal; auto.
Qed.
Lemma data_in a l : In (a, l) boot_data -> In (a, Bytes l) startup.
Proof.
  intros H. pose proof data_there as D. rewrite forallb_forall in D. specialize (D _ H). apply existsb_exists in D.
  destruct D as ([a' s] & I & E). unfold is_data in E. destruct s; try discriminate. apply andb_true_iff in E. cbn [fst snd] in E. destruct E as [E1 E2].
  apply Z.eqb_eq in E1. apply list_eqb_eq in E2. subst. exact I.
Qed.
Fixpoint data_at (l : list (Z * list Z)) (a : Z) : option Z :=
  match l with
  | [] => None
  | (b, bytes) :: l' => if (b <=? a) && (a <? b + Z.of_nat (length bytes)) then nth_error bytes (Z.to_nat (a - b)) else data_at l' a
  end.
Lemma data_at_in l a v : data_at l a = Some v -> exists b bytes, In (b, bytes) l /\ b <= a /\ nth_error bytes (Z.to_nat (a - b)) = Some v.
Proof.
  induction l as [|[b bytes] l IH]; cbn [data_at]; intros H; [discriminate|].
  destruct ((b <=? a) && (a <? b + Z.of_nat (length bytes))) eqn:E.
  - apply andb_true_iff in E. destruct E as [E _]. exists b, bytes. split; [left; reflexivity|]. split; [lia|exact H].
  - destruct (IH H) as (b' & bytes' & I & X). exists b', bytes'. split; [right; exact I|exact X].
Qed.
Lemma data_read mm a v : sldd mm -> data_at boot_data a = Some v -> mm false a = v /\ 0x2000 <= a < 0x2200.
Proof.
  intros L H. apply data_at_in in H. destruct H as (b & bytes & I & LE & N). apply data_in in I.
  assert (E : encode symbols b (Bytes bytes) = Some (map (pair true) bytes)) by reflexivity.
  assert (N' : nth_error (map (pair true) bytes) (Z.to_nat (a - b)) = Some (true, v)) by (rewrite nth_error_map, N; reflexivity).
  pose proof (L _ _ _ _ _ I E N') as X. replace (b + Z.of_nat (Z.to_nat (a - b))) with a in X by lia. split; [exact X|].
  pose proof (startup_bounds _ _ I) as SB. cbn [size] in SB. assert (Z.to_nat (a - b) < length bytes)%nat by (apply nth_error_Some; congruence). lia.
Qed.

(** ** Symbolic states *)
(** the network card, without its receive side; [None]: anything *)
Record card := Card { k_mode : Z; k_ptr : Z; k_regs : list (Z * Z); k_status : Z }.
Record bst := B {
  b_pc : Z; b_a : Z; b_x : Z; b_y : Z; b_z : bool;
  b_mem : list (Z * Z);      (* cells below 0x400 with known contents *)
  b_card : option card;
  b_out : list Z;            (* printed *)
  b_tries : nat              (* attempts *)
}.
Fixpoint assoc (l : list (Z * Z)) (a : Z) : option Z :=
  match l with [] => None | (b, v) :: l' => if a =? b then Some v else assoc l' a end.
Definition reg (l : list (Z * Z)) (a : Z) : Z := match assoc l a with Some v => v | None => 0 end.

Fixpoint lookup (p : Z) (l : list (Z * entry)) : option entry :=
  match l with [] => None | (a, e) :: l' => if p =? a then Some e else lookup p l' end.
Lemma lookup_in p e l : lookup p l = Some e -> In (p, e) l.
Proof.
  induction l as [|[a e'] l IH]; cbn [lookup]; [discriminate|]. destruct (Z.eqb_spec p a) as [->|]; [intros H; injection H as <-; left; reflexivity|right; auto].
Qed.

Definition inc_ptr (k : card) : card := Card (k_mode k) (k_ptr k + 1) (k_regs k) (k_status k).
(** a store to the card; the pointer stays in the registers *)
Definition card_poke (v : Z) (k : card) : option card :=
  let p := k_ptr k in
  if negb (k_mode k =? 3) || negb ((0 <=? p) && (p <? 0x3FFF)) || (p =? 0x428) || (p =? 0x429) then None
  else if p =? 0x401 then
    if v =? 0x01 then (if reg (k_regs k) 0x400 mod 16 =? 1 then Some (inc_ptr (Card (k_mode k) p (k_regs k) 0x13)) else None)
    else if v =? 0x04 then (if k_status k =? 0x13 then Some (inc_ptr (Card (k_mode k) p (k_regs k) 0x15)) else None)
    else None
  else Some (inc_ptr (Card (k_mode k) p ((p, v) :: k_regs k) (k_status k))).
Definition card_peek (k : card) : option Z :=
  if (k_mode k =? 3) && (k_ptr k =? 0x403) then Some (k_status k) else None.
Definition store (a v : Z) (b : bst) : option bst :=
  let upd c := Some (B (b_pc b) (b_a b) (b_x b) (b_y b) (b_z b) (b_mem b) (Some c) (b_out b) (b_tries b)) in
  if a =? 0xC094 then
    if v =? 0x80 then upd (Card 0 0 [] 0)
    else match b_card b with Some k => upd (Card v (k_ptr k) (k_regs k) (k_status k)) | None => None end
  else if a =? 0xC095 then match b_card b with Some k => upd (Card (k_mode k) (256 * v + k_ptr k mod 256) (k_regs k) (k_status k)) | None => None end
  else if a =? 0xC096 then match b_card b with Some k => upd (Card (k_mode k) (256 * (k_ptr k / 256) + v) (k_regs k) (k_status k)) | None => None end
  else if a =? 0xC097 then match b_card b with Some k => match card_poke v k with Some k' => upd k' | None => None end | None => None end
  else if (a =? 0x3F2) || (a =? 0x3F3) || (a =? 0x3F4) || (a =? 0x6)
       then Some (B (b_pc b) (b_a b) (b_x b) (b_y b) (b_z b) ((a, v) :: b_mem b) (b_card b) (b_out b) (b_tries b))
  else None.
Definition set_a (v : Z) (b : bst) : bst := B (b_pc b) v (b_x b) (b_y b) (v =? 0) (b_mem b) (b_card b) (b_out b) (b_tries b).
Definition set_x (v : Z) (b : bst) : bst := B (b_pc b) (b_a b) v (b_y b) (v =? 0) (b_mem b) (b_card b) (b_out b) (b_tries b).
Definition set_y (v : Z) (b : bst) : bst := B (b_pc b) (b_a b) (b_x b) v (v =? 0) (b_mem b) (b_card b) (b_out b) (b_tries b).
Definition set_z (v : bool) (b : bst) : bst := B (b_pc b) (b_a b) (b_x b) (b_y b) v (b_mem b) (b_card b) (b_out b) (b_tries b).
Definition set_pc (p : Z) (b : bst) : bst := B p (b_a b) (b_x b) (b_y b) (b_z b) (b_mem b) (b_card b) (b_out b) (b_tries b).
Definition set_card (k : card) (b : bst) : bst := B (b_pc b) (b_a b) (b_x b) (b_y b) (b_z b) (b_mem b) (Some k) (b_out b) (b_tries b).
Definition is_opened (p : Z) : nat := if p =? 0x20E8 then 1%nat else 0%nat.
(** one instruction, or a call of COUT and its return: the number of
    instructions and the new state *)
Definition bins (i : instr) (md : mode) (v : Z) (b : bst) : option (nat * bst) :=
  let one o := match o with Some b' => Some (1%nat, b') | None => None end in
  match i, md with
  | iLDA, mImm => one (Some (set_a v b))
  | iLDA, mAbs =>
      if v =? 0xC097 then
        match b_card b with
        | Some k => match card_peek k with Some x => one (Some (set_a x (set_card (inc_ptr k) b))) | None => None end
        | None => None
        end
      else match data_at boot_data v with Some x => one (Some (set_a x b)) | None => None end
  | iLDA, mAbsX => if (0 <=? b_x b) && (b_x b <? 256) then match data_at boot_data (v + b_x b) with Some x => one (Some (set_a x b)) | None => None end else None
  | iLDA, mAbsY => if (0 <=? b_y b) && (b_y b <? 256) then match data_at boot_data (v + b_y b) with Some x => one (Some (set_a x b)) | None => None end else None
  | iLDX, mImm => one (Some (set_x v b))
  | iLDY, mImm => one (Some (set_y v b))
  | iEOR, mImm => one (Some (set_a (Z.lxor (b_a b) v) b))
  | iCMP, mImm => one (Some (set_z ((b_a b - v) mod 256 =? 0) b))
  | iCPX, mImm => one (Some (set_z ((b_x b - v) mod 256 =? 0) b))
  | iINX, mImpl => one (Some (set_x ((b_x b + 1) mod 256) b))
  | iINY, mImpl => one (Some (set_y ((b_y b + 1) mod 256) b))
  | iSTA, (mAbs | mZp) => one (store v (b_a b) b)
  | iDEC, mZp => match assoc (b_mem b) v with Some x => let r := (x - 1) mod 256 in one (store v r (set_z (r =? 0) b)) | None => None end
  | iBNE, mRel => one (Some (if b_z b then b else set_pc (b_pc b + v) b))
  | iBEQ, mRel => one (Some (if b_z b then set_pc (b_pc b + v) b else b))
  | iJMP, mAbs => one (Some (set_pc v b))
  | iJSR, mAbs =>
      if v =? 0xFDED then Some (2%nat, B (b_pc b) (b_a b) (b_x b) (b_y b) (b_z b) (b_mem b) (b_card b) (b_out b ++ [b_a b]) (b_tries b)) else None
  | _, _ => None
  end.
Definition still (b : bst) : bool := match b_card b with Some k => negb ((k_status k =? 0x15) || (k_status k =? 0x17)) | None => true end.
Definition bstep (b : bst) : option (nat * bst) :=
  if still b then
    match lookup (b_pc b) boot with
    | Some (i, md, Some v) =>
        bins i md v (B (b_pc b + mode_length md) (b_a b) (b_x b) (b_y b) (b_z b) (b_mem b) (b_card b) (b_out b) (b_tries b + is_opened (b_pc b)))
    | _ => None
    end
  else None.
(** until [stop] is reached *)
Fixpoint bexec (fuel : nat) (stop : Z) (b : bst) : option (nat * bst) :=
  if b_pc b =? stop then Some (O, b) else
  match fuel with
  | O => None
  | S f => match bstep b with
           | Some (k, b') => match bexec f stop b' with Some (n, b'') => Some ((k + n)%nat, b'') | None => None end
           | None => None
           end
  end.

Definition final_regs : list (Z * Z) :=
  [(0x411, 0xB9); (0x410, 0x07); (0x40F, 0x01); (0x40E, 0); (0x40D, 0); (0x40C, 0x0A); (0x405, 0); (0x404, 0xC0); (0x400, 0x21); (0x1B, 3); (0x1A, 3);
   (0x12, 2); (0x11, 0x41); (0x10, 0); (0x0F, 0x0A); (0x0E, 3); (0x0D, 2); (0x0C, 1); (0x0B, 0xDC); (0x0A, 8); (0x09, 0)].

(** ** Soundness *)
Record card_is (k : card) (c : chip) : Prop := {
  ki_mode : wmode c = k_mode k;
  ki_ptr : ptr c = k_ptr k;
  ki_regs : forall a, regs c a = reg (k_regs k) a;
  ki_status : status c = k_status k;
  ki_rxrd : rxrd c = 0;
  ki_base : rxbase c = 0;
  ki_wr : wr c = 0
}.
Definition cell (a : Z) : Prop := a = 0x3F2 \/ a = 0x3F3 \/ a = 0x3F4 \/ a = 0x6.
Record repr (b : bst) (m : machine) : Prop := {
  r_pc : pc m = b_pc b;
  r_a : ra m = b_a b;
  r_x : rx m = b_x b;
  r_y : ry m = b_y b;
  r_z : fz m = b_z b;
  r_mem : forall a v, assoc (b_mem b) a = Some v -> mem m false a = v /\ cell a;
  r_card : match b_card b with Some k => card_is k (net m) | None => True end;
  r_code : ldd (mem m);
  r_startup : sldd (mem m);
  r_page2 : swpage2 m = false;
  r_stack : 0 <= rs m < 256
}.
(** what is left alone, and what is written *)
Record frame (m m' : machine) : Prop := {
  f_log : exists new, log m' = log m ++ new /\ Forall boot_write new;
  f_taken : taken m' = taken m;
  f_mem : forall b a, ~ boot_cell a -> mem m' b a = mem m b a;
  f_sw : sw80 m' = sw80 m /\ swpage2 m' = swpage2 m /\ swhires m' = swhires m;
  f_rs : rs m' = rs m
}.
Lemma frame_refl m m' : log m' = log m -> taken m' = taken m -> mem m' = mem m -> sw80 m' = sw80 m -> swpage2 m' = swpage2 m -> swhires m' = swhires m -> rs m' = rs m -> frame m m'.
Proof. intros A B C E F G H. constructor; auto; [exists []; rewrite app_nil_r; auto|intros; rewrite C; reflexivity]. Qed.
Lemma frame_trans a b c : frame a b -> frame b c -> frame a c.
Proof.
  intros [(n1 & A1 & A2) B1 C1 E1 F1] [(n2 & A3 & A4) B2 C2 E2 F2]. constructor; try congruence.
  - exists (n1 ++ n2). rewrite A3, A1, app_assoc. split; [reflexivity|]. apply Forall_app. auto.
  - intros x y N. rewrite C2, C1 by exact N. reflexivity.
  - destruct E1 as (X1 & X2 & X3), E2 as (Y1 & Y2 & Y3). repeat split; congruence.
Qed.
Lemma cell_boot a : cell a -> boot_cell a.
Proof. unfold cell, boot_cell. lia. Qed.
Lemma boot_not_code a : boot_cell a -> a < 0x400.
Proof. unfold boot_cell. lia. Qed.
Lemma ldd_frame (mm mm' : bool -> Z -> Z) : (forall b a, ~ boot_cell a -> mm' b a = mm b a) -> ldd mm -> ldd mm'.
Proof. intros H L. apply (ldd_other mm); [|exact L]. intros a A. apply H. intros X. apply boot_not_code in X. lia. Qed.
Lemma sldd_frame (mm mm' : bool -> Z -> Z) : (forall b a, ~ boot_cell a -> mm' b a = mm b a) -> sldd mm -> sldd mm'.
Proof.
  intros H L a s bytes i b I EN N. rewrite H; [exact (L _ _ _ _ _ I EN N)|].
  apply startup_bounds in I. intros X. apply boot_not_code in X. lia.
Qed.
Lemma write_frame t a v mm : boot_cell a -> forall b x, ~ boot_cell x -> write1 (Wrt t a v false) mm b x = mm b x.
Proof. intros C b x N. apply write_off. cbn [w_addr]. intros ->. contradiction. Qed.

Ltac unf := cbv beta iota delta [exec_ins load alu ea nz branch with_net with_kbd with_switches with_pc with_cyc with_regs with_flags with_mem with_taken
   cycles mode_length pc ra rx ry rs fc fz fn mem sw80 swpage2 swhires kbd net cyc log taken negb].
Ltac same := apply frame_refl; reflexivity.

Lemma store_sound a v b b' m : repr b m -> store a v b = Some b' ->
  exists m', bus_write a v m = Some m' /\ repr b' m' /\ frame m m'.
Proof.
  intros R H. destruct m as [p a0 x y s c z n mm s80 p2 hr kb nt cy lg tk]. destruct R as [R1 R2 R3 R4 R5 R6 R7 R8 R9 R10 R11].
  cbn [pc ra rx ry fz mem net swpage2 rs] in *. subst p2.
  assert (IO : forall nt' k, 0xC094 <= a <= 0xC097 -> card_is k nt' ->
    b' = B (b_pc b) (b_a b) (b_x b) (b_y b) (b_z b) (b_mem b) (Some k) (b_out b) (b_tries b) ->
    let m' := M p a0 x y s c z n mm s80 false hr kb nt' cy (lg ++ [Wrt cy a v false]) tk in
    repr b' m' /\ frame (M p a0 x y s c z n mm s80 false hr kb nt cy lg tk) m').
  { intros nt' k A K ->. split; [constructor; cbn; assumption || reflexivity|]. constructor; cbn; auto.
    exists [Wrt cy a v false]. split; [reflexivity|]. constructor; [right; exact A|constructor]. }
  unfold store in H.
  destruct (Z.eqb_spec a 0xC094) as [->|N1].
  { rewrite bw_io by lia. cbn [io_write]. unfold io_write. cbn [Z.eqb Pos.eqb]. unfold with_net. cbn [net pc ra rx ry rs fc fz fn mem sw80 swpage2 swhires kbd cyc log taken].
    destruct (Z.eqb_spec v 0x80) as [->|NV].
    - injection H as <-. eexists. split; [reflexivity|]. apply (IO _ (Card 0 0 [] 0)); [lia| |reflexivity]. constructor; reflexivity.
    - destruct (b_card b) as [k|]; [|discriminate]. injection H as <-. eexists. split; [reflexivity|]. apply (IO _ (Card v (k_ptr k) (k_regs k) (k_status k))); [lia| |reflexivity].
      unfold chip_mode. destruct (Z.eqb_spec v 0x80); [contradiction|]. destruct R7. constructor; cbn; assumption || reflexivity. }
  destruct (Z.eqb_spec a 0xC095) as [->|N2].
  { destruct (b_card b) as [k|]; [|discriminate]. injection H as <-. rewrite bw_adrh. eexists. split; [reflexivity|].
    apply (IO _ (Card (k_mode k) (256 * v + k_ptr k mod 256) (k_regs k) (k_status k))); [lia| |reflexivity].
    destruct R7 as [K1 K2 K3 K4 K5 K6 K7]. rewrite K2. constructor; cbn; assumption || reflexivity. }
  destruct (Z.eqb_spec a 0xC096) as [->|N3].
  { destruct (b_card b) as [k|]; [|discriminate]. injection H as <-. rewrite bw_adrl. eexists. split; [reflexivity|].
    apply (IO _ (Card (k_mode k) (256 * (k_ptr k / 256) + v) (k_regs k) (k_status k))); [lia| |reflexivity].
    destruct R7 as [K1 K2 K3 K4 K5 K6 K7]. rewrite K2. constructor; cbn; assumption || reflexivity. }
  destruct (Z.eqb_spec a 0xC097) as [->|N4].
  { destruct (b_card b) as [k|]; [|discriminate]. destruct (card_poke v k) as [k'|] eqn:E; [|discriminate]. injection H as <-.
    assert (P : exists ch, chip_poke v nt = Some ch /\ card_is k' (next_ptr ch)).
    { destruct R7 as [K1 K2 K3 K4 K5 K6 K7]. unfold card_poke in E. unfold chip_poke. rewrite K2.
      destruct (negb (k_mode k =? 3) || negb ((0 <=? k_ptr k) && (k_ptr k <? 0x3FFF)) || (k_ptr k =? 0x428) || (k_ptr k =? 0x429)) eqn:G; [discriminate|].
      rewrite !orb_false_iff, !negb_false_iff, !andb_true_iff in G. destruct G as (((G1 & G2 & G3) & G4) & G5).
      apply Z.eqb_eq in G1. apply Z.leb_le in G2. apply Z.ltb_lt in G3.
      assert (NP : forall ch, wmode ch = 3 -> ptr ch = k_ptr k -> next_ptr ch = set_ptr (k_ptr k + 1) ch).
      { intros ch W Q. unfold next_ptr. rewrite W, Q. cbn [Z.eqb Pos.eqb]. destruct (Z.eqb_spec (k_ptr k) 0x7FFF); [lia|]. destruct (Z.eqb_spec (k_ptr k) 0x5FFF); [lia|].
        rewrite Z.mod_small by lia. reflexivity. }
      replace ((0x4000 <=? k_ptr k) && (k_ptr k <? 0x8000)) with false by (symmetry; apply andb_false_iff; left; apply Z.leb_gt; lia).
      destruct (k_ptr k =? 0x401) eqn:G6.
      - apply Z.eqb_eq in G6. unfold chip_command. destruct (v =? 0x01).
        + rewrite K3. destruct (_ =? 1); [|discriminate]. injection E as <-. eexists. split; [reflexivity|].
          rewrite NP by (cbn; congruence). constructor; cbn; assumption || reflexivity.
        + destruct (v =? 0x04); [|discriminate]. rewrite K4. destruct (_ =? 0x13); [|discriminate]. injection E as <-. eexists. split; [reflexivity|].
          rewrite NP by (cbn; congruence). constructor; cbn; assumption || reflexivity.
      - rewrite G4, G5. injection E as <-. eexists. split; [reflexivity|]. rewrite NP by (cbn; congruence). constructor; cbn; try assumption || reflexivity.
        intros q. unfold upd1, reg. cbn [assoc]. destruct (q =? k_ptr k); [reflexivity|]. apply K3. }
    destruct P as (ch & P1 & P2). rewrite (bw_data _ _ _ _ _ _ _ _ _ _ _ _ _ _ _ _ _ _ _ P1). eexists. split; [reflexivity|]. apply (IO _ k'); [lia|exact P2|reflexivity]. }
  destruct ((a =? 0x3F2) || (a =? 0x3F3) || (a =? 0x3F4) || (a =? 0x6)) eqn:E; [|discriminate]. injection H as <-.
  assert (CL : cell a). { unfold cell. rewrite !orb_true_iff, !Z.eqb_eq in E. tauto. }
  assert (LOW : a < 0x400) by (unfold cell in CL; lia). pose proof (cell_boot _ CL) as BC.
  rewrite bw_low by exact LOW. eexists. split; [reflexivity|]. split.
  - constructor; cbn; try assumption || reflexivity.
    + intros a' v' X. destruct (Z.eqb_spec a' a) as [->|NE].
      * injection X as <-. split; [|exact CL]. apply (write_at (Wrt cy a v false)); cbn [w_aux w_addr]; [reflexivity|lia].
      * rewrite write_off by exact NE. auto.
    + apply (ldd_frame mm); [apply write_frame, BC|exact R8].
    + apply (sldd_frame mm); [apply write_frame, BC|exact R9].
  - constructor; cbn; auto; [|apply write_frame, BC]. exists [Wrt cy a v false]. split; [reflexivity|]. constructor; [left; exact BC|constructor].
Qed.

Ltac set_regs := eexists; split; [reflexivity|]; split; [constructor; cbn; assumption || reflexivity || congruence|same].
Lemma bins_sound i md v b b' m : repr b m -> bins i md v b = Some (1%nat, b') -> exists m', exec_ins i md v m = Some m' /\ repr b' m' /\ frame m m'.
Proof.
  intros R H.
  assert (RD : forall a x, data_at boot_data a = Some x -> bus_read a m = Some (x, m)).
  { intros a x X. destruct (data_read (mem m) a x (r_startup _ _ R) X) as [E B]. unfold bus_read. destruct (Z.leb_spec 0xC000 a); [lia|]. cbn [andb].
    unfold peek. rewrite bank_page2 by apply R. rewrite E. reflexivity. }
  pose proof R as R0. destruct R0 as [R1 R2 R3 R4 R5 R6 R7 R8 R9 R10 R11].
  assert (LD : forall x, exists m', alu iLDA x m = Some m' /\ repr (set_a x b) m' /\ frame m m').
  { intros x. cbn [alu]. set_regs. }
  unfold bins in H.
  destruct i; try discriminate; destruct md; try discriminate; cbn [exec_ins load ea].
  - (* LDA imm *) injection H as <-. apply LD.
  - (* LDA abs *) destruct (Z.eqb_spec v 0xC097) as [->|N].
    + destruct (b_card b) as [k|] eqn:K; [|discriminate]. destruct (card_peek k) as [x|] eqn:P; [|discriminate]. injection H as <-.
      unfold card_peek in P. destruct ((k_mode k =? 3) && (k_ptr k =? 0x403)) eqn:G; [|discriminate]. injection P as <-.
      apply andb_true_iff in G. destruct G as [G1 G2]. apply Z.eqb_eq in G1. apply Z.eqb_eq in G2.
      assert (E : bus_read 0xC097 m = Some (k_status k, with_net (set_ptr (0x403 + 1) (net m)) m)).
      { destruct R7 as [K1 K2 K3 K4 K5 K6 K7]. unfold bus_read. cbn [Z.leb Z.compare Pos.compare Pos.compare_cont andb Z.ltb Z.eqb Pos.eqb].
        unfold chip_peek, next_ptr. rewrite K2, G2, K1, G1, K4. reflexivity. }
      rewrite E. cbn [alu]. eexists. split; [reflexivity|]. split; [|same].
      destruct R7 as [K1 K2 K3 K4 K5 K6 K7]. constructor; cbn; try assumption || reflexivity. constructor; cbn; try assumption. rewrite G2. reflexivity.
    + destruct (data_at boot_data v) as [x|] eqn:D; [|discriminate]. injection H as <-. rewrite (RD _ _ D). apply LD.
  - (* LDA abs,X *) destruct ((0 <=? b_x b) && (b_x b <? 256)) eqn:X; [|discriminate]. destruct (data_at boot_data (v + b_x b)) as [x|] eqn:D; [|discriminate]. injection H as <-.
    pose proof (proj2 (data_read (mem m) _ x (r_startup _ _ R) D)) as B. rewrite R3, Z.mod_small by lia. rewrite (RD _ _ D). apply LD.
  - (* LDA abs,Y *) destruct ((0 <=? b_y b) && (b_y b <? 256)) eqn:X; [|discriminate]. destruct (data_at boot_data (v + b_y b)) as [x|] eqn:D; [|discriminate]. injection H as <-.
    pose proof (proj2 (data_read (mem m) _ x (r_startup _ _ R) D)) as B. rewrite R4, Z.mod_small by lia. rewrite (RD _ _ D). apply LD.
  - (* LDX *) injection H as <-. cbn [alu]. set_regs.
  - (* LDY *) injection H as <-. cbn [alu]. set_regs.
  - (* STA zp *) destruct (store v (b_a b) b) as [b1|] eqn:S; [|discriminate]. injection H as <-. rewrite R2. exact (store_sound _ _ _ _ _ R S).
  - (* STA abs *) destruct (store v (b_a b) b) as [b1|] eqn:S; [|discriminate]. injection H as <-. rewrite R2. exact (store_sound _ _ _ _ _ R S).
  - (* CMP *) injection H as <-. cbn [alu]. cbv zeta. set_regs.
  - (* CPX *) injection H as <-. cbn [alu]. cbv zeta. set_regs.
  - (* EOR *) injection H as <-. cbn [alu]. cbv zeta. set_regs.
  - (* INX *) injection H as <-. cbv zeta. set_regs.
  - (* INY *) injection H as <-. cbv zeta. set_regs.
  - (* DEC *) destruct (assoc (b_mem b) v) as [x|] eqn:A; [|discriminate]. cbv zeta in H. destruct (store v _ _) as [b1|] eqn:S; [|discriminate]. injection H as <-.
    destruct (R6 _ _ A) as [A1 A2].
    assert (BR : bus_read v m = Some (x, m)).
    { unfold bus_read. assert (v < 0x400) by (unfold cell in A2; lia). destruct (Z.leb_spec 0xC000 v); [lia|]. cbn [andb]. unfold peek. rewrite bank_page2 by exact R10. rewrite A1. reflexivity. }
    rewrite BR. cbv zeta.
    destruct (store_sound v ((x - 1) mod 256) (set_z ((x - 1) mod 256 =? 0) b) b1 (nz ((x - 1) mod 256) m)) as (m' & E & R' & F); [constructor; cbn; assumption || reflexivity|exact S|].
    exists m'. split; [exact E|]. split; [exact R'|]. apply (frame_trans _ (nz ((x - 1) mod 256) m)); [same|exact F].
  - (* JMP *) injection H as <-. set_regs.
  - (* JSR *) destruct (_ =? _); discriminate.
  - (* BEQ *) injection H as <-. unfold branch. rewrite R5. destruct (b_z b) eqn:Z0.
    + cbv zeta. set_regs.
    + eexists. split; [reflexivity|]. split; [exact R|same].
  - (* BNE *) injection H as <-. unfold branch. rewrite R5. destruct (b_z b) eqn:Z0; cbn [negb].
    + eexists. split; [reflexivity|]. split; [exact R|same].
    + cbv zeta. set_regs.
Qed.

(** the environment does not reach a card that is not connecting *)
Lemma before_still stream e b m : repr b m -> still b = true -> repr b (before stream e m) /\
  log (before stream e m) = log m /\ taken (before stream e m) = taken m /\ mem (before stream e m) = mem m /\
  (e_key e = None -> kbd (before stream e m) = kbd m) /\ same_switches m (before stream e m) /\ rs (before stream e m) = rs m /\ pc (before stream e m) = pc m /\ ra (before stream e m) = ra m.
Proof.
  intros [R1 R2 R3 R4 R5 R6 R7 R8 R9 R10 R11] S. rewrite before_shape. split; [|repeat split; cbn; auto; intros ->; reflexivity].
  constructor; cbn; try assumption. unfold still in S. destruct (b_card b) as [k|]; [|exact I]. destruct R7 as [K1 K2 K3 K4 K5 K6 K7].
  apply negb_true_iff, orb_false_iff in S. destruct S as [S1 S2].
  assert (C : connect (e_status e) (net m) = net m). { unfold connect. destruct (e_status e); [|reflexivity]. rewrite K4, S1. reflexivity. }
  rewrite C. assert (A : forall n, arrive stream n (net m) = net m).
  { induction n as [|n IH]; [reflexivity|]. cbn [arrive]. unfold arrive1. rewrite K4, S2. exact IH. }
  rewrite A. constructor; assumption.
Qed.

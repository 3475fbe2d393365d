(** Symbolic execution of the player's dispatch routines, and its soundness. *)
From Verif Require Import Base BaseFacts OpcodeModel AsmModel PlayerCode CpuModel PlayerModel PlayerSpec.
From Coq Require Import FMapPositive.

(** ** Facts about layouts *)
Lemma size_nonneg s : 0 <= size s.
Proof. destruct s as [|? []|? []|? []|l|]; cbn [size operand_size]; lia. Qed.
Lemma total_cons s l : total (s :: l) = size s + total l.
Proof. reflexivity. Qed.
Lemma total_nonneg l : 0 <= total l.
Proof. induction l as [|s l IH]; [reflexivity|]. rewrite total_cons. pose proof (size_nonneg s). lia. Qed.
Lemma layout_bounds l : forall p a s, In (a, s) (layout p l) -> p <= a /\ a + size s <= p + total l.
Proof.
  induction l as [|s l IH]; intros p a s' H; [destruct H|]. cbn [layout] in H. rewrite total_cons. pose proof (total_nonneg l). pose proof (size_nonneg s).
  destruct H as [E|H]; [injection E as <- <-; lia|]. apply IH in H. lia.
Qed.
Lemma layout_disjoint l : forall p a s a' s', In (a, s) (layout p l) -> In (a', s') (layout p l) -> a + size s <= a' \/ a' + size s' <= a \/ (a = a' /\ s = s').
Proof.
  induction l as [|s l IH]; intros p a s1 a' s1' H H'; [destruct H|]. cbn [layout] in *.
  destruct H as [E|H]; destruct H' as [E'|H'].
  - injection E as <- <-. injection E' as <- <-. auto.
  - injection E as <- <-. apply layout_bounds in H'. lia.
  - injection E' as <- <-. apply layout_bounds in H. lia.
  - eapply IH; eauto.
Qed.
Lemma total_low : total lowcode = 0x17FE. Proof. vm_compute. reflexivity. Qed.
Lemma total_code : total code = 0x7ACB. Proof. vm_compute. reflexivity. Qed.
Lemma total_hgr : total hgr = 0x17A. Proof. vm_compute. reflexivity. Qed.
Opaque lowcode code hgr.
Lemma resident_bounds a s : In (a, s) resident -> (0x800 <= a /\ a + size s <= 0x1FFE) \/ (0x4000 <= a /\ a + size s <= 0xBACB).
Proof.
  unfold resident. intros H. apply in_app_or in H. destruct H as [H|H]; apply layout_bounds in H; [rewrite total_low in H|rewrite total_code in H]; lia.
Qed.
Lemma resident_disjoint a s a' s' : In (a, s) resident -> In (a', s') resident -> a + size s <= a' \/ a' + size s' <= a \/ (a = a' /\ s = s').
Proof.
  unfold resident. intros H H'. apply in_app_or in H. apply in_app_or in H'. destruct H as [H|H]; destruct H' as [H'|H'].
  - eapply layout_disjoint; eauto.
  - apply layout_bounds in H. apply layout_bounds in H'. rewrite total_low in H. lia.
  - apply layout_bounds in H. apply layout_bounds in H'. rewrite total_low in H'. lia.
  - eapply layout_disjoint; eauto.
Qed.

(** ** Decoding the assembled code *)
Definition entry := (instr * mode * option Z)%type.
Definition entry_of (a : Z) (s : stmt) : option entry :=
  match s with
  | Ins i o =>
      match opcode_byte i (mode_of o), operand_value symbols a o with
      | Some _, Some v => if operand_fits o v then Some (i, mode_of o, Some v) else None
      | _, _ => None
      end
  | Patched iJMP (Abs e) =>
      match resolve symbols e with Some v => if (0 <=? v) && (v <? 65536) then Some (iJMP, mAbs, None) else None | None => None end
  | _ => None
  end.
Definition code_of (l : list (Z * stmt)) : PositiveMap.t entry :=
  fold_left (fun m '(a, s) => match entry_of a s with Some e => PositiveMap.add (Z.to_pos a) e m | None => m end) l (PositiveMap.empty _).
Definition code_map := code_of resident.

Lemma code_of_in l : (forall a s, In (a, s) l -> 0 < a) ->
  forall k e, PositiveMap.find k (code_of l) = Some e -> exists s, In (Zpos k, s) l /\ entry_of (Zpos k) s = Some e.
Proof.
  intros P. unfold code_of. assert (G : forall l m, (forall a s, In (a, s) l -> 0 < a) -> forall k e,
    PositiveMap.find k (fold_left (fun m '(a, s) => match entry_of a s with Some e => PositiveMap.add (Z.to_pos a) e m | None => m end) l m) = Some e ->
    (exists s, In (Zpos k, s) l /\ entry_of (Zpos k) s = Some e) \/ PositiveMap.find k m = Some e).
  { clear. induction l as [|[a s] l IH]; intros m P k e H; [right; exact H|]. cbn [fold_left] in H. apply IH in H; [|intros; eapply P; right; eauto].
    destruct H as [(s' & H & E)|H]; [left; exists s'; split; [right; exact H|exact E]|].
    destruct (entry_of a s) as [e'|] eqn:E; [|right; exact H].
    destruct (Pos.eq_dec (Z.to_pos a) k) as [<- |NE].
    - rewrite PositiveMap.gss in H. injection H as <-. left. exists s. rewrite Z2Pos.id by (eapply P; left; reflexivity). split; [left; reflexivity|exact E].
    - rewrite PositiveMap.gso in H by (intros X; apply NE; symmetry; exact X). right. exact H. }
  intros k e H. destruct (G _ _ P k e H) as [X|X]; [exact X|]. rewrite PositiveMap.gempty in X. discriminate.
Qed.
Definition find_code (cm : PositiveMap.t entry) (a : Z) : option entry :=
  match a with Zpos k => PositiveMap.find k cm | _ => None end.
Lemma find_code_in a e : find_code code_map a = Some e -> exists s, In (a, s) resident /\ entry_of a s = Some e.
Proof.
  destruct a as [|k|k]; try discriminate. intros H. apply code_of_in in H; [exact H|].
  intros a s X. apply resident_bounds in X. lia.
Qed.

Lemma decode_opcode i md b : opcode_byte i md = Some b -> decode b = Some (i, md) /\ 0 <= b < 256.
Proof. destruct i, md; cbn [opcode_byte]; intros H; try discriminate H; injection H as <-; split; reflexivity || lia. Qed.
Lemma lohi v : v mod 256 + 256 * (v / 256) = v.
Proof. dlia. Qed.
Lemma signed_mod v : -128 <= v < 128 -> signed (v mod 256) = v.
Proof. intros H. unfold signed. destruct (Z.ltb_spec (v mod 256) 128); dlia. Qed.

Lemma bank_resident m a s i : In (a, s) resident -> 0 <= i < size s -> bank m (a + i) = false.
Proof.
  intros H I. apply resident_bounds in H. unfold bank.
  destruct (Z.leb_spec 0x400 (a + i)), (Z.ltb_spec (a + i) 0x800), (Z.leb_spec 0x2000 (a + i)), (Z.ltb_spec (a + i) 0x4000);
    try lia; rewrite ?andb_false_r; reflexivity.
Qed.

Lemma fetch_entry m s i md ov : loaded resident m -> In (pc m, s) resident -> entry_of (pc m) s = Some (i, md, ov) ->
  fetch m = Some (i, md, match ov with Some v => v | None => mem m false (pc m + 1) + 256 * mem m false (pc m + 2) end).
Proof.
  intros L H E. pose proof (L (pc m) s) as LS.
  assert (PK : forall k, 0 <= k < size s -> peek m (pc m + k) = mem m false (pc m + k)).
  { intros k K. unfold peek. rewrite (bank_resident m _ _ k H K). reflexivity. }
  assert (P0 : 0 < size s -> peek m (pc m) = mem m false (pc m)).
  { intros K. specialize (PK 0). rewrite Z.add_0_r in PK. apply PK. lia. }
  destruct s as [l|i' o|i' o|i' o|l|e]; cbn [entry_of] in E; try discriminate.
  - destruct (opcode_byte i' (mode_of o)) as [b|] eqn:OB; [|discriminate]. destruct (operand_value symbols (pc m) o) as [v|] eqn:OV; [|discriminate].
    destruct (operand_fits o v) eqn:F; [|discriminate]. injection E as <- <- <-.
    destruct (decode_opcode _ _ _ OB) as [D _].
    assert (EN : encode symbols (pc m) (Ins i' o) = Some (map (pair true) (b :: operand_bytes o v))).
    { cbn [encode]. unfold encode_ins. rewrite OB, OV, F. reflexivity. }
    assert (M0 : mem m false (pc m) = b).
    { rewrite <- (LS _ O b H EN); [rewrite Z.add_0_r; reflexivity|reflexivity]. }
    assert (M1 : forall k x, nth_error (operand_bytes o v) k = Some x -> mem m false (pc m + Z.of_nat (S k)) = x).
    { intros k x X. apply (LS _ (S k) x H EN). cbn [map nth_error]. rewrite nth_error_map, X. reflexivity. }
    cbn [size] in PK, P0. unfold fetch. rewrite P0 by (destruct o; cbn [operand_size]; lia). rewrite M0, D.
    destruct o as [|e|e|e|e|e|e]; cbn [mode_of operand_size operand_bytes operand_fits] in *;
      try (injection OV as <-; reflexivity);
      try (pose proof (M1 0%nat _ eq_refl) as A0; change (Z.of_nat 1) with 1 in A0);
      try (pose proof (M1 1%nat _ eq_refl) as A1; change (Z.of_nat 2) with 2 in A1);
      rewrite ?(PK 1) by lia; rewrite ?(PK 2) by lia; rewrite ?A0, ?A1, ?lohi; try reflexivity.
    + rewrite Z.mod_small by lia. reflexivity.
    + rewrite Z.mod_small by lia. reflexivity.
    + rewrite signed_mod by lia. reflexivity.
  - destruct i'; try discriminate. destruct o as [|e|e|e|e|e|e]; try discriminate.
    destruct (resolve symbols e) as [v|] eqn:R; [|discriminate]. destruct ((0 <=? v) && (v <? 65536)) eqn:F; [|discriminate]. injection E as <- <- <-.
    assert (EN : encode symbols (pc m) (Patched iJMP (Abs e)) = Some ((true, 0x4C) :: map (pair false) (operand_bytes (Abs e) v))).
    { cbn [encode]. unfold encode_ins. cbn [mode_of opcode_byte operand_value operand_fits]. rewrite R, F. reflexivity. }
    assert (M0 : mem m false (pc m) = 0x4C).
    { rewrite <- (LS _ O _ H EN eq_refl). rewrite Z.add_0_r. reflexivity. }
    cbn [size operand_size] in PK, P0. unfold fetch. rewrite P0 by lia. rewrite M0. cbn [decode].
    rewrite !PK by lia. reflexivity.
Qed.
Lemma fetch_code m i md ov : loaded resident m -> find_code code_map (pc m) = Some (i, md, ov) ->
  fetch m = Some (i, md, match ov with Some v => v | None => mem m false (pc m + 1) + 256 * mem m false (pc m + 2) end).
Proof. intros L F. apply find_code_in in F. destruct F as (s & H & E). eapply fetch_entry; eauto. Qed.

(** ** Writes that leave the code alone *)
Lemma loaded_write m w : loaded resident m -> w_aux w = true \/ ~ (exists a s bytes i b, In (a, s) resident /\ encode symbols a s = Some bytes /\
    nth_error bytes i = Some (true, b) /\ w_addr w = a + Z.of_nat i) ->
  forall a s bytes i b, In (a, s) resident -> encode symbols a s = Some bytes -> nth_error bytes i = Some (true, b) ->
    write1 w (mem m) false (a + Z.of_nat i) = b.
Proof.
  intros L W a s bytes i b H E N. unfold write1. destruct (w_addr w <? 0xC000); [|exact (L _ _ _ _ _ H E N)].
  destruct (Bool.eqb false (w_aux w)) eqn:B; [|exact (L _ _ _ _ _ H E N)]. unfold upd1.
  destruct (Z.eqb_spec (a + Z.of_nat i) (w_addr w)) as [X|X]; [|exact (L _ _ _ _ _ H E N)].
  destruct W as [W|W]; [rewrite W in B; discriminate|]. exfalso. apply W. exists a, s, bytes, i, b. rewrite <- X. auto.
Qed.
Lemma encode_length a s bytes : encode symbols a s = Some bytes -> Z.of_nat (length bytes) = size s.
Proof.
  assert (EI : forall i o l, encode_ins symbols a i o = Some l -> Z.of_nat (length l) = 1 + operand_size o).
  { intros i o l. unfold encode_ins. destruct (opcode_byte i (mode_of o)); [|discriminate]. destruct (operand_value symbols a o); [|discriminate].
    destruct (operand_fits o _); [|discriminate]. intros H. injection H as <-. destruct o; reflexivity. }
  destruct s as [l|i o|i o|i o|l|e]; cbn [encode size].
  - intros H. injection H as <-. reflexivity.
  - destruct (encode_ins symbols a i o) as [l|] eqn:E; [|discriminate]. intros H. injection H as <-. rewrite map_length. eapply EI; eauto.
  - destruct (encode_ins symbols a i o) as [[|b l]|] eqn:E; try discriminate. intros H. injection H as <-. cbn [length]. rewrite map_length. exact (EI _ _ _ E).
  - destruct (encode_ins symbols a i o) as [[|b [|c l]]|] eqn:E; try discriminate. intros H. injection H as <-. cbn [length]. rewrite map_length. exact (EI _ _ _ E).
  - intros H. injection H as <-. rewrite map_length. reflexivity.
  - destruct (resolve symbols e); [|discriminate]. intros H. injection H as <-. reflexivity.
Qed.
Lemma code_range a s bytes i x : In (a, s) resident -> encode symbols a s = Some bytes -> nth_error bytes i = Some x ->
  0 <= Z.of_nat i < size s /\ (0x800 <= a + Z.of_nat i < 0x1FFE \/ 0x4000 <= a + Z.of_nat i < 0xBACB).
Proof.
  intros H E N. apply encode_length in E. assert (i < length bytes)%nat by (apply nth_error_Some; congruence). apply resident_bounds in H. lia.
Qed.
(** any address outside of the program *)
Lemma not_code a0 : ~ (0x800 <= a0 < 0x1FFE) -> ~ (0x4000 <= a0 < 0xBACB) ->
  ~ (exists a s bytes i b, In (a, s) resident /\ encode symbols a s = Some bytes /\ nth_error bytes i = Some (true, b) /\ a0 = a + Z.of_nat i).
Proof. intros N1 N2 (a & s & bytes & i & b & H & E & N & X). destruct (code_range _ _ _ _ _ H E N) as [_ R]. lia. Qed.
(** patched operands *)
Lemma patched_not_code j e k : In (j, Patched iJMP (Abs e)) resident -> k = 1 \/ k = 2 ->
  ~ (exists a s bytes i b, In (a, s) resident /\ encode symbols a s = Some bytes /\ nth_error bytes i = Some (true, b) /\ j + k = a + Z.of_nat i).
Proof.
  intros J K (a & s & bytes & i & b & H & E & N & X). destruct (code_range _ _ _ _ _ H E N) as [R _].
  pose proof (resident_disjoint _ _ _ _ J H) as D. cbn [size operand_size] in D.
  destruct D as [D|[D|[<- <-]]]; [lia|lia|]. cbn [encode] in E.
  destruct (encode_ins symbols j iJMP (Abs e)) as [[|c l]|]; try discriminate. injection E as <-.
  destruct i as [|i]; [lia|]. cbn [nth_error] in N. rewrite nth_error_map in N. destruct (nth_error l i); discriminate.
Qed.
Lemma patchedlo_not_code j e : In (j, PatchedLo iSTA (Abs e)) resident ->
  ~ (exists a s bytes i b, In (a, s) resident /\ encode symbols a s = Some bytes /\ nth_error bytes i = Some (true, b) /\ j + 1 = a + Z.of_nat i).
Proof.
  intros J (a & s & bytes & i & b & H & E & N & X). destruct (code_range _ _ _ _ _ H E N) as [R _].
  pose proof (resident_disjoint _ _ _ _ J H) as D. cbn [size operand_size] in D.
  destruct D as [D|[D|[<- <-]]]; [lia|lia|]. cbn [encode] in E.
  destruct (encode_ins symbols j iSTA (Abs e)) as [[|c [|d l]]|]; try discriminate. injection E as <-.
  destruct i as [|[|i]]; [lia| |lia]. cbn [nth_error] in N. discriminate.
Qed.

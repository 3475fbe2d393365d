(** Playable streams, position by position; what the opcodes do to a display. *)
From Verif Require Import Base BaseFacts ScreenModel ScreenSpec BitmapModel BitmapSpec VideoModel VideoSpec OpcodeModel MovieModel MovieSpec SymbolModel AddrThms AsmModel CpuModel PlayerModel PlayerSpec EffectProofs PlaybackSpec.
Opaque op_cmds TABLES.

Lemma size_pos op : 2 <= opcode_size op.
Proof. destruct op; cbn [opcode_size]; lia. Qed.
Lemma total_size_cons op l : total_size (op :: l) = opcode_size op + total_size l.
Proof. reflexivity. Qed.
Lemma total_size_app a b : total_size (a ++ b) = total_size a + total_size b.
Proof. induction a as [|op a IH]; [reflexivity|]. cbn [app]. rewrite !total_size_cons, IH. lia. Qed.
Lemma total_size_nonneg l : 0 <= total_size l.
Proof. induction l as [|op l IH]; [cbn; lia|]. rewrite total_size_cons. pose proof (size_pos op). lia. Qed.
Lemma firstn_snoc {A} (l : list A) : forall i x, nth_error l i = Some x -> firstn (S i) l = firstn i l ++ [x].
Proof. induction l as [|y l IH]; intros [|i] x H; try discriminate; cbn in *; [injection H as ->; reflexivity|]. f_equal. apply IH, H. Qed.

(** what is found at the position of an opcode *)
Definition data_at (bytes : list Z) (q : Z) (op : opcode) : Prop :=
  match op with
  | Tick t p content offsets => content = sb bytes (q + 2) /\ offsets = map (fun j => sb bytes (q + j)) [3; 4; 5; 6]
  | Ack a => sb bytes (q + 2) = (if a then 0x55 else 0x54)
  | _ => True
  end.
Lemma sb_cons b l q : 0 < q -> sb (b :: l) q = sb l (q - 1).
Proof. intros Q. unfold sb. replace (Z.to_nat q) with (S (Z.to_nat (q - 1))) by lia. reflexivity. Qed.
Lemma sb_app a l q : Z.of_nat (length a) <= q -> sb (a ++ l) q = sb l (q - Z.of_nat (length a)).
Proof. intros Q. unfold sb. rewrite app_nth2 by lia. f_equal. lia. Qed.
Lemma data_at_app a l q op : Z.of_nat (length a) <= q -> data_at l (q - Z.of_nat (length a)) op -> data_at (a ++ l) q op.
Proof.
  intros Q. unfold data_at. destruct op as [| | |b|t p c o]; auto.
  - rewrite sb_app by lia. intros <-. f_equal. lia.
  - rewrite sb_app by lia. cbn [map]. rewrite !sb_app by lia. intros [-> ->]. split; [f_equal; lia|]. repeat (f_equal; try lia).
Qed.
Lemma read_nth which fuel : forall bytes ops r, read_opcodes which fuel bytes = Some (ops, r) ->
  forall i, (i <= length ops)%nat -> let q := total_size (firstn i ops) in
    which (256 * sb bytes q + sb bytes (q + 1)) = Some (nth_command ops i) /\ q + 2 <= Z.of_nat (length bytes) /\
    (forall op, nth_error ops i = Some op -> q + opcode_size op <= Z.of_nat (length bytes) /\ data_at bytes q op).
Proof.
  induction fuel as [|f IH]; intros bytes ops r H; [discriminate|]. destruct bytes as [|hi [|lo rest]]; try discriminate. cbn [read_opcodes] in H.
  destruct (which (256 * hi + lo)) as [[| | | |t p]|] eqn:W; try discriminate.
  - (* TERMINATE *) injection H as <- <-. intros i L. cbn [length] in L. assert (i = 0)%nat by lia. subst i. cbn [firstn total_size fold_right]. split; [|split].
    + cbn. exact W.
    + cbn [length]. lia.
    + intros op X. discriminate.
  - (* NOP *) destruct (read_opcodes which f rest) as [[ops' r']|] eqn:E; [|discriminate]. injection H as <- <-. specialize (IH _ _ _ E).
    intros [|i] L.
    + cbn [firstn total_size fold_right]. split; [exact W|]. split; [cbn [length]; lia|]. intros op X. injection X as <-. cbn [length opcode_size data_at]. split; [lia|exact I].
    + cbn [length] in L. specialize (IH i ltac:(lia)). cbv zeta in IH. destruct IH as (A & B & C). cbn [firstn]. rewrite total_size_cons. cbn [opcode_size].
      pose proof (total_size_nonneg (firstn i ops')) as NN. set (q := total_size (firstn i ops')) in *. clearbody q.
      change (hi :: lo :: rest) with ([hi; lo] ++ rest). rewrite !sb_app by (cbn [length]; lia). cbn [length].
      replace (2 + q - Z.of_nat 2) with q by lia. replace (2 + q + 1 - Z.of_nat 2) with (q + 1) by lia. split; [exact A|]. split; [cbn [length app]; lia|].
      intros op X. cbn [nth_error] in X. destruct (C op X) as [C1 C2]. split; [cbn [length app]; lia|]. apply data_at_app; cbn [length]; [lia|]. replace (2 + q - Z.of_nat 2) with q by lia. exact C2.
  - (* ACK *) destruct rest as [|sw [|b2 rest]]; try discriminate. destruct ((sw =? 0x54) || (sw =? 0x55)) eqn:SW; [|discriminate].
    destruct (read_opcodes which f rest) as [[ops' r']|] eqn:E; [|discriminate]. injection H as <- <-. specialize (IH _ _ _ E).
    intros [|i] L.
    + cbn [firstn total_size fold_right]. split; [exact W|]. split; [cbn [length]; lia|]. intros op X. injection X as <-. cbn [length opcode_size data_at]. split; [lia|].
      change (sb (hi :: lo :: sw :: b2 :: rest) (0 + 2)) with sw. apply orb_true_iff in SW. rewrite !Z.eqb_eq in SW. destruct SW as [-> | ->]; reflexivity.
    + cbn [length] in L. specialize (IH i ltac:(lia)). cbv zeta in IH. destruct IH as (A & B & C). cbn [firstn]. rewrite total_size_cons. cbn [opcode_size].
      pose proof (total_size_nonneg (firstn i ops')) as NN. set (q := total_size (firstn i ops')) in *. clearbody q.
      change (hi :: lo :: sw :: b2 :: rest) with ([hi; lo; sw; b2] ++ rest). rewrite !sb_app by (cbn [length]; lia). cbn [length].
      replace (4 + q - Z.of_nat 4) with q by lia. replace (4 + q + 1 - Z.of_nat 4) with (q + 1) by lia. split; [exact A|]. split; [cbn [length app]; lia|].
      intros op X. cbn [nth_error] in X. destruct (C op X) as [C1 C2]. split; [cbn [length app]; lia|]. apply data_at_app; cbn [length]; [lia|]. replace (4 + q - Z.of_nat 4) with q by lia. exact C2.
  - (* TICK *) destruct rest as [|ct [|o1 [|o2 [|o3 [|o4 rest]]]]]; try discriminate.
    destruct (read_opcodes which f rest) as [[ops' r']|] eqn:E; [|discriminate]. injection H as <- <-. specialize (IH _ _ _ E).
    intros [|i] L.
    + cbn [firstn total_size fold_right]. split; [exact W|]. split; [cbn [length]; lia|]. intros op X. injection X as <-. cbn [length opcode_size]. split; [lia|]. split; reflexivity.
    + cbn [length] in L. specialize (IH i ltac:(lia)). cbv zeta in IH. destruct IH as (A & B & C). cbn [firstn]. rewrite total_size_cons. cbn [opcode_size].
      pose proof (total_size_nonneg (firstn i ops')) as NN. set (q := total_size (firstn i ops')) in *. clearbody q.
      change (hi :: lo :: ct :: o1 :: o2 :: o3 :: o4 :: rest) with ([hi; lo; ct; o1; o2; o3; o4] ++ rest). rewrite !sb_app by (cbn [length]; lia). cbn [length].
      replace (7 + q - Z.of_nat 7) with q by lia. replace (7 + q + 1 - Z.of_nat 7) with (q + 1) by lia. split; [exact A|]. split; [cbn [length app]; lia|].
      intros op X. cbn [nth_error] in X. destruct (C op X) as [C1 C2]. split; [cbn [length app]; lia|]. apply data_at_app; cbn [length]; [lia|]. replace (7 + q - Z.of_nat 7) with q by lia. exact C2.
Qed.

Section Playable.
Variables (bytes : list Z) (k : kind) (rest : list opcode).
Hypothesis PL : playable bytes k rest.
(** where the [i]-th opcode after the header begins *)
Definition pos (rest : list opcode) (i : nat) : Z := 7 + total_size (firstn i rest).
Lemma pos_position i : pos rest i = position (Header k :: rest) (S i).
Proof. unfold pos, position. cbn [firstn]. rewrite total_size_cons. reflexivity. Qed.
Lemma read_header : exists hd body zs, bytes = hd ++ body /\ length hd = 7%nat /\ read_opcodes player_which (length body) body = Some (rest, zs) /\
  sb bytes 6 = (if kind_eqb k DHGR then 1 else 0).
Proof.
  destruct (pl_read _ _ _ PL) as (zs & R). destruct bytes as [|b0 [|b1 [|b2 [|b3 [|b4 [|b5 [|b6 body]]]]]]]; try discriminate. cbn [read_stream] in R.
  destruct (read_opcodes player_which (length body) body) as [[ops r]|] eqn:E; [|discriminate].
  exists [b0; b1; b2; b3; b4; b5; b6], body, zs. split; [reflexivity|]. split; [reflexivity|]. change (sb _ 6) with b6.
  destruct (Z.eqb_spec b6 0) as [-> |N]; [injection R as <- <- <-; split; [exact E|reflexivity]|].
  destruct (Z.eqb_spec b6 1) as [-> |N']; [injection R as <- <- <-; split; [exact E|reflexivity]|discriminate].
Qed.
Lemma mode_byte : sb bytes 6 = (if kind_eqb k DHGR then 1 else 0).
Proof. destruct read_header as (_ & _ & _ & _ & _ & _ & H). exact H. Qed.
Lemma read_at i : (i <= length rest)%nat -> let q := pos rest i in
  player_which (256 * sb bytes q + sb bytes (q + 1)) = Some (nth_command rest i) /\ q + 2 <= Z.of_nat (length bytes) /\
  (forall op, nth_error rest i = Some op -> q + opcode_size op <= Z.of_nat (length bytes) /\ data_at bytes q op).
Proof.
  intros L. destruct read_header as (hd & body & zs & EB & L7 & R & _). pose proof (read_nth _ _ _ _ _ R i L) as H. cbv zeta in H.
  unfold pos. pose proof (total_size_nonneg (firstn i rest)) as NN. set (q := total_size (firstn i rest)) in *. clearbody q. destruct H as (A & B & C).
  rewrite EB. rewrite !sb_app by lia. rewrite L7. replace (7 + q - Z.of_nat 7) with q by lia. replace (7 + q + 1 - Z.of_nat 7) with (q + 1) by lia. split; [exact A|].
  rewrite app_length, L7. split; [lia|]. intros op X. destruct (C op X) as [C1 C2]. split; [lia|]. apply data_at_app; [lia|]. rewrite L7. replace (7 + q - Z.of_nat 7) with q by lia. exact C2.
Qed.
Lemma pos_next i op : nth_error rest i = Some op -> pos rest (S i) = pos rest i + opcode_size op.
Proof. intros H. unfold pos. rewrite (firstn_snoc _ _ _ H), total_size_app. cbn [total_size fold_right]. lia. Qed.
Lemma pos_ge i : 7 <= pos rest i.
Proof. unfold pos. pose proof (total_size_nonneg (firstn i rest)). lia. Qed.
(** acknowledged so far *)
Definition acked_at (i : nat) : Z := 2048 * (pos rest i / 2048).
Lemma acked_0 : acked_at 0 = 0.
Proof. reflexivity. Qed.
Lemma in_frame i : acked_at i <= pos rest i < acked_at i + 2048 /\ 0 <= acked_at i /\ acked_at i mod 2048 = 0.
Proof. unfold acked_at. pose proof (pos_ge i) as P. clear - P. split; [|split]; dlia. Qed.
Lemma tick_frame i t p c o : nth_error rest i = Some (Tick t p c o) -> pos rest i + 9 <= acked_at i + 2048 /\ acked_at (S i) = acked_at i.
Proof.
  intros H. pose proof (pl_frames _ _ _ PL (S i) (Tick t p c o) H) as F. cbn [is_ack] in F. rewrite <- pos_position in F. cbn [opcode_size] in F.
  pose proof (pos_next _ _ H) as N. cbn [opcode_size] in N. unfold acked_at. rewrite N. set (q := pos rest i) in *. clearbody q. clear - F. split; dlia.
Qed.
Lemma ack_frame i a : nth_error rest i = Some (Ack a) -> pos rest i + 2 = acked_at i + 2046 /\ acked_at (S i) = acked_at i + 2048 /\ pos rest (S i) = acked_at i + 2048.
Proof.
  intros H. pose proof (pl_frames _ _ _ PL (S i) (Ack a) H) as F. cbn [is_ack] in F. rewrite <- pos_position in F.
  pose proof (pos_next _ _ H) as N. cbn [opcode_size] in N. unfold acked_at. rewrite N. set (q := pos rest i) in *. clearbody q. clear - F. split; [|split]; dlia.
Qed.
Lemma op_kind i op : nth_error rest i = Some op -> (exists t p c o, op = Tick t p c o) \/ (exists a, op = Ack a).
Proof.
  intros H. apply nth_error_In in H. pose proof (proj1 (Forall_forall _ _) (pl_ops _ _ _ PL) _ H) as [T|T]; destruct op; try discriminate; eauto 6.
Qed.
Lemma frame_there i : (i <= length rest)%nat -> acked_at i + 2048 <= Z.of_nat (length bytes).
Proof.
  intros L. destruct (read_at i L) as (_ & B & _). pose proof (pl_length _ _ _ PL) as M. pose proof (in_frame i) as (F & _ & F'). clear - B M F F'.
  set (n := Z.of_nat (length bytes)) in *. set (q := pos rest i) in *. set (r := acked_at i) in *. clearbody n q r. dlia.
Qed.
(** the address of an opcode is in the frame the player waits for *)
Lemma address_frame i : (i <= length rest)%nat -> pos rest i + 2 <= acked_at i + 2048.
Proof.
  intros L. destruct i as [|i]; [cbn; lia|]. destruct (nth_error rest i) as [op|] eqn:E.
  - destruct (op_kind _ _ E) as [(t & p & c & o & ->)|(a & ->)].
    + destruct (tick_frame _ _ _ _ _ E) as [A B]. rewrite B. pose proof (pos_next _ _ E) as N. cbn [opcode_size] in N. lia.
    + destruct (ack_frame _ _ E) as (A & B & C). lia.
  - apply nth_error_None in E. lia.
Qed.
End Playable.

(** ** Displays *)
Lemma store_fold b p c offs : forall mm b' a, fold_left store1 (map (fun o => (b, 256 * p + o, c)) offs) mm b' a =
  (if Bool.eqb b' b then fold_left (fun f o => upd1 f (256 * p + o) c) offs (mm b') a else mm b' a).
Proof.
  induction offs as [|o offs IH]; intros mm b' a; cbn [map fold_left]; [destruct (Bool.eqb b' b); reflexivity|]. rewrite IH. cbn [store1].
  destruct (Bool.eqb b' b) eqn:E; reflexivity.
Qed.
Lemma store4_fold p c offs : 32 <= p < 64 -> Forall (fun o => 0 <= o < 256) offs -> forall (f : Z -> Z) (g : Z -> Z -> Z),
  (forall q o, 0 <= q < 32 -> 0 <= o < 256 -> f (0x2000 + 256 * q + o) = g q o) ->
  forall q o, 0 <= q < 32 -> 0 <= o < 256 -> fold_left (fun f o => upd1 f (256 * p + o) c) offs f (0x2000 + 256 * q + o) = store4 g (p, c, offs) q o.
Proof.
  intros P F. unfold store4. induction F as [|o' offs O F IH]; intros f g H q o Q B; cbn [fold_left]; [apply H; assumption|]. apply IH; [|assumption|assumption].
  clear q o Q B. intros q o Q B. unfold upd1, upd2. destruct (Z.eqb_spec q (p - 32)), (Z.eqb_spec o o'), (Z.eqb_spec (0x2000 + 256 * q + o) (256 * p + o')); cbn [andb]; try lia; try reflexivity; apply H; assumption.
Qed.
Lemma play_snoc ops op : play (ops ++ [op]) = play1 (play ops) op.
Proof. unfold play. rewrite fold_left_app. reflexivity. Qed.
Lemma stores_of_app a b : forall ops, stores_of a (ops ++ b) = stores_of a ops ++ stores_of (fold_left (fun x op => match op with Ack y => y | _ => x end) ops a) b.
Proof.
  intros ops. revert a. induction ops as [|op ops IH]; intros a; [reflexivity|]. cbn [app stores_of fold_left]. destruct op; rewrite ?IH, <- ?app_assoc; reflexivity.
Qed.
Lemma play_bank ops : d_bank (play ops) = fold_left (fun x op => match op with Ack y => y | _ => x end) ops false.
Proof.
  unfold play. change false with (d_bank blank). generalize blank. induction ops as [|op ops IH]; intros d; [reflexivity|]. cbn [fold_left]. rewrite IH. destruct op; reflexivity.
Qed.
Lemma stores_of_snoc ops op : stores_of false (ops ++ [op]) =
  stores_of false ops ++ match op with Tick _ p c offs => map (fun o => (d_bank (play ops), 256 * p + o, c)) offs | _ => [] end.
Proof. rewrite stores_of_app, <- play_bank. f_equal. destruct op; cbn [stores_of]; rewrite ?app_nil_r; reflexivity. Qed.

(** opcodes whose data are bytes for a hi-res page *)
Definition drawable (op : opcode) : Prop :=
  match op with Tick _ p c offs => 32 <= p < 64 /\ Forall (fun o => 0 <= o < 256) offs | _ => True end.
Lemma stores_show (ok : bool -> Prop) ops : Forall drawable ops -> forall (mm : bool -> Z -> Z),
  (forall b a, ok b -> 0x2000 <= a < 0x4000 -> mm b a = 0) ->
  forall b p o, ok b -> 0 <= p < 32 -> 0 <= o < 256 ->
    fold_left store1 (stores_of false ops) mm b (0x2000 + 256 * p + o) = d_mem (play ops) b p o.
Proof.
  intros F mm Z0. induction ops as [|op ops IH] using rev_ind; intros b p o OK P O; [exact (Z0 b (0x2000 + 256 * p + o) OK ltac:(lia))|].
  apply Forall_app in F. destruct F as [F F1]. inversion F1 as [|? ? D _]; subst. specialize (IH F).
  rewrite stores_of_snoc, fold_left_app, play_snoc. destruct op as [| | |y|t pg c offs]; cbn [fold_left play1 d_mem]; try (apply IH; assumption).
  rewrite store_fold. destruct (Bool.eqb b (d_bank (play ops))) eqn:E; [|apply IH; assumption]. destruct D as [D1 D2]. apply store4_fold; auto.
Qed.

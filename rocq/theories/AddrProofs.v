(** The opcode address table of the shipped player. *)
From Verif Require Import Base BaseFacts OpcodeModel SymbolModel SymbolSpec SymbolProofs SymData SymCert.
From Coq Require Import FMapPositive Permutation.

(** ** Distinctness by insertion into a map *)
Fixpoint distinct (l : list Z) (m : PositiveMap.t unit) : bool :=
  match l with
  | [] => true
  | Zpos p :: l' => match PositiveMap.find p m with None => distinct l' (PositiveMap.add p tt m) | Some _ => false end
  | _ => false
  end.
Lemma distinct_ok l : forall m, distinct l m = true -> NoDup l /\ forall p, In (Zpos p) l -> PositiveMap.find p m = None.
Proof.
  induction l as [|x l IH]; intros m H; [split; [constructor|intros p []]|]. cbn in H. destruct x as [|p|]; try discriminate.
  destruct (PositiveMap.find p m) eqn:F; [discriminate|]. destruct (IH _ H) as [A B]. split.
  - constructor; [|exact A]. intros X. specialize (B p X). rewrite PositiveMap.gss in B. discriminate.
  - intros q [E|Hq].
    + injection E as <-. exact F.
    + specialize (B q Hq). destruct (Pos.eq_dec q p) as [-> |N]; [exact F|]. rewrite PositiveMap.gso in B by exact N. exact B.
Qed.
Lemma distinct_nodup l : distinct l (PositiveMap.empty unit) = true -> NoDup l.
Proof. intros H. apply (distinct_ok l _ H). Qed.

(** ** Opcode names *)
Definition code (c : cmd) : Z := match c with HEADER => 1 | TERMINATE => 2 | NOP => 3 | ACK => 4 | TICK t p => 64 * t + p end.
Definition digit (c : Z) : Z := c - 48.
Definition undec (s : text) : Z := fold_left (fun n c => 10 * n + digit c) s 0.
(** inverse of [lower (op_name c)] *)
Definition decode_name (s : text) : option cmd :=
  match split_on 95 s with
  | [_; t; _; p] => Some (TICK (undec t) (undec p))
  | [104 :: _] => Some HEADER | [116 :: _] => Some TERMINATE | [110 :: _] => Some NOP | [97 :: _] => Some ACK
  | _ => None
  end.
Lemma cmd_eqb_spec a b : cmd_eqb a b = true <-> a = b.
Proof.
  destruct a, b; cbn; try (split; intros; congruence). rewrite andb_true_iff, !Z.eqb_eq. split; [intros [-> ->]; reflexivity|intros E; injection E; auto].
Qed.
Definition name_ok (c : cmd) : bool := match decode_name (lower (op_name c)) with Some c' => cmd_eqb c' c | None => false end.
Lemma names_ok : forallb name_ok op_cmds = true.
Proof. vm_compute. reflexivity. Qed.
Lemma name_injective a b : In a op_cmds -> In b op_cmds -> lower (op_name a) = lower (op_name b) -> a = b.
Proof.
  intros Ha Hb E. pose proof names_ok as N. rewrite forallb_forall in N.
  pose proof (N a Ha) as A. pose proof (N b Hb) as B. unfold name_ok in A, B. rewrite E in A.
  destruct (decode_name (lower (op_name b))) as [c|]; [|discriminate]. apply cmd_eqb_spec in A. apply cmd_eqb_spec in B. congruence.
Qed.
Lemma op_cmds_nodup : NoDup op_cmds.
Proof. apply (NoDup_map_inv code). apply distinct_nodup. vm_compute. reflexivity. Qed.

(** ** The certificate *)
(** walks over the symbol lines and the certificate in parallel *)
Fixpoint check (lines : list text) (table : list (cmd * Z)) : bool :=
  match lines with
  | [] => match table with [] => true | _ => false end
  | l :: lines' =>
      is_sym l &&
      match parse_line l with
      | Ok (name, data) =>
          if startswith name (str """op_") then
            match table, dict_get (str "val") data with
            | (c, a) :: table', Some v =>
                text_eqb (slice_4_m1 name) (lower (op_name c)) &&
                match int16 v with Ok a' => a' =? a | Raise _ => false end && check lines' table'
            | _, _ => false
            end
          else check lines' table
      | Raise _ => false
      end
  end.
(** The same with all constants unfolded, for the sake of checkers that evaluate
    by kernel reduction without a virtual machine. *)
Definition check_lits (lits : list lit) (table : list (cmd * Z)) : bool := check (map str lits) table.
Definition check_unfolded := Eval cbv delta in check_lits.
Lemma check_unfolded_eq : check_unfolded = check_lits.
Proof. reflexivity. Qed.
Lemma checked_unfolded : check_unfolded sym_lits op_table = true.
Proof. vm_compute. reflexivity. Qed.
Lemma check_lits_eq lits table : check_lits lits table = check (map str lits) table.
Proof. reflexivity. Qed.
Lemma checked : check sym_lines op_table = true.
Proof. rewrite <- check_lits_eq, <- check_unfolded_eq. exact checked_unfolded. Qed.
Lemma table_cmds : forallb (fun ca => match fst ca with
   TICK t p => existsb (Z.eqb t) tick_values && existsb (Z.eqb p) page_values | _ => true end) op_table = true.
Proof. vm_compute. reflexivity. Qed.
Lemma table_codes : distinct (map (fun ca => code (fst ca)) op_table) (PositiveMap.empty unit) = true.
Proof. vm_compute. reflexivity. Qed.
Lemma table_addrs : distinct (map snd op_table) (PositiveMap.empty unit) = true.
Proof. vm_compute. reflexivity. Qed.
Lemma table_length : length op_table = length op_cmds.
Proof. vm_compute. reflexivity. Qed.
Lemma table_range : forallb (fun ca => (0x803 <=? snd ca) && (snd ca <=? 0xBA72)) op_table = true.
Proof. vm_compute. reflexivity. Qed.

(** The addresses that any listing gives to the opcodes. *)
From Verif Require Import Base BaseFacts OpcodeModel SymbolModel SymbolSpec SymbolProofs SymData SymCert AddrProofs MovieSpec AddrThms.
From Coq Require Import Permutation.
Opaque op_table sym_lits op_cmds.

(** ** Hexadecimal *)
Lemma hex_digit_nth d c : digit_char d c -> hex_digit c = Some d.
Proof.
  intros [H C].
  assert (E : forall s, s = str "0123456789ABCDEF" \/ s = str "0123456789abcdef" -> hex_digit (nth (Z.to_nat d) s 0) = Some d).
  { intros s Hs. assert (E : forallb (fun d => match hex_digit (nth (Z.to_nat d) s 0) with Some x => x =? d | None => false end)
      (map Z.of_nat (seq 0 16)) = true) by (destruct Hs as [-> | ->]; vm_compute; reflexivity).
    rewrite forallb_forall in E. specialize (E d). destruct (hex_digit _) as [x|].
    - f_equal. apply Z.eqb_eq, E. apply in_map_iff. exists (Z.to_nat d). split; [lia|]. apply in_seq. lia.
    - discriminate E. apply in_map_iff. exists (Z.to_nat d). split; [lia|]. apply in_seq. lia. }
  destruct C as [-> | ->]; apply E; auto.
Qed.
Lemma hex_int16 s n : hex_value s n -> int16 s = Ok n.
Proof.
  intros (ds & cs & N & R & -> & ->).
  assert (E : int16 (str "0x" ++ cs) = match cs with [] => Raise ValueError | _ => hex_digits 0 cs end) by reflexivity.
  rewrite E. assert (G : forall acc, hex_digits acc cs = Ok (fold_left (fun a d => 16 * a + d) ds acc)).
  { clear N E. induction R as [|d c ds cs H R IH]; intros acc; [reflexivity|]. cbn [hex_digits fold_left].
    rewrite (hex_digit_nth _ _ H). apply IH. }
  destruct R as [|d c ds cs H R]; [contradiction|]. exact (G 0).
Qed.

(** ** Names *)
Lemma startswith_inv s p : startswith s p = true -> exists r, s = p ++ r.
Proof.
  revert s. induction p as [|c p IH]; intros s H; [exists s; reflexivity|]. destruct s as [|x s]; [discriminate|]. cbn [startswith] in H.
  apply andb_true_iff in H. destruct H as [E H]. apply Z.eqb_eq in E. subst x. destruct (IH s H) as (r & ->). exists r. reflexivity.
Qed.
Lemma op_quoted s : startswith (quoted s) (str """op_") = true -> exists r, s = str "op_" ++ r.
Proof.
  intros H. apply startswith_inv in H. destruct H as (r & E). unfold quoted in E.
  change (str """op_" ++ r) with (34 :: 111 :: 112 :: 95 :: r) in E. injection E as E.
  destruct s as [|a [|b [|c s]]]; cbn [app] in E; try discriminate E. injection E as -> -> -> E. exists s. reflexivity.
Qed.
Lemma slice_quoted r : slice_4_m1 (quoted (str "op_" ++ r)) = r.
Proof. unfold slice_4_m1. change (skipn 4 (quoted (str "op_" ++ r))) with (r ++ [34]). apply removelast_last. Qed.
Lemma op_quoted_starts r : startswith (quoted (str "op_" ++ r)) (str """op_") = true.
Proof. unfold quoted. rewrite <- app_assoc. cbn. destruct (r ++ [34]); reflexivity. Qed.

(** ** Assigning *)
Lemma assign_perm l l' c a : (forall b, In (c, b) l -> b = a) -> Permutation l l' -> forall f, f c = a \/ In (c, a) l -> fold_left set_start l' f c = a.
Proof.
  intros U P. assert (U' : forall b, In (c, b) l' -> b = a) by (intros b H; apply U; eapply Permutation_in; [apply Permutation_sym, P|exact H]).
  intros f H. assert (H' : f c = a \/ In (c, a) l') by (destruct H as [H|H]; [left; exact H|right; eapply Permutation_in; eauto]).
  clear U P H. revert f H'. induction l' as [|[x y] l' IH]; intros f H; [destruct H as [H|[]]; exact H|].
  cbn [fold_left]. apply IH; [intros b Hb; apply U'; right; exact Hb|]. unfold set_start. destruct (cmd_eqb c x) eqn:E.
  - apply cmd_eqb_spec in E. subst x. left. apply U'. left. reflexivity.
  - destruct H as [H|[H|H]]; [left; exact H| |right; exact H]. injection H as -> ->.
    exfalso. assert (cmd_eqb c c = true) by (apply cmd_eqb_spec; reflexivity). congruence.
Qed.
Lemma addrs_in data c a : In (c, a) (opcode_addrs data) <-> In c op_cmds /\ In (lower (op_name c), a) data.
Proof.
  unfold opcode_addrs. rewrite in_flat_map. split.
  - intros ([n s] & I & H). apply in_map_iff in H. destruct H as (op & E & H). injection E as -> ->. apply filter_In in H. destruct H as [H1 H2].
    apply text_eqb_spec in H2. subst n. auto.
  - intros [H1 H2]. exists (lower (op_name c), a). split; [exact H2|]. apply in_map_iff. exists c. split; [reflexivity|].
    apply filter_In. split; [exact H1|apply text_eqb_refl].
Qed.
Lemma nodup_pair {A} (k : text) (a b : A) l : NoDup (map fst l) -> In (k, a) l -> In (k, b) l -> a = b.
Proof.
  induction l as [|[x y] l IH]; intros N H H'; [destruct H|]. inversion N; subst. destruct H as [E|H]; destruct H' as [E'|H'].
  - congruence.
  - injection E as -> ->. exfalso. apply H2. change k with (fst (k, b)). apply in_map. exact H'.
  - injection E' as -> ->. exfalso. apply H2. change k with (fst (k, a)). apply in_map. exact H.
  - eauto.
Qed.
Lemma get_in {A} k (v : A) (d : dict A) : NoDup (map fst d) -> In (k, v) d <-> dict_get k d = Some v.
Proof.
  induction d as [|[k' v'] d IH]; cbn [dict_get map fst]; intros N; [split; [intros []|discriminate]|]. inversion N; subst.
  destruct (text_eqb k k') eqn:E.
  - apply text_eqb_spec in E. subst k'. split; [|intros Q; left; congruence]. intros [Q|Q]; [congruence|].
    exfalso. apply H1. change k with (fst (k, v)). apply in_map. exact Q.
  - rewrite <- IH by assumption. split; [intros [Q|Q]; [|exact Q]|intros Q; right; exact Q]. injection Q as -> ->. rewrite text_eqb_refl in E. discriminate.
Qed.

(** ** The routine addresses in a dictionary of symbols *)
Definition op_entry (nd : text * dict text) (ka : text * Z) : Prop :=
  fst nd = quoted (str "op_" ++ fst ka) /\ exists v, dict_get (str "val") (snd nd) = Some v /\ hex_value v (snd ka).
Lemma op_entries (d : dict (dict text)) :
  (forall name attrs, In (name, attrs) d -> (exists s, name = quoted s) /\
     (forall r, name = quoted (str "op_" ++ r) -> exists v a, dict_get (str "val") attrs = Some v /\ hex_value v a)) ->
  exists table, Forall2 op_entry (filter is_op d) table.
Proof.
  induction d as [|[name attrs] d IH]; intros H; [exists []; constructor|].
  destruct IH as (table & F); [intros n a I; apply H; right; exact I|]. cbn [filter]. unfold is_op at 1. cbn [fst].
  destruct (startswith name (str """op_")) eqn:S; [|exists table; exact F].
  destruct (H name attrs (or_introl eq_refl)) as [(s & ->) V]. destruct (op_quoted s S) as (r & ->).
  destruct (V r eq_refl) as (v & a & V1 & V2). exists ((r, a) :: table). constructor; [|exact F]. split; [reflexivity|]. exists v. auto.
Qed.
Lemma op_data_entries items table : Forall2 op_entry items table ->
  forall acc, opcode_data items acc = Ok (fold_left (fun d '(k, v) => dict_set k v d) table acc).
Proof.
  intros H. induction H as [|[n d] [r a] items table [E (v & V & I)] H IH]; intros acc; [reflexivity|].
  cbn [fst snd] in *. subst n. cbn [opcode_data fold_left]. rewrite op_quoted_starts, V, (hex_int16 _ _ I). cbn [rbind]. rewrite slice_quoted. apply IH.
Qed.
Lemma entries_nodup items table : Forall2 op_entry items table -> NoDup (map fst items) -> NoDup (map fst table).
Proof.
  intros F N. apply (NoDup_map_inv (fun r => quoted (str "op_" ++ r))). rewrite map_map.
  assert (Q : map fst items = map (fun x => quoted (str "op_" ++ fst x)) table); [|rewrite Q in N; exact N].
  clear N. induction F as [|nd ka items table [E _] F IH]; [reflexivity|]. cbn [map]. rewrite IH, E. reflexivity.
Qed.
Lemma entries_in items table r a : Forall2 op_entry items table -> In (r, a) table ->
  exists attrs v, In (quoted (str "op_" ++ r), attrs) items /\ dict_get (str "val") attrs = Some v /\ hex_value v a.
Proof.
  intros F. induction F as [|[n d] ka items table [E (v & V & I)] F IH]; intros H; [destruct H|]. destruct H as [-> |H].
  - cbn [fst snd] in *. subst n. exists d, v. split; [left; reflexivity|auto].
  - destruct (IH H) as (attrs & v' & A & B). exists attrs, v'. split; [right; exact A|exact B].
Qed.
Lemma in_entries items table r attrs : Forall2 op_entry items table -> In (quoted (str "op_" ++ r), attrs) items ->
  exists a v, In (r, a) table /\ dict_get (str "val") attrs = Some v /\ hex_value v a.
Proof.
  intros F. induction F as [|[n d] [k a] items table [E (v & V & I)] F IH]; intros H; [destruct H|]. cbn [fst snd] in *. destruct H as [Q|H].
  - injection Q as -> ->. assert (X : r = k).
    { rewrite <- (slice_quoted r), <- (slice_quoted k). f_equal. exact E. }
    subst k. exists a, v. split; [left; reflexivity|auto].
  - destruct (IH H) as (a' & v' & A & B). exists a', v'. split; [right; exact A|exact B].
Qed.
Lemma hex_value_inj v a b : hex_value v a -> hex_value v b -> a = b.
Proof. intros A B. apply hex_int16 in A. apply hex_int16 in B. congruence. Qed.

Lemma filter_nodup_fst {A B} (f : A * B -> bool) l : NoDup (map fst l) -> NoDup (map fst (filter f l)).
Proof.
  induction l as [|x l IH]; intros N; [constructor|]. inversion N; subst. cbn [filter]. destruct (f x); [|auto]. cbn [map]. constructor; [|auto].
  intros H. apply H1. apply in_map_iff in H. destruct H as (y & E & H). apply filter_In in H. rewrite <- E. apply in_map, H.
Qed.

(** ** Any listing *)
Lemma fill_listing items : player_listing items -> exists start,
  fill_opcode_addresses (join 10 (map item_line items)) =
    (if forallb (fun c => negb (start c =? 0)) op_cmds then Ok start else Raise ValueError) /\
  (forall c a, In c op_cmds -> address_in items c a -> start c = a) /\
  (forall c, In c op_cmds -> start c <> 0 -> address_in items c (start c)).
Proof.
  intros (NE & G & L). set (d := dict_of (symbols_of items)).
  assert (ND : NoDup (map fst d)) by apply nodup_dict_of.
  assert (LV : forall name attrs, In (name, attrs) d <-> last_value name (symbols_of items) = Some attrs).
  { intros name attrs. rewrite (get_in name attrs d ND). unfold d. rewrite get_dict_of. reflexivity. }
  destruct (op_entries d) as (table & F).
  { intros name attrs I. apply L. apply LV in I. apply last_value_in in I. exact I. }
  pose proof (entries_nodup _ _ F (filter_nodup_fst is_op d ND)) as NT.
  exists (assign (sort_addrs (opcode_addrs table))).
  assert (AI : forall c a, In c op_cmds -> In (c, a) (opcode_addrs table) <-> address_in items c a).
  { intros c a Hc. rewrite addrs_in. split.
    - intros [_ I]. destruct (entries_in _ _ _ _ F I) as (attrs & v & A & B & C). apply filter_In in A. destruct A as [A _].
      exists attrs, v. split; [apply LV, A|auto].
    - intros (attrs & v & A & B & C). split; [exact Hc|]. apply LV in A.
      assert (A' : In (symbol_name c, attrs) (filter is_op d)) by (apply filter_In; split; [exact A|apply op_quoted_starts]).
      destruct (in_entries _ _ _ _ F A') as (a' & v' & I & B' & C'). assert (v' = v) by congruence. subst v'. rewrite (hex_value_inj _ _ _ C C'). exact I. }
  assert (UN : forall c a b, In (c, a) (opcode_addrs table) -> In (c, b) (opcode_addrs table) -> b = a).
  { intros c a b A B. apply addrs_in in A. apply addrs_in in B. eapply nodup_pair; [exact NT|apply B|apply A]. }
  assert (AS : forall c a, In (c, a) (opcode_addrs table) -> assign (sort_addrs (opcode_addrs table)) c = a).
  { intros c a A. apply (assign_perm (opcode_addrs table)); [intros b B; eapply UN; eauto|apply sort_perm|right; exact A]. }
  split; [|split].
  - unfold fill_opcode_addresses. rewrite (good_items_parse items NE G). cbn [rbind]. fold d. rewrite op_data_filter, (op_data_entries _ _ F). cbn [rbind].
    fold (dict_of table). rewrite dict_of_nodup by exact NT. reflexivity.
  - intros c a Hc A. apply AS, AI; assumption.
  - intros c Hc NZ. assert (X : exists a, In (c, a) (opcode_addrs table)).
    { destruct (existsb (fun p => cmd_eqb c (fst p)) (opcode_addrs table)) eqn:E.
      - apply existsb_exists in E. destruct E as ([c' a] & I & Q). cbn [fst] in Q. apply cmd_eqb_spec in Q. subst c'. eauto.
      - exfalso. apply NZ. apply (assign_perm (opcode_addrs table)); [|apply sort_perm|left; reflexivity].
        intros b B. exfalso. assert (T : existsb (fun p => cmd_eqb c (fst p)) (opcode_addrs table) = true)
          by (apply existsb_exists; exists (c, b); split; [exact B|apply cmd_eqb_spec; reflexivity]). congruence. }
    destruct X as (a & X). rewrite (AS c a X). apply AI; assumption.
Qed.

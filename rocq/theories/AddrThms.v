(** From the certificate to the addresses every opcode gets. *)
From Verif Require Import Base BaseFacts OpcodeModel SymbolModel SymbolSpec SymbolProofs SymData SymCert AddrProofs MovieSpec.
From Coq Require Import FMapPositive Permutation.

Opaque op_table sym_lits op_cmds.

Definition is_op (kv : text * dict text) : bool := startswith (fst kv) (str """op_").
Definition op_pair (nd : text * dict text) (ca : cmd * Z) : Prop :=
  slice_4_m1 (fst nd) = lower (op_name (fst ca)) /\
  exists v, dict_get (str "val") (snd nd) = Some v /\ int16 v = Ok (snd ca).

Lemma check_ok lines : forall table, check lines table = true ->
  exists pairs, Forall2 (fun l p => is_sym l = true /\ parse_line l = Ok p) lines pairs /\
    Forall2 op_pair (filter is_op pairs) table.
Proof.
  induction lines as [|l lines IH]; intros table H; cbn [check] in H.
  - destruct table; [|discriminate]. exists []. split; constructor.
  - apply andb_true_iff in H. destruct H as [S H]. destruct (parse_line l) as [[name data]|] eqn:P; [|discriminate].
    destruct (startswith name (str """op_")) eqn:E.
    + destruct table as [|[c a] table]; [discriminate|]. destruct (dict_get (str "val") data) as [v|] eqn:V; [|discriminate].
      rewrite !andb_true_iff in H. destruct H as [[H1 H2] H3]. destruct (IH _ H3) as (pairs & F1 & F2).
      exists ((name, data) :: pairs). split; [constructor; auto|]. cbn [filter]. unfold is_op at 1. cbn [fst]. rewrite E.
      constructor; [|exact F2]. apply text_eqb_spec in H1. split; [exact H1|]. exists v. cbn [snd]. split; [exact V|].
      destruct (int16 v); [|discriminate]. apply Z.eqb_eq in H2. congruence.
    + destruct (IH _ H) as (pairs & F1 & F2). exists ((name, data) :: pairs). split; [constructor; auto|].
      cbn [filter]. unfold is_op at 1. cbn [fst]. rewrite E. exact F2.
Qed.

Lemma op_data_filter items : forall acc, opcode_data items acc = opcode_data (filter is_op items) acc.
Proof.
  induction items as [|[n d] items IH]; intros acc; [reflexivity|]. cbn [opcode_data filter]. unfold is_op at 1. cbn [fst].
  destruct (startswith n (str """op_")) eqn:E; [|apply IH]. cbn [opcode_data]. rewrite E.
  destruct (dict_get (str "val") d); [|reflexivity]. destruct (int16 t); cbn [rbind]; auto.
Qed.
Lemma op_data_pairs items table : Forall2 op_pair items table -> Forall (fun nd => is_op nd = true) items ->
  forall acc, opcode_data items acc = Ok (fold_left (fun d '(k, v) => dict_set k v d) (map (fun ca => (lower (op_name (fst ca)), snd ca)) table) acc).
Proof.
  intros H. induction H as [|[n d] [c a] items table [E (v & V & I)] H IH]; intros F acc; [reflexivity|].
  inversion F; subst. cbn [opcode_data map fold_left fst snd] in *. unfold is_op in H2. cbn [fst] in H2. rewrite H2, V, I. cbn [rbind].
  rewrite E. apply IH. assumption.
Qed.

(** ** Certificate facts *)
Lemma table_in_cmds c : In c (map fst op_table) -> In c op_cmds.
Proof.
  intros H. apply in_map_iff in H. destruct H as ([c' a] & <- & H). pose proof table_cmds as T. rewrite forallb_forall in T.
  specialize (T _ H). cbn [fst] in *. Transparent op_cmds. unfold op_cmds. Opaque op_cmds. apply in_or_app.
  destruct c' as [| | | |t p]; [left; cbn; auto|left; cbn; auto|left; cbn; auto|left; cbn; auto|].
  right. apply andb_true_iff in T. destruct T as [X Y]. apply existsb_exists in X. apply existsb_exists in Y.
  destruct X as (t' & X1 & X2). destruct Y as (p' & Y1 & Y2). apply Z.eqb_eq in X2. apply Z.eqb_eq in Y2. subst.
  apply in_flat_map. exists t'. split; [exact X1|]. apply in_map. exact Y1.
Qed.
Lemma nodup_map_of {A B C} (f : A -> B) (g : B -> C) l : NoDup (map (fun x => g (f x)) l) -> NoDup (map f l).
Proof. intros H. apply (NoDup_map_inv g). rewrite map_map. exact H. Qed.
Lemma table_nodup : NoDup (map fst op_table).
Proof. apply (nodup_map_of fst code). apply distinct_nodup, table_codes. Qed.
Lemma table_all c : In c op_cmds -> In c (map fst op_table).
Proof.
  apply NoDup_length_incl.
  - exact table_nodup.
  - rewrite map_length, table_length. apply le_n.
  - intros x. apply table_in_cmds.
Qed.
Lemma nodup_snd_inj {A B} (l : list (A * B)) a a' b : NoDup (map snd l) -> In (a, b) l -> In (a', b) l -> a = a'.
Proof.
  induction l as [|[x y] l IH]; intros N H H'; [destruct H|]. inversion N; subst.
  destruct H as [E|H]; destruct H' as [E'|H'].
  - congruence.
  - injection E as -> ->. exfalso. apply H2. change b with (snd (a', b)). apply in_map. exact H'.
  - injection E' as -> ->. exfalso. apply H2. change b with (snd (a, b)). apply in_map. exact H.
  - eauto.
Qed.
Lemma table_snd_nodup : NoDup (map snd op_table).
Proof. apply distinct_nodup, table_addrs. Qed.

(** ** The opcode a name selects *)
Lemma filter_unique {A} (f : A -> bool) l x : NoDup l -> In x l -> f x = true -> (forall y, In y l -> f y = true -> y = x) -> filter f l = [x].
Proof.
  induction l as [|y l IH]; intros N I F U; [destruct I|]. inversion N; subst. cbn [filter]. destruct (f y) eqn:E.
  - assert (y = x) by (apply U; [left; reflexivity|exact E]). subst y. f_equal.
    destruct (filter f l) as [|z r] eqn:G; [reflexivity|]. exfalso. assert (Z : In z (filter f l)) by (rewrite G; left; reflexivity).
    apply filter_In in Z. destruct Z as [Z1 Z2]. assert (z = x) by (apply U; [right; exact Z1|exact Z2]). subst z. contradiction.
  - destruct I as [-> |I]; [congruence|]. apply IH; auto. intros z Z. apply U. right. exact Z.
Qed.
Lemma addrs_of_table table : (forall c, In c (map fst table) -> In c op_cmds) ->
  opcode_addrs (map (fun ca => (lower (op_name (fst ca)), snd ca)) table) = table.
Proof.
  induction table as [|[c a] table IH]; intros H; [reflexivity|]. unfold opcode_addrs in *. cbn [map flat_map fst snd].
  rewrite (filter_unique _ op_cmds c).
  - cbn [map app]. f_equal. apply IH. intros x Hx. apply H. right. exact Hx.
  - exact op_cmds_nodup.
  - apply H. left. reflexivity.
  - apply text_eqb_refl.
  - intros y Hy E. apply text_eqb_spec in E. apply name_injective; auto. apply H. left. reflexivity.
Qed.

(** ** Sorting and assigning *)
Lemma insert_perm x l : Permutation (x :: l) (insert_addr x l).
Proof.
  induction l as [|y l IH]; cbn [insert_addr]; [apply Permutation_refl|]. destruct (snd x <? snd y); [apply Permutation_refl|].
  eapply Permutation_trans; [apply perm_swap|]. constructor. exact IH.
Qed.
Lemma sort_perm l : Permutation l (sort_addrs l).
Proof.
  unfold sort_addrs. assert (G : forall acc, Permutation (l ++ acc) (fold_left (fun acc x => insert_addr x acc) l acc)).
  { induction l as [|x l IH]; intros acc; [apply Permutation_refl|]. cbn [fold_left app]. eapply Permutation_trans; [|apply IH].
    eapply Permutation_trans; [apply Permutation_middle|]. apply Permutation_app_head, insert_perm. }
  specialize (G []). rewrite app_nil_r in G. exact G.
Qed.
Definition set_start (f : cmd -> Z) (os : cmd * Z) : cmd -> Z := let '(op, start) := os in fun c => if cmd_eqb c op then start else f c.
Lemma assign_fold l c a : NoDup (map fst l) -> In (c, a) l ->
  forall f, fold_left set_start l f c = a.
Proof.
  induction l as [|[x y] l IH]; intros N I f; [destruct I|]. inversion N; subst. cbn [fold_left]. destruct I as [E|I].
  - injection E as -> ->. assert (G : forall l f, ~ In c (map fst l) ->
      fold_left set_start l f c = f c).
    { clear. induction l as [|[x y] l IH]; intros f H; [reflexivity|]. cbn [fold_left]. rewrite IH by (intros X; apply H; right; exact X).
      unfold set_start. destruct (cmd_eqb c x) eqn:E; [|reflexivity]. apply cmd_eqb_spec in E. subst. exfalso. apply H. left. reflexivity. }
    rewrite G by assumption. unfold set_start. replace (cmd_eqb c c) with true; [reflexivity|]. symmetry. apply cmd_eqb_spec. reflexivity.
  - apply IH; assumption.
Qed.
Lemma assign_in l c a : NoDup (map fst l) -> In (c, a) l -> assign (sort_addrs l) c = a.
Proof.
  intros N I. apply (assign_fold (sort_addrs l)).
  - eapply Permutation_NoDup; [|exact N]. apply Permutation_map, sort_perm.
  - eapply Permutation_in; [apply sort_perm|exact I].
Qed.

(** ** All together *)
Definition player_start (c : cmd) : Z := assign (sort_addrs op_table) c.
Lemma start_in c a : In (c, a) op_table -> player_start c = a.
Proof. apply assign_in, table_nodup. Qed.
Lemma start_pair c : In c op_cmds -> In (c, player_start c) op_table.
Proof.
  intros H. apply table_all in H. apply in_map_iff in H. destruct H as ([c' a] & <- & H). cbn [fst]. rewrite (start_in _ _ H). exact H.
Qed.
Lemma start_range c : In c op_cmds -> 0x803 <= player_start c <= 0xBA72.
Proof.
  intros H. apply start_pair in H. pose proof table_range as T. rewrite forallb_forall in T. specialize (T _ H). cbn [snd] in T.
  apply andb_true_iff in T. destruct T as [A B]. apply Z.leb_le in A. apply Z.leb_le in B. split; assumption.
Qed.
Lemma start_injective a b : In a op_cmds -> In b op_cmds -> player_start a = player_start b -> a = b.
Proof.
  intros Ha Hb E. apply start_pair in Ha. apply start_pair in Hb. rewrite E in Ha. exact (nodup_snd_inj _ _ _ _ table_snd_nodup Ha Hb).
Qed.
Lemma fill_checked lines table contents : check lines table = true -> filter is_sym (split_on 10 contents) = lines ->
  NoDup (map fst table) -> (forall c, In c (map fst table) -> In c op_cmds) ->
  fill_opcode_addresses contents =
  (if forallb (fun c => negb (assign (sort_addrs table) c =? 0)) op_cmds then Ok (assign (sort_addrs table)) else Raise ValueError).
Proof.
  intros C L N I. destruct (check_ok _ _ C) as (pairs & F1 & F2).
  assert (NN : NoDup (map (fun c => lower (op_name c)) (map fst table))).
  { clear - N I. induction (map fst table) as [|c l IH]; [constructor|]. inversion N; subst. cbn [map]. constructor.
    + intros X. apply in_map_iff in X. destruct X as (c' & E & X). apply H1. rewrite <- (name_injective c' c); auto.
      * apply I. right. exact X.
      * apply I. left. reflexivity.
    + apply IH; [assumption|]. intros c' Hc'. apply I. right. exact Hc'. }
  assert (ND : NoDup (map fst (filter is_op pairs))).
  { apply (NoDup_map_inv slice_4_m1). rewrite map_map.
    replace (map (fun x => slice_4_m1 (fst x)) (filter is_op pairs)) with (map (fun c => lower (op_name c)) (map fst table)); [exact NN|].
    clear - F2. induction F2 as [|nd ca items table [E _] F IH]; [reflexivity|]. cbn [map]. rewrite IH, E. reflexivity. }
  unfold fill_opcode_addresses, parse. rewrite parse_lines_filter, L, (parse_lines_ok _ _ F1). cbn [rbind].
  match goal with |- context [fold_left ?f pairs []] => change (fold_left f pairs []) with (dict_of pairs) end.
  rewrite op_data_filter.
  assert (FD : filter is_op (dict_of pairs) = filter is_op pairs).
  { etransitivity; [exact (filter_dict_of (fun n => startswith n (str """op_")) pairs)|]. apply dict_of_nodup. exact ND. }
  rewrite FD, (op_data_pairs _ _ F2).
  - cbn [rbind]. match goal with |- context [fold_left ?f ?l []] => change (fold_left f l []) with (dict_of l) end.
    rewrite dict_of_nodup; [rewrite addrs_of_table by exact I; reflexivity|].
    rewrite map_map. cbn [fst]. rewrite map_map in NN. exact NN.
  - apply Forall_forall. intros x Hx. apply filter_In in Hx. apply Hx.
Qed.
Lemma fill_checked_ok lines table contents : check lines table = true -> filter is_sym (split_on 10 contents) = lines ->
  NoDup (map fst table) -> (forall c, In c (map fst table) -> In c op_cmds) ->
  (forall c, In c op_cmds -> assign (sort_addrs table) c <> 0) ->
  fill_opcode_addresses contents = Ok (assign (sort_addrs table)).
Proof.
  intros C L N I P. rewrite (fill_checked lines table contents C L N I).
  assert (F : forallb (fun c => negb (assign (sort_addrs table) c =? 0)) op_cmds = true).
  { apply forallb_forall. intros c Hc. apply negb_true_iff, Z.eqb_neq. apply P, Hc. }
  rewrite F. reflexivity.
Qed.
Lemma start_nonzero c : In c op_cmds -> player_start c <> 0.
Proof. intros H. apply start_range in H. intros E. rewrite E in H. destruct H as [H _]. apply H. reflexivity. Qed.
Lemma fill_player contents : filter is_sym (split_on 10 contents) = sym_lines ->
  fill_opcode_addresses contents = Ok player_start.
Proof. intros L. exact (fill_checked_ok sym_lines op_table contents checked L table_nodup table_in_cmds start_nonzero). Qed.

(** the inverse *)
Definition player_which (a : Z) : option cmd := option_map fst (find (fun ca => snd ca =? a) op_table).
Lemma find_pair (l : list (cmd * Z)) c a : NoDup (map snd l) -> In (c, a) l -> option_map fst (find (fun ca => snd ca =? a) l) = Some c.
Proof.
  induction l as [|[x y] l IH]; intros N I; [destruct I|]. inversion N; subst. cbn [find snd]. destruct I as [E|I].
  - injection E as -> ->. rewrite Z.eqb_refl. reflexivity.
  - destruct (Z.eqb_spec y a) as [-> |NE]; [|apply IH; assumption]. exfalso. apply H1. change a with (snd (c, a)). apply in_map. exact I.
Qed.
Lemma which_start c : In c op_cmds -> player_which (player_start c) = Some c.
Proof. intros H. apply find_pair; [exact table_snd_nodup|apply start_pair, H]. Qed.
Lemma which_some a c : player_which a = Some c -> In c op_cmds /\ player_start c = a.
Proof.
  unfold player_which. destruct (find (fun ca => snd ca =? a) op_table) as [[c' a']|] eqn:F; [|discriminate]. cbn. intros E. injection E as ->.
  apply find_some in F. destruct F as [F E]. cbn in E. apply Z.eqb_eq in E. subst a'. split; [|apply start_in, F].
  apply table_in_cmds. change c with (fst (c, a)). apply in_map. exact F.
Qed.
Lemma address_bytes m n : [Z.shiftr m 8; Z.land m 0xff] = [Z.shiftr n 8; Z.land n 0xff] -> m = n.
Proof.
  intros E. injection E as E1 E2. change 0xff with (Z.ones 8) in E2.
  rewrite !Z.land_ones in E2 by discriminate. rewrite !Z.shiftr_div_pow2 in E1 by discriminate.
  pose proof (Z.div_mod m (2 ^ 8) ltac:(discriminate)). pose proof (Z.div_mod n (2 ^ 8) ltac:(discriminate)). congruence.
Qed.

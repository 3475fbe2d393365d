(** Proofs about symbol_table.parse and the opcode address table. *)
From Verif Require Import Base BaseFacts OpcodeModel SymbolModel SymbolSpec.
From Coq Require Import FMapPositive Permutation.

Lemma text_eqb_spec a b : text_eqb a b = true <-> a = b.
Proof.
  revert b. induction a as [|x a IH]; intros [|y b]; cbn; try (split; intros; congruence).
  rewrite andb_true_iff, Z.eqb_eq. unfold text_eqb in IH. rewrite IH. split; [intros [-> ->]; reflexivity|intros E; injection E; auto].
Qed.
Lemma text_eqb_refl a : text_eqb a a = true.
Proof. apply text_eqb_spec. reflexivity. Qed.
Lemma text_eqb_neq a b : a <> b -> text_eqb a b = false.
Proof. intros H. destruct (text_eqb a b) eqn:E; [apply text_eqb_spec in E; contradiction|reflexivity]. Qed.

(** ** Dictionaries *)
Section Dict.
  Context {A : Type}.
  Implicit Types d : dict A.
  Definition dict_of (l : list (text * A)) : dict A := fold_left (fun d '(k, v) => dict_set k v d) l [].

  Lemma get_set k k' v d : dict_get k (dict_set k' v d) = if text_eqb k k' then Some v else dict_get k d.
  Proof.
    induction d as [|[k2 v2] d IH]; cbn; [reflexivity|].
    destruct (text_eqb k' k2) eqn:E; cbn.
    - apply text_eqb_spec in E. subst k2. destruct (text_eqb k k'); reflexivity.
    - rewrite IH. destruct (text_eqb k k2) eqn:E2; [|reflexivity]. apply text_eqb_spec in E2. subst k2.
      destruct (text_eqb k k') eqn:E3; [|reflexivity]. apply text_eqb_spec in E3. subst k'. rewrite text_eqb_refl in E. discriminate.
  Qed.
  Lemma find_app {B} (f : B -> bool) l l' : find f (l ++ l') = match find f l with Some x => Some x | None => find f l' end.
  Proof. induction l as [|x l IH]; cbn; [reflexivity|]. destruct (f x); auto. Qed.
  Lemma get_fold k l : forall d, dict_get k (fold_left (fun d '(k, v) => dict_set k v d) l d) =
    match last_value k l with Some v => Some v | None => dict_get k d end.
  Proof.
    unfold last_value. induction l as [|[k' v'] l IH]; intros d; [reflexivity|].
    cbn [fold_left rev]. rewrite IH, find_app, get_set. destruct (find _ (rev l)) as [[? ?]|]; [reflexivity|].
    cbn [find fst]. destruct (text_eqb k k'); reflexivity.
  Qed.
  Lemma get_dict_of k l : dict_get k (dict_of l) = last_value k l.
  Proof. unfold dict_of. rewrite get_fold. destruct (last_value k l); reflexivity. Qed.

  Lemma set_new k v d : ~ In k (map fst d) -> dict_set k v d = d ++ [(k, v)].
  Proof.
    induction d as [|[k' v'] d IH]; cbn; [reflexivity|]. intros H. rewrite text_eqb_neq by (intros ->; apply H; auto). f_equal. apply IH. tauto.
  Qed.
  Lemma fold_nodup l : forall d, NoDup (map fst d ++ map fst l) -> fold_left (fun d '(k, v) => dict_set k v d) l d = d ++ l.
  Proof.
    induction l as [|[k v] l IH]; intros d H; cbn [fold_left]; [rewrite app_nil_r; reflexivity|].
    rewrite set_new.
    - rewrite IH.
      + rewrite <- app_assoc. reflexivity.
      + rewrite map_app, <- app_assoc. exact H.
    - apply NoDup_remove_2 in H. intros X. apply H, in_or_app. auto.
  Qed.
  Lemma dict_of_nodup l : NoDup (map fst l) -> dict_of l = l.
  Proof. intros H. apply (fold_nodup l []). exact H. Qed.

  Lemma filter_set (p : text -> bool) k v d :
    filter (fun kv => p (fst kv)) (dict_set k v d) =
    if p k then dict_set k v (filter (fun kv => p (fst kv)) d) else filter (fun kv => p (fst kv)) d.
  Proof.
    induction d as [|[k' v'] d IH]; cbn; [destruct (p k); reflexivity|].
    destruct (text_eqb k k') eqn:E; cbn.
    - apply text_eqb_spec in E. subst k'. destruct (p k) eqn:P; [|reflexivity]. cbn. rewrite text_eqb_refl. reflexivity.
    - rewrite IH. destruct (p k'); destruct (p k); try reflexivity. cbn. rewrite E. reflexivity.
  Qed.
  Lemma filter_dict_of (p : text -> bool) l :
    filter (fun kv => p (fst kv)) (dict_of l) = dict_of (filter (fun kv => p (fst kv)) l).
  Proof.
    unfold dict_of. change (@nil (text * A)) with (filter (fun kv : text * A => p (fst kv)) []) at 2.
    generalize (@nil (text * A)). induction l as [|[k v] l IH]; intros d; cbn [fold_left filter fst]; [reflexivity|].
    rewrite IH, filter_set. destruct (p k); reflexivity.
  Qed.
  Lemma filter_key_set_in k v d x : In x (map fst (dict_set k v d)) <-> x = k \/ In x (map fst d).
  Proof.
    induction d as [|[k' v'] d IH]; cbn; [firstorder|]. destruct (text_eqb k k') eqn:E; cbn.
    - apply text_eqb_spec in E. subst k'. firstorder.
    - rewrite IH. firstorder.
  Qed.
  Lemma nodup_set k v d : NoDup (map fst d) -> NoDup (map fst (dict_set k v d)).
  Proof.
    induction d as [|[k' v'] d IH]; cbn; intros H; [repeat constructor; auto|]. inversion H; subst.
    destruct (text_eqb k k') eqn:E; cbn; [constructor; auto|]. constructor; [|auto].
    rewrite filter_key_set_in. intros [-> |X]; [rewrite text_eqb_refl in E; discriminate|auto].
  Qed.
  Lemma nodup_dict_of l : NoDup (map fst (dict_of l)).
  Proof.
    unfold dict_of. assert (G : forall d, NoDup (map fst d) -> NoDup (map fst (fold_left (fun d '(k, v) => dict_set k v d) l d))).
    { induction l as [|[k v] l IH]; intros d H; cbn [fold_left]; [exact H|]. apply IH, nodup_set, H. }
    apply G. constructor.
  Qed.
End Dict.

(** ** Lines *)
Lemma parse_lines_filter lines : forall d, parse_lines lines d = parse_lines (filter is_sym lines) d.
Proof.
  induction lines as [|l lines IH]; intros d; [reflexivity|]. cbn [parse_lines filter]. unfold is_sym at 1.
  destruct (startswith l (str "sym")) eqn:E; cbn [negb].
  - cbn [parse_lines]. rewrite E. cbn [negb]. destruct (parse_line l) as [[n s]|]; cbn [rbind]; auto.
  - apply IH.
Qed.
(** all lines are symbol lines that parse to [pairs] *)
Lemma parse_lines_ok lines pairs : Forall2 (fun l p => is_sym l = true /\ parse_line l = Ok p) lines pairs ->
  forall d, parse_lines lines d = Ok (fold_left (fun d '(k, v) => dict_set k v d) pairs d).
Proof.
  intros H. induction H as [|l [n s] lines pairs [S P] H IH]; intros d; [reflexivity|].
  cbn [parse_lines fold_left]. unfold is_sym in S. rewrite S. cbn [negb]. rewrite P. cbn [rbind]. apply IH.
Qed.
(** conversely *)
Lemma parse_lines_inv lines : forall d d', parse_lines lines d = Ok d' ->
  exists pairs, Forall2 (fun l p => is_sym l = true /\ parse_line l = Ok p) (filter is_sym lines) pairs /\
    d' = fold_left (fun d '(k, v) => dict_set k v d) pairs d.
Proof.
  induction lines as [|l lines IH]; intros d d' H; cbn [parse_lines filter] in *.
  - injection H as <-. exists []. split; [constructor|reflexivity].
  - unfold is_sym at 2. destruct (startswith l (str "sym")) eqn:E; cbn [negb] in H.
    + destruct (parse_line l) as [[n s]|] eqn:P; [|discriminate]. cbn [rbind] in H. destruct (IH _ _ H) as (pairs & F & ->).
      exists ((n, s) :: pairs). split; [constructor; auto|reflexivity].
    + apply IH, H.
Qed.

(** ** Printing and splitting *)
Definition avoids (sep : Z) (s : text) : Prop := ~ In sep s.
Lemma rev_append_nil {A} (l : list A) : rev_append l [] = rev l.
Proof. rewrite rev_append_rev. apply app_nil_r. Qed.
Lemma split_from_single sep s : forall f, avoids sep s -> split_from sep f s = [rev f ++ s].
Proof.
  induction s as [|c s IH]; intros f H; cbn [split_from]; [rewrite rev_append_nil, app_nil_r; reflexivity|].
  destruct (Z.eqb_spec c sep) as [-> |N]; [exfalso; apply H; left; reflexivity|].
  rewrite IH; [cbn [rev]; rewrite <- app_assoc; reflexivity|]. intros X. apply H. right. exact X.
Qed.
Lemma split_from_cons sep s r : forall f, avoids sep s -> split_from sep f (s ++ sep :: r) = (rev f ++ s) :: split_on sep r.
Proof.
  induction s as [|c s IH]; intros f H; cbn [app split_from]; [rewrite Z.eqb_refl, rev_append_nil, app_nil_r; reflexivity|].
  destruct (Z.eqb_spec c sep) as [-> |N]; [exfalso; apply H; left; reflexivity|].
  rewrite IH; [cbn [rev]; rewrite <- app_assoc; reflexivity|]. intros X. apply H. right. exact X.
Qed.
Lemma split_on_single sep s : avoids sep s -> split_on sep s = [s].
Proof. intros H. apply (split_from_single sep s [] H). Qed.
Lemma split_on_cons sep s r : avoids sep s -> split_on sep (s ++ sep :: r) = s :: split_on sep r.
Proof. intros H. apply (split_from_cons sep s r [] H). Qed.
Lemma split_join sep l : l <> [] -> Forall (avoids sep) l -> split_on sep (join sep l) = l.
Proof.
  induction l as [|x l IH]; [contradiction|]. intros _ H. inversion H; subst. destruct l as [|y l].
  - apply split_on_single. assumption.
  - change (join sep (x :: y :: l)) with (x ++ sep :: join sep (y :: l)). rewrite split_on_cons by assumption. f_equal. apply IH; [discriminate|assumption].
Qed.
Definition spaceless (s : text) : Prop := forall c, In c s -> is_space c = false.
Lemma split_ws_word s : forall f, spaceless s -> split_ws_from f s = match rev f ++ s with [] => [] | w => [w] end.
Proof.
  induction s as [|c s IH]; intros f H; cbn [split_ws_from].
  - rewrite app_nil_r. destruct f as [|x f]; [reflexivity|]. rewrite rev_append_nil. destruct (rev (x :: f)) eqn:E; [|reflexivity].
    apply (f_equal (@length Z)) in E. rewrite rev_length in E. discriminate.
  - rewrite (H c) by (left; reflexivity). rewrite IH by (intros x Hx; apply H; right; exact Hx). cbn [rev]. rewrite <- app_assoc. reflexivity.
Qed.
Lemma split_ws_cons s sp r : forall f, spaceless s -> is_space sp = true -> rev f ++ s <> [] ->
  split_ws_from f (s ++ sp :: r) = (rev f ++ s) :: split_ws_from [] r.
Proof.
  induction s as [|c s IH]; intros f H HS N; cbn [app split_ws_from].
  - rewrite HS. rewrite app_nil_r in *. destruct f; [exfalso; apply N; reflexivity|]. rewrite rev_append_nil. reflexivity.
  - rewrite (H c) by (left; reflexivity). rewrite IH; auto.
    + cbn [rev]. rewrite <- app_assoc. reflexivity.
    + intros x Hx. apply H. right. exact Hx.
    + cbn [rev]. intros E. apply (f_equal (@length Z)) in E. rewrite !app_length in E. cbn in E. lia.
Qed.

Lemma field_avoids kv : plain (fst kv) /\ plain (snd kv) -> avoids 44 (print_field kv) /\ spaceless (print_field kv) /\ avoids 10 (print_field kv) /\
  split_on 61 (print_field kv) = [fst kv; snd kv].
Proof.
  intros [A B]. assert (G : forall c, In c (print_field kv) -> (is_space c = false /\ c <> 44) ).
  { intros c H. unfold print_field in H. apply in_app_or in H. destruct H as [H|[<-|H]]; [split; apply (A c H)|split; [reflexivity|discriminate]|split; apply (B c H)]. }
  split; [intros X; destruct (G _ X); congruence|]. split; [intros c H; apply G, H|].
  split; [intros X; destruct (G _ X) as [Y _]; discriminate Y|].
  unfold print_field. rewrite split_on_cons by (intros X; destruct (A _ X) as (_ & _ & Y); congruence).
  rewrite split_on_single by (intros X; destruct (B _ X) as (_ & _ & Y); congruence). reflexivity.
Qed.
Lemma join_in sep l c : In c (join sep l) -> c = sep \/ exists s, In s l /\ In c s.
Proof.
  induction l as [|x l IH]; [intros []|]. destruct l as [|y l].
  - intros H. right. exists x. split; [left; reflexivity|exact H].
  - change (join sep (x :: y :: l)) with (x ++ sep :: join sep (y :: l)). intros H. apply in_app_or in H.
    destruct H as [H|[<-|H]]; [right; exists x; split; [left; reflexivity|exact H]|left; reflexivity|].
    destruct (IH H) as [E|(s & S1 & S2)]; [auto|]. right. exists s. split; [right; exact S1|exact S2].
Qed.
Lemma parse_fields_ok attrs : Forall (fun kv => plain (fst kv) /\ plain (snd kv)) attrs ->
  forall d, parse_fields (map print_field attrs) d = Ok (fold_left (fun d '(k, v) => dict_set k v d) attrs d).
Proof.
  intros H. induction H as [|[k v] attrs P H IH]; intros d; [reflexivity|].
  cbn [map parse_fields fold_left]. destruct (field_avoids _ P) as (_ & _ & _ & ->). apply IH.
Qed.
Lemma parse_printed attrs name : plain_attrs attrs -> dict_get (str "name") attrs = Some name ->
  parse_line (print_symbol attrs) = Ok (name, attrs).
Proof.
  intros (N & ND & P) G. unfold parse_line, print_symbol, split_ws.
  assert (SP : spaceless (join 44 (map print_field attrs))).
  { intros c H. apply join_in in H. destruct H as [-> |(s & S1 & S2)]; [reflexivity|].
    apply in_map_iff in S1. destruct S1 as (kv & <- & S1). apply (field_avoids kv (proj1 (Forall_forall _ _) P kv S1)), S2. }
  rewrite (split_ws_cons (str "sym") 9 _ []).
  - rewrite split_ws_word by exact SP. cbn [rev app].
    assert (NE : exists c r, join 44 (map print_field attrs) = c :: r).
    { destruct attrs as [|[k v] attrs]; [contradiction|]. cbn [map join]. destruct (map print_field attrs); unfold print_field; cbn [fst snd];
      destruct k as [|x k]; cbn [app]; eauto. }
    destruct NE as (c & r & NE). rewrite NE. rewrite <- NE.
    rewrite split_join.
    + rewrite parse_fields_ok by exact P. cbn [rbind]. fold (dict_of attrs). rewrite dict_of_nodup by exact ND. rewrite G. reflexivity.
    + destruct attrs; [contradiction|discriminate].
    + apply Forall_forall. intros s Hs. apply in_map_iff in Hs. destruct Hs as (kv & <- & S1). apply (field_avoids kv (proj1 (Forall_forall _ _) P kv S1)).
  - intros c Hc. cbn in Hc. repeat destruct Hc as [<-|Hc]; try reflexivity. destruct Hc.
  - reflexivity.
  - discriminate.
Qed.
Lemma printed_line attrs : plain_attrs attrs -> avoids 10 (print_symbol attrs) /\ is_sym (print_symbol attrs) = true.
Proof.
  intros (_ & _ & P). split.
  - intros H. unfold print_symbol in H. apply in_app_or in H. destruct H as [H|[H|H]]; [|discriminate|].
    + cbn in H. repeat destruct H as [H|H]; try discriminate; destruct H.
    + apply join_in in H. destruct H as [H|(s & S1 & S2)]; [discriminate|]. apply in_map_iff in S1. destruct S1 as (kv & <- & S1).
      apply (field_avoids kv (proj1 (Forall_forall _ _) P kv S1)) in S2. exact S2.
  - unfold is_sym, print_symbol. reflexivity.
Qed.

(** ** Whole files *)
Lemma split_from_avoids sep s : forall f, avoids sep f -> Forall (avoids sep) (split_from sep f s).
Proof.
  assert (R : forall f, avoids sep f -> avoids sep (rev_append f [])).
  { intros f H X. rewrite rev_append_nil in X. apply in_rev in X. exact (H X). }
  induction s as [|c s IH]; intros f H; cbn [split_from]; [constructor; [apply R, H|constructor]|].
  destruct (Z.eqb_spec c sep) as [-> |N].
  - constructor; [apply R, H|]. apply IH. intros [].
  - apply IH. intros [X|X]; [congruence|exact (H X)].
Qed.
Lemma filter_idem {A} (f : A -> bool) l : filter f (filter f l) = filter f l.
Proof. induction l as [|x l IH]; [reflexivity|]. cbn. destruct (f x) eqn:E; [|exact IH]. cbn. rewrite E, IH. reflexivity. Qed.
Lemma parse_syms_only contents : parse contents = parse (join 10 (filter is_sym (split_on 10 contents))).
Proof.
  unfold parse at 1. rewrite parse_lines_filter. pose proof (split_from_avoids 10 contents [] (fun x => x)) as A. fold (split_on 10 contents) in A.
  destruct (filter is_sym (split_on 10 contents)) as [|l ls] eqn:E; [reflexivity|].
  unfold parse. rewrite split_join; [reflexivity|discriminate|].
  rewrite <- E. apply Forall_forall. intros x Hx. apply filter_In in Hx. rewrite Forall_forall in A. apply A, Hx.
Qed.
Lemma good_items_parse items : items <> [] -> Forall good_item items ->
  parse (join 10 (map item_line items)) = Ok (dict_of (symbols_of items)).
Proof.
  intros NE G. unfold parse. rewrite split_join.
  - rewrite parse_lines_filter. apply parse_lines_ok. clear NE. induction G as [|i items H G IH]; [constructor|].
    cbn [map filter symbols_of flat_map]. fold (symbols_of items). destruct i as [name attrs|l]; cbn [good_item item_line] in *.
    + destruct H as [P N]. destruct (printed_line _ P) as [_ S]. rewrite S. cbn [app]. constructor; [|exact IH]. split; [exact S|apply parse_printed; assumption].
    + destruct H as [_ ->]. exact IH.
  - destruct items; [contradiction|discriminate].
  - apply Forall_forall. intros x Hx. apply in_map_iff in Hx. destruct Hx as (i & <- & Hi). rewrite Forall_forall in G. specialize (G i Hi).
    destruct i as [name attrs|l]; cbn in *; [apply printed_line, G|apply G].
Qed.
(** ** Which lines parse *)
Lemma join_split sep s : join sep (split_on sep s) = s.
Proof.
  assert (G : forall s f, split_from sep f s <> [] /\ join sep (split_from sep f s) = rev f ++ s).
  { clear s. induction s as [|c s IH]; intros f; cbn [split_from]; [split; [discriminate|]; rewrite rev_append_nil, app_nil_r; reflexivity|].
    destruct (Z.eqb_spec c sep) as [-> |N].
    - split; [discriminate|]. destruct (IH []) as [A B]. destruct (split_from sep [] s) as [|x l] eqn:E; [contradiction|].
      change (rev_append f [] ++ sep :: join sep (x :: l) = rev f ++ sep :: s). rewrite B, rev_append_nil. reflexivity.
    - destruct (IH (c :: f)) as [A B]. split; [exact A|]. rewrite B. cbn [rev]. rewrite <- app_assoc. reflexivity. }
  apply (G s []).
Qed.
Lemma split_nonempty sep s : split_on sep s <> [].
Proof. unfold split_on. generalize (@nil Z). induction s as [|c s IH]; intros f; cbn [split_from]; [discriminate|]. destruct (c =? sep); [discriminate|apply IH]. Qed.
Lemma split_pair kv k v : split_on 61 kv = [k; v] <-> kv = k ++ 61 :: v /\ avoids 61 k /\ avoids 61 v.
Proof.
  split.
  - intros E. pose proof (join_split 61 kv) as J. pose proof (split_from_avoids 61 kv [] (fun x => x)) as A. fold (split_on 61 kv) in A.
    rewrite E in *. inversion A as [|? ? A1 A2]; subst. inversion A2; subst. cbn [join]. auto.
  - intros (-> & A & B). rewrite split_on_cons, split_on_single by assumption. reflexivity.
Qed.
Lemma span {A} (p : A -> bool) (l : list A) : exists a b, l = a ++ b /\ (forall c, In c a -> p c = true) /\ (forall c r, b = c :: r -> p c = false).
Proof.
  induction l as [|x l (a & b & -> & H1 & H2)]; [exists [], []; repeat split; [intros ? []|discriminate]|].
  destruct (p x) eqn:E.
  - exists (x :: a), b. repeat split; [|exact H2]. intros c [<-|H]; auto.
  - exists [], (x :: a ++ b). repeat split; [intros ? []|]. intros c r Q. injection Q as <- _. exact E.
Qed.
Lemma split_ws_gap gap r : (forall c, In c gap -> is_space c = true) -> split_ws_from [] (gap ++ r) = split_ws_from [] r.
Proof.
  induction gap as [|c gap IH]; intros H; [reflexivity|]. cbn [app split_ws_from]. rewrite (H c) by (left; reflexivity). apply IH. intros x Hx. apply H. right. exact Hx.
Qed.
Lemma split_ws_first w r : spaceless w -> w <> [] -> (forall c r', r = c :: r' -> is_space c = true) -> exists ws, split_ws_from [] (w ++ r) = w :: ws.
Proof.
  intros S N H. destruct r as [|c r].
  - rewrite app_nil_r, split_ws_word by exact S. cbn [rev app]. destruct w; [contradiction|]. eauto.
  - rewrite split_ws_cons by (auto; eapply H; reflexivity). eauto.
Qed.
Lemma parse_fields_inv fields : forall d d', parse_fields fields d = Ok d' ->
  exists pairs, Forall2 (fun kv p => split_on 61 kv = [fst p; snd p]) fields pairs /\ d' = fold_left (fun d '(k, v) => dict_set k v d) pairs d.
Proof.
  induction fields as [|kv fields IH]; intros d d' H; cbn [parse_fields] in H; [injection H as <-; exists []; split; [constructor|reflexivity]|].
  destruct (split_on 61 kv) as [|k [|v [|]]] eqn:E; try discriminate. destruct (IH _ _ H) as (pairs & F & ->).
  exists ((k, v) :: pairs). split; [constructor; [exact E|exact F]|reflexivity].
Qed.
Lemma parse_fields_pairs fields pairs : Forall2 (fun kv p => split_on 61 kv = [fst p; snd p]) fields pairs ->
  forall d, parse_fields fields d = Ok (fold_left (fun d '(k, v) => dict_set k v d) pairs d).
Proof.
  intros H. induction H as [|kv [k v] fields pairs E H IH]; intros d; [reflexivity|]. cbn [parse_fields fst snd fold_left] in *. rewrite E. apply IH.
Qed.
Lemma last_value_in {A} k (v : A) l : last_value k l = Some v -> In (k, v) l.
Proof.
  unfold last_value. destruct (find _ (rev l)) as [[k' v']|] eqn:E; [|discriminate]. intros Q. injection Q as ->.
  apply find_some in E. destruct E as [E1 E2]. cbn [fst] in E2. apply text_eqb_spec in E2. subst k'. apply in_rev, E1.
Qed.
Lemma in_last_value {A} k (v : A) l : In (k, v) l -> exists v', last_value k l = Some v'.
Proof.
  intros H. unfold last_value. destruct (find _ (rev l)) as [[k' v']|] eqn:E; [eauto|]. exfalso.
  apply in_rev in H. pose proof (find_none _ _ E _ H) as N. cbn [fst] in N. rewrite text_eqb_refl in N. discriminate.
Qed.
Lemma well_formed_parses line : is_sym line = true -> (exists p, parse_line line = Ok p) <-> well_formed line.
Proof.
  intros SY. split.
  - intros (p & H). destruct (span (fun c => negb (is_space c)) line) as (first & b1 & -> & S1 & E1).
    destruct (span is_space b1) as (gap & b2 & -> & S2 & E2). destruct (span (fun c => negb (is_space c)) b2) as (w & after & -> & S3 & E3).
    assert (F1 : spaceless first) by (intros c Hc; apply negb_true_iff, S1, Hc).
    assert (F3 : spaceless w) by (intros c Hc; apply negb_true_iff, S3, Hc).
    assert (N1 : first <> []).
    { intros ->. unfold is_sym in SY. destruct gap as [|g gap].
      - destruct w as [|x w]; [destruct after as [|y r]; [discriminate SY|]|].
        + pose proof (E1 y r eq_refl) as E. pose proof (E2 y r eq_refl) as E'. apply negb_false_iff in E. congruence.
        + pose proof (E1 x (w ++ after) eq_refl) as E. apply negb_false_iff in E. rewrite (F3 x) in E by (left; reflexivity). discriminate.
      - pose proof (S2 g (or_introl eq_refl)) as G. cbn in SY. destruct (Z.eqb_spec g 115) as [-> |]; [discriminate G|discriminate SY]. }
    assert (NG : gap <> []).
    { intros ->. cbn [app] in *. assert (X : w ++ after = []).
      { destruct (w ++ after) as [|x r]; [reflexivity|]. pose proof (E1 x r eq_refl) as A. pose proof (E2 x r eq_refl) as B. apply negb_false_iff in A. congruence. }
      unfold parse_line, split_ws in H. rewrite X, app_nil_r, split_ws_word in H by exact F1. cbn [rev app] in H. destruct first; discriminate H. }
    assert (SW : split_ws (first ++ gap ++ w ++ after) = first :: split_ws_from [] (w ++ after)).
    { unfold split_ws. destruct gap as [|g gap]; [contradiction|]. change ((g :: gap) ++ w ++ after) with (g :: gap ++ w ++ after).
      rewrite (split_ws_cons first g _ [] F1 (S2 g (or_introl eq_refl)) N1). cbn [rev app]. f_equal. apply split_ws_gap. intros c Hc. apply S2. right. exact Hc. }
    unfold parse_line in H. rewrite SW in H.
    assert (EA : forall c r', after = c :: r' -> is_space c = true) by (intros c r' Q; apply negb_false_iff, (E3 c r' Q)).
    destruct w as [|x w].
    { destruct after as [|y r]; [discriminate H|]. pose proof (EA y r eq_refl) as A. pose proof (E2 y r eq_refl) as B. congruence. }
    destruct (split_ws_first (x :: w) after F3 ltac:(discriminate) EA) as (ws & W). rewrite W in H.
    destruct (parse_fields (split_on 44 (x :: w)) []) as [sym|] eqn:PF; [|discriminate]. cbn [rbind] in H.
    destruct (parse_fields_inv _ _ _ PF) as (pairs & F & ->).
    exists first, gap, (split_on 44 (x :: w)), after. rewrite join_split. split; [reflexivity|]. split; [split; assumption|]. split; [split; assumption|].
    split; [|split; [exact EA|]].
    + split; [apply split_nonempty|]. split; [|exact F3]. pose proof (split_from_avoids 44 (x :: w) [] (fun z => z)) as A. fold (split_on 44 (x :: w)) in A.
      clear - F A. induction F as [|kv [k v] fields pairs E F IH]; [constructor|]. inversion A; subst. constructor; [|auto]. split; [assumption|].
      exists k, v. apply split_pair in E. exact E.
    + fold (dict_of pairs) in H. rewrite get_dict_of in H. destruct (last_value (str "name") pairs) as [v|] eqn:L; [|discriminate].
      exists v. apply last_value_in in L. clear - F L. induction F as [|kv q fields pairs E F IH]; [destruct L|]. destruct L as [-> |L].
      * left. apply split_pair in E. apply E.
      * right. apply IH, L.
  - intros (first & gap & fields & after & -> & (N1 & F1) & (NG & S2) & (NF & FF & F3) & EA & v & HV).
    assert (NW : join 44 fields <> []).
    { destruct fields as [|kv fields]; [contradiction|]. inversion FF as [|? ? (_ & k & v' & E & _) FF']; subst. destruct fields; cbn [join]; destruct k; discriminate. }
    assert (SW : split_ws (first ++ gap ++ join 44 fields ++ after) = first :: split_ws_from [] (join 44 fields ++ after)).
    { unfold split_ws. destruct gap as [|g gap]; [contradiction|]. change ((g :: gap) ++ join 44 fields ++ after) with (g :: gap ++ join 44 fields ++ after).
      rewrite (split_ws_cons first g _ [] F1 (S2 g (or_introl eq_refl)) N1). cbn [rev app]. f_equal. apply split_ws_gap. intros c Hc. apply S2. right. exact Hc. }
    destruct (split_ws_first (join 44 fields) after F3 NW EA) as (ws & W).
    unfold parse_line. rewrite SW, W. rewrite split_join.
    + assert (P : exists pairs, Forall2 (fun kv p => split_on 61 kv = [fst p; snd p]) fields pairs).
      { clear - FF. induction FF as [|kv fields (_ & k & v & E) FF (pairs & IH)]; [exists []; constructor|].
        exists ((k, v) :: pairs). constructor; [apply split_pair, E|exact IH]. }
      destruct P as (pairs & P). rewrite (parse_fields_pairs _ _ P). cbn [rbind]. fold (dict_of pairs). rewrite get_dict_of.
      assert (I : In (str "name", v) pairs).
      { clear - P HV. induction P as [|kv [k v'] fields pairs E P IH]; [destruct HV|]. destruct HV as [-> |HV]; [left|right; apply IH, HV].
        cbn [fst snd] in E. rewrite split_on_cons in E by (intros X; cbn in X; repeat destruct X as [X|X]; try discriminate X; destruct X). pose proof (f_equal (hd []) E) as E1. pose proof (f_equal (@tl text) E) as E2. cbn [hd tl] in E1, E2. clear E. rewrite <- E1. f_equal.
        assert (J : join 61 (split_on 61 v) = v) by apply join_split. rewrite E2 in J. cbn [join] in J. exact J. }
      destruct (@in_last_value text _ _ _ I) as (z & ->). eauto.
    + exact NF.
    + eapply Forall_impl; [|exact FF]. intros kv (A & _). exact A.
Qed.
Lemma parse_total contents : (exists d, parse contents = Ok d) <->
  forall l, In l (split_on 10 contents) -> is_sym l = true -> ~ malformed l.
Proof.
  unfold parse. generalize (split_on 10 contents) as lines. intros lines. split.
  - intros (d & H) l L S M. apply parse_lines_inv in H. destruct H as (pairs & F & _).
    assert (X : In l (filter is_sym lines)) by (apply filter_In; auto).
    apply M. apply well_formed_parses; [exact S|]. clear - F X. induction F as [|l' p ls pairs [_ P] F IH]; [destruct X|]. destruct X as [-> |X]; eauto.
  - generalize (@nil (text * dict text)). induction lines as [|l lines IH]; intros d H; cbn [parse_lines]; [eauto|].
    destruct (startswith l (str "sym")) eqn:E; cbn [negb]; [|apply IH; intros x X; apply H; right; exact X].
    destruct (parse_line l) as [[n s]|e] eqn:P; cbn [rbind]; [apply IH; intros x X; apply H; right; exact X|].
    exfalso. apply (H l); [left; reflexivity|exact E|]. intros Q. apply well_formed_parses in Q; [|exact E]. destruct Q as (p & Q). congruence.
Qed.

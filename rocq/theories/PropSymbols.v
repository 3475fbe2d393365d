(** Properties C38 and C52: the player's symbol file. *)
From Verif Require Import Base BaseFacts OpcodeModel MovieModel MovieSpec SymbolModel SymbolSpec SymbolProofs SymData SymCert AddrProofs AddrThms ListingProofs.
Opaque op_table sym_lits op_cmds.

(** C52 *)
(** Only the lines that start with "sym" count. *)
Theorem C52_other_lines_ignored : forall contents,
  parse contents = parse (join 10 (filter is_sym (split_on 10 contents))).
Proof. exact parse_syms_only. Qed.
Print Assumptions C52_other_lines_ignored.

(** White space, as the theorems below mean it, is what Unicode calls so (the
    characters for which Python's [str.isspace] holds). *)
Theorem C52_white_space : forall c, 0 <= c -> (is_space c = true <->
  In c [9; 10; 11; 12; 13; 28; 29; 30; 31; 32; 133; 160; 5760; 8192; 8193; 8194; 8195; 8196; 8197; 8198; 8199; 8200; 8201; 8202;
        8232; 8233; 8239; 8287; 12288]).
Proof.
  intros c C. unfold is_space. split.
  - intros H. cbn [In]. destruct (c <=? 32) eqn:E; [|destruct (c <? 133) eqn:E2; [discriminate|]]; lia.
  - cbn [In]. intros H. repeat (destruct H as [<-|H]; [reflexivity|]). destruct H.
Qed.
Print Assumptions C52_white_space.

(** Every symbol has the attributes of the last line that defines it, in between
    any other lines. *)
Theorem C52_last_definition : forall items, items <> [] -> Forall good_item items ->
  exists d, parse (join 10 (map item_line items)) = Ok d /\
    forall name, dict_get name d = last_value name (symbols_of items).
Proof.
  intros items N G. exists (dict_of (symbols_of items)). split; [apply good_items_parse; assumption|].
  intros name. apply get_dict_of.
Qed.
Print Assumptions C52_last_definition.

(** Printing and parsing gives the same list back, in the same order. *)
Theorem C52_round_trip : forall items, items <> [] -> Forall good_item items -> NoDup (map fst (symbols_of items)) ->
  parse (join 10 (map item_line items)) = Ok (symbols_of items).
Proof.
  intros items N G D. rewrite good_items_parse by assumption. rewrite dict_of_nodup by exact D. reflexivity.
Qed.
Print Assumptions C52_round_trip.

(** Parsing fails exactly if some symbol line is malformed. *)
Theorem C52_total : forall contents, (exists d, parse contents = Ok d) <->
  forall l, In l (split_on 10 contents) -> is_sym l = true -> ~ malformed l.
Proof. exact parse_total. Qed.
Print Assumptions C52_total.

Definition items_ex : list item :=
  [Other (str "version	major=2,minor=0"); Symbol (str """a""") [(str "id", str "0"); (str "name", str """a"""); (str "val", str "0x1000")];
   Other []; Symbol (str """b""") [(str "name", str """b""")]; Symbol (str """a""") [(str "name", str """a"""); (str "val", str "0x2000")]].
Example items_good : Forall good_item items_ex /\ items_ex <> [] /\ NoDup (map fst (symbols_of (firstn 4 items_ex))) /\
  last_value (str """a""") (symbols_of items_ex) = Some [(str "name", str """a"""); (str "val", str "0x2000")] /\
  malformed (str "sym	id") /\ is_sym (str "sym	id") = true.
Proof.
  assert (PL : forall s, forallb (fun c => negb (is_space c) && negb (c =? 44) && negb (c =? 61)) s = true -> plain s).
  { intros s H c Hc. rewrite forallb_forall in H. specialize (H c Hc). rewrite !andb_true_iff, !negb_true_iff, !Z.eqb_neq in H. tauto. }
  split; [|split; [discriminate|split; [|split; [reflexivity|split; [intros W; apply well_formed_parses in W; [destruct W as (p & H); discriminate H|reflexivity]|reflexivity]]]]].
  - repeat (apply Forall_cons || apply Forall_nil); cbn [good_item].
    all: try (split; [intros X; cbn in X; repeat destruct X as [X|X]; try discriminate; destruct X|reflexivity]).
    all: split; [|reflexivity]; split; [discriminate|]; split;
      [cbn; repeat constructor; cbn; intuition discriminate|repeat (apply Forall_cons || apply Forall_nil); split; apply PL; reflexivity].
  - cbn. repeat constructor; cbn; intuition discriminate.
Qed.

(** C38 *)
(** [sym_lines] are the symbol lines of the shipped player/iivision.dbg. *)
Theorem C38_every_opcode_has_its_own_address : forall contents,
  filter is_sym (split_on 10 contents) = sym_lines ->
  exists start, fill_opcode_addresses contents = Ok start /\
    (forall c, In c op_cmds -> 0x803 <= start c <= 0xBA72) /\
    (forall a b, In a op_cmds -> In b op_cmds -> start a = start b -> a = b).
Proof.
  intros contents L. exists player_start. split; [apply fill_player, L|]. split; [apply start_range|apply start_injective].
Qed.
Print Assumptions C38_every_opcode_has_its_own_address.

(** Opcodes with different commands compile to different command bytes. *)
Theorem C38_command_bytes_differ : forall contents start a b,
  filter is_sym (split_on 10 contents) = sym_lines -> fill_opcode_addresses contents = Ok start ->
  In (command a) op_cmds -> In (command b) op_cmds -> command a <> HEADER -> command b <> HEADER ->
  emit_command start a = emit_command start b -> command a = command b.
Proof.
  intros contents start a b L F Ha Hb NA NB E. rewrite (fill_player _ L) in F. injection F as <-.
  assert (X : emit_command player_start a = [Z.shiftr (player_start (command a)) 8; Z.land (player_start (command a)) 0xff]) by (destruct a; [contradiction NA| | | |]; reflexivity).
  assert (Y : emit_command player_start b = [Z.shiftr (player_start (command b)) 8; Z.land (player_start (command b)) 0xff]) by (destruct b; [contradiction NB| | | |]; reflexivity).
  rewrite X, Y in E. apply start_injective; [exact Ha|exact Hb|]. exact (address_bytes _ _ E).
Qed.
Print Assumptions C38_command_bytes_differ.

(** With these addresses the command bytes can be decoded: the hypothesis of the
    theorems on streams. *)
Theorem C38_recognised : forall contents start c,
  filter is_sym (split_on 10 contents) = sym_lines -> fill_opcode_addresses contents = Ok start -> c_start c = start ->
  exists which, recognises c which /\ forall a cm, which a = Some cm -> In cm op_cmds /\ start cm = a.
Proof.
  intros contents start c L F E. rewrite (fill_player _ L) in F. injection F as <-. exists player_which. split.
  - intros cm H. rewrite E. apply which_start, H.
  - apply which_some.
Qed.
Print Assumptions C38_recognised.

(** such files exist *)
Definition lines_ok (ls : list lit) : bool := forallb (fun l => forallb (fun b => negb (Byte.eqb b Byte.x0a)) (lit_to l)) ls.
Example contents_ex : exists contents, filter is_sym (split_on 10 contents) = sym_lines.
Proof.
  exists (join 10 sym_lines).
  assert (A : lines_ok sym_lits = true) by (vm_compute; reflexivity).
  assert (B : exists pairs, Forall2 (fun l p => is_sym l = true /\ parse_line l = Ok p) sym_lines pairs)
    by (destruct (check_ok _ _ checked) as (pairs & F & _); exists pairs; exact F).
  assert (NE : sym_lits <> []) by (intros E; pose proof checked as C; rewrite E in C; vm_compute in C; discriminate C).
  revert A B NE. generalize sym_lits as ls. intros ls A (pairs & B) NE.
  rewrite split_join.
  - clear A NE. induction B as [|l p ls' pairs [S _] B IH]; [reflexivity|]. cbn [filter]. rewrite S, IH. reflexivity.
  - destruct ls; [contradiction|discriminate].
  - apply Forall_forall. intros x Hx X. apply in_map_iff in Hx. destruct Hx as (l & <- & Hl).
    unfold lines_ok in A. rewrite forallb_forall in A. specialize (A l Hl). rewrite forallb_forall in A.
    unfold str in X. apply in_map_iff in X. destruct X as (b & E & Hb). specialize (A b Hb). destruct b; discriminate.
Qed.

(** C64: any build of the player.  If every opcode's routine has an address in
    the listing, that (the last one given) is the address the opcode gets ... *)
Theorem C64_loads : forall items, player_listing items ->
  (forall c, In c op_cmds -> exists a, address_in items c a /\ a <> 0) ->
  exists start, fill_opcode_addresses (join 10 (map item_line items)) = Ok start /\
    forall c a, In c op_cmds -> address_in items c a -> start c = a.
Proof.
  intros items L H. destruct (fill_listing items L) as (start & E & A & _). exists start. split; [|exact A].
  rewrite E. assert (F : forallb (fun c => negb (start c =? 0)) op_cmds = true); [|rewrite F; reflexivity].
  apply forallb_forall. intros c Hc. destruct (H c Hc) as (a & A1 & A2). rewrite (A c a Hc A1). apply negb_true_iff, Z.eqb_neq, A2.
Qed.
Print Assumptions C64_loads.
(** ... and if one has none (or 0), loading the opcodes fails. *)
Theorem C64_refuses : forall items c, player_listing items -> In c op_cmds ->
  (forall a, address_in items c a -> a = 0) -> fill_opcode_addresses (join 10 (map item_line items)) = Raise ValueError.
Proof.
  intros items c L Hc H. destruct (fill_listing items L) as (start & E & _ & B). rewrite E.
  assert (F : forallb (fun c => negb (start c =? 0)) op_cmds = false); [|rewrite F; reflexivity].
  apply not_true_is_false. intros T. rewrite forallb_forall in T. specialize (T c Hc). apply negb_true_iff, Z.eqb_neq in T.
  exact (T (H _ (B c Hc T))).
Qed.
Print Assumptions C64_refuses.
(** a listing with an address for every opcode, and one without any *)
Definition all_ops : list item := map (fun c => Symbol (symbol_name c) [(str "name", symbol_name c); (str "val", str "0x4F")]) op_cmds.
Lemma ex_hex : hex_value (str "0x4F") 0x4f.
Proof.
  exists [4; 15], (str "4F"). split; [discriminate|]. split; [|split; reflexivity].
  repeat constructor; try lia; left; reflexivity.
Qed.
Example ex_hex_lower : hex_value (str "0x4aF") 0x4af.
Proof.
  exists [4; 10; 15], (str "4aF"). split; [discriminate|]. split; [|split; reflexivity].
  constructor; [|constructor; [|constructor; [|constructor]]]; (split; [lia|]); [left|right|left]; reflexivity.
Qed.
Lemma all_ops_good : Forall good_item all_ops.
Proof.
  assert (P : forallb (fun c => forallb (fun x => negb (is_space x) && negb (x =? 44) && negb (x =? 61)) (symbol_name c)) op_cmds = true) by (vm_compute; reflexivity).
  rewrite forallb_forall in P. unfold all_ops. apply Forall_forall. intros i Hi. apply in_map_iff in Hi. destruct Hi as (c & <- & Hc). specialize (P c Hc).
  rewrite forallb_forall in P. assert (PL : plain (symbol_name c)).
  { intros x Hx. specialize (P x Hx). rewrite !andb_true_iff, !negb_true_iff, !Z.eqb_neq in P. tauto. }
  assert (PS : forall s, forallb (fun x => negb (is_space x) && negb (x =? 44) && negb (x =? 61)) s = true -> plain s).
  { intros s H x Hx. rewrite forallb_forall in H. specialize (H x Hx). rewrite !andb_true_iff, !negb_true_iff, !Z.eqb_neq in H. tauto. }
  split; [|reflexivity]. split; [discriminate|]. split.
  - cbn [map fst]. repeat constructor; cbn; intuition discriminate.
  - apply Forall_cons; [split; [apply PS; reflexivity|exact PL]|]. apply Forall_cons; [split; apply PS; reflexivity|]. apply Forall_nil.
Qed.
Transparent op_cmds.
Lemma all_ops_some : all_ops <> [].
Proof. discriminate. Qed.
Lemma nop_in : In NOP op_cmds.
Proof. right; right; left; reflexivity. Qed.
Opaque op_cmds.
Example C64_met : player_listing all_ops /\ (forall c, In c op_cmds -> exists a, address_in all_ops c a /\ a <> 0).
Proof.
  assert (S : symbols_of all_ops = map (fun c => (symbol_name c, [(str "name", symbol_name c); (str "val", str "0x4F")])) op_cmds).
  { unfold all_ops, symbols_of. induction op_cmds as [|c l IH]; [reflexivity|]. cbn [map flat_map app]. rewrite IH. reflexivity. }
  split.
  - split; [exact all_ops_some|]. split; [exact all_ops_good|]. intros name attrs I. rewrite S in I.
    apply in_map_iff in I. destruct I as (c & E & _). injection E as <- <-. split; [exists (str "op_" ++ lower (op_name c)); reflexivity|].
    intros r _. exists (str "0x4F"), 0x4f. split; [reflexivity|exact ex_hex].
  - intros c Hc. exists 0x4f. split; [|discriminate].
    destruct (in_last_value (symbol_name c) [(str "name", symbol_name c); (str "val", str "0x4F")] (symbols_of all_ops)) as (v & V).
    + rewrite S. apply in_map_iff. exists c. auto.
    + exists v. pose proof (last_value_in _ _ _ V) as I. rewrite S in I. apply in_map_iff in I. destruct I as (c' & E & _).
      exists (str "0x4F"). split; [exact V|]. split; [|exact ex_hex]. assert (v = [(str "name", symbol_name c'); (str "val", str "0x4F")]) by congruence. subst v. reflexivity.
Qed.
Definition no_ops : list item := [Other (str "version	major=2,minor=0"); Symbol (quoted (str "main")) [(str "name", quoted (str "main"))]].
Example C64_refuses_met : player_listing no_ops /\ In NOP op_cmds /\ forall a, address_in no_ops NOP a -> a = 0.
Proof.
  assert (PL : forall s, forallb (fun c => negb (is_space c) && negb (c =? 44) && negb (c =? 61)) s = true -> plain s).
  { intros s H c Hc. rewrite forallb_forall in H. specialize (H c Hc). rewrite !andb_true_iff, !negb_true_iff, !Z.eqb_neq in H. tauto. }
  split; [|split; [exact nop_in|]].
  - split; [discriminate|]. split.
    + constructor; [split; [intros X; cbn in X; repeat destruct X as [X|X]; try discriminate; destruct X|reflexivity]|].
      constructor; [|constructor]. split; [|reflexivity]. split; [discriminate|]. split; [repeat constructor; cbn; intuition|].
      apply Forall_cons; [split; apply PL; reflexivity|apply Forall_nil].
    + intros name attrs [I|[]]. injection I as <- <-. split; [eexists; reflexivity|]. intros r E. discriminate E.
  - intros a (attrs & v & A & _). discriminate A.
Qed.

(** Vocabulary for the symbol file properties. *)
From Verif Require Import Base OpcodeModel SymbolModel.

Definition is_sym (line : text) : bool := startswith line (str "sym").
(** the value of the last pair with that key *)
Definition last_value {A} (k : text) (l : list (text * A)) : option A :=
  match find (fun kv => text_eqb k (fst kv)) (rev l) with Some (_, v) => Some v | None => None end.

Fixpoint join (sep : Z) (l : list text) : text :=
  match l with [] => [] | [x] => x | x :: l' => x ++ sep :: join sep l' end.
(** the form of cc65's symbol lines: sym, tab, key=value pairs *)
Definition print_field (kv : text * text) : text := fst kv ++ 61 :: snd kv.
Definition print_symbol (attrs : dict text) : text := str "sym" ++ 9 :: join 44 (map print_field attrs).
(** keys and values without spaces, commas and equal signs; keys distinct *)
Definition plain (s : text) : Prop := forall c, In c s -> is_space c = false /\ c <> 44 /\ c <> 61.
Definition plain_attrs (attrs : dict text) : Prop :=
  attrs <> [] /\ NoDup (map fst attrs) /\ Forall (fun kv => plain (fst kv) /\ plain (snd kv)) attrs.
(** lines of a file: symbols under their names, or anything else *)
Inductive item := Symbol (name : text) (attrs : dict text) | Other (line : text).
Definition item_line (i : item) : text := match i with Symbol _ attrs => print_symbol attrs | Other l => l end.
Definition good_item (i : item) : Prop :=
  match i with
  | Symbol name attrs => plain_attrs attrs /\ dict_get (str "name") attrs = Some name
  | Other l => ~ In 10 l /\ is_sym l = false
  end.
Definition symbols_of (items : list item) : list (text * dict text) :=
  flat_map (fun i => match i with Symbol name attrs => [(name, attrs)] | Other _ => [] end) items.
(** a symbol line: a first word, space, and comma separated fields "key=value"
    (one equal sign each), one of them the name; anything may follow after space *)
Definition field (kv : text) : Prop := ~ In 44 kv /\ exists k v, kv = k ++ 61 :: v /\ ~ In 61 k /\ ~ In 61 v.
Definition well_formed (line : text) : Prop := exists first gap fields after,
  line = first ++ gap ++ join 44 fields ++ after /\
  (first <> [] /\ forall c, In c first -> is_space c = false) /\
  (gap <> [] /\ forall c, In c gap -> is_space c = true) /\
  (fields <> [] /\ Forall field fields /\ (forall c, In c (join 44 fields) -> is_space c = false)) /\
  (forall c r, after = c :: r -> is_space c = true) /\
  exists v, In (str "name" ++ 61 :: v) fields.
Definition malformed (line : text) : Prop := ~ well_formed line.

(** ** The listing of any build of the player *)
Definition quoted (s : text) : text := 34 :: s ++ [34].
(** the symbol of an opcode's routine, e.g. "op_tick_4_page_32" *)
Definition symbol_name (c : cmd) : text := quoted (str "op_" ++ lower (op_name c)).
(** a hexadecimal digit, in either case *)
Definition digit_char (d c : Z) : Prop := 0 <= d < 16 /\
  (c = nth (Z.to_nat d) (str "0123456789ABCDEF") 0 \/ c = nth (Z.to_nat d) (str "0123456789abcdef") 0).
(** "0x" and hexadecimal digits *)
Definition hex_value (s : text) (n : Z) : Prop := exists ds cs, ds <> [] /\ Forall2 digit_char ds cs /\
  s = str "0x" ++ cs /\ n = fold_left (fun a d => 16 * a + d) ds 0.
(** well formed, names in quotes, symbols that begin with op_ have a value *)
Definition player_listing (items : list item) : Prop := items <> [] /\ Forall good_item items /\
  forall name attrs, In (name, attrs) (symbols_of items) ->
    (exists s, name = quoted s) /\
    (forall r, name = quoted (str "op_" ++ r) -> exists v a, dict_get (str "val") attrs = Some v /\ hex_value v a).
(** the value that the last line for the opcode's symbol gives *)
Definition address_in (items : list item) (c : cmd) (a : Z) : Prop := exists attrs v,
  last_value (symbol_name c) (symbols_of items) = Some attrs /\ dict_get (str "val") attrs = Some v /\ hex_value v a.

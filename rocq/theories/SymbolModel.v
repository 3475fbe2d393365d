(** Model of transcoder/symbol_table.py and of the opcode address table
    (transcoder/opcodes.py 168-223).  A Python [str] is a list of code points. *)
From Verif Require Import Base OpcodeModel.
From Coq Require Import Strings.Byte.

Definition text := list Z.
(** literals *)
Inductive lit := Lit (bytes : list byte).
Definition lit_of (bytes : list byte) : lit := Lit bytes.
Definition lit_to (l : lit) : list byte := let 'Lit b := l in b.
Declare Scope lit_scope.
Delimit Scope lit_scope with lit.
String Notation lit lit_of lit_to : lit_scope.
Definition str (l : lit) : text := map (fun b => Z.of_N (Byte.to_N b)) (lit_to l).
Arguments str l%lit.

Definition text_eqb : text -> text -> bool := list_eqb.

(** [str.startswith] *)
Fixpoint startswith (s prefix : text) : bool :=
  match prefix, s with
  | [], _ => true
  | p :: prefix', c :: s' => (c =? p) && startswith s' prefix'
  | _ :: _, [] => false
  end.

(** [str.split(sep)] for a one-character separator; [field] is the current
    field so far, reversed *)
Fixpoint split_from (sep : Z) (field : text) (s : text) : list text :=
  match s with
  | [] => [rev_append field []]
  | c :: s' => if c =? sep then rev_append field [] :: split_from sep [] s' else split_from sep (c :: field) s'
  end.
Definition split_on (sep : Z) (s : text) : list text := split_from sep [] s.

(** [str.isspace] for one character *)
Definition is_space (c : Z) : bool :=
  if c <=? 32 then ((9 <=? c) && (c <=? 13)) || (28 <=? c)
  else if c <? 133 then false
  else (c =? 133) || (c =? 160) || (c =? 5760) || ((8192 <=? c) && (c <=? 8202)) ||
       (c =? 8232) || (c =? 8233) || (c =? 8239) || (c =? 8287) || (c =? 12288).
(** [str.split()] *)
Fixpoint split_ws_from (field : text) (s : text) : list text :=
  match s with
  | [] => match field with [] => [] | _ => [rev_append field []] end
  | c :: s' => if is_space c then match field with [] => split_ws_from [] s' | _ => rev_append field [] :: split_ws_from [] s' end
               else split_ws_from (c :: field) s'
  end.
Definition split_ws (s : text) : list text := split_ws_from [] s.

(** dictionaries with string keys, in insertion order *)
Definition dict (A : Type) := list (text * A).
Fixpoint dict_get {A} (k : text) (d : dict A) : option A :=
  match d with [] => None | (k', v) :: d' => if text_eqb k k' then Some v else dict_get k d' end.
Fixpoint dict_set {A} (k : text) (v : A) (d : dict A) : dict A :=
  match d with
  | [] => [(k, v)]
  | (k', v') :: d' => if text_eqb k k' then (k', v) :: d' else (k', v') :: dict_set k v d'
  end.

(** symbol_table.py 28-31: [k, v = kv.split("=")], [sym[k] = v] *)
Fixpoint parse_fields (fields : list text) (sym : dict text) : res (dict text) :=
  match fields with
  | [] => Ok sym
  | kv :: rest => match split_on 61 kv with
                  | [k; v] => parse_fields rest (dict_set k v sym)
                  | _ => Raise ValueError
                  end
  end.
(** symbol_table.py 26-33: the symbol on a line that starts with "sym" *)
Definition parse_line (line : text) : res (text * dict text) :=
  match split_ws line with
  | _ :: data :: _ =>
      let! sym := parse_fields (split_on 44 data) [] in
      match dict_get (str "name") sym with
      | Some name => Ok (name, sym)
      | None => Raise KeyError
      end
  | _ => Raise IndexError
  end.
(** symbol_table.py 22-35 *)
Fixpoint parse_lines (lines : list text) (syms : dict (dict text)) : res (dict (dict text)) :=
  match lines with
  | [] => Ok syms
  | line :: rest =>
      if negb (startswith line (str "sym")) then parse_lines rest syms
      else let! (name, sym) := parse_line line in parse_lines rest (dict_set name sym syms)
  end.
(** symbol_table.py 13-37: [parse]; [contents] is the decoded file. *)
Definition parse (contents : text) : res (dict (dict text)) := parse_lines (split_on 10 contents) [].

(** [int(s, 16)]: digits with an optional 0x; other forms Python accepts (sign,
    spaces, underscores) are not modelled and count as malformed. *)
Definition hex_digit (c : Z) : option Z :=
  if (48 <=? c) && (c <=? 57) then Some (c - 48)
  else if (65 <=? c) && (c <=? 70) then Some (c - 55)
  else if (97 <=? c) && (c <=? 102) then Some (c - 87)
  else None.
Fixpoint hex_digits (acc : Z) (s : text) : res Z :=
  match s with
  | [] => Ok acc
  | c :: s' => match hex_digit c with Some d => hex_digits (16 * acc + d) s' | None => Raise ValueError end
  end.
Definition int16 (s : text) : res Z :=
  let s' := match s with a :: b :: r => if (a =? 48) && ((b =? 120) || (b =? 88)) then r else s | _ => s end in
  match s' with [] => Raise ValueError | _ => hex_digits 0 s' end.

(** [s[4:-1]] *)
Definition slice_4_m1 (s : text) : text := removelast (skipn 4 s).

(** [str.lower] on ASCII *)
Definition lower (s : text) : text := map (fun c => if (65 <=? c) && (c <=? 90) then c + 32 else c) s.
(** "%d" for 0..99 *)
Definition dec (n : Z) : text := if n <? 10 then [48 + n] else [48 + n / 10; 48 + n mod 10].
(** opcodes.py 14-22: the enumeration members' names *)
Definition op_name (c : cmd) : text :=
  match c with
  | HEADER => str "HEADER" | TERMINATE => str "TERMINATE" | NOP => str "NOP" | ACK => str "ACK"
  | TICK t p => str "TICK_" ++ dec t ++ str "_PAGE_" ++ dec p
  end.

(** opcodes.py 174-181: addresses by name *)
Fixpoint opcode_data (items : dict (dict text)) (acc : dict Z) : res (dict Z) :=
  match items with
  | [] => Ok acc
  | (name, data) :: rest =>
      if startswith name (str """op_") then
        match dict_get (str "val") data with
        | None => Raise KeyError
        | Some v => let! start := int16 v in opcode_data rest (dict_set (slice_4_m1 name) start acc)
        end
      else opcode_data rest acc
  end.
(** opcodes.py 183-188 *)
Definition opcode_addrs (data : dict Z) : list (cmd * Z) :=
  flat_map (fun '(name, start) => map (fun op => (op, start)) (filter (fun op => text_eqb (lower (op_name op)) name) op_cmds)) data.
(** opcodes.py 190: [sorted] by address, stable *)
Fixpoint insert_addr (x : cmd * Z) (l : list (cmd * Z)) : list (cmd * Z) :=
  match l with [] => [x] | y :: l' => if snd x <? snd y then x :: l else y :: insert_addr x l' end.
Definition sort_addrs (l : list (cmd * Z)) : list (cmd * Z) := fold_left (fun acc x => insert_addr x acc) l [].

Definition cmd_eqb (a b : cmd) : bool :=
  match a, b with
  | HEADER, HEADER | TERMINATE, TERMINATE | NOP, NOP | ACK, ACK => true
  | TICK t p, TICK t' p' => (t =? t') && (p =? p')
  | _, _ => false
  end.
(** opcodes.py 193-223: [_START] of every class after assigning the addresses in
    order (0 stands for None); ValueError if one is missing or zero. *)
Definition assign (addrs : list (cmd * Z)) : cmd -> Z :=
  fold_left (fun f '(op, start) => fun c => if cmd_eqb c op then start else f c) addrs (fun _ => 0).
Definition fill_opcode_addresses (contents : text) : res (cmd -> Z) :=
  let! syms := parse contents in
  let! data := opcode_data syms [] in
  let start := assign (sort_addrs (opcode_addrs data)) in
  if forallb (fun c => negb (start c =? 0)) op_cmds then Ok start else Raise ValueError.

(** Proofs about the simulator. *)
From Verif Require Import Base BaseFacts SimModel SimSpec.

(** ** Which interceptors run *)
Definition covers (a : Z) (r : region) : bool := (r_start r <=? a) && (a <=? r_end r).
Lemma bind_ext {A B} (m : run A) (f g : A -> run B) s : (forall a s', f a s' = g a s') -> bind m f s = bind m g s.
Proof. intros H. unfold bind. destruct (m s) as [s' [a|e]]; auto. Qed.
Lemma intercept_filter rs : forall a acc s, intercept rs a acc s = intercept (filter (covers a) rs) a acc s.
Proof.
  induction rs as [|r rs IH]; intros a acc s; [reflexivity|]. cbn [filter]. unfold covers at 1.
  destruct ((r_start r <=? a) && (a <=? r_end r)) eqn:E; cbn [intercept]; rewrite E; [|apply IH].
  apply bind_ext. intros x s1. apply bind_ext. intros y s2. unfold bind. rewrite IH. reflexivity.
Qed.
Definition one_region (a : Z) (io w : bool) (rs : list region) : Prop :=
  match rs with [r] => covers a r = true /\ r_io r = io /\ r_writable r = w | _ => False end.
Lemma intercept_one a io w rs : one_region a io w rs -> forall acc s, intercept rs a acc s =
  (let '(s1, x) := if io then io_interceptor a_call a_io_map a acc s else (s, inl None) in
   match x with
   | inl x => if negb w && match acc with Some _ => true | None => false end then (s1, inr (WriteDenied a)) else (s1, inl x)
   | inr e => (s1, inr e)
   end).
Proof.
  destruct rs as [|r [|]]; try contradiction. intros (C & <- & <-) acc s. cbn [intercept]. unfold covers in C. rewrite C.
  unfold bind, ret, throw. destruct (r_io r); [destruct (io_interceptor a_call a_io_map a acc s) as [s1 [x|e]]; [|reflexivity]|];
    destruct (r_writable r), acc; cbn [negb andb]; try destruct x; reflexivity.
Qed.
Lemma filter_cons' {A} (f : A -> bool) x l : filter f (x :: l) = (if f x then [x] else []) ++ filter f l.
Proof. cbn. destruct (f x); reflexivity. Qed.
Lemma regions_cases a :
  (is_io a = true -> one_region a true true (filter (covers a) regions)) /\
  (protected a = true -> one_region a false false (filter (covers a) regions)) /\
  (is_io a = false -> protected a = false -> filter (covers a) regions = [] \/ one_region a false true (filter (covers a) regions)).
Proof.
  assert (C : forall x y io w, covers a {| r_start := x; r_end := y; r_io := io; r_writable := w |} = ((x <=? a) && (a <=? y))) by reflexivity.
  unfold is_io, protected, regions. cbn [map].
  repeat rewrite filter_cons'. cbn [filter]. rewrite !C, app_nil_r.
  repeat match goal with |- context [if (?x <=? ?a) && (?a <=? ?y) then _ else _] =>
    destruct ((x <=? a) && (a <=? y)) eqn:?;
    [repeat match goal with |- context [if (?x' <=? ?a) && (?a <=? ?y') then _ else _] =>
         replace ((x' <=? a) && (a <=? y')) with false by lia end; cbn [app]; unfold one_region; rewrite C; cbn [r_io r_writable];
     split; [intros; first [exfalso; lia|auto]|split; [intros; first [exfalso; lia|auto]|intros; first [exfalso; lia|right; auto]]]|cbn [app]] end.
  split; [intros; exfalso; lia|]. split; [intros; exfalso; lia|]. intros. left. reflexivity.
Qed.
Lemma intercept_cases a acc s : intercept regions a acc s =
  if is_io a then io_interceptor a_call a_io_map a acc s
  else if protected a then match acc with None => (s, inl None) | Some _ => (s, inr (WriteDenied a)) end
  else (s, inl None).
Proof.
  rewrite intercept_filter. destruct (regions_cases a) as (I & P & N). destruct (is_io a) eqn:E; [|destruct (protected a) eqn:E2].
  - rewrite (intercept_one a true true) by auto. destruct (io_interceptor a_call a_io_map a acc s) as [s1 [x|e]]; reflexivity.
  - rewrite (intercept_one a false false) by auto. destruct acc; reflexivity.
  - destruct (N eq_refl eq_refl) as [-> |O]; [reflexivity|]. rewrite (intercept_one a false true) by exact O. reflexivity.
Qed.

(** ** What the callbacks can change *)
(** everything but the memory and flags of the W5100 is the same, and an exception changes nothing *)
Definition u_frame {A} (s : sim) (r : sim * (A + err)) : Prop :=
  s_ram (fst r) = s_ram s /\ s_switch (fst r) = s_switch s /\ s_ptr (fst r) = s_ptr s /\
  match snd r with inr _ => fst r = s | inl _ => True end.
Lemma u_call_frame c a s : u_frame s (u_call c a s).
Proof.
  unfold u_frame, u_call, throw, ret, bind, put_state. destruct c, a as [v|]; cbn; auto.
  - destruct (Z.land v 131 =? v); cbn; auto.
  - destruct (v =? 33); cbn; auto.
  - destruct (v =? 1); [cbn; auto|]. destruct (v =? 4); [cbn; auto|]. destruct (v =? 64); cbn; auto.
Qed.
Lemma u_intercept_frame a acc s : u_frame s (u_intercept a acc s).
Proof.
  unfold u_intercept. destruct (u_intercepted a); [|cbv; auto]. unfold io_interceptor. destruct (zget a u_io_map) as [[m c]|]; [|cbv; auto].
  destruct (allowed m acc); [apply u_call_frame|cbv; auto].
Qed.
Lemma u_read_frame a s : u_frame s (u_read a s).
Proof.
  unfold u_read, bind. pose proof (u_intercept_frame (a mod 0x10000) None s) as H.
  destruct (u_intercept (a mod 0x10000) None s) as [s1 [r|e]]; unfold u_frame in *; cbn in *; tauto.
Qed.
Lemma u_write_frame a v s : u_frame s (u_write a v s).
Proof.
  unfold u_write, bind. pose proof (u_intercept_frame (a mod 0x10000) (Some v) s) as H.
  destruct (u_intercept (a mod 0x10000) (Some v) s) as [s1 [r|e]]; unfold u_frame in *; cbn in *; tauto.
Qed.
(** a register that does not exist *)
Lemma u_io_keys a : existsb (Z.eqb a) (map fst u_io_map) = u_register a.
Proof.
  unfold u_register. match goal with |- _ = existsb _ ?l => assert (P : forallb (fun k => existsb (Z.eqb k) l) (map fst u_io_map) = true /\
    forallb (fun k => existsb (Z.eqb k) (map fst u_io_map)) l = true) by (vm_compute; auto) end.
  destruct P as [P Q]. rewrite forallb_forall in P, Q.
  apply eq_true_iff_eq. rewrite !existsb_exists. split; intros (k & K & E); apply Z.eqb_eq in E; subst k; apply existsb_exists; auto.
Qed.
Lemma zget_keys {A} k (d : zdict A) : zget k d = None <-> existsb (Z.eqb k) (map fst d) = false.
Proof.
  induction d as [|[k' v] d IH]; cbn; [tauto|]. destruct (k =? k'); cbn; [split; discriminate|exact IH].
Qed.
Lemma u_unmapped a acc s : u_intercepted a = true -> u_register a = false -> u_intercept a acc s = (s, inr (Trap a)).
Proof.
  intros I R. unfold u_intercept, io_interceptor. rewrite I. rewrite <- u_io_keys in R. apply zget_keys in R. rewrite R. reflexivity.
Qed.
Lemma u_plain_read a s : 0 <= a < 0x10000 -> u_intercepted a = false -> u_read a s = (s, inl (s_uram s a)).
Proof. intros R I. unfold u_read, bind, u_intercept. rewrite Z.mod_small by exact R. rewrite I. reflexivity. Qed.
Lemma u_plain_write a v s : 0 <= a < 0x10000 -> u_intercepted a = false -> u_write a v s = (set_uram s a v, inl tt).
Proof. intros R I. unfold u_write, bind, u_intercept. rewrite Z.mod_small by exact R. rewrite I. reflexivity. Qed.

(** ** The Apple's I/O page *)
Definition a_keys : list (Z * (access_mode * callback)) := Eval vm_compute in a_io_map.
Lemma a_io_map_eq : a_io_map = a_keys.
Proof. vm_compute. reflexivity. Qed.
Lemma zget_in {A} k v (d : zdict A) : zget k d = Some v -> In (k, v) d.
Proof. induction d as [|[k' v'] d IH]; cbn; [discriminate|]. destruct (Z.eqb_spec k k') as [-> |]; [intros H; injection H as ->; auto|auto]. Qed.
Definition supported_io (a : Z) (acc : access) : option callback :=
  match zget a a_keys with Some (m, c) => if allowed m acc then Some c else None | None => None end.
Lemma io_some a acc s : io_interceptor a_call a_io_map a acc s =
  match supported_io a acc with Some c => a_call c acc s | None => (s, inr (Trap a)) end.
Proof.
  rewrite a_io_map_eq. unfold io_interceptor, supported_io. destruct (zget a a_keys) as [[m c]|]; [|reflexivity]. destruct (allowed m acc); reflexivity.
Qed.
Lemma supported_eq a acc : match supported_io a acc with Some _ => true | None => false end = io_supported a acc.
Proof.
  assert (K : io_supported a acc = true -> In a (map fst a_keys)).
  { assert (L : forallb (fun k => existsb (Z.eqb k) (map fst a_keys)) (io_readable ++ io_writable) = true) by (vm_compute; reflexivity).
    rewrite forallb_forall in L. intros H. unfold io_supported in H. apply existsb_exists in H. destruct H as (k & K & E). apply Z.eqb_eq in E. subst k.
    assert (X : In a (io_readable ++ io_writable)) by (apply in_or_app; destruct acc; auto).
    specialize (L a X). apply existsb_exists in L. destruct L as (k & K2 & E). apply Z.eqb_eq in E. subst k. exact K2. }
  destruct (in_dec Z.eq_dec a (map fst a_keys)) as [I|N].
  - destruct acc as [v|]; unfold io_supported, supported_io, allowed.
    + assert (L : forallb (fun k => Bool.eqb (match (match zget k a_keys with Some (m, c) => if can_write m then Some c else None | None => None end) with Some _ => true | None => false end)
        (existsb (Z.eqb k) io_writable)) (map fst a_keys) = true) by (vm_compute; reflexivity).
      rewrite forallb_forall in L. apply Bool.eqb_prop. exact (L a I).
    + assert (L : forallb (fun k => Bool.eqb (match (match zget k a_keys with Some (m, c) => if can_read m then Some c else None | None => None end) with Some _ => true | None => false end)
        (existsb (Z.eqb k) io_readable)) (map fst a_keys) = true) by (vm_compute; reflexivity).
      rewrite forallb_forall in L. apply Bool.eqb_prop. exact (L a I).
  - destruct (io_supported a acc) eqn:E; [exfalso; auto|]. unfold supported_io.
    destruct (zget a a_keys) as [[m c]|] eqn:G; [|reflexivity]. exfalso. apply N. apply zget_in in G. change a with (fst (a, (m, c))). apply in_map. exact G.
Qed.
Lemma bind_frame {A B} (m : run A) (f : A -> run B) s (P : sim -> Prop) :
  P (fst (m s)) -> (forall a s', m s = (s', inl a) -> P (fst (f a s'))) -> P (fst (bind m f s)).
Proof. unfold bind. destruct (m s) as [s' [a|e]]; cbn; auto. Qed.

(** accesses and their effect on memory and switches *)
Lemma a_call_ram c acc s : s_ram (fst (a_call c acc s)) = s_ram s.
Proof.
  destruct c, acc; cbn [a_call]; try reflexivity; unfold bind, ret, put_state, read_mode, write_mode, read_data, write_data, switch_to, get_state, throw, bind.
  - pose proof (u_write_frame 0 z s) as (H & _). destruct (u_write 0 z s) as [s1 [x|e]]; exact H.
  - pose proof (u_write_frame (s_ptr s) z s) as (H & _). destruct (u_write (s_ptr s) z s) as [s1 [x|e]]; exact H.
  - pose proof (u_read_frame (s_ptr s) s) as (H & _). destruct (u_read (s_ptr s) s) as [s1 [x|e]]; exact H.
  - destruct (unimplemented_callback w); reflexivity.
  - destruct (unimplemented_callback w); reflexivity.
  - destruct (unimplemented_callback w); reflexivity.
  - destruct (unimplemented_callback w); reflexivity.
Qed.
Definition switch_effect (c : callback) (w : switch) (b : bool) : bool :=
  match c with SwSet w' => if switch_eqb w w' then true else b | SwClear w' => if switch_eqb w w' then false else b | _ => b end.
Lemma a_call_switch c acc s w : s_switch (fst (a_call c acc s)) w = switch_effect c w (s_switch s w).
Proof.
  destruct c, acc; cbn [a_call switch_effect]; try reflexivity; unfold bind, ret, put_state, read_mode, write_mode, read_data, write_data, switch_to, get_state, throw, bind.
  - pose proof (u_write_frame 0 z s) as (_ & H & _). destruct (u_write 0 z s) as [s1 [x|e]]; cbn in *; rewrite H; reflexivity.
  - pose proof (u_write_frame (s_ptr s) z s) as (_ & H & _). destruct (u_write (s_ptr s) z s) as [s1 [x|e]]; cbn in *; rewrite H; reflexivity.
  - pose proof (u_read_frame (s_ptr s) s) as (_ & H & _). destruct (u_read (s_ptr s) s) as [s1 [x|e]]; cbn in *; rewrite H; reflexivity.
  - destruct (unimplemented_callback w0); reflexivity.
  - destruct (unimplemented_callback w0); reflexivity.
  - destruct (unimplemented_callback w0); reflexivity.
  - destruct (unimplemented_callback w0); reflexivity.
Qed.
Lemma access_shape address acc s : let a := address mod 0x10000 in
  exists s1, (s1 = fst (intercept regions a acc s)) /\
    (fst (do_access address acc s) = s1 \/ exists v, acc <> None /\ fst (do_access address acc s) = set_ram s1 a v /\ snd (intercept regions a acc s) <> inr (WriteDenied a)).
Proof.
  intros a. eexists. split; [reflexivity|]. destruct acc as [v|]; cbn [do_access].
  - unfold a_write, bind. fold a. destruct (intercept regions a (Some v) s) as [s1 [r|e]]; cbn; [right; eexists; split; [discriminate|split; [reflexivity|discriminate]]|left; reflexivity].
  - unfold a_read, bind. fold a. left. destruct (intercept regions a None s) as [s1 [r|e]]; reflexivity.
Qed.
Lemma access_switch address acc s w : s_switch (fst (do_access address acc s)) w =
  (let a := address mod 0x10000 in if is_io a then match supported_io a acc with Some c => switch_effect c w (s_switch s w) | None => s_switch s w end else s_switch s w).
Proof.
  cbn zeta. destruct (access_shape address acc s) as (s1 & E & H).
  assert (X : s_switch (fst (do_access address acc s)) w = s_switch s1 w) by (destruct H as [-> |(v & _ & -> & _)]; reflexivity).
  rewrite X, E, intercept_cases. destruct (is_io (address mod 65536)).
  - rewrite io_some. destruct (supported_io (address mod 65536) acc) as [c|]; [apply a_call_switch|reflexivity].
  - destruct (protected (address mod 65536)); [destruct acc; reflexivity|reflexivity].
Qed.
(** entries of the I/O map agree with the switch's own description *)
Lemma switch_step ss : In ss soft_switches -> forall x s,
  s_switch (fst (do_access (fst x) (snd x) s)) (ss_name ss) = switched ss (s_switch s (ss_name ss)) x.
Proof.
  intros I [address acc] s. cbn [fst snd]. rewrite access_switch. cbn zeta. unfold switched. cbn [fst snd]. set (a := address mod 65536). clearbody a.
  set (b := s_switch s (ss_name ss)). clearbody b.
  assert (K : forallb (fun ss => forallb (fun '(k, (m, c)) =>
      is_io k && 
      forallb (fun b => forallb (fun acc =>
        Bool.eqb (if allowed m acc then switch_effect c (ss_name ss) b else b)
                 (if allowed (ss_mode ss) acc then if k =? ss_set ss then true else if k =? ss_clear ss then false else b else b))
      [None; Some 0]) [true; false]) a_keys) soft_switches = true) by (vm_compute; reflexivity).
  assert (N : forallb (fun ss => existsb (Z.eqb (ss_set ss)) (map fst a_keys) && existsb (Z.eqb (ss_clear ss)) (map fst a_keys)) soft_switches = true) by (vm_compute; reflexivity).
  rewrite forallb_forall in K, N. specialize (K ss I). specialize (N ss I). rewrite forallb_forall in K. apply andb_true_iff in N. destruct N as [N1 N2].
  unfold supported_io. destruct (zget a a_keys) as [[m c]|] eqn:G.
  - apply zget_in in G. specialize (K _ G). cbn beta iota in K. apply andb_true_iff in K. destruct K as [-> K].
    rewrite forallb_forall in K. assert (B : In b [true; false]) by (destruct b; cbn; auto). specialize (K b B). rewrite forallb_forall in K.
    destruct acc as [v|]; [specialize (K (Some 0) ltac:(cbn; auto))|specialize (K None ltac:(cbn; auto))]; apply Bool.eqb_prop in K; unfold allowed in *;
      destruct (can_write m), (can_read m); exact K.
  - apply zget_keys in G. assert (a =? ss_set ss = false /\ a =? ss_clear ss = false) as [-> ->].
    { split; apply Z.eqb_neq; intros ->; congruence. }
    destruct (is_io a), (allowed (ss_mode ss) acc); reflexivity.
Qed.
Lemma accesses_switch ss l : In ss soft_switches -> forall s,
  s_switch (accesses l s) (ss_name ss) = fold_left (switched ss) l (s_switch s (ss_name ss)).
Proof.
  intros I. induction l as [|[address a] l IH]; intros s; [reflexivity|]. cbn [accesses fold_left]. rewrite IH.
  f_equal. exact (switch_step ss I (address, a) s).
Qed.
Lemma status_read ss s : In ss soft_switches -> a_read (ss_status ss) s = (s, inl 0).
Proof.
  intros I. unfold a_read, bind. rewrite intercept_cases.
  assert (K : forallb (fun ss => is_io (ss_status ss mod 0x10000) && match supported_io (ss_status ss mod 0x10000) None with Some (SwGet _) => true | _ => false end) soft_switches = true) by (vm_compute; reflexivity).
  rewrite forallb_forall in K. specialize (K ss I). apply andb_true_iff in K. destruct K as [-> K]. rewrite io_some.
  destruct (supported_io (ss_status ss mod 65536) None) as [[| | | | | | |w]|]; try discriminate. cbn [a_call]. unfold bind, get_state, ret. cbn [value_or].
  destruct (s_switch s w); reflexivity.
Qed.

(** ** Protected memory *)
Lemma access_protected address acc s p : protected p = true -> s_ram (fst (do_access address acc s)) p = s_ram s p.
Proof.
  intros P. destruct (access_shape address acc s) as (s1 & E & H).
  assert (R : s_ram s1 = s_ram s).
  { rewrite E, intercept_cases. destruct (is_io (address mod 65536)).
    - rewrite io_some. destruct (supported_io (address mod 65536) acc); [apply a_call_ram|reflexivity].
    - destruct (protected (address mod 65536)); [destruct acc|]; reflexivity. }
  destruct H as [-> |(v & NN & -> & N)]; [rewrite R; reflexivity|]. cbn. unfold upd1. destruct (Z.eqb_spec p (address mod 65536)) as [-> |]; [|rewrite R; reflexivity].
  exfalso. apply N. rewrite intercept_cases, P. assert (is_io (address mod 65536) = false) as -> by (unfold is_io, protected in *; lia).
  destruct acc as [v'|]; [reflexivity|contradiction].
Qed.
Lemma accesses_protected l p : protected p = true -> forall s, s_ram (accesses l s) p = s_ram s p.
Proof. intros P. induction l as [|[address a] l IH]; intros s; [reflexivity|]. cbn [accesses]. rewrite IH. apply access_protected, P. Qed.

(** ** The address registers *)
Lemma high_write v s : a_write 0xc095 v s = (set_ram (set_ptr s (Z.lor (Z.shiftl v 8) (Z.land (s_ptr s) 0x7f))) 0xc095 v, inl 0).
Proof. unfold a_write, bind. rewrite intercept_cases. change (is_io (49301 mod 65536)) with true. cbv iota. rewrite io_some. reflexivity. Qed.
Lemma low_write v s : a_write 0xc096 v s = (set_ram (set_ptr s (Z.lor (Z.land (s_ptr s) 0x7f00) v)) 0xc096 v, inl 0).
Proof. unfold a_write, bind. rewrite intercept_cases. change (is_io (49302 mod 65536)) with true. cbv iota. rewrite io_some. reflexivity. Qed.
Lemma data_read s : a_read 0xc097 s = (match u_read (s_ptr s) s with (s1, inl v) => (next_ptr s1, inl v) | (s1, inr e) => (s1, inr e) end).
Proof.
  unfold a_read, bind. rewrite intercept_cases. change (is_io (49303 mod 65536)) with true. cbv iota. rewrite io_some.
  change (supported_io (49303 mod 65536) None) with (Some Wdata). cbn [a_call]. unfold read_data, bind, get_state, ret, put_state.
  destruct (u_read (s_ptr s) s) as [s1 [v|e]]; reflexivity.
Qed.
Lemma data_write v s : a_write 0xc097 v s =
  (match u_write (s_ptr s) v s with (s1, inl _) => (set_ram (next_ptr s1) 0xc097 v, inl 0) | (s1, inr e) => (s1, inr e) end).
Proof.
  unfold a_write, bind. rewrite intercept_cases. change (is_io (49303 mod 65536)) with true. cbv iota. rewrite io_some.
  change (supported_io (49303 mod 65536) (Some v)) with (Some Wdata). cbn [a_call]. unfold write_data, bind, get_state, ret, put_state.
  destruct (u_write (s_ptr s) v s) as [s1 [u|e]]; reflexivity.
Qed.
Lemma lor_bytes h l : 0 <= l < 256 -> Z.lor (256 * h) l = 256 * h + l.
Proof.
  intros L. symmetry. rewrite <- Z.lxor_lor; [apply Z.add_nocarry_lxor|];
  (apply Z.bits_inj'; intros n N; rewrite Z.land_spec, Z.bits_0; destruct (Z.lt_ge_cases n 8);
   [replace (256 * h) with (Z.shiftl h 8) by (rewrite Z.shiftl_mul_pow2 by lia; lia); rewrite Z.shiftl_spec_low by lia; reflexivity|
    rewrite (Z.bits_above_log2 l n); [apply andb_false_r|lia|];
    destruct (Z.eq_dec l 0) as [-> |]; [cbn; lia|]; assert (Z.log2 l < 8) by (apply Z.log2_lt_pow2; lia); lia]).
Qed.
Lemma land_7f l : Z.land l 0x7f = l mod 128.
Proof. change 0x7f with (Z.ones 7). rewrite Z.land_ones by lia. reflexivity. Qed.
Lemma land_7fff l : Z.land l 0x7fff = l mod 32768.
Proof. change 0x7fff with (Z.ones 15). rewrite Z.land_ones by lia. reflexivity. Qed.
Lemma land_7f00 l : Z.land l 0x7f00 = 256 * (l / 256 mod 128).
Proof.
  change 0x7f00 with (Z.shiftl (Z.ones 7) 8). apply Z.bits_inj'. intros n N. rewrite Z.land_spec.
  replace (256 * (l / 256 mod 128)) with (Z.shiftl (Z.land (Z.shiftr l 8) (Z.ones 7)) 8).
  - destruct (Z.lt_ge_cases n 8).
    + rewrite !Z.shiftl_spec_low by lia. apply andb_false_r.
    + rewrite !Z.shiftl_spec by lia. rewrite Z.land_spec, Z.shiftr_spec by lia. f_equal. f_equal. lia.
  - rewrite Z.land_ones by lia. rewrite Z.shiftr_div_pow2, Z.shiftl_mul_pow2 by lia. change (2 ^ 8) with 256. change (2 ^ 7) with 128. lia.
Qed.
Lemma shiftl8 v : Z.shiftl v 8 = 256 * v.
Proof. rewrite Z.shiftl_mul_pow2 by lia. lia. Qed.

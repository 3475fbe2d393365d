(** Bitmap objects: reachable states, masked values, dots. *)
From Verif Require Import Base BaseFacts BitFacts ScreenModel ScreenProofs BitmapModel
  ColourModel DisplaySpec BitmapSpec BitmapProofs BitmapApply.

Definition aux_present (bm : bitmap) : Prop :=
  match bm_kind bm with
  | HGR => bm_aux bm = None
  | DHGR => exists a, bm_aux bm = Some a /\ mm_page a = 1
  end.

Record bm_ok (bm : bitmap) : Prop := {
  ok_main_page : mm_page (bm_main bm) = 1;
  ok_aux : aux_present bm;
  ok_main_bytes : bytes_mem (mm_data (bm_main bm));
  ok_aux_bytes : bytes_mem (aux_data (bm_aux bm));
  ok_rows : forall p, 0 <= p < 32 ->
    row_ok (bm_kind bm) (mm_data (bm_main bm) p) (aux_data (bm_aux bm) p) (bm_packed bm p)
}.

Lemma clip_ext r r' j : (forall i, r i = r' i) -> clip_row r j = clip_row r' j.
Proof. intros H. unfold clip_row. rewrite H. reflexivity. Qed.

Lemma packed_bit_ext k main aux main' aux' c i :
  (forall j, main j = main' j) -> (forall j, aux j = aux' j) ->
  packed_bit k main aux c i = packed_bit k main' aux' c i.
Proof.
  intros Hm Ha. destruct k; unfold packed_bit.
  - rewrite !(clip_ext main main') by auto. reflexivity.
  - unfold dhgr_dot. destruct (Z.even ((28 * c - 3 + i) / 7)).
    + rewrite (clip_ext aux aux') by auto. reflexivity.
    + rewrite (clip_ext main main') by auto. reflexivity.
Qed.

Lemma row_ok_ext k main aux main' aux' pk pk' :
  (forall j, main j = main' j) -> (forall j, aux j = aux' j) ->
  (forall c, pk c = pk' c) ->
  row_ok k main aux pk -> row_ok k main' aux' pk'.
Proof.
  intros Hm Ha Hp H c Hc. rewrite <- Hp. destruct (H c Hc) as [B Hb]. split; auto.
  intros i Hi. rewrite Hb by auto. apply packed_bit_ext; auto.
Qed.

(** the packed array after [apply], row by row *)
Lemma fix_scalar_row k packed pg c o :
  forall p c', fix_scalar_neighbours k packed pg c o p c' =
    if p =? pg then
      (if (o =? 0) && (0 <? c) then upd1 (packed pg) (c - 1) (fix_column_left k (packed pg (c - 1)) (packed pg c))
       else if (o =? SCREEN_BYTES k - 1) && (c <? 127) then upd1 (packed pg) (c + 1) (fix_column_right k (packed pg (c + 1)) (packed pg c))
       else packed pg) c'
    else packed p c'.
Proof.
  intros p c'. unfold fix_scalar_neighbours.
  destruct ((o =? 0) && (0 <? c)); [|destruct ((o =? SCREEN_BYTES k - 1) && (c <? 127))];
  unfold upd2, upd1; destruct (Z.eqb_spec p pg) as [->|]; cbn [andb]; reflexivity.
Qed.

Lemma apply_packed k packed pg off o v : forall p c',
  fix_scalar_neighbours k (upd2 packed pg (off / 2) (masked_update k o (packed pg (off / 2)) v)) pg (off / 2) o p c'
  = if p =? pg then store_row k (packed pg) off o v c' else packed p c'.
Proof.
  intros p c'. rewrite fix_scalar_row. unfold store_row.
  assert (E : forall x, upd2 packed pg (off / 2) (masked_update k o (packed pg (off / 2)) v) pg x
    = upd1 (packed pg) (off / 2) (masked_update k o (packed pg (off / 2)) v) x).
  { intros x. unfold upd2, upd1. rewrite Z.eqb_refl. reflexivity. }
  destruct (Z.eqb_spec p pg) as [->|Hne].
  - destruct ((o =? 0) && (0 <? off / 2)); [|destruct ((o =? SCREEN_BYTES k - 1) && (off / 2 <? 127))];
      rewrite ?E; unfold upd1 at 1; rewrite ?E; try reflexivity.
  - unfold upd2. destruct (Z.eqb_spec p pg); [contradiction|reflexivity].
Qed.

Lemma norm_index_id n i : 0 <= i < n -> norm_index n i = Ok i.
Proof. intros. unfold norm_index. destruct ((0 <=? i) && (i <? n)) eqn:E; auto; lia. Qed.

Lemma mm_write_01 m p o v : mm_page m = 1 -> 0 <= p < 32 -> 0 <= o < 256 ->
  mm_write m p o v = Ok {| mm_page := 1; mm_data := upd2 (mm_data m) p o v |}.
Proof.
  intros H Hp Ho. apply mm_write_spec; auto. repeat split; try lia.
  rewrite (Z.mod_small p), (Z.mod_small o) by lia. reflexivity.
Qed.

Lemma bytes_upd m p o v : bytes_mem m -> is_byte v -> bytes_mem (upd2 m p o v).
Proof.
  intros H Hv a b Ha Hb. unfold upd2. destruct ((a =? p) && (b =? o)); auto.
Qed.

(** One store. *)
Lemma apply_ok bm p o a v : bm_ok bm -> good_store (bm_kind bm) (p, o, a, v) ->
  exists bm', apply bm p o a v = Ok bm' /\ bm_ok bm' /\ bm_kind bm' = bm_kind bm /\
    mm_data (bm_main bm') = (if a then mm_data (bm_main bm) else upd2 (mm_data (bm_main bm)) p o v) /\
    aux_data (bm_aux bm') = (if a then upd2 (aux_data (bm_aux bm)) p o v else aux_data (bm_aux bm)) /\
    (forall p' c', bm_packed bm' p' c' =
       if p' =? p then store_row (bm_kind bm) (bm_packed bm p) o (bo (bm_kind bm) o a) v c'
       else bm_packed bm p' c').
Proof.
  intros I (Hp & Ho & Hk & Hv).
  destruct I as [I1 I2 I3 I4 I5].
  unfold apply. rewrite byte_offset_bo by exact Hk. cbn [rbind].
  rewrite (norm_index_id 32), (norm_index_id 128) by (auto; clear - Ho; dlia). cbn [rbind].
  set (k := bm_kind bm) in *.
  assert (Rows : forall p', 0 <= p' < 32 ->
     row_ok k (if a then mm_data (bm_main bm) p' else upd2 (mm_data (bm_main bm)) p o v p')
              (if a then upd2 (aux_data (bm_aux bm)) p o v p' else aux_data (bm_aux bm) p')
        (fix_scalar_neighbours k (upd2 (bm_packed bm) p (o / 2)
           (masked_update k (bo k o a) (bm_packed bm p (o / 2)) v)) p (o / 2) (bo k o a) p')).
  { intros p' Hp'. destruct (Z.eq_dec p' p) as [->|Hne].
    - pose proof (store_row_ok k _ _ _ o a v Ho Hk Hv (I5 p Hp)) as S.
      destruct a; cbn [set_rows] in S.
      + eapply row_ok_ext; [| | |exact S]; auto.
        * intros j. unfold upd1, upd2. rewrite Z.eqb_refl. reflexivity.
        * intros c. rewrite apply_packed, Z.eqb_refl. reflexivity.
      + eapply row_ok_ext; [| | |exact S]; auto.
        * intros j. unfold upd1, upd2. rewrite Z.eqb_refl. reflexivity.
        * intros c. rewrite apply_packed, Z.eqb_refl. reflexivity.
    - eapply row_ok_ext; [| | |exact (I5 p' Hp')].
      + intros j. destruct a; auto. unfold upd2. destruct (Z.eqb_spec p' p); [contradiction|reflexivity].
      + intros j. destruct a; auto. unfold upd2. destruct (Z.eqb_spec p' p); [contradiction|reflexivity].
      + intros c. rewrite apply_packed. destruct (Z.eqb_spec p' p); [contradiction|reflexivity]. }
  destruct a.
  - destruct Hk as [Hk|]; [|discriminate]. unfold aux_present in I2. fold k in I2. rewrite Hk in I2.
    destruct I2 as (am & Ea & Pa). rewrite Ea in *. cbn [aux_data] in *.
    rewrite mm_write_01 by auto. cbn [rbind]. eexists. split; [reflexivity|].
    split; [|split; [reflexivity|split; [reflexivity|split; [reflexivity|]]]].
    + constructor; cbn [bm_main bm_aux bm_kind bm_packed aux_data mm_data]; auto using bytes_upd.
      unfold aux_present; cbn. rewrite Hk. eexists; split; reflexivity.
    + cbn [bm_packed]. intros. apply apply_packed.
  - rewrite mm_write_01 by auto. cbn [rbind]. eexists. split; [reflexivity|].
    split; [|split; [reflexivity|split; [reflexivity|split; [reflexivity|]]]].
    + constructor; cbn [bm_main bm_aux bm_kind bm_packed aux_data mm_data]; auto using bytes_upd.
    + cbn [bm_packed]. intros. apply apply_packed.
Qed.

Lemma hgr_new_ok main : mm_page main = 1 -> bytes_mem (mm_data main) -> bm_ok (hgr_new main).
Proof.
  intros H1 Hb. constructor; cbn; auto.
  - intros p o _ _. unfold is_byte; lia.
  - intros p Hp c Hc. apply pack_word; auto. intros o Ho; apply Hb; auto.
Qed.

Lemma dhgr_new_ok main aux : mm_page main = 1 -> mm_page aux = 1 ->
  bytes_mem (mm_data main) -> bytes_mem (mm_data aux) -> bm_ok (dhgr_new main aux).
Proof.
  intros H1 H2 Hb Ha. constructor; cbn; auto.
  - unfold aux_present; cbn. eauto.
  - intros p Hp c Hc. apply (pack_word DHGR); auto. intros o Ho; apply Hb; auto.
Qed.

Lemma apply_all_ok l : forall bm, bm_ok bm -> Forall (good_store (bm_kind bm)) l ->
  exists bm', apply_all bm l = Ok bm' /\ bm_ok bm' /\ bm_kind bm' = bm_kind bm /\
    (forall p o, mm_data (bm_main bm') p o = mem_after false (mm_data (bm_main bm)) l p o) /\
    (forall p o, aux_data (bm_aux bm') p o = mem_after true (aux_data (bm_aux bm)) l p o).
Proof.
  induction l as [|[[[p o] a] v] l IH]; intros bm I F; cbn [apply_all mem_after].
  - exists bm. auto.
  - inversion F as [|? ? G F']; subst.
    destruct (apply_ok bm p o a v I G) as (bm1 & E1 & I1 & K1 & M1 & A1 & _).
    rewrite E1. cbn [rbind]. rewrite <- K1 in F'.
    destruct (IH bm1 I1 F') as (bm' & E & I' & K & M & A).
    exists bm'. rewrite K1 in K. split; auto. split; auto. split; auto.
    rewrite M1 in M. rewrite A1 in A. destruct a; cbn [Bool.eqb]; auto.
Qed.

(** ** Masked values *)
Lemma mask_shift_nth k o : valid_o k o ->
  nth (Z.to_nat o) (BYTE_MASKS k) 0 = Z.shiftl (2 ^ MASKED_BITS k - 1) (nth (Z.to_nat o) (BYTE_SHIFTS k) 0)
  /\ 0 <= nth (Z.to_nat o) (BYTE_SHIFTS k) 0
  /\ nth (Z.to_nat o) (BYTE_SHIFTS k) 0 = match k with HGR => 8 * o | DHGR => 7 * o end.
Proof.
  unfold valid_o. intros H. destruct k; kc.
  - assert (o = 0 \/ o = 1) as [-> | ->] by lia; cbv; repeat split; congruence || reflexivity.
  - assert (o = 0 \/ o = 1 \/ o = 2 \/ o = 3) as [-> | [-> | [-> | ->]]] by lia; cbv; repeat split; congruence || reflexivity.
Qed.

Definition shift_of (k : kind) (o : Z) : Z := match k with HGR => 8 * o | DHGR => 7 * o end.

Lemma masked_bit k w o i : valid_o k o -> 0 <= i ->
  Z.testbit (mask_and_shift k w o) i = (i <? MASKED_BITS k) && Z.testbit w (i + shift_of k o).
Proof.
  intros Ho Hi. destruct (mask_shift_nth k o Ho) as (E1 & E2 & E3).
  unfold mask_and_shift. rewrite E1. rewrite E3 in *. fold (shift_of k o) in *.
  rewrite Z.shiftr_spec by auto. rewrite testbit_land_shiftl_mask by (unfold MASKED_BITS; destruct k; lia).
  destruct (Z.ltb_spec i (MASKED_BITS k)); bcase; reflexivity.
Qed.

Lemma masked_bound k w o : valid_o k o -> 0 <= mask_and_shift k w o < 2 ^ MASKED_BITS k.
Proof.
  intros Ho. destruct (mask_shift_nth k o Ho) as (E1 & E2 & E3).
  assert (0 <= MASKED_BITS k) by (unfold MASKED_BITS; destruct k; lia).
  apply bound_of_bits; auto.
  - unfold mask_and_shift. rewrite Z.shiftr_nonneg, Z.land_nonneg. right. rewrite E1.
    rewrite Z.shiftl_nonneg. pose proof (Z.pow_pos_nonneg 2 (MASKED_BITS k)). lia.
  - intros i Hi. rewrite masked_bit by (auto; lia). bcase; reflexivity.
Qed.

Lemma mask_assertion k w o : valid_o k o -> mask_and_shift_data k w o = Ok (mask_and_shift k w o).
Proof.
  intros Ho. unfold mask_and_shift_data. pose proof (masked_bound k w o Ho).
  destruct (Z.leb_spec (mask_and_shift k w o) (2 ^ MASKED_BITS k)); [reflexivity|lia].
Qed.

Lemma pair_index_bound k a b : 0 <= a < 2 ^ MASKED_BITS k -> 0 <= b < 2 ^ MASKED_BITS k ->
  0 <= pair_index k a b < 2 ^ (2 * MASKED_BITS k).
Proof.
  intros Ha Hb. unfold pair_index. replace (2 * MASKED_BITS k) with (MASKED_BITS k + MASKED_BITS k) by lia.
  rewrite Z.add_comm. assert (0 <= MASKED_BITS k) by (unfold MASKED_BITS; destruct k; lia).
  apply add_shiftl_bound; auto.
Qed.

Lemma pair_index_inj k a b a' b' :
  0 <= b < 2 ^ MASKED_BITS k -> 0 <= b' < 2 ^ MASKED_BITS k ->
  pair_index k a b = pair_index k a' b' -> a = a' /\ b = b'.
Proof.
  intros Hb Hb'. unfold pair_index. rewrite !Z.shiftl_mul_pow2 by (unfold MASKED_BITS; destruct k; lia).
  remember (2 ^ MASKED_BITS k) as n. intros E.
  assert (a = a') by nia. split; [auto|nia].
Qed.

(** ** What-if distances *)
Lemma fix_array_same_masked k (ary : Z -> Z) o c : valid_o k o -> 0 <= c < 128 ->
  mask_and_shift k (fix_array_neighbours k ary o c) o = mask_and_shift k (ary c) o.
Proof.
  intros Ho Hc. unfold fix_array_neighbours.
  apply (bits_eq (MASKED_BITS k)); auto using masked_bound; [unfold MASKED_BITS; destruct k; lia|].
  intros i Hi. rewrite !masked_bit by (auto; lia). f_equal.
  unfold valid_o in Ho.
  destruct (Z.eqb_spec o 0) as [->|]; [|destruct (Z.eqb_spec o (SCREEN_BYTES k - 1)) as [->|]]; auto.
  - rewrite fix_left_bit by (unfold MASKED_BITS, shift_of in *; destruct k; kc; lia).
    destruct k; kc; unfold shift_of, MASKED_BITS in *;
      rewrite ?footer_bit_HGR, ?footer_bit_DHGR by lia; bcase; try apply xorb_false_r.
  - rewrite fix_right_bit by (unfold MASKED_BITS, shift_of in *; destruct k; kc; lia).
    destruct k; kc; unfold shift_of, MASKED_BITS in *;
      rewrite ?header_bit_HGR, ?header_bit_DHGR by lia; bcase; try apply xorb_false_r.
Qed.

Lemma store_row_here k packed off is_aux v : 0 <= off < 256 ->
  store_row k packed off (bo k off is_aux) v (off / 2)
  = masked_update k (bo k off is_aux) (packed (off / 2)) v.
Proof.
  intros Ho. unfold store_row.
  destruct ((bo k off is_aux =? 0) && (0 <? off / 2));
    [|destruct ((bo k off is_aux =? SCREEN_BYTES k - 1) && (off / 2 <? 127))];
    rewrite ?upd1_other by lia; apply upd1_same.
Qed.

Lemma byte_offsets_bo k off is_aux : bank_ok k is_aux ->
  exists o0 o1, byte_offsets k is_aux = Ok (o0, o1) /\
    (if off mod 2 =? 0 then o0 else o1) = bo k off is_aux.
Proof.
  intros H. assert (E : off mod 2 = 0 \/ off mod 2 = 1) by dlia.
  unfold byte_offsets, bo. destruct k.
  - destruct H as [H| ->]; [discriminate|]. cbn. exists 0, 1. split; auto. destruct E as [-> | ->]; reflexivity.
  - destruct is_aux; [exists 0, 2 | exists 1, 3]; (split; [reflexivity|]); destruct E as [-> | ->]; reflexivity.
Qed.

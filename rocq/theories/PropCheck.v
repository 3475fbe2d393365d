(** C83: the sanity check of packed words. *)
From Verif Require Import Base BaseFacts BitFacts ScreenModel ScreenSpec BitmapModel DisplaySpec BitmapSpec BitmapProofs BitmapApply BitmapState BitmapFacts CheckModel.

Lemma check_iff b : check_consistency b = Ok tt <-> forall p o, 0 <= p < 32 -> 1 <= o <= 126 -> check_word (bm_kind b) (bm_packed b) p o = 0.
Proof.
  unfold check_consistency, assert_. split.
  - destruct (forallb _ (zrange 32)) eqn:E; [|discriminate]. intros _ p o P O. rewrite forallb_forall in E.
    specialize (E p ltac:(apply in_zrange; lia)). rewrite forallb_forall in E. specialize (E o ltac:(apply in_zrange; lia)). lia.
  - intros H. replace (forallb _ (zrange 32)) with true; [reflexivity|]. symmetry. apply forallb_forall. intros p P. apply in_zrange in P; [|lia].
    apply forallb_forall. intros o O. apply in_zrange in O; [|lia]. destruct (Z.eq_dec o 0), (Z.eq_dec o 127); try lia. rewrite H by lia. reflexivity.
Qed.
Lemma mask_bit i : 0 <= i -> Z.testbit mask_hf i = (i <? 3) || ((31 <=? i) && (i <? 34)).
Proof.
  intros Hi. change mask_hf with (Z.lor (2 ^ 3 - 1) (Z.shiftl (2 ^ 3 - 1) 31)). rewrite Z.lor_spec, Z.shiftl_spec by auto.
  assert (M : forall j, 0 <= j -> Z.testbit (2 ^ 3 - 1) j = (j <? 3)).
  { intros j Hj. change (2 ^ 3 - 1) with (Z.ones 3). destruct (Z.ltb_spec j 3); [apply Z.ones_spec_low|apply Z.ones_spec_high]; lia. }
  rewrite M by auto. f_equal. destruct (Z_lt_le_dec i 31); [rewrite Z.testbit_neg_r by lia; bcase; auto|]. rewrite M by lia. bcase; auto.
Qed.
Lemma zero_bits x : x = 0 <-> forall i, 0 <= i -> Z.testbit x i = false.
Proof. split; [intros -> i _; apply Z.bits_0|]. intros H. apply Z.bits_inj'. intros i Hi. rewrite H, Z.bits_0 by auto. reflexivity. Qed.

(** the header of a double hires word is the end of the body to the left, its
    footer the start of the body to the right *)
Definition joined (packed : Z -> Z -> Z) (p o : Z) : Prop := forall i, 0 <= i < 3 ->
  Z.testbit (packed p o) i = Z.testbit (packed p (o - 1)) (i + 28) /\ Z.testbit (packed p o) (i + 31) = Z.testbit (packed p (o + 1)) (i + 3).
Lemma word_joined packed p o : 1 <= o <= 126 -> check_word DHGR packed p o = 0 <-> joined packed p o.
Proof.
  intros O. unfold check_word. rewrite (Z.mod_small (o - 1)), (Z.mod_small (o + 1)) by lia. rewrite zero_bits. split.
  - intros H i Hi. pose proof (H i ltac:(lia)) as A. pose proof (H (i + 31) ltac:(lia)) as B. clear H.
    rewrite Z.land_spec, !Z.lxor_spec, mask_bit, header_bit_DHGR, footer_bit_DHGR in A by lia.
    rewrite Z.land_spec, !Z.lxor_spec, mask_bit, header_bit_DHGR, footer_bit_DHGR in B by lia.
    replace (i + 31 - 28) with (i + 3) in B by lia.
    replace (i <? 3) with true in A by lia. replace (31 <=? i) with false in A by lia.
    replace (i + 31 <? 3) with false in B by lia. replace (31 <=? i + 31) with true in B by lia. replace (i + 31 <? 34) with true in B by lia.
    destruct (Z.testbit (packed p o) i), (Z.testbit (packed p (o - 1)) (i + 28)), (Z.testbit (packed p o) (i + 31)), (Z.testbit (packed p (o + 1)) (i + 3)); cbn in A, B; split; congruence.
  - intros H i Hi. rewrite Z.land_spec, !Z.lxor_spec, mask_bit, header_bit_DHGR, footer_bit_DHGR by lia.
    destruct (Z_lt_le_dec i 3) as [L|L].
    + destruct (H i ltac:(lia)) as [-> _]. bcase; rewrite ?xorb_false_r, ?xorb_nilpotent; reflexivity.
    + destruct (Z_lt_le_dec i 31); [bcase; rewrite ?andb_false_r; reflexivity|]. destruct (Z_lt_le_dec i 34); [|bcase; rewrite ?andb_false_r; reflexivity].
      destruct (H (i - 31) ltac:(lia)) as [_ E]. replace (i - 31 + 31) with i in E by lia. replace (i - 31 + 3) with (i - 28) in E by lia. rewrite E.
      bcase; rewrite ?xorb_false_r, ?xorb_nilpotent; reflexivity.
Qed.

(** The check passes on every bitmap the program can make. *)
Theorem C83_check_passes : forall b, reachable b -> check_consistency b = Ok tt.
Proof.
  intros b R. apply check_iff. intros p o P O. pose proof (reachable_ok b R) as OK. pose proof (ok_rows _ OK p P) as RO.
  destruct (RO o ltac:(lia)) as [_ W]. destruct (RO (o - 1) ltac:(lia)) as [_ WL]. destruct (RO (o + 1) ltac:(lia)) as [_ WR].
  destruct (bm_kind b) eqn:K.
  - unfold check_word. rewrite (Z.mod_small (o - 1)), (Z.mod_small (o + 1)) by lia. apply zero_bits. intros i Hi.
    rewrite Z.land_spec, !Z.lxor_spec, mask_bit, header_bit_HGR, footer_bit_HGR by lia.
    destruct (Z_lt_le_dec i 3) as [L|L].
    + rewrite W by (cbn; lia). unfold packed_bit. rewrite !WL by (cbn; lia). unfold packed_bit.
      destruct (Z.eqb_spec i 2) as [->|N2].
      * cbn [Z.ltb Z.leb Z.eqb Z.compare Pos.compare Pos.compare_cont Pos.eqb andb orb]. replace (2 * (o - 1) + 1) with (2 * o - 1) by lia. rewrite xorb_false_r, xorb_nilpotent. reflexivity.
      * assert (I01 : i = 0 \/ i = 1) by lia. destruct I01 as [->| ->]; cbn [Z.add Pos.add Pos.succ Z.sub Z.opp Z.pos_sub Pos.pred_double Z.ltb Z.leb Z.eqb Z.compare Pos.compare Pos.compare_cont Pos.eqb andb orb];
          replace (2 * (o - 1) + 1) with (2 * o - 1) by lia; rewrite xorb_false_r; apply andb_false_iff; left; apply xorb_nilpotent.
    + destruct (Z_lt_le_dec i 31); [bcase; rewrite ?andb_false_r; reflexivity|].
      destruct (RO o ltac:(lia)) as [B _]. assert (PZ : Z.testbit (bm_packed b p o) i = false).
      { apply (Z.bits_above_log2); [lia|]. destruct (Z.eq_dec (bm_packed b p o) 0) as [->|NZ]; [cbn; lia|]. apply Z.log2_lt_pow2; [lia|].
        eapply Z.lt_le_trans; [apply B|]. apply Z.pow_le_mono_r; cbn; lia. }
      rewrite PZ. bcase; reflexivity.
  - apply word_joined; [exact O|]. intros i Hi. rewrite !W, WL, WR by (cbn; lia). unfold packed_bit. split; f_equal; lia.
Qed.
Print Assumptions C83_check_passes.

(** For double hires words it is exact: it fails iff some interior word and a
    neighbour disagree about the bits they share. *)
Theorem C83_dhgr_check_exact : forall b, bm_kind b = DHGR ->
  (check_consistency b = Ok tt <-> forall p o, 0 <= p < 32 -> 1 <= o <= 126 -> joined (bm_packed b) p o) /\
  (check_consistency b = Ok tt \/ check_consistency b = Raise AssertionError).
Proof.
  intros b K. split.
  - rewrite check_iff, K. split; intros H p o P O; apply word_joined; auto.
  - unfold check_consistency, assert_. destruct (forallb _ (zrange 32)); auto.
Qed.
Print Assumptions C83_dhgr_check_exact.

(** For hires words it looks at headers only: any footers pass. *)
Theorem C83_hgr_footers_unchecked : forall b b', bm_kind b = HGR -> bm_kind b' = HGR ->
  (forall p o, 0 <= p < 32 -> 0 <= o < 128 -> 0 <= bm_packed b p o < 2 ^ 22 /\ 0 <= bm_packed b' p o < 2 ^ 22 /\
     forall i, 0 <= i < 19 -> Z.testbit (bm_packed b p o) i = Z.testbit (bm_packed b' p o) i) ->
  check_consistency b = check_consistency b'.
Proof.
  intros b b' K K' H. assert (E : forall p o, 0 <= p < 32 -> 1 <= o <= 126 -> check_word HGR (bm_packed b) p o = check_word HGR (bm_packed b') p o).
  { intros p o P O. unfold check_word. rewrite (Z.mod_small (o - 1)), (Z.mod_small (o + 1)) by lia.
    destruct (H p o P ltac:(lia)) as (B & B' & W). destruct (H p (o - 1) P ltac:(lia)) as (_ & _ & WL).
    apply Z.bits_inj'. intros i Hi. rewrite !Z.land_spec, !Z.lxor_spec, mask_bit, !header_bit_HGR, !footer_bit_HGR by lia.
    destruct (Z_lt_le_dec i 3) as [L|L].
    - rewrite W by lia. rewrite (WL 11) by lia. destruct (Z.eqb_spec i 2) as [->|N2]; [bcase; auto|]. rewrite (WL (i + 17)) by lia. bcase; auto.
    - destruct (Z_lt_le_dec i 31); [bcase; rewrite !andb_false_r; reflexivity|].
      assert (PZ : forall x, 0 <= x < 2 ^ 22 -> Z.testbit x i = false).
      { intros x X. apply Z.bits_above_log2; [lia|]. destruct (Z.eq_dec x 0) as [->|NZ]; [cbn; lia|]. apply Z.log2_lt_pow2; [lia|].
        eapply Z.lt_le_trans; [apply X|]. apply Z.pow_le_mono_r; lia. }
      rewrite !PZ by auto. bcase; reflexivity. }
  assert (C : check_consistency b = Ok tt <-> check_consistency b' = Ok tt).
  { rewrite !check_iff, K, K'. split; intros F p o P O; [rewrite <- E|rewrite E]; auto. }
  unfold check_consistency, assert_ in *. destruct (forallb _ (zrange 32)), (forallb _ (zrange 32)); auto; [destruct (proj1 C eq_refl)|destruct (proj2 C eq_refl)]; reflexivity.
Qed.
Print Assumptions C83_hgr_footers_unchecked.

(** a bitmap that is not blank, and a broken one *)
Definition mem_c : memory_map := {| mm_page := 1; mm_data := fun p o => if o =? 7 then 0x55 else if o =? 8 then 0x7f else 0 |}.
Definition broken_c : bitmap :=
  {| bm_kind := DHGR; bm_main := mem_c; bm_aux := Some mem_c; bm_packed := fun p o => if (p =? 3) && (o =? 9) then 4 else 0 |}.
Example C83_case : reachable (dhgr_new mem_c mem_c) /\ bm_packed (dhgr_new mem_c mem_c) 0 3 <> 0 /\
  check_consistency (dhgr_new mem_c mem_c) = Ok tt /\ check_consistency broken_c = Raise AssertionError.
Proof.
  assert (B : bytes_mem (mm_data mem_c)) by (intros p o _ _; unfold is_byte; cbn [mm_data mem_c]; destruct (o =? 7), (o =? 8); lia).
  assert (R : reachable (dhgr_new mem_c mem_c)) by (apply reach_dhgr; auto). split; [exact R|]. split; [vm_compute; discriminate|]. split; [apply C83_check_passes, R|].
  destruct (proj2 (C83_dhgr_check_exact broken_c eq_refl)) as [E|E]; [|exact E]. exfalso.
  pose proof (proj1 (check_iff broken_c) E 3 9 ltac:(lia) ltac:(lia)) as X. vm_compute in X. discriminate.
Qed.
(** hires words that differ in a footer only *)
Definition words_c (f : Z) : bitmap :=
  {| bm_kind := HGR; bm_main := mem_c; bm_aux := None; bm_packed := fun p o => if (p =? 3) && (o =? 9) then 0x100 + f else 0 |}.
Example C83_footer_case : words_c 0 <> words_c 0x80000 /\ check_consistency (words_c 0) = check_consistency (words_c 0x80000) /\
  check_consistency (words_c 1) = Raise AssertionError.
Proof.
  split; [|split].
  - intros E. apply (f_equal (fun b => bm_packed b 3 9)) in E. vm_compute in E. discriminate.
  - apply C83_hgr_footers_unchecked; auto. intros p o _ _. cbn [bm_packed words_c]. destruct ((p =? 3) && (o =? 9)); [|repeat split; try lia].
    split; [lia|]. split; [lia|]. intros i Hi. assert (C : In i (zrange 19)) by (apply in_zrange; lia). revert i Hi C.
    assert (A : forall i, In i (zrange 19) -> Z.testbit (256 + 0) i = Z.testbit (256 + 524288) i).
    { intros i C. cbn in C. repeat (destruct C as [<-|C]; [reflexivity|]). destruct C. }
    intros i _ C. apply A, C.
  - destruct (check_consistency (words_c 1)) as [[]|e] eqn:E.
    + pose proof (proj1 (check_iff (words_c 1)) E 3 9 ltac:(lia) ltac:(lia)) as X. vm_compute in X. discriminate.
    + unfold check_consistency, assert_ in E. destruct (forallb _ _) in E; congruence.
Qed.

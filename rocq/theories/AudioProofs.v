(** Proofs about audio normalisation. *)
From Verif Require Import Base BaseFacts ClockModel AudioModel AudioSpec.
From Coq Require Import Permutation Sorted.

Lemma insert_z_perm x l : Permutation (x :: l) (insert_z x l).
Proof.
  induction l as [|y l IH]; cbn; [apply Permutation_refl|]. destruct (x <=? y); [apply Permutation_refl|].
  eapply Permutation_trans; [apply perm_swap|]. constructor. exact IH.
Qed.
Lemma sort_z_perm l : Permutation l (sort_z l).
Proof.
  induction l as [|x l IH]; cbn; [constructor|]. eapply Permutation_trans; [|apply insert_z_perm]. constructor. exact IH.
Qed.
Lemma insert_z_sorted x l : StronglySorted Z.le l -> StronglySorted Z.le (insert_z x l).
Proof.
  induction l as [|y l IH]; cbn; intros H; [repeat constructor|]. inversion H; subst. destruct (Z.leb_spec x y).
  - constructor; [exact H|]. constructor; [exact H0|]. eapply Forall_impl; [|exact H3]. cbn. intros. lia.
  - constructor; [auto|]. apply (Permutation_Forall (insert_z_perm x l)). constructor; [lia|exact H3].
Qed.
Lemma sort_z_sorted l : StronglySorted Z.le (sort_z l).
Proof. induction l; cbn; [constructor|]. apply insert_z_sorted. assumption. Qed.
Lemma sort_z_length l : length (sort_z l) = length l.
Proof. symmetry. apply Permutation_length, sort_z_perm. Qed.
Lemma count_perm f l l' : Permutation l l' -> count f l = count f l'.
Proof.
  intros H. unfold count. f_equal. induction H; cbn; try destruct (f x); try destruct (f y); cbn; try lia; auto.
Qed.
Lemma nth_sorted s : StronglySorted Z.le s -> forall i j, (i <= j < length s)%nat -> nth i s 0 <= nth j s 0.
Proof.
  induction 1 as [|x s S IH F]; intros i j H; [cbn in H; lia|]. destruct j as [|j]; destruct i as [|i]; cbn in *; try lia.
  - rewrite Forall_forall in F. apply F, nth_In. lia.
  - apply IH. lia.
Qed.
Lemma filter_length_le (f : Z -> bool) l : (length (filter f l) <= length l)%nat.
Proof. induction l as [|x l IH]; cbn; [lia|]. destruct (f x); cbn; lia. Qed.
(** everything above the value at position [f] comes after it *)
Lemma count_above s p f : StronglySorted Z.le s -> (f < length s)%nat -> nth f s 0 <= p ->
  count (fun x => p <? x) s <= Z.of_nat (length s) - 1 - Z.of_nat f.
Proof.
  intros S. revert f. induction S as [|x s S IH F]; intros f L N; [cbn in L; lia|]. unfold count in *. cbn [filter length] in *.
  destruct f as [|f]; cbn [nth] in N.
  - replace (p <? x) with false by lia. pose proof (filter_length_le (fun x => p <? x) s). lia.
  - assert (x <= p). { rewrite Forall_forall in F. assert (In (nth f s 0) s) by (apply nth_In; lia). specialize (F _ H). lia. }
    replace (p <? x) with false by lia. specialize (IH f ltac:(lia) N). lia.
Qed.
(** everything below the value at position [g] comes before it *)
Lemma count_below s p g : StronglySorted Z.le s -> (g < length s)%nat -> p <= nth g s 0 ->
  count (fun x => x <? p) s <= Z.of_nat g.
Proof.
  intros S. revert g. induction S as [|x s S IH F]; intros g L N; [cbn in L; lia|]. unfold count in *. cbn [filter length] in *.
  destruct g as [|g]; cbn [nth] in N.
  - replace (x <? p) with false by lia. assert (E : filter (fun x => x <? p) s = []).
    { clear - F N. induction F as [|y s H F IH]; [reflexivity|]. cbn. replace (y <? p) with false by lia. exact IH. }
    rewrite E. reflexivity.
  - specialize (IH g ltac:(lia) N). destruct (x <? p); cbn [length]; lia.
Qed.
Lemma count_split s n p q : p <= n -> - n <= q -> count (fun x => n <? Z.abs x) s <= count (fun x => p <? x) s + count (fun x => x <? q) s.
Proof.
  intros A B. unfold count. induction s as [|x s IH]; cbn [filter length]; [lia|].
  destruct (Z.ltb_spec n (Z.abs x)); destruct (Z.ltb_spec p x); destruct (Z.ltb_spec x q); cbn [length]; lia.
Qed.

Lemma few_exceed lerp a : between lerp -> a <> [] ->
  100 * count (fun x => norm lerp a <? Z.abs x) a <= Z.of_nat (length a) + 198.
Proof.
  intros B NE. set (n := Z.of_nat (length a)).
  assert (N : 1 <= n) by (destruct a; [contradiction|]; unfold n; cbn; lia).
  assert (S : StronglySorted Z.le (sort_z a)) by apply sort_z_sorted.
  assert (LS : Z.of_nat (length (sort_z a)) = n) by (rewrite sort_z_length; reflexivity).
  assert (P : forall q, 0 <= q <= 1000 -> let f := (n - 1) * q / 1000 in
    0 <= f < n /\ nth (Z.to_nat f) (sort_z a) 0 <= percentile lerp q a <= nth (Z.to_nat (Z.min (f + 1) (n - 1))) (sort_z a) 0).
  { intros q Q f.
    assert (F : 0 <= f < n). { unfold f. split; [apply Z.div_pos; nia|]. apply Z.div_lt_upper_bound; nia. }
    split; [exact F|]. unfold percentile. fold n f. apply B.
    - apply nth_sorted; [exact S|]. lia.
    - apply Z.mod_pos_bound. reflexivity. }
  destruct (P 5 ltac:(lia)) as (F1 & A1 & A2). destruct (P 995 ltac:(lia)) as (F2 & B1 & B2).
  set (f1 := (n - 1) * 5 / 1000) in *. set (f2 := (n - 1) * 995 / 1000) in *.
  set (p1 := percentile lerp 5 a) in *. set (p2 := percentile lerp 995 a) in *.
  rewrite (count_perm _ _ _ (sort_z_perm a)).
  pose proof (count_split (sort_z a) (norm lerp a) p2 p1) as C. unfold norm in C at 1 2. fold p1 p2 in C. specialize (C ltac:(lia) ltac:(lia)).
  assert (U : count (fun x => p2 <? x) (sort_z a) <= n - 1 - f2).
  { pose proof (count_above (sort_z a) p2 (Z.to_nat f2) S ltac:(lia) B1). lia. }
  assert (D : count (fun x => x <? p1) (sort_z a) <= f1 + 1).
  { pose proof (count_below (sort_z a) p1 (Z.to_nat (Z.min (f1 + 1) (n - 1))) S ltac:(lia) A2). lia. }
  assert (f1 * 1000 <= (n - 1) * 5) by (unfold f1; pose proof (Z.mul_div_le ((n - 1) * 5) 1000); lia).
  assert ((n - 1) * 995 < f2 * 1000 + 1000) by (unfold f2; pose proof (Z.mul_succ_div_gt ((n - 1) * 995) 1000); lia).
  lia.
Qed.
Lemma exact_between : between exact_lerp.
Proof. intros a b t H T. unfold exact_lerp. assert (0 <= (b - a) * t / 1000 <= b - a) by (split; [apply Z.div_pos; nia|apply Z.div_le_upper_bound; nia]). lia. Qed.

(** samples within full scale are not clipped, except at the very bottom *)
Lemma not_clipped n x : 0 < n < 2 ^ 50 -> - n < x <= n -> audio_value (normalised n x) = Z.quot (16 * x) n.
Proof.
  intros N X. unfold normalised. replace (n =? 0) with false by lia. unfold audio_value, to_int.
  assert (Q : -15 <= Z.quot (16 * x) n <= 16).
  { destruct (Z.le_gt_cases 0 x).
    - rewrite Z.quot_div_nonneg by lia. split; [pose proof (Z.div_pos (16 * x) n); lia|apply Z.div_le_upper_bound; lia].
    - replace (16 * x) with (- (16 * - x)) by lia. rewrite Z.quot_opp_l by lia. rewrite Z.quot_div_nonneg by lia.
      assert (16 * - x / n < 16) by (apply Z.div_lt_upper_bound; lia). pose proof (Z.div_pos (16 * - x) n). lia. }
  replace ((- 2 ^ 63 <=? 16 * x ÷ n) && (16 * x ÷ n <? 2 ^ 63)) with true by lia.
  unfold clip. lia.
Qed.

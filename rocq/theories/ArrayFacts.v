(** Memory and 64-bit arithmetic of the array-level encoder. *)
From Verif Require Import Base BaseFacts BitFacts ScreenModel ScreenSpec BitmapModel DisplaySpec BitmapSpec BitmapProofs BitmapApply BitmapState
  VideoModel VideoSpec OpcodeModel MovieModel HeapqModel ArrayModel.
Opaque TABLES all_pairs.

(** ** Wrapping *)
Lemma wrap_u8 v : 0 <= v < 256 -> wrap U8 v = v.
Proof. intros H. cbn [wrap]. apply Z.mod_small. exact H. Qed.
Lemma wrap_u64 v : 0 <= v < 2 ^ 64 -> wrap U64 v = v.
Proof. intros H. cbn [wrap]. apply Z.mod_small. exact H. Qed.
Lemma wrap_i32 v : - 2 ^ 31 <= v < 2 ^ 31 -> wrap I32 v = v.
Proof. intros H. unfold wrap. rewrite Z.mod_small; [lia|]. change (2 ^ 31) with 2147483648 in *. change (2 ^ 32) with 4294967296. lia. Qed.
Lemma shl64_id n x s : 0 <= n -> 0 <= s -> n + s <= 64 -> 0 <= x < 2 ^ n -> shl64 x s = Z.shiftl x s /\ 0 <= Z.shiftl x s < 2 ^ (n + s).
Proof.
  intros Hn Hs L B. pose proof (shiftl_bound n s x Hn Hs B) as SB. split; [|exact SB].
  unfold shl64. apply wrap_u64. apply (bound_weaken (n + s)); [lia|exact SB].
Qed.
Lemma add64_id x y : 0 <= x -> 0 <= y -> x + y < 2 ^ 64 -> add64 x y = x + y.
Proof. intros. unfold add64. apply wrap_u64. lia. Qed.

Lemma footer64 k col : make_footer64 k col = make_footer k col.
Proof.
  destruct k; cbn [make_footer64 make_footer].
  - apply (shl64_id 11 _ 19); [lia|lia|lia|]. apply lxor_bound; [lia| |].
    + apply (bound_weaken 1); [lia|]. apply (shiftr_bound 11 10); [lia|lia|]. apply land_bound_r; [lia|]. cbn. lia.
    + apply (bound_weaken 3); [lia|]. apply (shiftr_bound 5 2); [lia|lia|]. apply land_bound_r; [lia|]. cbn. lia.
  - apply (shl64_id 6 _ 28); [lia|lia|lia|]. apply land_bound_r; [lia|]. cbn. lia.
Qed.
Lemma footer_u64 k col : 0 <= make_footer k col < 2 ^ 64.
Proof. apply (bound_weaken (PACKED_BITS k)); [destruct k; cbn; lia|]. apply footer_bound. Qed.
Lemma header_u64 k col : 0 <= make_header k col < 2 ^ 64.
Proof. apply (bound_weaken 3); [lia|]. apply header_bound. Qed.

Lemma u64_not_bound x : 0 <= x < 2 ^ 64 -> 0 <= u64_not x < 2 ^ 64.
Proof. intros H. apply lxor_bound; [lia|exact H|]. cbn. lia. Qed.
Lemma masked_update_id k o w v : valid_o k o -> 0 <= w < 2 ^ 64 -> 0 <= v < 256 ->
  masked_update64 k o w v = masked_update k o w v /\ 0 <= masked_update k o w v < 2 ^ 64.
Proof.
  intros V W B. destruct k; cbn [masked_update64 masked_update].
  - destruct (o =? 0).
    + destruct (shl64_id 8 v 3) as [E S]; [lia|lia|lia|exact B|]. rewrite E. split; [reflexivity|].
      apply lxor_bound; [lia|apply land_bound_l; [lia|exact W]|apply (bound_weaken 11); [lia|exact S]].
    + assert (SB : 0 <= Z.lxor (Z.shiftl (Z.land v 127) 1) (Z.shiftr (Z.land v 128) 7) < 2 ^ 8).
      { apply lxor_bound; [lia| |].
        - apply (shiftl_bound 7 1); [lia|lia|]. apply land7f_bound.
        - apply (bound_weaken 1); [lia|]. apply (shiftr_bound 8 7); [lia|lia|]. apply land_bound_l; [lia|exact B]. }
      destruct (shl64_id 8 _ 11 ltac:(lia) ltac:(lia) ltac:(lia) SB) as [E S]. cbv zeta. rewrite E. split; [reflexivity|].
      apply lxor_bound; [lia|apply land_bound_l; [lia|exact W]|apply (bound_weaken 19); [lia|exact S]].
  - assert (VO : 0 <= o < 4) by (destruct V; cbn in *; lia).
    destruct (shl64_id 7 (Z.land v 127) (7 * o + 3)) as [E S]; [lia|lia|lia|apply land7f_bound|]. rewrite E. split; [reflexivity|].
    apply lxor_bound; [lia|apply land_bound_l; [lia|exact W]|apply (bound_weaken (7 + (7 * o + 3))); [lia|exact S]].
Qed.

Lemma right_mask_id k : right_mask k = Z.shiftl (2 ^ (BODY_BITS k + FOOTER_BITS k) - 1) (HEADER_BITS k).
Proof. destruct k; reflexivity. Qed.
Lemma fix_left_bound k l c : 0 <= l < 2 ^ 64 -> 0 <= fix_column_left k l c < 2 ^ 64.
Proof. intros H. apply lxor_bound; [lia|apply land_bound_l; [lia|exact H]|apply footer_u64]. Qed.
Lemma fix_right_bound k r c : 0 <= r < 2 ^ 64 -> 0 <= fix_column_right k r c < 2 ^ 64.
Proof. intros H. apply lxor_bound; [lia|apply land_bound_l; [lia|exact H]|apply header_u64]. Qed.

Lemma pair64_id k a b : 0 <= a < 2 ^ MASKED_BITS k -> 0 <= b < 2 ^ MASKED_BITS k -> pair64 k a b = pair_index k a b.
Proof.
  intros A B. unfold pair64, pair_index.
  assert (M : 0 <= MASKED_BITS k <= 14) by (destruct k; cbn; lia).
  destruct (shl64_id (MASKED_BITS k) a (MASKED_BITS k)) as [E S]; [lia|lia|lia|exact A|]. rewrite E.
  assert (S' : 0 <= Z.shiftl a (MASKED_BITS k) < 2 ^ 28) by (apply (bound_weaken (MASKED_BITS k + MASKED_BITS k)); [lia|exact S]).
  assert (B' : 0 <= b < 2 ^ 14) by (apply (bound_weaken (MASKED_BITS k)); [lia|exact B]).
  change (2 ^ 28) with 268435456 in S'. change (2 ^ 14) with 16384 in B'. apply add64_id; [lia|lia|].
  change (2 ^ 64) with 18446744073709551616. lia.
Qed.

Lemma body64_id k h main aux p c (m a : mem) :
  at256 h main p (2 * c) = m p (2 * c) -> at256 h main p (2 * c + 1) = m p (2 * c + 1) ->
  is_byte (m p (2 * c)) -> is_byte (m p (2 * c + 1)) ->
  (k = DHGR -> at256 h aux p (2 * c) = a p (2 * c) /\ at256 h aux p (2 * c + 1) = a p (2 * c + 1)) ->
  body64 k h main aux p c = body k m a p c /\ 0 <= body k m a p c < 2 ^ 64.
Proof.
  intros E1 E2 B1 B2 EA. destruct k; cbn [body64 body].
  - rewrite E1, E2. cbv zeta.
    destruct (shl64_id 8 (m p (2 * c)) 3) as [S1 T1]; [lia|lia|lia|exact B1|].
    destruct (shl64_id 7 (Z.land (m p (2 * c + 1)) 127) 12) as [S2 T2]; [lia|lia|lia|apply land7f_bound|].
    destruct (shl64_id 8 (Z.land (m p (2 * c + 1)) 128) 4) as [S3 T3]; [lia|lia|lia|apply land_bound_l; [lia|exact B2]|].
    change (2 ^ (8 + 3)) with 2048 in T1. change (2 ^ (7 + 12)) with 524288 in T2. change (2 ^ (8 + 4)) with 4096 in T3.
    change (2 ^ 64) with 18446744073709551616.
    rewrite S1, S2, S3. rewrite (add64_id (Z.shiftl _ 3)); [|lia|lia|change (2 ^ 64) with 18446744073709551616; lia].
    rewrite add64_id; [|lia|lia|change (2 ^ 64) with 18446744073709551616; lia]. split; [reflexivity|lia].
  - destruct (EA eq_refl) as [A1 A2]. rewrite E1, E2, A1, A2.
    destruct (shl64_id 7 (Z.land (a p (2 * c)) 127) 3) as [S1 T1]; [lia|lia|lia|apply land7f_bound|].
    destruct (shl64_id 7 (Z.land (m p (2 * c)) 127) 10) as [S2 T2]; [lia|lia|lia|apply land7f_bound|].
    destruct (shl64_id 7 (Z.land (a p (2 * c + 1)) 127) 17) as [S3 T3]; [lia|lia|lia|apply land7f_bound|].
    destruct (shl64_id 7 (Z.land (m p (2 * c + 1)) 127) 24) as [S4 T4]; [lia|lia|lia|apply land7f_bound|].
    change (2 ^ (7 + 3)) with 1024 in T1. change (2 ^ (7 + 10)) with 131072 in T2. change (2 ^ (7 + 17)) with 16777216 in T3.
    change (2 ^ (7 + 24)) with 2147483648 in T4. change (2 ^ 64) with 18446744073709551616.
    rewrite S1, S2, S3, S4. rewrite (add64_id (Z.shiftl _ 3)); [|lia|lia|change (2 ^ 64) with 18446744073709551616; lia].
    rewrite (add64_id (_ + _) (Z.shiftl _ 17)); [|lia|lia|change (2 ^ 64) with 18446744073709551616; lia].
    rewrite add64_id; [|lia|lia|change (2 ^ 64) with 18446744073709551616; lia]. split; [reflexivity|lia].
Qed.

(** ** Memory *)
Definition amem (h : memory) (ty : dtype) (f : Z -> Z) : memory := snd (alloc h ty f).
Lemma alloc_eq h ty f : alloc h ty f = (h_next h, amem h ty f).
Proof. reflexivity. Qed.
Lemma amem_new h ty f i : h_buf (amem h ty f) (h_next h) i = wrap ty (f i).
Proof. unfold amem, alloc. cbn. rewrite Z.eqb_refl. reflexivity. Qed.
Lemma amem_old h ty f r i : r < h_next h -> h_buf (amem h ty f) r i = h_buf h r i.
Proof. intros H. unfold amem, alloc. cbn. destruct (Z.eqb_spec r (h_next h)); [lia|reflexivity]. Qed.
Lemma amem_next h ty f : h_next (amem h ty f) = h_next h + 1.
Proof. reflexivity. Qed.
Lemma amem_type_new h ty f : h_type (amem h ty f) (h_next h) = ty.
Proof. unfold amem, alloc. cbn. rewrite Z.eqb_refl. reflexivity. Qed.
Lemma amem_type_old h ty f r : r < h_next h -> h_type (amem h ty f) r = h_type h r.
Proof. intros H. unfold amem, alloc. cbn. destruct (Z.eqb_spec r (h_next h)); [lia|reflexivity]. Qed.
Lemma amem_memo h ty f : h_memo (amem h ty f) = h_memo h.
Proof. reflexivity. Qed.
Lemma set_all_same h r f i : h_buf (set_all h r f) r i = wrap (h_type h r) (f i).
Proof. cbn. rewrite Z.eqb_refl. reflexivity. Qed.
Lemma set_all_other h r f r' i : r' <> r -> h_buf (set_all h r f) r' i = h_buf h r' i.
Proof. intros H. cbn. destruct (Z.eqb_spec r' r); [contradiction|reflexivity]. Qed.
Lemma set1_same h r i v j : h_buf (set1 h r i v) r j = if j =? i then wrap (h_type h r) v else h_buf h r j.
Proof. cbn. rewrite Z.eqb_refl. reflexivity. Qed.
Lemma set1_other h r i v r' j : r' <> r -> h_buf (set1 h r i v) r' j = h_buf h r' j.
Proof. intros H. cbn. destruct (Z.eqb_spec r' r); [contradiction|reflexivity]. Qed.

(** [keep w h h']: of the buffers of [h] only those in [w] may have changed *)
Record keep (w : list Z) (h h' : memory) : Prop := {
  k_next : h_next h <= h_next h';
  k_type : forall r, r < h_next h -> h_type h' r = h_type h r;
  k_buf : forall r i, r < h_next h -> ~ In r w -> h_buf h' r i = h_buf h r i
}.
Lemma keep_refl w h : keep w h h.
Proof. constructor; auto. lia. Qed.
Lemma keep_trans w h1 h2 h3 : keep w h1 h2 -> keep w h2 h3 -> keep w h1 h3.
Proof.
  intros [A1 A2 A3] [B1 B2 B3]. constructor; [lia| |].
  - intros r H. rewrite B2 by lia. auto.
  - intros r i H N. rewrite B3 by (auto; lia). auto.
Qed.
Lemma keep_weak w w' h h' : incl w w' -> keep w h h' -> keep w' h h'.
Proof. intros I [A1 A2 A3]. constructor; auto. Qed.
Lemma keep_alloc w h ty f : keep w h (amem h ty f).
Proof.
  constructor; [rewrite amem_next; lia| |].
  - intros r H. apply amem_type_old, H.
  - intros r i H _. apply amem_old, H.
Qed.
Lemma keep_set1 w h r i v : In r w -> keep w h (set1 h r i v).
Proof. intros I. constructor; [cbn; lia|reflexivity|]. intros r' j H N. apply set1_other. intros ->. auto. Qed.
Lemma keep_set_all w h r f : In r w -> keep w h (set_all h r f).
Proof. intros I. constructor; [cbn; lia|reflexivity|]. intros r' j H N. apply set_all_other. intros ->. auto. Qed.
Lemma keep_memo w h m : keep w h (with_memo h m).
Proof. constructor; [cbn; lia|reflexivity|reflexivity]. Qed.
(** a buffer allocated in between may be changed freely *)
Lemma keep_fresh w h h1 h2 r : h_next h <= r -> keep w h h1 -> keep (r :: w) h1 h2 -> keep w h h2.
Proof.
  intros F [A1 A2 A3] [B1 B2 B3]. constructor; [lia| |].
  - intros s H. rewrite B2 by lia. auto.
  - intros s i H N. rewrite B3; [auto|lia|]. intros [->|I]; [lia|auto].
Qed.

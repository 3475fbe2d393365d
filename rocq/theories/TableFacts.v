(** Assembly of the table properties. *)
From Verif Require Import Base BaseFacts BitFacts ScreenModel BitmapModel DisplaySpec BitmapSpec
  BitmapProofs BitmapApply BitmapState ColourModel ColourProofs DotsProofs BitmapFacts TableModel TableSpec LevProofs TableProofs.

Section T.
  Variables (dm : Z -> Z -> Z) (k : kind) (value : colour_name -> Z) (t : table).
  Hypothesis V : value = hgr_value \/ value = dhgr_value.
  Hypothesis HD : small_matrix dm.
  Hypothesis HT : compute_edit_distance (compute_substitute_costs dm) k value = Ok t.
  Let ed := edit_distances k t.

  Lemma ed_dist o a b : 0 <= o < SCREEN_BYTES k -> 0 <= a < 2 ^ MASKED_BITS k -> 0 <= b < 2 ^ MASKED_BITS k ->
    ed o (pair_index k a b) = dist dm k value o a b.
  Proof.
    intros Ho Ha Hb. destruct (table_spec dm k value V HD) as (t' & E & S).
    rewrite HT in E. injection E as <-. apply S; auto.
  Qed.

  Lemma table_symmetric o a b : 0 <= o < SCREEN_BYTES k -> 0 <= a < 2 ^ MASKED_BITS k -> 0 <= b < 2 ^ MASKED_BITS k ->
    ed o (pair_index k a b) = ed o (pair_index k b a) /\
    ed o (pair_index k a a) = 0 /\
    0 <= ed o (pair_index k a b) < 2 ^ 16 /\
    exists pa pb sa sb, window_pixels k value a o = Ok pa /\ window_pixels k value b o = Ok pb /\
      pixel_string pa = Ok sa /\ pixel_string pb = Ok sb /\
      edit_distance (compute_substitute_costs dm) sa sb false = Ok (ed o (pair_index k a b)).
  Proof.
    intros Ho Ha Hb. rewrite !ed_dist by auto.
    split; [apply dist_sym|]. split; [apply dist_refl; auto|].
    pose proof (dist_bound dm k value V HD o a b Ha Hb Ho) as B. split; [exact B|].
    destruct (window_pixels_ok k value a o V Ha Ho) as (da & pa & _ & Ea & _ & Fa & _).
    destruct (window_pixels_ok k value b o V Hb Ho) as (db & pb & _ & Eb & _ & Fb & _).
    exists pa, pb, (map chr pa), (map chr pb).
    rewrite !pixel_string_ok by auto. do 4 (split; [auto|]).
    unfold edit_distance. unfold dist, pxs in *. rewrite Ea, Eb in *.
    set (r := dam_lev _ _ _) in *.
    assert (A : (0 <=? r) && (r <? 2 ^ 16) = true) by lia. rewrite A. reflexivity.
  Qed.

  Lemma pxs_window o a : 0 <= o < SCREEN_BYTES k -> 0 <= a < 2 ^ MASKED_BITS k ->
    window_pixels k value a o = Ok (pxs k value o a).
  Proof.
    intros Ho Ha. destruct (window_pixels_ok k value a o V Ha Ho) as (da & pa & _ & Ea & _).
    unfold pxs. rewrite Ea. reflexivity.
  Qed.

  Lemma zero_iff_same_colours o a b :
    (forall i j, 0 <= j < i -> i < 16 -> 0 < dm i j) ->
    0 <= o < SCREEN_BYTES k -> 0 <= a < 2 ^ MASKED_BITS k -> 0 <= b < 2 ^ MASKED_BITS k ->
    (ed o (pair_index k a b) = 0 <-> window_pixels k value a o = window_pixels k value b o).
  Proof.
    intros HP Ho Ha Hb. rewrite ed_dist by auto. rewrite dist_zero by auto.
    rewrite !pxs_window by auto.
    assert (LL : forall i, 0 <= i < 2 ^ MASKED_BITS k -> length (pxs k value o i) = Z.to_nat (MASKED_DOTS k))
      by (intros i Hi; apply pxs_length; auto).
    assert (NN : forall i t, 0 <= i < 2 ^ MASKED_BITS k -> (t < Z.to_nat (MASKED_DOTS k))%nat -> nib (nth t (pxs k value o i) 0)).
    { intros i u Hi Hu. destruct (window_pixels_ok k value i o V Hi Ho) as (d & px & _ & E & _ & F & _).
      rewrite <- (LL i Hi) in Hu. unfold pxs in *. rewrite E in *. apply (forall_list _ _ F). apply nth_In; auto. }
    split.
    - intros H. f_equal. apply (nth_ext _ _ 0 0).
      + rewrite !LL by auto. reflexivity.
      + intros u Hu. rewrite LL in Hu by auto. specialize (H u Hu). cbv zeta in H.
        pose proof (NN a u Ha Hu) as N1. pose proof (NN b u Hb Hu) as N2. unfold nib in *.
        destruct H as [H|H]; [auto|].
        destruct (Z.eq_dec (nth u (pxs k value o a) 0) (nth u (pxs k value o b) 0)) as [E|N]; [auto|].
        specialize (HP (Z.max (nth u (pxs k value o a) 0) (nth u (pxs k value o b) 0)) (Z.min (nth u (pxs k value o a) 0) (nth u (pxs k value o b) 0)) ltac:(lia) ltac:(lia)). lia.
    - intros H u Hu. cbv zeta. left. injection H as ->. reflexivity.
  Qed.
End T.

(** equal DHGR windows have equal masked values *)
Lemma nth_map_zrange {A} (f : Z -> A) n i d : (i < Z.to_nat n)%nat -> nth i (map f (zrange n)) d = f (Z.of_nat i).
Proof.
  intros Hi. unfold zrange. rewrite (nth_indep _ d (f 0)) by (rewrite map_length, zrange_from_length; auto).
  rewrite map_nth. rewrite zrange_from_nth by auto. f_equal.
Qed.

Lemma dhgr_window_inj value o a b : value = hgr_value \/ value = dhgr_value ->
  0 <= o < 4 -> 0 <= a < 2 ^ 13 -> 0 <= b < 2 ^ 13 ->
  window_pixels DHGR value a o = window_pixels DHGR value b o -> a = b.
Proof.
  intros V Ho Ha Hb E.
  destruct (window_pixels_ok DHGR value a o V Ha Ho) as (da & pa & Da & Ea & Pa & _).
  destruct (window_pixels_ok DHGR value b o V Hb Ho) as (db & pb & Db & Eb & Pb & _).
  injection Da as <-. injection Db as <-.
  assert (Pab : pa = pb) by congruence. rewrite Pa, Pb in Pab. clear Pa Pb.
  set (ph := nth (Z.to_nat o) (PHASES DHGR) 0) in *. clearbody ph. clear Ea Eb E. rename Pab into Pb.
  apply (bits_eq 13); [lia|auto|auto|].
  intros i Hi.
  assert (exists w, 0 <= w < 10 /\ w <= i < w + 4) as (w & Hw & Hi').
  { exists (Z.min i 9). lia. }
  assert (P : pixel_colour (fun t => Z.testbit a (t - ph)) (ph + w) = pixel_colour (fun t => Z.testbit b (t - ph)) (ph + w)).
  { apply (f_equal (fun l => nth (Z.to_nat w) l 0)) in Pb.
    rewrite !nth_map_zrange in Pb by (cbn; lia). rewrite Z2Nat.id in Pb by lia. exact Pb. }
  apply (f_equal (fun z => Z.testbit z ((ph + i) mod 4))) in P.
  rewrite !pixel_colour_bits in P by lia. replace (ph + i - ph) with i in P by lia. exact P.
Qed.

Lemma dhgr_zero_iff_equal dm value t o a b :
  value = hgr_value \/ value = dhgr_value -> small_matrix dm ->
  compute_edit_distance (compute_substitute_costs dm) DHGR value = Ok t ->
  (forall i j, 0 <= j < i -> i < 16 -> 0 < dm i j) ->
  0 <= o < 4 -> 0 <= a < 2 ^ 13 -> 0 <= b < 2 ^ 13 ->
  (edit_distances DHGR t o (pair_index DHGR a b) = 0 <-> a = b).
Proof.
  intros V HD HT HP Ho Ha Hb. rewrite (zero_iff_same_colours dm DHGR value t V HD HT o a b HP Ho Ha Hb). split.
  - apply dhgr_window_inj; auto.
  - intros ->. reflexivity.
Qed.

(** the distance between two screens at a byte is 0 exactly when that byte's
    window shows the same colours on both *)
Lemma screen_zero_iff dm value t bm bm' p off is_aux dist :
  value = hgr_value \/ value = dhgr_value -> small_matrix dm ->
  compute_edit_distance (compute_substitute_costs dm) (bm_kind bm) value = Ok t ->
  (forall i j, 0 <= j < i -> i < 16 -> 0 < dm i j) ->
  reachable bm -> reachable bm' -> bm_kind bm' = bm_kind bm ->
  0 <= p < 32 -> 0 <= off < 256 -> (bm_kind bm = DHGR \/ is_aux = false) ->
  diff_weights (edit_distances (bm_kind bm) t) bm bm' is_aux = Ok dist ->
  (dist p off = 0 <->
   forall d, window_start (bm_kind bm) off is_aux <= d < window_start (bm_kind bm) off is_aux + MASKED_DOTS (bm_kind bm) ->
   pixel_colour (row_dot (bm_kind bm) (mm_data (bm_main bm) p) (aux_data (bm_aux bm) p)) d =
   pixel_colour (row_dot (bm_kind bm) (mm_data (bm_main bm') p) (aux_data (bm_aux bm') p)) d).
Proof.
  intros V HD HT HP R R' K Hp Hoff Hb HW.
  assert (EO : exists o, byte_offset (bm_kind bm) off is_aux = Ok o /\ 0 <= o < SCREEN_BYTES (bm_kind bm) /\
     dist p off = edit_distances (bm_kind bm) t o (pair_index (bm_kind bm) (mask_and_shift (bm_kind bm) (bm_packed bm' p (off / 2)) o)
                           (mask_and_shift (bm_kind bm) (bm_packed bm p (off / 2)) o))).
  { unfold diff_weights in HW. destruct (bm_kind bm) eqn:EK.
    - destruct Hb as [Hb|Hb]; [discriminate|]. subst is_aux. cbn [byte_offsets assert_ negb rbind] in HW. injection HW as <-.
      cbn [byte_offset negb assert_]. eexists. split; [reflexivity|].
      assert (off mod 2 = 0 \/ off mod 2 = 1) as [Q|Q] by dlia; rewrite Q; split; try reflexivity; cbn; lia.
    - cbn [byte_offsets] in HW. destruct is_aux; cbn [rbind] in HW; injection HW as <-; cbn [byte_offset];
      eexists; (split; [reflexivity|]);
      assert (off mod 2 = 0 \/ off mod 2 = 1) as [Q|Q] by dlia; rewrite Q; split; try reflexivity; cbn; lia. }
  destruct EO as (o & EO & Ho & ED). rewrite ED.
  rewrite (zero_iff_same_colours dm (bm_kind bm) value t V HD HT o _ _ HP Ho (masked_bound _ _ _ Ho) (masked_bound _ _ _ Ho)).
  rewrite (window_is_screen bm p off is_aux o R Hp Hoff Hb EO value V).
  pose proof (window_is_screen bm' p off is_aux o R' Hp Hoff) as W'. rewrite K in W'.
  rewrite (W' Hb EO value V). clear W'.
  set (n := MASKED_DOTS (bm_kind bm)). set (s := window_start _ _ _).
  split.
  - intros E d Hd. injection E as E. apply (f_equal (fun l => nth (Z.to_nat (d - s)) l 0)) in E.
    rewrite !nth_map_zrange in E by lia. rewrite Z2Nat.id in E by lia.
    replace (s + (d - s)) with d in E by lia. symmetry. exact E.
  - intros E. f_equal. apply map_ext_in. intros i Hi.
    assert (Hi' : 0 <= i < n) by (apply in_zrange in Hi; [lia|unfold n; destruct (bm_kind bm); cbn; lia]).
    symmetry. apply E. lia.
Qed.

(** the same for any costs: pixels of cost 0 are not told apart *)
Lemma screen_zero_gen dm value t bm bm' p off is_aux dist :
  value = hgr_value \/ value = dhgr_value -> small_matrix dm ->
  compute_edit_distance (compute_substitute_costs dm) (bm_kind bm) value = Ok t ->
  reachable bm -> reachable bm' -> bm_kind bm' = bm_kind bm ->
  0 <= p < 32 -> 0 <= off < 256 -> (bm_kind bm = DHGR \/ is_aux = false) ->
  diff_weights (edit_distances (bm_kind bm) t) bm bm' is_aux = Ok dist ->
  (dist p off = 0 <->
   forall d, window_start (bm_kind bm) off is_aux <= d < window_start (bm_kind bm) off is_aux + MASKED_DOTS (bm_kind bm) ->
   let x := pixel_colour (row_dot (bm_kind bm) (mm_data (bm_main bm) p) (aux_data (bm_aux bm) p)) d in
   let y := pixel_colour (row_dot (bm_kind bm) (mm_data (bm_main bm') p) (aux_data (bm_aux bm') p)) d in
   x = y \/ dm (Z.max x y) (Z.min x y) = 0).
Proof.
  intros V HD HT R R' K Hp Hoff Hb HW.
  assert (EO : exists o, byte_offset (bm_kind bm) off is_aux = Ok o /\ 0 <= o < SCREEN_BYTES (bm_kind bm) /\
     dist p off = edit_distances (bm_kind bm) t o (pair_index (bm_kind bm) (mask_and_shift (bm_kind bm) (bm_packed bm' p (off / 2)) o)
                           (mask_and_shift (bm_kind bm) (bm_packed bm p (off / 2)) o))).
  { unfold diff_weights in HW. destruct (bm_kind bm) eqn:EK.
    - destruct Hb as [Hb|Hb]; [discriminate|]. subst is_aux. cbn [byte_offsets assert_ negb rbind] in HW. injection HW as <-.
      cbn [byte_offset negb assert_]. eexists. split; [reflexivity|].
      assert (off mod 2 = 0 \/ off mod 2 = 1) as [Q|Q] by dlia; rewrite Q; split; try reflexivity; cbn; lia.
    - cbn [byte_offsets] in HW. destruct is_aux; cbn [rbind] in HW; injection HW as <-; cbn [byte_offset];
      eexists; (split; [reflexivity|]);
      assert (off mod 2 = 0 \/ off mod 2 = 1) as [Q|Q] by dlia; rewrite Q; split; try reflexivity; cbn; lia. }
  destruct EO as (o & EO & Ho & ED). rewrite ED. clear HW ED.
  pose proof (window_is_screen bm p off is_aux o R Hp Hoff Hb EO value V) as W1.
  pose proof (window_is_screen bm' p off is_aux o R' Hp Hoff) as W2. rewrite K in W2. specialize (W2 Hb EO value V).
  pose proof (masked_bound (bm_kind bm) (bm_packed bm p (off / 2)) o Ho) as B1. pose proof (masked_bound (bm_kind bm) (bm_packed bm' p (off / 2)) o Ho) as B2.
  rewrite (ed_dist dm (bm_kind bm) value t V HD HT o _ _ Ho B2 B1), (dist_zero dm (bm_kind bm) value V HD o _ _ B2 B1 Ho).
  rewrite (pxs_window (bm_kind bm) value V o _ Ho B1) in W1. rewrite (pxs_window (bm_kind bm) value V o _ Ho B2) in W2. injection W1 as ->. injection W2 as ->.
  set (n := MASKED_DOTS (bm_kind bm)). set (s := window_start _ _ _). cbv zeta. split.
  - intros H d Hd. specialize (H (Z.to_nat (d - s)) ltac:(lia)). rewrite !nth_map_zrange in H by lia. rewrite Z2Nat.id in H by lia.
    replace (s + (d - s)) with d in H by lia. rewrite (Z.max_comm (pixel_colour _ _)), (Z.min_comm (pixel_colour _ _)). destruct H as [H|H]; [left; symmetry; exact H|right; exact H].
  - intros H u Hu. specialize (H (s + Z.of_nat u) ltac:(lia)). rewrite !nth_map_zrange by lia.
    rewrite (Z.max_comm (pixel_colour _ _)), (Z.min_comm (pixel_colour _ _)). destruct H as [H|H]; [left; symmetry; exact H|right; exact H].
Qed.

(** ** the NTSC greys *)
Lemma ntsc_grey delta t :
  (forall x, delta x x = 0) -> (forall x y, 0 <= delta x y <= 3640) ->
  compute_edit_distance (compute_substitute_costs (compute_diff_matrix delta ntsc_rgb)) DHGR dhgr_value = Ok t ->
  edit_distances DHGR t 0 (pair_index DHGR 0x1555 0x0aaa) = 0.
Proof.
  intros H0 HB HT.
  assert (HD : small_matrix (compute_diff_matrix delta ntsc_rgb)).
  { intros i j Hi Hj. destruct (hgr_enum i Hi) as (c1 & _ & <-). destruct (hgr_enum j Hj) as (c2 & _ & <-).
    rewrite diff_matrix_entries. apply HB. }
  rewrite (ed_dist _ DHGR dhgr_value t (or_intror eq_refl) HD HT) by (cbn; lia).
  rewrite dist_zero; [|right; reflexivity|exact HD|cbn; lia|cbn; lia|unfold valid_o; cbn; lia].
  assert (A : pxs DHGR dhgr_value 0 0x1555 = repeat 10 10) by (vm_compute; reflexivity).
  assert (B : pxs DHGR dhgr_value 0 0x0aaa = repeat 5 10) by (vm_compute; reflexivity).
  rewrite A, B. intros u Hu. change (Z.to_nat (MASKED_DOTS DHGR)) with 10%nat in Hu. cbv zeta. right.
  assert (R : forall n v u, (u < n)%nat -> nth u (repeat v n) 0 = v).
  { induction n as [|n IH]; intros v w Hw; [lia|]. destruct w; cbn; [auto|apply IH; lia]. }
  rewrite !R by auto.
  change (Z.max 10 5) with (hgr_value GREY2). change (Z.min 10 5) with (hgr_value GREY1).
  rewrite diff_matrix_entries. apply (H0 (126, 126, 126)).
Qed.

(** ** DHGR colours are looked up under the HGR numbering *)
Lemma sub_costs_hgr delta pal c1 c2 :
  let e := compute_substitute_costs (compute_diff_matrix delta pal) in
  (e_sub e (chr (hgr_value c1)) (chr (hgr_value c2)) = delta (pal c1) (pal c2) \/
   e_sub e (chr (hgr_value c1)) (chr (hgr_value c2)) = delta (pal c2) (pal c1)).
Proof.
  intros e. assert (N : forall c, 0 <= hgr_value c < 16) by (intros []; cbn; lia).
  unfold e. destruct (sub_costs (compute_diff_matrix delta pal) _ _ (N c1) (N c2)) as [-> _].
  destruct (Z.max_spec (hgr_value c1) (hgr_value c2)) as [[L ->]|[L ->]].
  - right. rewrite Z.min_l by lia. apply diff_matrix_entries.
  - left. rewrite Z.min_r by lia. apply diff_matrix_entries.
Qed.

(** Ranges of the built tables and a waiting byte, for PropPriority. *)
From Verif Require Import Base BaseFacts BitFacts ScreenModel ScreenSpec ScreenProofs BitmapModel ColourModel DisplaySpec
  BitmapSpec BitmapProofs BitmapApply BitmapState BitmapFacts TableModel TableSpec LevProofs TableProofs TableFacts
  VideoModel VideoSpec HeapFacts VideoProofs VideoStep VideoFacts VideoThms PrioritySpec PriorityProofs VideoDisplay VideoExample.
Opaque TABLES all_pairs r1 r2 r3 r4 r5 r6.

Lemma built_ranged dm k value t M : value = hgr_value \/ value = dhgr_value ->
  (forall i j, 0 <= i < 16 -> 0 <= j < 16 -> 0 <= dm i j <= M) -> M <= 3640 ->
  compute_edit_distance (compute_substitute_costs dm) k value = Ok t ->
  ranged_table k (edit_distances k t) 1 (MASKED_DOTS k * M).
Proof.
  intros V HM M0 HT.
  assert (HD : small_matrix dm) by (intros i j Hi Hj; specialize (HM i j Hi Hj); lia).
  assert (MP : 0 <= M) by (specialize (HM 0 0 ltac:(lia) ltac:(lia)); lia).
  intros o x y Ho Hx Hy. rewrite !(ed_dist dm k value t V HD HT o x y Ho Hx Hy).
  pose proof (dist_bound dm k value V HD o x y Hx Hy Ho) as B.
  assert (L : dist dm k value o x y <= MASKED_DOTS k * M).
  { unfold dist.
    assert (L : dam_lev (edit_costs (compute_substitute_costs dm) false) (map chr (pxs k value o x)) (map chr (pxs k value o y)) <=
                Z.of_nat (length (map chr (pxs k value o x))) * M).
    { apply dam_lev_upper.
      - rewrite !map_length, !pxs_length by auto. reflexivity.
      - intros c d. cbn [edit_costs c_sub].
        apply (sub_costs_inv (fun x => x <= M) dm); [exact MP|]. intros; apply HM; auto.
      - exact MP. }
    rewrite map_length, pxs_length in L by auto.
    rewrite Z2Nat.id in L by (destruct k; cbn; lia). exact L. }
  clear - B L. lia.
Qed.

Lemma built_u16 dm k value t : value = hgr_value \/ value = dhgr_value -> small_matrix dm ->
  compute_edit_distance (compute_substitute_costs dm) k value = Ok t -> u16_table k (edit_distances k t).
Proof.
  intros V HD HT o x y Ho Hx Hy. rewrite (ed_dist dm k value t V HD HT o x y Ho Hx Hy).
  exact (dist_bound dm k value V HD o x y Hx Hy Ho).
Qed.

Lemma wt_ranged x y : wt x y = 0 \/ 10 <= wt x y <= 1000.
Proof.
  unfold wt. destruct (x =? y); [lia|].
  destruct x as [|[[?|?|]|[?|?|]|]|?], y as [|[[?|?|]|[?|?|]|]|?]; lia.
Qed.
Lemma ex_ranged : ranged_table HGR ed_ex 10 1000.
Proof. intros o x y _ _ _. unfold ed_ex. destruct (o =? 0); [apply wt_ranged|lia]. Qed.

Lemma map3 (u : Z -> Z) : map u [0; 2; 4] = [0; 10; 50] -> u 4 = 50.
Proof. intros H. injection H. auto. Qed.
Lemma start_zero ed v0 t a p o : start_distance ed t (v_pix v0) a p o = 0 -> start_priority ed v0 t a p o = 0.
Proof. intros H. unfold start_priority. rewrite H. reflexivity. Qed.
(** after the first change of the example frame byte 4 of row 0 is left waiting *)
Lemma ex_waiting : waiting ed_ex HGR 1 false 0 4 1 (fst s1).
Proof.
  change 1 with (0 + 1) at 2.
  apply wt_left with (v0 := video_new HGR) (t := t_ex) (l := l1) (g := snd s1).
  - constructor.
  - exact ex_target.
  - exact ex_bank.
  - exact run1.
  - unfold l1, l0. discriminate.
  - unfold l1, l0. cbn [app length]. lia.
  - destruct (obs_parts _ _ _ _ _ obs1) as (C1 & U1 & P1). intros D0.
    assert (N1 : l1 <> []) by (unfold l1, l0; discriminate).
    destruct (run_up ed_ex HGR 0 (video_new HGR) t_ex false 65535 ex_u16 (u16_le _ _ ex_u16) ltac:(lia) (enc_new _ _) ex_target ex_bank
       l1 (fst s1) (snd s1) run1 N1 0 4) as [Q|((c & X1 & X2) & _)].
    + pose proof (map3 _ U1) as U3. fold s1 in U3.
      pose proof (eq_trans (eq_sym U3) (eq_trans Q (start_zero _ _ _ _ _ _ D0))) as X. clear - X. discriminate X.
    + unfold l1, l0 in X1. cbn [app] in X1. destruct X1 as [<-|[]]. rewrite C1 in X2. cbn [stores_to In] in X2. lia.
  - destruct (obs_parts _ _ _ _ _ obs1) as (C1 & _ & _). intros c X1 X2.
    unfold l1, l0 in X1. cbn [app] in X1. destruct X1 as [<-|[]]. rewrite C1 in X2. cbn [stores_to In] in X2. lia.
Qed.

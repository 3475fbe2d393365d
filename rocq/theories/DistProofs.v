(** The modelled Damerau-Levenshtein distance is the cheapest way of repainting. *)
From Verif Require Import Base BaseFacts ScreenModel BitmapModel DisplaySpec BitmapSpec BitmapApply BitmapFacts ColourModel DistSpec
  TableModel TableSpec LevProofs DotsProofs TableProofs TableFacts ColourProofs BitFacts BitmapProofs BitmapState VideoModel VideoSpec VideoProofs VideoFacts VideoThms VideoDisplay ScreenSpec.

Lemma way_app cost s t c s' t' c' : way cost s t c -> way cost s' t' c' -> way cost (s ++ s') (t ++ t') (c + c').
Proof.
  intros W W'. induction W; cbn [app].
  - exact W'.
  - apply way_keep. exact IHW.
  - rewrite <- Z.add_assoc. apply way_repaint. exact IHW.
  - rewrite <- Z.add_assoc. apply way_swap. exact IHW.
Qed.
Lemma way_length cost s t c : way cost s t c -> length s = length t.
Proof. intros W. induction W; cbn [length]; congruence. Qed.
Lemma way_refl cost s : way cost s s 0.
Proof. induction s; constructor; auto. Qed.
Lemma way_nonneg cost s t c : (forall x y, 0 <= cost x y) -> way cost s t c -> 0 <= c.
Proof. intros H W. induction W; try lia. specialize (H x y). lia. Qed.

Lemma firstn_step (a : list Z) i : 1 <= i <= slen a -> firstn (Z.to_nat i) a = firstn (Z.to_nat (i - 1)) a ++ [get1 a i].
Proof.
  intros Hi. unfold slen, get1 in *. replace (Z.to_nat i) with (S (Z.to_nat (i - 1))) by lia.
  set (n := Z.to_nat (i - 1)). assert (Hn : (n < length a)%nat) by (unfold n; lia). clearbody n. clear i Hi.
  revert a Hn. induction n as [|n IH]; intros [|x a] Hn; cbn in Hn; try lia; [reflexivity|].
  cbn [firstn nth app]. f_equal. apply IH. lia.
Qed.

Section Least.
  Variables (cs : costs) (a b : list Z) (M : Z).
  Let K := 100000.
  Hypothesis HI : forall c, c_ins cs c = K.
  Hypothesis HD : forall c, c_del cs c = K.
  Hypothesis HT : forall c e, c_tr cs c e = 1.
  Hypothesis HS : forall c e, 0 <= c_sub cs c e <= M.
  Hypothesis HL : length a = length b.
  Hypothesis HM : slen a * M < K.
  Let d := final cs a b.

  Lemma least_pos : pos_costs cs.
  Proof.
    unfold pos_costs. split; [intros c; rewrite HI; reflexivity|]. split; [intros c; rewrite HD; reflexivity|].
    split; [intros c e; rewrite HT; reflexivity|]. intros c e. apply HS.
  Qed.
  Lemma least_len : slen b = slen a.
  Proof. unfold slen. rewrite HL. reflexivity. Qed.
  Lemma cell_nonneg i j : 0 <= i <= slen a -> 0 <= j <= slen a -> 0 <= d i j.
  Proof. intros Hi Hj. apply (zero_cells cs a b least_pos (Z.to_nat (i + j))); [lia|exact Hi|rewrite least_len; exact Hj]. Qed.
  Lemma border_l i : 0 <= i -> i <= slen a -> d i 0 = i * K.
  Proof.
    intros Hi. pattern i. apply natlike_ind; [| |exact Hi].
    - intros _. exact (proj1 (final_border cs a b)).
    - intros x Hx IH Hs. destruct (final_border cs a b) as (_ & B & _). fold d in B. unfold Z.succ in *. rewrite B by lia.
      replace (x + 1 - 1) with x by lia. rewrite IH, HD by lia. lia.
  Qed.
  Lemma border_r j : 0 <= j -> j <= slen a -> d 0 j = j * K.
  Proof.
    intros Hi. pattern j. apply natlike_ind; [| |exact Hi].
    - intros _. exact (proj1 (final_border cs a b)).
    - intros x Hx IH Hs. destruct (final_border cs a b) as (_ & _ & B). fold d in B. unfold Z.succ in *. rewrite least_len in B. rewrite B by lia.
      replace (x + 1 - 1) with x by lia. rewrite IH, HI by lia. lia.
  Qed.

  (** the diagonal of the matrix *)
  Let sub1 i := if get1 a i =? get1 b i then 0 else c_sub cs (get1 a i) (get1 b i).
  Definition swapped i := get1 a (i - 1) = get1 b i /\ get1 a i = get1 b (i - 1).

  Lemma diag_upper i : 0 <= i -> i <= slen a -> d i i <= i * M.
  Proof.
    intros Hi. pattern i. apply natlike_ind; [| |exact Hi].
    - intros _. destruct (final_border cs a b) as (B0 & _). fold d in B0. rewrite B0. lia.
    - intros x Hx IH Hs. unfold Z.succ in *.
      pose proof (final_cell cs a b (x + 1) (x + 1) ltac:(lia) ltac:(fold (slen b); rewrite least_len; lia)) as E. fold d in E.
      assert (C : d (x + 1) (x + 1) <= d x x + M).
      { rewrite E. unfold cell. replace (x + 1 - 1) with x by lia.
        assert (Hc : (if get1 a (x + 1) =? get1 b (x + 1) then 0 else c_sub cs (get1 a (x + 1)) (get1 b (x + 1))) <= M)
          by (specialize (HS (get1 a (x + 1)) (get1 b (x + 1))); destruct (_ =? _); lia).
        set (q := if _ =? _ then _ else _) in *. clearbody q. destruct (_ && _); lia. }
      specialize (IH ltac:(lia)). lia.
  Qed.

  Lemma diag_sub i : 1 <= i <= slen a -> d i i <= d (i - 1) (i - 1) + sub1 i.
  Proof.
    intros Hi. pose proof (final_cell cs a b i i Hi ltac:(fold (slen b); rewrite least_len; lia)) as E. fold d in E. rewrite E.
    unfold cell. fold (sub1 i). set (q := sub1 i). clearbody q. destruct (_ && _); lia.
  Qed.
  Lemma diag_swap i : 2 <= i <= slen a -> swapped i -> d i i <= d (i - 2) (i - 2) + 1.
  Proof.
    intros Hi [E1 E2]. pose proof (final_cell cs a b i i ltac:(lia) ltac:(fold (slen b); rewrite least_len; lia)) as E. fold d in E. rewrite E.
    unfold cell. rewrite (locc_step a (i - 1)), (locc_step b (i - 1)) by lia. rewrite E1, <- E2, !Z.eqb_refl.
    replace (0 <? i - 1) with true by (symmetry; apply Z.ltb_lt; lia). cbn [andb].
    replace (i - 1 - 1) with (i - 2) by lia. rewrite HT. lia.
  Qed.
  Lemma diag_inv i : 1 <= i <= slen a ->
    d i i = d (i - 1) (i - 1) + sub1 i \/ (2 <= i /\ swapped i /\ d i i = d (i - 2) (i - 2) + 1).
  Proof.
    intros Hi. pose proof (final_cell cs a b i i Hi ltac:(fold (slen b); rewrite least_len; lia)) as E. fold d in E.
    assert (U : d i i < K) by (pose proof (diag_upper i ltac:(lia) ltac:(lia)) as U; assert (0 <= M) by (specialize (HS 0 0); lia); nia).
    pose proof (cell_nonneg i (i - 1) ltac:(lia) ltac:(lia)) as N1. pose proof (cell_nonneg (i - 1) i ltac:(lia) ltac:(lia)) as N2.
    unfold cell in E. fold (sub1 i) in E. rewrite HI, HD, HT in E.
    pose proof (locc_bound a (i - 1) (get1 b i) ltac:(lia)) as Bk. pose proof (locc_bound b (i - 1) (get1 a i) ltac:(lia)) as Bl.
    pose proof (locc_char a (i - 1) (get1 b i) ltac:(lia)) as Ck. pose proof (locc_char b (i - 1) (get1 a i) ltac:(lia)) as Cl.
    set (k := locc a (i - 1) (get1 b i)) in *. set (l := locc b (i - 1) (get1 a i)) in *. clearbody k l.
    set (q := sub1 i) in *. clearbody q.
    destruct ((0 <? k) && (0 <? l)) eqn:B; [|left; clear - E U N1 N2; lia].
    apply andb_true_iff in B. destruct B as [B1 B2]. apply Z.ltb_lt in B1, B2. specialize (Ck B1). specialize (Cl B2).
    rewrite (border_l (i - 1)), (border_l k), (border_r (i - 1)), (border_r l) in E by lia.
    pose proof (cell_nonneg (k - 1) (l - 1) ltac:(lia) ltac:(lia)) as N3.
    destruct (Z.eq_dec (d i i) (d (i - 1) (i - 1) + q)) as [Q|Q]; [left; exact Q|right].
    assert (Q2 : d i i = d (k - 1) (l - 1) + ((i - 1) * K - k * K) + 1 + ((i - 1) * K - l * K)) by (clear - E U N1 N2 Q; lia).
    assert (k = i - 1 /\ l = i - 1) as [-> ->] by (unfold K in *; clear - Q2 U N3 Bk Bl; lia).
    split; [lia|]. split; [split; [exact Ck|symmetry; exact Cl]|]. rewrite Q2. replace (i - 1 - 1) with (i - 2) by lia. lia.
  Qed.

  Lemma diag_way n : forall i, (Z.to_nat i <= n)%nat -> 0 <= i <= slen a ->
    way (c_sub cs) (firstn (Z.to_nat i) a) (firstn (Z.to_nat i) b) (d i i).
  Proof.
    induction n as [|n IH]; intros i Hn Hi.
    - assert (i = 0) by lia. subst i. destruct (final_border cs a b) as (B0 & _). fold d in B0. rewrite B0. apply way_nil.
    - destruct (Z.eq_dec i 0) as [->|N0]; [destruct (final_border cs a b) as (B0 & _); fold d in B0; rewrite B0; apply way_nil|].
      destruct (diag_inv i ltac:(lia)) as [->|(H2 & [S1 S2] & ->)].
      + rewrite (firstn_step a i), (firstn_step b i) by (rewrite ?least_len; lia). apply way_app; [apply IH; lia|]. unfold sub1.
        destruct (Z.eqb_spec (get1 a i) (get1 b i)) as [->|_]; [apply way_refl|].
        rewrite <- (Z.add_0_r (c_sub cs _ _)). apply way_repaint, way_nil.
      + rewrite (firstn_step a i), (firstn_step b i), (firstn_step a (i - 1)), (firstn_step b (i - 1)) by (rewrite ?least_len; lia). rewrite <- !app_assoc. cbn [app].
        replace (i - 1 - 1) with (i - 2) by lia. apply way_app; [apply IH; lia|]. rewrite S1, S2. change 1 with (1 + 0) at 3. exact (way_swap _ _ _ _ _ _ (way_nil _)).
  Qed.

  Lemma get1_app p x s : get1 (p ++ x :: s) (slen p + 1) = x.
  Proof. unfold get1, slen. replace (Z.to_nat (Z.of_nat (length p) + 1 - 1)) with (length p) by lia. apply nth_middle. Qed.

  Lemma diag_least s t c : way (c_sub cs) s t c -> forall p q c0, length p = length q -> a = p ++ s -> b = q ++ t ->
    d (slen p) (slen p) <= c0 -> d (slen a) (slen a) <= c0 + c.
  Proof.
    intros W. induction W as [|x s t c W IH|x y s t c W IH|x y s t c W IH]; intros p q c0 Hpq Ea Eb H0.
    - rewrite app_nil_r in Ea. rewrite Ea. lia.
    - apply (IH (p ++ [x]) (q ++ [x])); [rewrite !app_length, Hpq; reflexivity|rewrite <- app_assoc; exact Ea|rewrite <- app_assoc; exact Eb|].
      assert (L : slen (p ++ [x]) = slen p + 1) by (unfold slen; rewrite app_length; cbn [length]; lia). rewrite L.
      assert (S1 : sub1 (slen p + 1) = 0).
      { unfold sub1. rewrite Ea, Eb, get1_app. replace (slen p) with (slen q) by (unfold slen; rewrite Hpq; reflexivity). rewrite get1_app, Z.eqb_refl. reflexivity. }
      pose proof (diag_sub (slen p + 1) ltac:(rewrite Ea; unfold slen; rewrite app_length; cbn [length]; lia)) as D.
      rewrite S1 in D. replace (slen p + 1 - 1) with (slen p) in D by lia. lia.
    - rewrite Z.add_assoc.
      apply (IH (p ++ [x]) (q ++ [y])); [rewrite !app_length, Hpq; reflexivity|rewrite <- app_assoc; exact Ea|rewrite <- app_assoc; exact Eb|].
      assert (L : slen (p ++ [x]) = slen p + 1) by (unfold slen; rewrite app_length; cbn [length]; lia). rewrite L.
      assert (S1 : sub1 (slen p + 1) <= c_sub cs x y).
      { unfold sub1. rewrite Ea, Eb, get1_app. replace (slen p) with (slen q) by (unfold slen; rewrite Hpq; reflexivity). rewrite get1_app. specialize (HS x y). destruct (_ =? _); lia. }
      pose proof (diag_sub (slen p + 1) ltac:(rewrite Ea; unfold slen; rewrite app_length; cbn [length]; lia)) as D.
      replace (slen p + 1 - 1) with (slen p) in D by lia. lia.
    - rewrite Z.add_assoc.
      assert (Ea' : a = (p ++ [x]) ++ y :: s) by (rewrite <- app_assoc; exact Ea). assert (Eb' : b = (q ++ [y]) ++ x :: t) by (rewrite <- app_assoc; exact Eb).
      apply (IH (p ++ [x; y]) (q ++ [y; x])); [rewrite !app_length, Hpq; reflexivity|rewrite <- app_assoc; exact Ea|rewrite <- app_assoc; exact Eb|].
      assert (L : slen (p ++ [x; y]) = slen p + 2) by (unfold slen; rewrite app_length; cbn [length]; lia). rewrite L.
      assert (Lx : slen (p ++ [x]) = slen p + 1) by (unfold slen; rewrite app_length; cbn [length]; lia).
      assert (Ly : slen (q ++ [y]) = slen p + 1) by (unfold slen; rewrite app_length, Hpq; cbn [length]; lia).
      assert (Lq : slen q = slen p) by (unfold slen; rewrite Hpq; reflexivity).
      assert (Sw : swapped (slen p + 2)).
      { unfold swapped. replace (slen p + 2 - 1) with (slen p + 1) by lia. split.
        - replace (get1 a (slen p + 1)) with x by (rewrite Ea; symmetry; apply get1_app).
          replace (slen p + 2) with (slen (q ++ [y]) + 1) by lia. rewrite Eb'. symmetry. apply get1_app.
        - replace (get1 b (slen p + 1)) with y by (rewrite Eb, <- Lq; symmetry; apply get1_app).
          replace (slen p + 2) with (slen (p ++ [x]) + 1) by lia. rewrite Ea'. apply get1_app. }
      pose proof (diag_swap (slen p + 2) ltac:(rewrite Ea; unfold slen; rewrite app_length; cbn [length]; lia) Sw) as D.
      replace (slen p + 2 - 2) with (slen p) in D by lia. lia.
  Qed.

  Lemma dam_lev_least : least_cost (c_sub cs) a b (dam_lev cs a b).
  Proof.
    rewrite dam_lev_final, least_len. fold d. split.
    - pose proof (diag_way (length a) (slen a) ltac:(unfold slen; lia) ltac:(unfold slen; lia)) as W.
      unfold slen in W at 1 2. rewrite Nat2Z.id in W. rewrite HL in W at 2. rewrite !firstn_all in W. exact W.
    - intros c W. apply (diag_least a b c W [] [] 0); [reflexivity|reflexivity|reflexivity|].
      destruct (final_border cs a b) as (B0 & _). fold d in B0. change (slen []) with 0. rewrite B0. lia.
  Qed.
End Least.

(** from characters to colours *)
Lemma way_chr cost cost' pa pb c : (forall x y, nib x -> nib y -> cost (chr x) (chr y) = cost' x y) ->
  Forall nib pa -> Forall nib pb -> (way cost (map chr pa) (map chr pb) c <-> way cost' pa pb c).
Proof.
  intros H Fa Fb. split.
  - intros W. remember (map chr pa) as s eqn:Es. remember (map chr pb) as t eqn:Et. revert pa pb Fa Fb Es Et.
    induction W as [|x s t c W IH|x y s t c W IH|x y s t c W IH]; intros pa pb Fa Fb Es Et.
    + destruct pa, pb; try discriminate. constructor.
    + destruct pa as [|u pa], pb as [|v pb]; try discriminate. cbn [map] in *. injection Es as -> ->. injection Et as E ->.
      inversion Fa; inversion Fb; subst. apply chr_inj in E; auto. subst v. constructor. apply IH; auto.
    + destruct pa as [|u pa], pb as [|v pb]; try discriminate. cbn [map] in *. injection Es as -> ->. injection Et as -> ->.
      inversion Fa; inversion Fb; subst. rewrite H by auto. constructor. apply IH; auto.
    + destruct pa as [|u [|u' pa]], pb as [|v [|v' pb]]; try discriminate. cbn [map] in *. injection Es as -> -> ->. injection Et as E E' ->.
      inversion Fa as [|? ? Na Fa']; inversion Fb as [|? ? Nb Fb']; subst. inversion Fa' as [|? ? Na' Fa'']; inversion Fb' as [|? ? Nb' Fb'']; subst.
      apply chr_inj in E, E'; auto. subst v v'. constructor. apply IH; auto.
  - intros W. induction W as [|x s t c W IH|x y s t c W IH|x y s t c W IH]; cbn [map].
    + constructor.
    + inversion Fa; inversion Fb; subst. constructor. auto.
    + inversion Fa; inversion Fb; subst. rewrite <- H by auto. constructor. auto.
    + inversion Fa as [|? ? Na Fa']; inversion Fb as [|? ? Nb Fb']; subst. inversion Fa'; inversion Fb'; subst. constructor. auto.
Qed.
Lemma least_chr cost cost' pa pb c : (forall x y, nib x -> nib y -> cost (chr x) (chr y) = cost' x y) ->
  Forall nib pa -> Forall nib pb -> least_cost cost (map chr pa) (map chr pb) c -> least_cost cost' pa pb c.
Proof.
  intros H Fa Fb [W L]. split; [apply (way_chr cost cost'); auto|]. intros c' W'. apply L, (way_chr cost cost'); auto.
Qed.

(** rows that differ in one pixel *)
Lemma way_one cost p x y q c : (forall u v, 0 <= cost u v) -> x <> y -> way cost (p ++ x :: q) (p ++ y :: q) c -> cost x y <= c.
Proof.
  intros H N W. remember (p ++ x :: q) as s eqn:Es. remember (p ++ y :: q) as t eqn:Et. revert p q Es Et.
  induction W as [|u s t c W IH|u v s t c W IH|u v s t c W IH]; intros p q Es Et.
  - destruct p; discriminate.
  - destruct p as [|w p]; cbn [app] in *; [injection Es as -> _; injection Et as -> _; congruence|].
    injection Es as _ Es. injection Et as _ Et. apply (IH p q); auto.
  - pose proof (way_nonneg cost s t c H W) as C0. destruct p as [|w p]; cbn [app] in *.
    + injection Es as -> _. injection Et as -> _. lia.
    + injection Es as _ Es. injection Et as _ Et. specialize (IH p q Es Et). specialize (H u v). lia.
  - destruct p as [|w [|w' p]]; cbn [app] in *.
    + injection Es as -> Es. injection Et as -> Et. congruence.
    + injection Es as -> Es _. injection Et as -> Et _. congruence.
    + injection Es as _ _ Es. injection Et as _ _ Et. specialize (IH p q Es Et). lia.
Qed.
Lemma least_one cost p x y q c : (forall u v, 0 <= cost u v) -> x <> y -> least_cost cost (p ++ x :: q) (p ++ y :: q) c -> c = cost x y.
Proof.
  intros H N [W L]. apply Z.le_antisymm; [|apply (way_one cost p x y q c); auto].
  apply L. rewrite <- (Z.add_0_l (cost x y)), <- (Z.add_0_r (cost x y)). apply way_app; [apply way_refl|]. apply way_repaint, way_refl.
Qed.
Lemma least_unique cost s t c c' : least_cost cost s t c -> least_cost cost s t c' -> c = c'.
Proof. intros [W L] [W' L']. apply Z.le_antisymm; auto. Qed.
Lemma way_sym cost s t c : (forall x y, cost x y = cost y x) -> way cost s t c -> way cost t s c.
Proof.
  intros H W. induction W; try (constructor; assumption). rewrite H. constructor. assumption.
Qed.
Lemma least_sym cost s t c : (forall x y, cost x y = cost y x) -> least_cost cost s t c -> least_cost cost t s c.
Proof. intros H [W L]. split; [apply way_sym; auto|]. intros c' W'. apply L, way_sym; auto. Qed.
Lemma colour_cost_sym dm x y : colour_cost dm x y = colour_cost dm y x.
Proof. unfold colour_cost. rewrite Z.max_comm, Z.min_comm. reflexivity. Qed.

Lemma edit_least e a b : (forall c c', 0 <= e_sub e c c' <= 3640) -> length a = length b -> (length a <= 18)%nat ->
  least_cost (e_sub e) a b (dam_lev (edit_costs e false) a b).
Proof.
  intros HS HL HN. apply (dam_lev_least (edit_costs e false) a b 3640); try reflexivity; auto. unfold slen. lia.
Qed.

Section Tables.
  Variables (dm : Z -> Z -> Z) (k : kind) (value : colour_name -> Z) (t : table).
  Hypothesis V : value = hgr_value \/ value = dhgr_value.
  Hypothesis HD : small_matrix dm.
  Hypothesis HT : compute_edit_distance (compute_substitute_costs dm) k value = Ok t.

  Lemma table_least o a b pa pb : 0 <= o < SCREEN_BYTES k -> 0 <= a < 2 ^ MASKED_BITS k -> 0 <= b < 2 ^ MASKED_BITS k ->
    window_pixels k value a o = Ok pa -> window_pixels k value b o = Ok pb ->
    least_cost (colour_cost dm) pa pb (edit_distances k t o (pair_index k a b)).
  Proof.
    intros Ho Ha Hb Ea Eb. rewrite (ed_dist dm k value t V HD HT o a b Ho Ha Hb). unfold dist, pxs. rewrite Ea, Eb.
    destruct (window_pixels_ok k value a o V Ha Ho) as (da & pa' & _ & Ea' & Pa & Fa & _).
    destruct (window_pixels_ok k value b o V Hb Ho) as (db & pb' & _ & Eb' & Pb & Fb & _).
    assert (Qa : pa' = pa) by congruence. assert (Qb : pb' = pb) by congruence. rewrite Qa in *. rewrite Qb in *.
    assert (La : length pa = Z.to_nat (MASKED_DOTS k)) by (rewrite Pa, map_length; apply zrange_from_length).
    assert (Lb : length pb = Z.to_nat (MASKED_DOTS k)) by (rewrite Pb, map_length; apply zrange_from_length).
    apply (least_chr (e_sub (compute_substitute_costs dm)) (colour_cost dm)); [|exact Fa|exact Fb|].
    - intros x y Hx Hy. apply sub_costs; auto.
    - apply edit_least.
      + intros c e. apply (sub_costs_inv (fun x => 0 <= x <= 3640) dm); [lia|]. intros; apply HD; auto.
      + rewrite !map_length, La, Lb. reflexivity.
      + rewrite map_length, La. destruct k; cbn; lia.
  Qed.
End Tables.

Lemma screen_least dm value t bm bm' p off is_aux dist :
  value = hgr_value \/ value = dhgr_value -> small_matrix dm ->
  compute_edit_distance (compute_substitute_costs dm) (bm_kind bm) value = Ok t ->
  reachable bm -> reachable bm' -> bm_kind bm' = bm_kind bm ->
  0 <= p < 32 -> 0 <= off < 256 -> (bm_kind bm = DHGR \/ is_aux = false) ->
  diff_weights (edit_distances (bm_kind bm) t) bm bm' is_aux = Ok dist ->
  least_cost (colour_cost dm) (colours_at bm p off is_aux) (colours_at bm' p off is_aux) (dist p off).
Proof.
  intros V HD HT R R' K Hp Hoff Hb HW.
  assert (EO : exists o, byte_offset (bm_kind bm) off is_aux = Ok o /\ 0 <= o < SCREEN_BYTES (bm_kind bm) /\
     dist p off = edit_distances (bm_kind bm) t o (pair_index (bm_kind bm) (mask_and_shift (bm_kind bm) (bm_packed bm' p (off / 2)) o)
                           (mask_and_shift (bm_kind bm) (bm_packed bm p (off / 2)) o))).
  { unfold diff_weights in HW. destruct (bm_kind bm) eqn:EK.
    - destruct Hb as [Hb|Hb]; [discriminate|]. subst is_aux. cbn [byte_offsets assert_ negb rbind] in HW. injection HW as <-.
      cbn [byte_offset negb assert_]. eexists. split; [reflexivity|].
      assert (off mod 2 = 0 \/ off mod 2 = 1) as [Q|Q] by dlia; rewrite Q; split; try reflexivity; cbn; lia.
    - cbn [byte_offsets] in HW. destruct is_aux; cbn [rbind] in HW; injection HW as <-; cbn [byte_offset];
      eexists; (split; [reflexivity|]);
      assert (off mod 2 = 0 \/ off mod 2 = 1) as [Q|Q] by dlia; rewrite Q; split; try reflexivity; cbn; lia. }
  destruct EO as (o & EO & Ho & ED). rewrite ED. clear HW ED.
  pose proof (window_is_screen bm p off is_aux o R Hp Hoff Hb EO value V) as W1.
  pose proof (window_is_screen bm' p off is_aux o R' Hp Hoff) as W2. rewrite K in W2. specialize (W2 Hb EO value V).
  apply least_sym; [apply colour_cost_sym|].
  pose proof (table_least dm (bm_kind bm) value t V HD HT o _ _ _ _ Ho (masked_bound _ _ _ Ho) (masked_bound _ _ _ Ho) W2 W1) as G.
  unfold colours_at. rewrite K. exact G.
Qed.

Lemma frame_least dm value k tb n v0 t a p o :
  value = hgr_value \/ value = dhgr_value -> small_matrix dm ->
  compute_edit_distance (compute_substitute_costs dm) k value = Ok tb ->
  encoder (edit_distances k tb) k n v0 -> good_target k t -> good_bank k a -> in_page p o -> displayed p o ->
  least_cost (colour_cost dm) (colours_at (v_pix v0) p o a) (colours_at t p o a) (start_distance (edit_distances k tb) t (v_pix v0) a p o).
Proof.
  intros V HD HT HV (RT & KT & _) HG Hin Hd.
  assert (HE : u16_table k (edit_distances k tb)).
  { intros o' x y Ho Hx Hy. pose proof (table_symmetric dm k value tb V HD HT o' x y Ho Hx Hy) as (_ & _ & B & _). exact B. }
  pose proof (start_vinv _ k n v0 HE HV) as VI.
  destruct (diff_weights_ok (edit_distances k tb) t (v_pix v0) a) as (f & E & _); [rewrite KT; exact HG|].
  unfold start_distance. rewrite E. assert (Hh : screen_holes TABLES p o = false) by (apply hole_displayed; auto). rewrite Hh.
  apply least_sym; [apply colour_cost_sym|]. destruct Hin as [Hp Ho].
  assert (KV : bm_kind (v_pix v0) = k).
  { exact (vi_kind _ _ _ VI). }
  apply (screen_least dm value tb t (v_pix v0) p o a f V HD); rewrite ?KT; try exact KV; auto. apply (vi_reach _ _ _ VI).
Qed.
Lemma store_least dm value k tb t a p o c :
  value = hgr_value \/ value = dhgr_value -> small_matrix dm ->
  compute_edit_distance (compute_substitute_costs dm) k value = Ok tb ->
  reachable t -> bm_kind t = k -> good_store k (p, o, a, c) ->
  exists t', apply t p o a c = Ok t' /\
    least_cost (colour_cost dm) (colours_at t' p o a) (colours_at t p o a) (store_error (edit_distances k tb) t a p o c).
Proof.
  intros V HD HT RT KT G. destruct (store_never_raises t p o a c RT ltac:(rewrite KT; exact G)) as (t' & E & R').
  exists t'. split; [exact E|]. unfold store_error. rewrite E.
  assert (Q : 0 <= p < 32 /\ 0 <= o < 256 /\ good_bank k a /\ bm_kind t' = bm_kind t).
  { destruct (store_frame t p o a c RT ltac:(rewrite KT; exact G)) as (t2 & E2 & K2 & _). rewrite E in E2. injection E2 as <-.
    split; [apply G|]. split; [apply G|]. split; [|exact K2]. unfold good_store in G. unfold good_bank. tauto. }
  destruct Q as (Hp & Ho & HG & K').
  destruct (diff_weights_ok (edit_distances k tb) t t' a) as (f & E' & _); [rewrite KT; exact HG|]. rewrite E'.
  apply least_sym; [apply colour_cost_sym|].
  rewrite KT in K'. apply (screen_least dm value tb t t' p o a f V HD); rewrite ?KT; auto.
Qed.
Lemma table_one dm k value t : value = hgr_value \/ value = dhgr_value -> small_matrix dm ->
  compute_edit_distance (compute_substitute_costs dm) k value = Ok t ->
  forall o a b p q x y, 0 <= o < SCREEN_BYTES k -> 0 <= a < 2 ^ MASKED_BITS k -> 0 <= b < 2 ^ MASKED_BITS k ->
  window_pixels k value a o = Ok (p ++ x :: q) -> window_pixels k value b o = Ok (p ++ y :: q) -> x <> y ->
  edit_distances k t o (pair_index k a b) = colour_cost dm x y.
Proof.
  intros V HD HT o a b p q x y Ho Ha Hb Ea Eb N.
  destruct (window_pixels_ok k value a o V Ha Ho) as (da & pa & _ & Ea' & _ & Fa & _). rewrite Ea in Ea'. injection Ea' as <-.
  destruct (window_pixels_ok k value b o V Hb Ho) as (db & pb & _ & Eb' & _ & Fb & _). rewrite Eb in Eb'. injection Eb' as <-.
  pose proof (table_least dm k value t V HD HT o a b _ _ Ho Ha Hb Ea Eb) as [W L].
  set (c := edit_distances k t o (pair_index k a b)) in *. clearbody c.
  set (e := fun u v => Z.max 0 (colour_cost dm u v)).
  assert (Pos : forall u v, nib u -> nib v -> 0 <= colour_cost dm u v).
  { intros u v Hu Hv. unfold colour_cost, nib in *. apply HD; lia. }
  assert (Q : forall s u c', Forall nib s -> Forall nib u -> (way e s u c' <-> way (colour_cost dm) s u c')).
  { intros s u c' Hs Hu.
    assert (Eq : forall x' y', nib x' -> nib y' -> e x' y' = colour_cost dm x' y') by (intros x' y' Hx Hy; unfold e; specialize (Pos x' y' Hx Hy); lia).
    split; intros X; induction X; inversion Hs as [|? ? Hs1 Hs2]; inversion Hu as [|? ? Hu1 Hu2]; subst.
    - constructor. - constructor; auto. - rewrite Eq by auto. constructor; auto.
    - inversion Hs2; inversion Hu2; subst. constructor; auto.
    - constructor. - constructor; auto. - rewrite <- Eq by auto. constructor; auto.
    - inversion Hs2; inversion Hu2; subst. constructor; auto. }
  assert (LE : least_cost e (p ++ x :: q) (p ++ y :: q) c).
  { split; [apply Q; auto|]. intros c' W'. apply L, Q; auto. }
  rewrite (least_one e p x y q c); [|intros; unfold e; lia|exact N|exact LE].
  unfold e. apply Z.max_r, Pos.
  - apply (proj1 (Forall_forall _ _) Fa). apply in_or_app. right. left. reflexivity.
  - apply (proj1 (Forall_forall _ _) Fb). apply in_or_app. right. left. reflexivity.
Qed.

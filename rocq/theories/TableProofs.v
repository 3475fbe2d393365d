(** Facts about the edit-distance tables. *)
From Verif Require Import Base BaseFacts BitFacts ScreenModel BitmapModel DisplaySpec BitmapSpec
  BitmapProofs BitmapApply BitmapState ColourModel ColourProofs DotsProofs BitmapFacts TableModel LevProofs.

(** ** substitution costs (C17) *)
Definition chr (v : Z) : Z := nth (Z.to_nat v) PIXEL_CHARS 0.

Lemma forall_list {A} (P : A -> Prop) l : Forall P l -> forall x, In x l -> P x.
Proof. intros H. apply Forall_forall. exact H. Qed.

Lemma sub_costs_entries dm :
  Forall (fun i => Forall (fun j =>
    e_sub (compute_substitute_costs dm) (chr i) (chr j) = dm (Z.max i j) (Z.min i j) /\
    e_err (compute_substitute_costs dm) (chr i) (chr j) = 5 * dm (Z.max i j) (Z.min i j)) (zrange 16)) (zrange 16).
Proof.
  repeat (apply Forall_cons; [repeat (apply Forall_cons; [split; vm_compute; reflexivity|]); apply Forall_nil|]).
  apply Forall_nil.
Qed.

Lemma sub_costs dm i j : 0 <= i < 16 -> 0 <= j < 16 ->
  e_sub (compute_substitute_costs dm) (chr i) (chr j) = dm (Z.max i j) (Z.min i j) /\
  e_err (compute_substitute_costs dm) (chr i) (chr j) = 5 * dm (Z.max i j) (Z.min i j).
Proof.
  intros Hi Hj. pose proof (forall_list _ _ (sub_costs_entries dm) i) as H.
  specialize (H (proj2 (in_zrange 16 i ltac:(lia)) Hi)). cbv beta in H.
  exact (forall_list _ _ H j (proj2 (in_zrange 16 j ltac:(lia)) Hj)).
Qed.

(** entries of the whole 128x128 arrays *)
Definition sub_inv (B : Z -> Prop) (e : edp) : Prop :=
  forall c d, e_sub e c d = e_sub e d c /\ e_err e c d = 5 * e_sub e c d /\ B (e_sub e c d).

Lemma sub_costs_inv (B : Z -> Prop) dm : B 0 -> (forall i j, 0 <= i < 16 -> 0 <= j < 16 -> B (dm i j)) ->
  sub_inv B (compute_substitute_costs dm).
Proof.
  intros B0 HB. unfold compute_substitute_costs.
  assert (G : forall l e, (forall i, In i l -> 0 <= i < 16) -> sub_inv B e ->
    sub_inv B (fold_left (fun e i => fold_left (fun e j =>
      {| e_sub := upd2 (upd2 (e_sub e) (nth (Z.to_nat i) PIXEL_CHARS 0) (nth (Z.to_nat j) PIXEL_CHARS 0) (dm i j))
                   (nth (Z.to_nat j) PIXEL_CHARS 0) (nth (Z.to_nat i) PIXEL_CHARS 0) (dm i j);
         e_err := upd2 (upd2 (e_err e) (nth (Z.to_nat i) PIXEL_CHARS 0) (nth (Z.to_nat j) PIXEL_CHARS 0) (5 * dm i j))
                   (nth (Z.to_nat j) PIXEL_CHARS 0) (nth (Z.to_nat i) PIXEL_CHARS 0) (5 * dm i j) |}) (zrange 16) e) l e)).
  { induction l as [|i l IH]; intros e Hl He; [exact He|]. cbn [fold_left].
    apply IH; [intros; apply Hl; cbn; auto|].
    assert (Hi : 0 <= i < 16) by (apply Hl; cbn; auto). clear IH Hl.
    assert (Hj : forall j, In j (zrange 16) -> 0 <= j < 16) by (intros j; apply in_zrange; lia).
    revert e He Hj. generalize (zrange 16) as m. induction m as [|j m IHm]; intros e He Hj; [exact He|].
    cbn [fold_left]. apply IHm; [|intros; apply Hj; cbn; auto].
    specialize (HB i j Hi (Hj j (or_introl eq_refl))). clear - He HB.
    set (x := nth (Z.to_nat i) PIXEL_CHARS 0). set (y := nth (Z.to_nat j) PIXEL_CHARS 0). set (v := dm i j) in *.
    clearbody x y v. intros c d. destruct (He c d) as (E1 & E2 & E3). cbn [e_sub e_err]. unfold upd2.
    destruct (Z.eqb_spec c y), (Z.eqb_spec d x), (Z.eqb_spec c x), (Z.eqb_spec d y); cbn [andb]; subst; auto. }
  apply (G (zrange 16)).
  - intros i. apply in_zrange; lia.
  - intros c d. repeat split; auto.
Qed.

(** ** difference matrix *)
Lemma diff_matrix_entries delta pal c1 c2 :
  compute_diff_matrix delta pal (hgr_value c1) (hgr_value c2) = delta (pal c1) (pal c2).
Proof. destruct c1, c2; vm_compute; reflexivity. Qed.

(** ** pixel strings *)
Definition good_value (value : colour_name -> Z) : Prop := value = hgr_value \/ value = dhgr_value.

Lemma pixel_char_ok v : nib v -> pixel_char v = Ok (chr v).
Proof. unfold nib. intros Hv. unfold pixel_char. rewrite norm_index_id by lia. reflexivity. Qed.

Lemma pixel_string_ok l : Forall nib l -> pixel_string l = Ok (map chr l).
Proof.
  unfold pixel_string. induction 1 as [|x l Hx _ IH]; [reflexivity|].
  cbn [map_res map]. rewrite pixel_char_ok by auto. cbn [rbind]. rewrite IH. reflexivity.
Qed.

Lemma chr_inj x y : nib x -> nib y -> chr x = chr y -> x = y.
Proof.
  unfold nib. intros Hx Hy E.
  assert (C : forallb (fun x => forallb (fun y => negb (chr x =? chr y) || (x =? y)) (zrange 16)) (zrange 16) = true)
    by (vm_compute; reflexivity).
  pose proof (forall_range _ _ (forall_range _ _ C x Hx) y Hy) as B. cbv beta in B. lia.
Qed.

Lemma pixel_colour_nib dot d : nib (pixel_colour dot d).
Proof.
  unfold nib, pixel_colour.
  destruct (dot (d + (0 - d) mod 4)), (dot (d + (1 - d) mod 4)), (dot (d + (2 - d) mod 4)), (dot (d + (3 - d) mod 4));
  cbn [b2z]; lia.
Qed.

Lemma to_dots_ok k mv o : 0 <= mv < 2 ^ MASKED_BITS k -> valid_o k o -> exists d, to_dots k mv o = Ok d.
Proof.
  intros Hm Ho. destruct k.
  - change (2 ^ MASKED_BITS HGR) with 16384 in Hm. unfold valid_o in Ho. change (SCREEN_BYTES HGR) with 2 in Ho.
    destruct (hgr_to_dots_bits mv o Hm ltac:(lia)) as (d & E & _). exists d; auto.
  - exists mv. reflexivity.
Qed.

Lemma phase_ok k o : valid_o k o -> 0 <= nth (Z.to_nat o) (PHASES k) 0 < 4.
Proof.
  unfold valid_o. intros H.
  assert (C : forallb (fun o => (0 <=? nth (Z.to_nat o) (PHASES k) 0) && (nth (Z.to_nat o) (PHASES k) 0 <? 4)) (zrange (SCREEN_BYTES k)) = true)
    by (destruct k; vm_compute; reflexivity).
  pose proof (forall_range _ _ C o H) as B. cbv beta in B. lia.
Qed.

Lemma window_pixels_ok k value mv o : good_value value -> 0 <= mv < 2 ^ MASKED_BITS k -> valid_o k o ->
  exists dots px, to_dots k mv o = Ok dots /\ window_pixels k value mv o = Ok px /\
    px = map (fun i => pixel_colour (fun t => Z.testbit dots (t - nth (Z.to_nat o) (PHASES k) 0))
                          (nth (Z.to_nat o) (PHASES k) 0 + i)) (zrange (MASKED_DOTS k)) /\
    Forall nib px /\
    masked_pixel_string k value o (nth (Z.to_nat o) (PHASES k) 0) mv = Ok (map chr px).
Proof.
  intros V Hm Ho. destruct (to_dots_ok k mv o Hm Ho) as (dots & Ed).
  pose proof (phase_ok k o Ho) as Hp. set (ph := nth (Z.to_nat o) (PHASES k) 0) in *.
  destruct (colours_spec_enum value (MASKED_DOTS k) dots ph (fun t => Z.testbit dots (t - ph)) ph V) as (l & El & Ml).
  - destruct k; cbn; lia.
  - lia.
  - rewrite Z.mod_small; lia.
  - intros t Ht. f_equal. lia.
  - exists dots, (map value l).
    assert (N : Forall nib (map value l)).
    { rewrite Ml. apply Forall_forall. intros x Hx. apply in_map_iff in Hx. destruct Hx as (i & <- & _). apply pixel_colour_nib. }
    split; [auto|]. split.
    { unfold window_pixels. rewrite Ed. cbn [rbind]. unfold dots_to_nominal_colour_pixel_values. fold ph. rewrite El. reflexivity. }
    split; [auto|]. split; [auto|].
    unfold masked_pixel_string. rewrite Ed. cbn [rbind].
    unfold dots_to_nominal_colour_pixel_values. rewrite El. cbn [rbind]. apply pixel_string_ok. auto.
Qed.

(** ** filling the table *)
Lemma fold_res_range {S} (f : S -> Z -> res S) (P : Z -> S -> Prop) n s : 0 <= n ->
  P 0 s -> (forall i s, 0 <= i < n -> P i s -> exists s', f s i = Ok s' /\ P (i + 1) s') ->
  exists s', fold_res f (zrange n) s = Ok s' /\ P n s'.
Proof.
  intros Hn H0 Hs. unfold zrange.
  assert (G : forall m a s, P a s -> 0 <= a -> a + Z.of_nat m <= n ->
            exists s', fold_res f (zrange_from a m) s = Ok s' /\ P (a + Z.of_nat m) s').
  { induction m as [|m IH]; intros a t Ht Ha Hm; cbn [zrange_from fold_res].
    - exists t. split; [auto|]. replace (a + Z.of_nat 0) with a by lia. auto.
    - destruct (Hs a t ltac:(lia) Ht) as (t' & E & Pt). rewrite E. cbn [rbind].
      destruct (IH (a + 1) t' Pt ltac:(lia) ltac:(lia)) as (s' & E' & Ps). exists s'. split; auto.
      replace (a + Z.of_nat (Datatypes.S m)) with (a + 1 + Z.of_nat m) by lia. auto. }
  destruct (G (Z.to_nat n) 0 s H0 ltac:(lia) ltac:(lia)) as (s' & E & Ps).
  exists s'. split; auto. replace n with (0 + Z.of_nat (Z.to_nat n)) by lia. auto.
Qed.

Lemma enumerate_phases k : enumerate (PHASES k) = map (fun o => (o, nth (Z.to_nat o) (PHASES k) 0)) (zrange (SCREEN_BYTES k)).
Proof. destruct k; reflexivity. Qed.

Lemma fold_res_map {S A B} (f : S -> B -> res S) (g : A -> B) l : forall s,
  fold_res f (map g l) s = fold_res (fun s x => f s (g x)) l s.
Proof.
  induction l as [|x l IH]; intros s; [reflexivity|]. cbn [map fold_res].
  destruct (f s (g x)); cbn [rbind]; auto.
Qed.

Section Fill.
  Variables (dm : Z -> Z -> Z) (k : kind) (value : colour_name -> Z).
  Hypothesis V : good_value value.
  Hypothesis HD : forall i j, 0 <= i < 16 -> 0 <= j < 16 -> 0 <= dm i j <= 3640.
  Let e := compute_substitute_costs dm.
  Let N := 2 ^ MASKED_BITS k.

  (** pixel string of a masked value (total version) *)
  Definition pxs (o i : Z) : list Z := match window_pixels k value i o with Ok p => p | Raise _ => [] end.
  Definition dist (o i j : Z) : Z := dam_lev (edit_costs e false) (map chr (pxs o i)) (map chr (pxs o j)).

  Lemma pos_edit_costs : pos_costs (edit_costs e false).
  Proof.
    repeat split; intros; cbn [edit_costs c_ins c_del c_tr c_sub]; unfold insert_costs, delete_costs, transpose_costs; try lia.
    apply (sub_costs_inv (fun x => 0 <= x) dm); [lia|]. intros i j Hi Hj. apply HD; auto.
  Qed.

  Lemma pxs_length o i : 0 <= i < N -> valid_o k o -> length (pxs o i) = Z.to_nat (MASKED_DOTS k).
  Proof.
    intros Hi Ho. destruct (window_pixels_ok k value i o V Hi Ho) as (d & px & _ & E & -> & _).
    unfold pxs. rewrite E. rewrite map_length. unfold zrange. apply zrange_from_length.
  Qed.

  Lemma dist_bound o i j : 0 <= i < N -> 0 <= j < N -> valid_o k o -> 0 <= dist o i j < 2 ^ 16.
  Proof.
    intros Hi Hj Ho. unfold dist. split; [apply dam_lev_nonneg, pos_edit_costs|].
    assert (L : dam_lev (edit_costs e false) (map chr (pxs o i)) (map chr (pxs o j)) <=
                Z.of_nat (length (map chr (pxs o i))) * 3640).
    { apply dam_lev_upper.
      - rewrite !map_length, !pxs_length by auto. reflexivity.
      - intros c d. cbn [edit_costs c_sub].
        apply (sub_costs_inv (fun x => x <= 3640) dm); [lia|]. intros; apply HD; auto.
      - lia. }
    rewrite map_length, pxs_length in L by auto.
    assert (M18 : 0 <= MASKED_DOTS k <= 18) by (destruct k; cbn; lia).
    change (2 ^ 16) with 65536. clear - L M18. lia.
  Qed.

  Lemma mps o i : 0 <= i < N -> valid_o k o ->
    masked_pixel_string k value o (nth (Z.to_nat o) (PHASES k) 0) i = Ok (map chr (pxs o i)).
  Proof.
    intros Hi Ho. destruct (window_pixels_ok k value i o V Hi Ho) as (d & px & _ & E & _ & _ & M).
    rewrite M. unfold pxs. rewrite E. reflexivity.
  Qed.

  (** which entries are set after rows below [i], offsets below [o] of row [i]
      and columns below [j] of that *)
  Definition done (i o j o' a b : Z) : Prop :=
    b < a /\ (a < i \/ (a = i /\ (o' < o \/ (o' = o /\ b < j)))).
  Definition filled (i o j : Z) (t : table) : Prop :=
    forall o' a b, valid_o k o' -> 0 <= a < N -> 0 <= b < N ->
      (done i o j o' a b -> t o' (pair_index k a b) = dist o' a b) /\
      (~ done i o j o' a b -> t o' (pair_index k a b) = 0).

  Lemma filled_ext i o j i' o' j' t :
    (forall x a b, valid_o k x -> 0 <= a < N -> 0 <= b < N -> (done i o j x a b <-> done i' o' j' x a b)) ->
    filled i o j t -> filled i' o' j' t.
  Proof.
    intros H F x a b Hx Ha Hb. destruct (F x a b Hx Ha Hb) as [F1 F2]. specialize (H x a b Hx Ha Hb). tauto.
  Qed.

  Lemma fill_ok : exists t, compute_edit_distance e k value = Ok t /\ filled N 0 0 t.
  Proof.
    unfold compute_edit_distance. fold N.
    apply (fold_res_range _ (fun i t => filled i 0 0 t)).
    - unfold N. apply Z.pow_nonneg. lia.
    - intros o' a b Ho Ha Hb. split; [unfold done; lia|reflexivity].
    - intros i t Hi F. rewrite enumerate_phases, fold_res_map.
      destruct (fold_res_range (fun s x => let! first_pixels := masked_pixel_string k value x (nth (Z.to_nat x) (PHASES k) 0) i in
          fold_res (fun edit j => let! second_pixels := masked_pixel_string k value x (nth (Z.to_nat x) (PHASES k) 0) j in
            let! dist := edit_distance e first_pixels second_pixels false in
            Ok (upd2 edit x (pair_index k i j) dist)) (zrange i) s)
         (fun o t => filled i o 0 t) (SCREEN_BYTES k) t) as (t' & E & F').
      + unfold SCREEN_BYTES. lia.
      + exact F.
      + intros o s Ho Fs. rewrite (mps o i Hi Ho). cbn [rbind].
        destruct (fold_res_range (fun edit j => let! second_pixels := masked_pixel_string k value o (nth (Z.to_nat o) (PHASES k) 0) j in
            let! dist := edit_distance e (map chr (pxs o i)) second_pixels false in
            Ok (upd2 edit o (pair_index k i j) dist)) (fun j t => filled i o j t) i s ltac:(lia) Fs) as (s' & E & Fs').
        * intros j u Hj Fu. rewrite (mps o j ltac:(lia) Ho). cbn [rbind].
          unfold edit_distance. fold (dist o i j).
          pose proof (dist_bound o i j Hi ltac:(lia) Ho) as Hd.
          assert (A : (0 <=? dist o i j) && (dist o i j <? 2 ^ 16) = true) by lia.
          rewrite A. cbn [assert_ rbind]. eexists. split; [reflexivity|].
          intros o' a b Ho' Ha Hb. destruct (Fu o' a b Ho' Ha Hb) as [Q1 Q2].
          destruct (Z.eq_dec o' o) as [->|No]; [destruct (Z.eq_dec (pair_index k a b) (pair_index k i j)) as [Ep|Np]|].
          -- apply pair_index_inj in Ep; [|exact Hb|fold N; lia]. destruct Ep as [-> ->].
             rewrite upd2_same. unfold done. split; [auto|lia].
          -- rewrite upd2_other by auto.
             assert (~ (a = i /\ b = j)) by (intros [-> ->]; auto).
             split; intros D; [apply Q1|apply Q2]; unfold done in *; lia.
          -- rewrite upd2_other by auto. split; intros D; [apply Q1|apply Q2]; unfold done in *; lia.
        * exists s'. split; [exact E|]. eapply filled_ext; [|exact Fs'].
          intros x a b _ Ha Hb. unfold done. lia.
      + exists t'. split; [exact E|]. eapply filled_ext; [|exact F'].
        intros x a b Hx Ha Hb. unfold done, valid_o in *. lia.
  Qed.

  Lemma transpose_pair a b : 0 <= a < N -> 0 <= b < N -> transpose k (pair_index k a b) = pair_index k b a.
  Proof.
    intros Ha Hb. unfold transpose, pair_index.
    assert (B0 : 0 <= MASKED_BITS k) by (destruct k; cbn; lia).
    change (2 ^ MASKED_BITS k - 1) with (Z.pred (2 ^ MASKED_BITS k)).
    rewrite <- Z.ones_equiv, Z.land_ones by lia.
    rewrite Z.shiftr_div_pow2, !Z.shiftl_mul_pow2 by lia. fold N.
    rewrite Z.div_add_l by lia. rewrite (Z.div_small b N) by lia.
    rewrite Z.add_comm, Z.add_0_r. rewrite (Z.add_comm (a * N)), Z.mod_add by lia. rewrite Z.mod_small by lia. reflexivity.
  Qed.

  Lemma dist_sym o i j : dist o i j = dist o j i.
  Proof.
    unfold dist. apply dam_lev_sym; cbn [edit_costs c_ins c_del c_sub c_tr]; auto.
    intros x y. apply (sub_costs_inv (fun _ => True) dm); auto.
  Qed.
  Lemma dist_refl o i : dist o i i = 0.
  Proof.
    unfold dist. apply dam_lev_zero; [apply pos_edit_costs|]. split; [auto|]. intros t _. left. reflexivity.
  Qed.

  (** the loaded table *)
  Lemma table_spec : exists t, compute_edit_distance e k value = Ok t /\
    forall o a b, valid_o k o -> 0 <= a < N -> 0 <= b < N ->
      edit_distances k t o (pair_index k a b) = dist o a b.
  Proof.
    destruct fill_ok as (t & E & F). exists t. split; auto. intros o a b Ho Ha Hb.
    unfold edit_distances.
    pose proof (pair_index_bound k a b Ha Hb) as PB.
    assert (C : (0 <=? pair_index k a b) && (pair_index k a b <? 2 ^ (2 * MASKED_BITS k)) = true) by lia.
    rewrite C. rewrite transpose_pair by auto.
    destruct (F o a b Ho Ha Hb) as [F1 F2]. destruct (F o b a Ho Hb Ha) as [G1 G2].
    pose proof (dist_bound o a b Ha Hb Ho) as D1. pose proof (dist_bound o b a Hb Ha Ho) as D2.
    destruct (Z.lt_trichotomy a b) as [L|[L|L]].
    - rewrite F2, G1 by (unfold done; lia). rewrite Z.add_0_l, Z.mod_small by lia. apply dist_sym.
    - subst b. rewrite F2 by (unfold done; lia). rewrite dist_refl. reflexivity.
    - rewrite F1, G2 by (unfold done; lia). rewrite Z.add_0_r, Z.mod_small by lia. reflexivity.
  Qed.

  (** zero distance *)
  Lemma dist_zero o a b : 0 <= a < N -> 0 <= b < N -> valid_o k o ->
    (dist o a b = 0 <-> forall t, (t < Z.to_nat (MASKED_DOTS k))%nat ->
       let x := nth t (pxs o a) 0 in let y := nth t (pxs o b) 0 in
       x = y \/ dm (Z.max x y) (Z.min x y) = 0).
  Proof.
    intros Ha Hb Ho. unfold dist. rewrite dam_lev_zero by apply pos_edit_costs.
    rewrite !map_length, !pxs_length by auto.
    assert (P : forall i, 0 <= i < N -> Forall nib (pxs o i)).
    { intros i Hi. destruct (window_pixels_ok k value i o V Hi Ho) as (d & px & _ & E & _ & F & _).
      unfold pxs. rewrite E. auto. }
    assert (Q : forall i t, 0 <= i < N -> (t < Z.to_nat (MASKED_DOTS k))%nat -> nib (nth t (pxs o i) 0)).
    { intros i t Hi Ht. apply (forall_list _ _ (P i Hi)). apply nth_In. rewrite pxs_length; auto. }
    assert (R : forall i t, 0 <= i < N -> (t < Z.to_nat (MASKED_DOTS k))%nat -> nth t (map chr (pxs o i)) 0 = chr (nth t (pxs o i) 0)).
    { intros i t Hi Ht. rewrite (nth_indep _ 0 (chr 0)) by (rewrite map_length, pxs_length; auto). apply map_nth. }
    assert (W : forall t, (t < Z.to_nat (MASKED_DOTS k))%nat ->
       (same_cost (edit_costs e false) (nth t (map chr (pxs o a)) 0) (nth t (map chr (pxs o b)) 0) <->
        nth t (pxs o a) 0 = nth t (pxs o b) 0 \/
        dm (Z.max (nth t (pxs o a) 0) (nth t (pxs o b) 0)) (Z.min (nth t (pxs o a) 0) (nth t (pxs o b) 0)) = 0)).
    { intros t Ht. rewrite !R by auto. unfold same_cost. cbn [edit_costs c_sub].
      pose proof (Q a t Ha Ht) as N1. pose proof (Q b t Hb Ht) as N2.
      destruct (sub_costs dm _ _ N1 N2) as [S _]. fold e in S. rewrite S.
      split; intros [H|H]; auto; left; [apply chr_inj; auto|congruence]. }
    split.
    - intros [_ H] t Ht. apply W; auto.
    - intros H. split; auto. intros t Ht. apply W; auto.
  Qed.
End Fill.

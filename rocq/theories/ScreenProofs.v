From Verif Require Import Base BaseFacts ScreenModel ScreenSpec.

(** Address arithmetic. *)
Lemma base_addr_spec y page x :
  0 <= y < 192 -> y_to_base_addr y page + x = 8192 * (page + 1) + hires_offset x y.
Proof. unfold y_to_base_addr, hires_offset; intros. dlia. Qed.

Lemma hires_offset_bound x y : visible_xy x y -> 0 <= hires_offset x y < 8192.
Proof. unfold visible_xy, hires_offset; dlia. Qed.

Lemma hires_offset_low x y :
  visible_xy x y -> 0 <= (y / 64) * 40 + x < 120.
Proof. unfold visible_xy; dlia. Qed.

Lemma hires_offset_mod128 x y :
  visible_xy x y -> hires_offset x y mod 128 = (y / 64) * 40 + x.
Proof.
  intros H. pose proof (hires_offset_low x y H). unfold hires_offset.
  replace (y mod 8 * 1024 + (y / 8) mod 8 * 128 + y / 64 * 40 + x)
    with ((y / 64 * 40 + x) + (y mod 8 * 8 + (y / 8) mod 8) * 128) by ring.
  rewrite Z.mod_add by lia. apply Z.mod_small; lia.
Qed.

Lemma hires_offset_div128 x y :
  visible_xy x y -> hires_offset x y / 128 = y mod 8 * 8 + (y / 8) mod 8.
Proof.
  intros H. pose proof (hires_offset_low x y H). unfold hires_offset.
  replace (y mod 8 * 1024 + (y / 8) mod 8 * 128 + y / 64 * 40 + x)
    with ((y / 64 * 40 + x) + (y mod 8 * 8 + (y / 8) mod 8) * 128) by ring.
  rewrite Z.div_add by lia. rewrite Z.div_small; lia.
Qed.

Lemma hires_offset_inj x y x' y' :
  visible_xy x y -> visible_xy x' y' -> hires_offset x y = hires_offset x' y' ->
  x = x' /\ y = y'.
Proof.
  intros H H' E.
  pose proof (hires_offset_mod128 x y H) as M.
  pose proof (hires_offset_mod128 x' y' H') as M'.
  pose proof (hires_offset_div128 x y H) as D.
  pose proof (hires_offset_div128 x' y' H') as D'.
  rewrite E in M, D. rewrite M' in M. rewrite D' in D.
  unfold visible_xy in *.
  pose proof (Z.mod_pos_bound y 8 ltac:(lia)). pose proof (Z.mod_pos_bound y' 8 ltac:(lia)).
  pose proof (Z.mod_pos_bound (y/8) 8 ltac:(lia)). pose proof (Z.mod_pos_bound (y'/8) 8 ltac:(lia)).
  assert (y mod 8 = y' mod 8) by lia.
  assert ((y / 8) mod 8 = (y' / 8) mod 8) by lia.
  assert (y / 64 = y' / 64) by lia.
  assert (Q : forall z, 0 <= z -> z = 64 * (z / 64) + 8 * ((z / 8) mod 8) + z mod 8).
  { intros z Hz. dlia. }
  pose proof (Q y ltac:(lia)). pose proof (Q y' ltac:(lia)). lia.
Qed.

(** page/offset split of the loop body *)
Lemma body_page y : 0 <= y < 192 ->
  Z.shiftr (y_to_base_addr y 0) 8 - 32 = hires_offset 0 y / 256.
Proof.
  intros H. rewrite Z.shiftr_div_pow2 by lia. change (2 ^ 8) with 256.
  pose proof (base_addr_spec y 0 0 H) as E. rewrite Z.add_0_r in E. rewrite E.
  replace (8192 * (0 + 1) + hires_offset 0 y) with (hires_offset 0 y + 32 * 256) by ring.
  rewrite Z.div_add by lia. lia.
Qed.

Lemma hires_offset_page x y : visible_xy x y ->
  hires_offset x y / 256 = hires_offset 0 y / 256.
Proof.
  intros H.
  assert (H0 : visible_xy 0 y) by (unfold visible_xy in *; lia).
  pose proof (hires_offset_div128 x y H) as D. pose proof (hires_offset_div128 0 y H0) as D0.
  change 256 with (128 * 2). rewrite <- !Z.div_div by lia. rewrite D, D0. reflexivity.
Qed.

Lemma body_offset x y : visible_xy x y ->
  y_to_base_addr y 0 - Z.shiftl (Z.shiftr (y_to_base_addr y 0) 8) 8 + x
  = hires_offset x y mod 256.
Proof.
  intros H. assert (Hy : 0 <= y < 192) by (unfold visible_xy in H; lia).
  rewrite Z.shiftl_mul_pow2 by lia. change (2 ^ 8) with 256.
  pose proof (body_page y Hy) as P. rewrite <- (hires_offset_page x y H) in P.
  pose proof (base_addr_spec y 0 x Hy) as E.
  pose proof (Z.div_mod (hires_offset x y) 256 ltac:(lia)) as DM.
  lia.
Qed.

(** The populate loop, flattened. *)
Definition all_yx : list (Z * Z) :=
  List.flat_map (fun y => map (fun x => (y, x)) (zrange 40)) (zrange 192).

Lemma fold_flat {A B C} (g : C -> A -> B -> C) (f : A -> list B) l c :
  fold_left (fun t y => fold_left (fun t x => g t y x) (f y) t) l c
  = fold_left (fun t p => g t (fst p) (snd p))
      (List.flat_map (fun y => map (fun x => (y, x)) (f y)) l) c.
Proof.
  revert c; induction l as [|y l IH]; intros c; cbn; auto.
  rewrite fold_left_app, IH. f_equal.
  generalize c; clear; induction (f y) as [|x xs IH']; intros c; cbn; auto.
Qed.

Lemma populate_flat t :
  populate_mappings t = fold_left (fun t p => populate_body t (fst p) (snd p)) all_yx t.
Proof. unfold populate_mappings, all_yx. apply fold_flat. Qed.

Lemma in_all_yx y x : In (y, x) all_yx <-> visible_xy x y.
Proof.
  unfold all_yx, visible_xy. rewrite in_flat_map. split.
  - intros (y' & Hy & Hx). rewrite in_map_iff in Hx. destruct Hx as (x' & E & Hx').
    injection E as -> ->. rewrite in_zrange in Hy, Hx' by lia. lia.
  - intros H. exists y. rewrite in_zrange by lia. split; [lia|].
    apply in_map_iff. exists x. rewrite in_zrange by lia. split; auto; lia.
Qed.

(** Loop invariant: the entries of processed coordinates are right, the others
    are untouched. *)
Record inv (done : list (Z * Z)) (t : tables) : Prop := {
  inv_y : forall y x, In (y, x) done ->
     page_offset_to_y t (hires_offset x y / 256) (hires_offset x y mod 256) = y;
  inv_x : forall y x, In (y, x) done ->
     page_offset_to_x t (hires_offset x y / 256) (hires_offset x y mod 256) = x;
  inv_p : forall y x, In (y, x) done -> x_y_to_page t y x = hires_offset x y / 256;
  inv_o : forall y x, In (y, x) done -> x_y_to_offset t y x = hires_offset x y mod 256;
  inv_h : forall p o, in_page p o ->
     (screen_holes t p o = false <-> exists y x, In (y, x) done /\ hires_offset x y = 256 * p + o);
  inv_a : forall y x p, In (y, x) done -> p = 0 \/ p = 1 ->
     addr_to_coords t (8192 * (p + 1) + hires_offset x y) = Some (p, y, x);
  inv_d : forall a c, addr_to_coords t a = Some c ->
     exists y x p, In (y, x) done /\ (p = 0 \/ p = 1) /\ c = (p, y, x)
       /\ a = 8192 * (p + 1) + hires_offset x y
}.

Lemma pair_split h h' : h / 256 = h' / 256 -> h mod 256 = h' mod 256 -> h = h'.
Proof. intros. rewrite (Z.div_mod h 256), (Z.div_mod h' 256) by lia. lia. Qed.

Lemma upd2_hit {A} (f : Z -> Z -> A) i j a b v :
  a = i -> b = j -> upd2 f i j v a b = v.
Proof. intros -> ->; apply upd2_same. Qed.

Lemma inv_step done t y x :
  (forall y' x', In (y', x') done -> visible_xy x' y') -> visible_xy x y ->
  inv done t -> inv ((y, x) :: done) (populate_body t y x).
Proof.
  intros Hd Hv I.
  assert (Hy : 0 <= y < 192) by (unfold visible_xy in Hv; lia).
  assert (Hp : Z.shiftr (y_to_base_addr y 0) 8 - 32 = hires_offset x y / 256).
  { rewrite body_page by auto. symmetry; apply hires_offset_page; auto. }
  pose proof (body_offset x y Hv) as Ho.
  assert (Sep : forall y' x', visible_xy x' y' -> (y', x') <> (y, x) ->
     hires_offset x' y' / 256 <> hires_offset x y / 256 \/
     hires_offset x' y' mod 256 <> hires_offset x y mod 256).
  { intros y' x' Hv' Hne.
    destruct (Z.eq_dec (hires_offset x' y' / 256) (hires_offset x y / 256)) as [E1|]; [|auto].
    destruct (Z.eq_dec (hires_offset x' y' mod 256) (hires_offset x y mod 256)) as [E2|]; [|auto].
    exfalso. apply Hne. pose proof (pair_split _ _ E1 E2) as E.
    destruct (hires_offset_inj _ _ _ _ Hv' Hv E); subst; auto. }
  assert (Dec : forall y' x', (y', x') = (y, x) \/ (y', x') <> (y, x)).
  { intros. destruct (Z.eq_dec y' y), (Z.eq_dec x' x); subst; auto; right; congruence. }
  constructor; unfold populate_body; cbn [page_offset_to_x page_offset_to_y
    x_y_to_page x_y_to_offset screen_holes addr_to_coords]; rewrite ?Hp, ?Ho.
  - intros y' x' [E|H].
    + injection E as <- <-. apply upd2_same.
    + destruct (Dec y' x') as [E|Hne]; [injection E as -> ->; apply upd2_same|].
      rewrite upd2_other by (apply Sep; auto). apply (inv_y _ _ I); auto.
  - intros y' x' [E|H].
    + injection E as <- <-. apply upd2_same.
    + destruct (Dec y' x') as [E|Hne]; [injection E as -> ->; apply upd2_same|].
      rewrite upd2_other by (apply Sep; auto). apply (inv_x _ _ I); auto.
  - intros y' x' H. destruct (Dec y' x') as [E|Hne].
    + injection E as -> ->. apply upd2_same.
    + rewrite upd2_other. { destruct H as [E|H]; [congruence|]. apply (inv_p _ _ I); auto. }
      destruct (Z.eq_dec y' y), (Z.eq_dec x' x); auto; subst; congruence.
  - intros y' x' H. destruct (Dec y' x') as [E|Hne].
    + injection E as -> ->. apply upd2_same.
    + rewrite upd2_other. { destruct H as [E|H]; [congruence|]. apply (inv_o _ _ I); auto. }
      destruct (Z.eq_dec y' y), (Z.eq_dec x' x); auto; subst; congruence.
  - intros p o Hpo. unfold upd2.
    destruct (Z.eqb_spec p (hires_offset x y / 256)) as [Ep|Np];
      [destruct (Z.eqb_spec o (hires_offset x y mod 256)) as [Eo|No]|]; cbn [andb].
    + split; auto. intros _. exists y, x. split; [left; auto|].
      pose proof (Z.div_mod (hires_offset x y) 256 ltac:(lia)). lia.
    + rewrite (inv_h _ _ I p o Hpo). split; intros (y' & x' & H & E).
      * exists y', x'; split; [right|]; auto.
      * exists y', x'; split; auto. destruct H as [E'|H]; auto. injection E' as <- <-.
        exfalso. unfold in_page in Hpo. clear - E Hpo Ep No. dlia.
    + rewrite (inv_h _ _ I p o Hpo). split; intros (y' & x' & H & E).
      * exists y', x'; split; [right|]; auto.
      * exists y', x'; split; auto. destruct H as [E'|H]; auto. injection E' as <- <-.
        exfalso. unfold in_page in Hpo. clear - E Hpo Np. dlia.
  - intros y' x' p H Pp.
    change (zrange 2) with [0; 1]. cbn [fold_left].
    rewrite !base_addr_spec by auto.
    assert (Hv' : visible_xy x' y') by (destruct H as [E|H]; [injection E as <- <-; auto | auto]).
    pose proof (hires_offset_bound x y Hv). pose proof (hires_offset_bound x' y' Hv').
    destruct (Dec y' x') as [E|Hne].
    + injection E as -> ->. unfold upd1.
      destruct Pp as [-> | ->]; [|rewrite Z.eqb_refl; auto].
      destruct (Z.eqb_spec (8192 * (0 + 1) + hires_offset x y) (8192 * (1 + 1) + hires_offset x y)); [lia|].
      rewrite Z.eqb_refl; auto.
    + assert (hires_offset x' y' <> hires_offset x y).
      { intros E. destruct (hires_offset_inj _ _ _ _ Hv' Hv E); subst; congruence. }
      rewrite !upd1_other by lia. apply (inv_a _ _ I); auto.
      destruct H as [E|H]; [congruence|auto].
  - intros a c. change (zrange 2) with [0; 1]. cbn [fold_left].
    rewrite !base_addr_spec by auto. unfold upd1.
    destruct (Z.eqb_spec a (8192 * (1 + 1) + hires_offset x y)) as [E|N1].
    { intros [= <-]. exists y, x, 1. repeat split; auto. left; auto. }
    destruct (Z.eqb_spec a (8192 * (0 + 1) + hires_offset x y)) as [E|N0].
    { intros [= <-]. exists y, x, 0. repeat split; auto. left; auto. }
    intros Ha. destruct (inv_d _ _ I a c Ha) as (y' & x' & p & H & R).
    exists y', x', p. split; [right; auto | auto].
Qed.

Lemma inv_fold l : forall done t,
  (forall y x, In (y, x) done -> visible_xy x y) ->
  (forall y x, In (y, x) l -> visible_xy x y) -> inv done t ->
  inv (rev l ++ done) (fold_left (fun t p => populate_body t (fst p) (snd p)) l t).
Proof.
  induction l as [|[y x] l IH]; intros done t Hd Hl I; cbn [fold_left rev app fst snd]; auto.
  rewrite <- app_assoc. cbn [app]. apply IH.
  - intros y' x' [E|H]; [injection E as <- <-; apply Hl; left; auto | auto].
  - intros y' x' H; apply Hl; right; auto.
  - apply inv_step; auto. apply Hl; left; auto.
Qed.

Lemma inv_init : inv [] tables_init.
Proof.
  constructor; cbn; try (intros; contradiction).
  - intros p o _; split; [discriminate | intros (?&?&[]&_)].
  - discriminate.
Qed.

Lemma inv_TABLES : inv (rev all_yx) TABLES.
Proof.
  unfold TABLES. rewrite populate_flat.
  rewrite <- (app_nil_r (rev all_yx)). apply inv_fold.
  - intros y x [].
  - intros y x H; apply in_all_yx; auto.
  - apply inv_init.
Qed.

(* keep conversion from running the table-filling loop *)
#[global] Opaque TABLES.
#[local] Opaque all_yx.

Lemma in_rev_yx y x : In (y, x) (rev all_yx) <-> visible_xy x y.
Proof. rewrite <- in_rev. apply in_all_yx. Qed.

Lemma tables_xy x y : visible_xy x y ->
  let p := x_y_to_page TABLES y x in let o := x_y_to_offset TABLES y x in
  in_page p o /\ 256 * p + o = hires_offset x y /\
  page_offset_to_x TABLES p o = x /\ page_offset_to_y TABLES p o = y.
Proof.
  intros H. pose proof (proj2 (in_rev_yx y x) H) as Hin.
  cbv zeta. rewrite (inv_p _ _ inv_TABLES y x Hin), (inv_o _ _ inv_TABLES y x Hin).
  rewrite (inv_x _ _ inv_TABLES y x Hin), (inv_y _ _ inv_TABLES y x Hin).
  pose proof (hires_offset_bound x y H).
  pose proof (Z.div_mod (hires_offset x y) 256 ltac:(lia)).
  pose proof (Z.mod_pos_bound (hires_offset x y) 256 ltac:(lia)).
  assert (0 <= hires_offset x y / 256 < 32) by (clear - H0; dlia).
  unfold in_page. repeat split; lia.
Qed.

Lemma holes_iff p o : in_page p o -> (screen_holes TABLES p o = false <-> displayed p o).
Proof.
  intros H. rewrite (inv_h _ _ inv_TABLES p o H). unfold displayed.
  split; intros (a & b & Hin & E).
  - exists b, a. rewrite in_rev_yx in Hin. auto.
  - exists b, a. rewrite in_rev_yx. auto.
Qed.

Lemma displayed_xy p o : in_page p o -> displayed p o ->
  let x := page_offset_to_x TABLES p o in let y := page_offset_to_y TABLES p o in
  visible_xy x y /\ x_y_to_page TABLES y x = p /\ x_y_to_offset TABLES y x = o.
Proof.
  intros Hp (x & y & Hv & E). pose proof (proj2 (in_rev_yx y x) Hv) as Hin.
  assert (Ep : hires_offset x y / 256 = p) by (unfold in_page in Hp; rewrite E; clear - Hp; dlia).
  assert (Eo : hires_offset x y mod 256 = o) by (unfold in_page in Hp; rewrite E; clear - Hp; dlia).
  pose proof (inv_x _ _ inv_TABLES y x Hin) as Ix. pose proof (inv_y _ _ inv_TABLES y x Hin) as Iy.
  rewrite Ep, Eo in Ix, Iy. cbv zeta. rewrite Ix, Iy.
  rewrite (inv_p _ _ inv_TABLES y x Hin), (inv_o _ _ inv_TABLES y x Hin). auto.
Qed.

Lemma displayed_low p o : in_page p o -> (displayed p o <-> o mod 128 < 120).
Proof.
  intros Hp. split.
  - intros (x & y & Hv & E). pose proof (hires_offset_mod128 x y Hv) as M.
    pose proof (hires_offset_low x y Hv). rewrite E in M.
    replace (256 * p + o) with (o + (2 * p) * 128) in M by ring.
    rewrite Z.mod_add in M by lia. lia.
  - intros Ho. unfold in_page in Hp.
    (* y = a*64 + b*8 + c *)
    exists (o mod 128 mod 40).
    exists (64 * (o mod 128 / 40) + 8 * (2 * (p mod 4) + o / 128) + p / 4).
    assert (Hom : 0 <= o mod 128 / 40 < 3) by (clear - Ho Hp; dlia).
    assert (Hp4 : 0 <= p mod 4 < 4) by (clear; dlia).
    assert (Hpd : 0 <= p / 4 < 8) by (clear - Hp; dlia).
    assert (Hod : 0 <= o / 128 < 2) by (clear - Hp; dlia).
    assert (Ea : (o mod 128 / 40) * 40 + o mod 128 mod 40 = o mod 128) by (clear; dlia).
    assert (Ec : 1024 * (p / 4) + 256 * (p mod 4) = 256 * p) by (clear; dlia).
    assert (Hx : 0 <= o mod 128 mod 40 < 40) by (clear; dlia).
    pose proof (Z.div_mod o 128 ltac:(lia)) as Eo.
    remember (o mod 128 / 40) as a. remember (2 * (p mod 4) + o / 128) as b.
    remember (p / 4) as c. assert (Hb : 0 <= b < 8) by lia.
    unfold visible_xy, hires_offset.
    assert (E8 : (64 * a + 8 * b + c) mod 8 = c) by (clear - Hb Hpd; dlia).
    assert (E64 : (64 * a + 8 * b + c) / 64 = a) by (clear - Hb Hpd; dlia).
    assert (Eb : ((64 * a + 8 * b + c) / 8) mod 8 = b) by (clear - Hb Hpd; dlia).
    rewrite E8, E64, Eb. lia.
Qed.

Lemma in_all_pairs p o : In (p, o) all_pairs <-> in_page p o.
Proof.
  unfold all_pairs, in_page. rewrite in_flat_map. split.
  - intros (p' & Hp & Hx). rewrite in_map_iff in Hx. destruct Hx as (o' & E & Ho).
    injection E as -> ->. rewrite in_zrange in Hp, Ho by lia. lia.
  - intros H. exists p. rewrite in_zrange by lia. split; [lia|].
    apply in_map_iff. exists o. rewrite in_zrange by lia. split; auto; lia.
Qed.

Lemma hole_bool p o : in_page p o -> screen_holes TABLES p o = negb (o mod 128 <? 120).
Proof.
  intros H. pose proof (holes_iff p o H) as A. pose proof (displayed_low p o H) as B.
  destruct (screen_holes TABLES p o); destruct (Z.ltb_spec (o mod 128) 120); cbn; auto.
  - apply A, B; auto.
  - exfalso. assert (o mod 128 < 120) by (apply B, A; auto). lia.
Qed.

Lemma count_ext {A} (f g : A -> bool) l :
  (forall a, In a l -> f a = g a) -> count f l = count g l.
Proof. unfold count; intros H. f_equal. f_equal. apply filter_ext_in; auto. Qed.

Lemma count_visible : count (fun po => negb (screen_holes TABLES (fst po) (snd po))) all_pairs = 7680.
Proof.
  rewrite (count_ext _ (fun po => snd po mod 128 <? 120)).
  - vm_compute; reflexivity.
  - intros [p o] H. rewrite in_all_pairs in H. cbn [fst snd]. rewrite hole_bool by auto.
    apply negb_involutive.
Qed.

Lemma count_holes : count (fun po => screen_holes TABLES (fst po) (snd po)) all_pairs = 512.
Proof.
  rewrite (count_ext _ (fun po => negb (snd po mod 128 <? 120))).
  - vm_compute; reflexivity.
  - intros [p o] H. rewrite in_all_pairs in H. cbn [fst snd]. rewrite hole_bool by auto. auto.
Qed.

Lemma addr_coords_iff a p y x :
  addr_to_coords TABLES a = Some (p, y, x) <->
  (p = 0 \/ p = 1) /\ visible_xy x y /\ a = y_to_base_addr y p + x.
Proof.
  split.
  - intros H. destruct (inv_d _ _ inv_TABLES _ _ H) as (y' & x' & p' & Hin & Hp & E & Ha).
    injection E as <- <- <-. rewrite in_rev_yx in Hin. repeat split; auto; try apply Hin.
    rewrite base_addr_spec; auto. apply Hin.
  - intros (Hp & Hv & ->). rewrite base_addr_spec by apply Hv.
    apply (inv_a _ _ inv_TABLES); auto. apply in_rev_yx; auto.
Qed.

Lemma base_addr_inj y p x y' p' x' :
  (p = 0 \/ p = 1) -> (p' = 0 \/ p' = 1) -> visible_xy x y -> visible_xy x' y' ->
  y_to_base_addr y p + x = y_to_base_addr y' p' + x' -> p = p' /\ x = x' /\ y = y'.
Proof.
  intros Hp Hp' Hv Hv' E. rewrite !base_addr_spec in E by (apply Hv || apply Hv').
  pose proof (hires_offset_bound _ _ Hv). pose proof (hires_offset_bound _ _ Hv').
  assert (p = p') by lia. subst p'. split; auto.
  apply hires_offset_inj; auto. lia.
Qed.

(** indices and values stored by the table-filling loop are in range *)
Lemma populate_indices y x : visible_xy x y ->
  let page := Z.shiftr (y_to_base_addr y 0) 8 in
  let offset := y_to_base_addr y 0 - Z.shiftl page 8 + x in
  0 <= page - 32 < 32 /\ 0 <= offset < 256 /\ 0 <= y < 256 /\ 0 <= x < 256.
Proof.
  intros H. cbv zeta. rewrite body_offset by auto. rewrite body_page by apply H.
  rewrite <- (hires_offset_page x y H). pose proof (hires_offset_bound x y H).
  unfold visible_xy in H. clear - H H0. dlia.
Qed.

(** Memory maps *)
Lemma norm_index_ok n i j : norm_index n i = Ok j ->
  0 <= j < n /\ (j = i \/ j = i + n).
Proof.
  unfold norm_index. destruct ((0 <=? i) && (i <? n)) eqn:E1; [intros [= <-]; lia|].
  destruct ((- n <=? i) && (i <? 0)) eqn:E2; [intros [= <-]; lia|discriminate].
Qed.

Lemma flat_paged_roundtrip f m : to_memory_map f = Ok m ->
  exists f', to_flat_memory_map m = Ok f' /\ fm_page f' = fm_page f /\
    forall i, 0 <= i < 8192 -> fm_data f' i = fm_data f i.
Proof.
  unfold to_memory_map, to_flat_memory_map, memory_map_new, flat_memory_new.
  destruct ((fm_page f =? 1) || (fm_page f =? 2)) eqn:E; [|discriminate].
  intros [= <-]. cbn [mm_page mm_data]. rewrite E. eexists; split; [reflexivity|].
  cbn. split; auto. intros i Hi. unfold reshape_8192, reshape_32_256. f_equal. dlia.
Qed.

Lemma paged_flat_roundtrip m f : to_flat_memory_map m = Ok f ->
  exists m', to_memory_map f = Ok m' /\ mm_page m' = mm_page m /\
    forall p o, in_page p o -> mm_data m' p o = mm_data m p o.
Proof.
  unfold to_memory_map, to_flat_memory_map, memory_map_new, flat_memory_new.
  destruct ((mm_page m =? 1) || (mm_page m =? 2)) eqn:E; [|discriminate].
  intros [= <-]. cbn [fm_page fm_data]. rewrite E. eexists; split; [reflexivity|].
  cbn. split; auto. intros p o [Hp Ho]. unfold reshape_8192, reshape_32_256. f_equal; dlia.
Qed.

Lemma flat_view f m p o : to_memory_map f = Ok m -> mm_data m p o = fm_data f (256 * p + o).
Proof.
  unfold to_memory_map, memory_map_new.
  destruct ((fm_page f =? 1) || (fm_page f =? 2)); [|discriminate].
  intros [= <-]. reflexivity.
Qed.

Lemma flat_write_ok f addr val : fm_page f = 1 \/ fm_page f = 2 ->
  8192 * fm_page f <= addr < 8192 * fm_page f + 8192 ->
  exists f', flat_write f addr val = Ok f' /\ fm_page f' = fm_page f /\
    (forall i, fm_data f' i = if i =? addr - 8192 * fm_page f then val else fm_data f i).
Proof.
  intros Hp Ha. unfold flat_write.
  destruct ((addr <? 8192 * fm_page f) || (8192 * fm_page f + 8191 <? addr)) eqn:E; [lia|].
  unfold norm_index.
  destruct ((0 <=? addr - 8192 * fm_page f) && (addr - 8192 * fm_page f <? 8192)) eqn:E2; [|lia].
  cbn. eexists; split; [reflexivity|]. cbn. split; auto.
Qed.

Lemma flat_write_bad f addr val :
  ~ (8192 * fm_page f <= addr < 8192 * fm_page f + 8192) ->
  flat_write f addr val = Raise ValueError.
Proof.
  intros Ha. unfold flat_write.
  destruct ((addr <? 8192 * fm_page f) || (8192 * fm_page f + 8191 <? addr)) eqn:E; [auto|lia].
Qed.

Lemma mm_write_spec m page offset val m' :
  mm_page m = 1 ->
  (mm_write m page offset val = Ok m' <->
   (0 <= page < 64 /\ -256 <= offset < 256 /\ mm_page m' = 1 /\
    m' = {| mm_page := 1; mm_data := upd2 (mm_data m) (page mod 32) (offset mod 256) val |})).
Proof.
  intros H1. unfold mm_write. rewrite H1. unfold norm_index.
  destruct ((0 <=? page - 32 * 1) && (page - 32 * 1 <? 32)) eqn:E1;
  [|destruct ((- (32) <=? page - 32 * 1) && (page - 32 * 1 <? 0)) eqn:E2]; cbn [rbind];
  (destruct ((0 <=? offset) && (offset <? 256)) eqn:E3;
  [|destruct ((- (256) <=? offset) && (offset <? 0)) eqn:E4]); cbn [rbind];
  (split; [try discriminate | try lia]).
  all: try (intros [= <-]; cbn [mm_page]; repeat split; try lia; f_equal; f_equal; dlia).
  all: intros (_ & _ & _ & ->); f_equal; f_equal; f_equal; dlia.
Qed.

Lemma mm_write_raises m page offset val :
  mm_page m = 1 -> ~ (0 <= page < 64 /\ -256 <= offset < 256) ->
  mm_write m page offset val = Raise IndexError.
Proof.
  intros H1 H. unfold mm_write. rewrite H1. unfold norm_index.
  destruct ((0 <=? page - 32 * 1) && (page - 32 * 1 <? 32)) eqn:E1;
  [|destruct ((- (32) <=? page - 32 * 1) && (page - 32 * 1 <? 0)) eqn:E2]; cbn [rbind];
  (destruct ((0 <=? offset) && (offset <? 256)) eqn:E3;
  [|destruct ((- (256) <=? offset) && (offset <? 0)) eqn:E4]); cbn [rbind]; auto; lia.
Qed.

Lemma base_addr_and_bound x y screen_page : visible_xy x y ->
  y_to_base_addr y screen_page + x = 8192 * (screen_page + 1) + hires_offset x y
  /\ 8192 * (screen_page + 1) <= y_to_base_addr y screen_page + x < 8192 * (screen_page + 1) + 8192.
Proof.
  intros H. rewrite base_addr_spec by apply H. pose proof (hires_offset_bound x y H). lia.
Qed.

Lemma flat_write_seen_paged f addr val m :
  to_memory_map f = Ok m ->
  8192 * fm_page f <= addr < 8192 * fm_page f + 8192 ->
  exists f' m', flat_write f addr val = Ok f' /\ to_memory_map f' = Ok m' /\
    forall p o, in_page p o ->
      mm_data m' p o = if 8192 * fm_page f + 256 * p + o =? addr then val else mm_data m p o.
Proof.
  intros Hm Ha.
  assert (Hp : fm_page f = 1 \/ fm_page f = 2).
  { unfold to_memory_map, memory_map_new in Hm.
    destruct ((fm_page f =? 1) || (fm_page f =? 2)) eqn:E; [lia|discriminate]. }
  destruct (flat_write_ok f addr val Hp Ha) as (f' & W & P & D).
  exists f'. eexists. split; [exact W|]. split.
  - unfold to_memory_map, memory_map_new. rewrite P.
    destruct ((fm_page f =? 1) || (fm_page f =? 2)) eqn:E; [reflexivity|lia].
  - intros p o _. cbn [mm_data]. unfold reshape_32_256. rewrite D.
    rewrite (flat_view f m p o Hm).
    destruct (Z.eqb_spec (256 * p + o) (addr - 8192 * fm_page f));
    destruct (Z.eqb_spec (8192 * fm_page f + 256 * p + o) addr); auto; lia.
Qed.

Lemma constructors_validate page shape (d : flat) (m : mem) :
  ((exists r, flat_memory_new page (Some (shape, d)) = Ok r) <->
     ((page = 1 \/ page = 2) /\ shape = [8192])) /\
  ((exists r, memory_map_new page (Some (shape, m)) = Ok r) <->
     ((page = 1 \/ page = 2) /\ shape = [32; 256])) /\
  ((exists r, flat_memory_new page None = Ok r) <-> (page = 1 \/ page = 2)) /\
  ((exists r, memory_map_new page None = Ok r) <-> (page = 1 \/ page = 2)).
Proof.
  unfold flat_memory_new, memory_map_new.
  destruct ((page =? 1) || (page =? 2)) eqn:E.
  2:{ assert (~ (page = 1 \/ page = 2)) by lia.
      repeat match goal with |- _ /\ _ => split | |- _ <-> _ => split end;
      try (intros (r & Hr); discriminate); try (intros [? ?]; contradiction); intros; contradiction. }
  assert (page = 1 \/ page = 2) by lia.
  split; [|split; [|split; split; eauto]].
  - split.
    + intros (r & Hr). split; auto.
      destruct shape as [|a [|b s]]; try discriminate;
      repeat (match type of Hr with context [match ?x with _ => _ end] => destruct x end; try discriminate); reflexivity.
    + intros (_ & ->); eauto.
  - split.
    + intros (r & Hr). split; auto.
      destruct shape as [|a [|b [|c s]]]; try discriminate;
      repeat (match type of Hr with context [match ?x with _ => _ end] => destruct x end; try discriminate); reflexivity.
    + intros (_ & ->); eauto.
Qed.

Lemma mm_write_ok m page offset val :
  mm_page m = 1 -> 0 <= page < 64 -> -256 <= offset < 256 ->
  exists m', mm_write m page offset val = Ok m' /\ mm_page m' = 1 /\
    forall p o, in_page p o ->
      mm_data m' p o = if (p =? page mod 32) && (o =? offset mod 256) then val
                       else mm_data m p o.
Proof.
  intros H1 Hp Ho. eexists. split.
  - apply mm_write_spec; auto. repeat split; auto; lia.
  - split; auto.
Qed.

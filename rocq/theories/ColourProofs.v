From Verif Require Import Base BaseFacts BitFacts ColourModel DisplaySpec BitmapModel BitmapProofs BitmapApply BitmapState.

Lemma iter_S n f x : iter (S n) f x = f (iter n f x).
Proof. revert x; induction n as [|n IH]; intros x; [reflexivity|]. cbn [iter] in *. rewrite IH. reflexivity. Qed.

Lemma iter_add n m f x : iter (n + m) f x = iter n f (iter m f x).
Proof. revert x; induction m as [|m IH]; intros x; [rewrite Nat.add_0_r; reflexivity|].
  rewrite Nat.add_succ_r. cbn [iter]. rewrite IH. reflexivity. Qed.

Definition nib (x : Z) : Prop := 0 <= x < 16.

Lemma rol1_all x : nib x -> (nib (rol1 x) /\ ror1 (rol1 x) = x /\ rol1 (ror1 x) = x /\ nib (ror1 x)
   /\ rol1 (rol1 (rol1 (rol1 x))) = x /\ ror1 (ror1 (ror1 (ror1 x))) = x).
Proof.
  intros H.
  assert (C : forallb (fun x => (0 <=? rol1 x) && (rol1 x <? 16) && (ror1 (rol1 x) =? x) && (rol1 (ror1 x) =? x)
     && (0 <=? ror1 x) && (ror1 x <? 16) && (rol1 (rol1 (rol1 (rol1 x))) =? x) && (ror1 (ror1 (ror1 (ror1 x))) =? x)) (zrange 16) = true)
    by (vm_compute; reflexivity).
  pose proof (forall_range _ _ C x H) as B. unfold nib. lia.
Qed.

Lemma iter_nib f n x : (forall y, nib y -> nib (f y)) -> nib x -> nib (iter n f x).
Proof. intros Hf; revert x; induction n; intros x Hx; cbn; auto. Qed.

Lemma rol_nib x n : nib x -> nib (rol x n).
Proof. intros; apply iter_nib; auto. intros y Hy; apply rol1_all; auto. Qed.
Lemma ror_nib x n : nib x -> nib (ror x n).
Proof. intros; apply iter_nib; auto. intros y Hy; apply rol1_all; auto. Qed.

Lemma iter_inverse f g n x : (forall y, nib y -> nib (f y)) -> (forall y, nib y -> g (f y) = y) -> nib x ->
  iter n g (iter n f x) = x.
Proof.
  intros Hf Hg. revert x; induction n as [|n IH]; intros x Hx; [reflexivity|].
  rewrite (iter_S n f). cbn [iter]. rewrite Hg by (apply iter_nib; auto). apply IH; auto.
Qed.

Lemma ror_rol x n : nib x -> ror (rol x n) n = x /\ rol (ror x n) n = x.
Proof.
  intros H. split; apply iter_inverse; auto; intros y Hy; apply rol1_all; auto.
Qed.

Lemma rol_period x n : nib x -> 0 <= n -> rol x (n + 4) = rol x n /\ ror x (n + 4) = ror x n.
Proof.
  intros H Hn. unfold rol, ror. rewrite Z2Nat.inj_add by lia. rewrite !iter_add.
  change (Z.to_nat 4) with 4%nat. cbn [iter]. pose proof (rol1_all x H) as R.
  split; f_equal; apply R.
Qed.

Lemma rol_inj x y n : nib x -> nib y -> rol x n = rol y n -> x = y.
Proof.
  intros Hx Hy E. rewrite <- (proj1 (ror_rol x n Hx)), <- (proj1 (ror_rol y n Hy)), E. reflexivity.
Qed.

(** bits of rotations *)
Lemma rol1_bit x j : nib x -> 0 <= j < 4 -> Z.testbit (rol1 x) j = Z.testbit x ((j - 1) mod 4).
Proof.
  intros Hx Hj.
  assert (C : forallb (fun x => forallb (fun j => Bool.eqb (Z.testbit (rol1 x) j) (Z.testbit x ((j - 1) mod 4))) (zrange 4)) (zrange 16) = true)
    by (vm_compute; reflexivity).
  pose proof (forall_range _ _ C x Hx) as B. cbv beta in B.
  pose proof (forall_range _ _ B j Hj) as B2. cbv beta in B2. apply eqb_prop; auto.
Qed.

Lemma rol_bit x n j : nib x -> 0 <= n -> 0 <= j < 4 -> Z.testbit (rol x n) j = Z.testbit x ((j - n) mod 4).
Proof.
  intros Hx Hn Hj. unfold rol. rewrite <- (Z2Nat.id n) at 2 by lia.
  generalize (Z.to_nat n) as m; clear Hn n. intros m. revert j Hj; induction m as [|m IH]; intros j Hj.
  - cbn [iter]. f_equal. cbn [Z.of_nat]. rewrite Z.sub_0_r. symmetry; apply Z.mod_small; lia.
  - rewrite iter_S. rewrite rol1_bit by (auto; apply iter_nib; auto; intros; apply rol1_all; auto).
    rewrite IH by (apply Z.mod_pos_bound; lia). f_equal.
    rewrite Zminus_mod_idemp_l. f_equal. lia.
Qed.

Lemma nib_of_bits (b0 b1 b2 b3 : bool) v :
  nib v -> Z.testbit v 0 = b0 -> Z.testbit v 1 = b1 -> Z.testbit v 2 = b2 -> Z.testbit v 3 = b3 ->
  v = b2z b0 + 2 * b2z b1 + 4 * b2z b2 + 8 * b2z b3.
Proof.
  intros Hv <- <- <- <-.
  assert (C : forallb (fun v => v =? b2z (Z.testbit v 0) + 2 * b2z (Z.testbit v 1) + 4 * b2z (Z.testbit v 2) + 8 * b2z (Z.testbit v 3)) (zrange 16) = true)
    by (vm_compute; reflexivity).
  pose proof (forall_range _ _ C v Hv). cbv beta in *. lia.
Qed.

Lemma land15_nib x : nib (Z.land x 15).
Proof. unfold nib. change 16 with (2 ^ 4). apply land_bound_r; lia. Qed.

(** one window *)
Lemma window_colour dots i phase dot d :
  0 <= i -> 0 <= phase ->
  (forall t, 0 <= t < 4 -> Z.testbit dots (i + t) = dot (d + t)) ->
  phase mod 4 = d mod 4 ->
  rol (Z.land (Z.shiftr dots i) 15) phase = pixel_colour dot d.
Proof.
  intros Hi Hph Hd Hm. unfold pixel_colour.
  assert (B : forall j, 0 <= j < 4 ->
    Z.testbit (rol (Z.land (Z.shiftr dots i) 15) phase) j = dot (d + (j - d) mod 4)).
  { intros j Hj. rewrite rol_bit by (auto using land15_nib).
    assert (Em : (j - phase) mod 4 = (j - d) mod 4).
    { rewrite <- (Zminus_mod_idemp_r j phase), <- (Zminus_mod_idemp_r j d), Hm. reflexivity. }
    rewrite Em. pose proof (Z.mod_pos_bound (j - d) 4 ltac:(lia)) as Bm.
    change 15 with (2 ^ 4 - 1). rewrite testbit_land_ones, Z.shiftr_spec by lia.
    rewrite Z.add_comm, Hd by lia. destruct (Z.ltb_spec ((j - d) mod 4) 4); [reflexivity|lia]. }
  apply nib_of_bits; [apply rol_nib, land15_nib| apply B; lia ..].
Qed.

(** enum lookups *)
Definition good_enum (value : colour_name -> Z) : Prop :=
  forall v, nib v -> exists c, enum_lookup value v = Ok c /\ value c = v.

Lemma hgr_enum : good_enum hgr_value.
Proof.
  intros v Hv. unfold nib in Hv.
  assert (C : forallb (fun v => match enum_lookup hgr_value v with Ok c => hgr_value c =? v | _ => false end) (zrange 16) = true)
    by (vm_compute; reflexivity).
  pose proof (forall_range _ _ C v Hv) as B. cbv beta in B.
  destruct (enum_lookup hgr_value v) as [c|]; [|discriminate]. exists c. split; auto. lia.
Qed.

Lemma dhgr_enum : good_enum dhgr_value.
Proof.
  intros v Hv. unfold nib in Hv.
  assert (C : forallb (fun v => match enum_lookup dhgr_value v with Ok c => dhgr_value c =? v | _ => false end) (zrange 16) = true)
    by (vm_compute; reflexivity).
  pose proof (forall_range _ _ C v Hv) as B. cbv beta in B.
  destruct (enum_lookup dhgr_value v) as [c|]; [|discriminate]. exists c. split; auto. lia.
Qed.

(** the whole loop *)
Lemma colour_loop_spec value n : forall dots phase dot d,
  good_enum value -> 0 <= phase < 4 -> phase = d mod 4 ->
  (forall t, 0 <= t < Z.of_nat n + 3 -> Z.testbit dots t = dot (d + t)) ->
  exists l, colour_loop value n dots phase = Ok l /\
    map value l = map (fun i => pixel_colour dot (d + i)) (zrange_from 0 n).
Proof.
  induction n as [|n IH]; intros dots phase dot d G Hp Hm Hd; cbn [colour_loop].
  - exists []. split; reflexivity.
  - assert (W : rol (Z.land dots 15) phase = pixel_colour dot d).
    { rewrite <- (Z.shiftr_0_r dots) at 1. apply window_colour; [lia|lia| |].
      - intros t Ht. rewrite Z.add_0_l. apply Hd. lia.
      - rewrite Hm. rewrite Z.mod_mod by lia. reflexivity. }
    rewrite W. destruct (G (pixel_colour dot d)) as (c & Ec & Vc).
    { rewrite <- W. apply rol_nib, land15_nib. }
    rewrite Ec. cbn [rbind].
    destruct (IH (Z.shiftr dots 1) (if phase + 1 =? 4 then 0 else phase + 1) dot (d + 1) G) as (l & El & Ml).
    + bcase.
    + clear - Hp Hm. subst phase. bcase; dlia.
    + intros t Ht. rewrite Z.shiftr_spec by lia. rewrite Hd by lia. f_equal. lia.
    + rewrite El. cbn [rbind]. eexists. split; [reflexivity|].
      cbn [map zrange_from]. rewrite Vc, Ml. f_equal; [f_equal; lia|].
      change (0 + 1) with 1. clear. revert d.
      assert (S : forall m a d, map (fun i => pixel_colour dot (d + 1 + i)) (zrange_from a m)
         = map (fun i => pixel_colour dot (d + i)) (zrange_from (a + 1) m)).
      { induction m as [|m IHm]; intros a d; cbn [zrange_from map]; [reflexivity|].
        rewrite IHm. f_equal. f_equal. lia. }
      intros d. apply (S n 0).
Qed.

Lemma colours_spec value num dots phase dot d :
  good_enum value -> 0 <= num -> 0 <= phase < 4 -> phase = d mod 4 ->
  (forall t, 0 <= t < num + 3 -> Z.testbit dots t = dot (d + t)) ->
  exists l, dots_to_nominal_colour_pixels num dots value phase = Ok l /\
    map value l = map (fun i => pixel_colour dot (d + i)) (zrange num).
Proof.
  intros. unfold dots_to_nominal_colour_pixels, zrange. apply colour_loop_spec; auto.
  rewrite Z2Nat.id; auto.
Qed.

(** pixel colour depends only on four dots *)
Lemma pixel_colour_local dot dot' d :
  (forall t, 0 <= t < 4 -> dot (d + t) = dot' (d + t)) -> pixel_colour dot d = pixel_colour dot' d.
Proof.
  intros H. unfold pixel_colour.
  rewrite !H by (apply Z.mod_pos_bound; lia). reflexivity.
Qed.

(** periodic dots give a constant colour *)
Lemma pixel_colour_periodic dot d d' :
  (forall n, dot (n + 4) = dot n) -> pixel_colour dot d = pixel_colour dot d'.
Proof.
  intros P.
  assert (Pm : forall m n, dot (n + 4 * m) = dot n).
  { assert (Pn : forall (m : nat) n, dot (n + 4 * Z.of_nat m) = dot n).
    { induction m as [|m IH]; intros n; [f_equal; lia|].
      replace (n + 4 * Z.of_nat (S m)) with ((n + 4 * Z.of_nat m) + 4) by lia. rewrite P. apply IH. }
    intros m n. destruct (Z_le_gt_dec 0 m).
    - rewrite <- (Z2Nat.id m) by lia. apply Pn.
    - rewrite <- (Pn (Z.to_nat (- m)) (n + 4 * m)). f_equal. lia. }
  unfold pixel_colour.
  assert (E : forall j, dot (d + (j - d) mod 4) = dot (d' + (j - d') mod 4)).
  { intros j. rewrite <- (Pm (- ((j - d) / 4)) (d + (j - d) mod 4)) at 1.
    pose proof (Pm ((j - d) / 4) (d + (j - d) mod 4)) as A1.
    pose proof (Pm ((j - d') / 4) (d' + (j - d') mod 4)) as A2.
    replace (d + (j - d) mod 4 + 4 * ((j - d) / 4)) with j in A1 by dlia.
    replace (d' + (j - d') mod 4 + 4 * ((j - d') / 4)) with j in A2 by dlia.
    rewrite Pm. congruence. }
  rewrite !E. reflexivity.
Qed.

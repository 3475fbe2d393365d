(** From colour differences to tables. *)
From Coq Require Import Reals Lra.
From Verif Require Import Base BaseFacts ScreenModel ScreenSpec BitmapModel ColourModel ColourProofs TableModel TableSpec TableProofs TableFacts OpcodeModel MovieModel MovieSpec SymbolModel SymbolSpec SymData
  GrabberModel MainModel MainSpec MainProofs PaletteFacts CieModel CieProofs CieCert.
Opaque TABLES all_pairs palette_ok.

Lemma differences : forall pal, pal = ntsc_rgb \/ pal = iigs_rgb -> forall c1 c2,
  (pal c1 = pal c2 -> cie2000 (lab_of (pal c1)) (lab_of (pal c2)) = 0)%R /\
  (pal c1 <> pal c2 -> 2 <= cie2000 (lab_of (pal c1)) (lab_of (pal c2)) <= 800)%R.
Proof.
  intros pal HP c1 c2. destruct palettes_ok as [OKN OKI]. assert (OK : palette_ok pal = true) by (destruct HP as [-> | ->]; assumption). clear OKN OKI.
  split; [intros ->; apply cie_same|]. intros N. destruct (palette_sound pal OK c1 c2) as [A B]. split; [exact (B N)|exact A].
Qed.

Lemma delta_range delta pal : pal = ntsc_rgb \/ pal = iigs_rgb -> accurate delta pal -> forall c1 c2,
  0 <= delta (pal c1) (pal c2) <= 801 /\ (pal c1 = pal c2 <-> delta (pal c1) (pal c2) = 0).
Proof.
  intros HP HA c1 c2. destruct (differences pal HP c1 c2) as [E N]. destruct (HA c1 c2) as (d & D0 & D1 & D2 & D3).
  set (k := delta (pal c1) (pal c2)) in *. set (x := cie2000 _ _) in *. clearbody k x.
  assert (D4 : (x - 1 < d < x + 1)%R) by (unfold Rabs in D1; destruct (Rcase_abs _); lra).
  assert (K0 : -1 < k) by (apply lt_IZR; lra).
  assert (Q : {pal c1 = pal c2} + {pal c1 <> pal c2}) by (repeat decide equality). destruct Q as [Q|Q].
  - specialize (E Q). assert (k < 1) by (apply lt_IZR; lra). split; [lia|]. split; [lia|auto].
  - specialize (N Q). assert (k < 802) by (apply lt_IZR; lra). assert (0 < k) by (apply lt_IZR; lra). split; [lia|]. split; [contradiction|lia].
Qed.
(** [delta], outside of the palettes replaced by something harmless *)
Definition of_palette (pal : colour_name -> rgb) (x : rgb) : bool := existsb (fun c => rgb_eqb (pal c) x) all_colours.
Definition tame (delta : rgb -> rgb -> Z) (x y : rgb) : Z :=
  if (of_palette ntsc_rgb x && of_palette ntsc_rgb y) || (of_palette iigs_rgb x && of_palette iigs_rgb y) then delta x y
  else if rgb_eqb x y then 0 else 1.
Lemma rgb_eqb_refl x : rgb_eqb x x = true.
Proof. destruct x as [[a b] c]. unfold rgb_eqb. rewrite !Z.eqb_refl. reflexivity. Qed.
Lemma of_palette_in pal c : of_palette pal (pal c) = true.
Proof. apply existsb_exists. exists c. split; [apply every_colour|apply rgb_eqb_refl]. Qed.
Lemma of_palette_out pal x : of_palette pal x = true -> exists c, x = pal c.
Proof. intros H. apply existsb_exists in H. destruct H as (c & _ & E). exists c. symmetry. apply rgb_eqb_ok, E. Qed.
Lemma tame_same delta pal c1 c2 : pal = ntsc_rgb \/ pal = iigs_rgb -> tame delta (pal c1) (pal c2) = delta (pal c1) (pal c2).
Proof. unfold tame. intros [-> | ->]; rewrite !of_palette_in; rewrite ?orb_true_r; reflexivity. Qed.
Lemma tame_good delta : accurate delta ntsc_rgb -> accurate delta iigs_rgb -> good_delta (tame delta).
Proof.
  intros HN HI. assert (A : forall x y, 0 <= tame delta x y <= 801 /\ (x <> y -> 0 < tame delta x y)).
  { intros x y. unfold tame. destruct ((_ && _) || _) eqn:E.
    - apply orb_true_iff in E. destruct E as [E|E]; apply andb_true_iff in E; destruct E as [E1 E2]; apply of_palette_out in E1, E2; destruct E1 as (c1 & ->), E2 as (c2 & ->).
      + destruct (delta_range delta ntsc_rgb (or_introl eq_refl) HN c1 c2) as [B C]. split; [exact B|]. intros N. assert (delta (ntsc_rgb c1) (ntsc_rgb c2) <> 0) by (intros X; apply N, C, X). lia.
      + destruct (delta_range delta iigs_rgb (or_intror eq_refl) HI c1 c2) as [B C]. split; [exact B|]. intros N. assert (delta (iigs_rgb c1) (iigs_rgb c2) <> 0) by (intros X; apply N, C, X). lia.
    - destruct (rgb_eqb x y) eqn:Q; [apply rgb_eqb_ok in Q; split; [lia|contradiction]|split; [lia|reflexivity]]. }
  split; intros x y; destruct (A x y) as [B C]; [lia|exact C].
Qed.
Lemma fold_ext {A B} (f g : A -> B -> A) l : (forall a b, f a b = g a b) -> forall a, fold_left f l a = fold_left g l a.
Proof. intros E. induction l as [|x l IH]; intros a; [reflexivity|]. cbn [fold_left]. rewrite E. apply IH. Qed.
Lemma tame_matrix delta pal : pal = ntsc_rgb \/ pal = iigs_rgb -> compute_diff_matrix (tame delta) pal = compute_diff_matrix delta pal.
Proof.
  intros HP. unfold compute_diff_matrix. apply fold_ext. intros dm c1. apply fold_ext. intros dm' c2. rewrite (tame_same delta pal c1 c2 HP). reflexivity.
Qed.
Lemma tame_tables delta fs : make_tables (tame delta) fs = make_tables delta fs.
Proof.
  assert (E : jobs (tame delta) = jobs delta).
  { unfold jobs, PALETTES. cbn [flat_map fst snd app]. rewrite (tame_matrix delta iigs_rgb (or_intror eq_refl)), (tame_matrix delta ntsc_rgb (or_introl eq_refl)). exact eq_refl. }
  unfold make_tables, table_ops. rewrite E. exact eq_refl.
Qed.
Lemma accurate_exists : forall pal, exists delta, accurate delta pal.
Proof.
  intros pal. exists (fun x y => Int_part (cie2000 (lab_of x) (lab_of y))). intros c1 c2.
  exists (cie2000 (lab_of (pal c1)) (lab_of (pal c2))). split; [unfold cie2000; apply sqrt_pos|].
  split; [rewrite Rminus_eq_0, Rabs_R0; lra|]. destruct (base_Int_part (cie2000 (lab_of (pal c1)) (lab_of (pal c2)))) as [A B]. lra.
Qed.

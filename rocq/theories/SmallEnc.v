(** Small changes: how many bytes one visit of a bank has to deal with, and what
    it leaves. *)
From Verif Require Import Base BaseFacts BitFacts ScreenModel ScreenSpec ScreenProofs BitmapModel ColourModel DisplaySpec
  BitmapSpec BitmapProofs BitmapApply BitmapState BitmapFacts DotsProofs TableModel TableSpec TableFacts
  VideoModel VideoSpec HeapFacts VideoProofs VideoStep VideoFacts VideoThms VideoDisplay PaletteFacts PriorityProofs.
Opaque TABLES all_pairs next.

(** ** Counting *)
Lemma count_or {A} (f g h : A -> bool) l : (forall x, In x l -> f x = true -> g x = true \/ h x = true) -> count f l <= count g l + count h l.
Proof.
  unfold count. induction l as [|x l IH]; intros H; [reflexivity|].
  assert (H' : forall y, In y l -> f y = true -> g y = true \/ h y = true) by (intros y Y; apply H; right; exact Y). specialize (IH H').
  specialize (H x (or_introl eq_refl)). cbn [filter]. destruct (f x), (g x), (h x); cbn [length]; lia.
Qed.
Lemma count_le {A} (f g : A -> bool) l : (forall x, In x l -> f x = true -> g x = true) -> count f l <= count g l.
Proof.
  intros H. pose proof (count_or f g (fun _ => false) l (fun x X F => or_introl (H x X F))) as C.
  assert (Z0 : count (fun _ : A => false) l = 0) by (unfold count; clear; induction l as [|x l IH]; [reflexivity|exact IH]). lia.
Qed.
Lemma count_none {A} (f : A -> bool) l : (forall x, In x l -> f x = false) -> count f l = 0.
Proof. unfold count. induction l as [|x l IH]; intros H; [reflexivity|]. cbn [filter]. rewrite (H x (or_introl eq_refl)). apply IH. intros y Y. apply H. right. exact Y. Qed.

(** a test on pages and offsets, moved along the page; offsets outside count as
    not satisfying it *)
Definition moved (W : Z -> Z -> bool) (k : Z) (p o : Z) : bool := (0 <=? o + k) && (o + k <? 256) && W p (o + k).
Lemma in_pairs p o : In (p, o) all_pairs <-> in_page p o.
Proof. apply in_all_pairs. Qed.
Lemma count_moved W k : count_bytes (moved W k) <= count_bytes W.
Proof.
  unfold count_bytes, count. apply inj_le.
  set (f := fun po : Z * Z => moved W k (fst po) (snd po)). set (sh := fun po : Z * Z => (fst po, snd po + k)).
  rewrite <- (map_length sh (filter f all_pairs)). apply NoDup_incl_length.
  - apply FinFun.Injective_map_NoDup; [|apply NoDup_filter, all_pairs_NoDup]. intros [p o] [p' o'] E. unfold sh in E. cbn [fst snd] in E. injection E as -> E. f_equal. lia.
  - intros [p o] H. apply in_map_iff in H. destruct H as ([p' o'] & E & H). unfold sh in E. cbn [fst snd] in E. injection E as <- <-.
    apply filter_In in H. destruct H as [H1 H2]. unfold f, moved in H2. cbn [fst snd] in H2.
    apply andb_true_iff in H2. destruct H2 as [H2 H3]. apply andb_true_iff in H2. destruct H2 as [H2 H4]. apply Z.leb_le in H2. apply Z.ltb_lt in H4.
    apply in_pairs in H1. apply filter_In. split; [|exact H3]. apply in_pairs. split; [apply H1|]. split; assumption.
Qed.

(** ** Where distances can be nonzero *)
(** a table of the shape make_data_tables.py builds *)
Definition built (k : kind) (ed : table) : Prop := exists dm value t,
  (value = hgr_value \/ value = dhgr_value) /\ small_matrix dm /\
  compute_edit_distance (compute_substitute_costs dm) k value = Ok t /\ ed = edit_distances k t.
Lemma real_built k ed : real_table k ed -> built k ed.
Proof. intros (dm & value & t & V & HD & _ & HT & E). exists dm, value, t. auto. Qed.
Lemma grey_built ed : grey_table ed -> built DHGR ed.
Proof. intros (dm & value & t & V & HD & _ & HT & E). exists dm, value, t. auto. Qed.
Lemma built_u16 k ed : built k ed -> u16_table k ed.
Proof.
  intros (dm & value & t & V & HD & HT & ->) o x y Ho Hx Hy.
  pose proof (table_symmetric dm k value t V HD HT o x y Ho Hx Hy) as (_ & _ & B & _). exact B.
Qed.

Lemma clip_eq (r r' : row) i : (0 <= i < 256 -> r i = r' i) -> clip_row r i = clip_row r' i.
Proof. intros H. unfold clip_row. destruct ((0 <=? i) && (i <? 256)) eqn:B; [|reflexivity]. apply andb_true_iff in B. rewrite Z.leb_le, Z.ltb_lt in B. auto. Qed.
Lemma pixel_colour_eq (f g : Z -> bool) d : (forall i, d <= i < d + 4 -> f i = g i) -> pixel_colour f d = pixel_colour g d.
Proof. intros H. unfold pixel_colour. rewrite !H by (pose proof (Z.mod_pos_bound (0 - d) 4 eq_refl); pose proof (Z.mod_pos_bound (1 - d) 4 eq_refl); pose proof (Z.mod_pos_bound (2 - d) 4 eq_refl); pose proof (Z.mod_pos_bound (3 - d) 4 eq_refl); lia). reflexivity. Qed.

(** offsets of the bytes of the other bank next to a byte, on the left and on the
    right (the bytes of one line alternate aux, main, aux, main ...) *)
Definition lo (a : bool) : Z := if a then -1 else 0.
Definition hi (a : bool) : Z := if a then 0 else 1.

Lemma zero_dhgr ed b b' a p o : built DHGR ed -> reachable b -> reachable b' -> bm_kind b = DHGR -> bm_kind b' = DHGR -> in_page p o ->
  bank_data b a p o = bank_data b' a p o ->
  (0 <= o + lo a < 256 -> bank_data b (negb a) p (o + lo a) = bank_data b' (negb a) p (o + lo a)) ->
  (0 <= o + hi a < 256 -> bank_data b (negb a) p (o + hi a) = bank_data b' (negb a) p (o + hi a)) ->
  start_distance ed b b' a p o = 0.
Proof.
  intros (dm & value & t & V & HD & HT & ->) R R' K K' Hin E0 E1 E2.
  unfold start_distance. destruct (hole p o); [reflexivity|].
  destruct (diff_weights (edit_distances DHGR t) b b' a) as [f|] eqn:W; [|reflexivity].
  pose proof (screen_zero_gen dm value t b b' p o a f V HD) as S. rewrite K in S.
  apply (S HT R R' K' (proj1 Hin) (proj2 Hin) (or_introl eq_refl) W). clear S. intros d Hd x y. left. subst x y. cbn [window_start] in Hd. change (MASKED_DOTS DHGR) with 10 in Hd.
  apply pixel_colour_eq. intros i Hi. cbn [row_dot]. unfold dhgr_dot. cbv zeta. f_equal.
  assert (Q : i / 7 = 2 * o + (if a then 0 else 1) \/ i / 7 = 2 * (o + lo a) + (if a then 1 else 0) \/ i / 7 = 2 * (o + hi a) + (if a then 1 else 0)).
  { assert (X : 7 * (2 * o + (if a then 0 else 1)) - 3 <= i < 7 * (2 * o + (if a then 0 else 1)) + 10) by lia. clear - X. unfold lo, hi. destruct a; dlia. }
  assert (EV : forall z (c : bool), Z.even (2 * z + (if c then 1 else 0)) = negb c /\ (2 * z + (if c then 1 else 0)) / 2 = z).
  { clear. intros z c. split; [rewrite Z.even_add, Z.even_mul; destruct c; reflexivity|destruct c; dlia]. }
  assert (NC : (if a then 0 else 1) = (if negb a then 1 else 0)) by (destruct a; reflexivity). rewrite NC in Q.
  destruct Q as [Q|[Q|Q]]; rewrite Q, (proj1 (EV _ _)), (proj2 (EV _ _)); apply clip_eq; intros C.
  - unfold bank_data in E0. destruct a; exact E0.
  - specialize (E1 C). unfold bank_data in E1. destruct a; exact E1.
  - specialize (E2 C). unfold bank_data in E2. destruct a; exact E2.
Qed.

Lemma zero_hgr ed b b' p o : built HGR ed -> reachable b -> reachable b' -> bm_kind b = HGR -> bm_kind b' = HGR -> in_page p o ->
  bank_data b false p o = bank_data b' false p o ->
  (0 <= o - 1 < 256 -> bank_data b false p (o - 1) = bank_data b' false p (o - 1)) ->
  (0 <= o + 1 < 256 -> bank_data b false p (o + 1) = bank_data b' false p (o + 1)) ->
  start_distance ed b b' false p o = 0.
Proof.
  intros (dm & value & t & V & HD & HT & ->) R R' K K' Hin E0 E1 E2.
  unfold start_distance. destruct (hole p o); [reflexivity|].
  destruct (diff_weights (edit_distances HGR t) b b' false) as [f|] eqn:W; [|reflexivity].
  pose proof (screen_zero_gen dm value t b b' p o false f V HD) as S. rewrite K in S.
  apply (S HT R R' K' (proj1 Hin) (proj2 Hin) (or_intror eq_refl) W). clear S. intros d Hd x y. left. subst x y. cbn [window_start] in Hd. change (MASKED_DOTS HGR) with 18 in Hd.
  apply pixel_colour_eq. intros i Hi. cbn [row_dot]. unfold hgr_dot. cbv zeta. unfold bank_data in E0, E1, E2.
  assert (X : 14 * o - 3 <= i < 14 * o + 18) by (clear - Hd Hi; lia). clear Hd Hi d.
  assert (EQ : forall z, o - 1 <= z <= o + 1 -> clip_row (mm_data (bm_main b) p) z = clip_row (mm_data (bm_main b') p) z).
  { intros z Hz. apply clip_eq. intros C. assert (z = o - 1 \/ z = o \/ z = o + 1) as [->|[->| ->]] by (clear - Hz; lia); auto. }
  rewrite (EQ (i / 14)) by (clear - X; dlia).
  destruct (_ <? _) eqn:L; [|reflexivity]. rewrite (EQ (i / 14 - 1)); [reflexivity|].
  apply Z.ltb_lt in L. pose proof (b2z_bound (Z.testbit (clip_row (mm_data (bm_main b') p) (i / 14)) 7)) as B.
  set (z := b2z _) in *. clearbody z. clear - X L B. dlia.
Qed.

(** ** One visit *)
(** bytes of the encoder's map that are not the target's *)
Definition wrong (v : video) (t : bitmap) (a : bool) (p o : Z) : bool := negb (bank_data (v_pix v) a p o =? bank_data t a p o).
(** next to a byte of the other bank satisfying [W] *)
Definition near (a : bool) (W : Z -> Z -> bool) (p o : Z) : bool := moved W (lo a) p o || moved W (hi a) p o.
Definition near3 (W : Z -> Z -> bool) (p o : Z) : bool := moved W (-1) p o || moved W 1 p o.

(** the target's screen holes are empty *)
Definition clean (k : kind) (t : bitmap) : Prop := forall a p o, good_bank k a -> in_page p o -> hole p o = true -> bank_data t a p o = 0.
(** no other byte shows the target's colours *)
Definition tells (ed : table) (t : bitmap) : Prop := forall a p o b', in_page p o -> displayed p o ->
  reachable b' -> bm_kind b' = DHGR -> bank_data b' a p o < 128 ->
  (forall f, diff_weights ed t b' a = Ok f -> f p o = 0 -> bank_data b' a p o = bank_data t a p o) /\
  (forall f, diff_weights ed b' t a = Ok f -> f p o = 0 -> bank_data b' a p o = bank_data t a p o).

Lemma real_tells ed t : real_table DHGR ed -> good_target DHGR t -> tells ed t.
Proof.
  intros HR (RT & KT & TT) a p o b' Hin Hd R' K' B'. pose proof (real_discriminating ed HR) as HD.
  assert (G : good_bank DHGR a) by (left; reflexivity). pose proof (valid_bo DHGR o a G) as V.
  split; intros f W Z0.
  - destruct (diff_weights_ok ed t b' a ltac:(rewrite KT; exact G)) as (f' & W' & F). rewrite W in W'. injection W' as <-. rewrite F, KT in Z0.
    apply HD in Z0; auto using masked_bound. apply (masked_inj b' t p o a); auto; rewrite K'; auto.
  - destruct (diff_weights_ok ed b' t a ltac:(rewrite K'; exact G)) as (f' & W' & F). rewrite W in W'. injection W' as <-. rewrite F, K' in Z0.
    apply HD in Z0; auto using masked_bound. apply (masked_inj b' t p o a); auto; rewrite K'; auto.
Qed.
Lemma grey_tells ed t : grey_table ed -> good_target DHGR t -> (forall a p o, in_page p o -> displayed p o -> no_grey t a p o) -> tells ed t.
Proof.
  intros HR (RT & KT & TT) NG a p o b' Hin Hd R' K' B'. specialize (NG a p o Hin Hd). specialize (TT eq_refl a p o Hin Hd). split; intros f W Z0.
  - symmetry. exact (zero_no_grey ed t b' p o a f HR RT R' KT K' Hin W Z0 (or_introl NG) TT B').
  - exact (zero_no_grey ed b' t p o a f HR R' RT K' KT Hin W Z0 (or_intror NG) B' TT).
Qed.

Section Visit.
  Variables (ed : table) (k : kind) (n : Z) (v0 : video) (t : bitmap) (a : bool).
  Variables (l : list change) (v : video) (g : gen).
  Hypothesis HE : u16_table k ed.
  Hypothesis HV : encoder ed k n v0.
  Hypothesis HT : good_target k t.
  Hypothesis HG : good_bank k a.
  Hypothesis HF : frame_run ed v0 t a l v g.

  (** a cell that needed no work, or any cell when idle *)
  Lemma cell_settled p o : in_page p o -> displayed p o -> is_pad g \/ start_distance ed t (v_pix v0) a p o = 0 ->
    bank_data (v_pix v) a p o = bank_data t a p o \/
    (start_distance ed t (v_pix v0) a p o = 0 /\ bank_data (v_pix v) a p o = bank_data (v_pix v0) a p o) \/
    (exists t' dist, apply t p o a (bank_data (v_pix v) a p o) = Ok t' /\ diff_weights ed t' t a = Ok dist /\ dist p o = 0).
  Proof.
    intros Hin Hd [P|D0]; [exact (pad_settled ed k n v0 t a l v g HE HV HT HG HF P p o Hin Hd)|].
    assert (Hh : hole p o = false) by (apply hole_displayed; auto).
    pose proof (now_vinv ed k n v0 t a l v g HE HV HT HG HF) as VI.
    assert (C : bank_data (v_pix v) a p o = bank_data t a p o \/
      (start_distance ed t (v_pix v0) a p o = 0 /\ bank_data (v_pix v) a p o = bank_data (v_pix v0) a p o) \/
      what_if_distance ed t a p o (bank_data (v_pix v) a p o) = 0).
    { destruct (fst_ ed k n v0 t a l v g HE HV HT HG HF) as [_ -> |dw heap I _ _|work j _ _ _ _ _ _ _ _ S].
      - right. left. auto.
      - assert (U0 : get_up v a p o = 0).
        { destruct (Z.eq_dec (get_up v a p o) 0) as [E|E]; [exact E|]. pose proof (ri_U _ _ _ _ _ _ _ _ _ _ _ I p o Hin E) as B. rewrite D0 in B. lia. }
        exact (ri_settled _ _ _ _ _ _ _ _ _ _ _ I p o Hin Hh U0).
      - exact (S p o Hin Hh). }
    destruct C as [C|[C|C]]; auto. right. right. destruct HT as (RT & KT & _).
    assert (Hb : is_byte (bank_data (v_pix v) a p o)) by (apply bank_byte; auto; apply (vi_reach _ _ _ VI)).
    assert (G' : good_bank (bm_kind t) a) by (rewrite KT; exact HG).
    destruct (apply_bank t p o a _ RT Hin G' Hb) as (t' & E & _).
    destruct (byte_pair_difference_ok ed t a p o (bank_data (v_pix v) a p o) G') as (b & Eb & Ed).
    destruct (byte_pair_difference_is_distance ed t p _ a o t' b RT (proj1 Hin) (proj2 Hin) G' Hb E Eb) as (r & dist & E1 & E2 & E3).
    exists t', dist. split; [exact E|]. split; [exact E2|]. rewrite Ed in E1. injection E1 as <-. rewrite <- E3. exact C.
  Qed.

  Lemma cell_exact : k = DHGR -> tells ed t -> clean k t -> forall p o, in_page p o ->
    is_pad g \/ start_distance ed t (v_pix v0) a p o = 0 -> wrong v t a p o = false.
  Proof.
    intros K TL CL p o Hin H. unfold wrong. apply negb_false_iff, Z.eqb_eq.
    pose proof (now_vinv ed k n v0 t a l v g HE HV HT HG HF) as VI. pose proof (start_vinv ed k n v0 HE HV) as VI0.
    destruct (hole p o) eqn:Hh.
    { rewrite (vi_hole _ _ _ VI a p o Hin Hh), (CL a p o HG Hin Hh). reflexivity. }
    assert (Hd : displayed p o) by (apply hole_displayed; auto).
    pose proof HT as (RT & KT & TT).
    destruct (cell_settled p o Hin Hd H) as [C|[[C1 C2]|(t' & dist & A & W & Z0)]]; [exact C| |].
    - rewrite C2. unfold start_distance in C1. rewrite Hh in C1.
      destruct (diff_weights_ok ed t (v_pix v0) a ltac:(rewrite KT; exact HG)) as (f & W & _). rewrite W in C1.
      exact (proj1 (TL a p o (v_pix v0) Hin Hd (vi_reach _ _ _ VI0) (eq_trans (vi_kind _ _ _ VI0) K) (vi_top _ _ _ VI0 K a p o Hin)) f W C1).
    - assert (Hb : is_byte (bank_data (v_pix v) a p o)) by (apply bank_byte; auto; apply (vi_reach _ _ _ VI)).
      destruct (apply_bank t p o a _ RT Hin ltac:(rewrite KT; exact HG) Hb) as (t2 & A2 & R2 & K2 & B2 & _).
      rewrite A in A2. injection A2 as <-.
      assert (B3 : bank_data t' a p o = bank_data (v_pix v) a p o) by (rewrite B2; apply upd2_same).
      assert (T3 : bank_data t' a p o < 128) by (rewrite B3; exact (vi_top _ _ _ VI K a p o Hin)).
      rewrite <- B3. exact (proj2 (TL a p o t' Hin Hd R2 (eq_trans K2 (eq_trans KT K)) T3) dist W Z0).
  Qed.

  Lemma other_wrong p o : wrong v t (negb a) p o = wrong v0 t (negb a) p o.
  Proof.
    destruct (encoder_vinv ed k n v0 HE HV) as [VI HN].
    pose proof (run_fstate ed k n v0 t a HE HT HG VI HN l v g HF) as FS. apply fstate_other in FS. destruct FS as [E _]. unfold wrong. rewrite E. reflexivity.
  Qed.

  (** bytes that need work *)
  Lemma needs_dhgr : k = DHGR -> built k ed -> forall p o, in_page p o -> start_distance ed t (v_pix v0) a p o <> 0 ->
    wrong v0 t a p o || near a (wrong v0 t (negb a)) p o = true.
  Proof.
    intros K BT p o Hin ND. destruct (wrong v0 t a p o || near a (wrong v0 t (negb a)) p o) eqn:W; [reflexivity|]. exfalso. apply ND.
    pose proof (start_vinv ed k n v0 HE HV) as VI0. pose proof HT as (RT & KT & TT). apply orb_false_iff in W. destruct W as [W0 W]. apply orb_false_iff in W. destruct W as [W1 W2].
    assert (M : forall z, moved (wrong v0 t (negb a)) z p o = false -> 0 <= o + z < 256 -> bank_data t (negb a) p (o + z) = bank_data (v_pix v0) (negb a) p (o + z)).
    { intros z H Hz. unfold moved in H. rewrite (proj2 (Z.leb_le 0 (o + z)) (proj1 Hz)), (proj2 (Z.ltb_lt _ _) (proj2 Hz)) in H. cbn [andb] in H.
      unfold wrong in H. apply negb_false_iff, Z.eqb_eq in H. symmetry. exact H. }
    subst k. apply (zero_dhgr ed t (v_pix v0) a p o BT RT (vi_reach _ _ _ VI0) KT (vi_kind _ _ _ VI0) Hin); auto.
    unfold wrong in W0. apply negb_false_iff, Z.eqb_eq in W0. symmetry. exact W0.
  Qed.
  Lemma needs_hgr : k = HGR -> built k ed -> forall p o, in_page p o -> start_distance ed t (v_pix v0) a p o <> 0 ->
    wrong v0 t a p o || near3 (wrong v0 t a) p o = true.
  Proof.
    intros K BT p o Hin ND. destruct (wrong v0 t a p o || near3 (wrong v0 t a) p o) eqn:W; [reflexivity|]. exfalso. apply ND.
    pose proof (start_vinv ed k n v0 HE HV) as VI0. pose proof HT as (RT & KT & TT). apply orb_false_iff in W. destruct W as [W0 W]. apply orb_false_iff in W. destruct W as [W1 W2].
    assert (a = false) as -> by (destruct HG as [X|X]; [congruence|exact X]).
    assert (M : forall z, moved (wrong v0 t false) z p o = false -> 0 <= o + z < 256 -> bank_data t false p (o + z) = bank_data (v_pix v0) false p (o + z)).
    { intros z H Hz. unfold moved in H. rewrite (proj2 (Z.leb_le 0 (o + z)) (proj1 Hz)), (proj2 (Z.ltb_lt _ _) (proj2 Hz)) in H. cbn [andb] in H.
      unfold wrong in H. apply negb_false_iff, Z.eqb_eq in H. symmetry. exact H. }
    subst k. apply (zero_hgr ed t (v_pix v0) p o BT RT (vi_reach _ _ _ VI0) KT (vi_kind _ _ _ VI0) Hin); auto.
    - unfold wrong in W0. apply negb_false_iff, Z.eqb_eq in W0. symmetry. exact W0.
    - exact (M (-1) W1).
  Qed.

  (** enough changes *)
  Lemma idle_after (N : Z -> Z -> bool) : (forall p o, in_page p o -> start_distance ed t (v_pix v0) a p o <> 0 -> N p o = true) ->
    count_bytes N < Z.of_nat (length l) -> is_pad g.
  Proof.
    intros H L. destruct (replay_screen ed k n v0 t a l v g HE HV HT HG HF) as (w & j & E & J & _ & LW).
    apply J. intros ->. cbn [repeat] in E. rewrite app_nil_r in E. subst w. apply (Z.lt_irrefl (count_bytes N)).
    eapply Z.lt_le_trans; [exact L|]. eapply Z.le_trans; [exact LW|]. apply count_le. intros [p o] Hi S. cbn [fst snd] in *.
    apply in_pairs in Hi. apply H; [exact Hi|]. intros D0. unfold start_priority in S. rewrite D0 in S. discriminate.
  Qed.
End Visit.

Lemma count_near a W : count_bytes (near a W) <= 2 * count_bytes W.
Proof.
  pose proof (count_moved W (lo a)) as A. pose proof (count_moved W (hi a)) as B.
  pose proof (count_or (fun po => near a W (fst po) (snd po)) (fun po => moved W (lo a) (fst po) (snd po)) (fun po => moved W (hi a) (fst po) (snd po)) all_pairs) as C.
  unfold count_bytes in *. specialize (C (fun x _ H => proj1 (orb_true_iff _ _) H)). lia.
Qed.
Lemma count_near3 W : count_bytes (near3 W) <= 2 * count_bytes W.
Proof.
  pose proof (count_moved W (-1)) as A. pose proof (count_moved W 1) as B.
  pose proof (count_or (fun po => near3 W (fst po) (snd po)) (fun po => moved W (-1) (fst po) (snd po)) (fun po => moved W 1 (fst po) (snd po)) all_pairs) as C.
  unfold count_bytes in *. specialize (C (fun x _ H => proj1 (orb_true_iff _ _) H)). lia.
Qed.
Lemma count_either W W' : count_bytes (fun p o => W p o || W' p o) <= count_bytes W + count_bytes W'.
Proof. apply count_or. intros x _ H. apply orb_true_iff. exact H. Qed.
Lemma count_fewer (W W' : Z -> Z -> bool) : (forall p o, in_page p o -> W p o = true -> W' p o = true) -> count_bytes W <= count_bytes W'.
Proof. intros H. apply count_le. intros [p o] Hi. apply in_pairs in Hi. exact (H p o Hi). Qed.

(** ** Sets of bytes *)
Definition within (W W' : Z -> Z -> bool) : Prop := forall p o, in_page p o -> W p o = true -> W' p o = true.
Lemma moved_within W W' k p o : within W W' -> in_page p o -> moved W k p o = true -> moved W' k p o = true.
Proof.
  intros H [Hp _]. unfold moved. rewrite !andb_true_iff, Z.leb_le, Z.ltb_lt. intros [[H1 H2] H3]. split; [auto|]. apply H; auto. split; auto.
Qed.
Lemma near_within a W W' : within W W' -> within (near a W) (near a W').
Proof. intros H p o Hin. unfold near. rewrite !orb_true_iff. intros [X|X]; [left|right]; eapply moved_within; eauto. Qed.
Lemma within_or W1 W2 W1' W2' : within W1 W1' -> within W2 W2' -> within (fun p o => W1 p o || W2 p o) (fun p o => W1' p o || W2' p o).
Proof. intros H1 H2 p o Hin. rewrite !orb_true_iff. intros [X|X]; [left|right]; auto. Qed.
Lemma within_trans W1 W2 W3 : within W1 W2 -> within W2 W3 -> within W1 W3.
Proof. intros H1 H2 p o Hin X. auto. Qed.

(** next to a byte of the one bank that is next to a byte of the other *)
Lemma near_near a W : within (near (negb a) (near a W)) (fun p o => W p o || near3 W p o).
Proof.
  intros p o Hin. unfold near at 1. rewrite orb_true_iff. intros H.
  assert (M : exists k, (k = lo (negb a) \/ k = hi (negb a)) /\ near a W p (o + k) = true).
  { destruct H as [H|H]; unfold moved in H; rewrite !andb_true_iff in H; destruct H as [_ H]; eauto. }
  clear H. destruct M as (k & K & M). unfold near in M. rewrite orb_true_iff in M.
  assert (Q : exists j, (j = lo a \/ j = hi a) /\ 0 <= o + k + j < 256 /\ W p (o + k + j) = true).
  { destruct M as [M|M]; unfold moved in M; rewrite !andb_true_iff, Z.leb_le, Z.ltb_lt in M; destruct M as [M1 M2]; eauto. }
  destruct Q as (j & J & R & Q).
  assert (S : k + j = -1 \/ k + j = 0 \/ k + j = 1) by (unfold lo, hi in *; destruct a; cbn in *; lia).
  replace (o + k + j) with (o + (k + j)) in * by lia. unfold near3, moved. destruct S as [S|[S|S]]; rewrite S in *.
  - rewrite Q, (proj2 (Z.leb_le _ _) (proj1 R)), (proj2 (Z.ltb_lt _ _) (proj2 R)). cbn [andb orb]. apply orb_true_r.
  - rewrite Z.add_0_r in Q. rewrite Q. reflexivity.
  - rewrite Q, (proj2 (Z.leb_le _ _) (proj1 R)), (proj2 (Z.ltb_lt _ _) (proj2 R)). cbn [andb]. rewrite !orb_true_r. reflexivity.
Qed.

(** work of the second visit, of the third *)
Definition spread (W : bool -> Z -> Z -> bool) (a : bool) (p o : Z) : bool := W a p o || near a (W (negb a)) p o.
Lemma count_spread W a : count_bytes (spread W a) <= count_bytes (W a) + 2 * count_bytes (W (negb a)).
Proof. unfold spread. pose proof (count_either (W a) (near a (W (negb a)))). pose proof (count_near a (W (negb a))). lia. Qed.
Lemma count_second W a : count_bytes (fun p o => W (negb a) p o || near (negb a) (spread W a) p o) <= 3 * count_bytes (W (negb a)) + 2 * count_bytes (W a).
Proof.
  assert (S : within (fun p o => W (negb a) p o || near (negb a) (spread W a) p o)
    (fun p o => (W (negb a) p o || near3 (W (negb a)) p o) || near (negb a) (W a) p o)).
  { intros p o Hin H. rewrite orb_true_iff in H. destruct H as [H|H]; [rewrite H; reflexivity|].
    assert (X : near (negb a) (W a) p o = true \/ near (negb a) (near a (W (negb a))) p o = true).
    { unfold near at 1 in H. rewrite orb_true_iff in H. unfold moved, spread in H. unfold near at 1 2, moved.
      destruct H as [H|H]; apply andb_true_iff in H; destruct H as [H1 H2]; rewrite H1; apply orb_true_iff in H2; destruct H2 as [H2|H2]; rewrite H2; cbn [andb orb]; rewrite ?orb_true_r; auto. }
    destruct X as [X|X]; [rewrite X; apply orb_true_r|]. rewrite (near_near a (W (negb a)) p o Hin X). reflexivity. }
  apply count_fewer in S. pose proof (count_either (fun p o => W (negb a) p o || near3 (W (negb a)) p o) (near (negb a) (W a))).
  pose proof (count_either (W (negb a)) (near3 (W (negb a)))). pose proof (count_near3 (W (negb a))). pose proof (count_near (negb a) (W a)). cbv beta in *. lia.
Qed.

Definition none : Z -> Z -> bool := fun _ _ => false.
Section Visits.
  Variables (ed : table) (n : Z) (v0 : video) (t : bitmap) (a : bool).
  Variables (l : list change) (v : video) (g : gen).
  Hypothesis BT : built DHGR ed.
  Hypothesis HV : encoder ed DHGR n v0.
  Hypothesis HT : good_target DHGR t.
  Hypothesis HF : frame_run ed v0 t a l v g.
  Hypothesis TL : tells ed t.
  Hypothesis CL : clean DHGR t.
  Notation G := (or_introl eq_refl : good_bank DHGR a).
  Notation HE := (built_u16 _ _ BT).

  Lemma visit_wrong : within (wrong v t a) (spread (wrong v0 t) a).
  Proof.
    intros p o Hin W. unfold spread. destruct (Z.eq_dec (start_distance ed t (v_pix v0) a p o) 0) as [D0|D0].
    - rewrite (cell_exact ed DHGR n v0 t a l v g HE HV HT G HF eq_refl TL CL p o Hin (or_intror D0)) in W. discriminate.
    - exact (needs_dhgr ed DHGR n v0 t a HE HV HT G eq_refl BT p o Hin D0).
  Qed.
  Lemma visit_done : count_bytes (spread (wrong v0 t) a) < Z.of_nat (length l) -> within (wrong v t a) none.
  Proof.
    intros L p o Hin W.
    assert (P : is_pad g) by exact (idle_after ed DHGR n v0 t a l v g HE HV HT G HF (spread (wrong v0 t) a) (needs_dhgr ed DHGR n v0 t a HE HV HT G eq_refl BT) L).
    rewrite (cell_exact ed DHGR n v0 t a l v g HE HV HT G HF eq_refl TL CL p o Hin (or_introl P)) in W. discriminate.
  Qed.
  Lemma visit_other : within (wrong v t (negb a)) (wrong v0 t (negb a)).
  Proof. intros p o Hin W. rewrite (other_wrong ed DHGR n v0 t a l v g HE HV HT G HF p o) in W. exact W. Qed.
End Visits.
Lemma spread_within W W' a : within (W a) (W' a) -> within (W (negb a)) (W' (negb a)) -> within (spread W a) (spread W' a).
Proof. intros H1 H2. apply within_or; [exact H1|]. apply near_within, H2. Qed.
Lemma spread_none W a : within (W a) none -> within (W (negb a)) none -> within (spread W a) none.
Proof.
  intros H1 H2 p o Hin H. unfold spread in H. apply orb_true_iff in H. destruct H as [H|H]; [exact (H1 p o Hin H)|].
  apply (near_within a _ _ H2 p o Hin) in H. unfold near, moved, none in H. rewrite !andb_false_r in H. discriminate.
Qed.

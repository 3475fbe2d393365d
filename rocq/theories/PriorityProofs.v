(** The priorities over unbounded histories. *)
From Verif Require Import Base BaseFacts BitFacts ScreenModel ScreenSpec ScreenProofs BitmapModel DisplaySpec
  BitmapSpec BitmapProofs BitmapApply BitmapState BitmapFacts VideoModel VideoSpec HeapFacts VideoProofs VideoStep VideoFacts
  VideoThms PrioritySpec.
From Coq Require Import Permutation FinFun.
Opaque TABLES all_pairs.

(** counting *)
Lemma count_sub {A} (f f' : A -> bool) (ms : list A) : forall l,
  (forall y, In y l -> f' y = true -> f y = true) -> NoDup ms ->
  (forall m, In m ms -> In m l /\ f m = true /\ f' m = false) -> NoDup l ->
  count f' l + Z.of_nat (length ms) <= count f l.
Proof.
  intros l H ND HM NL. unfold count. rewrite <- Nat2Z.inj_add, <- app_length. apply inj_le.
  apply NoDup_incl_length.
  - clear - ND HM NL. induction ms as [|m ms IH].
    + rewrite app_nil_r. apply NoDup_filter. exact NL.
    + apply (NoDup_Add (a := m) (l := filter f' l ++ ms)); [apply Add_app|]. inversion ND; subst.
      split; [apply IH; auto; intros; apply HM; right; auto|].
      rewrite in_app_iff. intros [Q|Q]; [|auto]. apply filter_In in Q.
      destruct (HM m (or_introl eq_refl)) as (_ & _ & E). destruct Q. congruence.
  - intros x Hx. apply in_app_iff in Hx. apply filter_In. destruct Hx as [Hx|Hx].
    + apply filter_In in Hx. destruct Hx. auto.
    + destruct (HM x Hx) as (Q1 & Q2 & _). auto.
Qed.

Lemma NoDup_app_disj {A} (l l' : list A) : NoDup l -> NoDup l' -> (forall x, In x l -> ~ In x l') -> NoDup (l ++ l').
Proof.
  intros N N' D. induction N as [|x l Hx N IH]; [exact N'|]. cbn [app]. constructor.
  - rewrite in_app_iff. intros [Q|Q]; [auto|]. apply (D x); [left; reflexivity|exact Q].
  - apply IH. intros y Hy. apply D. right. exact Hy.
Qed.
Lemma grid_NoDup (ys : list Z) : NoDup ys -> forall xs : list Z, NoDup xs ->
  NoDup (flat_map (fun p => map (fun o => (p, o)) ys) xs).
Proof.
  intros NY. induction xs as [|x xs IH]; intros NX; [constructor|]. inversion NX as [|? ? NI NX']; subst.
  cbn [flat_map]. apply NoDup_app_disj; [|apply IH; exact NX'|].
  - apply FinFun.Injective_map_NoDup; [|exact NY]. intros u w E. injection E as E. exact E.
  - intros [p o] H1 H2. apply in_map_iff in H1. destruct H1 as (z & E & _). injection E as -> _.
    apply in_flat_map in H2. destruct H2 as (q & Hq & H). apply in_map_iff in H. destruct H as (z' & E & _). injection E as -> _. contradiction.
Qed.
Lemma all_pairs_NoDup : NoDup all_pairs.
Proof. apply (grid_NoDup (zrange 256) (zrange_from_NoDup 0 256) (zrange 32) (zrange_from_NoDup 0 32)). Qed.

Section Fill.
  Variables (ed : table) (t : bitmap) (a : bool) (h : Z).
  Hypothesis HB : forall p o c, 0 <= what_if_distance ed t a p o c <= h.
  Hypothesis HG : good_bank (bm_kind t) a.

  Lemma fill_up page offset content rnd : forall cands m v heap offs v' heap' offs',
    fill_slots ed t a page offset content rnd m cands v heap offs = Ok (v', heap', offs') ->
    (forall o, In o offs -> In o offs') /\
    forall p o, get_up v' a p o = get_up v a p o \/ (p = page /\ In o offs' /\ 0 <= get_up v' a p o <= h).
  Proof.
    induction cands as [|c cands IH]; intros m v heap offs v' heap' offs' E; cbn [fill_slots] in E.
    - injection E as <- <- <-. auto.
    - unfold assert_ in E. destruct (_ && _); [|discriminate]. destruct (negb (_ =? _)); [|discriminate].
      destruct (negb (hole _ _)); [|discriminate].
      destruct (get_up v a page (en_off c) =? 0); [apply (IH _ _ _ _ _ _ _ E)|].
      destruct (byte_pair_difference_ok ed t a page (en_off c) content HG) as (b & Eb & Ep).
      rewrite Eb in E. cbn [rbind] in E. rewrite Ep in E. cbn [rbind] in E.
      pose proof (HB page (en_off c) content) as Hq. set (q := what_if_distance _ _ _ _ _ _) in *.
      destruct (apply _ _ _ _ _) as [pix|] eqn:Ea; [|discriminate]. cbn [rbind] in E.
      assert (CELL : forall p o, get_up (set_pix (set_up v a (upd2 (get_up v a) page (en_off c) q)) pix) a p o = get_up v a p o \/
         (p = page /\ o = en_off c /\ get_up (set_pix (set_up v a (upd2 (get_up v a) page (en_off c) q)) pix) a p o = q)).
      { intros p o. rewrite get_up_set_pix, get_set_up.
        destruct (upd2_cases (get_up v a) page (en_off c) q p o) as [(-> & -> & ->)|(_ & ->)]; auto. }
      destruct (_ =? 3).
      + injection E as <- <- <-. split; [intros; apply in_app_iff; auto|]. intros p o.
        destruct (CELL p o) as [Q|(-> & -> & Q)]; [left; exact Q|right]. rewrite Q.
        split; [reflexivity|]. split; [apply in_app_iff; right; left; reflexivity|exact Hq].
      + apply IH in E. destruct E as [E1 E2]. split; [intros; apply E1, in_app_iff; auto|]. intros p o.
        destruct (E2 p o) as [Q|Q]; [|right; exact Q].
        destruct (CELL p o) as [Q'|(-> & -> & Q')]; [left; congruence|right]. rewrite Q, Q'.
        split; [reflexivity|]. split; [apply E1, in_app_iff; right; left; reflexivity|exact Hq].
  Qed.

  Lemma pad4_incl o l : In o l -> In o (pad4 l).
  Proof. intros H. unfold pad4. apply in_app_iff. auto. Qed.

  Lemma pop_up rnd : 0 <= h -> forall fuel m v dw heap c v' g',
    pop_loop fuel ed rnd m v t a dw heap = Ok (c, v', g') ->
    forall p o, get_up v' a p o = get_up v a p o \/ (stores_to c p o /\ 0 <= get_up v' a p o <= h).
  Proof.
    intros Hh. induction fuel as [|fuel IH]; intros m v dw heap c v' g' E p o; cbn [pop_loop] in E.
    - destruct (bank_mem t _) as [tm|]; [|discriminate]. cbn [rbind] in E.
      destruct (heap_pop heap) as [[e h1]|]; [discriminate|]. injection E as <- <- <-. left. destruct a; reflexivity.
    - destruct (bank_mem t _) as [tm|]; [|discriminate]. cbn [rbind] in E.
      destruct (heap_pop heap) as [[e h1]|].
      2:{ injection E as <- <- <-. left. destruct a; reflexivity. }
      unfold assert_ in E. destruct (negb (hole _ _)); [|discriminate].
      destruct (get_up v a (en_page e) (en_off e) =? 0); [apply (IH _ _ _ _ _ _ _ E)|].
      destruct (match v_mode v with HGR => _ | DHGR => _ end); [|discriminate].
      destruct (apply _ _ _ _ _) as [pix|]; [|discriminate]. cbn [rbind] in E.
      destruct (compute_error _ _ _ _ _ _ _ _) as [[cands n1]|]; [|discriminate]. cbn [rbind] in E.
      destruct (fill_slots _ _ _ _ _ _ _ _ _ _ _ _) as [[[v3 heap2] offs]|] eqn:EF; [|discriminate]. cbn [rbind] in E.
      injection E as <- <- <-. apply fill_up in EF. destruct EF as [F1 F2].
      unfold stores_to. replace (en_page e + 32 - 32) with (en_page e) by lia.
      destruct (F2 p o) as [Q|(-> & Q1 & Q2)]; [|right; split; [split; [reflexivity|apply pad4_incl; exact Q1]|exact Q2]].
      rewrite Q, get_up_set_pix, get_set_up.
      destruct (upd2_cases (get_up v a) (en_page e) (en_off e) 0 p o) as [(-> & -> & ->)|(_ & ->)]; [right|left; reflexivity].
      split; [split; [reflexivity|apply pad4_incl, F1; left; reflexivity]|lia].
  Qed.
End Fill.

(** entries of the table are at most [h] *)
Definition entries_le (k : kind) (ed : table) (h : Z) : Prop := forall o x y, 0 <= o < SCREEN_BYTES k ->
  0 <= x < 2 ^ MASKED_BITS k -> 0 <= y < 2 ^ MASKED_BITS k -> ed o (pair_index k x y) <= h.

Section FrameUp.
  Variables (ed : table) (k : kind) (n : Z) (v0 : video) (t : bitmap) (a : bool) (h : Z).
  Hypothesis HE : u16_table k ed.
  Hypothesis HL : entries_le k ed h.
  Hypothesis Hh : 0 <= h.
  Hypothesis HV : encoder ed k n v0.
  Hypothesis HT : good_target k t.
  Hypothesis HG : good_bank k a.
  Notation U := (start_priority ed v0 t a).
  Notation D := (start_distance ed t (v_pix v0) a).

  Lemma what_if_le p o c : 0 <= what_if_distance ed t a p o c <= h.
  Proof.
    pose proof HT as (_ & KT & _). unfold what_if_distance. rewrite KT. pose proof (valid_bo k o a HG) as V.
    split; [apply HE|apply HL]; auto using masked_bound.
  Qed.

  Lemma distance_le p o : 0 <= D p o <= h.
  Proof.
    pose proof HT as (_ & KT & _). pose proof (valid_bo k o a HG) as V.
    destruct (diff_weights_ok ed t (v_pix v0) a ltac:(rewrite KT; exact HG)) as (f & E & S).
    unfold start_distance. rewrite E. destruct (hole p o); [lia|]. rewrite S, KT.
    split; [apply HE|apply HL]; auto using masked_bound.
  Qed.

  Lemma run_nil l v g : frame_run ed v0 t a l v g -> l = [] -> v = v0 /\ g = GStart t a.
  Proof.
    intros F NL. destruct F as [|l v g rnd c v' g' F E]; [auto|].
    apply app_eq_nil in NL. destruct NL as [_ NL]. discriminate.
  Qed.

  Lemma run_up l v g : frame_run ed v0 t a l v g -> l <> [] -> forall p o,
    get_up v a p o = U p o \/ ((exists c, In c l /\ stores_to c p o) /\ 0 <= get_up v a p o <= h).
  Proof.
    pose proof HT as (_ & KT & _).
    assert (HG' : good_bank (bm_kind t) a) by (rewrite KT; exact HG).
    intros F. destruct (encoder_vinv ed k n v0 HE HV) as [VI HN].
    induction F as [|l v g rnd c v' g' F IH E]; [intros []; reflexivity|]. intros _ p o.
    pose proof (run_fstate ed k n v0 t a HE HT HG VI HN l v g F) as FS.
    assert (IN : forall x, In x l -> In x (l ++ [c])) by (intros; apply in_app_iff; auto).
    assert (INc : In c (l ++ [c])) by (apply in_app_iff; right; left; reflexivity).
    assert (STEP : forall w, get_up w a p o = get_up v a p o /\ l <> [] \/ get_up w a p o = U p o /\ l = [] ->
      (get_up v' a p o = get_up w a p o \/ (stores_to c p o /\ 0 <= get_up v' a p o <= h)) ->
      get_up v' a p o = U p o \/ ((exists c0, In c0 (l ++ [c]) /\ stores_to c0 p o) /\ 0 <= get_up v' a p o <= h)).
    { intros w [[W NL]|[W NL]] [Q|(Q1 & Q2)].
      - destruct (IH NL p o) as [Q'|((x & X1 & X2) & Q')]; [left; congruence|right].
        split; [exists x; auto|]. rewrite Q, W. exact Q'.
      - right. split; [exists c; auto|exact Q2].
      - left. congruence.
      - right. split; [exists c; auto|exact Q2]. }
    destruct FS as [-> -> | dw heap I B L | work j E' VI' O1 O2 O3 B L Z0 SS].
    - destruct (start_distance_ok ed k t v0 a HE HT HG) as (dw0 & E0 & _).
      pose proof (eq_trans (eq_sym (next_start ed rnd v0 t a dw0 E0)) E) as E1.
      destruct (bank_mem _ _); [|discriminate]. cbn [rbind] in E1. unfold assert_ in E1.
      destruct (holes_clear _); [|discriminate]. destruct (forallb _ _); [|discriminate].
      destruct (heapify_priorities _ rnd) as [hp m].
      apply (STEP (set_up v0 a U)); [right; rewrite get_set_up; auto|].
      exact (pop_up ed t a h what_if_le HG' rnd Hh _ _ _ _ _ _ _ _ E1 p o).
    - apply (STEP v); [left; split; [reflexivity|]|].
      + intros ->. destruct (run_nil _ _ _ F eq_refl) as [_ Q]. discriminate.
      + exact (pop_up ed t a h what_if_le HG' rnd Hh _ _ _ _ _ _ _ _ E p o).
    - cbn [next] in E. injection E as <- <- <-. apply (STEP v); [left; split; [reflexivity|]|left; reflexivity].
      rewrite E'. intros Q. apply app_eq_nil in Q. destruct Q as [_ Q]. discriminate.
  Qed.

  (** the first offsets of the changes drawn *)
  Lemma run_primaries l v g : frame_run ed v0 t a l v g -> ~ is_pad g ->
    exists ms, NoDup ms /\ length ms = length l /\
      forall p o, In (p, o) ms -> in_page p o /\ get_up (vs ed v0 t a v g) a p o = 0 /\
        forall p' o', in_page p' o' -> get_up (vs ed v0 t a v g) a p' o' <> 0 -> U p' o' <= U p o.
  Proof.
    intros F. destruct (encoder_vinv ed k n v0 HE HV) as [VI HN].
    induction F as [|l v g rnd c v' g' F IH E]; intros NP.
    - exists []. split; [constructor|]. split; [reflexivity|]. intros p o [].
    - pose proof (run_fstate ed k n v0 t a HE HT HG VI HN l v g F) as FS.
      destruct (step_fstate ed k n v0 t a HE HT HG VI HN l v g FS rnd) as (c1 & v1 & g1 & E1 & _ & S).
      rewrite E in E1. injection E1 as <- <- <-.
      destruct S as [S|[S|S]].
      + assert (NP0 : ~ is_pad g).
        { destruct FS as [-> -> | dw heap I B L | work j E' VI' O1 O2 O3 B L Z0 SS]; [auto|auto|].
          destruct S as [(page & offset & new & dw' & heap' & _ & E2 & _)]. cbn [next] in E. injection E as _ _ E.
          subst g'. discriminate. }
        destruct (IH NP0) as (ms & ND & LE & Q).
        destruct S as [(page & offset & new & dw' & heap' & E1 & E2 & I & Hin & Hh' & N0 & Z0 & MX & M & _)].
        subst g'. cbn [vs].
        exists ((page, offset) :: ms). split; [|split].
        * constructor; [|exact ND]. intros X. destruct (Q page offset X) as (_ & X' & _). contradiction.
        * rewrite app_length. cbn [length]. lia.
        * intros p o [X|X].
          -- injection X as <- <-. split; [exact Hin|]. split; [exact Z0|]. intros p' o' Hin' Hne. apply MX; auto.
          -- destruct (Q p o X) as (Q1 & Q2 & Q3). split; [exact Q1|]. split.
             ++ destruct (Z.eq_dec (get_up v' a p o) 0) as [|NZ]; auto. destruct (M p o Q1 NZ Q2).
             ++ intros p' o' Hin' Hne. apply Q3; auto.
      + destruct S as [_ E2 _ _]. subst g'. destruct NP. exact I.
      + destruct S as (E4 & _ & _ & E3). rewrite E3, E4 in NP. destruct NP. exact I.
  Qed.

  (** all but few bytes have a low priority *)
  Definition few (r : Z) (u : Z -> Z -> Z) : Prop := forall j, 0 <= j ->
    count_bytes (fun p o => j * h <? u p o) <= Z.max 0 (7680 - r * j).

  Lemma count_cases (f : Z -> Z -> bool) : count_bytes f = 0 \/ exists p o, in_page p o /\ f p o = true.
  Proof.
    unfold count_bytes, count. destruct (filter _ all_pairs) as [|[p o] q] eqn:E; [left; reflexivity|right].
    assert (IN : In (p, o) (filter (fun po => f (fst po) (snd po)) all_pairs)) by (rewrite E; left; reflexivity).
    apply filter_In in IN. destruct IN as [IN1 IN2]. exists p, o. split; [apply in_all_pairs; exact IN1|exact IN2].
  Qed.
  Lemma count_pos (f : Z -> Z -> bool) p o : in_page p o -> f p o = true -> 1 <= count_bytes f.
  Proof.
    intros Hin Hf. unfold count_bytes, count.
    assert (IN : In (p, o) (filter (fun po => f (fst po) (snd po)) all_pairs)).
    { apply filter_In. split; [apply in_all_pairs; exact Hin|exact Hf]. }
    destruct (filter _ all_pairs); [destruct IN|cbn [length]; lia].
  Qed.
  Lemma count_screen (f : Z -> Z -> bool) : (forall p o, in_page p o -> f p o = true -> hole p o = false) -> count_bytes f <= 7680.
  Proof.
    intros H. rewrite <- count_visible.
    pose proof (count_sub (fun po => negb (hole (fst po) (snd po))) (fun po => f (fst po) (snd po)) [] all_pairs) as C.
    unfold count_bytes. cbn [length] in C. rewrite Z.add_0_r in C. apply C; [|constructor|intros ? []|apply all_pairs_NoDup].
    intros [p o] Hin Hf. apply in_all_pairs in Hin. cbn [fst snd] in *. rewrite H; auto.
  Qed.

  Lemma few_frame r l v g : 0 <= r -> frame_run ed v0 t a l v g -> l = [] \/ r <= Z.of_nat (length l) ->
    few r (get_up v0 a) -> few r (get_up v a).
  Proof.
    intros Hr F [->|HL'] FW; [destruct (run_nil _ _ _ F eq_refl) as [-> _]; exact FW|].
    destruct l as [|c0 l0]; [destruct (run_nil _ _ _ F eq_refl) as [-> _]; exact FW|].
    assert (NL : c0 :: l0 <> []) by discriminate. set (l := c0 :: l0) in *.
    destruct (encoder_vinv ed k n v0 HE HV) as [VI HN].
    pose proof (run_fstate ed k n v0 t a HE HT HG VI HN l v g F) as FS.
    pose proof (fstate_vinv ed k n v0 t a VI l v g FS) as VI'.
    intros j Hj. destruct (count_cases (fun p o => j * h <? get_up v a p o)) as [->|(p & o & Hin & Hf)]; [lia|].
    destruct (Z.eq_dec j 0) as [->|NJ].
    { rewrite Z.mul_0_r, Z.sub_0_r. apply Z.max_le_iff. right. apply count_screen. intros p' o' Hin' Hf'.
      destruct (hole p' o') eqn:HO; [|reflexivity]. rewrite (vi_up_hole _ _ _ VI') in Hf' by auto. lia. }
    assert (UP : forall p' o', j * h < get_up v a p' o' -> get_up v a p' o' = U p' o').
    { intros p' o' X. destruct (run_up l v g F NL p' o') as [Q|(_ & Q)]; [exact Q|]. nia. }
    assert (OLD : forall p' o', j * h < U p' o' -> (j - 1) * h < get_up v0 a p' o').
    { intros p' o' X. pose proof (distance_le p' o') as DL. unfold start_priority in X.
      destruct (Z.eqb_spec (D p' o') 0) as [Z0|Z0]; nia. }
    assert (NP : ~ is_pad g).
    { intros P. rewrite (pad_done ed k n v0 t a l v g HE HV HT HG F P p o Hin) in Hf. nia. }
    destruct (run_primaries l v g F NP) as (ms & ND & LE & Q).
    assert (VS : vs ed v0 t a v g = v).
    { destruct FS as [Q1 _ | |]; [discriminate Q1|reflexivity|reflexivity]. }
    rewrite VS in Q.
    pose proof (count_sub (fun po => (j - 1) * h <? get_up v0 a (fst po) (snd po)) (fun po => j * h <? get_up v a (fst po) (snd po)) ms all_pairs) as C.
    assert (C' : count_bytes (fun p o => j * h <? get_up v a p o) + Z.of_nat (length ms) <= count_bytes (fun p o => (j - 1) * h <? get_up v0 a p o)).
    { apply C; [|exact ND| |apply all_pairs_NoDup].
      - intros [p' o'] _ X. cbn [fst snd] in *. apply Z.ltb_lt. apply Z.ltb_lt in X. apply OLD. rewrite <- UP; auto.
      - intros [p' o'] X. cbn [fst snd]. destruct (Q p' o' X) as (Q1 & Q2 & Q3). split; [apply in_all_pairs; exact Q1|].
        split; [|rewrite Q2; apply Z.ltb_ge; nia]. apply Z.ltb_lt, OLD.
        apply Z.ltb_lt in Hf. pose proof (UP p o Hf) as UE.
        assert (X' : get_up v a p o <> 0) by nia. specialize (Q3 p o Hin X'). lia. }
    specialize (FW (j - 1) ltac:(lia)).
    pose proof (count_pos (fun p o => j * h <? get_up v a p o) p o Hin Hf) as P.
    rewrite LE in C'. clear - FW C' P HL' Hr. lia.
  Qed.

  Lemma few_bound r u J : few r u -> 0 <= J -> 7680 <= r * J -> forall p o, in_page p o -> u p o <= J * h.
  Proof.
    intros FW HJ HR p o Hin. destruct (Z.le_gt_cases (u p o) (J * h)) as [|X]; [assumption|].
    pose proof (count_pos (fun p o => J * h <? u p o) p o Hin ltac:(apply Z.ltb_lt; lia)) as P.
    specialize (FW J HJ). lia.
  Qed.
End FrameUp.

(** histories *)
Lemma few_new h r k a : 0 <= h -> few h r (get_up (video_new k) a).
Proof.
  intros Hh j Hj.
  destruct (count_cases (fun p o => j * h <? get_up (video_new k) a p o)) as [->|(p & o & _ & X)]; [lia|].
  exfalso. destruct a; cbn [get_up video_new v_up v_aux_up] in X; nia.
Qed.

Lemma few_banks ed k n v0 t b l v g h r : u16_table k ed -> entries_le k ed h -> 0 <= h -> 0 <= r -> encoder ed k n v0 ->
  good_target k t -> good_bank k b -> frame_run ed v0 t b l v g -> l = [] \/ r <= Z.of_nat (length l) ->
  (forall a, few h r (get_up v0 a)) -> forall a, few h r (get_up v a).
Proof.
  intros HE HL Hh Hr HV HT HG F L FW a. destruct (Bool.bool_dec a b) as [->|NE].
  - eapply few_frame; eauto.
  - rewrite (other_bank b a NE). destruct (encoder_vinv ed k n v0 HE HV) as [VI HN].
    destruct (fstate_other ed k n v0 t b l v g (run_fstate ed k n v0 t b HE HT HG VI HN l v g F)) as [_ ->]. apply FW.
Qed.

Lemma u16_le k ed : u16_table k ed -> entries_le k ed 65535.
Proof. intros H o x y Ho Hx Hy. specialize (H o x y Ho Hx Hy). lia. Qed.

Lemma encoder_few ed k n v : u16_table k ed -> encoder ed k n v -> forall a, few 65535 1 (get_up v a).
Proof.
  intros HE H. induction H as [|n v0 t b l v g H IH HT HG F|n v H IH]; [|eapply few_banks; eauto using u16_le; try lia|].
  - intros a. apply few_new. lia.
  - destruct l; [left; reflexivity|right; cbn [length]; lia].
  - intros a. specialize (IH a). destruct a; exact IH.
Qed.

Lemma priorities_fit ed k n v : u16_table k ed -> encoder ed k n v -> forall a p o, in_page p o ->
  0 <= get_up v a p o <= Z.min n 7680 * 65535.
Proof.
  intros HE HV a p o Hin. destruct (encoder_vinv ed k n v HE HV) as [VI HN].
  pose proof (vi_up _ _ _ VI a p o Hin) as B.
  pose proof (few_bound 65535 1 _ 7680 (encoder_few ed k n v HE HV a) ltac:(lia) ltac:(lia) p o Hin) as B'.
  split; [lia|]. destruct (Z.min_spec n 7680) as [[_ ->]|[_ ->]]; lia.
Qed.

Lemma sums_fit ed k n v0 t a : u16_table k ed -> encoder ed k n v0 -> good_target k t -> good_bank k a ->
  forall p o, in_page p o -> 0 <= start_priority ed v0 t a p o <= 7681 * 65535.
Proof.
  intros HE HV HT HG p o Hin. pose proof (priorities_fit ed k n v0 HE HV a p o Hin) as B.
  pose proof (distance_le ed k v0 t a 65535 HE (u16_le k ed HE) ltac:(lia) HT HG p o) as DL.
  unfold start_priority. destruct (_ =? 0); lia.
Qed.

Lemma waiting_inv ed k r a p o dmin dmax w v : u16_table k ed -> ranged_table k ed dmin dmax -> 0 <= dmin -> 0 <= dmax -> 0 <= r ->
  in_page p o -> waiting ed k r a p o w v ->
  (exists n, encoder ed k n v) /\ (forall b, few dmax r (get_up v b)) /\ w * dmin <= get_up v a p o.
Proof.
  intros HE HR H0 Hd Hr Hin W.
  assert (HL : entries_le k ed dmax).
  { intros i x y Hi Hx Hy. destruct (HR i x y Hi Hx Hy); lia. }
  induction W as [|w v0 t l v g W IH HT HG F NL L ND NS|w v0 t b l v g W IH HT HG F L|w v0 t b l v g W IH HT HG F L|w v W IH].
  - split; [exists 0; constructor|]. split; [intros b; apply few_new; exact Hd|]. destruct a; cbn; lia.
  - destruct IH as ((n & HV) & FW & B). split; [exists (n + 1); eapply enc_frame; eauto|].
    split; [eapply few_banks; eauto|].
    destruct (run_up ed k n v0 t a dmax HE HL Hd HV HT HG l v g F NL p o) as [Q|((c & C1 & C2) & _)].
    2:{ destruct (NS c C1 C2). }
    rewrite Q. unfold start_priority. destruct (Z.eqb_spec (start_distance ed t (v_pix v0) a p o) 0) as [|_]; [contradiction|].
    assert (DM : dmin <= start_distance ed t (v_pix v0) a p o).
    { pose proof HT as (_ & KT & _). pose proof (valid_bo k o a HG) as V.
      destruct (diff_weights_ok ed t (v_pix v0) a ltac:(rewrite KT; exact HG)) as (f & E & S).
      revert ND. unfold start_distance. rewrite E. destruct (hole p o); [intros X; destruct (X eq_refl)|]. rewrite S, KT. intros ND.
      destruct (HR (bo k o a) (mask_and_shift k (bm_packed (v_pix v0) p (o / 2)) (bo k o a))
         (mask_and_shift k (bm_packed t p (o / 2)) (bo k o a)) V ltac:(apply masked_bound; auto) ltac:(apply masked_bound; auto)) as [X|X]; [contradiction|lia]. }
    lia.
  - destruct IH as ((n & HV) & FW & B). split; [exists (n + 1); eapply enc_frame; eauto|].
    split; [eapply few_banks; eauto; tauto|]. destruct L as [->|[NE _]].
    + destruct (run_nil ed v0 t b [] v g F eq_refl) as [-> _]. exact B.
    + destruct (encoder_vinv ed k n v0 HE HV) as [VI HN]. rewrite (other_bank b a ltac:(congruence)).
      destruct (fstate_other ed k n v0 t b l v g (run_fstate ed k n v0 t b HE HT HG VI HN l v g F)) as [_ ->].
      rewrite <- (other_bank b a ltac:(congruence)). exact B.
  - destruct IH as ((n & HV) & FW & B). split; [exists (n + 1); eapply enc_frame; eauto|].
    split; [eapply few_banks; eauto; tauto|].
    assert (HV' : encoder ed k (n + 1) v) by (eapply enc_frame; eauto).
    pose proof (priorities_fit ed k (n + 1) v HE HV' a p o Hin). lia.
  - destruct IH as ((n & HV) & FW & B). split; [exists n; constructor; exact HV|].
    split; [intros b; specialize (FW b); destruct b; exact FW|]. destruct a; exact B.
Qed.

Lemma no_starvation ed k r a p o dmin dmax J w v : u16_table k ed -> ranged_table k ed dmin dmax -> 0 <= dmin -> 0 <= dmax -> 0 <= r ->
  in_page p o -> waiting ed k r a p o w v -> 0 <= J -> 7680 <= r * J -> w * dmin <= J * dmax.
Proof.
  intros HE HR H0 Hd Hr Hin W HJ HJr.
  destruct (waiting_inv ed k r a p o dmin dmax w v HE HR H0 Hd Hr Hin W) as (_ & FW & B).
  pose proof (few_bound dmax r _ J (FW a) HJ HJr p o Hin). lia.
Qed.

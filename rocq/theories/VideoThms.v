(** The encoder: the stated properties. *)
From Verif Require Import Base BaseFacts BitFacts ScreenModel ScreenSpec ScreenProofs BitmapModel DisplaySpec
  BitmapSpec BitmapProofs BitmapApply BitmapState BitmapFacts VideoModel VideoSpec HeapFacts VideoProofs VideoStep VideoFacts.
Opaque TABLES all_pairs.

Lemma hole_displayed p o : in_page p o -> (hole p o = false <-> displayed p o).
Proof. intros H. apply holes_iff; auto. Qed.

(** equal windows have equal bytes *)
Lemma masked_byte k main aux c off (a : bool) w i :
  0 <= off < 256 -> c = off / 2 -> bank_ok k a -> word_ok k main aux c w -> 0 <= i < (match k with HGR => 8 | DHGR => 7 end) ->
  Z.testbit ((if a then aux else main) off) i =
  Z.testbit (mask_and_shift k w (bo k off a))
    (match k with HGR => if off mod 2 =? 0 then 3 + i else if i =? 7 then 3 else 4 + i | DHGR => 3 + i end).
Proof.
  intros Ho -> Hb [_ W] Hi. pose proof (valid_bo k off a Hb) as V.
  assert (P : off mod 2 = 0 \/ off mod 2 = 1) by dlia.
  pose proof (Z.div_mod off 2 ltac:(lia)) as E.
  destruct k.
  - destruct Hb as [Hb| ->]; [discriminate|].
    assert (C : forall j, 0 <= j < 16 -> clip_row main off = main off) by (intros; apply clip_in; auto).
    destruct P as [P|P]; rewrite P; cbn [Z.eqb].
    + rewrite masked_bit by (auto; lia). change (MASKED_BITS HGR) with 14. unfold shift_of, bo. rewrite P.
      rewrite W by (change (PACKED_BITS HGR) with 22; lia). unfold packed_bit.
      rewrite <- (clip_in main off) by auto. bcase; cbn [andb]; tbeq.
    + destruct (Z.eqb_spec i 7) as [->|].
      * rewrite masked_bit by (auto; lia). change (MASKED_BITS HGR) with 14. unfold shift_of, bo. rewrite P.
        rewrite W by (change (PACKED_BITS HGR) with 22; lia). unfold packed_bit.
        rewrite <- (clip_in main off) by auto. bcase; cbn [andb]; tbeq.
      * rewrite masked_bit by (auto; lia). change (MASKED_BITS HGR) with 14. unfold shift_of, bo. rewrite P.
        rewrite W by (change (PACKED_BITS HGR) with 22; lia). unfold packed_bit.
        rewrite <- (clip_in main off) by auto. bcase; cbn [andb]; tbeq.
  - rewrite masked_bit by (auto; lia). change (MASKED_BITS DHGR) with 13. unfold shift_of, bo.
    rewrite W by (change (PACKED_BITS DHGR) with 34; destruct a; lia). rewrite packed_bit_DHGR by (destruct a; lia).
    destruct a.
    + rewrite <- (clip_in aux off) by auto. destruct P as [P|P]; rewrite P in *; bcase; cbn [andb]; tbeq.
    + rewrite <- (clip_in main off) by auto. destruct P as [P|P]; rewrite P in *; bcase; cbn [andb]; tbeq.
Qed.

Lemma word_of b p off : reachable b -> in_page p off ->
  word_ok (bm_kind b) (mm_data (bm_main b) p) (aux_data (bm_aux b) p) (off / 2) (bm_packed b p (off / 2)).
Proof.
  intros R [Hp Ho]. apply (ok_rows b (reachable_ok b R) p Hp). clear - Ho. dlia.
Qed.

Lemma byte_of_bits k x y : is_byte x -> is_byte y -> (k = DHGR -> x < 128 /\ y < 128) ->
  (forall i, 0 <= i < (match k with HGR => 8 | DHGR => 7 end) -> Z.testbit x i = Z.testbit y i) -> x = y.
Proof.
  intros Hx Hy H B. unfold is_byte in *. destruct k.
  - apply (bits_eq 8); auto; lia.
  - destruct (H eq_refl). apply (bits_eq 7); auto; lia.
Qed.

Lemma masked_inj b b' p off a : reachable b -> reachable b' -> bm_kind b' = bm_kind b -> good_bank (bm_kind b) a ->
  in_page p off -> (bm_kind b = DHGR -> bank_data b a p off < 128 /\ bank_data b' a p off < 128) ->
  mask_and_shift (bm_kind b) (bm_packed b p (off / 2)) (bo (bm_kind b) off a) =
  mask_and_shift (bm_kind b) (bm_packed b' p (off / 2)) (bo (bm_kind b) off a) ->
  bank_data b a p off = bank_data b' a p off.
Proof.
  intros R R' K G Hin HT E.
  apply (byte_of_bits (bm_kind b)); auto using bank_byte.
  intros i Hi.
  pose proof (masked_byte (bm_kind b) _ _ _ off a _ i (proj2 Hin) eq_refl G (word_of b p off R Hin) Hi) as E1.
  pose proof (word_of b' p off R' Hin) as W'. rewrite K in W'.
  pose proof (masked_byte (bm_kind b) _ _ _ off a _ i (proj2 Hin) eq_refl G W' Hi) as E2.
  rewrite <- E in E2. rewrite <- E2 in E1. unfold bank_data. destruct a; exact E1.
Qed.

Lemma what_if_inj ed t a p off v : reachable t -> good_bank (bm_kind t) a -> in_page p off -> is_byte v ->
  (bm_kind t = DHGR -> bank_data t a p off < 128 /\ v < 128) -> discriminating (bm_kind t) ed ->
  what_if_distance ed t a p off v = 0 -> bank_data t a p off = v.
Proof.
  intros R G Hin Hv HT HD E. unfold what_if_distance in E.
  pose proof (valid_bo (bm_kind t) off a G) as V.
  apply HD in E; [|exact V|apply masked_bound; auto|apply masked_bound; auto].
  apply (byte_of_bits (bm_kind t)); auto using bank_byte.
  intros i Hi.
  pose proof (masked_byte (bm_kind t) _ _ _ off a _ i (proj2 Hin) eq_refl G (word_of t p off R Hin) Hi) as E1.
  pose proof (word_ok_update (bm_kind t) _ _ off a v _ (proj2 Hin) G Hv (word_of t p off R Hin)) as W.
  destruct (set_rows a (mm_data (bm_main t) p) (aux_data (bm_aux t) p) off v) as [main' aux'] eqn:ES.
  pose proof (masked_byte (bm_kind t) _ _ _ off a _ i (proj2 Hin) eq_refl G W Hi) as E2.
  rewrite <- E in E2. rewrite <- E2 in E1. unfold bank_data.
  assert (Q : (if a then aux' else main') off = v).
  { unfold set_rows in ES. destruct a; injection ES as <- <-; apply upd1_same. }
  rewrite Q in E1. destruct a; exact E1.
Qed.

Section Thms.
  Variables (ed : table) (k : kind) (n : Z) (v0 : video) (t : bitmap) (a : bool).
  Variables (l : list change) (v : video) (g : gen).
  Hypothesis HE : u16_table k ed.
  Hypothesis HV : encoder ed k n v0.
  Hypothesis HT : good_target k t.
  Hypothesis HG : good_bank k a.
  Hypothesis HF : frame_run ed v0 t a l v g.

  Lemma fst_ : FState ed k n v0 t a l v g.
  Proof. destruct (encoder_vinv ed k n v0 HE HV) as [VI HN]. apply run_fstate; auto. Qed.

  Lemma step_all rnd : exists c v' g', next ed rnd v g = Ok (c, v', g') /\
     (work_step ed k (n + 1) v0 t a (start_priority ed v0 t a) (start_distance ed t (v_pix v0) a) (vs ed v0 t a v g) c v' g'
      \/ pad_step t a (vs ed v0 t a v g) c v' g' \/ idle_step t a v g c v' g').
  Proof.
    destruct (encoder_vinv ed k n v0 HE HV) as [VI HN].
    destruct (step_fstate ed k n v0 t a HE HT HG VI HN l v g fst_ rnd) as (c & v' & g' & E & _ & S).
    exists c, v', g'. auto.
  Qed.

  Lemma vs_up p o : get_up (vs ed v0 t a v g) a p o = priority_now ed v0 t a v g p o.
  Proof. destruct g; cbn [vs priority_now]; auto. rewrite get_set_up. reflexivity. Qed.

  Lemma never_raises rnd : exists c v' g', next ed rnd v g = Ok (c, v', g').
  Proof. destruct (step_all rnd) as (c & v' & g' & E & _). eauto. Qed.

  Definition well_formed (c : change) : Prop :=
    let '(page, content, offsets) := c in
    32 <= page < 64 /\ length offsets = 4%nat /\
    Forall (fun o => 0 <= o < 256 /\ displayed (page - 32) o) offsets /\
    content = bank_data t a (page - 32) (nth 0 offsets 0).

  Lemma displayed_00 : displayed 0 0.
  Proof. exists 0, 0. repeat split; lia. Qed.

  Lemma pad_well_formed : well_formed (pad_change t a).
  Proof.
    pose proof displayed_00. unfold well_formed, pad_change. change (32 - 32) with 0.
    split; [lia|]. split; [reflexivity|]. split; [|reflexivity].
    repeat constructor; auto; lia.
  Qed.

  Lemma pad4_in x y offs : In x (pad4 (y :: offs)) -> In x (y :: offs).
  Proof.
    unfold pad4. rewrite in_app_iff. intros [H|H]; auto. apply repeat_spec in H. left. symmetry. exact H.
  Qed.
  Lemma pad4_len y offs : (length offs <= 2)%nat -> length (pad4 (y :: offs)) = 4%nat.
  Proof. intros H. unfold pad4. rewrite app_length, repeat_length. cbn [length]. lia. Qed.

  Lemma step_well_formed rnd c v' g' : next ed rnd v g = Ok (c, v', g') -> well_formed c.
  Proof.
    intros E0. destruct (step_all rnd) as (c1 & v1 & g1 & E & S). rewrite E0 in E. injection E as <- <- <-.
    destruct S as [[S]|[S|S]].
    - destruct S as (page & offset & new & dw' & heap' & E1 & E2 & I & Hin & Hh & N0 & Z0 & _ & M & BB & ND & L & NW & _).
      subst c. unfold well_formed. replace (page + 32 - 32) with page by lia.
      split; [destruct Hin; lia|]. split; [apply pad4_len; auto|]. split; [|reflexivity].
      apply Forall_forall. intros o Ho. apply pad4_in in Ho. destruct Ho as [<-|Ho].
      + split; [apply Hin|]. apply hole_displayed; auto.
      + destruct (NW o Ho) as (A & B & _). split; [apply A|]. apply hole_displayed; auto.
    - destruct S as [-> _ _ _]. apply pad_well_formed.
    - destruct S as (_ & -> & _). apply pad_well_formed.
  Qed.

  Lemma replay_screen : exists work j, l = work ++ repeat (pad_change t a) j /\
    (j <> 0%nat <-> is_pad g) /\
    mem_eq (bank_data (v_pix v) a) (replay (bank_data (v_pix v0) a) work) /\
    Z.of_nat (length work) <= count_bytes (fun p o => negb (start_priority ed v0 t a p o =? 0)).
  Proof.
    pose proof (outstanding_nonneg (start_priority ed v0 t a)) as NN.
    destruct fst_ as [E1 E2 | dw heap I B L | work j E VI O1 O2 O3 B L Z0 S].
    - exists [], O. rewrite E1, E2. cbn. split; [reflexivity|]. split; [split; [intros H; destruct H; reflexivity|intros []]|].
      split; [intros p o _; reflexivity|exact NN].
    - exists l, O. cbn [repeat]. rewrite app_nil_r. split; [reflexivity|]. split; [split; [intros H; destruct H; reflexivity|intros []]|].
      split; [intros p o _; apply B|]. pose proof (outstanding_nonneg (get_up v a)). unfold outstanding in *. lia.
    - exists work, (Datatypes.S j). split; [exact E|]. split; [split; [constructor|discriminate]|].
      split; [intros p o _; apply B|]. exact L.
  Qed.

  Lemma start_count : count_bytes (fun p o => negb (start_priority ed v0 t a p o =? 0)) <= 7680.
  Proof.
    rewrite <- count_visible. unfold count_bytes, count. apply inj_le.
    assert (H : forall x, negb (start_priority ed v0 t a (fst x) (snd x) =? 0) = true -> negb (hole (fst x) (snd x)) = true).
    { intros [p o]. cbn [fst snd]. unfold start_priority. destruct (hole p o) eqn:Hh; [|reflexivity].
      rewrite start_distance_hole by auto. discriminate. }
    induction all_pairs as [|x xs IH]; [cbn; lia|]. cbn [filter].
    destruct (negb (start_priority _ _ _ _ _ _ =? 0)) eqn:X.
    - rewrite (H x X). cbn [length]. lia.
    - destruct (negb (hole _ _)); cbn [length]; lia.
  Qed.

  Lemma pad_done : is_pad g -> forall p o, in_page p o -> get_up v a p o = 0.
  Proof. intros P. destruct fst_; [destruct P|destruct P|auto]. Qed.

  Lemma pad_settled : is_pad g -> forall p o, in_page p o -> displayed p o ->
    bank_data (v_pix v) a p o = bank_data t a p o \/
    (start_distance ed t (v_pix v0) a p o = 0 /\ bank_data (v_pix v) a p o = bank_data (v_pix v0) a p o) \/
    (exists t' dist, apply t p o a (bank_data (v_pix v) a p o) = Ok t' /\ diff_weights ed t' t a = Ok dist /\ dist p o = 0).
  Proof.
    intros P p o Hin Hd.
    assert (VI : VInv k (n + 1) v).
    { destruct (encoder_vinv ed k n v0 HE HV) as [VI HN]. eapply fstate_vinv; eauto. exact fst_. }
    assert (S : settled ed v0 t a v) by (destruct fst_; [destruct P|destruct P|auto]).
    destruct (S p o Hin) as [H|[H|H]]; auto.
    { apply hole_displayed; auto. }
    right. right. destruct HT as (RT & KT & _).
    assert (Hb : is_byte (bank_data (v_pix v) a p o)) by (apply bank_byte; auto; apply (vi_reach _ _ _ VI)).
    assert (G' : good_bank (bm_kind t) a) by (rewrite KT; exact HG).
    destruct (apply_bank t p o a _ RT Hin G' Hb) as (t' & E & _).
    destruct (byte_pair_difference_ok ed t a p o (bank_data (v_pix v) a p o) G') as (b & Eb & Ed).
    destruct (byte_pair_difference_is_distance ed t p _ a o t' b RT (proj1 Hin) (proj2 Hin) G' Hb E Eb) as (r & dist & E1 & E2 & E3).
    exists t', dist. split; [exact E|]. split; [exact E2|]. rewrite Ed in E1. injection E1 as <-. rewrite <- E3. exact H.
  Qed.

  Lemma start_vinv : VInv k n v0.
  Proof. apply (encoder_vinv ed k n v0 HE HV). Qed.
  Lemma now_vinv : VInv k (n + 1) v.
  Proof. destruct (encoder_vinv ed k n v0 HE HV) as [VI HN]. eapply fstate_vinv; eauto. exact fst_. Qed.

  Lemma pad_converged : discriminating k ed -> is_pad g ->
    forall p o, in_page p o -> displayed p o -> bank_data (v_pix v) a p o = bank_data t a p o.
  Proof.
    intros HD P p o Hin Hd. pose proof now_vinv as VI. pose proof start_vinv as VI0.
    assert (S : settled ed v0 t a v) by (destruct fst_; [destruct P|destruct P|auto]).
    assert (Hh : hole p o = false) by (apply hole_displayed; auto).
    destruct HT as (RT & KT & TT).
    destruct (S p o Hin Hh) as [H|[[H1 H2]|H]]; auto.
    - rewrite H2. symmetry. unfold start_distance in H1. rewrite Hh in H1.
      assert (G' : good_bank (bm_kind t) a) by (rewrite KT; exact HG).
      destruct (diff_weights_ok ed t (v_pix v0) a G') as (f & E & F). rewrite E, F in H1.
      pose proof (valid_bo (bm_kind t) o a G') as V.
      apply masked_inj; auto.
      + apply (vi_reach _ _ _ VI0).
      + rewrite KT. apply (vi_kind _ _ _ VI0).
      + rewrite KT. intros Hk. split; [apply TT; auto|apply (vi_top _ _ _ VI0); auto].
      + symmetry. rewrite <- KT in HD. apply HD in H1; auto using masked_bound.
    - symmetry. apply (what_if_inj ed); auto.
      + rewrite KT; auto.
      + apply bank_byte; auto. apply (vi_reach _ _ _ VI).
      + rewrite KT. intros Hk. split; [apply TT; auto|apply (vi_top _ _ _ VI); auto].
      + rewrite KT. auto.
  Qed.

  (** one change *)
  Lemma change_facts rnd page content o0 o1 o2 o3 v' g' :
    next ed rnd v g = Ok ((page, content, [o0; o1; o2; o3]), v', g') -> ~ is_pad g' ->
    let p := page - 32 in
    o3 = o0 /\
    priority_now ed v0 t a v g p o0 <> 0 /\
    (forall p' o, in_page p' o -> priority_now ed v0 t a v g p' o <> 0 ->
       start_priority ed v0 t a p' o <= start_priority ed v0 t a p o0) /\
    (forall o, In o [o1; o2; o3] -> o <> o0 ->
       priority_now ed v0 t a v g p o <> 0 /\ store_error ed t a p o content < start_distance ed t (v_pix v0) a p o) /\
    (o2 = o0 -> forall o, 0 <= o < 256 -> o <> o0 -> priority_now ed v0 t a v g p o <> 0 ->
       store_error ed t a p o content < start_distance ed t (v_pix v0) a p o -> o = o1) /\
    (o2 <> o0 -> o1 <> o0 /\ o1 <> o2).
  Proof.
    intros E0 NP. destruct (step_all rnd) as (c1 & v1 & g1 & E & S). rewrite E0 in E. injection E as <- <- <-.
    destruct S as [[S]|[S|S]].
    2:{ destruct S as [_ -> _ _]. exfalso. apply NP. constructor. }
    2:{ destruct S as (-> & _ & _ & ->). exfalso. apply NP. constructor. }
    destruct S as (page1 & offset & new & dw' & heap' & E1 & E2 & I & Hin & Hh & N0 & Z0 & MX & M & BB & ND & L & NW & CO).
    pose proof (f_equal (fun c => fst (fst c)) E1) as Ep. pose proof (f_equal (fun c => snd (fst c)) E1) as Ec.
    pose proof (f_equal snd E1) as Eo. cbn [fst snd] in Ep, Ec, Eo. clear E1. subst page. replace (page1 + 32 - 32) with page1 by lia. cbv zeta.
    setoid_rewrite <- vs_up. rewrite <- Ec in NW, CO.
    assert (NE : forall o, In o new -> o <> offset) by (intros o Ho ->; inversion ND; auto).
    assert (IP : forall o, 0 <= o < 256 -> in_page page1 o) by (intros o Ho; split; [apply Hin|auto]).
    destruct new as [|x [|y [|z new]]]; [| | |cbn in L; lia];
      unfold pad4 in Eo; cbn [app length nth repeat Nat.sub] in Eo; injection Eo as -> -> -> ->.
    - split; [reflexivity|]. split; [exact N0|]. split; [exact MX|]. split.
      { intros o Ho Hne. destruct Ho as [<-|[<-|[<-|[]]]]; congruence. }
      split; [|intros H; congruence].
      intros _ o Ho Hne Hup Hse. destruct CO as [CO|CO]; [discriminate|]. destruct (CO o (IP o Ho) Hne Hup Hse).
    - split; [reflexivity|]. split; [exact N0|]. split; [exact MX|]. split.
      { intros o Ho Hne. destruct Ho as [<-|[<-|[<-|[]]]]; try congruence.
        destruct (NW x (or_introl eq_refl)) as (_ & _ & A & B). auto. }
      split; [|intros H; congruence].
      intros _ o Ho Hne Hup Hse. destruct CO as [CO|CO]; [discriminate|].
      destruct (CO o (IP o Ho) Hne Hup Hse) as [<-|[]]. reflexivity.
    - split; [reflexivity|]. split; [exact N0|]. split; [exact MX|]. split.
      { intros o Ho Hne. destruct Ho as [<-|[<-|[<-|[]]]]; try congruence.
        - destruct (NW x (or_introl eq_refl)) as (_ & _ & A & B). auto.
        - destruct (NW y (or_intror (or_introl eq_refl))) as (_ & _ & A & B). auto. }
      split.
      { intros H. exfalso. apply (NE y); [right; left; reflexivity|exact H]. }
      intros _. split; [apply NE; left; reflexivity|]. inversion ND as [|? ? _ ND2]; subst. inversion ND2 as [|? ? NI _]; subst.
      intros ->. apply NI. left. reflexivity.
  Qed.
End Thms.

Lemma all_well_formed ed k n v0 t a l v g : u16_table k ed -> encoder ed k n v0 -> good_target k t -> good_bank k a ->
  frame_run ed v0 t a l v g -> Forall (well_formed t a) l.
Proof.
  intros HE HV HT HG HF. induction HF as [|l v g rnd c v' g' F IH E]; [constructor|].
  apply Forall_app. split; [exact IH|]. constructor; [|constructor].
  eapply step_well_formed; eauto.
Qed.

(** The encoder: one [next()] of the generator. *)
From Verif Require Import Base BaseFacts BitFacts ScreenModel ScreenSpec ScreenProofs BitmapModel DisplaySpec
  BitmapSpec BitmapProofs BitmapApply BitmapState BitmapFacts VideoModel VideoSpec HeapFacts VideoProofs.
From Coq Require Import Permutation.
Opaque TABLES all_pairs.

Lemma delta_spec ed t a page content dw : reachable t -> good_bank (bm_kind t) a -> 0 <= page < 32 -> is_byte content ->
  exists delta, compute_delta_page ed t page content dw a = Ok delta /\
    forall off, 0 <= off < 256 -> delta off = store_error ed t a page off content - dw off.
Proof.
  intros R G Hp Hc.
  assert (W : forall off, 0 <= off < 256 -> exists delta, compute_delta_page ed t page content dw a = Ok delta /\
     delta off = store_error ed t a page off content - dw off).
  { intros off Ho. destruct (apply_bank t page off a content R (conj Hp Ho) G Hc) as (t' & E & _).
    destruct (what_if ed t page content dw a off t' R Hp Ho G Hc E) as (delta & dist & E1 & E2 & E3).
    exists delta. split; [exact E1|]. unfold store_error. rewrite E, E2. exact E3. }
  destruct (W 0 ltac:(lia)) as (delta & E & _). exists delta. split; [exact E|].
  intros off Ho. destruct (W off Ho) as (delta' & E' & Q). congruence.
Qed.

Lemma store_error_bound ed k t a p o c : u16_table k ed -> bm_kind t = k -> good_bank k a -> 0 <= store_error ed t a p o c < 65536.
Proof.
  intros H K G. unfold store_error. destruct (apply t p o a c) as [t'|]; [|lia].
  destruct (diff_weights_ok ed t t' a ltac:(rewrite K; exact G)) as (f & E & S). rewrite E, S, K.
  pose proof (valid_bo k o a G). apply H; auto using masked_bound.
Qed.

Lemma compute_error_ok ed t page content dw a rnd n : reachable t -> good_bank (bm_kind t) a -> 0 <= page < 32 -> is_byte content ->
  exists cands m, compute_error ed t page content dw a rnd n = Ok (cands, m) /\
    NoDup (map en_off cands) /\ Forall (fun e => en_key e < 0) cands /\
    forall o, In o (map en_off cands) <-> (0 <= o < 256 /\ store_error ed t a page o content < dw page o).
Proof.
  intros R G Hp Hc. unfold compute_error.
  destruct (delta_spec ed t a page content (dw page) R G Hp Hc) as (delta & E & S).
  rewrite E. cbn [rbind].
  destruct (error_candidates delta rnd n (zrange 256)) as [h m] eqn:EC.
  destruct (candidates_spec delta rnd (zrange 256) n h m EC) as [C1 C2].
  exists (pop_all (length h) h), m. split; [reflexivity|].
  pose proof (pop_all_perm (length h) h eq_refl) as P.
  assert (PM : Permutation (map en_off h) (map en_off (pop_all (length h) h))) by (apply Permutation_map; exact P).
  assert (IN : forall o, In o (map en_off h) <-> (0 <= o < 256 /\ delta o < 0)).
  { intros o. rewrite C1, filter_In, in_zrange by lia. rewrite Z.ltb_lt. tauto. }
  split; [|split].
  - eapply Permutation_NoDup; [exact PM|]. rewrite C1. apply NoDup_filter. apply zrange_from_NoDup.
  - apply (Permutation_Forall P). apply Forall_forall. intros e He.
    rewrite Forall_forall in C2. rewrite (C2 e He). apply IN. apply in_map; auto.
  - intros o. split.
    + intros Ho. apply (Permutation_in _ (Permutation_sym PM)) in Ho. apply IN in Ho. destruct Ho as [Ho D].
      rewrite S in D by auto. split; [auto|lia].
    + intros [Ho D]. apply (Permutation_in _ PM), IN. split; [auto|]. rewrite S by auto. lia.
Qed.

Lemma target_mem k t a : reachable t -> bm_kind t = k -> good_bank k a ->
  bank_mem t (match k with HGR => false | DHGR => a end) = Ok (bank_data t a).
Proof.
  intros R K G. destruct k.
  - destruct G as [G|G]; [discriminate|]. subst a. apply bank_mem_data; [apply reachable_ok; auto|right; auto].
  - apply bank_mem_data; [apply reachable_ok; auto|rewrite K; auto].
Qed.

Lemma top_ok k c : (k = DHGR -> c < 128) -> match k with HGR => true | DHGR => c <? 128 end = true.
Proof. intros H. destruct k; [reflexivity|]. specialize (H eq_refl). lia. Qed.

Section Pop.
  Variables (ed : table) (k : kind) (n : Z) (v0 : video) (t : bitmap) (a : bool) (U D : Z -> Z -> Z).
  Hypothesis T : TOk ed k n t a U D.
  Let R := RInv ed k n v0 t a U D.

  (** what one working [next()] does *)
  Record work_step (v : video) (c : change) (v' : video) (g' : gen) : Prop := {
    ws_parts : exists page offset new dw' heap',
      c = (page + 32, bank_data t a page offset, pad4 (offset :: new)) /\ g' = GRun t a dw' heap' /\
      R v' dw' heap' /\
      in_page page offset /\ hole page offset = false /\ get_up v a page offset <> 0 /\
      get_up v' a page offset = 0 /\
      (forall p o, in_page p o -> get_up v a p o <> 0 -> U p o <= U page offset) /\
      (forall p o, in_page p o -> get_up v' a p o <> 0 -> get_up v a p o <> 0) /\
      bank_data (v_pix v') a = fold_left (fun m o => upd2 m page o (bank_data t a page offset)) (offset :: new) (bank_data (v_pix v) a) /\
      NoDup (offset :: new) /\ (length new <= 2)%nat /\
      (forall o, In o new -> in_page page o /\ hole page o = false /\ get_up v a page o <> 0 /\
                             store_error ed t a page o (bank_data t a page offset) < D page o) /\
      (length new = 2%nat \/ forall o, in_page page o -> o <> offset -> get_up v a page o <> 0 ->
          store_error ed t a page o (bank_data t a page offset) < D page o -> In o new)
  }.
  Record pad_step (v : video) (c : change) (v' : video) (g' : gen) : Prop := {
    ps_c : c = (32, bank_data t a 0 0, [0; 0; 0; 0]);
    ps_g : g' = GPad (bank_data t a 0 0);
    ps_v : v' = set_oow v a;
    ps_done : forall p o, in_page p o -> get_up v a p o = 0
  }.

  Lemma pop_ok rnd : forall fuel m v dw heap, (length heap <= fuel)%nat -> R v dw heap ->
    exists c v' g', pop_loop fuel ed rnd m v t a dw heap = Ok (c, v', g') /\
      (work_step v c v' g' \/ pad_step v c v' g').
  Proof.
    pose proof (to_target _ _ _ _ _ _ _ T) as (RT & KT & TT).
    pose proof (to_bank _ _ _ _ _ _ _ T) as G.
    induction fuel as [|fuel IH]; intros m v dw heap HL I.
    - destruct heap; [|cbn in HL; lia]. cbn [pop_loop].
      pose proof (ri_v _ _ _ _ _ _ _ _ _ _ _ I) as VI. rewrite (vi_kind _ _ _ VI).
      assert (EM : bank_mem t (match k with HGR => false | DHGR => a end) = Ok (bank_data t a)).
      { apply target_mem; auto. }
      rewrite EM. cbn [rbind heap_pop]. eexists _, _, _. split; [reflexivity|]. right. constructor; auto.
      intros p o Hin. destruct (Z.eq_dec (get_up v a p o) 0) as [|N]; auto.
      destruct (ri_cover _ _ _ _ _ _ _ _ _ _ _ I p o Hin N) as (e & [] & _).
    - cbn [pop_loop].
      pose proof (ri_v _ _ _ _ _ _ _ _ _ _ _ I) as VI. rewrite (vi_kind _ _ _ VI).
      assert (EM : bank_mem t (match k with HGR => false | DHGR => a end) = Ok (bank_data t a)).
      { apply target_mem; auto. }
      rewrite EM. cbn [rbind]. clear EM.
      destruct (heap_pop heap) as [[e heap1]|] eqn:EP.
      2:{ apply heap_pop_none in EP. subst heap. eexists _, _, _. split; [reflexivity|]. right. constructor; auto.
          intros p o Hin. destruct (Z.eq_dec (get_up v a p o) 0) as [|N]; auto.
          destruct (ri_cover _ _ _ _ _ _ _ _ _ _ _ I p o Hin N) as (e & [] & _). }
      apply heap_pop_some in EP. destruct EP as [P MIN].
      pose proof (ri_heap _ _ _ _ _ _ _ _ _ _ _ I) as FH.
      pose proof (Permutation_Forall P FH) as FH1. inversion FH1 as [|? ? (Hin & Hho & Hkey) FH2]; subst.
      rewrite Hho. cbn [negb assert_].
      assert (HL1 : (length heap1 <= fuel)%nat) by (apply Permutation_length in P; cbn in P; lia).
      destruct (Z.eqb_spec (get_up v a (en_page e) (en_off e)) 0) as [Z0|N0].
      + destruct (IH m v dw heap1 HL1) as (c & v' & g' & E & S).
        { destruct I as [I1 I2 I3 I4 I5 I6 I7 I8 I9]. constructor; auto.
          intros p o Hpo Hup. destruct (I8 p o Hpo Hup) as (x & Hx & Q1 & Q2 & Q3). exists x. split; [|auto].
          apply (Permutation_in _ P) in Hx. destruct Hx as [<-|Hx]; [|auto]. subst p o. contradiction. }
        exists c, v', g'. split; auto.
      + set (page := en_page e) in *. set (offset := en_off e) in *. set (content := bank_data t a page offset).
        assert (Hc : is_byte content) by (apply bank_byte; auto).
        assert (Htop : k = DHGR -> content < 128).
        { intros Hk. apply TT; auto. apply (holes_iff page offset Hin). exact Hho. }
        assert (A : match k with HGR => true | DHGR => content <? 128 end = true).
        { apply top_ok; exact Htop. }
        rewrite A. cbn [assert_]. clear A.
        (* the popped entry is an original one *)
        destruct (ri_cover _ _ _ _ _ _ _ _ _ _ _ I page offset Hin N0) as (e0 & He0 & _ & _ & K0).
        destruct (ri_U _ _ _ _ _ _ _ _ _ _ _ I page offset Hin N0) as [HD0 HU0].
        rewrite Forall_forall in MIN.
        assert (KE : en_key e = - U page offset).
        { pose proof (entry_lt_key _ _ (MIN e0 He0)). destruct Hkey as [[Q _]|Q]; [exact Q|lia]. }
        assert (MAX : forall p o, in_page p o -> get_up v a p o <> 0 -> U p o <= U page offset).
        { intros p o Hpo Hup. destruct (ri_cover _ _ _ _ _ _ _ _ _ _ _ I p o Hpo Hup) as (x & Hx & _ & _ & Kx).
          pose proof (entry_lt_key _ _ (MIN x Hx)). lia. }
        destruct (set_cell ed k n t a U D T v page offset content 0 VI Hin Hho Hc Htop ltac:(lia)) as (pix & Ea & VI' & GU & B & B' & GO & OO).
        cbv zeta in VI', GU, B, B', GO, OO. rewrite Ea. cbn [rbind].
        set (v2 := set_pix (set_up v a (upd2 (get_up v a) page offset 0)) pix) in *.
        set (dw1 := upd2 dw page offset 0).
        assert (I2 : R v2 dw1 heap1).
        { destruct I as [I1 I2 I3 I4 I5 I6 I7 I8 I9]. constructor.
          - exact VI'.
          - congruence.
          - congruence.
          - congruence.
          - intros p o Hpo. rewrite GU. unfold dw1.
            destruct (upd2_cases (get_up v a) page offset 0 p o) as [(-> & -> & ->)|(NN & ->)].
            + rewrite upd2_same. auto.
            + rewrite upd2_other by auto. auto.
          - intros p o Hpo. rewrite GU. destruct (upd2_cases (get_up v a) page offset 0 p o) as [(-> & -> & ->)|(NN & ->)]; auto; lia.
          - exact FH2.
          - intros p o Hpo. rewrite GU. destruct (upd2_cases (get_up v a) page offset 0 p o) as [(-> & -> & ->)|(NN & ->)]; [lia|].
            intros Hup. destruct (I8 p o Hpo Hup) as (x & Hx & Q1 & Q2 & Q3). exists x. split; [|auto].
            apply (Permutation_in _ P) in Hx. destruct Hx as [<-|Hx]; [|auto]. exfalso. subst p o. destruct NN; auto.
          - intros p o Hpo Hh. rewrite GU, B. destruct (upd2_cases (get_up v a) page offset 0 p o) as [(-> & -> & ->)|(NN & ->)].
            + intros _. left. rewrite upd2_same. reflexivity.
            + rewrite upd2_other by auto. auto. }
        destruct (compute_error_ok ed t page content dw1 a rnd m RT ltac:(rewrite KT; exact G) (proj1 Hin) Hc) as (cands & m1 & EC & ND & NK & CS).
        rewrite EC. cbn [rbind].
        assert (DW : forall o, in_page page o -> 0 < dw1 page o -> dw1 page o = D page o /\ o <> offset).
        { intros o Ho Hpos. destruct (ri_dw _ _ _ _ _ _ _ _ _ _ _ I2 page o Ho) as [Q|[Q _]]; [|lia].
          split; [exact Q|]. intros ->. unfold dw1 in Hpos. rewrite upd2_same in Hpos. lia. }
        assert (FC : Forall (cand_ok dw1 page offset) cands).
        { apply Forall_forall. intros x Hx. assert (Hx' : In (en_off x) (map en_off cands)) by (apply in_map; auto).
          apply CS in Hx'. destruct Hx' as [Hr Hs].
          pose proof (store_error_bound ed k t a page (en_off x) content (to_ed _ _ _ _ _ _ _ T) KT G) as SB.
          assert (Hpg : in_page page (en_off x)) by (split; [apply Hin|auto]).
          assert (Hpos : 0 < dw1 page (en_off x)) by lia.
          destruct (DW _ Hpg Hpos) as [Q1 Q2].
          repeat split; try lia; try apply Hin.
          - rewrite Forall_forall in NK. auto.
          - destruct (hole page (en_off x)) eqn:Hh; auto. rewrite (to_D_hole _ _ _ _ _ _ _ T) in Q1 by auto. lia. }
        destruct (fill_ok ed k n v0 t a U D T page offset content rnd dw1 Hc Htop cands m1 v2 heap1 [offset] I2 FC ltac:(cbn; lia))
          as (v3 & heap2 & new & EF & I3 & L3 & B3 & N3 & M3 & ND3 & CO3).
        rewrite EF. cbn [rbind app]. eexists _, _, _. split; [reflexivity|]. left. constructor.
        exists page, offset, new, dw1, heap2.
        assert (NU : forall o, o <> offset -> get_up v2 a page o = get_up v a page o).
        { intros o Ho. rewrite GU, upd2_other; auto. }
        assert (CN : forall o, In o new -> in_page page o /\ hole page o = false /\ o <> offset /\ get_up v a page o <> 0 /\
                             store_error ed t a page o content < D page o).
        { intros o Ho. destruct (N3 o Ho) as [H1 H2]. pose proof H1 as H1'. apply CS in H1. destruct H1 as [Hr Hs].
          apply in_map_iff in H1'. destruct H1' as (x & Ex & Hx). rewrite Forall_forall in FC.
          destruct (FC x Hx) as (C1 & _ & C3 & C4 & C5). rewrite Ex in *.
          destruct (DW o C1 C5) as [Q1 _]. rewrite NU in H2 by auto. repeat split; auto; try apply C1. lia. }
        cbn [length app] in L3, CO3.
        split; [reflexivity|]. split; [reflexivity|]. split; [exact I3|]. split; [exact Hin|]. split; [exact Hho|].
        split; [exact N0|]. split.
        { destruct (Z.eq_dec (get_up v3 a page offset) 0) as [|NZ]; auto. apply M3 in NZ; auto. rewrite GU, upd2_same in NZ. lia. }
        split; [exact MAX|]. split.
        { intros p o Hpo Hup. apply M3 in Hup; auto. rewrite GU in Hup.
          destruct (upd2_cases (get_up v a) page offset 0 p o) as [(-> & -> & Q)|(NN & Q)]; rewrite Q in Hup; auto; lia. }
        split; [cbn [fold_left]; rewrite B3, B; reflexivity|].
        split. { constructor; [|apply ND3; exact ND]. intros Hx. destruct (CN offset Hx) as (_ & _ & Q & _). auto. }
        split; [lia|]. split.
        { intros o Ho. destruct (CN o Ho) as (Q1 & Q2 & Q3 & Q4 & Q5). auto. }
        destruct CO3 as [CO3|CO3]; [left; lia|right].
        intros o Ho Hne Hup Hse. apply CO3; [|rewrite NU; auto].
        apply CS. split; [apply Ho|].
        destruct (ri_dw _ _ _ _ _ _ _ _ _ _ _ I2 page o Ho) as [Q|[Q1 Q2]]; [rewrite Q; exact Hse|].
        rewrite NU in Q2 by auto. contradiction.
  Qed.
End Pop.

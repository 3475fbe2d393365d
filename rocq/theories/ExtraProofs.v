(** Which extra offsets a change stores to, and what becomes of the priorities. *)
From Verif Require Import Base BaseFacts BitFacts ScreenModel ScreenSpec ScreenProofs BitmapModel DisplaySpec
  BitmapSpec BitmapProofs BitmapApply BitmapState BitmapFacts VideoModel VideoSpec HeapFacts VideoProofs VideoStep VideoFacts VideoThms
  TableModel TableSpec TableFacts VideoDisplay.
From Coq Require Import Permutation Sorted.
Opaque TABLES all_pairs.

Definition by_key (x y : entry) : Prop := en_key x <= en_key y.
Lemma pop_all_sorted n : forall h, length h = n -> StronglySorted by_key (pop_all n h).
Proof.
  induction n as [|n IH]; intros h Hn; cbn [pop_all]; [constructor|].
  destruct (heap_pop h) as [[e r]|] eqn:E; [|constructor].
  apply heap_pop_some in E. destruct E as [P M].
  assert (L : length r = n) by (apply Permutation_length in P; cbn in P; lia).
  constructor; [apply IH; exact L|].
  apply (Permutation_Forall (pop_all_perm n r L)).
  apply (Permutation_Forall P) in M. inversion M as [|? ? _ M']; subst.
  eapply Forall_impl; [|exact M']. intros x Hx. apply entry_lt_key. exact Hx.
Qed.
Lemma sorted_filter {A} (R : A -> A -> Prop) f l : StronglySorted R l -> StronglySorted R (filter f l).
Proof.
  induction 1 as [|x l S IH F]; cbn [filter]; [constructor|]. destruct (f x); [|exact IH].
  constructor; [exact IH|]. apply Forall_forall. intros y Hy. apply filter_In in Hy. rewrite Forall_forall in F. apply F, Hy.
Qed.

(** error that a store leaves: distance of the frame with the byte stored from the frame *)
Definition left_error (ed : table) (t : bitmap) (a : bool) (p o c d : Z) : Prop :=
  exists t' dist, apply t p o a c = Ok t' /\ diff_weights ed t' t a = Ok dist /\ d = dist p o.
Lemma store_what_if ed t a p o c : reachable t -> good_bank (bm_kind t) a -> in_page p o -> is_byte c ->
  left_error ed t a p o c (what_if_distance ed t a p o c).
Proof.
  intros R G Hin Hc. destruct (apply_bank t p o a c R Hin G Hc) as (t' & E & _).
  destruct (byte_pair_difference_ok ed t a p o c G) as (b & Eb & Ed).
  destruct (byte_pair_difference_is_distance ed t p c a o t' b R (proj1 Hin) (proj2 Hin) G Hc E Eb) as (r & dist & E1 & E2 & E3).
  rewrite Ed in E1. injection E1 as <-. exists t', dist. auto.
Qed.

Definition free (v : video) (a : bool) (page : Z) (o : Z) : bool := negb (get_up v a page o =? 0).

Lemma fill_take ed t a page offset content rnd : good_bank (bm_kind t) a ->
  forall cands m v heap offsets v3 heap2 offs3, (1 <= length offsets <= 2)%nat -> NoDup (map en_off cands) ->
  fill_slots ed t a page offset content rnd m cands v heap offsets = Ok (v3, heap2, offs3) ->
  let new := firstn (3 - length offsets) (filter (free v a page) (map en_off cands)) in
  offs3 = offsets ++ new /\
  forall p o, get_up v3 a p o = if (p =? page) && existsb (Z.eqb o) new then what_if_distance ed t a page o content else get_up v a p o.
Proof.
  intros G. induction cands as [|c cands IH]; intros m v heap offsets v3 heap2 offs3 HL ND E; cbn [fill_slots] in E.
  - injection E as <- <- <-. cbn [map filter]. rewrite firstn_nil. cbv zeta. rewrite app_nil_r. split; [reflexivity|].
    intros p o. cbn [existsb]. rewrite andb_false_r. reflexivity.
  - destruct (_ && _ && _) in E; [|discriminate]. cbn [assert_] in E.
    destruct (negb (en_off c =? offset)) in E; [|discriminate]. cbn [assert_] in E.
    destruct (negb (hole page (en_off c))) in E; [|discriminate]. cbn [assert_] in E.
    inversion ND as [|? ? NI ND']; subst. cbn [map filter]. replace (free v a page (en_off c)) with (negb (get_up v a page (en_off c) =? 0)) by reflexivity.
    destruct (Z.eqb_spec (get_up v a page (en_off c)) 0) as [Z0|N0]; cbn [negb].
    + apply (IH m v heap offsets v3 heap2 offs3 HL ND' E).
    + destruct (byte_pair_difference_ok ed t a page (en_off c) content G) as (b & Eb & Ep). rewrite Eb in E. cbn [rbind] in E. rewrite Ep in E. cbn [rbind] in E.
      set (w := what_if_distance ed t a page (en_off c) content) in *.
      destruct (apply _ _ _ _ _) as [pix|] in E; [|discriminate]. cbn [rbind] in E.
      set (v2 := set_pix (set_up v a (upd2 (get_up v a) page (en_off c) w)) pix) in *.
      assert (GU : get_up v2 a = upd2 (get_up v a) page (en_off c) w) by (unfold v2; rewrite get_up_set_pix, get_set_up; reflexivity).
      set (heap' := if w =? 0 then heap else _) in *. clearbody heap'.
      destruct (Z.eqb_spec (Z.of_nat (length (offsets ++ [en_off c]))) 3) as [L3|L3]; rewrite app_length in L3; cbn [length] in L3.
      * injection E as <- <- <-. replace (3 - length offsets)%nat with 1%nat by lia. cbn [firstn]. cbv zeta. split; [reflexivity|].
        intros p o. rewrite GU. cbn [existsb]. rewrite orb_false_r. unfold upd2.
        destruct (Z.eqb_spec o (en_off c)) as [->|]; [reflexivity|]. rewrite !andb_false_r. reflexivity.
      * assert (LA : length (offsets ++ [en_off c]) = S (length offsets)) by (rewrite app_length; cbn [length]; lia).
        destruct (IH (m + 1) v2 heap' (offsets ++ [en_off c]) v3 heap2 offs3 ltac:(lia) ND' E) as [Q1 Q2].
        rewrite LA in Q1, Q2.
        assert (EF : filter (free v2 a page) (map en_off cands) = filter (free v a page) (map en_off cands)).
        { apply filter_ext_in. intros x Hx. unfold free. rewrite GU, upd2_other; [reflexivity|]. right. intros ->. contradiction. }
        rewrite EF in Q1, Q2. replace (3 - length offsets)%nat with (S (3 - S (length offsets))) by lia. cbn [firstn]. cbv zeta.
        split; [rewrite Q1, <- app_assoc; reflexivity|].
        intros p o. rewrite Q2, GU. cbn [existsb]. unfold upd2.
        destruct (Z.eqb_spec p page) as [->|]; cbn [andb]; [|reflexivity].
        destruct (Z.eqb_spec o (en_off c)) as [->|]; cbn [orb]; [|reflexivity].
        match goal with |- (if ?b then _ else _) = _ => destruct b; reflexivity end.
Qed.

Lemma compute_error_parts ed t page content dw a rnd n cands m delta :
  compute_delta_page ed t page content (dw page) a = Ok delta -> compute_error ed t page content dw a rnd n = Ok (cands, m) ->
  exists h, error_candidates delta rnd n (zrange 256) = (h, m) /\ cands = pop_all (length h) h.
Proof.
  intros E E0. unfold compute_error in E0. rewrite E in E0. revert E0. generalize (zrange 256). intros z E0. unfold rbind in E0.
  destruct (error_candidates delta rnd n z) as [h m0]. injection E0 as <- <-. exists h. split; reflexivity.
Qed.
Lemma compute_error_sorted ed t page content dw a rnd n cands m : reachable t -> good_bank (bm_kind t) a -> 0 <= page < 32 -> is_byte content ->
  compute_error ed t page content dw a rnd n = Ok (cands, m) ->
  StronglySorted by_key cands /\ NoDup (map en_off cands) /\
  Forall (fun e => 0 <= en_off e < 256 /\ en_key e = store_error ed t a page (en_off e) content - dw page (en_off e)) cands /\
  (forall o, In o (map en_off cands) <-> (0 <= o < 256 /\ store_error ed t a page o content < dw page o)).
Proof.
  intros R G Hp Hc E0.
  destruct (compute_error_ok ed t page content dw a rnd n R G Hp Hc) as (cands' & m' & E1 & ND & NK & CS).
  rewrite E0 in E1. injection E1 as <- <-.
  destruct (delta_spec ed t a page content (dw page) R G Hp Hc) as (delta & E & S). 
  destruct (compute_error_parts ed t page content dw a rnd n cands m delta E E0) as (h & EC & ->). clear E0 E.
  destruct (candidates_spec delta rnd (zrange 256) n h m EC) as [C1 C2].
  split; [apply pop_all_sorted; reflexivity|]. split; [exact ND|]. split; [|exact CS].
  pose proof (pop_all_perm (length h) h eq_refl) as P.
  apply Forall_forall. intros e He.
  assert (IR : 0 <= en_off e < 256) by (apply CS, in_map, He). split; [exact IR|].
  apply (Permutation_in _ (Permutation_sym P)) in He. rewrite Forall_forall in C2. rewrite (C2 e He), S by exact IR. reflexivity.
Qed.

(** the first two of a sorted list *)
Lemma firstn2_sorted (l : list entry) : StronglySorted by_key l -> NoDup (map en_off l) ->
  let new := firstn 2 l in
  (forall e, In e l -> ~ In (en_off e) (map en_off new) -> length new = 2%nat /\ Forall (fun x => en_key x <= en_key e) new) /\
  (forall x y, new = [x; y] -> en_key x <= en_key y).
Proof.
  intros S ND. destruct l as [|x [|y l]]; cbn [firstn]; cbv zeta.
  - split; [intros e []|discriminate].
  - split; [intros e [<-|[]] H; exfalso; apply H; left; reflexivity|discriminate].
  - inversion S as [|? ? S' F]; subst. inversion S' as [|? ? S'' F']; subst. inversion F as [|? ? Fy F'']; subst. split.
    + intros e [<-|[<-|He]] H; [exfalso; apply H; left; reflexivity|exfalso; apply H; right; left; reflexivity|].
      split; [reflexivity|]. rewrite Forall_forall in F', F''. constructor; [apply F''; exact He|constructor; [apply F'; exact He|constructor]].
    + intros x' y' E. injection E as <- <-. exact Fy.
Qed.

Section Pop.
  Variables (ed : table) (k : kind) (n : Z) (v0 : video) (t : bitmap) (a : bool) (U D : Z -> Z -> Z).
  Hypothesis T : TOk ed k n t a U D.
  Let R := RInv ed k n v0 t a U D.
  Let gain page content o := D page o - store_error ed t a page o content.

  (** the extras of one working step *)
  Definition extras (v v' : video) (c : change) : Prop := exists page offset content new,
    c = (page + 32, content, pad4 (offset :: new)) /\ in_page page offset /\ (length new <= 2)%nat /\
    (forall o, In o new -> 0 <= o < 256 /\ o <> offset /\ get_up v a page o <> 0) /\
    (forall o, 0 <= o < 256 -> o <> offset -> ~ In o new -> get_up v a page o <> 0 -> 0 < gain page content o ->
       length new = 2%nat /\ forall x, In x new -> gain page content o <= gain page content x) /\
    (forall x y, new = [x; y] -> gain page content y <= gain page content x) /\
    get_up v' a page offset = 0 /\
    (forall o, In o new -> left_error ed t a page o content (get_up v' a page o)) /\
    (forall p o, in_page p o -> p <> page \/ ~ In o (offset :: new) -> get_up v' a p o = get_up v a p o).

  Lemma pop_extras rnd : forall fuel m v dw heap c v' g', R v dw heap ->
    pop_loop fuel ed rnd m v t a dw heap = Ok (c, v', g') -> ~ is_pad g' -> extras v v' c.
  Proof.
    pose proof (to_target _ _ _ _ _ _ _ T) as (RT & KT & TT). pose proof (to_bank _ _ _ _ _ _ _ T) as G.
    induction fuel as [|fuel IH]; intros m v dw heap c v' g' I E NP; cbn [pop_loop] in E;
      pose proof (ri_v _ _ _ _ _ _ _ _ _ _ _ I) as VI; rewrite (vi_kind _ _ _ VI) in E;
      rewrite (target_mem k t a RT KT G) in E; cbn [rbind] in E.
    - destruct (heap_pop heap) as [[e heap1]|]; [discriminate|]. injection E as <- <- <-. exfalso. apply NP. exact Logic.I.
    - destruct (heap_pop heap) as [[e heap1]|] eqn:EP; [|injection E as <- <- <-; exfalso; apply NP; exact Logic.I].
      apply heap_pop_some in EP. destruct EP as [P MIN].
      pose proof (Permutation_Forall P (ri_heap _ _ _ _ _ _ _ _ _ _ _ I)) as FH1. assert (HH : in_page (en_page e) (en_off e) /\ hole (en_page e) (en_off e) = false) by (inversion FH1 as [|? ? HH0 FH2]; tauto). destruct HH as [Hin Hho]. pose proof (Forall_inv_tail FH1) as FH2.
      rewrite Hho in E. cbn [negb assert_] in E.
      destruct (Z.eqb_spec (get_up v a (en_page e) (en_off e)) 0) as [Z0|N0].
      + apply (IH m v dw heap1 c v' g'); [|exact E|exact NP].
        destruct I as [I1 I2 I3 I4 I5 I6 I7 I8 I9]. constructor; auto.
        intros p o Hpo Hup. destruct (I8 p o Hpo Hup) as (x & Hx & Q1 & Q2 & Q3). exists x. split; [|auto].
        apply (Permutation_in _ P) in Hx. destruct Hx as [<-|Hx]; [|auto]. subst p o. contradiction.
      + clear IH. set (page := en_page e) in *. set (offset := en_off e) in *. set (content := bank_data t a page offset) in *.
        assert (Hc : is_byte content) by (apply bank_byte; auto).
        destruct (match k with HGR => true | DHGR => content <? 128 end) in E; [|discriminate]. cbn [assert_] in E.
        destruct (apply _ _ _ _ _) as [pix|] in E; [|discriminate]. cbn [rbind] in E.
        set (v2 := set_pix (set_up v a (upd2 (get_up v a) page offset 0)) pix) in *.
        assert (GU : get_up v2 a = upd2 (get_up v a) page offset 0) by (unfold v2; rewrite get_up_set_pix, get_set_up; reflexivity).
        set (dw1 := upd2 dw page offset 0) in *.
        destruct (compute_error ed t page content dw1 a rnd m) as [[cands m1]|] eqn:EC; [|discriminate]. cbn [rbind] in E.
        destruct (fill_slots _ _ _ _ _ _ _ _ _ _ _ _) as [[[v3 heap2] offs]|] eqn:EF in E; [|discriminate]. cbn [rbind] in E.
        injection E as <- <- <-. clear NP.
        assert (G' : good_bank (bm_kind t) a) by (rewrite KT; exact G).
        destruct (compute_error_sorted ed t page content dw1 a rnd m cands m1 RT G' (proj1 Hin) Hc EC) as (SO & ND & KE & CS).
        destruct (fill_take ed t a page offset content rnd G' cands m1 v2 heap1 [offset] v3 heap2 offs ltac:(cbn; lia) ND EF) as [Q1 Q2].
        cbn [length] in Q1, Q2. change (3 - 1)%nat with 2%nat in Q1, Q2.
        set (new := firstn 2 (filter (free v2 a page) (map en_off cands))) in *.
        assert (EN : new = map en_off (firstn 2 (filter (fun e => free v2 a page (en_off e)) cands))).
        { unfold new. rewrite <- firstn_map. f_equal. clear. induction cands as [|x l IH]; [reflexivity|]. cbn [map filter].
          destruct (free v2 a page (en_off x)); cbn [map]; rewrite IH; reflexivity. }
        set (fc := filter (fun e => free v2 a page (en_off e)) cands) in *.
        assert (SF : StronglySorted by_key fc) by (apply sorted_filter; exact SO).
        assert (NF : NoDup (map en_off fc)).
        { replace (map en_off fc) with (filter (free v2 a page) (map en_off cands)); [apply NoDup_filter; exact ND|].
          unfold fc. clear. induction cands as [|x l IH]; [reflexivity|]. cbn [map filter].
          destruct (free v2 a page (en_off x)); cbn [map]; rewrite IH; reflexivity. }
        destruct (firstn2_sorted fc SF NF) as [F1 F2].
        assert (FR : forall o, free v2 a page o = true <-> o <> offset /\ get_up v a page o <> 0).
        { intros o. unfold free. rewrite GU. destruct (upd2_cases (get_up v a) page offset 0 page o) as [(_ & -> & ->)|(NN & ->)].
          - split; [discriminate|intros [H _]; destruct H; reflexivity].
          - rewrite negb_true_iff, Z.eqb_neq. split; [intros H; split; [|exact H]|intros [_ H]; exact H].
            intros ->. destruct NN as [NN|NN]; apply NN; reflexivity. }
        assert (DW : forall o, 0 <= o < 256 -> o <> offset -> get_up v a page o <> 0 -> dw1 page o = D page o).
        { intros o Ho NO HU. unfold dw1. rewrite upd2_other by auto.
          destruct (ri_dw _ _ _ _ _ _ _ _ _ _ _ I page o (conj (proj1 Hin) Ho)) as [Q|[_ Q]]; [exact Q|contradiction]. }
        assert (KG : forall x, In x fc -> 0 <= en_off x < 256 /\ en_off x <> offset /\ get_up v a page (en_off x) <> 0 /\ en_key x = - gain page content (en_off x)).
        { intros x Hx. apply filter_In in Hx. destruct Hx as [Hx HF]. apply FR in HF. rewrite Forall_forall in KE. destruct (KE x Hx) as [K1 K2].
          split; [exact K1|]. split; [apply HF|]. split; [apply HF|]. rewrite K2. rewrite (DW (en_off x) K1 (proj1 HF) (proj2 HF)). unfold gain. lia. }
        assert (FI : forall x, In x (firstn 2 fc) -> In x fc).
        { intros x Hx. rewrite <- (firstn_skipn 2 fc). apply in_or_app. left. exact Hx. }
        exists page, offset, content, new. split; [rewrite Q1; reflexivity|]. split; [exact Hin|].
        split; [unfold new; rewrite firstn_length; lia|]. split; [|split; [|split]].
        * intros o Ho. rewrite EN in Ho. apply in_map_iff in Ho. destruct Ho as (x & <- & Hx). apply FI, KG in Hx. tauto.
        * intros o Ho NO NI HU HG.
          assert (Hc' : In o (map en_off cands)).
          { apply CS. split; [exact Ho|]. rewrite (DW o Ho NO HU). unfold gain in HG. lia. }
          apply in_map_iff in Hc'. destruct Hc' as (x & Ex & Hx).
          assert (Hf : In x fc) by (apply filter_In; split; [exact Hx|]; rewrite Ex; apply FR; auto).
          destruct (F1 x Hf) as [L2 FL]; [rewrite <- EN, Ex; exact NI|]. split; [rewrite EN, map_length; exact L2|].
          intros y Hy. rewrite EN in Hy. apply in_map_iff in Hy. destruct Hy as (z & <- & Hz). rewrite Forall_forall in FL. specialize (FL z Hz).
          pose proof (proj2 (proj2 (proj2 (KG x Hf)))) as K1. pose proof (proj2 (proj2 (proj2 (KG z (FI z Hz))))) as K2. rewrite Ex in K1. lia.
        * intros x y Exy. rewrite EN in Exy. destruct (firstn 2 fc) as [|x' [|y' [|]]] eqn:E2; try discriminate. cbn [map] in Exy. injection Exy as <- <-.
          specialize (F2 x' y' eq_refl).
          pose proof (proj2 (proj2 (proj2 (KG x' (FI x' (or_introl eq_refl)))))) as K1. pose proof (proj2 (proj2 (proj2 (KG y' (FI y' (or_intror (or_introl eq_refl))))))) as K2. lia.
        * assert (EX : forall o, existsb (Z.eqb o) new = true <-> In o new).
          { intros o. rewrite existsb_exists. split; [intros (y & Hy & Ey); apply Z.eqb_eq in Ey; subst y; exact Hy|intros Hy; exists o; split; [exact Hy|apply Z.eqb_refl]]. }
          assert (NO : forall o, In o new -> 0 <= o < 256 /\ o <> offset).
          { intros o Hy. rewrite EN in Hy. apply in_map_iff in Hy. destruct Hy as (x & <- & Hx). apply FI, KG in Hx. tauto. }
          split; [|split].
          -- rewrite Q2, GU, upd2_same, Z.eqb_refl. cbn [andb]. destruct (existsb (Z.eqb offset) new) eqn:X; [|reflexivity].
             apply EX in X. destruct (NO offset X) as [_ N]. contradiction.
          -- intros o Ho. rewrite Q2, Z.eqb_refl. rewrite (proj2 (EX o) Ho). cbn [andb]. apply store_what_if; auto. split; [apply Hin|apply NO, Ho].
          -- intros p o Hpo HN. rewrite Q2, GU. destruct (upd2_cases (get_up v a) page offset 0 p o) as [(-> & -> & _)|(_ & ->)].
             { exfalso. destruct HN as [HN|HN]; [apply HN; reflexivity|apply HN; left; reflexivity]. }
             destruct (Z.eqb_spec p page) as [->|]; cbn [andb]; [|reflexivity].
             destruct (existsb (Z.eqb o) new) eqn:X; [|reflexivity]. apply EX in X. exfalso. destruct HN as [HN|HN]; [apply HN; reflexivity|apply HN; right; exact X].
  Qed.
End Pop.

Section Thms.
  Variables (ed : table) (k : kind) (n : Z) (v0 : video) (t : bitmap) (a : bool) (l : list change) (v : video) (g : gen).
  Hypothesis HE : u16_table k ed.
  Hypothesis HV : encoder ed k n v0.
  Hypothesis HT : good_target k t.
  Hypothesis HG : good_bank k a.
  Hypothesis HF : frame_run ed v0 t a l v g.

  Lemma next_extras rnd c v' g' : next ed rnd v g = Ok (c, v', g') -> ~ is_pad g' ->
    extras ed t a (start_distance ed t (v_pix v0) a) (vs ed v0 t a v g) v' c.
  Proof.
    intros E NP. destruct (encoder_vinv ed k n v0 HE HV) as [VI HN].
    pose proof (tok ed k n v0 t a HE HT HG HN) as TK.
    pose proof (fst_ ed k n v0 t a l v g HE HV HT HG HF) as FS.
    destruct FS as [-> -> | dw heap I B L | work j E' VI' O1 O2 O3 B L Z0 S].
    - destruct (start_distance_ok ed k t v0 a HE HT HG) as (dw0 & ED & EQ & B).
      rewrite (next_start ed rnd v0 t a dw0 ED) in E.
      destruct (bank_mem (v_pix v0) a) as [mm|]; [|discriminate]. unfold rbind in E.
      destruct (holes_clear mm) in E; [|discriminate]. rewrite assert_true in E.
      destruct (forallb _ all_pairs) in E; [|discriminate]. rewrite assert_true in E.
      destruct (heapify_priorities (start_priority ed v0 t a) rnd) as [h m] eqn:EH.
      cbn [vs]. eapply (pop_extras ed k (n + 1) v0 t a (start_priority ed v0 t a) _ TK rnd); [|exact E|exact NP].
      apply (start_inv ed k n v0 t a HE HT HG VI rnd m h EH).
    - cbn [next] in E. cbn [vs]. eapply (pop_extras ed k (n + 1) v0 t a (start_priority ed v0 t a) _ TK rnd); [exact I|exact E|exact NP].
    - cbn [next] in E. injection E as <- <- <-. exfalso. apply NP. exact Logic.I.
  Qed.

  Let gain page content o := start_distance ed t (v_pix v0) a page o - store_error ed t a page o content.
  Lemma extras_facts rnd pg content o0 o1 o2 o3 v' g' : next ed rnd v g = Ok ((pg, content, [o0; o1; o2; o3]), v', g') -> ~ is_pad g' ->
    let page := pg - 32 in let up := priority_now ed v0 t a v g in let up' := priority_now ed v0 t a v' g' in
    (o2 <> o0 -> gain page content o2 <= gain page content o1) /\
    (forall o, 0 <= o < 256 -> ~ In o [o0; o1; o2] -> up page o <> 0 -> 0 < gain page content o ->
       o2 <> o0 /\ gain page content o <= gain page content o2) /\
    up' page o0 = 0 /\
    (forall o, In o [o1; o2] -> o <> o0 -> left_error ed t a page o content (up' page o)) /\
    (forall p o, in_page p o -> p <> page \/ ~ In o [o0; o1; o2] -> up' p o = up p o).
  Proof.
    intros E NP page up up'.
    assert (G1 : forall t1 a1, g' <> GStart t1 a1).
    { intros t1 a1 ->. pose proof (fst_ ed k n v0 t a _ _ _ HE HV HT HG (fr_next _ _ _ _ l v g rnd _ _ _ HF E)) as FS.
      inversion FS as [H| | ]. destruct l; discriminate. }
    assert (U1 : forall p o, get_up v' a p o = up' p o).
    { intros p o. unfold up'. destruct g'; try reflexivity. exfalso. eapply G1. reflexivity. }
    assert (U0 : forall p o, get_up (vs ed v0 t a v g) a p o = up p o) by (intros p o; unfold up; destruct g; cbn [vs priority_now]; [rewrite get_set_up| |]; reflexivity).
    destruct (next_extras rnd _ v' g' E NP) as (page1 & offset & c1 & new & E1 & Hin & L & NW & CO & SO & Z0 & LE & UN).
    pose proof (f_equal (fun c => fst (fst c)) E1) as Ep. pose proof (f_equal (fun c => snd (fst c)) E1) as Ec.
    pose proof (f_equal snd E1) as Eo. cbn [fst snd] in Ep, Ec, Eo. clear E1.
    assert (EP : page1 = page) by (unfold page; lia). clear Ep. subst page1. rewrite <- Ec in *. clear Ec c1.
    setoid_rewrite U1 in Z0. setoid_rewrite U1 in LE. setoid_rewrite U1 in UN. setoid_rewrite U0 in NW. setoid_rewrite U0 in CO. setoid_rewrite U0 in UN.
    clearbody page up up'. clear U1 U0 G1 E.
    destruct new as [|x [|y [|z new]]]; [| | |cbn in L; lia];
      unfold pad4 in Eo; cbn [app length nth repeat Nat.sub] in Eo; injection Eo as -> -> -> ->.
    - split; [intros H; destruct H; reflexivity|]. split.
      { intros o Ho NI HU HG'. destruct (CO o Ho) as [Q _]; auto; [intros ->; apply NI; left; reflexivity|discriminate]. }
      split; [exact Z0|]. split; [intros o [<-|[<-|[]]] H; destruct H; reflexivity|].
      intros p o Hp [H|H]; apply UN; auto. right. intros [<-|[]]. apply H. left. reflexivity.
    - assert (NX : x <> offset) by (apply NW; left; reflexivity).
      split; [intros H; destruct H; reflexivity|]. split.
      { intros o Ho NI HU HG'. destruct (CO o Ho) as [Q _]; auto; [intros ->; apply NI; left; reflexivity| |discriminate].
        intros [<-|[]]. apply NI. right. left. reflexivity. }
      split; [exact Z0|]. split.
      { intros o [<-|[<-|[]]] H; [apply LE; left; reflexivity|destruct H; reflexivity]. }
      intros p o Hp [H|H]; apply UN; auto. right. intros [<-|[<-|[]]]; apply H; cbn; auto.
    - assert (NX : x <> offset) by (apply NW; left; reflexivity). assert (NY : y <> offset) by (apply NW; right; left; reflexivity).
      split; [intros _; apply SO; reflexivity|]. split.
      { intros o Ho NI HU HG'. split; [exact NY|]. destruct (CO o Ho) as [_ Q]; auto.
        - intros ->. apply NI. left. reflexivity.
        - intros [<-|[<-|[]]]; apply NI; cbn; auto.
        - apply Q. right. left. reflexivity. }
      split; [exact Z0|]. split.
      { intros o [<-|[<-|[]]] H; apply LE; cbn; auto. }
      intros p o Hp [H|H]; apply UN; auto. 
  Qed.
End Thms.

(** for the tables the program builds, that error is the one that made the byte
    a candidate *)
Lemma left_error_symmetric ed t a p o c d : reachable t -> good_bank (bm_kind t) a -> in_page p o -> is_byte c ->
  (forall q x y, valid_o (bm_kind t) q -> 0 <= x < 2 ^ MASKED_BITS (bm_kind t) -> 0 <= y < 2 ^ MASKED_BITS (bm_kind t) ->
     ed q (pair_index (bm_kind t) x y) = ed q (pair_index (bm_kind t) y x)) ->
  left_error ed t a p o c d -> d = store_error ed t a p o c.
Proof.
  intros R G Hin Hc S (t1 & dist & E1 & E2 & ->). destruct (apply_bank t p o a c R Hin G Hc) as (t' & E & _ & K & _).
  rewrite E1 in E. injection E as ->. unfold store_error. rewrite E1.
  destruct (diff_weights_ok ed t' t a ltac:(rewrite K; exact G)) as (f & F1 & F2). rewrite E2 in F1. injection F1 as ->.
  destruct (diff_weights_ok ed t t' a G) as (f' & F3 & F4). rewrite F3, F2, F4, K.
  apply S; [apply valid_bo; exact G|apply masked_bound, valid_bo; exact G|apply masked_bound, valid_bo; exact G].
Qed.
Lemma real_symmetric k ed : real_table k ed -> forall q x y, valid_o k q -> 0 <= x < 2 ^ MASKED_BITS k -> 0 <= y < 2 ^ MASKED_BITS k ->
  ed q (pair_index k x y) = ed q (pair_index k y x).
Proof.
  intros (dm & value & t & V & HD & _ & HT & ->) q x y Hq Hx Hy.
  apply (table_symmetric dm k value t V HD HT q x y Hq Hx Hy).
Qed.

Lemma residual_smaller ed k n v0 t a l v g :
  real_table k ed -> encoder ed k n v0 -> good_target k t -> good_bank k a -> frame_run ed v0 t a l v g ->
  forall rnd page content o0 o1 o2 o3 v' g',
  next ed rnd v g = Ok ((page, content, [o0; o1; o2; o3]), v', g') -> ~ is_pad g' ->
  forall o, In o [o1; o2] -> o <> o0 ->
  priority_now ed v0 t a v' g' (page - 32) o = store_error ed t a (page - 32) o content /\
  0 <= priority_now ed v0 t a v' g' (page - 32) o < start_distance ed t (v_pix v0) a (page - 32) o.
Proof.
  intros HR HV HT HG HF rnd page content o0 o1 o2 o3 v' g' E NP o Ho NO.
  pose proof (real_u16 k ed HR) as HE. pose proof HT as HT'. destruct HT' as (RT & KT & _).
  assert (HG' : good_bank (bm_kind t) a) by (rewrite KT; exact HG).
  pose proof (proj1 (Forall_forall _ _) (all_well_formed ed k n v0 t a _ _ _ HE HV HT HG (fr_next _ _ _ _ l v g rnd _ _ _ HF E)) (page, content, [o0; o1; o2; o3]) ltac:(apply in_or_app; right; left; reflexivity)) as (P & _ & F & C).
  cbn [nth] in C.
  assert (IO : forall x, In x [o0; o1; o2; o3] -> 0 <= x < 256) by (intros x Hx; apply (proj1 (Forall_forall _ _) F x Hx)).
  assert (O4 : In o [o0; o1; o2; o3]) by (destruct Ho as [<-|[<-|[]]]; cbn; auto).
  assert (O3 : In o [o1; o2; o3]) by (destruct Ho as [<-|[<-|[]]]; cbn; auto).
  assert (Hin : in_page (page - 32) o) by (split; [lia|apply IO, O4]).
  assert (Hc : is_byte content) by (rewrite C; apply bank_byte; [exact RT|split; [lia|apply IO; left; reflexivity]]).
  destruct (extras_facts ed k n v0 t a l v g HE HV HT HG HF rnd page content o0 o1 o2 o3 v' g' E NP) as (_ & _ & _ & LE & _).
  pose proof (LE o Ho NO) as Q. apply left_error_symmetric in Q; [|exact RT|exact HG'|exact Hin|exact Hc|rewrite KT; apply real_symmetric; exact HR].
  split; [exact Q|]. rewrite Q.
  destruct (change_facts ed k n v0 t a l v g HE HV HT HG HF rnd page content o0 o1 o2 o3 v' g' E NP) as (_ & _ & _ & W & _).
  destruct (W o O3 NO) as [_ W']. split; [|exact W']. clear - HE KT HG RT Hin Hc HG'.
  unfold store_error. destruct (apply_bank t (page - 32) o a content RT Hin HG' Hc) as (t' & -> & _).
  destruct (diff_weights_ok ed t t' a HG') as (f' & F3 & F4). rewrite F3, F4. rewrite KT. pose proof (valid_bo k o a HG). apply HE; auto using masked_bound.
Qed.

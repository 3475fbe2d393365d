(** The encoder: invariants of one frame. *)
From Verif Require Import Base BaseFacts BitFacts ScreenModel ScreenSpec ScreenProofs BitmapModel DisplaySpec
  BitmapSpec BitmapProofs BitmapApply BitmapState BitmapFacts VideoModel VideoSpec HeapFacts.
From Coq Require Import Permutation.
Opaque TABLES.

Notation hole := (screen_holes TABLES).

Lemma bank_mem_data b a : bm_ok b -> good_bank (bm_kind b) a -> bank_mem b a = Ok (bank_data b a).
Proof.
  intros I H. unfold bank_mem, bank_data. destruct a; [|reflexivity].
  destruct H as [H|H]; [|discriminate]. pose proof (ok_aux b I) as A. unfold aux_present in A.
  rewrite H in A. destruct A as (m & E & _). rewrite E. reflexivity.
Qed.

Lemma bank_byte b a p o : reachable b -> in_page p o -> is_byte (bank_data b a p o).
Proof.
  intros R [Hp Ho]. pose proof (reachable_ok b R) as I. unfold bank_data. destruct a.
  - apply (ok_aux_bytes b I); auto.
  - apply (ok_main_bytes b I); auto.
Qed.

Lemma apply_bank b p o a v : reachable b -> in_page p o -> good_bank (bm_kind b) a -> is_byte v ->
  exists b', apply b p o a v = Ok b' /\ reachable b' /\ bm_kind b' = bm_kind b /\
    bank_data b' a = upd2 (bank_data b a) p o v /\ bank_data b' (negb a) = bank_data b (negb a).
Proof.
  intros R [Hp Ho] G Hv.
  assert (GS : good_store (bm_kind b) (p, o, a, v)) by (cbn; repeat split; auto; try lia; apply Hv).
  destruct (apply_ok b p o a v (reachable_ok b R) GS) as (b' & E & _ & K & M & A & _).
  exists b'. split; [exact E|]. split; [eapply reach_apply; eauto|]. split; [exact K|].
  unfold bank_data. destruct a; cbn [negb]; rewrite M, A; auto.
Qed.

Lemma diff_weights_ok ed t b a : good_bank (bm_kind t) a -> exists f, diff_weights ed t b a = Ok f /\
  forall p o, f p o = ed (bo (bm_kind t) o a) (pair_index (bm_kind t) (mask_and_shift (bm_kind t) (bm_packed b p (o / 2)) (bo (bm_kind t) o a))
     (mask_and_shift (bm_kind t) (bm_packed t p (o / 2)) (bo (bm_kind t) o a))).
Proof.
  intros G. unfold diff_weights.
  destruct (byte_offsets_bo (bm_kind t) 0 a G) as (o0 & o1 & E & _). rewrite E. cbn [rbind].
  eexists. split; [reflexivity|]. intros p o. cbv beta zeta.
  destruct (byte_offsets_bo (bm_kind t) o a G) as (o0' & o1' & E' & S). rewrite E in E'. injection E' as <- <-.
  rewrite S. reflexivity.
Qed.

Lemma get_set_up v a u : get_up (set_up v a u) a = u.
Proof. destruct a; reflexivity. Qed.
Lemma get_set_up_other v a u : get_up (set_up v a u) (negb a) = get_up v (negb a).
Proof. destruct a; reflexivity. Qed.
Lemma pix_set_up v a u : v_pix (set_up v a u) = v_pix v.
Proof. destruct a; reflexivity. Qed.
Lemma get_up_set_pix v b a : get_up (set_pix v b) a = get_up v a.
Proof. destruct a; reflexivity. Qed.
Lemma oow_set_up v a u : v_oow (set_up v a u) = v_oow v.
Proof. destruct a; reflexivity. Qed.

(** ** State between frames *)
Record VInv (k : kind) (n : Z) (v : video) : Prop := {
  vi_reach : reachable (v_pix v);
  vi_kind : v_mode v = k;
  vi_hole : forall a p o, in_page p o -> hole p o = true -> bank_data (v_pix v) a p o = 0;
  vi_up : forall a p o, in_page p o -> 0 <= get_up v a p o <= n * 65535;
  vi_up_hole : forall a p o, in_page p o -> hole p o = true -> get_up v a p o = 0;
  vi_top : k = DHGR -> forall a p o, in_page p o -> bank_data (v_pix v) a p o < 128
}.

(** the byte of the target that must be shown, the masked distance of storing a
    byte into the target *)
Definition what_if_distance (ed : table) (t : bitmap) (a : bool) (p o v : Z) : Z :=
  ed (bo (bm_kind t) o a) (pair_index (bm_kind t)
    (mask_and_shift (bm_kind t) (bm_packed t p (o / 2)) (bo (bm_kind t) o a))
    (mask_and_shift (bm_kind t) (masked_update (bm_kind t) (bo (bm_kind t) o a) (bm_packed t p (o / 2)) v) (bo (bm_kind t) o a))).

(** ** State inside a frame: [U], [D], [M0] are the priorities, distances and
    memory of this bank at the start of the frame *)
Record RInv (ed : table) (k : kind) (n : Z) (v0 : video) (t : bitmap) (a : bool)
    (U D : Z -> Z -> Z) (v : video) (dw : Z -> Z -> Z) (heap : list entry) : Prop := {
  ri_v : VInv k n v;
  ri_other : bank_data (v_pix v) (negb a) = bank_data (v_pix v0) (negb a);
  ri_other_up : get_up v (negb a) = get_up v0 (negb a);
  ri_oow : v_oow v = v_oow v0;
  ri_dw : forall p o, in_page p o -> dw p o = D p o \/ (dw p o = 0 /\ get_up v a p o = 0);
  ri_U : forall p o, in_page p o -> get_up v a p o <> 0 -> 0 < D p o <= U p o;
  ri_heap : Forall (fun e => in_page (en_page e) (en_off e) /\ hole (en_page e) (en_off e) = false /\
                             ((en_key e = - U (en_page e) (en_off e) /\ en_key e < 0) \/ 0 <= en_key e)) heap;
  ri_cover : forall p o, in_page p o -> get_up v a p o <> 0 ->
     exists e, In e heap /\ en_page e = p /\ en_off e = o /\ en_key e = - U p o;
  ri_settled : forall p o, in_page p o -> hole p o = false -> get_up v a p o = 0 ->
     bank_data (v_pix v) a p o = bank_data t a p o \/
     (D p o = 0 /\ bank_data (v_pix v) a p o = bank_data (v_pix v0) a p o) \/
     what_if_distance ed t a p o (bank_data (v_pix v) a p o) = 0
}.

(** facts about the target and the table *)
Record TOk (ed : table) (k : kind) (n : Z) (t : bitmap) (a : bool) (U D : Z -> Z -> Z) : Prop := {
  to_ed : u16_table k ed;
  to_target : good_target k t;
  to_bank : good_bank k a;
  to_n : 1 <= n;
  to_D_hole : forall p o, hole p o = true -> D p o = 0
}.

Lemma byte_pair_difference_ok ed t a p o v : good_bank (bm_kind t) a ->
  exists b, byte_offset (bm_kind t) o a = Ok b /\
  byte_pair_difference (bm_kind t) ed b (bm_packed t p (o / 2)) v = Ok (what_if_distance ed t a p o v).
Proof.
  intros G. exists (bo (bm_kind t) o a). rewrite byte_offset_bo by auto. split; [reflexivity|].
  unfold byte_pair_difference. pose proof (valid_bo (bm_kind t) o a G) as V.
  rewrite !mask_assertion by auto. reflexivity.
Qed.

Lemma upd2_cases {A} (f : Z -> Z -> A) i j v p o :
  (p = i /\ o = j /\ upd2 f i j v p o = v) \/ ((p <> i \/ o <> j) /\ upd2 f i j v p o = f p o).
Proof.
  unfold upd2. destruct (Z.eqb_spec p i), (Z.eqb_spec o j); cbn [andb]; auto; right; split; auto.
Qed.

(** a store of a target byte (primary) or of a content byte (extra) *)
Section Step.
  Variables (ed : table) (k : kind) (n : Z) (v0 : video) (t : bitmap) (a : bool) (U D : Z -> Z -> Z).
  Hypothesis T : TOk ed k n t a U D.

  Lemma what_if_bound p o v : 0 <= what_if_distance ed t a p o v < 65536.
  Proof.
    pose proof (to_target _ _ _ _ _ _ _ T) as (_ & KT & _). pose proof (to_bank _ _ _ _ _ _ _ T) as G.
    unfold what_if_distance. rewrite KT. pose proof (valid_bo k o a G) as V.
    apply (to_ed _ _ _ _ _ _ _ T); auto using masked_bound.
  Qed.

  Lemma set_cell v p o c q : VInv k n v -> in_page p o -> hole p o = false -> is_byte c -> (k = DHGR -> c < 128) ->
    0 <= q < 65536 ->
    exists pix, apply (v_pix (set_up v a (upd2 (get_up v a) p o q))) p o a c = Ok pix /\
      let v' := set_pix (set_up v a (upd2 (get_up v a) p o q)) pix in
      VInv k n v' /\ get_up v' a = upd2 (get_up v a) p o q /\
      bank_data (v_pix v') a = upd2 (bank_data (v_pix v) a) p o c /\
      bank_data (v_pix v') (negb a) = bank_data (v_pix v) (negb a) /\
      get_up v' (negb a) = get_up v (negb a) /\ v_oow v' = v_oow v.
  Proof.
    intros I Hpo Hh Hc Htop Hq. rewrite pix_set_up.
    pose proof (to_bank _ _ _ _ _ _ _ T) as G. pose proof (to_n _ _ _ _ _ _ _ T) as Hn.
    destruct I as [R K HH HU HUH HT]. unfold v_mode in K.
    destruct (apply_bank (v_pix v) p o a c R Hpo ltac:(rewrite K; exact G) Hc) as (b' & E & R' & K' & B & B').
    exists b'. split; [exact E|]. cbv zeta.
    assert (X : forall a', a' = a \/ a' = negb a) by (intros []; destruct a; auto).
    assert (GU : get_up (set_pix (set_up v a (upd2 (get_up v a) p o q)) b') a = upd2 (get_up v a) p o q)
      by (rewrite get_up_set_pix, get_set_up; reflexivity).
    assert (GO : get_up (set_pix (set_up v a (upd2 (get_up v a) p o q)) b') (negb a) = get_up v (negb a))
      by (rewrite get_up_set_pix, get_set_up_other; reflexivity).
    split; [|repeat split; auto; cbn; apply oow_set_up].
    constructor; cbn [v_pix set_pix].
    - exact R'.
    - unfold v_mode. cbn [v_pix set_pix]. congruence.
    - intros a' p' o' Hin Hho. destruct (X a') as [-> | ->]; [rewrite B|rewrite B'; auto].
      destruct (upd2_cases (bank_data (v_pix v) a) p o c p' o') as [(-> & -> & _)|(_ & ->)]; [congruence|auto].
    - intros a' p' o' Hin. destruct (X a') as [-> | ->]; [rewrite GU|rewrite GO; auto].
      destruct (upd2_cases (get_up v a) p o q p' o') as [(-> & -> & ->)|(_ & ->)]; [lia|auto].
    - intros a' p' o' Hin Hho. destruct (X a') as [-> | ->]; [rewrite GU|rewrite GO; auto].
      destruct (upd2_cases (get_up v a) p o q p' o') as [(-> & -> & _)|(_ & ->)]; [congruence|auto].
    - intros Hk a' p' o' Hin. destruct (X a') as [-> | ->]; [rewrite B|rewrite B'; auto].
      destruct (upd2_cases (bank_data (v_pix v) a) p o c p' o') as [(-> & -> & ->)|(_ & ->)]; auto.
  Qed.

  (** candidate offsets of the fill loop *)
  Definition cand_ok (dw : Z -> Z -> Z) (page offset : Z) (c : entry) : Prop :=
    in_page page (en_off c) /\ en_key c < 0 /\ hole page (en_off c) = false /\ en_off c <> offset /\
    0 < dw page (en_off c).

  Lemma fill_ok page offset content rnd dw : is_byte content -> (k = DHGR -> content < 128) ->
    forall cands m v heap offsets,
    RInv ed k n v0 t a U D v dw heap -> Forall (cand_ok dw page offset) cands ->
    (1 <= length offsets <= 2)%nat ->
    exists v' heap' new, fill_slots ed t a page offset content rnd m cands v heap offsets = Ok (v', heap', offsets ++ new) /\
      RInv ed k n v0 t a U D v' dw heap' /\ (length (offsets ++ new) <= 3)%nat /\
      bank_data (v_pix v') a = fold_left (fun m o => upd2 m page o content) new (bank_data (v_pix v) a) /\
      (forall o, In o new -> In o (map en_off cands) /\ get_up v a page o <> 0) /\
      (forall p o, in_page p o -> get_up v' a p o <> 0 -> get_up v a p o <> 0) /\
      (NoDup (map en_off cands) -> NoDup new) /\
      (length (offsets ++ new) = 3%nat \/ forall o, In o (map en_off cands) -> get_up v a page o <> 0 -> In o new).
  Proof.
    intros Hc Htop. induction cands as [|c cands IH]; intros m v heap offsets I F HL.
    - exists v, heap, []. rewrite app_nil_r. cbn [fill_slots fold_left map In].
      split; [reflexivity|]. split; [exact I|]. split; [lia|]. split; [reflexivity|].
      split; [intros o []|]. split; [auto|]. split; [intros; constructor|]. right. intros o [].
    - inversion F as [|? ? C F']; subst. destruct C as (Hin & Hkey & Hho & Hne & Hdw).
      cbn [fill_slots].
      assert (A1 : (en_key c <? 0) && (0 <=? en_off c) && (en_off c <=? 255) = true) by (destruct Hin; lia).
      rewrite A1. cbn [assert_].
      assert (A2 : negb (en_off c =? offset) = true) by lia. rewrite A2. cbn [assert_].
      rewrite Hho. cbn [negb assert_].
      destruct (Z.eqb_spec (get_up v a page (en_off c)) 0) as [Z0|N0].
      + destruct (IH m v heap offsets I F' HL) as (v' & heap' & new & E & I' & L & B & N & M & ND & CO).
        exists v', heap', new. split; [exact E|]. split; [exact I'|]. split; [exact L|]. split; [exact B|].
        split; [|split; [exact M|split]].
        * intros o Ho. destruct (N o Ho). split; [right; auto|auto].
        * cbn [map]. intros ND'. inversion ND'; subst. auto.
        * destruct CO as [CO|CO]; [left; exact CO|right]. intros o [<-|Ho] Hup; [contradiction|auto].
      + pose proof (to_target _ _ _ _ _ _ _ T) as (RT & KT & _).
        pose proof (to_bank _ _ _ _ _ _ _ T) as G.
        destruct (byte_pair_difference_ok ed t a page (en_off c) content ltac:(rewrite KT; exact G)) as (b & Eb & Ep).
        rewrite Eb. cbn [rbind]. rewrite Ep. cbn [rbind].
        set (p := what_if_distance ed t a page (en_off c) content) in *.
        assert (Hp : 0 <= p < 65536) by apply what_if_bound.
        pose proof (ri_v _ _ _ _ _ _ _ _ _ _ _ I) as VI.
        destruct (set_cell v page (en_off c) content p VI Hin Hho Hc Htop Hp) as (pix & Ea & VI' & GU & B & B' & GO & OO).
        cbv zeta in VI', GU, B, B', GO, OO.
        rewrite Ea. cbn [rbind].
        set (v2 := set_pix (set_up v a (upd2 (get_up v a) page (en_off c) p)) pix) in *.
        set (heap2 := if p =? 0 then heap else heap_push heap _).
        assert (I2 : RInv ed k n v0 t a U D v2 dw heap2).
        { destruct I as [I1 I2 I3 I4 I5 I6 I7 I8 I9]. constructor.
          - exact VI'.
          - congruence.
          - congruence.
          - congruence.
          - intros p' o' Hin'. rewrite GU.
            destruct (upd2_cases (get_up v a) page (en_off c) p p' o') as [(-> & -> & ->)|(_ & ->)]; [|auto].
            left. destruct (I5 page (en_off c) Hin) as [Q|[Q _]]; [auto|lia].
          - intros p' o' Hin'. rewrite GU.
            destruct (upd2_cases (get_up v a) page (en_off c) p p' o') as [(-> & -> & ->)|(_ & ->)]; auto.
          - unfold heap2. destruct (p =? 0); [exact I7|]. constructor; [|exact I7]. cbn [en_page en_off en_key].
            split; [exact Hin|]. split; [exact Hho|]. right. apply Z.mod_pos_bound. reflexivity.
          - intros p' o' Hin'. rewrite GU. intros Hup.
            assert (Q : get_up v a p' o' <> 0).
            { destruct (upd2_cases (get_up v a) page (en_off c) p p' o') as [(-> & -> & _)|(_ & Q)]; [auto|congruence]. }
            destruct (I8 p' o' Hin' Q) as (e & He & R). exists e. split; [|exact R].
            unfold heap2. destruct (p =? 0); [exact He|right; exact He].
          - intros p' o' Hin' Hho'. rewrite GU, B.
            destruct (upd2_cases (get_up v a) page (en_off c) p p' o') as [(-> & -> & ->)|(NN & ->)].
            + rewrite upd2_same. intros P0. right. right. exact P0.
            + rewrite upd2_other by auto. auto. }
        assert (MO : forall p' o', in_page p' o' -> get_up v2 a p' o' <> 0 -> get_up v a p' o' <> 0).
        { intros p' o' Hin'. rewrite GU. destruct (upd2_cases (get_up v a) page (en_off c) p p' o') as [(-> & -> & _)|(_ & ->)]; auto. }
        rewrite app_length. cbn [length].
        destruct (Z.eqb_spec (Z.of_nat (length offsets + 1)) 3) as [L3|L3].
        * exists v2, heap2, [en_off c]. split; [reflexivity|]. split; [exact I2|]. rewrite app_length. cbn [length map In fold_left].
          split; [lia|]. split; [exact B|]. split; [intros o [<-|[]]; auto|]. split; [exact MO|].
          split; [intros _; constructor; [intros []|constructor]|left; lia].
        * destruct (IH (m + 1) v2 heap2 (offsets ++ [en_off c]) I2 F') as (v' & heap' & new & E & I' & L & B2 & N & M & ND & CO).
          { rewrite app_length. cbn [length]. lia. }
          exists v', heap', (en_off c :: new). rewrite E.
          replace ((offsets ++ [en_off c]) ++ new) with (offsets ++ en_off c :: new) in * by (rewrite <- app_assoc; reflexivity).
          split; [reflexivity|]. split; [exact I'|]. split; [exact L|].
          split; [cbn [fold_left]; rewrite B2, B; reflexivity|].
          split; [|split; [|split]].
          -- intros o [<-|Ho]; cbn [map In]; [auto|]. destruct (N o Ho) as [N1 N2]. split; [auto|].
             apply (MO page o); auto. rewrite Forall_forall in F'. apply in_map_iff in N1. destruct N1 as (x & <- & Hx).
             apply (F' x Hx).
          -- intros p' o' Hin' Hup. apply MO; auto.
          -- cbn [map]. intros ND'. inversion ND' as [|? ? NI ND2]; subst. constructor; [|auto].
             intros Hx. apply NI. apply N; auto.
          -- destruct CO as [CO|CO]; [left; exact CO|right]. intros o [<-|Ho] Hup; cbn [In]; auto.
             destruct (Z.eq_dec o (en_off c)) as [->|NE]; [auto|]. right. apply CO; auto.
             rewrite GU, upd2_other by auto. exact Hup.
  Qed.
End Step.

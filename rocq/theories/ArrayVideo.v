(** The array-level frame encoder simulates that of HeapqModel. *)
From Coq Require Import Permutation.
From Verif Require Import Base BaseFacts BitFacts ScreenModel ScreenSpec ScreenProofs BitmapModel DisplaySpec BitmapSpec BitmapProofs BitmapApply BitmapState
  VideoModel VideoSpec VideoProofs VideoFacts OpcodeModel MovieModel HeapqModel HeapqProofs ArrayModel ArrayFacts ArrayProofs.
Opaque TABLES all_pairs.

Definition opt_refs (u : option Z) : list Z := match u with Some r => [r] | None => [] end.
Definition vrefs (v : video_a) : list Z := bm_refs (va_pix v) ++ va_up v :: opt_refs (va_aux_up v).
Record rel_vid (h : memory) (k : kind) (v : video_a) (vid : video) : Prop := {
  rv_pix : rel_bm h k (va_pix v) (v_pix vid);
  rv_mem : va_mem v = ba_main (va_pix v);
  rv_aux_mem : va_aux_mem v = ba_aux (va_pix v);
  rv_up : ints_at h (va_up v) (v_up vid);
  rv_aux_up : match k, va_aux_up v with HGR, None => True | DHGR, Some u => ints_at h u (v_aux_up vid) | _, _ => False end;
  rv_oow : forall b, va_oow v b = v_oow vid b;
  rv_nodup : NoDup (vrefs v)
}.

Lemma nodup_app_l {A} (l m : list A) : NoDup (l ++ m) -> NoDup l.
Proof. induction l as [|x l IH]; intros H; [constructor|]. cbn in H. inversion H. subst. constructor; [intros I; apply H2, in_or_app; auto|auto]. Qed.
Lemma nodup_app_disj {A} (l m : list A) x : NoDup (l ++ m) -> In x l -> In x m -> False.
Proof.
  induction l as [|y l IH]; intros H I J; [destruct I|]. cbn in H. inversion H. subst. destruct I as [->|I]; [apply H2, in_or_app; auto|auto].
Qed.
Lemma nodup_app_r {A} (l m : list A) : NoDup (l ++ m) -> NoDup m.
Proof. induction l as [|y l IH]; intros H; [exact H|]. cbn in H. inversion H. auto. Qed.

Section Refs.
  Context {h k v vid} (R : rel_vid h k v vid).
  Lemma pix_nodup : NoDup (bm_refs (va_pix v)).
  Proof. exact (nodup_app_l _ _ (rv_nodup _ _ _ _ R)). Qed.
  Lemma up_not_pix : ~ In (va_up v) (bm_refs (va_pix v)).
  Proof. intros I. apply (nodup_app_disj _ _ _ (rv_nodup _ _ _ _ R) I). left. reflexivity. Qed.
  Lemma aux_not_pix u : va_aux_up v = Some u -> ~ In u (bm_refs (va_pix v)).
  Proof. intros E I. apply (nodup_app_disj _ _ _ (rv_nodup _ _ _ _ R) I). rewrite E. right. left. reflexivity. Qed.
  Lemma up_not_aux u : va_aux_up v = Some u -> va_up v <> u.
  Proof. intros E F. pose proof (nodup_app_r _ _ (rv_nodup _ _ _ _ R)) as N. rewrite E, F in N. inversion N. apply H1. left. reflexivity. Qed.
  Lemma pix_in r : In r (bm_refs (va_pix v)) -> In r (vrefs v).
  Proof. intros I. apply in_or_app. auto. Qed.
  Lemma bank_up_ints a up : bank_up v a = Ok up -> ints_at h up (get_up vid a) /\ In up (vrefs v) /\ ~ In up (bm_refs (va_pix v)).
  Proof.
    unfold bank_up, get_up. destruct a.
    - destruct (va_aux_up v) as [u|] eqn:E; [|discriminate]. intros H. injection H as <-.
      pose proof (rv_aux_up _ _ _ _ R) as RA. rewrite E in RA. split; [destruct k; [destruct RA|exact RA]|].
      split; [unfold vrefs; rewrite E; apply in_or_app; right; right; left; reflexivity|]. apply aux_not_pix, E.
    - intros H. injection H as <-. split; [apply (rv_up _ _ _ _ R)|]. split; [apply in_or_app; right; left; reflexivity|apply up_not_pix].
  Qed.
End Refs.

Lemma rel_vid_keep w h h' k v vid : keep w h h' -> (forall r, In r (vrefs v) -> ~ In r w) -> rel_vid h k v vid -> rel_vid h' k v vid.
Proof.
  intros K N [A B C D E F G]. constructor; auto.
  - eapply rel_bm_keep; eauto. intros r I. apply N, in_or_app. auto.
  - eapply ints_keep; eauto. apply N, in_or_app. right. left. reflexivity.
  - destruct k, (va_aux_up v) as [u|] eqn:EU; auto. eapply ints_keep; eauto. apply N. unfold vrefs. rewrite EU. apply in_or_app. right. right. left. reflexivity.
Qed.

(** a bank of priorities replaced *)
Lemma rel_vid_up h h' k v vid a up u : rel_vid h k v vid -> bank_up v a = Ok up -> keep [up] h h' -> ints_at h' up u ->
  rel_vid h' k v (set_up vid a u).
Proof.
  intros R B K I. destruct (bank_up_ints R a up B) as (_ & _ & NP). pose proof R as [A1 A2 A3 A4 A5 A6 A7].
  constructor; auto.
  - rewrite pix_set_up. eapply rel_bm_keep; eauto. intros r Ir [E|[]]. subst r. auto.
  - unfold bank_up in B. destruct a; cbn [set_up v_up].
    + destruct (va_aux_up v) as [x|] eqn:EU; [|discriminate]. injection B as <-. eapply ints_keep; eauto. intros [E|[]]. eapply (up_not_aux R); eauto.
    + injection B as <-. exact I.
  - unfold bank_up in B. destruct a; cbn [set_up v_aux_up].
    + destruct (va_aux_up v) as [x|] eqn:EU; [|discriminate]. injection B as <-. destruct k; auto.
    + injection B as <-. destruct k, (va_aux_up v) as [x|] eqn:EU; auto. eapply ints_keep; eauto. intros [E|[]]. eapply (up_not_aux R); eauto.
  - intros b. rewrite oow_set_up. apply A6.
Qed.
Lemma rel_vid_set1 h k v vid a up p o x : rel_vid h k v vid -> bank_up v a = Ok up -> in_page p o -> - 2 ^ 31 <= x < 2 ^ 31 ->
  rel_vid (set1 h up (256 * p + o) x) k v (set_up vid a (upd2 (get_up vid a) p o x)).
Proof.
  intros R B I X. eapply rel_vid_up; eauto; [apply keep_set1; left; reflexivity|]. apply ints_set1; auto. apply (bank_up_ints R a up B).
Qed.
Lemma rel_vid_apply h k v vid p o a c pix : rel_vid h k v vid -> in_page p o -> bank_ok k a -> is_byte c ->
  apply (v_pix vid) p o a c = Ok pix ->
  exists h', apply_a h (va_pix v) p o a c = Ok h' /\ rel_vid h' k v (set_pix vid pix) /\ keep (bm_refs (va_pix v)) h h' /\
    h_memo h' = h_memo h /\ h_next h' = h_next h.
Proof.
  intros R I G C H. destruct (apply_a_ok h k _ _ p o a c pix (rv_pix _ _ _ _ R) (pix_nodup R) I G C H) as (h' & E & RB & K & M & N).
  exists h'. split; [exact E|]. split; [|auto]. pose proof R as [A1 A2 A3 A4 A5 A6 A7]. constructor; auto; cbn [set_pix v_up v_aux_up].
  - eapply ints_keep; eauto. apply (up_not_pix R).
  - destruct k, (va_aux_up v) as [x|] eqn:EU; auto. eapply ints_keep; eauto. eapply (aux_not_pix R); eauto.
Qed.

(** ** Filling the slots *)
Lemma fill_slots_a_ok ed k base t tb v a up page offset content rnd : u16_table k ed -> bank_ok k a -> 0 <= page < 32 -> is_byte content ->
  bank_up v a = Ok up -> (forall r, In r (bm_refs tb) -> ~ In r (vrefs v)) -> base <= ba_packed tb ->
  forall cands n h vid heap offs vid' heap' offs',
  rel_vid h k v vid -> rel_bm h k tb t -> memo_ok base k ed h ->
  fill_slots_q ed t a page offset content rnd n cands vid heap offs = Ok (vid', heap', offs') ->
  exists h', fill_slots_a ed tb (va_pix v) up a page offset content rnd n cands h heap offs = Ok (h', heap', offs') /\
    rel_vid h' k v vid' /\ keep (vrefs v) h h' /\ memo_ok base k ed h'.
Proof.
  intros HE G P C BU DJ BP. induction cands as [|e rest IH]; intros n h vid heap offs vid' heap' offs' RV RT MO H.
  - cbn [fill_slots_q] in H. injection H as <- <- <-. cbn [fill_slots_a]. exists h. split; [reflexivity|]. split; [exact RV|]. split; [apply keep_refl|exact MO].
  - cbn [fill_slots_q] in H. cbn [fill_slots_a]. set (o := en_off e) in *. unfold assert_ in *.
    destruct ((en_key e <? 0) && (0 <=? o) && (o <=? 255)) eqn:A1; [|discriminate].
    destruct (negb (o =? offset)) eqn:A2; [|discriminate].
    destruct (negb (screen_holes TABLES page o)) eqn:A3; [|discriminate].
    assert (O : 0 <= o < 256) by lia. assert (I : in_page page o) by (split; auto).
    destruct (bank_up_ints RV a up BU) as (IU & InU & NP). rewrite (proj2 IU _ _ I).
    destruct (get_up vid a page o =? 0).
    + exact (IH _ _ _ _ _ _ _ _ RV RT MO H).
    + rewrite (rb_kind _ _ _ _ RT). rewrite (rb_kind' _ _ _ _ RT) in H. rewrite byte_offset_bo in * by auto. cbn [rbind] in *.
      assert (CC : 0 <= o / 2 < 128) by dlia. destruct (proj2 (rb_packed _ _ _ _ RT) page (o / 2) P CC) as [-> BW].
      destruct (byte_pair_difference k ed (bo k o a) (bm_packed t page (o / 2)) content) as [d|] eqn:ED; [|discriminate].
      cbn [rbind] in H.
      assert (VO := valid_bo k o a G).
      destruct (bpd_ok ed h k tb base _ _ _ _ MO (rb_kind _ _ _ _ RT) (conj BP (proj1 (proj1 (rb_packed _ _ _ _ RT)))) VO BW C ED) as (h1 & -> & K1 & N1 & MO1).
      cbn [rbind].
      assert (DB : 0 <= d < 65536).
      { unfold byte_pair_difference in ED. rewrite !mask_assertion in ED by auto. cbn [rbind] in ED. injection ED as <-.
        apply HE; [exact VO|apply masked_bound, VO|apply masked_bound, VO]. }
      assert (RV1 : rel_vid h1 k v vid) by (eapply rel_vid_keep; [exact K1|intros r _ []|exact RV]).
      assert (RT1 : rel_bm h1 k tb t) by (eapply rel_bm_keep; [exact K1|intros r _ []|exact RT]).
      assert (RV2 := rel_vid_set1 h1 k v vid a up page o d RV1 BU I ltac:(change (2 ^ 31) with 2147483648; lia)).
      set (h2 := set1 h1 up (256 * page + o) d) in *.
      set (vid1 := set_up vid a (upd2 (get_up vid a) page o d)) in *.
      destruct (apply (v_pix vid1) page o a content) as [pix|] eqn:EP; [|discriminate]. cbn [rbind] in H.
      destruct (rel_vid_apply h2 k v vid1 page o a content pix RV2 I G C EP) as (h3 & -> & RV3 & K3 & M3 & N3). cbn [rbind].
      assert (KT : keep (vrefs v) h h3).
      { eapply keep_trans; [eapply keep_weak; [|exact K1]; intros ? []|]. eapply keep_trans; [apply (keep_set1 _ h1 up); exact InU|].
        eapply keep_weak; [|exact K3]. exact pix_in. }
      assert (MO3 : memo_ok base k ed h3) by (eapply (memo_keep _ _ _ _ h2); [exact K3|exact M3|]; eapply (memo_keep _ _ _ [up] h1); [apply keep_set1; left; reflexivity|reflexivity|exact MO1]).
      assert (RT3 : rel_bm h3 k tb t) by (eapply rel_bm_keep; [exact KT|exact DJ|exact RT]).
      cbv zeta in *.
      destruct (Z.of_nat (length (offs ++ [o])) =? 3).
      * injection H as <- <- <-. exists h3. split; [reflexivity|]. auto.
      * destruct (IH _ _ _ _ _ _ _ _ RV3 RT3 MO3 H) as (h4 & E4 & R4 & K4 & M4). exists h4. split; [exact E4|]. split; [exact R4|].
        split; [eapply keep_trans; [exact KT|exact K4]|exact M4].
Qed.

(** ** The queue *)
Definition heap_ok (h : list entry) : Prop := heap_from 0 h /\ Forall (fun e => in_page (en_page e) (en_off e)) h.
Lemma heap_ok_pop h e h' : heap_ok h -> heappop h = Some (e, h') -> in_page (en_page e) (en_off e) /\ heap_ok h'.
Proof.
  intros [A B] E. pose proof (heappop_ok h A) as H. rewrite E in H. destruct H as (H1 & H2 & _).
  pose proof (Permutation_Forall H1 B) as F. inversion F. subst. split; [auto|split; auto].
Qed.
Lemma heap_ok_push h e : heap_ok h -> in_page (en_page e) (en_off e) -> heap_ok (heappush h e).
Proof.
  intros [A B] I. destruct (heappush_ok h e A) as [P H]. split; [exact H|]. eapply Permutation_Forall; [apply Permutation_sym, P|]. constructor; auto.
Qed.
Lemma heap_ok_heapify h : Forall (fun e => in_page (en_page e) (en_off e)) h -> heap_ok (heapify h).
Proof. intros F. destruct (heapify_ok h) as (_ & P & H). split; [exact H|]. eapply Permutation_Forall; [apply Permutation_sym, P|exact F]. Qed.
Lemma fill_heap_ok ed t a page offset content rnd : 0 <= page < 32 -> forall cands n v heap offs v' heap' offs',
  fill_slots_q ed t a page offset content rnd n cands v heap offs = Ok (v', heap', offs') -> heap_ok heap -> heap_ok heap'.
Proof.
  intros P. induction cands as [|e rest IH]; intros n v heap offs v' heap' offs' H HO; cbn [fill_slots_q] in H.
  - injection H as <- <- <-. exact HO.
  - set (o := en_off e) in *. unfold assert_ in H.
    destruct ((en_key e <? 0) && (0 <=? o) && (o <=? 255)) eqn:A1; [|discriminate].
    destruct (negb (o =? offset)); [|discriminate]. destruct (negb (screen_holes TABLES page o)); [|discriminate].
    destruct (get_up v a page o =? 0); [eapply IH; eauto|].
    destruct (byte_offset _ o a) as [b|]; [|discriminate]. cbn [rbind] in H.
    destruct (byte_pair_difference _ ed b _ content) as [d|]; [|discriminate]. cbn [rbind] in H.
    destruct (apply _ page o a content) as [pix|]; [|discriminate]. cbn [rbind] in H.
    assert (HO' : heap_ok (if d =? 0 then heap else heappush heap {| en_key := u16_neg d; en_nonce := rnd n; en_page := page; en_off := o |})).
    { destruct (d =? 0); [exact HO|]. apply heap_ok_push; [exact HO|]. cbn [en_page en_off]. split; [exact P|lia]. }
    destruct (Z.of_nat (length (offs ++ [o])) =? 3); [injection H as <- <- <-; exact HO'|]. eapply IH; eauto.
Qed.
Lemma error_ext d d' rnd : forall l n, (forall o, In o l -> d o = d' o) -> error_candidates d rnd n l = error_candidates d' rnd n l.
Proof.
  induction l as [|o l IH]; intros n H; [reflexivity|]. cbn [error_candidates]. rewrite (H o) by (left; reflexivity).
  rewrite !(fun n => IH n (fun x I => H x (or_intror I))). reflexivity.
Qed.
Lemma error_range d d' rnd n : (forall o, 0 <= o < 256 -> d o = d' o) -> error_candidates d rnd n (zrange 256) = error_candidates d' rnd n (zrange 256).
Proof. intros H. apply error_ext. intros o I. apply H. apply in_zrange in I; [exact I|discriminate]. Qed.
Lemma heapify_ext u u' rnd : forall l n, (forall p o, In (p, o) l -> u p o = u' p o) -> heapify_from u rnd n l = heapify_from u' rnd n l.
Proof.
  induction l as [|[p o] l IH]; intros n H; [reflexivity|]. cbn [heapify_from]. rewrite (H p o) by (left; reflexivity).
  rewrite !(fun n => IH n (fun x y I => H x y (or_intror I))). reflexivity.
Qed.
Lemma heapify_in u rnd : forall l n, Forall (fun e => In (en_page e, en_off e) l /\ en_key e = - u (en_page e) (en_off e)) (fst (heapify_from u rnd n l)).
Proof.
  induction l as [|[p o] l IH]; intros n; cbn [heapify_from]; [constructor|].
  assert (W : forall n, Forall (fun e => In (en_page e, en_off e) ((p, o) :: l) /\ en_key e = - u (en_page e) (en_off e)) (fst (heapify_from u rnd n l))).
  { intros m. eapply Forall_impl; [|apply (IH m)]. intros e [A B]. split; [right; exact A|exact B]. }
  destruct (u p o =? 0); [apply W|]. specialize (W (n + 1)). destruct (heapify_from u rnd (n + 1) l) as [q m]. cbn [fst] in *.
  constructor; [|exact W]. cbn. split; [left; reflexivity|reflexivity].
Qed.

(** ** One step of the generator *)
Definition same_refs (v v' : video_a) : Prop :=
  va_pix v' = va_pix v /\ va_mem v' = va_mem v /\ va_aux_mem v' = va_aux_mem v /\ va_up v' = va_up v /\ va_aux_up v' = va_aux_up v.
Lemma same_refs_refl v : same_refs v v.
Proof. repeat split. Qed.
Lemma same_refs_vrefs v v' : same_refs v v' -> vrefs v' = vrefs v.
Proof. intros (A & B & C & D & E). unfold vrefs. rewrite A, D, E. reflexivity. Qed.
Lemma same_refs_bank v v' a : same_refs v v' -> bank_up v' a = bank_up v a.
Proof. intros (A & B & C & D & E). unfold bank_up. rewrite D, E. reflexivity. Qed.
Lemma rel_oow h k v vid a : rel_vid h k v vid -> rel_vid h k (set_oow_a v a) (set_oow vid a).
Proof.
  intros [A1 A2 A3 A4 A5 A6 A7]. constructor; auto. intros b. cbn. rewrite A6. reflexivity.
Qed.
Definition target_ok (base : Z) (h : memory) (k : kind) (v : video_a) (tb : bitmap_a) (t : bitmap) : Prop :=
  rel_bm h k tb t /\ (forall r, In r (bm_refs tb) -> ~ In r (vrefs v)) /\ base <= ba_packed tb.
Definition dists_ok (h : memory) (v : video_a) (tb : bitmap_a) (dw : Z) (d : Z -> Z -> Z) : Prop :=
  ints_at h dw d /\ small_ints d /\ ~ In dw (vrefs v) /\ ~ In dw (bm_refs tb).
Inductive rel_gen (base : Z) (h : memory) (k : kind) (v : video_a) : gen_a -> gen -> Prop :=
| rg_start tb t a : target_ok base h k v tb t -> bank_ok k a -> rel_gen base h k v (AStart tb a) (GStart t a)
| rg_run tb t a up dw d heap : target_ok base h k v tb t -> bank_ok k a -> bank_up v a = Ok up -> dists_ok h v tb dw d -> base <= dw ->
    heap_ok heap -> rel_gen base h k v (ARun tb a up dw heap) (GRun t a d heap)
| rg_pad c : rel_gen base h k v (APad c) (GPad c).

Lemma target_map_ok h k tb t a : rel_bm h k tb t -> bank_ok k a -> exists r m, target_map k tb a = Ok r /\
  bank_mem t (match k with DHGR => a | HGR => false end) = Ok m /\ bytes_at h r m /\ In r (bm_refs tb).
Proof.
  intros [K1 K2 RM RA W] G. unfold target_map, bank_mem. destruct k.
  - eexists _, _. split; [destruct a; reflexivity|]. split; [reflexivity|]. split; [apply RM|right; left; reflexivity].
  - destruct a.
    + unfold bm_refs. destruct (ba_aux tb) as [ma|], (bm_aux t) as [mx|]; cbn in RA; try contradiction.
      eexists _, _. split; [reflexivity|]. split; [reflexivity|]. split; [apply RA|right; right; left; reflexivity].
    + eexists _, _. split; [reflexivity|]. split; [reflexivity|]. split; [apply RM|right; left; reflexivity].
Qed.
Lemma small_upd d p o : small_ints d -> small_ints (upd2 d p o 0).
Proof. intros S p' o' I. unfold upd2. destruct ((p' =? p) && (o' =? o)); [lia|apply S, I]. Qed.

Definition cands_of (ec : list entry * Z) : list entry * Z := let '(h, m) := ec in (heappop_all (length h) (heapify h), m).
Lemma compute_error_q_eq ed t p content d a rnd n : compute_error_q ed t p content d a rnd n =
  match compute_delta_page ed t p content (d p) a with Ok delta => Ok (cands_of (error_candidates delta rnd n (zrange 256))) | Raise e => Raise e end.
Proof.
  unfold compute_error_q. destruct (compute_delta_page ed t p content (d p) a) as [delta|]; [|reflexivity]. unfold rbind.
  generalize (error_candidates delta rnd n (zrange 256)). intros [q j]. reflexivity.
Qed.
Lemma compute_error_a_eq h ed t p content dw a rnd n : compute_error_a h ed t p content dw a rnd n =
  match delta_page_a h ed t p content dw a with Ok (r, h1) => Ok (cands_of (error_candidates (h_buf h1 r) rnd n (zrange 256)), h1) | Raise e => Raise e end.
Proof.
  unfold compute_error_a. destruct (delta_page_a h ed t p content dw a) as [[r h1]|]; [|reflexivity]. unfold rbind.
  generalize (error_candidates (h_buf h1 r) rnd n (zrange 256)). intros [q j]. reflexivity.
Qed.
Lemma compute_error_a_ok ed h k tb t p content dw d a rnd n cands m : u16_table k ed -> rel_bm h k tb t -> bank_ok k a -> 0 <= p < 32 ->
  is_byte content -> ints_at h dw d -> small_ints d ->
  compute_error_q ed t p content d a rnd n = Ok (cands, m) ->
  exists h', compute_error_a h ed tb p content dw a rnd n = Ok (cands, m, h') /\ keep [] h h' /\ h_memo h' = h_memo h.
Proof.
  intros HE R G P C DW DS H. rewrite compute_error_q_eq in H. rewrite compute_error_a_eq.
  destruct (compute_delta_page ed t p content (d p) a) as [delta|] eqn:E; [|discriminate].
  destruct (delta_page_ok ed h k tb t p content dw d a delta HE R G P C DW DS E) as (r & h' & E' & K & M & X). rewrite E'.
  rewrite (error_range (h_buf h' r) delta rnd n X). exists h'. split; [|split; [exact K|exact M]].
  revert H. generalize (cands_of (error_candidates delta rnd n (zrange 256))). intros c H. injection H as ->. reflexivity.
Qed.

Lemma pop_loop_a_ok ed k base t tb v a up dw rnd : u16_table k ed -> bank_ok k a -> bank_up v a = Ok up ->
  (forall r, In r (bm_refs tb) -> ~ In r (vrefs v)) -> base <= ba_packed tb -> base <= dw -> ~ In dw (vrefs v) -> ~ In dw (bm_refs tb) ->
  forall fuel n h vid d heap ch vid' g',
  rel_vid h k v vid -> rel_bm h k tb t -> memo_ok base k ed h -> ints_at h dw d -> small_ints d -> heap_ok heap ->
  pop_loop_q fuel ed rnd n vid t a d heap = Ok (ch, vid', g') ->
  exists h' v' ga, pop_loop_a fuel ed rnd n h v tb a up dw heap = Ok (ch, h', v', ga) /\ same_refs v v' /\
    rel_vid h' k v' vid' /\ rel_gen base h' k v' ga g' /\ keep (dw :: vrefs v) h h' /\ memo_ok base k ed h'.
Proof.
  intros HE G BU DJ BP BD NV NT. induction fuel as [|fuel IH]; intros n h vid d heap ch vid' g' RV RT MO DW DS HO H.
  - cbn [pop_loop_q] in H. cbn [pop_loop_a]. rewrite (rb_kind _ _ _ _ (rv_pix _ _ _ _ RV)). unfold v_mode in H. rewrite (rb_kind' _ _ _ _ (rv_pix _ _ _ _ RV)) in H.
    destruct (target_map_ok h k tb t a RT G) as (r & m & -> & EM & BM & _). rewrite EM in H. cbn [rbind] in *.
    destruct (heappop heap) as [[e heap1]|] eqn:EP; [discriminate|]. injection H as <- <- <-.
    assert (E0 : at256 h r 0 0 = m 0 0) by (apply BM; split; lia). rewrite E0.
    eexists _, _, _. split; [reflexivity|]. split; [repeat split|]. split; [apply rel_oow, RV|]. split; [constructor|].
    split; [apply keep_refl|exact MO].
  - cbn [pop_loop_q] in H. cbn [pop_loop_a]. rewrite (rb_kind _ _ _ _ (rv_pix _ _ _ _ RV)). unfold v_mode in H. rewrite (rb_kind' _ _ _ _ (rv_pix _ _ _ _ RV)) in H.
    destruct (target_map_ok h k tb t a RT G) as (r & m & -> & EM & BM & IR). rewrite EM in H. cbn [rbind] in *.
    destruct (heappop heap) as [[e heap1]|] eqn:EP.
    2:{ injection H as <- <- <-.
        assert (E0 : at256 h r 0 0 = m 0 0) by (apply BM; split; lia). rewrite E0.
        eexists _, _, _. split; [reflexivity|]. split; [repeat split|]. split; [apply rel_oow, RV|]. split; [constructor|].
        split; [apply keep_refl|exact MO]. }
    destruct (heap_ok_pop _ _ _ HO EP) as [I HO1].
    set (page := en_page e) in *. set (offset := en_off e) in *. unfold assert_ in *.
    destruct (negb (screen_holes TABLES page offset)); [|discriminate].
    destruct (bank_up_ints RV a up BU) as (IU & InU & NP). rewrite (proj2 IU _ _ I).
    destruct (get_up vid a page offset =? 0); [exact (IH _ _ _ _ _ _ _ _ RV RT MO DW DS HO1 H)|].
    destruct (proj2 BM page offset I) as [-> BC]. set (content := m page offset) in *.
    destruct (match k with HGR => true | DHGR => content <? 128 end); [|discriminate].
    assert (RV1 := rel_vid_set1 h k v vid a up page offset 0 RV BU I ltac:(change (2 ^ 31) with 2147483648; lia)).
    set (h1 := set1 h up (256 * page + offset) 0) in *.
    set (vid1 := set_up vid a (upd2 (get_up vid a) page offset 0)) in *.
    assert (KA : keep [up] h h1) by (apply keep_set1; left; reflexivity).
    assert (DW1 : ints_at h1 dw d) by (eapply ints_keep; [exact KA| |exact DW]; intros [E|[]]; subst; auto).
    assert (KB : keep [dw] h1 (set1 h1 dw (256 * page + offset) 0)) by (apply keep_set1; left; reflexivity).
    assert (DW2 := ints_set1 h1 dw d page offset 0 DW1 I ltac:(change (2 ^ 31) with 2147483648; lia)).
    set (h2 := set1 h1 dw (256 * page + offset) 0) in *.
    assert (RV2 : rel_vid h2 k v vid1) by (eapply rel_vid_keep; [exact KB| |exact RV1]; intros s Is [E|[]]; subst; auto).
    destruct (apply (v_pix vid1) page offset a content) as [pix|] eqn:EA; [|discriminate]. cbn [rbind] in H.
    destruct (rel_vid_apply h2 k v vid1 page offset a content pix RV2 I G BC EA) as (h3 & -> & RV3 & K3 & M3 & N3). cbn [rbind].
    assert (DW3 : ints_at h3 dw (upd2 d page offset 0)) by (eapply ints_keep; [exact K3| |exact DW2]; intros Is; apply NV, in_or_app; auto).
    assert (KC : keep (dw :: vrefs v) h h3).
    { eapply keep_trans; [eapply keep_weak; [|exact KA]; intros s [<-|[]]; right; exact InU|].
      eapply keep_trans; [eapply keep_weak; [|exact KB]; intros s [<-|[]]; left; reflexivity|].
      eapply keep_weak; [|exact K3]. intros s Is. right. exact (pix_in _ Is). }
    assert (RT3 : rel_bm h3 k tb t).
    { eapply rel_bm_keep; [exact KC| |exact RT]. intros s Is [E|Iv]; [subst; auto|]. exact (DJ _ Is Iv). }
    assert (MO3 : memo_ok base k ed h3) by (eapply memo_keep; [exact KC|rewrite M3; reflexivity|exact MO]).
    destruct (compute_error_q ed t page content (upd2 d page offset 0) a rnd n) as [[cands n1]|] eqn:EC; [|discriminate]. cbn [rbind] in H.
    destruct (compute_error_a_ok ed h3 k tb t page content dw _ a rnd n cands n1 HE RT3 G (proj1 I) BC DW3 (small_upd _ _ _ DS) EC) as (h4 & -> & K4 & M4).
    cbn [rbind].
    assert (KE : forall w, keep w h3 h4) by (intros w; eapply keep_weak; [|exact K4]; intros ? []).
    assert (RV4 : rel_vid h4 k v (set_pix vid1 pix)) by (eapply rel_vid_keep; [exact K4|intros ? _ []|exact RV3]).
    assert (RT4 : rel_bm h4 k tb t) by (eapply rel_bm_keep; [exact K4|intros ? _ []|exact RT3]).
    assert (MO4 : memo_ok base k ed h4) by (eapply memo_keep; [exact K4|exact M4|exact MO3]).
    destruct (fill_slots_q ed t a page offset content rnd n1 cands (set_pix vid1 pix) heap1 [offset]) as [[[v3 heap2] offs]|] eqn:EF; [|discriminate].
    cbn [rbind] in H. injection H as <- <- <-.
    destruct (fill_slots_a_ok ed k base t tb v a up page offset content rnd HE G (proj1 I) BC BU DJ BP _ _ _ _ _ _ _ _ _ RV4 RT4 MO4 EF) as (h5 & -> & RV5 & K5 & MO5).
    cbn [rbind]. eexists _, _, _. split; [reflexivity|]. split; [apply same_refs_refl|]. split; [exact RV5|].
    assert (KF : keep (dw :: vrefs v) h h5).
    { eapply keep_trans; [exact KC|]. eapply keep_trans; [apply KE|]. eapply keep_weak; [|exact K5]. intros s Is. right. exact Is. }
    split; [|split; [exact KF|exact MO5]].
    constructor; [|exact G|exact BU| |exact BD|eapply fill_heap_ok; [exact (proj1 I)|exact EF|exact HO1]].
    + split; [|split; [exact DJ|exact BP]]. eapply rel_bm_keep; [exact K5|exact DJ|exact RT4].
    + split; [|split; [apply small_upd, DS|split; [exact NV|exact NT]]].
      eapply ints_keep; [exact K5|exact NV|]. eapply ints_keep; [exact K4|intros []|exact DW3].
Qed.

Definition wrap_entry (e : entry) : entry :=
  {| en_key := wrap I32 (en_key e); en_nonce := en_nonce e; en_page := en_page e; en_off := en_off e |}.
Lemma heapify_from_wrap U u rnd l n : (forall p o, In (p, o) l -> U p o = u p o /\ 0 <= u p o < 2 ^ 31) ->
  (let '(q, m) := heapify_from U rnd n l in (map wrap_entry q, m)) = heapify_from u rnd n l /\
  Forall (fun e => In (en_page e, en_off e) l) (fst (heapify_from u rnd n l)).
Proof.
  intros H. rewrite (heapify_ext U u rnd l n) by (intros p o I; apply H, I).
  pose proof (heapify_in u rnd l n) as F. destruct (heapify_from u rnd n l) as [q m]. cbn [fst] in *. split.
  - f_equal. rewrite <- (map_id q) at 2. apply map_ext_in. intros e I. apply (proj1 (Forall_forall _ _) F) in I. destruct I as [I E].
    destruct (H _ _ I) as [_ B]. destruct e as [key no pg off]. cbn in *. unfold wrap_entry. cbn [en_key en_nonce en_page en_off].
    rewrite wrap_i32; [reflexivity|]. rewrite E. change (2 ^ 31) with 2147483648 in *. lia.
  - eapply Forall_impl; [|exact F]. intros e [A _]. exact A.
Qed.
Lemma heapify_a_eq U u rnd : (forall p o, in_page p o -> U p o = u p o /\ 0 <= u p o < 2 ^ 31) ->
  heapify_priorities_a U rnd = heapify_priorities u rnd /\
  Forall (fun e => in_page (en_page e) (en_off e)) (fst (heapify_priorities u rnd)).
Proof.
  intros H. destruct (heapify_from_wrap U u rnd all_pairs 0 ltac:(intros p o I; apply H, in_all_pairs, I)) as [A B].
  split; [exact A|]. eapply Forall_impl; [|exact B]. intros e I. apply in_all_pairs, I.
Qed.
Lemma holes_ext m m' : (forall p o, in_page p o -> m p o = m' p o) -> holes_clear m = holes_clear m'.
Proof.
  intros H. unfold holes_clear. assert (G : forall l, (forall p o, In (p, o) l -> m p o = m' p o) ->
    forallb (fun po => negb (screen_holes TABLES (fst po) (snd po)) || (m (fst po) (snd po) =? 0)) l =
    forallb (fun po => negb (screen_holes TABLES (fst po) (snd po)) || (m' (fst po) (snd po) =? 0)) l).
  { induction l as [|[p o] l IH]; intros HL; [reflexivity|]. cbn [forallb fst snd]. rewrite (HL p o) by (left; reflexivity).
    rewrite IH; [reflexivity|]. intros p' o' I. apply HL. right. exact I. }
  apply G. intros p o I. apply H, in_all_pairs, I.
Qed.
Lemma nonneg_ext (u u' : Z -> Z -> Z) : (forall p o, in_page p o -> u p o = u' p o) ->
  forallb (fun po => 0 <=? u (fst po) (snd po)) all_pairs = forallb (fun po => 0 <=? u' (fst po) (snd po)) all_pairs.
Proof.
  intros H. assert (G : forall l, (forall p o, In (p, o) l -> u p o = u' p o) ->
    forallb (fun po => 0 <=? u (fst po) (snd po)) l = forallb (fun po => 0 <=? u' (fst po) (snd po)) l).
  { induction l as [|[p o] l IH]; intros HL; [reflexivity|]. cbn [forallb fst snd]. rewrite (HL p o) by (left; reflexivity).
    rewrite IH; [reflexivity|]. intros p' o' I. apply HL. right. exact I. }
  apply G. intros p o I. apply H, in_all_pairs, I.
Qed.

Lemma bm_refs_lt h k b bm r : rel_bm h k b bm -> In r (bm_refs b) -> r < h_next h.
Proof.
  intros [K1 K2 RM RA W] I. destruct I as [<-|[<-|I]]; [apply W|apply RM|].
  destruct k, (ba_aux b) as [m|], (bm_aux bm) as [m'|]; cbn in *; try contradiction. destruct I as [<-|[]]. apply RA.
Qed.
Lemma vrefs_lt h k v vid r : rel_vid h k v vid -> In r (vrefs v) -> r < h_next h.
Proof.
  intros R I. apply in_app_or in I. destruct I as [I|[<-|I]]; [eapply bm_refs_lt; [apply R|exact I]|apply (rv_up _ _ _ _ R)|].
  pose proof (rv_aux_up _ _ _ _ R) as RA. destruct k, (va_aux_up v) as [u|]; cbn in I; try contradiction. destruct I as [<-|[]]. apply RA.
Qed.
Lemma bank_map_ok h k v vid a : rel_vid h k v vid -> bank_ok k a -> exists r m, bank_map v a = Ok r /\ bank_mem (v_pix vid) a = Ok m /\ bytes_at h r m.
Proof.
  intros R G. unfold bank_map, bank_mem. rewrite (rv_mem _ _ _ _ R), (rv_aux_mem _ _ _ _ R). destruct (rv_pix _ _ _ _ R) as [K1 K2 RM RA W].
  destruct a.
  - destruct G as [->|G]; [|discriminate]. destruct (ba_aux (va_pix v)), (bm_aux (v_pix vid)); cbn in RA; try contradiction.
    eexists _, _. split; [reflexivity|]. split; [reflexivity|apply RA].
  - eexists _, _. split; [reflexivity|]. split; [reflexivity|apply RM].
Qed.
Lemma bank_up_some h k v vid a : rel_vid h k v vid -> bank_ok k a -> exists up, bank_up v a = Ok up.
Proof.
  intros R G. unfold bank_up. destruct a; [|eauto]. destruct G as [->|G]; [|discriminate].
  pose proof (rv_aux_up _ _ _ _ R) as RA. destruct (va_aux_up v); [eauto|contradiction].
Qed.
Lemma changed_ints h h1 r f g : fits h r I32 -> changed h h1 r f -> (forall p o, in_page p o -> f (256 * p + o) = g p o /\ - 2 ^ 31 <= g p o < 2 ^ 31) -> ints_at h1 r g.
Proof.
  intros F (N & B & K & M) H. split; [eapply fits_keep; eauto|]. intros p o I. destruct (H p o I) as [E R]. unfold at256. rewrite B, (proj2 F), E.
  apply wrap_i32, R.
Qed.

(** the sums of priorities of a frame to be started fit 32 bits *)
Definition start_fits (ed : table) (vid : video) (g : gen) : Prop :=
  match g with GStart t a => forall p o, in_page p o -> 0 <= get_up vid a p o < 2 ^ 31 /\ 0 <= start_priority ed vid t a p o < 2 ^ 31 | _ => True end.
Definition gen_dw (g : gen_a) : list Z := match g with ARun _ _ _ dw _ => [dw] | _ => [] end.

Ltac name_set_of h0 h1 C := match goal with |- context [set_all h0 ?r ?f] =>
  generalize (set_all_changed h0 r f); generalize (set_all h0 r f); intros h1 C end.
Definition start_q (ed : table) (rnd : Z -> Z) (vid : video) (t : bitmap) (a : bool) (d u : Z -> Z -> Z) : res (change * video * gen) :=
  if forallb (fun po => 0 <=? u (fst po) (snd po)) all_pairs then
    let '(q, n) := heapify_priorities u rnd in pop_loop_q (length (heapify q)) ed rnd n (set_up vid a u) t a d (heapify q)
  else Raise AssertionError.

Lemma next_a_ok ed k base rnd h v vid ga g ch vid' g' : u16_table k ed -> base <= h_next h ->
  rel_vid h k v vid -> rel_gen base h k v ga g -> memo_ok base k ed h -> start_fits ed vid g ->
  next_q ed rnd vid g = Ok (ch, vid', g') ->
  exists h' v' ga', next_a ed rnd h v ga = Ok (ch, h', v', ga') /\ same_refs v v' /\
    rel_vid h' k v' vid' /\ rel_gen base h' k v' ga' g' /\ keep (gen_dw ga ++ vrefs v) h h' /\ memo_ok base k ed h'.
Proof.
  intros HE HB RV RG MO SF H. destruct RG as [tb t a (RT & DJ & BP) G|tb t a up dw d heap (RT & DJ & BP) G BU (DW & DS & NV & NT) BD HO|c].
  - cbn [next_a next_q] in *. destruct (bank_map_ok h k v vid a RV G) as (mr & m & EM & EB & BM). rewrite EM. rewrite EB in H.
    destruct (bank_up_some h k v vid a RV G) as (up & BU). rewrite BU. cbn [rbind] in *.
    rewrite (holes_ext (at256 h mr) m) by (intros p o I; apply (proj2 BM p o I)).
    unfold assert_ in *. destruct (holes_clear m); [|discriminate].
    destruct (diff_weights ed t (v_pix vid) a) as [dw0|] eqn:ED; [|discriminate]. cbn [rbind] in H.
    destruct (diff_weights_a_ok ed h k tb t (va_pix v) (v_pix vid) a dw0 HE RT (rv_pix _ _ _ _ RV) G ED) as (dw & h1 & -> & K1 & M1 & EN & N1 & DW & DS).
    cbn [rbind].
    assert (NV : ~ In dw (vrefs v)) by (intros I; apply (vrefs_lt _ _ _ _ _ RV) in I; lia).
    assert (NT : ~ In dw (bm_refs tb)) by (intros I; apply (bm_refs_lt _ _ _ _ _ RT) in I; lia).
    set (D := fun p o => if screen_holes TABLES p o then 0 else dw0 p o) in *.
    set (U := fun p o => (if D p o =? 0 then 0 else get_up vid a p o) + D p o) in *.
    change (start_q ed rnd vid t a D U = Ok (ch, vid', g')) in H. unfold start_q in H.
    assert (SD : small_ints D) by (intros p o I; unfold D; destruct (screen_holes TABLES p o); [lia|apply DS, I]).
    assert (UB : forall p o, in_page p o -> 0 <= U p o < 2 ^ 31).
    { intros p o I. destruct (SF p o I) as [_ S]. unfold start_priority, start_distance in S. rewrite ED in S. exact S. }
    assert (OB : forall p o, in_page p o -> 0 <= get_up vid a p o < 2 ^ 31) by (intros p o I; apply (SF p o I)).
    clear SF.
    name_set_of h1 h2 C2. assert (DW2 : ints_at h2 dw D).
    { eapply changed_ints; [apply DW|exact C2|]. intros p o I. cbv beta. destruct (div256 p o (proj2 I)) as [-> ->].
      fold (at256 h1 dw p o). rewrite (proj2 DW p o I). split; [reflexivity|]. specialize (SD p o I). fold (D p o). change (2 ^ 31) with 2147483648. lia. }
    destruct C2 as (N2 & _ & K2 & M2).
    assert (KH2 : keep [] h h2) by (eapply (keep_fresh _ _ h1); [|exact K1|exact K2]; lia).
    assert (RV2 : rel_vid h2 k v vid) by (eapply rel_vid_keep; [exact KH2|intros ? _ []|exact RV]).
    destruct (bank_up_ints RV2 a up BU) as (IU & InU & NP). assert (NUD : up <> dw) by (intros E; subst; auto).
    name_set_of h2 h3 C3. assert (UP3 : ints_at h3 up (fun p o => if D p o =? 0 then 0 else get_up vid a p o)).
    { eapply changed_ints; [apply IU|exact C3|]. intros p o I. cbv beta. fold (at256 h2 dw p o). fold (at256 h2 up p o).
      rewrite (proj2 DW2 p o I), (proj2 IU p o I). split; [reflexivity|]. specialize (OB p o I). change (2 ^ 31) with 2147483648 in *. destruct (D p o =? 0); lia. }
    destruct C3 as (N3 & _ & K3 & M3).
    assert (DW3 : ints_at h3 dw D) by (eapply ints_keep; [exact K3| |exact DW2]; intros [E|[]]; auto).
    assert (RV3 : rel_vid h3 k v (set_up vid a (fun p o => if D p o =? 0 then 0 else get_up vid a p o))) by (eapply rel_vid_up; eauto).
    name_set_of h3 h4 C4. assert (UP4 : ints_at h4 up U).
    { eapply changed_ints; [apply UP3|exact C4|]. intros p o I. cbv beta. fold (at256 h3 dw p o). fold (at256 h3 up p o).
      rewrite (proj2 DW3 p o I), (proj2 UP3 p o I). split; [reflexivity|]. specialize (UB p o I). change (2 ^ 31) with 2147483648 in *. lia. }
    destruct C4 as (N4 & _ & K4 & M4).
    assert (DW4 : ints_at h4 dw D) by (eapply ints_keep; [exact K4| |exact DW3]; intros [E|[]]; auto).
    assert (RV4 : rel_vid h4 k v (set_up vid a U)) by (eapply rel_vid_up; [exact RV2|exact BU| |exact UP4]; eapply keep_trans; [exact K3|exact K4]).
    assert (KU : forall h5 h6, keep [up] h5 h6 -> keep (vrefs v) h5 h6) by (intros h5 h6; apply keep_weak; intros r [<-|[]]; exact InU).
    assert (KH4 : keep (vrefs v) h h4).
    { eapply keep_trans; [eapply keep_weak; [|exact KH2]; intros ? []|]. eapply keep_trans; [apply KU, K3|apply KU, K4]. }
    assert (RT4 : rel_bm h4 k tb t) by (eapply rel_bm_keep; [exact KH4|exact DJ|exact RT]).
    assert (MO4 : memo_ok base k ed h4) by (eapply memo_keep; [exact KH4| |exact MO]; congruence).
    rewrite (nonneg_ext (at256 h4 up) U) by (intros p o I; apply (proj2 UP4 p o I)).
    destruct (forallb (fun po => 0 <=? U (fst po) (snd po)) all_pairs); [|discriminate].
    destruct (heapify_a_eq (at256 h4 up) U rnd ltac:(intros p o I; split; [apply (proj2 UP4 p o I)|apply UB, I])) as [EH FH]. rewrite EH.
    revert H FH. clear EH. generalize (heapify_priorities U rnd). intros [q n] H FH. cbn [fst] in FH. cbv zeta in *.
    destruct (pop_loop_a_ok ed k base t tb v a up dw rnd HE G BU DJ BP ltac:(lia) NV NT _ _ _ _ _ _ _ _ _ RV4 RT4 MO4 DW4 SD (heap_ok_heapify _ FH) H)
      as (h' & v' & ga & E & SR & RV' & RG' & K & MO').
    exists h', v', ga. split; [exact E|]. split; [exact SR|]. split; [exact RV'|]. split; [exact RG'|]. split; [|exact MO'].
    cbn [gen_dw app]. eapply (keep_fresh _ _ h4 _ dw); [lia|exact KH4|exact K].
  - cbn [next_a next_q] in *.
    destruct (pop_loop_a_ok ed k base t tb v a up dw rnd HE G BU DJ BP BD NV NT _ _ _ _ _ _ _ _ _ RV RT MO DW DS HO H)
      as (h' & v' & ga & E & SR & RV' & RG' & K & MO').
    exists h', v', ga. split; [exact E|]. split; [exact SR|]. split; [exact RV'|]. split; [exact RG'|]. split; [exact K|exact MO'].
  - cbn [next_a next_q] in *. injection H as <- <- <-. exists h, v, (APad c). split; [reflexivity|]. split; [apply same_refs_refl|].
    split; [exact RV|]. split; [constructor|]. split; [apply keep_refl|exact MO].
Qed.

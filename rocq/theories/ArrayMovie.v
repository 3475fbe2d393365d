(** The array-level conversion simulates that of HeapqModel. *)
From Coq Require Import Permutation.
From Verif Require Import Base BaseFacts BitFacts ScreenModel ScreenSpec ScreenProofs BitmapModel DisplaySpec BitmapSpec BitmapProofs BitmapApply BitmapState
  VideoModel VideoSpec VideoProofs VideoFacts PriorityProofs OpcodeModel MovieModel MovieSpec MovieProofs MovieThms HeapqModel HeapqProofs
  ArrayModel ArrayFacts ArrayProofs ArrayVideo ArraySpec.
Opaque TABLES all_pairs.

(** ** New objects *)
Lemma alloc_bytes h f : (forall p o, in_page p o -> is_byte (f (256 * p + o))) ->
  bytes_at (amem h U8 f) (h_next h) (fun p o => f (256 * p + o)).
Proof.
  intros B. split; [split; [rewrite amem_next; lia|apply amem_type_new]|]. intros p o I. split; [|exact (B p o I)].
  unfold at256. rewrite amem_new. apply wrap_u8. apply (B p o I).
Qed.
Lemma alloc_zero_ints h : ints_at (amem h I32 (fun _ => 0)) (h_next h) (fun _ _ => 0).
Proof.
  split; [split; [rewrite amem_next; lia|apply amem_type_new]|]. intros p o I. unfold at256. rewrite amem_new. reflexivity.
Qed.

Lemma draw_ok h k f : (forall p o, in_page p o -> is_byte (fst f (256 * p + o))) ->
  (k = DHGR -> forall p o, in_page p o -> is_byte (snd f (256 * p + o))) ->
  exists main aux h', draw_frame h k f = Ok (main, aux, h') /\ rel_mm h' main (fst (frame_of f)) /\
    rel_aux h' k aux (match k with HGR => None | DHGR => Some (snd (frame_of f)) end) /\
    keep [] h h' /\ h_memo h' = h_memo h /\ (forall r, In r (ma_ref main :: map_refs aux) -> h_next h <= r) /\
    (forall r, In r (ma_ref main :: map_refs aux) -> r < h_next h').
Proof.
  intros B1 B2. unfold draw_frame. rewrite alloc_eq. cbn [flat_new_a page_ok Z.eqb Pos.eqb orb rbind to_memory_map_a mmap_new_a fa_page fa_ref].
  pose proof (alloc_bytes h (fst f) B1) as M1. set (h1 := amem h U8 (fst f)) in *. destruct k.
  - eexists _, _, _. split; [reflexivity|]. split; [split; [reflexivity|]; split; [reflexivity|exact M1]|]. split; [exact I|].
    split; [apply keep_alloc|]. split; [reflexivity|]. split; intros r [<-|[]]; cbn [ma_ref]; [lia|apply M1].
  - rewrite alloc_eq. cbn [flat_new_a page_ok Z.eqb Pos.eqb orb rbind to_memory_map_a mmap_new_a fa_page fa_ref].
    pose proof (alloc_bytes h1 (snd f) (B2 eq_refl)) as M2. assert (K : keep [] h1 (amem h1 U8 (snd f))) by apply keep_alloc.
    assert (E1 : h_next h1 = h_next h + 1) by apply amem_next.
    assert (M1' : bytes_at (amem h1 U8 (snd f)) (h_next h) (fun p o => fst f (256 * p + o))) by (eapply bytes_keep; [exact K|intros []|exact M1]).
    eexists _, _, _. split; [reflexivity|]. split; [split; [reflexivity|]; split; [reflexivity|exact M1']|].
    split; [split; [reflexivity|]; split; [reflexivity|exact M2]|].
    split; [eapply keep_trans; [apply keep_alloc|exact K]|]. split; [reflexivity|]. split; intros r [<-|[<-|[]]]; cbn [ma_ref]; try lia; [apply M1'|apply M2].
Qed.
Lemma frame_new_of k f : frame_bitmap k f = new_of k (fst f) (match k with HGR => None | DHGR => Some (snd f) end).
Proof. destruct k; reflexivity. Qed.

Lemma video_new_ok h k : exists v h', video_new_a h k = Ok (v, h') /\ rel_vid h' k v (video_new k) /\ keep [] h h' /\ h_memo h' = h_memo h /\
  (forall r, In r (vrefs v) -> h_next h <= r).
Proof.
  unfold video_new_a. cbn [mmap_new_a page_ok Z.eqb Pos.eqb orb]. rewrite alloc_eq. cbn [rbind].
  assert (Z0 : forall p o, in_page p o -> is_byte 0) by (intros; unfold is_byte; lia).
  pose proof (alloc_bytes h (fun _ => 0) Z0) as M1. assert (N1 : h_next (amem h U8 (fun _ => 0)) = h_next h + 1) by apply amem_next.
  assert (K1 : keep [] h (amem h U8 (fun _ => 0))) by apply keep_alloc. assert (E1 : h_memo (amem h U8 (fun _ => 0)) = h_memo h) by reflexivity.
  set (h1 := amem h U8 (fun _ => 0)) in *. destruct k.
  - cbn [rbind]. set (main := {| ma_page := 1; ma_ref := h_next h |}).
    pose proof (bitmap_new_ok h1 HGR main None zero_memory None (conj eq_refl (conj eq_refl M1)) I) as B.
    destruct (bitmap_new_a h1 HGR main None) as [b h2]. cbv zeta in B. cbn [fst snd] in B. destruct B as (RB & K2 & E2 & EM & EA & NB).
    rewrite alloc_eq. pose proof (alloc_zero_ints h2) as U. pose proof (keep_alloc [] h2 I32 (fun _ => 0)) as K3.
    assert (PN : ba_packed b < h_next h2) by apply (rb_packed _ _ _ _ RB). pose proof (k_next _ _ _ K2) as N2.
    eexists _, _. split; [reflexivity|]. split; [|split; [|split]].
    + constructor; cbn [va_pix va_mem va_aux_mem va_up va_aux_up va_oow]; auto.
      * eapply rel_bm_keep; [exact K3|intros ? _ []|exact RB].
      * unfold vrefs, bm_refs. cbn [va_pix va_up va_aux_up]. rewrite EM, EA. cbn [ma_ref map_refs opt_refs app main].
        repeat constructor; cbn [In]; lia.
    + eapply keep_trans; [exact K1|]. eapply keep_trans; [exact K2|exact K3].
    + rewrite amem_memo. congruence.
    + unfold vrefs, bm_refs. cbn [va_pix va_up va_aux_up]. rewrite EM, EA. cbn [ma_ref map_refs opt_refs app main In]. lia.
  - rewrite alloc_eq. cbn [rbind].
    pose proof (alloc_bytes h1 (fun _ => 0) Z0) as M2. assert (N1' : h_next (amem h1 U8 (fun _ => 0)) = h_next h1 + 1) by apply amem_next.
    assert (K1' : keep [] h1 (amem h1 U8 (fun _ => 0))) by apply keep_alloc. assert (E1' : h_memo (amem h1 U8 (fun _ => 0)) = h_memo h1) by reflexivity.
    set (h1' := amem h1 U8 (fun _ => 0)) in *.
    assert (M1' : bytes_at h1' (h_next h) (fun _ _ => 0)) by (eapply bytes_keep; [exact K1'|intros []|exact M1]).
    set (main := {| ma_page := 1; ma_ref := h_next h |}). set (aux := {| ma_page := 1; ma_ref := h_next h1 |}).
    pose proof (bitmap_new_ok h1' DHGR main (Some aux) zero_memory (Some zero_memory) (conj eq_refl (conj eq_refl M1')) (conj eq_refl (conj eq_refl M2))) as B.
    destruct (bitmap_new_a h1' DHGR main (Some aux)) as [b h2]. cbv zeta in B. cbn [fst snd] in B. destruct B as (RB & K2 & E2 & EM & EA & NB).
    rewrite alloc_eq. pose proof (alloc_zero_ints h2) as U. pose proof (keep_alloc [] h2 I32 (fun _ => 0)) as K3. assert (N3 : h_next (amem h2 I32 (fun _ => 0)) = h_next h2 + 1) by apply amem_next.
    assert (E3 : h_memo (amem h2 I32 (fun _ => 0)) = h_memo h2) by reflexivity.
    set (h3 := amem h2 I32 (fun _ => 0)) in *. rewrite alloc_eq. pose proof (alloc_zero_ints h3) as U'. pose proof (keep_alloc [] h3 I32 (fun _ => 0)) as K4.
    assert (PN : ba_packed b < h_next h2) by apply (rb_packed _ _ _ _ RB). pose proof (k_next _ _ _ K2) as N2.
    eexists _, _. split; [reflexivity|]. split; [|split; [|split]].
    + constructor; cbn [va_pix va_mem va_aux_mem va_up va_aux_up va_oow]; auto.
      * eapply rel_bm_keep; [exact K4|intros ? _ []|]. eapply rel_bm_keep; [exact K3|intros ? _ []|exact RB].
      * eapply ints_keep; [exact K4|intros []|exact U].
      * unfold vrefs, bm_refs. cbn [va_pix va_up va_aux_up]. rewrite EM, EA. cbn [ma_ref map_refs opt_refs app main aux].
        repeat constructor; cbn [In]; lia.
    + eapply keep_trans; [exact K1|]. eapply keep_trans; [exact K1'|]. eapply keep_trans; [exact K2|]. eapply keep_trans; [exact K3|exact K4].
    + rewrite amem_memo. congruence.
    + unfold vrefs, bm_refs. cbn [va_pix va_up va_aux_up]. rewrite EM, EA. cbn [ma_ref map_refs opt_refs app main aux In]. lia.
Qed.

(** ** Generators *)
Lemma rel_gen_keep base h h' k v v' ga g : keep [] h h' -> same_refs v v' -> rel_gen base h k v ga g -> rel_gen base h' k v' ga g.
Proof.
  intros K SR [tb t a (RT & DJ & BP) G|tb t a up dw d heap (RT & DJ & BP) G BU (DW & DS & NV & NT) BD HO|c].
  - constructor; [|exact G]. split; [eapply rel_bm_keep; [exact K|intros ? _ []|exact RT]|]. rewrite (same_refs_vrefs _ _ SR). auto.
  - constructor; auto.
    + split; [eapply rel_bm_keep; [exact K|intros ? _ []|exact RT]|]. rewrite (same_refs_vrefs _ _ SR). auto.
    + rewrite (same_refs_bank _ _ a SR). exact BU.
    + split; [eapply ints_keep; [exact K|intros []|exact DW]|]. rewrite (same_refs_vrefs _ _ SR). auto.
  - constructor.
Qed.
Lemma target_ok_keep base h h' k v v' tb t w : keep w h h' -> (forall r, In r (bm_refs tb) -> ~ In r w) -> same_refs v v' ->
  target_ok base h k v tb t -> target_ok base h' k v' tb t.
Proof.
  intros K N SR (RT & DJ & BP). split; [eapply rel_bm_keep; eauto|]. rewrite (same_refs_vrefs _ _ SR). auto.
Qed.

(** the frame a generator encodes *)
Definition gen_target (g : gen_a) : option bitmap_a := match g with AStart t _ => Some t | ARun t _ _ _ _ => Some t | APad _ => None end.
Lemma pop_loop_syn ed rnd target is_aux up dw : forall fuel n h v heap ch h' v' ga,
  pop_loop_a fuel ed rnd n h v target is_aux up dw heap = Ok (ch, h', v', ga) ->
  incl (gen_dw ga) [dw] /\ (gen_target ga = None \/ gen_target ga = Some target) /\ (forall t a, ga <> AStart t a).
Proof.
  induction fuel as [|fuel IH]; intros n h v heap ch h' v' ga; cbn [pop_loop_a];
    destruct (target_map (ba_kind (va_pix v)) target is_aux) as [tref|]; try discriminate; cbn [rbind];
    destruct (heappop heap) as [[e heap1]|]; try discriminate.
  - intros H. injection H as <- <- <- <-. split; [intros ? []|]. split; [left; reflexivity|discriminate].
  - unfold assert_. destruct (negb (screen_holes TABLES (en_page e) (en_off e))); [|discriminate].
    destruct (at256 h up (en_page e) (en_off e) =? 0); [apply IH|].
    destruct (match ba_kind (va_pix v) with HGR => true | DHGR => at256 h tref (en_page e) (en_off e) <? 128 end); [|discriminate].
    set (c := at256 h tref (en_page e) (en_off e)).
    set (h2 := set1 (set1 h up _ 0) dw _ 0). destruct (apply_a h2 (va_pix v) (en_page e) (en_off e) is_aux c) as [h3|]; [|discriminate]. cbn [rbind].
    destruct (compute_error_a h3 ed target (en_page e) c dw is_aux rnd n) as [[[cands n1] h4]|]; [|discriminate]. cbn [rbind].
    destruct (fill_slots_a ed target (va_pix v) up is_aux (en_page e) (en_off e) c rnd n1 cands h4 heap1 [en_off e]) as [[[h5 heap2] offs]|]; [|discriminate].
    cbn [rbind]. intros H. injection H as <- <- <- <-. split; [apply incl_refl|]. split; [right; reflexivity|discriminate].
  - intros H. injection H as <- <- <- <-. split; [intros ? []|]. split; [left; reflexivity|discriminate].
Qed.
Lemma next_syn ed rnd h v ga ch h' v' ga' : next_a ed rnd h v ga = Ok (ch, h', v', ga') ->
  incl (gen_dw ga') (h_next h :: gen_dw ga) /\ (gen_target ga' = None \/ gen_target ga' = gen_target ga) /\ (forall t a, ga' <> AStart t a).
Proof.
  destruct ga as [target is_aux|target is_aux up dw heap|c]; unfold next_a.
  - destruct (bank_map v is_aux) as [mr|]; [|discriminate]. cbn [rbind]. destruct (bank_up v is_aux) as [up|]; [|discriminate]. cbn [rbind].
    unfold assert_. destruct (holes_clear (at256 h mr)); [|discriminate]. unfold diff_weights_a.
    destruct (byte_offsets (ba_kind target) is_aux) as [[o0 o1]|]; [|discriminate]. cbn [rbind]. rewrite alloc_eq. cbv zeta.
    set (h4 := set_all (set_all (set_all _ _ _) up _) up _). destruct (forallb _ all_pairs); [|discriminate].
    destruct (heapify_priorities_a (at256 h4 up) rnd) as [q n]. intros H. destruct (pop_loop_syn _ _ _ _ _ _ _ _ _ _ _ _ _ _ _ H) as (A & B & C).
    split; [intros r Hr; apply A in Hr; destruct Hr as [<-|[]]; left; reflexivity|]. split; [exact B|exact C].
  - intros H. destruct (pop_loop_syn _ _ _ _ _ _ _ _ _ _ _ _ _ _ _ H) as (A & B & C).
    split; [intros r Hr; right; apply A, Hr|]. split; [exact B|exact C].
  - intros H. injection H as <- <- <- <-. split; [intros ? []|]. split; [left; reflexivity|discriminate].
Qed.

(** a generator that has yielded is past its start *)
Lemma pop_loop_past ed rnd t a : forall fuel n v dw heap ch v' g, pop_loop fuel ed rnd n v t a dw heap = Ok (ch, v', g) -> forall t' a', g <> GStart t' a'.
Proof.
  induction fuel as [|fuel IH]; intros n v dw heap ch v' g; cbn [pop_loop];
    destruct (bank_mem t match v_mode v with HGR => false | DHGR => a end) as [m|]; try discriminate; cbn [rbind];
    destruct (heap_pop heap) as [[e heap1]|]; try discriminate; try (intros H; injection H as <- <- <-; discriminate).
  unfold assert_. destruct (negb (screen_holes TABLES (en_page e) (en_off e))); [|discriminate].
  destruct (get_up v a (en_page e) (en_off e) =? 0); [apply IH|].
  destruct (match v_mode v with HGR => true | DHGR => m (en_page e) (en_off e) <? 128 end); [|discriminate].
  set (v1 := set_up v a _). destruct (apply (v_pix v1) (en_page e) (en_off e) a (m (en_page e) (en_off e))) as [pix|]; [|discriminate]. cbn [rbind].
  destruct (compute_error ed t (en_page e) (m (en_page e) (en_off e)) _ a rnd n) as [[cands n1]|]; [|discriminate]. cbn [rbind].
  destruct (fill_slots ed t a (en_page e) (en_off e) (m (en_page e) (en_off e)) rnd n1 cands _ heap1 [en_off e]) as [[[v3 heap2] offs]|]; [|discriminate].
  cbn [rbind]. intros H. injection H as <- <- <-. discriminate.
Qed.
Lemma next_past ed rnd v g ch v' g' : next ed rnd v g = Ok (ch, v', g') -> forall t a, g' <> GStart t a.
Proof.
  destruct g as [t a|t a dw heap|c]; unfold next.
  - destruct (bank_mem (v_pix v) a) as [m|]; [|discriminate]. cbn [rbind]. unfold assert_. destruct (holes_clear m); [|discriminate].
    destruct (diff_weights ed t (v_pix v) a) as [dw0|]; [|discriminate]. cbn [rbind]. cbv zeta. set (up := fun p o => _ + _).
    destruct (forallb _ all_pairs); [|discriminate]. destruct (heapify_priorities up rnd) as [hp n]. apply pop_loop_past.
  - apply pop_loop_past.
  - intros H. injection H as <- <- <-. discriminate.
Qed.
Lemma run_start ed v0 t a l v g : frame_run ed v0 t a l v g -> forall t' a', g = GStart t' a' -> t' = t /\ a' = a.
Proof.
  intros [|l' v1 g1 rnd c v2 g2 F N] t' a' E; [injection E as <- <-; auto|]. destruct (next_past _ _ _ _ _ _ _ N t' a' E).
Qed.

(** ** The conversion *)
Definition going (ed : table) (k : kind) (vid : video) (g : gen) : Prop :=
  exists gb n v0 t a l, same_gen gb g /\ encoder ed k n v0 /\ good_target k t /\ good_bank k a /\ frame_run ed v0 t a l vid gb.
Lemma going_encoder ed k vid g : going ed k vid g -> exists n, encoder ed k n vid.
Proof. intros (gb & n & v0 & t & a & l & _ & E & T & A & F). exists (n + 1). eapply enc_frame; eauto. Qed.
Lemma going_start ed k vid t a : (exists n, encoder ed k n vid) -> good_target k t -> good_bank k a -> going ed k vid (GStart t a).
Proof. intros (n & E) T A. exists (GStart t a), n, vid, t, a, []. split; [constructor|]. split; [exact E|]. split; [exact T|]. split; [exact A|constructor]. Qed.
Lemma going_next ed k rnd vid g ch vid' g' : going ed k vid g -> next_q ed rnd vid g = Ok (ch, vid', g') -> going ed k vid' g'.
Proof.
  intros (gb & n & v0 & t & a & l & S & E & T & A & F) H. pose proof (next_same ed rnd vid gb g S) as X. rewrite H in X.
  destruct (next ed rnd vid gb) as [[[ch' v'] gb']|] eqn:N; [|destruct X]. destruct X as [X1 X2]. cbn [fst snd] in X1, X2.
  injection X1 as -> ->. exists gb', n, v0, t, a, (l ++ [ch]). split; [exact X2|]. split; [exact E|]. split; [exact T|]. split; [exact A|].
  eapply fr_next; eauto.
Qed.
Lemma going_fits ed k vid g : u16_table k ed -> going ed k vid g -> start_fits ed vid g.
Proof.
  intros HE G. destruct (going_encoder _ _ _ _ G) as (m & EN). destruct G as (gb & n & v0 & t & a & l & S & E & T & A & F).
  destruct g as [t' a'|t' a' d hp|x]; [|exact I|exact I]. inversion S as [tt aa E1 E2| |]. subst gb tt aa.
  destruct (run_start _ _ _ _ _ _ _ F t' a' eq_refl) as [-> ->]. intros p o Hin.
  pose proof (priorities_fit ed k m vid HE EN a p o Hin) as B1. pose proof (sums_fit ed k m vid t a HE EN T A p o Hin) as B2.
  clear - B1 B2. change (2 ^ 31) with 2147483648. pose proof (Z.le_min_r m 7680). lia.
Qed.

Section Sim.
  Variables (c : config) (base : Z).
  Notation k := (c_mode c).
  Hypothesis HE : u16_table k (c_table c).

  Record rel_state (h : memory) (ma : movie_a) (ea : enc_a) (m : movie) (e : enc) : Prop := {
    rs_pos : am_pos ma = m_pos m; rs_ticks : am_ticks ma = m_ticks m; rs_aux : am_aux ma = m_aux m;
    rs_fn : am_frame_number ma = m_frame_number m;
    rs_vid : rel_vid h k (am_video ma) (m_video m);
    rs_at : ae_at ea = e_at e; rs_last : ae_last ea = e_last e; rs_audio : ae_audio ea = e_audio e;
    rs_frames : e_frames e = map frame_of (ae_frames ea);
    rs_good : good_frames k (e_frames e);
    rs_target : match ae_target ea, e_target e with
                | Some tb, Some t => target_ok base h k (am_video ma) tb t /\ good_target k t
                | None, None => True | _, _ => False end;
    rs_seq : match ae_op_seq ea, e_op_seq e with
             | Some ga, Some g => rel_gen base h k (am_video ma) ga g /\ going (c_table c) k (m_video m) g
             | None, None => exists n, encoder (c_table c) k n (m_video m) | _, _ => False end;
    rs_same : forall ga tb, ae_op_seq ea = Some ga -> gen_target ga = Some tb -> ae_target ea = Some tb;
    rs_dw : forall ga r tb, ae_op_seq ea = Some ga -> In r (gen_dw ga) -> ae_target ea = Some tb -> ~ In r (bm_refs tb);
    rs_base : base <= h_next h;
    rs_memo : memo_ok base k (c_table c) h;
    rs_own : forall r, In r (vrefs (am_video ma)) -> base <= r;
    rs_bank : good_bank k (m_aux m)
  }.
  Lemma rs_encoder h ma ea m e : rel_state h ma ea m e -> exists n, encoder (c_table c) k n (m_video m).
  Proof.
    intros R. pose proof (rs_seq _ _ _ _ _ R) as S. destruct (ae_op_seq ea), (e_op_seq e); try contradiction; [|exact S].
    eapply going_encoder, S.
  Qed.
  Definition own (ma : movie_a) (ea : enc_a) : list Z :=
    match ae_op_seq ea with Some g => gen_dw g | None => [] end ++ vrefs (am_video ma).
  Definition later_own (h : memory) (o o' : list Z) : Prop := forall r, In r o' -> In r o \/ h_next h <= r.

  Lemma new_frame_ok h ma ea m e r : rel_state h ma ea m e -> new_frame c m e = Ok r ->
    exists ra, new_frame_a c h ma ea = Ok ra /\
      match r, ra with
      | None, None => True
      | Some (m', e'), Some (h', ma', ea') => rel_state h' ma' ea' m' e' /\ keep [] h h' /\ incl (own ma' ea') (own ma ea)
      | _, _ => False end.
  Proof.
    intros R H. unfold new_frame, new_frame_a in *. rewrite (rs_frames _ _ _ _ _ R) in H. pose proof (rs_good _ _ _ _ _ R) as GF. rewrite (rs_frames _ _ _ _ _ R) in GF.
    destruct (ae_frames ea) as [|f raws]; cbn [map] in *.
    - injection H as <-. exists None. split; [reflexivity|exact I].
    - assert (GF' : good_frames k (map frame_of raws)) by (intros f' I'; apply GF; right; exact I').
      assert (B1 : forall p o, in_page p o -> is_byte (fst f (256 * p + o))).
      { destruct (GF (frame_of f) (or_introl eq_refl) false (or_intror eq_refl)) as (_ & B & _). intros p o [I1 I2]. exact (B p o I1 I2). }
      assert (B2 : k = DHGR -> forall p o, in_page p o -> is_byte (snd f (256 * p + o))).
      { intros EK. destruct (GF (frame_of f) (or_introl eq_refl) true (or_introl EK)) as (_ & B & _). intros p o [I1 I2]. exact (B p o I1 I2). }
      destruct (draw_ok h k f B1 B2) as (main & aux & h1 & -> & RM & RA & K1 & M1 & FR & LT). cbn [rbind].
      destruct (c_every_n c =? 0); [discriminate|]. rewrite (rs_fn _ _ _ _ _ R).
      destruct R as [R1 R2 R3 R4 R5 R6 R7 R8 R9 R10 R11 R12 R13 R14 R15 R16 R17 R18].
      assert (MO1 : memo_ok base k (c_table c) h1) by (eapply memo_keep; [exact K1|exact M1|exact R16]).
      pose proof (k_next _ _ _ K1) as N1.
      destruct ((m_frame_number m - 1) mod c_every_n c =? 0).
      + pose proof (bitmap_new_ok h1 k main aux _ _ RM RA) as B. destruct (bitmap_new_a h1 k main aux) as [b h2]. cbv zeta in B. cbn [fst snd] in B.
        destruct B as (RB & K2 & M2 & EM & EA & NB). rewrite <- frame_new_of in RB. injection H as <-. eexists. split; [reflexivity|].
        assert (K : keep [] h h2) by (eapply keep_trans; [exact K1|exact K2]). pose proof (k_next _ _ _ K2) as N2.
        assert (GT : good_target k (frame_bitmap k (frame_of f))) by (apply (frames_target k _ GF); left; reflexivity).
        assert (EN : exists n, encoder (c_table c) k n (reset_oow (m_video m))).
        { assert (exists n, encoder (c_table c) k n (m_video m)) as (n & EN).
          { destruct (ae_op_seq ea), (e_op_seq e); try contradiction; [eapply going_encoder, R12|exact R12]. }
          exists n. apply enc_reset, EN. }
        assert (RV : rel_vid h2 k (reset_oow_a (am_video ma)) (reset_oow (m_video m))).
        { pose proof (rel_vid_keep [] h h2 k _ _ K ltac:(intros ? _ []) R5) as [A1 A2 A3 A4 A5 A6 A7]. constructor; auto. }
        assert (TO : target_ok base h2 k (reset_oow_a (am_video ma)) b (frame_bitmap k (frame_of f))).
        { split; [exact RB|]. split.
          - change (vrefs (reset_oow_a (am_video ma))) with (vrefs (am_video ma)). intros r Ir Iv. apply (vrefs_lt _ _ _ _ _ R5) in Iv.
            unfold bm_refs in Ir. rewrite EM, EA in Ir. destruct Ir as [<-|Ir]; [lia|]. specialize (FR r Ir). lia.
          - lia. }
        split; [|split].
        * constructor; cbn [am_pos am_ticks am_aux am_frame_number am_video m_pos m_ticks m_aux m_frame_number m_video ae_at ae_last ae_target ae_op_seq ae_audio ae_frames e_at e_last e_target e_op_seq e_audio e_frames]; auto.
          -- rewrite R3. split; [constructor; [exact TO|exact R18]|]. apply going_start; auto.
          -- intros ga tb E1 E2. injection E1 as <-. exact E2.
          -- intros ga r tb E1 E2. injection E1 as <-. destruct E2.
          -- lia.
          -- eapply memo_keep; [exact K2|exact M2|exact MO1].
        * exact K.
        * unfold own. cbn [ae_op_seq am_video gen_dw app]. intros r Ir. apply in_or_app. right. exact Ir.
      + injection H as <-. eexists. split; [reflexivity|]. split; [|split].
        * constructor; cbn [am_pos am_ticks am_aux am_frame_number am_video m_pos m_ticks m_aux m_frame_number m_video ae_at ae_last ae_target ae_op_seq ae_audio ae_frames e_at e_last e_target e_op_seq e_audio e_frames]; auto.
          -- eapply rel_vid_keep; [exact K1|intros ? _ []|exact R5].
          -- destruct (ae_target ea), (e_target e); auto. destruct R11 as [T1 T2]. split; [|exact T2].
             eapply target_ok_keep; [exact K1|intros ? _ []|apply same_refs_refl|exact T1].
          -- destruct (ae_op_seq ea), (e_op_seq e); auto. destruct R12 as [T1 T2]. split; [|exact T2].
             eapply rel_gen_keep; [exact K1|apply same_refs_refl|exact T1].
          -- lia.
        * exact K1.
        * unfold own. cbn [ae_op_seq am_video]. apply incl_refl.
  Qed.

  Lemma follow_ok h ma ea m e e' : rel_state h ma ea m e -> follow_bank m e = Ok e' ->
    exists ea', follow_bank_a ma ea = Ok ea' /\ rel_state h ma ea' m e' /\ incl (own ma ea') (own ma ea).
  Proof.
    intros R H. unfold follow_bank, follow_bank_a in *. rewrite (rs_aux _ _ _ _ _ R), (rs_last _ _ _ _ _ R).
    destruct (Bool.eqb (m_aux m) (e_last e)).
    - injection H as <-. exists ea. split; [reflexivity|]. split; [exact R|apply incl_refl].
    - pose proof (rs_encoder _ _ _ _ _ R) as EN. destruct R as [R1 R2 R3 R4 R5 R6 R7 R8 R9 R10 R11 R12 R13 R14 R15 R16 R17 R18].
      destruct (e_target e) as [t|] eqn:ET; [|discriminate]. destruct (ae_target ea) as [tb|] eqn:EA; [|contradiction]. injection H as <-.
      eexists. split; [reflexivity|]. split.
      + constructor; cbn [am_pos am_ticks am_aux am_frame_number am_video m_pos m_ticks m_aux m_frame_number m_video ae_at ae_last ae_target ae_op_seq ae_audio ae_frames e_at e_last e_target e_op_seq e_audio e_frames]; auto.
        * destruct R11 as [T1 T2]. split; [constructor; [exact T1|exact R18]|]. apply going_start; auto.
        * intros ga tb' E1 E2. injection E1 as <-. exact E2.
        * intros ga r tb' E1 E2. injection E1 as <-. destruct E2.
      + unfold own. cbn [ae_op_seq gen_dw app]. intros r Ir. apply in_or_app. right. exact Ir.
  Qed.

  Lemma later_incl h h' o1 o2 o3 : h_next h <= h_next h' -> incl o2 o1 -> later_own h' o2 o3 -> later_own h o1 o3.
  Proof. intros N I L r Ir. destruct (L r Ir) as [A|A]; [left; auto|right; lia]. Qed.

  Lemma tick_ok h ma ea m e au oop m' e' : rel_state h ma ea m e -> tick_body_q c m e au = Ok (oop, m', e') ->
    exists h' ma' ea', tick_body_a c h ma ea au = Ok (oop, h', ma', ea') /\ rel_state h' ma' ea' m' e' /\
      keep (own ma ea) h h' /\ later_own h (own ma ea) (own ma' ea').
  Proof.
    intros R H. unfold tick_body_q, tick_body_a in *. rewrite (rs_ticks _ _ _ _ _ R), (rs_fn _ _ _ _ _ R), (rs_pos _ _ _ _ _ R), (rs_aux _ _ _ _ _ R). cbv zeta in *.
    set (due := c_clock c (m_ticks m + 1) (m_frame_number m)) in *.
    set (m1 := {| m_pos := m_pos m; m_ticks := m_ticks m + 1; m_aux := m_aux m; m_frame_number := if due then m_frame_number m + 1 else m_frame_number m; m_video := m_video m |}) in *.
    set (ma1 := {| am_pos := m_pos m; am_ticks := m_ticks m + 1; am_aux := m_aux m; am_frame_number := if due then m_frame_number m + 1 else m_frame_number m; am_video := am_video ma |}) in *.
    assert (R1 : rel_state h ma1 ea m1 e) by (destruct R; constructor; auto).
    assert (P : forall r, (if due then new_frame c m1 e else Ok (Some (m1, e))) = Ok r -> exists ra,
      (if due then new_frame_a c h ma1 ea else Ok (Some (h, ma1, ea))) = Ok ra /\
      match r, ra with
      | None, None => True
      | Some (m', e'), Some (h', ma', ea') => rel_state h' ma' ea' m' e' /\ keep [] h h' /\ incl (own ma' ea') (own ma ea)
      | _, _ => False end).
    { intros r Hr. destruct due; [exact (new_frame_ok _ _ _ _ _ _ R1 Hr)|]. injection Hr as <-. eexists. split; [reflexivity|]. split; [exact R1|]. split; [apply keep_refl|apply incl_refl]. }
    destruct (if due then new_frame c m1 e else Ok (Some (m1, e))) as [r|]; [|discriminate]. destruct (P r eq_refl) as (ra & -> & Q). clear P. cbn [rbind] in *.
    destruct r as [[m2 e2]|], ra as [[[h2 ma2] ea2]|]; try contradiction.
    - destruct Q as (R2 & K2 & I2). destruct (follow_bank m2 e2) as [e3|] eqn:EF; [|discriminate]. cbn [rbind] in H.
      destruct (follow_ok _ _ _ _ _ _ R2 EF) as (ea3 & -> & R3 & I3). cbn [rbind].
      destruct (e_op_seq e3) as [g|] eqn:EG; [|discriminate]. pose proof (rs_seq _ _ _ _ _ R3) as S. rewrite EG in S.
      destruct (ae_op_seq ea3) as [ga|] eqn:EA; [|destruct S]. destruct S as [RG GO].
      destruct (next_q (c_table c) (c_draws c (m_ticks m + 1)) (m_video m2) g) as [[[ch v'] g']|] eqn:EN; [|discriminate]. cbn [rbind] in H.
      destruct (next_a_ok _ _ base _ h2 _ _ _ _ _ _ _ HE (rs_base _ _ _ _ _ R3) (rs_vid _ _ _ _ _ R3) RG (rs_memo _ _ _ _ _ R3) (going_fits _ _ _ _ HE GO) EN)
        as (h3 & va & ga' & NA & SR & RV & RG' & K3 & MO3). rewrite NA. cbn [rbind].
      destruct (next_syn _ _ _ _ _ _ _ _ _ NA) as (SD & ST & SN).
      pose proof (going_next _ _ _ _ _ _ _ _ GO EN) as GO'.
      destruct ch as [[page content] offsets]. destruct (tick_opcode (au * 2 + 34) page content offsets) as [op|]; [|discriminate]. cbn [rbind] in *.
      injection H as <- <- <-. eexists _, _, _. split; [reflexivity|].
      assert (OW : gen_dw ga ++ vrefs (am_video ma2) = own ma2 ea3) by (unfold own; rewrite EA; reflexivity).
      assert (K : keep (own ma ea) h h3).
      { eapply keep_trans; [eapply keep_weak; [|exact K2]; intros ? []|]. eapply keep_weak; [|exact K3]. rewrite OW. intros r Ir. apply I2, I3, Ir. }
      split; [|split; [exact K|]].
      + destruct R3 as [A1 A2 A3 A4 A5 A6 A7 A8 A9 A10 A11 A12 A13 A14 A15 A16 A17 A18].
        constructor; cbn [am_pos am_ticks am_aux am_frame_number am_video m_pos m_ticks m_aux m_frame_number m_video ae_at ae_last ae_target ae_op_seq ae_audio ae_frames e_at e_last e_target e_op_seq e_audio e_frames]; auto.
        * destruct (ae_target ea3) as [tb|] eqn:ET, (e_target e3); auto. destruct A11 as [T1 T2]. split; [|exact T2].
          eapply target_ok_keep; [exact K3| |exact SR|exact T1].
          intros r Ir Io. apply in_app_or in Io. destruct Io as [Io|Io]; [exact (A14 ga r tb EA Io eq_refl Ir)|]. exact (proj1 (proj2 T1) r Ir Io).
        * intros ga0 tb E1 E2. injection E1 as <-. destruct ST as [ST|ST]; [congruence|]. apply (A13 ga tb EA). congruence.
        * intros ga0 r tb E1 Ir ET. injection E1 as <-. apply SD in Ir. rewrite ET in A11. destruct (e_target e3); [|contradiction]. destruct A11 as [T1 T2].
          destruct Ir as [<-|Ir]; [|exact (A14 ga r tb EA Ir ET)]. intros J. apply (bm_refs_lt _ _ _ _ _ (proj1 T1)) in J. lia.
        * pose proof (k_next _ _ _ K3). lia.
        * rewrite (same_refs_vrefs _ _ SR). exact A17.
      + intros r Ir. unfold own in Ir. cbn [ae_op_seq am_video] in Ir. apply in_app_or in Ir. rewrite (same_refs_vrefs _ _ SR) in Ir.
        pose proof (k_next _ _ _ K2). destruct Ir as [Ir|Ir].
        * apply SD in Ir. destruct Ir as [<-|Ir]; [right; lia|]. left. apply I2, I3. rewrite <- OW. apply in_or_app. left. exact Ir.
        * left. apply I2, I3. rewrite <- OW. apply in_or_app. right. exact Ir.
    - injection H as <- <- <-. eexists _, _, _. split; [reflexivity|]. split; [|split; [apply keep_refl|]].
      + destruct R1; constructor; auto.
      + intros r Ir. left. exact Ir.
  Qed.

  Lemma encode_ok h ma ea m e oop m' e' : rel_state h ma ea m e -> encode_next_q c m e = Ok (oop, m', e') ->
    exists h' ma' ea', encode_next_a c h ma ea = Ok (oop, h', ma', ea') /\ rel_state h' ma' ea' m' e' /\
      keep (own ma ea) h h' /\ later_own h (own ma ea) (own ma' ea').
  Proof.
    intros R H. unfold encode_next_q, encode_next_a in *. rewrite (rs_at _ _ _ _ _ R), (rs_audio _ _ _ _ _ R), (rs_aux _ _ _ _ _ R), (rs_last _ _ _ _ _ R). cbv zeta in *.
    destruct (e_at e) eqn:EA.
    - injection H as <- <- <-. eexists _, _, _. split; [reflexivity|]. split; [destruct R; constructor; auto|]. split; [apply keep_refl|intros r Ir; left; exact Ir].
    - destruct (e_audio e) as [|au audio].
      + injection H as <- <- <-. eexists _, _, _. split; [reflexivity|]. split; [destruct R; constructor; auto|]. split; [apply keep_refl|intros r Ir; left; exact Ir].
      + eapply (tick_ok h ma {| ae_at := InLoop; ae_last := m_aux m; ae_target := ae_target ea; ae_op_seq := ae_op_seq ea; ae_audio := audio; ae_frames := ae_frames ea |}); [|exact H].
        destruct R; constructor; auto.
    - destruct (e_audio e) as [|au audio].
      + injection H as <- <- <-. eexists _, _, _. split; [reflexivity|]. split; [destruct R; constructor; auto|]. split; [apply keep_refl|intros r Ir; left; exact Ir].
      + eapply (tick_ok h ma {| ae_at := InLoop; ae_last := e_last e; ae_target := ae_target ea; ae_op_seq := ae_op_seq ea; ae_audio := audio; ae_frames := ae_frames ea |}); [|exact H].
        destruct R; constructor; auto.
    - injection H as <- <- <-. eexists _, _, _. split; [reflexivity|]. split; [exact R|]. split; [apply keep_refl|intros r Ir; left; exact Ir].
  Qed.

  Definition rel_stream (sa : stream_a) (s : stream) : Prop :=
    as_out sa = s_out s /\ rel_state (as_heap sa) (as_movie sa) (as_enc sa) (s_movie s) (s_enc s).
  Definition own_s (sa : stream_a) : list Z := own (as_movie sa) (as_enc sa).
  Definition rel_outcome (sa : stream_a) (oa : outcome_a) (o : outcome) : Prop :=
    match oa, o with
    | MoreA ops sa', More ops' s' => ops = ops' /\ rel_stream sa' s' /\ keep (own_s sa) (as_heap sa) (as_heap sa') /\
        later_own (as_heap sa) (own_s sa) (own_s sa')
    | FinishedA b, Finished b' => b = b'
    | _, _ => False
    end.
  Lemma done_ok sa s : rel_stream sa s -> done_a c sa = done c s.
  Proof.
    intros [O R]. unfold done_a, done. cbn [emit_bytes_a emit_bytes as_out as_movie s_out s_movie advance_a advance am_pos m_pos].
    rewrite O, (rs_pos _ _ _ _ _ R). reflexivity.
  Qed.
  Lemma emit_bytes_ok sa s op : rel_stream sa s -> rel_stream (emit_bytes_a c sa op) (emit_bytes c s op).
  Proof.
    intros [O R]. split; [cbn; rewrite O; reflexivity|]. destruct R. constructor; auto. cbn. lia.
  Qed.
  Lemma emit_step_ok sa s o : rel_stream sa s -> emit_step_q c s = Ok o -> exists oa, emit_step_a c sa = Ok oa /\ rel_outcome sa oa o.
  Proof.
    intros [O R] H. unfold emit_step_q, emit_step_a in *. destruct (encode_next_q c (s_movie s) (s_enc s)) as [[[oop m1] e1]|] eqn:EN; [|discriminate].
    cbn [rbind] in H. destruct (encode_ok _ _ _ _ _ _ _ _ R EN) as (h1 & ma1 & ea1 & -> & R1 & K & L). cbn [rbind]. cbv zeta in *.
    set (s1 := {| s_out := s_out s; s_movie := m1; s_enc := e1 |}) in *. set (sa1 := {| as_out := as_out sa; as_heap := h1; as_movie := ma1; as_enc := ea1 |}).
    assert (RS : rel_stream sa1 s1) by (split; [exact O|exact R1]). destruct oop as [op|].
    - rewrite (rs_pos _ _ _ _ _ R1). destruct (negb (c_max_bytes c =? 0) && (c_max_bytes c <=? m_pos m1)).
      + injection H as <-. eexists. split; [reflexivity|]. cbn [rel_outcome]. apply done_ok, RS.
      + pose proof (emit_bytes_ok sa1 s1 op RS) as RS2. assert (OW : own_s (emit_bytes_a c sa1 op) = own ma1 ea1) by reflexivity.
        assert (HH : as_heap (emit_bytes_a c sa1 op) = h1) by reflexivity.
        set (s2 := emit_bytes c s1 op) in *. set (sa2 := emit_bytes_a c sa1 op) in *. rewrite (rs_pos _ _ _ _ _ (proj2 RS2)).
        destruct (2044 <=? m_pos (s_movie s2) mod 2048).
        * assert (RF : rel_stream {| as_out := as_out sa2; as_heap := as_heap sa2; as_movie := flip_bank_a c (as_movie sa2); as_enc := as_enc sa2 |}
                        {| s_out := s_out s2; s_movie := flip_bank c (s_movie s2); s_enc := s_enc s2 |}).
          { destruct RS2 as [O2 R2]. split; [exact O2|]. unfold flip_bank_a, flip_bank. cbn [as_heap as_movie as_enc s_movie s_enc].
            destruct k eqn:EK; [exact R2|]. destruct R2. constructor; auto; cbn [am_aux m_aux]. { apply f_equal, rs_aux0. } left. exact EK. }
          assert (AX : am_aux (flip_bank_a c (as_movie sa2)) = m_aux (flip_bank c (s_movie s2))) by (exact (rs_aux _ _ _ _ _ (proj2 RF))).
          rewrite AX. pose proof (emit_bytes_ok _ _ (Ack (m_aux (flip_bank c (s_movie s2)))) RF) as RS3.
          match type of RS3 with rel_stream ?x ?y => set (sa3 := x) in *; set (s3 := y) in * end.
          rewrite (rs_pos _ _ _ _ _ (proj2 RS3)). unfold assert_ in *. destruct (m_pos (s_movie s3) mod 2048 =? 0); [|discriminate].
          injection H as <-. eexists. split; [reflexivity|]. cbn [rel_outcome]. split; [reflexivity|]. split; [exact RS3|].
          assert (OW3 : own_s sa3 = own ma1 ea1) by (unfold own_s, sa3, own, emit_bytes_a, flip_bank_a; destruct k; reflexivity).
          rewrite OW3. split; [exact K|exact L].
        * injection H as <-. eexists. split; [reflexivity|]. cbn [rel_outcome]. split; [reflexivity|]. split; [exact RS2|]. rewrite OW, HH. split; [exact K|exact L].
    - injection H as <-. eexists. split; [reflexivity|]. cbn [rel_outcome]. apply done_ok, RS.
  Qed.
  Lemma emit_stream_ok_a : forall fuel sa s bytes, rel_stream sa s -> emit_stream_q fuel c s = Ok bytes -> emit_stream_a fuel c sa = Ok bytes.
  Proof.
    induction fuel as [|fuel IH]; intros sa s bytes R H; cbn [emit_stream_q emit_stream_a] in *; [discriminate|].
    destruct (emit_step_q c s) as [o|] eqn:ES; [|discriminate]. cbn [rbind] in H. destruct (emit_step_ok _ _ _ R ES) as (oa & -> & RO). cbn [rbind].
    destruct oa as [ops sa'|b], o as [ops' s'|b']; try contradiction; [|cbn [rel_outcome] in RO; congruence]. destruct RO as (_ & R' & _). eapply IH; eauto.
  Qed.
End Sim.

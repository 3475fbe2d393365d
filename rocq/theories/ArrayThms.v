(** The array-level conversion: same output, and nothing else changed. *)
From Coq Require Import Permutation.
From Verif Require Import Base BaseFacts ScreenModel ScreenSpec BitmapModel DisplaySpec BitmapSpec BitmapProofs BitmapApply BitmapState
  VideoModel VideoSpec VideoProofs OpcodeModel MovieModel MovieSpec MovieProofs MovieState MovieThms HeapqModel HeapqProofs
  ArrayModel ArrayFacts ArrayProofs ArrayVideo ArraySpec ArrayMovie.
Opaque TABLES all_pairs.

Section Thms.
  Variables (c : config) (h : memory) (audio : list Z) (raws : list raw_frame).
  Notation frames := (map frame_of raws).
  Notation k := (c_mode c).
  Hypothesis HC : good_config c.
  Hypothesis HA : good_audio audio.
  Hypothesis HF : good_frames k frames.
  Hypothesis HS : sane h.

  Lemma start_ok : exists sa, movie_new_a c h audio raws = Ok sa /\ rel_stream c (h_next h) sa (movie_new c audio frames) /\ keep [] h (as_heap sa).
  Proof.
    unfold movie_new_a. destruct (video_new_ok h k) as (v & h' & -> & RV & K & M & O). cbn [rbind]. eexists. split; [reflexivity|].
    split; [|exact K]. split; [reflexivity|]. pose proof (k_next _ _ _ K).
    constructor; cbn [am_pos am_ticks am_aux am_frame_number am_video ae_at ae_last ae_target ae_op_seq ae_audio ae_frames as_heap as_movie as_enc]; try reflexivity; auto.
    - exists 0. constructor.
    - discriminate.
    - discriminate.
    - unfold memo_ok. rewrite M. apply Forall_forall. intros [[[[id o] w] x] r] I. cbn [fst snd]. specialize (HS id o w x r I). split; lia.
    - right. reflexivity.
  Qed.

  Theorem transcode_a_eq : transcode_a c h audio raws = transcode c audio frames.
  Proof.
    destruct (transcode_ok c audio frames HC HA HF) as (bytes & E). rewrite E. rewrite <- transcode_same in E.
    unfold transcode_a. destruct start_ok as (sa & -> & R & _). cbn [rbind]. unfold transcode_q in E.
    exact (emit_stream_ok_a c (h_next h) (proj1 HC) _ _ _ _ R E).
  Qed.

  (** a reached state: the value-level states, and what was kept *)
  Lemma run_ok ops sa : array_run c h audio raws ops sa -> exists sb s n, stream_run c (movie_new c audio frames) ops sb /\ same_stream sb s /\
    Inv c audio frames ops sb n /\ rel_stream c (h_next h) sa s /\ keep [] h (as_heap sa) /\ (forall r, In r (own_s sa) -> h_next h <= r).
  Proof.
    intros H. induction H as [sa E|ops sa new sa' H IH E].
    - destruct start_ok as (sa' & E' & R & K). rewrite E in E'. injection E' as <-. exists (movie_new c audio frames), (movie_new c audio frames), 0%nat.
      split; [constructor|]. split; [unfold same_stream, same_enc; cbn; repeat split; auto|]. split; [apply inv_new; assumption|]. split; [exact R|]. split; [exact K|].
      intros r Ir. unfold own_s, own in Ir. unfold movie_new_a in E. destruct (video_new_a h k) as [[v h']|]; [|discriminate]. cbn [rbind] in E. injection E as <-.
      cbn [as_enc ae_op_seq app] in Ir. exact (rs_own _ _ _ _ _ _ _ (proj2 R) r Ir).
    - destruct IH as (sb & s & n & SR & SS & IV & R & K & O).
      destruct (step_inv c audio frames HC HA HF ops sb n IV) as [(b & EB & _)|(new' & sb' & n' & EB & IV' & _)].
      + pose proof (step_same c sb s SS) as X. rewrite EB in X. destruct (emit_step_q c s) as [[?|b']|] eqn:EQ; try contradiction.
        destruct (emit_step_ok c (h_next h) (proj1 HC) sa s _ R EQ) as (oa & EA & RO). rewrite E in EA. injection EA as <-. destruct RO.
      + pose proof (step_same c sb s SS) as X. rewrite EB in X. destruct (emit_step_q c s) as [[new'' s'|b']|] eqn:EQ; try contradiction.
        destruct X as [<- SS'].
        destruct (emit_step_ok c (h_next h) (proj1 HC) sa s _ R EQ) as (oa & EA & RO). rewrite E in EA. injection EA as <-.
        cbn [rel_outcome] in RO. destruct RO as (<- & R' & K' & L).
        exists sb', s', n'. split; [econstructor; eauto|]. split; [exact SS'|]. split; [exact IV'|]. split; [exact R'|].
        pose proof (k_next _ _ _ K). split.
        * destruct K as [A1 A2 A3], K' as [B1 B2 B3]. constructor; [lia| |].
          -- intros r Hr. rewrite B2 by lia. auto.
          -- intros r i Hr N. rewrite B3; [auto|lia|]. intros I. apply O in I. lia.
        * intros r Ir. destruct (L r Ir) as [I|I]; [auto|lia].
  Qed.
End Thms.

Lemma owned_own s : owned s = own_s s.
Proof. unfold owned, own_s, own, vrefs, opt_refs. destruct (ae_op_seq (as_enc s)) as [[t a|t a up dw heap|x]|]; reflexivity. Qed.
Lemma memo_sane base k ed h : memo_ok base k ed h -> sane h.
Proof. intros M id o w x r I. apply (proj1 (Forall_forall _ _) M) in I. apply I. Qed.

Section Results.
  Variables (c : config) (h : memory) (audio : list Z) (raws : list raw_frame).
  Notation frames := (map frame_of raws).
  Notation k := (c_mode c).
  Hypothesis HC : good_config c.
  Hypothesis HA : good_audio audio.
  Hypothesis HF : good_frames k frames.
  Hypothesis HS : sane h.

  Lemma run_isolated ops s : array_run c h audio raws ops s ->
    sane (as_heap s) /\ h_next h <= h_next (as_heap s) /\ (forall r i, r < h_next h -> h_buf (as_heap s) r i = h_buf h r i) /\
    (forall r, In r (owned s) -> h_next h <= r < h_next (as_heap s)).
  Proof.
    intros H. destruct (run_ok c h audio raws HC HA HF HS ops s H) as (sb & s' & n & _ & _ & _ & [_ R] & K & O).
    split; [eapply memo_sane, (rs_memo _ _ _ _ _ _ _ R)|]. split; [apply (k_next _ _ _ K)|]. split; [intros r i Hr; apply (k_buf _ _ _ K); auto|].
    rewrite owned_own. intros r Ir. split; [auto|]. unfold own_s, own in Ir. apply in_app_or in Ir. destruct Ir as [Ir|Ir].
    - pose proof (rs_seq _ _ _ _ _ _ _ R) as Q. destruct (ae_op_seq (as_enc s)) as [ga|]; [|destruct Ir].
      destruct (e_op_seq (s_enc s')) as [g|]; [|destruct Q]. destruct Q as [RG _].
      destruct RG as [tb t a TO G|tb t a up dw d heap TO G BU (DW & DS & NV & NT) BD HO|x]; try destruct Ir as [].
      + subst. apply DW.
      + destruct H0.
    - eapply vrefs_lt; [apply (rs_vid _ _ _ _ _ _ _ R)|exact Ir].
  Qed.
  Lemma run_distinct ops s : array_run c h audio raws ops s ->
    NoDup (owned s) /\ (forall r, In r (shown_arrays s) -> r < h_next (as_heap s) /\ ~ In r (owned s)).
  Proof.
    intros H. destruct (run_ok c h audio raws HC HA HF HS ops s H) as (sb & s' & n & _ & _ & _ & [_ R] & K & O). rewrite owned_own. unfold own_s, own. split.
    - pose proof (rs_seq _ _ _ _ _ _ _ R) as Q. pose proof (rv_nodup _ _ _ _ (rs_vid _ _ _ _ _ _ _ R)) as ND. destruct (ae_op_seq (as_enc s)) as [ga|]; [|exact ND].
      destruct (e_op_seq (s_enc s')) as [g|]; [|destruct Q]. destruct Q as [RG _].
      destruct RG as [tb t a TO G|tb t a up dw d heap TO G BU (DW & DS & NV & NT) BD HO|x]; cbn [gen_dw app]; [exact ND| |exact ND]. constructor; [exact NV|exact ND].
    - unfold shown_arrays. pose proof (rs_target _ _ _ _ _ _ _ R) as T. pose proof (rs_dw _ _ _ _ _ _ _ R) as D.
      destruct (ae_target (as_enc s)) as [tb|]; [|intros r []]. destruct (e_target (s_enc s')) as [t|]; [|destruct T]. destruct T as [(RT & DJ & _) _].
      intros r Ir. change (In r (bm_refs tb)) in Ir. split; [eapply bm_refs_lt; eauto|]. intros I. apply in_app_or in I. destruct I as [I|I]; [|exact (DJ r Ir I)].
      destruct (ae_op_seq (as_enc s)) as [ga|]; [|destruct I]. exact (D ga r tb eq_refl I eq_refl Ir).
  Qed.
  Lemma step_keeps ops s new s' : array_run c h audio raws ops s -> emit_step_a c s = Ok (MoreA new s') ->
    keep (own_s s) (as_heap s) (as_heap s') /\ later_own (as_heap s) (own_s s) (own_s s').
  Proof.
    intros H E. destruct (run_ok c h audio raws HC HA HF HS ops s H) as (sb & q & n & SR & SS & IV & R & K & O).
    pose proof (step_same c sb q SS) as X.
    destruct (step_inv c audio frames HC HA HF ops sb n IV) as [(b & EB & _)|(new' & sb' & n' & EB & IV' & _)]; rewrite EB in X;
      (destruct (emit_step_q c q) as [[new'' q'|b']|] eqn:EQ; try contradiction);
      destruct (emit_step_ok c (h_next h) (proj1 HC) s q _ R EQ) as (oa & EA & RO); rewrite E in EA; injection EA as <-; [destruct RO|].
    cbn [rel_outcome] in RO. destruct RO as (_ & _ & K' & L). split; assumption.
  Qed.
  Lemma run_steps ops s s' : array_run c h audio raws ops s -> array_steps c s s' ->
    forall r i, r < h_next (as_heap s) -> ~ In r (owned s) -> h_buf (as_heap s') r i = h_buf (as_heap s) r i.
  Proof.
    intros H T. assert (P : (exists ops', array_run c h audio raws ops' s') /\ keep (own_s s) (as_heap s) (as_heap s') /\ later_own (as_heap s) (own_s s) (own_s s')).
    { induction T as [s|s s' new s'' T IH E].
      - split; [exists ops; exact H|]. split; [apply keep_refl|intros r Ir; left; exact Ir].
      - destruct (IH H) as ((ops' & H') & K & L). destruct (step_keeps _ _ _ _ H' E) as [K' L'].
        split; [exists (ops' ++ new); econstructor; eauto|]. pose proof (k_next _ _ _ K). split.
        + destruct K as [A1 A2 A3], K' as [B1 B2 B3]. constructor; [lia| |].
          * intros r Hr. rewrite B2 by lia. auto.
          * intros r i Hr N. rewrite B3; [auto|lia|]. intros I. destruct (L r I); [auto|lia].
        + intros r Ir. destruct (L' r Ir) as [I|I]; [exact (L r I)|right; lia]. }
    destruct P as (_ & K & _). intros r i Hr N. apply (k_buf _ _ _ K); [exact Hr|]. rewrite <- owned_own. exact N.
  Qed.
  Lemma run_values ops s : array_run c h audio raws ops s -> exists s', stream_run c (movie_new c audio frames) ops s' /\
    as_out s = s_out s' /\ am_pos (as_movie s) = m_pos (s_movie s') /\
    holds_words (as_heap s) (am_video (as_movie s)) (m_video (s_movie s')) /\
    (forall a, good_bank k a -> holds_bank (as_heap s) (am_video (as_movie s)) (m_video (s_movie s')) a).
  Proof.
    intros H. destruct (run_ok c h audio raws HC HA HF HS ops s H) as (sb & s' & n & SR & (S1 & S2 & _) & _ & [O R] & K & _). exists sb.
    split; [exact SR|]. rewrite S1, S2. split; [exact O|]. split; [apply (rs_pos _ _ _ _ _ _ _ R)|]. pose proof (rs_vid _ _ _ _ _ _ _ R) as RV. split.
    - intros p x P X. apply (proj2 (rb_packed _ _ _ _ (rv_pix _ _ _ _ RV)) p x P X).
    - intros a G. destruct (bank_map_ok _ _ _ _ a RV G) as (mr & m & EM & EB & BM). destruct (bank_up_some _ _ _ _ a RV G) as (up & BU).
      exists mr, up. split; [exact EM|]. split; [exact BU|]. intros p o P X. split.
      + unfold bank_data. destruct (bank_up_ints RV a up BU) as (IU & _). change (h_buf (as_heap s) mr (256 * p + o)) with (at256 (as_heap s) mr p o). rewrite (proj1 (proj2 BM p o (conj P X))). unfold bank_mem in EB.
        destruct a; [destruct (bm_aux (v_pix (m_video (s_movie s')))); [|discriminate]|]; injection EB as <-; reflexivity.
      + destruct (bank_up_ints RV a up BU) as (IU & _). apply (proj2 IU p o (conj P X)).
  Qed.
End Results.

(** ** Views *)
Lemma set1_only h r i v : h_type h r = U8 -> 0 <= v < 256 -> only_at h (set1 h r i v) r i v.
Proof.
  intros T V. split; [|split; [|split]].
  - rewrite set1_same, Z.eqb_refl, T. apply wrap_u8, V.
  - intros j N. rewrite set1_same. apply Z.eqb_neq in N. rewrite N. reflexivity.
  - intros r' j N. apply set1_other, N.
  - split; [reflexivity|split; reflexivity].
Qed.
Lemma views_agree h (f : flat_a) (m : mmap_a) page offset v : fa_ref f = ma_ref m -> fa_page f = ma_page m -> h_type h (ma_ref m) = U8 -> 0 <= v < 256 ->
  32 * ma_page m <= page < 32 * ma_page m + 32 -> 0 <= offset < 256 ->
  let h' := set1 h (ma_ref m) (256 * (page - 32 * ma_page m) + offset) v in
  flat_write_a h f (256 * page + offset) v = Ok h' /\ mm_write_a h m page offset v = Ok h' /\
  only_at h h' (ma_ref m) (256 * (page - 32 * ma_page m) + offset) v.
Proof.
  intros ER EP T V P O. cbv zeta. split; [|split; [|apply set1_only; auto]].
  - unfold flat_write_a. rewrite EP, ER. destruct ((256 * page + offset <? 8192 * ma_page m) || (8192 * ma_page m + 8191 <? 256 * page + offset)) eqn:B; [lia|].
    unfold norm_index. destruct ((0 <=? 256 * page + offset - 8192 * ma_page m) && (256 * page + offset - 8192 * ma_page m <? 8192)) eqn:B2; [|lia].
    cbn [rbind]. do 2 f_equal. lia.
  - unfold mm_write_a, norm_index. destruct ((0 <=? page - 32 * ma_page m) && (page - 32 * ma_page m <? 32)) eqn:B; [|lia]. cbn [rbind].
    destruct ((0 <=? offset) && (offset <? 256)) eqn:B2; [|lia]. reflexivity.
Qed.

(** every value-level run is that of an array-level run *)
Lemma run_exists c h audio raws (HC : good_config c) (HA : good_audio audio) (HF : good_frames (c_mode c) (map frame_of raws)) (HS : sane h) ops sb :
  stream_run c (movie_new c audio (map frame_of raws)) ops sb -> exists s, array_run c h audio raws ops s.
Proof.
  intros H. assert (P : exists sa s, array_run c h audio raws ops sa /\ same_stream sb s /\ rel_stream c (h_next h) sa s).
  { induction H as [|ops sb new sb' H IH E].
    - destruct (start_ok c h audio raws HF HS) as (sa & E & R & _). exists sa, (movie_new c audio (map frame_of raws)).
      split; [constructor; exact E|]. split; [unfold same_stream, same_enc; cbn; repeat split; auto|exact R].
    - destruct IH as (sa & s & RA & SS & R). pose proof (step_same c sb s SS) as X. rewrite E in X.
      destruct (emit_step_q c s) as [[new' s'|b']|] eqn:EQ; try contradiction. destruct X as [<- SS'].
      destruct (emit_step_ok c (h_next h) (proj1 HC) sa s _ R EQ) as (oa & EA & RO). destruct oa as [new' sa'|b]; [|destruct RO].
      destruct RO as (-> & R' & _). exists sa', s'. split; [econstructor; eauto|]. split; assumption. }
  destruct P as (sa & _ & A & _). exists sa. exact A.
Qed.

Lemma fix_scalar_keeps h b p c o : keep [ba_packed b] h (fix_scalar_a h b p c o).
Proof.
  unfold fix_scalar_a. destruct ((o =? 0) && (0 <? c)); [apply keep_set1; left; reflexivity|].
  destruct ((o =? SCREEN_BYTES (ba_kind b) - 1) && (c <? 127)); [apply keep_set1; left; reflexivity|apply keep_refl].
Qed.
Lemma bitmap_new_keeps h k main aux : (fun bh => ba_main (fst bh) = main /\ ba_kind (fst bh) = k /\ h_next h <= ba_packed (fst bh) < h_next (snd bh) /\ keep [] h (snd bh)) (bitmap_new_a h k main aux).
Proof.
  match goal with |- ?P _ => set (Q := P) end. unfold bitmap_new_a.
  rewrite alloc_eq. match goal with |- context [amem h U64 ?f] => pose proof (keep_alloc [] h U64 f) as K1; pose proof (amem_next h U64 f) as N1; set (h1 := amem h U64 f) in * end.
  rewrite alloc_eq. match goal with |- context [amem h1 U64 ?f] => pose proof (keep_alloc [] h1 U64 f) as K2; pose proof (amem_next h1 U64 f) as N2; set (h2 := amem h1 U64 f) in * end.
  rewrite alloc_eq. match goal with |- context [amem h2 U64 ?f] => pose proof (keep_alloc [] h2 U64 f) as K3; pose proof (amem_next h2 U64 f) as N3; set (h3 := amem h2 U64 f) in * end.
  cbv zeta. match goal with |- context [set_all h3 ?r ?f] => pose proof (keep_set_all [r] h3 r f ltac:(left; reflexivity)) as K4; assert (N4 : h_next (set_all h3 r f) = h_next h3) by reflexivity; set (h4 := set_all h3 r f) in * end.
  rewrite alloc_eq. match goal with |- context [amem h4 U64 ?f] => pose proof (keep_alloc [] h4 U64 f) as K5; pose proof (amem_next h4 U64 f) as N5; set (h5 := amem h4 U64 f) in * end.
  rewrite alloc_eq. match goal with |- context [amem h5 U64 ?f] => pose proof (keep_alloc [] h5 U64 f) as K6; pose proof (amem_next h5 U64 f) as N6; set (h6 := amem h5 U64 f) in * end.
  match goal with |- context [set_all h6 ?r ?f] => pose proof (keep_set_all [r] h6 r f ltac:(left; reflexivity)) as K7; assert (N7 : h_next (set_all h6 r f) = h_next h6) by reflexivity; set (h7 := set_all h6 r f) in * end.
  rewrite alloc_eq. match goal with |- context [amem h7 U64 ?f] => pose proof (keep_alloc [] h7 U64 f) as K8; pose proof (amem_next h7 U64 f) as N8; set (h8 := amem h7 U64 f) in * end.
  unfold Q. cbn [fst snd ba_main ba_kind ba_packed]. split; [reflexivity|]. split; [reflexivity|]. split; [lia|].
  assert (A3 : keep [] h h3) by (eapply keep_trans; [exact K1|]; eapply keep_trans; [exact K2|exact K3]).
  assert (A4 : keep [] h h4) by (eapply (keep_fresh _ _ h3 _ (h_next h2)); [lia|exact A3|exact K4]).
  assert (A6 : keep [] h h6) by (eapply keep_trans; [exact A4|]; eapply keep_trans; [exact K5|exact K6]).
  assert (A7 : keep [] h h7) by (eapply (keep_fresh _ _ h6 _ (h_next h5)); [lia|exact A6|exact K7]).
  eapply keep_trans; [exact A7|exact K8].
Qed.
Lemma bitmap_shares : forall h k main aux, ma_page main = 1 -> h_type h (ma_ref main) = U8 -> ma_ref main < h_next h ->
  let '(b, h1) := bitmap_new_a h k main aux in
  (forall r i, r < h_next h -> h_buf h1 r i = h_buf h r i) /\
  forall p o v h2, 0 <= p < 32 -> 0 <= o < 256 -> 0 <= v < 256 -> apply_a h1 b p o false v = Ok h2 ->
    h_buf h2 (ma_ref main) (256 * p + o) = v /\ (forall i, i <> 256 * p + o -> h_buf h2 (ma_ref main) i = h_buf h (ma_ref main) i).
Proof.
  intros h k main aux PG TY LT. pose proof (bitmap_new_keeps h k main aux) as B. destruct (bitmap_new_a h k main aux) as [b h1]. cbn [fst snd] in B.
  destruct B as (EM & EK & PB & K). split; [intros r i L; apply (k_buf _ _ _ K); auto|]. intros p o v h2 P O V H. unfold apply_a in H.
  destruct (byte_offset (ba_kind b) o false) as [bo|]; [|discriminate]. cbn [rbind] in H. destruct (norm_index 32 p) as [pg|]; [|discriminate]. cbn [rbind] in H.
  destruct (norm_index 128 (o / 2)) as [c|]; [|discriminate]. cbn [rbind] in H. rewrite EM in H. rewrite mm_write_a_01 in H by auto.
  set (h1' := set1 h1 (ba_packed b) _ _) in H. assert (K1 : keep [ba_packed b] h1 h1') by (apply keep_set1; left; reflexivity).
  pose proof (fix_scalar_keeps h1' b pg c bo) as K2. set (h1'' := fix_scalar_a h1' b pg c bo) in *.
  assert (K3 : keep [ba_packed b] h1 h1'') by (eapply keep_trans; [exact K1|exact K2]). injection H as <-.
  assert (NE : ~ In (ma_ref main) [ba_packed b]) by (intros [E|[]]; lia). pose proof (k_next _ _ _ K).
  assert (T2 : h_type h1'' (ma_ref main) = U8) by (rewrite (k_type _ _ _ K3), (k_type _ _ _ K) by lia; exact TY).
  destruct (set1_only h1'' (ma_ref main) (256 * p + o) v T2 V) as (A1 & A2 & _). split; [exact A1|].
  intros i N. rewrite A2 by exact N. rewrite (k_buf _ _ _ K3) by (auto; lia). apply (k_buf _ _ _ K); auto.
Qed.

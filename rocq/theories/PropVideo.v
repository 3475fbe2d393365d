(** Properties C19-C29: the frame encoder. *)
From Verif Require Import Base ScreenModel ScreenSpec BitmapModel ColourModel DisplaySpec BitmapSpec BitmapFacts TableModel TableSpec
  VideoModel VideoSpec VideoProofs VideoFacts VideoThms PriorityProofs VideoDisplay PaletteFacts VideoExample.

(** Common hypotheses: [ed] is any table of 16-bit entries, [v0] any encoder
    state reachable by encoding [n] frames (each abandoned anywhere), [t] any
    frame (DHGR: without palette bits), [a] the bank, [l] the changes drawn so
    far.  They are met by a run of six changes that ends idle: *)
Example hypotheses_met : u16_table HGR ed_ex /\ encoder ed_ex HGR 0 (video_new HGR) /\ good_target HGR t_ex /\ good_bank HGR false /\
  (exists l v g, frame_run ed_ex (video_new HGR) t_ex false l v g /\ is_pad g /\ length l = 6%nat) /\
  (exists v, encoder ed_ex HGR 1 v).
Proof.
  split; [exact ex_u16|]. split; [constructor|]. split; [exact ex_target|]. split; [exact ex_bank|].
  split; [exact idle_run|]. exists (fst s6). change 1 with (0 + 1).
  apply (enc_frame ed_ex HGR 0 (video_new HGR) t_ex false l6 (fst s6) (snd s6) (enc_new _ _) ex_target ex_bank run6).
Qed.
(** with given random choices [rnd] *)
Inductive run_with (ed : table) (rnd : nat -> Z -> Z) (v0 : video) (t : bitmap) (a : bool) : list change -> video -> gen -> Prop :=
| rw_start : run_with ed rnd v0 t a [] v0 (GStart t a)
| rw_next l v g c v' g' : run_with ed rnd v0 t a l v g -> next ed (rnd (length l)) v g = Ok (c, v', g') -> run_with ed rnd v0 t a (l ++ [c]) v' g'.
Lemma run_with_run ed rnd v0 t a l v g : run_with ed rnd v0 t a l v g -> frame_run ed v0 t a l v g.
Proof. intros R. induction R as [|l v g c v' g' R IH E]; econstructor; eauto. Qed.
Example real_tables_exist : (exists ed, real_table HGR ed) /\ (exists ed, real_table DHGR ed).
Proof. split; apply real_table_exists. Qed.

Theorem C19_encode_never_raises : forall ed k n v0 t a l v g,
  u16_table k ed -> encoder ed k n v0 -> good_target k t -> good_bank k a -> frame_run ed v0 t a l v g ->
  forall rnd, exists c v' g', next ed rnd v g = Ok (c, v', g').
Proof. exact never_raises. Qed.
Print Assumptions C19_encode_never_raises.

Theorem C20_changes_well_formed : forall ed k n v0 t a l v g,
  u16_table k ed -> encoder ed k n v0 -> good_target k t -> good_bank k a -> frame_run ed v0 t a l v g ->
  forall page content offsets, In (page, content, offsets) l ->
  32 <= page < 64 /\ length offsets = 4%nat /\
  (forall o, In o offsets -> 0 <= o < 256 /\ displayed (page - 32) o) /\
  content = bank_data t a (page - 32) (nth 0 offsets 0).
Proof.
  exact (fun ed k n v0 t a l v g HE HV HT HG HF page content offsets Hin =>
    match proj1 (Forall_forall _ _) (all_well_formed ed k n v0 t a l v g HE HV HT HG HF) _ Hin with
    | conj A (conj B (conj C D)) => conj A (conj B (conj (proj1 (Forall_forall _ _) C) D)) end).
Qed.
Print Assumptions C20_changes_well_formed.

(** C21: the changes drawn so far are working changes followed by idle padding;
    storing the working ones gives the encoder's screen memory. *)
Theorem C21_replay_is_encoder_screen : forall ed k n v0 t a l v g,
  u16_table k ed -> encoder ed k n v0 -> good_target k t -> good_bank k a -> frame_run ed v0 t a l v g ->
  exists work j, l = work ++ repeat (pad_change t a) j /\ (j <> 0%nat <-> is_pad g) /\
    mem_eq (bank_data (v_pix v) a) (replay (bank_data (v_pix v0) a) work).
Proof.
  exact (fun ed k n v0 t a l v g HE HV HT HG HF =>
    match replay_screen ed k n v0 t a l v g HE HV HT HG HF with
    | ex_intro _ w (ex_intro _ j (conj A (conj B (conj C _)))) => ex_intro _ w (ex_intro _ j (conj A (conj B C))) end).
Qed.
Print Assumptions C21_replay_is_encoder_screen.

(** C22 is false: the fourth slot of a working change always repeats the first
    (video.py 181: the loop stops at three offsets) ... *)
Theorem C22_four_distinct_refuted : forall ed k n v0 t a l v g,
  u16_table k ed -> encoder ed k n v0 -> good_target k t -> good_bank k a -> frame_run ed v0 t a l v g ->
  forall rnd page content o0 o1 o2 o3 v' g',
  next ed rnd v g = Ok ((page, content, [o0; o1; o2; o3]), v', g') -> ~ is_pad g' -> o3 = o0.
Proof.
  exact (fun ed k n v0 t a l v g HE HV HT HG HF rnd page content o0 o1 o2 o3 v' g' E NP =>
    proj1 (change_facts ed k n v0 t a l v g HE HV HT HG HF rnd page content o0 o1 o2 o3 v' g' E NP)).
Qed.
Print Assumptions C22_four_distinct_refuted.
(** ... here three other bytes would benefit and two are stored to. *)
Theorem C22_three_of_four_refuted : exists l v g rnd v' g', frame_run ed_ex (video_new HGR) t_ex false l v g /\
  next ed_ex rnd v g = Ok ((33, 3, [10; 20; 30; 10]), v', g') /\ ~ is_pad g' /\
  forall o, In o [20; 30; 40] -> priority_now ed_ex (video_new HGR) t_ex false v g 1 o <> 0 /\
     store_error ed_ex t_ex false 1 o 3 < start_distance ed_ex t_ex (v_pix (video_new HGR)) false 1 o.
Proof. exact three_of_four. Qed.
Print Assumptions C22_three_of_four_refuted.
(** What holds: three slots are filled; if fewer than three distinct offsets are
    stored to, no other outstanding byte of the page would have benefited. *)
Theorem C22_three_slots_partial : forall ed k n v0 t a l v g,
  u16_table k ed -> encoder ed k n v0 -> good_target k t -> good_bank k a -> frame_run ed v0 t a l v g ->
  forall rnd page content o0 o1 o2 o3 v' g',
  next ed rnd v g = Ok ((page, content, [o0; o1; o2; o3]), v', g') -> ~ is_pad g' ->
  (o2 <> o0 -> o1 <> o0 /\ o1 <> o2) /\
  (o2 = o0 -> forall o, 0 <= o < 256 -> o <> o0 -> priority_now ed v0 t a v g (page - 32) o <> 0 ->
     store_error ed t a (page - 32) o content < start_distance ed t (v_pix v0) a (page - 32) o -> o = o1).
Proof.
  exact (fun ed k n v0 t a l v g HE HV HT HG HF rnd page content o0 o1 o2 o3 v' g' E NP =>
    match change_facts ed k n v0 t a l v g HE HV HT HG HF rnd page content o0 o1 o2 o3 v' g' E NP with
    | conj _ (conj _ (conj _ (conj _ (conj A B)))) => conj B A end).
Qed.
Print Assumptions C22_three_slots_partial.

(** C23 with the priorities of the frame's start: the first offset is still
    outstanding, and no outstanding byte started the frame with a higher one. *)
Theorem C23_frame_start_order_partial : forall ed k n v0 t a l v g,
  u16_table k ed -> encoder ed k n v0 -> good_target k t -> good_bank k a -> frame_run ed v0 t a l v g ->
  forall rnd page content o0 o1 o2 o3 v' g',
  next ed rnd v g = Ok ((page, content, [o0; o1; o2; o3]), v', g') -> ~ is_pad g' ->
  priority_now ed v0 t a v g (page - 32) o0 <> 0 /\
  forall p o, in_page p o -> priority_now ed v0 t a v g p o <> 0 ->
    start_priority ed v0 t a p o <= start_priority ed v0 t a (page - 32) o0.
Proof.
  exact (fun ed k n v0 t a l v g HE HV HT HG HF rnd page content o0 o1 o2 o3 v' g' E NP =>
    match change_facts ed k n v0 t a l v g HE HV HT HG HF rnd page content o0 o1 o2 o3 v' g' E NP with
    | conj _ (conj A (conj B _)) => conj A B end).
Qed.
Print Assumptions C23_frame_start_order_partial.
(** With the current priorities it is false: byte 2 (10 left) is served before
    byte 4 (50 left), because its heap entry is not updated. *)
Theorem C23_current_priority_refuted : exists l v g rnd c v' g', frame_run ed_ex (video_new HGR) t_ex false l v g /\
  next ed_ex rnd v g = Ok ((32, c, [2; 2; 2; 2]), v', g') /\ ~ is_pad g' /\
  priority_now ed_ex (video_new HGR) t_ex false v g 0 2 = 10 /\
  priority_now ed_ex (video_new HGR) t_ex false v g 0 4 = 50.
Proof. exact stale_priority. Qed.
Print Assumptions C23_current_priority_refuted.

Theorem C24_bounded_work : forall ed k n v0 t a l v g,
  u16_table k ed -> encoder ed k n v0 -> good_target k t -> good_bank k a -> frame_run ed v0 t a l v g ->
  let differing := count_bytes (fun p o => negb (start_priority ed v0 t a p o =? 0)) in
  differing <= 7680 /\ (differing < Z.of_nat (length l) -> is_pad g).
Proof.
  intros ed k n v0 t a l v g HE HV HT HG HF differing.
  split; [exact (start_count ed v0 t a)|]. intros L.
  destruct (replay_screen ed k n v0 t a l v g HE HV HT HG HF) as (w & j & E & J & _ & LW).
  apply J. intros ->. cbn [repeat] in E. rewrite app_nil_r in E. subst w. apply (Z.lt_irrefl differing).
  eapply Z.lt_le_trans; [exact L|exact LW].
Qed.
Print Assumptions C24_bounded_work.

(** ... so work always ends: whatever the random choices, 7681 changes suffice to
    become idle. *)
Theorem C24_reaches_idle : forall ed k n v0 t a, u16_table k ed -> encoder ed k n v0 -> good_target k t -> good_bank k a ->
  forall rnd : nat -> Z -> Z, exists l v g, run_with ed rnd v0 t a l v g /\ is_pad g /\ Z.of_nat (length l) <= 7681.
Proof.
  intros ed k n v0 t a HE HV HT HG rnd.
  assert (H : forall j, exists l v g, run_with ed rnd v0 t a l v g /\ length l = j).
  { induction j as [|j (l & v & g & R & L)]; [exists [], v0, (GStart t a); split; [constructor|reflexivity]|].
    destruct (C19_encode_never_raises ed k n v0 t a l v g HE HV HT HG (run_with_run _ _ _ _ _ _ _ _ R) (rnd (length l))) as (c & v' & g' & E).
    exists (l ++ [c]), v', g'. split; [eapply rw_next; eauto|]. rewrite app_length, L, Nat.add_1_r. reflexivity. }
  destruct (H (Z.to_nat 7681)) as (l & v & g & R & L). exists l, v, g. split; [exact R|]. rewrite L, Z2Nat.id by discriminate. split; [|apply Z.le_refl].
  destruct (C24_bounded_work ed k n v0 t a l v g HE HV HT HG (run_with_run _ _ _ _ _ _ _ _ R)) as [B1 B2]. apply B2. rewrite L, Z2Nat.id by discriminate.
  eapply Z.le_lt_trans; [exact B1|reflexivity].
Qed.
Print Assumptions C24_reaches_idle.

Theorem C24_idle_means_done : forall ed k n v0 t a l v g,
  u16_table k ed -> encoder ed k n v0 -> good_target k t -> good_bank k a -> frame_run ed v0 t a l v g ->
  is_pad g -> forall p o, in_page p o -> get_up v a p o = 0.
Proof. exact pad_done. Qed.
Print Assumptions C24_idle_means_done.

(** C25 *)
Theorem C25_idle_means_settled : forall ed k n v0 t a l v g,
  u16_table k ed -> encoder ed k n v0 -> good_target k t -> good_bank k a -> frame_run ed v0 t a l v g ->
  is_pad g -> forall p o, in_page p o -> displayed p o ->
    bank_data (v_pix v) a p o = bank_data t a p o \/
    (start_distance ed t (v_pix v0) a p o = 0 /\ bank_data (v_pix v) a p o = bank_data (v_pix v0) a p o) \/
    (exists t' dist, apply t p o a (bank_data (v_pix v) a p o) = Ok t' /\ diff_weights ed t' t a = Ok dist /\ dist p o = 0).
Proof. exact pad_settled. Qed.
Print Assumptions C25_idle_means_settled.

(** such runs exist for every table, encoder state and target (C24_reaches_idle), for
    instance from a blank screen to one with seven bytes set *)
Example C25_idle_runs : forall ed, real_table HGR ed -> exists l v g, frame_run ed (video_new HGR) t_ex false l v g /\ is_pad g /\ good_target HGR t_ex /\ encoder ed HGR 0 (video_new HGR) /\
  bank_data t_ex false 1 10 = 3.
Proof.
  intros ed HR. destruct (C24_reaches_idle ed HGR 0 (video_new HGR) t_ex false (real_u16 _ _ HR) (enc_new _ _) ex_target ex_bank (fun _ => zeros)) as (l & v & g & R & P & _).
  exists l, v, g. split; [exact (run_with_run _ _ _ _ _ _ _ _ R)|]. split; [exact P|]. split; [exact ex_target|]. split; [constructor|reflexivity].
Qed.

Theorem C25_discriminating_table_converges : forall ed k n v0 t a l v g,
  u16_table k ed -> encoder ed k n v0 -> good_target k t -> good_bank k a -> frame_run ed v0 t a l v g ->
  discriminating k ed -> is_pad g ->
  forall p o, in_page p o -> displayed p o -> bank_data (v_pix v) a p o = bank_data t a p o.
Proof. exact pad_converged. Qed.
Print Assumptions C25_discriminating_table_converges.

(** with a double hi-res table as make_data_tables.py builds it *)
Theorem C25_dhgr_converges : forall ed n v0 t a l v g,
  real_table DHGR ed -> encoder ed DHGR n v0 -> good_target DHGR t -> frame_run ed v0 t a l v g -> is_pad g ->
  forall p o, in_page p o -> displayed p o -> bank_data (v_pix v) a p o = bank_data t a p o.
Proof.
  exact (fun ed n v0 t a l v g HR HV HT HF HP =>
    pad_converged ed DHGR n v0 t a l v g (real_u16 _ _ HR) HV HT (or_introl eq_refl) HF (real_discriminating ed HR) HP).
Qed.
Print Assumptions C25_dhgr_converges.

(** with a hi-res table as make_data_tables.py builds it: the dots shown are the
    target's, for every byte of every line (in the first column the dot before
    a delayed byte is excepted: the transcoder takes it from the previous byte
    in memory, which is not its neighbour on screen). *)
Theorem C25_hgr_display_converges : forall ed n v0 t l v g,
  real_table HGR ed -> encoder ed HGR n v0 -> good_target HGR t -> frame_run ed v0 t false l v g -> is_pad g ->
  forall x y p off r, visible_xy x y -> hires_offset x y = 256 * p + off -> 0 <= off < 256 -> 0 <= r < 14 ->
    0 < r \/ 0 < x ->
    hgr_dot (mm_data (bm_main (v_pix v)) p) (14 * off + r) = hgr_dot (mm_data (bm_main t) p) (14 * off + r).
Proof.
  intros ed n v0 t l v g HR HV HT HF HP x y p off r Hxy E Ho Hr HC.
  destruct (coordinates p off x y Hxy E Ho) as (Hin & Hd & Hd').
  apply (converged_dots ed n v0 t l v g HR HV HT HF HP p off r Hin Hd Hr).
  destruct HC as [HC|HC]; [left; exact HC|right; right; exact (Hd' HC)].
Qed.
Print Assumptions C25_hgr_display_converges.

(** The shipped palettes (palette.py) give such tables: both for hi-res, the IIGS
    palette for double hi-res. *)
Theorem C25_palette_tables : forall k pal ed, (k = HGR /\ pal = ntsc_rgb) \/ pal = iigs_rgb -> palette_table k pal ed -> real_table k ed.
Proof. exact palette_real. Qed.
Print Assumptions C25_palette_tables.
Example palette_tables_exist : forall k pal, exists ed, palette_table k pal ed.
Proof. exact palette_exists. Qed.

(** With the NTSC palette, whose greys are the same (C16_ntsc_greys_refuted), a
    double hi-res byte becomes the target's if no grey is shown around it. *)
Theorem C25_dhgr_ntsc_converges : forall ed n v0 t a l v g,
  palette_table DHGR ntsc_rgb ed -> encoder ed DHGR n v0 -> good_target DHGR t -> frame_run ed v0 t a l v g -> is_pad g ->
  forall p o, in_page p o -> displayed p o -> no_grey t a p o -> bank_data (v_pix v) a p o = bank_data t a p o.
Proof. exact (fun ed n v0 t a l v g HR => pad_no_grey ed n v0 t a l v g (palette_grey ntsc_rgb ed (or_introl eq_refl) HR)). Qed.
Print Assumptions C25_dhgr_ntsc_converges.
(** a black screen is such a target *)
Example C25_black_has_no_grey : no_grey (v_pix (video_new DHGR)) false 3 7 /\ no_grey (v_pix (video_new DHGR)) true 0 0.
Proof.
  assert (E : forall d, dhgr_dot (fun _ => 0) (fun _ => 0) d = false).
  { intros d. unfold dhgr_dot, clip_row. destruct (Z.even _), ((_ <=? _) && _); apply Z.testbit_0_l. }
  assert (Z0 : forall d, pixel_colour (dhgr_dot (fun _ => 0) (fun _ => 0)) d = 0) by (intros d; unfold pixel_colour; rewrite !E; reflexivity).
  split; intros d _; change (pixel_colour _ d) with (pixel_colour (dhgr_dot (fun _ => 0) (fun _ => 0)) d); rewrite Z0; split; discriminate.
Qed.

Theorem C26_extra_stores_improve : forall ed k n v0 t a l v g,
  u16_table k ed -> encoder ed k n v0 -> good_target k t -> good_bank k a -> frame_run ed v0 t a l v g ->
  forall rnd page content o0 o1 o2 o3 v' g',
  next ed rnd v g = Ok ((page, content, [o0; o1; o2; o3]), v', g') -> ~ is_pad g' ->
  forall o, In o [o1; o2; o3] -> o <> o0 ->
    priority_now ed v0 t a v g (page - 32) o <> 0 /\
    store_error ed t a (page - 32) o content < start_distance ed t (v_pix v0) a (page - 32) o.
Proof.
  exact (fun ed k n v0 t a l v g HE HV HT HG HF rnd page content o0 o1 o2 o3 v' g' E NP =>
    match change_facts ed k n v0 t a l v g HE HV HT HG HF rnd page content o0 o1 o2 o3 v' g' E NP with
    | conj _ (conj _ (conj _ (conj A _))) => A end).
Qed.
Print Assumptions C26_extra_stores_improve.

Theorem C27_banks_independent : forall ed k n v0 t a l v g,
  u16_table k ed -> encoder ed k n v0 -> good_target k t -> good_bank k a -> frame_run ed v0 t a l v g ->
  (forall p o, bank_data (v_pix v) (negb a) p o = bank_data (v_pix v0) (negb a) p o) /\
  (forall p o, get_up v (negb a) p o = get_up v0 (negb a) p o) /\
  (forall p c, 0 <= p < 32 -> 0 <= c < 128 ->
     bm_packed (v_pix v) p c = pack k (mm_data (bm_main (v_pix v))) (aux_data (bm_aux (v_pix v))) p c).
Proof.
  intros ed k n v0 t a l v g HE HV HT HG HF.
  destruct (encoder_vinv ed k n v0 HE HV) as [VI HN].
  pose proof (run_fstate ed k n v0 t a HE HT HG VI HN l v g HF) as FS.
  pose proof (fstate_vinv ed k n v0 t a VI l v g FS) as V2.
  apply fstate_other in FS. destruct FS as [E1 E2]. rewrite E1, E2.
  split; [reflexivity|]. split; [reflexivity|].
  intros p c Hp Hc. rewrite packed_is_repack by (auto; apply (vi_reach _ _ _ V2)).
  rewrite <- (vi_kind _ _ _ V2). reflexivity.
Qed.
Print Assumptions C27_banks_independent.

(** C28: whatever the number [n] of frames encoded, every priority and every sum
    formed at the start of a frame fits a signed 32-bit integer. *)
Theorem C28_priorities_fit : forall ed k n v, u16_table k ed -> encoder ed k n v ->
  forall a p o, in_page p o ->
    0 <= get_up v a p o <= Z.min n 7680 * 65535 /\ get_up v a p o < 2 ^ 31 /\
    (~ displayed p o -> get_up v a p o = 0).
Proof.
  intros ed k n v HE HV a p o Hin. destruct (encoder_vinv ed k n v HE HV) as [VI HN].
  pose proof (priorities_fit ed k n v HE HV a p o Hin) as B. split; [exact B|]. split; [lia|].
  intros ND. apply (vi_up_hole _ _ _ VI); auto. destruct (screen_holes TABLES p o) eqn:H; auto.
  exfalso. apply ND, hole_displayed; auto.
Qed.
Print Assumptions C28_priorities_fit.

Theorem C28_sums_fit : forall ed k n v0 t a, u16_table k ed -> encoder ed k n v0 -> good_target k t -> good_bank k a ->
  forall p o, in_page p o -> 0 <= start_priority ed v0 t a p o < 2 ^ 31.
Proof.
  intros ed k n v0 t a HE HV HT HG p o Hin. pose proof (sums_fit ed k n v0 t a HE HV HT HG p o Hin). lia.
Qed.
Print Assumptions C28_sums_fit.

(** C29: memory of a player that stores every change, padding included. *)
Theorem C29_discriminating_exact : forall ed k n v m,
  u16_table k ed -> discriminating k ed -> shown ed k n v m ->
  forall b p o, in_page p o -> m b p o = bank_data (v_pix v) b p o.
Proof. exact shown_exact. Qed.
Print Assumptions C29_discriminating_exact.

Theorem C29_dhgr_exact : forall ed n v m, real_table DHGR ed -> shown ed DHGR n v m ->
  forall b p o, in_page p o -> m b p o = bank_data (v_pix v) b p o.
Proof. exact (fun ed n v m HR => shown_exact ed DHGR n v m (real_u16 _ _ HR) (real_discriminating ed HR)). Qed.
Print Assumptions C29_dhgr_exact.

Theorem C29_hgr_same_dots : forall ed n v m, real_table HGR ed -> shown ed HGR n v m ->
  forall p d, 0 <= p < 32 -> hgr_dot (m false p) d = hgr_dot (mm_data (bm_main (v_pix v)) p) d.
Proof. exact shown_dots. Qed.
Print Assumptions C29_hgr_same_dots.

(** whatever the table, only the first byte of a bank can ever differ *)
Theorem C29_all_but_first_byte : forall ed k n v m, u16_table k ed -> shown ed k n v m ->
  forall b p o, in_page p o -> p <> 0 \/ o <> 0 -> m b p o = bank_data (v_pix v) b p o.
Proof. exact shown_but_first. Qed.
Print Assumptions C29_all_but_first_byte.

(** The memory itself can differ in hi-res: after the blank screen the frame
    whose first byte is 0x80 (black, palette bit set) needs no work, its padding
    stores 0x80 at byte 0, the encoder's map keeps 0. *)
Theorem C29_same_memory_refuted : forall ed, real_table HGR ed -> forall rnd, exists v g,
  next ed rnd (video_new HGR) (GStart t_80 false) = Ok (pad_change t_80 false, v, g) /\
  bank_data (v_pix v) false 0 0 = 0 /\
  replay (bank_data (v_pix (video_new HGR)) false) [pad_change t_80 false] 0 0 = 128.
Proof. exact pad_differs. Qed.
Print Assumptions C29_same_memory_refuted.

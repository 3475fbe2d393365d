(** The array-level bitmaps simulate those of BitmapModel. *)
From Verif Require Import Base BaseFacts BitFacts ScreenModel ScreenSpec BitmapModel DisplaySpec BitmapSpec BitmapProofs BitmapApply BitmapState
  VideoModel VideoSpec OpcodeModel MovieModel HeapqModel ArrayModel ArrayFacts.
Opaque TABLES all_pairs.

Lemma index256 p o p' o' : 0 <= o < 256 -> 0 <= o' < 256 -> 256 * p + o = 256 * p' + o' -> p = p' /\ o = o'.
Proof. intros. lia. Qed.
Lemma index128 p o p' o' : 0 <= o < 128 -> 0 <= o' < 128 -> 128 * p + o = 128 * p' + o' -> p = p' /\ o = o'.
Proof. intros. lia. Qed.
Lemma div128 p c : 0 <= c < 128 -> (128 * p + c) / 128 = p /\ (128 * p + c) mod 128 = c.
Proof. intros. dlia. Qed.
Lemma div256 p c : 0 <= c < 256 -> (256 * p + c) / 256 = p /\ (256 * p + c) mod 256 = c.
Proof. intros. dlia. Qed.

Definition fits (h : memory) (r : Z) (ty : dtype) : Prop := r < h_next h /\ h_type h r = ty.
Lemma fits_keep w h h' r ty : keep w h h' -> fits h r ty -> fits h' r ty.
Proof. intros K [A B]. split; [pose proof (k_next _ _ _ K); lia|]. rewrite (k_type _ _ _ K) by auto. exact B. Qed.

(** ** Relations *)
Definition bytes_at (h : memory) (r : Z) (m : mem) : Prop :=
  fits h r U8 /\ forall p o, in_page p o -> at256 h r p o = m p o /\ is_byte (m p o).
Definition words_at (h : memory) (r : Z) (w : Z -> Z -> Z) : Prop :=
  fits h r U64 /\ forall p c, 0 <= p < 32 -> 0 <= c < 128 -> at128 h r p c = w p c /\ 0 <= w p c < 2 ^ 64.
Definition ints_at (h : memory) (r : Z) (f : Z -> Z -> Z) : Prop :=
  fits h r I32 /\ forall p o, in_page p o -> at256 h r p o = f p o.
Definition rel_mm (h : memory) (m : mmap_a) (mm : memory_map) : Prop :=
  ma_page m = 1 /\ mm_page mm = 1 /\ bytes_at h (ma_ref m) (mm_data mm).
Definition rel_aux (h : memory) (k : kind) (m : option mmap_a) (mm : option memory_map) : Prop :=
  match k, m, mm with
  | HGR, None, None => True
  | DHGR, Some m, Some mm => rel_mm h m mm
  | _, _, _ => False
  end.
Record rel_bm (h : memory) (k : kind) (b : bitmap_a) (bm : bitmap) : Prop := {
  rb_kind : ba_kind b = k;
  rb_kind' : bm_kind bm = k;
  rb_main : rel_mm h (ba_main b) (bm_main bm);
  rb_aux : rel_aux h k (ba_aux b) (bm_aux bm);
  rb_packed : words_at h (ba_packed b) (bm_packed bm)
}.
Definition map_refs (m : option mmap_a) : list Z := match m with Some m => [ma_ref m] | None => [] end.
Definition bm_refs (b : bitmap_a) : list Z := ba_packed b :: ma_ref (ba_main b) :: map_refs (ba_aux b).

Lemma bytes_keep w h h' r m : keep w h h' -> ~ In r w -> bytes_at h r m -> bytes_at h' r m.
Proof.
  intros K N [F B]. split; [eapply fits_keep; eauto|]. intros p o I. unfold at256. rewrite (k_buf _ _ _ K); [apply B, I|apply F|exact N].
Qed.
Lemma words_keep w h h' r m : keep w h h' -> ~ In r w -> words_at h r m -> words_at h' r m.
Proof.
  intros K N [F B]. split; [eapply fits_keep; eauto|]. intros p o I J. unfold at128. rewrite (k_buf _ _ _ K); [apply B; auto|apply F|exact N].
Qed.
Lemma ints_keep w h h' r m : keep w h h' -> ~ In r w -> ints_at h r m -> ints_at h' r m.
Proof.
  intros K N [F B]. split; [eapply fits_keep; eauto|]. intros p o I. unfold at256. rewrite (k_buf _ _ _ K); [apply B, I|apply F|exact N].
Qed.
Lemma rel_mm_keep w h h' m mm : keep w h h' -> ~ In (ma_ref m) w -> rel_mm h m mm -> rel_mm h' m mm.
Proof. intros K N (A & B & C). split; [exact A|]. split; [exact B|]. eapply bytes_keep; eauto. Qed.
Lemma rel_aux_keep w h h' k m mm : keep w h h' -> (forall r, In r (map_refs m) -> ~ In r w) -> rel_aux h k m mm -> rel_aux h' k m mm.
Proof.
  intros K N R. destruct k, m, mm; cbn in *; auto. eapply rel_mm_keep; eauto.
Qed.
Lemma rel_bm_keep w h h' k b bm : keep w h h' -> (forall r, In r (bm_refs b) -> ~ In r w) -> rel_bm h k b bm -> rel_bm h' k b bm.
Proof.
  intros K N [A B C D E]. constructor; [exact A|exact B| | |].
  - eapply rel_mm_keep; eauto. apply N. right. left. reflexivity.
  - eapply rel_aux_keep; eauto. intros r I. apply N. right. right. exact I.
  - eapply words_keep; eauto. apply N. left. reflexivity.
Qed.

(** ** One element stored *)
Lemma bytes_set1 h r m p o v : bytes_at h r m -> in_page p o -> is_byte v -> bytes_at (set1 h r (256 * p + o) v) r (upd2 m p o v).
Proof.
  intros [F B] I V. split; [exact F|]. intros p' o' I'. unfold at256. rewrite set1_same. destruct F as [_ ->].
  unfold upd2. destruct (Z.eqb_spec (256 * p' + o') (256 * p + o)) as [E|N].
  - apply index256 in E; [|apply I'|apply I]. destruct E as [-> ->]. rewrite !Z.eqb_refl. cbn [andb]. split; [apply wrap_u8, V|exact V].
  - destruct (Z.eqb_spec p' p) as [->|]; [destruct (Z.eqb_spec o' o) as [->|]; [contradiction|]|]; cbn [andb]; apply B, I'.
Qed.
Lemma words_set1 h r w p c v : words_at h r w -> 0 <= p < 32 -> 0 <= c < 128 -> 0 <= v < 2 ^ 64 ->
  words_at (set1 h r (128 * p + c) v) r (upd2 w p c v).
Proof.
  intros [F B] I J V. split; [exact F|]. intros p' o' I' J'. unfold at128. rewrite set1_same. destruct F as [_ ->].
  unfold upd2. destruct (Z.eqb_spec (128 * p' + o') (128 * p + c)) as [E|N].
  - apply index128 in E; [|exact J'|exact J]. destruct E as [-> ->]. rewrite !Z.eqb_refl. cbn [andb]. split; [apply wrap_u64, V|exact V].
  - destruct (Z.eqb_spec p' p) as [->|]; [destruct (Z.eqb_spec o' c) as [->|]; [contradiction|]|]; cbn [andb]; apply B; auto.
Qed.
Lemma ints_set1 h r f p o v : ints_at h r f -> in_page p o -> - 2 ^ 31 <= v < 2 ^ 31 -> ints_at (set1 h r (256 * p + o) v) r (upd2 f p o v).
Proof.
  intros [F B] I V. split; [exact F|]. intros p' o' I'. unfold at256. rewrite set1_same. destruct F as [_ ->].
  unfold upd2. destruct (Z.eqb_spec (256 * p' + o') (256 * p + o)) as [E|N].
  - apply index256 in E; [|apply I'|apply I]. destruct E as [-> ->]. rewrite !Z.eqb_refl. cbn [andb]. apply wrap_i32, V.
  - destruct (Z.eqb_spec p' p) as [->|]; [destruct (Z.eqb_spec o' o) as [->|]; [contradiction|]|]; cbn [andb]; apply B, I'.
Qed.

(** ** Array expressions *)
Definition grown (h h1 : memory) (r : Z) (ty : dtype) (f : Z -> Z) : Prop :=
  h_next h1 = r + 1 /\ h_type h1 r = ty /\ (forall i, h_buf h1 r i = wrap ty (f i)) /\ keep [] h h1 /\ h_memo h1 = h_memo h.
Lemma with_alloc {A} (P : A -> Prop) h ty f (k : Z -> memory -> A) :
  (forall h1 r, r = h_next h -> grown h h1 r ty f -> P (k r h1)) -> P (let '(r, h1) := alloc h ty f in k r h1).
Proof.
  intros H. rewrite alloc_eq. apply H; [reflexivity|]. split; [apply amem_next|]. split; [apply amem_type_new|].
  split; [intros i; apply amem_new|]. split; [apply keep_alloc|apply amem_memo].
Qed.
Definition changed (h h1 : memory) (r : Z) (f : Z -> Z) : Prop :=
  h_next h1 = h_next h /\ (forall i, h_buf h1 r i = wrap (h_type h r) (f i)) /\ keep [r] h h1 /\ h_memo h1 = h_memo h.
Lemma set_all_changed h r f : changed h (set_all h r f) r f.
Proof.
  split; [reflexivity|]. split; [intros i; apply set_all_same|]. split; [apply keep_set_all; left; reflexivity|reflexivity].
Qed.
Ltac name_set_all h1 C := match goal with |- context [set_all ?h ?r ?f] =>
  generalize (set_all_changed h r f); generalize (set_all h r f); intros h1 C end.
Lemma keep_old w h h1 r i : keep w h h1 -> r < h_next h -> ~ In r w -> h_buf h1 r i = h_buf h r i.
Proof. intros K. apply (k_buf _ _ _ K). Qed.

Ltac notin := try lia; try (let H := fresh in intros H; cbn [In] in H; repeat (destruct H as [H|H]); solve [lia|contradiction]).

(** ** The packed words of a new bitmap *)
Definition new_of (k : kind) (mm : memory_map) (mx : option memory_map) : bitmap :=
  {| bm_kind := k; bm_main := mm; bm_aux := mx; bm_packed := pack k (mm_data mm) (aux_data mx) |}.
Lemma body_words h k main aux mm mx p c : rel_mm h main mm -> rel_aux h k aux mx -> 0 <= p < 32 -> 0 <= c < 128 ->
  body64 k h (ma_ref main) (aux_ref aux) p c = body k (mm_data mm) (aux_data mx) p c /\
  0 <= body k (mm_data mm) (aux_data mx) p c < 2 ^ 64.
Proof.
  intros (_ & _ & _ & RM) RA P C.
  assert (I0 : in_page p (2 * c)) by (split; lia). assert (I1 : in_page p (2 * c + 1)) by (split; lia).
  apply body64_id; [apply RM, I0|apply RM, I1|apply RM, I0|apply RM, I1|].
  intros ->. destruct aux as [m|], mx as [m'|]; cbn in RA; try contradiction. destruct RA as (_ & _ & _ & RA).
  cbn [aux_ref aux_data]. split; [apply RA, I0|apply RA, I1].
Qed.
Lemma bitmap_new_ok h k main aux mm mx : rel_mm h main mm -> rel_aux h k aux mx ->
  (fun bh : bitmap_a * memory => let b := fst bh in let h' := snd bh in
  rel_bm h' k b (new_of k mm mx) /\ keep [] h h' /\ h_memo h' = h_memo h /\
  ba_main b = main /\ ba_aux b = aux /\ h_next h <= ba_packed b) (bitmap_new_a h k main aux).
Proof.
  intros RM RA.
  match goal with |- ?P _ => set (Q := P) end. unfold bitmap_new_a.
  apply with_alloc. intros h1 r1 E1 (N1 & T1 & B1 & K1 & M1).
  apply with_alloc. intros h2 r2 E2 (N2 & T2 & B2 & K2 & M2).
  apply with_alloc. intros h3 r3 E3 (N3 & T3 & B3 & K3 & M3).
  name_set_all h4 C4. destruct C4 as (N4 & B4 & K4 & M4).
  apply with_alloc. intros h5 r5 E5 (N5 & T5 & B5 & K5 & M5).
  apply with_alloc. intros h6 r6 E6 (N6 & T6 & B6 & K6 & M6).
  name_set_all h7 C7. destruct C7 as (N7 & B7 & K7 & M7).
  apply with_alloc. intros h8 r8 E8 (N8 & T8 & B8 & K8 & M8).
  unfold Q. cbn [fst snd ba_main ba_aux ba_packed]. cbv zeta.
  assert (KA : keep [] h h4).
  { apply (keep_fresh _ _ h3 _ r3); [pose proof (k_next _ _ _ K1); pose proof (k_next _ _ _ K2); lia| |exact K4].
    eapply keep_trans; [exact K1|eapply keep_trans; [exact K2|exact K3]]. }
  assert (KB : keep [] h h7).
  { apply (keep_fresh _ _ h6 _ r6); [pose proof (k_next _ _ _ KA); pose proof (k_next _ _ _ K5); lia| |exact K7].
    eapply keep_trans; [exact KA|eapply keep_trans; [exact K5|exact K6]]. }
  assert (K : keep [] h h8) by (eapply keep_trans; [exact KB|exact K8]).
  split; [|split; [exact K|split; [congruence|split; [reflexivity|split; [reflexivity|pose proof (k_next _ _ _ KB); lia]]]]].
  constructor; [reflexivity|reflexivity|eapply rel_mm_keep; [exact K| |exact RM]; intros []|eapply rel_aux_keep; [exact K| |exact RA]; intros r _ []|].
  cbn [ba_packed bm_packed new_of]. split; [split; [lia|exact T8]|]. intros p c P C.
  set (m := mm_data mm) in *. set (x := aux_data mx) in *.
  assert (W1 : forall q j, 0 <= q < 32 -> 0 <= j < 128 -> h_buf h1 r1 (128 * q + j) = body k m x q j).
  { intros q j Q1 J. rewrite B1. destruct (div128 q j J) as [-> ->]. destruct (body_words h k main aux mm mx q j RM RA Q1 J) as [-> R].
    apply wrap_u64, R. }
  assert (A1 : forall i, h_buf h4 r1 i = h_buf h1 r1 i).
  { intros i. rewrite (keep_old _ _ _ _ _ K4), (keep_old _ _ _ _ _ K3), (keep_old _ _ _ _ _ K2); auto; notin. }
  assert (A1' : forall i, h_buf h7 r1 i = h_buf h1 r1 i).
  { intros i. rewrite (keep_old _ _ _ _ _ K7), (keep_old _ _ _ _ _ K6), (keep_old _ _ _ _ _ K5); auto; notin. }
  assert (W3 : h_buf h7 r3 (128 * p + c) = if c =? 0 then 0 else make_header k (body k m x p ((c - 1) mod 128))).
  { rewrite (keep_old _ _ _ _ _ K7), (keep_old _ _ _ _ _ K6), (keep_old _ _ _ _ _ K5); notin.
    rewrite B4, T3. destruct (div128 p c C) as [_ ->]. destruct (c =? 0); [apply wrap_u64; lia|].
    rewrite wrap_u64; [|rewrite B3, wrap_u64 by apply header_u64; apply header_u64].
    rewrite B3, wrap_u64 by apply header_u64. f_equal. rewrite B2. destruct (div128 p c C) as [-> ->]. unfold at128.
    pose proof (Z.mod_pos_bound (c - 1) 128 ltac:(lia)) as J. rewrite W1 by auto.
    apply wrap_u64. apply (body_words h k main aux mm mx p _ RM RA P J). }
  assert (W6 : h_buf h7 r6 (128 * p + c) = if c =? 127 then 0 else make_footer k (body k m x p ((c + 1) mod 128))).
  { rewrite B7, T6. destruct (div128 p c C) as [_ ->]. destruct (c =? 127); [apply wrap_u64; lia|].
    rewrite wrap_u64; [|rewrite B6, footer64, wrap_u64 by apply footer_u64; apply footer_u64].
    rewrite B6, footer64, wrap_u64 by apply footer_u64. f_equal. rewrite B5. destruct (div128 p c C) as [-> ->]. unfold at128.
    pose proof (Z.mod_pos_bound (c + 1) 128 ltac:(lia)) as J. rewrite A1, W1 by auto.
    apply wrap_u64. apply (body_words h k main aux mm mx p _ RM RA P J). }
  unfold at128. rewrite B8, W3, A1', W6, (W1 p c P C).
  assert (BD : 0 <= pack k m x p c < 2 ^ 64).
  { unfold pack. apply lxor_bound; [lia| |destruct (c =? 127); [lia|apply footer_u64]].
    apply lxor_bound; [lia|destruct (c =? 0); [lia|apply header_u64]|]. apply (body_words h k main aux mm mx p _ RM RA P C). }
  split; [apply wrap_u64, BD|exact BD].
Qed.

(** ** Storing a byte *)
Lemma fix_scalar_ok h k b w p c o : ba_kind b = k -> words_at h (ba_packed b) w -> 0 <= p < 32 -> 0 <= c < 128 ->
  let h' := fix_scalar_a h b p c o in
  words_at h' (ba_packed b) (fix_scalar_neighbours k w p c o) /\ keep [ba_packed b] h h' /\ h_memo h' = h_memo h /\ h_next h' = h_next h.
Proof.
  intros E W P C. unfold fix_scalar_a, fix_scalar_neighbours. rewrite E. pose proof (proj2 W p c P C) as [Wc _].
  assert (In1 : In (ba_packed b) [ba_packed b]) by (left; reflexivity).
  destruct ((o =? 0) && (0 <? c)) eqn:B1; [|destruct ((o =? SCREEN_BYTES k - 1) && (c <? 127)) eqn:B2].
  - assert (C' : 0 <= c - 1 < 128) by lia. pose proof (proj2 W p (c - 1) P C') as [Wl Bl]. cbv zeta.
    rewrite Wc, Wl, footer64. split; [|split; [apply keep_set1, In1|split; reflexivity]].
    apply words_set1; [exact W|exact P|exact C'|]. apply fix_left_bound, Bl.
  - assert (C' : 0 <= c + 1 < 128) by lia. pose proof (proj2 W p (c + 1) P C') as [Wl Bl]. cbv zeta.
    rewrite Wc, Wl, right_mask_id. split; [|split; [apply keep_set1, In1|split; reflexivity]].
    apply words_set1; [exact W|exact P|exact C'|]. apply fix_right_bound, Bl.
  - split; [exact W|]. split; [apply keep_refl|split; reflexivity].
Qed.

Lemma mm_write_a_01 h m p o v : ma_page m = 1 -> 0 <= p < 32 -> 0 <= o < 256 ->
  mm_write_a h m p o v = Ok (set1 h (ma_ref m) (256 * p + o) v).
Proof.
  intros E P O. unfold mm_write_a, norm_index. rewrite E.
  destruct ((0 <=? p - 32 * 1) && (p - 32 * 1 <? 32)) eqn:A; [lia|].
  destruct ((- (32) <=? p - 32 * 1) && (p - 32 * 1 <? 0)) eqn:B; [|lia]. cbn [rbind].
  destruct ((0 <=? o) && (o <? 256)) eqn:D; [|lia]. cbn [rbind]. do 3 f_equal. lia.
Qed.

Lemma apply_a_ok h k b bm p o a v bm' : rel_bm h k b bm -> NoDup (bm_refs b) -> in_page p o -> bank_ok k a -> is_byte v ->
  apply bm p o a v = Ok bm' ->
  exists h', apply_a h b p o a v = Ok h' /\ rel_bm h' k b bm' /\ keep (bm_refs b) h h' /\ h_memo h' = h_memo h /\ h_next h' = h_next h.
Proof.
  intros R ND I G V H. destruct R as [K1 K2 RM RA RW]. unfold apply in H. unfold apply_a. rewrite K1. rewrite K2 in H.
  rewrite byte_offset_bo in * by auto. cbn [rbind] in *. set (bo' := bo k o a) in *.
  pose proof (valid_bo k o a G) as VO. fold bo' in VO.
  destruct I as [P O]. assert (C : 0 <= o / 2 < 128) by dlia.
  rewrite (norm_index_id 32 p P) in *. cbn [rbind] in *. rewrite (norm_index_id 128 (o / 2) C) in *. cbn [rbind] in *.
  set (c := o / 2) in *. destruct (proj2 RW p c P C) as [Wc Bc]. rewrite Wc.
  destruct (masked_update_id k bo' (bm_packed bm p c) v VO Bc V) as [MU MB]. rewrite MU.
  pose proof (words_set1 h (ba_packed b) _ p c _ RW P C MB) as W1.
  set (h1 := set1 h (ba_packed b) _ _) in *.
  destruct (fix_scalar_ok h1 k b _ p c bo' K1 W1 P C) as (W2 & KK2 & M2 & N2).
  set (h2 := fix_scalar_a h1 b p c bo') in *.
  assert (KP : keep [ba_packed b] h h2).
  { eapply keep_trans; [|exact KK2]. apply keep_set1. left. reflexivity. }
  assert (NP : ~ In (ba_packed b) (ma_ref (ba_main b) :: map_refs (ba_aux b))) by (inversion ND; auto).
  assert (ND' : NoDup (ma_ref (ba_main b) :: map_refs (ba_aux b))) by (inversion ND; auto).
  assert (NM : ~ In (ma_ref (ba_main b)) (map_refs (ba_aux b))) by (inversion ND'; auto).
  pose proof (rel_mm_keep _ _ _ _ _ KP ltac:(intros [E|[]]; apply NP; left; exact (eq_sym E)) RM) as RM2.
  pose proof (rel_aux_keep _ _ _ k _ _ KP ltac:(intros r Ir [E|[]]; apply NP; right; rewrite E; exact Ir) RA) as RA2.
  destruct a.
  - destruct G as [->|?]; [|discriminate]. destruct (ba_aux b) as [ma|] eqn:EA, (bm_aux bm) as [mx|] eqn:EX; cbn in RA, RA2; try contradiction.
    destruct RA2 as (PA & PX & BA). rewrite mm_write_a_01 by auto. rewrite mm_write_01 in H by auto. cbn [rbind] in H. injection H as <-.
    eexists. split; [reflexivity|].
    assert (KW : keep [ma_ref ma] h2 (set1 h2 (ma_ref ma) (256 * p + o) v)) by (apply keep_set1; left; reflexivity).
    split; [|split; [|split; [exact M2|exact N2]]].
    + constructor; cbn [bm_kind bm_main bm_aux bm_packed]; [auto|auto| | |].
      * eapply rel_mm_keep; [exact KW| |exact RM2]. intros [E|[]]. apply NM. cbn. left. auto.
      * rewrite EA. cbn. split; [auto|]. split; [reflexivity|]. cbn [mm_data]. apply bytes_set1; auto. split; auto.
      * eapply words_keep; [exact KW| |exact W2]. intros [E|[]]. apply NP. cbn. right. left. auto.
    + unfold bm_refs. rewrite EA. eapply keep_trans; [eapply keep_weak; [|exact KP]|eapply keep_weak; [|exact KW]].
      * intros r [<-|[]]. left. reflexivity.
      * intros r [<-|[]]. right. right. left. reflexivity.
  - destruct RM2 as (PM & PX & BM). rewrite mm_write_a_01 by auto. rewrite mm_write_01 in H by auto. cbn [rbind] in H. injection H as <-.
    eexists. split; [reflexivity|].
    assert (KW : keep [ma_ref (ba_main b)] h2 (set1 h2 (ma_ref (ba_main b)) (256 * p + o) v)) by (apply keep_set1; left; reflexivity).
    split; [|split; [|split; [exact M2|exact N2]]].
    + constructor; cbn [bm_kind bm_main bm_aux bm_packed]; [auto|auto| | |].
      * split; [auto|]. split; [reflexivity|]. cbn [mm_data]. apply bytes_set1; auto. split; auto.
      * eapply rel_aux_keep; [exact KW| |exact RA2]. intros r Ir [E|[]]. apply NM. rewrite E. exact Ir.
      * eapply words_keep; [exact KW| |exact W2]. intros [E|[]]. apply NP. left. auto.
    + eapply keep_trans; [eapply keep_weak; [|exact KP]|eapply keep_weak; [|exact KW]].
      * intros r [<-|[]]. left. reflexivity.
      * intros r [<-|[]]. right. left. reflexivity.
Qed.

(** ** Distances *)
Definition row_at (h : memory) (r : Z) (f : Z -> Z) : Prop :=
  fits h r U64 /\ forall c, 0 <= c < 128 -> h_buf h r c = f c /\ 0 <= f c < 2 ^ 64.
Lemma row_keep w h h' r f : keep w h h' -> ~ In r w -> row_at h r f -> row_at h' r f.
Proof.
  intros K N [F B]. split; [eapply fits_keep; eauto|]. intros c I. rewrite (k_buf _ _ _ K); [apply B, I|apply F|exact N].
Qed.
Lemma changed_row h h1 r f g : fits h r U64 -> changed h h1 r f -> (forall c, 0 <= c < 128 -> f c = g c /\ 0 <= g c < 2 ^ 64) -> row_at h1 r g.
Proof.
  intros F (N & B & K & M) H. split; [eapply fits_keep; eauto|]. intros c C. destruct (H c C) as [E R]. rewrite B, (proj2 F), E.
  split; [apply wrap_u64, R|exact R].
Qed.
Lemma grown_row h h1 r f g : grown h h1 r U64 f -> (forall c, 0 <= c < 128 -> f c = g c /\ 0 <= g c < 2 ^ 64) -> row_at h1 r g.
Proof.
  intros (N & T & B & K & M) H. split; [split; [lia|exact T]|]. intros c C. destruct (H c C) as [E R]. rewrite B, E.
  split; [apply wrap_u64, R|exact R].
Qed.
Lemma fix_array_ok h k r o f : row_at h r f ->
  let h' := fix_array_a h k r o in row_at h' r (fix_array_neighbours k f o) /\ keep [r] h h' /\ h_memo h' = h_memo h.
Proof.
  intros R. unfold fix_array_a, fix_array_neighbours. cbv zeta.
  destruct (o =? 0); [|destruct (o =? SCREEN_BYTES k - 1)].
  - match goal with |- ?P => pattern (let '(shifted, h1) := alloc h U64 (fun c => h_buf h r ((c + 1) mod 128)) in
      set_all (set_all h1 r (fun c => Z.land (h_buf h1 r c) (left_mask k))) r
        (fun c => Z.lxor (h_buf (set_all h1 r (fun c => Z.land (h_buf h1 r c) (left_mask k))) r c)
          (make_footer64 k (h_buf (set_all h1 r (fun c => Z.land (h_buf h1 r c) (left_mask k))) shifted c)))) end.
    apply with_alloc. intros h1 s E1 G1.
    assert (R1 : row_at h1 r f) by (eapply row_keep; [apply G1|intros []|exact R]).
    assert (S1 : row_at h1 s (fun c => f ((c + 1) mod 128))).
    { eapply grown_row; [exact G1|]. intros c C. pose proof (Z.mod_pos_bound (c + 1) 128 ltac:(lia)) as J. apply (proj2 R _ J). }
    assert (NE : s <> r) by (pose proof (proj1 (proj1 R)); lia).
    pose proof (set_all_changed h1 r (fun c => Z.land (h_buf h1 r c) (left_mask k))) as C2.
    assert (R2 := changed_row _ _ _ _ (fun c => Z.land (f c) (left_mask k)) (proj1 R1) C2
      ltac:(intros c C; destruct (proj2 R1 c C) as [-> B]; split; [reflexivity|apply land_bound_l; [lia|exact B]])).
    revert C2 R2. generalize (set_all h1 r (fun c => Z.land (h_buf h1 r c) (left_mask k))). intros h2 C2 R2.
    assert (S2 : row_at h2 s (fun c => f ((c + 1) mod 128))) by (eapply row_keep; [apply C2| |exact S1]; intros [E|[]]; congruence).
    name_set_all h3 C3. split; [|split].
    + eapply changed_row; [apply R2|exact C3|]. intros c C. cbv beta. rewrite (proj1 (proj2 R2 c C)), (proj1 (proj2 S2 c C)), footer64.
      split; [reflexivity|]. apply fix_left_bound. apply (proj2 R c C).
    + destruct G1 as (_ & _ & _ & KG & _), C2 as (_ & _ & K2 & _), C3 as (_ & _ & K3 & _).
      eapply keep_trans; [eapply keep_weak; [|exact KG]; intros ? []|eapply keep_trans; [exact K2|exact K3]].
    + destruct G1 as (_ & _ & _ & _ & MG), C2 as (_ & _ & _ & M2), C3 as (_ & _ & _ & M3). congruence.
  - match goal with |- ?P => pattern (let '(shifted, h1) := alloc h U64 (fun c => h_buf h r ((c - 1) mod 128)) in
      set_all (set_all h1 r (fun c => Z.land (h_buf h1 r c) (right_mask k))) r
        (fun c => Z.lxor (h_buf (set_all h1 r (fun c => Z.land (h_buf h1 r c) (right_mask k))) r c)
          (make_header k (h_buf (set_all h1 r (fun c => Z.land (h_buf h1 r c) (right_mask k))) shifted c)))) end.
    apply with_alloc. intros h1 s E1 G1.
    assert (R1 : row_at h1 r f) by (eapply row_keep; [apply G1|intros []|exact R]).
    assert (S1 : row_at h1 s (fun c => f ((c - 1) mod 128))).
    { eapply grown_row; [exact G1|]. intros c C. pose proof (Z.mod_pos_bound (c - 1) 128 ltac:(lia)) as J. apply (proj2 R _ J). }
    assert (NE : s <> r) by (pose proof (proj1 (proj1 R)); lia).
    pose proof (set_all_changed h1 r (fun c => Z.land (h_buf h1 r c) (right_mask k))) as C2.
    assert (R2 := changed_row _ _ _ _ (fun c => Z.land (f c) (right_mask k)) (proj1 R1) C2
      ltac:(intros c C; destruct (proj2 R1 c C) as [-> B]; split; [reflexivity|apply land_bound_l; [lia|exact B]])).
    revert C2 R2. generalize (set_all h1 r (fun c => Z.land (h_buf h1 r c) (right_mask k))). intros h2 C2 R2.
    assert (S2 : row_at h2 s (fun c => f ((c - 1) mod 128))) by (eapply row_keep; [apply C2| |exact S1]; intros [E|[]]; congruence).
    name_set_all h3 C3. split; [|split].
    + eapply changed_row; [apply R2|exact C3|]. intros c C. cbv beta. rewrite (proj1 (proj2 R2 c C)), (proj1 (proj2 S2 c C)), right_mask_id.
      split; [reflexivity|]. apply fix_right_bound. apply (proj2 R c C).
    + destruct G1 as (_ & _ & _ & KG & _), C2 as (_ & _ & K2 & _), C3 as (_ & _ & K3 & _).
      eapply keep_trans; [eapply keep_weak; [|exact KG]; intros ? []|eapply keep_trans; [exact K2|exact K3]].
    + destruct G1 as (_ & _ & _ & _ & MG), C2 as (_ & _ & _ & M2), C3 as (_ & _ & _ & M3). congruence.
  - split; [exact R|]. split; [apply keep_refl|reflexivity].
Qed.

Lemma page_round_ok ed h k packed w p content o : u16_table k ed -> valid_o k o -> words_at h packed w -> 0 <= p < 32 -> is_byte content ->
  (fun rh : Z * memory => let r := fst rh in let h' := snd rh in
    keep [] h h' /\ h_memo h' = h_memo h /\ h_next h <= r /\ fits h' r I32 /\
    forall c, 0 <= c < 128 -> let d := ed o (pair_index k (mask_and_shift k (fix_array_neighbours k (fun c => masked_update k o (w p c) content) o c) o)
                                                 (mask_and_shift k (w p c) o)) in
      h_buf h' r c = d /\ 0 <= d < 65536)
  (page_round h k ed packed p content o).
Proof.
  intros HE V W P B. match goal with |- ?P _ => set (Q := P) end. unfold page_round.
  apply with_alloc. intros h1 s E1 G1.
  assert (R1 : row_at h1 s (fun c => masked_update k o (w p c) content)).
  { eapply grown_row; [exact G1|]. intros c C. destruct (proj2 W p c P C) as [-> BW]. apply masked_update_id; auto. }
  destruct (fix_array_ok h1 k s o _ R1) as (R2 & K2 & M2).
  destruct G1 as (N1 & T1 & _ & K1 & M1).
  assert (K12 : keep [] h (fix_array_a h1 k s o)) by (eapply keep_fresh; [|exact K1|exact K2]; lia).
  cbv zeta in R2, K2, M2. revert R2 K2 M2 K12. generalize (fix_array_a h1 k s o). intros h2 R2 K2 M2 K12.
  assert (W2 : words_at h2 packed w) by (eapply words_keep; [exact K12|intros []|exact W]).
  rewrite (surjective_pairing (alloc h2 I32 _)).
  match goal with |- Q (fst ?x, snd ?x) => change (Q (let '(r, h3) := x in (r, h3))) end.
  apply with_alloc. intros h3 r E3 (N3 & T3 & B3 & K3 & M3). unfold Q. cbn [fst snd]. cbv zeta.
  split; [eapply keep_trans; [exact K12|exact K3]|]. split; [congruence|]. split; [pose proof (k_next _ _ _ K12); lia|].
  split; [split; [lia|exact T3]|]. intros c C. rewrite B3.
  destruct (proj2 R2 c C) as [-> _]. destruct (proj2 W2 p c P C) as [-> _].
  assert (M : forall x, 0 <= mask_and_shift k x o < 2 ^ MASKED_BITS k) by (intros; apply masked_bound, V).
  rewrite pair64_id by apply M.
  assert (D := HE o _ _ V (M (fix_array_neighbours k (fun c => masked_update k o (w p c) content) o c)) (M (w p c))).
  split; [apply wrap_i32|exact D]. change (2 ^ 31) with 2147483648. lia.
Qed.

Lemma byte_offsets_valid k a : bank_ok k a -> exists o0 o1, byte_offsets k a = Ok (o0, o1) /\ valid_o k o0 /\ valid_o k o1.
Proof.
  intros G. destruct k; cbn [byte_offsets].
  - destruct G as [Gk|Ga]; [discriminate|subst a]. exists 0, 1. cbn. split; [reflexivity|]. split; unfold valid_o; cbn; lia.
  - destruct a; [exists 0, 2|exists 1, 3]; (split; [reflexivity|]); split; unfold valid_o; cbn; lia.
Qed.
Definition small_ints (f : Z -> Z -> Z) : Prop := forall p o, in_page p o -> 0 <= f p o < 65536.

Lemma delta_page_ok ed h k b bm p content dw D a delta : u16_table k ed -> rel_bm h k b bm -> bank_ok k a -> 0 <= p < 32 -> is_byte content ->
  ints_at h dw D -> small_ints D ->
  compute_delta_page ed bm p content (D p) a = Ok delta ->
  exists r h', delta_page_a h ed b p content dw a = Ok (r, h') /\ keep [] h h' /\ h_memo h' = h_memo h /\
    forall off, 0 <= off < 256 -> h_buf h' r off = delta off.
Proof.
  intros HE R G P B DW DS H. destruct R as [K1 K2 _ _ W]. unfold compute_delta_page, diff_weights_page in H. rewrite K2 in H.
  unfold delta_page_a. rewrite K1. destruct (byte_offsets_valid k a G) as (o0 & o1 & E & V0 & V1). rewrite E in *.
  cbn [rbind] in *. injection H as <-.
  match goal with |- exists r h', ?x = Ok (r, h') /\ @?Q1 r h' =>
    enough ((fun y => exists r h', y = Ok (r, h') /\ Q1 r h') x) as X by exact X; set (Q := fun y => exists r h', y = Ok (r, h') /\ Q1 r h') end.
  pose proof (page_round_ok ed h k (ba_packed b) _ p content o0 HE V0 W P B) as R0. revert R0.
  destruct (page_round h k ed (ba_packed b) p content o0) as [d0 h1]. cbn [fst snd]. intros (K0 & M0 & F0 & T0 & X0).
  assert (W1 : words_at h1 (ba_packed b) (bm_packed bm)) by (eapply words_keep; [exact K0|intros []|exact W]).
  pose proof (page_round_ok ed h1 k (ba_packed b) _ p content o1 HE V1 W1 P B) as R1. revert R1.
  destruct (page_round h1 k ed (ba_packed b) p content o1) as [d1 h2]. cbn [fst snd]. intros (K3 & M3 & F3 & T3 & X3).
  apply with_alloc. intros h3 df E3 (N4 & T4 & B4 & K4 & M4).
  unfold Q. rewrite alloc_eq. eexists _, _. split; [reflexivity|].
  assert (K : keep [] h h3) by (eapply keep_trans; [exact K0|eapply keep_trans; [exact K3|exact K4]]).
  split; [eapply keep_trans; [exact K|apply keep_alloc]|]. split; [rewrite amem_memo; congruence|].
  intros off O. rewrite amem_new, B4.
  assert (DW3 : ints_at h3 dw D) by (eapply ints_keep; [exact K|intros []|exact DW]).
  rewrite (proj2 DW3 p off) by (split; auto). pose proof (DS p off (conj P O)) as DB.
  assert (C : 0 <= off / 2 < 128) by dlia.
  assert (Z0 : h_buf h2 d0 (off / 2) = h_buf h1 d0 (off / 2)) by (apply (keep_old _ _ _ _ _ K3); [apply T0|intros []]).
  destruct (X0 _ C) as [Y0 Q0]. destruct (X3 _ C) as [Y1 Q1].
  destruct (off mod 2 =? 0).
  - rewrite Z0, Y0. rewrite !wrap_i32; [reflexivity| |]; [change (2 ^ 31) with 2147483648; lia|].
    rewrite wrap_i32 by (change (2 ^ 31) with 2147483648; lia). change (2 ^ 31) with 2147483648; lia.
  - rewrite Y1. rewrite !wrap_i32; [reflexivity| |]; [change (2 ^ 31) with 2147483648; lia|].
    rewrite wrap_i32 by (change (2 ^ 31) with 2147483648; lia). change (2 ^ 31) with 2147483648; lia.
Qed.

Lemma diff_weights_a_ok ed h k b bm s sm a f : u16_table k ed -> rel_bm h k b bm -> rel_bm h k s sm -> bank_ok k a ->
  diff_weights ed bm sm a = Ok f ->
  exists r h', diff_weights_a h ed b s a = Ok (r, h') /\ keep [] h h' /\ h_memo h' = h_memo h /\ r = h_next h /\ h_next h' = h_next h + 1 /\
    ints_at h' r f /\ small_ints f.
Proof.
  intros HE R S G H. destruct R as [K1 K2 _ _ W]. destruct S as [_ _ _ _ WS]. unfold diff_weights in H. rewrite K2 in H.
  unfold diff_weights_a. rewrite K1. destruct (byte_offsets_valid k a G) as (o0 & o1 & E & V0 & V1). rewrite E in *.
  cbn [rbind] in *. injection H as <-.
  rewrite alloc_eq. eexists _, _. split; [reflexivity|]. split; [apply keep_alloc|]. split; [reflexivity|]. split; [reflexivity|].
  split; [apply amem_next|].
  assert (D : small_ints (fun p off => let o := if off mod 2 =? 0 then o0 else o1 in let c := off / 2 in
     ed o (pair_index k (mask_and_shift k (bm_packed sm p c) o) (mask_and_shift k (bm_packed bm p c) o)))).
  { intros p off _. cbv zeta. assert (V : valid_o k (if off mod 2 =? 0 then o0 else o1)) by (destruct (off mod 2 =? 0); auto).
    apply HE; [exact V|apply masked_bound, V|apply masked_bound, V]. }
  split; [|exact D]. split; [split; [rewrite amem_next; lia|apply amem_type_new]|].
  intros p off [P O]. unfold at256. rewrite amem_new. destruct (div256 p off O) as [-> ->]. cbv zeta.
  assert (C : 0 <= off / 2 < 128) by dlia.
  rewrite (proj1 (proj2 W p _ P C)), (proj1 (proj2 WS p _ P C)).
  assert (V : valid_o k (if off mod 2 =? 0 then o0 else o1)) by (destruct (off mod 2 =? 0); auto).
  rewrite pair64_id by (apply masked_bound, V). apply wrap_i32. specialize (D p off (conj P O)). cbv zeta in D.
  change (2 ^ 31) with 2147483648. lia.
Qed.

(** ** The cached distance *)
Definition memo_ok (base : Z) (k : kind) (ed : table) (h : memory) : Prop :=
  Forall (fun kv => let '(id, o, w, c) := fst kv in id < h_next h /\ (base <= id -> byte_pair_difference k ed o w c = Ok (snd kv))) (h_memo h).
Lemma memo_keep base k ed w h h' : keep w h h' -> h_memo h' = h_memo h -> memo_ok base k ed h -> memo_ok base k ed h'.
Proof.
  intros K E M. unfold memo_ok in *. rewrite E. eapply Forall_impl; [|exact M].
  intros [[[[id o] x] c] v]. cbn [fst snd]. intros [A B]. split; [pose proof (k_next _ _ _ K); lia|exact B].
Qed.
Lemma key_eqb_eq a b : key_eqb a b = true -> a = b.
Proof. destruct a as [[[i o] w] c], b as [[[i' o'] w'] c']. cbn [key_eqb]. intros H. assert (i = i' /\ o = o' /\ w = w' /\ c = c') as (-> & -> & -> & ->) by lia. reflexivity. Qed.
Lemma memo_find_ok (P : memo_key * Z -> Prop) key m : Forall P m -> forall r rest, memo_find key m = Some (r, rest) -> P (key, r) /\ Forall P rest.
Proof.
  intros F. induction F as [|[key' r'] m H F IH]; cbn [memo_find]; intros r rest E; [discriminate|].
  destruct (key_eqb key key') eqn:EK.
  - injection E as <- <-. apply key_eqb_eq in EK. subst key'. auto.
  - destruct (memo_find key m) as [[r2 rest2]|]; [|discriminate]. injection E as <- <-. destruct (IH _ _ eq_refl). split; auto.
Qed.
Lemma firstn_Forall {A} (P : A -> Prop) n : forall l, Forall P l -> Forall P (firstn n l).
Proof. induction n as [|n IH]; intros l H; [constructor|]. destruct H; cbn; constructor; auto. Qed.

Lemma bpd_ok ed h k b base o w c r : memo_ok base k ed h -> ba_kind b = k -> base <= ba_packed b < h_next h -> valid_o k o ->
  0 <= w < 2 ^ 64 -> is_byte c -> byte_pair_difference k ed o w c = Ok r ->
  exists h', byte_pair_difference_a h ed b o w c = Ok (r, h') /\ keep [] h h' /\ h_next h' = h_next h /\ memo_ok base k ed h'.
Proof.
  intros M K I V W C H. unfold byte_pair_difference_a. destruct (memo_find _ (h_memo h)) as [[r' rest]|] eqn:E.
  - destruct (memo_find_ok _ _ _ M _ _ E) as [A B]. cbn [fst snd] in A. destruct A as [A1 A2]. specialize (A2 (proj1 I)).
    assert (r' = r) as -> by congruence. eexists. split; [reflexivity|]. split; [apply keep_memo|]. split; [reflexivity|].
    constructor; [|exact B]. cbn [fst snd]. split; [exact A1|]. intros _. exact H.
  - unfold byte_pair_difference in H. rewrite K. destruct (masked_update_id k o w c V W C) as [-> _].
    rewrite !mask_assertion in * by auto. cbn [rbind] in *. injection H as <-.
    rewrite pair64_id by (apply masked_bound, V). eexists. split; [reflexivity|]. split; [apply keep_memo|]. split; [reflexivity|].
    unfold memo_ok. unfold with_memo at 2. cbv beta iota delta [h_memo]. apply firstn_Forall. constructor; [|exact M]. cbn [fst snd]. split; [exact (proj2 I)|]. intros _.
    unfold byte_pair_difference. rewrite !mask_assertion by auto. reflexivity.
Qed.

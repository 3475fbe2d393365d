(** C81, C82: the encoder on shared arrays with elements of fixed width. *)
From Verif Require Import Base BaseFacts ScreenModel ScreenSpec BitmapModel DisplaySpec BitmapSpec VideoModel VideoSpec VideoExample ClockModel OpcodeModel
  MovieModel MovieSpec MovieState MovieThms MovieFinal ArrayModel ArrayFacts ArrayProofs ArraySpec ArrayMovie ArrayThms.
Opaque TABLES all_pairs.

(** C81: a flat map and a paged map made from each other are two views of one
    array: a byte written through either is found by both at the same address,
    and nothing else in memory changes. *)
Theorem C81_views : forall h f m, to_memory_map_a h f = Ok (m, h) \/ to_flat_a h m = Ok (f, h) -> h_type h (ma_ref m) = U8 ->
  forall page offset v, 32 * ma_page m <= page < 32 * ma_page m + 32 -> 0 <= offset < 256 -> 0 <= v < 256 ->
  exists h', flat_write_a h f (256 * page + offset) v = Ok h' /\ mm_write_a h m page offset v = Ok h' /\
    mmap_at h' m page offset = v /\ flat_at h' f (256 * page + offset) = v /\
    (forall page' offset', (page', offset') <> (page, offset) -> 0 <= offset' < 256 -> mmap_at h' m page' offset' = mmap_at h m page' offset') /\
    (forall addr, addr <> 256 * page + offset -> flat_at h' f addr = flat_at h f addr) /\
    (forall r i, r <> ma_ref m -> h_buf h' r i = h_buf h r i).
Proof.
  intros h f m E T page offset v P O V.
  assert (S : fa_ref f = ma_ref m /\ fa_page f = ma_page m).
  { unfold to_memory_map_a, to_flat_a, mmap_new_a, flat_new_a in E. destruct E as [E|E].
    - destruct (page_ok (fa_page f)); [|discriminate]. injection E as <-. split; reflexivity.
    - destruct (page_ok (ma_page m)); [|discriminate]. injection E as <-. split; reflexivity. }
  destruct S as [ER EP]. destruct (views_agree h f m page offset v ER EP T V P O) as (A & B & C1 & C2 & C3 & _).
  eexists. split; [exact A|]. split; [exact B|]. unfold mmap_at, flat_at. rewrite ER, EP. split; [exact C1|].
  split; [replace (256 * page + offset - 8192 * ma_page m) with (256 * (page - 32 * ma_page m) + offset) by lia; exact C1|].
  split; [|split].
  - intros page' offset' N O'. apply C2. intros X. apply N. destruct (index256 _ _ _ _ O' O X) as [X1 X2]. f_equal; lia.
  - intros addr N. apply C2. lia.
  - exact C3.
Qed.
Print Assumptions C81_views.

(** A map made from an array of the caller uses that array (writes through the
    map are seen by the caller); one made without is all zeros in a new array;
    other screen pages than 1 and 2 are refused; making views changes nothing. *)
Theorem C81_constructors : forall h pg,
  ((pg = 1 \/ pg = 2) ->
    (forall r, flat_new_a h pg (Some r) = Ok ({| fa_page := pg; fa_ref := r |}, h) /\
               mmap_new_a h pg (Some r) = Ok ({| ma_page := pg; ma_ref := r |}, h)) /\
    (exists f h', flat_new_a h pg None = Ok (f, h') /\ fa_page f = pg /\ h_next h <= fa_ref f < h_next h' /\ h_type h' (fa_ref f) = U8 /\
       (forall i, h_buf h' (fa_ref f) i = 0) /\ (forall r i, r < h_next h -> h_buf h' r i = h_buf h r i)) /\
    (exists m h', mmap_new_a h pg None = Ok (m, h') /\ ma_page m = pg /\ h_next h <= ma_ref m < h_next h' /\ h_type h' (ma_ref m) = U8 /\
       (forall i, h_buf h' (ma_ref m) i = 0) /\ (forall r i, r < h_next h -> h_buf h' r i = h_buf h r i))) /\
  (pg <> 1 -> pg <> 2 -> forall d, flat_new_a h pg d = Raise ValueError /\ mmap_new_a h pg d = Raise ValueError).
Proof.
  intros h pg. unfold flat_new_a, mmap_new_a, page_ok. split.
  - intros P. replace ((pg =? 1) || (pg =? 2)) with true by lia. split; [split; reflexivity|]. rewrite alloc_eq.
    split; (eexists _, _; split; [reflexivity|]; split; [reflexivity|]; cbn [fa_ref ma_ref]; split; [rewrite amem_next; lia|]; split; [apply amem_type_new|];
      split; [intros i; rewrite amem_new; reflexivity|intros r i L; apply amem_old, L]).
  - intros N1 N2 d. replace ((pg =? 1) || (pg =? 2)) with false by lia. split; reflexivity.
Qed.
Print Assumptions C81_constructors.

(** A byte applied to a bitmap is seen in the memory map it was made from. *)
Theorem C81_bitmap_shares : forall h k main aux, ma_page main = 1 -> h_type h (ma_ref main) = U8 -> ma_ref main < h_next h ->
  let '(b, h1) := bitmap_new_a h k main aux in
  (forall r i, r < h_next h -> h_buf h1 r i = h_buf h r i) /\
  forall p o v h2, 0 <= p < 32 -> 0 <= o < 256 -> 0 <= v < 256 -> apply_a h1 b p o false v = Ok h2 ->
    h_buf h2 (ma_ref main) (256 * p + o) = v /\ (forall i, i <> 256 * p + o -> h_buf h2 (ma_ref main) i = h_buf h (ma_ref main) i).
Proof. exact bitmap_shares. Qed.
Print Assumptions C81_bitmap_shares.

Example C81_case : exists h f m h1 f' h2 h3,
  flat_new_a {| h_buf := fun _ _ => 9; h_type := fun _ => U8; h_next := 3; h_memo := [] |} 2 None = Ok (f, h) /\ to_memory_map_a h f = Ok (m, h1) /\
  to_flat_a h1 m = Ok (f', h1) /\ f' = f /\ mm_write_a h1 m 65 7 0xAB = Ok h2 /\ flat_write_a h2 f' 0x4000 0xCD = Ok h3 /\
  flat_at h3 f 0x4107 = 0xAB /\ mmap_at h3 m 64 0 = 0xCD /\ mmap_at h3 m 64 1 = 0 /\ h_buf h3 2 0 = 9.
Proof. do 7 eexists. repeat split; vm_compute; reflexivity. Qed.

(** C82: with numpy's shared, mutable, fixed-width arrays, the cache of
    differences and CPython's heap, the conversion writes the bytes of the model
    in which all of these are plain values, whatever was in memory before. *)
Theorem C82_same_conversion : forall c h audio raws,
  good_config c -> good_audio audio -> good_frames (c_mode c) (map frame_of raws) -> sane h ->
  transcode_a c h audio raws = transcode c audio (map frame_of raws).
Proof. exact transcode_a_eq. Qed.
Print Assumptions C82_same_conversion.

(** At every step the arrays hold what that model says: the picture of the screen
    in both forms, and the priorities. *)
Theorem C82_same_states : forall c h audio raws ops s,
  good_config c -> good_audio audio -> good_frames (c_mode c) (map frame_of raws) -> sane h ->
  array_run c h audio raws ops s ->
  exists s', stream_run c (movie_new c audio (map frame_of raws)) ops s' /\ as_out s = s_out s' /\ am_pos (as_movie s) = m_pos (s_movie s') /\
    holds_words (as_heap s) (am_video (as_movie s)) (m_video (s_movie s')) /\
    (forall a, good_bank (c_mode c) a -> holds_bank (as_heap s) (am_video (as_movie s)) (m_video (s_movie s')) a).
Proof. intros c h audio raws ops s HC HA HF HS. exact (run_values c h audio raws HC HA HF HS ops s). Qed.
Print Assumptions C82_same_states.

(** No array that existed before is changed, and a step changes only the
    encoder's own arrays, which never include one of the frame being shown. *)
Theorem C82_isolated : forall c h audio raws ops s,
  good_config c -> good_audio audio -> good_frames (c_mode c) (map frame_of raws) -> sane h ->
  array_run c h audio raws ops s ->
  (forall r i, r < h_next h -> h_buf (as_heap s) r i = h_buf h r i) /\
  NoDup (owned s) /\ (forall r, In r (owned s) -> h_next h <= r < h_next (as_heap s)) /\
  (forall r, In r (shown_arrays s) -> r < h_next (as_heap s) /\ ~ In r (owned s)) /\
  (forall s' r i, array_steps c s s' -> r < h_next (as_heap s) -> ~ In r (owned s) -> h_buf (as_heap s') r i = h_buf (as_heap s) r i).
Proof.
  intros c h audio raws ops s HC HA HF HS H. destruct (run_isolated c h audio raws HC HA HF HS ops s H) as (_ & _ & A & B).
  destruct (run_distinct c h audio raws HC HA HF HS ops s H) as [D E]. split; [exact A|]. split; [exact D|]. split; [exact B|]. split; [exact E|].
  intros s' r i T. exact (run_steps c h audio raws HC HA HF HS ops s s' H T r i).
Qed.
Print Assumptions C82_isolated.

(** A conversion in the same process after another one, finished or abandoned at
    any point, is not affected by it (in particular not by the shared cache). *)
Theorem C82_again : forall c h audio raws ops s c' audio' raws',
  good_config c -> good_audio audio -> good_frames (c_mode c) (map frame_of raws) -> sane h -> array_run c h audio raws ops s ->
  good_config c' -> good_audio audio' -> good_frames (c_mode c') (map frame_of raws') ->
  transcode_a c' (as_heap s) audio' raws' = transcode c' audio' (map frame_of raws').
Proof.
  intros c h audio raws ops s c' audio' raws' HC HA HF HS H HC' HA' HF'. apply transcode_a_eq; auto.
  apply (run_isolated c h audio raws HC HA HF HS ops s H).
Qed.
Print Assumptions C82_again.

(** ** A case: hires, a frame that is not blank, a cache with a wrong entry left
    by an earlier bitmap *)
Definition raw_ex : raw_frame := (fun i => if i =? 0 then 0x55 else if i =? 300 then 0x2a else 0, fun _ => 0).
Definition memory_ex : memory := {| h_buf := fun _ i => i; h_type := fun _ => U8; h_next := 10; h_memo := [((4, 0, 0, 0x55), 77)] |}.
Lemma ex_sane : sane memory_ex.
Proof. intros id o w x r [E|[]]. injection E as <- _ _ _ _. cbn. lia. Qed.
Lemma ex_raws n : good_frames HGR (map frame_of (repeat raw_ex n)).
Proof.
  intros f H. apply in_map_iff in H. destruct H as (g & <- & H). apply repeat_spec in H. subst g. intros a [E|E]; [discriminate|]. subst a.
  split; [reflexivity|]. split; [|discriminate]. intros p o _ _. unfold is_byte. cbn [frame_bank frame_of fst mm_data raw_ex].
  destruct (256 * p + o =? 0), (256 * p + o =? 300); lia.
Qed.
Example C82_case : exists bytes ops s, transcode_a (config_ex 0) memory_ex (audio_ex 5) (repeat raw_ex 3) = Ok bytes /\
  array_run (config_ex 0) memory_ex (audio_ex 5) (repeat raw_ex 3) ops s /\ duties ops = [44; 44; 44; 44; 44] /\
  h_memo memory_ex <> [] /\ h_buf (as_heap s) 7 5 = 5.
Proof.
  pose proof (ex_config 0) as HC. pose proof (ex_audio 5) as HA. pose proof (ex_raws 3) as HF. change HGR with (c_mode (config_ex 0)) in HF.
  destruct (transcode_ok _ _ _ HC HA HF) as (bytes & E). destruct (transcode_ops _ _ _ _ E) as (ops & sb & R & F & _).
  destruct (stop_inv _ _ _ HC HA HF ops sb bytes R F) as (n & I & ST).
  destruct (run_exists (config_ex 0) memory_ex _ _ HC HA HF ex_sane ops sb R) as (s & RA).
  exists bytes, ops, s. split; [rewrite (transcode_a_eq _ _ _ _ HC HA HF ex_sane); exact E|]. split; [exact RA|]. split.
  - rewrite (i_duties _ _ _ _ _ _ I). assert (N : n = 5%nat).
    { destruct ST as [[X _]|[X|[X Y]]]; [destruct (X eq_refl)|exact X|]. exfalso. cbn [audio_ex length repeat] in X. revert Y.
      rewrite map_length. do 5 (destruct n as [|n]; [vm_compute; discriminate|]). lia. }
    rewrite N. reflexivity.
  - split; [discriminate|]. destruct (run_isolated _ _ _ _ HC HA HF ex_sane ops s RA) as (_ & _ & A & _). rewrite A by (cbn; lia). reflexivity.
Qed.

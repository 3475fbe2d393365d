(** C93: only the frames that are encoded count. *)
From Verif Require Import Base BaseFacts ScreenModel ScreenSpec BitmapModel BitmapSpec VideoModel VideoSpec OpcodeModel MovieModel MovieSpec MovieFinal PropMovie
  SymbolModel AddrThms CpuModel PlayerModel PlaybackSpec PlaybackConv PropPlayback PropIndep SkipProofs.
Opaque TABLES all_pairs next.

(** Two conversions of the same sound give the same bytes if, of the frames that
    fall due before the sound ends, the grabber has equally many, and those whose
    index is a multiple of [every_n] have the same main memory and, in DHGR mode,
    the same auxiliary memory. *)
Theorem C93_only_encoded_frames : forall c audio (frames frames' : list frame),
  (forall j, Z.of_nat j < due (c_clock c) (length audio) -> (nth_error frames' j = None <-> nth_error frames j = None)) ->
  (forall j f f', Z.of_nat j < due (c_clock c) (length audio) -> nth_error frames j = Some f -> nth_error frames' j = Some f' ->
     Z.of_nat j mod c_every_n c = 0 -> fst f' = fst f /\ (c_mode c = DHGR -> snd f' = snd f)) ->
  transcode c audio frames' = transcode c audio frames.
Proof.
  intros c audio frames frames' H1 H2. apply transcode_same. intros j L. specialize (H1 j L). pose proof (fun f f' => H2 j f f' L) as H. clear H2. unfold same_input.
  destruct (nth_error frames j) as [f|], (nth_error frames' j) as [f'|]; [|destruct H1 as [X _]; discriminate (X eq_refl)|destruct H1 as [_ X]; discriminate (X eq_refl)|exact I].
  intros E. exact (H f f' eq_refl eq_refl (proj1 (Z.eqb_eq _ _) E)).
Qed.
Print Assumptions C93_only_encoded_frames.

(** So frames that do not fall due have no influence ... *)
Theorem C93_late_frames : forall c audio (frames more : list frame), due (c_clock c) (length audio) <= Z.of_nat (length frames) ->
  transcode c audio (frames ++ more) = transcode c audio frames.
Proof.
  intros c audio frames more L. apply C93_only_encoded_frames.
  - intros j J. rewrite nth_error_app1 by lia. reflexivity.
  - intros j f f' J A B _. rewrite nth_error_app1 in B by lia. rewrite A in B. injection B as <-. auto.
Qed.
Print Assumptions C93_late_frames.
(** ... nor has the auxiliary memory in HGR mode. *)
Theorem C93_hgr_main_memory : forall c audio (frames : list frame) aux, c_mode c = HGR ->
  transcode c audio (map (fun f : frame => (fst f, aux (snd f)) : frame) frames) = transcode c audio frames.
Proof.
  intros c audio frames aux M. apply C93_only_encoded_frames.
  - intros j _. rewrite !nth_error_None, map_length. reflexivity.
  - intros j f f' _ A B _. rewrite nth_error_map, A in B. injection B as <-. split; [reflexivity|]. rewrite M. discriminate.
Qed.
Print Assumptions C93_hgr_main_memory.

(** The hypotheses are met: two movies of which the first picture is the same,
    in HGR mode with two of three frames skipped; the conversion succeeds. *)
Definition grey_ex : frame := ({| mm_page := 1; mm_data := fun _ _ => 85 |}, {| mm_page := 1; mm_data := fun _ _ => 7 |}).
Example C93_case : let frames : list frame := [black_ex; grey_ex; grey_ex; black_ex] in let frames' : list frame := [(fst black_ex, snd grey_ex); black_ex; black_ex; grey_ex; grey_ex] in
  due (c_clock config_76) (length (audio_ex 1000)) = 3 /\
  (forall j, Z.of_nat j < 3 -> (nth_error frames' j = None <-> nth_error frames j = None)) /\
  (forall j f f', Z.of_nat j < 3 -> nth_error frames j = Some f -> nth_error frames' j = Some f' ->
     Z.of_nat j mod c_every_n config_76 = 0 -> fst f' = fst f /\ (c_mode config_76 = DHGR -> snd f' = snd f)) /\
  exists bytes, transcode config_76 (audio_ex 1000) frames = Ok bytes /\ transcode config_76 (audio_ex 1000) frames' = Ok bytes.
Proof.
  intros frames frames'.
  assert (D : due (c_clock config_76) (length (audio_ex 1000)) = 3) by (vm_compute; reflexivity).
  assert (A : forall j, Z.of_nat j < 3 -> (nth_error frames' j = None <-> nth_error frames j = None)).
  { intros [|[|[|j]]] L; [split; discriminate..|clear - L; lia]. }
  assert (E : forall j f f', Z.of_nat j < 3 -> nth_error frames j = Some f -> nth_error frames' j = Some f' ->
     Z.of_nat j mod c_every_n config_76 = 0 -> fst f' = fst f /\ (c_mode config_76 = DHGR -> snd f' = snd f)).
  { intros [|[|[|j]]] f f' L F F' M; try discriminate M; [|clear - L; lia]. injection F as <-. injection F' as <-. split; [reflexivity|discriminate]. }
  split; [exact D|]. split; [exact A|]. split; [exact E|].
  destruct C76_case as (_ & _ & b & r & _ & _ & _ & CV & _). pose proof (cv_config _ _ _ _ _ CV) as GC.
  destruct (converts_ex config_76 (audio_ex 1000) frames GC (ex_audio 1000)) as (bytes & rest & CV2); [|reflexivity|reflexivity|].
  { intros f H is_aux G. assert (F : f = black_ex \/ f = grey_ex) by (cbn [In frames] in H; clear - H; intuition congruence).
    clear - F. split; [destruct F as [-> | ->], is_aux; reflexivity|]. split; [|discriminate]. intros p o _ _. destruct F as [-> | ->], is_aux; cbv [DisplaySpec.is_byte frame_bank black_ex grey_ex fst snd mm_data]; clear; lia. }
  exists bytes. pose proof (cv_output _ _ _ _ _ CV2) as T. split; [exact T|]. rewrite <- T. apply C93_only_encoded_frames; rewrite D; assumption.
Qed.

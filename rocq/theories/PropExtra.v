(** Property C89: which other bytes of the page a change stores to, and what
    becomes of the priorities. *)
From Verif Require Import Base ScreenModel ScreenSpec BitmapModel DisplaySpec BitmapSpec BitmapProofs BitmapFacts TableModel TableSpec
  VideoModel VideoSpec VideoProofs VideoFacts VideoThms VideoExample ExtraProofs.
Opaque TABLES all_pairs next.

(** what storing the change's content byte at offset [o] instead of leaving the
    byte there gains: the distance the byte had when the frame started, less the
    distance it would have with that content *)
Definition gain (ed : table) (v0 : video) (t : bitmap) (a : bool) (page content o : Z) : Z :=
  start_distance ed t (v_pix v0) a page o - store_error ed t a page o content.

(** Hypotheses as for C22: any encoder history, any frame, any run of changes of
    that frame, any random choices.  The two extra offsets are in order of
    decreasing gain, and no outstanding byte left out gains more than either. *)
Theorem C89_most_beneficial : forall ed k n v0 t a l v g,
  u16_table k ed -> encoder ed k n v0 -> good_target k t -> good_bank k a -> frame_run ed v0 t a l v g ->
  forall rnd page content o0 o1 o2 o3 v' g',
  next ed rnd v g = Ok ((page, content, [o0; o1; o2; o3]), v', g') -> ~ is_pad g' ->
  (o2 <> o0 -> gain ed v0 t a (page - 32) content o2 <= gain ed v0 t a (page - 32) content o1) /\
  (forall o, 0 <= o < 256 -> ~ In o [o0; o1; o2] -> priority_now ed v0 t a v g (page - 32) o <> 0 ->
     0 < gain ed v0 t a (page - 32) content o ->
     o2 <> o0 /\ gain ed v0 t a (page - 32) content o <= gain ed v0 t a (page - 32) content o2).
Proof.
  intros ed k n v0 t a l v g HE HV HT HG HF rnd page content o0 o1 o2 o3 v' g' E NP.
  destruct (extras_facts ed k n v0 t a l v g HE HV HT HG HF rnd page content o0 o1 o2 o3 v' g' E NP) as (A & B & _). split; assumption.
Qed.
Print Assumptions C89_most_beneficial.

(** The stored byte's priority becomes 0; at the extra offsets it becomes the
    distance from the frame with that byte stored to the frame; all others are
    left alone. *)
Theorem C89_priorities_after : forall ed k n v0 t a l v g,
  u16_table k ed -> encoder ed k n v0 -> good_target k t -> good_bank k a -> frame_run ed v0 t a l v g ->
  forall rnd page content o0 o1 o2 o3 v' g',
  next ed rnd v g = Ok ((page, content, [o0; o1; o2; o3]), v', g') -> ~ is_pad g' ->
  priority_now ed v0 t a v' g' (page - 32) o0 = 0 /\
  (forall o, In o [o1; o2] -> o <> o0 -> exists stored dist,
     apply t (page - 32) o a content = Ok stored /\ diff_weights ed stored t a = Ok dist /\
     priority_now ed v0 t a v' g' (page - 32) o = dist (page - 32) o) /\
  (forall p o, in_page p o -> p <> page - 32 \/ ~ In o [o0; o1; o2] ->
     priority_now ed v0 t a v' g' p o = priority_now ed v0 t a v g p o).
Proof.
  intros ed k n v0 t a l v g HE HV HT HG HF rnd page content o0 o1 o2 o3 v' g' E NP.
  destruct (extras_facts ed k n v0 t a l v g HE HV HT HG HF rnd page content o0 o1 o2 o3 v' g' E NP) as (_ & _ & A & B & C).
  split; [exact A|]. split; [exact B|exact C].
Qed.
Print Assumptions C89_priorities_after.

(** With the tables the program builds that distance is what the byte was ranked
    by, so an extra store never leaves a priority as high as the distance the
    byte started the frame with. *)
Theorem C89_residual_smaller : forall ed k n v0 t a l v g,
  real_table k ed -> encoder ed k n v0 -> good_target k t -> good_bank k a -> frame_run ed v0 t a l v g ->
  forall rnd page content o0 o1 o2 o3 v' g',
  next ed rnd v g = Ok ((page, content, [o0; o1; o2; o3]), v', g') -> ~ is_pad g' ->
  forall o, In o [o1; o2] -> o <> o0 ->
  priority_now ed v0 t a v' g' (page - 32) o = store_error ed t a (page - 32) o content /\
  0 <= priority_now ed v0 t a v' g' (page - 32) o < start_distance ed t (v_pix v0) a (page - 32) o.
Proof. exact residual_smaller. Qed.
Print Assumptions C89_residual_smaller.

(** Hypotheses met: in the run of VideoExample the fourth change stores 3 at 10,
    20 and 30 and leaves out 40, which would have gained as well. *)
Example left_out : exists l v g rnd v' g', frame_run ed_ex (video_new HGR) t_ex false l v g /\
  next ed_ex rnd v g = Ok ((33, 3, [10; 20; 30; 10]), v', g') /\ ~ is_pad g' /\
  gain ed_ex (video_new HGR) t_ex false 1 3 30 <= gain ed_ex (video_new HGR) t_ex false 1 3 20 /\
  0 < gain ed_ex (video_new HGR) t_ex false 1 3 40 <= gain ed_ex (video_new HGR) t_ex false 1 3 30.
Proof.
  destruct three_of_four as (l & v & g & rnd & v' & g' & HF & E & NP & Q).
  exists l, v, g, rnd, v', g'. split; [exact HF|]. split; [exact E|]. split; [exact NP|].
  destruct (C89_most_beneficial ed_ex HGR 0 (video_new HGR) t_ex false l v g ex_u16 (enc_new _ _) ex_target ex_bank HF rnd 33 3 10 20 30 10 v' g' E NP) as [A B].
  change (33 - 32) with 1 in A, B. destruct (Q 40 (or_intror (or_intror (or_introl eq_refl)))) as [U G].
  assert (G' : 0 < gain ed_ex (video_new HGR) t_ex false 1 3 40) by (unfold gain; clear - G; lia).
  assert (N : 30 <> 10) by discriminate.
  split; [exact (A N)|]. split; [exact G'|].
  apply B; [split; [discriminate|reflexivity]| |exact U|exact G'].
  intros [H|[H|[H|[]]]]; discriminate.
Qed.

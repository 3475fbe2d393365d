(** Vocabulary for the priorities over unbounded histories (C28, C67). *)
From Verif Require Import Base ScreenModel ScreenSpec BitmapModel DisplaySpec BitmapSpec VideoModel VideoSpec.

(** every entry of the table is 0 or between [dmin] and [dmax] *)
Definition ranged_table (k : kind) (ed : table) (dmin dmax : Z) : Prop := forall o x y, 0 <= o < SCREEN_BYTES k ->
  0 <= x < 2 ^ MASKED_BITS k -> 0 <= y < 2 ^ MASKED_BITS k ->
  ed o (pair_index k x y) = 0 \/ dmin <= ed o (pair_index k x y) <= dmax.

(** the change stores to byte [o] of row [p] *)
Definition stores_to (c : change) (p o : Z) : Prop := let '(page, _, offsets) := c in page - 32 = p /\ In o offsets.

(** [waiting ed k r a p o w v]: an encoder history, ending in state [v], in which
    every frame has yielded no change at all or at least [r]; the last [w] frames
    of bank [a] that yielded changes all left byte ([p], [o]) waiting: it differed
    from the frame to be shown and no change stored to it.  (Counting may start
    anywhere; frames of the other bank in between do not count.) *)
Inductive waiting (ed : table) (k : kind) (r : Z) (a : bool) (p o : Z) : Z -> video -> Prop :=
| wt_new : waiting ed k r a p o 0 (video_new k)
| wt_left w v0 t l v g : waiting ed k r a p o w v0 -> good_target k t -> good_bank k a ->
    frame_run ed v0 t a l v g -> l <> [] -> r <= Z.of_nat (length l) ->
    start_distance ed t (v_pix v0) a p o <> 0 -> (forall c, In c l -> ~ stores_to c p o) ->
    waiting ed k r a p o (w + 1) v
| wt_other w v0 t b l v g : waiting ed k r a p o w v0 -> good_target k t -> good_bank k b ->
    frame_run ed v0 t b l v g -> l = [] \/ (b <> a /\ r <= Z.of_nat (length l)) -> waiting ed k r a p o w v
| wt_fresh w v0 t b l v g : waiting ed k r a p o w v0 -> good_target k t -> good_bank k b ->
    frame_run ed v0 t b l v g -> l = [] \/ r <= Z.of_nat (length l) -> waiting ed k r a p o 0 v
| wt_reset w v : waiting ed k r a p o w v -> waiting ed k r a p o w (reset_oow v).

(** Vocabulary for the encoder on shared arrays (C81, C82). *)
From Verif Require Import Base ScreenModel BitmapModel BitmapSpec VideoModel VideoSpec OpcodeModel MovieModel ArrayModel.

(** a frame's bytes as the two memory maps of MovieModel *)
Definition frame_of (f : raw_frame) : frame :=
  ({| mm_page := 1; mm_data := fun p o => fst f (256 * p + o) |}, {| mm_page := 1; mm_data := fun p o => snd f (256 * p + o) |}).

(** the cache names only bitmaps that exist *)
Definition sane (h : memory) : Prop := forall id o w c r, In ((id, o, w, c), r) (h_memo h) -> id < h_next h.

(** the states of the conversion of [audio] and [frames], started in memory [h],
    and the opcodes compiled on the way there *)
Inductive array_run (c : config) (h : memory) (audio : list Z) (frames : list raw_frame) : list opcode -> stream_a -> Prop :=
| ar_new s : movie_new_a c h audio frames = Ok s -> array_run c h audio frames [] s
| ar_step ops s new s' : array_run c h audio frames ops s -> emit_step_a c s = Ok (MoreA new s') ->
    array_run c h audio frames (ops ++ new) s'.
(** [s'] is a later state than [s] *)
Inductive array_steps (c : config) : stream_a -> stream_a -> Prop :=
| as_refl s : array_steps c s s
| as_step s s' new s'' : array_steps c s s' -> emit_step_a c s' = Ok (MoreA new s'') -> array_steps c s s''.

(** the encoder's own arrays: those of its picture of the screen, the priorities
    of each bank, and the distances of the frame being encoded *)
Definition map_arrays (m : option mmap_a) : list Z := match m with Some m => [ma_ref m] | None => [] end.
Definition bitmap_arrays (b : bitmap_a) : list Z := ba_packed b :: ma_ref (ba_main b) :: map_arrays (ba_aux b).
Definition owned (s : stream_a) : list Z :=
  match ae_op_seq (as_enc s) with Some (ARun _ _ _ dw _) => [dw] | _ => [] end ++
  bitmap_arrays (va_pix (am_video (as_movie s))) ++
  va_up (am_video (as_movie s)) :: match va_aux_up (am_video (as_movie s)) with Some u => [u] | None => [] end.
(** arrays holding the frame to be shown *)
Definition shown_arrays (s : stream_a) : list Z :=
  match ae_target (as_enc s) with Some b => bitmap_arrays b | None => [] end.

(** the arrays of the encoder hold its picture of the screen and its priorities *)
Definition holds_bank (h : memory) (v : video_a) (vid : video) (is_aux : bool) : Prop :=
  exists mref up, bank_map v is_aux = Ok mref /\ bank_up v is_aux = Ok up /\ forall p o, 0 <= p < 32 -> 0 <= o < 256 ->
    h_buf h mref (256 * p + o) = bank_data (v_pix vid) is_aux p o /\ h_buf h up (256 * p + o) = get_up vid is_aux p o.
Definition holds_words (h : memory) (v : video_a) (vid : video) : Prop := forall p c, 0 <= p < 32 -> 0 <= c < 128 ->
  h_buf h (ba_packed (va_pix v)) (128 * p + c) = bm_packed (v_pix vid) p c.

(** element of an array through its map, by address or by page and offset *)
Definition flat_at (h : memory) (f : flat_a) (addr : Z) : Z := h_buf h (fa_ref f) (addr - 8192 * fa_page f).
Definition mmap_at (h : memory) (m : mmap_a) (page offset : Z) : Z := h_buf h (ma_ref m) (256 * (page - 32 * ma_page m) + offset).
(** [h'] is [h] with element [i] of array [r] set to [v] *)
Definition only_at (h h' : memory) (r i v : Z) : Prop :=
  h_buf h' r i = v /\ (forall j, j <> i -> h_buf h' r j = h_buf h r j) /\ (forall r' j, r' <> r -> h_buf h' r' j = h_buf h r' j) /\
  h_type h' = h_type h /\ h_next h' = h_next h /\ h_memo h' = h_memo h.

(** Vocabulary for the encoder's properties: histories, replay, distances. *)
From Verif Require Import Base ScreenModel ScreenSpec BitmapModel DisplaySpec BitmapSpec VideoModel.

(** the distance table's entries are 16-bit unsigned *)
Definition u16_table (k : kind) (ed : table) : Prop := forall o x y, 0 <= o < SCREEN_BYTES k ->
  0 <= x < 2 ^ MASKED_BITS k -> 0 <= y < 2 ^ MASKED_BITS k -> 0 <= ed o (pair_index k x y) < 65536.

(** memory of one bank *)
Definition bank_data (b : bitmap) (is_aux : bool) : mem :=
  if is_aux then aux_data (bm_aux b) else mm_data (bm_main b).

(** frames that can be encoded: any bitmap of the right kind; for DHGR no
    displayed byte has its top bit set *)
Definition good_target (k : kind) (t : bitmap) : Prop :=
  reachable t /\ bm_kind t = k /\
  (k = DHGR -> forall is_aux p o, in_page p o -> displayed p o -> bank_data t is_aux p o < 128).
Definition good_bank (k : kind) (is_aux : bool) : Prop := k = DHGR \/ is_aux = false.

(** [frame_run ed v0 t a l v g]: starting to encode frame [t] into bank [a] from
    encoder state [v0], the changes [l] have been drawn so far, with arbitrary
    random choices; [v], [g] are the present states. *)
Inductive frame_run (ed : table) (v0 : video) (t : bitmap) (a : bool) : list change -> video -> gen -> Prop :=
| fr_start : frame_run ed v0 t a [] v0 (GStart t a)
| fr_next l v g rnd c v' g' : frame_run ed v0 t a l v g ->
    next ed rnd v g = Ok (c, v', g') -> frame_run ed v0 t a (l ++ [c]) v' g'.

(** encoder states reachable by encoding [n] frames, each abandoned anywhere
    (the out-of-work flags are cleared between frames, movie.py 96) *)
Inductive encoder (ed : table) (k : kind) : Z -> video -> Prop :=
| enc_new : encoder ed k 0 (video_new k)
| enc_frame n v0 t a l v g : encoder ed k n v0 -> good_target k t -> good_bank k a ->
    frame_run ed v0 t a l v g -> encoder ed k (n + 1) v
| enc_reset n v : encoder ed k n v -> encoder ed k n (reset_oow v).

(** what a change does to the bank's memory when the player executes it *)
Definition store4 (m : mem) (c : change) : mem :=
  let '(page, content, offsets) := c in
  fold_left (fun m o => upd2 m (page - 32) o content) offsets m.
Definition replay (m : mem) (l : list change) : mem := fold_left store4 l m.

(** pointwise equality on the 32x256 bytes *)
Definition mem_eq (m m' : mem) : Prop := forall p o, in_page p o -> m p o = m' p o.

(** distance from screen [src] to [dst] at one byte, 0 on holes *)
Definition start_distance (ed : table) (dst src : bitmap) (a : bool) (p o : Z) : Z :=
  if screen_holes TABLES p o then 0
  else match diff_weights ed dst src a with Ok f => f p o | Raise _ => 0 end.
(** priority of a byte at the start of a frame: accumulated weight if it still
    differs, plus the new distance *)
Definition start_priority (ed : table) (v0 : video) (t : bitmap) (a : bool) (p o : Z) : Z :=
  let d := start_distance ed t (v_pix v0) a p o in
  (if d =? 0 then 0 else get_up v0 a p o) + d.

Definition is_pad (g : gen) : Prop := match g with GPad _ => True | _ => False end.
(** number of bytes satisfying a test *)
Definition count_bytes (f : Z -> Z -> bool) : Z := count (fun po => f (fst po) (snd po)) all_pairs.

(** error left at a byte if [c] is stored there instead of the target's byte,
    the rest of the screen being the target's *)
Definition store_error (ed : table) (t : bitmap) (a : bool) (p o c : Z) : Z :=
  match apply t p o a c with
  | Ok t' => match diff_weights ed t t' a with Ok f => f p o | Raise _ => 0 end
  | Raise _ => 0
  end.

(** priorities in force before the next change: those computed when the frame
    starts, afterwards the encoder's array *)
Definition priority_now (ed : table) (v0 : video) (t : bitmap) (a : bool) (v : video) (g : gen) : Z -> Z -> Z :=
  match g with GStart _ _ => start_priority ed v0 t a | _ => get_up v a end.

(** the idle change *)
Definition pad_change (t : bitmap) (a : bool) : change := (32, bank_data t a 0 0, [0; 0; 0; 0]).

(** tables that give distance 0 to equal masked values only *)
Definition discriminating (k : kind) (ed : table) : Prop := forall o x y, 0 <= o < SCREEN_BYTES k ->
  0 <= x < 2 ^ MASKED_BITS k -> 0 <= y < 2 ^ MASKED_BITS k -> ed o (pair_index k x y) = 0 -> x = y.

(** Encoder histories together with the memory [m] (per bank) of a player that
    starts with a blank screen and stores every change it is sent, padding
    included. *)
Inductive shown (ed : table) (k : kind) : Z -> video -> (bool -> mem) -> Prop :=
| sh_new : shown ed k 0 (video_new k) (fun _ _ _ => 0)
| sh_frame n v0 m t a l v g : shown ed k n v0 m -> good_target k t -> good_bank k a ->
    frame_run ed v0 t a l v g ->
    shown ed k (n + 1) v (fun b => if Bool.eqb b a then replay (m b) l else m b)
| sh_reset n v m : shown ed k n v m -> shown ed k n (reset_oow v) m.

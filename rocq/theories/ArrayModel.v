(** The encoder on numpy arrays: shared, updated in place, with elements of fixed
    width.  In BitmapModel, VideoModel and MovieModel arrays are values and their
    elements unbounded integers; here every array that the code can reach by two
    names, or updates in place, is a buffer in a memory, objects hold references
    to buffers, and every array operation wraps at the width of its element type.
    The priority queues are CPython's (HeapqModel).  numpy is the pinned 1.22.4,
    where an operation on a scalar and a Python int is done in 64 bits.  Buffers
    are never freed (garbage collection is not visible). *)
From Verif Require Import Base ScreenModel ScreenSpec BitmapModel VideoModel OpcodeModel MovieModel HeapqModel.

(** ** Memory *)
Inductive dtype := U8 | U64 | I32.
Definition wrap (ty : dtype) (v : Z) : Z :=
  match ty with
  | U8 => v mod 2 ^ 8
  | U64 => v mod 2 ^ 64
  | I32 => (v + 2 ^ 31) mod 2 ^ 32 - 2 ^ 31
  end.

(** arguments of a cached call of [byte_pair_difference] (screen.py 382): the
    Bitmap object (named by its packed array), byte offset, packed word, content *)
Definition memo_key := (Z * Z * Z * Z)%type.
Definition key_eqb (a b : memo_key) : bool :=
  let '(i, o, w, c) := a in let '(i', o', w', c') := b in (i =? i') && (o =? o') && (w =? w') && (c =? c').

(** Buffers are numbered in the order of their allocation; elements are in C
    order.  [h_memo] is the cache of [byte_pair_difference], most recently used
    first. *)
Record memory := { h_buf : Z -> Z -> Z; h_type : Z -> dtype; h_next : Z; h_memo : list (memo_key * Z) }.

(** a new array (np.zeros, astype, any array expression) *)
Definition alloc (h : memory) (ty : dtype) (f : Z -> Z) : Z * memory :=
  (h_next h,
   {| h_buf := fun r => if r =? h_next h then (fun i => wrap ty (f i)) else h_buf h r;
      h_type := fun r => if r =? h_next h then ty else h_type h r;
      h_next := h_next h + 1; h_memo := h_memo h |}).
(** an operation on all elements in place ([a &= ...], [a[mask] = 0]) *)
Definition set_all (h : memory) (r : Z) (f : Z -> Z) : memory :=
  {| h_buf := fun r' => if r' =? r then (fun i => wrap (h_type h r) (f i)) else h_buf h r';
     h_type := h_type h; h_next := h_next h; h_memo := h_memo h |}.
(** [a[i] = v] *)
Definition set1 (h : memory) (r i v : Z) : memory :=
  {| h_buf := fun r' => if r' =? r then (fun j => if j =? i then wrap (h_type h r) v else h_buf h r j) else h_buf h r';
     h_type := h_type h; h_next := h_next h; h_memo := h_memo h |}.
Definition with_memo (h : memory) (m : list (memo_key * Z)) : memory :=
  {| h_buf := h_buf h; h_type := h_type h; h_next := h_next h; h_memo := m |}.

(** ** screen.py 72-125: the memory maps are views of a buffer of 8192 bytes *)
Record flat_a := { fa_page : Z; fa_ref : Z }.
Record mmap_a := { ma_page : Z; ma_ref : Z }.
Definition page_ok (screen_page : Z) : bool := (screen_page =? 1) || (screen_page =? 2).
(** screen.py 75-89: [data] of shape (8192,), or new zeros *)
Definition flat_new_a (h : memory) (screen_page : Z) (data : option Z) : res (flat_a * memory) :=
  if page_ok screen_page then
    match data with
    | Some r => Ok ({| fa_page := screen_page; fa_ref := r |}, h)
    | None => let '(r, h1) := alloc h U8 (fun _ => 0) in Ok ({| fa_page := screen_page; fa_ref := r |}, h1)
    end
  else Raise ValueError.
(** screen.py 104-117 *)
Definition mmap_new_a (h : memory) (screen_page : Z) (data : option Z) : res (mmap_a * memory) :=
  if page_ok screen_page then
    match data with
    | Some r => Ok ({| ma_page := screen_page; ma_ref := r |}, h)
    | None => let '(r, h1) := alloc h U8 (fun _ => 0) in Ok ({| ma_page := screen_page; ma_ref := r |}, h1)
    end
  else Raise ValueError.
(** screen.py 91-92, 119-120: [reshape] of a contiguous array gives a view *)
Definition to_memory_map_a (h : memory) (f : flat_a) : res (mmap_a * memory) := mmap_new_a h (fa_page f) (Some (fa_ref f)).
Definition to_flat_a (h : memory) (m : mmap_a) : res (flat_a * memory) := flat_new_a h (ma_page m) (Some (ma_ref m)).
(** screen.py 94-98 *)
Definition flat_write_a (h : memory) (f : flat_a) (addr val : Z) : res memory :=
  let addr_start := 8192 * fa_page f in
  if (addr <? addr_start) || (addr_start + 8191 <? addr) then Raise ValueError
  else let! i := norm_index 8192 (addr - addr_start) in Ok (set1 h (fa_ref f) i val).
(** screen.py 122-125 *)
Definition mm_write_a (h : memory) (m : mmap_a) (page offset val : Z) : res memory :=
  let! p := norm_index 32 (page - 32 * ma_page m) in
  let! o := norm_index 256 offset in
  Ok (set1 h (ma_ref m) (256 * p + o) val).
(** element (p, o) of a (32,256) array, element (p, c) of a (32,128) array *)
Definition at256 (h : memory) (r p o : Z) : Z := h_buf h r (256 * p + o).
Definition at128 (h : memory) (r p c : Z) : Z := h_buf h r (128 * p + c).

(** ** 64-bit arithmetic of the packed words *)
Definition shl64 (x n : Z) : Z := wrap U64 (Z.shiftl x n).
Definition add64 (x y : Z) : Z := wrap U64 (x + y).
(** screen.py 679-690 (HGR), 949-952 (DHGR) *)
Definition make_footer64 (k : kind) (col : Z) : Z :=
  match k with
  | HGR => shl64 (Z.lxor (Z.shiftr (Z.land col (Z.shiftl 1 10)) 10)
                         (Z.shiftr (Z.land col (Z.shiftl 3 3)) 2)) 19
  | DHGR => shl64 (Z.land col (Z.shiftl 7 3)) 28
  end.
(** screen.py 663-677 (HGR), 926-947 (DHGR): bytes are widened by [astype] *)
Definition body64 (k : kind) (h : memory) (main aux p c : Z) : Z :=
  match k with
  | HGR =>
      let even := at256 h main p (2 * c) in let odd := at256 h main p (2 * c + 1) in
      add64 (add64 (shl64 even 3) (shl64 (Z.land odd 0x7f) 12)) (shl64 (Z.land odd 0x80) 4)
  | DHGR =>
      add64 (add64 (add64 (shl64 (Z.land (at256 h aux p (2 * c)) 0x7f) 3)
                          (shl64 (Z.land (at256 h main p (2 * c)) 0x7f) 10))
                   (shl64 (Z.land (at256 h aux p (2 * c + 1)) 0x7f) 17))
            (shl64 (Z.land (at256 h main p (2 * c + 1)) 0x7f) 24)
  end.
(** screen.py 791-816 (HGR), 992-1007 (DHGR) *)
Definition masked_update64 (k : kind) (o old_value new_value : Z) : Z :=
  match k with
  | HGR =>
      if o =? 0 then
        Z.lxor (Z.land old_value (u64_not (Z.shiftl 0xff 3))) (shl64 new_value 3)
      else
        let shifted := Z.lxor (Z.shiftl (Z.land new_value 0x7f) 1)
                              (Z.shiftr (Z.land new_value 0x80) 7) in
        Z.lxor (Z.land old_value (u64_not (Z.shiftl 0xff 11))) (shl64 shifted 11)
  | DHGR =>
      Z.lxor (Z.land old_value (u64_not (Z.shiftl 0x7f (7 * o + 3))))
             (shl64 (Z.land new_value 0x7f) (7 * o + 3))
  end.
(** screen.py 302-303, 315-316: the masks *)
Definition left_mask (k : kind) : Z := 2 ^ (HEADER_BITS k + BODY_BITS k) - 1.
Definition right_mask (k : kind) : Z := shl64 (2 ^ (BODY_BITS k + FOOTER_BITS k) - 1) (HEADER_BITS k).
(** screen.py 396, 440, 485 *)
Definition pair64 (k : kind) (a b : Z) : Z := add64 (shl64 a (MASKED_BITS k)) b.

(** ** screen.py 128-547: bitmaps *)
Record bitmap_a := { ba_kind : kind; ba_main : mmap_a; ba_aux : option mmap_a; ba_packed : Z }.
Definition aux_ref (b : option mmap_a) : Z := match b with Some m => ma_ref m | None => -1 end.

(** screen.py 169-188, 207-226, 647-648: constructor with [_pack] (the np.empty
    array that is replaced at once is not modelled) *)
Definition bitmap_new_a (h : memory) (k : kind) (main : mmap_a) (aux : option mmap_a) : bitmap_a * memory :=
  let '(body, h1) := alloc h U64 (fun i => body64 k h (ma_ref main) (aux_ref aux) (i / 128) (i mod 128)) in
  let '(prev_col, h2) := alloc h1 U64 (fun i => at128 h1 body (i / 128) ((i mod 128 - 1) mod 128)) in
  let '(header, h3) := alloc h2 U64 (fun i => make_header k (h_buf h2 prev_col i)) in
  let h4 := set_all h3 header (fun i => if i mod 128 =? 0 then 0 else h_buf h3 header i) in
  let '(next_col, h5) := alloc h4 U64 (fun i => at128 h4 body (i / 128) ((i mod 128 + 1) mod 128)) in
  let '(footer, h6) := alloc h5 U64 (fun i => make_footer64 k (h_buf h5 next_col i)) in
  let h7 := set_all h6 footer (fun i => if i mod 128 =? 127 then 0 else h_buf h6 footer i) in
  let '(packed, h8) := alloc h7 U64 (fun i => Z.lxor (Z.lxor (h_buf h7 header i) (h_buf h7 body i)) (h_buf h7 footer i)) in
  ({| ba_kind := k; ba_main := main; ba_aux := aux; ba_packed := packed |}, h8).

(** screen.py 276-320: [_fix_scalar_neighbours] *)
Definition fix_scalar_a (h : memory) (b : bitmap_a) (page offset o : Z) : memory :=
  let k := ba_kind b in
  if (o =? 0) && (0 <? offset) then
    set1 h (ba_packed b) (128 * page + (offset - 1))
      (Z.lxor (Z.land (at128 h (ba_packed b) page (offset - 1)) (left_mask k))
              (make_footer64 k (at128 h (ba_packed b) page offset)))
  else if (o =? SCREEN_BYTES k - 1) && (offset <? 127) then
    set1 h (ba_packed b) (128 * page + (offset + 1))
      (Z.lxor (Z.land (at128 h (ba_packed b) page (offset + 1)) (right_mask k))
              (make_header k (at128 h (ba_packed b) page offset)))
  else h.

(** screen.py 256-274: [apply] *)
Definition apply_a (h : memory) (b : bitmap_a) (page offset : Z) (is_aux : bool) (value : Z) : res memory :=
  let! o := byte_offset (ba_kind b) offset is_aux in
  let! pg := norm_index 32 page in
  let! c := norm_index 128 (offset / 2) in
  let h1 := set1 h (ba_packed b) (128 * pg + c) (masked_update64 (ba_kind b) o (at128 h (ba_packed b) pg c) value) in
  let h2 := fix_scalar_a h1 b pg c o in
  if is_aux then match ba_aux b with None => Raise TypeError | Some m => mm_write_a h2 m page offset value end
  else mm_write_a h2 (ba_main b) page offset value.

(** screen.py 322-341, 295-320: [_fix_array_neighbours] of an array of one row, in place *)
Definition fix_array_a (h : memory) (k : kind) (ary o : Z) : memory :=
  if o =? 0 then
    let '(shifted, h1) := alloc h U64 (fun c => h_buf h ary ((c + 1) mod 128)) in
    let h2 := set_all h1 ary (fun c => Z.land (h_buf h1 ary c) (left_mask k)) in
    set_all h2 ary (fun c => Z.lxor (h_buf h2 ary c) (make_footer64 k (h_buf h2 shifted c)))
  else if o =? SCREEN_BYTES k - 1 then
    let '(shifted, h1) := alloc h U64 (fun c => h_buf h ary ((c - 1) mod 128)) in
    let h2 := set_all h1 ary (fun c => Z.land (h_buf h1 ary c) (right_mask k)) in
    set_all h2 ary (fun c => Z.lxor (h_buf h2 ary c) (make_header k (h_buf h2 shifted c)))
  else h.

(** screen.py 453-494: one round of the loop of [_diff_weights_page] with
    [content] given; [source_packed] and [target_packed] are both the row
    [page] of [packed] (539-545), a view *)
Definition page_round (h : memory) (k : kind) (ed : table) (packed page content o : Z) : Z * memory :=
  let '(compare, h1) := alloc h U64 (fun c => masked_update64 k o (at128 h packed page c) content) in
  let h2 := fix_array_a h1 k compare o in
  alloc h2 I32 (fun c => ed o (pair64 k (mask_and_shift k (h_buf h2 compare c) o) (mask_and_shift k (at128 h2 packed page c) o))).
(** screen.py 525-547: [compute_delta_page]; [dw] is the array of which row
    [page] is passed; returns the array of 256 differences *)
Definition delta_page_a (h : memory) (ed : table) (b : bitmap_a) (page content dw : Z) (is_aux : bool) : res (Z * memory) :=
  let k := ba_kind b in
  let! (o0, o1) := byte_offsets k is_aux in
  let '(d0, h1) := page_round h k ed (ba_packed b) page content o0 in
  let '(d1, h2) := page_round h1 k ed (ba_packed b) page content o1 in
  let '(diff, h3) := alloc h2 I32 (fun off => h_buf h2 (if off mod 2 =? 0 then d0 else d1) (off / 2)) in
  Ok (alloc h3 I32 (fun off => h_buf h3 diff off - at256 h3 dw page off)).

(** screen.py 400-450: [diff_weights]; without content [compare_packed] is
    [source_packed] itself *)
Definition diff_weights_a (h : memory) (ed : table) (self source : bitmap_a) (is_aux : bool) : res (Z * memory) :=
  let k := ba_kind self in
  let! (o0, o1) := byte_offsets k is_aux in
  Ok (alloc h I32 (fun i =>
        let p := i / 256 in let off := i mod 256 in
        let o := if off mod 2 =? 0 then o0 else o1 in
        ed o (pair64 k (mask_and_shift k (at128 h (ba_packed source) p (off / 2)) o)
                       (mask_and_shift k (at128 h (ba_packed self) p (off / 2)) o)))).

(** functools.lru_cache: [memo_find] returns the value and the other entries *)
Fixpoint memo_find (key : memo_key) (m : list (memo_key * Z)) : option (Z * list (memo_key * Z)) :=
  match m with
  | [] => None
  | (key', r) :: m' =>
      if key_eqb key key' then Some (r, m')
      else match memo_find key m' with None => None | Some (r', rest) => Some (r', (key', r) :: rest) end
  end.
(** screen.py 382-398: [byte_pair_difference] with its cache of 10^6 results *)
Definition byte_pair_difference_a (h : memory) (ed : table) (b : bitmap_a) (o old_packed content : Z) : res (Z * memory) :=
  let key := (ba_packed b, o, old_packed, content) in
  match memo_find key (h_memo h) with
  | Some (r, rest) => Ok (r, with_memo h ((key, r) :: rest))
  | None =>
      let k := ba_kind b in
      let! old_pixels := mask_and_shift_data k old_packed o in
      let! new_pixels := mask_and_shift_data k (masked_update64 k o old_packed content) o in
      let r := ed o (pair64 k old_pixels new_pixels) in
      Ok (r, with_memo h (firstn (Z.to_nat 1000000) ((key, r) :: h_memo h)))
  end.

(** ** video.py *)
(** video.py 21-62.  [va_mem], [va_aux_mem]: self.memory_map and
    self.aux_memory_map, the objects that self.pixelmap also holds. *)
Record video_a := {
  va_pix : bitmap_a; va_mem : mmap_a; va_aux_mem : option mmap_a;
  va_up : Z; va_aux_up : option Z; va_oow : bool -> bool
}.
Definition video_new_a (h : memory) (mode : kind) : res (video_a * memory) :=
  let! (mem, h1) := mmap_new_a h 1 None in
  let! (aux, h2) := (match mode with
                     | DHGR => let! (m, h') := mmap_new_a h1 1 None in Ok (Some m, h')
                     | HGR => Ok (None, h1)
                     end) in
  let '(pix, h3) := bitmap_new_a h2 mode mem aux in
  let '(up, h4) := alloc h3 I32 (fun _ => 0) in
  let '(aux_up, h5) := (match mode with
                        | DHGR => let '(u, h') := alloc h4 I32 (fun _ => 0) in (Some u, h')
                        | HGR => (None, h4)
                        end) in
  Ok ({| va_pix := pix; va_mem := mem; va_aux_mem := aux; va_up := up; va_aux_up := aux_up; va_oow := fun _ => false |}, h5).
Definition set_oow_a (v : video_a) (is_aux : bool) : video_a :=
  {| va_pix := va_pix v; va_mem := va_mem v; va_aux_mem := va_aux_mem v; va_up := va_up v; va_aux_up := va_aux_up v;
     va_oow := fun b => if Bool.eqb b is_aux then true else va_oow v b |}.
(** movie.py 96 *)
Definition reset_oow_a (v : video_a) : video_a :=
  {| va_pix := va_pix v; va_mem := va_mem v; va_aux_mem := va_aux_mem v; va_up := va_up v; va_aux_up := va_aux_up v;
     va_oow := fun _ => false |}.

(** video.py 275-301 *)
Definition compute_error_a (h : memory) (ed : table) (target : bitmap_a) (page content dw : Z) (is_aux : bool)
    (rnd : Z -> Z) (n : Z) : res (list entry * Z * memory) :=
  let! (delta, h1) := delta_page_a h ed target page content dw is_aux in
  let '(q, m) := error_candidates (h_buf h1 delta) rnd n (zrange 256) in
  Ok (heappop_all (length q) (heapify q), m, h1).

(** video.py 146-182; [up] is the array of priorities of the bank *)
Fixpoint fill_slots_a (ed : table) (target pix : bitmap_a) (up : Z) (is_aux : bool) (page offset content : Z)
    (rnd : Z -> Z) (n : Z) (cands : list entry)
    (h : memory) (heap : list entry) (offsets : list Z) : res (memory * list entry * list Z) :=
  match cands with
  | [] => Ok (h, heap, offsets)
  | c :: rest =>
      let o := en_off c in
      assert_ ((en_key c <? 0) && (0 <=? o) && (o <=? 255)) (
      assert_ (negb (o =? offset)) (
      assert_ (negb (screen_holes TABLES page o)) (
      if at256 h up page o =? 0 then
        fill_slots_a ed target pix up is_aux page offset content rnd n rest h heap offsets
      else
        let! bo := byte_offset (ba_kind target) o is_aux in
        let! (p, h1) := byte_pair_difference_a h ed target bo (at128 h (ba_packed target) page (o / 2)) content in
        let h2 := set1 h1 up (256 * page + o) p in
        let! h3 := apply_a h2 pix page o is_aux content in
        let heap' := if p =? 0 then heap else
          heappush heap {| en_key := u16_neg p; en_nonce := rnd n; en_page := page; en_off := o |} in
        let offsets' := offsets ++ [o] in
        if Z.of_nat (length offsets') =? 3 then Ok (h3, heap', offsets')
        else fill_slots_a ed target pix up is_aux page offset content rnd (n + 1) rest h3 heap' offsets')))
  end.

(** video.py 253-271: the keys are negated int32 *)
Definition heapify_priorities_a (up : Z -> Z -> Z) (rnd : Z -> Z) : list entry * Z :=
  let '(q, n) := heapify_priorities up rnd in
  (map (fun e => {| en_key := wrap I32 (en_key e); en_nonce := en_nonce e; en_page := en_page e; en_off := en_off e |}) q, n).

(** the suspended generator of [encode_frame]: it holds the target's bitmap, the
    arrays of priorities and distances, and the heap *)
Inductive gen_a :=
| AStart (target : bitmap_a) (is_aux : bool)
| ARun (target : bitmap_a) (is_aux : bool) (up dw : Z) (heap : list entry)
| APad (content : Z).

(** video.py 104-107: the target's memory map *)
Definition target_map (mode : kind) (target : bitmap_a) (is_aux : bool) : res Z :=
  match mode, is_aux with
  | DHGR, true => match ba_aux target with Some m => Ok (ma_ref m) | None => Raise TypeError end
  | _, _ => Ok (ma_ref (ba_main target))
  end.

(** video.py 121-187, 189, 248-251 *)
Fixpoint pop_loop_a (fuel : nat) (ed : table) (rnd : Z -> Z) (n : Z) (h : memory) (v : video_a) (target : bitmap_a)
    (is_aux : bool) (up dw : Z) (heap : list entry) : res (change * memory * video_a * gen_a) :=
  let mode := ba_kind (va_pix v) in
  let! tref := target_map mode target is_aux in
  match heappop heap with
  | None =>
      let content := at256 h tref 0 0 in
      Ok ((32, content, [0; 0; 0; 0]), h, set_oow_a v is_aux, APad content)
  | Some (e, heap1) =>
      match fuel with
      | O => Raise OutOfFuel
      | S fuel' =>
          let page := en_page e in
          let offset := en_off e in
          assert_ (negb (screen_holes TABLES page offset)) (
          if at256 h up page offset =? 0 then
            pop_loop_a fuel' ed rnd n h v target is_aux up dw heap1
          else
            let content := at256 h tref page offset in
            assert_ (match mode with DHGR => content <? 0x80 | HGR => true end) (
            let h1 := set1 h up (256 * page + offset) 0 in
            let h2 := set1 h1 dw (256 * page + offset) 0 in
            let! h3 := apply_a h2 (va_pix v) page offset is_aux content in
            let! (cands, n1, h4) := compute_error_a h3 ed target page content dw is_aux rnd n in
            let! (h5, heap2, offsets) :=
              fill_slots_a ed target (va_pix v) up is_aux page offset content rnd n1 cands h4 heap1 [offset] in
            Ok ((page + 32, content, pad4 offsets), h5, v, ARun target is_aux up dw heap2)))
      end
  end.

(** video.py 79-84: the local names [memory_map], [update_priority] (objects, not
    copies); AttributeError for the aux bank in HGR mode *)
Definition bank_map (v : video_a) (is_aux : bool) : res Z :=
  if is_aux then match va_aux_mem v with Some m => Ok (ma_ref m) | None => Raise TypeError end else Ok (ma_ref (va_mem v)).
Definition bank_up (v : video_a) (is_aux : bool) : res Z :=
  if is_aux then match va_aux_up v with Some u => Ok u | None => Raise TypeError end else Ok (va_up v).

(** One [next()] of the generator [encode_frame] (video.py 72-251) *)
Definition next_a (ed : table) (rnd : Z -> Z) (h : memory) (v : video_a) (g : gen_a) : res (change * memory * video_a * gen_a) :=
  match g with
  | APad content => Ok ((32, content, [0; 0; 0; 0]), h, v, g)
  | ARun target is_aux up dw heap => pop_loop_a (length heap) ed rnd 0 h v target is_aux up dw heap
  | AStart target is_aux =>
      let! mref := bank_map v is_aux in
      let! up := bank_up v is_aux in
      assert_ (holes_clear (at256 h mref)) (
      let! (dw, h1) := diff_weights_a h ed target (va_pix v) is_aux in
      let h2 := set_all h1 dw (fun i => if screen_holes TABLES (i / 256) (i mod 256) then 0 else h_buf h1 dw i) in
      let h3 := set_all h2 up (fun i => if h_buf h2 dw i =? 0 then 0 else h_buf h2 up i) in
      let h4 := set_all h3 up (fun i => h_buf h3 up i + h_buf h3 dw i) in
      assert_ (forallb (fun po => 0 <=? at256 h4 up (fst po) (snd po)) all_pairs) (
      let '(q, n) := heapify_priorities_a (at256 h4 up) rnd in
      let heap := heapify q in
      pop_loop_a (length heap) ed rnd n h4 v target is_aux up dw heap))
  end.

(** ** movie.py, on top of it *)
(** the bytes of the main and aux files that the converter program writes for a
    frame (frame_grabber.py 86, 112-113) *)
Definition raw_frame := ((Z -> Z) * (Z -> Z))%type.
(** frame_grabber.py 134-144: a frame is drawn; HGR has no aux map *)
Definition draw_frame (h : memory) (mode : kind) (f : raw_frame) : res (mmap_a * option mmap_a * memory) :=
  let '(r, h1) := alloc h U8 (fst f) in
  let! (fl, h2) := flat_new_a h1 1 (Some r) in
  let! (main, h3) := to_memory_map_a h2 fl in
  match mode with
  | HGR => Ok (main, None, h3)
  | DHGR =>
      let '(r', h4) := alloc h3 U8 (snd f) in
      let! (fl', h5) := flat_new_a h4 1 (Some r') in
      let! (aux, h6) := to_memory_map_a h5 fl' in
      Ok (main, Some aux, h6)
  end.

(** movie.py 44-54, video.py 34 *)
Record movie_a := { am_pos : Z; am_ticks : Z; am_aux : bool; am_frame_number : Z; am_video : video_a }.
Record enc_a := {
  ae_at : point; ae_last : bool; ae_target : option bitmap_a; ae_op_seq : option gen_a;
  ae_audio : list Z; ae_frames : list raw_frame
}.

(** movie.py 70-96 *)
Definition new_frame_a (c : config) (h : memory) (m : movie_a) (e : enc_a) : res (option (memory * movie_a * enc_a)) :=
  match ae_frames e with
  | [] => Ok None
  | f :: frames =>
      let! (main, aux, h1) := draw_frame h (c_mode c) f in
      if c_every_n c =? 0 then Raise ZeroDivisionError
      else if (am_frame_number m - 1) mod c_every_n c =? 0 then
        let '(t, h2) := bitmap_new_a h1 (c_mode c) main aux in
        Ok (Some (h2, {| am_pos := am_pos m; am_ticks := am_ticks m; am_aux := am_aux m;
                         am_frame_number := am_frame_number m; am_video := reset_oow_a (am_video m) |},
                  {| ae_at := InLoop; ae_last := ae_last e; ae_target := Some t; ae_op_seq := Some (AStart t (am_aux m));
                     ae_audio := ae_audio e; ae_frames := frames |}))
      else Ok (Some (h1, m, {| ae_at := InLoop; ae_last := ae_last e; ae_target := ae_target e; ae_op_seq := ae_op_seq e;
                               ae_audio := ae_audio e; ae_frames := frames |}))
  end.

(** movie.py 98-102 *)
Definition follow_bank_a (m : movie_a) (e : enc_a) : res enc_a :=
  if Bool.eqb (am_aux m) (ae_last e) then Ok e
  else match ae_target e with
       | None => Raise NameError
       | Some t => Ok {| ae_at := ae_at e; ae_last := am_aux m; ae_target := ae_target e;
                         ae_op_seq := Some (AStart t (am_aux m)); ae_audio := ae_audio e; ae_frames := ae_frames e |}
       end.

(** movie.py 68-111 *)
Definition tick_body_a (c : config) (h : memory) (m : movie_a) (e : enc_a) (au : Z) : res (option opcode * memory * movie_a * enc_a) :=
  let ticks := am_ticks m + 1 in
  let due := c_clock c ticks (am_frame_number m) in
  let m1 := {| am_pos := am_pos m; am_ticks := ticks; am_aux := am_aux m;
               am_frame_number := if due then am_frame_number m + 1 else am_frame_number m;
               am_video := am_video m |} in
  let! r := (if due then new_frame_a c h m1 e else Ok (Some (h, m1, e))) in
  match r with
  | None => Ok (None, h, m1, {| ae_at := AtEnd; ae_last := ae_last e; ae_target := ae_target e; ae_op_seq := ae_op_seq e;
                                ae_audio := ae_audio e; ae_frames := ae_frames e |})
  | Some (h2, m2, e2) =>
      let! e3 := follow_bank_a m2 e2 in
      let tick := au * 2 + 34 in
      match ae_op_seq e3 with
      | None => Raise TypeError
      | Some g =>
          let! (change, h3, v', g') := next_a (c_table c) (c_draws c ticks) h2 (am_video m2) g in
          let '(page, content, offsets) := change in
          let! op := tick_opcode tick page content offsets in
          Ok (Some op, h3,
              {| am_pos := am_pos m2; am_ticks := am_ticks m2; am_aux := am_aux m2;
                 am_frame_number := am_frame_number m2; am_video := v' |},
              {| ae_at := InLoop; ae_last := ae_last e3; ae_target := ae_target e3; ae_op_seq := Some g';
                 ae_audio := ae_audio e3; ae_frames := ae_frames e3 |})
      end
  end.

(** movie.py 56-111: one [next()] of the generator [encode] *)
Definition encode_next_a (c : config) (h : memory) (m : movie_a) (e : enc_a) : res (option opcode * memory * movie_a * enc_a) :=
  match ae_at e with
  | AtStart =>
      Ok (Some (Header (c_mode c)), h, m,
          {| ae_at := AfterHeader; ae_last := ae_last e; ae_target := ae_target e; ae_op_seq := ae_op_seq e;
             ae_audio := ae_audio e; ae_frames := ae_frames e |})
  | AfterHeader | InLoop =>
      let last := match ae_at e with AfterHeader => am_aux m | _ => ae_last e end in
      match ae_audio e with
      | [] => Ok (None, h, m, {| ae_at := AtEnd; ae_last := last; ae_target := ae_target e; ae_op_seq := ae_op_seq e;
                                 ae_audio := []; ae_frames := ae_frames e |})
      | au :: audio =>
          tick_body_a c h m {| ae_at := InLoop; ae_last := last; ae_target := ae_target e; ae_op_seq := ae_op_seq e;
                               ae_audio := audio; ae_frames := ae_frames e |} au
      end
  | AtEnd => Ok (None, h, m, e)
  end.

Record stream_a := { as_out : list Z; as_heap : memory; as_movie : movie_a; as_enc : enc_a }.
(** movie.py 113-120 *)
Definition advance_a (m : movie_a) (n : Z) : movie_a :=
  {| am_pos := am_pos m + n; am_ticks := am_ticks m; am_aux := am_aux m;
     am_frame_number := am_frame_number m; am_video := am_video m |}.
Definition emit_bytes_a (c : config) (s : stream_a) (op : opcode) : stream_a :=
  let bytes := machine_emit (c_start c) op in
  {| as_out := as_out s ++ bytes; as_heap := as_heap s; as_movie := advance_a (as_movie s) (Z.of_nat (length bytes)); as_enc := as_enc s |}.
(** movie.py 152-161 *)
Definition done_a (c : config) (s : stream_a) : list Z :=
  let s1 := emit_bytes_a c s Terminate in
  as_out s1 ++ repeat 0 (Z.to_nat (2048 - am_pos (as_movie s1) mod 2048)).
(** movie.py 143-145 *)
Definition flip_bank_a (c : config) (m : movie_a) : movie_a :=
  match c_mode c with
  | DHGR => {| am_pos := am_pos m; am_ticks := am_ticks m; am_aux := negb (am_aux m);
               am_frame_number := am_frame_number m; am_video := am_video m |}
  | HGR => m
  end.
Inductive outcome_a := MoreA (ops : list opcode) (s : stream_a) | FinishedA (bytes : list Z).
(** movie.py 131-150 *)
Definition emit_step_a (c : config) (s : stream_a) : res outcome_a :=
  let! (oop, h1, m1, e1) := encode_next_a c (as_heap s) (as_movie s) (as_enc s) in
  let s1 := {| as_out := as_out s; as_heap := h1; as_movie := m1; as_enc := e1 |} in
  match oop with
  | None => Ok (FinishedA (done_a c s1))
  | Some op =>
      if negb (c_max_bytes c =? 0) && (c_max_bytes c <=? am_pos m1) then Ok (FinishedA (done_a c s1))
      else
        let s2 := emit_bytes_a c s1 op in
        if 2044 <=? am_pos (as_movie s2) mod 2048 then
          let m3 := flip_bank_a c (as_movie s2) in
          let ack := Ack (am_aux m3) in
          let s3 := emit_bytes_a c {| as_out := as_out s2; as_heap := as_heap s2; as_movie := m3; as_enc := as_enc s2 |} ack in
          assert_ (am_pos (as_movie s3) mod 2048 =? 0) (Ok (MoreA [op; ack] s3))
        else Ok (MoreA [op] s2)
  end.
(** movie.py 122-150 *)
Fixpoint emit_stream_a (fuel : nat) (c : config) (s : stream_a) : res (list Z) :=
  match fuel with
  | O => Raise OutOfFuel
  | S f => let! o := emit_step_a c s in
           match o with MoreA _ s' => emit_stream_a f c s' | FinishedA bytes => Ok bytes end
  end.
(** movie.py 16-54, 62: with nothing in memory but what others have put there *)
Definition movie_new_a (c : config) (h : memory) (audio : list Z) (frames : list raw_frame) : res stream_a :=
  let! (v, h1) := video_new_a h (c_mode c) in
  Ok {| as_out := []; as_heap := h1;
        as_movie := {| am_pos := 0; am_ticks := 0; am_aux := false; am_frame_number := 0; am_video := v |};
        as_enc := {| ae_at := AtStart; ae_last := false; ae_target := None; ae_op_seq := None;
                     ae_audio := audio; ae_frames := frames |} |}.
(** main.py 67-69 *)
Definition transcode_a (c : config) (h : memory) (audio : list Z) (frames : list raw_frame) : res (list Z) :=
  let! s := movie_new_a c h audio frames in emit_stream_a (length audio + 3) c s.

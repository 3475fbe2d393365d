(** Model of transcoder/screen.py lines 128-1007: the packed bitmaps.
    The class hierarchy Bitmap / HGRBitmap / DHGRBitmap is modelled by a [kind]
    argument and one [match] per overridden member.
    np.uint64 values are [Z]; no operation below can exceed 64 bits on the
    values the theorems allow (see [C09_packed_words_fit]), so wrap-around is
    not modelled except in [u64_not]. *)
From Verif Require Import Base ScreenModel.

Inductive kind := HGR | DHGR.

(** numpy [~np.uint64(x)]: 64-bit complement. *)
Definition u64_not (x : Z) : Z := Z.lxor x (2 ^ 64 - 1).

(** screen.py 609, 882 *)
Definition HEADER_BITS (k : kind) : Z := 3.
(** screen.py 611, 883 *)
Definition BODY_BITS (k : kind) : Z := match k with HGR => 16 | DHGR => 28 end.
(** screen.py 612, 884 *)
Definition FOOTER_BITS (k : kind) : Z := 3.
(** screen.py 617, 887 *)
Definition MASKED_BITS (k : kind) : Z := match k with HGR => 14 | DHGR => 13 end.
(** screen.py 626, 891 *)
Definition MASKED_DOTS (k : kind) : Z := match k with HGR => 18 | DHGR => 10 end.

(** screen.py 632-635, 894-905 *)
Definition BYTE_MASKS (k : kind) : list Z :=
  match k with
  | HGR => [0x3fff; 0x3fff00]
  | DHGR => [0x1fff; 0xfff80; 0x7ffc000; 0x3ffe00000]
  end.
(** screen.py 636, 908 *)
Definition BYTE_SHIFTS (k : kind) : list Z :=
  match k with HGR => [0; 8] | DHGR => [0; 7; 14; 21] end.
(** screen.py 645, 919 *)
Definition PHASES (k : kind) : list Z :=
  match k with HGR => [1; 3] | DHGR => [1; 0; 3; 2] end.

(** screen.py 184: [len(BYTE_MASKS)] *)
Definition SCREEN_BYTES (k : kind) : Z := Z.of_nat (length (BYTE_MASKS k)).

(** screen.py 650-661 (HGR), 921-924 (DHGR) *)
Definition make_header (k : kind) (col : Z) : Z :=
  match k with
  | HGR => Z.lxor (Z.shiftr (Z.land col (Z.shiftl 1 11)) 9)
                  (Z.shiftr (Z.land col (Z.shiftl 3 17)) 17)
  | DHGR => Z.shiftr (Z.land col (Z.shiftl 7 28)) 28
  end.

(** screen.py 679-690 (HGR), 949-952 (DHGR) *)
Definition make_footer (k : kind) (col : Z) : Z :=
  match k with
  | HGR => Z.shiftl (Z.lxor (Z.shiftr (Z.land col (Z.shiftl 1 10)) 10)
                            (Z.shiftr (Z.land col (Z.shiftl 3 3)) 2)) 19
  | DHGR => Z.shiftl (Z.land col (Z.shiftl 7 3)) 28
  end.

(** screen.py 663-677 (HGR), 926-947 (DHGR): entry (page, column) of [_body]. *)
Definition body (k : kind) (main aux : mem) (p c : Z) : Z :=
  match k with
  | HGR =>
      let even := main p (2 * c) in let odd := main p (2 * c + 1) in
      Z.shiftl even 3 + Z.shiftl (Z.land odd 0x7f) 12 + Z.shiftl (Z.land odd 0x80) 4
  | DHGR =>
      Z.shiftl (Z.land (aux p (2 * c)) 0x7f) 3 +
      Z.shiftl (Z.land (main p (2 * c)) 0x7f) 10 +
      Z.shiftl (Z.land (aux p (2 * c + 1)) 0x7f) 17 +
      Z.shiftl (Z.land (main p (2 * c + 1)) 0x7f) 24
  end.

(** screen.py 207-226: [_pack].  [np.roll(body, 1, axis=1)] at column c is
    [body] at column (c-1) mod 128, [np.roll(body, -1)] is (c+1) mod 128. *)
Definition pack (k : kind) (main aux : mem) : Z -> Z -> Z :=
  let bd := body k main aux in
  let header := fun p c => if c =? 0 then 0 else make_header k (bd p ((c - 1) mod 128)) in
  let footer := fun p c => if c =? 127 then 0 else make_footer k (bd p ((c + 1) mod 128)) in
  fun p c => Z.lxor (Z.lxor (header p c) (bd p c)) (footer p c).

(** screen.py 169-188: a Bitmap object.  [bm_aux = None] for HGR. *)
Record bitmap := {
  bm_kind : kind;
  bm_main : memory_map;
  bm_aux : option memory_map;
  bm_packed : Z -> Z -> Z
}.

(** aux contents, where there are any *)
Definition aux_data (a : option memory_map) : mem :=
  match a with Some m => mm_data m | None => fun _ _ => 0 end.

(** screen.py 169-188, 647-648: constructors. *)
Definition hgr_new (main : memory_map) : bitmap :=
  {| bm_kind := HGR; bm_main := main; bm_aux := None;
     bm_packed := pack HGR (mm_data main) (aux_data None) |}.
Definition dhgr_new (main aux : memory_map) : bitmap :=
  {| bm_kind := DHGR; bm_main := main; bm_aux := Some aux;
     bm_packed := pack DHGR (mm_data main) (mm_data aux) |}.

(** screen.py 692-700 (HGR), 954-968 (DHGR): [byte_offset]. *)
Definition byte_offset (k : kind) (page_offset : Z) (is_aux : bool) : res Z :=
  let is_odd := page_offset mod 2 =? 1 in
  match k with
  | HGR => assert_ (negb is_aux) (Ok (if is_odd then 1 else 0))
  | DHGR => Ok (if is_aux then (if is_odd then 2 else 0)
                else (if is_odd then 3 else 1))
  end.

(** screen.py 702-708 (HGR), 970-980 (DHGR): [_byte_offsets]. *)
Definition byte_offsets (k : kind) (is_aux : bool) : res (Z * Z) :=
  match k with
  | HGR => assert_ (negb is_aux) (Ok (0, 1))
  | DHGR => Ok (if is_aux then (0, 2) else (1, 3))
  end.

(** screen.py 791-816 (HGR), 992-1007 (DHGR): [masked_update] on one entry.
    [new_value] is a byte (np.uint8). *)
Definition masked_update (k : kind) (o old_value new_value : Z) : Z :=
  match k with
  | HGR =>
      if o =? 0 then
        Z.lxor (Z.land old_value (u64_not (Z.shiftl 0xff 3))) (Z.shiftl new_value 3)
      else
        let shifted := Z.lxor (Z.shiftl (Z.land new_value 0x7f) 1)
                              (Z.shiftr (Z.land new_value 0x80) 7) in
        Z.lxor (Z.land old_value (u64_not (Z.shiftl 0xff 11))) (Z.shiftl shifted 11)
  | DHGR =>
      Z.lxor (Z.land old_value (u64_not (Z.shiftl 0x7f (7 * o + 3))))
             (Z.shiftl (Z.land new_value 0x7f) (7 * o + 3))
  end.

(** screen.py 295-306: [_fix_column_left] (value left in the array entry). *)
Definition fix_column_left (k : kind) (column_left column : Z) : Z :=
  Z.lxor (Z.land column_left (2 ^ (HEADER_BITS k + BODY_BITS k) - 1)) (make_footer k column).

(** screen.py 308-320: [_fix_column_right]. *)
Definition fix_column_right (k : kind) (column_right column : Z) : Z :=
  Z.lxor (Z.land column_right (Z.shiftl (2 ^ (BODY_BITS k + FOOTER_BITS k) - 1) (HEADER_BITS k)))
         (make_header k column).

(** screen.py 276-293: [_fix_scalar_neighbours] on the packed array; [offset]
    is the column. *)
Definition fix_scalar_neighbours (k : kind) (packed : Z -> Z -> Z) (page offset o : Z) : Z -> Z -> Z :=
  if (o =? 0) && (0 <? offset) then
    upd2 packed page (offset - 1)
      (fix_column_left k (packed page (offset - 1)) (packed page offset))
  else if (o =? SCREEN_BYTES k - 1) && (offset <? 127) then
    upd2 packed page (offset + 1)
      (fix_column_right k (packed page (offset + 1)) (packed page offset))
  else packed.

(** screen.py 256-274: [apply].  Index errors of [self.packed[page, offset//2]]
    and of the memory map write are modelled; on an exception the (partly
    updated) object is not returned. *)
Definition apply (bm : bitmap) (page offset : Z) (is_aux : bool) (value : Z) : res bitmap :=
  let k := bm_kind bm in
  let! o := byte_offset k offset is_aux in
  let packed_offset := offset / 2 in
  let! pg := norm_index 32 page in
  let! _ := norm_index 128 packed_offset in
  let packed1 := upd2 (bm_packed bm) pg packed_offset
                   (masked_update k o (bm_packed bm pg packed_offset) value) in
  let packed2 := fix_scalar_neighbours k packed1 pg packed_offset o in
  if is_aux then
    match bm_aux bm with
    | None => Raise TypeError    (* None.write: AttributeError *)
    | Some a => let! a' := mm_write a page offset value in
                Ok {| bm_kind := k; bm_main := bm_main bm; bm_aux := Some a'; bm_packed := packed2 |}
    end
  else let! m' := mm_write (bm_main bm) page offset value in
       Ok {| bm_kind := k; bm_main := m'; bm_aux := bm_aux bm; bm_packed := packed2 |}.

(** screen.py 369-378: [mask_and_shift_data] on one entry; [byte_offset] indexes
    the class's lists, the assertion is modelled. *)
Definition mask_and_shift (k : kind) (data o : Z) : Z :=
  Z.shiftr (Z.land data (nth (Z.to_nat o) (BYTE_MASKS k) 0)) (nth (Z.to_nat o) (BYTE_SHIFTS k) 0).
Definition mask_and_shift_data (k : kind) (data o : Z) : res Z :=
  let r := mask_and_shift k data o in
  assert_ (r <=? 2 ^ MASKED_BITS k) (Ok r).

(** screen.py 322-341: [_fix_array_neighbours] on one row (page). *)
Definition fix_array_neighbours (k : kind) (ary : Z -> Z) (o : Z) : Z -> Z :=
  if o =? 0 then fun c => fix_column_left k (ary c) (ary ((c + 1) mod 128))
  else if o =? SCREEN_BYTES k - 1 then fun c => fix_column_right k (ary c) (ary ((c - 1) mod 128))
  else ary.

(** The loaded distance table [edit_distances(palette)[byte_offset][pair]];
    universally quantified in the theorems. *)
Definition table := Z -> Z -> Z.

(** screen.py 396, 440, 485: [(old << MASKED_BITS) + new]. *)
Definition pair_index (k : kind) (a b : Z) : Z := Z.shiftl a (MASKED_BITS k) + b.

(** screen.py 383-398: [byte_pair_difference] *)
Definition byte_pair_difference (k : kind) (ed : table) (o old_packed content : Z) : res Z :=
  let! old_pixels := mask_and_shift_data k old_packed o in
  let! new_pixels := mask_and_shift_data k (masked_update k o old_packed content) o in
  Ok (ed o (pair_index k old_pixels new_pixels)).

(** screen.py 453-494: [_diff_weights_page] at one offset of the page.  The two
    loop iterations (even and odd columns) are independent; entry [off] of the
    result comes from iteration [off mod 2], column [off / 2].
    Simplification: the (vectorised, always true, see
    [C09_mask_assertion_never_fires]) assertion of mask_and_shift_data is not
    modelled in the array operations. *)
Definition diff_weights_page (k : kind) (ed : table) (source target : Z -> Z)
    (is_aux : bool) (content : option Z) : res (Z -> Z) :=
  let! (o0, o1) := byte_offsets k is_aux in
  Ok (fun off =>
        let o := if off mod 2 =? 0 then o0 else o1 in
        let c := off / 2 in
        let compare := match content with
                       | Some v => fix_array_neighbours k (fun c => masked_update k o (source c) v) o
                       | None => source
                       end in
        ed o (pair_index k (mask_and_shift k (compare c) o) (mask_and_shift k (target c) o))).

(** screen.py 400-450: [diff_weights] / [_diff_weights] at page [p]: the same
    computation on a (32,128) array is row-wise the page computation. *)
Definition diff_weights (ed : table) (self source : bitmap) (is_aux : bool) : res (Z -> Z -> Z) :=
  let k := bm_kind self in
  let! (o0, o1) := byte_offsets k is_aux in
  Ok (fun p off =>
        let o := if off mod 2 =? 0 then o0 else o1 in
        let c := off / 2 in
        ed o (pair_index k (mask_and_shift k (bm_packed source p c) o)
                           (mask_and_shift k (bm_packed self p c) o))).

(** screen.py 525-547: [compute_delta_page]; [dw] is row [page] of diff_weights. *)
Definition compute_delta_page (ed : table) (self : bitmap) (page content : Z)
    (dw : Z -> Z) (is_aux : bool) : res (Z -> Z) :=
  let packed_page := bm_packed self page in
  let! nd := diff_weights_page (bm_kind self) ed packed_page packed_page is_aux (Some content) in
  Ok (fun off => nd off - dw off).

(** screen.py 710-739: [_double_pixels] *)
Definition double_pixels (int7 : Z) : Z :=
  let t m s := Z.shiftl (Z.land int7 m) s in
  t 0x40 8 + t 0x40 7 + t 0x40 6 + (t 0x20 6 + t 0x20 5) + (t 0x10 5 + t 0x10 4)
  + (t 0x08 4 + t 0x08 3) + (t 0x04 3 + t 0x04 2) + (t 0x02 2 + t 0x02 1)
  + (t 0x01 1 + Z.land int7 0x01).

(** screen.py 741-789 (HGR), 982-990 (DHGR): [to_dots] *)
Definition to_dots (k : kind) (masked_val o : Z) : res Z :=
  match k with
  | DHGR => Ok masked_val
  | HGR =>
      assert_ (Z.land masked_val (2 ^ 14 - 1) =? masked_val) (
        let h := Z.shiftl (Z.land masked_val 7) 5 in
        let hp := Z.shiftr (Z.land h 0x80) 7 in
        let res1 := Z.shiftr (double_pixels (Z.land h 0x7f)) (11 - hp) in
        let '(b, bp) :=
          if o =? 0 then
            let b := Z.land (Z.shiftr masked_val 3) 0xff in
            (b, Z.shiftr (Z.land b 0x80) 7)
          else
            let bp := Z.land (Z.shiftr masked_val 3) 1 in
            (Z.lxor (Z.land (Z.shiftr masked_val 4) 0x7f) (Z.shiftl bp 7), bp) in
        let res2 := Z.land res1 (Z.lnot (Z.shiftl (2 ^ 14 - 1) (3 + bp))) in
        let res3 := Z.lxor res2 (Z.shiftl (double_pixels (Z.land b 0x7f)) (3 + bp)) in
        let f := Z.lxor (Z.land (Z.shiftr masked_val 12) 3)
                        (Z.shiftl (Z.land (Z.shiftr masked_val 11) 1) 7) in
        let fp := Z.shiftr (Z.land f 0x80) 7 in
        let res4 := Z.land res3 (Z.lnot (Z.shiftl (2 ^ 4 - 1) (17 + fp))) in
        let res5 := Z.lxor res4 (Z.shiftl (double_pixels (Z.land f 0x7f)) (17 + fp)) in
        Ok (Z.land res5 (2 ^ 21 - 1)))
  end.

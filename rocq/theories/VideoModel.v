(** Model of transcoder/video.py: the frame encoder. *)
From Verif Require Import Base ScreenModel ScreenSpec BitmapModel.

(** Heap entries of [priorities]: (key, random nonce, page, offset). *)
Record entry := { en_key : Z; en_nonce : Z; en_page : Z; en_off : Z }.

(** Python tuple comparison [a < b] *)
Definition entry_lt (a b : entry) : bool :=
  (en_key a <? en_key b) || ((en_key a =? en_key b) &&
  ((en_nonce a <? en_nonce b) || ((en_nonce a =? en_nonce b) &&
  ((en_page a <? en_page b) || ((en_page a =? en_page b) && (en_off a <? en_off b)))))).

(** heapq, modelled as a bag: [heappop] removes a smallest element (equal
    tuples are indistinguishable), [heappush] adds one, [heapify] does nothing
    to the bag. *)
Fixpoint heap_pop (h : list entry) : option (entry * list entry) :=
  match h with
  | [] => None
  | e :: h' => match heap_pop h' with
               | None => Some (e, [])
               | Some (m, r) => if entry_lt m e then Some (m, e :: r) else Some (e, h')
               end
  end.
Definition heap_push (h : list entry) (e : entry) : list entry := e :: h.

(** [-p] of a np.uint16 scalar (the element type of the distance table,
    make_data_tables.py 134): negation wraps modulo 2^16. *)
Definition u16_neg (p : Z) : Z := (- p) mod 2 ^ 16.

(** One change tuple: (page, content, offsets) *)
Definition change := (Z * Z * list Z)%type.

(** video.py 21-62: the encoder's state.  [self.memory_map] and
    [self.aux_memory_map] are the objects held by [self.pixelmap], so they are
    [bm_main] and [bm_aux] of [v_pix].  The priorities are np.int32; they are
    [Z] here, [C28_priorities_fit] and [C28_sums_fit] show that they never
    overflow. *)
Record video := {
  v_pix : bitmap;
  v_up : Z -> Z -> Z;        (* update_priority *)
  v_aux_up : Z -> Z -> Z;    (* aux_update_priority *)
  v_oow : bool -> bool       (* out_of_work *)
}.
Definition v_mode (v : video) : kind := bm_kind (v_pix v).

Definition zero_memory : memory_map := {| mm_page := 1; mm_data := fun _ _ => 0 |}.
Definition video_new (mode : kind) : video :=
  {| v_pix := match mode with HGR => hgr_new zero_memory | DHGR => dhgr_new zero_memory zero_memory end;
     v_up := fun _ _ => 0; v_aux_up := fun _ _ => 0; v_oow := fun _ => false |}.

Definition get_up (v : video) (is_aux : bool) : Z -> Z -> Z := if is_aux then v_aux_up v else v_up v.
Definition set_up (v : video) (is_aux : bool) (u : Z -> Z -> Z) : video :=
  if is_aux then {| v_pix := v_pix v; v_up := v_up v; v_aux_up := u; v_oow := v_oow v |}
  else {| v_pix := v_pix v; v_up := u; v_aux_up := v_aux_up v; v_oow := v_oow v |}.
Definition set_pix (v : video) (b : bitmap) : video :=
  {| v_pix := b; v_up := v_up v; v_aux_up := v_aux_up v; v_oow := v_oow v |}.
Definition set_oow (v : video) (is_aux : bool) : video :=
  {| v_pix := v_pix v; v_up := v_up v; v_aux_up := v_aux_up v;
     v_oow := fun b => if Bool.eqb b is_aux then true else v_oow v b |}.

(** movie.py 96: [self.video.out_of_work = {True: False, False: False}] *)
Definition reset_oow (v : video) : video :=
  {| v_pix := v_pix v; v_up := v_up v; v_aux_up := v_aux_up v; v_oow := fun _ => false |}.

(** memory of one bank of a bitmap, as the encoder addresses it
    (video.py 79-84, 104-107); the HGR encoder has no aux bank (AttributeError). *)
Definition bank_mem (b : bitmap) (is_aux : bool) : res mem :=
  if is_aux then match bm_aux b with Some m => Ok (mm_data m) | None => Raise TypeError end
  else Ok (mm_data (bm_main b)).

(** video.py 253-271: [_heapify_priorities]; [rnd] are the random nonces, one
    per non-zero entry in row-major order.  Returns the number of draws too. *)
Fixpoint heapify_from (up : Z -> Z -> Z) (rnd : Z -> Z) (n : Z) (l : list (Z * Z)) : list entry * Z :=
  match l with
  | [] => ([], n)
  | (p, o) :: l' =>
      if up p o =? 0 then heapify_from up rnd n l'
      else let '(h, m) := heapify_from up rnd (n + 1) l' in
           ({| en_key := - up p o; en_nonce := rnd n; en_page := p; en_off := o |} :: h, m)
  end.
Definition heapify_priorities (up : Z -> Z -> Z) (rnd : Z -> Z) : list entry * Z :=
  heapify_from up rnd 0 all_pairs.

(** video.py 275-301: [_compute_error].  Its heap holds (delta, nonce, offset)
    for the offsets with negative delta ([en_page] is unused and 0); the
    generator yields them in pop order. *)
Fixpoint error_candidates (delta : Z -> Z) (rnd : Z -> Z) (n : Z) (l : list Z) : list entry * Z :=
  match l with
  | [] => ([], n)
  | o :: l' =>
      if delta o <? 0 then
        let '(h, m) := error_candidates delta rnd (n + 1) l' in
        ({| en_key := delta o; en_nonce := rnd n; en_page := 0; en_off := o |} :: h, m)
      else error_candidates delta rnd n l'
  end.
Fixpoint pop_all (fuel : nat) (h : list entry) : list entry :=
  match fuel with
  | O => []
  | S f => match heap_pop h with None => [] | Some (e, h') => e :: pop_all f h' end
  end.
Definition compute_error (ed : table) (target : bitmap) (page content : Z) (dw : Z -> Z -> Z)
    (is_aux : bool) (rnd : Z -> Z) (n : Z) : res (list entry * Z) :=
  let! delta := compute_delta_page ed target page content (dw page) is_aux in
  let '(h, m) := error_candidates delta rnd n (zrange 256) in
  Ok (pop_all (length h) h, m).

(** video.py 146-182: the loop filling the remaining slots.  [offsets] has the
    primary offset first.  Assertions at 154-157 and 298-299 included.
    (A random number is skipped when nothing is pushed: the stream is arbitrary.) *)
Fixpoint fill_slots (ed : table) (target : bitmap) (is_aux : bool) (page offset content : Z)
    (rnd : Z -> Z) (n : Z) (cands : list entry)
    (v : video) (heap : list entry) (offsets : list Z) : res (video * list entry * list Z) :=
  match cands with
  | [] => Ok (v, heap, offsets)
  | c :: rest =>
      let o := en_off c in
      assert_ ((en_key c <? 0) && (0 <=? o) && (o <=? 255)) (
      assert_ (negb (o =? offset)) (
      assert_ (negb (screen_holes TABLES page o)) (
      if get_up v is_aux page o =? 0 then
        fill_slots ed target is_aux page offset content rnd n rest v heap offsets
      else
        let! bo := byte_offset (bm_kind target) o is_aux in
        let! p := byte_pair_difference (bm_kind target) ed bo (bm_packed target page (o / 2)) content in
        let v1 := set_up v is_aux (upd2 (get_up v is_aux) page o p) in
        let! pix := apply (v_pix v1) page o is_aux content in
        let v2 := set_pix v1 pix in
        let heap' := if p =? 0 then heap else
          heap_push heap {| en_key := u16_neg p; en_nonce := rnd n; en_page := page; en_off := o |} in
        let offsets' := offsets ++ [o] in
        if Z.of_nat (length offsets') =? 3 then Ok (v2, heap', offsets')
        else fill_slots ed target is_aux page offset content rnd (n + 1) rest v2 heap' offsets')))
  end.

(** [for _ in range(len(offsets), 4): offsets.append(offsets[0])]  (184-186) *)
Definition pad4 (offsets : list Z) : list Z :=
  offsets ++ repeat (nth 0 offsets 0) (4 - length offsets).

(** The generator of [encode_frame] (video.py 72-93, 95-251). *)
Inductive gen :=
| GStart (target : bitmap) (is_aux : bool)
| GRun (target : bitmap) (is_aux : bool) (dw : Z -> Z -> Z) (heap : list entry)
| GPad (content : Z).

(** video.py 121-187: the [while priorities] loop up to its next yield, and
    what follows it (189, 248-251). *)
Fixpoint pop_loop (fuel : nat) (ed : table) (rnd : Z -> Z) (n : Z) (v : video) (target : bitmap)
    (is_aux : bool) (dw : Z -> Z -> Z) (heap : list entry) : res (change * video * gen) :=
  let! tmem := bank_mem target (match v_mode v with DHGR => is_aux | HGR => false end) in
  match heap_pop heap with
  | None =>
      let content := tmem 0 0 in
      Ok ((32, content, [0; 0; 0; 0]), set_oow v is_aux, GPad content)
  | Some (e, heap1) =>
      match fuel with
      | O => Raise OutOfFuel
      | S fuel' =>
          let page := en_page e in
          let offset := en_off e in
          assert_ (negb (screen_holes TABLES page offset)) (
          if get_up v is_aux page offset =? 0 then
            pop_loop fuel' ed rnd n v target is_aux dw heap1
          else
            let content := tmem page offset in
            assert_ (match v_mode v with DHGR => content <? 0x80 | HGR => true end) (
            let v1 := set_up v is_aux (upd2 (get_up v is_aux) page offset 0) in
            let dw1 := upd2 dw page offset 0 in
            let! pix := apply (v_pix v1) page offset is_aux content in
            let v2 := set_pix v1 pix in
            let! (cands, n1) := compute_error ed target page content dw1 is_aux rnd n in
            let! (v3, heap2, offsets) :=
              fill_slots ed target is_aux page offset content rnd n1 cands v2 heap1 [offset] in
            Ok ((page + 32, content, pad4 offsets), v3, GRun target is_aux dw1 heap2)))
      end
  end.

(** video.py 86-88: the screen-hole assertion of [encode_frame] *)
Definition holes_clear (m : mem) : bool :=
  forallb (fun po => negb (screen_holes TABLES (fst po) (snd po)) || (m (fst po) (snd po) =? 0)) all_pairs.

(** One [next()] of the generator; [rnd] supplies the random draws of this
    call.  The print of the mean is not modelled. *)
Definition next (ed : table) (rnd : Z -> Z) (v : video) (g : gen) : res (change * video * gen) :=
  match g with
  | GPad content => Ok ((32, content, [0; 0; 0; 0]), v, g)
  | GRun target is_aux dw heap => pop_loop (length heap) ed rnd 0 v target is_aux dw heap
  | GStart target is_aux =>
      let! m := bank_mem (v_pix v) is_aux in
      assert_ (holes_clear m) (
      let! dw0 := diff_weights ed target (v_pix v) is_aux in
      let dw := fun p o => if screen_holes TABLES p o then 0 else dw0 p o in
      let old := get_up v is_aux in
      let up := fun p o => (if dw p o =? 0 then 0 else old p o) + dw p o in
      assert_ (forallb (fun po => 0 <=? up (fst po) (snd po)) all_pairs) (
      let '(heap, n) := heapify_priorities up rnd in
      pop_loop (length heap) ed rnd n (set_up v is_aux up) target is_aux dw heap))
  end.

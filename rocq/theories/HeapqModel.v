(** The frame encoder on a real binary heap.  VideoModel treats heapq as a bag;
    here video.py's three uses of it (119-122, 177-178, 294-297) run CPython's
    algorithm (Lib/heapq.py of Python 3, of which the C module _heapq is the same
    algorithm) on the list that video.py holds. *)
From Verif Require Import Base ScreenModel ScreenSpec BitmapModel VideoModel OpcodeModel MovieModel.

Definition e0 : entry := {| en_key := 0; en_nonce := 0; en_page := 0; en_off := 0 |}.
Definition at_ (h : list entry) (i : nat) : entry := nth i h e0.
Fixpoint put (h : list entry) (i : nat) (x : entry) : list entry :=
  match h, i with
  | [], _ => []
  | _ :: t, O => x :: t
  | y :: t, S j => y :: put t j x
  end.

(** heapq.py [_siftdown]: the loop; returns the list and [pos].  [fuel] bounds
    the iterations; [pos] suffices. *)
Fixpoint sink (fuel : nat) (h : list entry) (start pos : nat) (new : entry) : list entry * nat :=
  match fuel with
  | O => (h, pos)
  | S f =>
      if Nat.ltb start pos then
        let parentpos := Nat.div2 (pos - 1) in
        let parent := at_ h parentpos in
        if entry_lt new parent then sink f (put h pos parent) start parentpos new else (h, pos)
      else (h, pos)
  end.
Definition siftdown (h : list entry) (start pos : nat) : list entry :=
  let new := at_ h pos in
  let '(h', p) := sink pos h start pos new in put h' p new.

(** heapq.py [_siftup]: the loop *)
Fixpoint lift (fuel : nat) (h : list entry) (pos : nat) : list entry * nat :=
  match fuel with
  | O => (h, pos)
  | S f =>
      let left := (2 * pos + 1)%nat in
      if Nat.ltb left (length h) then
        let right := S left in
        let child := if Nat.ltb right (length h) && negb (entry_lt (at_ h left) (at_ h right)) then right else left in
        lift f (put h pos (at_ h child)) child
      else (h, pos)
  end.
Definition siftup (h : list entry) (pos : nat) : list entry :=
  let new := at_ h pos in
  let '(h', p) := lift (length h) h pos in siftdown (put h' p new) pos p.

(** heapq.py [heapify]: [for i in reversed(range(n//2)): _siftup(x, i)] *)
Fixpoint heapify_below (i : nat) (h : list entry) : list entry :=
  match i with O => h | S j => heapify_below j (siftup h j) end.
Definition heapify (h : list entry) : list entry := heapify_below (Nat.div2 (length h)) h.
(** heapq.py [heappush] *)
Definition heappush (h : list entry) (e : entry) : list entry := siftdown (h ++ [e]) 0 (length h).
(** heapq.py [heappop]; [None] is IndexError *)
Definition heappop (h : list entry) : option (entry * list entry) :=
  match h with
  | [] => None
  | _ =>
      let lastelt := last h e0 in
      match removelast h with
      | [] => Some (lastelt, [])
      | top :: t => Some (top, siftup (lastelt :: t) 0)
      end
  end.

(** video.py 293-301: [heapify] and [while deltas: ... heappop] *)
Fixpoint heappop_all (fuel : nat) (h : list entry) : list entry :=
  match fuel with
  | O => []
  | S f => match heappop h with None => [] | Some (e, h') => e :: heappop_all f h' end
  end.
(** video.py 275-301 *)
Definition compute_error_q (ed : table) (target : bitmap) (page content : Z) (dw : Z -> Z -> Z)
    (is_aux : bool) (rnd : Z -> Z) (n : Z) : res (list entry * Z) :=
  let! delta := compute_delta_page ed target page content (dw page) is_aux in
  let '(h, m) := error_candidates delta rnd n (zrange 256) in
  Ok (heappop_all (length h) (heapify h), m).

(** video.py 146-182, as VideoModel's [fill_slots] *)
Fixpoint fill_slots_q (ed : table) (target : bitmap) (is_aux : bool) (page offset content : Z)
    (rnd : Z -> Z) (n : Z) (cands : list entry)
    (v : video) (heap : list entry) (offsets : list Z) : res (video * list entry * list Z) :=
  match cands with
  | [] => Ok (v, heap, offsets)
  | c :: rest =>
      let o := en_off c in
      assert_ ((en_key c <? 0) && (0 <=? o) && (o <=? 255)) (
      assert_ (negb (o =? offset)) (
      assert_ (negb (screen_holes TABLES page o)) (
      if get_up v is_aux page o =? 0 then
        fill_slots_q ed target is_aux page offset content rnd n rest v heap offsets
      else
        let! bo := byte_offset (bm_kind target) o is_aux in
        let! p := byte_pair_difference (bm_kind target) ed bo (bm_packed target page (o / 2)) content in
        let v1 := set_up v is_aux (upd2 (get_up v is_aux) page o p) in
        let! pix := apply (v_pix v1) page o is_aux content in
        let v2 := set_pix v1 pix in
        let heap' := if p =? 0 then heap else
          heappush heap {| en_key := u16_neg p; en_nonce := rnd n; en_page := page; en_off := o |} in
        let offsets' := offsets ++ [o] in
        if Z.of_nat (length offsets') =? 3 then Ok (v2, heap', offsets')
        else fill_slots_q ed target is_aux page offset content rnd (n + 1) rest v2 heap' offsets')))
  end.

(** video.py 121-187, as VideoModel's [pop_loop] *)
Fixpoint pop_loop_q (fuel : nat) (ed : table) (rnd : Z -> Z) (n : Z) (v : video) (target : bitmap)
    (is_aux : bool) (dw : Z -> Z -> Z) (heap : list entry) : res (change * video * gen) :=
  let! tmem := bank_mem target (match v_mode v with DHGR => is_aux | HGR => false end) in
  match heappop heap with
  | None =>
      let content := tmem 0 0 in
      Ok ((32, content, [0; 0; 0; 0]), set_oow v is_aux, GPad content)
  | Some (e, heap1) =>
      match fuel with
      | O => Raise OutOfFuel
      | S fuel' =>
          let page := en_page e in
          let offset := en_off e in
          assert_ (negb (screen_holes TABLES page offset)) (
          if get_up v is_aux page offset =? 0 then
            pop_loop_q fuel' ed rnd n v target is_aux dw heap1
          else
            let content := tmem page offset in
            assert_ (match v_mode v with DHGR => content <? 0x80 | HGR => true end) (
            let v1 := set_up v is_aux (upd2 (get_up v is_aux) page offset 0) in
            let dw1 := upd2 dw page offset 0 in
            let! pix := apply (v_pix v1) page offset is_aux content in
            let v2 := set_pix v1 pix in
            let! (cands, n1) := compute_error_q ed target page content dw1 is_aux rnd n in
            let! (v3, heap2, offsets) :=
              fill_slots_q ed target is_aux page offset content rnd n1 cands v2 heap1 [offset] in
            Ok ((page + 32, content, pad4 offsets), v3, GRun target is_aux dw1 heap2)))
      end
  end.

(** One [next()] of the generator (video.py 72-251), as VideoModel's [next] *)
Definition next_q (ed : table) (rnd : Z -> Z) (v : video) (g : gen) : res (change * video * gen) :=
  match g with
  | GPad content => Ok ((32, content, [0; 0; 0; 0]), v, g)
  | GRun target is_aux dw heap => pop_loop_q (length heap) ed rnd 0 v target is_aux dw heap
  | GStart target is_aux =>
      let! m := bank_mem (v_pix v) is_aux in
      assert_ (holes_clear m) (
      let! dw0 := diff_weights ed target (v_pix v) is_aux in
      let dw := fun p o => if screen_holes TABLES p o then 0 else dw0 p o in
      let old := get_up v is_aux in
      let up := fun p o => (if dw p o =? 0 then 0 else old p o) + dw p o in
      assert_ (forallb (fun po => 0 <=? up (fst po) (snd po)) all_pairs) (
      let '(h, n) := heapify_priorities up rnd in
      let heap := heapify h in
      pop_loop_q (length heap) ed rnd n (set_up v is_aux up) target is_aux dw heap))
  end.

(** movie.py 68-111, as MovieModel's [tick_body] *)
Definition tick_body_q (c : config) (m : movie) (e : enc) (au : Z) : res (option opcode * movie * enc) :=
  let ticks := m_ticks m + 1 in
  let due := c_clock c ticks (m_frame_number m) in
  let m1 := {| m_pos := m_pos m; m_ticks := ticks; m_aux := m_aux m;
               m_frame_number := if due then m_frame_number m + 1 else m_frame_number m;
               m_video := m_video m |} in
  let! r := (if due then new_frame c m1 e else Ok (Some (m1, e))) in
  match r with
  | None => Ok (None, m1, {| e_at := AtEnd; e_last := e_last e; e_target := e_target e; e_op_seq := e_op_seq e;
                             e_audio := e_audio e; e_frames := e_frames e |})
  | Some (m2, e2) =>
      let! e3 := follow_bank m2 e2 in
      let tick := au * 2 + 34 in
      match e_op_seq e3 with
      | None => Raise TypeError
      | Some g =>
          let! (change, v', g') := next_q (c_table c) (c_draws c ticks) (m_video m2) g in
          let '(page, content, offsets) := change in
          let! op := tick_opcode tick page content offsets in
          Ok (Some op,
              {| m_pos := m_pos m2; m_ticks := m_ticks m2; m_aux := m_aux m2;
                 m_frame_number := m_frame_number m2; m_video := v' |},
              {| e_at := InLoop; e_last := e_last e3; e_target := e_target e3; e_op_seq := Some g';
                 e_audio := e_audio e3; e_frames := e_frames e3 |})
      end
  end.

(** movie.py 56-111, as MovieModel's [encode_next] *)
Definition encode_next_q (c : config) (m : movie) (e : enc) : res (option opcode * movie * enc) :=
  match e_at e with
  | AtStart =>
      Ok (Some (Header (c_mode c)), m,
          {| e_at := AfterHeader; e_last := e_last e; e_target := e_target e; e_op_seq := e_op_seq e;
             e_audio := e_audio e; e_frames := e_frames e |})
  | AfterHeader | InLoop =>
      let last := match e_at e with AfterHeader => m_aux m | _ => e_last e end in
      match e_audio e with
      | [] => Ok (None, m, {| e_at := AtEnd; e_last := last; e_target := e_target e; e_op_seq := e_op_seq e;
                              e_audio := []; e_frames := e_frames e |})
      | au :: audio =>
          tick_body_q c m {| e_at := InLoop; e_last := last; e_target := e_target e; e_op_seq := e_op_seq e;
                           e_audio := audio; e_frames := e_frames e |} au
      end
  | AtEnd => Ok (None, m, e)
  end.

(** movie.py 131-150, as MovieModel's [emit_step] *)
Definition emit_step_q (c : config) (s : stream) : res outcome :=
  let! (oop, m1, e1) := encode_next_q c (s_movie s) (s_enc s) in
  let s1 := {| s_out := s_out s; s_movie := m1; s_enc := e1 |} in
  match oop with
  | None => Ok (Finished (done c s1))
  | Some op =>
      if negb (c_max_bytes c =? 0) && (c_max_bytes c <=? m_pos m1) then Ok (Finished (done c s1))
      else
        let s2 := emit_bytes c s1 op in
        if 2044 <=? m_pos (s_movie s2) mod 2048 then
          let m3 := flip_bank c (s_movie s2) in
          let ack := Ack (m_aux m3) in
          let s3 := emit_bytes c {| s_out := s_out s2; s_movie := m3; s_enc := s_enc s2 |} ack in
          assert_ (m_pos (s_movie s3) mod 2048 =? 0) (Ok (More [op; ack] s3))
        else Ok (More [op] s2)
  end.

(** movie.py 122-150, as MovieModel's [emit_stream] *)
Fixpoint emit_stream_q (fuel : nat) (c : config) (s : stream) : res (list Z) :=
  match fuel with
  | O => Raise OutOfFuel
  | S f => let! o := emit_step_q c s in
           match o with More _ s' => emit_stream_q f c s' | Finished bytes => Ok bytes end
  end.

(** main.py 67-69: the bytes written *)
Definition transcode_q (c : config) (audio : list Z) (frames : list frame) : res (list Z) :=
  emit_stream_q (length audio + 3) c (movie_new c audio frames).

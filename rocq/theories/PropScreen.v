(** Properties C01-C04: screen layout and memory maps.
    Only theorems closed by [exact], examples of their hypotheses, and
    [Print Assumptions]. *)
From Verif Require Import Base BaseFacts ScreenModel ScreenSpec ScreenProofs.

(** C01 (a): the address of a visible coordinate is the hardware address and
    lies inside the 8K page. *)
Theorem C01_address_is_hardware_address : forall x y screen_page,
  visible_xy x y ->
  y_to_base_addr y screen_page + x = 8192 * (screen_page + 1) + hires_offset x y
  /\ 8192 * (screen_page + 1) <= y_to_base_addr y screen_page + x < 8192 * (screen_page + 1) + 8192.
Proof. exact base_addr_and_bound. Qed.
Print Assumptions C01_address_is_hardware_address.

(** C01 (b): distinct coordinates (or screen pages) have distinct addresses. *)
Theorem C01_addresses_distinct : forall y p x y' p' x',
  (p = 0 \/ p = 1) -> (p' = 0 \/ p' = 1) -> visible_xy x y -> visible_xy x' y' ->
  y_to_base_addr y p + x = y_to_base_addr y' p' + x' -> p = p' /\ x = x' /\ y = y'.
Proof. exact base_addr_inj. Qed.
Print Assumptions C01_addresses_distinct.

(** C01 (c): (x,y) -> (page,offset) -> (x,y) is the identity and the pair is
    the page/offset split of the hardware offset. *)
Theorem C01_xy_roundtrip : forall x y, visible_xy x y ->
  let p := x_y_to_page TABLES y x in let o := x_y_to_offset TABLES y x in
  in_page p o /\ 256 * p + o = hires_offset x y /\
  page_offset_to_x TABLES p o = x /\ page_offset_to_y TABLES p o = y.
Proof. exact tables_xy. Qed.
Print Assumptions C01_xy_roundtrip.

(** C01 (d): and back, on displayed bytes. *)
Theorem C01_page_offset_roundtrip : forall p o, in_page p o -> displayed p o ->
  let x := page_offset_to_x TABLES p o in let y := page_offset_to_y TABLES p o in
  visible_xy x y /\ x_y_to_page TABLES y x = p /\ x_y_to_offset TABLES y x = o.
Proof. exact displayed_xy. Qed.
Print Assumptions C01_page_offset_roundtrip.

(** C01 (e): the address dictionary has exactly the visible addresses of the
    two screen pages, with their coordinates. *)
Theorem C01_addr_to_coords : forall a p y x,
  addr_to_coords TABLES a = Some (p, y, x) <->
  (p = 0 \/ p = 1) /\ visible_xy x y /\ a = y_to_base_addr y p + x.
Proof. exact addr_coords_iff. Qed.
Print Assumptions C01_addr_to_coords.

(** C01 (f): the table-filling loop never indexes out of range. *)
Theorem C01_table_indices_in_range : forall y x, visible_xy x y ->
  let page := Z.shiftr (y_to_base_addr y 0) 8 in
  let offset := y_to_base_addr y 0 - Z.shiftl page 8 + x in
  0 <= page - 32 < 32 /\ 0 <= offset < 256 /\ 0 <= y < 256 /\ 0 <= x < 256.
Proof. exact populate_indices. Qed.
Print Assumptions C01_table_indices_in_range.

Example C01_example : visible_xy 39 191 /\ hires_offset 39 191 = 8183
  /\ in_page 31 247 /\ displayed 31 247.
Proof.
  repeat split; try (unfold visible_xy; lia); try (unfold in_page; lia).
  exists 39, 191. split; [unfold visible_xy; lia | reflexivity].
Qed.

(** C02 *)
Theorem C02_hole_iff_not_displayed : forall p o, in_page p o ->
  (screen_holes TABLES p o = false <-> displayed p o).
Proof. exact holes_iff. Qed.
Print Assumptions C02_hole_iff_not_displayed.

Theorem C02_hole_iff_last_eight : forall p o, in_page p o ->
  (displayed p o <-> o mod 128 < 120).
Proof. exact displayed_low. Qed.
Print Assumptions C02_hole_iff_last_eight.

Theorem C02_counts :
  count (fun po => negb (screen_holes TABLES (fst po) (snd po))) all_pairs = 7680 /\
  count (fun po => screen_holes TABLES (fst po) (snd po)) all_pairs = 512.
Proof. exact (conj count_visible count_holes). Qed.
Print Assumptions C02_counts.

(** C03: the two representations. *)
Theorem C03_flat_paged_flat : forall f m, to_memory_map f = Ok m ->
  exists f', to_flat_memory_map m = Ok f' /\ fm_page f' = fm_page f /\
    forall i, 0 <= i < 8192 -> fm_data f' i = fm_data f i.
Proof. exact flat_paged_roundtrip. Qed.
Print Assumptions C03_flat_paged_flat.

Theorem C03_paged_flat_paged : forall m f, to_flat_memory_map m = Ok f ->
  exists m', to_memory_map f = Ok m' /\ mm_page m' = mm_page m /\
    forall p o, in_page p o -> mm_data m' p o = mm_data m p o.
Proof. exact paged_flat_roundtrip. Qed.
Print Assumptions C03_paged_flat_paged.

(** A flat write at an address of the screen page succeeds, and seen as a paged
    map it changes exactly the byte at that address. *)
Theorem C03_flat_write : forall f addr val m,
  to_memory_map f = Ok m ->
  8192 * fm_page f <= addr < 8192 * fm_page f + 8192 ->
  exists f' m', flat_write f addr val = Ok f' /\ to_memory_map f' = Ok m' /\
    forall p o, in_page p o ->
      mm_data m' p o = if 8192 * fm_page f + 256 * p + o =? addr then val else mm_data m p o.
Proof. exact flat_write_seen_paged. Qed.
Print Assumptions C03_flat_write.

Theorem C03_flat_write_rejects : forall f addr val,
  ~ (8192 * fm_page f <= addr < 8192 * fm_page f + 8192) ->
  flat_write f addr val = Raise ValueError.
Proof. exact flat_write_bad. Qed.
Print Assumptions C03_flat_write_rejects.

(** Constructors succeed exactly for screen pages 1 and 2 and the right shape. *)
Theorem C03_constructors_validate : forall page shape (d : flat) (m : mem),
  ((exists r, flat_memory_new page (Some (shape, d)) = Ok r) <->
     ((page = 1 \/ page = 2) /\ shape = [8192])) /\
  ((exists r, memory_map_new page (Some (shape, m)) = Ok r) <->
     ((page = 1 \/ page = 2) /\ shape = [32; 256])) /\
  ((exists r, flat_memory_new page None = Ok r) <-> (page = 1 \/ page = 2)) /\
  ((exists r, memory_map_new page None = Ok r) <-> (page = 1 \/ page = 2)).
Proof. exact constructors_validate. Qed.
Print Assumptions C03_constructors_validate.

Example C03_example :
  to_memory_map {| fm_page := 2; fm_data := fun i => i mod 256 |} =
    Ok {| mm_page := 2; mm_data := reshape_32_256 (fun i => i mod 256) |}.
Proof. reflexivity. Qed.

(** C04: on screen page 1 a paged write succeeds exactly for pages 0..63 and
    offsets -256..255, and hits the byte (page mod 32, offset mod 256). *)
Theorem C04_paged_write : forall m page offset val,
  mm_page m = 1 -> 0 <= page < 64 -> -256 <= offset < 256 ->
  exists m', mm_write m page offset val = Ok m' /\ mm_page m' = 1 /\
    forall p o, in_page p o ->
      mm_data m' p o = if (p =? page mod 32) && (o =? offset mod 256) then val
                       else mm_data m p o.
Proof. exact mm_write_ok. Qed.
Print Assumptions C04_paged_write.

Theorem C04_paged_write_rejects : forall m page offset val,
  mm_page m = 1 -> ~ (0 <= page < 64 /\ -256 <= offset < 256) ->
  mm_write m page offset val = Raise IndexError.
Proof. exact mm_write_raises. Qed.
Print Assumptions C04_paged_write_rejects.

Example C04_example :
  exists m', mm_write {| mm_page := 1; mm_data := fun _ _ => 7 |} 3 200 9 = Ok m'
    /\ mm_data m' 3 200 = 9 /\ mm_data m' 3 201 = 7.
Proof. eexists. vm_compute. repeat split; reflexivity. Qed.

(** Model of transcoder/screen.py lines 16-125: coordinate tables,
    FlatMemoryMap and MemoryMap. *)
From Verif Require Import Base.

(** screen.py 16-24: [y_to_base_addr].  [page] is 0 or 1 here. *)
Definition y_to_base_addr (y page : Z) : Z :=
  let a := y / 64 in
  let d := y - 64 * a in
  let b := d / 8 in
  let c := d - 8 * b in
  8192 * (page + 1) + 1024 * c + 128 * b + 40 * a.

(** screen.py 27-45: the module-level tables.  [Y_TO_BASE_ADDR[p][y]] is the
    comprehension of [y_to_base_addr y p] and is inlined below.
    [addr_to_coords] is a dict: [None] is a missing key. *)
Record tables := {
  page_offset_to_x : Z -> Z -> Z;
  page_offset_to_y : Z -> Z -> Z;
  x_y_to_page : Z -> Z -> Z;      (* indexed [y, x] as in the code *)
  x_y_to_offset : Z -> Z -> Z;    (* indexed [y, x] *)
  screen_holes : Z -> Z -> bool;
  addr_to_coords : Z -> option (Z * Z * Z)
}.

(** screen.py 34-45: initial values (zeros, all holes, empty dict). *)
Definition tables_init : tables :=
  {| page_offset_to_x := fun _ _ => 0;
     page_offset_to_y := fun _ _ => 0;
     x_y_to_page := fun _ _ => 0;
     x_y_to_offset := fun _ _ => 0;
     screen_holes := fun _ _ => true;
     addr_to_coords := fun _ => None |}.

(** screen.py 51-66: body of the double loop of [_populate_mappings].
    Simplification: the array index range checks and the uint8 stores are not
    modelled here; theorem [C01_table_indices_in_range] shows that every index
    and value is in range. *)
Definition populate_body (t : tables) (y x : Z) : tables :=
  let y_base := y_to_base_addr y 0 in
  let page := Z.shiftr y_base 8 in
  let offset := y_base - Z.shiftl page 8 + x in
  {| page_offset_to_y := upd2 (page_offset_to_y t) (page - 32) offset y;
     page_offset_to_x := upd2 (page_offset_to_x t) (page - 32) offset x;
     x_y_to_page := upd2 (x_y_to_page t) y x (page - 32);
     x_y_to_offset := upd2 (x_y_to_offset t) y x offset;
     screen_holes := upd2 (screen_holes t) (page - 32) offset false;
     addr_to_coords :=
       fold_left (fun d p => upd1 d (y_to_base_addr y p + x) (Some (p, y, x)))
         (zrange 2) (addr_to_coords t) |}.

(** screen.py 48-69: [_populate_mappings()]. *)
Definition populate_mappings (t : tables) : tables :=
  fold_left (fun t y => fold_left (fun t x => populate_body t y x) (zrange 40) t)
            (zrange 192) t.

Definition TABLES : tables := populate_mappings tables_init.

(** Contents of one 8K screen page as a (32,256) array: page, then offset. *)
Definition mem := Z -> Z -> Z.
(** Contents of one 8K screen page as a flat (8192,) array. *)
Definition flat := Z -> Z.

(** screen.py 72-98: FlatMemoryMap. *)
Record flat_memory := { fm_page : Z; fm_data : flat }.
(** screen.py 101-125: MemoryMap. *)
Record memory_map := { mm_page : Z; mm_data : mem }.

(** screen.py 75-89: constructor; [shape] is the shape of [data] (a numpy
    array argument is modelled as its shape and its contents). *)
Definition flat_memory_new (screen_page : Z) (arg : option (list Z * flat)) : res flat_memory :=
  if (screen_page =? 1) || (screen_page =? 2) then
    match arg with
    | None => Ok {| fm_page := screen_page; fm_data := fun _ => 0 |}
    | Some ([8192], d) => Ok {| fm_page := screen_page; fm_data := d |}
    | Some _ => Raise ValueError
    end
  else Raise ValueError.

(** screen.py 104-117: constructor. *)
Definition memory_map_new (screen_page : Z) (arg : option (list Z * mem)) : res memory_map :=
  if (screen_page =? 1) || (screen_page =? 2) then
    match arg with
    | None => Ok {| mm_page := screen_page; mm_data := fun _ _ => 0 |}
    | Some ([32; 256], d) => Ok {| mm_page := screen_page; mm_data := d |}
    | Some _ => Raise ValueError
    end
  else Raise ValueError.

(** numpy reshape between (8192,) and (32,256), C order. *)
Definition reshape_32_256 (f : flat) : mem := fun p o => f (256 * p + o).
Definition reshape_8192 (m : mem) : flat := fun i => m (i / 256) (i mod 256).

(** screen.py 91-92 *)
Definition to_memory_map (f : flat_memory) : res memory_map :=
  memory_map_new (fm_page f) (Some ([32; 256], reshape_32_256 (fm_data f))).
(** screen.py 119-120 *)
Definition to_flat_memory_map (m : memory_map) : res flat_memory :=
  flat_memory_new (mm_page m) (Some ([8192], reshape_8192 (mm_data m))).

(** screen.py 94-98: FlatMemoryMap.write.  Values are bytes (np.uint8). *)
Definition flat_write (f : flat_memory) (addr val : Z) : res flat_memory :=
  let addr_start := 8192 * fm_page f in
  let addr_end := addr_start + 8191 in
  if (addr <? addr_start) || (addr_end <? addr) then Raise ValueError
  else let! i := norm_index 8192 (addr - addr_start) in
       Ok {| fm_page := fm_page f; fm_data := upd1 (fm_data f) i val |}.

(** screen.py 122-125: MemoryMap.write.  [page_offset[page - _page_start]] is a
    row view, then [row[offset] = val]; both indices follow numpy's rule. *)
Definition mm_write (m : memory_map) (page offset val : Z) : res memory_map :=
  let page_start := 32 * mm_page m in
  let! p := norm_index 32 (page - page_start) in
  let! o := norm_index 256 offset in
  Ok {| mm_page := mm_page m; mm_data := upd2 (mm_data m) p o val |}.

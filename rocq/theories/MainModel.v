(** Model of transcoder/main.py (options; 61-65 is in GrabberModel.v) and of the
    files of distance tables: make_data_tables.py 177-206 writes them, screen.py
    343-351 loads them. *)
From Verif Require Import Base ScreenModel BitmapModel ColourModel TableModel SymbolModel OpcodeModel VideoModel MovieModel GrabberModel.

(** ** File names *)
(** Python's [%d] *)
Fixpoint digits (fuel : nat) (n : Z) : text :=
  match fuel with
  | O => []
  | S f => if n <? 10 then [48 + n] else digits f (n / 10) ++ [48 + n mod 10]
  end.
Definition decimal (n : Z) : text := if n <? 0 then 45 :: digits (Z.to_nat (- n)) (- n) else digits (S (Z.to_nat n)) n.
(** palette.py 18-23: BMP2DHR palette numbers *)
Definition palette_value (p : palette_id) : Z := match p with UNKNOWN => -1 | IIGS => 0 | NTSC => 5 end.
(** palette.py 81-84, with the RGB maps of the classes (33-54, 57-78) *)
Definition PALETTES : list (palette_id * (colour_name -> rgb)) := [(IIGS, iigs_rgb); (NTSC, ntsc_rgb)].
(** screen.py 606 and 879: [NAME] *)
Definition NAME (k : kind) : text := match k with HGR => str "HGR" | DHGR => str "DHGR" end.
(** make_data_tables.py 19 *)
Definition DATA_DIR : text := str "transcoder/data".
(** make_data_tables.py 186-187 *)
Definition saved_name (k : kind) (p : palette_id) : text :=
  DATA_DIR ++ str "/" ++ NAME k ++ str "_palette_" ++ decimal (palette_value p) ++ str "_edit_distance.npz".
(** screen.py 348-350 *)
Definition loaded_name (k : kind) (p : palette_id) : text :=
  str "transcoder/data/" ++ NAME k ++ str "_palette_" ++ decimal (palette_value p) ++ str "_edit_distance.npz".
(** frame_grabber.py 53-54: bmp2dhr's argument *)
Definition palette_arg (p : palette_id) : text := str "P" ++ decimal (palette_value p).

(** ** Table files *)
(** A file is a saved table, or one that is not (yet) complete: numpy refuses it,
    since the directory of a zip archive is written last. *)
Inductive npz := Saved (t : table) | Incomplete.
Definition files := text -> option npz.
Definition set_file (fs : files) (f : text) (c : npz) : files := fun g => if text_eqb g f then Some c else fs g.
(** [np.savez_compressed] (make_data_tables.py 188) truncates the file, then
    completes it *)
Inductive file_op := Begin (f : text) | Complete (f : text) (t : table).
Definition file_do (fs : files) (op : file_op) : files :=
  match op with Begin f => set_file fs f Incomplete | Complete f t => set_file fs f (Saved t) end.

(** make_data_tables.py 177-188: the table and where it goes *)
Definition make_edit_distance (p : palette_id) (e : edp) (k : kind) (nominal_colours : colour_name -> Z) : text * res table :=
  (saved_name k p, compute_edit_distance e k nominal_colours).
(** 197-206: for each palette, hi-res, then double hi-res *)
Definition jobs (delta : rgb -> rgb -> Z) : list (text * res table) :=
  flat_map (fun pp : palette_id * (colour_name -> rgb) =>
    let e := compute_substitute_costs (compute_diff_matrix delta (snd pp)) in
    [make_edit_distance (fst pp) e HGR hgr_value; make_edit_distance (fst pp) e DHGR dhgr_value]) PALETTES.
(** the file operations up to the end or the first exception; making the directory
    (192-195) is left out *)
Fixpoint job_ops (l : list (text * res table)) : list file_op :=
  match l with
  | (f, Ok t) :: l' => Begin f :: Complete f t :: job_ops l'
  | _ => []
  end.
Definition table_ops (delta : rgb -> rgb -> Z) : list file_op := job_ops (jobs delta).
(** run to the end, or killed after [n] operations *)
Definition make_tables (delta : rgb -> rgb -> Z) (fs : files) : files := fold_left file_do (table_ops delta) fs.
Definition make_tables_killed (delta : rgb -> rgb -> Z) (n : nat) (fs : files) : files := fold_left file_do (firstn n (table_ops delta)) fs.

(** screen.py 343-367; a missing file (FileNotFoundError) is modelled as KeyError,
    a broken one (BadZipFile) as ValueError *)
Definition load_table (fs : files) (k : kind) (p : palette_id) : res table :=
  match fs (loaded_name k p) with
  | None => Raise KeyError
  | Some Incomplete => Raise ValueError
  | Some (Saved t) => Ok (edit_distances k t)
  end.

(** ** Options *)
(** main.py 14-42.  [max_output_mb] is the rational mb_num / mb_den: the float
    product with 1024. * 1024 is exact.  The other options are inputs of the audio
    model. *)
Record options := { o_mb_num : Z; o_mb_den : Z; o_every_n : Z; o_mode : text; o_palette : text }.
(** main.py 15-42: the defaults *)
Definition default_options : options := {| o_mb_num := 0; o_mb_den := 1; o_every_n := 2; o_mode := str "DHGR"; o_palette := str "NTSC" |}.
(** video_mode.py 6-8 and palette.py 18-23: [__members__] *)
Definition video_modes : dict kind := [(str "HGR", HGR); (str "DHGR", DHGR)].
Definition palettes : dict palette_id := [(str "UNKNOWN", UNKNOWN); (str "IIGS", IIGS); (str "NTSC", NTSC)].

(** main.py 52 and movie.py 132: [stream_pos >= max_bytes_out] compares an
    integer with 2^20 * max_output_mb; as an integer limit: *)
Definition max_bytes (num den : Z) : Z :=
  if num =? 0 then 0 else if num <? 0 then -1 else (1024 * 1024 * num + den - 1) / den.

(** main.py 45-55: [None] where argparse exits.  The table is loaded when the first
    frame is encoded (screen.py 398, 441): the output file has been truncated by then. *)
Definition main_config (fs : files) (start : cmd -> Z) (clock : Z -> Z -> bool) (draws : Z -> Z -> Z) (o : options) : option (res config) :=
  match dict_get (o_mode o) video_modes, dict_get (o_palette o) palettes with
  | Some k, Some p => Some (
      let! t := load_table fs k p in
      Ok {| c_mode := k; c_every_n := o_every_n o; c_max_bytes := max_bytes (o_mb_num o) (o_mb_den o);
            c_clock := clock; c_table := t; c_draws := draws; c_start := start |})
  | _, _ => None
  end.

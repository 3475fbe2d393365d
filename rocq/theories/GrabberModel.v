(** Model of FileFrameGrabber (transcoder/frame_grabber.py 27-147) and of the
    output file name (transcoder/main.py 61-65). *)
From Verif Require Import Base ScreenModel BitmapModel OpcodeModel SymbolModel.

(** ** Threads *)
(** What the decoder returns: the bytes of the main file, and of the aux file for
    DHGR (frame_grabber.py 88 and 115). *)
Definition decoded : Type := list Z * option (list Z).
(** A queue entry (125, 127): a decoded frame, or [(None, None)]. *)
Definition entry := option decoded.

(** numpy array argument *)
Definition as_array (data : list Z) : list Z * flat := ([Z.of_nat (length data)], fun i => nth (Z.to_nat i) data 0).
(** 137-138 and 142-143 *)
Definition load (data : list Z) : res memory_map := let! f := flat_memory_new 1 (Some (as_array data)) in to_memory_map f.
(** 137-144: what is yielded for a decoded frame *)
Definition load_frame (d : decoded) : res (memory_map * option memory_map) :=
  let! main_map := load (fst d) in
  match snd d with
  | None => Ok (main_map, None)
  | Some aux => let! aux_map := load aux in Ok (main_map, Some aux_map)
  end.

(** The background thread (117-127): waiting for the next decoded frame, blocked
    in [q.put], returned, or dead because of an exception. *)
Inductive worker := Decoding | Putting (e : entry) | Returned | Died (e : exn).
(** The generator (132-147): blocked in [q.get], suspended in [yield], in
    [t.join()], finished, or raised. *)
Inductive consumer := Getting | Yielding | Joining | Finished | Failed (e : exn).
Record threads := {
  t_source : list (res decoded); (* outcomes of [decode] still to come, in order; a
     failing [nextFrame] also counts as a failing outcome *)
  t_worker : worker;
  t_queue : list entry;
  t_consumer : consumer;
  t_yielded : list (memory_map * option memory_map)
}.
(** 66: [queue.Queue(maxsize=10)] *)
Definition maxsize : nat := 10.

(** 129-130, 132: the thread has been started *)
Definition threads_init (source : list (res decoded)) : threads :=
  {| t_source := source; t_worker := Decoding; t_queue := []; t_consumer := Getting; t_yielded := [] |}.

(** One atomic step of either thread.  [queue.Queue] operations are atomic. *)
Inductive thread_step : threads -> threads -> Prop :=
(* 124-125: decode *)
| w_decode d src q c y :
    thread_step {| t_source := Ok d :: src; t_worker := Decoding; t_queue := q; t_consumer := c; t_yielded := y |}
                {| t_source := src; t_worker := Putting (Some d); t_queue := q; t_consumer := c; t_yielded := y |}
(* an exception ends the thread *)
| w_raise e src q c y :
    thread_step {| t_source := Raise e :: src; t_worker := Decoding; t_queue := q; t_consumer := c; t_yielded := y |}
                {| t_source := src; t_worker := Died e; t_queue := q; t_consumer := c; t_yielded := y |}
(* 127 *)
| w_end q c y :
    thread_step {| t_source := []; t_worker := Decoding; t_queue := q; t_consumer := c; t_yielded := y |}
                {| t_source := []; t_worker := Putting None; t_queue := q; t_consumer := c; t_yielded := y |}
(* [q.put] blocks while the queue is full *)
| w_put src e q c y : (length q < maxsize)%nat ->
    thread_step {| t_source := src; t_worker := Putting e; t_queue := q; t_consumer := c; t_yielded := y |}
                {| t_source := src; t_worker := match e with Some _ => Decoding | None => Returned end;
                   t_queue := q ++ [e]; t_consumer := c; t_yielded := y |}
(* 133-135 *)
| c_get_end src w q y :
    thread_step {| t_source := src; t_worker := w; t_queue := None :: q; t_consumer := Getting; t_yielded := y |}
                {| t_source := src; t_worker := w; t_queue := q; t_consumer := Joining; t_yielded := y |}
(* 133, 137-144 *)
| c_get src w d q y m : load_frame d = Ok m ->
    thread_step {| t_source := src; t_worker := w; t_queue := Some d :: q; t_consumer := Getting; t_yielded := y |}
                {| t_source := src; t_worker := w; t_queue := q; t_consumer := Yielding; t_yielded := y ++ [m] |}
| c_get_raise src w d q y e : load_frame d = Raise e ->
    thread_step {| t_source := src; t_worker := w; t_queue := Some d :: q; t_consumer := Getting; t_yielded := y |}
                {| t_source := src; t_worker := w; t_queue := q; t_consumer := Failed e; t_yielded := y |}
(* 144-145, 132: asked for the next frame *)
| c_next src w q y :
    thread_step {| t_source := src; t_worker := w; t_queue := q; t_consumer := Yielding; t_yielded := y |}
                {| t_source := src; t_worker := w; t_queue := q; t_consumer := Getting; t_yielded := y |}
(* 147: [t.join()] returns when the thread has ended, in whatever way *)
| c_join src w q y : (match w with Returned | Died _ => True | _ => False end) ->
    thread_step {| t_source := src; t_worker := w; t_queue := q; t_consumer := Joining; t_yielded := y |}
                {| t_source := src; t_worker := w; t_queue := q; t_consumer := Finished; t_yielded := y |}.

(** ** Frame cache *)
(** Files of one frame: the main output (.BIN), the aux output (.AUX) and the
    temporary image (.bmp). *)
Inductive file := MainFile | AuxFile | BmpFile.
Definition file_eqb (a b : file) : bool := match a, b with MainFile, MainFile | AuxFile, AuxFile | BmpFile, BmpFile => true | _, _ => false end.
Definition disk := file -> option (list Z).
Definition disk_set (d : disk) (f : file) (c : option (list Z)) : disk := fun f' => if file_eqb f' f then c else d f'.

(** The system calls of a conversion, as far as they change the disk. *)
Inductive disk_op := Create (f : file) | Append (f : file) (chunk : list Z) | Remove (f : file).
Definition disk_do (d : disk) (op : disk_op) : disk :=
  match op with
  | Create f => disk_set d f (Some [])
  | Append f chunk => disk_set d f (Some (match d f with Some c => c | None => [] end ++ chunk))
  | Remove f => disk_set d f None
  end.
Definition disk_run (d : disk) (ops : list disk_op) : disk := fold_left disk_do ops d.

(** writing a file in pieces *)
Definition write_ops (f : file) (chunks : list (list Z)) : list disk_op := Create f :: map (Append f) chunks.
(** A frame and what bmp2dhr makes of it: the pieces in which the files are
    written ([None] for the aux file in HGR mode), and which comes first. *)
Record job := { j_bmp : list (list Z); j_main : list (list Z); j_aux : option (list (list Z)); j_aux_first : bool }.
Definition j_result (j : job) : decoded := (concat (j_main j), option_map (@concat Z) (j_aux j)).
(** 75-84 and 100-110: save the image, run bmp2dhr, remove the image *)
Definition convert_ops (j : job) : list disk_op :=
  write_ops BmpFile (j_bmp j) ++
  (let main := write_ops MainFile (j_main j) in
   let aux := match j_aux j with Some chunks => write_ops AuxFile chunks | None => [] end in
   if j_aux_first j then aux ++ main else main ++ aux) ++
  [Remove BmpFile].
(** 72-74 and 96-99: is the frame in the cache? *)
Definition cached (j : job) (d : disk) : bool :=
  match d MainFile, j_aux j with
  | None, _ => false
  | Some _, None => true
  | Some _, Some _ => match d AuxFile with Some _ => true | None => false end
  end.
(** 86-88 and 112-115: read the files; FileNotFoundError is modelled as KeyError *)
Definition read_back (j : job) (d : disk) : res decoded :=
  match d MainFile, j_aux j with
  | None, _ => Raise KeyError
  | Some m, None => Ok (m, None)
  | Some m, Some _ => match d AuxFile with Some a => Ok (m, Some a) | None => Raise KeyError end
  end.
(** the disk operations of [_hgr_decode] (68-88) / [_dhgr_decode] (90-115) *)
Definition decode_ops (j : job) (d : disk) : list disk_op := if cached j d then [] else convert_ops j.
Definition decode (j : job) (d : disk) : res decoded := read_back j (disk_run d (decode_ops j d)).
(** a run that is killed after [n] disk operations *)
Definition crashed (j : job) (d : disk) (n : nat) : disk := disk_run d (firstn n (decode_ops j d)).
Definition no_files : disk := fun _ => None.

(** ** Names *)
Fixpoint join_text (sep : text) (l : list text) : text :=
  match l with [] => [] | [x] => x | x :: l' => x ++ sep ++ join_text sep l' end.
(** palette.py 21-23 *)
Inductive palette_id := UNKNOWN | IIGS | NTSC.
Definition palette_name (p : palette_id) : text := match p with UNKNOWN => str "UNKNOWN" | IIGS => str "IIGS" | NTSC => str "NTSC" end.
Definition mode_name (m : kind) : text := match m with HGR => str "HGR" | DHGR => str "DHGR" end.
(** 46-51: [_output_dir]; 46 is the code of "." and 47 of "/" *)
Definition output_dir (filename : text) (mode : kind) (p : palette_id) : text :=
  join_text (str ".") (removelast (split_on 46 filename)) ++ str "/" ++ mode_name mode ++ str "/" ++ palette_name p.
(** main.py 65 *)
Definition out_filename (filename : text) : text :=
  join_text (str ".") (removelast (split_on 46 filename) ++ [str "a2m"]).

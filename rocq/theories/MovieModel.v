(** Model of transcoder/movie.py: multiplexing audio and video. *)
From Verif Require Import Base ScreenModel BitmapModel VideoModel OpcodeModel.

(** A frame as the frame grabber yields it: main and aux memory (aux is not
    used in HGR mode, where the code has None). *)
Definition frame := (memory_map * memory_map)%type.

(** Everything fixed for one conversion.  [clock ticks frame_number] is the
    comparison [ticks >= self.ticks_per_frame * self.frame_number] of
    video.py 67; [max_bytes] is 0 for None/0 (no limit): [stream_pos] is an
    integer, so a fractional limit acts like the next integer. [draws i] are
    the random numbers used for the i-th tick. *)
Record config := {
  c_mode : kind;
  c_every_n : Z;
  c_max_bytes : Z;
  c_clock : Z -> Z -> bool;
  c_table : table;
  c_draws : Z -> Z -> Z;
  c_start : cmd -> Z
}.

(** movie.py 44-54 and video.py 34: the object's variables. *)
Record movie := {
  m_pos : Z;        (* stream_pos *)
  m_ticks : Z;      (* ticks *)
  m_aux : bool;     (* aux_memory_bank *)
  m_frame_number : Z;  (* video.frame_number *)
  m_video : video
}.

(** Local variables and program point of the generator [encode]. *)
Inductive point := AtStart | AfterHeader | InLoop | AtEnd.
Record enc := {
  e_at : point;
  e_last : bool;                (* last_memory_bank *)
  e_target : option bitmap;     (* target_pixelmap, None = unbound *)
  e_op_seq : option gen;        (* op_seq *)
  e_audio : list Z;             (* samples not yet drawn *)
  e_frames : list frame         (* frames not yet drawn *)
}.

(** movie.py 81-91 *)
Definition frame_bitmap (mode : kind) (f : frame) : bitmap :=
  match mode with
  | DHGR => dhgr_new (fst f) (snd f)
  | HGR => hgr_new (fst f)
  end.

(** movie.py 70-96: a new video frame is due; returns None on [break]. *)
Definition new_frame (c : config) (m : movie) (e : enc) : res (option (movie * enc)) :=
  match e_frames e with
  | [] => Ok None
  | f :: frames =>
      let e1 := {| e_at := InLoop; e_last := e_last e; e_target := e_target e; e_op_seq := e_op_seq e;
                   e_audio := e_audio e; e_frames := frames |} in
      if c_every_n c =? 0 then Raise ZeroDivisionError
      else if (m_frame_number m - 1) mod c_every_n c =? 0 then
        let t := frame_bitmap (c_mode c) f in
        Ok (Some ({| m_pos := m_pos m; m_ticks := m_ticks m; m_aux := m_aux m;
                     m_frame_number := m_frame_number m; m_video := reset_oow (m_video m) |},
                  {| e_at := InLoop; e_last := e_last e; e_target := Some t; e_op_seq := Some (GStart t (m_aux m));
                     e_audio := e_audio e; e_frames := frames |}))
      else Ok (Some (m, e1))
  end.

(** movie.py 98-102: the memory bank was flipped since the last tick. *)
Definition follow_bank (m : movie) (e : enc) : res enc :=
  if Bool.eqb (m_aux m) (e_last e) then Ok e
  else match e_target e with
       | None => Raise NameError
       | Some t => Ok {| e_at := e_at e; e_last := m_aux m; e_target := e_target e;
                         e_op_seq := Some (GStart t (m_aux m)); e_audio := e_audio e; e_frames := e_frames e |}
       end.

(** movie.py 68-111: one iteration for audio sample [au]; [e] has the sample
    already removed. *)
Definition tick_body (c : config) (m : movie) (e : enc) (au : Z) : res (option opcode * movie * enc) :=
  let ticks := m_ticks m + 1 in
  let due := c_clock c ticks (m_frame_number m) in
  let m1 := {| m_pos := m_pos m; m_ticks := ticks; m_aux := m_aux m;
               m_frame_number := if due then m_frame_number m + 1 else m_frame_number m;
               m_video := m_video m |} in
  let! r := (if due then new_frame c m1 e else Ok (Some (m1, e))) in
  match r with
  | None => Ok (None, m1, {| e_at := AtEnd; e_last := e_last e; e_target := e_target e; e_op_seq := e_op_seq e;
                             e_audio := e_audio e; e_frames := e_frames e |})
  | Some (m2, e2) =>
      let! e3 := follow_bank m2 e2 in
      let tick := au * 2 + 34 in
      match e_op_seq e3 with
      | None => Raise TypeError
      | Some g =>
          let! (change, v', g') := next (c_table c) (c_draws c ticks) (m_video m2) g in
          let '(page, content, offsets) := change in
          let! op := tick_opcode tick page content offsets in
          Ok (Some op,
              {| m_pos := m_pos m2; m_ticks := m_ticks m2; m_aux := m_aux m2;
                 m_frame_number := m_frame_number m2; m_video := v' |},
              {| e_at := InLoop; e_last := e_last e3; e_target := e_target e3; e_op_seq := Some g';
                 e_audio := e_audio e3; e_frames := e_frames e3 |})
      end
  end.

(** movie.py 56-111: one [next()] of the generator [encode]; None = exhausted. *)
Definition encode_next (c : config) (m : movie) (e : enc) : res (option opcode * movie * enc) :=
  match e_at e with
  | AtStart =>
      Ok (Some (Header (c_mode c)), m,
          {| e_at := AfterHeader; e_last := e_last e; e_target := e_target e; e_op_seq := e_op_seq e;
             e_audio := e_audio e; e_frames := e_frames e |})
  | AfterHeader | InLoop =>
      let last := match e_at e with AfterHeader => m_aux m | _ => e_last e end in
      match e_audio e with
      | [] => Ok (None, m, {| e_at := AtEnd; e_last := last; e_target := e_target e; e_op_seq := e_op_seq e;
                              e_audio := []; e_frames := e_frames e |})
      | au :: audio =>
          tick_body c m {| e_at := InLoop; e_last := last; e_target := e_target e; e_op_seq := e_op_seq e;
                           e_audio := audio; e_frames := e_frames e |} au
      end
  | AtEnd => Ok (None, m, e)
  end.

(** The state of a conversion: bytes written so far, object, generator. *)
Record stream := { s_out : list Z; s_movie : movie; s_enc : enc }.

(** movie.py 113-120: [_emit_bytes]; the position advances by one per byte. *)
Definition advance (m : movie) (n : Z) : movie :=
  {| m_pos := m_pos m + n; m_ticks := m_ticks m; m_aux := m_aux m;
     m_frame_number := m_frame_number m; m_video := m_video m |}.
Definition emit_bytes (c : config) (s : stream) (op : opcode) : stream :=
  let bytes := machine_emit (c_start c) op in
  {| s_out := s_out s ++ bytes; s_movie := advance (s_movie s) (Z.of_nat (length bytes)); s_enc := s_enc s |}.

(** movie.py 152-161: [done]. *)
Definition done (c : config) (s : stream) : list Z :=
  let s1 := emit_bytes c s Terminate in
  s_out s1 ++ repeat 0 (Z.to_nat (2048 - m_pos (s_movie s1) mod 2048)).

(** movie.py 143-145: flip the bank in DHGR mode. *)
Definition flip_bank (c : config) (m : movie) : movie :=
  match c_mode c with
  | DHGR => {| m_pos := m_pos m; m_ticks := m_ticks m; m_aux := negb (m_aux m);
               m_frame_number := m_frame_number m; m_video := m_video m |}
  | HGR => m
  end.

(** What one iteration of the loop of [emit_stream] does: go on (with the
    opcodes it compiled), or finish with the complete output. *)
Inductive outcome := More (ops : list opcode) (s : stream) | Finished (bytes : list Z).

(** movie.py 131-150: one iteration, drawing one opcode from [encode]. *)
Definition emit_step (c : config) (s : stream) : res outcome :=
  let! (oop, m1, e1) := encode_next c (s_movie s) (s_enc s) in
  let s1 := {| s_out := s_out s; s_movie := m1; s_enc := e1 |} in
  match oop with
  | None => Ok (Finished (done c s1))
  | Some op =>
      if negb (c_max_bytes c =? 0) && (c_max_bytes c <=? m_pos m1) then Ok (Finished (done c s1))
      else
        let s2 := emit_bytes c s1 op in
        if 2044 <=? m_pos (s_movie s2) mod 2048 then
          let m3 := flip_bank c (s_movie s2) in
          let ack := Ack (m_aux m3) in
          let s3 := emit_bytes c {| s_out := s_out s2; s_movie := m3; s_enc := s_enc s2 |} ack in
          assert_ (m_pos (s_movie s3) mod 2048 =? 0) (Ok (More [op; ack] s3))
        else Ok (More [op] s2)
  end.

(** movie.py 122-150: [emit_stream(self.encode())], run to the end. *)
Fixpoint emit_stream (fuel : nat) (c : config) (s : stream) : res (list Z) :=
  match fuel with
  | O => Raise OutOfFuel
  | S f => let! o := emit_step c s in
           match o with More _ s' => emit_stream f c s' | Finished bytes => Ok bytes end
  end.

(** movie.py 16-54, 62: a new Movie and its generator. *)
Definition movie_new (c : config) (audio : list Z) (frames : list frame) : stream :=
  {| s_out := [];
     s_movie := {| m_pos := 0; m_ticks := 0; m_aux := false; m_frame_number := 0; m_video := video_new (c_mode c) |};
     s_enc := {| e_at := AtStart; e_last := false; e_target := None; e_op_seq := None;
                 e_audio := audio; e_frames := frames |} |}.
(** main.py 67-69: the bytes written to the output file; the generator makes at
    most one iteration per sample, one for the header and one at the end. *)
Definition transcode (c : config) (audio : list Z) (frames : list frame) : res (list Z) :=
  emit_stream (length audio + 3) c (movie_new c audio frames).

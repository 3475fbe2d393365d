(** ** written by hand *)
(** screen_test.py: TestDHGRBitmap.test_mask_and_shift_data *)
Example mask_and_shift_data : forallb (fun o =>
    match mask_and_shift_data DHGR (nth (Z.to_nat o) (BYTE_MASKS DHGR) 0) o, mask_and_shift_data DHGR (Z.land (u64_not (nth (Z.to_nat o) (BYTE_MASKS DHGR) 0)) (2 ^ 34 - 1)) o with
    | Ok a, Ok b => (a =? 2 ^ 13 - 1) && (b =? 0)
    | _, _ => false
    end) (zrange 3) = true.
Proof. vm_compute. reflexivity. Qed.
(** screen_test.py: TestDHGRBitmap.test_fix_array_neighbours (the array is 32 x 128, all rows alike) *)
Definition after (o : Z) (row : Z -> Z) (v : Z) : Z -> Z := fix_array_neighbours DHGR (fun c => masked_update DHGR o (row c) v) o.
Definition all_are (row : Z -> Z) (w : Z) : bool := forallb (fun c => row c =? w) (zrange 128).
Example fix_array_neighbours_1 : all_are (after 0 (fun _ => 0) 0x7f) 15032386552 = true.
Proof. vm_compute. reflexivity. Qed.
Example fix_array_neighbours_2 : all_are (after 1 (fun _ => 15032386552) 0x55) 15032473592 = true.
Proof. vm_compute. reflexivity. Qed.
Example fix_array_neighbours_3 : all_are (after 3 (fun _ => 15032473592) 0x36) 15938443259 = true.
Proof. vm_compute. reflexivity. Qed.

(** make_data_tables_test.py: test_pixel_string is out of date: it passes enum
    members where the code takes integers (TypeError), and the string it expects,
    "0FC", has ORANGE as DHGRColours has it, not HGRColours.  (test_edit_distances_*:
    C15, C16.) *)
Example pixel_string_test : pixel_string (map dhgr_value [BLACK; WHITE; ORANGE]) = Ok (str "0FC") /\ pixel_string (map hgr_value [BLACK; WHITE; ORANGE]) = Ok (str "0F9").
Proof. vm_compute. auto. Qed.

(** video_test.py: test_diff_weights, for every table *)
Section Diff.
  Variable ed : table.
  Definition frame1 : bitmap := dhgr_new (memory []) (memory [(0, 0, 127); (0, 1, 85)]).
  Definition frame2 : bitmap := dhgr_new (memory []) (memory [(0, 0, 109); (0, 1, 54)]).
  Example diff_weights_packed : bm_packed frame1 0 0 = 11142136 /\ bm_packed frame2 0 0 = 7078760.
  Proof. vm_compute. auto. Qed.
  Example diff_weights_1 : exists d, diff_weights ed frame1 (dhgr_new (memory []) (memory [])) true = Ok d /\ d 0 0 = ed 0 1016 /\ d 0 1 = ed 2 680.
  Proof. eexists. split; [reflexivity|]. split; vm_compute; reflexivity. Qed.
  Example diff_weights_2 : exists d, diff_weights ed frame2 frame1 true = Ok d /\ d 0 0 = ed 0 8323944 /\ d 0 1 = ed 2 5570992.
  Proof. eexists. split; [reflexivity|]. split; vm_compute; reflexivity. Qed.
End Diff.

(** opcodes_test.py: test_equality *)
Definition t4 (content : Z) (o : list Z) := tick_opcode 4 32 content o.
Definition equal (a b : res opcode) : res bool := let! x := a in let! y := b in Ok (opcode_eq x y).
Example opcodes_test : equal (Ok Terminate) (Ok Terminate) = Ok true /\ equal (Ok Nop) (Ok Nop) = Ok true /\ equal (Ok (Ack false)) (Ok (Ack false)) = Ok true /\
  equal (Ok (Ack false)) (Ok Nop) = Ok false /\ equal (t4 0xff [1; 2; 3; 4]) (t4 0xff [1; 2; 3; 4]) = Ok true /\
  equal (t4 0xff [1; 2; 3; 4]) (tick_opcode 6 32 0xff [1; 2; 3; 4]) = Ok false /\
  equal (t4 0xff [1; 2; 3; 4]) (t4 0xfe [1; 2; 3; 4]) = Ok false /\ equal (t4 0xff [1; 2; 3; 4]) (t4 0xff [1; 2; 3; 5]) = Ok false.
Proof. vm_compute. repeat split. Qed.

(** symbol_table_test.py: test_parse *)
Definition debug_file : text := join_text [10] [[];
  str "version major=2,minor=0";
  str "info    csym=0,file=594,lib=1,line=420,mod=2,scope=2,seg=7,span=255,sym=151,type=5";
  str "file    id=0,name=""main.s"",size=10297,mtime=0x5C766D92,mod=0";
  str "file    id=1,name=""/usr/local/share/cc65/asminc/apple2.inc"",size=2348,mtime=0x5AA06221,mod=0";
  str "file    id=2,name=""apple2/exehdr.s"",size=1848,mtime=0x5AA06221,mod=1";
  str "lib     id=0,name=""/usr/local/share/cc65/lib/apple2enh.lib""";
  str "line    id=0,file=1,line=60";
  str "[...]";
  str "sym     id=8,name=""op_ack"",addrsize=absolute,scope=1,def=195,val=0x81FA,type=lab";
  str "sym     id=10,name=""op_tick"",addrsize=absolute,scope=1,def=6,val=0x81EE,type=lab";
  str "sym     id=12,name=""rle1"",addrsize=absolute,scope=1,def=135,ref=373,val=0x81D6,type=lab";
  str "[...]"; []].
Example symbol_table_test : (let! d := parse debug_file in Ok (map fst d)) = Ok [str """op_ack"""; str """op_tick"""; str """rle1"""].
Proof. vm_compute. reflexivity. Qed.

(** frame_grabber_test.py: test_output_dir *)
Example output_dir_1 : output_dir (str "/foo/bar.mp4") DHGR NTSC = str "/foo/bar/DHGR/NTSC".
Proof. vm_compute. reflexivity. Qed.
Example output_dir_2 : output_dir (str "/foo/bar.blee.mp4") HGR IIGS = str "/foo/bar.blee/HGR/IIGS".
Proof. vm_compute. reflexivity. Qed.
Example output_dir_3 : output_dir (str "/foo/bar blee.mp4") DHGR IIGS = str "/foo/bar blee/DHGR/IIGS".
Proof. vm_compute. reflexivity. Qed.

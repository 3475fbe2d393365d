(** The repository's unit tests (transcoder/*_test.py), as examples about the
    model: a check that the model computes what the code's authors expect of the
    code.  Generated by tools/gen_tests.py from the text of the tests; the last
    part is written by hand. *)
From Verif Require Import Base ScreenModel ScreenSpec BitmapModel ColourModel TableModel OpcodeModel SymbolModel GrabberModel.

(** [screen.MemoryMap(screen_page=1)] with some bytes set *)
Definition memory (l : list (Z * Z * Z)) : memory_map :=
  {| mm_page := 1; mm_data := fold_left (fun m x => upd2 m (fst (fst x)) (snd (fst x)) (snd x)) l (fun _ _ => 0) |}.
Definition packed_at (b : res bitmap) (p o : Z) : res Z := let! b' := b in Ok (bm_packed b' p o).
(** [np.count_nonzero(dhgr.packed)] *)
Definition count_packed (b : res bitmap) : res Z :=
  let! b' := b in Ok (Z.of_nat (length (filter (fun po => negb (bm_packed b' (fst po) (snd po) =? 0)) (list_prod (zrange 32) (zrange 128))))).

(** ** transcoder/colours_test.py *)
(** colours_test.py 10-87: TestColours.test_dots_to_pixels *)
Example TestColours_test_dots_to_pixels_1 : (let! x := (Ok 3584) in dots_to_nominal_colour_pixels 31 x hgr_value 0) = (Ok [BLACK; BLACK; BLACK; BLACK; BLACK; BLACK; DARK_BLUE; MED_BLUE; AQUA; AQUA; GREEN; BROWN; BLACK; BLACK; BLACK; BLACK; BLACK; BLACK; BLACK; BLACK; BLACK; BLACK; BLACK; BLACK; BLACK; BLACK; BLACK; BLACK; BLACK; BLACK; BLACK]).
Proof. vm_compute. reflexivity. Qed.
Example TestColours_test_dots_to_pixels_2 : (let! x := (Ok 15790320) in dots_to_nominal_colour_pixels 31 x hgr_value 0) = (Ok [BLACK; MAGENTA; VIOLET; LIGHT_BLUE; WHITE; AQUA; GREEN; BROWN; BLACK; MAGENTA; VIOLET; LIGHT_BLUE; WHITE; AQUA; GREEN; BROWN; BLACK; MAGENTA; VIOLET; LIGHT_BLUE; WHITE; AQUA; GREEN; BROWN; BLACK; BLACK; BLACK; BLACK; BLACK; BLACK; BLACK]).
Proof. vm_compute. reflexivity. Qed.
(** colours_test.py 91-94: TestRolRoR.testRolOne *)
Example TestRolRoR_testRolOne_1 : (Ok (rol 15 1)) = (Ok 15).
Proof. vm_compute. reflexivity. Qed.
Example TestRolRoR_testRolOne_2 : (Ok (rol 8 1)) = (Ok 1).
Proof. vm_compute. reflexivity. Qed.
Example TestRolRoR_testRolOne_3 : (Ok (rol 5 1)) = (Ok 10).
Proof. vm_compute. reflexivity. Qed.
(** colours_test.py 96-99: TestRolRoR.testRolMany *)
Example TestRolRoR_testRolMany_1 : (Ok (rol 15 3)) = (Ok 15).
Proof. vm_compute. reflexivity. Qed.
Example TestRolRoR_testRolMany_2 : (Ok (rol 8 2)) = (Ok 2).
Proof. vm_compute. reflexivity. Qed.
Example TestRolRoR_testRolMany_3 : (Ok (rol 5 2)) = (Ok 5).
Proof. vm_compute. reflexivity. Qed.
(** colours_test.py 101-104: TestRolRoR.testRorOne *)
Example TestRolRoR_testRorOne_1 : (Ok (ror 15 1)) = (Ok 15).
Proof. vm_compute. reflexivity. Qed.
Example TestRolRoR_testRorOne_2 : (Ok (ror 1 1)) = (Ok 8).
Proof. vm_compute. reflexivity. Qed.
Example TestRolRoR_testRorOne_3 : (Ok (ror 10 1)) = (Ok 5).
Proof. vm_compute. reflexivity. Qed.
(** colours_test.py 106-109: TestRolRoR.testRoRMany *)
Example TestRolRoR_testRoRMany_1 : (Ok (ror 15 3)) = (Ok 15).
Proof. vm_compute. reflexivity. Qed.
Example TestRolRoR_testRoRMany_2 : (Ok (ror 2 2)) = (Ok 8).
Proof. vm_compute. reflexivity. Qed.
Example TestRolRoR_testRoRMany_3 : (Ok (ror 5 2)) = (Ok 5).
Proof. vm_compute. reflexivity. Qed.
(** ** transcoder/screen_test.py *)
(** screen_test.py 21-28: TestDHGRBitmap.test_make_header *)
Example TestDHGRBitmap_test_make_header_1 : (Ok (make_header DHGR 1139478440)) = (Ok 4).
Proof. vm_compute. reflexivity. Qed.
(** screen_test.py 30-37: TestDHGRBitmap.test_make_footer *)
Example TestDHGRBitmap_test_make_footer_1 : (Ok (make_footer DHGR 1139478440)) = (Ok 10737418240).
Proof. vm_compute. reflexivity. Qed.
(** screen_test.py 39-67: TestDHGRBitmap.test_pixel_packing_offset_0 *)
Example TestDHGRBitmap_test_pixel_packing_offset_0_1 : (packed_at (Ok (dhgr_new (memory [(0, 0, 67); (0, 1, 67)]) (memory [(0, 0, 245); (0, 1, 245)]))) 0 0) = (Ok 1139478440).
Proof. vm_compute. reflexivity. Qed.
Example TestDHGRBitmap_test_pixel_packing_offset_0_2 : (packed_at (Ok (dhgr_new (memory [(0, 0, 67); (0, 1, 67)]) (memory [(0, 0, 245); (0, 1, 245)]))) 0 1) = (Ok 4).
Proof. vm_compute. reflexivity. Qed.
Example TestDHGRBitmap_test_pixel_packing_offset_0_3 : (count_packed (Ok (dhgr_new (memory [(0, 0, 67); (0, 1, 67)]) (memory [(0, 0, 245); (0, 1, 245)])))) = (Ok 2).
Proof. vm_compute. reflexivity. Qed.
(** screen_test.py 69-102: TestDHGRBitmap.test_pixel_packing_offset_1 *)
Example TestDHGRBitmap_test_pixel_packing_offset_1_1 : (packed_at (Ok (dhgr_new (memory [(0, 2, 67); (0, 3, 67)]) (memory [(0, 2, 245); (0, 3, 245)]))) 0 1) = (Ok 1139478440).
Proof. vm_compute. reflexivity. Qed.
Example TestDHGRBitmap_test_pixel_packing_offset_1_2 : (packed_at (Ok (dhgr_new (memory [(0, 2, 67); (0, 3, 67)]) (memory [(0, 2, 245); (0, 3, 245)]))) 0 0) = (Ok 10737418240).
Proof. vm_compute. reflexivity. Qed.
Example TestDHGRBitmap_test_pixel_packing_offset_1_3 : (packed_at (Ok (dhgr_new (memory [(0, 2, 67); (0, 3, 67)]) (memory [(0, 2, 245); (0, 3, 245)]))) 0 2) = (Ok 4).
Proof. vm_compute. reflexivity. Qed.
Example TestDHGRBitmap_test_pixel_packing_offset_1_4 : (count_packed (Ok (dhgr_new (memory [(0, 2, 67); (0, 3, 67)]) (memory [(0, 2, 245); (0, 3, 245)])))) = (Ok 3).
Proof. vm_compute. reflexivity. Qed.
(** screen_test.py 104-132: TestDHGRBitmap.test_pixel_packing_offset_127 *)
Example TestDHGRBitmap_test_pixel_packing_offset_127_1 : (packed_at (Ok (dhgr_new (memory [(0, 254, 67); (0, 255, 67)]) (memory [(0, 254, 245); (0, 255, 245)]))) 0 127) = (Ok 1139478440).
Proof. vm_compute. reflexivity. Qed.
Example TestDHGRBitmap_test_pixel_packing_offset_127_2 : (packed_at (Ok (dhgr_new (memory [(0, 254, 67); (0, 255, 67)]) (memory [(0, 254, 245); (0, 255, 245)]))) 0 126) = (Ok 10737418240).
Proof. vm_compute. reflexivity. Qed.
Example TestDHGRBitmap_test_pixel_packing_offset_127_3 : (count_packed (Ok (dhgr_new (memory [(0, 254, 67); (0, 255, 67)]) (memory [(0, 254, 245); (0, 255, 245)])))) = (Ok 2).
Proof. vm_compute. reflexivity. Qed.
(** screen_test.py 134-140: TestDHGRBitmap.test_byte_offset *)
Example TestDHGRBitmap_test_byte_offset_1 : (byte_offset DHGR 0 true) = (Ok 0).
Proof. vm_compute. reflexivity. Qed.
Example TestDHGRBitmap_test_byte_offset_2 : (byte_offset DHGR 0 false) = (Ok 1).
Proof. vm_compute. reflexivity. Qed.
Example TestDHGRBitmap_test_byte_offset_3 : (byte_offset DHGR 1 true) = (Ok 2).
Proof. vm_compute. reflexivity. Qed.
Example TestDHGRBitmap_test_byte_offset_4 : (byte_offset DHGR 1 false) = (Ok 3).
Proof. vm_compute. reflexivity. Qed.
(** screen_test.py 142-146: TestDHGRBitmap.test_byte_offsets *)
Example TestDHGRBitmap_test_byte_offsets_1 : (byte_offsets DHGR true) = (Ok (0, 2)).
Proof. vm_compute. reflexivity. Qed.
Example TestDHGRBitmap_test_byte_offsets_2 : (byte_offsets DHGR false) = (Ok (1, 3)).
Proof. vm_compute. reflexivity. Qed.
(** screen_test.py 174-226: TestDHGRBitmap.test_masked_update *)
Example TestDHGRBitmap_test_masked_update_1 : (Ok (masked_update DHGR 0 0 255)) = (Ok 1016).
Proof. vm_compute. reflexivity. Qed.
Example TestDHGRBitmap_test_masked_update_2 : (Ok (masked_update DHGR 1 0 255)) = (Ok 130048).
Proof. vm_compute. reflexivity. Qed.
Example TestDHGRBitmap_test_masked_update_3 : (Ok (masked_update DHGR 2 0 255)) = (Ok 16646144).
Proof. vm_compute. reflexivity. Qed.
Example TestDHGRBitmap_test_masked_update_4 : (Ok (masked_update DHGR 3 0 255)) = (Ok 2130706432).
Proof. vm_compute. reflexivity. Qed.
Example TestDHGRBitmap_test_masked_update_5 : (Ok (masked_update DHGR 0 17179869183 0)) = (Ok 17179868167).
Proof. vm_compute. reflexivity. Qed.
Example TestDHGRBitmap_test_masked_update_6 : (Ok (masked_update DHGR 1 17179869183 0)) = (Ok 17179739135).
Proof. vm_compute. reflexivity. Qed.
Example TestDHGRBitmap_test_masked_update_7 : (Ok (masked_update DHGR 2 17179869183 0)) = (Ok 17163223039).
Proof. vm_compute. reflexivity. Qed.
Example TestDHGRBitmap_test_masked_update_8 : (Ok (masked_update DHGR 3 17179869183 0)) = (Ok 15049162751).
Proof. vm_compute. reflexivity. Qed.
(** screen_test.py 228-316: TestDHGRBitmap.test_apply *)
Example TestDHGRBitmap_test_apply_1 : (packed_at (let! b := (Ok (dhgr_new (memory []) (memory []))) in apply b 0 0 true 255) 0 0) = (Ok 1016).
Proof. vm_compute. reflexivity. Qed.
Example TestDHGRBitmap_test_apply_2 : (packed_at (let! b := (let! b := (Ok (dhgr_new (memory []) (memory []))) in apply b 0 0 true 255) in apply b 12 36 true 255) 12 19) = (Ok 0).
Proof. vm_compute. reflexivity. Qed.
Example TestDHGRBitmap_test_apply_3 : (packed_at (let! b := (let! b := (Ok (dhgr_new (memory []) (memory []))) in apply b 0 0 true 255) in apply b 12 36 true 255) 12 18) = (Ok 1016).
Proof. vm_compute. reflexivity. Qed.
Example TestDHGRBitmap_test_apply_4 : (packed_at (let! b := (let! b := (Ok (dhgr_new (memory []) (memory []))) in apply b 0 0 true 255) in apply b 12 36 true 255) 12 17) = (Ok 15032385536).
Proof. vm_compute. reflexivity. Qed.
Example TestDHGRBitmap_test_apply_5 : (packed_at (let! b := (let! b := (let! b := (Ok (dhgr_new (memory []) (memory []))) in apply b 0 0 true 255) in apply b 12 36 true 255) in apply b 12 37 true 255) 12 19) = (Ok 0).
Proof. vm_compute. reflexivity. Qed.
Example TestDHGRBitmap_test_apply_6 : (packed_at (let! b := (let! b := (let! b := (Ok (dhgr_new (memory []) (memory []))) in apply b 0 0 true 255) in apply b 12 36 true 255) in apply b 12 37 true 255) 12 18) = (Ok 16647160).
Proof. vm_compute. reflexivity. Qed.
Example TestDHGRBitmap_test_apply_7 : (packed_at (let! b := (let! b := (let! b := (Ok (dhgr_new (memory []) (memory []))) in apply b 0 0 true 255) in apply b 12 36 true 255) in apply b 12 37 true 255) 12 17) = (Ok 15032385536).
Proof. vm_compute. reflexivity. Qed.
Example TestDHGRBitmap_test_apply_8 : (packed_at (let! b := (let! b := (let! b := (let! b := (Ok (dhgr_new (memory []) (memory []))) in apply b 0 0 true 255) in apply b 12 36 true 255) in apply b 12 37 true 255) in apply b 12 37 false 85) 12 19) = (Ok 5).
Proof. vm_compute. reflexivity. Qed.
Example TestDHGRBitmap_test_apply_9 : (packed_at (let! b := (let! b := (let! b := (let! b := (Ok (dhgr_new (memory []) (memory []))) in apply b 0 0 true 255) in apply b 12 36 true 255) in apply b 12 37 true 255) in apply b 12 37 false 85) 12 18) = (Ok 1442710520).
Proof. vm_compute. reflexivity. Qed.
Example TestDHGRBitmap_test_apply_10 : (packed_at (let! b := (let! b := (let! b := (let! b := (Ok (dhgr_new (memory []) (memory []))) in apply b 0 0 true 255) in apply b 12 36 true 255) in apply b 12 37 true 255) in apply b 12 37 false 85) 12 17) = (Ok 15032385536).
Proof. vm_compute. reflexivity. Qed.
Example TestDHGRBitmap_test_apply_11 : (packed_at (let! b := (let! b := (let! b := (let! b := (let! b := (Ok (dhgr_new (memory []) (memory []))) in apply b 0 0 true 255) in apply b 12 36 true 255) in apply b 12 37 true 255) in apply b 12 37 false 85) in apply b 12 36 false 13) 12 19) = (Ok 5).
Proof. vm_compute. reflexivity. Qed.
Example TestDHGRBitmap_test_apply_12 : (packed_at (let! b := (let! b := (let! b := (let! b := (let! b := (Ok (dhgr_new (memory []) (memory []))) in apply b 0 0 true 255) in apply b 12 36 true 255) in apply b 12 37 true 255) in apply b 12 37 false 85) in apply b 12 36 false 13) 12 18) = (Ok 1442723832).
Proof. vm_compute. reflexivity. Qed.
Example TestDHGRBitmap_test_apply_13 : (packed_at (let! b := (let! b := (let! b := (let! b := (let! b := (Ok (dhgr_new (memory []) (memory []))) in apply b 0 0 true 255) in apply b 12 36 true 255) in apply b 12 37 true 255) in apply b 12 37 false 85) in apply b 12 36 false 13) 12 17) = (Ok 15032385536).
Proof. vm_compute. reflexivity. Qed.
Example TestDHGRBitmap_test_apply_14 : (packed_at (let! b := (let! b := (let! b := (let! b := (let! b := (let! b := (Ok (dhgr_new (memory []) (memory []))) in apply b 0 0 true 255) in apply b 12 36 true 255) in apply b 12 37 true 255) in apply b 12 37 false 85) in apply b 12 36 false 13) in apply b 12 36 true 13) 12 19) = (Ok 5).
Proof. vm_compute. reflexivity. Qed.
Example TestDHGRBitmap_test_apply_15 : (packed_at (let! b := (let! b := (let! b := (let! b := (let! b := (let! b := (Ok (dhgr_new (memory []) (memory []))) in apply b 0 0 true 255) in apply b 12 36 true 255) in apply b 12 37 true 255) in apply b 12 37 false 85) in apply b 12 36 false 13) in apply b 12 36 true 13) 12 18) = (Ok 1442722920).
Proof. vm_compute. reflexivity. Qed.
Example TestDHGRBitmap_test_apply_16 : (packed_at (let! b := (let! b := (let! b := (let! b := (let! b := (let! b := (Ok (dhgr_new (memory []) (memory []))) in apply b 0 0 true 255) in apply b 12 36 true 255) in apply b 12 37 true 255) in apply b 12 37 false 85) in apply b 12 36 false 13) in apply b 12 36 true 13) 12 17) = (Ok 10737418240).
Proof. vm_compute. reflexivity. Qed.
Example TestDHGRBitmap_test_apply_17 : (packed_at (let! b := (let! b := (let! b := (let! b := (let! b := (let! b := (let! b := (Ok (dhgr_new (memory []) (memory []))) in apply b 0 0 true 255) in apply b 12 36 true 255) in apply b 12 37 true 255) in apply b 12 37 false 85) in apply b 12 36 false 13) in apply b 12 36 true 13) in apply b 12 35 false 85) 12 18) = (Ok 1442722925).
Proof. vm_compute. reflexivity. Qed.
Example TestDHGRBitmap_test_apply_18 : (packed_at (let! b := (let! b := (let! b := (let! b := (let! b := (let! b := (let! b := (Ok (dhgr_new (memory []) (memory []))) in apply b 0 0 true 255) in apply b 12 36 true 255) in apply b 12 37 true 255) in apply b 12 37 false 85) in apply b 12 36 false 13) in apply b 12 36 true 13) in apply b 12 35 false 85) 12 17) = (Ok 12163481600).
Proof. vm_compute. reflexivity. Qed.
(** screen_test.py 359-373: TestHGRBitmap.test_make_header *)
Example TestHGRBitmap_test_make_header_1 : (Ok (make_header HGR 395264)) = (Ok 7).
Proof. vm_compute. reflexivity. Qed.
Example TestHGRBitmap_test_make_header_2 : (Ok (make_header HGR 2048)) = (Ok 4).
Proof. vm_compute. reflexivity. Qed.
(** screen_test.py 375-389: TestHGRBitmap.test_make_footer *)
Example TestHGRBitmap_test_make_footer_1 : (Ok (make_footer HGR 1048)) = (Ok 3670016).
Proof. vm_compute. reflexivity. Qed.
Example TestHGRBitmap_test_make_footer_2 : (Ok (make_footer HGR 1024)) = (Ok 524288).
Proof. vm_compute. reflexivity. Qed.
(** screen_test.py 391-406: TestHGRBitmap.test_pixel_packing_p0_p0 *)
Example TestHGRBitmap_test_pixel_packing_p0_p0_1 : (packed_at (Ok (hgr_new (memory [(0, 0, 67); (0, 1, 67)]))) 0 0) = (Ok 274968).
Proof. vm_compute. reflexivity. Qed.
(** screen_test.py 408-423: TestHGRBitmap.test_pixel_packing_p0_p1 *)
Example TestHGRBitmap_test_pixel_packing_p0_p1_1 : (packed_at (Ok (hgr_new (memory [(0, 0, 67); (0, 1, 195)]))) 0 0) = (Ok 277016).
Proof. vm_compute. reflexivity. Qed.
(** screen_test.py 425-440: TestHGRBitmap.test_pixel_packing_p1_p0 *)
Example TestHGRBitmap_test_pixel_packing_p1_p0_1 : (packed_at (Ok (hgr_new (memory [(0, 0, 195); (0, 1, 67)]))) 0 0) = (Ok 275992).
Proof. vm_compute. reflexivity. Qed.
(** screen_test.py 442-457: TestHGRBitmap.test_pixel_packing_p1_p1 *)
Example TestHGRBitmap_test_pixel_packing_p1_p1_1 : (packed_at (Ok (hgr_new (memory [(0, 0, 195); (0, 1, 195)]))) 0 0) = (Ok 278040).
Proof. vm_compute. reflexivity. Qed.
(** screen_test.py 459-487: TestHGRBitmap.test_apply *)
Example TestHGRBitmap_test_apply_1 : (packed_at (let! b := (let! b := (Ok (hgr_new (memory []))) in apply b 0 0 false 195) in apply b 0 1 false 195) 0 0) = (Ok 278040).
Proof. vm_compute. reflexivity. Qed.
Example TestHGRBitmap_test_apply_2 : (packed_at (let! b := (let! b := (let! b := (let! b := (Ok (hgr_new (memory []))) in apply b 1 197 false 128) in apply b 1 198 false 143) in apply b 1 199 false 192) in apply b 1 200 false 128) 1 99) = (Ok 789628).
Proof. vm_compute. reflexivity. Qed.
(** screen_test.py 489-497: TestHGRBitmap.test_double_pixels *)
Example TestHGRBitmap_test_double_pixels_1 : (Ok (double_pixels 85)) = (Ok 29491).
Proof. vm_compute. reflexivity. Qed.
(** screen_test.py 499-564: TestHGRBitmap.test_to_dots_offset_0 *)
Example TestHGRBitmap_test_to_dots_offset_0_1 : (to_dots HGR 3 0) = (Ok 7).
Proof. vm_compute. reflexivity. Qed.
Example TestHGRBitmap_test_to_dots_offset_0_2 : (to_dots HGR 7 0) = (Ok 7).
Proof. vm_compute. reflexivity. Qed.
Example TestHGRBitmap_test_to_dots_offset_0_3 : (to_dots HGR 1031 0) = (Ok 15).
Proof. vm_compute. reflexivity. Qed.
Example TestHGRBitmap_test_to_dots_offset_0_4 : (to_dots HGR 1711 0) = (Ok 78655).
Proof. vm_compute. reflexivity. Qed.
Example TestHGRBitmap_test_to_dots_offset_0_5 : (to_dots HGR 3759 0) = (Ok 209727).
Proof. vm_compute. reflexivity. Qed.
Example TestHGRBitmap_test_to_dots_offset_0_6 : (to_dots HGR 11951 0) = (Ok 1258303).
Proof. vm_compute. reflexivity. Qed.
Example TestHGRBitmap_test_to_dots_offset_0_7 : (to_dots HGR 10240 0) = (Ok 1048576).
Proof. vm_compute. reflexivity. Qed.
Example TestHGRBitmap_test_to_dots_offset_0_8 : (to_dots HGR 8192 0) = (Ok 1572864).
Proof. vm_compute. reflexivity. Qed.
(** screen_test.py 566-631: TestHGRBitmap.test_to_dots_offset_1 *)
Example TestHGRBitmap_test_to_dots_offset_1_1 : (to_dots HGR 3 1) = (Ok 7).
Proof. vm_compute. reflexivity. Qed.
Example TestHGRBitmap_test_to_dots_offset_1_2 : (to_dots HGR 7 1) = (Ok 7).
Proof. vm_compute. reflexivity. Qed.
Example TestHGRBitmap_test_to_dots_offset_1_3 : (to_dots HGR 15 1) = (Ok 15).
Proof. vm_compute. reflexivity. Qed.
Example TestHGRBitmap_test_to_dots_offset_1_4 : (to_dots HGR 1375 1) = (Ok 78655).
Proof. vm_compute. reflexivity. Qed.
Example TestHGRBitmap_test_to_dots_offset_1_5 : (to_dots HGR 3423 1) = (Ok 209727).
Proof. vm_compute. reflexivity. Qed.
Example TestHGRBitmap_test_to_dots_offset_1_6 : (to_dots HGR 11615 1) = (Ok 1258303).
Proof. vm_compute. reflexivity. Qed.
Example TestHGRBitmap_test_to_dots_offset_1_7 : (to_dots HGR 10240 1) = (Ok 1048576).
Proof. vm_compute. reflexivity. Qed.
Example TestHGRBitmap_test_to_dots_offset_1_8 : (to_dots HGR 8192 1) = (Ok 1572864).
Proof. vm_compute. reflexivity. Qed.
(** screen_test.py 642-717: TestNominalColours.test_nominal_colours *)
Example TestNominalColours_test_nominal_colours_1 : (packed_at (Ok (hgr_new (memory [(0, 0, 85); (0, 1, 42); (0, 2, 85)]))) 0 0) = (Ok 1221288).
Proof. vm_compute. reflexivity. Qed.
Example TestNominalColours_test_nominal_colours_2 : (let! x := (let! x := (let! x := (packed_at (Ok (hgr_new (memory [(0, 0, 85); (0, 1, 42); (0, 2, 85)]))) 0 0) in mask_and_shift_data HGR x 0) in to_dots HGR x 0) in dots_to_nominal_colour_pixels 18 x hgr_value (nth 0 (PHASES HGR) 0)) = (Ok [MAGENTA; VIOLET; VIOLET; VIOLET; VIOLET; VIOLET; VIOLET; VIOLET; VIOLET; VIOLET; VIOLET; VIOLET; VIOLET; VIOLET; VIOLET; VIOLET; VIOLET; VIOLET]).
Proof. vm_compute. reflexivity. Qed.
Example TestNominalColours_test_nominal_colours_3 : (let! x := (let! x := (let! x := (packed_at (Ok (hgr_new (memory [(0, 0, 85); (0, 1, 42); (0, 2, 85)]))) 0 0) in mask_and_shift_data HGR x 1) in to_dots HGR x 1) in dots_to_nominal_colour_pixels 18 x hgr_value (nth 1 (PHASES HGR) 0)) = (Ok [VIOLET; VIOLET; VIOLET; VIOLET; VIOLET; VIOLET; VIOLET; VIOLET; VIOLET; VIOLET; VIOLET; VIOLET; VIOLET; VIOLET; VIOLET; VIOLET; VIOLET; VIOLET]).
Proof. vm_compute. reflexivity. Qed.
(** screen_test.py 723-762: TestNominalColours.test_nominal_colours_sather_even_1 *)
Example TestNominalColours_test_nominal_colours_sather_even_1_1 : (let! x := (let! x := (let! x := (packed_at (Ok (hgr_new (memory [(0, 0, 64); (0, 1, 128)]))) 0 0) in mask_and_shift_data HGR x 0) in to_dots HGR x 0) in dots_to_nominal_colour_pixels 18 x hgr_value (nth 0 (PHASES HGR) 0)) = (Ok [BLACK; BLACK; BLACK; BLACK; BLACK; BLACK; BLACK; BLACK; BLACK; BLACK; BLACK; BLACK; MAGENTA; VIOLET; LIGHT_BLUE; LIGHT_BLUE; MED_BLUE; DARK_GREEN]).
Proof. vm_compute. reflexivity. Qed.
(** screen_test.py 764-802: TestNominalColours.test_nominal_colours_sather_even_2 *)
Example TestNominalColours_test_nominal_colours_sather_even_2_1 : (let! x := (let! x := (let! x := (packed_at (Ok (hgr_new (memory [(0, 0, 192); (0, 1, 0)]))) 0 0) in mask_and_shift_data HGR x 0) in to_dots HGR x 0) in dots_to_nominal_colour_pixels 18 x hgr_value (nth 0 (PHASES HGR) 0)) = (Ok [BLACK; BLACK; BLACK; BLACK; BLACK; BLACK; BLACK; BLACK; BLACK; BLACK; BLACK; BLACK; BLACK; DARK_BLUE; DARK_BLUE; DARK_BLUE; DARK_BLUE; BLACK]).
Proof. vm_compute. reflexivity. Qed.
(** screen_test.py 804-842: TestNominalColours.test_nominal_colours_sather_even_3 *)
Example TestNominalColours_test_nominal_colours_sather_even_3_1 : (let! x := (let! x := (let! x := (packed_at (Ok (hgr_new (memory [(0, 0, 192); (0, 1, 1)]))) 0 0) in mask_and_shift_data HGR x 0) in to_dots HGR x 0) in dots_to_nominal_colour_pixels 18 x hgr_value (nth 0 (PHASES HGR) 0)) = (Ok [BLACK; BLACK; BLACK; BLACK; BLACK; BLACK; BLACK; BLACK; BLACK; BLACK; BLACK; BLACK; BLACK; DARK_BLUE; MED_BLUE; AQUA; AQUA; GREEN]).
Proof. vm_compute. reflexivity. Qed.
(** screen_test.py 844-882: TestNominalColours.test_nominal_colours_sather_even_4 *)
Example TestNominalColours_test_nominal_colours_sather_even_4_1 : (let! x := (let! x := (let! x := (packed_at (Ok (hgr_new (memory [(0, 0, 224); (0, 1, 0)]))) 0 0) in mask_and_shift_data HGR x 0) in to_dots HGR x 0) in dots_to_nominal_colour_pixels 18 x hgr_value (nth 0 (PHASES HGR) 0)) = (Ok [BLACK; BLACK; BLACK; BLACK; BLACK; BLACK; BLACK; BLACK; BLACK; BLACK; BLACK; BROWN; ORANGE; PINK; PINK; VIOLET; DARK_BLUE; BLACK]).
Proof. vm_compute. reflexivity. Qed.
(** screen_test.py 884-925: TestNominalColours.test_nominal_colours_sather_even_5 *)
Example TestNominalColours_test_nominal_colours_sather_even_5_1 : (let! x := (let! x := (let! x := (packed_at (Ok (hgr_new (memory [(0, 0, 160); (0, 1, 1)]))) 0 0) in mask_and_shift_data HGR x 0) in to_dots HGR x 0) in dots_to_nominal_colour_pixels 18 x hgr_value (nth 0 (PHASES HGR) 0)) = (Ok [BLACK; BLACK; BLACK; BLACK; BLACK; BLACK; BLACK; BLACK; BLACK; BLACK; BLACK; BROWN; ORANGE; ORANGE; YELLOW; YELLOW; GREEN; GREEN]).
Proof. vm_compute. reflexivity. Qed.
(** screen_test.py 927-965: TestNominalColours.test_nominal_colours_sather_odd_1 *)
Example TestNominalColours_test_nominal_colours_sather_odd_1_1 : (let! x := (let! x := (let! x := (packed_at (Ok (hgr_new (memory [(0, 1, 64); (0, 2, 128)]))) 0 0) in mask_and_shift_data HGR x 1) in to_dots HGR x 1) in dots_to_nominal_colour_pixels 18 x hgr_value (nth 1 (PHASES HGR) 0)) = (Ok [BLACK; BLACK; BLACK; BLACK; BLACK; BLACK; BLACK; BLACK; BLACK; BLACK; BLACK; BLACK; DARK_GREEN; GREEN; YELLOW; YELLOW; ORANGE; MAGENTA]).
Proof. vm_compute. reflexivity. Qed.
(** screen_test.py 967-1005: TestNominalColours.test_nominal_colours_sather_odd_2 *)
Example TestNominalColours_test_nominal_colours_sather_odd_2_1 : (let! x := (let! x := (let! x := (packed_at (Ok (hgr_new (memory [(0, 1, 192); (0, 2, 0)]))) 0 0) in mask_and_shift_data HGR x 1) in to_dots HGR x 1) in dots_to_nominal_colour_pixels 18 x hgr_value (nth 1 (PHASES HGR) 0)) = (Ok [BLACK; BLACK; BLACK; BLACK; BLACK; BLACK; BLACK; BLACK; BLACK; BLACK; BLACK; BLACK; BLACK; BROWN; BROWN; BROWN; BROWN; BLACK]).
Proof. vm_compute. reflexivity. Qed.
(** screen_test.py 1007-1045: TestNominalColours.test_nominal_colours_sather_odd_3 *)
Example TestNominalColours_test_nominal_colours_sather_odd_3_1 : (let! x := (let! x := (let! x := (packed_at (Ok (hgr_new (memory [(0, 1, 192); (0, 2, 1)]))) 0 0) in mask_and_shift_data HGR x 1) in to_dots HGR x 1) in dots_to_nominal_colour_pixels 18 x hgr_value (nth 1 (PHASES HGR) 0)) = (Ok [BLACK; BLACK; BLACK; BLACK; BLACK; BLACK; BLACK; BLACK; BLACK; BLACK; BLACK; BLACK; BLACK; BROWN; ORANGE; PINK; PINK; VIOLET]).
Proof. vm_compute. reflexivity. Qed.
(** screen_test.py 1047-1085: TestNominalColours.test_nominal_colours_sather_odd_4 *)
Example TestNominalColours_test_nominal_colours_sather_odd_4_1 : (let! x := (let! x := (let! x := (packed_at (Ok (hgr_new (memory [(0, 1, 224); (0, 2, 0)]))) 0 0) in mask_and_shift_data HGR x 1) in to_dots HGR x 1) in dots_to_nominal_colour_pixels 18 x hgr_value (nth 1 (PHASES HGR) 0)) = (Ok [BLACK; BLACK; BLACK; BLACK; BLACK; BLACK; BLACK; BLACK; BLACK; BLACK; BLACK; DARK_BLUE; MED_BLUE; AQUA; AQUA; GREEN; BROWN; BLACK]).
Proof. vm_compute. reflexivity. Qed.
(** screen_test.py 1087-1129: TestNominalColours.test_nominal_colours_sather_odd_5 *)
Example TestNominalColours_test_nominal_colours_sather_odd_5_1 : (let! x := (let! x := (let! x := (packed_at (Ok (hgr_new (memory [(0, 1, 160); (0, 2, 1)]))) 0 0) in mask_and_shift_data HGR x 1) in to_dots HGR x 1) in dots_to_nominal_colour_pixels 18 x hgr_value (nth 1 (PHASES HGR) 0)) = (Ok [BLACK; BLACK; BLACK; BLACK; BLACK; BLACK; BLACK; BLACK; BLACK; BLACK; BLACK; DARK_BLUE; MED_BLUE; MED_BLUE; LIGHT_BLUE; LIGHT_BLUE; VIOLET; VIOLET]).
Proof. vm_compute. reflexivity. Qed.
(** ** written by hand *)
(** screen_test.py: TestDHGRBitmap.test_mask_and_shift_data *)
Example mask_and_shift_data : forallb (fun o =>
    match mask_and_shift_data DHGR (nth (Z.to_nat o) (BYTE_MASKS DHGR) 0) o, mask_and_shift_data DHGR (Z.land (u64_not (nth (Z.to_nat o) (BYTE_MASKS DHGR) 0)) (2 ^ 34 - 1)) o with
    | Ok a, Ok b => (a =? 2 ^ 13 - 1) && (b =? 0)
    | _, _ => false
    end) (zrange 3) = true.
Proof. vm_compute. reflexivity. Qed.
(** screen_test.py: TestDHGRBitmap.test_fix_array_neighbours (the array is 32 x 128, all rows alike) *)
Definition after (o : Z) (row : Z -> Z) (v : Z) : Z -> Z := fix_array_neighbours DHGR (fun c => masked_update DHGR o (row c) v) o.
Definition all_are (row : Z -> Z) (w : Z) : bool := forallb (fun c => row c =? w) (zrange 128).
Example fix_array_neighbours_1 : all_are (after 0 (fun _ => 0) 0x7f) 15032386552 = true.
Proof. vm_compute. reflexivity. Qed.
Example fix_array_neighbours_2 : all_are (after 1 (fun _ => 15032386552) 0x55) 15032473592 = true.
Proof. vm_compute. reflexivity. Qed.
Example fix_array_neighbours_3 : all_are (after 3 (fun _ => 15032473592) 0x36) 15938443259 = true.
Proof. vm_compute. reflexivity. Qed.

(** make_data_tables_test.py: test_pixel_string is out of date: it passes enum
    members where the code takes integers (TypeError), and the string it expects,
    "0FC", has ORANGE as DHGRColours has it, not HGRColours.  (test_edit_distances_*:
    C15, C16.) *)
Example pixel_string_test : pixel_string (map dhgr_value [BLACK; WHITE; ORANGE]) = Ok (str "0FC") /\ pixel_string (map hgr_value [BLACK; WHITE; ORANGE]) = Ok (str "0F9").
Proof. vm_compute. auto. Qed.

(** video_test.py: test_diff_weights, for every table *)
Section Diff.
  Variable ed : table.
  Definition frame1 : bitmap := dhgr_new (memory []) (memory [(0, 0, 127); (0, 1, 85)]).
  Definition frame2 : bitmap := dhgr_new (memory []) (memory [(0, 0, 109); (0, 1, 54)]).
  Example diff_weights_packed : bm_packed frame1 0 0 = 11142136 /\ bm_packed frame2 0 0 = 7078760.
  Proof. vm_compute. auto. Qed.
  Example diff_weights_1 : exists d, diff_weights ed frame1 (dhgr_new (memory []) (memory [])) true = Ok d /\ d 0 0 = ed 0 1016 /\ d 0 1 = ed 2 680.
  Proof. eexists. split; [reflexivity|]. split; vm_compute; reflexivity. Qed.
  Example diff_weights_2 : exists d, diff_weights ed frame2 frame1 true = Ok d /\ d 0 0 = ed 0 8323944 /\ d 0 1 = ed 2 5570992.
  Proof. eexists. split; [reflexivity|]. split; vm_compute; reflexivity. Qed.
End Diff.

(** opcodes_test.py: test_equality *)
Definition t4 (content : Z) (o : list Z) := tick_opcode 4 32 content o.
Definition equal (a b : res opcode) : res bool := let! x := a in let! y := b in Ok (opcode_eq x y).
Example opcodes_test : equal (Ok Terminate) (Ok Terminate) = Ok true /\ equal (Ok Nop) (Ok Nop) = Ok true /\ equal (Ok (Ack false)) (Ok (Ack false)) = Ok true /\
  equal (Ok (Ack false)) (Ok Nop) = Ok false /\ equal (t4 0xff [1; 2; 3; 4]) (t4 0xff [1; 2; 3; 4]) = Ok true /\
  equal (t4 0xff [1; 2; 3; 4]) (tick_opcode 6 32 0xff [1; 2; 3; 4]) = Ok false /\
  equal (t4 0xff [1; 2; 3; 4]) (t4 0xfe [1; 2; 3; 4]) = Ok false /\ equal (t4 0xff [1; 2; 3; 4]) (t4 0xff [1; 2; 3; 5]) = Ok false.
Proof. vm_compute. repeat split. Qed.

(** symbol_table_test.py: test_parse *)
Definition debug_file : text := join_text [10] [[];
  str "version major=2,minor=0";
  str "info    csym=0,file=594,lib=1,line=420,mod=2,scope=2,seg=7,span=255,sym=151,type=5";
  str "file    id=0,name=""main.s"",size=10297,mtime=0x5C766D92,mod=0";
  str "file    id=1,name=""/usr/local/share/cc65/asminc/apple2.inc"",size=2348,mtime=0x5AA06221,mod=0";
  str "file    id=2,name=""apple2/exehdr.s"",size=1848,mtime=0x5AA06221,mod=1";
  str "lib     id=0,name=""/usr/local/share/cc65/lib/apple2enh.lib""";
  str "line    id=0,file=1,line=60";
  str "[...]";
  str "sym     id=8,name=""op_ack"",addrsize=absolute,scope=1,def=195,val=0x81FA,type=lab";
  str "sym     id=10,name=""op_tick"",addrsize=absolute,scope=1,def=6,val=0x81EE,type=lab";
  str "sym     id=12,name=""rle1"",addrsize=absolute,scope=1,def=135,ref=373,val=0x81D6,type=lab";
  str "[...]"; []].
Example symbol_table_test : (let! d := parse debug_file in Ok (map fst d)) = Ok [str """op_ack"""; str """op_tick"""; str """rle1"""].
Proof. vm_compute. reflexivity. Qed.

(** frame_grabber_test.py: test_output_dir *)
Example output_dir_1 : output_dir (str "/foo/bar.mp4") DHGR NTSC = str "/foo/bar/DHGR/NTSC".
Proof. vm_compute. reflexivity. Qed.
Example output_dir_2 : output_dir (str "/foo/bar.blee.mp4") HGR IIGS = str "/foo/bar.blee/HGR/IIGS".
Proof. vm_compute. reflexivity. Qed.
Example output_dir_3 : output_dir (str "/foo/bar blee.mp4") DHGR IIGS = str "/foo/bar blee/DHGR/IIGS".
Proof. vm_compute. reflexivity. Qed.

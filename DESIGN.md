# ii-vision: design of the formal model

Source: `/repo` (KrisKennaway/ii-vision at the pinned commit), read as text; nothing is run.
Model and proofs: `/verif/rocq/theories`, Coq 8.16.1, standard library only.
95 properties (`properties.jsonl`), 288 theorems named in `MANIFEST.json`.

## Conventions

* Python ints (and numpy unsigned ints, wherever it is shown that they never wrap) are `Z`;
  Python `//`, `%`, `<<`, `>>`, `&`, `^`, `~` are `Z.div`, `Z.modulo`, `Z.shiftl`, `Z.shiftr`,
  `Z.land`, `Z.lxor`, `Z.lnot` (floor semantics in both).  Floats appear only as stated in C36, C37, C53 and C79.
* Exceptions are values: `res A := Ok a | Raise e`; "never raises" is a theorem, not an assumption.
* numpy arrays are functions of their indices; equality of arrays is equality at every index in range.
  (That sharing, updates in place, element widths and the cache of differences do not matter is C82, proved on ArrayModel.)
  Index checks and numpy's negative-index rule are modelled where the code can reach them.
* The edit-distance table, the random source, the network schedule, thread interleavings, key presses
  and crash points are explicit arguments and universally quantified.
* File roles: `*Model.v` definitions transcribed from `/repo` with file and line citations, no proofs;
  `*Spec.v` the vocabulary of the theorem statements (independent of the proofs, small);
  `*Proofs.v`, `*Facts.v`, `*Thms.v`, `*Exec.v` proofs; `Prop*.v` the theorems, each followed by
  `Print Assumptions`, with examples showing that the hypotheses are met.
* False claims are recorded as `..._refuted` with a witness; parts of a claim end in `_partial`.
* Generated files: `PlayerCode.v` (tools/gen_player.py from player/main.s and ethernet.s), `SymData.v`
  (tools/gen_symdata.py, the symbol lines of player/iivision.dbg), `SymCert.v` (tools/gen_symcert.py, a
  table whose correctness Coq recomputes), `UnitTests.v` (tools/gen_tests.py, the repository's unit tests).  C42 checks that the assembled listing has exactly the
  addresses of the shipped symbol file, so a transcription slip in an instruction's length is excluded.

## How the layers fit

    source frames --(GrabberModel)--> MemoryMaps --(VideoModel)--> changes --(MovieModel)--> opcodes --> bytes
    samples --(AudioStreamModel, ClockModel)--> duty cycles ------------------------^
    palettes --(TableModel)--> distance tables ----------^
    bytes --(TCP, W5100: PlayerModel)--> player code (AsmModel, PlayerCode) on CpuModel --> memory, speaker

C30-C37 connect the encoder with the byte stream by decoding the bytes with an independent reader;
C40-C47 run the real player code on those bytes; C45, C46, C58 compose everything: whatever the network
and the user do, the player's screen memory is the encoder's and the speaker is toggled as the samples say.

## Per property

| id | status | modelled | proof | theorems |
|----|----|----|----|----|
| C01 | proved | ScreenModel: screen.py 16-83 coordinate tables as functions | ScreenSpec states the hardware address formula; arithmetic over div/mod, sweep over the 8192 pairs | `C01_address_is_hardware_address`, `C01_addresses_distinct`, `C01_xy_roundtrip`, `C01_page_offset_roundtrip`, `C01_addr_to_coords`, `C01_table_indices_in_range` |
| C02 | proved | ScreenModel: SCREEN_HOLES | same; counts by computation | `C02_hole_iff_not_displayed`, `C02_hole_iff_last_eight`, `C02_counts` |
| C03 | proved | ScreenModel: FlatMemoryMap, MemoryMap conversions and writes | pointwise at every index | `C03_flat_paged_flat`, `C03_paged_flat_paged`, `C03_flat_write`, `C03_flat_write_rejects`, `C03_constructors_validate` |
| C04 | proved | ScreenModel: MemoryMap.write with numpy negative indexing | case analysis on page ranges | `C04_paged_write`, `C04_paged_write_rejects` |
| C05 | proved | BitmapModel: DHGRBitmap._body/_make_header/_make_footer/_pack/apply | bit level (`Z.testbit`) against DisplaySpec.dhgr_dot; induction over stores | `C05_packed_is_displayed_dots` |
| C06 | proved | BitmapModel: HGRBitmap, to_dots | bit level against DisplaySpec.hgr_dot; induction over stores | `C06_masked_is_displayed_dots` |
| C07 | proved | BitmapModel: apply and _pack | bit level, induction over stores | `C07_incremental_is_repack_HGR`, `C07_incremental_is_repack_DHGR` |
| C08 | proved | BitmapModel: apply | frame condition, case analysis | `C08_store_never_raises`, `C08_store_changes_one_byte` |
| C09 | proved | BitmapModel: mask_and_shift_data, pair index | bit bounds | `C09_mask_assertion_never_fires`, `C09_pair_index_in_table`, `C09_pair_index_one_to_one`, `C09_packed_words_fit` |
| C10 | proved | BitmapModel: compute_delta, _fix_array_neighbours, byte_pair_difference, diff_weights | bit level, all screens | `C10_what_if_is_real_store`, `C10_byte_pair_difference_is_real_store` |
| C11 | proved | ColourModel: colours.dots_to_nominal_colour_pixels | induction on length against DisplaySpec.pixel_colour | `C11_sliding_window`, `C11_colour_depends_on_four_dots`, `C11_colour_bits` |
| C12 | proved | to_dots and the colour window | from C05, C06, C11 | `C12_window_is_screen`, `C12_store_changes_only_window` |
| C13 | proved | ColourModel: rol/ror | sweep over 16 values, induction on the count | `C13_rotations_inverse`, `C13_rotations_period`, `C13_uniform_run` |
| C14 | partial | _pack at scan-line ends | claim false: witness; what holds: interior bytes, dependence on adjacent offsets only | `C14_context_on_scan_line_refuted`, `C14_interior_context_partial`, `C14_window_depends_on_adjacent_bytes_partial`, `C14_line_pixels_partial` |
| C15 | proved | TableModel: make_data_tables.compute_edit_distance, Bitmap.edit_distances | index arithmetic; the weighted Damerau-Levenshtein dynamic program (LevProofs) | `C15_table_generation_never_raises`, `C15_table_is_symmetric_edit_distance` |
| C16 | proved | TableModel: edit_distance, costs | induction on the dynamic program; the NTSC palette violates the hypothesis (witness) | `C16_zero_iff_same_colours`, `C16_dhgr_zero_iff_equal`, `C16_zero_distance_is_invisible`, `C16_ntsc_greys_refuted` |
| C17 | proved | TableModel: compute_substitute_costs | sweep over 16x16 with a symbolic matrix | `C17_costs_are_pair_differences`, `C17_costs_symmetric` |
| C18 | partial | TableModel with both enums | claim false for DHGR: witness for all palettes; holds for HGR | `C18_hgr_costs_partial`, `C18_dhgr_costs_refuted`, `C18_dhgr_costs_partial`, `C18_black_white_greys_partial` |
| C19 | proved | VideoModel: encode_frame/_index_changes as a step machine, heap, random source as argument | invariant over frame runs and encoder histories | `C19_encode_never_raises` |
| C20 | proved | same | invariant | `C20_changes_well_formed` |
| C21 | proved | same; VideoSpec.replay is the player's effect of a change | invariant | `C21_replay_is_encoder_screen` |
| C22 | partial | same | claim false (loop stops at three): refuted for every run; positive part proved | `C22_four_distinct_refuted`, `C22_three_of_four_refuted`, `C22_three_slots_partial` |
| C23 | partial | same | claim false for stale heap entries: witness; holds for frame-start priorities | `C23_frame_start_order_partial`, `C23_current_priority_refuted` |
| C24 | proved | same | counting argument over the priorities left | `C24_bounded_work`, `C24_reaches_idle`, `C24_idle_means_done` |
| C25 | proved | same plus TableSpec.real_table / palette_table (the tables make_data_tables.py builds from palette.py) | idle state invariant; colours to dots to bytes | `C25_idle_means_settled`, `C25_discriminating_table_converges`, `C25_dhgr_converges`, `C25_hgr_display_converges`, `C25_palette_tables`, `C25_dhgr_ntsc_converges` |
| C26 | proved | same | invariant | `C26_extra_stores_improve` |
| C27 | proved | same | frame condition | `C27_banks_independent` |
| C28 | proved | same | counting invariant: at most 7680-j bytes have priority above j*65535 (C67) | `C28_priorities_fit`, `C28_sums_fit` |
| C29 | partial | VideoSpec.shown: histories plus the memory of a player that executes padding too | claim false for HGR memory: witness; dots equal, only byte 0 can differ | `C29_discriminating_exact`, `C29_dhgr_exact`, `C29_hgr_same_dots`, `C29_all_but_first_byte`, `C29_same_memory_refuted` |
| C30 | proved | MovieModel: Movie.encode/emit_stream/done; OpcodeModel: opcodes.py | position invariant | `C30_whole_frames`, `C30_framing` |
| C31 | proved | same, exceptions as values | invariant over stream runs | `C31_never_raises`, `C31_every_step` |
| C32 | proved | same; MovieSpec.read_stream is an independent decoder | round trip by induction | `C32_decodes`, `C32_bytes` |
| C33 | proved | same; MovieSpec.play interprets the decoded stream | invariant relating stream and encoder | `C33_acks_alternate`, `C33_ticks_serve_selected_bank` |
| C34 | proved | same | invariant; the stronger reading refuted | `C34_limit`, `C34_never_exceeds_refuted` |
| C35 | proved | same | induction over samples | `C35_one_tick_per_sample` |
| C36 | proved | ClockModel: Video.tick, exact and binary64 (rounding defined on integers) | error analysis; induction | `C36_exact_clock`, `C36_float_clock`, `C36_encoded_frames` |
| C37 | proved | AudioModel/ClockModel: sample conversion and clip | arithmetic | `C37_duty_has_opcode`, `C37_stream_is_good`, `C37_monotone`, `C37_exact_inside` |
| C38 | proved | SymbolModel: symbol_table.py, opcodes._fill_opcode_addresses; SymData: the lines of player/iivision.dbg | computation over 1028 opcodes with certificate table SymCert, lifted to every file with these symbol lines | `C38_every_opcode_has_its_own_address`, `C38_command_bytes_differ`, `C38_recognised` |
| C39 | proved | OpcodeModel: Opcode.__eq__ | case analysis | `C39_equality`, `C39_same_bytes` |
| C40 | proved | AsmModel + PlayerCode (player/main.s transcribed by tools/gen_player.py) + CpuModel (6502 with cycle counts, soft switches, W5100) | TickExec: sound symbolic execution, all 1024 routines | `C40_tick_routine`, `C40_duty_cycle` |
| C41 | proved | same | symbolic execution of op_ack, checkrecv, recv against the chip model | `C41_ack` |
| C42 | proved | AsmModel's own layout of main.s against iivision.dbg | computation | `C42_symbols_match`, `C42_assembles`, `C42_layout`, `C42_branches` |
| C43 | proved | PlayerModel + W5100/TCP arrivals as schedule | invariant over all schedules | `C43_in_order` |
| C44 | proved | PlaybackSpec: playable streams, delivering schedules, user pauses | progress by induction on opcodes | `C44_conversions_are_playable`, `C44_addresses`, `C44_reaches_every_opcode`, `C44_terminates` |
| C45 | proved | composition of encoder, stream, player | C29 + C32 + C33 + C43/44 | `C45_screen`, `C45_dhgr_encoder_memory`, `C45_all_but_first_byte`, `C45_hgr_encoder_dots` |
| C46 | proved | same, cycle counter and speaker toggles | C40 + C41 + C44 | `C46_clicks`, `C46_samples` |
| C47 | proved | same | invariant on writes | `C47_writes`, `C47_memory_intact` |
| C48 | proved | GrabberModel: FrameGrabber thread/queue transition system | invariant; decreasing weight for termination | `C48_in_order`, `C48_finishes` |
| C49 | partial | same with a failing decoder | claim false: all schedules end blocked | `C49_refuted` |
| C50 | partial | GrabberModel: _frame_grabber cache on disk with crash points | claim false: witness; whole-file crash points proved | `C50_whole_files_partial`, `C50_finished_run_partial`, `C50_refuted` |
| C51 | partial | GrabberModel: path functions on character lists | list induction; claim false: witness; exact characterisation | `C51_only_the_extension`, `C51_distinct_directories_partial`, `C51_input_kept_partial`, `C51_refuted` |
| C52 | proved | SymbolModel: SymbolTable.parse | list induction, round trip | `C52_other_lines_ignored`, `C52_white_space`, `C52_last_definition`, `C52_round_trip`, `C52_total` |
| C53 | proved | AudioModel: normalisation by percentile | counting over sorted lists | `C53_few_samples_exceed`, `C53_interpolation`, `C53_rest_not_clipped`, `C53_docstring_refuted`, `C53_silence`, `C53_above_clips_high`, `C53_overflow_is_lowest` |
| C54 | partial | SimModel: simulator.py soft switches | induction over access sequences; claim false for reads: witness | `C54_state_partial`, `C54_refuted`, `C54_documented_partial`, `C54_banking_refused_partial` |
| C55 | partial | SimModel: W5100 address registers | same; claim false: witnesses | `C55_high_then_low_partial`, `C55_low_then_high_refuted`, `C55_sequential_partial`, `C55_wrap_refuted` |
| C56 | proved | SimModel: traps (ObservableMemory subscriptions) | case analysis on the memory map | `C56_trap`, `C56_right_device`, `C56_register_trap`, `C56_write_protected` |
| C57 | proved | BootSpec: main.s from $800 to the first header, W5100 connect | symbolic execution; induction on the retry counter and on waiting times | `C57_connects_or_gives_up`, `C57_accepted`, `C57_refused` |
| C58 | proved | composition of C57 with C44-C46 | composition | `C58_plays_whole_movie`, `C58_plays_or_gives_up` |
| C59 | proved | main.s op_terminate | invariant while no key; execution on a key | `C59_waits`, `C59_leaves_on_key` |
| C60 | proved | main.s reset vector, exit, ProDOS QUIT parameters | execution | `C60_after_start`, `C60_while_playing`, `C60_reset` |
| C61 | proved | `Video._index_changes`/`encode_frame` run until the padding phase (`frame_run` + `is_pad`), against `good_target` bitmaps | from C25 (dots agree) plus a byte lemma: two bytes that show the same 14 dots after the same dot are equal or differ only in the palette bit of 0x00/0x7f; both banks by C27 (banks independent) | `C61_hgr_idle_bytes`, `C61_dhgr_both_banks` |
| C62 | proved | conversion + player run (C45) with the encoder's state after the opcodes executed | C45 equates the player's memory with the encoder's map, `idle_run` exposes the source frame due and the frame run, C25 equates map and source | `C62_dhgr_idle_screen`, `C62_dhgr_ntsc_idle_screen`, `C62_hgr_idle_screen` |
| C63 | proved | as C62 | invariant `Aged`: the generator has emitted at least as many changes as ticks since the frame came due; C24's bound (7680) then forces the idle phase; C62 | `C63_still_picture` |
| C64 | proved | `_parse_symbol_table`, `_fill_opcode_addresses` on the printed form of any list of symbols (`player_listing`) | dictionary facts (last definition wins), quoted names make the opcode names distinct, sorting is a permutation | `C64_loads`, `C64_refuses` |
| C65 | proved | the same machine fed `sent`, any prefix of a playable stream | a run on a prefix equals a run on the whole stream under a schedule that delivers less (`run_cap`), so all safety lemmas transfer; liveness by the wait lemmas on the prefix; no exit from the wait loop without a whole frame | `C65_plays_whole_frames`, `C65_then_waits`, `C65_never_beyond`, `C65_no_further`, `C65_no_header` |
| C66 | proved | server.py with socketserver's one-request-at-a-time loop, `sendall`, network buffering, clients and the file as an event-driven state machine (ServerModel) | invariants over all event sequences (order of connections; what was given plus what is left is one version of the file); termination measure on fair schedules; C57 and C65 for the player's side | `C66_beginning_of_file`, `C66_all_of_it`, `C66_in_turn`, `C66_stalled_client_blocks`, `C66_everyone_served`, `C66_served_while_converting`, `C66_served_movie_plays`, `C66_same_port` |
| C67 | proved | VideoModel.v (encoder histories with a waiting counter, PrioritySpec.v) | counting invariant: at most 7680-r*j bytes have priority above j*dmax, because every frame serves r bytes of the highest priorities | `C67_no_starvation`, `C67_always_finite`, `C67_built_tables` |
| C68 | proved | SimRunModel.v (main loop for an arbitrary processor) | induction on the number of rounds; regions = areas by checking the 256 pages | `C68_guarded`, `C68_refused`, `C68_stops_at_self_jump`, `C68_rom_intact` |
| C69 | partial | SimRunModel.v (loader) | list/slice lemmas; the last byte of each ROM is refuted | `C69_loaded_partial`, `C69_last_byte_refuted` |
| C70 | proved | make_data_tables 177-206 as file operations on named files (a file is complete or numpy refuses it), the two file name formats, screen.py 343-367, Palette and PALETTES, _palette_arg | Names evaluated for all modes and palettes and shown distinct; invariant over any prefix of the operations (each file old, incomplete or right) | `C70_right_table`, `C70_bmp2dhr_palette`, `C70_killed`, `C70_unknown_refuted` |
| C71 | proved | main.py's options and their mapping to a conversion; max_output_mb as a rational, its product with 2^20 exact | Composition of C70 with C31, C32, C34; the integer limit shown equivalent to the float comparison | `C71_converts`, `C71_choices`, `C71_size`, `C71_limit_test` |
| C72 | proved | VideoModel, MovieModel and the player as before; SmallSpec.v defines how many bytes a screen and a frame differ in and when a frame is due | Each wrong byte makes at most three windows differ, so the bound on wrong bytes bounds the bytes with nonzero priority; every change of the generator removes at least one of them; 292 ticks per bank visit suffice for one bank, a second visit deals with what the first one's stores changed next to the bank boundary; composed with C45 for the player; the slow movie by well-founded induction on the ticks at which frames change | `C72_dhgr_small_change`, `C72_dhgr_ntsc_small_change`, `C72_hgr_small_change`, `C72_slow_movie`, `C72_ntsc_slow_movie` |
| C73 | proved | AudioStreamModel.v: frombuffer, reshape in Fortran order, to_mono, read loop of _normalization, audio_stream; librosa.resample as any function with the documented length | Induction over the buffers; sums of rounded-up lengths; the frame clock by C36; C53 for the samples analysed | `C73_samples`, `C73_sync`, `C73_lag_grows`, `C73_mix`, `C73_analysed`, `C73_short_files`, `C73_given`, `C73_bad_buffer` |
| C74 | proved | the player's code with the chip's receive buffer (8192 bytes); schedules offer bytes before each instruction; `bandwidth` is a condition on the run itself | every instruction adds what is offered to the write pointer up to the buffer's size and the stream's end (`before_wr`, carried through the tick code by `aexec_sound`); invariant `since`: bytes received and cycles spent since the last frame was found; at an ACK 291 or 292 ticks have passed, so the next frame is there and the receive check passes at once; counts of ticks and ACKs from the frame layout | `C74_steady`, `C74_sample_times` |
| C75 | proved | composition of the models of main.py, audio.py, movie.py/video.py, the stream format and the player from a cold start | C73_given gives the samples, C71_converts the stream, C35 the number of ticks, `connects` (C57) leads from the start of the program to the connected player, C46/C74 give the toggles and C62 the idle screen; `later_*`: a schedule's properties hold from any instruction on; `frame_of_time` turns the number of frames due under the double clock (C36) into a time; PropPipe.v, PipeProofs.v | `C75_source_to_speaker`, `C75_sample_times`, `C75_hgr_in_sync`, `C75_dhgr_in_sync` |
| C76 | proved | two runs of movie.py's model side by side; the player for the toggles | simulation between two runs of `emit_step` (IndepProofs: `lock`, `lock_all`): relation `sounds` keeps position, ticks, frame number, remaining sound and number of frames; relation `pictures` keeps everything but the sample values; then C74_steady | `C76_sound_independent`, `C76_same_toggles`, `C76_pictures_independent` |
| C77 | proved | as C76 | simulation `extended`: the states are equal except for the input still to come | `C77_causal`, `C77_agree` |
| C78 | proved | MovieModel (emit_stream, done), the player's machine (CpuModel, PlayerCode), SmoothSpec.bandwidth | the framing invariant (total size mod 2048 = 7j, j <= 291, so that the ACK of a full frame has been emitted) turns the count of ticks into the count of ACKs and bytes; the time is C74_steady at the last opcode | `C78_size`, `C78_size_of_samples`, `C78_time`, `C78_slower` |
| C79 | proved | AudioFloatModel: float32 as multiples of 2^-149, round to nearest even at 24 bits, overflow; sum, mean, the two scalings, multiplication by 16, conversion to int | relative error of one rounding at most 2^-24, sums of up to 512 int16 exact, division by 16384 and multiplication by 16 exact away from underflow, underflow bounded absolutely; three roundings give a relative error below 2^-21; then C46/C71 as in C75 | `C79_close`, `C79_option`, `C79_shape`, `C79_operations`, `C79_differs`, `C79_source_to_speaker` |
| C80 | proved | HeapqModel: CPython's heapq functions on a list, and the encoder and stream writer of VideoModel/MovieModel using them | the loops keep the heap order everywhere except at a hole and permute the entries; the order of tuples is total and antisymmetric, so bag and heap pop the same entry; then a simulation through fill_slots, pop_loop, next, encode, emit_stream | `C80_pops_least`, `C80_sorts`, `C80_same_conversion` |
| C81 | proved | ArrayModel: arrays are buffers in a memory, maps hold references | both writes are the same update of one buffer; the constructor allocates only fresh buffers | `C81_views`, `C81_constructors`, `C81_bitmap_shares` |
| C82 | proved | ArrayModel: bitmaps, encoder and stream writer on shared buffers with wrapping elements, the cache, CPython's heap | simulation with HeapqModel: each operation refines its value-level counterpart while keeping a frame condition (which buffers may change); words and sums are shown to fit (C67's bounds), cache entries are right for the bitmaps of this conversion; then C80 and C31 | `C82_same_conversion`, `C82_same_states`, `C82_isolated`, `C82_again` |
| C83 | proved | CheckModel: the check on the words of BitmapModel's bitmap | bit by bit from the invariant of C08 (each word is the window of its row's dots); exactness by testing the mask bits | `C83_check_passes`, `C83_dhgr_check_exact`, `C83_hgr_footers_unchecked` |
| C84 | proved | DecimalModel: the processor of CpuModel with a decimal flag (CLD, SED, ADC in decimal mode) | forward simulation with the flag clear (opcode bytes D8 and F8 do not decode); with the flag set, op_ack executed symbolically for every machine state at the end of a frame, then the 16 values of the read position's high digit | `C84_no_flag_instruction`, `C84_flag_clear`, `C84_decimal_adc`, `C84_flag_set`, `C84_second_ack` |
| C85 | proved | CieModel: colormath's sRGB -> XYZ -> L*a*b* and CIE2000 formulas on real numbers (dependency, transcribed) | the difference is bounded below by its lightness part and, because the rotation term is at most 2 sin 60 deg, by 0.133 of the distance in the a*b* plane over S_C squared (law of cosines for chroma and hue); L*a*b* values enclosed by rationals via 5th and 3rd powers, certificates checked by computation | `C85_differences`, `C85_costs`, `C85_tables`, `C85_converts` |
| C86 | proved | PlayerModel's processor, network chip and keyboard (a key may be pressed before any instruction), the generated player code | the playback states of C43-C47 are followed together with the keyboard latch: through every opcode a pending key stays pending, the receive check consumes it and pauses, the pause loop is left only for a key pressed after it was entered; progress by induction on the bytes still to come | `C86_key_pauses`, `C86_pauses_ended` |
| C87 | proved | SimModel.v (the simulator's card) driven by SimNetSpec.handshake, the accesses of main.s 141-256; an example checks that they are the writes of the machine code in CpuModel.v | symbolic execution access by access with the register pointer and memory; induction on the number of polls | `C87_handshake`, `C87_nothing_received` |
| C88 | proved | The modelled Damerau-Levenshtein matrix (TableModel) against an inductive specification of repaintings (DistSpec): keep, repaint, exchange neighbours. | On the diagonal of the matrix insertions, deletions and distant transpositions cost at least 100000, more than any row of at most 18 repaintings, so each cell extends a cheapest repainting of prefixes; conversely every repainting bounds the cells by induction. Carried to screens by C06/C05's windows and to encoder states by C19's invariant. | `C88_distance_is_least_cost`, `C88_one_pixel`, `C88_frame_distance`, `C88_store_error`, `C88_least_cost_unique` |
| C89 | proved | The generator of video.py 88-197 (VideoModel), the candidates' heap and the update of the priority array. | The candidates come off the heap sorted by error minus starting distance (pop_all is a sorted permutation); filling the slots takes the first two that are still outstanding, so the rest have at least their key; the encoder's invariant identifies its array of starting distances with start_distance at every outstanding byte. byte_pair_difference at an extra byte is the distance of the stored screen (C06). | `C89_most_beneficial`, `C89_priorities_after`, `C89_residual_smaller` |
| C90 | proved | the stream of MovieModel, and the player on the 6502 of CpuModel | each change's offsets are [offset] with one or two more, padded with the first (video step), by induction over the run of the stream; a display changes only in the cells the ticks touch, so `NoDup_incl_length`; 73 cycles per tick and cycles never decrease give the player's bound. Example: a movie that flashes black and white is redrawn as often as one likes (C63 makes each picture complete) | `C90_fourth_store_repeats`, `C90_three_per_tick`, `C90_picture_speed`, `C90_redraw_ticks`, `C90_five_redraws_a_second` |
| C91 | proved | the player on the 6502 of CpuModel with the W5100 chip model, and the stream of MovieModel | at every opcode the invariant carries the time at which the current frame was found and that all bytes offered since have been received, up to the end of the stream and the 8K window, through ticks, through the ACK (whose RECV command moves the window) and through failed polls; a poll that fails later than T cycles after that time would contradict the throughput, so the next frame is found by then: induction on the time left for the polls, then on the opcodes | `C91_slow_network`, `C91_sample_lateness`, `C91_no_faster` |
| C92 | proved | the player on the 6502 of CpuModel with the W5100 chip model, for any playable stream and network | by C46 the toggles of the whole playback are those of the opcodes and of the failed polls; a list in which each toggle is 4 to 69 cycles after the one before is built opcode by opcode (ticks toggle at 4 and 4 + d with d between 4 and 66 by C40, ACK at 4 and 38, polls every 25 cycles), so it has that property whatever follows what | `C92_carrier` |
| C93 | proved | MovieModel (the whole of transcode), frames as pairs of memories | two runs in lock step: their states are the same except for the frames not yet drawn, which agree where they will be looked at; the frame number after n ticks is `due n`, so no frame is drawn beyond `due` of the number of samples; induction on the iterations of emit_stream, results including exceptions compared | `C93_only_encoded_frames`, `C93_late_frames`, `C93_hgr_main_memory` |
| C94 | proved | MovieModel and OpcodeModel (the whole of transcode), addresses as any function | two runs in lock step: same movie and generator states, outputs that serialise the same opcodes; the length of an opcode does not depend on its address, so positions, ACKs and the limit agree; induction on the iterations, exceptions compared; with C32's reader for the second theorem | `C94_same_opcodes`, `C94_same_reading` |
| C95 | proved | MovieModel (the whole of transcode); ClockModel: exact and binary64 | two runs in lock step: their states are equal except for the frame number (d against ceil(d/n)) and the frames left to draw, which agree where they will be looked at; by the due-frame count of C93 no frame beyond the grabber's is asked for; induction on the iterations of emit_stream, results including exceptions compared; the exact clock's count of due frames (C36) discharges the hypotheses for the second theorem; rounding to 53 bits commutes with powers of two, for the computed clock | `C95_thinned`, `C95_exact_rate`, `C95_computed_clock` |

## Trusted base

* Coq 8.16.1's kernel, including its `vm_compute` machine; the development is also re-checked with `coqchk`.
* `Print Assumptions` (each `Prop*.v` prints it while building) reports **"Closed under the global context"** for
  every one of the 288 theorems except C85's.  C85 is about real numbers and rests on the standard library's axioms
  for them: `ClassicalDedekindReals.sig_forall_dec`, `ClassicalDedekindReals.sig_not_dec`,
  `FunctionalExtensionality.functional_extensionality_dep`, `Classical_Prop.classic` (no theorem of another property
  depends on C85).  No axioms are declared here.  `coqchk` lists the
  `Coq.ssr.ssrunder.Under_rel` parameters because the standard library's `ssr` modules are loaded by a
  dependency of `Lia`/`ssreflect` plumbing; no theorem depends on them.
* The reading of `/repo` into the model.  Each definition cites file and lines and says where it simplifies.

### Modelled

| source | model | notes |
|---|---|---|
| transcoder/screen.py | ScreenModel, BitmapModel, CheckModel | all of the coordinate tables, MemoryMap, Bitmap, HGRBitmap, DHGRBitmap; numba-jitted variants are the same functions; ArrayModel has the same code on shared buffers (C81, C82); the uncalled _check_consistency is CheckModel (C83: hi-res footers are outside its mask) |
| transcoder/colours.py, palette.py | ColourModel, TableModel | enums, rotations, pixel conversion, RGB values |
| transcoder/make_data_tables.py | TableModel | difference matrix, costs, edit distance (weighted-levenshtein's `dam_lev` dynamic program as used: substitution and transposition costs, prohibitive insert/delete), table layout; the CIE2000 difference is an arbitrary function with values 0..3640 |
| transcoder/video.py, frame_clock | VideoModel, ClockModel, HeapqModel, ArrayModel | generator as a step machine; queue as a bag, and as CPython's heap (C80); arrays as values, and as shared buffers (C82) |
| transcoder/movie.py, opcodes.py, machine.py | MovieModel, OpcodeModel | stream position, ACKs, header, terminate, size limit |
| transcoder/symbol_table.py | SymbolModel | line parser |
| transcoder/frame_grabber.py | GrabberModel | threads, queues, cache directory, crash points |
| transcoder/main.py, table files | MainModel, GrabberModel (names) | options, defaults, limit, table file names, saving and loading |
| transcoder/audio.py | AudioModel, AudioStreamModel, AudioFloatModel | all: buffers to 16 bit samples, mixing of channels, normalisation (bytes analysed, percentiles), stream of duty cycles, exactly (C73) and in binary32 (C79); the resampler is a parameter |
| server/server.py | ServerModel | sequential TCPServer, whole-file `sendall`, any number of clients; the listen queue is unbounded |
| simulator/*.py | SimModel, SimRunModel | soft switches, W5100 registers, traps; image loader, guarded main loop (py65's instruction step is an arbitrary function) |
| player/main.s, ethernet.s | AsmModel, PlayerCode, PlayerModel | every instruction from `$800` on |
| hardware used by the player | CpuModel, PlayerModel, BootSpec | 6502 instructions and cycles (decimal mode off: see C84, DecimalModel), 80STORE/PAGE2/HIRES banking, speaker, keyboard, W5100 indirect registers and 8 KB receive ring |

### Assumed about the environment (not code in `/repo`)

* numpy, colormath, PIL, skvideo, audioread, librosa, weighted-levenshtein (C code), BMP2DHR and ffmpeg: results
  are arbitrary values within the stated ranges.  For colormath the range (positive for different colours, at most
  3640) is derived in C85 from the formulas of its sRGB -> L\*a\*b\* conversion and CIE2000 difference, transcribed in
  CieModel, for results within 1 of the exact value.
* numpy 1.22's float32 rules: `mean`, `/=`, `*=` and `*` with a Python number round once each, to nearest even (C79).
* `random` is an arbitrary source.  (heapq is not assumed: C80 proves that CPython's algorithm gives the same streams
  as the bag used elsewhere; its transcription in HeapqModel follows Lib/heapq.py.)
* `queue.Queue` operations are atomic; threads interleave arbitrarily.
* py65 executes `ObservableMemory` subscriptions as documented.
* Apple II: bank switching and soft switches as CpuModel states; the ROM routines called (HGR clears the page,
  COUT prints) are summarised in BootSpec; a W5100 behaves as its data sheet says for the registers used.
* TCP delivers a prefix of the file in order, in pieces of any size at any time; where termination is claimed
  the network eventually delivers and the user eventually resumes (`delivers`, `user`).
* ca65/ld65: layout recomputed (C42) instead of trusted.

### Not modelled

* argparse itself (main.py's options are modelled in MainModel), performance, and the vendored build tooling under player/make.
* Image quality beyond the distance table; the floating point of the colour difference and of librosa.

## Findings about the code (all machine-checked unless marked *)

* C14: at the ends of a scan line the packed word takes context from the next line group in the same page.
* C16/C25: with the default NTSC palette GREY1 = GREY2, so DHGR bytes differing in every dot have distance 0.
* C18: DHGR colours are looked up in a cost matrix keyed by the HGR enum.
* C22: the extra-offset loop stops at three, so the fourth store of every change repeats the first.
* C23: heap entries go stale, so a change is not always the one with the greatest current priority.
* C29: padding stores a byte the encoder does not record (HGR: differing palette bit, same dots).
* C34: with the limit set to a multiple of 2048 the output is one frame larger than the limit.
* C49: an exception in the decoder thread blocks the conversion for ever.
* C50/C51: interrupted runs and equal base names leave caches that are reused wrongly.
* C53: the docstring's "<1% of samples clip" is false on the negative side.
* C54/C55: simulator status reads always give 0; writing WADRL before WADRH loses a bit; the pointer wraps to 0.
* C40: `op_tick_22` has 21 cycles between its toggles (as its comment says) and `op_tick_40` has 39 (its comment says 41);
  all others are exact.  `CLOSECONN` (main.s 1362-1368)* is unreachable.
* C65: a player whose stream stalls (a truncated file, or one served while it is still being converted, C66) waits for
  ever, toggling the speaker every 25 cycles; keys are not looked at meanwhile, only RESET leaves.
* C66: the server handles one client at a time: one that stops taking data blocks all others.
* C69: the simulator's ROM slices are one byte short: `$C6FF` and `$FFFF` (high byte of the IRQ vector) are 0.
* C70: `--palette UNKNOWN` is offered but has no distance table; the conversion fails after truncating the output file*.
* C78: audio is encoded at 14.7 kHz but played at one sample per 73.5 cycles (73 per tick, 146 more per ACK), about
  13.9 kHz: more than 5.8% too slow.  The comment at main.s 370-378 says the ACK code keeps toggling every 36/37 cycles;
  the toggles are 34 and 39 apart (C41).
* C90: README line 39 claims about 8 full redraws of the screen per second.  The fourth store of a tick repeats the first
  (and the other spare ones are padding too), so at most three bytes change per tick and at most five redraws fit in a second.
* C79: in binary32 the loudest sample of a normalised sound may get 15 instead of 16 (peak 41, for example).

* Tests of the repository*: `test_edit_distances_dhgr` asserts that zeros of the table lie on the diagonal for every palette;
  by C16_ntsc_greys_refuted that fails for NTSC.  `test_pixel_string` passes enum members where integers are needed.

## Testing the model against the repository's tests

`UnitTests.v` (tools/gen_tests.py) restates the assertions of transcoder/*_test.py as examples about the model, over 100 of
them: packing, masks, stores, dots, colours (Sather's figures), opcodes, symbol parsing, cache directories.  All agree
with the model except the out-of-date `test_pixel_string`.

## Testing the theorems

`seeded/LOG.jsonl` records every wrong program tried (definition, edit, claim broken, theorems that failed,
theorems tightened).  Mutations under which nothing failed were either shown to be equivalent (noted there) or
led to a stronger theorem.

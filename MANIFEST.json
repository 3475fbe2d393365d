{
 "claims": [
  {
   "property": "C01",
   "status": "proved",
   "theorems": [
    "C01_address_is_hardware_address",
    "C01_addresses_distinct",
    "C01_xy_roundtrip",
    "C01_page_offset_roundtrip",
    "C01_addr_to_coords",
    "C01_table_indices_in_range"
   ],
   "note": ""
  },
  {
   "property": "C02",
   "status": "proved",
   "theorems": [
    "C02_hole_iff_not_displayed",
    "C02_hole_iff_last_eight",
    "C02_counts"
   ],
   "note": ""
  },
  {
   "property": "C03",
   "status": "proved",
   "theorems": [
    "C03_flat_paged_flat",
    "C03_paged_flat_paged",
    "C03_flat_write",
    "C03_flat_write_rejects",
    "C03_constructors_validate"
   ],
   "note": ""
  },
  {
   "property": "C04",
   "status": "proved",
   "theorems": [
    "C04_paged_write",
    "C04_paged_write_rejects"
   ],
   "note": ""
  },
  {
   "property": "C05",
   "status": "proved",
   "theorems": [
    "C05_packed_is_displayed_dots"
   ],
   "note": ""
  },
  {
   "property": "C06",
   "status": "proved",
   "theorems": [
    "C06_masked_is_displayed_dots"
   ],
   "note": ""
  },
  {
   "property": "C07",
   "status": "proved",
   "theorems": [
    "C07_incremental_is_repack_HGR",
    "C07_incremental_is_repack_DHGR"
   ],
   "note": ""
  },
  {
   "property": "C08",
   "status": "proved",
   "theorems": [
    "C08_store_never_raises",
    "C08_store_changes_one_byte"
   ],
   "note": ""
  },
  {
   "property": "C09",
   "status": "proved",
   "theorems": [
    "C09_mask_assertion_never_fires",
    "C09_pair_index_in_table",
    "C09_pair_index_one_to_one",
    "C09_packed_words_fit"
   ],
   "note": ""
  },
  {
   "property": "C10",
   "status": "proved",
   "theorems": [
    "C10_what_if_is_real_store",
    "C10_byte_pair_difference_is_real_store"
   ],
   "note": ""
  },
  {
   "property": "C11",
   "status": "proved",
   "theorems": [
    "C11_sliding_window",
    "C11_colour_depends_on_four_dots",
    "C11_colour_bits"
   ],
   "note": ""
  },
  {
   "property": "C12",
   "status": "proved",
   "theorems": [
    "C12_window_is_screen",
    "C12_store_changes_only_window"
   ],
   "note": ""
  },
  {
   "property": "C13",
   "status": "proved",
   "theorems": [
    "C13_rotations_inverse",
    "C13_rotations_period",
    "C13_uniform_run"
   ],
   "note": ""
  },
  {
   "property": "C14",
   "status": "partial",
   "theorems": [
    "C14_context_on_scan_line_refuted",
    "C14_interior_context_partial",
    "C14_window_depends_on_adjacent_bytes_partial",
    "C14_line_pixels_partial"
   ],
   "note": "The property is false of the code: the packed word at the end of a scan line takes context from the next group of the same page; witness theorem _refuted. What holds is proved: interior bytes, only adjacent offsets matter, and every pixel of a scan line whose four dots lie on the line has the colour that the line's 40 bytes show by themselves (C14_line_pixels_partial), so the mistake is confined to the ends of the lines."
  },
  {
   "property": "C15",
   "status": "proved",
   "theorems": [
    "C15_table_generation_never_raises",
    "C15_table_is_symmetric_edit_distance"
   ],
   "note": ""
  },
  {
   "property": "C16",
   "status": "proved",
   "theorems": [
    "C16_zero_iff_same_colours",
    "C16_dhgr_zero_iff_equal",
    "C16_zero_distance_is_invisible",
    "C16_ntsc_greys_refuted"
   ],
   "note": "Zero iff same colours under positive costs; DHGR iff equal; fits 16 bits (C15_table_is_symmetric_edit_distance). The shipped NTSC palette does not meet the positive-costs hypothesis (GREY1 = GREY2): C16_ntsc_greys_refuted exhibits two all-different DHGR windows at distance 0; see C25_dhgr_ntsc_converges for what holds then."
  },
  {
   "property": "C17",
   "status": "proved",
   "theorems": [
    "C17_costs_are_pair_differences",
    "C17_costs_symmetric"
   ],
   "note": ""
  },
  {
   "property": "C18",
   "status": "partial",
   "theorems": [
    "C18_hgr_costs_partial",
    "C18_dhgr_costs_refuted",
    "C18_dhgr_costs_partial",
    "C18_black_white_greys_partial"
   ],
   "note": "False for DHGR: costs are keyed by HGRColours values (witness _refuted, for all palettes and perceptual distances). Holds for HGR colours; for DHGR it is proved exactly which colours' cost is used, and that it is the right one between black and white and between the greys (_partial)."
  },
  {
   "property": "C19",
   "status": "proved",
   "theorems": [
    "C19_encode_never_raises"
   ],
   "note": ""
  },
  {
   "property": "C20",
   "status": "proved",
   "theorems": [
    "C20_changes_well_formed"
   ],
   "note": ""
  },
  {
   "property": "C21",
   "status": "proved",
   "theorems": [
    "C21_replay_is_encoder_screen"
   ],
   "note": ""
  },
  {
   "property": "C22",
   "status": "partial",
   "theorems": [
    "C22_four_distinct_refuted",
    "C22_three_of_four_refuted",
    "C22_three_slots_partial"
   ],
   "note": "False of the code: the loop stops at three offsets, so slot 4 always repeats slot 1 (_refuted, for every run, plus a concrete witness). Proved: three slots are filled whenever possible (_partial)."
  },
  {
   "property": "C23",
   "status": "partial",
   "theorems": [
    "C23_frame_start_order_partial",
    "C23_current_priority_refuted"
   ],
   "note": "Holds for priorities at the start of the frame (_partial); false for current priorities because heap entries go stale (_refuted)."
  },
  {
   "property": "C24",
   "status": "proved",
   "theorems": [
    "C24_bounded_work",
    "C24_reaches_idle",
    "C24_idle_means_done"
   ],
   "note": ""
  },
  {
   "property": "C25",
   "status": "proved",
   "theorems": [
    "C25_idle_means_settled",
    "C25_discriminating_table_converges",
    "C25_dhgr_converges",
    "C25_hgr_display_converges",
    "C25_palette_tables",
    "C25_dhgr_ntsc_converges"
   ],
   "note": "Exact memory equality for discriminating tables (incl. every DHGR table built from positive colour differences, e.g. the IIGS palette); for HGR tables (both palettes) the displayed dots are equal; for the NTSC DHGR table the bytes whose window shows no grey are equal."
  },
  {
   "property": "C26",
   "status": "proved",
   "theorems": [
    "C26_extra_stores_improve"
   ],
   "note": ""
  },
  {
   "property": "C27",
   "status": "proved",
   "theorems": [
    "C27_banks_independent"
   ],
   "note": ""
  },
  {
   "property": "C28",
   "status": "proved",
   "theorems": [
    "C28_priorities_fit",
    "C28_sums_fit"
   ],
   "note": ""
  },
  {
   "property": "C29",
   "status": "partial",
   "theorems": [
    "C29_discriminating_exact",
    "C29_dhgr_exact",
    "C29_hgr_same_dots",
    "C29_all_but_first_byte",
    "C29_same_memory_refuted"
   ],
   "note": "Memory equality fails for HGR (padding stores a palette bit the encoder does not record, _refuted); proved: for every table only the first byte of a bank can differ; exact for discriminating/DHGR tables; identical displayed dots for HGR tables, over whole histories."
  },
  {
   "property": "C30",
   "status": "proved",
   "theorems": [
    "C30_whole_frames",
    "C30_framing"
   ],
   "note": ""
  },
  {
   "property": "C31",
   "status": "proved",
   "theorems": [
    "C31_never_raises",
    "C31_every_step"
   ],
   "note": "For every configuration with a 16-bit distance table, every_n >= 1 and a clock that is true for frame 0; samples -15..16 (C37) and byte frames."
  },
  {
   "property": "C32",
   "status": "proved",
   "theorems": [
    "C32_decodes",
    "C32_bytes"
   ],
   "note": ""
  },
  {
   "property": "C33",
   "status": "proved",
   "theorems": [
    "C33_acks_alternate",
    "C33_ticks_serve_selected_bank"
   ],
   "note": "Stated on the opcodes read back from the bytes: every tick's content byte is the due frame's byte in the bank the ACKs have selected."
  },
  {
   "property": "C34",
   "status": "proved",
   "theorems": [
    "C34_limit",
    "C34_never_exceeds_refuted"
   ],
   "note": "The statement as given. The stronger reading (never exceeds the limit) is refuted with a witness."
  },
  {
   "property": "C35",
   "status": "proved",
   "theorems": [
    "C35_one_tick_per_sample"
   ],
   "note": ""
  },
  {
   "property": "C36",
   "status": "proved",
   "theorems": [
    "C36_exact_clock",
    "C36_float_clock",
    "C36_encoded_frames"
   ],
   "note": "Exact rational clock and the binary64 clock (rounding defined on integers, normal range, >= 2 ticks per frame, <= 2^52 ticks)."
  },
  {
   "property": "C37",
   "status": "proved",
   "theorems": [
    "C37_duty_has_opcode",
    "C37_stream_is_good",
    "C37_monotone",
    "C37_exact_inside"
   ],
   "note": "Samples after resampling/normalisation as rationals, infinities or NaN; float-to-int conversion out of range gives -2^63 (x86-64)."
  },
  {
   "property": "C38",
   "status": "proved",
   "theorems": [
    "C38_every_opcode_has_its_own_address",
    "C38_command_bytes_differ",
    "C38_recognised"
   ],
   "note": "For every file whose symbol lines are those of the shipped player/iivision.dbg (SymData.v, generated verbatim)."
  },
  {
   "property": "C39",
   "status": "proved",
   "theorems": [
    "C39_equality",
    "C39_same_bytes"
   ],
   "note": "Address map injectivity is C38."
  },
  {
   "property": "C40",
   "status": "proved",
   "theorems": [
    "C40_tick_routine",
    "C40_duty_cycle"
   ],
   "note": ""
  },
  {
   "property": "C41",
   "status": "proved",
   "theorems": [
    "C41_ack"
   ],
   "note": ""
  },
  {
   "property": "C42",
   "status": "proved",
   "theorems": [
    "C42_symbols_match",
    "C42_assembles",
    "C42_layout",
    "C42_branches"
   ],
   "note": ""
  },
  {
   "property": "C43",
   "status": "proved",
   "theorems": [
    "C43_in_order"
   ],
   "note": ""
  },
  {
   "property": "C44",
   "status": "proved",
   "theorems": [
    "C44_conversions_are_playable",
    "C44_addresses",
    "C44_reaches_every_opcode",
    "C44_terminates"
   ],
   "note": ""
  },
  {
   "property": "C45",
   "status": "proved",
   "theorems": [
    "C45_screen",
    "C45_dhgr_encoder_memory",
    "C45_all_but_first_byte",
    "C45_hgr_encoder_dots"
   ],
   "note": ""
  },
  {
   "property": "C46",
   "status": "proved",
   "theorems": [
    "C46_clicks",
    "C46_samples"
   ],
   "note": ""
  },
  {
   "property": "C47",
   "status": "proved",
   "theorems": [
    "C47_writes",
    "C47_memory_intact"
   ],
   "note": ""
  },
  {
   "property": "C48",
   "status": "proved",
   "theorems": [
    "C48_in_order",
    "C48_finishes"
   ],
   "note": "All interleavings of the worker and the consumer as a transition system; termination by a decreasing weight."
  },
  {
   "property": "C49",
   "status": "partial",
   "theorems": [
    "C49_refuted"
   ],
   "note": "False of the code (_refuted): if decoding fails at any point, every schedule ends with the consumer blocked for ever, after yielding the frames before the failure."
  },
  {
   "property": "C50",
   "status": "partial",
   "theorems": [
    "C50_whole_files_partial",
    "C50_finished_run_partial",
    "C50_refuted"
   ],
   "note": "False of the code (_refuted): a crash while an output file is being written leaves a truncated file that counts as cached. Proved for crash points with whole files."
  },
  {
   "property": "C51",
   "status": "partial",
   "theorems": [
    "C51_only_the_extension",
    "C51_distinct_directories_partial",
    "C51_input_kept_partial",
    "C51_refuted"
   ],
   "note": "False in general (_refuted: files differing in the extension share a cache, x.a2m is overwritten); exact characterisation proved."
  },
  {
   "property": "C52",
   "status": "proved",
   "theorems": [
    "C52_other_lines_ignored",
    "C52_white_space",
    "C52_last_definition",
    "C52_round_trip",
    "C52_total"
   ],
   "note": ""
  },
  {
   "property": "C53",
   "status": "proved",
   "theorems": [
    "C53_few_samples_exceed",
    "C53_interpolation",
    "C53_rest_not_clipped",
    "C53_docstring_refuted",
    "C53_silence",
    "C53_above_clips_high",
    "C53_overflow_is_lowest"
   ],
   "note": "For every interpolation between neighbours. The docstring's stronger claim (<1% of samples clip) is refuted: -16 is clipped to -15."
  },
  {
   "property": "C54",
   "status": "partial",
   "theorems": [
    "C54_state_partial",
    "C54_refuted",
    "C54_documented_partial",
    "C54_banking_refused_partial"
   ],
   "note": "The recorded state is right after every access sequence; but the status address always reads 0 (_refuted)."
  },
  {
   "property": "C55",
   "status": "partial",
   "theorems": [
    "C55_high_then_low_partial",
    "C55_low_then_high_refuted",
    "C55_sequential_partial",
    "C55_wrap_refuted"
   ],
   "note": "High-then-low and sequential access proved; low-then-high loses bit 7 and the pointer wraps to 0 (_refuted)."
  },
  {
   "property": "C56",
   "status": "proved",
   "theorems": [
    "C56_trap",
    "C56_right_device",
    "C56_register_trap",
    "C56_write_protected"
   ],
   "note": ""
  },
  {
   "property": "C57",
   "status": "proved",
   "theorems": [
    "C57_connects_or_gives_up",
    "C57_accepted",
    "C57_refused"
   ],
   "note": ""
  },
  {
   "property": "C58",
   "status": "proved",
   "theorems": [
    "C58_plays_whole_movie",
    "C58_plays_or_gives_up"
   ],
   "note": ""
  },
  {
   "property": "C59",
   "status": "proved",
   "theorems": [
    "C59_waits",
    "C59_leaves_on_key"
   ],
   "note": ""
  },
  {
   "property": "C60",
   "status": "proved",
   "theorems": [
    "C60_after_start",
    "C60_while_playing",
    "C60_reset"
   ],
   "note": ""
  },
  {
   "property": "C61",
   "status": "proved",
   "theorems": [
    "C61_hgr_idle_bytes",
    "C61_dhgr_both_banks"
   ],
   "note": ""
  },
  {
   "property": "C62",
   "status": "proved",
   "theorems": [
    "C62_dhgr_idle_screen",
    "C62_dhgr_ntsc_idle_screen",
    "C62_hgr_idle_screen"
   ],
   "note": ""
  },
  {
   "property": "C63",
   "status": "proved",
   "theorems": [
    "C63_still_picture"
   ],
   "note": ""
  },
  {
   "property": "C64",
   "status": "proved",
   "theorems": [
    "C64_loads",
    "C64_refuses"
   ],
   "note": ""
  },
  {
   "property": "C65",
   "status": "proved",
   "theorems": [
    "C65_plays_whole_frames",
    "C65_then_waits",
    "C65_never_beyond",
    "C65_no_further",
    "C65_no_header"
   ],
   "note": ""
  },
  {
   "property": "C66",
   "status": "proved",
   "theorems": [
    "C66_beginning_of_file",
    "C66_all_of_it",
    "C66_in_turn",
    "C66_stalled_client_blocks",
    "C66_everyone_served",
    "C66_served_while_converting",
    "C66_served_movie_plays",
    "C66_same_port"
   ],
   "note": ""
  },
  {
   "property": "C67",
   "status": "proved",
   "theorems": [
    "C67_no_starvation",
    "C67_always_finite",
    "C67_built_tables"
   ],
   "note": ""
  },
  {
   "property": "C68",
   "status": "proved",
   "theorems": [
    "C68_guarded",
    "C68_refused",
    "C68_stops_at_self_jump",
    "C68_rom_intact"
   ],
   "note": ""
  },
  {
   "property": "C69",
   "status": "partial",
   "theorems": [
    "C69_loaded_partial",
    "C69_last_byte_refuted"
   ],
   "note": "False as stated: simulator.py 19 and 22 slice one byte short, so $C6FF and $FFFF stay 0 (_refuted); every other byte of the ROM images and the program is loaded (_partial)."
  },
  {
   "property": "C70",
   "status": "proved",
   "theorems": [
    "C70_right_table",
    "C70_bmp2dhr_palette",
    "C70_killed",
    "C70_unknown_refuted"
   ],
   "note": "UNKNOWN, the third palette offered, has no table (_refuted shows it fails); the property as stated holds."
  },
  {
   "property": "C71",
   "status": "proved",
   "theorems": [
    "C71_converts",
    "C71_choices",
    "C71_size",
    "C71_limit_test"
   ],
   "note": ""
  },
  {
   "property": "C72",
   "status": "proved",
   "theorems": [
    "C72_dhgr_small_change",
    "C72_dhgr_ntsc_small_change",
    "C72_hgr_small_change",
    "C72_slow_movie",
    "C72_ntsc_slow_movie"
   ],
   "note": ""
  },
  {
   "property": "C73",
   "status": "proved",
   "theorems": [
    "C73_samples",
    "C73_sync",
    "C73_lag_grows",
    "C73_mix",
    "C73_analysed",
    "C73_short_files",
    "C73_given",
    "C73_bad_buffer"
   ],
   "note": ""
  },
  {
   "property": "C74",
   "status": "proved",
   "theorems": [
    "C74_steady",
    "C74_sample_times"
   ],
   "note": ""
  },
  {
   "property": "C75",
   "status": "proved",
   "theorems": [
    "C75_source_to_speaker",
    "C75_sample_times",
    "C75_hgr_in_sync",
    "C75_dhgr_in_sync"
   ],
   "note": ""
  },
  {
   "property": "C76",
   "status": "proved",
   "theorems": [
    "C76_sound_independent",
    "C76_same_toggles",
    "C76_pictures_independent"
   ],
   "note": ""
  },
  {
   "property": "C77",
   "status": "proved",
   "theorems": [
    "C77_causal",
    "C77_agree"
   ],
   "note": ""
  },
  {
   "property": "C78",
   "status": "proved",
   "theorems": [
    "C78_size",
    "C78_size_of_samples",
    "C78_time",
    "C78_slower"
   ],
   "note": ""
  },
  {
   "property": "C79",
   "status": "proved",
   "theorems": [
    "C79_close",
    "C79_option",
    "C79_shape",
    "C79_operations",
    "C79_differs",
    "C79_source_to_speaker"
   ],
   "note": ""
  },
  {
   "property": "C80",
   "status": "proved",
   "theorems": [
    "C80_pops_least",
    "C80_sorts",
    "C80_same_conversion"
   ],
   "note": ""
  },
  {
   "property": "C81",
   "status": "proved",
   "theorems": [
    "C81_views",
    "C81_constructors",
    "C81_bitmap_shares"
   ],
   "note": ""
  },
  {
   "property": "C82",
   "status": "proved",
   "theorems": [
    "C82_same_conversion",
    "C82_same_states",
    "C82_isolated",
    "C82_again"
   ],
   "note": ""
  },
  {
   "property": "C83",
   "status": "proved",
   "theorems": [
    "C83_check_passes",
    "C83_dhgr_check_exact",
    "C83_hgr_footers_unchecked"
   ],
   "note": ""
  },
  {
   "property": "C84",
   "status": "proved",
   "theorems": [
    "C84_no_flag_instruction",
    "C84_flag_clear",
    "C84_decimal_adc",
    "C84_flag_set",
    "C84_second_ack"
   ],
   "note": ""
  },
  {
   "property": "C85",
   "status": "proved",
   "theorems": [
    "C85_differences",
    "C85_costs",
    "C85_tables",
    "C85_converts"
   ],
   "note": ""
  },
  {
   "property": "C86",
   "status": "proved",
   "theorems": [
    "C86_key_pauses",
    "C86_pauses_ended"
   ],
   "note": ""
  },
  {
   "property": "C87",
   "status": "proved",
   "theorems": [
    "C87_handshake",
    "C87_nothing_received"
   ],
   "note": ""
  },
  {
   "property": "C88",
   "status": "proved",
   "theorems": [
    "C88_distance_is_least_cost",
    "C88_one_pixel",
    "C88_frame_distance",
    "C88_store_error",
    "C88_least_cost_unique"
   ],
   "note": ""
  },
  {
   "property": "C89",
   "status": "proved",
   "theorems": [
    "C89_most_beneficial",
    "C89_priorities_after",
    "C89_residual_smaller"
   ],
   "note": ""
  },
  {
   "property": "C90",
   "status": "proved",
   "theorems": [
    "C90_fourth_store_repeats",
    "C90_three_per_tick",
    "C90_picture_speed",
    "C90_redraw_ticks",
    "C90_five_redraws_a_second"
   ],
   "note": ""
  },
  {
   "property": "C91",
   "status": "proved",
   "theorems": [
    "C91_slow_network",
    "C91_sample_lateness",
    "C91_no_faster"
   ],
   "note": ""
  },
  {
   "property": "C92",
   "status": "proved",
   "theorems": [
    "C92_carrier"
   ],
   "note": ""
  },
  {
   "property": "C93",
   "status": "proved",
   "theorems": [
    "C93_only_encoded_frames",
    "C93_late_frames",
    "C93_hgr_main_memory"
   ],
   "note": ""
  },
  {
   "property": "C94",
   "status": "proved",
   "theorems": [
    "C94_same_opcodes",
    "C94_same_reading"
   ],
   "note": ""
  },
  {
   "property": "C95",
   "status": "proved",
   "theorems": [
    "C95_thinned",
    "C95_exact_rate",
    "C95_computed_clock"
   ],
   "note": ""
  }
 ]
}
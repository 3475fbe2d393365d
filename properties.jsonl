{"id": "C01", "title": "Screen coordinate tables are exact inverse bijections", "statement": "The coordinate tables (row base addresses, x/y to page/offset, page/offset to x/y, address to coordinates) describe the Apple II hi-res layout: for every visible coordinate (x<40, y<192) and both screen pages the address is the hardware address of that byte, lies inside the 8K page, distinct coordinates get distinct addresses, and mapping to (page, offset) and back returns the same coordinate.", "quantifier": "all 192x40 coordinates, both screen pages, all 8192 (page, offset) pairs", "why_tests_cant": "A unit test samples a few coordinates; injectivity relates every pair.", "anchors": ["transcoder/screen.py:y_to_base_addr", "transcoder/screen.py:_populate_mappings", "transcoder/screen.py:ADDR_TO_COORDS"]}
{"id": "C02", "title": "Screen holes are exactly the non-displayed bytes", "statement": "A (page, offset) is flagged as a screen hole if and only if no visible coordinate maps to it, which is exactly when the offset is in the last 8 bytes of a 128-byte half page; there are 7680 visible bytes and 512 holes.", "quantifier": "all 32x256 (page, offset) pairs", "why_tests_cant": "Needs the absence of any coordinate mapping to a hole.", "anchors": ["transcoder/screen.py:SCREEN_HOLES", "transcoder/screen.py:_populate_mappings"]}
{"id": "C03", "title": "Flat and paged memory maps are two views of the same bytes", "statement": "Converting a flat 8K memory map to a paged map and back is the identity; a flat write to an in-range address changes exactly that byte, seen at the matching (page, offset), and a flat write outside the screen page is rejected with an error and changes nothing; constructors reject a screen page other than 1 or 2 and arrays of the wrong shape.", "quantifier": "all memory contents, all addresses, all values", "why_tests_cant": "The frame condition (nothing else changes) ranges over every other byte and every memory image.", "anchors": ["transcoder/screen.py:FlatMemoryMap", "transcoder/screen.py:MemoryMap"]}
{"id": "C04", "title": "Paged writes hit exactly the requested byte", "statement": "On screen page 1, writing a value at (page, offset) changes that byte and no other, whether the page is numbered 32..63 or (as the bitmap code does) 0..31; page numbers outside 0..63 or offsets outside -256..255 raise.", "quantifier": "all memory contents, pages, offsets and values", "why_tests_cant": "Correctness for 0-based pages relies on negative indexing wrapping to the right row for every page.", "anchors": ["transcoder/screen.py:MemoryMap.write", "transcoder/screen.py:Bitmap.apply"]}
{"id": "C05", "title": "DHGR packed representation equals the displayed dots", "statement": "For every DHGR bitmap that can be obtained by constructing it from any main/aux memory and then applying any sequence of byte stores, the packed word of every column is exactly the 34 consecutive displayed dots starting 3 dots before that column (with no dots leaking across memory page boundaries).", "quantifier": "all memory contents, all finite store sequences, all columns", "why_tests_cant": "Quantifies over histories of stores; a test checks a few.", "anchors": ["transcoder/screen.py:DHGRBitmap", "transcoder/screen.py:Bitmap.apply", "transcoder/screen.py:Bitmap._pack"]}
{"id": "C06", "title": "HGR packed representation determines the displayed dots", "statement": "For every HGR bitmap obtained by construction and any sequence of stores, converting the masked packed data of any byte to dots yields exactly the 21 displayed dots (7 doubled bits, half-dot shift of the palette bit, extension of the last bit into the gap) from 3 dots before that byte.", "quantifier": "all memory contents, all finite store sequences, all bytes", "why_tests_cant": "The half-dot shift interacts with both neighbours for all 2^14 windows and all histories.", "anchors": ["transcoder/screen.py:HGRBitmap.to_dots", "transcoder/screen.py:HGRBitmap._body", "transcoder/screen.py:HGRBitmap.masked_update"]}
{"id": "C07", "title": "Incremental update equals repacking", "statement": "After any sequence of byte stores through apply(), the packed bitmap equals the one a freshly constructed bitmap would compute from the updated memory, for HGR and DHGR.", "quantifier": "all memory contents and all finite store sequences", "why_tests_cant": "History property.", "anchors": ["transcoder/screen.py:Bitmap.apply", "transcoder/screen.py:Bitmap._fix_scalar_neighbours", "transcoder/screen.py:Bitmap._pack"]}
{"id": "C08", "title": "A store changes one byte of one bank", "statement": "apply(page, offset, is_aux, value) changes exactly the byte (page, offset) of the selected bank; every other byte of that bank and every byte of the other bank is unchanged, and at most the packed column itself and one neighbouring column change.", "quantifier": "all bitmaps, pages, offsets, banks, values", "why_tests_cant": "Frame condition over every other byte.", "anchors": ["transcoder/screen.py:Bitmap.apply"]}
{"id": "C09", "title": "Masked values always index the distance table", "statement": "Masking and shifting the packed data of any byte gives a value in 0..2^MASKED_BITS-1, so the (source, target) pair index is always inside the edit-distance table and is a one-to-one encoding of the pair; the assertion in mask_and_shift_data never fires.", "quantifier": "all packed words reachable or not, all byte offsets", "why_tests_cant": "All 2^34 packed words.", "anchors": ["transcoder/screen.py:Bitmap.mask_and_shift_data", "transcoder/screen.py:Bitmap._diff_weights", "transcoder/screen.py:Bitmap.byte_pair_difference"]}
{"id": "C10", "title": "What-if distances equal the effect of a real store", "statement": "For every offset of a page, the distance reported for storing a content byte there (computed by storing it at all offsets at once) equals the distance computed from the bitmap in which the byte is really stored at that one offset, with apply().", "quantifier": "all bitmaps, pages, contents, offsets, banks, distance tables", "why_tests_cant": "The array version stores everywhere and wraps around the page edge; that this never disturbs any masked value is a statement over all words.", "anchors": ["transcoder/screen.py:Bitmap.compute_delta_page", "transcoder/screen.py:Bitmap._diff_weights_page", "transcoder/screen.py:Bitmap._fix_array_neighbours"]}
{"id": "C11", "title": "Pixel colours follow the NTSC sliding window", "statement": "Pixel i of the colour sequence depends only on dots i..i+3, and bit j of its colour is the unique dot of that window whose absolute position (offset by the initial phase) is congruent to j mod 4; the sequence has exactly the requested length.", "quantifier": "all lengths, dot patterns and phases", "why_tests_cant": "Unbounded dot sequences.", "anchors": ["transcoder/colours.py:dots_to_nominal_colour_pixels", "transcoder/colours.py:rol"]}
{"id": "C12", "title": "The per-byte window sees exactly the pixels a store can affect", "statement": "For any page contents and any byte, the colour string obtained from the byte's masked window equals the corresponding pixels of a rendering of the whole page, and storing a different value in that byte leaves the colour of every pixel outside the window unchanged (HGR and DHGR).", "quantifier": "all memory contents, bytes and stored values", "why_tests_cant": "Relates local tables to global rendering for all screens.", "anchors": ["transcoder/screen.py:Bitmap.BYTE_MASKS", "transcoder/screen.py:Bitmap.PHASES", "transcoder/screen.py:Bitmap.MASKED_DOTS", "transcoder/make_data_tables.py:compute_edit_distance"]}
{"id": "C13", "title": "Colour rotations", "statement": "ror and rol by any count are mutually inverse permutations of 4-bit values with period 4, and a repeating 4-dot pattern of any length is displayed as one constant colour whatever the starting phase.", "quantifier": "all 4-bit values, counts, lengths, phases", "why_tests_cant": "Unbounded counts and lengths.", "anchors": ["transcoder/colours.py:ror", "transcoder/colours.py:rol"]}
{"id": "C14", "title": "Column context stays on its scan line", "statement": "The dots to the left and right of a byte that are packed as its context are those of its neighbours on the same scan line.", "quantifier": "all visible bytes", "why_tests_cant": "Refutation target: ranges over every row edge.", "anchors": ["transcoder/screen.py:Bitmap._pack"]}
{"id": "C15", "title": "Distance table is symmetric with zero diagonal", "statement": "The loaded distance table satisfies dist(a,b) = dist(b,a), dist(a,a) = 0, and dist(a,b) is the edit distance of the two pixel strings, for every pair of masked values, although only one triangle is stored.", "quantifier": "all pairs of masked values, both bitmap types, any palette", "why_tests_cant": "2^26 to 2^28 pairs per table and any palette.", "anchors": ["transcoder/screen.py:Bitmap.edit_distances", "transcoder/make_data_tables.py:compute_edit_distance"]}
{"id": "C16", "title": "Zero distance means no visible difference", "statement": "With positive costs between distinct colours, two masked values have distance 0 if and only if they display the same colours, and for DHGR if and only if they are equal; moreover the distance always fits the 16-bit table entry.", "quantifier": "all pairs of masked values, all cost matrices", "why_tests_cant": "All pairs and all palettes.", "anchors": ["transcoder/make_data_tables.py:edit_distance", "transcoder/make_data_tables.py:compute_edit_distance", "transcoder/make_data_tables.py:compute_substitute_costs"]}
{"id": "C17", "title": "Substitution costs are symmetric and complete", "statement": "Whatever the (possibly asymmetric) perceptual difference matrix, the generated substitution costs are symmetric, cover all 16x16 colour pairs with the perceptual difference of that pair in one order, and the error costs are 5 times them.", "quantifier": "all difference matrices, all colour pairs", "why_tests_cant": "All matrices.", "anchors": ["transcoder/make_data_tables.py:compute_substitute_costs"]}
{"id": "C18", "title": "DHGR distances use the colours they name", "statement": "The substitution cost between two DHGR colours is the perceptual distance between the palette RGB values of those two colours.", "quantifier": "all pairs of DHGR colours", "why_tests_cant": "Refutation target.", "anchors": ["transcoder/make_data_tables.py:compute_diff_matrix", "transcoder/make_data_tables.py:main", "transcoder/palette.py:NTSCPalette.RGB", "transcoder/colours.py:DHGRColours"]}
{"id": "C19", "title": "Encoding a frame never trips an internal assertion", "statement": "Starting from any encoder state reachable by encoding any frames, in any bank order, with any random tie-breaking and abandoning any frame at any point, producing the next change never raises: no store targets a screen hole, priorities stay non-negative, no duplicate of the primary offset is chosen (DHGR: provided the target frame has no palette bits).", "quantifier": "all frame sequences, bank schedules, abandonment points, random choices, distance tables", "why_tests_cant": "Histories and random choices.", "anchors": ["transcoder/video.py:Video.encode_frame", "transcoder/video.py:Video._index_changes", "transcoder/video.py:Video._compute_error"]}
{"id": "C20", "title": "Every change tuple is well formed", "statement": "Each yielded (page, content, offsets) has 32 <= page <= 63, exactly 4 offsets in 0..255 naming visible bytes only, and content equal to the target frame's byte at the first offset.", "quantifier": "all frame sequences, random choices and positions in the sequence", "why_tests_cant": "Histories.", "anchors": ["transcoder/video.py:Video._index_changes"]}
{"id": "C21", "title": "Change tuples replay to the encoder's screen model", "statement": "Storing each yielded content byte at its 4 offsets reproduces exactly the encoder's own memory map for that bank after that change (outside the idle padding).", "quantifier": "all frame sequences, bank schedules, random choices", "why_tests_cant": "Histories.", "anchors": ["transcoder/video.py:Video._index_changes", "transcoder/screen.py:Bitmap.apply"]}
{"id": "C22", "title": "Changes fill all four slots", "statement": "When at least three other offsets would benefit from the content byte, the change tuple stores at four distinct offsets.", "quantifier": "all encoder states", "why_tests_cant": "Refutation target: at most 3 distinct offsets are ever used.", "anchors": ["transcoder/video.py:Video._index_changes"]}
{"id": "C23", "title": "Greedy priority order", "statement": "The first offset of each change has the highest outstanding priority among all offsets queued for the frame.", "quantifier": "all encoder states and random tie-breaks", "why_tests_cant": "All states.", "anchors": ["transcoder/video.py:Video._index_changes", "transcoder/video.py:Video._heapify_priorities"]}
{"id": "C24", "title": "A frame is finished after at most one change per differing byte", "statement": "If uninterrupted, encoding a frame reaches idle padding after at most as many changes as there are bytes with non-zero priority (at most 7680), and then no priority is outstanding.", "quantifier": "all encoder states, targets and random choices", "why_tests_cant": "Termination for every state.", "anchors": ["transcoder/video.py:Video._index_changes"]}
{"id": "C25", "title": "Converged means equal", "statement": "When encoding of a bank runs out of work, every visible byte either shows no distance to the target or equals it; with a distance table that is zero only on equal masked values, the bank's visible memory equals the target's exactly.", "quantifier": "all encoder states, targets and random choices, all discriminating tables", "why_tests_cant": "Histories.", "anchors": ["transcoder/video.py:Video._index_changes", "transcoder/video.py:Video.out_of_work"]}
{"id": "C26", "title": "Extra stores never hurt", "statement": "Every extra offset at which a change stores its content byte had an outstanding difference, and the error the store leaves there is strictly smaller than the difference recorded at the start of the frame.", "quantifier": "all encoder states, targets, random choices", "why_tests_cant": "All states.", "anchors": ["transcoder/video.py:Video._compute_error", "transcoder/video.py:Video._index_changes"]}
{"id": "C27", "title": "Banks do not interfere", "statement": "Encoding changes for one memory bank never modifies the other bank's memory map or priorities, and the packed bitmap stays equal to the packing of both memory maps.", "quantifier": "all encoder histories", "why_tests_cant": "Histories.", "anchors": ["transcoder/video.py:Video.encode_frame", "transcoder/screen.py:Bitmap.apply"]}
{"id": "C28", "title": "Priorities fit in 32 bits", "statement": "However many frames have been encoded and wherever each was abandoned, every outstanding priority, and every sum formed when a frame starts, is between 0 and 2^31-1 (after n frames at most min(n,7680)*65535), so the 32-bit arithmetic never overflows; it is 0 on screen holes.", "quantifier": "all encoder histories, of any number of frames", "why_tests_cant": "An overflow would need histories of tens of thousands of frames; the bound comes from the highest-first service order.", "anchors": ["transcoder/video.py:Video._index_changes"]}
{"id": "C29", "title": "Idle padding is harmless to the model", "statement": "When out of work the yielded padding changes leave the displayed memory equal to the encoder's memory map.", "quantifier": "all encoder states", "why_tests_cant": "Refutation target (HGR palette-bit equivalence); the proved part is that only byte (0,0) can differ.", "anchors": ["transcoder/video.py:Video._index_changes"]}
{"id": "C30", "title": "Stream framing", "statement": "The emitted byte stream has a length that is a positive multiple of 2048; every 2048-byte frame before the last ends with exactly one 4-byte ACK and no other opcode straddles a frame boundary.", "quantifier": "all opcode sequences of header and ticks of any length, both modes, any size limit", "why_tests_cant": "Unbounded stream lengths.", "anchors": ["transcoder/movie.py:Movie.emit_stream", "transcoder/movie.py:Movie.done"]}
{"id": "C31", "title": "ACK alignment assertion never fires", "statement": "emit_stream never raises for the opcodes that encode() yields.", "quantifier": "all audio/video inputs", "why_tests_cant": "Unbounded streams.", "anchors": ["transcoder/movie.py:Movie.emit_stream"]}
{"id": "C32", "title": "The byte stream decodes to the opcode sequence", "statement": "Reading the stream as the player does (7-byte header, then 2-byte big-endian addresses followed by the opcode's data) yields exactly the header, the tick opcodes in order with their page, duty cycle, content and offsets, ACKs at the frame ends, then TERMINATE and zero padding.", "quantifier": "all opcode sequences", "why_tests_cant": "Round trip over all sequences.", "anchors": ["transcoder/movie.py:Movie.emit_stream", "transcoder/machine.py:Machine.emit", "transcoder/opcodes.py:Opcode.emit_command", "transcoder/opcodes.py:BaseTick.emit_data"]}
{"id": "C33", "title": "Bank switching follows the frames", "statement": "In DHGR mode the k-th ACK selects AUX for odd k and MAIN for even k, in HGR always MAIN, and every tick opcode between two ACKs was computed by the encoder for the bank that the player has selected at that point.", "quantifier": "all audio/video inputs and stream positions", "why_tests_cant": "Coroutine interleaving over unbounded streams.", "anchors": ["transcoder/movie.py:Movie.encode", "transcoder/movie.py:Movie.emit_stream", "transcoder/opcodes.py:Ack.emit_data"]}
{"id": "C34", "title": "Output size limit", "statement": "With a size limit, output stops within one opcode of the limit and is at most the limit rounded up plus one 2048-byte frame; without limit everything is emitted. (The stronger claim that output never exceeds the limit is refuted.)", "quantifier": "all limits and opcode sequences", "why_tests_cant": "All limits/lengths.", "anchors": ["transcoder/movie.py:Movie.emit_stream", "transcoder/movie.py:Movie.done"]}
{"id": "C35", "title": "One tick per audio sample", "statement": "Without a size limit the number of tick opcodes equals the number of audio samples up to the point where the video frames run out, and the duty cycle of the k-th tick is that of the k-th sample.", "quantifier": "all audio and video inputs", "why_tests_cant": "Unbounded inputs.", "anchors": ["transcoder/movie.py:Movie.encode"]}
{"id": "C36", "title": "Frame clock", "statement": "If there is at least one tick per frame, after t ticks exactly 1+floor(t*rate/bitrate) frames have been started, so audio and video never drift; exactly frames 1, 1+n, 1+2n... are encoded for every_n_video_frames = n.", "quantifier": "all tick counts, rates, n", "why_tests_cant": "Unbounded time.", "anchors": ["transcoder/video.py:Video.tick", "transcoder/movie.py:Movie.encode"]}
{"id": "C37", "title": "Audio samples always have an opcode", "statement": "Whatever the decoded sample value, its duty cycle is one of 4,6,..,66, so the opcode lookup never fails; the mapping is monotone, exact inside the range and centred at 34.", "quantifier": "all sample values", "why_tests_cant": "All integers.", "anchors": ["transcoder/audio.py:Audio.audio_stream", "transcoder/movie.py:Movie.encode", "transcoder/opcodes.py:TICK_OPCODES"]}
{"id": "C38", "title": "Opcode addresses are complete and unambiguous", "statement": "Every opcode the transcoder can emit has an address in the shipped player symbol file, no two opcodes share an address, so different opcodes never compile to the same command bytes.", "quantifier": "all 1028 opcodes, all pairs", "why_tests_cant": "All pairs; finite but exhaustive.", "anchors": ["transcoder/opcodes.py:_fill_opcode_addresses", "transcoder/opcodes.py:_parse_symbol_table", "player/iivision.dbg"]}
{"id": "C39", "title": "Opcode equality means same bytes", "statement": "Two opcodes compare equal exactly when they are of the same kind with equal data, equality is an equivalence, and for byte-valued data it holds exactly when they emit the same bytes.", "quantifier": "all pairs of opcodes", "why_tests_cant": "All pairs.", "anchors": ["transcoder/opcodes.py:Opcode.__eq__", "transcoder/opcodes.py:BaseTick.__data_eq__", "transcoder/machine.py:Machine.emit"]}
{"id": "C40", "title": "Tick opcode machine code does what the transcoder assumes", "statement": "Executing the player routine for (tick, page) from any state with X=0 reads 7 stream bytes, stores the first at the offsets given by the next four on that page, jumps to the address in the last two, toggles the speaker twice tick cycles apart (21 for 22, 39 for 40, contrary to the comment in the source that says 41), takes 73 cycles and leaves X=0.", "quantifier": "all 32x32 routines, all stream bytes, all machine states", "why_tests_cant": "All states and all bytes.", "anchors": ["player/main.s:op_tick_4..op_tick_66"]}
{"id": "C41", "title": "ACK slow path", "statement": "Executing ACK and the receive check (data available, no key) consumes exactly the 2 data bytes, touches the soft switch named by the first, advances the receive read pointer by 2048, takes 2x73 cycles with speaker toggles 34 cycles apart in each, restores the stream pointer and X=0.", "quantifier": "all machine states", "why_tests_cant": "All states.", "anchors": ["player/main.s:op_ack", "player/main.s:checkrecv", "player/main.s:recv", "player/main.s:op_nop"]}
{"id": "C42", "title": "Shipped symbols match the player source", "statement": "Assembling the player source gives exactly the addresses recorded in the shipped symbol file for every opcode, the routines fit between $0800-$1FFF and $4000-$BAFF without overlapping each other or the hi-res page, and the timing-critical branches do not cross a page.", "quantifier": "all opcode routines", "why_tests_cant": "Exhaustive layout.", "anchors": ["player/main.s:main", "player/iivision.dbg"]}
{"id": "C43", "title": "In-order delivery for every network schedule", "statement": "For every schedule of TCP arrivals, every byte the player reads from the socket buffer during playback is the next byte of the stream, already arrived and not overwritten.", "quantifier": "all streams, all arrival schedules", "why_tests_cant": "Schedules.", "anchors": ["player/main.s:checkrecv", "player/main.s:op_ack", "player/main.s:wait_read_header"]}
{"id": "C44", "title": "Playback reaches TERMINATE", "statement": "If the network eventually delivers the stream produced by the transcoder, the player executes every opcode of it and reaches TERMINATE, never waiting for bytes that will not come.", "quantifier": "all transcoder outputs, all fair schedules", "why_tests_cant": "Liveness over schedules.", "anchors": ["player/main.s:checkrecv", "transcoder/movie.py:Movie.done"]}
{"id": "C45", "title": "End-to-end screen", "statement": "After the player has executed the k-th tick opcode of a transcoded movie, its main and aux hi-res memories equal the transcoder's memory maps at the moment that opcode was generated (except byte (0,0) once idle padding has been emitted).", "quantifier": "all movies, all k, all random choices", "why_tests_cant": "Composition of two programs over unbounded histories.", "anchors": ["transcoder/movie.py:Movie.encode", "transcoder/movie.py:Movie.emit_stream", "transcoder/video.py:Video._index_changes", "player/main.s:main"]}
{"id": "C46", "title": "End-to-end audio", "statement": "The k-th pair of speaker toggles of playback is separated by the duty cycle encoding the k-th audio sample (to within one cycle), 73 cycles per sample plus 146 per ACK.", "quantifier": "all movies", "why_tests_cant": "Composition.", "anchors": ["transcoder/movie.py:Movie.encode", "player/main.s:main"]}
{"id": "C47", "title": "The player only writes where it may", "statement": "During playback every memory write goes to the hi-res page, the player's own jump operands, two scratch locations, or I/O space: code and ProDOS memory are never overwritten.", "quantifier": "all streams made of opcode addresses, all states", "why_tests_cant": "All executions.", "anchors": ["player/main.s:main"]}
{"id": "C48", "title": "Frames arrive in order under every thread interleaving", "statement": "For every interleaving of the background worker and the consumer, the frames yielded are exactly the decoded frames in order, without loss or duplication, at most 10 are buffered, and if nothing fails the iterator finishes after the last frame.", "quantifier": "all frame lists, all interleavings", "why_tests_cant": "Schedules.", "anchors": ["transcoder/frame_grabber.py:FileFrameGrabber.frames"]}
{"id": "C49", "title": "A failing worker terminates the iterator", "statement": "If decoding a frame fails in the background worker, the consumer does not wait forever.", "quantifier": "all failure points", "why_tests_cant": "Refutation target: crash point.", "anchors": ["transcoder/frame_grabber.py:FileFrameGrabber.frames"]}
{"id": "C50", "title": "Interrupted conversions are not reused", "statement": "Rerunning after a crash at any point during frame conversion yields the same frames as an uninterrupted run.", "quantifier": "all crash points", "why_tests_cant": "Refutation target: crash points.", "anchors": ["transcoder/frame_grabber.py:_hgr_decode", "transcoder/frame_grabber.py:_dhgr_decode"]}
{"id": "C51", "title": "Cache and output paths are distinct per input", "statement": "Different inputs use different frame-cache directories and the output file never overwrites the input; for names with an extension only the extension is replaced.", "quantifier": "all file names", "why_tests_cant": "All strings; partly refuted.", "anchors": ["transcoder/frame_grabber.py:FileFrameGrabber._output_dir", "transcoder/main.py:main"]}
{"id": "C52", "title": "Symbol file parsing", "statement": "Parsing a debug file returns, for every symbol, the attributes of the last line defining it, ignores all other lines, and parsing the printed form of any symbol list returns that list.", "quantifier": "all files", "why_tests_cant": "All strings.", "anchors": ["transcoder/symbol_table.py:SymbolTable.parse"]}
{"id": "C53", "title": "Normalisation clips few samples", "statement": "With automatic normalisation at most 1% of the analysed samples (plus rounding) exceed full scale.", "quantifier": "all sample sequences", "why_tests_cant": "All sequences.", "anchors": ["transcoder/audio.py:Audio._normalization"]}
{"id": "C54", "title": "Simulator soft switches", "statement": "After any sequence of accesses a soft switch reads back as set exactly if it was last set.", "quantifier": "all access sequences", "why_tests_cant": "Histories; refuted (status is always 0).", "anchors": ["simulator/machine.py:SoftSwitch"]}
{"id": "C55", "title": "Simulator W5100 address registers", "statement": "Writing the high and then the low address register (in either order) makes the next data access use the combined address; sequential accesses visit consecutive addresses and wrap inside the receive buffer.", "quantifier": "all addresses, all access sequences", "why_tests_cant": "All addresses; partly refuted.", "anchors": ["simulator/apple2.py:AppleII._uther_wadrh", "simulator/apple2.py:AppleII._uther_wadrl", "simulator/uthernet.py:Uthernet.read_data"]}
{"id": "C56", "title": "Simulator I/O traps", "statement": "Every access to an unmapped I/O address or with an unsupported mode raises a trap and changes no device state; accesses to mapped addresses invoke exactly the registered handler; write-protected regions never change.", "quantifier": "all addresses, values and access sequences", "why_tests_cant": "Histories.", "anchors": ["simulator/machine.py:Machine.io_interceptor", "simulator/memory.py:MemoryManager.RegisterRegion"]}
{"id": "C57", "title": "Start-up: connects or gives up", "statement": "Started with any registers, memory contents outside the program and network card state, the player configures the card (addresses, 8K buffers, TCP, server port 1977) and tries to connect; a refused attempt prints a dot and is retried; it ends up connected after at most five refusals, or after six prints the error message and stops. It writes only the reset vector, its counter, the stack and the card.", "quantifier": "all initial machine states, all schedules of answers, bytes and key presses", "why_tests_cant": "Arbitrary initial states and answer schedules.", "anchors": ["player/main.s:bootstrap", "player/main.s:reset_w5100", "player/main.s:CHECKTEST", "player/main.s:FAILED", "player/main.s:ERRDONE"]}
{"id": "C58", "title": "End to end: from program start to the end of the movie", "statement": "If the server accepts and the network keeps delivering, the player started from scratch reaches every opcode of a converted movie in order, with exactly the picture the preceding opcodes draw, arrives in TERMINATE having shown the whole movie, and, when keys are pressed, quits to ProDOS.", "quantifier": "all conversions, initial machine states and schedules", "why_tests_cant": "Whole executions of unbounded length under every schedule.", "anchors": ["player/main.s", "transcoder/movie.py:Movie.emit_stream"]}
{"id": "C59", "title": "The last picture stays until a key is pressed", "statement": "After TERMINATE the player waits and changes nothing (memory, switches, speaker) until a key is pressed; then it leaves. A key pressed before TERMINATE does not count.", "quantifier": "all schedules, any waiting time", "why_tests_cant": "Unbounded waiting under every schedule.", "anchors": ["player/main.s:op_terminate"]}
{"id": "C60", "title": "Reset leaves the player cleanly", "statement": "From the time the player is connected (or has given up) until TERMINATE, a press of RESET leads to ProDOS's QUIT call with well-formed parameters, whatever registers and switches the ROM leaves; and then the reset vector is marked invalid.", "quantifier": "all streams, schedules, times of the reset and ROM effects outside the player", "why_tests_cant": "Any interruption point.", "anchors": ["player/main.s:exit", "player/main.s:bootstrap"]}
{"id": "C61", "title": "An idle encoder's bytes are the target's", "statement": "When encode_frame has run out of differences, every displayed byte of the bank it worked on equals the target's, except (hi-res only) where both are all-clear or both all-set apart from the palette bit, as the debugging assertions in video.py describe; in double hi-res, idle on one bank and then on the other makes both banks equal to the target.", "quantifier": "all encoder states, targets, banks, palettes without identical colours in double hi-res, lengths of the run", "why_tests_cant": "The assertions are commented out, and must hold for every picture and every history of earlier pictures.", "anchors": ["transcoder/video.py:Video._index_changes", "transcoder/video.py:Video.encode_frame"]}
{"id": "C62", "title": "Caught-up screen equals the source frame, end to end", "statement": "Whenever the encoder was idle on a bank after compiling the opcodes the player has run so far, the Apple II's memory (double hi-res) or its dots (hi-res) for that bank are those of the source frame that is due at that tick.", "quantifier": "all conversions, streams, network schedules, positions in the stream", "why_tests_cant": "Composes grabber order, frame timing, encoder convergence, serialisation and the 6502 player for every movie.", "anchors": ["transcoder/movie.py:Movie.encode", "transcoder/video.py:Video.encode_frame", "player/main.s"]}
{"id": "C63", "title": "A still hi-res picture is shown exactly after 7680 ticks", "statement": "If the same encoded source frame is due for at least 7680 ticks, then from then on, until another is due, the player's hi-res screen shows it dot for dot.", "quantifier": "all movies, earlier pictures, network schedules, lengths of the still", "why_tests_cant": "A bound over every picture and every previous screen.", "anchors": ["transcoder/movie.py:Movie.encode", "transcoder/video.py:Video._index_changes", "player/main.s"]}
{"id": "C64", "title": "Any build of the player is loaded or refused", "statement": "For every debug listing of the form the linker writes, loading the opcodes gives each opcode exactly the address on the last line for its routine's symbol, and fails with an error if some opcode has no (or a zero) address.", "quantifier": "all listings, all opcodes", "why_tests_cant": "All listings of future player builds.", "anchors": ["transcoder/opcodes.py:_fill_opcode_addresses", "transcoder/opcodes.py:_parse_symbol_table"]}
{"id": "C65", "title": "A truncated or stalled stream is played as far as its whole frames, then waited for", "statement": "If only the first bytes of a stream ever arrive (the transcoder crashed while writing the file, or the network stalls), the player plays every opcode in the 2048-byte frames that arrived whole, shows exactly the picture they draw, and then waits for ever without taking another byte, without changing the picture and without writing outside the permitted locations.", "quantifier": "all playable streams, all lengths of the part that arrives, all network and key schedules, all times", "why_tests_cant": "Every crash point, every schedule, and waiting for ever.", "anchors": ["player/main.s:checkrecv", "player/main.s:recv", "player/main.s:op_ack", "transcoder/main.py:main"]}
{"id": "C66", "title": "The server gives every client the whole file, in turn", "statement": "Whatever clients connect, stall, take data or drop, and even if the file changes meanwhile, every client receives only the beginning of one version of the file, all of it once the server is done with it unless it dropped; clients are served in the order of their connections, so a client that stalls blocks all later ones; as long as the network goes on accepting data everybody is served. The default port is the one the player connects to, and a movie served while it is still being converted never plays beyond the part that was there. A finished movie is given whole to every client that stays, and a player that is given it plays all of it.", "quantifier": "all sequences of connections, drops, deliveries and file changes; all fair schedules", "why_tests_cant": "All interleavings of any number of clients, and liveness.", "anchors": ["server/server.py:main", "player/main.s:FPORT", "transcoder/main.py:main"]}
{"id": "C67", "title": "No byte is starved", "statement": "A byte of the screen that keeps differing from the frames to be shown is stored to after finitely many frames: if every frame of the movie gets at least r changes and the table's nonzero distances are between dmin and dmax, a byte cannot be left waiting by more than ceil(7680/r)*dmax/dmin frames of its bank that yielded changes (for tables built by make_data_tables.py from colour differences of at most M: ceil(7680/r)*18*M for HGR, ceil(7680/r)*10*M for DHGR).", "quantifier": "all encoder histories (any frames, any abandonment points, any interleaving of the two banks), all bytes, all tables, all random choices", "why_tests_cant": "A liveness bound over unbounded histories of competing bytes.", "anchors": ["transcoder/video.py:Video._index_changes", "transcoder/video.py:Video._heapify_priorities"]}
{"id": "C68", "title": "The simulator guards region crossings", "statement": "While the simulator runs a program, execution enters another memory region only at one of the ROM's four entry points or right after an RTS; anything else is refused with the address reached, before the instruction there runs. The run ends normally exactly when an instruction leaves the program counter in place, and hi-res page 2, the slot ROMs and the ROM keep their contents throughout.", "quantifier": "all processors, programs, machine states and numbers of steps", "why_tests_cant": "Programs and run lengths are unbounded.", "anchors": ["simulator/apple2.py:AppleII.Run", "simulator/memory.py:MemoryManager.MaybeInterceptExecution"]}
{"id": "C69", "title": "The simulator loads the whole ROM", "statement": "When the simulator starts, the slot 6 ROM region, the main ROM region, the player's code and the output vector hold the bytes of the images they were loaded from.", "quantifier": "all ROM images and player binaries up to 16 KB", "why_tests_cant": "All images; the images are not part of the repository.", "anchors": ["simulator/simulator.py:main"]}
{"id": "C70", "title": "The encoder uses the distance table of the chosen palette and mode", "statement": "After make_data_tables.py has run to its end - whatever table files (none, old, half written) existed before - main.py --palette NTSC or IIGS in either video mode loads exactly the table computed from that palette's RGB values for that mode, and bmp2dhr is told the number of the same palette. If make_data_tables is killed at any point, a table that still loads is either the previous one or the right one, never a mixture. (The third palette offered by the command line, UNKNOWN, has no table and the conversion fails.)", "quantifier": "all prior contents of the data directory, all modes and palettes, all kill points of make_data_tables, all colour difference functions", "why_tests_cant": "Ranges over every prior state of the file system and every kill point; the table contents depend on an arbitrary colour difference.", "anchors": ["transcoder/make_data_tables.py: make_edit_distance, main", "transcoder/screen.py: Bitmap.edit_distances", "transcoder/palette.py: Palette, PALETTES", "transcoder/frame_grabber.py: _palette_arg", "transcoder/main.py"]}
{"id": "C71", "title": "Every usable combination of options converts, within the size asked for", "statement": "With the tables in place, main.py with any video mode, palette (NTSC or IIGS), every_n_video_frames >= 1 and max_output_mb >= 0 converts every decodable input without raising, into a movie the shipped player can play, in the mode and for the palette asked for. With max_output_mb = x > 0 (any fraction) the file is less than 4096 bytes larger than x * 2^20 bytes, and if it is not larger than x * 2^20 bytes then it is the whole movie; 0 means no limit.", "quantifier": "all option values, all audio and frame sequences, all previous table files", "why_tests_cant": "Ranges over all option values (fractional megabytes included) and all inputs.", "anchors": ["transcoder/main.py: parser, main", "transcoder/movie.py: Movie.__init__, emit_stream"]}
{"id": "C72", "title": "Small changes between frames are shown exactly", "statement": "(For frames whose 1024 undisplayed bytes are 0.) Double hi-res, a palette whose colours can be told apart: when a new frame becomes due and the screen then differs from it in at most 97 of the 16384 bytes, the player's screen equals the frame in every byte of both banks from 877 ticks (60 ms) later for as long as the frame is due. With the default NTSC palette the same holds for frames without grey pixels that differ in at most 95 bytes, except for the first byte of each bank. Hi-res: a frame that differs in d bytes is shown dot by dot 3*d+4 ticks after it became due. Hence a slow movie, whose encoded frames are due for 877 ticks each and differ from the one before in at most 97 bytes, is shown frame by frame without any error, however long it is.", "quantifier": "all movies, frames, tables of the given kind, random draws, network schedules, times", "why_tests_cant": "Depends on which of the up to 8192 bytes of a bank the encoder picks, in which order, for all frame contents and random tie breaks, on where in the bank alternation the frame becomes due, and on the network schedule.", "anchors": ["transcoder/video.py: Video.encode_frame, _index_changes, _diff_weights, _heapify_priorities", "transcoder/movie.py: Movie.encode, emit_stream, _emit_bytes", "player/main.s: op_tick_*, op_ack"]}
{"id": "C73", "title": "Sound keeps up with the source, and is the mix of its channels", "statement": "For sound delivered in any buffers of whole sample frames (any number of channels, any rates), the sample stream never raises, every value has a duty cycle, and when the k-th buffer begins the number of samples emitted is that of the source's time, never less and at most k more; so with the frame clock the pictures are never behind the sound and the sound is late by at most one sample per buffer (for CD sound in the buffers asked for, exactly a third of a sample per buffer: 0.11 s per hour). If the source has the movie's rate, every sample is the mean of the channels of its sample frame, scaled, truncated and clipped, however the file is cut into buffers. The automatic normalisation analyses the whole file if it has at most 10 MiB, else more than the first 10 MiB; in the former case at most 1% of the samples (plus less than two) is louder than full scale. A normalisation factor given on the command line is used as it is, without analysing the file; a buffer that does not hold whole sample frames ends the stream with a ValueError after all samples before it.", "quantifier": "all sound data, channel counts, rates, buffer sizes, resamplers of the documented length, normalisation options", "why_tests_cant": "Ranges over all ways of cutting a file into buffers and all lengths; the lag accumulates over hours.", "anchors": ["transcoder/audio.py: Audio.__init__, _decode, _normalization, audio_stream", "transcoder/movie.py: Movie.encode", "transcoder/video.py: Video.tick"]}
{"id": "C74", "title": "A fast enough network never stalls playback", "statement": "If the network offers at least 2048 bytes in every part of the run that takes 21243 CPU cycles or more (about 98 kB/s), and no key is pressed, then once the first opcode is reached the player never waits again: every opcode of the stream is reached at a time that depends on the opcodes alone (73 cycles per tick, 146 per ACK), every speaker toggle is where the opcodes put it, and sample number j of a conversion starts exactly 73 j + 146 floor((j+1)/292) cycles after sample 0.", "quantifier": "all streams the player can play (all conversions), all connected machine states, all delivery schedules with the bandwidth, all opcodes and samples", "why_tests_cant": "needs every arrival pattern of bytes with the given bandwidth, for streams of every length; a test sees a few patterns, and a stall of 25 cycles is inaudible in a spot check", "anchors": ["player/main.s: checkrecv, recv, op_ack, op_tick_*, and the rate comment at 376-390", "transcoder/movie.py: Movie.emit_stream, Movie.encode"]}
{"id": "C75", "title": "From source file to speaker and screen", "statement": "With tables produced by make_data_tables, the program's options, a linker map, a sound source in any buffers and a normalisation factor: the conversion succeeds, a player started on an empty machine that reaches a server plays all of it, the j-th sample sounds as two toggles of the speaker whose distance is 33 or 34 cycles plus twice the clipped, scaled mean of the channels of the source's j-th sample, at cycle 73 j + 146 floor((j+1)/292) after the first when the network is fast enough; and whenever n samples have been sounded and the encoder is idle, the screen shows the source frame of time n / bitrate (in steps of every_n frames, up to the rounding of a double).", "quantifier": "all options, palettes, sounds, buffers, frame sequences, frame rates, schedules of arriving bytes and key presses", "why_tests_cant": "composes converter, file format, network and 6502 player over all inputs and schedules; no test in the repository connects the two halves", "anchors": ["transcoder/main.py", "transcoder/audio.py: Audio.audio_stream, Audio._decode", "transcoder/movie.py: Movie.encode, Movie.emit_stream", "transcoder/video.py: Video.tick", "player/main.s"]}
{"id": "C76", "title": "Sound and pictures do not influence each other", "statement": "Two conversions of the same sound with the same frame clock, size limit and number of frames, but any frames, palettes, distance tables, random numbers, video modes and numbers of skipped frames, have files of the same length with the same kinds of opcodes at the same places and the same duty cycles; on networks that are fast enough the speaker is toggled at exactly the same times in both. Conversely two conversions of the same frames with any two sounds of the same length store the same bytes at the same screen positions at every tick.", "quantifier": "all pairs of conversions (all frames, tables, random draws, sounds, options), all pairs of network schedules", "why_tests_cant": "a relation between two runs over all inputs (non-interference); a test compares single pairs", "anchors": ["transcoder/movie.py: Movie.encode, Movie.emit_stream", "transcoder/video.py: Video.tick, Video.encode_frame", "transcoder/opcodes.py: TICK_OPCODES"]}
{"id": "C77", "title": "A conversion does not depend on the future", "statement": "If sound and pictures are continued in any way, the opcodes of the longer movie begin with the opcodes of the shorter one (for the same random numbers); so two movies that agree up to a point have the same stream, hence the same playback, up to the opcodes of the movie cut at that point.", "quantifier": "all configurations, sounds, frame sequences and continuations", "why_tests_cant": "a relation between two runs over all inputs and all continuations", "anchors": ["transcoder/movie.py: Movie.encode, Movie.emit_stream", "transcoder/video.py: Video.encode_frame"]}
{"id": "C78", "title": "File size and playing time follow from the number of samples", "statement": "For every conversion, with n = number of audio samples in the stream (all the samples, if no size limit is given and there are enough frames), the file has exactly 2048*(floor((n+1)/292)+1) bytes and floor((n+1)/292) ACKs, whatever the video mode, palette, pictures, random numbers and sounds are; and over a network that delivers 2048 bytes per 21243 cycles the shipped player takes exactly 73n + 146*floor((n+1)/292) cycles from the first opcode to the terminating one, i.e. 73.5 cycles per sample up to at most 146 cycles. Consequently a sound sampled at the default 14700 Hz plays more than 5.8% slower than it was recorded on a processor of 1020484 Hz.", "quantifier": "every configuration, sound, sequence of frames, conversion, network schedule with that bandwidth and number of samples", "why_tests_cant": "It is a statement about all lengths, including every position of the last sample relative to a 2048-byte frame, and about every arrival schedule.", "anchors": ["transcoder/movie.py:Movie.emit_stream", "transcoder/movie.py:Movie.done", "transcoder/main.py:audio_bitrate", "player/main.s:op_ack", "player/main.s:checkrecv"]}
{"id": "C79", "title": "Rounding in the sound conversion changes a value by at most one step", "statement": "The sound conversion is computed in IEEE single precision, every operation rounding to the nearest number of the format, ties to even. For every sound at the movie's rate, up to 512 channels, in any buffers of whole frames, and every normalisation factor (rounded to single precision), each duty-cycle value lies in -15..16 and differs from the exactly computed, truncated and clipped one by at most 1, and not at all unless the exact product is within 2^-16 of an integer; the values are monotone in the samples, silence gives 0, opposite samples opposite values (except that -16 does not exist). The difference of 1 does occur, e.g. for the loudest sample of a sound whose peak is 41. Through converter, file and player the speaker's toggle distance is therefore within 2 cycles of what C75 states for exact arithmetic.", "quantifier": "all sounds, channel counts 1..512, buffers, normalisation factors between 2^-126 and 2^57, and for the playback part all option values, pictures, random numbers and network schedules", "why_tests_cant": "The rounding error depends on every combination of sample sum, channel count and factor (2^16 * 512 * 2^31 combinations); only an error analysis covers them.", "anchors": ["transcoder/audio.py:Audio._decode", "transcoder/audio.py:Audio.audio_stream", "player/main.s:TICK"]}
{"id": "C80", "title": "The priority queue is a real binary heap, and the stream does not depend on that", "statement": "With Python's heapq as it is implemented (an array; heapify, heappush and heappop sift entries up and down), after any history of operations popping returns a least entry of what was put in and not yet taken out and fails exactly if nothing is left; heapify followed by pops sorts; and every conversion writes exactly the same bytes, or fails in the same way, as one whose queue is an unordered bag from which a least entry is taken.", "quantifier": "all lists of entries, all histories of queue operations, all configurations, sounds, sequences of frames and random numbers", "why_tests_cant": "Queue histories and conversions are unbounded; heap order is an invariant over all of them.", "anchors": ["transcoder/video.py:Video._index_changes", "transcoder/video.py:Video._heapify_priorities", "transcoder/video.py:Video._compute_error"]}
{"id": "C81", "title": "Flat and paged memory maps are views of one array", "statement": "A FlatMemoryMap and a MemoryMap made from each other with to_memory_map / to_flat_memory_map share one array: a byte written through either is found through both, at page address>>8 and offset address&255, and nothing else in memory changes. A map built from a given array uses that array itself; one built without gets a new zeroed array; screen pages other than 1 and 2 raise ValueError. A byte applied to a bitmap is seen in the memory map the bitmap was made from, and building the bitmap changes no existing array.", "quantifier": "all memories, arrays, screen pages, addresses in the screen page, byte values, both bitmap kinds", "why_tests_cant": "Aliasing is a statement about every other location of memory for every write.", "anchors": ["transcoder/screen.py:FlatMemoryMap", "transcoder/screen.py:MemoryMap", "transcoder/screen.py:Bitmap.apply", "transcoder/screen.py:Bitmap.__init__"]}
{"id": "C82", "title": "In-place array updates, aliasing, fixed-width elements and the cache do not change the stream", "statement": "With numpy arrays as they are (shared mutable buffers updated in place, uint8/uint64/int32 elements that wrap, views instead of copies), the lru_cache on byte pair differences shared by all bitmaps of the process, and heapq, a conversion writes exactly the bytes of one in which all of these are plain immutable values; at every step the encoder's arrays hold the screen bytes, packed words and priorities of that model; no array that existed before, and no array of a frame to be shown, is ever changed, only the encoder's own, which are pairwise distinct; and a second conversion in the same process is unaffected by an earlier one, finished or abandoned, whatever it left in the cache.", "quantifier": "all configurations with a uint16 distance table, sounds, frame sequences, random numbers, initial memories and cache contents, all steps", "why_tests_cant": "A stale cache entry, an accidental alias or a wrapped sum would show only for particular histories of unbounded length.", "anchors": ["transcoder/screen.py:Bitmap", "transcoder/screen.py:Bitmap.byte_pair_difference", "transcoder/screen.py:Bitmap._diff_weights_page", "transcoder/video.py:Video", "transcoder/movie.py:Movie.encode"]}
{"id": "C83", "title": "The packed-word sanity check passes on every bitmap and is exact for double hi-res", "statement": "Bitmap._check_consistency (a debugging aid with no caller) raises no assertion on any bitmap made by the constructors and applied stores. For double hi-res it is exact: it raises iff some word in columns 1..126 disagrees with a neighbour about the dots they share. For hi-res it sees headers only: bitmaps that differ just in their footers get the same verdict.", "quantifier": "all reachable bitmaps of both kinds; all packed word arrays for exactness", "why_tests_cant": "It ranges over all histories of stores and all 2^34-valued word arrays of 4096 entries.", "anchors": ["transcoder/screen.py:Bitmap._check_consistency"]}
{"id": "C84", "title": "The player depends on the decimal flag being clear", "statement": "The player never sets or clears the 6502's decimal flag. If the flag is clear when it is started, the flag plays no part in playback: everything the player does is what it does on a machine without the flag. If it is set, playback is not correct: the read position that the player gives to the network chip is wrong at every second ACK, from the second frame on.", "quantifier": "every stream, every schedule of arriving bytes and key presses, every number of instructions; for the flag set, every ACK at an odd frame", "why_tests_cant": "tests of the transcoder never run the player, and a run with the flag clear (the usual case) does not show the dependence", "anchors": ["player/main.s: op_ack (CLC, ADC #$08)", "player/main.s: checkrecv"]}
{"id": "C85", "title": "Different palette colours have positive substitution costs", "statement": "For both shipped palettes the CIE2000 difference that make_data_tables computes is 0 between equal colours and at least 2 (at most 800) between different ones, so that after truncation to an integer, and whatever the rounding up to 1 in the computation, a substitution of different colours costs at least 1, the price of a transposition, and at most 801. Hence make_data_tables succeeds on the shipped palettes and its tables are the discriminating ones on which convergence of the picture rests, and with them every accepted combination of options converts.", "quantifier": "all pairs of colours of both palettes, all rounding errors up to 1, both modes, all inputs and options of a conversion", "why_tests_cant": "the repository's tests take the data files as given; the claim is about the formulas, for every rounding, and feeds theorems over all frames", "anchors": ["transcoder/palette.py:NTSCPalette, IIGSPalette", "transcoder/make_data_tables.py:compute_diff_matrix, compute_substitute_costs, EditDistanceParams"]}
{"id": "C86", "title": "A key pauses playback, another key resumes it", "statement": "If one key is pressed at any moment before the movie is over, the player pauses after taking at most 2048 more bytes of the stream (or reaches the end of the movie within that): at a boundary between opcodes, with the picture those opcodes draw; from then on there is no speaker toggle, no write and no byte taken, and memory does not change. Whenever a second key is pressed, nothing changes until then, and playback goes on with the next opcode: every remaining opcode is run, with the right picture, and no byte is lost or run twice. In general, if every pause is ended by a key, the whole movie is played, however often it is paused.", "quantifier": "all playable streams, all instants of both key presses, all network schedules that keep delivering, all initial machine states with a connection", "why_tests_cant": "the outcome depends on the instruction at which the key arrives and on when data arrives; there is no test of the player", "anchors": ["README.md:108", "player/main.s:recv, checkrecv, KBD, KBDSTRB"]}
{"id": "C87", "title": "The player's network setup works on the simulated Uthernet II, but nothing is ever received", "statement": "The accesses the player makes to the network card from its start to its connection (player/main.s 141-256), with any MAC address, own address, remote address and port, succeed on the simulator's Uthernet II from any state: no exception; the two status reads return 'open' (0x13) and 'connected' (0x17); each address is in its registers, buffer sizes and TCP mode are set and the data port is in indirect auto-increment mode. However often the player then polls the received-size register, the simulator answers with the value it had before, so the player waits for ever: no byte of a stream can reach a program in the simulator.", "quantifier": "all simulator states, all addresses, any number of polls", "why_tests_cant": "it is about every start state and every number of polls; the simulator has no test of its card", "anchors": ["simulator/uthernet.py:_mode, _socket_mode, _socket_command, fill_socket", "simulator/apple2.py:_uther_wmode, _uther_wadrh, _uther_wadrl, _uther_wdata", "player/main.s:141-286"]}
{"id": "C88", "title": "The distance is the cost of the cheapest repainting", "statement": "The distance that make_data_tables.py stores for two masked values is the least total cost of turning the one row of pixel colours into the other, where a pixel of the right colour stays, a pixel is repainted at the perceptual difference of the two colours, and two neighbouring pixels are exchanged at cost 1; if a single pixel differs it is the difference of its two colours. In the encoder the priority a byte gains when a frame starts is this least cost between the colours around it on the screen and in the frame, and an extra offset is judged by this least cost for the screen on which the content byte has been stored there.", "quantifier": "all difference matrices, both bitmap types, all pairs of masked values; all encoder histories, frames, banks, bytes and content bytes", "why_tests_cant": "A dynamic programme over a matrix is checked on a few literal strings; optimality is a statement about every way of repainting for each of the 2^26 (HGR: 2^28) pairs of windows, for every cost matrix, and about every state the encoder can reach.", "anchors": ["transcoder/make_data_tables.py: EditDistanceParams, edit_distance, compute_edit_distance", "transcoder/screen.py: Bitmap.edit_distances, diff_weights, compute_delta_page", "transcoder/video.py: Video._index_changes, _compute_error"]}
{"id": "C89", "title": "Extra stores are the most beneficial ones", "statement": "Besides the byte with the highest priority, a change stores its content at the two other outstanding bytes of the page that gain most from it, the gain being the distance the byte had when the frame started less the distance it would have with that content: the third offset gains no more than the second, and a byte that is left out although it would gain implies that both extra slots were used for bytes gaining at least as much. Afterwards the stored byte's priority is 0, an extra byte's priority is the distance still left there (with the program's tables strictly less than the distance it started the frame with), and no other priority has changed.", "quantifier": "all 16-bit tables (real tables for the last comparison), all encoder histories, frames, banks, runs of changes and random choices", "why_tests_cant": "The ranking depends on the whole screen, the priorities accumulated over all earlier frames and a heap whose ties are broken at random; a test sees a few of them.", "anchors": ["transcoder/video.py: Video._index_changes, _compute_error", "transcoder/screen.py: compute_delta_page, byte_pair_difference"]}
{"id": "C90", "title": "At most three bytes of the screen change per tick, and five redraws a second", "statement": "The fourth store of every tick opcode of a conversion repeats the first, so between any two points of the stream the pictures differ in at most three times as many bytes as there are ticks between them; on the Apple II, whatever the network and the user do, in at most three bytes per 73 cycles. A redraw of the whole screen takes at least 2560 ticks or 186880 cycles, so the README's \"about 8 full redraws of the hires graphics screen per second\" is refuted: a second of 1020484 cycles is enough for five at most.", "quantifier": "all conversions, all pairs of points in the stream, all sets of screen bytes, all network schedules and key presses", "why_tests_cant": "A bound on what every movie can do, over all pictures, random choices and network behaviours.", "anchors": ["transcoder/video.py:Video._index_changes", "transcoder/opcodes.py:Tick", "player/main.s:tick", "README.md:39"]}
{"id": "C91", "title": "A network that is too slow delays playback only by what it is short of", "statement": "If a network offers at least 2048 bytes in any T cycles, for any T, and no key is pressed, then once playback has begun every opcode of the stream is reached no earlier than the opcodes before it take by themselves (73 cycles a tick, 146 an ACK) and at most T - 21292 cycles later for each ACK before it; with T up to 21292 it is not late at all. In a conversion the j-th sample is at most (j + 1) / 292 times that late, and the sample itself is still sounded exactly: 73 cycles, with its own duty cycle. Nor is it ever ahead of the network: an opcode after q ACKs is reached only when 2048 (q + 1) bytes have been offered.", "quantifier": "all playable streams and conversions, all T, all network schedules with that throughput (in bursts or not), all opcodes and samples", "why_tests_cant": "A bound on the delay for every arrival pattern and every length of stream; on real hardware a test sees one network.", "anchors": ["player/main.s: op_ack, checkrecv, recv, noprepause, op_tick_*", "transcoder/opcodes.py: Ack"]}
{"id": "C92", "title": "The speaker carrier never drops while waiting for the network", "statement": "While the player plays a movie and no key is pressed, the speaker is toggled again and again from the moment it begins to wait for the first frame until it reaches TERMINATE, each toggle 4 to 69 cycles after the one before, so every window of 69 cycles contains a toggle: slow network delivery, ACKs, page flips and every duty cycle keep the carrier going, and no two toggles fall closer than 4 cycles.", "quantifier": "every playable stream of any length (every sequence of TICK and ACK opcodes with any page, content and offsets), every network schedule that keeps delivering, with any delays anywhere, no key presses, and every instant of the playback", "why_tests_cant": "the gaps depend on which opcode follows which, on the number of unsuccessful polls at each of the unboundedly many ACKs and on the bytes of the stream; a test listens to one stream on one schedule", "anchors": ["player/main.s: op_ack, checkrecv, recv, noprepause, op_tick_*", "transcoder/opcodes.py: Ack"]}
{"id": "C93", "title": "Skipped and unseen frames have no influence", "statement": "The bytes of a conversion depend only on the frames that are encoded: two conversions of the same sound with the same settings, random numbers and frame clock give identical output (or fail in the same way) if, among the frames that fall due before the sound ends, they have equally many and agree in those whose index is a multiple of every_n_video_frames. Skipped frames, frames after the last due one, and in HGR mode the auxiliary memory of every frame may be anything at all, even what would make an encoded frame fail.", "quantifier": "all settings (mode, table, limit, every_n, clock, draws, addresses), all sounds and all pairs of frame sequences of any length that agree in the frames encoded", "why_tests_cant": "Non-interference compares all pairs of inputs; a test compares one pair, and a frame that leaks through the pending generator or a stale target shows only on some.", "anchors": ["transcoder/movie.py: encode, emit_stream", "transcoder/video.py: tick, encode_frame", "transcoder/screen.py: HGRBitmap, DHGRBitmap"]}
{"id": "C94", "title": "A conversion depends on the build of the player only through opcode addresses", "statement": "Converting the same movie with the same settings for two builds of the player (any two assignments of opcode addresses) fails in the same way for both or succeeds for both with streams of equal length: the same opcodes with the same data in the same order, each written with its address in that build, and the same padding. Each player, reading its own stream, finds the same mode and the same opcodes, so sound, pictures, ACK positions and size do not change when the player is rebuilt, and an old stream could be relinked for a new player by replacing addresses.", "quantifier": "all pairs of address assignments, all settings (also size limits), sounds and frames", "why_tests_cant": "Equality up to relinking of two whole streams for all inputs and all pairs of symbol files; a test compares one pair of builds.", "anchors": ["transcoder/opcodes.py: emit_command, emit_data, _fill_opcode_addresses", "transcoder/machine.py: emit", "transcoder/movie.py: _emit_bytes, emit_stream, done"]}
{"id": "C95", "title": "Skipping frames equals encoding a thinned video", "statement": "Converting a video with --every_n_video_frames n gives, byte for byte, what converting the video of only its frames 0, n, 2n, ... with --every_n_video_frames 1 would give, when the thinned video's frame j falls due at the tick at which frame n*j of the original does (for the exact frame clock: when it is played at rate/n frames per second; for the clock as computed in binary64 the same, byte for byte, when n is a power of two, as with the default n = 2). It holds provided that no more than one frame falls due per tick and that the grabber has a frame for every one that falls due before the sound ends. So the frames in between have no influence on timing, sound, pictures or size.", "quantifier": "all n, frame clocks, sounds, videos, settings and builds of the player; results compared including failures", "why_tests_cant": "Equality of two whole streams for all inputs and all n; a test compares one movie.", "anchors": ["transcoder/movie.py: encode", "transcoder/video.py: tick", "transcoder/main.py: every_n_video_frames"]}

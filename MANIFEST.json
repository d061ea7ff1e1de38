{
 "claims": [
  {
   "property": "C01",
   "status": "proved",
   "theorems": [
    "c01_append_with_round_trip",
    "c01_build_round_trip"
   ],
   "note": "Proved for AppendWith and for sequences built with any number of With/WithInts calls; arguments range over all bytes that can occur in a CSI argument for this decoder."
  },
  {
   "property": "C02",
   "status": "partial",
   "theorems": [
    "c02_string_refuted",
    "c02_string_partial"
   ],
   "note": "Refuted: a payload containing U+FFFD (or a C1 control) is not returned intact. Partial: exact for every payload of runes the decoder passes, both terminator forms."
  },
  {
   "property": "C03",
   "status": "partial",
   "theorems": [
    "c03_charset_refuted",
    "c03_tilde_refuted",
    "c03_esc_partial",
    "c03_decode_partial"
   ],
   "note": "Refuted: Seq.AppendTo writes a character set designator before the ESC identifier, and ESC '~' is not recovered. Partial: AppendWith round trip for all other ESC identifiers and charset designators."
  },
  {
   "property": "C04",
   "status": "proved",
   "theorems": [
    "c04_decode_total"
   ],
   "note": "Proved on every non-empty buffer; the in-place rewriting of the examined sequence is part of the statement."
  },
  {
   "property": "C05",
   "status": "partial",
   "theorems": [
    "c05_number_refuted",
    "c05_no_range_error",
    "c05_number_partial",
    "c05_number_shape"
   ],
   "note": "Refuted for integers outside 32 bits: the range error is never produced and the value wraps. Partial: exact for every integer of magnitude up to 2^32-1, plus the exact set of texts accepted."
  },
  {
   "property": "C06",
   "status": "proved",
   "theorems": [
    "c06_point_round_trip"
   ],
   "note": "Proved for all points with coordinates of magnitude up to 2^32-1."
  },
  {
   "property": "C07",
   "status": "partial",
   "theorems": [
    "c07_conceal_refuted",
    "c07_sgr_round_trip_partial",
    "c07_sgr_loss_partial",
    "c07_sgr_terminal"
   ],
   "note": "Refuted for Conceal, which DecodeSGR ignores. Partial: exact for all other flags and all palette and 24-bit colours; Conceal is shown to be the only loss; the bytes also mean the attribute to an independent SGR interpreter."
  },
  {
   "property": "C08",
   "status": "partial",
   "theorems": [
    "c08_escape_size_refuted",
    "c08_escape_size_partial",
    "c08_seq_size_refuted",
    "c08_seq_size_partial",
    "c08_sgr_size_exact"
   ],
   "note": "SGRAttr.Size proved exact. Escape.Size and Seq.Size refuted on particular identifiers and arguments; partial elsewhere."
  },
  {
   "property": "C09",
   "status": "partial",
   "theorems": [
    "c09_merge_diff_refuted",
    "c09_diff_self_refuted",
    "c09_merge_diff_partial",
    "c09_merge_diff_any_partial",
    "c09_diff_self_partial",
    "c09_diff_shown"
   ],
   "note": "Refuted when the target carries the Clear command bit. Partial: exact for attributes without it, exact up to it otherwise; the 'no stale attributes' part is proved against an independent SGR interpreter."
  },
  {
   "property": "C10",
   "status": "proved",
   "theorems": [
    "c10_fields",
    "c10_injective",
    "c10_rgb",
    "c10_to24bit"
   ],
   "note": "Proved."
  },
  {
   "property": "C11",
   "status": "proved",
   "theorems": [
    "c11_mode_round_trip"
   ],
   "note": "Proved for all non-negative modes up to 2^31-1, both flags."
  },
  {
   "property": "C12",
   "status": "partial",
   "theorems": [
    "c12_empty_field_refuted",
    "c12_mouse_exact",
    "c12_mouse_sound_partial",
    "c12_extra_bytes_partial",
    "c12_state_range_partial",
    "c12_missing_both_partial",
    "c12_missing_row_partial"
   ],
   "note": "Refuted for a missing column ('<1;;5' is accepted as column 0). Partial: exact on well-formed reports, extra bytes, missing fields and state out of range rejected, and every accepted report has exactly three numeric fields."
  },
  {
   "property": "C13",
   "status": "proved",
   "theorems": [
    "c13_states",
    "c13_press_release_exclusive"
   ],
   "note": "Proved by a sweep of the 256 states."
  },
  {
   "property": "C14",
   "status": "proved",
   "theorems": [
    "c14_intersect",
    "c14_intersect_empty",
    "c14_union_upper",
    "c14_union_least",
    "c14_overlaps",
    "c14_in",
    "c14_eq",
    "c14_empty",
    "c14_canon",
    "c14_canon_coords",
    "c14_translate",
    "c14_inset"
   ],
   "note": "Proved; rectangles are arbitrary integer rectangles, including ill-formed ones."
  },
  {
   "property": "C15",
   "status": "partial",
   "theorems": [
    "c15_rect_refuted",
    "c15_points_partial",
    "c15_rect_to_image_partial",
    "c15_invalid_panics"
   ],
   "note": "Refuted for RectFromImage, which always returns the zero rectangle. Partial: points both ways and Rectangle.ToImage."
  },
  {
   "property": "C16",
   "status": "partial",
   "theorems": [
    "c16_nearest_refuted",
    "c16_nearest_partial",
    "c16_minimal_partial"
   ],
   "note": "Refuted: the metric divides each squared difference by four before adding. Partial: minimal in the code's metric and within 3 of the true minimum."
  },
  {
   "property": "C17",
   "status": "proved",
   "theorems": [
    "c17_value_semantics"
   ],
   "note": "Proved with an explicit heap of backing arrays, for every program of With/WithInts/copy operations."
  },
  {
   "property": "C18",
   "status": "proved",
   "theorems": [
    "c18_ids_distinct",
    "c18_ids_reserved",
    "c18_ids_recover"
   ],
   "note": "Proved."
  },
  {
   "property": "C19",
   "status": "proved",
   "theorems": [
    "c19_exact",
    "c19_distinct"
   ],
   "note": "Proved for every well-formed grid (what Resize and SubRect produce)."
  },
  {
   "property": "C20",
   "status": "proved",
   "theorems": [
    "c20_views",
    "c20_outside",
    "c20_bounds",
    "c20_sub_at",
    "c20_sub_size",
    "c20_well_formed",
    "c20_write_read",
    "c20_full",
    "c20_full_all"
   ],
   "note": "Proved for any nesting of SubRect, SubAt and SubSize, including inverted rectangles; a sub-grid whose origin is outside its parent is the empty grid."
  },
  {
   "property": "C21",
   "status": "partial",
   "theorems": [
    "c21_sub_refuted",
    "c21_zero_refuted",
    "c21_sequence_partial",
    "c21_report_partial",
    "c21_sub_partial",
    "c21_anywhere_partial"
   ],
   "note": "Refuted: a sub-grid away from the origin is clamped to the whole data and can address beyond it; a grid resized to zero columns stays at zero columns. Partial: every sequence of resizes of a full grid to proper sizes; sub-grids at the origin; sub-grids anywhere exactly, with the condition under which all their cells exist (c21_anywhere_partial)."
  },
  {
   "property": "C22",
   "status": "proved",
   "theorems": [
    "c22_clear"
   ],
   "note": "Proved."
  },
  {
   "property": "C23",
   "status": "partial",
   "theorems": [
    "c23_shape_refuted",
    "c23_sub_refuted",
    "c23_full_partial"
   ],
   "note": "Refuted: the shape is not compared, and sub-grids are compared by their parent's data. Partial: exact for full grids with equal bounds."
  },
  {
   "property": "C24",
   "status": "partial",
   "theorems": [
    "c24_overlap_refuted",
    "c24_copy_partial",
    "c24_down_partial"
   ],
   "note": "Refuted when drawing a grid over itself further down. Partial: exact for separate arrays and for non-overlapping or upward self-copies; drawn over itself k rows further down, its first k rows are repeated (c24_down_partial)."
  },
  {
   "property": "C25",
   "status": "partial",
   "theorems": [
    "c25_rows_refuted",
    "c25_columns_refuted",
    "c25_point_refuted",
    "c25_styled_partial",
    "c25_walk_partial",
    "c25_empty",
    "c25_cells_partial",
    "c25_rows_partial"
   ],
   "note": "Refuted: reads past a shorter source, runs over the right edge with a wider source, and passes the first column's point to the style. Partial: exact for point-independent styles when the source is no wider and no shorter than the destination; and the exact result, panics included, for any sizes and styles as a walk over places of the data (c25_walk_partial, c25_empty, c25_cells_partial, c25_rows_partial)."
  },
  {
   "property": "C26",
   "status": "partial",
   "theorems": [
    "c26_noop_refuted",
    "c26_order_partial",
    "c26_nested",
    "c26_neutral",
    "c26_single",
    "c26_closed"
   ],
   "note": "Refuted: the no-op style itself zeroes the attribute. Partial: order, associativity and neutrality hold for every nesting of non-no-op styles."
  },
  {
   "property": "C27",
   "status": "partial",
   "theorems": [
    "c27_outside_refuted",
    "c27_rune_partial",
    "c27_get",
    "c27_dots",
    "c27_range",
    "c27_draw",
    "c27_size"
   ],
   "note": "Refuted for a point just outside the bitmap. Partial: Rune exact at every point of the bitmap; DrawBitmap proved exact for every grid, sub-grid and style list."
  },
  {
   "property": "C28",
   "status": "partial",
   "theorems": [
    "c28_stride_refuted",
    "c28_pad_refuted",
    "c28_lines_refuted",
    "c28_parse_partial",
    "c28_accepts",
    "c28_runes",
    "c28_load_partial",
    "c28_set_get",
    "c28_sub",
    "c28_sub_at",
    "c28_sub_size",
    "c28_must"
   ],
   "note": "Refuted: Load panics for a stride of zero or beyond the data and drops an incomplete last row; ParseBitmap accepts leading empty lines. Partial: parse then load exact for consistent non-empty lines; Set/Get and sub-bitmaps proved."
  },
  {
   "property": "C29",
   "status": "partial",
   "theorems": [
    "c29_bounds_refuted",
    "c29_outside_refuted",
    "c29_full_screen_partial",
    "c29_placed_partial",
    "c29_write_partial",
    "c29_sub_screen_partial",
    "c29_sub_rect",
    "c29_sub_at",
    "c29_sub_size"
   ],
   "note": "False for sub-screens: a carriage return goes to column 1 and erasing clears shared cells outside (refuted). Proved for screens starting at (1,1) over every history of operations, and for sub-screens for everything but carriage return."
  },
  {
   "property": "C30",
   "status": "partial",
   "theorems": [
    "c30_modes_partial",
    "c30_output_partial",
    "c30_bytes_partial",
    "c30_cursor_partial",
    "c30_returns_refuted",
    "c30_no_panic_partial",
    "c30_returns_partial",
    "c30_tokens_partial"
   ],
   "note": "False: CSI ? ? h never returns (refuted, for every fuel). Proved: no panic for screens and cursors over every history; return for every history without '?'; and exactly which output hangs: a write of any bytes, to a screen or cursor in any state, never returns if and only if a decoded event is SM or RM with argument '?' followed by something with a byte other than a digit, ';', '+' or '-'."
  },
  {
   "property": "C31",
   "status": "partial",
   "theorems": [
    "c31_chunks_refuted",
    "c31_utf8_refuted",
    "c31_chunks_partial"
   ],
   "note": "False: splitting a control sequence or a UTF-8 character after its second byte prints garbage (refuted). Proved for chunks ending at unit boundaries or just after an ESC."
  },
  {
   "property": "C32",
   "status": "partial",
   "theorems": [
    "c32_progress_refuted",
    "c32_leftover_partial",
    "c32_no_esc_partial",
    "c32_deaf_partial",
    "c32_stuck_partial"
   ],
   "note": "False: ESC ESC makes the screen deaf (refuted). Proved exactly: the bytes left over are never processed again, whatever is written, if and only if they are an escape sequence interrupted by ESC, by U+FFFD or by bytes that are no UTF-8 (possibly after cancelled sequences); such a screen never changes again. Only output beginning with ESC is left over; bytes without ESC and complete output are used up."
  },
  {
   "property": "C33",
   "status": "proved",
   "theorems": [
    "c33_print",
    "c33_control"
   ],
   "note": "Screen starting at (1,1) with the cursor on it, any rune the code treats as graphic; the Unicode graphic table above Latin-1 is arbitrary."
  },
  {
   "property": "C34",
   "status": "partial",
   "theorems": [
    "c34_ed0_refuted",
    "c34_omitted_refuted",
    "c34_ed_partial",
    "c34_el_partial"
   ],
   "note": "False: ED 0 leaves the cell under the cursor, omitted parameters are ignored (refuted). Proved: ED 1, ED 2, EL 0, EL 1, EL 2 exact; ED 0 erases everything strictly after the cursor."
  },
  {
   "property": "C35",
   "status": "partial",
   "theorems": [
    "c35_scroll_refuted",
    "c35_linefeed_partial"
   ],
   "note": "False: the screen never scrolls (refuted). Proved: moves down unless on the last line, where nothing changes."
  },
  {
   "property": "C36",
   "status": "partial",
   "theorems": [
    "c36_vertical_refuted",
    "c36_late_refuted",
    "c36_to_partial",
    "c36_unknown_partial",
    "c36_tracked"
   ],
   "note": "Against an independent byte-level reference terminal (TermSpec.v). Refuted for straight vertical moves (nothing is written) and for moves along a line after its last column was written; proved for all other moves, and that tracked state is always the target."
  },
  {
   "property": "C37",
   "status": "partial",
   "theorems": [
    "c37_clear_refuted",
    "c37_merge",
    "c37_merge_idle_partial",
    "c37_merge_twice_partial",
    "c37_show",
    "c37_hide",
    "c37_visibility_idle",
    "c37_modes"
   ],
   "note": "Against the reference terminal. Reaching the target is proved for every constructible attribute and any known/unknown state; that nothing is written when already there is refuted for attributes carrying the Clear command bit and proved otherwise."
  },
  {
   "property": "C38",
   "status": "partial",
   "theorems": [
    "c38_refuted",
    "c38_erase_refuted",
    "c38_full_partial",
    "c38_dense_partial",
    "c38_ansi"
   ],
   "note": "Against the byte-level reference terminal (TermSpec.v). Refuted twice: a cell straight below the place after the previous one (Cursor.To writes nothing), and terminals that erase with the current background. Proved for grids without such successors (drawable) where erasing leaves default blanks, and for first frames of grids without empty cells."
  },
  {
   "property": "C39",
   "status": "partial",
   "theorems": [
    "c39_refuted",
    "c39_diff_partial",
    "c39_line_partial",
    "c39_session_partial"
   ],
   "note": "Refuted as C38. Proved for drawable changes, in particular changes within one line; and for whole sessions from the zero value, with arbitrary drawing, invalidations and terminal resizes between flushes: every flush of a frame meeting frame_ok displays the virtual screen."
  },
  {
   "property": "C40",
   "status": "partial",
   "theorems": [
    "c40_refuted",
    "c40_hidden_partial",
    "c40_visible_partial"
   ],
   "note": "Refuted for a visible cursor: 12 bytes hide and show it. Proved: nothing is written for a hidden cursor, and exactly these 12 bytes for a visible one (attributes without the Clear command)."
  },
  {
   "property": "C41",
   "status": "partial",
   "theorems": [
    "c41_bytes_partial",
    "c41_first_partial",
    "c41_state_refuted"
   ],
   "note": "Proved that the bytes are those of an uninterrupted flush, for any number of interruptions at any byte, and that all state but the tracked screen is too. The tracked screen is refuted, with a wrong display in the next frame; a first frame is proved to leave nothing wrong assumed."
  },
  {
   "property": "C42",
   "status": "partial",
   "theorems": [
    "c42_dropped",
    "c42_redraw",
    "c42_resize",
    "c42_shows_partial",
    "c42_shows_refuted"
   ],
   "note": "Proved: pending bytes are dropped and the next flush erases the display and draws every cell that is not empty, for any failure point. That the redraw displays the grid is refuted (tracked attributes and visibility survive the failure) and proved where they are still right."
  },
  {
   "property": "C43",
   "status": "partial",
   "theorems": [
    "c43_vertical_refuted",
    "c43_apply_refuted",
    "c43_conceal_refuted",
    "c43_tracks_partial",
    "c43_reset",
    "c43_apply"
   ],
   "note": "Interpretation is the library's own decoder and Cursor.ProcessANSI. Refuted for straight vertical moves, Apply (its bytes are interpreted a second time) and Conceal; proved for histories of complete output, all other moves and attributes, show/hide, resets and flushes delivering any number of bytes with any result."
  },
  {
   "property": "C44",
   "status": "partial",
   "theorems": [
    "c44_delivery_refuted",
    "c44_unprocessed_partial",
    "c44_delivery_partial",
    "c44_drain",
    "c44_processed_once",
    "c44_reset"
   ],
   "note": "bytes.Buffer is trusted (list of unread bytes). Refuted: processing rewrites two-byte escapes such as ESC M in place. Proved for every history without processing, and for histories whose processed output is complete sequences and ESC-free bytes; complete sequences are processed exactly once whatever is delivered in between."
  },
  {
   "property": "C45",
   "status": "proved",
   "theorems": [
    "c45_delivers",
    "c45_exact",
    "c45_flags",
    "c45_restore_error",
    "c45_blocking",
    "c45_other_error",
    "c45_screen"
   ],
   "note": "fcntl, os.File.Write and File.Fd are a small model of the system (File.v, trusted); WriteTo of Buffer and ScreenDiffer are the models used elsewhere, the flag theorem is for any io.WriterTo that returns. Flags are restored unless the restoring call fails, which is reported. A WriteTo that panics is not covered (the code does not restore flags then)."
  },
  {
   "property": "C46",
   "status": "partial",
   "theorems": [
    "c46_split_partial",
    "c46_total",
    "c46_bytes",
    "c46_call",
    "c46_more",
    "c46_any",
    "c46_cs_ok",
    "c46_ts_ok",
    "c46_rune_split_refuted",
    "c46_esc_split_refuted",
    "c46_drop_refuted"
   ],
   "note": "Proved for streams of complete characters and sequences cut between them or inside a CSI sequence or string after its introducer; totality and progress for all bytes. Refuted for cuts inside a UTF-8 character (two U+FFFD) and after a lone ESC (three keys), and DEL inside an aborted escape sequence belongs to no event."
  },
  {
   "property": "C47",
   "status": "partial",
   "theorems": [
    "c47_restores",
    "c47_nonblocking",
    "c47_progress",
    "c47_would_block",
    "c47_unswitched",
    "c47_poll_partial",
    "c47_blocking_refuted",
    "c47_failed_refuted"
   ],
   "note": "Flags restored on exit and non-blocking reads proved over histories. Blocking reads refuted: after ReadAny, ReadMore reports EWOULDBLOCK and the descriptor stays non-blocking (buildFlags only sets bits), except for descriptors Go opened non-blocking (c47_poll_partial); after a failed fcntl a non-blocking read reads in blocking mode."
  },
  {
   "property": "C48",
   "status": "partial",
   "theorems": [
    "c48_replay_partial",
    "c48_records",
    "c48_records_any",
    "c48_reads_partial",
    "c48_fs_ok",
    "c48_exact_refuted",
    "c48_string_refuted",
    "c48_error_refuted",
    "c48_told",
    "c48_told_any"
   ],
   "note": "Replay equals the recording up to a spurious leading frame (a NUL byte) when read in one piece, and up to one NUL byte per read otherwise, for sessions of characters, CSI and ESC sequences. Refuted as stated: spurious NULs, string contents lost, read errors become messages. Time formatting and parsing are parameters with parse (format t) = t."
  },
  {
   "property": "C49",
   "status": "partial",
   "theorems": [
    "c49_enter",
    "c49_exit",
    "c49_close",
    "c49_nesting",
    "c49_add",
    "c49_combine_partial",
    "c49_preserve_partial",
    "c49_alias_refuted"
   ],
   "note": "Order, first error and nesting proved for any number of members, any nesting of Contexts and any growth of slices; a panicking member ends Exit/Close early (part of the statement proved). Refuted: combining twice from the same base of three or more contexts overwrites a member of the earlier combination, as Contexts appends in place; proved for values not reaching into the base's spare capacity."
  },
  {
   "property": "C50",
   "status": "partial",
   "theorems": [
    "c50_unwound",
    "c50_error",
    "c50_close_once_partial",
    "c50_close_twice_refuted",
    "c50_exit_twice_refuted"
   ],
   "note": "Proved for all programs built from nested RunWith and RunWithout with arbitrary outcomes (panics included): final state idle, protocol respected, last calls are Exit and Close, first error wins. Refuted in part: RunWith inside RunWithout closes twice and re-enters closed contexts; a failing RunWithout leads to a second Exit. Goroutine exit and os.Exit are not modelled."
  },
  {
   "property": "C51",
   "status": "partial",
   "theorems": [
    "c51_restored",
    "c51_exit_again",
    "c51_no_file",
    "c51_failed_enter_refuted"
   ],
   "note": "Proved for every history between a successful Enter and a successful Exit. Refuted if TCGETS fails in Enter: Exit, called by RunWith all the same, sets all settings to zero. termios of linux/amd64; TCGETS/TCSETS modelled as reading and writing a settings record (trusted)."
  },
  {
   "property": "C52",
   "status": "proved",
   "theorems": [
    "c52_reverse",
    "c52_written",
    "c52_terminal"
   ],
   "note": "Proved for all lists of modes, pairs and sequences in any grouping (modes below 2^32; sequences that can be written at all, see C07); on a terminal model every mode added is on after Enter and off after Exit."
  },
  {
   "property": "C53",
   "status": "partial",
   "theorems": [
    "c53_runes",
    "c53_strike",
    "c53_runes_refuted",
    "c53_presses",
    "c53_outside",
    "c53_scroll",
    "c53_movement",
    "c53_mouse",
    "c53_terminal",
    "c53_empty",
    "c53_again",
    "c53_others",
    "c53_clear"
   ],
   "note": "Proved for every queue and query. Refuted for CountRune with a rune given twice (counted twice). Movement sums are in 64 bit arithmetic."
  },
  {
   "property": "C54",
   "status": "partial",
   "theorems": [
    "c54_total",
    "c54_input_partial",
    "c54_input_refuted",
    "c54_tokens",
    "c54_kinds_partial",
    "c54_kinds_refuted",
    "c54_mouse",
    "c54_only_reports",
    "c54_escapes",
    "c54_decode_input"
   ],
   "note": "Total and covering for every byte string; the events are those of an Input at end of file, except for a spurious U+FFFD when the input ends with a cancelled escape sequence. Runes typed in U+EF00-U+EFFF count as escapes (refuted part). The aliasing of event arguments with the decoded buffer is not modelled."
  },
  {
   "property": "C55",
   "status": "partial",
   "theorems": [
    "c55_edit_partial",
    "c55_valid",
    "c55_delete_refuted",
    "c55_delete_middle",
    "c55_move_refuted",
    "c55_reset"
   ],
   "note": "Inserting, moving and deleting at the ends as stated (arguments below 2^62); the buffer is always valid UTF-8 with the cursor at a rune; refuted for deletes inside the line (the rune at the cursor is removed) and for numbers out of range."
  },
  {
   "property": "C56",
   "status": "partial",
   "theorems": [
    "c56_history_partial",
    "c56_progress",
    "c56_write",
    "c56_file",
    "c56_read_partial",
    "c56_read_refuted",
    "c56_panic_refuted",
    "c56_panic"
   ],
   "note": "Proved for histories writing whole lines and for every single write and read from an indexed state; refuted: any write after an unterminated line panics, and reading all of an unterminated line leaves a stray index."
  },
  {
   "property": "C57",
   "status": "partial",
   "theorems": [
    "c57_roundtrip_partial",
    "c57_again_partial",
    "c57_empty_refuted",
    "c57_short_refuted",
    "c57_truncated"
   ],
   "note": "Proved for every file, position, chunking (including short writes) and read schedule whose first read gives the whole size. Refuted: a writer that was never written to leaves no size behind (c57_empty_refuted), and a short first read is taken for the size (c57_short_refuted). A truncated blob is read without an error (c57_truncated)."
  },
  {
   "property": "C58",
   "status": "proved",
   "theorems": [
    "c58_enter",
    "c58_notify_all",
    "c58_exit",
    "c58_notify",
    "c58_calls"
   ],
   "note": "Proved for all lists of results; notifying never blocks or panics in any schedule of the log sink's machine and leaves a wake-up."
  },
  {
   "property": "C59",
   "status": "proved",
   "theorems": [
    "c59_slots",
    "c59_once",
    "c59_delivered",
    "c59_closed"
   ],
   "note": "Any number of Signals under any sequence of operations and signal arrivals refine one-place slots; Go channels and os/signal (Notify, Stop, non-blocking delivery) are modelled (trusted). Data races of goroutines on the struct itself are not modelled."
  },
  {
   "property": "C60",
   "status": "partial",
   "theorems": [
    "c60_read_partial",
    "c60_d_ok",
    "c60_d_keys",
    "c60_d_funcs",
    "c60_chunks",
    "c60_absent_partial",
    "c60_absent_refuted",
    "c60_missing_refuted",
    "c60_eof_refuted"
   ],
   "note": "Proved for descriptions that have all the strings asked for (c60_read_partial), for every chunking of the reads, and that the result never depends on the chunking, whatever the file (c60_chunks). Refuted for strings a description lacks: they read as bytes found elsewhere (c60_absent_refuted, c60_missing_refuted; c60_absent_partial says exactly what), and for readers that return data together with EOF (c60_eof_refuted)."
  },
  {
   "property": "C61",
   "status": "proved",
   "theorems": [
    "c61_exactly_once",
    "c61_flush",
    "c61_bound",
    "c61_start",
    "c61_untracked",
    "c61_off"
   ],
   "note": "For any history of flushes and harvests; the clock is an oracle."
  },
  {
   "property": "C62",
   "status": "partial",
   "theorems": [
    "c62_in_effect",
    "c62_settings",
    "c62_default_echo_refuted",
    "c62_retry_refuted"
   ],
   "note": "Settings in effect proved flag by flag for histories whose system calls succeed. Refuted: echo is not on by default in normal mode; a failed SetRaw cannot be retried, the second call reports success without doing anything."
  },
  {
   "property": "C63",
   "status": "partial",
   "theorems": [
    "c63_display_partial",
    "c63_cursor_refuted",
    "c63_stray_refuted"
   ],
   "note": "Proved except when the text fills the box exactly with the cursor at its end (cursor drawn outside, refuted) and for the stray space on an empty line (refuted)."
  },
  {
   "property": "C64",
   "status": "partial",
   "theorems": [
    "c64_final_partial",
    "c64_final_refuted"
   ],
   "note": "Proved across updates; refuted within one batch of events, where editing continues after Enter."
  },
  {
   "property": "C65",
   "status": "partial",
   "theorems": [
    "c65_nothing_lost",
    "c65_start",
    "c65_flush",
    "c65_stop_partial",
    "c65_deadlock",
    "c65_stop_refuted",
    "c65_early_refuted",
    "c65_error_refuted",
    "c65_set_file_fails",
    "c65_set_file",
    "c65_set_file_refuted"
   ],
   "note": "Proved: order and conservation while running, notification of a resting writer, stop of a resting writer in every schedule. Refuted: stop deadlocks when the writer is not at rest (general theorem c65_deadlock), returns early on a buffered error, does nothing after a reported error, and SetFile(nil) loses what is held."
  },
  {
   "property": "C66",
   "status": "partial",
   "theorems": [
    "c66_write",
    "c66_read",
    "c66_play_partial",
    "c66_once",
    "c66_fs_ok",
    "c66_exact_refuted",
    "c66_keys",
    "c66_pause",
    "c66_pause_refuted"
   ],
   "note": "The state bytes, the size and the order and times of the frames are proved for every session; the input of the frames is exact when the file is read at once (c66_once), otherwise a NUL byte is inserted per further read (c66_play_partial, c66_exact_refuted). Pausing before the first frame has no effect (c66_pause_refuted). Time stamps through the oracle of C48; gob coding of the state and the mouse overlay are not modelled."
  },
  {
   "property": "C67",
   "status": "partial",
   "theorems": [
    "c67_path",
    "c67_path_simple",
    "c67_file",
    "c67_builtin",
    "c67_again",
    "c67_empty_panics",
    "c67_empty_refuted",
    "c67_fallback_refuted",
    "c67_name_refuted"
   ],
   "note": "Search order, file selection, builtin fallback and caching are proved for every environment, file system and table. Refuted: the documented error for the empty name is a panic (c67_empty_refuted), a file that opens but cannot be read hides the builtin (c67_fallback_refuted), and a description read from a file has no name (c67_name_refuted). filepath.Join and opening files are oracles."
  },
  {
   "property": "C68",
   "status": "partial",
   "theorems": [
    "c68_one_timer",
    "c68_period",
    "c68_wait_partial",
    "c68_inactive_partial",
    "c68_inactive_refuted",
    "c68_frame_rate"
   ],
   "note": "Number of timers, period, and the exact set of values a Wait begun while active can return are proved for every sequence of operations. A Wait begun while the ticker is not active never returns although it is documented to return the zero time (c68_inactive_refuted)."
  },
  {
   "property": "C69",
   "status": "partial",
   "theorems": [
    "c69_window",
    "c69_between",
    "c69_first_partial",
    "c69_first_refuted",
    "c69_rate_refuted",
    "c69_reset",
    "c69_sorted",
    "c69_logged",
    "c69_range"
   ],
   "note": "Exact for every window but the first. The first window counts a zero delta, so its rate is overestimated and Q1 may be below Min (c69_first_refuted); a frame rate of 1 to 3 makes the first update panic (c69_rate_refuted)."
  },
  {
   "property": "C70",
   "status": "partial",
   "theorems": [
    "c70_spans_partial",
    "c70_gap_refuted",
    "c70_cpu"
   ],
   "note": "Exact for every history in which neighbouring samples are at most as far apart as the spans' differences; after a longer pause a span's delta reaches back too far (c70_gap_refuted)."
  },
  {
   "property": "C71",
   "status": "partial",
   "theorems": [
    "c71_stats",
    "c71_window_partial",
    "c71_logged_refuted",
    "c71_part_refuted",
    "c71_range"
   ],
   "note": "Statistics are exact for a list of stalls, and at the end of each window they cover exactly the window's stalls if there is at most one per frame. Each stall is logged once per remaining frame of its window (c71_logged_refuted), and the fraction of time may exceed one (c71_part_refuted)."
  },
  {
   "property": "C72",
   "status": "partial",
   "theorems": [
    "c72_polled_partial",
    "c72_client",
    "c72_run",
    "c72_replay_refuted",
    "c72_replay_partial"
   ],
   "note": "Proved for runs without a replay, with Run's first error characterised exactly. While replaying, a stop signal or read error is shown to the client but lost by the loop (c72_replay_refuted); what is returned then is stated exactly (c72_replay_partial)."
  },
  {
   "property": "C73",
   "status": "partial",
   "theorems": [
    "c73_given_partial",
    "c73_consumed_partial",
    "c73_lost_refuted",
    "c73_repeated_refuted"
   ],
   "note": "What a client is given is stated exactly. Refuted: a second input signal polled in the same frame drops the events of the first (c73_lost_refuted), and events a client does not consume are given again in every frame without input (c73_repeated_refuted)."
  },
  {
   "property": "C74",
   "status": "partial",
   "theorems": [
    "c74_redraw",
    "c74_once",
    "c74_screen_partial",
    "c74_blank_refuted"
   ],
   "note": "When to redraw, the size, the invalidation and blankness are proved for every client; blankness fails if the size read again on redraw differs from the one polled (c74_blank_refuted)."
  },
  {
   "property": "C75",
   "status": "partial",
   "theorems": [
    "c75_displayed_partial",
    "c75_runs_partial"
   ],
   "note": "Proved for every client and sequence of frames with resizes between them; partial since drawings must meet the conditions of C39 (frame_ok), without which it is false."
  },
  {
   "property": "C76",
   "status": "partial",
   "theorems": [
    "c76_given_partial",
    "c76_stopped_refuted"
   ],
   "note": "The first half is proved for every recording and frame; after Ctrl-C the client keeps running at the recording's size (c76_stopped_refuted). Mouse overlay, HUD and client state are left out."
  },
  {
   "property": "C77",
   "status": "proved",
   "theorems": [
    "c77_paused",
    "c77_time"
   ],
   "note": "Proved for every client and number of frames."
  },
  {
   "property": "C78",
   "status": "partial",
   "theorems": [
    "c78_zero",
    "c78_fill",
    "c78_attr",
    "c78_background",
    "c78_foreground",
    "c78_both_refuted",
    "c78_both_partial"
   ],
   "note": "Exact results of every style passed alone; refuted: TransparentAttrBGFG is not the combination its documentation promises (a cell with only a foreground loses the prior background); partial: what it does do."
  },
  {
   "property": "C79",
   "status": "partial",
   "theorems": [
    "c79_shown_partial",
    "c79_plain_partial",
    "c79_coloured_partial",
    "c79_offset_refuted",
    "c79_reset_refuted",
    "c79_glyphs_partial"
   ],
   "note": "Exact output for bitmaps starting at row 0, without style, with one attribute for all runes, or with a style choosing the glyphs (c79_glyphs_partial); for a style that gives every block a glyph and attributes, what a terminal shows in each cell (c79_shown_partial). Refuted: a sub-bitmap from a later row starts with a line break; a style that gives attributes to some runes and none to others leaves them on."
  },
  {
   "property": "C80",
   "status": "partial",
   "theorems": [
    "c80_window",
    "c80_grow",
    "c80_scroll_partial",
    "c80_scroll_refuted",
    "c80_follow_refuted"
   ],
   "note": "Window, stability and growth proved in full; scrolling proved for a view already scrolled; refuted: from following, scrolling up by fewer lines than are shown does not move the window, and scrolling down line by line never follows again."
  },
  {
   "property": "C81",
   "status": "partial",
   "theorems": [
    "c81_update",
    "c81_header",
    "c81_expanded_partial",
    "c81_collapsed",
    "c81_few_refuted",
    "c81_fits_refuted",
    "c81_wide_refuted",
    "c81_panic_refuted"
   ],
   "note": "Exact result of any update on logs of printable lines with a header narrower than the screen; partial: each line on its own row for lines narrower than the screen when the log has three lines more than are shown; refuted: fewer lines overwrite each other, full-width lines shift later ones, and an expanded view panics on screens with no more rows than it shows lines (one press leads there)."
  },
  {
   "property": "C82",
   "status": "partial",
   "theorems": [
    "c82_exit",
    "c82_idle",
    "c82_pending",
    "c82_resume",
    "c82_retry_refuted",
    "c82_size_refuted"
   ],
   "note": "proved against the reference terminal of C39; refuted: repeating a failed Exit (it writes nothing and reports success), and entering without being able to read the size (SizeToTerm drops the error and does not invalidate)"
  },
  {
   "property": "C83",
   "status": "partial",
   "theorems": [
    "c83_returns",
    "c83_status_partial",
    "c83_signal",
    "c83_status_refuted"
   ],
   "note": "proved but for exit codes that are multiples of 256, which make the process succeed (refuted)"
  },
  {
   "property": "C84",
   "status": "proved",
   "theorems": [
    "c84_files"
   ],
   "note": "proved for all outcomes of IsTerminal and os.OpenFile"
  },
  {
   "property": "C85",
   "status": "partial",
   "theorems": [
    "c85_returns",
    "c85_resumes_partial",
    "c85_resumes_refuted",
    "c85_active",
    "c85_unexited",
    "c85_idle"
   ],
   "note": "safety for all schedules; that it returns after the SIGCONT ending the stop is refuted (signal passed on before the receive is lost, the channel being unbuffered), and proved if it is passed on later"
  },
  {
   "property": "C86",
   "status": "proved",
   "theorems": [
    "c86_toggle"
   ],
   "note": "Creating and loading the recording are given by the environment (tg_created, tg_load); their content is C66."
  },
  {
   "property": "C87",
   "status": "partial",
   "theorems": [
    "c87_replay_partial",
    "c87_again_partial",
    "c87_same",
    "c87_space_refuted",
    "c87_stop_refuted",
    "c87_pause_refuted"
   ],
   "note": "c87_replay_partial and c87_again_partial: when nothing is typed and the client leaves no Ctrl-C and no space in its input; c87_same: determinism. Refuted in general: keys in the recording act on the replay itself (c87_space_refuted, c87_stop_refuted), and a pause outlasts the Run (c87_pause_refuted)."
  },
  {
   "property": "C88",
   "status": "partial",
   "theorems": [
    "c88_items_partial",
    "c88_other",
    "c88_default_refuted",
    "c88_absent_refuted",
    "c88_conceal_refuted"
   ],
   "note": "c88_items_partial: resets, bold, dim, italic, underscore, negative and all colour forms; c88_other: every other parameter is an error. Refuted: default colours and attribute ends are errors, absent parameters do not reset, conceal is dropped."
  },
  {
   "property": "C89",
   "status": "partial",
   "theorems": [
    "c89_total",
    "c89_status",
    "c89_filter_partial",
    "c89_background_refuted",
    "c89_string_refuted",
    "c89_private_refuted",
    "c89_esc_refuted",
    "c89_split_refuted",
    "c89_bytes_refuted",
    "c89_lost_refuted"
   ],
   "note": "c89_filter_partial: tokens other than strings, private-use characters and a few ESC sequences, reads ending between tokens or after an ESC, foreground colours only. Refuted: background colours, strings, private-use characters, some ESC sequences, other divisions of the input, invalid UTF-8, conceal and absent parameters. Errors writing standard output are not modelled."
  },
  {
   "property": "C90",
   "status": "partial",
   "theorems": [
    "c90_parse",
    "c90_ragged",
    "c90_rejects",
    "c90_total",
    "c90_lines",
    "c90_round_trip_partial",
    "c90_conceal_refuted",
    "c90_clear_refuted",
    "c90_empty_refuted",
    "c90_ctls",
    "c90_rows_partial",
    "c90_rows_refuted",
    "c90_rows_panic_refuted",
    "c90_runes",
    "c90_changes_grid_refuted"
   ],
   "note": "c90_parse, c90_ragged, c90_rejects, c90_lines, c90_ctls, c90_runes hold in general for characters and attributes as in their hypotheses; c90_round_trip_partial leaves out conceal, the Clear command and grids without cells (refuted); c90_rows_partial: grids as wide as their rows; refuted for parts of grids. RunesToLines overwrites the grid's empty cells (c90_changes_grid_refuted)."
  },
  {
   "property": "C91",
   "status": "partial",
   "theorems": [
    "c91_line",
    "c91_steps",
    "c91_ends",
    "c91_connected",
    "c91_box",
    "c91_near",
    "c91_reverse_refuted",
    "c91_reverse_partial",
    "c91_figure",
    "c91_setup",
    "c91_args",
    "c91_empty_refuted",
    "c91_ui_total",
    "c91_ui_partial",
    "c91_ui_height_refuted"
   ],
   "note": "c91_line, c91_ends, c91_connected, c91_box, c91_near hold in general (int as Z). Reversal holds for an odd longer extent (c91_reverse_partial), refuted otherwise. The interactive canvas only follows changes of width and zooms (c91_ui_partial), refuted for a change of height; a canvas can come out empty (c91_empty_refuted). The float computations of drawSquare and draw are not modelled."
  },
  {
   "property": "C92",
   "status": "partial",
   "theorems": [
    "c92_owned",
    "c92_exit_stops",
    "c92_active_partial",
    "c92_active_refuted",
    "c92_episode",
    "c92_suspend_refuted",
    "c92_switch",
    "c92_heap",
    "c92_gather",
    "c92_merge_assoc",
    "c92_timing_refuted",
    "c92_flags_refuted",
    "c92_life",
    "c92_exit_nil",
    "c92_run"
   ],
   "note": "Ownership, stopping, episodes, switching files, heap profiles, gathering of names and whole runs hold in general over all failure oracles. Active means running only while Sync never fails (c92_active_partial; refuted otherwise). Refuted: samples before a suspend are erased on resume; the StartTiming setting has no effect; AddFlags with a prefix resets the timing settings. Files are identified by name; handles and log messages are not modelled."
  },
  {
   "property": "C93",
   "status": "partial",
   "theorems": [
    "c93_serial",
    "c93_keep_partial",
    "c93_alias_refuted",
    "c93_again_refuted",
    "c93_again_partial",
    "c93_spread",
    "c93_canon",
    "c93_canon_names",
    "c93_back_refuted",
    "c93_back_partial",
    "c93_theme",
    "c93_theme_again",
    "c93_hues_partial",
    "c93_hues_refuted",
    "c93_flag",
    "c93_named",
    "c93_named_24",
    "c93_listing",
    "c93_listing_id"
   ],
   "note": "c93_serial, c93_canon, c93_theme, c93_flag, c93_listing hold in general. Refuted: earlier values keep converting as before (shared array; c93_keep_partial for results used once), converting twice is the same as once for any palette (c93_again_partial for palettes without nearly equal colours, which the built-in ones are), mapping back returns the colour (c93_back_partial for colours defined once), hues of every theme (UbuntuPalette; c93_hues_partial for the other seven)."
  },
  {
   "property": "C94",
   "status": "partial",
   "theorems": [
    "c94_total",
    "c94_status_refuted",
    "c94_filter_partial",
    "c94_strip_partial",
    "c94_split_refuted",
    "c94_clean_refuted",
    "c94_c1_refuted",
    "c94_swallow_refuted",
    "c94_end_refuted",
    "c94_session",
    "c94_mouse"
   ],
   "note": "c94_total, c94_session and c94_mouse hold in general. c94_filter_partial and c94_strip_partial: reads ending between tokens or inside a control sequence or string after its introducer. Refuted: exit status (always 1), other divisions into reads, escape-free stripped output, stripping of C1 controls, loss of nothing (a string with invalid UTF-8 holds back all later input; incomplete escapes at the end). How escapes and attributes are formatted, and errors of standard output, are not modelled."
  },
  {
   "property": "C95",
   "status": "partial",
   "theorems": [
    "c95_escape",
    "c95_escape_refuted",
    "c95_forms",
    "c95_other_refuted",
    "c95_seq",
    "c95_seq_args",
    "c95_seq_same_refuted",
    "c95_color",
    "c95_color_rgb",
    "c95_color_named",
    "c95_control_named",
    "c95_attr",
    "c95_attr_words",
    "c95_clean",
    "c95_clean_refuted"
   ],
   "note": "Uniqueness, reading back and safety hold in general for runes, built sequences, colours and attributes. Refuted: uniqueness beyond valid runes, printable names for negative identifiers, the documented U+XXXX form for other runes (%q is used), equal prints for sequences that write equal bytes. strconv.Quote is modelled with strconv.IsPrint as a parameter about which print_ok is assumed."
  },
  {
   "property": "C96",
   "status": "partial",
   "theorems": [
    "c96_top",
    "c96_readable",
    "c96_fits_partial",
    "c96_narrow_refuted",
    "c96_cursor_refuted"
   ],
   "note": "c96_top and c96_readable: the exact picture, toggles and events taken when the texts fit. c96_fits_partial: the line is drawn exactly when it fits and otherwise panics (c96_narrow_refuted: Ctrl-K on 43 columns). c96_cursor_refuted: save/restore cursor are ignored by the virtual screen, so the program's cursor is lost. Texts are parameters (formatting of times is not modelled)."
  },
  {
   "property": "C97",
   "status": "partial",
   "theorems": [
    "c97_boxes",
    "c97_header",
    "c97_row_refuted",
    "c97_row_partial",
    "c97_button",
    "c97_toggle",
    "c97_rows_partial",
    "c97_rows_wide"
   ],
   "note": "c97_boxes, c97_header, c97_button, c97_toggle, c97_rows_wide hold in general for printable texts. c97_row_refuted: rows are drawn one column left of their box; c97_row_partial says where, and that they need one column more; c97_rows_partial says the same of any number of rows, one under the other."
  },
  {
   "property": "C98",
   "status": "partial",
   "theorems": [
    "c98_hidden",
    "c98_shown",
    "c98_focus",
    "c98_edit",
    "c98_once",
    "c98_focus_refuted",
    "c98_spinner",
    "c98_timing",
    "c98_frames",
    "c98_frames_off",
    "c98_prof_closed",
    "c98_timing_replay",
    "c98_telemetry",
    "c98_timing_shown"
   ],
   "note": "c98_hidden, c98_shown, c98_focus, c98_edit, c98_once, c98_spinner, c98_timing, c98_timing_shown, c98_timing_replay, c98_frames, c98_telemetry, c98_prof_closed and c98_frames_off hold in general (editing of names as in C55, with its delete). c98_focus_refuted: controls are numbered by position in the frame, so hiding a section moves the focus to another control."
  },
  {
   "property": "C99",
   "status": "partial",
   "theorems": [
    "c99_selector_partial",
    "c99_selector_refuted",
    "c99_last_row_refuted",
    "c99_twice_refuted",
    "c99_clicks",
    "c99_closed",
    "c99_added"
   ],
   "note": "c99_selector_partial: names of at most 15 columns in a list ending above the last row, exactly; c99_clicks: presses on a list of any height. Refuted: a longer name makes a press below the list panic, a name on the last row cannot be chosen, two presses in a frame add a profile twice."
  },
  {
   "property": "C100",
   "status": "partial",
   "theorems": [
    "c100_refuses",
    "c100_buffer",
    "c100_plain",
    "c100_failed_refuted",
    "c100_screen_refuted",
    "c100_cursor_refuted",
    "c100_screen_partial",
    "c100_cursor_partial"
   ],
   "note": "c100_buffer and c100_plain hold in general: same bytes for a Buffer and, through one Write, for any other writer. Refuted for VirtualScreen and VirtualCursor (and so ScreenDiffer, which embeds the former): their WriteSGR takes the difference written for the attributes to set, so a bold cell after a bold cell is not bold. c100_screen_partial, c100_cursor_partial: without attributes they end up as if given the bytes. c100_failed_refuted: after a failed write the returned state has cells never delivered."
  },
  {
   "property": "C101",
   "status": "partial",
   "theorems": [
    "c101_maps",
    "c101_found",
    "c101_own",
    "c101_st_refuted",
    "c101_terminal",
    "c101_terminal_clear",
    "c101_screen_partial",
    "c101_sc_ok",
    "c101_none",
    "c101_reset_refuted",
    "c101_clear_partial",
    "c101_clear_refuted",
    "c101_exit",
    "c101_modes",
    "c101_typed",
    "c101_apart",
    "c101_one_partial",
    "c101_one_refuted",
    "c101_arrows_partial",
    "c101_arrows_refuted"
   ],
   "note": "The part about terminals, the maps, the lookup, the modes and telling keys apart is proved for every description and state. Refuted: on an anansi screen SGR0 of no description resets the attributes (ESC [ m without parameters is ignored, and linux's 0;10 is refused), ClearScreen of linux and screen leaves the cells (ED without a parameter is ignored); keys of xterm, screen and linux can come as a control and a plain letter, and the cursor keys of xterm and screen move nothing; any TERM containing 'st' is taken for xterm. The _partial theorems say for which descriptions each holds."
  },
  {
   "property": "C102",
   "status": "partial",
   "theorems": [
    "c102_log",
    "c102_lines",
    "c102_torn_refuted",
    "c102_timing",
    "c102_reset_refuted",
    "c102_stalls_partial",
    "c102_stalls_refuted"
   ],
   "note": "Contents of the log for every schedule of platform and workers, lines parsed by a JSON reader of the specification. Refuted parts: a failed write leaves half a line; a stall during the flush of the frame that ends a window overwrites the slice handed to the collector (Output.Stalls warns of that) and is logged twice; switching timing off before the worker logs gives zeros. The partial theorem for stalls assumes the output stalls only once the worker has logged."
  },
  {
   "property": "C103",
   "status": "partial",
   "theorems": [
    "c103_no_panic",
    "c103_update",
    "c103_create_refuted",
    "c103_logged",
    "c103_stop_partial",
    "c103_stop_refuted"
   ],
   "note": "Single worker, platform discipline of one update and one notification a frame and stopping at the first error. Refuted parts: changing the telemetry file between update and notification can wait for ever after two failed writes; stopping while the worker is not waiting on its channel can wait for ever (it reads the channel field after Stop has cleared it)."
  },
  {
   "property": "C104",
   "status": "partial",
   "theorems": [
    "c104_start_partial",
    "c104_kept_refuted",
    "c104_silent",
    "c104_silent_refuted",
    "c104_agree",
    "c104_appends",
    "c104_off",
    "c104_session_partial",
    "c104_sizes_partial",
    "c104_size_refuted",
    "c104_torn_refuted"
   ],
   "note": "Proved: complete-or-none start for every failure, agreement of platform and input on whether there is a recording, exact contents of the file for any reads and failing writes, and the composed session from Ctrl-R to Ctrl-R (partial: NUL bytes of C66 between reads of the file). Refuted: an earlier recording is lost when a new one fails; a file that cannot be created is not reported; sizes taken while recording are not recorded; after a failed write the next frame is lost."
  },
  {
   "property": "C105",
   "status": "partial",
   "theorems": [
    "c105_restores_partial",
    "c105_fresh_partial",
    "c105_reuse_refuted",
    "c105_failed_partial",
    "c105_failed_refuted",
    "c105_switches_partial",
    "c105_switches_refuted"
   ],
   "note": "gob is modelled for structs of numbers: zero fields are not sent. Proved: platform state exact, client field by field, all of it for a zero client, state kept on failure, setters keep the stalls switch true to what is tracked. Refuted: a client used before keeps its fields where zero was recorded; a failure may change the client; restoring the switch tracks nothing."
  },
  {
   "property": "C106",
   "status": "partial",
   "theorems": [
    "c106_runs",
    "c106_waits",
    "c106_current",
    "c106_kept",
    "c106_edit_partial",
    "c106_idle",
    "c106_other",
    "c106_view",
    "c106_empty_refuted",
    "c106_clear_refuted",
    "c106_small_refuted",
    "c106_edge_refuted",
    "c106_zero_refuted"
   ],
   "note": "Running a command is an oracle giving status, error and output. Proved for any session: runs, waiting, what is shown, values kept, idle frames, presses on other words, exact view of an idle frame whose words fit in a row. Editing is partial: deletes at an end of the line only (C55), one word pressed per frame. Refuted: no command crashes; values cannot be emptied; one row (two with the HUD) crashes; a variable ending in the last column cannot be pressed; after a frame without size nothing is run."
  },
  {
   "property": "C107",
   "status": "partial",
   "theorems": [
    "c107_picture_refuted",
    "c107_picture_partial",
    "c107_safe",
    "c107_rest",
    "c107_keys",
    "c107_loop",
    "c107_forever"
   ],
   "note": "Refuted: the picture is not on the screen: every row is painted over the first one (main.go:79 looks the next row's cell up with the column left after the last). Proved for any session: no panic, the first row shows the picture's last row exactly (so one-row screens are right), the rest is blank while the size stays; keys, logging and input kept; the client loops for any results of Platform.Run (an oracle)."
  },
  {
   "property": "C108",
   "status": "partial",
   "theorems": [
    "c108_again_refuted",
    "c108_notified_partial",
    "c108_exact_partial",
    "c108_closed",
    "c108_resume_refuted",
    "c108_resume_partial",
    "c108_enter_partial",
    "c108_disable_refuted",
    "c108_async_partial",
    "c108_disable_partial",
    "c108_told"
   ],
   "note": "Refuted: giving Notify the channel it already has ends notification, as the channel is registered before the prior one is stopped; so an InputSignal entered again after Suspend hears nothing at all; Notify(nil) leaves O_ASYNC set. Proved: exactly what every channel receives in every history; as specified if no channel is given again while in use; nothing heard after Close until Notify; a first Enter, or one after Close, hears; success of Notify sets O_ASYNC (system calls succeeding)."
  },
  {
   "property": "C109",
   "status": "partial",
   "theorems": [
    "c109_given_back_partial",
    "c109_original_partial",
    "c109_again_refuted",
    "c109_flags_refuted",
    "c109_unset_refuted"
   ],
   "note": "Refuted: when RunWithout fails to enter again (setting modes fails), a following RunWith takes the program's own settings for the original ones and they stay; when Input.Enter fails, Exit clears the input's flags and resets modes never set. Partial: for every program, if no call of Exit, of Input.Enter or reading the attributes fails, and either nothing else of Enter fails or the program does not call RunWith itself."
  },
  {
   "property": "C110",
   "status": "partial",
   "theorems": [
    "c110_life",
    "c110_start",
    "c110_own",
    "c110_stop",
    "c110_one_start",
    "c110_one_stop",
    "c110_episode",
    "c110_retry_refuted",
    "c110_name_refuted"
   ],
   "note": "c110_life, c110_start, c110_own, c110_stop, c110_one_start, c110_one_stop and c110_episode prove the claim for every platform state that can be reached by any use of the profilers. Two expectations are false: c110_retry_refuted (another press stops the others instead of trying again) and c110_name_refuted (a name that cannot be used stops the running profiler)."
  },
  {
   "property": "C111",
   "status": "partial",
   "theorems": [
    "c111_screen_partial",
    "c111_frame",
    "c111_exit",
    "c111_drawn",
    "c111_unset_refuted",
    "c111_twice_refuted"
   ],
   "note": "c111_screen_partial proves the claim for every program, whatever is drawn and wherever frames are cut, provided Mode.Exit's writes succeed and Enter and Exit take turns (Enter succeeding, Exit not panicking). Without that it is false: c111_unset_refuted (Enter fails before the modes are set; Exit resets them nevertheless and moves the user's cursor) and c111_twice_refuted (what RunWithout runs fails: Exit twice). c111_frame and c111_exit: what frames and Screen.Exit write only draws. Simplified: the normal screen is not resized, no frames after a failed flush."
  },
  {
   "property": "C112",
   "status": "partial",
   "theorems": [
    "c112_terminal_partial",
    "c112_soft",
    "c112_terminal_refuted",
    "c112_printed",
    "c112_screen",
    "c112_sc_ok",
    "c112_screen_refuted",
    "c112_digit"
   ],
   "note": "False: ansi.SGRReset is ESC [ NUL m, as the code 0 is passed for the digit 0. c112_screen_refuted and c112_screen: the library's own screens ignore it; c112_terminal_refuted and c112_printed: a terminal on which NUL ends the sequence prints an m. Proved: it resets on terminals ignoring NUL (c112_terminal_partial); SoftReset resets on all (c112_soft); with the digit the full statement holds (c112_digit)."
  },
  {
   "property": "C113",
   "status": "partial",
   "theorems": [
    "c113_run_partial",
    "c113_flags",
    "c113_new",
    "c113_async_refuted",
    "c113_new_refuted"
   ],
   "note": "False: O_ASYNC stays set on the input file after every Run that did not find it set (c113_async_refuted; c113_flags: exactly then), as New sets it before Enter notes the flags and Close does not clear it; and a New that fails leaves the flag and the registered channel behind (c113_new_refuted). c113_run_partial: settings, modes, all other flags and the notification are given back, under the conditions of C109, for the terminal's own contexts."
  },
  {
   "property": "C114",
   "status": "partial",
   "theorems": [
    "c114_tells_partial",
    "c114_shows",
    "c114_clean_partial",
    "c114_input_refuted",
    "c114_error_refuted",
    "c114_duration_partial",
    "c114_duration_none",
    "c114_message",
    "c114_duration_refuted"
   ],
   "note": "Proved of the faithful model: message and presence of input can be told from the text, text without an error is safe to show, Duration is the sum of the gaps when first and last frame have a time. Refuted: the input is never printed, errors are printed raw, and Duration of a platform's recording is the longest there is."
  },
  {
   "property": "C115",
   "status": "partial",
   "theorems": [
    "c115_draw",
    "c115_square",
    "c115_top",
    "c115_moved",
    "c115_canvas_partial",
    "c115_canvas_refuted",
    "c115_angle"
   ],
   "note": "float64 is modelled as exact reals (axioms of Coq's standard real numbers). Proved: drawing ends and sets exactly the squares' pixels, every figure is a closed square near the exact one, how far squares are moved and turned, the top row is on the canvas. Refuted: that all squares are on the canvas."
  },
  {
   "property": "C116",
   "status": "partial",
   "theorems": [
    "c116_point",
    "c116_rect",
    "c116_mouse_total",
    "c116_mouse_held",
    "c116_mouse_buttons",
    "c116_mouse_none",
    "c116_mouse_partial",
    "c116_mouse_event_partial",
    "c116_mouse_clean",
    "c116_mouse_refuted",
    "c116_cursor",
    "c116_screen",
    "c116_screen_clean",
    "c116_event",
    "c116_event_partial",
    "c116_event_refuted",
    "c116_mouse_error",
    "c116_mouse_error_clean"
   ],
   "note": "Proved: texts of points, rectangles, cursors (with proper attributes), screens, decoded escape events and mouse errors determine what they describe; mouse states print for all 256 values, modifiers first, buttons by name; cursors, screens and mouse events are safe to show. Partial: mouse states determine their text's source unless the wheel bit comes with no button; escape events are safe to show if their argument is. Refuted: state 67 prints as the right button; a carriage return in a CSI argument and an ESC in an OSC argument are printed."
  },
  {
   "property": "C117",
   "status": "proved",
   "theorems": [
    "c117_rect_panics",
    "c117_rect",
    "c117_rect_points",
    "c117_pt",
    "c117_valid",
    "c117_add_sub",
    "c117_mul",
    "c117_div_mul",
    "c117_div_near",
    "c117_div_zero",
    "c117_eq",
    "c117_size",
    "c117_size_corner",
    "c117_translate",
    "c117_inset_small",
    "c117_inset_near",
    "c117_outset"
   ],
   "note": "Proved over unbounded integers (no overflow): when Rect and Pt panic and what they build, validity, the arithmetic of points with Div rounding towards the origin, Size as the number of points inside, translation, and Inset by too much and by negative numbers."
  },
  {
   "property": "C118",
   "status": "proved",
   "theorems": [
    "c118_terminals",
    "c118_filter",
    "c118_session",
    "c118_before"
   ],
   "note": "Proved for every program of reads, writes, suspensions, failures and panics run in decode's session, if no system call of the session's contexts fails (failing ones are C109's subject): when it filters instead, that setting up cannot fail and changes nothing, the settings in force while in control and outside, the modes set and reset, and that all is given back."
  },
  {
   "property": "C119",
   "status": "proved",
   "theorems": [
    "c119_inside",
    "c119_before",
    "c119_after",
    "c119_error"
   ],
   "note": "Proved: Size inside a session, before, after, and with errors. The system's answer to TIOCGWINSZ is an oracle."
  },
  {
   "property": "C120",
   "status": "partial",
   "theorems": [
    "c120_total",
    "c120_rate",
    "c120_config",
    "c120_flags",
    "c120_failed",
    "c120_works",
    "c120_plain",
    "c120_pointer_refuted",
    "c120_leftover_refuted"
   ],
   "note": "Proved: when New panics, the frame rate, names and timing of what is built, when flags are parsed, success without failing calls and without names. Refuted: a Config given by pointer does not keep flags from being parsed, and a failing New leaves emptied files behind."
  },
  {
   "property": "C121",
   "status": "partial",
   "theorems": [
    "c121_arguments",
    "c121_prints",
    "c121_bytes",
    "c121_wrong",
    "c121_interactive",
    "c121_fails",
    "c121_lines_partial",
    "c121_lines_refuted"
   ],
   "note": "Proved: what arguments stand for, the text printed as a function of the pixels of the squares, its length in bytes, wrong arguments, -i, failing writes; with float64 as the reals (the stdlib's axioms for them are listed in DESIGN.md). At least one line is printed from three columns on; refuted for one."
  },
  {
   "property": "C122",
   "status": "partial",
   "theorems": [
    "c122_safe",
    "c122_v_ok",
    "c122_frame",
    "c122_pixels",
    "c122_screen_partial",
    "c122_screen_refuted",
    "c122_zoom",
    "c122_squares",
    "c122_keys"
   ],
   "note": "Proved for every sequence of frames: no panic, the pixels of the canvas, what each character of the screen shows, the side and angle of the squares, their number after a change, and the keys. Refuted: when only the height of the screen grows, the added rows stay empty. float64 is the reals (stdlib axioms listed in DESIGN.md)."
  },
  {
   "property": "C123",
   "status": "proved",
   "theorems": [
    "c123_honest",
    "c123_works",
    "c123_fails",
    "c123_status"
   ],
   "note": "Proved for every input and every sequence of outcomes of the writes: output is a prefix, status 0 just if the input ended and no write failed, no write after a failing one, and with no failure the run of C89. bufio.Writer is modelled from the standard library (trusted)."
  },
  {
   "property": "C124",
   "status": "partial",
   "theorems": [
    "c124_honest",
    "c124_works",
    "c124_fails",
    "c124_told_partial",
    "c124_told_refuted"
   ],
   "note": "The last clause fails (c124_told_refuted): runBatch's loop ends only with an error, that of the last read at the end of the input, and then the error of the final flush is dropped; so output that fails at the end, as all output that fits the buffer does, is answered like output that was taken. A failure while there is more input is told (c124_told_partial). What strconv.IsPrint answers and the text of DecodeSGR's errors are parameters."
  },
  {
   "property": "C125",
   "status": "partial",
   "theorems": [
    "c125_session",
    "c125_order",
    "c125_tokens_partial",
    "c125_end",
    "c125_live",
    "c125_leak_refuted",
    "c125_taken_refuted"
   ],
   "note": "The last sentence fails: once the loop returned, the goroutine stays at sending forever (c125_leak_refuted), or reads on and takes input that nobody gets (c125_taken_refuted); decode then exits, so that this shows only in programs that copy it. Events are those of C46 (c125_tokens_partial has its condition on where the input is divided)."
  },
  {
   "property": "C126",
   "status": "partial",
   "theorems": [
    "c126_follow_partial",
    "c126_bytes_partial",
    "c126_step_partial",
    "c126_goto",
    "c126_style",
    "c126_vis",
    "c126_claims",
    "c126_wrap_refuted",
    "c126_scroll_refuted",
    "c126_edge_refuted",
    "c126_zero_refuted",
    "c126_short_refuted",
    "c126_soft_refuted",
    "c126_reset_refuted",
    "c126_unknown_refuted"
   ],
   "note": "True of what the terminal carries out without wrapping, scrolling or stopping at an edge (c126_follow_partial, from a known position). Otherwise tracking is lost: a character after the last column (c126_wrap_refuted), a line feed on the last line (c126_scroll_refuted), a motion beyond an edge (c126_edge_refuted), a motion by 0 (c126_zero_refuted), a position without its column (c126_short_refuted), a soft hyphen (c126_soft_refuted), SGR without parameters (c126_reset_refuted); and two motions make an unknown position a known one, wrongly (c126_unknown_refuted)."
  },
  {
   "property": "C127",
   "status": "partial",
   "theorems": [
    "c127_session_partial",
    "c127_step_partial",
    "c127_clear",
    "c127_scroll_refuted",
    "c127_corner_refuted",
    "c127_return_refuted",
    "c127_line_refuted",
    "c127_below_refuted",
    "c127_omitted_refuted",
    "c127_zero_refuted",
    "c127_short_refuted",
    "c127_reset_refuted",
    "c127_soft_refuted",
    "c127_background_refuted"
   ],
   "note": "True of sessions without scrolling in which a character in the last column is followed by another one, a position, a rendition or a visibility, and in which parameters are given as the library expects (c127_session_partial). Otherwise the two differ: a line feed on the last line does not scroll the Screen (c127_scroll_refuted), a character in the last cell sends its cursor to the start of that line (c127_corner_refuted), CR or erasing after a character in the last column acts on the next line (c127_return_refuted, c127_line_refuted), ED 0 leaves the cell at the cursor (c127_below_refuted), ED and EL without parameter do nothing (c127_omitted_refuted), a motion by 0 (c127_zero_refuted), a position without its column (c127_short_refuted), SGR without parameters (c127_reset_refuted), a soft hyphen (c127_soft_refuted), and erasing with a background colour on terminals that use it (c127_background_refuted)."
  },
  {
   "property": "C128",
   "status": "partial",
   "theorems": [
    "c128_row",
    "c128_page",
    "c128_columns_partial",
    "c128_shift_refuted",
    "c128_themes_refuted"
   ],
   "note": "The rows, the page and the control strings shown are proved in full. That all rows line up is proved for rows with numbers below 100, and for the others, without themes for the model id; refuted in full: rows from 100 on are shifted by a column, and the themes' colours exceed the columns of the model id."
  }
 ]
}
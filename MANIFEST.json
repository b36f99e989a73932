{
 "claims": [
  {
   "property": "C01",
   "status": "proved",
   "theorems": [
    "C01_memory_read_exact"
   ],
   "note": "reader.cc:67-75 over a partial host memory; invalid memory would be UB."
  },
  {
   "property": "C02",
   "status": "partial",
   "theorems": [
    "C02_views_stay_in_window_partial",
    "C02_beyond_window_throws",
    "C02_window_overflow_refuted",
    "C02_nested_view_escapes_refuted",
    "C02_open_memory_view_refuted",
    "C02_default_length"
   ],
   "note": "Proved for arbitrary chains of views each inside its parent and off+count < 2^64. The full property is false of the code: the three refuted theorems give witnesses (wrap-around at reader.cc:262; OffsetReader::view does not clamp; open-ended view of a memory reader is unbounded)."
  },
  {
   "property": "C03",
   "status": "proved",
   "theorems": [
    "C03_cache_transparent",
    "C03_unaligned_region_refuted"
   ],
   "note": "For every history and every upstream whose readable regions start on 256-byte boundaries; the refuted theorem shows the condition is needed."
  },
  {
   "property": "C04",
   "status": "proved",
   "theorems": [
    "C04_cache_bounded"
   ],
   "note": "Invariant over all histories, any upstream."
  },
  {
   "property": "C05",
   "status": "partial",
   "theorems": [
    "C05_flush_makes_reads_fresh",
    "C05_flush_strings_refuted"
   ],
   "note": "True for reads, false for strings: flush() does not clear stringCache."
  },
  {
   "property": "C06",
   "status": "proved",
   "theorems": [
    "C06_string_repeatable"
   ],
   "note": "Any history; the result is also pinned to the right text."
  },
  {
   "property": "C07",
   "status": "proved",
   "theorems": [
    "C07_read_string",
    "C07_read_string_memory",
    "C07_read_string_memory_reader",
    "C07_offset_zero"
   ],
   "note": ""
  },
  {
   "property": "C08",
   "status": "proved",
   "theorems": [
    "C08_readobj_all_or_nothing",
    "C08_readobj_exact_bytes"
   ],
   "note": ""
  },
  {
   "property": "C09",
   "status": "proved",
   "theorems": [
    "C09_array_iteration",
    "C09_array_random_access"
   ],
   "note": ""
  },
  {
   "property": "C10",
   "status": "partial",
   "theorems": [
    "C10_uleb_roundtrip",
    "C10_sleb_roundtrip",
    "C10_uleb_any_encoding",
    "C10_truncated",
    "C10_overlong_refuted"
   ],
   "note": "Round trip for all 64-bit values proved; the over-long clause is false: more than ten bytes is a shift by >= 64, undefined behaviour."
  },
  {
   "property": "C11",
   "status": "proved",
   "theorems": [
    "C11_getuint",
    "C11_getint",
    "C11_getu32"
   ],
   "note": ""
  },
  {
   "property": "C12",
   "status": "proved",
   "theorems": [
    "C12_initial_length"
   ],
   "note": ""
  },
  {
   "property": "C13",
   "status": "proved",
   "theorems": [
    "C13_lookup_sound",
    "C13_lookup_exact"
   ],
   "note": "dwarf_frame.cc:249-269, table taken as loaded."
  },
  {
   "property": "C14",
   "status": "partial",
   "theorems": [
    "C14_row_in_force_partial",
    "C14_advance_wraps_refuted",
    "C14_val_offset_refuted",
    "C14_terminates_refuted"
   ],
   "note": "Refinement of the standard's table for every program whose operands fit the machine types; the refuted theorems show where the code departs from DWARF (32-bit scaled advance, val_offset unsupported, cursor wrap makes execution endless)."
  },
  {
   "property": "C15",
   "status": "partial",
   "theorems": [
    "C15_bracket_restores",
    "C15_unmatched_restore_refuted"
   ],
   "note": "Nesting proved at any depth; the rejection half is false (UB on an empty state stack)."
  },
  {
   "property": "C16",
   "status": "partial",
   "theorems": [
    "C16_encoded_pointer_partial",
    "C16_absptr_refuted"
   ],
   "note": "All formats but absptr, which reads 4 bytes signed instead of 8."
  },
  {
   "property": "C17",
   "status": "partial",
   "theorems": [
    "C17_expression_value_partial",
    "C17_compare_refuted",
    "C17_piece_refuted",
    "C17_entry_value_refuted",
    "C17_unimplemented_refuted"
   ],
   "note": "Correct for every program over the implemented operations with no signed overflow, shift >= 64 or mixed-sign ordering comparison; the refuted theorems exhibit unsigned comparison, reversed pieces, duplicated entry values and the unimplemented operations."
  },
  {
   "property": "C18",
   "status": "partial",
   "theorems": [
    "C18_underflow_refuted",
    "C18_div_shift_refuted",
    "C18_empty_expression_refuted",
    "C18_defined_is_safe_partial"
   ],
   "note": "The rejection claim is false of the code: underflow, zero divisors and wide shifts are undefined behaviour. What holds is that defined programs never underflow."
  },
  {
   "property": "C19",
   "status": "partial",
   "theorems": [
    "C19_loclist_v5_partial",
    "C19_loclist_v4_partial",
    "C19_start_length_refuted",
    "C19_unhandled_refuted",
    "C19_base_selection_refuted",
    "C19_base_addressx_refuted",
    "C19_unavailable_refuted"
   ],
   "note": "First covering entry for lists of offset_pair/base_address/(base 0) start_length entries and DWARF 4 lists without base selection. The other entry kinds are mishandled (refuted theorems), and 'unavailable' is reported as the value 0."
  },
  {
   "property": "C20",
   "status": "partial",
   "theorems": [
    "C20_unwind_step_partial",
    "C20_unreadable_return_refuted"
   ],
   "note": "From encoded CIE/FDE bytes to the caller's registers for every row, including offset rules for vector, FP, flag and segment registers. Other rule kinds for those registers and steps in which a rule's value cannot be obtained are excluded from the positive theorem; for the latter the code swallows the failure (refuted)."
  },
  {
   "property": "C21",
   "status": "proved",
   "theorems": [
    "C21_innermost_exact",
    "C21_signal_code_exact",
    "C21_interrupted_exact",
    "C21_call_minus_one"
   ],
   "note": "Over every walk the unwinder returns."
  },
  {
   "property": "C22",
   "status": "partial",
   "theorems": [
    "C22_source_lookup_partial",
    "C22_source_of_program",
    "C22_unterminated_refuted"
   ],
   "note": "Every matrix whose last row ends a sequence and whose file/directory references exist. An unterminated last sequence makes the lookup read past the table (refuted)."
  },
  {
   "property": "C23",
   "status": "partial",
   "theorems": [
    "C23_line_matrix_v4_partial",
    "C23_line_matrix_v5_partial",
    "C23_program_terminates",
    "C23_flags_refuted",
    "C23_fixed_advance_refuted",
    "C23_unknown_opcode_refuted",
    "C23_line_range_refuted",
    "C23_timestamp_refuted"
   ],
   "note": "Header and program, DWARF 2-5, 32 and 64-bit. Rows agree in every register but prologue_end, epilogue_begin and discriminator, which the code does not reset; fixed_advance_pc is wrongly scaled; opcodes the standard says to skip and line_range 0 are refuted."
  },
  {
   "property": "C24",
   "status": "partial",
   "theorems": [
    "C24_covering_unit_found_partial",
    "C24_uncovered_none_partial",
    "C24_ranges_refuted",
    "C24_long_range_refuted",
    "C24_empty_tuple_refuted",
    "C24_aligned_header_refuted",
    "C24_dwarf64_refuted",
    "C24_high_addrx_refuted",
    "C24_units_read",
    "C24_covering_from_entries_partial",
    "C24_high_sdata_refuted",
    "C24_uncovered_lists_partial",
    "C24_uncovered_from_entries_partial"
   ],
   "note": "Section parsing, the unit fallback and lookups after any history, for consistent non-empty intervals. Range list entries stored with start for length, empty tuples, aligned headers, 64-bit sets and addrx high_pc are refuted."
  },
  {
   "property": "C25",
   "status": "partial",
   "theorems": [
    "C25_low_high",
    "C25_ranges_partial",
    "C25_unknown",
    "C25_range_end_refuted",
    "C25_constant_form_refuted",
    "C25_ranges_low_partial",
    "C25_ranges_lookup_partial",
    "C25_ranges_answer"
   ],
   "note": "low_pc/high_pc exactly half-open for address and constant class forms; range lists except at the end address of a range, which the code includes (refuted); sdata/implicit_const/data16 high_pc throws (refuted)."
  },
  {
   "property": "C26",
   "status": "partial",
   "theorems": [
    "C26_lookup_partial",
    "C26_local_lookup",
    "C26_order_independent",
    "C26_second_reference_refuted",
    "C26_cycle_refuted"
   ],
   "note": "Lookup through any chain of references, independent of attribute order. An entry with both references consults only the first, and cyclic references do not terminate (refuted)."
  },
  {
   "property": "C27",
   "status": "proved",
   "theorems": [
    "C27_first_enclosing"
   ],
   "note": "First entry in document order, for any tree and any answers of containsAddress that are not exceptions, after any history."
  },
  {
   "property": "C28",
   "status": "partial",
   "theorems": [
    "C28_ranges_partial",
    "C28_addr4_refuted",
    "C28_startx_endx_refuted"
   ],
   "note": "All entry kinds of both versions except DW_RLE_startx_endx (refuted) and 4-byte addresses in version 4 (refuted)."
  },
  {
   "property": "C29",
   "status": "proved",
   "theorems": [
    "C29_gnu_lookup"
   ],
   "note": "Byte-level table, any well-formed table and any name, collisions and duplicates included; first symbol of the name by index."
  },
  {
   "property": "C30",
   "status": "partial",
   "theorems": [
    "C30_sysv_lookup_partial",
    "C30_high_bytes_refuted",
    "C30_cyclic_chain_never_ends"
   ],
   "note": "Proved for names of bytes below 0x80; refuted for others, whose hash is computed from sign-extended bytes."
  },
  {
   "property": "C31",
   "status": "partial",
   "theorems": [
    "C31_segment_lookup_partial",
    "C31_empty_segment_refuted"
   ],
   "note": "Any history, any file order, segments up to the top of the address space. Refuted when a loadable segment is empty."
  },
  {
   "property": "C32",
   "status": "partial",
   "theorems": [
    "C32_segment_notes_partial",
    "C32_section_notes_partial",
    "C32_terminates",
    "C32_empty_segment_refuted",
    "C32_unnamed_refuted"
   ],
   "note": "Segments and sections of debug images. Empty note segments and notes without a name are refuted. Termination holds on any input."
  },
  {
   "property": "C33",
   "status": "proved",
   "theorems": [
    "C33_findSym",
    "C33_findSymbolByAddress"
   ],
   "note": "Eligible symbols are those of allocated sections, as the statement says; symbols do not run past the end of the address space."
  },
  {
   "property": "C34",
   "status": "partial",
   "theorems": [
    "C34_sound_partial",
    "C34_complete_partial",
    "C34_short_name_refuted"
   ],
   "note": "Distinct section names. Names that are a proper suffix of .dwo (the empty name among them) are undefined behaviour when absent."
  },
  {
   "property": "C35",
   "status": "partial",
   "theorems": [
    "C35_core_read_sourced",
    "C35_core_read_exact_partial",
    "C35_holds_unique",
    "C35_core_read_prefers_core_refuted",
    "C35_core_read_zeroes_file_refuted",
    "C35_core_read_terminates_refuted"
   ],
   "note": "Any layout: bytes have a source at that address, no overrun, termination, stops only at unmapped memory. Exact byte for layouts whose sources do not interleave; refuted for others (object bytes preferred over dumped ones, zeros over mapped file contents), and termination refuted for malformed headers."
  },
  {
   "property": "C36",
   "status": "proved",
   "theorems": [
    "C36_get_regs_own_thread",
    "C36_get_regs_unknown_thread"
   ],
   "note": "Any notes before the first thread, any number of threads and notes."
  },
  {
   "property": "C37",
   "status": "partial",
   "theorems": [
    "C37_find_segment_sound",
    "C37_find_segment_complete_partial",
    "C37_find_segment_at_base_refuted"
   ],
   "note": "Sound and complete except at an object's load address itself, where the object is never found."
  },
  {
   "property": "C38",
   "status": "partial",
   "theorems": [
    "C38_frame_limit",
    "C38_walk_terminates_partial",
    "C38_backwards_refuted"
   ],
   "note": "The frame limit is unconditional. Termination holds for frame sections in which no block length moves the cursor backwards; with such a block the walk diverges (refuted)."
  },
  {
   "property": "C39",
   "status": "partial",
   "theorems": [
    "C39_never_attached_outside_bracket",
    "C39_nothing_attached_at_end",
    "C39_destroy_detaches",
    "C39_attached_while_stopped_partial",
    "C39_later_thread_not_stopped_refuted"
   ],
   "note": "Nothing stays attached outside or after stop/resume brackets, any nesting. Attached while stopped: for threads present at the first stop; refuted for threads that appear later."
  },
  {
   "property": "C40",
   "status": "partial",
   "theorems": [
    "C40_regions_partial",
    "C40_inode_refuted"
   ],
   "note": "Any maps/smaps text: all fields but the inode, whose decimal digits are read as hexadecimal (refuted for every inode of 10 or more)."
  },
  {
   "property": "C41",
   "status": "partial",
   "theorems": [
    "C41_text_partial",
    "C41_valid_partial",
    "C41_terminates",
    "C41_control_invalid_refuted",
    "C41_lossless_refuted",
    "C41_malformed_refuted"
   ],
   "note": "Lossless for all text up to U+FFFF with the five escaped control characters; valid for any bytes without the others; terminates. Refuted: other control characters (invalid output), lossless for U+10000 and up and for control characters followed by hex digits, rejection of malformed UTF-8."
  },
  {
   "property": "C42",
   "status": "proved",
   "theorems": [
    "C42_globmatch"
   ],
   "note": "All patterns and names; termination and memory safety included."
  },
  {
   "property": "C43",
   "status": "partial",
   "theorems": [
    "C43_find_sound",
    "C43_find_complete_partial",
    "C43_adjacent_refuted"
   ],
   "note": "Sound always; complete unless some symbol ends at the address; refuted for adjacent symbols."
  },
  {
   "property": "C44",
   "status": "proved",
   "theorems": [
    "C44_statistics",
    "C44_peak"
   ],
   "note": "All correct programs and all answers of the real allocator; filling and the memory limit off; calls serialised."
  },
  {
   "property": "C45",
   "status": "partial",
   "theorems": [
    "C45_overrun_reported_partial",
    "C45_level2_reported_partial",
    "C45_double_free_reported_partial",
    "C45_underrun_missed_refuted",
    "C45_false_report_refuted",
    "C45_guard_bytes"
   ],
   "note": "Detection of guard bytes and double frees while retained proved; refuted for the four padding bytes before a block, and false reports with filling on."
  },
  {
   "property": "C46",
   "status": "proved",
   "theorems": [
    "C46_fifo"
   ],
   "note": "Filling off."
  },
  {
   "property": "C47",
   "status": "proved",
   "theorems": [
    "C47_aligned",
    "C47_posix_memalign",
    "C47_valloc"
   ],
   "note": "Any positive alignment, sizes whose sum with the bookkeeping is representable."
  },
  {
   "property": "C48",
   "status": "partial",
   "theorems": [
    "C48_bootstrap_partial",
    "C48_overlap_refuted",
    "C48_misaligned_refuted"
   ],
   "note": "Proved for sizes up to 2^64-65540 and alignment 4; refuted beyond."
  },
  {
   "property": "C49",
   "status": "partial",
   "theorems": [
    "C49_stack_lines",
    "C49_line_any_options",
    "C49_odd_table_refuted"
   ],
   "note": "Every frame of every chain prints the line of the table, both Pythons; with arguments/locals shown the theorem covers the innermost frame. A table of odd length (corrupt core) is read past its end."
  },
  {
   "property": "C50",
   "status": "partial",
   "theorems": [
    "C50_python2_partial",
    "C50_python2_last_slot_refuted",
    "C50_python3",
    "C50_shared_keys_refuted"
   ],
   "note": "Python 2 never shows the last slot of the table (loop bound ma_mask, should be ma_mask + 1); Python 3 is exact for combined tables, and shows valueless keys of shared-key dictionaries."
  },
  {
   "property": "C51",
   "status": "partial",
   "theorems": [
    "C51_version",
    "C51_rejects_or_answers",
    "C51_two_digit_minor_refuted",
    "C51_no_dot_refuted"
   ],
   "note": "Exact characterisation of the answer for all names; it cuts two-digit minors (3.11 becomes 3.1) and accepts any character for the dot."
  },
  {
   "property": "C52",
   "status": "partial",
   "theorems": [
    "C52_exact_partial",
    "C52_large_refuted"
   ],
   "note": "Exact below 2^63 in magnitude; never exact above."
  },
  {
   "property": "C53",
   "status": "partial",
   "theorems": [
    "C53_abi_numbering",
    "C53_set_then_get_partial",
    "C53_general_registers_settable",
    "C53_mmx_alias_refuted",
    "C53_lost_write_refuted",
    "C53_unknown_rejected"
   ],
   "note": "x86-64 numbering. Holds for registers the code stores and outside the MMX/XMM confusion; both exceptions are exhibited."
  },
  {
   "property": "C54",
   "status": "partial",
   "theorems": [
    "C54_id_same_object",
    "C54_missing_name_not_repeated",
    "C54_answer_independent_partial",
    "C54_name_reload_refuted",
    "C54_key_clash_refuted"
   ],
   "note": "By build ID: the same object. By name: failures are remembered, found images are loaded afresh (refuted). Independence of history proved if no name asked for is the relative name of a build ID asked for (refuted otherwise)."
  },
  {
   "property": "C55",
   "status": "partial",
   "theorems": [
    "C55_read_partial",
    "C55_uncorrupted",
    "C55_damaged_refuted"
   ],
   "note": "Proved for ranges whose blocks decode, after any history; refuted for damaged blocks (second read delivers zeros). Ranges past the end are refused rather than shortened."
  },
  {
   "property": "C56",
   "status": "partial",
   "theorems": [
    "C56_dispatch",
    "C56_rejects",
    "C56_collision",
    "C56_pstack_options",
    "C56_duplicate_name_refuted",
    "C56_question_mark_refuted"
   ],
   "note": "Proved for all option tables with distinct names and distinct letters (pstack's and canal's satisfy this) over a model of getopt_long; duplicate names and the letter '?' are not rejected."
  },
  {
   "property": "C57",
   "status": "partial",
   "theorems": [
    "C57_signals_partial",
    "C57_default_ignored_refuted",
    "C57_realtime_refuted"
   ],
   "note": "Signals up to 31 that are handled or would terminate; refuted: signals that are ignored or only stop the command by default (SIGCHLD, SIGWINCH, ...) kill it, real-time signals are undefined behaviour."
  },
  {
   "property": "C58",
   "status": "partial",
   "theorems": [
    "C58_gnu_hash",
    "C58_elf_hash_partial",
    "C58_elf_hash_refuted"
   ],
   "note": "gnu_hash for all names; elf_hash for bytes below 0x80, refuted above."
  },
  {
   "property": "C59",
   "status": "partial",
   "theorems": [
    "C59_entries_decoded_partial",
    "C59_large_offset_refuted",
    "C59_form_refuted",
    "C59_undeclared_refuted",
    "C59_v2_ref_refuted"
   ],
   "note": "All declarations, forms and trees of entries, DWARF 2-5, 32 and 64 bit; offsets below half range. Sign extension of offsets, unread forms, undeclared codes and version 2 ref_addr are refuted."
  },
  {
   "property": "C60",
   "status": "partial",
   "theorems": [
    "C60_navigation_partial"
   ],
   "note": "Any history of lookups, full or step by step iterations and parent queries over any well-formed tree, with or without sibling attributes. Partial in the encodings of C59."
  },
  {
   "property": "C61",
   "status": "partial",
   "theorems": [
    "C61_pubnames_partial",
    "C61_terminates",
    "C61_no_section",
    "C61_long_unit_refuted",
    "C61_repeat_after_failure_refuted"
   ],
   "note": "Proved for contributions under 64 KiB in the 32-bit format; termination for any contents. Refuted: the length is kept in 16 bits; after a failed call the next returns a partial list."
  },
  {
   "property": "C62",
   "status": "partial",
   "theorems": [
    "C62_v5_events_partial",
    "C62_v4_events_partial",
    "C62_v4_terminates",
    "C62_v5_terminates_partial",
    "C62_import_cycle_refuted",
    "C62_v4_stop_refuted",
    "C62_vendor4_refuted",
    "C62_vendor5_refuted",
    "C62_offset_size_refuted",
    "C62_start_file_refuted"
   ],
   "note": "Order, contents and imports proved for well-formed sections and any visitor; termination for any macinfo and for forward imports. Refuted: import cycles, vendor opcodes, stop requests in macinfo, offset sizes, undefined file numbers."
  },
  {
   "property": "C63",
   "status": "partial",
   "theorems": [
    "C63_evaluation_terminates_partial",
    "C63_recursive_frame_base_refuted"
   ],
   "note": "Terminates on every byte string without a frame base expression; a self-referring frame base recurses without end."
  },
  {
   "property": "C64",
   "status": "proved",
   "theorems": [
    "C64_core_address_space"
   ],
   "note": "NT_FILE entries with distinct starts."
  },
  {
   "property": "C65",
   "status": "partial",
   "theorems": [
    "C65_flags_partial",
    "C65_first_flag_refuted"
   ],
   "note": "All flags but the first of the line, which is never reported (refuted)."
  },
  {
   "property": "C66",
   "status": "partial",
   "theorems": [
    "C66_offset_sound",
    "C66_offset_complete_partial",
    "C66_offset_exact",
    "C66_offset_zero_refuted",
    "C66_beyond_refuted"
   ],
   "note": "Sound always; exact characterisation of what is found; complete for offsets from 1 to the size of the symbol, non-overlapping symbols of positive size. Refuted: --offset 0 is ignored, and offsets beyond the symbol's end are not found."
  },
  {
   "property": "C67",
   "status": "partial",
   "theorems": [
    "C67_histogram_partial",
    "C67_references_partial",
    "C67_ranges",
    "C67_adjacent_refuted"
   ],
   "note": "Ranges in full; symbols except for words equal to the end of a symbol, for which it is refuted; see C147 for the whole program."
  },
  {
   "property": "C68",
   "status": "partial",
   "theorems": [
    "C68_string_search_refuted",
    "C68_string_search_hangs_refuted"
   ],
   "note": "Refuted: never reports and terminates; never terminates for small segments or if the text is present."
  },
  {
   "property": "C69",
   "status": "proved",
   "theorems": [
    "C69_contents_kept",
    "C69_extent_requested"
   ],
   "note": "Filling off."
  },
  {
   "property": "C70",
   "status": "partial",
   "theorems": [
    "C70_out_of_memory_refuted",
    "C70_huge_malloc_refuted",
    "C70_calloc_overflow_refuted"
   ],
   "note": "Refuted."
  },
  {
   "property": "C71",
   "status": "partial",
   "theorems": [
    "C71_counts_partial",
    "C71_aligned_counts_refuted",
    "C71_history_partial",
    "C71_double_counts_refuted"
   ],
   "note": "Refuted for aligned allocations."
  },
  {
   "property": "C72",
   "status": "partial",
   "theorems": [
    "C72_bootstrap_free_refuted"
   ],
   "note": "Refuted."
  },
  {
   "property": "C73",
   "status": "partial",
   "theorems": [
    "C73_level0_refuted",
    "C73_level_nonzero"
   ],
   "note": "Refuted: only the first call is passed on."
  },
  {
   "property": "C74",
   "status": "proved",
   "theorems": [
    "C74_printing_returns"
   ],
   "note": "Result is normal return or undefined behaviour (C49, C52, C77), never divergence or an exception; stack exhaustion by recursion is outside the model."
  },
  {
   "property": "C75",
   "status": "proved",
   "theorems": [
    "C75_listed_once"
   ],
   "note": ""
  },
  {
   "property": "C76",
   "status": "partial",
   "theorems": [
    "C76_indentation_partial",
    "C76_failure_refuted"
   ],
   "note": "Holds unless a failure is reported; a failure inside a printer leaks one level."
  },
  {
   "property": "C77",
   "status": "partial",
   "theorems": [
    "C77_first_reported_partial",
    "C77_second_unreadable_type_refuted"
   ],
   "note": "The second object of such a type uses uninitialised memory."
  },
  {
   "property": "C78",
   "status": "proved",
   "theorems": [
    "C78_each_thread_once",
    "C78_all_threads",
    "C78_returns"
   ],
   "note": ""
  },
  {
   "property": "C79",
   "status": "partial",
   "theorems": [
    "C79_all_interpreters",
    "C79_cycle_refuted"
   ],
   "note": "The listing does not end on a cyclic list."
  },
  {
   "property": "C80",
   "status": "partial",
   "theorems": [
    "C80_list_partial",
    "C80_tuple_partial",
    "C80_long_list_refuted"
   ],
   "note": "Complete up to 100 elements; silently truncated beyond."
  },
  {
   "property": "C81",
   "status": "partial",
   "theorems": [
    "C81_arguments_unbalanced_refuted"
   ],
   "note": "The text is never balanced."
  },
  {
   "property": "C82",
   "status": "partial",
   "theorems": [
    "C82_strings_partial",
    "C82_pointer_printed_refuted"
   ],
   "note": "Compact ASCII strings and Python 2 strings are right; non-compact strings print the bytes of their data pointer."
  },
  {
   "property": "C83",
   "status": "partial",
   "theorems": [
    "C83_name_prefix_order_partial",
    "C83_id_prefix_order_partial",
    "C83_missing_prefix_refuted"
   ],
   "note": "Prefix order proved for names and, if no candidate is missing, for build IDs. Refuted: a prefix in which the build ID is missing ends the search."
  },
  {
   "property": "C84",
   "status": "proved",
   "theorems": [
    "C84_flushed_not_returned",
    "C84_flush_keeps_others"
   ],
   "note": ""
  },
  {
   "property": "C85",
   "status": "partial",
   "theorems": [
    "C85_dwarf_same",
    "C85_dwarf_not_shared",
    "C85_missing_name",
    "C85_missing_id_refuted"
   ],
   "note": "Refuted: an unknown build ID makes debug information of a null image (undefined behaviour)."
  },
  {
   "property": "C86",
   "status": "partial",
   "theorems": [
    "C86_script_partial",
    "C86_long_interpreter_refuted"
   ],
   "note": "Interpreter names within the first 64 bytes."
  },
  {
   "property": "C87",
   "status": "partial",
   "theorems": [
    "C87_links_partial",
    "C87_link_cycle_refuted"
   ],
   "note": "Refuted: cycles are followed for ever."
  },
  {
   "property": "C88",
   "status": "proved",
   "theorems": [
    "C88_links",
    "C88_end_of_stack"
   ],
   "note": ""
  },
  {
   "property": "C89",
   "status": "partial",
   "theorems": [
    "C89_threads_partial",
    "C89_thread_lost_refuted"
   ],
   "note": "Refuted: a thread one of whose frames has a frame pointer leading outside readable memory is not listed at all."
  },
  {
   "property": "C90",
   "status": "partial",
   "theorems": [
    "C90_debug_sections_partial",
    "C90_empty_shadows_alias_refuted"
   ],
   "note": "Refuted: an empty section shadows an aliased one."
  },
  {
   "property": "C91",
   "status": "partial",
   "theorems": [
    "C91_memory_argument_partial",
    "C91_unsigned_refuted",
    "C91_unreadable_refuted",
    "C91_other_types_named",
    "C91_other_encodings"
   ],
   "note": "Types in the specification's list; refuted: unsigned integers in the upper half of their range show as negative, unreadable memory as 0."
  },
  {
   "property": "C92",
   "status": "partial",
   "theorems": [
    "C92_register_argument_partial",
    "C92_narrow_register_refuted",
    "C92_zero_refuted",
    "C92_stack_value_refuted"
   ],
   "note": "Nonzero 8 byte integers in DW_OP_reg registers; refuted: narrower types, zero, DW_OP_stack_value and DW_OP_regx."
  },
  {
   "property": "C93",
   "status": "partial",
   "theorems": [
    "C93_ends_partial",
    "C93_cycle_refuted"
   ],
   "note": "Acyclic types; refuted for cyclic ones."
  },
  {
   "property": "C94",
   "status": "proved",
   "theorems": [
    "C94_order"
   ],
   "note": ""
  },
  {
   "property": "C95",
   "status": "partial",
   "theorems": [
    "C95_errors_contained_partial",
    "C95_bad_location_refuted",
    "C95_failure_shown",
    "C95_string_failure_shown"
   ],
   "note": "Refuted: a location expression that cannot be evaluated ends the output."
  },
  {
   "property": "C96",
   "status": "partial",
   "theorems": [
    "C96_arguments_partial",
    "C96_three_words_refuted"
   ],
   "note": "Number of arguments, first and last; all of them with at most one space; refuted with more."
  },
  {
   "property": "C97",
   "status": "proved",
   "theorems": [
    "C97_file_note",
    "C97_file_objects"
   ],
   "note": "the note's place in the file (Elf notes walk) is C32; FileEntries over it, for every list of mappings"
  },
  {
   "property": "C98",
   "status": "proved",
   "theorems": [
    "C98_aux_vector",
    "C98_others_ignored"
   ],
   "note": "whenever loading gets past the vector; what happens then is C99, C100, C102"
  },
  {
   "property": "C99",
   "status": "proved",
   "theorems": [
    "C99_base_and_debug",
    "C99_loads"
   ],
   "note": "For any program headers, also ones of which only a part is in memory, and any dynamic section. C99_loads: reading succeeds when everything is in memory."
  },
  {
   "property": "C100",
   "status": "partial",
   "theorems": [
    "C100_executable_partial",
    "C100_second_note_refuted",
    "C100_empty_name_refuted"
   ],
   "note": "holds for the first note of each segment; refuted: a build ID that follows another note in the same segment is not found; a type 3 note with empty name is undefined behaviour"
  },
  {
   "property": "C101",
   "status": "partial",
   "theorems": [
    "C101_link_map",
    "C101_cycle_refuted"
   ],
   "note": "every finite link map; refuted: termination on a cyclic (damaged) one"
  },
  {
   "property": "C102",
   "status": "partial",
   "theorems": [
    "C102_load_link_map",
    "C102_fallback_partial",
    "C102_missing_dynamic_refuted"
   ],
   "note": "refuted: a missing dynamic section of the program is outside the try block and loses everything"
  },
  {
   "property": "C103",
   "status": "partial",
   "theorems": [
    "C103_static_partial",
    "C103_static_pie_refuted"
   ],
   "note": "programs loaded where they are linked; refuted: static-pie is recorded at 0"
  },
  {
   "property": "C104",
   "status": "partial",
   "theorems": [
    "C104_decoding_partial"
   ],
   "note": "Proved for sections with entries in the 32-bit and (.debug_frame) the 64-bit format, return address registers below 128 and no DW_EH_PE_absptr encoding (see C106 and the decodeAddress properties for what goes wrong there), FDEs of non-empty, non-overlapping code; std::sort modelled as a stable sort."
  },
  {
   "property": "C105",
   "status": "partial",
   "theorems": [
    "C105_search_table_partial",
    "C105_unsized_table"
   ],
   "note": "Same restrictions as C104; table entries absolute or data relative (pc relative tables are not claimed)."
  },
  {
   "property": "C106",
   "status": "partial",
   "theorems": [
    "C106_cie_contents_partial",
    "C106_return_register_refuted",
    "C106_extended_length_refuted",
    "C106_far_cie_refuted"
   ],
   "note": "False for return address registers above 127 in version 3 and 4 CIEs (one byte is read), for 64-bit FDEs whose CIE is at 0xffffffff and for .eh_frame entries with an extended length (8 bytes of CIE pointer are read)."
  },
  {
   "property": "C107",
   "status": "partial",
   "theorems": [
    "C107_self_reference_refuted",
    "C107_fde_of_fde_refuted",
    "C107_wrong_table_refuted"
   ],
   "note": "False: an FDE naming itself recurses for ever, an FDE naming an FDE and a table entry with a wrong address fail assertions."
  },
  {
   "property": "C108",
   "status": "partial",
   "theorems": [
    "C108_unit_header_partial",
    "C108_type_unit_refuted"
   ],
   "note": "Proved for all headers but type units, for which it is false: the signature and type offset are not skipped."
  },
  {
   "property": "C109",
   "status": "partial",
   "theorems": [
    "C109_history_partial"
   ],
   "note": "Proved for sections without type units and with units asked for only at their start (see C108, C110). What Unit::offsetToDIE finds inside a unit is a parameter (C59, C60)."
  },
  {
   "property": "C110",
   "status": "partial",
   "theorems": [
    "C110_failed_unit_refuted"
   ],
   "note": "False: the null pointer left in the map becomes the start of later searches."
  },
  {
   "property": "C111",
   "status": "partial",
   "theorems": [
    "C111_addrx_partial",
    "C111_addrx_short_refuted",
    "C111_strx_base",
    "C111_strx_header",
    "C111_strx_old",
    "C111_rnglistx_partial",
    "C111_rnglistx_split_refuted",
    "C111_rnglistx_mixed_refuted"
   ],
   "note": "addrx: false for 4 byte address tables. strx: the width with a base is that of the unit's own offsets (assumed equal to the table's). rnglistx: false without DW_AT_rnglists_base and if the section has contributions of both formats."
  },
  {
   "property": "C112",
   "status": "partial",
   "theorems": [
    "C112_sections_partial",
    "C112_no_table_refuted",
    "C112_failure_forgotten_refuted",
    "C112_bad_strndx_refuted"
   ],
   "note": "Proved for images with a readable table whose string table is not compressed. False for images without a table if e_shentsize is set, after a failed call, and for a bad e_shstrndx."
  },
  {
   "property": "C113",
   "status": "partial",
   "theorems": [
    "C113_plain",
    "C113_compressed_partial",
    "C113_zdebug_partial",
    "C113_large_refuted",
    "C113_incompressible_refuted",
    "C113_overread_refuted",
    "C113_contents"
   ],
   "note": "zlib is a parameter with a contract (zcontract). False for data of 4 GiB and more, for .zdebug_ sections whose stream is longer than the data, and a .zdebug_ section's reader can extend beyond the section."
  },
  {
   "property": "C114",
   "status": "partial",
   "theorems": [
    "C114_section_list_partial",
    "C114_symbol_versions_partial",
    "C114_version_index_partial"
   ],
   "note": "Proved for images with distinct section names and distinct version numbers, whose sections are inside the file and not compressed."
  },
  {
   "property": "C115",
   "status": "partial",
   "theorems": [
    "C115_symbol_by_name_partial",
    "C115_damaged_refuted"
   ],
   "note": "Proved for readable tables of the image itself (C90 says which table it is). False for damaged ones: the first lookup fails, later ones answer from a partial table."
  },
  {
   "property": "C116",
   "status": "partial",
   "theorems": [
    "C116_build_id_partial",
    "C116_debug_build_id_partial",
    "C116_debug_image_partial",
    "C116_mismatch_refuted",
    "C116_prelink_refuted",
    "C116_failure_refuted"
   ],
   "note": "False if the build IDs differ (null stream), for prelinked images without a debug stream, and after a failed first call."
  },
  {
   "property": "C117",
   "status": "partial",
   "theorems": [
    "C117_program_headers_partial",
    "C117_interpreter",
    "C117_end_of_image",
    "C117_many_segments_refuted",
    "C117_elf32_refuted",
    "C117_not_elf"
   ],
   "note": "False for more than 65534 segments (PN_XNUM is not understood) and for 32-bit images, which are taken for 64-bit ones."
  },
  {
   "property": "C118",
   "status": "partial",
   "theorems": [
    "C118_core_headers",
    "C118_truncated_refuted"
   ],
   "note": "Proved for headers of core files (read from disk); false for mapped images, whose headers and sections are not checked against the file's size."
  },
  {
   "property": "C119",
   "status": "partial",
   "theorems": [
    "C119_qualified_name_partial",
    "C119_union_refuted",
    "C119_unnamed_refuted",
    "C119_cycle_refuted",
    "C119_skeleton_refuted"
   ],
   "note": "Proved for nests of namespaces, classes and structures that end; unions do not qualify, unnamed scopes give empty components, reference cycles do not end, a missing parent is undefined behaviour."
  },
  {
   "property": "C120",
   "status": "partial",
   "theorems": [
    "C120_offset_partial",
    "C120_offset_ranges_partial",
    "C120_offset_symbol",
    "C120_call_frame_refuted",
    "C120_ranges_refuted"
   ],
   "note": "Offset from low pc, first range or symbol, in every cache history; for call frames it is one less than the shown address implies, and a first range that is not the lowest gives an absurd offset."
  },
  {
   "property": "C121",
   "status": "partial",
   "theorems": [
    "C121_inlined_partial",
    "C121_range_end_refuted"
   ],
   "note": "Exactly the covering inlined subroutines, outermost first, when one branch covers the address; range ends are included wrongly."
  },
  {
   "property": "C122",
   "status": "partial",
   "theorems": [
    "C122_frame_lines_partial",
    "C122_no_image",
    "C122_numbering",
    "C122_nosrc_refuted",
    "C122_noline_refuted",
    "C122_call_file_refuted",
    "C122_thread_line"
   ],
   "note": "The text is exact when line information is known and shown; without it inlined calls share a line, unknown positions print as :-1 and a bad call_file is undefined behaviour."
  },
  {
   "property": "C123",
   "status": "partial",
   "theorems": [
    "C123_type_name_partial",
    "C123_rvalue_refuted",
    "C123_cycle_refuted",
    "C123_other_kinds_refuted"
   ],
   "note": "Exact text for named types, pointers, references, const, volatile and function types; other tags print '(unhandled tag ...)' and cycles do not end."
  },
  {
   "property": "C124",
   "status": "partial",
   "theorems": [
    "C124_argument_partial",
    "C124_negative_refuted"
   ],
   "note": "Exact classification of every string; zero and negative numbers are also taken as process ids."
  },
  {
   "property": "C125",
   "status": "partial",
   "theorems": [
    "C125_arguments_partial",
    "C125_exit_status",
    "C125_repeat_refuted"
   ],
   "note": "Any list of arguments and failures, without repetition or interruption. With -b the independence of arguments is refuted: later processes are never traced."
  },
  {
   "property": "C126",
   "status": "partial",
   "theorems": [
    "C126_repeat",
    "C126_interrupt_refuted"
   ],
   "note": "Repetition is exact; after an interruption the remaining arguments are silently skipped with exit status 0."
  },
  {
   "property": "C127",
   "status": "partial",
   "theorems": [
    "C127_choice_partial",
    "C127_all_error_refuted"
   ],
   "note": "Exact choice; with -A an exception in the Python trace loses the native trace."
  },
  {
   "property": "C128",
   "status": "partial",
   "theorems": [
    "C128_resolve_partial",
    "C128_resolve_sound",
    "C128_resolve_none",
    "C128_absolute_refuted"
   ],
   "note": "Complete and sound; absolute symbols are wrongly relocated."
  },
  {
   "property": "C129",
   "status": "partial",
   "theorems": [
    "C129_reason_partial",
    "C129_fault_text_partial",
    "C129_sent_fault_refuted",
    "C129_child_refuted"
   ],
   "note": "Fault reasons and senders are exact for the signals with (resp. without) their own table; sent fault signals show no reason and SIGCHLD codes are described as SIGIO's."
  },
  {
   "property": "C130",
   "status": "proved",
   "theorems": [
    "C130_wait_status"
   ],
   "note": "All statuses of wait(2)."
  },
  {
   "property": "C131",
   "status": "partial",
   "theorems": [
    "C131_lookup_partial",
    "C131_lookup_any",
    "C131_lookup_error",
    "C131_wrong_object_refuted"
   ],
   "note": "Exact unless libc.so.6, lower in memory, also defines the symbol: then the C library's is answered."
  },
  {
   "property": "C132",
   "status": "proved",
   "theorems": [
    "C132_process_text"
   ],
   "note": "Text output of pstack() as modelled."
  },
  {
   "property": "C133",
   "status": "partial",
   "theorems": [
    "C133_list_partial",
    "C133_live_partial",
    "C133_freed_partial",
    "C133_cut_refuted"
   ],
   "note": "Exact, end to end with the allocator's histories, provided the eight bytes after each descriptor are readable: hdmp reads that much more than is allocated, and otherwise cuts the list silently."
  },
  {
   "property": "C134",
   "status": "partial",
   "theorems": [
    "C134_report_partial",
    "C134_crash_cut_refuted",
    "C134_overrun_refuted",
    "C134_image_refuted",
    "C134_options",
    "C134_arguments"
   ],
   "note": "Report exact for depths up to 512; the stack at termination is cut to the depth of block stacks; larger depths read out of bounds; a non-core ELF argument dereferences null."
  },
  {
   "property": "C135",
   "status": "partial",
   "theorems": [
    "C135_recorded_partial",
    "C135_room",
    "C135_negative_refuted",
    "C135_outermost_refuted",
    "C135_no_frame_pointer_refuted"
   ],
   "note": "Exact for stacks with frame pointers; negative depths, the outermost frame and missing frame pointers are refuted."
  },
  {
   "property": "C136",
   "status": "partial",
   "theorems": [
    "C136_history",
    "C136_marks_refuted"
   ],
   "note": "The history is exact for all runs; hdmp -b marks reused memory as damage."
  },
  {
   "property": "C137",
   "status": "proved",
   "theorems": [
    "C137_documents"
   ],
   "note": "All documents; strings are those C41 can carry (the others are C41's)."
  },
  {
   "property": "C138",
   "status": "proved",
   "theorems": [
    "C138_cfa_dump"
   ],
   "note": "The text is the one JSON text of the expected list, for every program."
  },
  {
   "property": "C139",
   "status": "partial",
   "theorems": [
    "C139_signed_shown_unsigned_refuted",
    "C139_advance_shown_negative_refuted",
    "C139_val_offset_throws_refuted",
    "C139_dump_does_not_end_refuted"
   ],
   "note": "The property is false of the code in each of its parts; the theorems show how, for all operands and positions."
  },
  {
   "property": "C140",
   "status": "partial",
   "theorems": [
    "C140_cfi_dump_partial"
   ],
   "note": "For sections as in C104 with disjoint FDEs, whose instructions C138 covers and whose augmentation letters are ASCII."
  },
  {
   "property": "C141",
   "status": "partial",
   "theorems": [
    "C141_cies_missing_refuted",
    "C141_empty"
   ],
   "note": "FDEs are complete; the CIE list is always empty when nothing was looked up before."
  },
  {
   "property": "C142",
   "status": "partial",
   "theorems": [
    "C142_json_stacks_partial",
    "C142_unknown_offset_refuted"
   ],
   "note": "All stacks whose texts C41 covers and whose frames have a known offset; an unknown offset is shown as 18446744073709551615."
  },
  {
   "property": "C143",
   "status": "partial",
   "theorems": [
    "C143_documents_in_order",
    "C143_several_processes_refuted"
   ],
   "note": "Each process has its own valid document, in order; but for two or more nothing separates them into one JSON text: refuted for all inputs."
  },
  {
   "property": "C144",
   "status": "partial",
   "theorems": [
    "C144_one_bad_frame_refuted"
   ],
   "note": "Refuted for every position: the text is then never valid JSON."
  },
  {
   "property": "C145",
   "status": "partial",
   "theorems": [
    "C145_hex_after_error_refuted"
   ],
   "note": "Refuted: after a name that is not UTF-8 numbers are hexadecimal."
  },
  {
   "property": "C146",
   "status": "partial",
   "theorems": [
    "C146_from_file",
    "C146_from_interpreter",
    "C146_no_interpreter",
    "C146_known",
    "C146_unreadable_refuted",
    "C146_last_segment_refuted"
   ],
   "note": "All memories and entries. Refuted: an unreadable or misaligned dynamic segment is an exception instead of a fall-back, and of several dynamic segments the last one wins."
  },
  {
   "property": "C147",
   "status": "partial",
   "theorems": [
    "C147_histogram_partial",
    "C147_references_partial",
    "C147_hole_refuted",
    "C147_odd_size_refuted"
   ],
   "note": "End to end from symbol tables and memory to the text. Refuted: the rest of a mapping after an unreadable word is not searched, and mappings that are not whole words not at all. Overlapping symbols are excluded, and words that are the end of another symbol (C43)."
  },
  {
   "property": "C148",
   "status": "partial",
   "theorems": [
    "C148_listing",
    "C148_listed_iff_searched",
    "C148_listed_twice_refuted"
   ],
   "note": "Exact listing; symbols in both tables or matching two patterns are listed more than once (refuted)."
  },
  {
   "property": "C149",
   "status": "partial",
   "theorems": [
    "C149_options_partial",
    "C149_search_partial",
    "C149_end_first_refuted",
    "C149_last_address_refuted"
   ],
   "note": "Exact for sequences that begin with -f and addresses below 2^64-1; -e first is undefined behaviour and the last address cannot be searched for (refuted)."
  },
  {
   "property": "C150",
   "status": "partial",
   "theorems": [
    "C150_tree_dump_partial",
    "C150_form_refuted",
    "C150_attribute_refuted"
   ],
   "note": "Holds for the forms listed in DumpDieSpec.valueDoc; values of ref1, ref_sig8, addrx*, loclistx, rnglistx, GNU_addr_index and GNU_str_index are shown as \"unknown\" (refuted) and all unlisted attribute codes share one key (refuted). Entries that have both an abstract origin and a specification are excluded."
  },
  {
   "property": "C151",
   "status": "partial",
   "theorems": [
    "C151_sections_dump_partial",
    "C151_exclude_refuted",
    "C151_symbol_type_refuted",
    "C151_no_sections_refuted",
    "C151_bad_link_refuted"
   ],
   "note": "Proved for sections inside the file that are not compressed, with flags below 0x800 and symbols of the generic bindings and types. Refuted: SHF_EXCLUDE and OS or processor flags are shown under the mask's name (and one as C++ source text), thread-local and indirect-function symbols as STT_6 and STT_A; an image without a section table shows a section \"null\"; a symbol table with a bad sh_link is undefined behaviour."
  },
  {
   "property": "C152",
   "status": "partial",
   "theorems": [
    "C152_segments_dump_partial",
    "C152_duplicate_key_refuted",
    "C152_dynamic_refuted",
    "C152_tags_refuted"
   ],
   "note": "Proved for program headers in range, loaded segments disjoint and not empty, dynamic tags in the table or listed as shown by number. Refuted: two segment types without a name give the same key twice; a PT_DYNAMIC whose string table is in no loaded segment dereferences null; DT_PREINIT_ARRAY is called DT_ENCODING; tags are cut to 32 bits."
  },
  {
   "property": "C153",
   "status": "partial",
   "theorems": [
    "C153_note_dump_partial",
    "C153_registers_refuted",
    "C153_short_refuted"
   ],
   "note": "Proved for every note but for the registers: pr_reg is an address in pstack itself (refuted for every register content), pr_flag is cut to an int, and a CORE note of another architecture's size fails the dump (refuted)."
  },
  {
   "property": "C154",
   "status": "partial",
   "theorems": [
    "C154_object_dump_partial",
    "C154_unknown_refuted"
   ],
   "note": "Proved for the images C151 to C153 cover, not for a separate debug image. Refuted: an e_type above 4 or an OSABI above 12 reads past the end of an array of names."
  },
  {
   "property": "C155",
   "status": "partial",
   "theorems": [
    "C155_line_table_dump_partial",
    "C155_file_number_refuted"
   ],
   "note": "Proved for tables in the terms of C23 with names that are plain text (what C137's printer can show). Version 5 times are always shown as 0 (they are not read). Refuted: a row whose file number is not in the table follows a pointer past its end."
  },
  {
   "property": "C156",
   "status": "partial",
   "theorems": [
    "C156_pubnames_dump_partial"
   ],
   "note": "Under C61's conditions (tables below 64 KiB, 32-bit format), names that are plain text."
  },
  {
   "property": "C157",
   "status": "partial",
   "theorems": [
    "C157_macro_header_dump_partial",
    "C157_version_refuted",
    "C157_repeated_opcode_refuted",
    "C157_far_lines_refuted"
   ],
   "note": "Proved where each opcode is described once and the line table is below 2 GiB. Refuted: the version shown is 5 whatever the header says; operands of an opcode described twice are shown together; a line table at or above 2 GiB is shown at a negative offset."
  },
  {
   "property": "C158",
   "status": "partial",
   "theorems": [
    "C158_unit_dump_partial",
    "C158_long_unit_refuted"
   ],
   "note": "Proved for units without type units (C108), with entries C150 covers, line tables C155 and macro headers C157 cover. Refuted: a length of 4 GiB or more is shown modulo 2^32."
  },
  {
   "property": "C159",
   "status": "partial",
   "theorems": [
    "C159_info_dump_partial",
    "C159_image_dump_partial"
   ],
   "note": "Proved for units C158 covers and tables C156 covers; the frame sections those of C140 and C141 (C159_image_dump_partial)."
  },
  {
   "property": "C160",
   "status": "partial",
   "theorems": [
    "C160_report_partial",
    "C160_search_table_partial",
    "C160_no_segment_refuted",
    "C160_no_fde_refuted"
   ],
   "note": "Proved where each symbol with a size is in a segment and each function shown has an FDE with a valid program. Refuted: a symbol with a size outside every segment, and a function without an FDE, are null pointer dereferences. An image with no frame information at all is not modelled."
  },
  {
   "property": "C161",
   "status": "partial",
   "theorems": [
    "C161_registers",
    "C161_unavailable",
    "C161_core_threads_partial",
    "C161_no_fp_refuted"
   ],
   "note": "Missing: threads whose frame pointer leads outside memory (C89) and threads without floating point state, which are lost: C161_no_fp_refuted."
  },
  {
   "property": "C162",
   "status": "partial",
   "theorems": [
    "C162_read_partial",
    "C162_registers",
    "C162_pid_partial",
    "C162_no_prpsinfo_refuted"
   ],
   "note": "Memory for the layouts of C35; without an NT_PRPSINFO note the process id is 0."
  },
  {
   "property": "C163",
   "status": "proved",
   "theorems": [
    "C163_threads_on_stacks"
   ],
   "note": "libthread_db's answers are arbitrary."
  },
  {
   "property": "C164",
   "status": "partial",
   "theorems": [
    "C164_task_name_partial",
    "C164_total",
    "C164_newline_refuted"
   ],
   "note": "False for names with a newline: only the first line of the file is read."
  },
  {
   "property": "C165",
   "status": "partial",
   "theorems": [
    "C165_history",
    "C165_process",
    "C165_caller_partial",
    "C165_both_sections_refuted"
   ],
   "note": "The caller of a frame as in C20; false for images with both frame sections: only .eh_frame is used (C165_both_sections_refuted). Sections are well formed as in C104/C105; an address that is an object's load address is not found (C37)."
  },
  {
   "property": "C166",
   "status": "partial",
   "theorems": [
    "C166_values_partial",
    "C166_objects_partial",
    "C166_none"
   ],
   "note": "Exact text of floats, Python 2 ints, booleans, types, classes, modules, instances, lists of up to 100 elements, objects of Python classes and None. Missing: how a double is formatted; long lists (C80), long integers (C52) and strings (C82) have their own claims; objects with a negative dictionary offset."
  },
  {
   "property": "C167",
   "status": "partial",
   "theorems": [
    "C167_frame_partial"
   ],
   "note": "The complete text of a frame under any options: each argument, local, cell and free variable with its own value, in order. The argument list itself is not well formed (C81)."
  },
  {
   "property": "C168",
   "status": "partial",
   "theorems": [
    "C168_registers_partial",
    "C168_flags_refuted",
    "C168_other_thread_refuted",
    "C168_memory",
    "C168_fault_refuted",
    "C168_threads_partial"
   ],
   "note": "General and floating point registers, memory, strings and the calling thread's stack. Refuted: flags, segment registers and bases are left uninitialised; another thread's registers are answered with the caller's; unmapped memory faults instead of raising an error. Missing: that the frame getcontext ran in is still intact when it is walked."
  },
  {
   "property": "C169",
   "status": "partial",
   "theorems": [
    "C169_name",
    "C169_once",
    "C169_values",
    "C169_null_refuted"
   ],
   "note": "Refuted last sentence: without the section the name read is (null), so a file so called beside the image is taken for its alternate file. Cycles of symbolic links: C87."
  },
  {
   "property": "C170",
   "status": "partial",
   "theorems": [
    "C170_python3",
    "C170_pointer",
    "C170_none",
    "C170_sound",
    "C170_unversioned_refuted",
    "C170_damaged_refuted",
    "C170_missing_image_refuted"
   ],
   "note": "Settled for builds with Python 3. Refuted: an interpreter whose file is called just python3 is an error; a damaged object called python3 lower in memory makes the process count as no Python process; built for Python 2, an object without an image is a null pointer dereference. What is printed for the list: C49, C78-C82, C166, C167."
  },
  {
   "property": "C171",
   "status": "proved",
   "theorems": [
    "C171_signal",
    "C171_fault",
    "C171_auxv",
    "C171_short_note_refuted"
   ],
   "note": "From the bytes of the core to the text. Outside the statement: a signal note that is cut short ends the text after the core's name (C171_short_note_refuted); empty note segments and notes without a name: C32; what the words for the reasons are: C129."
  },
  {
   "property": "C172",
   "status": "proved",
   "theorems": [
    "C172_help_text",
    "C172_pstack_table"
   ],
   "note": "All tables with distinct names and letters, before and after any number of parses; pstack's own table is one."
  },
  {
   "property": "C173",
   "status": "partial",
   "theorems": [
    "C173_numbers",
    "C173_not_a_number_refuted",
    "C173_trailing_refuted",
    "C173_range_refuted",
    "C173_leading_zero_refuted",
    "C173_blanks"
   ],
   "note": "Numbers of the range of int are exact; nothing is ever rejected: texts that are no number are 0, trailing text is ignored and numbers out of range are reduced modulo 2^32 (refuted). The delay of -b (strtod) is a parameter."
  },
  {
   "property": "C174",
   "status": "partial",
   "theorems": [
    "C174_trace",
    "C174_information",
    "C174_command",
    "C174_no_operands",
    "C174_bad_executable",
    "C174_wrong_line",
    "C174_output_lost_refuted",
    "C174_output_order_refuted"
   ],
   "note": "Every command line, from argv to events and exit status; traces, dumps, the command's run and image files are parameters (C124-C127, C154, C159, C57 say what they are). Refuted: an output file that cannot be opened loses the output silently, and -o after -d does not apply to the dump."
  },
  {
   "property": "C175",
   "status": "partial",
   "theorems": [
    "C175_headings_partial",
    "C175_anonymous",
    "C175_earlier_process_refuted",
    "C175_other_library_refuted",
    "C175_unreadable_refuted"
   ],
   "note": "Exact if the processes of the run all describe their pthreads in the same way, or none does. Refuted otherwise: a process without the descriptor makes every later thread anonymous, a process with another C library makes the later ones' ids be read from the wrong place, and a pthread that cannot be read ends the trace of its process. The text of the frames is a parameter (C49, C166, C167)."
  },
  {
   "property": "C176",
   "status": "partial",
   "theorems": [
    "C176_gnu_partial",
    "C176_sysv_partial",
    "C176_no_table_refuted"
   ],
   "note": "Composes C112 (section headers), C33 (sections by name), the links and C29/C30 from the bytes of an image. Partial: sections stored uncompressed, distinct section names, no separate debug image asked for the section; System V: names of bytes below 0x80 (C30_high_bytes_refuted). Refuted: an image with neither table has no symbol by name, although .dynsym has it."
  },
  {
   "property": "C177",
   "status": "partial",
   "theorems": [
    "C177_address_partial",
    "C177_none"
   ],
   "note": "Composes C176, C115 and C128 from the bytes of the images. Partial: names of bytes below 0x80; an image with neither hash table counts as not defining its dynamic symbols (C176_no_table_refuted); absolute symbols are moved (C128_absolute_refuted); C176's conditions on sections."
  },
  {
   "property": "C178",
   "status": "partial",
   "theorems": [
    "C178_symbol_at_partial",
    "C178_no_size_refuted"
   ],
   "note": "Composes C112, C33, the links and the symbol decoding from the bytes of an image. Partial: C176's conditions on sections; symbols that do not wrap around the address space; what the embedded debug data answers is a parameter (C85, C33). Refuted: a symbol without a size is not found at its own address; the search remembers it and returns nothing."
  },
  {
   "property": "C179",
   "status": "partial",
   "theorems": [
    "C179_source_v4_partial",
    "C179_source_v5_partial",
    "C179_excluded",
    "C179_uncovered_partial",
    "C179_from_entries_v4_partial",
    "C179_from_entries_none_partial"
   ],
   "note": "Composes C24 (the unit), C25 (the root entry), C23 (the line table from its bytes) and C22 (the row) after any history of questions. Partial: what C22-C24 leave out; an address in no unit but within s addresses before the end of a range from s is taken for that unit's (C24_ranges_refuted)."
  },
  {
   "property": "C180",
   "status": "partial",
   "theorems": [
    "C180_no_double_free",
    "C180_no_leak_partial",
    "C180_same_values",
    "C180_exception_refuted"
   ],
   "note": "Invariant over histories: the blocks that exist are those of the live entries and those of failed decodings. Partial: no leak only without a failed decoding. Refuted otherwise: an exception while an entry is decoded leaves the blocks made before it. The sharing of entries (shared_ptr) is taken to destroy each once."
  }
 ]
}
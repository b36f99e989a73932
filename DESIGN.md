# A formal model of peadar/pstack in Rocq (Coq 8.16.1)

## 1. Approach

Every modelled C++ function becomes a small total Gallina function in `rocq/theories/X.v`; each
definition carries a comment citing the file and lines it models and any simplification.  Four kinds of
file are kept apart:

* `X.v` - the executable model, nothing else;
* `XSpec.v` - the specification: what the standard, the ABI, proc(5) ... say, written without the model's
  functions (encoders, declarative relations, abstract machines);
* `XProofs*.v` - lemmas;
* `Props_X.v` - the property theorems, named after the property (`C17_...`), each with a comment in
  English, followed by `Print Assumptions` and by `Example`s showing a concrete, non-trivial case that
  meets the hypotheses.

To check a claim one reads the theorem in `Props_X.v`, the specification file it uses, and the model.

## 2. Conventions

* Outcomes: `Ok v | Throw | UB | OutOfFuel` (`Base.v`).  `Throw` is any C++ exception (or an abort with a
  report); `UB` is undefined behaviour (out of bounds access, null dereference, pop of an empty stack,
  division by zero, over-wide shift) or a failed assertion where the file says so.  `OutOfFuel` is a
  loop or recursion that did not end within the fuel given.  Positive theorems derive that it does not
  happen from an explicit lower bound of the fuel; non-termination is stated as "`OutOfFuel` for every fuel".
* Machine integers are `Z` with explicit wrap functions (`u8 u16 u32 u64 s64` ...) where the code's
  arithmetic can wrap.  Where a definition leaves a wrap out, its comment says why.
* Bytes are `Z` in 0..255, text is a list of character codes, memory is a function from addresses to an
  optional byte.
* zlib, liblzma, ptrace, waitpid, the file system, getopt_long, `std::sort` and the like are parameters
  under their documented contract (hypotheses of the theorem) or modelled from their documentation - never axioms.
* A theorem that takes only part of a property ends in `_partial`.  `..._refuted` is a theorem that the
  *unchanged code violates* the property.  If a property is false of the code its claim is `partial`
  in `MANIFEST.json` even when the theorems settle it completely (positive theorem on the exact domain
  where it holds, refutation outside).

## 3. Trusted base

* Coq 8.16.1's kernel (`coqc`, and `coqchk` over the compiled files).
* Axioms: none.  `Print Assumptions` says "Closed under the global context" for every property theorem; the
  commands are in the `Props_*.v` files, and their output is part of the build.  (`vcheck` and `coqchk -o` list the
  constants of `Coq.ssr.ssrunder`, a module type and its instance in the standard library which the loaded
  libraries contain; no theorem depends on them.)
* The reading of C++ into the model.  Nothing was compiled or run; the model was checked by reading, by
  proving it against independent specifications, and by seeded bugs (`seeded/LOG.jsonl`).
* The specifications: `*Spec.v` are transcriptions of DWARF 2-5, the gABI and its GNU extensions, JSON, proc(5),
  signal(7) and CPython's object layouts as far as the properties need them.
* The contracts of external functions given above, where a theorem has them as hypotheses.


## 4. Plan and result per property

One entry per property: the code modelled (file: symbols; the line numbers are in the comments of the model), the proof, the theorems with their file, and what is missing or false. The English statements are in `properties.jsonl`.

**C01 Memory-backed reads are exact and bounded** — *proved*
- modelled: reader.cc:AbstractMemReader::read; libpstack/reader.h:MemReader
- proved by: case analysis over offset/count; the result equals the list slice of the backing memory (`Props_Reader.v`)
- theorems: `C01_memory_read_exact`
- note: reader.cc:67-75 over a partial host memory; invalid memory would be UB.

**C02 A view never exposes bytes outside its window** — *partial*
- modelled: reader.cc:OffsetReader::read; reader.cc:OffsetReader::OffsetReader; libpstack/reader.h:OffsetReader::view
- proved by: induction on the nesting of readers; the wrap-around and clamping cases are refuted by witness (`Props_Reader.v`)
- theorems: `C02_views_stay_in_window_partial`, `C02_beyond_window_throws`, `C02_window_overflow_refuted`, `C02_nested_view_escapes_refuted`, `C02_open_memory_view_refuted`, `C02_default_length`
- note: Proved for arbitrary chains of views each inside its parent and off+count < 2^64. The full property is false of the code: the three refuted theorems give witnesses (wrap-around at reader.cc:262; OffsetReader::view does not clamp; open-ended view of a memory reader is unbounded).

**C03 The page cache is transparent** — *proved*
- modelled: reader.cc:CacheReader::read; reader.cc:CacheReader::getPage; reader.cc:CacheReader::Page::load
- proved by: invariant over arbitrary sequences of reads and flushes (every cached page equals the upstream page), refinement to the upstream (`Props_Reader.v`)
- theorems: `C03_cache_transparent`, `C03_unaligned_region_refuted`
- note: For every history and every upstream whose readable regions start on 256-byte boundaries; the refuted theorem shows the condition is needed.

**C04 The page cache is bounded and coherent** — *proved*
- modelled: reader.cc:CacheReader::getPage; reader.cc:CacheReader::flush
- proved by: the same invariant: at most 16 pages, distinct, each a page of the upstream (`Props_Reader.v`)
- theorems: `C04_cache_bounded`
- note: Invariant over all histories, any upstream.

**C05 Flushing makes new upstream contents visible** — *partial*
- modelled: reader.cc:CacheReader::flush; reader.cc:CacheReader::readString; live.cc:LiveProcess::resume
- proved by: histories with a changing upstream; pages by the invariant, strings refuted (`Props_Reader.v`)
- theorems: `C05_flush_makes_reads_fresh`, `C05_flush_strings_refuted`
- note: True for reads, false for strings: flush() does not clear stringCache.

**C06 Reading a string is repeatable** — *proved*
- modelled: reader.cc:CacheReader::readString
- proved by: witness history/invariant over the string cache (`Props_Reader.v`)
- theorems: `C06_string_repeatable`
- note: Any history; the result is also pinned to the right text.

**C07 C-string reads return exactly the text before the terminator** — *proved*
- modelled: reader.cc:Reader::readString
- proved by: induction on the distance to the terminator (`Props_Reader.v`)
- theorems: `C07_read_string`, `C07_read_string_memory`, `C07_read_string_memory_reader`, `C07_offset_zero`

**C08 Object reads are all-or-nothing** — *proved*
- modelled: libpstack/reader.h:Reader::readObj
- proved by: case analysis over an arbitrary upstream read function (`Props_Reader.v`)
- theorems: `C08_readobj_all_or_nothing`, `C08_readobj_exact_bytes`

**C09 Array iteration visits every record once, in order** — *proved*
- modelled: libpstack/reader.h:ReaderArray
- proved by: invariant of the array's window over arbitrary sequences of accesses (`Props_Reader.v`)
- theorems: `C09_array_iteration`, `C09_array_random_access`

**C10 LEB128 decoding inverts encoding** — *partial*
- modelled: libpstack/reader.h:readleb128; libpstack/dwarf.h:DWARFReader::getuleb128; libpstack/dwarf.h:DWARFReader::getsleb128
- proved by: round trip against independent encoders by induction on the digits; undefined shifts characterised (`Props_Reader.v`)
- theorems: `C10_uleb_roundtrip`, `C10_sleb_roundtrip`, `C10_uleb_any_encoding`, `C10_truncated`, `C10_overlong_refuted`
- note: Round trip for all 64-bit values proved; the over-long clause is false: more than ten bytes is a shift by >= 64, undefined behaviour.

**C11 Fixed-width integers decode little-endian with correct sign** — *proved*
- modelled: libpstack/dwarf.h:DWARFReader::getuint; libpstack/dwarf.h:DWARFReader::getint
- proved by: induction on byte lists against the positional value (`Props_Reader.v`)
- theorems: `C11_getuint`, `C11_getint`, `C11_getu32`

**C12 DWARF unit lengths are decoded per the standard** — *proved*
- modelled: dwarf_reader.cc:DWARFReader::getlength
- proved by: case analysis over the escape values of the length (`Props_Reader.v`)
- theorems: `C12_initial_length`

**C13 FDE lookup finds the frame description covering an address** — *proved*
- modelled: dwarf_frame.cc:CFI::findFDE
- proved by: loop invariant of the binary search over sorted disjoint entries (`Props_Cfi.v`)
- theorems: `C13_lookup_sound`, `C13_lookup_exact`
- note: dwarf_frame.cc:249-269, table taken as loaded.

**C14 Unwind rows are those the CFA program defines** — *partial*
- modelled: libpstack/dwarf.h:CIE::execInsns; dwarf_frame.cc:FDE::execInsns
- proved by: simulation: the byte interpreter against a row machine over instructions, induction on the program (`Props_Cfi.v`)
- theorems: `C14_row_in_force_partial`, `C14_advance_wraps_refuted`, `C14_val_offset_refuted`, `C14_terminates_refuted`
- note: Refinement of the standard's table for every program whose operands fit the machine types; the refuted theorems show where the code departs from DWARF (32-bit scaled advance, val_offset unsupported, cursor wrap makes execution endless).

**C15 remember_state/restore_state nest** — *partial*
- modelled: libpstack/dwarf.h:CIE::execInsns
- proved by: induction on nested brackets of instructions (`Props_Cfi.v`)
- theorems: `C15_bracket_restores`, `C15_unmatched_restore_refuted`
- note: Nesting proved at any depth; the rejection half is false (UB on an empty state stack).

**C16 Encoded pointers decode per their DW_EH_PE encoding** — *partial*
- modelled: dwarf_frame.cc:CFI::decodeAddress
- proved by: one theorem per encoding against the integer specifications (`Props_Cfi.v`)
- theorems: `C16_encoded_pointer_partial`, `C16_absptr_refuted`
- note: All formats but absptr, which reads 4 bytes signed instead of 8.

**C17 DWARF expressions evaluate to their defined value** — *partial*
- modelled: dwarfproc.cc:ExpressionStack::eval
- proved by: simulation of the byte interpreter by the standard's stack machine, induction on the program (`Props_Expr.v`)
- theorems: `C17_expression_value_partial`, `C17_compare_refuted`, `C17_piece_refuted`, `C17_entry_value_refuted`, `C17_unimplemented_refuted`
- note: Correct for every program over the implemented operations with no signed overflow, shift >= 64 or mixed-sign ordering comparison; the refuted theorems exhibit unsigned comparison, reversed pieces, duplicated entry values and the unimplemented operations.

**C18 Expression evaluation never runs off its stack** — *partial*
- modelled: dwarfproc.cc:ExpressionStack::eval; dwarfproc.cc:ExpressionStack::poptop
- proved by: inversion of defined runs; each kind of undefined program exhibited (`Props_Expr.v`)
- theorems: `C18_underflow_refuted`, `C18_div_shift_refuted`, `C18_empty_expression_refuted`, `C18_defined_is_safe_partial`
- note: The rejection claim is false of the code: underflow, zero divisors and wide shifts are undefined behaviour. What holds is that defined programs never underflow.

**C19 Location lists select the entry for the pc** — *partial*
- modelled: dwarfproc.cc:ExpressionStack::eval (attribute)
- proved by: induction on the entries of the list (`Props_Loc.v`)
- theorems: `C19_loclist_v5_partial`, `C19_loclist_v4_partial`, `C19_start_length_refuted`, `C19_unhandled_refuted`, `C19_base_selection_refuted`, `C19_base_addressx_refuted`, `C19_unavailable_refuted`
- note: First covering entry for lists of offset_pair/base_address/(base 0) start_length entries and DWARF 4 lists without base selection. The other entry kinds are mishandled (refuted theorems), and 'unavailable' is reported as the value 0.

**C20 Unwinding one frame applies the register rules** — *partial*
- modelled: dwarfproc.cc:StackFrame::unwind
- proved by: composition: CIE/FDE bytes, row (C14), expression (C17), then a fold over the registers (`Props_Unwind.v`)
- theorems: `C20_unwind_step_partial`, `C20_unreadable_return_refuted`
- note: From encoded CIE/FDE bytes to the caller's registers for every row, including offset rules for vector, FP, flag and segment registers. Other rule kinds for those registers and steps in which a rule's value cannot be obtained are excluded from the positive theorem; for the latter the code swallows the failure (refuted).

**C21 Symbolic pc of a frame points inside the call** — *proved*
- modelled: dwarfproc.cc:StackFrame::scopeIP
- proved by: decision table over frame kinds (`Props_Unwind.v`)
- theorems: `C21_innermost_exact`, `C21_signal_code_exact`, `C21_interrupted_exact`, `C21_call_minus_one`
- note: Over every walk the unwinder returns.

**C22 Source line lookup returns the row covering the pc** — *partial*
- modelled: dwarf_unit.cc:Unit::sourceFromAddr
- proved by: induction over rows with the sequence ends (`Props_Lines.v`)
- theorems: `C22_source_lookup_partial`, `C22_source_of_program`, `C22_unterminated_refuted`
- note: Every matrix whose last row ends a sequence and whose file/directory references exist. An unterminated last sequence makes the lookup read past the table (refuted).

**C23 Line number programs build the matrix DWARF defines** — *partial*
- modelled: dwarf_lines.cc:LineInfo::build
- proved by: header then program; simulation of the byte interpreter by the standard's state machine (`Props_Lines.v`)
- theorems: `C23_line_matrix_v4_partial`, `C23_line_matrix_v5_partial`, `C23_program_terminates`, `C23_flags_refuted`, `C23_fixed_advance_refuted`, `C23_unknown_opcode_refuted`, `C23_line_range_refuted`, `C23_timestamp_refuted`
- note: Header and program, DWARF 2-5, 32 and 64-bit. Rows agree in every register but prologue_end, epilogue_begin and discriminator, which the code does not reset; fixed_advance_pc is wrongly scaled; opcodes the standard says to skip and line_range 0 are refuted.

**C24 Address-to-unit lookup finds the compilation unit covering the pc** — *partial*
- modelled: dwarf_info.cc:Info::lookupUnit; dwarf_info.cc:Info::decodeARangeSet
- proved by: invariant of the interval map over arbitrary histories (`Props_Aranges.v`, `Props_RootRead.v`)
- theorems: `C24_covering_unit_found_partial`, `C24_uncovered_none_partial`, `C24_ranges_refuted`, `C24_long_range_refuted`, `C24_empty_tuple_refuted`, `C24_aligned_header_refuted`, `C24_dwarf64_refuted`, `C24_high_addrx_refuted`, `C24_units_read`, `C24_covering_from_entries_partial`, `C24_high_sdata_refuted`, `C24_uncovered_lists_partial`, `C24_uncovered_from_entries_partial`
- note: Section parsing, the unit fallback and lookups after any history, for consistent non-empty intervals. Range list entries stored with start for length, empty tuples, aligned headers, 64-bit sets and addrx high_pc are refuted.

**C25 A DIE covers exactly its half-open pc ranges** — *partial*
- modelled: dwarf_die.cc:DIE::containsAddress
- proved by: per form class, arithmetic on half-open intervals (`Props_Die.v`, `Props_SrcAddr.v`)
- theorems: `C25_low_high`, `C25_ranges_partial`, `C25_unknown`, `C25_range_end_refuted`, `C25_constant_form_refuted`, `C25_ranges_low_partial`, `C25_ranges_lookup_partial`, `C25_ranges_answer`
- note: low_pc/high_pc exactly half-open for address and constant class forms; range lists except at the end address of a range, which the code includes (refuted); sdata/implicit_const/data16 high_pc throws (refuted).

**C26 Attribute lookup honours abbreviation order and indirection** — *partial*
- modelled: dwarf_die.cc:DIE::attribute
- proved by: induction on the chain of references (`Props_Die.v`)
- theorems: `C26_lookup_partial`, `C26_local_lookup`, `C26_order_independent`, `C26_second_reference_refuted`, `C26_cycle_refuted`
- note: Lookup through any chain of references, independent of attribute order. An entry with both references consults only the first, and cyclic references do not terminate (refuted).

**C27 Function lookup in the DIE tree returns the first enclosing entry** — *proved*
- modelled: dwarf_die.cc:findEntryForAddr
- proved by: induction on the tree of entries (`Props_Die.v`)
- theorems: `C27_first_enclosing`
- note: First entry in document order, for any tree and any answers of containsAddress that are not exceptions, after any history.

**C28 Range lists decode per the standard** — *partial*
- modelled: dwarf_die.cc:Ranges::Ranges
- proved by: induction on list entries, DWARF 4 and 5 (`Props_Die.v`)
- theorems: `C28_ranges_partial`, `C28_addr4_refuted`, `C28_startx_endx_refuted`
- note: All entry kinds of both versions except DW_RLE_startx_endx (refuted) and 4-byte addresses in version 4 (refuted).

**C29 GNU hash lookup finds exactly the hashed symbols** — *proved*
- modelled: elf.cc:GnuHash::findSymbol; elf.cc:gnu_hash
- proved by: bloom filter and chain induction against a table built from the symbols (`Props_Elf.v`)
- theorems: `C29_gnu_lookup`
- note: Byte-level table, any well-formed table and any name, collisions and duplicates included; first symbol of the name by index.

**C30 SysV hash lookup finds exactly the hashed symbols** — *partial*
- modelled: elf.cc:SymHash::findSymbol; elf.cc:elf_hash
- proved by: chain induction against a table built from the symbols (`Props_Elf.v`)
- theorems: `C30_sysv_lookup_partial`, `C30_high_bytes_refuted`, `C30_cyclic_chain_never_ends`
- note: Proved for names of bytes below 0x80; refuted for others, whose hash is computed from sign-extended bytes.

**C31 Segment lookup is independent of query history** — *partial*
- modelled: elf.cc:Object::getSegmentForAddress
- proved by: invariant of the cached segment over query histories (`Props_Elf.v`)
- theorems: `C31_segment_lookup_partial`, `C31_empty_segment_refuted`
- note: Any history, any file order, segments up to the top of the address space. Refuted when a loadable segment is empty.

**C32 Note iteration yields every note with its name and descriptor** — *partial*
- modelled: elf.cc:Notes; elf.cc:NoteDesc; libpstack/elf.h:roundup2
- proved by: induction on the notes; termination by a decreasing measure (`Props_Elf.v`)
- theorems: `C32_segment_notes_partial`, `C32_section_notes_partial`, `C32_terminates`, `C32_empty_segment_refuted`, `C32_unnamed_refuted`
- note: Segments and sections of debug images. Empty note segments and notes without a name are refuted. Termination holds on any input.

**C33 Address-to-symbol lookup returns an enclosing symbol** — *proved*
- modelled: elf.cc:Object::findSym
- proved by: induction over the symbol table with the size tests (`Props_Elf.v`)
- theorems: `C33_findSym`, `C33_findSymbolByAddress`
- note: Eligible symbols are those of allocated sections, as the statement says; symbols do not run past the end of the address space.

**C34 Section lookup by name honours .debug/.zdebug/.dwo aliases** — *partial*
- modelled: elf.cc:Object::getSection
- proved by: case analysis on names over a table with distinct names (`Props_Elf.v`)
- theorems: `C34_sound_partial`, `C34_complete_partial`, `C34_short_name_refuted`
- note: Distinct section names. Names that are a proper suffix of .dwo (the empty name among them) are undefined behaviour when absent.

**C35 Core memory reads return dumped bytes or mapped file contents** — *partial*
- modelled: dead.cc:CoreReader::read; dead.cc:readFromHdr
- proved by: induction on the remaining count with fuel discharged; segment lemmas (`Props_Core.v`)
- theorems: `C35_core_read_sourced`, `C35_core_read_exact_partial`, `C35_holds_unique`, `C35_core_read_prefers_core_refuted`, `C35_core_read_zeroes_file_refuted`, `C35_core_read_terminates_refuted`
- note: Any layout: bytes have a source at that address, no overrun, termination, stops only at unmapped memory. Exact byte for layouts whose sources do not interleave; refuted for others (object bytes preferred over dumped ones, zeros over mapped file contents), and termination refuted for malformed headers.

**C36 Per-thread registers come from that thread's notes** — *proved*
- modelled: dead.cc:CoreProcess::getRegs
- proved by: induction on the notes of the core (`Props_Core.v`)
- theorems: `C36_get_regs_own_thread`, `C36_get_regs_unknown_thread`
- note: Any notes before the first thread, any number of threads and notes.

**C37 An address is attributed to the object that maps it** — *partial*
- modelled: process.cc:Process::findSegment
- proved by: upper_bound specification over the sorted map of objects (`Props_Core.v`)
- theorems: `C37_find_segment_sound`, `C37_find_segment_complete_partial`, `C37_find_segment_at_base_refuted`
- note: Sound and complete except at an object's load address itself, where the object is never found.

**C38 Stack walks terminate within the frame limit** — *partial*
- modelled: process.cc:Lwp::unwind
- proved by: fuel bound from the frame limit (`Props_Unwind.v`)
- theorems: `C38_frame_limit`, `C38_walk_terminates_partial`, `C38_backwards_refuted`
- note: The frame limit is unconditional. Termination holds for frame sections in which no block length moves the cursor backwards; with such a block the walk diverges (refuted).

**C39 Stop/resume bracket leaves no thread stopped** — *partial*
- modelled: live.cc:LiveProcess::stop; live.cc:LiveProcess::resume; live.cc:LiveProcess::stopProcess; libpstack/proc.h:StopProcess
- proved by: invariant over arbitrary interleavings of stop/resume brackets and thread changes (`Props_Live.v`)
- theorems: `C39_never_attached_outside_bracket`, `C39_nothing_attached_at_end`, `C39_destroy_detaches`, `C39_attached_while_stopped_partial`, `C39_later_thread_not_stopped_refuted`
- note: Nothing stays attached outside or after stop/resume brackets, any nesting. Attached while stopped: for threads present at the first stop; refuted for threads that appear later.

**C40 Address-space lines are parsed faithfully** — *partial*
- modelled: live.cc:procAddressSpace; live.cc:hex2int
- proved by: round trip: any text laid out per proc(5) is parsed to its fields, induction on lines (`Props_Maps.v`)
- theorems: `C40_regions_partial`, `C40_inode_refuted`
- note: Any maps/smaps text: all fields but the inode, whose decimal digits are read as hexadecimal (refuted for every inode of 10 or more).

**C41 JSON string output is valid and lossless** — *partial*
- modelled: libpstack/json.h:Escape
- proved by: decoding of escapes is the identity on UTF-8 text, induction on code points (`Props_Json.v`)
- theorems: `C41_text_partial`, `C41_valid_partial`, `C41_terminates`, `C41_control_invalid_refuted`, `C41_lossless_refuted`, `C41_malformed_refuted`
- note: Lossless for all text up to U+FFFF with the five escaped control characters; valid for any bytes without the others; terminates. Refuted: other control characters (invalid output), lossless for U+10000 and up and for control characters followed by hex digits, rejection of malformed UTF-8.

**C42 Glob matching agrees with the pattern language** — *proved*
- modelled: canal.cc:globmatchR
- proved by: matcher against an inductive relation; soundness and completeness by induction on fuel/pattern (`Props_Canal.v`)
- theorems: `C42_globmatch`
- note: All patterns and names; termination and memory safety included.

**C43 Symbol store attributes an address to the symbol containing it** — *partial*
- modelled: canal.cc:SymbolStore
- proved by: lower_bound specification over the sorted symbols (`Props_Canal.v`)
- theorems: `C43_find_sound`, `C43_find_complete_partial`, `C43_adjacent_refuted`
- note: Sound always; complete unless some symbol ends at the address; refuted for adjacent symbols.

**C44 Heap debugger keeps exact allocation statistics** — *proved*
- modelled: heap.c:build_alloc; heap.c:free_desc
- proved by: invariant over sequences of allocator calls (`Props_Heap.v`)
- theorems: `C44_statistics`, `C44_peak`
- note: All correct programs and all answers of the real allocator; filling and the memory limit off; calls serialised.

**C45 Heap debugger detects overruns and double frees** — *partial*
- modelled: heap.c:free; heap.c:get_state; heap.c:set_state
- proved by: guards invariant over histories, then the check at free (`Props_Heap.v`, `Props_Tight.v`)
- theorems: `C45_overrun_reported_partial`, `C45_level2_reported_partial`, `C45_double_free_reported_partial`, `C45_underrun_missed_refuted`, `C45_false_report_refuted`, `C45_guard_bytes`
- note: Detection of guard bytes and double frees while retained proved; refuted for the four padding bytes before a block, and false reports with filling on.

**C46 Freed memory is recycled in FIFO order after the quarantine** — *proved*
- modelled: heap.c:free
- proved by: invariant of the ring of freed blocks (`Props_Heap.v`)
- theorems: `C46_fifo`
- note: Filling off.

**C47 Aligned allocations are aligned and inside their block** — *proved*
- modelled: heap.c:aligned_alloc
- proved by: arithmetic on the aligned block inside its allocation (`Props_Heap.v`)
- theorems: `C47_aligned`, `C47_posix_memalign`, `C47_valloc`
- note: Any positive alignment, sizes whose sum with the bookkeeping is representable.

**C48 Bootstrap allocations never overlap** — *partial*
- modelled: heap.c:buffer_malloc
- proved by: invariant over bootstrap allocations (`Props_Heap.v`)
- theorems: `C48_bootstrap_partial`, `C48_overlap_refuted`, `C48_misaligned_refuted`
- note: Proved for sizes up to 2^64-65540 and alignment 4; refuted beyond.

**C49 Python line numbers follow the line table** — *partial*
- modelled: python.tcc:getLine
- proved by: induction on the line table and on the chain of frames (`Props_Python.v`)
- theorems: `C49_stack_lines`, `C49_line_any_options`, `C49_odd_table_refuted`
- note: Every frame of every chain prints the line of the table, both Pythons; with arguments/locals shown the theorem covers the innermost frame. A table of odd length (corrupt core) is read past its end.

**C50 Python dictionaries are shown completely** — *partial*
- modelled: python2.cc:DictPrinter
- proved by: induction over slots (`Props_Python.v`)
- theorems: `C50_python2_partial`, `C50_python2_last_slot_refuted`, `C50_python3`, `C50_shared_keys_refuted`
- note: Python 2 never shows the last slot of the table (loop bound ma_mask, should be ma_mask + 1); Python 3 is exact for combined tables, and shows valueless keys of shared-key dictionaries.

**C51 Python version is taken correctly from the interpreter's file name** — *partial*
- modelled: python.cc:getPythonVersionFromFilename
- proved by: exact characterisation of the scanner (`Props_Python.v`)
- theorems: `C51_version`, `C51_rejects_or_answers`, `C51_two_digit_minor_refuted`, `C51_no_dot_refuted`
- note: Exact characterisation of the answer for all names; it cuts two-digit minors (3.11 becomes 3.1) and accepts any character for the dot.

**C52 Python integers print their exact value** — *partial*
- modelled: python.tcc:LongPrinter
- proved by: induction on the digits (`Props_Python.v`)
- theorems: `C52_exact_partial`, `C52_large_refuted`
- note: Exact below 2^63 in magnitude; never exact above.

**C53 Register accessors are consistent** — *partial*
- modelled: libpstack/arch-x86_64.h; process.cc:StackFrame::setReg/getReg
- proved by: finite case analysis on register numbers (exhaustive, inside the kernel) and get/set laws (`Props_Expr.v`)
- theorems: `C53_abi_numbering`, `C53_set_then_get_partial`, `C53_general_registers_settable`, `C53_mmx_alias_refuted`, `C53_lost_write_refuted`, `C53_unknown_rejected`
- note: x86-64 numbering. Holds for registers the code stores and outside the MMX/XMM confusion; both exceptions are exhibited.

**C54 Image lookups are cached consistently** — *partial*
- modelled: context.cc:Context::getImageImpl; context.cc:Context::getImageInPath; context.cc:Context::getImageIfLoaded
- proved by: invariant of the caches over histories (`Props_Context.v`)
- theorems: `C54_id_same_object`, `C54_missing_name_not_repeated`, `C54_answer_independent_partial`, `C54_name_reload_refuted`, `C54_key_clash_refuted`
- note: By build ID: the same object. By name: failures are remembered, found images are loaded afresh (refuted). Independence of history proved if no name asked for is the relative name of a build ID asked for (refuted otherwise).

**C55 Compressed-section reads equal reads of the decompressed data** — *partial*
- modelled: lzma.cc:LzmaReader::read
- proved by: induction over the blocks of the index with liblzma as a parameter (`Props_Lzma.v`)
- theorems: `C55_read_partial`, `C55_uncorrupted`, `C55_damaged_refuted`
- note: Proved for ranges whose blocks decode, after any history; refuted for damaged blocks (second read delivers zeros). Ranges past the end are refused rather than shortened.

**C56 Command-line options dispatch to their handlers** — *partial*
- modelled: flags.cc:Flags::add; flags.cc:Flags::parse
- proved by: simulation of getopt_long over option tables (`Props_Flags.v`)
- theorems: `C56_dispatch`, `C56_rejects`, `C56_collision`, `C56_pstack_options`, `C56_duplicate_name_refuted`, `C56_question_mark_refuted`
- note: Proved for all option tables with distinct names and distinct letters (pstack's and canal's satisfy this) over a model of getopt_long; duplicate names and the letter '?' are not rejected.

**C57 Tracing a command's signals** — *partial*
- modelled: pstack.cc:startChild
- proved by: bit arithmetic on the signal masks, induction over the events (`Props_Child.v`)
- theorems: `C57_signals_partial`, `C57_default_ignored_refuted`, `C57_realtime_refuted`
- note: Signals up to 31 that are handled or would terminate; refuted: signals that are ignored or only stop the command by default (SIGCHLD, SIGWINCH, ...) kill it, real-time signals are undefined behaviour.

**C58 Symbol-version and hash functions match the ABI** — *partial*
- modelled: elf.cc:elf_hash; elf.cc:gnu_hash
- proved by: induction on the characters against the gABI/GNU definitions (`Props_Elf.v`)
- theorems: `C58_gnu_hash`, `C58_elf_hash_partial`, `C58_elf_hash_refuted`
- note: gnu_hash for all names; elf_hash for bytes below 0x80, refuted above.

**C59 Abbreviation tables and DIE forms are consumed exactly** — *partial*
- modelled: dwarf_die.cc:DIE::Raw::Raw; dwarf_die.cc:DIE::Value::Value
- proved by: one cursor lemma per form, induction on declarations and attributes (`Props_Die.v`)
- theorems: `C59_entries_decoded_partial`, `C59_large_offset_refuted`, `C59_form_refuted`, `C59_undeclared_refuted`, `C59_v2_ref_refuted`
- note: All declarations, forms and trees of entries, DWARF 2-5, 32 and 64 bit; offsets below half range. Sign extension of offsets, unread forms, undeclared codes and version 2 ref_addr are refuted.

**C60 DIE tree navigation visits each child exactly once** — *partial*
- modelled: dwarf_die.cc:DIE::nextSibling; dwarf_die.cc:DIE::firstChild; dwarf_die.cc:DIE::decode
- proved by: tree induction and an invariant over histories of navigation (`Props_Die.v`)
- theorems: `C60_navigation_partial`
- note: Any history of lookups, full or step by step iterations and parent queries over any well-formed tree, with or without sibling attributes. Partial in the encodings of C59.

**C61 Public names parse to the end of the section** — *partial*
- modelled: dwarf_pubnames.cc:PubnameUnit::PubnameUnit
- proved by: induction on the entries; termination measure (`Props_Pubnames.v`)
- theorems: `C61_pubnames_partial`, `C61_terminates`, `C61_no_section`, `C61_long_unit_refuted`, `C61_repeat_after_failure_refuted`
- note: Proved for contributions under 64 KiB in the 32-bit format; termination for any contents. Refuted: the length is kept in 16 bits; after a failed call the next returns a partial list.

**C62 Macro information is delivered in order** — *partial*
- modelled: dwarf_macros.cc:Macros::visit4; dwarf_macros.cc:Macros::visit5; dwarf_macros.cc:Macros::readD5
- proved by: induction on macro entries, with a visitor as parameter (`Props_Macros.v`)
- theorems: `C62_v5_events_partial`, `C62_v4_events_partial`, `C62_v4_terminates`, `C62_v5_terminates_partial`, `C62_import_cycle_refuted`, `C62_v4_stop_refuted`, `C62_vendor4_refuted`, `C62_vendor5_refuted`, `C62_offset_size_refuted`, `C62_start_file_refuted`
- note: Order, contents and imports proved for well-formed sections and any visitor; termination for any macinfo and for forward imports. Refuted: import cycles, vendor opcodes, stop requests in macinfo, offset sizes, undefined file numbers.

**C63 Expression evaluation terminates** — *partial*
- modelled: dwarfproc.cc:ExpressionStack::eval; dwarfproc.cc:StackFrame::getFrameBase
- proved by: termination measure on the remaining bytes; divergent witness (`Props_Expr.v`)
- theorems: `C63_evaluation_terminates_partial`, `C63_recursive_frame_base_refuted`
- note: Terminates on every byte string without a frame base expression; a self-referring frame base recurses without end.

**C64 A core's address space is its loadable segments with their files** — *proved*
- modelled: dead.cc:CoreProcess::addressSpace
- proved by: induction on the segments (`Props_Core.v`)
- theorems: `C64_core_address_space`
- note: NT_FILE entries with distinct starts.

**C65 The VM flags of a mapping are those the kernel lists** — *partial*
- modelled: live.cc:procAddressSpace; live.cc:nextTok; live.cc:AddressRange::vmflag
- proved by: induction on the tokens of the line (`Props_Maps.v`)
- theorems: `C65_flags_partial`, `C65_first_flag_refuted`
- note: All flags but the first of the line, which is never reported (refuted).

**C66 canal --offset finds exactly the references at that offset** — *partial*
- modelled: canal.cc:SymbolStore::find; canal.cc:OffsetBoundSymbolMatcher
- proved by: sound/complete against the set of references (`Props_Canal.v`, `Props_CanalMain.v`)
- theorems: `C66_offset_sound`, `C66_offset_complete_partial`, `C66_offset_exact`, `C66_offset_zero_refuted`, `C66_beyond_refuted`
- note: Sound always; exact characterisation of what is found; complete for offsets from 1 to the size of the symbol, non-overlapping symbols of positive size. Refuted: --offset 0 is ignored, and offsets beyond the symbol's end are not found.

**C67 canal's histogram and listings count each reference once** — *partial*
- modelled: canal.cc:search; canal.cc:SymbolStore
- proved by: counting over the references, induction (`Props_Canal.v`, `Props_CanalMain.v`)
- theorems: `C67_histogram_partial`, `C67_references_partial`, `C67_ranges`, `C67_adjacent_refuted`
- note: Ranges in full; symbols except for words equal to the end of a symbol, for which it is refuted; see C147 for the whole program.

**C68 canal --string reports where the text occurs** — *partial*
- modelled: canal.cc:findString
- proved by: divergence and absence of output by induction on fuel (`Props_Canal.v`)
- theorems: `C68_string_search_refuted`, `C68_string_search_hangs_refuted`
- note: Refuted: never reports and terminates; never terminates for small segments or if the text is present.

**C69 The debugging allocator preserves the program's data** — *proved*
- modelled: heap.c: malloc, calloc, realloc, free, build_alloc, set_state
- proved by: simulation of the allocator by abstract blocks over histories of calls and program writes (`Props_Heap.v`)
- theorems: `C69_contents_kept`, `C69_extent_requested`
- note: Filling off.

**C70 Allocation failure is reported as failure** — *partial*
- modelled: heap.c: malloc, calloc, build_alloc
- proved by: witness for every failure of the underlying allocator (`Props_Heap.v`)
- theorems: `C70_out_of_memory_refuted`, `C70_huge_malloc_refuted`, `C70_calloc_overflow_refuted`
- note: Refuted.

**C71 Call statistics count each call under its own kind** — *partial*
- modelled: heap.c: malloc, aligned_alloc; heap.h: struct stats
- proved by: induction over calls (`Props_Heap.v`, `Props_Tight.v`)
- theorems: `C71_counts_partial`, `C71_aligned_counts_refuted`, `C71_history_partial`, `C71_double_counts_refuted`
- note: Refuted for aligned allocations.

**C72 Memory from before startup may be freed at any time** — *partial*
- modelled: heap.c: free, headroom, buffer_malloc
- proved by: witness history (`Props_Heap.v`)
- theorems: `C72_bootstrap_free_refuted`
- note: Refuted.

**C73 The debug level 0 switches the allocator's checks off** — *partial*
- modelled: heap.c: use_hdmp
- proved by: witness history (`Props_Heap.v`, `Props_Tight.v`)
- theorems: `C73_level0_refuted`, `C73_level_nonzero`
- note: Refuted: only the first call is passed on.

**C74 Printing Python objects always ends** — *proved*
- modelled: python.tcc:PythonPrinter::print
- proved by: measure on the set of objects not yet seen (`Props_Python.v`)
- theorems: `C74_printing_returns`
- note: Result is normal return or undefined behaviour (C49, C52, C77), never divergence or an exception; stack exhaustion by recursion is outside the model.

**C75 No Python object is listed twice** — *proved*
- modelled: python.tcc:PythonPrinter::print; libpstack/python.h:dupdetect
- proved by: invariant of the set of objects seen (`Props_Python.v`)
- theorems: `C75_listed_once`

**C76 Python output indentation is consistent** — *partial*
- modelled: python.tcc:HeapPrinter; python.tcc:PythonPrinter::print
- proved by: induction over the printer (`Props_Python.v`)
- theorems: `C76_indentation_partial`, `C76_failure_refuted`
- note: Holds unless a failure is reported; a failure inside a printer leaks one level.

**C77 Python objects of unreadable types are reported, not used** — *partial*
- modelled: python.tcc:PythonPrinter::print
- proved by: case analysis/witness (`Props_Python.v`)
- theorems: `C77_first_reported_partial`, `C77_second_unreadable_type_refuted`
- note: The second object of such a type uses uninitialised memory.

**C78 Every Python thread is shown once** — *proved*
- modelled: python.tcc:PythonPrinter::printInterp
- proved by: induction on the list of threads (`Props_Python.v`)
- theorems: `C78_each_thread_once`, `C78_all_threads`, `C78_returns`

**C79 Every Python interpreter is shown and the listing ends** — *partial*
- modelled: python.tcc:PythonPrinter::printInterpreters
- proved by: induction on the list; cyclic witness for every fuel (`Props_Python.v`)
- theorems: `C79_all_interpreters`, `C79_cycle_refuted`
- note: The listing does not end on a cyclic list.

**C80 Python lists and tuples show their elements** — *partial*
- modelled: python.tcc:ListPrinter; python.tcc:TuplePrinter
- proved by: induction on elements (`Props_Python.v`)
- theorems: `C80_list_partial`, `C80_tuple_partial`, `C80_long_list_refuted`
- note: Complete up to 100 elements; silently truncated beyond.

**C81 Python argument lists are well formed** — *partial*
- modelled: python.tcc:printArguments
- proved by: characterisation of the text (`Props_Python.v`)
- theorems: `C81_arguments_unbalanced_refuted`
- note: The text is never balanced.

**C82 Python strings print their text** — *partial*
- modelled: python3.cc:readString<3>; python2.cc:readString<2>; python.tcc:StringPrinter
- proved by: per representation of strings (`Props_Python.v`)
- theorems: `C82_strings_partial`, `C82_pointer_printed_refuted`
- note: Compact ASCII strings and Python 2 strings are right; non-compact strings print the bytes of their data pointer.

**C83 Image search order** — *partial*
- modelled: context.cc:Context::getImageInPath; context.cc:Context::getImageImpl
- proved by: induction on the prefixes (`Props_Context.v`)
- theorems: `C83_name_prefix_order_partial`, `C83_id_prefix_order_partial`, `C83_missing_prefix_refuted`
- note: Prefix order proved for names and, if no candidate is missing, for build IDs. Refuted: a prefix in which the build ID is missing ends the search.

**C84 Flushing forgets exactly one image** — *proved*
- modelled: context.cc:Context::flush
- proved by: case analysis on the maps (`Props_Context.v`)
- theorems: `C84_flushed_not_returned`, `C84_flush_keeps_others`

**C85 One set of debug information per image** — *partial*
- modelled: context.cc:Context::findDwarf
- proved by: invariant of the map of debug information (`Props_Context.v`)
- theorems: `C85_dwarf_same`, `C85_dwarf_not_shared`, `C85_missing_name`, `C85_missing_id_refuted`
- note: Refuted: an unknown build ID makes debug information of a null image (undefined behaviour).

**C86 Scripts are represented by their interpreter** — *partial*
- modelled: context.cc:Context::getImageInPath
- proved by: case analysis on the first line (`Props_Context.v`)
- theorems: `C86_script_partial`, `C86_long_interpreter_refuted`
- note: Interpreter names within the first 64 bytes.

**C87 Symbolic links are followed to the end** — *partial*
- modelled: context.cc:Context::linkResolve
- proved by: induction on chains; cyclic witness for every fuel (`Props_Context.v`)
- theorems: `C87_links_partial`, `C87_link_cycle_refuted`
- note: Refuted: cycles are followed for ever.

**C88 Unwinding without call frame information** — *proved*
- modelled: process.cc:Lwp::unwind; process.cc:StackFrame::unwind
- proved by: induction on the chain of frame pointers (`Props_Stacks.v`)
- theorems: `C88_links`, `C88_end_of_stack`

**C89 Every thread is listed with its stack** — *partial*
- modelled: process.cc:Process::getStacks
- proved by: induction on the list of threads (`Props_Stacks.v`)
- theorems: `C89_threads_partial`, `C89_thread_lost_refuted`
- note: Refuted: a thread one of whose frames has a frame pointer leading outside readable memory is not listed at all.

**C90 Debug sections come from the image or its debug image** — *partial*
- modelled: elf.cc:Object::getDebugSection
- proved by: case analysis over both images (`Props_Elf.v`)
- theorems: `C90_debug_sections_partial`, `C90_empty_shadows_alias_refuted`
- note: Refuted: an empty section shadows an aliased one.

**C91 Arguments in memory show their value** — *partial*
- modelled: process.cc:RemoteValue; process.cc:operator<<(RemoteValue); process.cc:removeCV
- proved by: per base type, against decimal/pointer specifications (`Props_Args.v`, `Props_Tight.v`)
- theorems: `C91_memory_argument_partial`, `C91_unsigned_refuted`, `C91_unreadable_refuted`, `C91_other_types_named`, `C91_other_encodings`
- note: Types in the specification's list; refuted: unsigned integers in the upper half of their range show as negative, unreadable memory as 0.

**C92 Arguments that are not in memory show their value** — *partial*
- modelled: process.cc:ArgPrint; dwarfproc.cc:ExpressionStack::eval
- proved by: composition with C17; witnesses (`Props_Args.v`)
- theorems: `C92_register_argument_partial`, `C92_narrow_register_refuted`, `C92_zero_refuted`, `C92_stack_value_refuted`
- note: Nonzero 8 byte integers in DW_OP_reg registers; refuted: narrower types, zero, DW_OP_stack_value and DW_OP_regx.

**C93 Showing an argument ends** — *partial*
- modelled: process.cc:RemoteValue; process.cc:removeCV
- proved by: induction on the depth of types; divergent witness (`Props_Args.v`)
- theorems: `C93_ends_partial`, `C93_cycle_refuted`
- note: Acyclic types; refuted for cyclic ones.

**C94 Parameters are shown in order** — *proved*
- modelled: process.cc:operator<<(ArgPrint)
- proved by: induction on the parameters (`Props_Args.v`)
- theorems: `C94_order`

**C95 A bad argument does not hide the rest of the stack** — *partial*
- modelled: process.cc:operator<<(ArgPrint); process.cc:dumpFrameText
- proved by: composition over the frames; witness (`Props_Args.v`, `Props_Tight.v`)
- theorems: `C95_errors_contained_partial`, `C95_bad_location_refuted`, `C95_failure_shown`, `C95_string_failure_shown`
- note: Refuted: a location expression that cannot be evaluated ends the output.

**C96 The command line of a traced command** — *partial*
- modelled: pstack.cc:startChild
- proved by: induction on the words (`Props_Child.v`)
- theorems: `C96_arguments_partial`, `C96_three_words_refuted`
- note: Number of arguments, first and last; all of them with at most one space; refuted with more.

**C97 File mappings of a core are all found** — *proved*
- modelled: dead.cc:FileEntries; dead.cc:CoreProcess::loadSharedObjectsFromFileNote; libpstack/reader.h:ReaderArray
- proved by: induction on the entries of the note (`Props_Load.v`)
- theorems: `C97_file_note`, `C97_file_objects`
- note: the note's place in the file (Elf notes walk) is C32; FileEntries over it, for every list of mappings

**C98 The auxiliary vector is understood** — *proved*
- modelled: process.cc:Process::processAUXV
- proved by: induction on the vector (`Props_Load.v`)
- theorems: `C98_aux_vector`, `C98_others_ignored`
- note: whenever loading gets past the vector; what happens then is C99, C100, C102

**C99 Load address and DT_DEBUG of the program** — *proved*
- modelled: process.cc:Process::processAUXV; process.cc:Process::extractDtDebugFromDynamicSegment
- proved by: induction on the program headers (`Props_Load.v`)
- theorems: `C99_base_and_debug`, `C99_loads`
- note: For any program headers, also ones of which only a part is in memory, and any dynamic section. C99_loads: reading succeeds when everything is in memory.

**C100 The executable is the one that is running** — *partial*
- modelled: process.cc:Process::processAUXV; context.cc:Context::findImage
- proved by: induction on the notes (`Props_Load.v`)
- theorems: `C100_executable_partial`, `C100_second_note_refuted`, `C100_empty_name_refuted`
- note: holds for the first note of each segment; refuted: a build ID that follows another note in the same segment is not found; a type 3 note with empty name is undefined behaviour

**C101 Shared objects are those of the link map** — *partial*
- modelled: process.cc:Process::loadSharedObjects
- proved by: induction on the link map; cyclic witness for every fuel (`Props_Load.v`)
- theorems: `C101_link_map`, `C101_cycle_refuted`
- note: every finite link map; refuted: termination on a cyclic (damaged) one

**C102 A truncated core still shows its objects** — *partial*
- modelled: process.cc:Process::load; dead.cc:CoreProcess::loadSharedObjectsFromFileNote
- proved by: case analysis over what can be read (`Props_Load.v`)
- theorems: `C102_load_link_map`, `C102_fallback_partial`, `C102_missing_dynamic_refuted`
- note: refuted: a missing dynamic section of the program is outside the try block and loses everything

**C103 Programs without a dynamic linker** — *partial*
- modelled: process.cc:Process::load
- proved by: case analysis (`Props_Load.v`)
- theorems: `C103_static_partial`, `C103_static_pie_refuted`
- note: programs loaded where they are linked; refuted: static-pie is recorded at 0

**C104 Every CIE and FDE of a frame section is found and lookups pick the right one** — *partial*
- modelled: dwarf_frame.cc: CFI::CFI, CFI::putFDEorCIE, CFI::findFDE, CFI::getFDEs, CIE::CIE, FDE::FDE
- proved by: induction on the laid-out entries; invariant of the lazy cache over histories (`Props_Frames.v`)
- theorems: `C104_decoding_partial`
- note: Proved for sections with entries in the 32-bit and (.debug_frame) the 64-bit format, return address registers below 128 and no DW_EH_PE_absptr encoding (see C106 and the decodeAddress properties for what goes wrong there), FDEs of non-empty, non-overlapping code; std::sort modelled as a stable sort.

**C105 Lookups through .eh_frame_hdr give the answers of the table, in any history** — *partial*
- modelled: dwarf_frame.cc: CFI::CFI, CFI::ensureFDE, CFI::ensureFDEs, CFI::findFDE
- proved by: invariant of the partially decoded table over histories (`Props_Frames.v`)
- theorems: `C105_search_table_partial`, `C105_unsized_table`
- note: Same restrictions as C104; table entries absolute or data relative (pc relative tables are not claimed).

**C106 A CIE's contents are read correctly** — *partial*
- modelled: dwarf_frame.cc: CIE::CIE, CFI::decodeCIEFDEHdr
- proved by: cursor lemmas per field (`Props_Frames.v`)
- theorems: `C106_cie_contents_partial`, `C106_return_register_refuted`, `C106_extended_length_refuted`, `C106_far_cie_refuted`
- note: False for return address registers above 127 in version 3 and 4 CIEs (one byte is read), for 64-bit FDEs whose CIE is at 0xffffffff and for .eh_frame entries with an extended length (8 bytes of CIE pointer are read).

**C107 A damaged frame section is reported, not fatal** — *partial*
- modelled: dwarf_frame.cc: CFI::putFDEorCIE, CFI::ensureFDE
- proved by: witnesses, one for every fuel (`Props_Frames.v`)
- theorems: `C107_self_reference_refuted`, `C107_fde_of_fde_refuted`, `C107_wrong_table_refuted`
- note: False: an FDE naming itself recurses for ever, an FDE naming an FDE and a table entry with a wrong address fail assertions.

**C108 Unit headers are read per the standard** — *partial*
- modelled: dwarf_unit.cc: Unit::Unit
- proved by: cursor lemmas per version and format (`Props_Units.v`)
- theorems: `C108_unit_header_partial`, `C108_type_unit_refuted`
- note: Proved for all headers but type units, for which it is false: the signature and type offset are not skipped.

**C109 Units and entries are found whatever was asked before** — *partial*
- modelled: dwarf_info.cc: Info::getUnit, Info::offsetToDIE, Info::getUnits; libpstack/dwarf.h: Units::iterator
- proved by: invariant of the unit cache over histories (`Props_Units.v`)
- theorems: `C109_history_partial`
- note: Proved for sections without type units and with units asked for only at their start (see C108, C110). What Unit::offsetToDIE finds inside a unit is a parameter (C59, C60).

**C110 A failed unit lookup has no lasting effect** — *partial*
- modelled: dwarf_info.cc: Info::getUnit, Info::offsetToDIE
- proved by: witness history (`Props_Units.v`)
- theorems: `C110_failed_unit_refuted`
- note: False: the null pointer left in the map becomes the start of later searches.

**C111 Indexed addresses, strings and range lists are those of the table** — *partial*
- modelled: dwarf_unit.cc: Unit::addrx, Unit::strx, Unit::rnglistx
- proved by: arithmetic on tables, cursor lemmas (`Props_Units.v`)
- theorems: `C111_addrx_partial`, `C111_addrx_short_refuted`, `C111_strx_base`, `C111_strx_header`, `C111_strx_old`, `C111_rnglistx_partial`, `C111_rnglistx_split_refuted`, `C111_rnglistx_mixed_refuted`
- note: addrx: false for 4 byte address tables. strx: the width with a base is that of the unit's own offsets (assumed equal to the table's). rnglistx: false without DW_AT_rnglists_base and if the section has contributions of both formats.

**C112 All sections of an image are found** — *partial*
- modelled: elf.cc: Object::sectionHeaders, Object::Object; libpstack/elf.h: Section
- proved by: induction on section headers (`Props_ElfFile.v`)
- theorems: `C112_sections_partial`, `C112_no_table_refuted`, `C112_failure_forgotten_refuted`, `C112_bad_strndx_refuted`
- note: Proved for images with a readable table whose string table is not compressed. False for images without a table if e_shentsize is set, after a failed call, and for a bad e_shstrndx.

**C113 Section contents are those of the file, decompressed** — *partial*
- modelled: elf.cc: Section::io; inflate.cc: InflateReader::InflateReader
- proved by: case analysis with zlib as a parameter under its contract (`Props_ElfFile.v`)
- theorems: `C113_plain`, `C113_compressed_partial`, `C113_zdebug_partial`, `C113_large_refuted`, `C113_incompressible_refuted`, `C113_overread_refuted`, `C113_contents`
- note: zlib is a parameter with a contract (zcontract). False for data of 4 GiB and more, for .zdebug_ sections whose stream is longer than the data, and a .zdebug_ section's reader can extend beyond the section.

**C114 Symbol versions are those of the version sections** — *partial*
- modelled: elf.cc: Object::symbolVersions, Object::symbolVersion, Object::versionIdxForSymbol
- proved by: induction on version records (`Props_ElfSym.v`)
- theorems: `C114_section_list_partial`, `C114_symbol_versions_partial`, `C114_version_index_partial`
- note: Proved for images with distinct section names and distinct version numbers, whose sections are inside the file and not compressed.

**C115 Symbols by name, in any history** — *partial*
- modelled: elf.cc: Object::findDebugSymbol; libpstack/elf.h: SymbolSection
- proved by: induction on the symbols, invariant of the index over histories (`Props_ElfSym.v`)
- theorems: `C115_symbol_by_name_partial`, `C115_damaged_refuted`
- note: Proved for readable tables of the image itself (C90 says which table it is). False for damaged ones: the first lookup fails, later ones answer from a partial table.

**C116 Build IDs and the separate debug image** — *partial*
- modelled: elf.cc: Object::getBuildID, Object::getDebug
- proved by: case analysis and invariant over histories (`Props_ElfSym.v`)
- theorems: `C116_build_id_partial`, `C116_debug_build_id_partial`, `C116_debug_image_partial`, `C116_mismatch_refuted`, `C116_prelink_refuted`, `C116_failure_refuted`
- note: False if the build IDs differ (null stream), for prelinked images without a debug stream, and after a failed first call.

**C117 Program headers of an image** — *partial*
- modelled: elf.cc: Object::Object, Object::getSegments, Object::endVA, Object::getInterpreter
- proved by: induction on program headers (`Props_ElfFile.v`)
- theorems: `C117_program_headers_partial`, `C117_interpreter`, `C117_end_of_image`, `C117_many_segments_refuted`, `C117_elf32_refuted`, `C117_not_elf`
- note: False for more than 65534 segments (PN_XNUM is not understood) and for 32-bit images, which are taken for 64-bit ones.

**C118 Damaged images are reported** — *partial*
- modelled: elf.cc: Object::Object, Section::io; reader.cc: MmapReader, MemReader, OffsetReader
- proved by: case analysis over damaged headers (`Props_ElfFile.v`)
- theorems: `C118_core_headers`, `C118_truncated_refuted`
- note: Proved for headers of core files (read from disk); false for mapped images, whose headers and sections are not checked against the file's size.

**C119 Qualified function names** — *partial*
- modelled: process.cc: buildDIEName; dwarf_die.cc: DIE::name, DIE::getParentOffset
- proved by: induction on the nest of scopes (`Props_FrameText.v`)
- theorems: `C119_qualified_name_partial`, `C119_union_refuted`, `C119_unnamed_refuted`, `C119_cycle_refuted`, `C119_skeleton_refuted`
- note: Proved for nests of namespaces, classes and structures that end; unions do not qualify, unnamed scopes give empty components, reference cycles do not end, a missing parent is undefined behaviour.

**C120 Offset in the function** — *partial*
- modelled: process.cc: PrintableFrame::PrintableFrame
- proved by: case analysis over frame kinds and caches (`Props_Frame2.v`)
- theorems: `C120_offset_partial`, `C120_offset_ranges_partial`, `C120_offset_symbol`, `C120_call_frame_refuted`, `C120_ranges_refuted`
- note: Offset from low pc, first range or symbol, in every cache history; for call frames it is one less than the shown address implies, and a first range that is not the lowest gives an absurd offset.

**C121 Inlined calls at an address** — *partial*
- modelled: process.cc: PrintableFrame::PrintableFrame; dwarf_die.cc: DIE::findEntryForAddr
- proved by: tree induction (`Props_Frame2.v`)
- theorems: `C121_inlined_partial`, `C121_range_end_refuted`
- note: Exactly the covering inlined subroutines, outermost first, when one branch covers the address; range ends are included wrongly.

**C122 Lines of a frame** — *partial*
- modelled: process.cc: Process::dumpFrameText, Process::dumpStackText
- proved by: exact text by composition of printers (`Props_Frame2.v`, `Props_Tight.v`)
- theorems: `C122_frame_lines_partial`, `C122_no_image`, `C122_numbering`, `C122_nosrc_refuted`, `C122_noline_refuted`, `C122_call_file_refuted`, `C122_thread_line`
- note: The text is exact when line information is known and shown; without it inlined calls share a line, unknown positions print as :-1 and a bad call_file is undefined behaviour.

**C123 Names of types** — *partial*
- modelled: dwarf_die.cc: typeName
- proved by: induction on types (`Props_FrameText.v`)
- theorems: `C123_type_name_partial`, `C123_rvalue_refuted`, `C123_cycle_refuted`, `C123_other_kinds_refuted`
- note: Exact text for named types, pointers, references, const, volatile and function types; other tags print '(unhandled tag ...)' and cycles do not end.

**C124 What an argument of pstack means** — *partial*
- modelled: process.cc: Process::load
- proved by: exhaustive classification of strings (`Props_Main.v`)
- theorems: `C124_argument_partial`, `C124_negative_refuted`
- note: Exact classification of every string; zero and negative numbers are also taken as process ids.

**C125 Arguments are independent** — *partial*
- modelled: pstack.cc: emain
- proved by: induction on the arguments (`Props_Main.v`, `Props_Tight2.v`)
- theorems: `C125_arguments_partial`, `C125_exit_status`, `C125_repeat_refuted`
- note: Any list of arguments and failures, without repetition or interruption. With -b the independence of arguments is refuted: later processes are never traced.

**C126 Repeating until interrupted** — *partial*
- modelled: pstack.cc: emain, main
- proved by: induction on the repetitions (`Props_Main.v`)
- theorems: `C126_repeat`, `C126_interrupt_refuted`
- note: Repetition is exact; after an interruption the remaining arguments are silently skipped with exit status 0.

**C127 Native and Python traces** — *partial*
- modelled: pstack.cc: emain, pystack
- proved by: case analysis (`Props_Main.v`)
- theorems: `C127_choice_partial`, `C127_all_error_refuted`
- note: Exact choice; with -A an exception in the Python trace loses the native trace.

**C128 Symbols of a process by name** — *partial*
- modelled: process.cc: Process::resolveSymbolDetail, Process::resolveSymbol
- proved by: induction on the objects (`Props_Main2.v`)
- theorems: `C128_resolve_partial`, `C128_resolve_sound`, `C128_resolve_none`, `C128_absolute_refuted`
- note: Complete and sound; absolute symbols are wrongly relocated.

**C129 Text of the terminating signal** — *partial*
- modelled: process.cc: operator << (SigInfo)
- proved by: exhaustive case analysis on codes (`Props_Main2.v`)
- theorems: `C129_reason_partial`, `C129_fault_text_partial`, `C129_sent_fault_refuted`, `C129_child_refuted`
- note: Fault reasons and senders are exact for the signals with (resp. without) their own table; sent fault signals show no reason and SIGCHLD codes are described as SIGIO's.

**C130 Text of a wait status** — *proved*
- modelled: process.cc: operator << (WaitStatus)
- proved by: case analysis on the bit fields (`Props_Main2.v`)
- theorems: `C130_wait_status`
- note: All statuses of wait(2).

**C131 Symbol lookups for libthread_db** — *partial*
- modelled: proc_service.cc: ps_pglobal_lookup
- proved by: case analysis over the objects (`Props_Main2.v`)
- theorems: `C131_lookup_partial`, `C131_lookup_any`, `C131_lookup_error`, `C131_wrong_object_refuted`
- note: Exact unless libc.so.6, lower in memory, also defines the symbol: then the C library's is answered.

**C132 Text of a process** — *proved*
- modelled: pstack.cc: pstack
- proved by: induction over threads and frames (`Props_Main2.v`)
- theorems: `C132_process_text`
- note: Text output of pstack() as modelled.

**C133 hdmp lists exactly the blocks, and marks exactly the damaged ones** — *partial*
- modelled: hdmp.cc:printBlocks; heap.c:build_alloc; heap.h:memdesc
- proved by: induction on the list of blocks, composed with the invariant of allocator histories (`Props_Hdmp.v`)
- theorems: `C133_list_partial`, `C133_live_partial`, `C133_freed_partial`, `C133_cut_refuted`
- note: Exact, end to end with the allocator's histories, provided the eight bytes after each descriptor are readable: hdmp reads that much more than is allocated, and otherwise cuts the list silently.

**C134 hdmp's report is complete** — *partial*
- modelled: hdmp.cc:dumpHeap; hdmp.cc:printStack; hdmp.cc:main
- proved by: composition of the report's parts (`Props_Hdmp2.v`)
- theorems: `C134_report_partial`, `C134_crash_cut_refuted`, `C134_overrun_refuted`, `C134_image_refuted`, `C134_options`, `C134_arguments`
- note: Report exact for depths up to 512; the stack at termination is cut to the depth of block stacks; larger depths read out of bounds; a non-core ELF argument dereferences null.

**C135 The recorded stack of a block is its chain of return addresses** — *partial*
- modelled: heap.c:getstacktrace; heap.c:build_alloc
- proved by: induction on the chain of frame pointers (`Props_Hdmp2.v`)
- theorems: `C135_recorded_partial`, `C135_room`, `C135_negative_refuted`, `C135_outermost_refuted`, `C135_no_frame_pointer_refuted`
- note: Exact for stacks with frame pointers; negative depths, the outermost frame and missing frame pointers are refuted.

**C136 The history of large allocations is exact** — *partial*
- modelled: heap.c:free_desc; hdmp.cc:dumpHeap
- proved by: invariant over allocator histories (`Props_Hdmp.v`)
- theorems: `C136_history`, `C136_marks_refuted`
- note: The history is exact for all runs; hdmp -b marks reused memory as damage.

**C137 JSON documents are valid, complete and unambiguous** — *proved*
- modelled: libpstack/json.h: operator<< for JSON<T>; libpstack/json.h: print_list_container; libpstack/json.h: print_object_container; libpstack/json.h: JObject::field
- proved by: induction on documents; uniqueness of the text's parse (`Props_Dump.v`)
- theorems: `C137_documents`
- note: All documents; strings are those C41 can carry (the others are C41's).

**C138 The dump shows the call frame instructions of a program as they are** — *proved*
- modelled: dump.cc: dumpCFAInsn; dump.cc: operator<<(JSON<DumpCFAInsns>); libpstack/dwarf/cfainsns.h
- proved by: induction on the program of instructions (`Props_Dump.v`)
- theorems: `C138_cfa_dump`
- note: The text is the one JSON text of the expected list, for every program.

**C139 Signed operands, long advances and value rules in the dump of call frame instructions** — *partial*
- modelled: dump.cc: dumpCFAInsn
- proved by: for all operands and positions, by computation and divergence for every fuel (`Props_Dump.v`)
- theorems: `C139_signed_shown_unsigned_refuted`, `C139_advance_shown_negative_refuted`, `C139_val_offset_throws_refuted`, `C139_dump_does_not_end_refuted`
- note: The property is false of the code in each of its parts; the theorems show how, for all operands and positions.

**C140 The dump of a frame section read as a whole shows every CIE and FDE** — *partial*
- modelled: dump.cc: operator<<(JSON<Dwarf::CFI>); dump.cc: operator<<(JSON<Dwarf::CIE>); dump.cc: operator<<(JSON<unique_ptr<FDE>>); dwarf_frame.cc: CFI::getFDEs; dwarf_frame.cc: CFI::getCIEs
- proved by: composition of C104, C137 and C138 (`Props_DumpCfi.v`)
- theorems: `C140_cfi_dump_partial`
- note: For sections as in C104 with disjoint FDEs, whose instructions C138 covers and whose augmentation letters are ASCII.

**C141 The dump of a frame section with a search table shows every CIE and FDE** — *partial*
- modelled: dump.cc: operator<<(JSON<Dwarf::CFI>); dwarf_frame.cc: CFI::ensureFDEs
- proved by: composition of C105, C137 and C138; refutation for every section (`Props_DumpCfi.v`)
- theorems: `C141_cies_missing_refuted`, `C141_empty`
- note: FDEs are complete; the CIE list is always empty when nothing was looked up before.

**C142 Stacks as JSON** — *partial*
- modelled: process.cc: operator<<(JSON<Lwp>), operator<<(JSON<StackFrame>); pstack.cc: pstack; libpstack/json.h: JObject
- proved by: combinators for streams with state; induction on lists of documents (`Props_JsonStack.v`)
- theorems: `C142_json_stacks_partial`, `C142_unknown_offset_refuted`
- note: All stacks whose texts C41 covers and whose frames have a known offset; an unknown offset is shown as 18446744073709551615.

**C143 JSON of several processes** — *partial*
- modelled: pstack.cc: emain; pstack.cc: pstack
- proved by: uniqueness of the parse of a document with a rest (`Props_JsonStack.v`)
- theorems: `C143_documents_in_order`, `C143_several_processes_refuted`
- note: Each process has its own valid document, in order; but for two or more nothing separates them into one JSON text: refuted for all inputs.

**C144 A bad frame does not spoil the JSON of the rest** — *partial*
- modelled: process.cc: operator<<(JSON<StackFrame>); libpstack/json.h: JObject, print_list_container
- proved by: the first and last character of the text, for every failing position (`Props_JsonStack.v`)
- theorems: `C144_one_bad_frame_refuted`
- note: Refuted for every position: the text is then never valid JSON.

**C145 JSON numbers are decimal whatever was written before** — *partial*
- modelled: libpstack/json.h: operator<<(Escape); pstack.cc: emain
- proved by: computation of the stream's state, arithmetic on numerals (`Props_JsonStack.v`)
- theorems: `C145_hex_after_error_refuted`
- note: Refuted: after a name that is not UTF-8 numbers are hexadecimal.

**C146 The dynamic linker's data are found without the kernel's auxiliary vector** — *partial*
- modelled: libpstack/process.cc: Process::findRDebugAddr, Process::extractDtDebugFromDynamicSegment
- proved by: induction over the dynamic entries (shared with C98), composition; refutations by computation and for every unreadable segment (`Props_Load2.v`)
- theorems: `C146_from_file`, `C146_from_interpreter`, `C146_no_interpreter`, `C146_known`, `C146_unreadable_refuted`, `C146_last_segment_refuted`
- note: All memories and entries. Refuted: an unreadable or misaligned dynamic segment is an exception instead of a fall-back, and of several dynamic segments the last one wins.

**C147 canal's report counts every reference once** — *partial*
- modelled: canal.cc: mainExcept, search, SymbolStore
- proved by: scan reduced to the store's loop over the words of all mappings; array reader specification (C08's invariant); counting by induction; any permutation sorted by count (`Props_CanalMain.v`)
- theorems: `C147_histogram_partial`, `C147_references_partial`, `C147_hole_refuted`, `C147_odd_size_refuted`
- note: End to end from symbol tables and memory to the text. Refuted: the rest of a mapping after an unreadable word is not searched, and mappings that are not whole words not at all. Overlapping symbols are excluded, and words that are the end of another symbol (C43).

**C148 canal lists the symbols it searches for** — *partial*
- modelled: canal.cc: mainExcept, globmatch
- proved by: induction over objects, tables, symbols and patterns with C42 (`Props_CanalMain.v`)
- theorems: `C148_listing`, `C148_listed_iff_searched`, `C148_listed_twice_refuted`
- note: Exact listing; symbols in both tables or matching two patterns are listed more than once (refuted).

**C149 canal's address options** — *partial*
- modelled: canal.cc: mainExcept, search
- proved by: induction over options and words; refutations for every option list (`Props_CanalMain.v`)
- theorems: `C149_options_partial`, `C149_search_partial`, `C149_end_first_refuted`, `C149_last_address_refuted`
- note: Exact for sequences that begin with -f and addresses below 2^64-1; -e first is undefined behaviour and the last address cannot be searched for (refuted).

**C150 The dump of a unit's entries says what the entries say** — *partial*
- modelled: dump.cc:operator<<(JSON<DIE>), JSON<DIE::Attribute>; dwarf_die.cc:DIE::attributes, DIE::ChildIterator; json.h:JSON
- proved by: Mutual induction on fuel over dumpDie/dumpKids with the navigation invariant of C60 (DieNav), values and names by C59/C26's lemmas; the text through C137. (`Props_DumpDie.v`)
- theorems: `C150_tree_dump_partial`, `C150_form_refuted`, `C150_attribute_refuted`
- note: Holds for the forms listed in DumpDieSpec.valueDoc; values of ref1, ref_sig8, addrx*, loclistx, rnglistx, GNU_addr_index and GNU_str_index are shown as "unknown" (refuted) and all unlisted attribute codes share one key (refuted). Entries that have both an abstract origin and a specification are excluded.

**C151 The dump of an image's sections says what the section headers say** — *partial*
- modelled: dump.cc:operator<<(JSON<std::unique_ptr<Elf::Section>>), JSON<Elf::Sym, Section>, JSON<Elf::Rela>, sh_flag_names; elf.cc:Object::getSectionHeaders, Section::io
- proved by: per-section case analysis with the array reader and section-contents lemmas of C112 to C115; flag names by bit lemmas; text through C137 (`Props_DumpElf.v`)
- theorems: `C151_sections_dump_partial`, `C151_exclude_refuted`, `C151_symbol_type_refuted`, `C151_no_sections_refuted`, `C151_bad_link_refuted`
- note: Proved for sections inside the file that are not compressed, with flags below 0x800 and symbols of the generic bindings and types. Refuted: SHF_EXCLUDE and OS or processor flags are shown under the mask's name (and one as C++ source text), thread-local and indirect-function symbols as STT_6 and STT_A; an image without a section table shows a section "null"; a symbol table with a bad sh_link is undefined behaviour.

**C152 The dump of an image's segments says what the program headers say** — *partial*
- modelled: dump.cc:operator<<(JSON<Elf::Phdr, const Elf::Object *>), JSON<Elf::Dyn, ...>, JSON<DynTag>, JSON<ProgramHeaderName>; elf.cc:Object::getSegmentForAddress, elf.h:programHeaders_
- proved by: segment lookup invariant (C31) carried through the dump's state; induction over types, segments and dynamic entries (`Props_DumpElf.v`)
- theorems: `C152_segments_dump_partial`, `C152_duplicate_key_refuted`, `C152_dynamic_refuted`, `C152_tags_refuted`
- note: Proved for program headers in range, loaded segments disjoint and not empty, dynamic tags in the table or listed as shown by number. Refuted: two segment types without a name give the same key twice; a PT_DYNAMIC whose string table is in no loaded segment dereferences null; DT_PREINIT_ARRAY is called DT_ENCODING; tags are cut to 32 bits.

**C153 The dump of a note says what the note says** — *partial*
- modelled: dump.cc:operator<<(JSON<NoteDesc>), JSON<prstatus_t>, JSON<prpsinfo_t>, JSON<Elf::auxv_t>, JSON<timeval>
- proved by: field-by-field decoding lemmas for the fixed structures; induction over hexadecimal digits and vector entries (`Props_DumpElf.v`)
- theorems: `C153_note_dump_partial`, `C153_registers_refuted`, `C153_short_refuted`
- note: Proved for every note but for the registers: pr_reg is an address in pstack itself (refuted for every register content), pr_flag is cut to an int, and a CORE note of another architecture's size fails the dump (refuted).

**C154 The dump of an ELF image is complete** — *partial*
- modelled: dump.cc:operator<<(JSON<Elf::Object>), JSON<Elf::SymbolVersioning>; elf.cc:Object::getInterpreter, Object::symbolVersions, elf.h:notes
- proved by: composition of C151 to C153 with C32, C112, C114; text through C137 (`Props_DumpElf.v`)
- theorems: `C154_object_dump_partial`, `C154_unknown_refuted`
- note: Proved for the images C151 to C153 cover, not for a separate debug image. Refuted: an e_type above 4 or an OSABI above 12 reads past the end of an array of names.

**C155 The dump of a line table** — *partial*
- modelled: dump.cc:operator<<(JSON<FileEntry>); dump.cc:operator<<(JSON<LineState>); dump.cc:operator<<(JSON<LineInfo>); dwarf_lineinfo.cc:LineInfo::build
- proved by: composition of C23's matrix theorems with induction over rows and files; text through C137 (`Props_DumpUnit.v`)
- theorems: `C155_line_table_dump_partial`, `C155_file_number_refuted`
- note: Proved for tables in the terms of C23 with names that are plain text (what C137's printer can show). Version 5 times are always shown as 0 (they are not read). Refuted: a row whose file number is not in the table follows a pointer past its end.

**C156 The dump of public names** — *partial*
- modelled: dump.cc:operator<<(JSON<PubnameUnit>); dump.cc:operator<<(JSON<Pubname>); dwarf_info.cc:Info::pubnames
- proved by: C61 composed with induction over tables and names (`Props_DumpUnit.v`)
- theorems: `C156_pubnames_dump_partial`
- note: Under C61's conditions (tables below 64 KiB, 32-bit format), names that are plain text.

**C157 The dump of a macro header** — *partial*
- modelled: dump.cc:operator<<(JSON<Macros>); dwarf_macros.cc:Macros::readD5
- proved by: header reading lemma of C62; insertion into an ordered map is a sorted permutation (induction) (`Props_DumpUnit.v`)
- theorems: `C157_macro_header_dump_partial`, `C157_version_refuted`, `C157_repeated_opcode_refuted`, `C157_far_lines_refuted`
- note: Proved where each opcode is described once and the line table is below 2 GiB. Refuted: the version shown is 5 whatever the header says; operands of an opcode described twice are shown together; a line table at or above 2 GiB is shown at a negative offset.

**C158 The dump of a unit** — *partial*
- modelled: dump.cc:operator<<(JSON<Unit::sptr>); dwarf_unit.cc:Unit::Unit; dwarf_unit.cc:Unit::getLines; dwarf_unit.cc:Unit::getMacros; dwarf_unit.cc:Unit::purge
- proved by: C108 header, C150 tree after any history, attribute lookup on the root, C155 and C157; text through C137 (`Props_DumpUnit.v`)
- theorems: `C158_unit_dump_partial`, `C158_long_unit_refuted`
- note: Proved for units without type units (C108), with entries C150 covers, line tables C155 and macro headers C157 cover. Refuted: a length of 4 GiB or more is shown modulo 2^32.

**C159 The dump of an image's debug information** — *partial*
- modelled: dump.cc:operator<<(JSON<Info>); dwarf_info.cc:Info::getUnits
- proved by: composition of C158, C156, C140 and C141 through the printer of documents (C137) (`Props_DumpUnit.v`, `Props_InfoDump.v`)
- theorems: `C159_info_dump_partial`, `C159_image_dump_partial`
- note: Proved for units C158 covers and tables C156 covers; the frame sections those of C140 and C141 (C159_image_dump_partial).

**C160 stackusers reports how deep each function's stack gets** — *partial*
- modelled: stackusers.cc: processImage; stackusers.cc: main; libpstack/dwarf.h: CIE::execInsns; dwarf_frame.cc: CFI::findFDE
- proved by: induction over the program with the state refinement of C14 and a maximum invariant over the states passed; registers occur once; FDEs keep their CIEs through lazy lookups; segment cache invariant of C31 (`Props_StackUsers.v`)
- theorems: `C160_report_partial`, `C160_search_table_partial`, `C160_no_segment_refuted`, `C160_no_fde_refuted`
- note: Proved where each symbol with a size is in a segment and each function shown has an FDE with a valid program. Refuted: a symbol with a size outside every segment, and a function without an FDE, are null pointer dereferences. An image with no frame information at all is not modelled.

**C161 A core's threads are walked from their own saved registers** — *partial*
- modelled: proc.h: Process::getRegset; process.cc: Process::getCoreRegs, Process::getStacks; dead.cc: CoreProcess::getRegs, CoreProcess::listLWPs; libpstack/arch-x86_64.h: opReg
- proved by: getRegset/getCoreRegs over the notes of Core.v with the two structs' layouts; a register table in ServiceSpec.v independent of opReg; composed with C36 and C89. (`Props_Service.v`)
- theorems: `C161_registers`, `C161_unavailable`, `C161_core_threads_partial`, `C161_no_fp_refuted`
- note: Missing: threads whose frame pointer leads outside memory (C89) and threads without floating point state, which are lost: C161_no_fp_refuted.

**C162 libthread_db sees a core's memory, registers and process id as they were** — *partial*
- modelled: proc_service.cc: ps_pread, ps_pdread, ps_lgetregs, ps_getpid; dead.cc: CoreReader::read, CoreProcess::getRegs, CoreProcess::getPID
- proved by: readObj over coreRead of C35; registers and pid from the note sequence. (`Props_Service.v`)
- theorems: `C162_read_partial`, `C162_registers`, `C162_pid_partial`, `C162_no_prpsinfo_refuted`
- note: Memory for the layouts of C35; without an NT_PRPSINFO note the process id is 0.

**C163 Each stack bears the thread that runs on it** — *proved*
- modelled: process.cc: Process::getStacks; proc.h: Process::listThreads
- proved by: annotate over an arbitrary list of thread answers; induction on that list. (`Props_Service.v`)
- theorems: `C163_threads_on_stacks`
- note: libthread_db's answers are arbitrary.

**C164 A task's name is shown as the kernel has it** — *partial*
- modelled: live.cc: LiveProcess::getTaskName; process.cc: Process::getTaskName
- proved by: find/rfind/substr over the first line; list lemmas about first '(' and last ')'. (`Props_Service.v`)
- theorems: `C164_task_name_partial`, `C164_total`, `C164_newline_refuted`
- note: False for names with a newline: only the first line of the file is read.

**C165 What pstack has already read does not change a stack** — *partial*
- modelled: dwarfproc.cc: StackFrame::unwind, StackFrame::scopeIP, ProcessLocation, CodeLocation; dwarf_info.cc: Info::getCFI; dwarf_frame.cc: CFI::CFI, CFI::findFDE; process.cc: Lwp::unwind
- proved by: invariant over histories: CIEs remembered are what is read at their offset, FDEs are determined by the section's entries, rows are what executing the FDE gives; stateful unwinding equals unwinding a fixed process, then composed with C20 and C37 (`Props_Locate.v`)
- theorems: `C165_history`, `C165_process`, `C165_caller_partial`, `C165_both_sections_refuted`
- note: The caller of a frame as in C20; false for images with both frame sections: only .eh_frame is used (C165_both_sections_refuted). Sections are well formed as in C104/C105; an address that is an object's load address is not found (C37).

**C166 Python values of every kind show what they hold** — *partial*
- modelled: python.tcc:FloatPrinter; python.tcc:TypePrinter; python.tcc:ModulePrinter; python.tcc:HeapPrinter; python2.cc:ClassPrinter; python2.cc:InstancePrinter; python2.cc:IntPrint; python3.cc:BoolPrinter
- proved by: exact pieces of output of every printer function, by the rules for output-producing computations (`Props_PyShow.v`)
- theorems: `C166_values_partial`, `C166_objects_partial`, `C166_none`
- note: Exact text of floats, Python 2 ints, booleans, types, classes, modules, instances, lists of up to 100 elements, objects of Python classes and None. Missing: how a double is formatted; long lists (C80), long integers (C52) and strings (C82) have their own claims; objects with a negative dictionary offset.

**C167 Python arguments and local variables show their own values** — *partial*
- modelled: python.tcc:printArguments; python.tcc:printTupleVars; python.tcc:FramePrinter
- proved by: same, over the code object's counts and name tuples (`Props_PyShow.v`)
- theorems: `C167_frame_partial`
- note: The complete text of a frame under any options: each argument, local, cell and free variable with its own value, in order. The argument list itself is not well formed (C81).

**C168 A process that inspects itself** — *partial*
- modelled: self.cc: SelfProcess::getRegs, SelfProcess::listLWPs, SelfProcess::SelfProcess; process.cc: gregset2user, Process::getCoreRegs, Process::getStacks
- proved by: fields of a byte structure after a sequence of writes to disjoint places; reads of a memory reader at the null pointer (`Props_Self.v`)
- theorems: `C168_registers_partial`, `C168_flags_refuted`, `C168_other_thread_refuted`, `C168_memory`, `C168_fault_refuted`, `C168_threads_partial`
- note: General and floating point registers, memory, strings and the calling thread's stack. Refuted: flags, segment registers and bases are left uninitialised; another thread's registers are answered with the caller's; unmapped memory faults instead of raising an error. Missing: that the frame getcontext ran in is still intact when it is walked.

**C169 The alternate debug file** — *partial*
- modelled: dwarf_info.cc: Info::getAltImageName, Info::getAltDwarf; dwarf_die.cc: DIE::Attribute::operator std::string, DIE::Attribute::operator DIE
- proved by: paths split at their last slash; chains of links by C87; histories by induction over the requests (`Props_AltDwarf.v`)
- theorems: `C169_name`, `C169_once`, `C169_values`, `C169_null_refuted`
- note: Refuted last sentence: without the section the name read is (null), so a file so called beside the image is taken for its alternate file. Cycles of symbolic links: C87.

**C170 Which Python interpreter is traced** — *partial*
- modelled: python.cc: getPyInterpInfo, getInterpHead; python2.cc: getInterpHead<2>; python3.cc: getInterpHead<3>; pstack.cc: pystack, doPy
- proved by: induction over the objects in the order of their addresses (C128) and the file name rule of C51; soundness by inversion of the search (`Props_PyFind.v`)
- theorems: `C170_python3`, `C170_pointer`, `C170_none`, `C170_sound`, `C170_unversioned_refuted`, `C170_damaged_refuted`, `C170_missing_image_refuted`
- note: Settled for builds with Python 3. Refuted: an interpreter whose file is called just python3 is an error; a damaged object called python3 lower in memory makes the process count as no Python process; built for Python 2, an object without an image is a null pointer dereference. What is printed for the list: C49, C78-C82, C166, C167.

**C171 A core's signal and auxiliary vector are those its notes record** — *proved*
- modelled: dead.cc: CoreProcess::getSignalInfo, CoreProcess::getAUXV; pstack.cc: pstack; process.cc: operator << (SigInfo)
- proved by: composition of C32 (notes from bytes), C129 (fields and reasons) and C132 (the text of a process) (`Props_CoreSignal.v`)
- theorems: `C171_signal`, `C171_fault`, `C171_auxv`, `C171_short_note_refuted`
- note: From the bytes of the core to the text. Outside the statement: a signal note that is cut short ends the text after the core's name (C171_short_note_refuted); empty note segments and notes without a name: C32; what the words for the reasons are: C129.

**C172 The help text lists every option with its letter, argument and description** — *proved*
- modelled: flags.cc: Flags::dump, Flags::add, Flags::done; pstack.cc: usage
- proved by: the shape of the built tables (C56), pointwise relation of the two tables, induction over the options (`Props_Options.v`)
- theorems: `C172_help_text`, `C172_pstack_table`
- note: All tables with distinct names and letters, before and after any number of parses; pstack's own table is one.

**C173 An option that takes a number is set to the number given** — *partial*
- modelled: libpstack/flags.h: convert, Flags::set
- proved by: induction over numerals; case analysis of the prefix (`Props_Options.v`)
- theorems: `C173_numbers`, `C173_not_a_number_refuted`, `C173_trailing_refuted`, `C173_range_refuted`, `C173_leading_zero_refuted`, `C173_blanks`
- note: Numbers of the range of int are exact; nothing is ever rejected: texts that are no number are 0, trailing text is ignored and numbers out of range are reduced modulo 2^32 (refuted). The delay of -b (strtod) is a parameter.

**C174 What pstack does follows from its command line** — *partial*
- modelled: pstack.cc: emain, main, usage; flags.cc: Flags::parse; libpstack/flags.h: Flags::set, Flags::setf, convert
- proved by: induction over the calls from the right with an invariant per setting; the option table by computation; composition with C56 and C125 (`Props_Options.v`)
- theorems: `C174_trace`, `C174_information`, `C174_command`, `C174_no_operands`, `C174_bad_executable`, `C174_wrong_line`, `C174_output_lost_refuted`, `C174_output_order_refuted`
- note: Every command line, from argv to events and exit status; traces, dumps, the command's run and image files are parameters (C124-C127, C154, C159, C57 say what they are). Refuted: an output file that cannot be opened loses the output silently, and -o after -d does not apply to the dump.

**C175 The heading of a Python thread** — *partial*
- modelled: python.cc:pthreadTidOffset; python.tcc:printThread; python.tcc:printInterp
- proved by: induction over processes, interpreters and threads with an invariant on the static status; monotonicity of that status (`Props_PyThreads.v`)
- theorems: `C175_headings_partial`, `C175_anonymous`, `C175_earlier_process_refuted`, `C175_other_library_refuted`, `C175_unreadable_refuted`
- note: Exact if the processes of the run all describe their pthreads in the same way, or none does. Refuted otherwise: a process without the descriptor makes every later thread anonymous, a process with another C library makes the later ones' ids be read from the wrong place, and a pthread that cannot be read ends the trace of its process. The text of the frames is a parameter (C49, C166, C167).

**C176 A dynamic symbol by name, from an image's bytes** — *partial*
- modelled: libpstack/elf.h:Object::get_hash; elf.cc:Object::findDynamicSymbol; elf.cc:GnuHash::findSymbol; elf.cc:SymHash::findSymbol
- proved by: composition of C112, C33, the links of sections and C29/C30, from the bytes of an image (`Props_ElfDyn.v`)
- theorems: `C176_gnu_partial`, `C176_sysv_partial`, `C176_no_table_refuted`
- note: Composes C112 (section headers), C33 (sections by name), the links and C29/C30 from the bytes of an image. Partial: sections stored uncompressed, distinct section names, no separate debug image asked for the section; System V: names of bytes below 0x80 (C30_high_bytes_refuted). Refuted: an image with neither table has no symbol by name, although .dynsym has it.

**C177 The address of a symbol, from the images' bytes** — *partial*
- modelled: process.cc:Process::resolveSymbolDetail; process.cc:Process::resolveSymbol; elf.cc:Object::findDynamicSymbol; elf.cc:Object::findDebugSymbol
- proved by: composition of C176, C115 and C128; images that lack the name answer with an undefined symbol (`Props_SymImg.v`)
- theorems: `C177_address_partial`, `C177_none`
- note: Composes C176, C115 and C128 from the bytes of the images. Partial: names of bytes below 0x80; an image with neither hash table counts as not defining its dynamic symbols (C176_no_table_refuted); absolute symbols are moved (C128_absolute_refuted); C176's conditions on sections.

**C178 The symbol at an address, from an image's bytes** — *partial*
- modelled: elf.cc:Object::findSymbolByAddress; elf.cc:Object::findSym; elf.cc:Object::getSymtab
- proved by: composition of C112, C33 and C09 from the bytes of an image (`Props_ElfAddr.v`)
- theorems: `C178_symbol_at_partial`, `C178_no_size_refuted`
- note: Composes C112, C33, the links and the symbol decoding from the bytes of an image. Partial: C176's conditions on sections; symbols that do not wrap around the address space; what the embedded debug data answers is a parameter (C85, C33). Refuted: a symbol without a size is not found at its own address; the search remembers it and returns nothing.

**C179 The source line of an address, from the sections of debugging information** — *partial*
- modelled: dwarf_info.cc: Info::sourceFromAddr, Info::lookupUnit, Info::linesAt; dwarf_unit.cc: Unit::sourceFromAddr, Unit::getLines; dwarf_die.cc: DIE::containsAddress; dwarfproc.cc: CodeLocation::source
- proved by: Composition of C24, C25, C23 and C22 over the state Info keeps between questions; caches shown harmless by induction on the history. (`Props_SrcAddr.v`, `Props_SrcEntries.v`)
- theorems: `C179_source_v4_partial`, `C179_source_v5_partial`, `C179_excluded`, `C179_uncovered_partial`, `C179_from_entries_v4_partial`, `C179_from_entries_none_partial`
- note: Composes C24 (the unit), C25 (the root entry), C23 (the line table from its bytes) and C22 (the row) after any history of questions. Partial: what C22-C24 leave out; an address in no unit but within s addresses before the end of a range from s is taken for that unit's (C24_ranges_refuted).

**C180 Memory of decoded entries** — *partial*
- modelled: dwarf_die.cc: DIE::Raw::Raw, DIE::Raw::~Raw, DIE::Attribute::Value::Value; dwarf_unit.cc: Unit::purge
- proved by: Invariant over histories of decoding and destroying, up to permutation of the blocks that exist. (`Props_DieHeap.v`)
- theorems: `C180_no_double_free`, `C180_no_leak_partial`, `C180_same_values`, `C180_exception_refuted`
- note: Invariant over histories: the blocks that exist are those of the live entries and those of failed decodings. Partial: no leak only without a failed decoding. Refuted otherwise: an exception while an entry is decoded leaves the blocks made before it. The sharing of entries (shared_ptr) is taken to destroy each once.

## 5. What is modelled and what is not

The scope is x86-64, 64-bit ELF, little endian; the head comment of each model file says which functions it covers
and what it leaves out.

Not modelled:

* `libpstack/arch-i386.h`, `arch-aarch64.h` and the parts of other files under those architectures' `#if`s;
* `threaddb.cc`, `self.cc` except `SelfProcess`'s registers, memory and threads (`findRDebugAddr`, `addressSpace` and `getAUXV` are not), `smol.cc`, `staticstub.cc`, `procdump.cc`, `main.cc`;
* `proc_service.cc` except `ps_pglobal_lookup`, `ps_pread`, `ps_pdread`, `ps_lgetregs`, `ps_getpid` (the other callbacks stop or resume, always fail, or abort); libthread_db itself;
* `dump.cc` except what section 4 lists (not modelled: the dump of a process and of a separate debug image);
* zlib and liblzma themselves, and the decoding of the xz footer and index (`lzma.cc:68-91`);
* ptrace, signals and `/proc` beyond the contracts in `Live.v`, `Child.v` and `Maps.v`; real concurrency in the target;
* memory exhaustion and stack overflow of pstack itself (unbounded recursion shows as `OutOfFuel`);
* the formatting state of streams except where a theorem is about text;
* the timing of caches with weak pointers, performance and verbosity messages.


### Model files and the code they model

| file | models |
|---|---|
| `AltDwarf.v` | Model of the alternate debug file: Info::getAltImageName and Info::getAltDwarf (dwarf_info.cc:250-273), and the forms that use it, DW_FORM_GNU_strp_alt (dwarf_die.cc:557-565) and DW_FORM_GNU_ref_alt (606-612, 624). |
| `Aranges.v` | Model of the address-to-unit map: dwarf_info.cc:133-213 (Info::decodeARangeSet, Info::lookupUnit). |
| `Args.v` | Model of the printing of a frame's arguments: RemoteValue and ArgPrint, process.cc:457-680, and of the frames of a stack around it (dumpStackText process.cc:711-713, pstack.cc:45-48). |
| `Base.v` | Shared vocabulary of the model: outcomes, machine integers, byte lists and memory. Nothing in this file models a particular function of pstack. |
| `Bound.v` | std::lower_bound / std::upper_bound on a random access sequence (libstdc++ bits/stl_algobase.h __lower_bound: halving search), with the comparison against the key as a predicate [p] that is meant to hold of a prefix. upper_bound(k, less) is the same with p x := negb (less k x). |
| `Cache.v` | Model of CacheReader (libpstack/reader.h:120-146, reader.cc:123-208). The upstream reader is given by its [read] function and its size. |
| `Canal.v` | Model of canal.cc: glob matching (42-69), the symbol store (71-129), findString (170-196) and search (198-246). |
| `CanalMain.v` | Model of canal's main program (canal.cc:198-397): the symbols searched for, the scan of the process's memory and the report. Not modelled: the output of -v and -P, the progress messages on the error stream, and the string search (Canal.v). |
| `Cfi.v` | Model of call frame information: dwarf_frame.cc and CIE::execInsns (libpstack/dwarf.h:986-1183). |
| `Child.v` | Model of startChild, pstack.cc:53-150: run a command, watch the signals it gets, show its stack at the first that will terminate it. |
| `Context.v` | Model of Context's image lookup: context.cc:146-160 (findDwarf), 176-195 (flush), 204-356 (getImageIfLoaded, openImage, getImageInPath, findImage, getImageImpl, findDebugImage) and 363-391 (linkResolve). The file system does not change. |
| `Core.v` | Model of core-file processes: dead.cc (memory reads, registers, address space) and of Process::findSegment (process.cc). |
| `CoreSignal.v` | Model of what a core's notes say of how the process ended and how it was started: CoreProcess::getSignalInfo (dead.cc:336-345) and CoreProcess::getAUXV (97-109), and pstack()'s first line with them (pstack.cc:32-50). |
| `Cursor.v` | Cursor lemmas: each reader consumes exactly the encoding of a value and leaves the rest. |
| `Die.v` | Model of debugging information entries: attribute values (dwarf_die.cc:181-326), abbreviations (dwarf_info.cc:215-236, dwarf_unit.cc:7-16), decoding and navigation (dwarf_die.cc:8-50, 158-179, 347-405; dwarf_unit.cc:135-160). |
| `DieAttr.v` | Model of attribute lookup, range lists and address tests on entries: dwarf_die.cc:52-149, 434-547, 588-647; dwarf_unit.cc:48-85, 234-246. |
| `DieHeap.v` | Model of the memory an entry owns: the Block objects made by DIE::Attribute::Value::Value (dwarf_die.cc:284-315) and deleted by DIE::Raw::~Raw (dwarf_die.cc:328-345). |
| `DieHist.v` | Histories of navigation over the tree of entries of a unit. |
| `DieNav.v` | Navigation of a decoded tree: the iterator yields the children, whatever was looked at before. |
| `DieTree.v` | Decoding abbreviations and entries; the tree of entries as the navigation sees it. |
| `Dump.v` | Model of the dump of call frame information: dump.cc:53-234. |
| `DumpCfi.v` | Model of the dump of a frame section: dump.cc:473-511. |
| `DumpDie.v` | Model of the dump of a unit's entries: dump.cc:29-37, 265-292, 323-365, 384-391, 393-471 (pstack -d). |
| `DumpElf.v` | Model of the dump of an ELF object: dump.cc:540-991 (pstack -d), for an image that is not a separate debug image. |
| `DumpInfo.v` | Model of how the dump of an image's debug information comes to its frame sections (dump.cc:531-536). |
| `DumpTables.v` | Tables of names that dump.cc prints (the .h files it includes for its switches). |
| `DumpUnit.v` | Model of the dump of units, line tables, macro headers, public names and the debug information as a whole: dump.cc:238-263, 302-321, 332-339, 360-374, 512-539 (pstack -d), with Unit::getLines, getMacros (dwarf_unit.cc:172-186, 209-225). |
| `DwarfReader.v` | Model of DWARFReader (libpstack/dwarf.h:884-983, dwarf_reader.cc:74-84): a cursor over a section. Each reader takes the section contents and the offset and returns the value and the advanced offset. |
| `ElfAddr.v` | Model of Object::findSymbolByAddress on an image's bytes: elf.cc. |
| `ElfDyn.v` | Model of Object::findDynamicSymbol: elf.cc and libpstack/elf.h. |
| `ElfFile.v` | Model of Elf::Object's reading of an image (elf.cc, libpstack/elf.h, inflate.cc): the ELF and program headers, the section header table and section names, (compressed) section contents, symbol versions, symbols by name, build IDs and the separate debug image. The image is any reader of Reader.v: [RMem] for the mapped files Context opens (context.cc:223), [RFile] for core files (context.cc:368; the page cache in front of the file is property C03), with [m] the host's own memory. |
| `ElfHash.v` | Model of the ELF symbol hash tables: elf.cc and libpstack/elf.h. |
| `ElfObj.v` | Model of Elf::Object (elf.cc, libpstack/elf.h): segments, notes, address to symbol, sections. |
| `Expr.v` | Model of ExpressionStack::eval over a block of operations (dwarfproc.cc:213-503). |
| `Flags.v` | Model of class Flags (flags.cc, libpstack/flags.h:28-97) and of the part of glibc's getopt_long it relies on. Strings are lists of characters. Handlers are represented by the number of the add() call they were passed to. Simplifications: getopt_long is modelled from its documentation for option strings of letters (no leading '+', '-' or ':'), POSIXLY_CORRECT unset, and without its diagnostics; asserts are enabled. |
| `FrameText.v` | Model of how a frame is described: buildDIEName, PrintableFrame, dumpFrameText and dumpStackText (process.cc:379-455, 695-797), and the names of types (dwarf_die.cc:689-725). |
| `Frames.v` | Model of reading a frame section: CIE and FDE constructors, full decoding, and lazy lookup through .eh_frame_hdr (dwarf_frame.cc:88-269, 299-383). The image is 64 bit. A failed assert ends the program; it is represented by [UB]. |
| `Hdmp.v` | Model of hdmp.cc, which prints the state of the debugging allocator (heap.c) from a core or a process, and of heap.c's stack traces (372-390). An exception is not caught anywhere in hdmp: [Throw] is the end of the program. Simplifications: exceptions of the process's reader other than for objects (readObj) count as short reads; the order of text on std::cout and on the context's output is that of writing (they are the same stream unless changed, and hdmp has no option to). |
| `Heap.v` | Model of the debugging allocator heap.c and heap.h. The byte memory of the process is a function from addresses. [Throw] is die(), which reports and aborts. Simplifications: descriptors (struct memdesc) are kept in a table by address rather than in the byte memory, so the program under test cannot overwrite them; stack traces are not recorded; each function runs without interruption (the locks); the results of the real allocator are arguments. |
| `HeapBig.v` | The list of large freed blocks (heap.c:150-162) across a run. |
| `Json.v` | Model of JSON string output: libpstack/json.h:185-245. A string is the list of its bytes (0-255); so is the text written to the stream. |
| `JsonDoc.v` | Model of JSON documents: libpstack/json.h. [jval] is what is given to operator <<: the C++ type chooses the printer. |
| `JsonStack.v` | Model of pstack -j: the stacks of a process as JSON (pstack.cc:33-38; process.cc:36-53, 64-83, 95-105, 1447-1462), with the state the stream is left in (libpstack/json.h:196-287) and the arguments of one run (pstack.cc:430-444). |
| `Leb.v` | Model of readleb128<T> (libpstack/reader.h:320-340) for T = uintmax_t / intmax_t. |
| `Lines.v` | Model of the line number information reader: LineInfo::build (dwarf_lines.cc:40-228), FileEntry (230-246) and Unit::sourceFromAddr (dwarf_unit.cc:188-207). |
| `Live.v` | Model of stopping and resuming the threads of a live process: live.cc, proc.h. |
| `Load.v` | Model of how a process's objects are found: the auxiliary vector and program headers (process.cc:165-370), the link map (823-871), the NT_FILE note of a core (dead.cc:12-60, 235-262, 307-335), and Process::load (165-215). |
| `Locate.v` | Model of unwinding with everything that is remembered on the way: the frame information of an image, made when it is first needed (Info::getCFI dwarf_info.cc:8-19, CFI::CFI dwarf_frame.cc:139-158) and read as it is searched; the rows of its table that have been computed (Info::callFrameForAddr, dwarfproc.cc:529-534); what a code address is associated with (ProcessLocation, CodeLocation dwarfproc.cc:659-735). x86-64. |
| `Loclist.v` | Model of the location-list half of ExpressionStack::eval (dwarfproc.cc:113-212): which expression block is evaluated for an attribute of class loclist. |
| `Lzma.v` | Model of LzmaReader (libpstack/lzmareader.h, lzma.cc). liblzma itself is a parameter: the index is the list of its blocks, and for each block it is given what decoding it does. Simplification: the constructor's decoding of the footer and of the index (lzma.cc:68-91) is not modelled. |
| `Macros.v` | Model of preprocessor macro information: dwarf_macros.cc:30-233. |
| `Main.v` | Model of the top level: Process::load (process.cc:1199-1220), the arguments of pstack (pstack.cc:153-193 and 392-444), symbols of a process by name (process.cc:940-970, proc_service.cc:44-66), and the texts of signals and wait statuses (process.cc:1284-1438). |
| `Maps.v` | Model of the parser of /proc/<pid>/maps and smaps: live.cc:237-350, 366-410. Text is a list of character codes. |
| `Options.v` | Model of pstack's options: Flags::dump (flags.cc:33-49), convert (libpstack/flags.h:13-23), the option table and the beginning of emain (pstack.cc:195-407, built with Python) and main (pstack.cc:446-474). Texts are lists of characters. Simplifications: the text an exception carries is not modelled (it is the event [Fatal]); the counter of -v does not overflow; SIGINT is in Main's [interrupted]. |
| `Pubnames.v` | Model of .debug_pubnames: dwarf_pubnames.cc:5-26 (Pubname, PubnameUnit) and dwarf_info.cc:44-57 (Info::pubnames). |
| `PyFind.v` | Model of how the Python interpreter of a process is found and which printer is used for it: getInterpHead (python.cc:59-103; python2.cc:135-156; python3.cc:169-195), getPyInterpInfo (python.cc:11-31), pystack and doPy (pstack.cc:153-192). The objects are those of Main.v, in the order of their load addresses. [py2] and [py3]: built with WITH_PYTHON2, WITH_PYTHON3. python2.cc:143 iterates over "*syms" though debugSymbols() returns a reference, so it does not compile as it is; it is modelled as if it said "syms". [off]: pyInterpOffset(), fixed by the Python headers pstack was built with. |
| `PyThreads.v` | Model of the headings of a Python process' threads: pthreadTidOffset (python.cc:110-143), printThread (python.tcc:402-419), the loops of printInterp and printInterpreters (python.tcc:425-453, 276-281; the modules are left out), for the processes traced by one run of pstack, one after the other. What print says of a thread's frame is a parameter (it is modelled in Python.v; it catches what is thrown). |
| `Python.v` | Model of the Python printer: python.tcc, python2.cc:20-135, python3.cc:50-150, python.cc:33-57. The target's memory is a byte map; [str] stands for proc.io->readString. Output is one token per "os <<", grouped by the call of PythonPrinter::print ([Call]) and the object of that call's loop ([Obj]) that wrote it; the grouping is not text. Simplifications: field offsets that differ between Python releases are the parameter [lay]; the stack is 8 MiB for each variable-length array on its own, so stack exhaustion by recursion is not seen; the maps types and printers are exact maps keyed by the type's address. |
| `Reader.v` | Model of the stateless readers: libpstack/reader.h and reader.cc. A reader is described by an inductive tree; the host process memory that memory-backed readers point into is the parameter [m]. A read returns the list of bytes stored in the caller's buffer; its length is the C++ return value. |
| `ReaderArray.v` | Model of ReaderArray<T, cachesize> (libpstack/reader.h:228-318) for T of [sz] bytes. |
| `Regs.v` | Model of CoreRegisters and its accessors on x86-64 (libpstack/arch.h:79-211, libpstack/arch-x86_64.h:101-282). |
| `RootRead.v` | Model of what Info::lookupUnit reads of each unit's root entry (dwarf_info.cc:193-206), with DIE::getRanges (dwarf_die.cc:726-733): the records [rootUnit] that Aranges.v takes. |
| `Self.v` | Model of a process that inspects itself: SelfProcess (self.cc:17-60) and gregset2user (process.cc:112-147), for x86-64. |
| `Service.v` | Model of how a thread's registers get from a core's notes to the unwinder and to libthread_db (Process::getRegset, getCoreRegs, CoreProcess::listLWPs, getPID), of the services libthread_db calls back (proc_service.cc), and of what getStacks then adds to each stack: libthread_db's information (process.cc:1249-1266) and the task's name (LiveProcess::getTaskName, live.cc:100-115). |
| `SrcAddr.v` | Model of Info::sourceFromAddr (dwarf_info.cc:32-42), which CodeLocation::source (dwarfproc.cc:699-705) and the heap dump ask for the source of an address: the unit of the address, its root entry, its line table. |
| `StackUsers.v` | Model of the program stackusers (stackusers.cc): how deep the stack of each function gets. |
| `Stacks.v` | Model of Process::getStacks, process.cc:1227-1247 (the thread list without libthread_db's annotations). A thread is its id and its registers, [None] if getCoreRegs throws. |
| `Units.v` | Model of the units of .debug_info: Unit::Unit (dwarf_unit.cc:87-125), Info::getUnit and Info::offsetToDIE (dwarf_info.cc:59-124), Info::getUnits and its iterator (dwarf.h:624-656, 847-877). |
| `Unwind.v` | Model of one unwinding step, StackFrame::unwind and StackFrame::scopeIP (dwarfproc.cc:35-75, 513-641), and of the stack walk Lwp::unwind (process.cc:980-1197), for x86-64. |

## 6. What the refutations say

Every theorem named `..._refuted` is about the *unchanged* code: it proves that the English property fails, with a witness or for a whole class of inputs. These are the defects of the code the work found:

- `C169_null_refuted`: Refuted: an image that names no alternate file takes a file called "(null)" in its own directory for one.
- `C24_ranges_refuted`: Refuted: entries of a unit's range list are stored with their start address in place of their length, so that an address below the range which nothing covers is attributed to the unit.
- `C24_long_range_refuted`: ... and an address the range does cover is not found if the range is longer than its start.
- `C24_empty_tuple_refuted`: Refuted: a zero-length tuple replaces the entry of the tuple ending at its address.
- `C24_aligned_header_refuted`: Refuted: a header already aligned to the tuple size (2-byte addresses) loses its first tuple. The set is laid out as the standard says, without padding.
- `C24_dwarf64_refuted`: Refuted: in a 64-bit DWARF set the unit offset has 8 bytes but 4 are read; the address size is then taken from the offset's upper half.
- `C24_high_addrx_refuted`: Refuted: a high_pc of an addrx form is an address, but is added to low_pc.
- `C91_unsigned_refuted`: Refuted: an unsigned int of value 4294967254 shows as -42.
- `C91_unreadable_refuted`: Refuted: an int whose memory cannot be read shows as 0.
- `C92_narrow_register_refuted`: Refuted: the int -1 in rdi (upper half of the register 0) shows as 4294967295.
- `C92_zero_refuted`: Refuted: the long 0 in a register shows as "(null)".
- `C92_stack_value_refuted`: Refuted: the value 4104 computed by an expression (DW_OP_stack_value) is taken for an address: what is shown is the int found there; the same for a register given by DW_OP_regx.
- `C93_cycle_refuted`: Refuted: with debug information in which a pointer type is its own target, a pointer that points to itself is followed for ever; so is a typedef of itself.
- `C95_bad_location_refuted`: Refuted: an argument whose location cannot be evaluated (here an unimplemented operation, 240) ends the whole output: the next frame, "g()", is not shown.
- `C43_adjacent_refuted`: The full property is false: if one symbol ends where another starts, then the start of the second is not attributed to any symbol, whatever other symbols there are.
- `C68_string_search_refuted`: C68 is false: if the search of a segment for a text ends at all, it has reported nothing, whatever the memory holds...
- `C68_string_search_hangs_refuted`: ... and it never ends if the segment is smaller than the buffer (4096 bytes, for texts of up to 1024), or if the text is in the first part.
- `C147_hole_refuted`: see the statement
- `C147_odd_size_refuted`: Nor is any word of a mapping whose size is not a whole number of words (16 bytes of it, say, if it has 17).
- `C148_listed_twice_refuted`: ... but not each once: a symbol that is in both symbol tables, as the exported ones of an unstripped object are, is listed twice.
- `C149_end_first_refuted`: Not so: -e before any -f is undefined behaviour (the last element of an empty vector), and the last address can not be searched for.
- `C149_last_address_refuted`: see the statement
- `C66_offset_zero_refuted`: Not so: --offset 0 is the search without an offset: references to any part of a symbol are reported.
- `C66_beyond_refuted`: Nor is a reference beyond the end of the last symbol, or into the next one, found.
- `C67_adjacent_refuted`: C67: a word that is the start of a symbol is not counted if another symbol ends there.
- `C14_advance_wraps_refuted`: The scaled advance is computed in 32 bits: advance_loc4 of 2^30 with code alignment 4 does not advance at all, so the rules of the next row are applied too early.
- `C14_val_offset_refuted`: DW_CFA_val_offset (0x14) and val_offset_sf (0x15) are standard instructions; every program containing one is rejected.
- `C14_terminates_refuted`: see the statement
- `C15_unmatched_restore_refuted`: An unmatched restore_state is not rejected: the code reads the top of an empty stack.
- `C16_absptr_refuted`: An absolute pointer is 8 bytes on x86-64, but only 4 are read, as a signed number.
- `C57_default_ignored_refuted`: Refuted: signals whose default action is to be ignored - a child of the command has ended (SIGCHLD, 17), or its window has changed (SIGWINCH, 28) - kill the command; so do SIGCONT and the stop signals.
- `C57_realtime_refuted`: Refuted: for the real-time signals from 33 on the shift is undefined.
- `C96_three_words_refuted`: Refuted: "cp a b" is run with the arguments "cp", "a b" and "b".
- `C54_name_reload_refuted`: Refuted: images found by name are not remembered: asking again reads the file again and gives another object.
- `C54_key_clash_refuted`: Refuted: names and the relative names of build IDs share a cache: after asking for the executable "ab/cd" (there is none), the image with build ID abcd is not found.
- `C83_missing_prefix_refuted`: Refuted: with a further prefix (tried first) in which the image is missing, the search ends there and the image in the next prefix is not found.
- `C85_missing_id_refuted`: Refuted: asking for the debug information of a build ID nothing is known about is undefined behaviour (a null object is used).
- `C86_long_interpreter_refuted`: Refuted: an interpreter whose name goes beyond the 64th byte is cut there; here another file, with a name one byte shorter, is used in its place.
- `C87_link_cycle_refuted`: Refuted: two links that lead to each other are followed for ever.
- `C35_core_read_prefers_core_refuted`: see the statement
- `C35_core_read_zeroes_file_refuted`: see the statement
- `C35_core_read_terminates_refuted`: see the statement
- `C37_find_segment_at_base_refuted`: At its load address an object is never found, for any set of objects: the property is false there.
- `C171_short_note_refuted`: Refuted: a core whose signal note is cut short loses all its stacks: the text ends after the name.
- `C59_large_offset_refuted`: Refuted: a section offset in the upper half of its range is sign extended.
- `C59_form_refuted`: Refuted: DW_FORM_data16, indirect, strp_sup, ref_sup4 and ref_sup8 are not read at all.
- `C59_undeclared_refuted`: Refuted: an entry whose abbreviation code is not declared is followed through a null pointer.
- `C59_v2_ref_refuted`: Refuted: in a version 2 unit of 4-byte addresses, DW_FORM_ref_addr occupies 4 bytes and 8 are read.
- `C26_second_reference_refuted`: see the statement
- `C26_cycle_refuted`: see the statement
- `C25_range_end_refuted`: Refuted: the end of a range is said to be in it (unlike that of low_pc..high_pc).
- `C25_constant_form_refuted`: Refuted: a high_pc of a constant form other than data1-8 and udata is an error.
- `C28_addr4_refuted`: Refuted: a version 4 list of 4-byte addresses is read as one of 8-byte addresses.
- `C28_startx_endx_refuted`: Refuted: a list with a DW_RLE_startx_endx entry is not decoded.
- `C180_exception_refuted`: Refuted: when decoding an entry throws (here an attribute of a form the code does not know), the Blocks made for it before are never deleted: there is no entry to destroy.
- `C139_signed_shown_unsigned_refuted`: a negative factored offset is shown as a number that is not negative
- `C139_advance_shown_negative_refuted`: a long advance is shown as a negative number
- `C139_val_offset_throws_refuted`: the value rules of the standard stop the dump, wherever they are in a program
- `C139_dump_does_not_end_refuted`: a block whose length wraps around makes the dump go on for ever
- `C141_cies_missing_refuted`: C141: with a search table the FDEs are shown completely, but the list of the CIEs is empty: it is printed before the table is used.
- `C150_form_refuted`: Refuted: values of the forms ref1, ref_sig8, addrx, addrx1-4, loclistx, rnglistx, GNU_addr_index and GNU_str_index are not shown: their value is the string "unknown" whatever it is.
- `C150_attribute_refuted`: Refuted: all the attributes whose code is not in the list are shown under the same key, so that an object has the key several times and a reader of JSON keeps one.
- `C151_exclude_refuted`: SHF_EXCLUDE (0x80000000) is shown as the processor-specific mask and as the text of the cast in pstack's own source; SHF_GNU_RETAIN (0x200000) as the OS-specific mask.
- `C151_symbol_type_refuted`: the type of a thread-local symbol (STT_TLS, 6) and of an indirect function (STT_GNU_IFUNC, 10), the binding of a unique one (STB_GNU_UNIQUE, 10) and the last processor-specific one (STB_HIPROC, 15)
- `C151_no_sections_refuted`: see the statement
- `C151_bad_link_refuted`: see the statement
- `C152_duplicate_key_refuted`: see the statement
- `C152_dynamic_refuted`: PT_DYNAMIC without a string table in a loaded segment (here no PT_LOAD at all, as in a separate debug image's stripped copy): a null pointer is dereferenced
- `C152_tags_refuted`: DT_PREINIT_ARRAY (32) is called DT_ENCODING; tags are cut to 32 bits, so that 2^32 + 1 is called DT_NEEDED
- `C153_registers_refuted`: the registers of a thread in a core file are not shown: "pr_reg" is an address in pstack, whatever they are
- `C153_short_refuted`: a note called CORE of type NT_PRSTATUS that is shorter, as in a core file of a 32-bit process: the dump fails
- `C154_unknown_refuted`: see the statement
- `C155_file_number_refuted`: A row whose file is not in the table is a pointer past the table's end followed, whatever else there is; and a table that is as it should be otherwise can have one.
- `C157_version_refuted`: The version shown is 5 whatever the header's is; the operands of an opcode that is described twice are shown together; a line table at 2 GiB or above is shown at a negative offset, and one 1 byte below 4 GiB as if there were none.
- `C157_repeated_opcode_refuted`: see the statement
- `C157_far_lines_refuted`: see the statement
- `C158_long_unit_refuted`: The length of a unit of 4 GiB or more is shown modulo 2^32.
- `C58_elf_hash_refuted`: Refuted for bytes from 0x80 on, which are sign-extended.
- `C30_high_bytes_refuted`: Refuted: a name with a byte from 0x80 on is hashed wrongly, and not found.
- `C31_empty_segment_refuted`: Refuted: an empty segment next to a segment containing the address hides it; and an empty segment at address 0 is returned for an address it does not contain.
- `C32_empty_segment_refuted`: Refuted: one empty note segment makes the iteration fail, though the other has a note.
- `C32_unnamed_refuted`: Refuted: a note without a name (namesz 0) is given the text of its descriptor as its name.
- `C34_short_name_refuted`: Refuted: looking up an absent name that is a proper suffix of ".dwo", such as the empty name, reads before the start of the name.
- `C90_empty_shadows_alias_refuted`: Refuted: an image whose section of the very name has no content (as in a stripped copy) and which has the content under an alias: with no debug image it is not found.
- `C178_no_size_refuted`: Refuted: a symbol without a size is found at its own address. The search remembers one, and then returns nothing.
- `C176_no_table_refuted`: Refuted: a symbol of the dynamic symbol table is found. In an image without a hash table none is, whatever .dynsym has.
- `C112_no_table_refuted`: see the statement
- `C112_failure_forgotten_refuted`: see the statement
- `C112_bad_strndx_refuted`: Refuted: a bad e_shstrndx is reported. It is used unchecked.
- `C113_large_refuted`: Refuted: any validly compressed section is decompressed. (1) Decompressed data of 4 GiB or more does not come out: the space given to zlib is counted in 32 bits.
- `C113_incompressible_refuted`: (2) A ".zdebug_" section whose compressed data is longer than the decompressed data never comes out: only as many bytes as the latter are read.
- `C113_overread_refuted`: see the statement
- `C117_many_segments_refuted`: Refuted: all program headers are found however many there are. More than 65534 do not fit e_phnum, which is then 0xffff (PN_XNUM) with the number in sh_info of section 0 (gABI; Linux writes such core files). The first 65535 are read.
- `C117_elf32_refuted`: see the statement
- `C118_truncated_refuted`: see the statement
- `C115_damaged_refuted`: see the statement
- `C116_mismatch_refuted`: Refuted: a debug image with another build ID is handled. Unless a debug stream is set, the message about it is written to a null pointer.
- `C116_prelink_refuted`: Refuted: debug information for another address (a prelinked image) is moved. Only with a debug stream set.
- `C116_failure_refuted`: see the statement
- `C17_compare_refuted`: Comparisons are done unsigned: -1 < 0 evaluates to 0.
- `C17_piece_refuted`: Pieces: reg0 piece 4, reg1 piece 4 describes a value whose low half is in reg0; the code puts the first piece in the high half.
- `C17_entry_value_refuted`: Entry values: entry_value(rdi) - entry_value(rsi) is rdi - rsi = 42; the code leaves each value on the stack twice and answers 0.
- `C17_unimplemented_refuted`: DW_OP_dup and 25 other standard operations are rejected.
- `C18_underflow_refuted`: C18: the code has undefined behaviour where it should throw.
- `C18_div_shift_refuted`: see the statement
- `C18_empty_expression_refuted`: see the statement
- `C63_recursive_frame_base_refuted`: see the statement
- `C53_mmx_alias_refuted`: mm0 (41) is a part of st0 (33); the code stores it over xmm0 (17) instead.
- `C53_lost_write_refuted`: Registers 60, 61 and 67-154 are neither stored nor rejected: a write is silently lost.
- `C56_duplicate_name_refuted`: The full property is false for long names: a second option with the name of an earlier one is accepted, but giving that name always calls the first.
- `C56_question_mark_refuted`: An option with the letter '?' is accepted too, but every use of it, even by its long name, is taken for an error.
- `C120_call_frame_refuted`: Refuted: a caller's frame is looked up by the address before the return address (C21) but shown with the return address: the address shown less the offset shown is one more than the start of the function.
- `C120_ranges_refuted`: see the statement
- `C121_range_end_refuted`: see the statement
- `C122_nosrc_refuted`: Refuted: without source lines (the option nosrc), or when the unit has no line table, the inlined calls are not on lines of their own.
- `C122_noline_refuted`: Refuted: where the line of the address is not known, the place of the innermost inlined call is shown as no file, line -1.
- `C122_call_file_refuted`: Refuted: a file number (read from the debug information) that is not in the line table indexes outside it.
- `C119_union_refuted`: Refuted: a member function of a union is shown without the union's name.
- `C119_unnamed_refuted`: Refuted: a function in an unnamed namespace is shown as if it were in the global one.
- `C119_cycle_refuted`: Refuted: an entry whose DW_AT_specification refers to itself has no end of a name.
- `C119_skeleton_refuted`: Refuted: below a skeleton unit's root (DW_TAG_skeleton_unit) the climb goes past the root, through a null pointer.
- `C123_rvalue_refuted`: Refuted: rvalue references (and arrays, and every other unnamed type) get no name but "(unhandled tag ...)".
- `C123_other_kinds_refuted`: ... in general: an unnamed type of any other kind - an array, a structure, an enumeration - is shown as that text.
- `C123_cycle_refuted`: Refuted: a type built on itself has no end of a name.
- `C106_return_register_refuted`: see the statement
- `C106_extended_length_refuted`: see the statement
- `C107_self_reference_refuted`: C107. A damaged section does not always end in an exception: an FDE that names itself as its CIE makes the reader call itself without end, whatever follows it.
- `C106_far_cie_refuted`: An FDE in the 64-bit format whose CIE is at the offset 0xffffffff is taken for a CIE: the mark of a CIE in the 32-bit format is looked for in both.
- `C107_fde_of_fde_refuted`: see the statement
- `C107_wrong_table_refuted`: see the statement
- `C133_cut_refuted`: Otherwise the list is cut there, silently: hdmp reads eight bytes more than the allocator allocates.
- `C136_marks_refuted`: hdmp -b marks blocks of a correct program as damaged: here, for every size, a large block is freed and its memory reused by a block of the same size.
- `C134_crash_cut_refuted`: see the statement
- `C134_overrun_refuted`: see the statement
- `C134_image_refuted`: An argument that is an ELF file but not a core: a null process is used.
- `C135_negative_refuted`: A negative HDMP_STACKDEPTH: the descriptor asked for is smaller than the fields written to it.
- `C135_outermost_refuted`: The outermost frame, whose saved frame pointer is null, is left out: its return address is not recorded.
- `C135_no_frame_pointer_refuted`: A program compiled without frame pointers: the register holds anything, and the first call of malloc faults if it is not readable.
- `C45_underrun_missed_refuted`: The full property is false. The four bytes immediately before a block are padding: writing one of them is not noticed when the block is freed.
- `C45_false_report_refuted`: see the statement
- `C48_overlap_refuted`: A request close to 2^64 is granted, and moves the start of the next block back to the start of the buffer, over the blocks already given out.
- `C48_misaligned_refuted`: see the statement
- `C70_out_of_memory_refuted`: When the real allocator has no memory (returns null), malloc does not return null: it writes through a null pointer.
- `C70_huge_malloc_refuted`: A size within 20 of 2^64 is granted with an underlying block of less than 20 bytes: no failure is reported, and the guard is written 2^64 - 20 or more bytes past its end.
- `C70_calloc_overflow_refuted`: calloc with a product of 2^64 or more does not fail: it returns a block of the product modulo 2^64
- `C71_aligned_counts_refuted`: ... but an aligned allocation is counted as a calloc, and never as an aligned allocation.
- `C72_bootstrap_free_refuted`: *** C72: memory obtained before startup. Freeing it afterwards is not ignored: the bytes before it are taken for a guard.
- `C73_level0_refuted`: *** C73: HDMP_LEVEL=0. Only the first call goes to the real allocator; all later ones are handled by the debugging allocator.
- `C41_control_invalid_refuted`: The full property is false. A string of one of the other 27 control characters is printed as something that is no JSON string at all.
- `C41_lossless_refuted`: Different texts print alike, so no reader can recover the text: a low control character followed by three hexadecimal digits prints as one code point, and a code point from U+10000 to U+FFFFF prints as another followed by a digit.
- `C41_malformed_refuted`: Malformed UTF-8 is not always rejected: a lone continuation byte prints as a character; and a sequence cut short is read past the end of the string.
- `C142_unknown_offset_refuted`: Refuted where the offset in the function is not known: every such frame is shown with the offset 18446744073709551615, not null.
- `C143_several_processes_refuted`: ... Refuted: but for two or more, what is written is no JSON text.
- `C144_one_bad_frame_refuted`: see the statement
- `C145_hex_after_error_refuted`: see the statement
- `C23_flags_refuted`: The flags that must be cleared after each row are not: the second row of [prologue_end; copy; copy] claims to end the prologue too.
- `C23_fixed_advance_refuted`: DW_LNS_fixed_advance_pc is scaled by minimum_instruction_length, which it must not be.
- `C23_unknown_opcode_refuted`: Opcodes the standard says to skip (an unknown standard opcode with its declared operands, an unknown extended opcode with its length, DW_LNE_define_file) discard the whole table.
- `C23_line_range_refuted`: A header with line_range 0 divides by zero.
- `C23_timestamp_refuted`: A file entry with a time stamp in the usual form (DW_FORM_udata) discards the whole table.
- `C22_unterminated_refuted`: Reading past the end of the table for an unterminated sequence.
- `C39_later_thread_not_stopped_refuted`: The full property is false: a thread 2 that appears after the process was stopped, and is stopped and resumed by itself inside that bracket, is counted down once more when the process bracket closes; the next stop of the process does not attach it.
- `C100_second_note_refuted`: see the statement
- `C100_empty_name_refuted`: Refuted (C100): a note of type 3 with an empty name (n_namesz = 0) is read at name[-1].
- `C101_cycle_refuted`: see the statement
- `C102_missing_dynamic_refuted`: Refuted: if it is the program's dynamic section itself that is missing from the core, the exception leaves processAUXV, which is outside the try block: nothing is loaded although the NT_FILE note is there.
- `C103_static_pie_refuted`: Refuted: a static position-independent program ([gcc -static-pie]; dynamic section, PT_PHDR, but no DT_DEBUG and no interpreter) loaded at 0x10000 is recorded at 0 too, so that nothing in it resolves.
- `C146_unreadable_refuted`: Refuted: a dynamic segment of the file that is not in the process's memory (or is not a whole number of entries) is an exception that the search for the interpreter does not survive.
- `C146_last_segment_refuted`: Refuted: of several dynamic segments the last decides, even if the first has the address and the last has none.
- `C19_start_length_refuted`: An absolute start_length entry in a unit whose low_pc is not 0 is displaced by low_pc.
- `C19_unhandled_refuted`: Lists with start_end or default_location entries are rejected.
- `C19_base_selection_refuted`: DWARF 4 base address selection is taken for a range, its operand for a size.
- `C19_base_addressx_refuted`: base_addressx 0 (whose .debug_addr entry is 4096) forgets the load bias 65536: the variable is not found at its run-time address.
- `C19_unavailable_refuted`: An unavailable variable and one whose location evaluates to 0 get the same answer.
- `C165_both_sections_refuted`: see the statement
- `C55_damaged_refuted`: For a damaged block the property is false: the first read of it is refused, but the next one delivers zeros in its place.
- `C62_import_cycle_refuted`: Refuted: a unit that imports itself (or any cycle) is visited for ever.
- `C62_v4_stop_refuted`: Refuted: the visitor's request to stop at a define or undef is ignored in .debug_macinfo.
- `C62_vendor4_refuted`: Refuted: the operands of a vendor extension are not skipped but taken for operations: a constant of 1 is taken for a define (a macro that does not exist is reported), one of 0 for the end (and what follows is lost).
- `C62_vendor5_refuted`: Refuted: neither are those of a vendor-defined opcode, although the unit's header describes them: opcode 224 has one DW_FORM_data1 operand (0), which ends the list.
- `C62_offset_size_refuted`: Refuted: a macro unit in the 64-bit format used by a unit in the 32-bit format: string offsets are read with the wrong size.
- `C62_start_file_refuted`: Refuted: a start_file in a unit without line table offset (or with one of 4294967295), or with a file number outside the table, and a visit without the section, are undefined behaviour.
- `C124_negative_refuted`: Refuted: -1 (every process, to kill) and 0 (the process group).
- `C126_interrupt_refuted`: Refuted: "the exit status is 0 only if every argument was traced". After an interruption the remaining processes are loaded and silently skipped.
- `C127_all_error_refuted`: see the statement
- `C128_absolute_refuted`: see the statement
- `C131_wrong_object_refuted`: see the statement
- `C129_sent_fault_refuted`: Refuted: a fault signal sent by kill, raise or by the kernel (such as for an address that is not canonical) has no reason.
- `C129_child_refuted`: Refuted: SIGCHLD (17) of a child that exited (CLD_EXITED, 1), was killed (2), dumped core (3), ...; and the pid shown of a fault is the low half of its address.
- `C40_inode_refuted`: The full property is false: the inode is written in decimal and read as hexadecimal, so every inode of 10 or more (of up to 16 digits) is misreported.
- `C65_first_flag_refuted`: The full property is false: the first flag of the line is never reported.
- `C173_not_a_number_refuted`: Anything else is accepted too. A text that does not begin with a number is taken for 0;
- `C173_trailing_refuted`: what follows a number is ignored;
- `C173_range_refuted`: numbers outside the range of int are reduced modulo 2^32, those of 2^63 and more are -1;
- `C173_leading_zero_refuted`: and a leading zero makes decimal digits octal: 010 is 8, and 08 is 0.
- `C174_output_lost_refuted`: The full property is false for -o. If the file cannot be opened, nobody is told: the traces are lost and the status is that of the traces.
- `C174_output_order_refuted`: And a dump is written to where the output went when its option was met: -d F -o O writes to standard output and leaves O empty.
- `C61_long_unit_refuted`: Refuted: a contribution of 65546 bytes with one (long) name. Its length is kept in 16 bits, so the unit is read as one of length 10 with no entries, and reading goes on right after its header.
- `C61_repeat_after_failure_refuted`: Refuted: after a call that threw, the next call returns the units read before the bad one, as if that were all.
- `C170_unversioned_refuted`: Refuted: an interpreter whose file is called just python3 is found, but is then an error, wherever the file is.
- `C170_damaged_refuted`: Refuted: a damaged object called python3, lower in memory, hides the interpreter: the process counts as no Python process.
- `C170_missing_image_refuted`: Refuted, built for Python 2: an object whose image cannot be found, before the interpreter in memory, is a null pointer dereference, whatever Python the process runs.
- `C175_earlier_process_refuted`: Refuted: after a process that does not describe its pthreads (a static executable, a C library without symbols), every thread of every process traced later is said to be anonymous, though those processes describe theirs.
- `C175_other_library_refuted`: Refuted: a process whose C library is another release than that of the process traced before it has its thread ids read from the wrong place: here that is not readable, and the rest of its trace is lost; traced alone it is complete.
- `C175_unreadable_refuted`: Refuted: one thread whose pthread is not readable ends the trace of its process: neither its own frames nor the other threads are shown.
- `C49_odd_table_refuted`: a line table of odd length is read past its end
- `C50_python2_last_slot_refuted`: so the entry in the last slot is never shown
- `C50_shared_keys_refuted`: an instance dictionary that shares its keys is shown with the keys for which the instance has no value: the second key here has a null value and its line is "key : " with nothing after it
- `C51_two_digit_minor_refuted`: a minor version of two digits is cut to its first digit, whatever the directory and the rest of the name
- `C51_no_dot_refuted`: any character is taken for the dot: libpython310.so is Python 3.0
- `C52_large_refuted`: any other value is never printed: the loop overflows, which is undefined, or prints something else
- `C76_failure_refuted`: see the statement
- `C77_second_unreadable_type_refuted`: see the statement
- `C79_cycle_refuted`: an interpreter that is its own successor (a corrupt core, or a process caught in between) is printed for ever
- `C80_long_list_refuted`: so a list of more elements is not shown completely
- `C81_arguments_unbalanced_refuted`: it never is: "=(" is written unconditionally, and only one ")"
- `C82_pointer_printed_refuted`: a string that is not compact keeps its characters elsewhere: the bytes of the pointer to them are printed instead ("hi" prints as "a" here)
- `C02_window_overflow_refuted`: The unchanged code violates the full property: off + count wraps modulo 2^64, the clamp is skipped and bytes after the window are returned (reader.cc:262).
- `C02_nested_view_escapes_refuted`: A view of a view may leave its parent's window (reader.h:220-223 does not clamp).
- `C02_open_memory_view_refuted`: An open-ended view (default length) of a memory reader has no bound at all: reading at its end touches memory outside the backing store (reader.cc:241-244 stores the length unclamped).
- `C03_unaligned_region_refuted`: Without the page-boundary condition the cache loses readable bytes.
- `C05_flush_strings_refuted`: ... but strings are not: flush clears [pages] only (reader.cc:136-139), so a string read before the flush is returned after it although the upstream changed.
- `C10_overlong_refuted`: Over-long input is not rejected: the eleventh byte is shifted by 70, undefined behaviour.
- `C24_high_sdata_refuted`: Refuted: a unit whose high_pc is a constant of form sdata makes the reading of the units, and so the lookup, fail.
- `C168_flags_refuted`: Refuted: (1) the flags, segment registers and their bases are not set: they are what was in the structure before, which is not initialised.
- `C168_other_thread_refuted`: (2) Asked for another thread, it answers with the registers of the calling one.
- `C168_fault_refuted`: see the statement
- `C161_no_fp_refuted`: Refuted: a thread whose general registers are all in the core is not listed, because its floating point registers, which walking its stack does not use, are not.
- `C162_no_prpsinfo_refuted`: Refuted: without that note every core is process 0.
- `C164_newline_refuted`: Refuted: a name with a newline in it is never shown as it is.
- `C160_no_segment_refuted`: A symbol with a size outside every segment (a thread local variable's value is an offset in its block) is used as if it were in one: the null segment is dereferenced.
- `C160_no_fde_refuted`: So is an executable function without an FDE.
- `C89_thread_lost_refuted`: Refuted: a thread with two good frames, the outer one with a frame pointer that is not one (7, used as an ordinary register, say), is not listed at all.
- `C71_double_counts_refuted`: Refuted: calloc and realloc are counted as malloc too, and realloc as free: calloc, then realloc of the block to a larger size.
- `C125_repeat_refuted`: Refuted: with a delay (-b) arguments are not independent: the first process is traced until the program is interrupted, and no later process is traced at all, nor is that reported.
- `C108_type_unit_refuted`: A type unit of version 5 has a signature and an offset after the other fields, but its entries are looked for right after those: 12 bytes early (8 + 4), or 4 for one in a split file.
- `C110_failed_unit_refuted`: C110. Asking for a unit where none starts is not harmless: the failed attempt is remembered as a unit, and entries after it are not found any more.
- `C111_addrx_short_refuted`: A table of 4 byte addresses: two of them are read as one.
- `C111_rnglistx_split_refuted`: see the statement
- `C111_rnglistx_mixed_refuted`: see the statement
- `C20_unreadable_return_refuted`: If the return address slot is unreadable the failure is swallowed and the "caller" is given the callee's own pc.
- `C38_backwards_refuted`: see the statement

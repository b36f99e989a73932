{"id": "C01", "title": "Memory-backed reads are exact and bounded", "statement": "Reading `count` bytes at offset `off` from a memory-backed reader of size n throws iff off > n; otherwise it returns exactly min(count, n-off) and the caller's buffer receives precisely the bytes [off, off+min(count,n-off)) of the backing memory; no byte outside the backing memory is touched.", "quantifier": "every backing memory, every offset and every requested count up to 2^64-1", "why_tests_cant": "the offset/count space is 2^128; boundary arithmetic must be right at every point", "anchors": ["reader.cc:AbstractMemReader::read", "libpstack/reader.h:MemReader"]}
{"id": "C02", "title": "A view never exposes bytes outside its window", "statement": "A read through Reader::view(name, offset, length) at `off` returns exactly the bytes of the parent at offset+off .. , truncated to the window, throws iff off is beyond the window, and never returns a byte outside [offset, offset+length) of the parent.", "quantifier": "every parent reader, window, offset and count, including count+off close to 2^64; nested views of views", "why_tests_cant": "overflowing offset+count combinations and nestings cannot be enumerated", "anchors": ["reader.cc:OffsetReader::read", "reader.cc:OffsetReader::OffsetReader", "libpstack/reader.h:OffsetReader::view"]}
{"id": "C03", "title": "The page cache is transparent", "statement": "For an unchanging upstream whose readable regions start on 256-byte boundaries (files, page-granular mappings), any read issued to a CacheReader after any history of earlier reads returns the same byte count and the same bytes as reading the upstream directly (up to upstream failures, where the cached read returns the prefix obtained before the failure).", "quantifier": "every upstream contents, every sequence of prior reads (any offset/size mix), every final read", "why_tests_cant": "correctness depends on the whole access history: page boundaries, evictions and hits interleave without bound", "anchors": ["reader.cc:CacheReader::read", "reader.cc:CacheReader::getPage", "reader.cc:CacheReader::Page::load"]}
{"id": "C04", "title": "The page cache is bounded and coherent", "statement": "After any sequence of reads and flushes a CacheReader holds at most 16 pages, no two for the same offset, each 256-byte aligned and each holding what the upstream returned for it.", "quantifier": "every history of reads and flushes, including reads during which the upstream fails", "why_tests_cant": "invariant over unbounded histories", "anchors": ["reader.cc:CacheReader::getPage", "reader.cc:CacheReader::flush"]}
{"id": "C05", "title": "Flushing makes new upstream contents visible", "statement": "After CacheReader::flush, reads and string reads reflect the upstream's current contents, not contents cached before the flush (a live process is flushed on resume for this reason).", "quantifier": "every history before the flush, every change of upstream contents", "why_tests_cant": "depends on which cached entries any earlier history left behind", "anchors": ["reader.cc:CacheReader::flush", "reader.cc:CacheReader::readString", "live.cc:LiveProcess::resume"]}
{"id": "C06", "title": "Reading a string is repeatable", "statement": "readString at the same offset of an unchanging reader gives the same outcome every time it is asked, whether the first attempt succeeded or failed.", "quantifier": "every offset, every history of readString calls on a CacheReader", "why_tests_cant": "the failing-then-retrying histories are unbounded", "anchors": ["reader.cc:CacheReader::readString"]}
{"id": "C07", "title": "C-string reads return exactly the text before the terminator", "statement": "Reader::readString(off) returns the bytes from off up to (not including) the first NUL, or to the end of data if there is none; it terminates for all inputs; offset 0 yields the literal \"(null)\".", "quantifier": "every reader contents and offset", "why_tests_cant": "all contents/termination; arbitrary length strings", "anchors": ["reader.cc:Reader::readString"]}
{"id": "C08", "title": "Object reads are all-or-nothing", "statement": "readObj of n objects either fills every one of the n objects from consecutive bytes or throws; it never returns with part of the data uninitialised, and n=0 never touches the reader.", "quantifier": "every reader (including ones returning short counts), element size and count", "why_tests_cant": "short reads can occur at any byte", "anchors": ["libpstack/reader.h:Reader::readObj"]}
{"id": "C09", "title": "Array iteration visits every record once, in order", "statement": "Iterating a ReaderArray over a section of n bytes with records of size s yields exactly the n/s records in order, whatever cache size is used, and random access in any order returns the same record contents as direct reads; sections whose size is not a multiple of s are rejected.", "quantifier": "every section contents, record size, cache size and access order", "why_tests_cant": "any access order against a sliding window cache", "anchors": ["libpstack/reader.h:ReaderArray"]}
{"id": "C10", "title": "LEB128 decoding inverts encoding", "statement": "Decoding a canonical ULEB128/SLEB128 encoding of any 64-bit value yields that value and consumes exactly its bytes, leaving the following data untouched; over-long encodings whose shift would reach 64 bits are not silently misdecoded.", "quantifier": "all 2^64 values (signed and unsigned), any trailing bytes, every byte string as input", "why_tests_cant": "2^64 values and unbounded byte strings", "anchors": ["libpstack/reader.h:readleb128", "libpstack/dwarf.h:DWARFReader::getuleb128", "libpstack/dwarf.h:DWARFReader::getsleb128"]}
{"id": "C11", "title": "Fixed-width integers decode little-endian with correct sign", "statement": "getuint(n) returns the little-endian value of the next n bytes and getint(n) its two's complement value; the cursor advances by n; lengths that are not supported throw.", "quantifier": "every byte string and every length", "why_tests_cant": "all byte strings of each width", "anchors": ["libpstack/dwarf.h:DWARFReader::getuint", "libpstack/dwarf.h:DWARFReader::getint"]}
{"id": "C12", "title": "DWARF unit lengths are decoded per the standard", "statement": "The initial-length decoder returns (length, 4) for 32-bit units, the 64-bit length and offset size 8 for the 0xffffffff escape, and flags the reserved range 0xfffffff0-0xfffffffe with the distinguished answer (0, 0); it consumes 4 or 12 bytes accordingly and throws on truncated data.", "quantifier": "all 2^32 first words and 2^64 extended lengths", "why_tests_cant": "full value range", "anchors": ["dwarf_reader.cc:DWARFReader::getlength"]}
{"id": "C13", "title": "FDE lookup finds the frame description covering an address", "statement": "Given the unit's frame table sorted by start with disjoint ranges, looking up an address returns the FDE whose [start, start+range) contains it, and reports none exactly when no FDE covers the address.", "quantifier": "every table size and contents, every address", "why_tests_cant": "binary search over arbitrarily long tables", "anchors": ["dwarf_frame.cc:CFI::findFDE"]}
{"id": "C14", "title": "Unwind rows are those the CFA program defines", "statement": "Executing CIE initial instructions then FDE instructions for a pc yields the register rules of the row in force at that pc as DWARF defines: later rows are not applied, location advances are scaled by the code alignment factor, offsets by the data alignment factor.", "quantifier": "every instruction sequence and every pc", "why_tests_cant": "arbitrary instruction sequences", "anchors": ["libpstack/dwarf.h:CIE::execInsns", "dwarf_frame.cc:FDE::execInsns"]}
{"id": "C15", "title": "remember_state/restore_state nest", "statement": "A balanced remember_state ... restore_state bracket leaves the register rules in force exactly as before the bracket, at any nesting depth, whatever happened in between; an unmatched restore_state is rejected.", "quantifier": "every bracketed instruction sequence and nesting depth", "why_tests_cant": "unbounded nesting", "anchors": ["libpstack/dwarf.h:CIE::execInsns"]}
{"id": "C16", "title": "Encoded pointers decode per their DW_EH_PE encoding", "statement": "An encoded pointer in .eh_frame/.eh_frame_hdr decodes to the value its format nibble specifies (2/4/8 byte signed/unsigned, LEB128, native word), rebased by its application (absolute, pc-relative, data-relative), consuming exactly the encoded size.", "quantifier": "every encoding byte, every byte string, every position", "why_tests_cant": "all encodings x contents", "anchors": ["dwarf_frame.cc:CFI::decodeAddress"]}
{"id": "C17", "title": "DWARF expressions evaluate to their defined value", "statement": "Evaluating a location expression produces the value the DWARF stack-machine semantics define for constants, register offsets, arithmetic, bitwise, comparison and shift operators and dereferences.", "quantifier": "every expression, every machine state, all operand values", "why_tests_cant": "arbitrary programs over 2^64 operand values", "anchors": ["dwarfproc.cc:ExpressionStack::eval"]}
{"id": "C18", "title": "Expression evaluation never runs off its stack", "statement": "A malformed expression that pops more operands than it pushed, divides by zero or shifts by 64 or more is rejected with an exception rather than producing undefined behaviour.", "quantifier": "every byte string interpreted as an expression", "why_tests_cant": "arbitrary untrusted byte strings", "anchors": ["dwarfproc.cc:ExpressionStack::eval", "dwarfproc.cc:ExpressionStack::poptop"]}
{"id": "C19", "title": "Location lists select the entry for the pc", "statement": "For a variable described by a location list, the expression evaluated is the one of the first entry whose half-open address range contains the object-relative pc; if none contains it the variable is reported unavailable.", "quantifier": "every location list (DWARF 4 and 5 encodings) and pc", "why_tests_cant": "arbitrary lists and pcs", "anchors": ["dwarfproc.cc:ExpressionStack::eval (attribute)"]}
{"id": "C20", "title": "Unwinding one frame applies the register rules", "statement": "Unwinding a frame yields a caller frame in which each register holds what its rule says (same value, memory at CFA+offset, CFA+offset, another register, expression), the stack pointer equals the CFA, the pc equals the return-address register; no caller frame is produced when the return address is undefined or the CFA is 0.", "quantifier": "every rule table, register file and memory, every iteration order of the rule map", "why_tests_cant": "all rule combinations and memory contents", "anchors": ["dwarfproc.cc:StackFrame::unwind"]}
{"id": "C21", "title": "Symbolic pc of a frame points inside the call", "statement": "For a frame entered by a call the address used for source/symbol lookup is return address-1; for the innermost frame, signal trampolines and frames reached by call frame information from a signal trampoline it is the exact pc.", "quantifier": "every frame mechanism and pc, including 0", "why_tests_cant": "all mechanisms/flag combinations", "anchors": ["dwarfproc.cc:StackFrame::scopeIP"]}
{"id": "C22", "title": "Source line lookup returns the row covering the pc", "statement": "sourceFromAddr returns the file/line of a line-table row whose range [row.addr, next row.addr) contains the pc within one sequence, and nothing if no row covers it.", "quantifier": "every line table and pc", "why_tests_cant": "arbitrary tables", "anchors": ["dwarf_unit.cc:Unit::sourceFromAddr"]}
{"id": "C23", "title": "Line number programs build the matrix DWARF defines", "statement": "Running a line number program produces the rows the DWARF line state machine defines: special opcodes advance address and line per header parameters, every row carries the registers at the time it was emitted, end_sequence resets state.", "quantifier": "every header and opcode sequence", "why_tests_cant": "arbitrary programs", "anchors": ["dwarf_lines.cc:LineInfo::build"]}
{"id": "C24", "title": "Address-to-unit lookup finds the compilation unit covering the pc", "statement": "If some aranges tuple covers an address, lookup returns that tuple's unit; if no tuple and no unit range covers it, lookup returns none; aranges set parsing reads every tuple.", "quantifier": "every .debug_aranges contents and address, any sequence of lookups", "why_tests_cant": "arbitrary tables and lookup histories (the lookup populates the table)", "anchors": ["dwarf_info.cc:Info::lookupUnit", "dwarf_info.cc:Info::decodeARangeSet"]}
{"id": "C25", "title": "A DIE covers exactly its half-open pc ranges", "statement": "containsAddress answers yes exactly when the address is in [low_pc, high_pc) or in one of the DIE's [start,end) ranges, distinguishing address-class from constant-class high_pc.", "quantifier": "every DIE attribute combination and address", "why_tests_cant": "all boundaries", "anchors": ["dwarf_die.cc:DIE::containsAddress"]}
{"id": "C26", "title": "Attribute lookup honours abbreviation order and indirection", "statement": "Looking up an attribute returns the value encoded for it in the DIE if present, else the value found through abstract_origin/specification, else nothing; independent of the order of attributes in the abbreviation.", "quantifier": "every abbreviation and attribute name", "why_tests_cant": "all permutations of attributes", "anchors": ["dwarf_die.cc:DIE::attribute"]}
{"id": "C27", "title": "Function lookup in the DIE tree returns the first enclosing entry", "statement": "findEntryForAddr returns an entry of the requested tag covering the address whenever one is reachable in the tree through covering ancestors or non-range ancestors as coded, and none otherwise.", "quantifier": "every DIE tree and address", "why_tests_cant": "unbounded trees", "anchors": ["dwarf_die.cc:findEntryForAddr"]}
{"id": "C28", "title": "Range lists decode per the standard", "statement": "The decoded range list of a DIE equals the list DWARF defines, applying base address selection entries and stopping at end-of-list.", "quantifier": "every DWARF 4 .debug_ranges and DWARF 5 .debug_rnglists contents", "why_tests_cant": "arbitrary lists", "anchors": ["dwarf_die.cc:Ranges::Ranges"]}
{"id": "C29", "title": "GNU hash lookup finds exactly the hashed symbols", "statement": "For a well-formed DT_GNU_HASH table, looking up a name returns a symbol with that name if and only if one is in the table.", "quantifier": "every well-formed table, every name (including hash and bloom collisions)", "why_tests_cant": "collisions and chain layouts unbounded", "anchors": ["elf.cc:GnuHash::findSymbol", "elf.cc:gnu_hash"]}
{"id": "C30", "title": "SysV hash lookup finds exactly the hashed symbols", "statement": "For a well-formed DT_HASH table, looking up a name returns a symbol with that name iff one is reachable from its bucket, and the lookup terminates.", "quantifier": "every table and name", "why_tests_cant": "chains of unbounded length, cyclic chains", "anchors": ["elf.cc:SymHash::findSymbol", "elf.cc:elf_hash"]}
{"id": "C31", "title": "Segment lookup is independent of query history", "statement": "getSegmentForAddress returns the loadable segment containing the address, or none; the answer does not depend on the addresses looked up before it.", "quantifier": "every sorted set of disjoint segments, every history of lookups, every address", "why_tests_cant": "stateful last-hit cache", "anchors": ["elf.cc:Object::getSegmentForAddress"]}
{"id": "C32", "title": "Note iteration yields every note with its name and descriptor", "statement": "Iterating the notes of a segment or section yields each note once in order, with name and descriptor bytes exactly as laid out with 4-byte padding, and terminates.", "quantifier": "every sequence of notes with arbitrary name/descriptor sizes", "why_tests_cant": "padding for all sizes; arbitrary counts", "anchors": ["elf.cc:Notes", "elf.cc:NoteDesc", "libpstack/elf.h:roundup2"]}
{"id": "C33", "title": "Address-to-symbol lookup returns an enclosing symbol", "statement": "findSym returns a symbol of the requested type, defined in a section that is loaded (SHF_ALLOC), whose [value, value+size) contains the address when one exists, and otherwise none; it never returns a symbol not covering the address.", "quantifier": "every symbol table and address", "why_tests_cant": "arbitrary tables", "anchors": ["elf.cc:Object::findSym"]}
{"id": "C34", "title": "Section lookup by name honours .debug/.zdebug/.dwo aliases", "statement": "getSection(name) returns the section with that name (or its compressed/dwo alias) and a null section when absent.", "quantifier": "every section table and name", "why_tests_cant": "arbitrary tables", "anchors": ["elf.cc:Object::getSection"]}
{"id": "C35", "title": "Core memory reads return dumped bytes or mapped file contents", "statement": "Reading process memory from a core returns for each address the byte the core (or failing that the mapped executable) holds, zero-fills memory that was dumped as zero-size beyond file size, never writes beyond the caller's buffer, and stops at unmapped memory.", "quantifier": "every core layout and every address/size", "why_tests_cant": "ranges may straddle arbitrarily many segments", "anchors": ["dead.cc:CoreReader::read", "dead.cc:readFromHdr"]}
{"id": "C36", "title": "Per-thread registers come from that thread's notes", "statement": "getRegs for an LWP in a core returns the register note belonging to that LWP and never another thread's.", "quantifier": "every note sequence, any number of threads and note kinds per thread", "why_tests_cant": "arbitrary interleavings of notes", "anchors": ["dead.cc:CoreProcess::getRegs"]}
{"id": "C37", "title": "An address is attributed to the object that maps it", "statement": "findSegment(addr) returns the loaded object and segment whose mapping contains addr, if any, and never a different object.", "quantifier": "every set of non-overlapping loaded objects, every address including first and last byte", "why_tests_cant": "boundaries of arbitrary layouts", "anchors": ["process.cc:Process::findSegment"]}
{"id": "C38", "title": "Stack walks terminate within the frame limit", "statement": "Unwinding a thread always terminates and yields no more than the configured number of frames (plus one), whatever the memory contents.", "quantifier": "every memory contents and register state", "why_tests_cant": "adversarial stacks, cycles", "anchors": ["process.cc:Lwp::unwind"]}
{"id": "C39", "title": "Stop/resume bracket leaves no thread stopped", "statement": "Any nesting of stop/resume pairs on the threads of a live process leaves each thread attached exactly while its outstanding stop count is positive, detaches exactly once when it returns to zero, and after all brackets end no thread remains attached.", "quantifier": "every sequence of nested stop/resume of threads and of the process, threads appearing and exiting meanwhile", "why_tests_cant": "unbounded interleavings", "anchors": ["live.cc:LiveProcess::stop", "live.cc:LiveProcess::resume", "live.cc:LiveProcess::stopProcess", "libpstack/proc.h:StopProcess"]}
{"id": "C40", "title": "Address-space lines are parsed faithfully", "statement": "Each /proc/<pid>/maps line yields the region with the start, end, permissions, offset, device, inode and path it textually states.", "quantifier": "every well-formed maps line with any numeric values", "why_tests_cant": "all numeric values", "anchors": ["live.cc:procAddressSpace", "live.cc:hex2int"]}
{"id": "C41", "title": "JSON string output is valid and lossless", "statement": "Any byte string printed as JSON is a valid JSON string literal that decodes to the original text.", "quantifier": "every string, including control characters and all UTF-8 sequences, malformed UTF-8", "why_tests_cant": "all strings", "anchors": ["libpstack/json.h:Escape"]}
{"id": "C42", "title": "Glob matching agrees with the pattern language", "statement": "globmatch(pattern, name) is true exactly when name matches pattern with * matching any substring and every other character itself; it terminates and reads no byte past the end of either string.", "quantifier": "every pattern and name", "why_tests_cant": "unbounded strings; backtracking", "anchors": ["canal.cc:globmatchR"]}
{"id": "C43", "title": "Symbol store attributes an address to the symbol containing it", "statement": "find(address) reports the symbol whose [start, end) contains the address, and none if no symbol contains it.", "quantifier": "every set of disjoint symbols and every address including boundaries", "why_tests_cant": "boundary conditions over arbitrary sets", "anchors": ["canal.cc:SymbolStore"]}
{"id": "C44", "title": "Heap debugger keeps exact allocation statistics", "statement": "After any sequence of malloc/free through the debugging allocator, the reported current total equals the sum of live block sizes and the maximum equals the largest total reached.", "quantifier": "every sequence of allocations and frees", "why_tests_cant": "unbounded histories", "anchors": ["heap.c:build_alloc", "heap.c:free_desc"]}
{"id": "C45", "title": "Heap debugger detects overruns and double frees", "statement": "Overwriting a guard byte before or after a live block, or freeing a block twice, is detected and reported when the block is freed; an untouched block is never reported.", "quantifier": "every block size, every overwrite offset and value", "why_tests_cant": "all overwrites", "anchors": ["heap.c:free", "heap.c:get_state", "heap.c:set_state"]}
{"id": "C46", "title": "Freed memory is recycled in FIFO order after the quarantine", "statement": "A freed block is retained for exactly the next freelistmax frees and then released, in order of freeing; each block is released at most once.", "quantifier": "every sequence of frees and quarantine sizes", "why_tests_cant": "unbounded histories over a ring buffer", "anchors": ["heap.c:free"]}
{"id": "C47", "title": "Aligned allocations are aligned and inside their block", "statement": "aligned_alloc/posix_memalign return a pointer that is a multiple of the alignment and whose whole extent lies inside the underlying allocation, not overlapping its guards.", "quantifier": "every alignment power of two and size", "why_tests_cant": "all sizes/alignments and base addresses", "anchors": ["heap.c:aligned_alloc"]}
{"id": "C48", "title": "Bootstrap allocations never overlap", "statement": "Blocks handed out before the real allocator is available lie within the bootstrap buffer, are pairwise disjoint and aligned; exhaustion is reported.", "quantifier": "every sequence of sizes", "why_tests_cant": "unbounded sequences", "anchors": ["heap.c:buffer_malloc"]}
{"id": "C49", "title": "Python line numbers follow the line table", "statement": "The reported line of a Python frame is firstlineno plus the line increments of all table entries whose cumulative address does not exceed the current instruction.", "quantifier": "every lnotab and instruction offset", "why_tests_cant": "arbitrary tables", "anchors": ["python.tcc:getLine"]}
{"id": "C50", "title": "Python dictionaries are shown completely", "statement": "Printing a Python 2 dict reports every occupied slot of its hash table exactly once.", "quantifier": "every table size and occupancy", "why_tests_cant": "arbitrary tables", "anchors": ["python2.cc:DictPrinter"]}
{"id": "C51", "title": "Python version is taken correctly from the interpreter's file name", "statement": "The major and minor version parsed from a libpython/python file name are those in the name, for multi-digit minors too; names without a version are rejected.", "quantifier": "every file name", "why_tests_cant": "all strings", "anchors": ["python.cc:getPythonVersionFromFilename"]}
{"id": "C52", "title": "Python integers print their exact value", "statement": "A Python long prints as the exact integer it represents.", "quantifier": "every digit vector", "why_tests_cant": "arbitrary precision", "anchors": ["python.tcc:LongPrinter"]}
{"id": "C53", "title": "Register accessors are consistent", "statement": "Setting a DWARF register and reading it back returns the value set and leaves all other registers unchanged; unknown registers are rejected.", "quantifier": "every register number and value", "why_tests_cant": "all register pairs and values", "anchors": ["libpstack/arch-x86_64.h", "process.cc:StackFrame::setReg/getReg"]}
{"id": "C54", "title": "Image lookups are cached consistently", "statement": "Looking up an image by name or build-id returns the same object on repeated requests and a failed lookup is not repeated; the answer does not depend on cache state.", "quantifier": "every history of lookups over a fixed file system", "why_tests_cant": "unbounded histories", "anchors": ["context.cc:Context::getImageImpl", "context.cc:Context::getImageInPath", "context.cc:Context::getImageIfLoaded"]}
{"id": "C55", "title": "Compressed-section reads equal reads of the decompressed data", "statement": "Reading any range from an LZMA-compressed section returns the bytes of the decompressed stream, in any access order, with block caching invisible.", "quantifier": "every block layout, every history of reads", "why_tests_cant": "arbitrary block boundaries and histories", "anchors": ["lzma.cc:LzmaReader::read"]}
{"id": "C56", "title": "Command-line options dispatch to their handlers", "statement": "Every option added can be given by its long name and (if it has one) its short letter, and invokes exactly its own handler with its own argument, in order; unknown options are rejected; no two options collide.", "quantifier": "every set of option definitions and command line", "why_tests_cant": "all combinations", "anchors": ["flags.cc:Flags::add", "flags.cc:Flags::parse"]}
{"id": "C57", "title": "Tracing a command's signals", "statement": "When pstack runs a command, every signal the command handles, blocks or ignores is passed on to it unchanged; at a signal that would terminate it, its stack is shown and it is killed; it is not killed at any other signal.", "quantifier": "every sequence of signals and every state of the command's signal masks", "why_tests_cant": "all signal numbers and masks", "anchors": ["pstack.cc:startChild"]}
{"id": "C58", "title": "Symbol-version and hash functions match the ABI", "statement": "elf_hash and gnu_hash compute the ABI-defined hash of any name, including names with bytes >= 0x80.", "quantifier": "every byte string", "why_tests_cant": "all byte strings", "anchors": ["elf.cc:elf_hash", "elf.cc:gnu_hash"]}
{"id": "C59", "title": "Abbreviation tables and DIE forms are consumed exactly", "statement": "Decoding a DIE's attributes advances the cursor by exactly the encoded size of each form, so that the next DIE is found at the right offset.", "quantifier": "every abbreviation and attribute byte string", "why_tests_cant": "all form combinations", "anchors": ["dwarf_die.cc:DIE::Raw::Raw", "dwarf_die.cc:DIE::Value::Value"]}
{"id": "C60", "title": "DIE tree navigation visits each child exactly once", "statement": "Iterating the children of a DIE yields exactly the DIEs encoded as its children, in order, and parent() of each yields the DIE.", "quantifier": "every tree encoded in .debug_info", "why_tests_cant": "unbounded trees", "anchors": ["dwarf_die.cc:DIE::nextSibling", "dwarf_die.cc:DIE::firstChild", "dwarf_die.cc:DIE::decode"]}
{"id": "C61", "title": "Public names parse to the end of the section", "statement": "Every pubnames unit and entry in the section is visited with its recorded unit length.", "quantifier": "every .debug_pubnames contents", "why_tests_cant": "all lengths up to 2^32", "anchors": ["dwarf_pubnames.cc:PubnameUnit::PubnameUnit"]}
{"id": "C62", "title": "Macro information is delivered in order", "statement": "Visiting the macro section reports every define/undef/start_file/end_file event in section order with its line and text, following imports, and terminates.", "quantifier": "every macro section contents", "why_tests_cant": "arbitrary sections", "anchors": ["dwarf_macros.cc:Macros::visit4", "dwarf_macros.cc:Macros::visit5", "dwarf_macros.cc:Macros::readD5"]}
{"id": "C63", "title": "Expression evaluation terminates", "statement": "Evaluating a location expression ends, with a value or an exception, for every byte string given as the expression, malformed or not, and for every frame base expression of the enclosing function.", "quantifier": "every expression block, every register and memory contents, every frame base expression", "why_tests_cant": "malformed debug data ranges over all byte strings; non-termination has no finite witness a test can observe", "anchors": ["dwarfproc.cc:ExpressionStack::eval", "dwarfproc.cc:StackFrame::getFrameBase"]}
{"id": "C64", "title": "A core's address space is its loadable segments with their files", "statement": "The address space reported for a core has one range per loadable segment, with that segment's bounds, and names a file (with the byte offset) exactly when the core's file note maps a file from that segment's start and within it.", "quantifier": "every list of segments and every file note with distinct starts", "why_tests_cant": "arbitrary lists", "anchors": ["dead.cc:CoreProcess::addressSpace"]}
{"id": "C65", "title": "The VM flags of a mapping are those the kernel lists", "statement": "After reading a process's smaps, the flags reported for a mapping are exactly the flags known to pstack that the kernel's VmFlags line for that mapping lists.", "quantifier": "every region, every list of flags", "why_tests_cant": "arbitrary flag lists", "anchors": ["live.cc:procAddressSpace", "live.cc:nextTok", "live.cc:AddressRange::vmflag"]}
{"id": "C66", "title": "canal --offset finds exactly the references at that offset", "statement": "With an offset given, canal attributes a word to a symbol exactly when the word equals the symbol's address plus the offset, for offsets up to the symbol's size.", "quantifier": "every set of disjoint symbols, every offset, every word", "why_tests_cant": "unbounded symbol sets and 64-bit words", "anchors": ["canal.cc:SymbolStore::find", "canal.cc:OffsetBoundSymbolMatcher"]}
{"id": "C67", "title": "canal's histogram and listings count each reference once", "statement": "After scanning memory, each symbol's count is the number of words scanned that point into it, each listed reference names the word's address, the symbol and the offset, and a search for address ranges lists a word once for each range containing its value.", "quantifier": "every set of symbols, every memory contents, every set of ranges", "why_tests_cant": "unbounded memory contents", "anchors": ["canal.cc:search", "canal.cc:SymbolStore"]}
{"id": "C68", "title": "canal --string reports where the text occurs", "statement": "Searching memory for a text terminates and prints exactly the addresses at which the text occurs.", "quantifier": "every memory contents, segment and text", "why_tests_cant": "unbounded contents; termination", "anchors": ["canal.cc:findString"]}
{"id": "C69", "title": "The debugging allocator preserves the program's data", "statement": "For a program that uses its memory correctly, no allocation call changes the bytes of a block that stays live; realloc keeps the common prefix of the contents; calloc returns zeroed memory; a byte reads back as last written.", "quantifier": "every history of calls, every block layout answered by the underlying allocator", "why_tests_cant": "every call rewrites guards next to user data and moves blocks; only an invariant over all histories shows that no user byte is hit", "anchors": ["heap.c: malloc, calloc, realloc, free, build_alloc, set_state"]}
{"id": "C70", "title": "Allocation failure is reported as failure", "statement": "When the underlying allocator has no memory, or the request cannot be represented, malloc/calloc return null rather than a block that is too small.", "quantifier": "every size and count, every answer of the underlying allocator", "why_tests_cant": "sizes near 2^64 are not reachable in tests", "anchors": ["heap.c: malloc, calloc, build_alloc"]}
{"id": "C71", "title": "Call statistics count each call under its own kind", "statement": "Each of malloc, calloc, realloc, free and the aligned allocators increments its own counter and no other's.", "quantifier": "every call and state", "why_tests_cant": "counters are only inspected in post-mortem dumps", "anchors": ["heap.c: malloc, aligned_alloc", "heap.h: struct stats"]}
{"id": "C72", "title": "Memory from before startup may be freed at any time", "statement": "A block obtained from the bootstrap buffer can be passed to free() before or after initialisation and is then ignored.", "quantifier": "every time of the call", "why_tests_cant": "depends on which library calls allocate during startup", "anchors": ["heap.c: free, headroom, buffer_malloc"]}
{"id": "C73", "title": "The debug level 0 switches the allocator's checks off", "statement": "With HDMP_LEVEL=0 all calls go to the underlying allocator.", "quantifier": "every sequence of calls", "why_tests_cant": "environment dependent", "anchors": ["heap.c: use_hdmp"]}
{"id": "C74", "title": "Printing Python objects always ends", "statement": "Printing any Python object returns, whatever the target's memory contains: cyclic structures, corrupt pointers and bad types cannot make it loop or let an exception out.", "quantifier": "every memory, object address, option set and printer state", "why_tests_cant": "the object graph is arbitrary and may be cyclic or corrupt", "anchors": ["python.tcc:PythonPrinter::print"]}
{"id": "C75", "title": "No Python object is listed twice", "statement": "Within one printer, the contents of a container object are listed at most once however many references to it are met.", "quantifier": "every memory and every sequence of prints", "why_tests_cant": "sharing patterns are unbounded", "anchors": ["python.tcc:PythonPrinter::print", "libpstack/python.h:dupdetect"]}
{"id": "C76", "title": "Python output indentation is consistent", "statement": "After an object has been printed the indentation is what it was before, also when part of it could not be read.", "quantifier": "every object and every failure point", "why_tests_cant": "failures at every read", "anchors": ["python.tcc:HeapPrinter", "python.tcc:PythonPrinter::print"]}
{"id": "C77", "title": "Python objects of unreadable types are reported, not used", "statement": "An object whose type object cannot be read is reported as a failure, each time it is met.", "quantifier": "every memory with unreadable pages", "why_tests_cant": "needs particular unreadable pages and repeated types", "anchors": ["python.tcc:PythonPrinter::print"]}
{"id": "C78", "title": "Every Python thread is shown once", "statement": "Each interpreter shows every thread state of its list, in order, exactly once, up to 128 of them, and never loops on a cyclic list.", "quantifier": "every list of thread states", "why_tests_cant": "arbitrary linked lists", "anchors": ["python.tcc:PythonPrinter::printInterp"]}
{"id": "C79", "title": "Every Python interpreter is shown and the listing ends", "statement": "All interpreters of the list are shown in order, and the listing ends for every memory.", "quantifier": "every list of interpreters, including corrupt ones", "why_tests_cant": "arbitrary linked lists", "anchors": ["python.tcc:PythonPrinter::printInterpreters"]}
{"id": "C80", "title": "Python lists and tuples show their elements", "statement": "A list or tuple shows its elements completely and in order.", "quantifier": "every length", "why_tests_cant": "arbitrary lengths", "anchors": ["python.tcc:ListPrinter", "python.tcc:TuplePrinter"]}
{"id": "C81", "title": "Python argument lists are well formed", "statement": "With arguments enabled, a frame's function name is followed by a balanced, parenthesised argument list.", "quantifier": "every frame", "why_tests_cant": "every combination of argument kinds", "anchors": ["python.tcc:printArguments"]}
{"id": "C82", "title": "Python strings print their text", "statement": "A Python string object prints as its text in quotes, whatever its internal representation.", "quantifier": "every string object", "why_tests_cant": "all representations and texts", "anchors": ["python3.cc:readString<3>", "python2.cc:readString<2>", "python.tcc:StringPrinter"]}
{"id": "C83", "title": "Image search order", "statement": "An image is looked for under each configured prefix, the prefixes added last first, and the first usable candidate is used; a prefix without the image does not end the search.", "quantifier": "every file system, prefix list, name and build ID", "why_tests_cant": "all combinations of present, missing and unusable candidates", "anchors": ["context.cc:Context::getImageInPath", "context.cc:Context::getImageImpl"]}
{"id": "C84", "title": "Flushing forgets exactly one image", "statement": "After an image is flushed no later lookup returns that object; other cached images stay cached.", "quantifier": "every history of lookups and flushes", "why_tests_cant": "unbounded histories", "anchors": ["context.cc:Context::flush"]}
{"id": "C85", "title": "One set of debug information per image", "statement": "Debug information asked for an image is created once and is the same until it is flushed; distinct images never share it; an image that cannot be found has none.", "quantifier": "every history of requests", "why_tests_cant": "unbounded histories", "anchors": ["context.cc:Context::findDwarf"]}
{"id": "C86", "title": "Scripts are represented by their interpreter", "statement": "An executable starting with #! is represented by the image of the interpreter it names.", "quantifier": "every script and file system", "why_tests_cant": "unbounded interpreter names", "anchors": ["context.cc:Context::getImageInPath"]}
{"id": "C87", "title": "Symbolic links are followed to the end", "statement": "Resolving a name follows symbolic links, absolute and relative, to something that is not a link, or leaves the name alone if that cannot be read, and always terminates.", "quantifier": "every arrangement of links", "why_tests_cant": "unbounded chains and cycles", "anchors": ["context.cc:Context::linkResolve"]}
{"id": "C88", "title": "Unwinding without call frame information", "statement": "A frame whose program counter no call frame information covers is followed by the frame its saved frame pointer and return address describe, and the walk stops at a frame where neither kind of unwinding yields a new caller.", "quantifier": "every memory, register state and set of images", "why_tests_cant": "The chains of frames and the memory they live in are arbitrary.", "anchors": ["process.cc:Lwp::unwind", "process.cc:StackFrame::unwind"]}
{"id": "C89", "title": "Every thread is listed with its stack", "statement": "Asking a process for its stacks gives one stack for every thread it has, each beginning at that thread's own registers.", "quantifier": "every number of threads and every outcome of unwinding each", "why_tests_cant": "Which threads exist and which unwinds fail is arbitrary.", "anchors": ["process.cc:Process::getStacks"]}
{"id": "C90", "title": "Debug sections come from the image or its debug image", "statement": "Looking up a debug section gives the section of that name in the image if there is one with contents, else the one in the separate debug image.", "quantifier": "every image and debug image", "why_tests_cant": "Section tables are arbitrary.", "anchors": ["elf.cc:Object::getDebugSection"]}
{"id": "C91", "title": "Arguments in memory show their value", "statement": "An argument that lives in memory is shown with the value its type and the bytes at its address give: integers in decimal, characters, truth values, pointers in hexadecimal followed by what they point to.", "quantifier": "every location expression, type graph, memory and value", "why_tests_cant": "Types, values and memory are arbitrary.", "anchors": ["process.cc:RemoteValue", "process.cc:operator<<(RemoteValue)", "process.cc:removeCV"]}
{"id": "C92", "title": "Arguments that are not in memory show their value", "statement": "An argument that lives in a register, or whose value an expression computes, is shown with that value.", "quantifier": "every register, value and type", "why_tests_cant": "Register contents and expressions are arbitrary.", "anchors": ["process.cc:ArgPrint", "dwarfproc.cc:ExpressionStack::eval"]}
{"id": "C93", "title": "Showing an argument ends", "statement": "Showing an argument ends, whatever the debug information's types and the process's pointers are.", "quantifier": "every type graph and memory", "why_tests_cant": "Cycles of any length in types and in pointers.", "anchors": ["process.cc:RemoteValue", "process.cc:removeCV"]}
{"id": "C94", "title": "Parameters are shown in order", "statement": "A frame's formal parameters are shown each once, in order of declaration, by name and value, separated by commas.", "quantifier": "every list of children of a function", "why_tests_cant": "Lists of any length.", "anchors": ["process.cc:operator<<(ArgPrint)"]}
{"id": "C95", "title": "A bad argument does not hide the rest of the stack", "statement": "If an argument cannot be shown, an error is shown in its place, and the other arguments and frames are still shown.", "quantifier": "every stack and every argument's location", "why_tests_cant": "Any argument of any frame can be the bad one.", "anchors": ["process.cc:operator<<(ArgPrint)", "process.cc:dumpFrameText"]}
{"id": "C96", "title": "The command line of a traced command", "statement": "The command given to pstack is run with the words between its spaces as arguments.", "quantifier": "every command line", "why_tests_cant": "Command lines of any length with any number of words.", "anchors": ["pstack.cc:startChild"]}
{"id": "C97", "title": "File mappings of a core are all found", "statement": "Opening a core file reads its NT_FILE note completely: every mapping, in order, with its own address range, file offset and file name; when objects are loaded from it, exactly the mappings of the start of a file are added, at their addresses, and an object already known at an address is kept.", "quantifier": "every list of mappings, every position of the note in the file, whatever follows it", "why_tests_cant": "Any number and length of names and any position; examples fix a handful.", "anchors": ["dead.cc:FileEntries", "dead.cc:CoreProcess::loadSharedObjectsFromFileNote", "libpstack/reader.h:ReaderArray"]}
{"id": "C98", "title": "The auxiliary vector is understood", "statement": "For a running program or core, the entry point, the interpreter's base and the vdso (if its image is readable) are those the auxiliary vector gives; entries of other types, and whatever follows AT_NULL, have no influence.", "quantifier": "every auxiliary vector, in any order, with any unknown entries", "why_tests_cant": "The order and the set of entries are the kernel's choice and unbounded in principle.", "anchors": ["process.cc:Process::processAUXV"]}
{"id": "C99", "title": "Load address and DT_DEBUG of the program", "statement": "The program's load address is the difference between where its program headers are and where PT_PHDR says they should be, and the dynamic linker's debug structure is what the program's first non-zero DT_DEBUG entry, in memory, points to.", "quantifier": "every set of program headers and every dynamic section, every load address (ASLR)", "why_tests_cant": "Load addresses are random, tables of any length.", "anchors": ["process.cc:Process::processAUXV", "process.cc:Process::extractDtDebugFromDynamicSegment"]}
{"id": "C100", "title": "The executable is the one that is running", "statement": "Without an executable being named, the one used is the image with the build ID that the process's memory shows, else the one with the name the kernel recorded, else what the process itself provides.", "quantifier": "every set of note segments, names and available images", "why_tests_cant": "Combinations of notes, names and images cannot be enumerated.", "anchors": ["process.cc:Process::processAUXV", "context.cc:Context::findImage"]}
{"id": "C101", "title": "Shared objects are those of the link map", "statement": "Following the link map gives the executable at the address of its first entry and every further object that has a name, except the vdso, at its own address; nothing else is recorded, and reading it ends.", "quantifier": "every link map of any length, any order", "why_tests_cant": "Programs load any number of objects; the list is in the process's memory and may be damaged.", "anchors": ["process.cc:Process::loadSharedObjects"]}
{"id": "C102", "title": "A truncated core still shows its objects", "statement": "If the link map cannot be read, the objects found before that point are kept and a core's NT_FILE mappings of file starts are added.", "quantifier": "every core and every point at which the link map becomes unreadable", "why_tests_cant": "The point of truncation is arbitrary.", "anchors": ["process.cc:Process::load", "dead.cc:CoreProcess::loadSharedObjectsFromFileNote"]}
{"id": "C103", "title": "Programs without a dynamic linker", "statement": "A static program's image is recorded at the address it is loaded at.", "quantifier": "every static program, position-dependent or not", "why_tests_cant": "Ranges over programs and load addresses.", "anchors": ["process.cc:Process::load"]}
{"id": "C104", "title": "Every CIE and FDE of a frame section is found and lookups pick the right one", "statement": "For every well formed .eh_frame (read without a search table) or .debug_frame section, whatever the order of its entries, the CFI object holds exactly the section's CIEs; after any history of findFDE and getFDEs calls, findFDE(addr) returns the FDE whose code range contains addr, with its location, range, augmentation bytes, CIE and instructions, or nothing if no FDE covers addr; getFDEs lists every FDE once in address order.", "quantifier": "all section contents with non-overlapping FDEs, all addresses, all histories of lookups and lists", "why_tests_cant": "unbounded number and order of entries, encodings, and histories", "anchors": ["dwarf_frame.cc: CFI::CFI, CFI::putFDEorCIE, CFI::findFDE, CFI::getFDEs, CIE::CIE, FDE::FDE"]}
{"id": "C105", "title": "Lookups through .eh_frame_hdr give the answers of the table, in any history", "statement": "For every .eh_frame_hdr with a sorted table of fixed size entries (absolute or relative to the header) naming FDEs of the .eh_frame section, findFDE and getFDEs, called in any order and any number of times, give the answers that decoding every listed FDE up front would give; reading entries lazily is not observable.", "quantifier": "all sections, all table encodings of fixed size, all histories", "why_tests_cant": "lazily cached state: the answer must not depend on the history", "anchors": ["dwarf_frame.cc: CFI::CFI, CFI::ensureFDE, CFI::ensureFDEs, CFI::findFDE"]}
{"id": "C106", "title": "A CIE's contents are read correctly", "statement": "For every CIE (version 1, 3 or 4; augmentation strings of z with R, L, P, S in any order and letters that are not known, whose data is skipped by its length) the version, augmentation, code and data alignment, return address register, pointer encoding, signal flag and the extent of its instructions are those that were written.", "quantifier": "all CIEs, at any offset of any section", "why_tests_cant": "unbounded strings, LEB128 values and encodings", "anchors": ["dwarf_frame.cc: CIE::CIE, CFI::decodeCIEFDEHdr"]}
{"id": "C107", "title": "A damaged frame section is reported, not fatal", "statement": "Reading a damaged .eh_frame or .eh_frame_hdr ends in a result or an exception: it neither recurses without end nor aborts.", "quantifier": "all byte contents of the sections", "why_tests_cant": "adversarial inputs; non-termination", "anchors": ["dwarf_frame.cc: CFI::putFDEorCIE, CFI::ensureFDE"]}
{"id": "C108", "title": "Unit headers are read per the standard", "statement": "For every unit of .debug_info (DWARF 2 to 5, 32 and 64 bit format, every unit type), the unit object has the version, unit type, address size and abbreviation offset that were written, ends where the unit ends, and its root entry is looked for where its entries start.", "quantifier": "all unit headers at all offsets", "why_tests_cant": "all versions, formats, unit types and field values", "anchors": ["dwarf_unit.cc: Unit::Unit"]}
{"id": "C109", "title": "Units and entries are found whatever was asked before", "statement": "For every .debug_info and every history of getUnit, getUnits enumerations and offsetToDIE calls, the enumeration yields each unit once in order, and offsetToDIE(o) yields the entry at o of the unit whose bytes contain o, or throws if there is none; the result does not depend on which units were loaded before.", "quantifier": "all sections, all histories, all offsets", "why_tests_cant": "the set of loaded units is mutable state; unbounded histories", "anchors": ["dwarf_info.cc: Info::getUnit, Info::offsetToDIE, Info::getUnits", "libpstack/dwarf.h: Units::iterator"]}
{"id": "C110", "title": "A failed unit lookup has no lasting effect", "statement": "After getUnit threw for an offset that is no unit, later lookups give the same answers as if it had not been called.", "quantifier": "all sections, offsets and histories", "why_tests_cant": "exception paths that leave state behind", "anchors": ["dwarf_info.cc: Info::getUnit, Info::offsetToDIE"]}
{"id": "C111", "title": "Indexed addresses, strings and range lists are those of the table", "statement": "DW_FORM_addrx, strx and rnglistx values resolve to the entry with that index in the unit's contribution to .debug_addr, .debug_str_offsets or .debug_rnglists, for every index, base, table contents and 32 or 64 bit format.", "quantifier": "all tables, bases, indices, formats", "why_tests_cant": "all table layouts and indices", "anchors": ["dwarf_unit.cc: Unit::addrx, Unit::strx, Unit::rnglistx"]}
{"id": "C112", "title": "All sections of an image are found", "statement": "For every ELF64 image with a section header table, also one with so many sections that the ELF header cannot hold their number or the string table's index, sectionHeaders gives every section in order with its header and name, by the first call and every later one; images without a table have no sections, and a damaged table is reported.", "quantifier": "all images, all histories of calls", "why_tests_cant": "any number of sections and names; the result is cached, so histories matter", "anchors": ["elf.cc: Object::sectionHeaders, Object::Object", "libpstack/elf.h: Section"]}
{"id": "C113", "title": "Section contents are those of the file, decompressed", "statement": "Reading a section gives the bytes the file has for it, and nothing else; a section compressed with zlib (SHF_COMPRESSED or .zdebug_) gives exactly the decompressed data.", "quantifier": "all images, section sizes and contents, all compressed streams", "why_tests_cant": "unbounded sizes; zlib may return output in arbitrary pieces", "anchors": ["elf.cc: Section::io", "inflate.cc: InflateReader::InflateReader"]}
{"id": "C114", "title": "Symbol versions are those of the version sections", "statement": "symbolVersion gives for a version index the name that .gnu.version_r or .gnu.version_d records for it, with the library it is needed from and the predecessor, and no name for the reserved indices 0 and 1; versionIdxForSymbol gives the entry of .gnu.version for the symbol.", "quantifier": "all chains of needed and defined versions, all indices", "why_tests_cant": "linked records at arbitrary offsets, any number of them", "anchors": ["elf.cc: Object::symbolVersions, Object::symbolVersion, Object::versionIdxForSymbol"]}
{"id": "C115", "title": "Symbols by name, in any history", "statement": "findDebugSymbol(name) gives a symbol of that name from the symbol table with its index, or the undefined symbol if there is none, whatever was looked up before; a damaged table gives the same result every time.", "quantifier": "all symbol tables and all histories of lookups", "why_tests_cant": "the cache makes results depend on histories; any number of symbols", "anchors": ["elf.cc: Object::findDebugSymbol", "libpstack/elf.h: SymbolSection"]}
{"id": "C116", "title": "Build IDs and the separate debug image", "statement": "getBuildID gives the descriptor of the image's GNU build ID note; getDebug gives the debug image found by build ID, else the one .gnu_debuglink names, and the same one whenever it is asked; a debug image that does not match or is at another address is handled.", "quantifier": "all note contents, all file systems, all histories of calls", "why_tests_cant": "histories including calls that fail; any note layout", "anchors": ["elf.cc: Object::getBuildID, Object::getDebug"]}
{"id": "C117", "title": "Program headers of an image", "statement": "Opening an image gives all its program headers, sorted by address for each type, its interpreter and the end of its highest segment; files that are not ELF64 images are refused.", "quantifier": "all images", "why_tests_cant": "any number of headers in any order", "anchors": ["elf.cc: Object::Object, Object::getSegments, Object::endVA, Object::getInterpreter"]}
{"id": "C118", "title": "Damaged images are reported", "statement": "Opening or reading a truncated or damaged image or core ends in an exception or a result; it never reads outside the file's contents.", "quantifier": "all byte sequences", "why_tests_cant": "adversarial inputs", "anchors": ["elf.cc: Object::Object, Section::io", "reader.cc: MmapReader, MemReader, OffsetReader"]}
{"id": "C119", "title": "Qualified function names", "statement": "The name shown for a function is its own name qualified by the namespaces, classes and structures it is declared in, outermost first, separated by '::', also when the name and the scope come from its abstract origin or specification entry.", "quantifier": "All trees of debugging entries, functions and nesting depths.", "why_tests_cant": "Nesting and reference chains are unbounded, and follow from the compiler, not from the tests.", "anchors": ["process.cc: buildDIEName", "dwarf_die.cc: DIE::name, DIE::getParentOffset"]}
{"id": "C120", "title": "Offset in the function", "statement": "The offset shown after a function's name is the distance of the frame's code address from the function's start (its low pc, else the start of its first range, else the symbol's value); it is omitted when none is known.", "quantifier": "All functions, addresses and histories of range lookups.", "why_tests_cant": "Depends on every combination of attributes and on the order of previous lookups.", "anchors": ["process.cc: PrintableFrame::PrintableFrame"]}
{"id": "C121", "title": "Inlined calls at an address", "statement": "The inlined calls reported for a frame are exactly the inlined subroutines below its function that cover the frame's address, outermost first, each once.", "quantifier": "All trees of entries, addresses and histories of range lookups.", "why_tests_cant": "Trees are unbounded in depth and width.", "anchors": ["process.cc: PrintableFrame::PrintableFrame", "dwarf_die.cc: DIE::findEntryForAddr"]}
{"id": "C122", "title": "Lines of a frame", "statement": "A frame is printed as one line for each inlined call, innermost first, then one for the function: number, address, name with markers, arguments, offset, image, and source position; each inlined call is shown at the position of the code in it, its caller at the position of the call; frames are numbered consecutively from 0.", "quantifier": "All frames, option settings, numbers of inlined calls and frames.", "why_tests_cant": "All combinations of options and of missing information, and any number of inlined calls.", "anchors": ["process.cc: Process::dumpFrameText, Process::dumpStackText"]}
{"id": "C123", "title": "Names of types", "statement": "The text shown for a type is its name; for unnamed types built from others, the target's text with '*', '&', 'const', 'volatile' or the parenthesised parameter types appended, and 'void' for no type; producing it ends.", "quantifier": "All graphs of type entries.", "why_tests_cant": "Type graphs are unbounded and may be recursive.", "anchors": ["dwarf_die.cc: typeName"]}
{"id": "C124", "title": "What an argument of pstack means", "statement": "An argument that is a decimal number in the range of process ids denotes that process, whatever files exist; every other argument denotes a file: a core file is traced, any other ELF image becomes the executable for the arguments after it, and anything else is an error.", "quantifier": "All argument strings and file systems.", "why_tests_cant": "All strings, including numbers out of range, signs and leading zeros.", "anchors": ["process.cc: Process::load"]}
{"id": "C125", "title": "Arguments are independent", "statement": "Each argument is handled in order and on its own: the output is the concatenation of the traces, a failure is reported for its argument only and does not stop the others, and the exit status is non-zero exactly if some argument failed.", "quantifier": "All lists of arguments and all patterns of failure.", "why_tests_cant": "Lists are unbounded and failures can occur at any of them.", "anchors": ["pstack.cc: emain"]}
{"id": "C126", "title": "Repeating until interrupted", "statement": "With a delay the trace of a process is repeated until SIGINT, and the output is the traces completed up to then; an exit status of 0 means that every argument was traced.", "quantifier": "All numbers of iterations and moments of interruption.", "why_tests_cant": "The interruption may come at any moment of the schedule.", "anchors": ["pstack.cc: emain, main"]}
{"id": "C127", "title": "Native and Python traces", "statement": "Without options the native trace is printed; with -p only the Python trace, failing if the process is not Python; with -A the Python trace if there is one, followed by the native trace.", "quantifier": "All processes, option combinations and failures.", "why_tests_cant": "All combinations of options and of outcomes of both traces.", "anchors": ["pstack.cc: emain, pystack"]}
{"id": "C128", "title": "Symbols of a process by name", "statement": "Looking up a symbol in a process answers the load address plus the symbol's value in the first object, in address order, among the accepted ones that defines it (its dynamic symbols before its debugging symbols), and fails exactly if none does.", "quantifier": "All sets of objects, names and acceptance predicates.", "why_tests_cant": "Any number of objects defining the same name in any combination.", "anchors": ["process.cc: Process::resolveSymbolDetail, Process::resolveSymbol"]}
{"id": "C129", "title": "Text of the terminating signal", "statement": "The text for the signal that ended a process shows its number, code, sender or faulting address, and the reason documented for that signal and code.", "quantifier": "All siginfo contents.", "why_tests_cant": "All signals, codes and contents of the union.", "anchors": ["process.cc: operator << (SigInfo)"]}
{"id": "C130", "title": "Text of a wait status", "statement": "A wait status is shown as exit with the exit code, signal with the signal's name and whether core was dumped, or stop with the signal's name, exactly as wait(2) encodes them.", "quantifier": "All statuses.", "why_tests_cant": "The encoding has overlapping cases for which every status must be classified.", "anchors": ["process.cc: operator << (WaitStatus)"]}
{"id": "C131", "title": "Symbol lookups for libthread_db", "statement": "A symbol that libthread_db asks for in a named object is resolved in the object with that file name (in any object if no name is given), and an error is returned exactly if it is not found; no exception escapes.", "quantifier": "All object sets, object names and symbol names.", "why_tests_cant": "Any number of objects and name clashes.", "anchors": ["proc_service.cc: ps_pglobal_lookup"]}
{"id": "C132", "title": "Text of a process", "statement": "The text for a process is one line naming it, with the terminating signal if there was one, then the stack of every thread in order, each followed by an empty line; what was written before an error is kept.", "quantifier": "All processes, numbers of threads and failures.", "why_tests_cant": "Any number of threads and a failure at any of them.", "anchors": ["pstack.cc: pstack"]}
{"id": "C133", "title": "hdmp lists exactly the blocks, and marks exactly the damaged ones", "statement": "For every history of allocations and releases of a program under the debugging allocator, and whatever the program then overwrote in the guards, hdmp -a lists exactly the live blocks (latest first) and hdmp -f exactly the freed blocks still in quarantine (latest first), each once, with pointer, size and the recorded stack, and BADHEAD (BADTAIL) exactly if one of the four guard bytes before (after) the block was changed; a list is never cut short.", "quantifier": "all event histories, all memory contents, all list lengths and stack depths", "why_tests_cant": "needs every history and every corruption; depends on what memory follows the last descriptor", "anchors": ["hdmp.cc:printBlocks", "heap.c:build_alloc", "heap.h:memdesc"]}
{"id": "C134", "title": "hdmp's report is complete", "statement": "For every state of the allocator in memory hdmp prints the five call counts, the whole stack at termination, and the lists selected by -a, -f, -b (all without options); several arguments give their reports one after another; an argument that is no core gives an error.", "quantifier": "all allocator states, settings, options and argument lists", "why_tests_cant": "the structures come from another process's memory with arbitrary settings", "anchors": ["hdmp.cc:dumpHeap", "hdmp.cc:printStack", "hdmp.cc:main"]}
{"id": "C135", "title": "The recorded stack of a block is its chain of return addresses", "statement": "For every stack with frame pointers the allocator records with a block exactly the return addresses of its callers, up to HDMP_STACKDEPTH, in the form hdmp reads back, never writes beyond the descriptor, ends on every memory contents, and does not fault.", "quantifier": "all stacks, all memory contents, all settings of the depth", "why_tests_cant": "depends on arbitrary frame chains and settings", "anchors": ["heap.c:getstacktrace", "heap.c:build_alloc"]}
{"id": "C136", "title": "The history of large allocations is exact", "statement": "After every run the remembered large blocks are exactly the first HDMP_BIG_COUNT blocks given back whose size is at least HDMP_BIG_THRESH, in order, and hdmp -b lists them without marking blocks of a correct program as damaged.", "quantifier": "all histories, thresholds and counts", "why_tests_cant": "needs every history, and every reuse of the memory by the real allocator", "anchors": ["heap.c:free_desc", "hdmp.cc:dumpHeap"]}
{"id": "C137", "title": "JSON documents are valid, complete and unambiguous", "statement": "Whatever value made of nulls, booleans, integers (of at most 64 bits), plain strings, lists, string-keyed maps and objects is printed with json(), nested to any depth and of any size, the output is a JSON text in the sense of RFC 8259 whose value is the one given, with the elements and members in order, and no other reading of the text exists.", "quantifier": "all values of any depth and size", "why_tests_cant": "The output must be valid for every nesting of containers and every string; tests print a few fixed documents.", "anchors": ["libpstack/json.h: operator<< for JSON<T>", "libpstack/json.h: print_list_container", "libpstack/json.h: print_object_container", "libpstack/json.h: JObject::field"]}
{"id": "C138", "title": "The dump shows the call frame instructions of a program as they are", "statement": "For every program of standard call frame instructions (and DW_CFA_GNU_args_size, DW_CFA_GNU_window_save) whose operands are not negative and whose advances are below 2^31, without value-offset rules, the dump is one JSON list with an object for each instruction, in order, with the standard's name under 'type' and each operand under its key.", "quantifier": "all programs, operands and positions in a section", "why_tests_cant": "Every instruction and every operand encoding must be consumed exactly, or everything after it is shown wrong.", "anchors": ["dump.cc: dumpCFAInsn", "dump.cc: operator<<(JSON<DumpCFAInsns>)", "libpstack/dwarf/cfainsns.h"]}
{"id": "C139", "title": "Signed operands, long advances and value rules in the dump of call frame instructions", "statement": "Every valid call frame program can be dumped: signed operands are shown with their sign, advances of 2^31 and more as positive numbers, value-offset rules are shown, and the dump of a damaged program ends.", "quantifier": "all valid programs, and damaged ones", "why_tests_cant": "Compilers seldom emit these instructions, so tests with real programs do not meet them.", "anchors": ["dump.cc: dumpCFAInsn"]}
{"id": "C140", "title": "The dump of a frame section read as a whole shows every CIE and FDE", "statement": "For every well formed .debug_frame, or .eh_frame without a search table, the dump is a JSON object with the CIEs under their offsets in ascending order, each with version, augmentation, alignment factors, return address register, LSDA encoding and instructions, and the FDEs in the order of their code, each with start, range and instructions; nothing is missing and nothing is added.", "quantifier": "all well formed sections", "why_tests_cant": "The CIE of an FDE may come before or after it and the FDEs in any order; a test has one section.", "anchors": ["dump.cc: operator<<(JSON<Dwarf::CFI>)", "dump.cc: operator<<(JSON<Dwarf::CIE>)", "dump.cc: operator<<(JSON<unique_ptr<FDE>>)", "dwarf_frame.cc: CFI::getFDEs", "dwarf_frame.cc: CFI::getCIEs"]}
{"id": "C141", "title": "The dump of a frame section with a search table shows every CIE and FDE", "statement": "For every well formed .eh_frame with an .eh_frame_hdr search table the dump shows every FDE of the table and every CIE they use.", "quantifier": "all well formed sections and tables", "why_tests_cant": "Whether the CIEs have been read depends on the order in which the members are printed and on what was looked up before.", "anchors": ["dump.cc: operator<<(JSON<Dwarf::CFI>)", "dwarf_frame.cc: CFI::ensureFDEs"]}
{"id": "C142", "title": "Stacks as JSON", "statement": "With -j, what is written for a process is one valid JSON text, a list with one object per thread in order of thread id: its id, name (null if not known), the thread library's facts if any, and its frames in order, each with address, offset in the function (null if not known), whether it is a signal trampoline, qualified name, load address, symbol (null if none, else its name, value, size and other fields) and all source places. It can be read in no other way.", "quantifier": "every list of threads, frames, symbols and source places", "why_tests_cant": "stacks, names and places are unbounded; validity is a property of the whole text", "anchors": ["process.cc: operator<<(JSON<Lwp>), operator<<(JSON<StackFrame>)", "pstack.cc: pstack", "libpstack/json.h: JObject"]}
{"id": "C143", "title": "JSON of several processes", "statement": "With -j and several arguments the output as a whole is a JSON text that a parser accepts.", "quantifier": "every number of processes and every stack", "why_tests_cant": "depends on the sequence of documents in one run", "anchors": ["pstack.cc: emain", "pstack.cc: pstack"]}
{"id": "C144", "title": "A bad frame does not spoil the JSON of the rest", "statement": "If one frame of one thread cannot be described (an exception while its function is looked up), the output of pstack -j for the process is still valid JSON and shows the other threads.", "quantifier": "every list of threads and every position of the failing frame", "why_tests_cant": "the failing position and the state of the output at that point are unbounded", "anchors": ["process.cc: operator<<(JSON<StackFrame>)", "libpstack/json.h: JObject, print_list_container"]}
{"id": "C145", "title": "JSON numbers are decimal whatever was written before", "statement": "Numbers in the JSON of a process are decimal and exact, also after errors in the output of earlier processes of the same run.", "quantifier": "every history of processes in a run", "why_tests_cant": "depends on stream state left by earlier output", "anchors": ["libpstack/json.h: operator<<(Escape)", "pstack.cc: emain"]}
{"id": "C146", "title": "The dynamic linker's data are found without the kernel's auxiliary vector", "statement": "When the auxiliary vector leads to no dynamic linker data, they are looked for at the program's own dynamic segment, moved by the difference between the entry point in the file and in the process; failing that, at the interpreter's symbol _r_debug, with the interpreter recorded as an object at its base address.", "quantifier": "every program file, every memory of the process, every set of dynamic entries", "why_tests_cant": "ranges over all memories and all files; needs a process with a damaged auxiliary vector", "anchors": ["libpstack/process.cc: Process::findRDebugAddr, Process::extractDtDebugFromDynamicSegment"]}
{"id": "C147", "title": "canal's report counts every reference once", "statement": "canal's report has one line for each symbol that matches a pattern and is referred to, with the number of words in all the process's mappings (device memory excepted) that point into it and the name of its object, larger numbers first; -s lists each such word with its address, the symbol's size and the offset.", "quantifier": "every process image, mapping layout, set of objects, pattern list and both word sizes", "why_tests_cant": "ranges over all memories, symbol tables and orders of an unstable sort", "anchors": ["canal.cc: mainExcept, search, SymbolStore"]}
{"id": "C148", "title": "canal lists the symbols it searches for", "statement": "canal -V lists exactly the symbols whose names match one of the patterns (or the default pattern for vtables), each once.", "quantifier": "every set of objects, symbol tables and patterns", "why_tests_cant": "ranges over all tables and patterns", "anchors": ["canal.cc: mainExcept, globmatch"]}
{"id": "C149", "title": "canal's address options", "statement": "Each -f address, with the -e that follows it, is searched for as a half-open range of addresses; the address of each word in one of the ranges is printed once for each range, in order; options that make no sense are rejected.", "quantifier": "every sequence of options and every process image", "why_tests_cant": "ranges over all option sequences and memories", "anchors": ["canal.cc: mainExcept, search"]}
{"id": "C150", "title": "The dump of a unit's entries says what the entries say", "statement": "Dumping a unit's debugging entries prints a JSON text with exactly one reading: for the root and for every entry below it, in document order, its name (its own, or that of the entry it is a specification or an instance of), its tag, its offset in the section and in the unit, its parent's offset (0 for the root), each of its attributes with the form and the value (numbers, strings, flags, blocks as their offset and length, encodings by name), and its children in order; whatever part of the tree was looked at before.", "quantifier": "every unit of a well-formed tree of entries whose tags, attributes and forms are in the standard's tables and whose strings are text, every string section, every history of navigation before it", "why_tests_cant": "the tree is decoded lazily and shared with earlier lookups; a test prints a few units from a fresh process", "anchors": ["dump.cc:operator<<(JSON<DIE>), JSON<DIE::Attribute>", "dwarf_die.cc:DIE::attributes, DIE::ChildIterator", "json.h:JSON"]}
{"id": "C151", "title": "The dump of an image's sections says what the section headers say", "statement": "Dumping an ELF image lists its sections in order in a JSON text with exactly one reading: for each its size, its name, the names of its flags, its address, offset, link, info and type; for a symbol table every symbol with its name, value, size, binding, type and section; for a relocation table every relocation with its place, symbol and kind; for .comment and the debug links the text.", "quantifier": "every image whose section header table and sections are well formed and not compressed, read from disk or mapped, every order in which a set of flag names is kept", "why_tests_cant": "ranges over all images; a test dumps a few files from one compiler", "anchors": ["dump.cc:operator<<(JSON<std::unique_ptr<Elf::Section>>), JSON<Elf::Sym, Section>, JSON<Elf::Rela>, sh_flag_names", "elf.cc:Object::getSectionHeaders, Section::io"]}
{"id": "C152", "title": "The dump of an image's segments says what the program headers say", "statement": "Dumping an ELF image lists its segments in a JSON text with exactly one reading: for each type of segment that occurs, in the order of the types, all the segments of that type in the order of their addresses, with every field of the program header, the names of the permissions, and for PT_DYNAMIC every entry with its tag by name, its value, and the library, path or object name it stands for; whatever address was looked up before.", "quantifier": "every image with well-formed program headers whose loaded segments do not overlap, every dynamic section whose string table is loaded from the file, every earlier segment lookup", "why_tests_cant": "the strings are found through the cached segment lookup: the result must not depend on its history; ranges over all images", "anchors": ["dump.cc:operator<<(JSON<Elf::Phdr, const Elf::Object *>), JSON<Elf::Dyn, ...>, JSON<DynTag>, JSON<ProgramHeaderName>", "elf.cc:Object::getSegmentForAddress, elf.h:programHeaders_"]}
{"id": "C153", "title": "The dump of a note says what the note says", "statement": "Dumping an ELF note prints a JSON text with exactly one reading: its name, its type and, for the notes of a core file, the process status, process information and auxiliary vector with each field's value; for GNU notes the ABI tag and the build ID in hexadecimal.", "quantifier": "every note with a name in range, every descriptor that is one of the x86-64 structures, any values of the fields, signed or not", "why_tests_cant": "ranges over all values of all fields; tests have one core file", "anchors": ["dump.cc:operator<<(JSON<NoteDesc>), JSON<prstatus_t>, JSON<prpsinfo_t>, JSON<Elf::auxv_t>, JSON<timeval>"]}
{"id": "C154", "title": "The dump of an ELF image is complete", "statement": "Dumping an ELF image (pstack -d) prints one JSON text with exactly one reading: the type, entry point and ABI of the header, every section, every segment, every note of every note segment, the files whose symbol versions are needed with their version numbers, and the interpreter if there is one.", "quantifier": "every well-formed image (C151 to C153), with or without versions and interpreter, every earlier segment lookup", "why_tests_cant": "composes all parts for all images", "anchors": ["dump.cc:operator<<(JSON<Elf::Object>), JSON<Elf::SymbolVersioning>", "elf.cc:Object::getInterpreter, Object::symbolVersions, elf.h:notes"]}
{"id": "C155", "title": "The dump of a line table", "statement": "For every well-formed line table of versions 2 to 5 whose names are plain text and whose rows refer to its files, dumping it prints a JSON text that says default_is_stmt, opcode_base, the opcode lengths, every file with name, directory and time, every directory, and every row of the matrix in order with its file, line and address; the text can be read in no other way.", "quantifier": "every version, format (32/64 bit), header, file and directory table and line number program", "why_tests_cant": "an unbounded space of tables and programs; tests fix a few", "anchors": ["dump.cc:operator<<(JSON<FileEntry>)", "dump.cc:operator<<(JSON<LineState>)", "dump.cc:operator<<(JSON<LineInfo>)", "dwarf_lineinfo.cc:LineInfo::build"]}
{"id": "C156", "title": "The dump of public names", "statement": "For every .debug_pubnames section that is a sequence of well-formed tables, the dump prints for each table in order its length, version, the unit's offset and size, and each name with its offset.", "quantifier": "every sequence of tables and names", "why_tests_cant": "quantifies over all sections", "anchors": ["dump.cc:operator<<(JSON<PubnameUnit>)", "dump.cc:operator<<(JSON<Pubname>)", "dwarf_info.cc:Info::pubnames"]}
{"id": "C157", "title": "The dump of a macro header", "statement": "For every .debug_macro unit header, the dump prints the offset of its line table (-1 if it has none) and, in order of opcode, the vendor-defined opcodes with the forms of their operands.", "quantifier": "every header, position in the section and opcode table", "why_tests_cant": "quantifies over all headers and permutations of the table", "anchors": ["dump.cc:operator<<(JSON<Macros>)", "dwarf_macros.cc:Macros::readD5"]}
{"id": "C158", "title": "The dump of a unit", "statement": "For every unit of .debug_info, whatever has been asked about its entries before, the dump prints its length, offset, version, address size, identification and type, its entries, its line table if it is a compilation or partial unit with one, and its macros' header if it has one; afterwards the unit has forgotten its entries.", "quantifier": "every unit version and kind, tree of entries, line table, macro header, and history of navigation", "why_tests_cant": "unbounded trees and histories", "anchors": ["dump.cc:operator<<(JSON<Unit::sptr>)", "dwarf_unit.cc:Unit::Unit", "dwarf_unit.cc:Unit::getLines", "dwarf_unit.cc:Unit::getMacros", "dwarf_unit.cc:Unit::purge"]}
{"id": "C159", "title": "The dump of an image's debug information", "statement": "For every .debug_info that is a sequence of units and every .debug_pubnames, the dump prints one JSON text that says the units in order, the tables of public names in order, and the call frame information of .debug_frame and .eh_frame where there is any.", "quantifier": "every list of units, tables and frame sections", "why_tests_cant": "quantifies over whole files", "anchors": ["dump.cc:operator<<(JSON<Info>)", "dwarf_info.cc:Info::getUnits"]}
{"id": "C160", "title": "stackusers reports how deep each function's stack gets", "statement": "For every symbol of .symtab that has a size, lies in an executable segment and is one of the names on the command line (any, if none are given), stackusers prints a line with the largest offset that a register is saved at or that the CFA has anywhere in the function's call frame program (0 if none is positive), the distance from the symbol to the last location of the program plus one, the symbol's size and its name, in the order of the symbol table; it finds the program with or without a search table, whatever it looked up before.", "quantifier": "all frame sections, search tables, symbol tables, segments and lists of names", "why_tests_cant": "The maximum ranges over every state of every frame program, and lookups share lazily filled tables; a test sees a few functions.", "anchors": ["stackusers.cc: processImage", "stackusers.cc: main", "libpstack/dwarf.h: CIE::execInsns", "dwarf_frame.cc: CFI::findFDE"]}
{"id": "C161", "title": "A core's threads are walked from their own saved registers", "statement": "For a thread of a core, every register that pstack gives by its DWARF number is the one the kernel saved for that thread: the general ones from its process status note, the vector, x87 and control ones from the first floating point note among that thread's own notes. Listing a core's stacks gives every thread of the core, once, each with the stack walked from those registers; a thread that is not in the core has no registers.", "quantifier": "every sequence of notes (any number of threads and any notes between them), every contents of the register areas, every register number", "why_tests_cant": "The notes of all threads are in one sequence; taking a register set from a neighbouring thread's notes, or a field from a wrong offset, shows only for particular layouts and values.", "anchors": ["proc.h: Process::getRegset", "process.cc: Process::getCoreRegs, Process::getStacks", "dead.cc: CoreProcess::getRegs, CoreProcess::listLWPs", "libpstack/arch-x86_64.h: opReg"]}
{"id": "C162", "title": "libthread_db sees a core's memory, registers and process id as they were", "statement": "A memory request of libthread_db against a core is answered with success and exactly the bytes those addresses held if the process had all of them, and with an error otherwise; a request for a thread's registers gives exactly that thread's general registers, or an error if there is no such thread; the process id is the one the core records.", "quantifier": "every core layout, address, length, thread id and note sequence", "why_tests_cant": "Requests come from a library at addresses that depend on the process; a short read reported as success corrupts the thread list only for particular layouts.", "anchors": ["proc_service.cc: ps_pread, ps_pdread, ps_lgetregs, ps_getpid", "dead.cc: CoreReader::read, CoreProcess::getRegs, CoreProcess::getPID"]}
{"id": "C163", "title": "Each stack bears the thread that runs on it", "statement": "Adding libthread_db's information to the stacks neither adds, loses nor changes a stack; the stack of an LWP bears the thread said to run on that LWP (the last, if several), and nothing if there is none; the threads said to run on an LWP that has no stack, and only those, are warned about.", "quantifier": "every set of stacks, every list of threads in any order, and every pattern of failures to describe a thread", "why_tests_cant": "The order and failures of the thread list come from another library and from a racing or corrupt process.", "anchors": ["process.cc: Process::getStacks", "proc.h: Process::listThreads"]}
{"id": "C164", "title": "A task's name is shown as the kernel has it", "statement": "The name shown for a live thread is the name in its /proc stat line, whatever bytes it is made of, parentheses, spaces and newlines included; no contents of that file make pstack fail.", "quantifier": "every task name, id and remaining fields; every file contents", "why_tests_cant": "Names are chosen by the program under observation and may contain the very characters that delimit them.", "anchors": ["live.cc: LiveProcess::getTaskName", "process.cc: Process::getTaskName"]}
{"id": "C165", "title": "What pstack has already read does not change a stack", "statement": "The stack of a thread is the same whether it is the first one unwound or comes after any others: reading an image's frame section on demand and remembering rows already worked out never changes a result. The caller of a frame is the one given by the FDE that covers the frame's address in the frame section of the image loaded there, wherever and however often that image is loaded; an address no FDE covers is treated as having no call frame information. All frame sections of an image count.", "quantifier": "every set of loaded objects with well-formed frame sections, with or without a search table, every sequence of register sets unwound before, every frame", "why_tests_cant": "Results depend on the order of lookups through shared lazily filled tables; a test sees a few orders of a few images.", "anchors": ["dwarfproc.cc: StackFrame::unwind, StackFrame::scopeIP, ProcessLocation, CodeLocation", "dwarf_info.cc: Info::getCFI", "dwarf_frame.cc: CFI::CFI, CFI::findFDE", "process.cc: Lwp::unwind"]}
{"id": "C166", "title": "Python values of every kind show what they hold", "statement": "Printing a Python float, integer, boolean, None, type, class, module, instance or list shows exactly the value stored in that object: the bits of the float, the number, the name of the type, the class and attribute dictionary of the instance, the elements in order.", "quantifier": "every readable object of these kinds in any memory, any printer state and options", "why_tests_cant": "tests print a handful of live objects; the field offsets and order must be right for every object", "anchors": ["python.tcc:FloatPrinter", "python.tcc:TypePrinter", "python.tcc:ModulePrinter", "python.tcc:HeapPrinter", "python2.cc:ClassPrinter", "python2.cc:InstancePrinter", "python2.cc:IntPrint", "python3.cc:BoolPrinter"]}
{"id": "C167", "title": "Python arguments and local variables show their own values", "statement": "With arguments and locals enabled, a Python frame shows each positional argument, argument tuple element, keyword-only argument and argument dictionary, and each local variable, cell and free variable by name with its own value, in order, then the dictionary of locals.", "quantifier": "every frame with any signature and any number of variables", "why_tests_cant": "pairing names with slots depends on counts stored in the code object for every possible signature", "anchors": ["python.tcc:printArguments", "python.tcc:printTupleVars", "python.tcc:FramePrinter"]}
{"id": "C168", "title": "A process that inspects itself", "statement": "When a process examines itself, the registers of the calling thread are those it had, each general and floating point register in its own place; memory and strings read are what the process itself has at the address; the only thread listed is the calling one, with the stack walked from its registers.", "quantifier": "every context, prior contents of the receiving structures, address and length, and memory", "why_tests_cant": "The mapping is a table of fields; a test checks whichever registers happen to differ, and reads memory that happens to be mapped.", "anchors": ["self.cc: SelfProcess::getRegs, SelfProcess::listLWPs, SelfProcess::SelfProcess", "process.cc: gregset2user, Process::getCoreRegs, Process::getStacks"]}
{"id": "C169", "title": "The alternate debug file", "statement": "The alternate debug information of an image is that of the file its .gnu_debugaltlink names: the name itself if it is absolute, else the name within the directory of the file that has the link, after symbolic links. It is the same answer whenever it is asked for, whatever else is asked of the context in between. Strings and entries of the alternate forms come from that file's own sections; without it strings read as unavailable and references raise an error. An image with no such link uses no alternate file.", "quantifier": "every link name, every file system of symbolic links without cycles, every history of requests, every offset", "why_tests_cant": "Paths, link chains and histories are unbounded; only the few in test data are exercised", "anchors": ["dwarf_info.cc: Info::getAltImageName, Info::getAltDwarf", "dwarf_die.cc: DIE::Attribute::operator std::string, DIE::Attribute::operator DIE"]}
{"id": "C170", "title": "Which Python interpreter is traced", "statement": "With Python traces asked for, the interpreters shown are those of the list kept by the first loaded object, in the order of load addresses, that is called python3 and defines Python's runtime symbol: the list is at that symbol's address in the process, at the place the release keeps it; or, if an object called python has Python's own pointer to the list, those of the list it points to. The printer used is that of the release the object's file is named after. Nothing else is ever traced. A process with no such object is no Python process.", "quantifier": "every process: any number of loaded objects, with or without images, any names and symbols", "why_tests_cant": "loaded objects, names and symbol tables are unbounded; tests see one interpreter", "anchors": ["python.cc: getPyInterpInfo, getInterpHead", "python2.cc: getInterpHead<2>", "python3.cc: getInterpHead<3>", "pstack.cc: pystack, doPy"]}
{"id": "C171", "title": "A core's signal and auxiliary vector are those its notes record", "statement": "The text written for a core begins with its name and, if its notes record a signal, the number, code, sender, descriptor and address of the first signal recorded, with the reason in words for a fault; then every thread's stack in order, each followed by an empty line. Without a recorded signal nothing is said of one. The auxiliary vector used to find the program is the contents of the first note that holds one.", "quantifier": "every core file: any number of note segments, each a non-empty sequence of well-formed named notes with full-size contents, any signal, any stacks", "why_tests_cant": "notes are chained by lengths in the file, in any number and order", "anchors": ["dead.cc: CoreProcess::getSignalInfo, CoreProcess::getAUXV", "pstack.cc: pstack", "process.cc: operator << (SigInfo)"]}
{"id": "C172", "title": "The help text lists every option with its letter, argument and description", "statement": "The text a set of options prints for help has one entry for each option that was added, in the order added: its letter if it has one, its long name, the name of its argument if it takes one, and its own description, whether or not a command line has been parsed before and however often.", "quantifier": "every set of options with distinct names and letters, any descriptions and argument names; any number of earlier calls", "why_tests_cant": "option tables are unbounded, and entries are found through a second table keyed by generated values", "anchors": ["flags.cc: Flags::dump, Flags::add, Flags::done", "pstack.cc: usage"]}
{"id": "C173", "title": "An option that takes a number is set to the number given", "statement": "The argument of an option that takes a whole number is read as in C: decimal, octal after a 0, hexadecimal after 0x, with or without a sign, and the option is set to that number if it is in the range of an int. Anything else is rejected.", "quantifier": "every argument text", "why_tests_cant": "texts are unbounded", "anchors": ["libpstack/flags.h: convert, Flags::set"]}
{"id": "C174", "title": "What pstack does follows from its command line", "statement": "For every correct command line: a switch is on exactly if its option is given; a number, delay, executable, command or output file is the last one given or its default; search directories add up, from the last --clear-search-paths on; -v counts. If --help, --version or a dump is asked for, each prints its text, in order, and nothing is traced; the last one determines the exit status. Otherwise a command is run and traced, or the operands are traced in order and the output goes to the output file if one is given, else to standard output; without operands the usage is printed and the status is 64. An incorrect command line lists the options and traces nothing, with status 70.", "quantifier": "every command line over pstack's options, any operands, and every world of processes, files and images", "why_tests_cant": "command lines are unbounded sequences of options in any order, with abbreviations, clusters and repetitions", "anchors": ["pstack.cc: emain, main, usage", "flags.cc: Flags::parse", "libpstack/flags.h: Flags::set, Flags::setf, convert"]}
{"id": "C175", "title": "The heading of a Python thread", "statement": "However many processes one run traces, each Python thread is headed by its own pthread (in hexadecimal) and the id of its own kernel thread (in decimal), read from the pthread where that process' thread library says it is; a thread that belongs to no pthread, or a process that does not say where it is, is headed \"anonymous thread\". What is said of one process does not depend on those traced before it.", "quantifier": "every sequence of Python processes traced in one run, each with any lists of interpreters and of fewer than 128 threads", "why_tests_cant": "The offset is found once per run and kept: what a process' headings are depends on the history of processes traced before it.", "anchors": ["python.cc:pthreadTidOffset", "python.tcc:printThread", "python.tcc:printInterp"]}
{"id": "C176", "title": "A dynamic symbol by name, from an image's bytes", "statement": "A symbol of an ELF image's dynamic symbol table can be looked up by name: with a GNU hash section, the first of the hashed symbols of that name is found with its index; with only a System V hash section, a symbol of that name other than symbol 0; the undefined symbol is the answer exactly if there is none of that name. The tables are the ones the sections' links say.", "quantifier": "every ELF image, every well-formed hash table over every symbol table, every name", "why_tests_cant": "Which table is used depends on which sections the image has, and the answer depends on every bucket, chain and name of it; no set of sample libraries covers them.", "anchors": ["libpstack/elf.h:Object::get_hash", "elf.cc:Object::findDynamicSymbol", "elf.cc:GnuHash::findSymbol", "elf.cc:SymHash::findSymbol"]}
{"id": "C177", "title": "The address of a symbol, from the images' bytes", "statement": "The address of a symbol of a process is the load address of the first image, in the order of addresses and among those asked about, whose own symbol tables define it, plus its value there: the dynamic symbols that are hashed and, if asked for, those of .symtab. If no image defines it, the lookup fails. What was looked up before makes no difference.", "quantifier": "every list of loaded images, every image with any well-formed symbol and hash tables, every name and every history of lookups", "why_tests_cant": "It depends on every table of every image mapped at the time, and on what earlier lookups left in the caches.", "anchors": ["process.cc:Process::resolveSymbolDetail", "process.cc:Process::resolveSymbol", "elf.cc:Object::findDynamicSymbol", "elf.cc:Object::findDebugSymbol"]}
{"id": "C178", "title": "The symbol at an address, from an image's bytes", "statement": "The symbol found for an address is the first that covers it, with its name: in .symtab, else in .dynsym, else what the embedded debug data has. A symbol covers an address if the address is one of its bytes', it is of the type asked for and it is in an allocated section; a symbol without a size covers its own address.", "quantifier": "every ELF image, every symbol tables in it, every address and symbol type", "why_tests_cant": "Which symbol is found depends on every entry of both tables, on the links between sections and on the flags of the sections.", "anchors": ["elf.cc:Object::findSymbolByAddress", "elf.cc:Object::findSym", "elf.cc:Object::getSymtab"]}
{"id": "C179", "title": "The source line of an address, from the sections of debugging information", "statement": "For an address that a tuple of .debug_aranges or a unit's own ranges put in a unit whose root entry does not exclude it, and whose line table (versions 2 to 5) is in .debug_line, source() answers, after any earlier questions, exactly one file and line - those of a row of the line-number matrix the unit's program means that covers the address within one sequence, the file's directory in front of it when verbose - or nothing if no row covers it; for an address the root entry excludes, or that is in no unit, it answers nothing.", "quantifier": "every set of address range tables, units, root entries, line tables and programs, every history of questions and every address", "why_tests_cant": "tests compare a few addresses of one binary; whether the tables agree for every address and after every history of cached lookups cannot be tried", "anchors": ["dwarf_info.cc: Info::sourceFromAddr, Info::lookupUnit, Info::linesAt", "dwarf_unit.cc: Unit::sourceFromAddr, Unit::getLines", "dwarf_die.cc: DIE::containsAddress", "dwarfproc.cc: CodeLocation::source"]}
{"id": "C180", "title": "Memory of decoded entries", "statement": "However entries of the debugging information are decoded and let go - including decodings that fail - destroying one frees exactly the blocks that were made for its attributes, each once and nothing else; blocks of entries still held stay valid; and when no decoding failed, no block outlives the entries.", "quantifier": "every section contents, unit, set of abbreviations and attribute forms, and every history of decoding, failing and destroying entries in any order", "why_tests_cant": "whether the forms a constructor allocates for and those a destructor frees agree, for every combination of forms and every order of destruction, cannot be enumerated by tests", "anchors": ["dwarf_die.cc: DIE::Raw::Raw, DIE::Raw::~Raw, DIE::Attribute::Value::Value", "dwarf_unit.cc: Unit::purge"]}

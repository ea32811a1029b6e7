{"id": "C01", "title": "Trace round trip is exact for well-formed traces", "statement": "If an application opens a trace, writes any finite sequence of well-formed records and closes it, then a reader opened on the resulting bytes returns exactly that many records, in order, with the same instruction word, instruction address, instruction and data real addresses, page shifts, guest page shifts, page-table walks, branch and conditional flags, and then reports end of trace. Well-formed = what the format can represent (stated explicitly in the theorem: real page numbers fit 32 bits, real and effective addresses agree below the page shift, translation information only changes at a discontinuity, a walk accompanies either both or neither of the two real addresses of one stored record, ...).", "quantifier": "all magic numbers, all finite record sequences meeting the well-formedness predicate", "why_tests_cant": "The set of record sequences is infinite and the encoding of one record depends on the previous one; tests check a handful of sequences.", "anchors": ["qtlib/qtwriter.c: qtwriter_open, qtwriter_write_record, qtwriter_write_header, qtwriter_close", "qtlib/qtreader.c: qtreader_initialize, qtreader_next_record"]}
{"id": "C02", "title": "Record framing never slips", "statement": "For every sequence of records whose walks the format can frame (a much weaker condition than C01: no condition at all on addresses, page numbers, page shifts, branch flags), the reader returns exactly one record per written record; instruction words, instruction addresses, data addresses and next-instruction addresses are those written, and instruction translation data are those of the latest record that followed a discontinuity.", "quantifier": "all magic numbers and all finite record sequences meeting the framing predicate, fields otherwise arbitrary", "why_tests_cant": "Framing errors appear only for particular flag combinations of two consecutive records (2^12+ combinations times data).", "anchors": ["qtlib/qtwriter.c: qtwriter_write_record", "qtlib/qtreader.c: qtreader_next_record, parse_radix, parse_radix_on_radix"]}
{"id": "C03", "title": "A crash before close loses at most the last record", "statement": "If the process dies after any number of write calls without closing the trace (the file keeps its zero-filled preallocated tail), a reader returns every record written except the last one and then reports end of trace without error state being mistaken for data; the exception is a trace whose last stored instruction is a prefix word, where one phantom record is returned.", "quantifier": "all record sequences, every crash point between calls, every tail length of zeros", "why_tests_cant": "Requires reasoning about every crash point and the zero-filled tail.", "anchors": ["qtlib/qtwriter.c: qtwriter_open, qtwriter_write_record (fallocate_or_ftruncate)", "qtlib/qtreader.c: qtreader_next_record"]}
{"id": "C04", "title": "Truncating a trace only loses a suffix of its records", "statement": "For arbitrary bytes, the records a reader returns from any byte-prefix of a file are a prefix of the records it returns from the whole file.", "quantifier": "all byte strings, all cut points", "why_tests_cant": "All byte strings and cut points.", "anchors": ["qtlib/qtreader.c: GET8..GET64, SKIP, qtreader_parse_header, qtreader_next_record"]}
{"id": "C05", "title": "Reading always makes progress and terminates", "statement": "On arbitrary bytes every successful next-record call consumes at least six bytes, skipping embedded headers terminates, and so the usual read-until-false loop ends after at most size/6 records.", "quantifier": "all byte strings, all reader states", "why_tests_cant": "Non-termination can only be excluded by proof.", "anchors": ["qtlib/qtreader.c: qtreader_next_record, qtreader_parse_header"]}
{"id": "C06", "title": "Reader memory accesses on hostile input", "statement": "On arbitrary bytes the reader never reads outside the buffer it was given except for the 4-byte look-ahead at a record boundary, and never writes outside its record if the walk counts and register counts in the input are within the record's array sizes. Both exceptions are real: there are inputs for which it looks past the end of the buffer and inputs for which it writes outside the record's arrays.", "quantifier": "all byte strings and reader states", "why_tests_cant": "Universal over inputs; the failing inputs must be constructed.", "anchors": ["qtlib/qtreader.c: qtreader_next_record, parse_radix, parse_radix_on_radix, do_parse_regs"]}
{"id": "C07", "title": "Writer never writes past its file mapping", "statement": "For every sequence of open/write calls, with extension requests that may succeed or fail arbitrarily, every byte the writer stores lies inside the currently mapped region, and the mapped region is never more than two buffers larger than the data stored.", "quantifier": "all record sequences (including malformed records), all outcomes of file extension", "why_tests_cant": "Universal over histories and failures of fallocate/mremap.", "anchors": ["qtlib/qtwriter.c: qtwriter_open, qtwriter_write_record, qtwriter_write_header, BUFFER"]}
{"id": "C08", "title": "Writer aborts exactly on unspecified or oversized walks", "statement": "A write call aborts the program if and only if the stored walk that would be emitted is a single walk of unspecified kind, or a multiple walk with more than 4 entries per walk or more than 5 walks.", "quantifier": "all pairs of consecutive records", "why_tests_cant": "If-and-only-if over all records.", "anchors": ["qtlib/qtwriter.c: qtwriter_write_record, qtwriter_write_header (assert)"]}
{"id": "C09", "title": "Instruction addresses form a chain", "statement": "For arbitrary input bytes, each returned record's next-instruction address is the instruction address of the following record whenever no embedded header intervenes; if the stored record has no explicit address it is the address plus 4 modulo 2^64.", "quantifier": "all byte strings", "why_tests_cant": "Universal over inputs.", "anchors": ["qtlib/qtreader.c: qtreader_next_record"]}
{"id": "C10", "title": "Branch flags of every returned record are coherent", "statement": "For arbitrary input bytes every returned record satisfies: conditional implies branch; taken implies branch; taken exactly when a termination code is present and the next address differs from address+4; an instruction word that is an unconditional branch is never reported conditional; a conditional-branch word without a termination code is reported as a conditional branch not taken.", "quantifier": "all byte strings", "why_tests_cant": "Universal over inputs.", "anchors": ["qtlib/qtreader.c: qtreader_next_record", "qtlib/branch.h: is_conditional_branch, is_unconditional_branch"]}
{"id": "C11", "title": "Writer traces that a reader cannot recover (negative results)", "statement": "The unconditional claim 'any records the writer accepts without aborting are read back' is false: (a) a guest instruction page shift and a data page shift in one stored record come back swapped; (b) a data walk stored with an instruction real address without a walk, or vice versa, desynchronises the reader; (c) a first record with walk entries but no instruction real address desynchronises it; (d) a first record with entries but zero walks desynchronises it; (e) an instruction walk's kind is not recovered after the first record; (f) a sequential instruction's changed translation is not recovered; (g) an all-zero instruction word that does not follow a prefix ends the trace.", "quantifier": "existential: explicit witnesses", "why_tests_cant": "Tests exercise the combinations that work; the counterexamples were found by attempting the proof.", "anchors": ["qtlib/qtwriter.c: qtwriter_write_record lines 331-363,479-491", "qtlib/qtreader.c: lines 656,848-860,893-933"]}
{"id": "C12", "title": "Branch annotation is total except for three aborting shapes", "statement": "With branch annotation on, next-record classifies every branch record as in the documented table; it aborts only for: a bc with an always-taken BO other than bcl 20,31,$+4; a conditional bc/bclr/bcctr/bctar recorded with a non-conditional termination; (and never for traces whose conditional flags agree with the instruction word and that contain no always-taken bc).", "quantifier": "all instruction words and flags", "why_tests_cant": "Universal over 2^32 words and flags.", "anchors": ["qtlib/qtreader.c: annotate_branch"]}
{"id": "C13", "title": "TLB-invalidate annotation decodes the ISA fields", "statement": "With tlbie annotation on, a tlbie/tlbiel record with exactly two output registers and the radix bit set gets RIC/PRS/R/IS, page shift, effective page, PID, LPID exactly as the ISA fields of RB/RS, except that the most significant bit of the effective page is dropped (so it is right exactly for addresses below 2^63); any other instruction is untouched; hash-mode, register-less and bad-AP forms are rejected.", "quantifier": "all instruction words, all register values", "why_tests_cant": "Universal over 64-bit register values.", "anchors": ["qtlib/qtreader.c: annotate_tlbie"]}
{"id": "C14", "title": "Unconditional branch encoding is the inverse of decoding", "statement": "Creating a relative or absolute I-form branch from any address to any target either reports failure, exactly when the (signed 64-bit) displacement is not a multiple of 4 in [-2^25, 2^25), or yields a word that is an I-form branch with the requested AA/LK bits whose decoded displacement is the requested one.", "quantifier": "all addresses, targets (64-bit) and flags", "why_tests_cant": "2^128 inputs.", "anchors": ["qtlib/branch.h: create_branch, is_offset_in_branch_range, branch_iform_target"]}
{"id": "C15", "title": "Conditional branch encoding is the inverse of decoding", "statement": "Same for B-form branches: failure exactly when the displacement is not a multiple of 4 in [-2^15, 2^15); otherwise BO/BI/AA/LK are those requested and the decoded displacement is the requested one.", "quantifier": "all addresses, targets and flags", "why_tests_cant": "2^128 inputs.", "anchors": ["qtlib/branch.h: create_cond_branch, branch_bform_target"]}
{"id": "C16", "title": "Branch classification is a partition that matches the ISA", "statement": "No word is both conditional and unconditional; every word of primary opcode 16 or 18 (and 17) is a branch; a bc/bclr/bcctr/bctar is conditional iff its BO is not 1x1xx; no other word is a branch than those listed in the ISA table of the specification.", "quantifier": "all 32-bit words", "why_tests_cant": "2^32 words times several predicates; proved symbolically.", "anchors": ["qtlib/branch.h: is_conditional_branch, is_unconditional_branch, is_branch"]}
{"id": "C17", "title": "Retargeting a branch", "statement": "Retargeting an I- or B-form branch in range changes only the displacement field and makes the branch's target the requested one; other words are returned unchanged. The target-computation helper is right for every relative branch at an address whose bit 1 is clear and wrong for every absolute branch at a non-zero such address (it inspects the address instead of the word).", "quantifier": "all words, addresses and targets", "why_tests_cant": "Universal; the defect needs an absolute branch.", "anchors": ["qtlib/branch.h: set_branch_target, branch_target, is_branch_absolute"]}
{"id": "C18", "title": "Link stack predicts perfectly for nesting within its depth", "statement": "For every call/return history starting from any state in which nesting since that point never exceeds the configured depth and never goes below the starting level, each return pops the address following its matching call, so every well-matched return is predicted correctly.", "quantifier": "all depths > 0, all balanced call/return histories with nesting <= depth, all initial contents", "why_tests_cant": "Universal over histories.", "anchors": ["branch/link_stack.c: link_stack_push, link_stack_pop"]}
{"id": "C19", "title": "Link stack overflow loses exactly the oldest entries", "statement": "For every history, the link stack behaves as an unbounded stack truncated to its depth newest entries and continued cyclically; after k > depth pushes the last depth pops are correct and the next pop returns the newest-overwritten slot; the misprediction count never exceeds the prediction count and offsets stay in range.", "quantifier": "all depths > 0, all histories", "why_tests_cant": "Universal over histories.", "anchors": ["branch/link_stack.c: link_stack_init, link_stack_push, link_stack_pop, stats"]}
{"id": "C20", "title": "Basic-block profile counts every instruction exactly once", "statement": "After logging any sequence of addresses, the profile has one entry per distinct address, its hit count is the number of times that address was logged (mod 2^64), counts sum to the total, and every table access is in bounds across reallocations.", "quantifier": "all finite address sequences", "why_tests_cant": "Universal over sequences; relies on hash table and growth.", "anchors": ["qtlib/bb.c: bb_ea_log, bb_allocate"]}
{"id": "C21", "title": "Coalescing yields disjoint blocks covering the logged addresses", "statement": "The dump merges runs of consecutive addresses into blocks: the printed blocks are pairwise disjoint address ranges whose union is exactly the set of logged addresses, and every member of a block has a hit count within 3 of its leader; blocks are printed in non-increasing order of size times hits. (The hit-count test truncates to 32 bits: counts differing by a multiple of 2^32 are merged.)", "quantifier": "all profiles", "why_tests_cant": "Universal over profiles and sort implementations.", "anchors": ["qtlib/bb.c: bb_coalesce, __bb_dump, bb_compare_ea, bb_compare_num"]}
{"id": "C22", "title": "Software TLB: lookups after a set return the set translation (non-overlapping pages)", "statement": "For every history of set operations whose pages never overlap a page of a different size, a lookup with relocation on of any address inside the most recently set page returns real page | offset and the page size; other addresses keep their translation; lookups with relocation off always return the address with the top bits stripped and a 4K page.", "quantifier": "all histories of set/get, all addresses and page sizes", "why_tests_cant": "Universal over histories of a sorted-array structure with binary search.", "anchors": ["htm/tlb.c: tlb_ra_set, tlb_ra_get, __tlb_get_index, tlb_compare"]}
{"id": "C23", "title": "Software TLB: overlap detection is incomplete (negative)", "statement": "There is a history of valid set operations of mixed page sizes after which the validity check passes but a lookup of an address inside the page just set misses or returns the stale smaller page; and, although setting it is accepted, every lookup inside a page that ends at the top of the address space aborts the program.", "quantifier": "existential witnesses", "why_tests_cant": "Found by attempting the invariant proof.", "anchors": ["htm/tlb.c: tlb_validate, tlb_ra_set, tlb_compare"]}
{"id": "C24", "title": "ERAT log is a faithful map", "statement": "For every history of inserts and lookups, a lookup returns the radix walk and guest page shift of the newest insert whose page shift (the smaller of host and guest shift) and whose (effective, real) page pair coincide, and reports absence iff there was none; page shifts other than 12/16/21/30 abort. The host shift returned is that of the OLDEST such insert: re-insertion leaves it stale (negative).", "quantifier": "all histories", "why_tests_cant": "Universal over histories.", "anchors": ["htm/erat.c: erat_insert, erat_get"]}
{"id": "C25", "title": "Page-walk cache get-after-insert", "statement": "For every history of inserts and lookups of the page-walk cache, a lookup of (msr, lpid, pid, level, address) returns the directory base implied by the newest insert into the same directory plus 8 times the entry number, together with the leaf/non-leaf kind given by the newest insert of that very entry (0 if only the directory is known), and absence iff nothing was inserted in the directory; inserts at one level never change lookups at another; address bits from 2^52 up are ignored.", "quantifier": "all histories, addresses, levels and flags", "why_tests_cant": "Universal over histories.", "anchors": ["htm/pwc.c: pwc_insert, pwc_get, pwc_init"]}
{"id": "C26", "title": "Reverse page-walk cache and translation cache", "statement": "A lookup in the translation cache (effective to real page) or the reverse cache (host real to guest real page) returns the page given by the newest insert of the same page, size and identifiers combined with the offset of the address asked for, and absence iff there was none; the three caches do not influence one another.", "quantifier": "all histories", "why_tests_cant": "Universal over histories.", "anchors": ["htm/pwc.c: pwc_reverse_insert, pwc_reverse_get, pwc_tlb_insert, pwc_tlb_get"]}
{"id": "C27", "title": "Translation decoding stays in bounds and never trips a cache assertion", "statement": "Starting from the initial state, after any history of decodes, lookups and partial-walk insertions that has not aborted, the next call never reads or consumes a record beyond the record list, only moves forward, and never reaches the assertions of the page walk caches and the ERAT; it fails only through the explicit assertion of xlate_decode (relocated accesses only) or by overflowing the 38-entry array when two fragments are merged or an incomplete walk of 38 records is completed, and a successful decode yields a walk record of fixed shape: 4 guest levels with a 2M page or 5 with a 4K/64K page, 2 to 4 host levels, a host page of 4K, 64K, 2M or 1G.", "quantifier": "all histories, record sequences and addresses", "why_tests_cant": "Universal over sequences and cache contents.", "anchors": ["htm/xlate.c: xlate_parser_take, xlate_parser_peek, xlate_parser_scan, xlate_decode, xlate_fixup", "htm/pwc.c: xlate_merge"]}
{"id": "C28", "title": "A complete two-dimensional walk is decoded exactly", "statement": "For every two-dimensional radix walk whose records are all present and overlap no kept fragment, whatever the caches contain, decoding returns exactly the addresses of the guest entries, their host translations and the host entries of that walk, with the page sizes implied by the walk, provided the final host address lies in the page of the real address (else the assertion fails); a later lookup of any address in the same page pair returns the same walk with the guest real address being the guest page combined with the offset of the address asked for.", "quantifier": "all walks, addresses, page sizes and cache contents", "why_tests_cant": "Universal over walks, caches and 64-bit addresses.", "anchors": ["htm/xlate.c: xlate_decode_nested_radix, xlate_partition_translate, xlate_decode, xlate_lookup"]}
{"id": "C29", "title": "HTM bit-field extraction equals the big-endian bit numbering", "statement": "Extracting bits from..to (IBM numbering) of a 64-bit trace word yields the corresponding integer for every word and every field narrower than the word; the full-width field is undefined behaviour.", "quantifier": "all words, all field bounds", "why_tests_cant": "Universal over words.", "anchors": ["htm/htm.c: htm_bits, htm_bit"]}
{"id": "C30", "title": "HTM stream reading with rewind is a lossless cursor", "statement": "For every sequence of fetches and rewinds the words delivered are the file's words in order, and the word count, checksum and offset are those of the words delivered and not rewound; decoding any file terminates and never rewinds twice over one word. One further word, which is not in the file, is delivered at end of file; what it does is exhibited.", "quantifier": "all inputs and interleavings", "why_tests_cant": "Universal over histories.", "anchors": ["htm/htm.c: htm_read, htm_decode_fetch_internal, htm_rewind, htm_decode_fetch, htm_decode_one, htm_decode"]}
{"id": "C31", "title": "HTM instruction re-coding preserves the architected instruction", "statement": "Encoding any architected branch (I-form, B-form relative, bclr/bcctr/bctar, P10 system instructions) in the recoded form the decoder expects, with arbitrary filler bits, and re-expanding it gives back the instruction word at every instruction address, for POWER8/9 and POWER10; exceptions (words that look like isel, P10 absolute B-form with BI >= 16, P10 bcctr that looks like a system instruction) are exhibited.", "quantifier": "all branch instructions, filler bits, instruction addresses", "why_tests_cant": "2^32 words times 2^62 addresses; region wrap-around.", "anchors": ["htm/htm.c: insn_recode_p10, insn_recode, insn_demunge, htm_decode_insn (opcode part)"]}
{"id": "C32", "title": "Instruction statistics are consistent", "statement": "Instruction statistics add up: total = system + OPAL + user; user = library + binary; per-exception, per-syscall, per-hcall and per-OPAL-call counts sum to their totals, for every instruction stream.", "quantifier": "all instruction streams", "why_tests_cant": "Universal over streams.", "anchors": ["qtlib/ppcstats.c: ppcstats_log_inst_stats, is_exception_entry, hcall_find"]}
{"id": "C33", "title": "Idle time can exceed system time (negative)", "statement": "The reported idle instruction count is not bounded by the system instruction count: alternating idle-loop markers are counted twice.", "quantifier": "existential witness", "why_tests_cant": "Requires a particular kernel idle loop.", "anchors": ["qtlib/ppcstats.c: ppcstats_log_inst_stats"]}
{"id": "C34", "title": "Instruction-mix cache is transparent", "statement": "For every instruction stream the per-mnemonic counts with the opcode cache equal the counts of a direct first-match search of the opcode table, and counts plus unknown sum to the number of instructions.", "quantifier": "all streams, all opcode tables whose masks cover the major opcode", "why_tests_cant": "Universal over streams.", "anchors": ["qtlib/ppcstats.c: ppcstats_log_inst_imix, ppcstats_init"]}
{"id": "C35", "title": "Hash table is a faithful multiset", "statement": "For every history of add/delete on the hash table with any hash function and any distinct non-null pointers sharing their highest set bit, lookup by hash enumerates exactly the present pointers whose hash has that value (plus only pointers that pass the caller's equality test are returned), adds never lose elements across doubling, rehashing and common-bit changes, and all probes terminate.", "quantifier": "all histories, all hash functions, all pointer values meeting the hypothesis", "why_tests_cant": "Universal over histories; bit-stealing representation.", "anchors": ["qtrace-bbv/ccan/htable/htable.c: htable_add, htable_del, htable_firstval, htable_nextval, double_table, rehash_table, update_common"]}
{"id": "C36", "title": "Hash table loses an element when pointers are sub-masks (negative)", "statement": "Without the shared-highest-bit hypothesis an added pointer can be stored as the deleted/empty marker and be lost.", "quantifier": "existential witness", "why_tests_cant": "Needs special pointer values and hash.", "anchors": ["qtrace-bbv/ccan/htable/htable.c: update_common, ht_add"]}
{"id": "C37", "title": "Matrix resize preserves contents", "statement": "Resizing a matrix to any dimensions keeps every entry within both old and new bounds and zero-fills the rest; all accesses are within the allocation.", "quantifier": "all dimensions and contents", "why_tests_cant": "Universal over sizes.", "anchors": ["qtrace-bbv/matrix.c: matrix_resize, matrix_create, matrix_entry"]}
{"id": "C38", "title": "Matrix multiply, copy and compare", "statement": "Multiplication computes the matrix product modulo 2^64 when shapes agree and refuses otherwise; copy makes compare true; compare is true iff shapes and all entries agree.", "quantifier": "all matrices", "why_tests_cant": "Universal.", "anchors": ["qtrace-bbv/matrix.c: matrix_multiply, matrix_copy, matrix_compare"]}
{"id": "C39", "title": "Clustering terminates at a local optimum", "statement": "The clustering loop terminates for every input, the cost never increases, medoids are always distinct input points, and on exit either the cost is zero or no single swap tried in the last pass lowers the cost.", "quantifier": "all point sets and k", "why_tests_cant": "Termination and optimality are universal.", "anchors": ["qtrace-bbv/pam.c: pam_iteration, pam_initialise, calculate_total_cost"]}
{"id": "C40", "title": "Cluster report is a partition", "statement": "The printed counts sum to the number of intervals, every medoid is reported with an interval that equals it, and each interval is attributed to a nearest medoid.", "quantifier": "all point sets", "why_tests_cant": "Universal.", "anchors": ["qtrace-bbv/pam.c: print_medoids, find_medoid"]}
{"id": "C41", "title": "Basic-block vectors account for every instruction; column growth is insufficient (negative)", "statement": "Each interval row holds, per basic block, the instructions of blocks ended in that interval; the sum of all rows plus pending counts equals the instructions of completed blocks. If one interval introduces more new blocks than twice the current column count the store goes outside the matrix row.", "quantifier": "all traces and periods; existential for the overflow", "why_tests_cant": "Universal over traces.", "anchors": ["qtrace-bbv/qtrace-bbv.c: parse_qtrace, add_basic_block, reset_basic_block_vector"]}
{"id": "C42", "title": "Storage-operand address computation follows the ISA", "statement": "For every instruction word and register file, the storage-instruction decoder reports whether the word is a storage access, its effective address (RA|0 + displacement or RB, sign-extended, modulo 2^64, aligned for vector-element and cache-line forms) and its size as the ISA table of the specification; the yes/no answer depends only on the word; string and atomic-memory forms abort.", "quantifier": "all words and register files", "why_tests_cant": "2^32 words times register files.", "anchors": ["ptracer/ppc_storage.c: is_storage_insn"]}
{"id": "C43", "title": "Stepping over an atomic sequence restores the program", "statement": "After stepping over a larx/stcx sequence all inserted breakpoints are removed and the traced program's code is bit-for-bit what it was, for every code layout including duplicate branch targets, targets inside the sequence and targets adjacent to it.", "quantifier": "all code memories and start addresses", "why_tests_cant": "Universal over memories.", "anchors": ["ptracer/single_step.c: step_over_atomic, insert_breakpoints, remove_breakpoints", "ptracer/ptrace.c: read_insn, write_insn"]}
{"id": "C44", "title": "Breakpoints cover the exits of an atomic sequence", "statement": "If every branch inside the sequence is a conditional B-form branch then every path leaving the sequence hits a breakpoint; with an unconditional or register branch inside it may not (negative).", "quantifier": "all code memories", "why_tests_cant": "Universal over memories and paths.", "anchors": ["ptracer/single_step.c: step_over_atomic, is_branch, branch_target"]}
{"id": "C45", "title": "Address-translation cache of the tracer", "statement": "Every answer of the tracer's effective-to-physical lookup is either a fresh kernel answer or one obtained for the same page within the refresh interval, except before the caches have been filled: for addresses in the first huge page it reports physical page 0 without asking (negative).", "quantifier": "all access histories and kernel page-map behaviours", "why_tests_cant": "Universal over histories.", "anchors": ["ptracer/pagemap.c: ea_to_pa"]}
{"id": "C46", "title": "Symbol lookup returns the nearest preceding symbol", "statement": "For every sorted symbol table and address between first and last symbol, the symbol returned is one with the greatest value not exceeding the address; addresses outside return none.", "quantifier": "all tables and addresses", "why_tests_cant": "Universal.", "anchors": ["qtdis/qtdis.c: symfind", "ptracer/ascii.c: symfind"]}
{"id": "C47", "title": "Thread table operations", "statement": "Adding, finding and removing thread ids behaves as a sequence: add appends up to capacity, find returns the first matching slot, remove deletes the first match and keeps the order of the others.", "quantifier": "all histories", "why_tests_cant": "Universal over histories.", "anchors": ["ptracer/pids.c: add_pid, find_pid, remove_pid"]}
{"id": "C48", "title": "qtbuild places data addresses and branch targets on the right instructions", "statement": "For every object code and annotation map, the trace qtbuild writes has one record per instruction word with the mapped branch target as its successor address and the load/store address attached to the annotated instruction.", "quantifier": "all programs and maps", "why_tests_cant": "Universal.", "anchors": ["qtbuild/qtbuild.c"]}
{"id": "C49", "title": "A failed mapping extension loses exactly the record being written", "statement": "Whenever extending the output mapping fails, the write call returns false and leaves the writer unchanged; after any sequence of calls with any pattern of failures, closing yields byte for byte the file that writing only the accepted records would give, and reading it returns exactly those.", "quantifier": "all record sequences and all patterns of extension failures", "why_tests_cant": "Failures of ftruncate/mremap in the middle of a run cannot be provoked deterministically; universal over failure patterns.", "anchors": ["qtlib/qtwriter.c: qtwriter_write_record, qtwriter_close"]}
{"id": "C50", "title": "Interrupted walks are merged at their overlap", "statement": "Looking up or inserting a walk in the list of interrupted walks finds the first kept fragment of the same LPID and PID containing a record with the address of the new walk's first record, and replaces it (insert) or removes it (lookup), the merge being the old records before the first one that has that address or was interrupted, followed by all new records; with no such fragment the list is unchanged (lookup) or extended (insert). A fragment is found for an access iff one of its final records carries the real address, or is a guest record carrying the effective address without its top 2 and low 4 bits.", "quantifier": "all fragment lists and walks of at most 38 records", "why_tests_cant": "Universal over lists.", "anchors": ["htm/pwc.c: xlate_merge, xlate_match, pwc_partial_insert, pwc_partial_lookup, pwc_address_lookup"]}
{"id": "C51", "title": "The reader takes every field from its stored position", "statement": "When the reader accepts a file header, its flag words are legal, it consumes exactly the bytes the flags announce, and magic, version, address, page number, page sizes, LPID and PID are the big-endian values at the positions the flags imply, other state being kept; a complete header with legal flags and walk counts is accepted. When it accepts a record, the flags are legal, the bytes consumed are exactly those the flags and the register and walk counts announce, and instruction word, node, termination, data address, data real address, register values (GPR, FPR, SPR, in and out), page sizes, next address and the pending page number and size are the values at their positions; the instruction's own real address combines the pending or current page number with the page offset. A complete record with legal flags and counts and page sizes below 64 is accepted.", "quantifier": "all reader states and byte strings", "why_tests_cant": "Universal over byte strings; 2^39 flag combinations with variable-length blocks.", "anchors": ["qtlib/qtreader.c: qtreader_parse_header, do_parse_regs, qtreader_next_record"]}
{"id": "C52", "title": "Statistics tables are printed completely", "statement": "Each printed table of the statistics (exceptions, system calls, OPAL calls, hypervisor calls, instruction mix) lists every entry with a non-zero count exactly once, in descending order, for every counts below 2^31; beyond that the comparison functions truncate and entries can be lost.", "quantifier": "all counts, all conforming qsort implementations", "why_tests_cant": "Universal over counts and sort orders.", "anchors": ["qtlib/ppcstats.c: call_compare, hcall_compare, exceptions_compare, insn_compare, ppcstats_print_stats, ppcstats_print_imix"]}
{"id": "C53", "title": "Instructions reported for a stepped larx/stcx sequence", "statement": "After an atomic sequence has run at full speed the callback is given every instruction word from the start of the sequence to the place where the program stopped, once and in order. For an execution without taken branches these are exactly the executed instructions followed by the one about to be stepped; with a taken branch words that were not executed are reported, and a sequence left backwards is not reported at all (negative).", "quantifier": "all start and stop addresses, all code memories", "why_tests_cant": "Universal over addresses; which branches are taken depends on contention.", "anchors": ["ptracer/single_step.c: step_over_atomic", "ptracer/main.c: print_insn"]}
{"id": "C54", "title": "qtdis -b and qtbuild are inverse to each other", "statement": "Taking a trace apart with qtdis -b and building the assembled result with qtbuild gives back a trace with the same instruction addresses, data addresses and instruction words, except for the targets of branches that are not taken; when every direct branch is taken, the written file reads back as exactly the instructions and addresses of the trace that was taken apart.", "quantifier": "all non-empty executions of known instructions, all assemblers that keep the fields of a word other than its branch target, all contents of uninitialised registers", "why_tests_cant": "The maps are produced by one program and consumed by another, through a third (the assembler); a test sees one trace.", "anchors": ["qtdis/qtdis.c", "qtbuild/qtbuild.c", "qtbuild/qtb.h"]}
{"id": "C55", "title": "POWER8/9 hardware traces decode to the records the words stand for", "statement": "For every well-formed sequence of stamps, instructions (with any combination of address, real page, data address and data page words, each preceded by any stamps), flushed instructions and unmarked words, decoding the file that contains it succeeds and delivers exactly the stamps and instructions of the trace in order: the demunged instruction word, its address, its real address and page size (given in the trace, or from the latest page given for an address of the same page), its data address and real data address; the basic block table and all event counters are those of the trace.", "quantifier": "all traces of fewer than 2^30 words, all sorts, all contents of uninitialised buffers and records, record mode and statistics mode, files that end cleanly or with an error", "why_tests_cant": "Composes the word reader, bit-field decoders, branch demunging, software TLB, basic block table and record assembly over unbounded traces; a test sees one trace and no uninitialised memory.", "anchors": ["htm/htm.c: htm_decode, htm_decode_one, htm_decode_insn, htm_decode_fetch, decode_stamp", "htm/tlb.c", "htm/bb.c"]}
{"id": "C56", "title": "POWER10 hardware traces decode to the records the words stand for", "statement": "For every well-formed sequence of stamps, instructions (walks of the address, address and real page, walks of the data, instruction, machine state, prefix, data addresses with their real pages, each word preceded by any stamps) and unmarked words, decoding the file that contains it succeeds and delivers exactly the stamps and instructions in order, prefixed instructions as two records. Address and data are translated by the walk in the trace for their real page, or by the latest walk of the largest page around the address, or, for instructions without address words, by the translation of the one before; records carry the real addresses, host and guest page sizes, and the full walk with the guest real address of the access. The basic block table and all event counters are those of the trace.", "quantifier": "all traces of fewer than 2^30 words with at most two guest walks per side and instruction, all complete, or resumed as in C76, all sorts, all contents of uninitialised buffers and records, record mode and statistics mode, files that end cleanly or with an error", "why_tests_cant": "Composes the word reader, walk decoder, nested radix translation, ERAT, branch demunging, basic block table and record assembly over unbounded traces; a test sees one trace.", "anchors": ["htm/htm.c: htm_decode, htm_decode_one, htm_decode_insn_p10, htm_decode_xlate, htm_decode_ieara", "htm/xlate.c", "htm/bb.c"]}
{"id": "C57", "title": "The qtrace file that htmdecoder writes shows the instructions of the hardware trace", "statement": "For every well-formed POWER8/9 or POWER10 hardware trace, htmdecoder succeeds in writing a qtrace file, and reading that file back yields exactly one record per instruction word (two for prefixed instructions) in order, with the instruction word and address of the trace, its data address, the data's real address, page sizes and walk, the next address and the branch flags. The real address, page sizes and walk of an instruction are those of the latest instruction that did not follow its predecessor in memory and had them.", "quantifier": "all traces of fewer than 2^30 words, all sorts, buffers, unset record fields without walks (on POWER8/9 also without guest pages), files that end cleanly or with an error, all contents of the reader's memory behind the file", "why_tests_cant": "Composes the whole conversion (word reader, decoder, translation, delta-compressing writer) with the reader over unbounded traces; the file format's state (page carried over, deferred branch information) makes each record depend on all before it.", "anchors": ["htm/htmdecoder.c: process_one_insn, main", "htm/htm.c: htm_decode", "qtlib/qtwriter.c", "qtlib/qtreader.c"]}
{"id": "C58", "title": "ptracer's qtrace file shows exactly the instructions at which the traced thread was seen", "statement": "For every sequence of wait events (stops of the traced thread, atomic sequences, births and deaths of threads, signals for other threads) with options -n, -s and -x: ptracer ends at the first event that is the end of the traced thread or, with enough instructions recorded, a stop outside of an atomic sequence; otherwise it still waits. When it ends, its file reads back as exactly the seen instructions behind the skipped ones, up to the limit: word, address, data address computed from the thread's registers, translations as the kernel gave them now or recently, branch flags and next addresses. The number of records is min(limit, seen - skipped).", "quantifier": "all event sequences of the stated kinds, thread tables, limits, skips, register contents, memories and page maps; fewer than 2^31 recorded instructions, none of them the word 0", "why_tests_cant": "An unbounded event loop whose output passes through the delta-compressing writer and a translation cache; ptrace stops, atomic sequences and threads interleave arbitrarily.", "anchors": ["ptracer/main.c: print_insn, main", "ptracer/single_step.c: step_over_atomic", "ptracer/pagemap.c: ea_to_pa", "qtlib/qtwriter.c", "qtlib/qtreader.c"]}
{"id": "C59", "title": "ptracer sets every stopped thread going again with exactly one request, and knows exactly the living threads", "statement": "For every sequence of wait events, ptracer makes exactly one request per event (two for an atomic sequence): a new or stray-signalled thread goes on by stepping if it is the traced one and by continuing otherwise, an ended thread is detached, other threads get their signals except SIGILL, the traced thread steps with its signal except the trap of the step. At the end all known threads are detached if the limit was reached. The thread table always holds the initial threads plus the born ones minus the ended ones, as far as there is room.", "quantifier": "all event sequences of the stated kinds, thread tables, limits and skips", "why_tests_cant": "A thread that is not set going hangs and one set going twice makes ptracer exit; which happens depends on arbitrary interleavings of events of many threads that no test enumerates.", "anchors": ["ptracer/main.c: main", "ptracer/ptrace.c: detach_all_threads", "ptracer/pids.c"]}
{"id": "C60", "title": "Fast-forwarding counts every thread, closes every counter exactly once and stops at the right thread", "statement": "For every table of threads and every sequence of wait events up to the first counter signal: fast_forward makes one counter per initial and per born thread, with a period 200 below the wanted number of instructions, sets every stopped thread going exactly once with its signal (none for SIGTRAP), closes the counter of an ending thread and detaches it, and returns the thread whose counter fired with the remaining number of instructions, so that counted plus remaining is the wanted number; every counter made is closed exactly once, and the table holds the living threads.", "quantifier": "all event sequences in which born threads fit the table and ending threads are known, all counts; numbers of instructions from 200 to 2^64-1", "why_tests_cant": "Leaked or doubly closed descriptors and lost threads only appear for particular interleavings of births, deaths and signals of arbitrarily many threads.", "anchors": ["ptracer/perf_events.c: fast_forward, setup_insn_counter, destroy_insn_counter", "ptracer/pids.c"]}
{"id": "C61", "title": "qtdis lists every instruction of a trace once, at its address", "statement": "For every qtrace file that the reader reads to its end, qtdis prints exactly one line per instruction in order (a prefix and its suffix being one instruction), each with the address where the instruction before said it would be (the header's for the first) and its instruction word; with -s/-i or -c the same instructions are logged for statistics and basic blocks and nothing is listed; with -d 1 the addresses of all instructions and the data addresses and page sizes of their first records are dumped. For every written trace the lines are the addresses and words of the written records that are not suffixes.", "quantifier": "all files, all contents of memory behind the file, all option combinations, all written traces of any length", "why_tests_cant": "The listing depends on state carried over from record to record (address, prefix, suffix) and on copies of the reader's state taken between reads; only a proof over all traces shows that no instruction is dropped, doubled or shifted.", "anchors": ["qtdis/qtdis.c: read_qt, print_qt_record", "qtlib/qtreader.c: qtreader_next_record"]}
{"id": "C62", "title": "The hash functions compute lookup3 for every key, alignment and byte order", "statement": "For every sequence of bytes at every address, on little and big endian hosts, hash_any and hash64_any read no byte outside of the key and return the hash of Bob Jenkins' lookup3 of the key's words (the last one filled up with zeros), independent of the alignment; the low half of the 64-bit hash is the 32-bit hash for the same base; hash_u32 of words is the hash of their bytes in memory; hash64_stable_8 is the same on all hosts, and hash64_stable_64/32/16 are the stable hash of the elements' little endian bytes whenever the last block is not complete; the mixing functions are bijections of the state.", "quantifier": "all keys of any length, all addresses, both byte orders, all bases", "why_tests_cant": "The code has seven paths with 13 cases each for the last block, selected by alignment and byte order of the host; a test on one machine sees one or two of them, and a wrong shift in one case only makes the hash a bit worse or lookups fail for some lengths.", "anchors": ["qtrace-bbv/ccan/hash/hash.c: hash_u32, hashlittle, hashbig, hash64_stable_64, hash64_stable_32, hash64_stable_16, hash64_stable_8, hash_any, hash64_any"]}
{"id": "C63", "title": "qtdis -v shows every written record's annotations, and nothing else changes", "statement": "For every file, qtdis -v lists the same addresses and instruction words and ends in the same way as qtdis without options, and a line has a # exactly if annotations follow. For every trace that the writer accepts and closes, the annotations of each line are: data address, real page, table walk and page size of that record; real page and page size of the next record if it is reached by a jump; node and termination code exactly for records that are branches or are followed by a jump. The traces of htm/tests, run through the models of htmdecoder and qtdis -v, give the listed outcomes.", "quantifier": "all files and all traces accepted by the writer, of any length", "why_tests_cant": "The annotations combine the state of the previous, current and next record in the reader; tests compare a handful of listings and most have no table walk, no jump with a new page and no prefixed instruction.", "anchors": ["qtdis/qtdis.c: print_record, main", "qtlib/qtreader.c: qtreader_next_record", "qtlib/qtwriter.c: qtwriter_write_record", "htm/tests/run_tests", "htm/tests/dumps", "htm/tests/disasms"]}
{"id": "C64", "title": "Linked lists in memory hold exactly what the operations put there", "statement": "For every program that uses ccan/list's operations where they are allowed (allocated nodes that are in no list are added, nodes that are in a list are deleted or exchanged, different lists are joined), no operation accesses anything but nodes of the lists involved, and afterwards each list has exactly the nodes it is to have, in order and linked in both directions; queries and loops show these nodes, safe loops also if nodes are unlinked and freed on the way. list_check ends in every finite memory and accepts exactly well-formed lists. The list of partial walks of pwc.c in memory behaves as the list of C26, C27 and C50: every sequence of insertions and lookups gives the same results, uses no freed node and loses none.", "quantifier": "all sequences of operations on any number of lists of any length, all addresses, all memories", "why_tests_cant": "Wrong pointer updates show only for particular positions (head, tail, only element) and often much later; use of freed nodes mostly goes unnoticed.", "anchors": ["qtrace-bbv/ccan/list/list.h: list_head_init, list_add_after, list_add, list_add_before, list_add_tail, list_empty, list_del, list_del_init, list_swap, list_top, list_pop, list_tail, list_next, list_prev, list_append_list, list_prepend_list, list_for_each, list_for_each_rev, list_for_each_safe, list_for_each_rev_safe", "qtrace-bbv/ccan/list/list.c: list_check_node, list_check", "htm/pwc.c: pwc_partial_insert, pwc_partial_lookup, pwc_address_lookup, pwc_init"]}
{"id": "C65", "title": "The tracer takes hold of a process exactly as intended and touches nothing else", "statement": "Taking hold of a running process: a run succeeds exactly if the process is seized and stopped, waited for, its directory lists decimal thread ids that fit the table, every other thread is seized and waited for, every thread is interrupted and the process is continued; while waiting, every signal reported by a stop other than the group stop is passed on to that thread once, and interrupted waits and other reports are passed over. Whatever the system answers, the table is not overrun and only the process and listed threads are touched; the tracer exits only if a call was refused or the list is no list of threads that fits. Starting a program succeeds exactly for the reports SIGSTOP, group stop, exec; otherwise the child is killed. Releasing continues all other threads once. An instruction is read as memory holds it in both byte orders, and writing one changes its four bytes only, so that putting the old one back restores the program.", "quantifier": "all sequences of answers of the system, all directories, all memories, addresses and instructions, both byte orders", "why_tests_cant": "Tests see the usual order of reports; signals that arrive while stopping, interrupted waits, threads that vanish, and refusals are races that cannot be provoked.", "anchors": ["ptracer/ptrace.c: read_insn, write_insn, wait_for_group_stop, capture_all_threads, release_all_non_tracing_threads, do_exec"]}
{"id": "C66", "title": "The opcode table is well formed and the decoders agree with it", "statement": "Every entry of the opcode table is a 32-bit pattern that fixes the primary opcode, and entries are in the order of primary opcodes. With this table the instruction mix counts every instruction under the first matching entry. For every 32-bit word with a mnemonic: branch.h takes it for a branch exactly if the mnemonic is a branch by the grammar of the architecture (rfebb and urfid aside), for a conditional or unconditional one as the mnemonic says; the single stepper takes it for load-and-reserve or store-conditional exactly if it is; the reader takes it for an invalidation of translations exactly if it is tlbie or tlbiel; and the storage accesses of the architecture have the mnemonic of that access.", "quantifier": "all 3408 entries of the table, all 32-bit words, all instruction streams", "why_tests_cant": "There are 2^32 words and four decoders written independently of each other and of the table; tests contain a few dozen words.", "anchors": ["qtlib/ppc-opc.c: powerpc_opcodes_qt", "qtlib/ppc.h: PPC_OPCODE_*", "qtlib/ppcstats.c: DIALECT, ppcstats_log_inst_imix", "qtlib/branch.h: is_branch, is_conditional_branch, is_unconditional_branch", "ptracer/single_step.c: is_larx, is_stcx", "qtlib/qtreader.c: annotate_tlbie"]}
{"id": "C67", "title": "Hexadecimal and base32 strings are exact, and strcount counts", "statement": "hex_encode writes the two digits of every byte exactly if they and the terminator fit; hex_decode succeeds exactly on strings of two digits per byte of the buffer, giving those bytes; base32_encode writes the encoding of RFC 4648 into a buffer of the size base32_str_size gives, base32_data_size gives the length of what was encoded, and decoding gives back the bytes; decoding accepts exactly the stated strings; no function writes beyond its buffer or aborts, also when it fails. strcount gives the largest number of occurrences that do not overlap.", "quantifier": "all buffers, strings and sizes", "why_tests_cant": "Round trips over all strings and lengths.", "anchors": ["qtrace-bbv/ccan/str/hex/hex.c: hex_decode, hex_encode", "qtrace-bbv/ccan/str/base32/base32.c: base32_decode, base32_encode, base32_data_size, base32_str_size", "qtrace-bbv/ccan/str/str.c: strcount"]}
{"id": "C68", "title": "The counting tools agree", "statement": "The statistics, instruction mix and basic blocks htmdecoder gives for a POWER8 or POWER9 trace are exactly those qtdis gives for the qtrace file htmdecoder makes of the trace, and those of the instructions of the trace, which qtdis lists in order; for POWER10 the basic blocks agree for all traces and the statistics for traces without prefixed instructions (htmdecoder counts suffixes, qtdis prefixes); for the files of ptracer qtdis counts and lists exactly the instructions that were to be recorded, if none is prefixed.", "quantifier": "all well-formed traces, all runs of the tracer, all contents of uninitialised memory, all sorting functions", "why_tests_cant": "Two programs and a file format in between must agree on every trace.", "anchors": ["htm/htmdecoder.c: main", "htm/htm.c: htm_decode_insn, htm_decode_insn_p10", "qtdis/qtdis.c: disasm, read_qt", "ptracer/main.c: main", "qtlib/ppcstats.c: ppcstats_log_inst", "qtlib/bb.c: bb_ea_log"]}
{"id": "C69", "title": "Copying a trace", "statement": "Reading a trace record by record and writing every record again gives, for every trace the format can carry exactly, the very bytes the writer produces for the original records without a magic number; copying a copy changes nothing; and for any file, whoever wrote it, whose records can be carried exactly, every field the writer looks at reads the same from the copy.", "quantifier": "all record sequences, all files, all magic numbers", "why_tests_cant": "A round trip in the other direction: needs every combination of optional fields, walks and inherited translations.", "anchors": ["qtlib/tests/test3.c: main", "qtlib/qtreader.c: qtreader_next_record", "qtlib/qtwriter.c: qtwriter_write_record, qtwriter_close"]}
{"id": "C70", "title": "The register dump tells the registers", "statement": "With -a and -r, the ASCII log lists before every recorded instruction exactly the registers whose value changed since the instruction before it (since all zeros for the first), each once and in a fixed order; whoever reads the log down to an instruction knows all general, vector, vector-scalar and special registers of that instruction; the instructions of the log are exactly those after the skipped ones up to the limit, with -r or without; and the text of a line determines register and value.", "quantifier": "all sequences of instructions and register contents, both byte orders, all skip counts and limits", "why_tests_cant": "Quantifies over the full register file at every step; tests see a handful of changes.", "anchors": ["ptracer/main.c: get_state, compare32, compare64, compare128, print_state, print_insn", "ptracer/ascii.c: ascii_add_record"]}
{"id": "C71", "title": "Command lines mean what they say", "statement": "ptracer, qtdis, htmdecoder and qtrace-bbv accept exactly the command lines that follow the conventions (joined letters, arguments in the same or the next word, --, operands mixed with options except for ptracer); each means the settings given by its options independently of their order and spelling, the last argument of a letter counting; conflicting or missing options are rejected; decimal numbers are read as written as far as they fit: with white space and a sign in front and anything but a digit behind, saturating, a minus sign being arithmetic modulo 2^64 for unsigned numbers, and any other text being zero; and ptracer skips instructions of its own accord only when it attaches to several threads without a number to skip.", "quantifier": "all command lines, all option orders and spellings, all numbers", "why_tests_cant": "The set of command lines is infinite and tests use a few spellings.", "anchors": ["ptracer/main.c: main", "qtdis/qtdis.c: main", "htm/htmdecoder.c: main", "qtrace-bbv/qtrace-bbv.c: main"]}
{"id": "C72", "title": "The limit of open files and the checkpointed process", "statement": "ptracer leaves the limit of open files at a value the system allows, within a factor of two of the smaller of the hard limit and 16384, and never below the old one if the hard limit allows 16384 files; and the process handed to criu is the one traced whenever its number has at most six digits.", "quantifier": "all soft and hard limits, all process numbers", "why_tests_cant": "Depends on limits of the machine and on process numbers that test machines do not reach.", "anchors": ["ptracer/main.c: setrlimit_open_files, do_checkpoint"]}
{"id": "C73", "title": "The statistics script counts the lines of its kinds", "statement": "tools/qtrace_statistics.py takes every line qtdis prints apart into exactly its address, disassembly and function name; the numbers of system, user, OPAL and idle instructions, context switches, exceptions of each kind and calls of each system call are those of the lines satisfying an independent description; every line is exactly one of system, user and OPAL; each exception and each call is in its dictionary once; any line at all is taken apart exactly as the two regular expressions say, and rejected if neither matches; and below the addresses of modules the numbers equal those of qtdis -s.", "quantifier": "all listings of any length", "why_tests_cant": "The script has no tests; a misattributed class of lines only shifts percentages.", "anchors": ["tools/qtrace_statistics.py: qtrace_parser", "qtdis/qtdis.c: print_address, main"]}
{"id": "C74", "title": "The ASCII log and the qtrace file of ptracer hold the same instructions", "statement": "Whatever the traced threads and the kernel do: with -a and -q both logs hold the same instructions in the same order; -a and -r change nothing in the qtrace file or in how threads are set going; with -a alone the log and the treatment of threads are those with both; with -r the log is a register dump as in C70; and in the sessions of C58 the ASCII log lists exactly the wanted instructions.", "quantifier": "all sequences of events, all options -n, -s, -x, -r, both byte orders", "why_tests_cant": "Needs a POWER machine and comparing two outputs of the same run.", "anchors": ["ptracer/main.c: print_insn, main", "ptracer/ascii.c: ascii_add_record"]}
{"id": "C75", "title": "Every trace source, qtdis and the statistics script agree", "statement": "For every trace written by qtwriter, converted by htmdecoder from a POWER8, POWER9 or POWER10 trace, or recorded by ptracer, and for every symbol table and disassembler whose names have no white space and whose lines are proper: qtdis lists the file, tools/qtrace_statistics.py reads the listing to its end, its numbers of system, user and OPAL instructions and of each exception are those of the addresses of the traced instructions, and below the addresses of modules they equal those of qtdis -s (and htmdecoder -s) modulo 2^64.", "quantifier": "all traces, symbol tables and disassemblers", "why_tests_cant": "It spans four programs in two languages; a listing the script misreads would only be seen as an odd percentage.", "anchors": ["tools/qtrace_statistics.py: qtrace_parser", "qtdis/qtdis.c: main", "htm/htmdecoder.c: main", "ptracer/ptracer.c: main", "qtlib/ppcstats.c: ppcstats_log_inst"]}
{"id": "C76", "title": "Walks resumed from the page walk caches are decoded as complete walks", "statement": "For page tables that do not change, and for every sequence of translations of process addresses in which each walk leaves out only table entries (guest, or of the partition) and host pages that earlier walks of the sequence showed, xlate_decode answers each with the very record, host page size and guest page size of the complete walk. A walk that leaves out nothing is the complete walk of C28. Complete walks of guest real addresses are decoded to their host entries.", "quantifier": "all page tables, all sequences of translations, all ways to leave out what was shown", "why_tests_cant": "The caches hold state across the whole trace; the record of a resumed walk comes from entries inserted any time before, and a wrong key or offset only shows when two walks share some directories and not others.", "anchors": ["htm/xlate.c: xlate_decode_process_pte", "htm/xlate.c: xlate_decode_partition_pte", "htm/xlate.c: xlate_decode_nested_radix", "htm/xlate.c: xlate_decode_guest_real", "htm/xlate.c: xlate_decode", "htm/pwc.c: pwc_insert", "htm/pwc.c: pwc_get", "htm/pwc.c: pwc_tlb_insert", "htm/pwc.c: pwc_tlb_get"]}
{"id": "C77", "title": "POWER10 traces that leave out cached walk steps convert to the same qtrace file contents as complete ones", "statement": "For every two well-formed POWER10 traces of the same execution that differ only in which steps their walks leave out (each explained by page tables that do not change, and by what earlier walks of that trace showed), htm_decode succeeds on both, and delivers the same instructions, records that say the same, the same basic blocks and the same counters; the qtrace files htmdecoder writes show the same records. The walk, real address and page sizes of an instruction are those of its address in the page tables.", "quantifier": "all page tables, all traces of fewer than 2^30 words, all ways to leave out steps that were shown before, all contents of uninitialised memory", "why_tests_cant": "A trace is resumed or complete depending on the hardware caches at capture time; no two captures of the same execution exist to be compared.", "anchors": ["htm/htm.c: htm_decode_insn_p10, htm_decode_xlate", "htm/xlate.c: xlate_decode", "htm/pwc.c", "htm/htmdecoder.c"]}
{"id": "C78", "title": "qtrace-bbv profiles the instructions of the trace, whatever tool wrote it", "statement": "For every file written by qtwriter, by htmdecoder from a well-formed POWER8/9 or POWER10 trace, or by ptracer, qtrace-bbv reads the file to its end and sees one record per instruction word of the trace at its address; a block ends exactly at branches and at instructions not followed by the next in memory (on POWER8/9, where branch flags are unset, at least at the latter). The instructions of a block follow each other in memory, so address and length of a block tell which they are. The vectors of the complete intervals add up to all their instructions but those behind the last branch.", "quantifier": "all traces, all intervals, all hash orders, all contents of uninitialised memory", "why_tests_cant": "Composes decoder, writer, reader and profiler; the branch flag a block boundary depends on is made up from flags, termination codes and addresses of two records, and lost instructions or merged blocks only shift a clustering.", "anchors": ["qtrace-bbv/qtrace-bbv.c: parse_qtrace", "qtlib/qtreader.c: qtreader_next_record", "qtlib/qtwriter.c: qtwriter_write_record", "htm/htmdecoder.c", "ptracer/main.c"]}
{"id": "C79", "title": "A hardware trace that ends early decodes to a beginning of the whole", "statement": "For every file of any bytes and every place at which reading it may fail: the records that the hardware trace decoder delivers and the instructions it counts before that are the first of those for the whole file; the file htmdecoder writes then shows one record per instruction, and all but the last are the first records of the file for the whole trace. If the decoder dies on the beginning, it dies in the same way on the whole, or by its limit of successive errors.", "quantifier": "all byte sequences, well formed or not, all cut positions, with and without records, all contents of uninitialised memory", "why_tests_cant": "Dumps are cut wherever the buffer was full or the transfer failed; every word of every kind of record is a different place, and a record made up from half of its words looks like any other.", "anchors": ["htm/htm.c: htm_read, htm_decode_fetch, htm_decode_one, htm_decode", "htm/htmdecoder.c"]}
{"id": "C80", "title": "How decoding any hardware trace can stop", "statement": "For every file of any bytes and any contents of uninitialised memory, decoding ends, and if it does not reach the end of the file then by an assert in the decoder, the translation code or the TLB, or by an access outside the arrays for xlate records or walk records. No other access leaves its array (TLB, table of basic blocks, translation caches); an int overflows only for files of 2^30 bytes or more. Without records (statistics only) the TLB and the walks cannot stop it. Each of these outcomes does occur for some file.", "quantifier": "all byte sequences, well formed or not, with and without records, all contents of uninitialised memory, every conforming qsort; all histories of TLB calls", "why_tests_cant": "Damaged dumps are unlimited in number; that the binary search, the growing arrays and the caches stay in bounds depends on everything decoded before.", "anchors": ["htm/htm.c: htm_decode, htm_decode_one", "htm/tlb.c", "htm/xlate.c", "htm/pwc.c", "qtlib/bb.c: bb_ea_log"]}
{"id": "C81", "title": "The report and the last check of the software TLB", "statement": "After any history of sets and lookups (as in C22) the report of the TLB has one line for every page set, in ascending order, with its latest real address and the two counts its calls add up to; then the number of lookups without an answer, of all lookups, and of sets that gave a page another real address. The count called miss never exceeds the count called hit. The check made at the end passes after every history that did not abort, overlapping pages included, and so at the end of every decoded trace.", "quantifier": "all histories up to 2^30 calls for the report, all histories whatsoever for the last check; every conforming qsort; all byte sequences for the decoder", "why_tests_cant": "The counts of a page survive sorting, growth of the array and other sets; only some histories are ever run, and nobody adds up the printed numbers.", "anchors": ["htm/tlb.c: tlb_dump, tlb_print, tlb_exit", "htm/htmdecoder.c: print_stat", "htm/htm.c: htm_decode"]}
{"id": "C82", "title": "The text htmdecoder prints with -d and -D", "statement": "For every well-formed POWER8/9 or POWER10 trace the text is determined by the trace: with -D a line for every stamp, with -d or -D a line for every instruction with its word, address, real addresses, page sizes and data address in trace order; then the checksum and number of the words read, the counts of the records, instructions, stamps, cycles, pages and translations the trace contains, and the table of the software TLB. Without -d and -D nothing is printed. Interrupts are counted if no target of a jump is left at once. Refuted: that every interrupt is counted; that \"Branches taken after Non branches\" counts those; that the lines of data pages of POWER8/9 traces count data pages.", "quantifier": "all well-formed traces below 2^30 words, both options, both ends of file, every buffer content, every conforming qsort", "why_tests_cant": "Nobody compares sixty numbers with the words of a trace; the test traces hold few kinds of records, and the wrong counters look plausible.", "anchors": ["htm/htmdecoder.c: print_record, print_record_insn, print_record_time, print_stat", "htm/tlb.c: tlb_dump", "htm/htm.c: htm_decode_insn, htm_decode"]}
{"id": "C83", "title": "The text of the statistics, the instruction mix and the basic blocks", "statement": "For every log of fewer than 2^31 instructions (and every well-formed POWER8/9 or POWER10 trace, and for qtdis every file of C68) the text of -s, -i and -b is determined by the log: the numbers are those of the log; every kind of exception, system call, OPAL call, hypervisor call and instruction that happened has one line with its name and number, the most frequent first, and no other has one; the blocks are those of C21; every percentage is the share to the nearest hundredth (off by half a hundredth and at most a thousandth of one, exact if it is a whole number of hundredths), though it is computed with rounded doubles and floats. The warning about context switches is printed if more than a tenth are elsewhere. No two entries of a table have the same name. Refuted: that idle time is at most 100% of system time; that the text for an empty log does not depend on how 0.0/0.0 is printed.", "quantifier": "all logs below 2^31 instructions, all combinations of options, every conforming qsort, every text of 0.0/0.0", "why_tests_cant": "The rounding of doubles and floats is right for every sample one tries; a wrong row or a missing entry of a table with 390 names shows only in a trace with that call.", "anchors": ["qtlib/ppcstats.c: ppcstats_print_stats, ppcstats_print_imix, ppcstats_print", "qtlib/ppcstats_private.c: the tables", "qtlib/bb.c: bb_print, bb_dump", "qtdis/qtdis.c: main"]}
{"id": "C84", "title": "The listing of qtdis -v can be read", "statement": "For every file, every disassembler and every symbol table whose texts contain no # and no end of line, the text of qtdis -v determines what the reader found: a user who splits it into lines and words recovers every address, every symbol with its offset, the text of every instruction, with -r every instruction word on hosts of both byte orders, and every annotation with its values, including every guest address, table entry and host address of the walks. For every written trace the addresses, words and annotations other than walks are those of the records. Refuted: that the guest address printed in front of a walk is one of the trace.", "quantifier": "all files, all traces that can be written, all disassemblers and symbol tables with plain texts, both byte orders, with and without -r", "why_tests_cant": "The listing is what people and scripts parse; whether two different sets of annotations can print the same text cannot be tested by printing some.", "anchors": ["qtdis/qtdis.c: print_qt_record, print_radix_on_radix, print_raw_insn, __print_address, read_qt"]}
{"id": "C85", "title": "The output of qtdis -d 1 can be read", "statement": "For every file, each instruction has an IFTCH line and, if it has a data address, an LDST line; a user who splits the lines into fields recovers exactly the addresses, page numbers times 4096 and page sizes that qtdis -v shows of the same instruction, up to the first page size of 2^64 bytes or more, where qtdis shifts too far. For every written trace no such page size occurs, and with data in pages of 4k the LDST lines have the addresses, real pages and page sizes of the records. Refuted: that the real page is right for other page sizes.", "quantifier": "all files; all traces that can be written", "why_tests_cant": "Whether the lines belong to the right instruction and whether any file reaches the undefined shift depends on all files.", "anchors": ["qtdis/qtdis.c: print_qt_record, read_qt"]}
{"id": "C86", "title": "The matrix product is associative and the tests of the matrix code pass", "statement": "For every three matrices that fit, the two ways to multiply them give matrices that matrix_compare calls equal, although sums and products wrap at 2^64, and the matrix with ones on the diagonal is neutral on both sides. The test program at the end of matrix.c passes for all values of random(), all contents of new memory and all sizes it could be compiled with, and would with the comparison that is missing in its last test.", "quantifier": "all matrices, sizes, random values and memory contents", "why_tests_cant": "The test multiplies one set of random matrices of one size, and its test of associativity compares nothing.", "anchors": ["qtrace-bbv/matrix.c: matrix_multiply, matrix_compare, matrix_copy, matrix_resize, matrix_random, identity_multiplication, associative_multiplication, main"]}
{"id": "C87", "title": "The output of qtrace-bbv can be read back", "statement": "A reader of the lines that qtrace-bbv prints gets back, for every trace, the cost and all medoids of every run modulo 2^64, with the right K for each, and with -v also every entry of the matrix in its place and the costs on the way; these fall strictly, are not 0, and end at the cost that is reported unless that is 0. When a run fails, everything before it and the number of the run that failed can be read.", "quantifier": "all traces, periods, options, random signs, walk orders of the hash table and sizes", "why_tests_cant": "The text depends on the number of iterations and on numbers above 2^63, which are printed with a minus sign next to the minus sign of a range; examples show a few outputs.", "anchors": ["qtrace-bbv/qtrace-bbv.c: do_one_pam, do_pam", "qtrace-bbv/matrix.c: matrix_print", "qtrace-bbv/pam.c: print_medoids, pam_iteration"]}
{"id": "C88", "title": "The places and coordinates that pam.c prints agree with the clusters and their weights", "statement": "dump_pam prints for every point, in order, the place of the first of its nearest medoids, or -1 if every medoid is at distance 2^64-1. Whenever print_medoids finishes, the weight it prints for a medoid is the number of points for which dump_pam prints the place of this medoid. print_raw_medoids prints the rows of the medoids in order; all of this can be read back from the text modulo 2^64.", "quantifier": "all matrices, lists of medoids and periods", "why_tests_cant": "Both functions are not called by the program; ties, far points and agreement with the weights need all matrices.", "anchors": ["qtrace-bbv/pam.c: dump_pam, print_raw_medoids, print_point, print_medoids, find_medoid"]}
{"id": "C89", "title": "Copying, clearing and walking back over the hash table keep its contents", "statement": "After any history of additions and deletions, htable_copy with memory available gives a table that holds the same pointers, and any further history has the same results in the copy as in the original. htable_clear gives an empty table that can be used as a new one. After htable_first and n calls of htable_next, with n at most the number of elements, they have returned the elements in order and then NULL; calls of htable_prev then return the elements before the last one in reverse order, and NULL from then on.", "quantifier": "all histories, hash functions and tables", "why_tests_cant": "The program calls none of the three functions; a never used table, whose only word is in the structure, and deleted slots need all histories.", "anchors": ["qtrace-bbv/ccan/htable/htable.c: htable_copy, htable_clear, htable_first, htable_next, htable_prev"]}
{"id": "C90", "title": "The checks of CCAN_LIST_DEBUG never stop a correct program and catch removals of nodes that are not in the list", "statement": "Built with CCAN_LIST_DEBUG, a program that uses its lists correctly runs without abort or fault, and every list has the same nodes as without the checks, whatever list head the additions are given. list_del_from does what list_del does for the nodes of the list; with the checks it aborts for every other node but the head. A node that was removed cannot be removed or exchanged a second time: the program stops at the null pointer. No operation goes on with a list that is not linked both ways.", "quantifier": "all histories of correct operations over any number of lists; all lists and nodes", "why_tests_cant": "The debug build is never made; that checks in the middle of joining two lists see a consistent ring needs all lists, including empty ones.", "anchors": ["qtrace-bbv/ccan/list/list.h: list_add_after, list_add_before, list_del, list_del_init, list_del_from, list_swap, list_append_list, list_prepend_list", "qtrace-bbv/ccan/list/list.c: list_check, list_check_node, corrupt"]}
{"id": "C91", "title": "The report and the exit status of a test program tell what its tests did", "statement": "A program that plans its tests with plan_tests or plan_no_plan and then makes any correct sequence of ok, diag, skip, todo_start and todo_end writes a report in which a reader finds exactly its tests, in order, with their numbers, results, titles and marks, and one plan; the exit status is at most 255, and 0 exactly if no test failed that was not marked as to be done and, with plan_tests, as many tests were run as planned. The notes of the report are exactly those of the diag calls, of titles made of digits only, of each failed test (with file, function, line and whether it was to be done), and a last one with the right numbers. A second plan, or a plan of no tests, ends the program with status 255 and adds no test to the report.", "quantifier": "all sequences of calls of fewer than 2^31 tests whose texts have no line feed", "why_tests_cant": "That titles with number signs, to-do marks, skips and lost memory can be told apart in the report, and that no excess or lack of tests wraps round to status 0, needs all sequences of calls.", "anchors": ["qtrace-bbv/ccan/tap/tap.c: _gen_result, diag, skip, todo_start, todo_end, plan_tests, plan_no_plan, plan_skip_all, _cleanup, exit_status_"]}
{"id": "C92", "title": "The string helpers of CCAN read only their strings, and their buffers are large enough", "statement": "streq, strstarts and strends decide equality, prefix and suffix of strings without reading behind the end of either. STR_MAX_CHARS of a type of any size has room for every value of the type in base 8, 10 or more, with a sign or the octal zero and the final zero, and in base 16 with 0x. asprintf and afmt give exactly the expanded text with its final zero in memory of just that size, or -1 and null pointer if there is no memory; no text makes them store behind the memory, and only a text of exactly INT_MAX characters makes a signed sum overflow.", "quantifier": "all strings in all memory, all type sizes and values, all texts and all behaviours of malloc", "why_tests_cant": "The bound for all sizes of types is not computed by any test; reading one byte behind a string goes unnoticed.", "anchors": ["qtrace-bbv/ccan/str/str.h: streq, strstarts, strends, STR_MAX_CHARS", "qtrace-bbv/ccan/asprintf/asprintf.c: vasprintf, asprintf, afmt"]}
{"id": "C93", "title": "The typed hash table finds all elements of a key, and removes one of them", "statement": "For a key function, any hash of keys and an equality that is equality of keys: after any history of additions and deletions, the loop of getfirst and getnext ends and gives every element with the key, each as often as the table holds it and no other; delkey removes one element with the key and reports true, or reports false without a change if there is none.", "quantifier": "all key types, hash functions and histories of additions and deletions, all keys", "why_tests_cant": "Elements of different keys that share hash bits, deleted marks and a probe that wraps around the table occur together only in particular histories.", "anchors": ["qtrace-bbv/ccan/htable/htable_type.h: name##_getmatch_, name##_getfirst, name##_getnext, name##_delkey"]}

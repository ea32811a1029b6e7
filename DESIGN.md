# Formal model of qtrace-tools — design

Source: `/repo` (antonblanchard/qtrace-tools, C), read as text only.
Prover: Coq 8.16.1, standard library only.

## Trusted base

* The Coq kernel (no kernel check switched off, no `Axiom`/`Parameter`/`Admitted`).
* `Print Assumptions` is run after every property theorem (files `*_Props.v`);
  see the table at the end for its output.
* `coqchk -o` over the whole library additionally lists axioms of the ssreflect
  part of the standard library (`Coq.ssr.ssrunder.Under_rel…`), which are loaded
  through `Lia`/`Zify`; no property theorem uses them, as the table shows.
* The hand translation C -> Gallina: every definition of a `*_Model.v` file
  cites the C file and lines it transcribes and says where it simplifies.

## Modelling conventions

* Machine integers are `N` with explicit `mod 2^k`; signed ones are `Z`.
* Byte buffers are `list N`.
* Undefined behaviour, `assert` failures and `exit` are distinct outcomes of
  the model, never silently totalised.
* Memory safety is modelled as: every access goes through a checked accessor
  that yields a distinct fault outcome.
* Not modelled: printing other than the texts listed below, `perror` texts, mmap/open/close failures at start-up
  except where a property speaks of them, the disassembler (binutils), ELF
  reading.

## Plan per property

| id | modelled | how proved |
|----|----------|-----------|
| C01,C02 | qtwriter.c and qtreader.c, byte for byte | parse-of-emit lemma per field group, then induction over the record list with a state invariant linking the writer's pending record and the reader's lookahead state |
| C03 | writer bytes ++ zeros | same invariant; zero instruction word is a failing header |
| C04 | reader on arbitrary bytes | monotonicity of every `GET` in the remaining buffer |
| C05 | reader on arbitrary bytes | each step consumes >= 6 bytes |
| C06 | reader with slack bytes behind the buffer and explicit array bounds | outcome analysis of every parse function; witnesses for the refutations |
| C07,C08,C49 | writer with grow oracle | size bound of an emitted record; error-of-emission lemmas |
| C09,C10 | reader on arbitrary bytes | inversion of next_record |
| C11 | writer then reader | consequences of C02, vm_compute witnesses |
| C12,C13 | annotate_branch/annotate_tlbie | case analysis against an ISA table |
| C14-C17 | qtlib/branch.h | bit-field arithmetic |
| C18,C19 | branch/link_stack.c | simulation with a stack |
| C20,C21 | qtlib/bb.c (hash table abstracted as a map; see C35 for the table itself) | induction over the log |
| C22,C23 | htm/tlb.c | sorted-disjoint invariant, binary search correctness |
| C24-C26 | htm/erat.c, htm/pwc.c | finite-map refinement |
| C27,C28 | htm/xlate.c | fuel-free structural parser |
| C29-C31 | htm/htm.c word fetch, bit fields, recoding | bit arithmetic, induction over operations |
| C32-C34, C52 | qtlib/ppcstats.c | counters as functions of the instruction history, invariants |
| C35,C36 | ccan htable.c | open-addressing invariant |
| C37,C38 | matrix.c | index arithmetic |
| C39,C40 | pam.c | cost as measure |
| C41 | qtrace-bbv.c | induction over records |
| C42 | ppc_storage.c | decision table vs ISA spec |
| C43,C44 | single_step.c | memory as function, breakpoints list |
| C45 | pagemap.c | history induction |
| C46 | symfind | binary search |
| C47 | pids.c | list refinement |
| C48 | qtbuild.c | induction over text |
| C50 | htm/pwc.c merging of walks | explicit description of the overlap, induction over both walks |
| C51 | reader on arbitrary bytes | inversion of every `GET`, fields stated as offsets in the bytes |
| C53 | single_step.c step_over_atomic with its printer | induction over the stepped instructions |
| C54 | qtdis -b text and qtbuild | printing and parsing inverse, induction over lines |
| C55-C57 | htm.c decoding loop for POWER8/9 and POWER10, htmdecoder, composed with C02 | relational description of a trace of words, simulation of the decoder step by step |
| C58,C59 | ptracer main loop with an adversarial kernel | trace of requests and answers, invariant on threads |
| C60 | perf_events.c fast_forward | invariant on open counters |
| C61,C63 | qtdis print_record and read_qt | inversion of the reader, then induction over the file |
| C62 | ccan hash.c, every variant | reduction of all paths to one lookup3 over bytes |
| C64 | ccan list.h over a heap | separation by explicit address lists |
| C65 | ptrace.c | trace of requests against a set of threads |
| C66 | the whole opcode table | computation over the table, lifted to all words by a mask lemma |
| C67 | ccan hex, base32, strcount | bit arithmetic per group, induction over groups |
| C68 | htmdecoder and qtdis counting modes | composition of C55-C57, C61 and the log lemmas |
| C69 | qtlib/tests/test3.c | composition of C02 with reader inversion |
| C70 | ptracer -a -r | replay of the printed lines restores the registers |
| C71 | getopt and the four mains | induction over the words |
| C72 | setrlimit_open_files, do_checkpoint | induction over halvings, digits |
| C73 | tools/qtrace_statistics.py | counters as functions of the history, printing and parsing inverse |
| C74 | ptracer main loop with both logs | simulation of runs with different options |
| C75 | qtdis listing read by tools/qtrace_statistics.py | composition of C61, C68 and C73 |
| C76 | xlate_decode over a whole trace of resumed walks | invariant: the caches hold what earlier walks showed |
| C77 | two traces of one execution with different resumed walks | C56 and C57 over resumed walks; what they deliver does not mention the steps left out |
| C78 | qtrace-bbv on files of every source | the records by C02; blocks as maximal runs; sums exchanged |
| C79 | the decoder on a file and on its beginning | two runs in step until the first read fails; after that nothing is delivered |
| C80 | the decoder on any bytes | bounds of TLB, basic block table and caches kept through the run, potential for the word count; files that reach each outcome |
| C81 | htm/tlb.c: tlb_dump, tlb_exit | ledger of counts per page kept through set, sort and growth; validation depends on addresses only |
| C82 | htmdecoder.c: print_record, print_stat over htm.c | simulation of C55/C56 extended to all counters, the last instruction and the ledger of C81; text by rewriting |
| C83 | ppcstats.c: ppcstats_print; bb.c: bb_dump | error bounds of the roundings to 53 and 24 bits over N; counters by C32/C34/C52, blocks by C21; text by rewriting |
| C84 | qtdis.c: print_qt_record with -v and -r | text = concatenation of words; splitting inverts printing, number by number, by induction |
| C85 | text of qtdis -d 1 | field reader; simulation of the loop of -v, then the annotations of C63 |
| C86 | tests of matrix.c over the matrix model | exchange of finite sums modulo 2^64, then the lemmas of C37 and C38 step by step |
| C87 | text of qtrace-bbv over the model of the clustering | lines are read by kind; the fall of the costs by induction over the swaps; numbers by the lemmas of C84 |
| C88 | dump_pam and print_raw_medoids | the search is that of C39; counting by induction over the loop of print_medoids |
| C89 | htable_copy, htable_clear, htable_prev | invariant of C35; the slots before the offset give the elements already seen |
| C90 | list.h with CCAN_LIST_DEBUG | every check sees a ring of C64; removed nodes are loose in the model of C64 |
| C91 | The calls of a test program are a list; a state holds the counters, the to-do message and the plan. A reader of the report, written apart from the writer, takes lines apart into results and plans. | Each call adds exactly the results of its tests to what the reader finds (induction over the calls, with the counters tied to the number of results and of bad results); then arithmetic for the exit status. |
| C92 | str.h and asprintf.c over memory that ends | induction over both strings; the number of digits from the power below the value |
| C93 | the macros of htable_type.h over the table of C35 | the loop gives the matching slots in probe order up to the first empty slot; all slots in probe order are a permutation of the table, and no matching slot lies behind the empty one |

## What is modelled

| C source | model | left out |
|---|---|---|
| qtlib/branch.h (all functions) | `Branch_Model` | – |
| branch/link_stack.c | `LinkStack_Model` | malloc failure |
| qtlib/qtwriter.c: open, put macros, header, write_record, close | `Writer_Model` | open/ftruncate/mmap failing at open; printing |
| qtlib/qtreader.c: GET macros, header, radix helpers, annotations, registers, next_record, initialize | `Reader_Model` | fd/mmap set-up, `verbose` printing |
| qtlib/bb.c: bb_ea_log, bb_allocate, bb_coalesce, bb_dump order | `Bb_Model` | the ccan hash table is a finite map; qsort is any function that sorts (hypothesis `sorter`); printing is in `Table_Model` |
| htm/tlb.c | `Tlb_Model`, `Tlbdump_Model` (report, tlb_exit) | event counters unbounded; qsort as above; calloc/realloc failure |
| htm/erat.c, htm/pwc.c (three caches), address helpers of htm/xlate.h | `Pwc_Model` | the ccan hash tables are finite maps: this needs the four padding bytes after the first key field (read by the hash function) to be equal in the stack and heap copies of a key |
| htm/xlate.c (all), partial walk list of htm/pwc.c | `Xlate_Model` | debug printing; `final_record` and unused MSR bits; the case parser->xlate == NULL (never passed); nwalks is between 0 and 38 |
| htm/htm.c: word fetch and rewind, bit fields, branch recoding | `HtmBits_Model`, `Htm_Model` | see the comments of the models; the file is a list of bytes |
| qtlib/ppcstats.c | `Stats_Model` | the text is in `Table_Model`; the opcode table is arbitrary; qsort as above; the cache of decoded instructions is a finite map |
| qtrace-bbv/ccan/htable/htable.c | `Htable_Model` | the rehash callback is any function of the pointer |
| qtrace-bbv/matrix.c | `Matrix_Model` | matrix_print, matrix_random (test only); malloc does not fail; realloc to size 0 returns NULL as in glibc; rand_r is any sequence |
| qtrace-bbv/pam.c, clustering in qtrace-bbv.c | `Pam_Model` | printing; malloc failure; dump_pam, print_raw_medoids (not used); points and medoids are row numbers instead of row pointers |
| qtrace-bbv/qtrace-bbv.c | `Bbv_Model` | option parsing; -v output; the trace reader (C03) delivers the records; malloc failure; the hash table (C35) is a list walked in an arbitrary order |
| ptracer/ppc_storage.c | `Storage_Model` | register file as a function; with a null register pointer the values are arbitrary (uninitialised array) |
| ptracer/single_step.c; ptracer/ptrace.c: read_insn, write_insn | `Step_Model` | memory as aligned 32-bit words, both host byte orders; what the thread does after PTRACE_CONT is an arbitrary function of memory giving the new memory and the reason it stopped; signal masks; read_pc error as pc = -1; other threads meanwhile |
| ptracer/pagemap.c | `Pagemap_Model` | the kernel's page files as arbitrary functions per lookup (a short read is an arbitrary value); page sizes are parameters (main.c passes 64K and 2M); opening the files and their error exits |
| ptracer/pids.c; ptracer/ptrace.c: the loop filling the table | `Pids_Model` | the ptrace and perf calls around it |
| qtdis/qtdis.c: build_symtab, symfind, __print_address; ptracer/ascii.c: the same and initialise_mem_map | `Sym_Model` | libbfd gives a list of symbols (an error count is not modelled); qsort is any sorting function; the text of a maps line is parsed already; printing as a value |
| qtbuild/qtbuild.c build | `Build_Model` | Sections are whole words and entries in host byte order; libbfd, options and debug printing are left out. The uninitialised registers given to is_storage_insn are an arbitrary function. |
| qtdis/qtdis.c -b output with the macros of qtbuild/qtb.h | `Rebuild_Model` | As the maps the macros assemble to. Disassembler and assembler are the environment (`assembled`); prefixed instructions are left out. |
| htm/htm.c P8/P9 trace format | `Trace_Spec`, over `Htm_Model` | The format as a grammar, written from the comments and masks of the decoder; words of the grammar carry no mark they should not. |
| htm/htm.c P10 trace format | `Trace10_Spec`, over `Htm_Model` | The format as a grammar. Walks that are used must be walks of a guest with translation on (C26 to C28 and C27_completion treat others), either all complete or all explained by page tables that do not change (`Resume_Spec`); `Retrace_Spec` says when two traces are of the same execution; page and address must have the same place in the host page. |
| htm/htmdecoder.c 105-153, 299-331 | `Convert_Model` | Without -s, -i and -b. The text of -d and -D is in `Report_Model`, opening of files is not modelled; the options are in `Args_Model`. `Convert_Spec` states what a reader sees. |
| ptracer/main.c 225-294, 419-563, ptrace.c 250-261 | `Tracer_Model` | What waitpid and ptrace return is an arbitrary event. Only -q output; for -a and -r see `Regs_Model`, for -c `Start_Model`. `Tracer_Spec` lists the kinds of events. |
| ptracer/perf_events.c 63-231 | `Forward_Model` | The descriptors and the count read at the end are arbitrary; ioctl and fcntl on an open counter and the first continues succeed. |
| qtdis/qtdis.c 228-467 | `Qtdis_Model` | read_qt and print_qt_record without -b and -v; disassembly text, symbol lookup and the annotations behind the instruction are not modelled; the real address of the LDST line is in `Dump_Model`. |
| qtrace-bbv/ccan/hash/hash.c 84-712 | `Hash_Model` | complete, except for the self test; a key is its bytes, its address modulo 4 and the host's byte order are parameters. |
| qtdis/qtdis.c 370-467 with -v | `Verbose_Model` | which annotations are printed, with which values; the layout is in `Vtext_Model`. state->data_rpn is recovered from the record's real address, exact for page shifts of at most 32. |
| htm/tests/dumps, htm/tests/disasms | `Vectors` | all eleven dumps as 64-bit words, with the decoded addresses, words and annotations of the listings. |
| qtrace-bbv/ccan/list/list.h, list.c | `List_Model` | without CCAN_LIST_DEBUG (see `Listdbg_Model`); offsets of the node in its structure are left out. |
| htm/pwc.c 496-706 in memory | `List_Model` (`pcache`), against the lists of `Xlate_Model` | calloc succeeds; which free address it returns is arbitrary. |
| ptracer/ptrace.c 50-345 | `Capture_Model` | the system is a sequence of answers to the calls; the directory's names come as one answer; the child's side of fork is left out; process ids are their values as unsigned long (waiting and seizing truncates to int); addresses do not wrap around; a word is readable exactly if its bytes are mapped, and writable then. read_pc is not treated; detach_all_threads belongs to C58. |
| qtlib/ppc-opc.c 3532-7580 with its macros (2312-3520) and qtlib/ppc.h 66-230 | `Opcode_Table` | macros are definitions and functions over 64-bit numbers instead of textual substitution; the operands of entries are left out, as are the tables and functions for operands (ppc-opc.c 38-2311) and the VLE and SPE2 tables (7581-), which nothing uses. Generated from the source text by a script and compared with an independent evaluation of the macros. |
| qtrace-bbv/ccan/str: hex/hex.c, base32/base32.c, str.c | `Str_Model` | sizes do not overflow; base32_chars is the default array |
| htmdecoder -s, -i, -b; qtdis -s, -i, -c and listing; across the file between them | `Tools_Model` (over `Htm_Model`, `Qtdis_Model`, `Stats_Model`, `Bb_Model`) | the text of the tables is in `Table_Model` |
| test3 (copying a trace) | `Copy_Model` (over `Reader_Model`, `Writer_Model`) | files open and can be extended |
| ptracer register dump | `Regs_Model` | the kernel's answers are given; the disassembly is the word |
| qtlib/tests self tests | `Vectors2` | the test programs' records and expectations, run through the models |
| main of ptracer, qtdis, htmdecoder, qtrace-bbv: options | `Args_Model` | getopt, strtol, strtoul and atoi of the C library are modelled from their documentation; POSIXLY_CORRECT is not set |
| ptracer/main.c 48-71, 84-99 | `Start_Model` | setrlimit as Linux implements it; running criu |
| tools/qtrace_statistics.py | `Script_Model` | text is ASCII; options and the printing of the table |
| ptracer/main.c 225-294, 419-563 with -a, -q, -r in any combination | `Both_Model` | as `Tracer_Model`; the disassembly is the word |
| qtdis piped into the script | `Pipe_Model` | symbol table and disassembler are arbitrary functions |
| qtrace-bbv over trace files | `Profile_Model` (over `Reader_Model`, `Bbv_Model`) | the file is mapped; -v output |
| htm/htmdecoder.c 27-208, 313-317: the text of -d and -D | `Report_Model` | The messages htm.c prints about traces it cannot make sense of are left out. `Report_Spec` states the text. |
| qtlib/ppcstats.c 351-460; qtlib/bb.c 69-76, 186-204; the names in qtlib/ppcstats_private.c 18-780 | `Table_Model`, `Names_Model` | Doubles and floats are fractions rounded to 53 and 24 bits (neither subnormal numbers nor overflow: all come from integers of 64 bits); printf rounds exactly, ties to even; what 0.0/0.0 prints is any text. `Table_Spec` states the text. |
| qtdis/qtdis.c 65-93, 196-216, 361-430: the text of -v and -r | `Vtext_Model` (over `Verbose_Model`) | symbol table and disassembler are arbitrary functions; without -b; values are cut to the types of C. `Vtext_Spec` is the user who reads it. |
| qtdis/qtdis.c 315-336, 432-467: the text of -d 1 | `Dump_Model` | the page number of data is taken from the real address of the record, exact for page sizes up to 2^32 bytes; text of the record at an undefined shift counts as not printed. `Dump_Spec` is the user who reads it. |
| qtrace-bbv/matrix.c 165-174, 210-311: the tests | `Selftest_Model` (over `Matrix_Model`) | random() is any function of the place; sizes are parameters; new memory has the same contents every time; matrix_destroy is left out. |
| qtrace-bbv/qtrace-bbv.c 132-197, matrix.c 139-149, pam.c 225-259: the text | `Bbvtext_Model` (over `Bbv_Model`, `Pam_Model`) | The message on standard error is left out; malloc() in print_medoids succeeds; with undefined behaviour the text ends there. |
| qtrace-bbv/pam.c 181-197, 261-284: dump_pam, print_raw_medoids | `Pamdump_Model` (over `Pam_Model`) | Nothing is said of the text before undefined behaviour; dump_pam does not use its second argument. |
| qtrace-bbv/ccan/htable/htable.c 84-102, 139-168: htable_clear, htable_copy, htable_prev | `Htcopy_Model` (over `Htable_Model`) | The memory of the copy is separate by construction; free is not modelled. |
| qtrace-bbv/ccan/list/list.h 94-99, 177-418, 638-688 with CCAN_LIST_DEBUG | `Listdbg_Model` (over `List_Model`) | The checks in list_empty, list_next, list_prev and at the start of loops are left out except in list_del_from; the message of corrupt is not modelled. |
| qtrace-bbv/ccan/tap/tap.c 36-459 | `Tap_Model` | Formats are expanded before the call; a test program is the list of its calls in one thread and one process, its main returns exit_status(). What is written to standard error (the messages of a second plan) is not modelled, nor tap_fail_callback; all other output goes into one text. |
| qtrace-bbv/ccan/str/str.h 21-91; qtrace-bbv/ccan/asprintf/asprintf.c | `Cstr_Model` | strlen, strcmp, strncmp and vsnprintf of the C library are modelled from their documentation; both passes over the arguments of a format give the same text. |
| qtrace-bbv/ccan/htable/htable_type.h 58-62, 85-141 | `Httype_Model` | the macro with its parameters as functions; an iterator is the offset it holds; the table is not changed during the loop. |

## Findings

* C02/C11: `qtwriter` emits guest-instruction page shift before data page shift,
  `qtreader` reads them in the other order: the two come back swapped whenever
  both are stored (`C11_shifts_swapped`).
* C11: a data walk stored together with an instruction real address without
  walk (or the reverse), a multiple data walk with a single instruction walk,
  a first record with walk entries but no instruction real address, and one
  with entries but no walks all desynchronise the reader (`C11_witnesses`).
* C11: an all-zero instruction word not following a prefix ends the trace
  for the reader (`neg_g`).
* C11: the reader takes the kind of instruction walks from the header only
  (`C11_kind_lost`), and ignores translation changes of sequential
  instructions (`C11_sequential_translation_ignored`).
* C03: after a crash the trace reads as all but the last record, except when
  the last stored word is an instruction prefix: then a phantom record with a
  null word is returned (`C03_crash_after_prefix`).
* C06: reading past the end of the buffer and past the walk arrays of the
  reader is possible (`C06_…_refuted`).
* C13: the tlbie page number is masked to 51 bits instead of 52.
* C17: the branch target helper tests the AA bit of the address, not of the
  instruction.
* C19: depth 0 link stack stores out of bounds.
* C21: hit counts are compared after truncation to `int`: two adjacent
  addresses whose counts differ by a multiple of 2^32 are merged
  (`C21_within_three_refuted`), and a truncated difference of -2^31 is
  `abs(INT_MIN)`.
* C23: the TLB's overlap check only tests the two end addresses of each page
  against the entries behind it, so a 16M page can enclose 4K pages; lookups in
  it then miss or hit the stale small page (`C23_overlap_missed_refuted`).
* C23: `ea + size` wraps to 0 for the last page of the address space: looking
  up an address there fails an assert (`C23_top_page_aborts`).
* C24: re-inserting an ERAT entry with a different host page size keeps the old
  host page size (`C24_host_shift_stale_refuted`).
* C25: the page walk cache ignores address bits 52..63, so effective addresses
  of different quadrants share entries (`C25_top_bits_ignored`).
* C27: merging two walk fragments, and completing an interrupted walk of 38
  records, write past `walks[38]` (`C27_merge_overflow_refuted`,
  `C27_fixup_overflow_refuted`).
* C27: a walk rejected because records are left over has already been entered
  in the ERAT, so later lookups return it (`C27_rejected_walk_cached_refuted`).
* C28: ERAT entries do not carry the translation mode: a real mode entry is
  returned for a relocated access to the same page pair
  (`C28_mode_aliasing_refuted`).
* C51: a stored page size of the sequentially following instruction is read
  and then invalidated by the `else` branch of the next field, so it never
  reaches a record (`C51_sequential_page_size_refuted`); the length and data
  flags are accepted but no bytes are consumed for them.
* C31: `IS_ISEL` is applied to the recoded word, so a branch whose recoded word happens to have the opcodes of isel is written out unexpanded (C31_isel_refuted).
* C31: POWER10 absolute conditional branches shift the top bit of BI by 5 instead of 4: it lands in BO (C31_p10_absolute_condition_refuted).
* C31: POWER10 type 3 words are classified by their top six bits, which in a recoded bcctr/bctar hold the link bit, two bits of the msb mode, and BO0. A bctrl with clear filler bits looks like sc (C31_p10_bctrl_refuted); what the hardware puts there is not in the source.
* C31: `MINOR_OPCODE` keeps five bits, so IS_BCTR is never true and the bctr/bctar case is covered by IS_BLR; harmless.
* C30: at end of file `htm_read` returns success once more, so one word that is not in the file is counted, summed and decoded. It is what the buffer in `htm_decode_fetch_internal` happens to contain; if that is still the last word, the last record is delivered twice (C30_phantom_refuted). An incomplete last word is completed with such bytes too.
* C30: every decode function returns 0 or -1, so the retry with `htm_rewind` for the return value -2 in `htm_decode_one` is dead code (insn8_codes, insn10_codes in Htm_Proofs2.v).
* C32: the mask 0xfe1fffff for context switches fixes the top bit of the target register, so reads into r16 to r31 are not counted (C32_upper_registers_refuted). The register tested for is VRSAVE (SPR 256), not EBBRR as the comment says.
* C33: idle counts are distances between markers of two kinds, each counted for itself, and include user instructions between the markers and the distance from the start of the trace: idle can exceed system (C33_idle_exceeds_system_refuted) but not twice the total (C33_idle_bound).
* C34: the loop bound NR_OPCODES - 1 leaves the last opcode of the table out of the major-opcode index; an instruction that only it matches is counted as unknown (C34_last_entry_refuted).
* C52: the comparison functions return the 64-bit difference of two counts as int. A system call made 2^31+1 times is sorted behind those never made, and the loop that stops at the first zero prints nothing (C52_large_count_refuted).
* C36: `htable_init_sized` leaves `bits` set when its allocation fails, although the interface says the table stays usable; a lookup then indexes past the single word that stands in for the table (`C36_failed_init_refuted`).
* C36: pointers that do not share their highest set bit can be stored as the mark of an empty or deleted slot and are lost (`C36_highest_bit_refuted`). Heap pointers normally share that bit.
* C35: `1 << bits` is an int; the table cannot grow past 2^30 slots (`HtBig` in the model, reached only with more than 805306368 elements).
* C37: `matrix_resize` computes sizes modulo 2^64, so a shape of more than 2^61 entries is recorded without being allocated (`C37_size_wraps_refuted`); resizing to zero rows with the same number of columns calls `realloc` with size 0 and, with glibc, ends the program (`C37_no_rows_refuted`).
* C39, C40: `llabs` of a coordinate difference of exactly 2^63 is undefined behaviour (`C39_undefined_refuted`); distances are summed modulo 2^64, so unequal points can be at distance 0 (`C39_wrapped_refuted`), and a point at distance 2^64-1 from every medoid is assigned to medoid -1, whose count is then incremented outside the array (`C40_far_point_refuted`). With coordinates below 2^63 and distances below 2^64-1 none of this happens (`C39_distance_exact`). With -k larger than the number of unique intervals the program exits (`C40_ex_exit`).
* C41: `reset_basic_block_vector` doubles the columns at most once per interval, so when an interval brings more new blocks than twice the columns, counts are stored in the row of the next interval (`C41_many_blocks_refuted`) or outside the matrix (`C41_many_blocks_outside`). `C41_vectors` holds when no interval more than doubles the number of blocks (beyond the first 10000). Blocks still open and instructions after the last complete interval are not counted; a trace shorter than one interval makes the tool exit with an error (`C41_short`).
* C42: the decoder knows version 3.0 accesses only. Paired vector accesses (primary opcode 6) and all prefixed accesses (primary opcode 1) are reported as no access (C42_v31_refuted); lswx, lswi, stswx, stswi, lwat, ldat, stwat and stdat abort the tracer through assert(0), and qtbuild with it.
* C43: the exit paths of read_insn and write_insn during insertion end the tracer without removing the breakpoints already placed, so a conditional branch to an unreadable address inside an atomic sequence leaves illegal instructions in the traced program (C43_left_behind_refuted). read_insn transfers a doubleword and takes all ones for an error, so code in the last word of a mapping, or followed by two words of ones, ends the tracer (C43_fetch_refuted).
* C44: only conditional B-form branches get breakpoints. After an unconditional or register branch out of the sequence the program runs away untraced (C44_unconditional_refuted).
* C53: the callback is given all words between start and stop. A branch taken forward reports instructions that did not run, a branch taken backward reports nothing (C53_taken_refuted). All callbacks see the registers at the stop, not those at the reported instruction.
* C45: the zero-initialised cache entries look like fresh entries for physical page 0, so an early lookup below 2M answers physical address 0 without asking the kernel (C45_zero_refuted). The age of an entry is a 32-bit difference of lookup counts, so an entry 2^32 lookups old counts as fresh (C45_wrap_refuted). A huge-page entry answers for the whole 2M page with the translation of the 64K page that was looked up first (C45_huge_refuted). main.c stores the page address without the offset in the trace.
* C46: symfind returns nothing for addresses above the last symbol, so code in the last function is printed without a name (C46_past_last_refuted). The comparison handed to qsort returns 0 for pairs in ascending order and 1 for the reverse, which the C standard does not allow; the theorems assume that qsort sorts nevertheless (C46_symcmp_refuted). initialise_mem_map fills a 256-entry array without a check (C46_overrun_refuted) and uses the file name buffer unset for an executable anonymous mapping (C46_anonymous_refuted).
* C47: capture_all_threads gives up on a process with exactly MAX_PIDS threads, which fit (C47_capacity_refuted). add_pid leaves the perf_fd of an earlier thread in the new record (C47_fresh_refuted). By reading: fast_forward passes the result of add_pid and find_pid on without a check for NULL (perf_events.c:166, 177, 211), and `WSTOPSIG(status == 0)` (perf_events.c:190) never selects the clone-entry stops it is meant for.
* C48: behind an absolute branch, `branch_taken` computes the target as if it were relative (the C17 bug) and rewrites the instruction to match (C48_absolute_refuted). A second map entry at one position disables all entries behind it without a message (C48_shadowed_refuted). With fewer ldst entries than accesses the map is read behind its end (C48_exhausted_refuted). By reading: the macro branch_to_rel of qtb.h says `long 1` for `.long 1` and does not assemble; a text section that is not a multiple of 4 long is read behind its end; a zero word with an entry behind it is rejected as an invalid branch.
* C54: qtdis -b prints branch targets as symbols nobody defines, so the target of a branch that is not taken is lost (C54_target_lost_refuted). By reading: behind a prefixed instruction the next address is 8 higher, so a spurious branch_to_abs is printed.
* C55: the opcode of an instruction is in the bits of the stamp mark, so `lhau r7,..(r15)` with a displacement from 0xf000 is read as a stamp and lost (C55_opcode_refuted). A data address with 0xabcde in bits 36-55 is dropped and its word read as an instruction (C55_data_refuted). POWER8/9 records are emitted with the branch flags uninitialised (C55_junk_refuted). branches_after_non_branches counts the jumps after branches (C55_jumps_refuted). Data page counters compare the shift with 1, 2, 3 and stay 0; instructions with segment words are given data address 0 (both visible in `insn_events` and `data8` of the theorem).
* C56: the real address is made by or-ing the offset of the address in the host page onto the real 4K page, so with guest pages smaller than the host page another page is recorded (C56_real_refuted). A third walk on one side of an instruction is written behind `xlate_i`/`xlate_d` (C56_walks_refuted). A walk of the hypervisor with translation on ends the program in an assertion (C56_hypervisor_refuted). In statistics mode only one of two data addresses is skipped; the second is read as an instruction (C56_modes_refuted). By reading: data real pages are taken from 41 bits, instruction ones from 40; the instruction offset is taken from bits that include one of the line address; the ERAT key does not include the translation mode, so a lookup in real mode returns a nested walk.
* C57: htmdecoder passes records to the writer whose unset fields are uninitialised stack memory; on POWER8/9 guest page flags and both walks are never set, and the writer can assert on them (C57_junk_refuted), as it can on POWER10 when the first instruction has no real address. Real page numbers are cut to 32 bits (C57_page_refuted; POWER8 traces have 38). The page of an instruction is only written after a discontinuity, so the first instruction of the next page is read with the page before (C57_crossing_refuted), and a jump target without real address too. If a load with a real data page precedes a jump to an instruction with a guest page, the two shifts are exchanged in the file and the data's real address is wrong (C57_data_refuted). An instruction word 0 ends the file for the reader (C57_zero_refuted).
* C58: ptracer steps once before it looks for the first time (main.c:419), so the first instruction after a start, an attach or a fast-forward is never recorded, and -s N skips N+1. A stop for a signal records the instruction that has not been executed yet; behind a handler it is recorded again and looks like a taken branch (C58_signal_refuted). All instructions of an atomic sequence are recorded with the registers behind it, so their data addresses can be wrong. The limit is not checked behind an atomic sequence: the tracer ends at the next ordinary stop. With -x the page map is opened for the first process even if fast_forward picks a thread of another.
* C59: a signal that arrives at a larx is not delivered (C59_lost_refuted); SIGILL of other threads and SIGSTKFLT of all are never delivered. A thread that cannot be added to a full table is not detached at the end. If the traced thread ends, the others are left to the kernel.
* C60: -s below 200 makes the period wrap to nearly 2^64, which the kernel refuses, and ptracer exits (C60_period_refuted); -s 200 makes a period of 0, which never fires. A full table or the end of an unknown thread makes fast_forward use a null pointer (C60_null_refuted). `WSTOPSIG(status == 0)` is never true, so a new thread's stop goes on with the stop's signal. A failure of PTRACE_GETEVENTMSG is compared with 1 and never seen, and a short read of the counter leaves the count uninitialised. All other threads keep running while the chosen one is traced.
* C61: qtdis copies the reader's state before it reads the suffix, so a prefixed instruction is disassembled with the suffix of the prefixed instruction before, the first one with 0 (C61_suffix_refuted). Behind an embedded header (concatenated traces) the first line has the address behind the last instruction of the trace before (C61_header_refuted). -d 1 shows an instruction with the real page of the *next* one, shifted by 12 whatever the page size (C61_fetch_refuted), and never the data address of a suffix record. The result of the read behind a prefix is ignored; a page shift of 64 or more in the file is undefined behaviour in -d 1.
* C62: hash64_stable_64 and _32 process blocks `while (n > 3)` but have no `case 3` (_16: `while (n > 6)`, no `case 6`), so the last three (six) elements of an array whose length is a multiple of three (six) do not influence the hash: all arrays of three words with the same base have the same hash (C62_stable_refuted). For an empty array they return 32 bits where hash64_stable_8 returns 64. The tools use hash64 and hash only.
* C63: as the code reads, four of the eleven traces of htm/tests (04, 07, 08, 09) end htmdecoder with an assertion: they have table walks of the hypervisor with relocation, which xlate_decode asserts not to exist (C63_tests_abort; for all such walks C63_hypervisor). 02 and 03 are decoded, but without the expected RPN and page size (C63_test_02, C63_test_03). 01, 05, 06, 10 and 11 give the expected listing, and so do 04, 08, 09 without their walks.
* C63: qtdis -v prints INSN RPN and INSN PAGE SIZE of the next instruction, but beside them INSN RADIX of the current one (C63_walk_refuted). A conditional branch whose record has no termination is printed with TERM CODE 0x00.
* C64: list_for_each may not be used to unlink and free the current node and go on (C64_unsafe_refuted); pwc.c returns directly after doing so, and is correct.
* C65: capture_all_threads refuses a process with exactly MAX_PIDS threads although the table holds them and add_pid takes as many (C65_full_table_refuted). read_insn and write_insn access eight bytes and take -1 for an error without looking at errno: the last word of a mapping cannot be read or given a breakpoint, nor can a word of eight 0xff bytes; the tracer exits (C65_every_insn_refuted).
* C66: the statistics do not look at operands, so that every `or` is counted as mr, every nor as not, cror as crmove, crxor as crclr, creqv as crset, xxpermdi as xxspltd, vor as vmr, reads of PVR and of the time base as mfsprg and other mfspr as mftb, and every beq as beq- (C66_names, C66_patterns). Entries deprecated in POWER9 are counted under (C66_deprecated_refuted), and the last entry, fcfidu., is never searched (C66_last_refuted). The mask of lfdp lets other words pass as lfdp (C66_lfdp_refuted). The two codings of the hint in conditional branches to registers have two lines with one name in the report, as do mftb and the other reads counted as mftb (C66_lines_refuted). branch.h has no rfebb and urfid, so that after these the reader takes a branch for none (C66_returns_refuted). The instruction counted as a context switch, "mfspr r??, SPRN_EBBRR" in the comment, is a read of VRSAVE, and only into registers 0 to 15 (C66_patterns, C66_context_switch_refuted).
* C67: base32_encode fails in a buffer larger than needed although the header says that fitting is enough (C67_base32_fits_refuted); base32_decode accepts strings that encode nothing, such as A======= and MZ====== (C67_base32_strict_refuted); strcount with an empty needle never returns (C67_strcount_refuted).
* C68: a prefixed instruction is counted as its suffix by htmdecoder -i and as unknown by qtdis -i (C68_prefix_refuted); ptracer records only the first word of a prefixed instruction, and qtdis takes the next instruction for its suffix and does not list it (C68_tracer_prefix_refuted).
* C69: where the page shifts of the data and of the next guest instruction are stored together, a copy differs from the original (C69_shifts_refuted); a file with a single walk in the notation of several is read without complaint but aborts the copy, as the reader calls the walk of unspecified kind (C69_abort_refuted). Magic number, node, termination and registers are not copied.
* C70: on a little endian host the two halves of VSR0-31 are printed exchanged, the floating point register as the less significant half (C70_halves_refuted); a big endian host prints them as the architecture numbers them (C70_big_endian). The state is shared by all threads, so in a log of several threads the changes are those against whichever thread came before.
* C71: an unknown option makes htmdecoder exit with status 0 (C71_htmdecoder_rejects); if the input cannot be opened it names argv[1], which is an option if there is one (C71_blame_refuted); it ignores inputs after the first (C71_inputs_refuted). Arguments that are no numbers are read as 0, so `ptracer -n x` traces nothing (C71_garbage_refuted); qtrace-bbv reduces -k and -d modulo 2^32, so -k 4294967296 sweeps (C71_k_refuted).
* C72: with a hard limit below 16384 that is no power-of-two fraction of it the soft limit can be lowered, from 10000 to 8192 (C72_lowered_refuted); with a hard limit above fs.nr_open every setrlimit fails and ptracer loops forever (C72_hangs_refuted). The buffer for the process number holds six digits, so for every number of seven or more (pid_max can be 4194304) another process is checkpointed (C72_checkpoint_refuted).
* C73: the script counts modules and vmalloc space (0xd...) as user code where qtdis -s counts system code (C73_modules_refuted); its total leaves OPAL out, so the shares need not add up to 100 and a listing of OPAL alone prints nothing (C73_total_refuted); a program with a function named like the idle loop makes the system share negative (C73_idle_refuted).
* C74: with -q the tracer aborts at a load or store of strings where with -a alone it goes on (C74_aborts_refuted).
* C76: guest real walks overwrite the cached tables of a process (C76_real_mode_refuted). xlate_decode keys a walk of a guest real address with mk_xlate_addr(0, lpid, pid, address) (xlate.c:965), the key of the process's own tables. The partition's directories then replace the guest's in the page walk cache, and a later resumed walk of the process is decoded, without any error, to a record whose first guest entries are the partition's. `C76_real_mode_refuted` gives tables and three walks.
* C78: the two words of a prefixed instruction are two records, so qtrace-bbv counts it twice where qtdis lists one (C78_prefix_refuted).
* C79: if a dump ends with an end of file in the middle of a record, instead of with a read error, the record is completed with what the buffer contains: a cut trace shows an instruction at an address that never occurred (C79_eof_refuted). A dump with 101 damaged records in succession decodes, but not if it is cut in the next record (C79_limit_refuted). htmdecoder ignores the result of htm_decode and ends with status 0 in all these cases (by reading).
* C80: five short files, given with the theorem C80_reached, make the decoder fail in each of the ways it can: a mark stamp with a reserved bit set, a third xlate record before an instruction, a walk of 38 records that continues a kept one, a hypervisor record with relocation and a walk, and a second visit to the last page of the address space. Four words of input are enough for an out-of-bounds write of ixlates[2].
* C81: __tlb_get_index counts a hit, and tlb_ra_set searches with it, so setting a translation again counts as a miss and a hit; the first set of a page counts as neither. The miss column is thus the number of repeated sets and the hit column includes it; a new real address clears both.
* C82: the test of prev_insn_branch in htm.c:1838 is the wrong way round for the counter it changes: "Total Branches taken after Non branches" counts jumps behind branches, and jumps behind other instructions to addresses that are no vectors are counted nowhere (C82_branches_refuted). Because the target of a jump is itself marked as a branch (htm.c:1836), an interrupt taken right behind it is not counted as one (C82_interrupts_refuted). POWER10 traces count neither. The data page size of POWER8/9 traces is a shift (12, 16, 24) that htm.c:1792-1798 compares with 1, 2 and 3, so the lines of data pages are always 0 (C82_data_pages_refuted). "Total Records Scanned" is one more than the words of the file, and the checksum includes what was left in the buffer, unless the file ends in a read error. The lines CPI, unique ESIDs, SLBMTE, SLBIA, RFID, ESID and VSID records are always 0.
* C83: with an empty log (a trace without instructions) the shares of -s are 0.0/0.0, and the line says nan or -nan (C83_empty_refuted); the shares of parts are guarded. Because of C33 the line Idle can show more than 100% of System (C83_idle_refuted). The warning has a closing parenthesis too many.
* C84: a single walk is stored without guest addresses, but print_radix_on_radix prints one (GUEST L1): 0 for data, and for instructions what an earlier walk of several levels left in the state (C84_guest_refuted). The annotations of a walk end with a space, so the next one is behind two.
* C85: qtdis -d 1 shifts page numbers to the left by 12 for every page size, so the real address of a load in a 64k page is shown divided by 16 (C85_large_refuted; C61_fetch_refuted for instructions). A page size of 64 bits or more in the file is an undefined shift (C85_dump, C85_ex_shift).
* C86: associative_multiplication in matrix.c computes both products but does not compare them, so the test cannot fail for a wrong product (C86_full shows that the comparison would hold).
* C87: qtrace-bbv prints entries and instruction counts above 2^63 with a minus sign (%ld of a uint64_t); they can still be read back, although the minus sign is also the separator of a range.
* C88: the test program of pam.c (PAM_TEST) does not match its header: it calls print_medoids with one argument of two, and it reads pam->current_cost after pam_destroy(pam) has freed it. It is not modelled.
* C89: after htable_next was called again at the end of a table, htable_prev reads outside the table (`C89_past_the_end_refuted`). htable_copy of a table whose htable_init_sized failed reads outside the structure (`C89_failed_init_refuted`).
* C90: without CCAN_LIST_DEBUG, removing a node twice can put another removed node back into the list (`C90_unchecked_refuted`). With it, the thorough check of list_del_from accepts the list's own head as a node to remove (`C90_head_refuted`).
* C91: only number signs are escaped in the title of a test, so a line feed in it can forge a result (`C91_newline_refuted`). todo_end keeps its pointer: a second call without todo_start frees the message twice (`C91_double_end_refuted`).
* C92: vasprintf computes len+1 in an int: a text of exactly INT_MAX characters overflows it (`C92_asprintf_any`). If the format cannot be expanded, the caller's pointer is not set (only afmt makes it null).

## Print Assumptions

| file | theorems | output |
|---|---|---|
| `Branch_Props` | C14_create_branch_in_range, C14_create_branch_out_of_range, C14_iform_decode, C15_create_cond_branch_in_range, C15_create_cond_branch_out_of_range, C15_bform_decode, C16_conditional_iff, C16_unconditional_iff, C16_disjoint, C16_branch_iff, C17_retarget_iform, C17_retarget_bform, C17_retarget_other, C17_retarget_succeeds_iff, C17_branch_target_relative, C17_branch_target_absolute_refuted | Closed under the global context (all 16) |
| `LinkStack_Props` | C18_matched_returns_hit, C19_exact_ring, C19_lossy_stack, C19_misses_le_predictions, C19_depth_zero_refuted | Closed under the global context (all 5) |
| `Reader_Props` | C04_truncation_is_prefix, C05_progress, C05_terminates, C05_call_terminates, C05_record_bound, C06_only_lookahead, C06_safe_with_padding, C06_overread_refuted, C06_header_stores, C06_record_stores, C06_header_store_refuted, C06_record_store_refuted, C06_register_store_refuted, C09_address_chain, C10_branch_flags, C12_branch_annotation, C13_tlbie_annotation, C13_epn_low_half, C13_epn_high_half_refuted | Closed under the global context (all 19) |
| `Codec_Props` | C01_exact_round_trip, C02_framing, C02_count_and_addresses, C03_crash, C03_crash_after_prefix, C07_never_past_mapping, C08_first_call, C08_later_call, C08_pending_is_last_accepted, C49_failed_extension, C49_failed_call_changes_nothing, C11_shifts_swapped, C11_sequential_translation_ignored, C11_desynchronised_refuted, C11_witnesses, C11_kind_lost | Closed under the global context (all 16) |
| `Bb_Props` | C20_profile, C20_fails_iff, C20_distinct, C21_blocks, C21_blocks_any_length, C21_within_three_refuted | Closed under the global context (all 6) |
| `Tlb_Props` | C22_lookups, C23_overlap_missed_refuted, C23_top_page_aborts | Closed under the global context (all 3) |
| `Pwc_Props` | C24_erat, C24_other_shifts_abort, C24_host_shift_stale_refuted, C25_page_walk_cache, C25_levels_independent, C25_top_bits_ignored, C25_other_levels_abort, C26_translation_and_reverse_cache | Closed under the global context (all 8) |
| `Xlate_Props` | C27_errors, C27_bounds, C27_shape, C28_full_walk, C28_lookup_after, C28_lookup, C50_partial_lookup, C50_partial_insert, C50_address_lookup, C27_merge_overflow_refuted, C27_fixup_overflow_refuted, C27_rejected_walk_cached_refuted, C28_mode_aliasing_refuted, C27_completion | Closed under the global context (all 14) |
| `Layout_Props` | C51_header, C51_header_accepted, C51_record, C51_record_accepted, C51_sequential_page_size_refuted | Closed under the global context (all 5) |
| `HtmBits_Props` | C29_fields, C29_numbering, C29_bit, C29_constant_fields, C31_p10_branch, C31_p10_conditional, C31_p10_register, C31_p10_system, C31_p8_branch, C31_p8_conditional, C31_p8_register, C31_other, C31_isel_refuted, C31_p10_absolute_condition_refuted, C31_p10_bctrl_refuted | Closed under the global context (all 15) |
| `Htm_Props` | C30_cursor, C30_decode, C30_phantom_refuted | Closed under the global context (all 3) |
| `Stats_Props` | C32_counters, C32_sums, C32_upper_registers_refuted, C33_idle_exceeds_system_refuted, C33_idle_bound, C34_mix, C34_total, C34_last_entry_refuted, C52_report, C52_large_count_refuted | Closed under the global context (all 10) |
| `Htable_Props` | C35_history, C35_reserved, C36_highest_bit_refuted, C36_failed_init_refuted | Closed under the global context (all 4) |
| `Matrix_Props` | C37_create, C37_resize, C37_no_rows_refuted, C37_size_wraps_refuted, C38_multiply, C38_multiply_refuses, C38_copy, C38_compare, C38_other_shape, C38_projection | Closed under the global context (all 10) |
| `Pam_Props` | C39_initialise, C39_iteration, C39_terminates, C39_distance_exact, C39_distance_zero, C40_run, C40_sweep, C40_far_point_refuted, C39_undefined_refuted, C39_wrapped_refuted | Closed under the global context (all 10) |
| `Bbv_Props` | C41_trace_exists, C41_vectors, C41_row_sum, C41_projected, C41_tool, C39_distance_signed, C41_short, C41_many_blocks_refuted | Closed under the global context (all 8) |
| `Storage_Props` | C42_isa, C42_table, C42_word_only, C42_v31_refuted | Closed under the global context (all 4) |
| `Step_Props` | C43_left, C43_unchanged, C43_succeeds, C43_left_behind_refuted, C43_fetch_refuted, C44_covered, C44_outside, C44_unconditional_refuted, C53_reported, C53_straight, C53_returned, C53_taken_refuted | Closed under the global context (all 12) |
| `Pagemap_Props` | C45_answers, C45_first_asks, C45_repeat, C45_zero_refuted, C45_wrap_refuted, C45_huge_refuted | Closed under the global context (all 6) |
| `Pids_Props` | C47_history, C47_from, C47_counters, C47_capture, C47_capacity_refuted, C47_fresh_refuted | Closed under the global context (all 6) |
| `Sym_Props` | C46_lookup, C46_text, C46_tracer, C46_maps, C46_overrun_refuted, C46_anonymous_refuted, C46_past_last_refuted, C46_symcmp_refuted | Closed under the global context (all 8) |
| `Build_Props` | C48_records, C48_accepts, C48_file, C48_absolute_refuted, C48_shadowed_refuted, C48_exhausted_refuted | Closed under the global context (all 6) |
| `Rebuild_Props` | C54_rebuild, C54_file, C54_target_lost_refuted | Closed under the global context (all 3) |
| `Trace8_Props` | C55_trace8, C55_opcode_refuted, C55_data_refuted, C55_junk_refuted, C55_jumps_refuted | Closed under the global context (all 5) |
| `Trace10_Props` | C56_trace10, C56_real_refuted, C56_walks_refuted, C56_hypervisor_refuted, C56_modes_refuted | Closed under the global context (all 5) |
| `Convert_Props` | C57_convert8, C57_convert10, C57_junk_refuted, C57_page_refuted, C57_crossing_refuted, C57_data_refuted, C57_zero_refuted | Closed under the global context (all 7) |
| `Tracer_Props` | C58_file, C58_count, C59_requests, C58_signal_refuted, C59_lost_refuted | Closed under the global context (all 5) |
| `Forward_Props` | C60_forward, C60_counters, C60_period_refuted, C60_null_refuted | Closed under the global context (all 4) |
| `Qtdis_Props` | C61_listing, C61_logs, C61_written, C61_written_logs, C61_dump, C61_suffix_refuted, C61_header_refuted, C61_fetch_refuted | Closed under the global context (all 8) |
| `Hash_Props` | C62_hash_any, C62_hash64_any, C62_low_half, C62_stable_8, C62_stable_8_short, C62_hash_u32, C62_words_as_bytes, C62_stable_64, C62_stable_32, C62_stable_16, C62_stable_empty, C62_stable_refuted, C62_mix_bijective, C62_final_bijective | Closed under the global context (all 14) |
| `Verbose_Props` | C63_lines, C63_mark, C63_written, C63_walk_refuted, C63_hypervisor | Closed under the global context (all 5) |
| `List_Props` | C64_histories, C64_steps, C64_queries, C64_loops, C64_safe, C64_unsafe_refuted, C64_check, C64_walks | Closed under the global context (all 8) |
| `Capture_Props` | C65_capture, C65_only_listed, C65_exits, C65_orderly, C65_exec, C65_no_child_left, C65_release, C65_read, C65_write, C65_restore, C65_full_table_refuted, C65_every_insn_refuted | Closed under the global context (all 12) |
| `Opcode_Props` | C66_table, C66_sorted, C66_mix, C66_branches, C66_conditions, C66_returns_refuted, C66_register_branches, C66_reservations, C66_tlbie, C66_storage, C66_lfdp_refuted, C66_names, C66_deprecated_refuted, C66_last_refuted, C66_lines_refuted, C66_patterns, C66_context_switch_refuted | Closed under the global context (all 17) |
| `Str_Props` | C67_hex_encode, C67_hex_decode, C67_hex_bound, C67_hex_round, C67_base32_encode, C67_base32_refuses, C67_base32_decode, C67_base32_bound, C67_base32_size, C67_base32_round, C67_base32_fits_refuted, C67_base32_strict_refuted, C67_strcount, C67_strcount_refuted | Closed under the global context (all 14) |
| `Tools_Props` | C68_power8, C68_power10, C68_tracer, C68_prefix_refuted, C68_tracer_prefix_refuted | Closed under the global context (all 5) |
| `Copy_Props` | C69_identical, C69_any, C69_again, C69_shifts_refuted, C69_abort_refuted | Closed under the global context (all 5) |
| `Regs_Props` | C70_changes, C70_replay, C70_instructions, C70_text, C70_lines, C70_big_endian, C70_halves_refuted | Closed under the global context (all 7) |
| `Args_Props` | C71_getopt, C71_ptracer, C71_ptracer_rejects, C71_qtdis, C71_qtdis_rejects, C71_htmdecoder, C71_htmdecoder_rejects, C71_bbv, C71_bbv_rejects, C71_count, C71_pid, C71_ulong, C71_garbage_refuted, C71_k_refuted, C71_blame_refuted, C71_inputs_refuted | Closed under the global context (all 16) |
| `Start_Props` | C72_limit, C72_lowered_refuted, C72_hangs_refuted, C72_checkpoint, C72_checkpoint_refuted | Closed under the global context (all 5) |
| `Script_Props` | C73_parse, C73_names, C73_reads, C73_counts, C73_calls, C73_classes, C73_agree, C73_modules_refuted, C73_total_refuted, C73_idle_refuted | Closed under the global context (all 10) |
| `Both_Props` | C74_same, C74_unchanged, C74_alone, C74_registers, C74_session, C74_aborts_refuted | Closed under the global context (all 6) |
| `Pipe_Props` | C75_written, C75_power8, C75_power10, C75_tracer | Closed under the global context (all 4) |
| `Resume_Props` | C76_resumed, C76_nothing_left_out, C76_guest_real, C76_real_mode_refuted | Closed under the global context (all 4) |
| `Retrace_Props` | C77_decoded, C77_converted, C77_walk | Closed under the global context (all 3) |
| `Profile_Props` | C78_written, C78_power8, C78_power10, C78_tracer, C78_stretches, C78_accounts, C78_vectors, C78_prefix_refuted | Closed under the global context (all 8) |
| `Cut_Props` | C79_records, C79_counts, C79_file, C79_eof_refuted, C79_limit_refuted | Closed under the global context (all 5) |
| `Fault_Props` | C80_stops, C80_reached, C80_tlb | Closed under the global context (all 3) |
| `Tlbdump_Props` | C81_report, C81_misses_are_hits, C81_exit, C81_decoder | Closed under the global context (all 4) |
| `Report_Props` | C82_report8, C82_report10, C82_quiet, C82_interrupts, C82_interrupts_refuted, C82_branches_refuted, C82_data_pages_refuted | Closed under the global context (all 7) |
| `Table_Props` | C83_tables, C83_power8, C83_power10, C83_share, C83_idle_refuted, C83_empty_refuted, C83_names, C83_numbers | Closed under the global context (all 8) |
| `Shown_Props` | C83_qtdis8, C83_tracer | Closed under the global context (all 2) |
| `Vtext_Props` | C84_listing, C84_names, C84_written, C84_guest_refuted | Closed under the global context (all 4) |
| `Dump_Props` | C85_dump, C85_written, C85_data, C85_large_refuted | Closed under the global context (all 4) |
| `Selftest_Props` | C86_neutral, C86_associative, C86_tests, C86_full | Closed under the global context (all 4) |
| `Bbvtext_Props` | C87_text, C87_stop, C87_trace | Closed under the global context (all 3) |
| `Pamdump_Props` | C88_dump, C88_counts, C88_raw | Closed under the global context (all 3) |
| `Tlbtext_Props` | C81_numbers | Closed under the global context (all 1) |
| `Htcopy_Props` | C89_copy, C89_clear, C89_prev, C89_past_the_end_refuted, C89_failed_init_refuted | Closed under the global context (all 5) |
| `Strict_Props` | C69_ends, C70_numbers | Closed under the global context (all 2) |
| `Listdbg_Props` | C90_runs, C90_del_from, C90_twice, C90_corrupt, C90_unchecked_refuted, C90_head_refuted | Closed under the global context (all 6) |
| `Tap_Props` | C91_planned, C91_unplanned, C91_plan_once, C91_newline_refuted, C91_double_end_refuted | Closed under the global context (all 5) |
| `Cstr_Props` | C92_streq, C92_strstarts, C92_strends, C92_max_chars, C92_max_chars_hex, C92_asprintf, C92_asprintf_any | Closed under the global context (all 7) |
| `Tapnotes_Props` | C91_planned_notes, C91_unplanned_notes | Closed under the global context (all 2) |
| `Regex_Props` | C73_sym, C73_no_sym, C73_rejects, C73_digits | Closed under the global context (all 4) |
| `Httype_Props` | C93_keys | Closed under the global context (all 1) |
| `Argnum_Props` | C71_decimal, C71_no_decimal, C71_skip, C73_kinds, C73_once | Closed under the global context (all 5) |

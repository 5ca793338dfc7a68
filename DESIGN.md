# Formal model of packet-rs in Rocq (Coq 8.16.1)

Source under study: `/repo/src` (headers.rs, packet.rs, utils.rs, types.rs, lib.rs, parser/{mod,slow,fast}.rs).
The properties are in `properties.jsonl`; which theorem proves which is in `MANIFEST.json` and in section 6 below.

## 1. Semantic choices

* A `u8/u16/u32/u64` is an `N` with the wrap written out (`mod 2^k`) wherever the Rust expression can overflow
  silently (`as`, `<<`); an overflow that panics in checked builds is an explicit outcome.
* `usize` lengths and indices are `nat`. *Under*flow of `msb - lsb` and `64 - width` is modelled in both build profiles
  (`mode` = Debug | Release), and so is the overflow of `msb - lsb + 1` in `bytes` and `set_bytes` (C07_widest). Elsewhere
  `usize` cannot overflow upwards as long as no buffer has 2^61 bytes; theorems that need this say `addressable`.
* A computation returns `out A`: `Ret`, `Panic fault`, `UB` (undefined behaviour), `Hang` (a thread waiting for a lock
  it holds), `Fuel` (artefact of the model, proved unreachable for the parsers and the checksum loop).
* `Arc<Mutex<Vec<u8>>>` is a reference into a heap (a list of cells: bytes + poison flag). Effects are
  `M A = heap -> out A * heap`; heap changes made before a panic persist, as in Rust.
* A header type (`htype`) is the argument list of `make_header!`: a type identity, name, size, fields, default.
  Theorems about header operations quantify over every `htype`, so over user-defined headers too.
* Bit positions, lengths and indices (`usize`) are `nat`; where a calculation with them can leave 64 bits the functions say
  so. Usize.v makes every such calculation on a `usize` of W bits, and C94 proves for which arguments the two agree: for
  all, on 64 bits, except the lengths of packets whose headers declare about 2^64 bytes, which no other file excludes.
* Slices of the fast parser are windows (buffer, offset, length). `slice::from_raw_parts` beyond the window is `UB`.
* Strings are Coq `string`s (byte strings). `Ipv6Addr::from_str` is std code: it is an argument of the functions that
  use it, so theorems C27 and C43-C48 hold for every such function that returns 16 octets. Ipv6.v models std's parser
  from knowledge of its source (not in /repo); only C65 and the instances in C66, C67 and C71 depend on it.
* Parsers are open-recursive bodies, one per Rust function, tied by fuel; it is proved that the fuel never runs out
  and that the Rust recursive equations hold.
* Threads (Conc.v): a method is a program of critical sections, one per `lock()` in the source; a section is one atomic
  step, threads interleave at every step under an arbitrary scheduler. `replace` holds one lock while it waits for
  another and is therefore two steps with a waiting state. All shared accesses are under a mutex, so sequential
  consistency is sound for data-race-free code.
* A client (Client.v) is a program with one thread: any sequence of public calls on values it got from earlier calls or
  made up itself within their Rust types; functions that only look at a value are there as `query`. Panics are caught and the program goes on. Borrow-checker and move rules are
  not used, so the programs considered include every Rust program.
* Several threads (Threads.v): any number of such clients sharing all values. Every public function is rewritten over
  programs of critical sections by `tools/threads.py`; it is proved that without interruption they are the functions of
  the one-thread model. A call may be started by any thread at any time on anything any thread has obtained.
* `show` (Show.v) and `compare_with_slice` (Trait.v) return the text printed. Print.v models standard output properly:
  every function that can print is written over a monad that also yields the text, so that text printed before a panic
  and the complaints of the address conversions are there too. It is proved that this changes nothing else (C68_same).
* Standard output of several threads (TPrint.v): the programs of Threads.v with a step for each `print!` and `println!`
  of Print.v (`tools/tprint.py`). Each of them writes all of its text in one step, because std locks standard output
  for the duration of the macro; that lock is never held across a step, so it needs no state of its own.
* A write to standard output that fails (Pipe.v): the macro panics, the client catches it, and any part of the text of
  that write may be there. std's buffer is not modelled: "written" means handed over to std.
* Everywhere else buffers are numbered in the order in which they are allocated and are never freed. Free.v frees them:
  an allocation takes any free place, a place that no handle leads to may be freed at any time, and accessing a free
  place is undefined behaviour. It is proved that programs cannot tell (C83). Reference counts are not kept: that an
  `Arc` frees when and only when no handle is left is taken from std.
* All threads work on one memory (sequential consistency). Race.v keeps track of what happened before what and proves
  that no access to a buffer is a data race (C84). That programs without data races that synchronise by locks only behave
  as if they worked on one memory is a theorem about the C++ memory model, which Rust's is; it is trusted.
* A panic is caught by the client and the program goes on (unwinding). Release builds of the crate itself (the Python
  module, the example) abort instead (Cargo.toml:35): their executions are those of Threads.v up to the first panic (C78).
* A packet is a list of owned headers, because `push` and `insert` convert what they are given. `pkt[name] = Box::new(..)`
  can put an `XSlice` of static bytes or a type of the program's own into it; Boxes.v models packets of any headers,
  where a type of the program's own is whatever its methods do. On owned headers the two agree (C85_owned).
* The capture file of the tests (Pcap.v): the file system is one file, the system's answers (time, opening, each write)
  are a parameter; a write that fails has written some of its bytes.

## 2. Files (rocq/theories)

| file | contents |
|---|---|
| Base, Bits, Types, Layout, Heap, Packet, Text, Build, Utils, Slow, Fast, Show, Trait, Python, Ipv6, Ops, Conc, Client, Threads, Print, TPrint, Programs, Pcap, Pipe, Free, Race, Boxes, Usize | the model (no proofs); each definition cites file and lines |
| Spec | specifications: big-endian value, bits of a field, packed diagrams, RFC 1071, address texts, heap predicates |
| Grammar | specification of the wire format: which header may follow which, as an inductive relation |
| UtilsSpec, ConcSpec, ShowSpec, EditSpec, Ipv6Spec, ClientSpec, ThreadsSpec, PrintSpec, TPrintSpec, L4Spec, PanicSpec, LocalSpec, ModeSpec, CostSpec, ShapeSpec, PcapSpec, AbortSpec, TruncSpec, LegibleSpec, LinSpec, PipeSpec, FreeSpec, RaceSpec, BoxesSpec, FieldsSpec, DetectSpec, RemainsSpec, WideSpec, EditsSpec, SessionSpec, SourceSpec, ApartSpec, UsizeSpec, DepthSpec, SteerSpec, AskSpec, WrapSpec, IncrSpec, LawsSpec, PoisonSpec, TPoisonSpec, TagSpec, EncapSpec, OriginalSpec | specifications for the packet builders, for threads, for printed text, for edits (which bits select a parser branch), for IPv6 address texts (RFC 4291), for programs of calls, for threads making them, for standard output (of one thread and of several), for transport checksums, for panics, for the same program on other buffers, in the other build profile, for numbers of steps, for sequences of headers, for capture files, for builds in which a panic ends the process, for packets cut short, for telling packets by their texts, linearizability (C81), failing writes to standard output (C82), buffers that are freed (C83), data races (C84), packets of any headers (C85), headers as their fields (C86), headers that pass the check and garbled headers, what a panicking call leaves in the buffers, the bits of a value above a position, what each bit is after a history of calls (C90), the wire bytes of a packet after any editing session (C91), sources of bits (C92), what threads see that share nothing with others (C93), what fits a machine with W bits (C94), how deeply the parser calls nest (C95), which bits of the input steer the parsers (C96), what a packet builder is asked for (C97), the tunnel requests as values with the inner packet's bytes (C98), incremental updates of the checksum as in RFC 1624 and RFC 1141 (C99), the laws of the Internet checksum in RFC 1071 (C100), poisoning by programs (C101), 802.1Q tags (C102), headers in front of a packet (C103), the bytes headers were read from (C104) |
| BitsProofs, HeapProofs, OpsProofs, PacketProofs, TextProofs, ChecksumProofs, BuildProofs, GrammarProofs, SlowProofs, FastProofs, UtilsProofs, ConcProofs, TornProofs, ShowProofs, EditProofs, Ipv6Proofs, ClientProofs, ThreadsSim, ThreadsRel, ThreadsProofs, PrintProofs, TPrintSim, TPrintRel, TPrintErase, TPrintProofs, PanicProofs, PanicCalls, PanicBuild, LocalProofs, ModeProofs, ModeThreads, CostProofs, ShapeProofs, PcapProofs, AbortProofs, TruncProofs, LegibleProofs, LinProofs, PipeProofs, FreeProofs, RaceProofs, BoxesProofs, FieldsProofs, DetectProofs, RemainsProofs, WideProofs, EditsProofs, SessionProofs, SourceProofs, ApartProofs, UsizeProofs, DepthProofs, SteerProofs, AskProofs, WrapProofs, IncrProofs, LawsProofs, PoisonProofs, TPoisonProofs, TagProofs, EncapProofs, OriginalProofs | lemmas |
| PropHeader (C01-C11), PropPacket (C12-C19), PropChecksum (C20, C21), PropText (C22, C23), PropBuild (C24-C32), PropParse (C33-C41), PropUtils (C42-C44), PropTunnel (C45-C48), PropTypes (C49), PropConc (C50-C52), PropShow (C53), PropEdit (C54-C57), PropTrait (C58-C63), PropSnap (C64), PropIpv6 (C65), PropClient (C66), PropThreads (C67), PropPrint (C68), PropL4 (C69), PropPanic (C70), PropTPrint (C71), PropLocal (C72), PropDocs (C73), PropMode (C74), PropCost (C75), PropShape (C76), PropPcap (C77), PropAbort (C78), PropTrunc (C79), PropLegible (C80), PropLin (C81), PropPipe (C82), PropFree (C83), PropRace (C84), PropBoxes (C85), PropFields (C86), PropDetect (C87), PropRemains (C88), PropWide (C89), PropEdits (C90), PropSession (C91), PropSource (C92), PropApart (C93), PropUsize (C94), PropDepth (C95), PropSteer (C96), PropAsk (C97), PropWrap (C98), PropIncr (C99), PropLaws (C100), PropPoison and PropTPoison (C101), PropTag (C102), PropEncap (C103), PropOriginal (C104) | the property theorems, with a witness that their hypotheses can be met and `Print Assumptions` |
| Replay | the crate's own unit and integration tests, evaluated in the model (evidence that the model follows the code) |

`tools/manifest.py` writes MANIFEST.json and the table in section 6 from the theorem names in Prop*.v.
`tools/threads.py` and `tools/tprint.py` print the generated parts of Threads.v and TPrint.v.
`tools/cites.py /repo` compares layouts, defaults and protocol numbers with the source, and checks the lines cited.
`seeded/LOG.jsonl` records the wrong programs the theorems were tested against.

## 3. How each property is treated

False claims are kept: `_refuted` theorems give a witness, and a companion theorem says what the code does instead.

C01-C08: bit-level lemmas on byte lists (`testbit` characterisation), lifted to heap headers; C06 covers poisoning.
C09-C11, C14-C18: heap semantics; the false halves are refuted.
C12, C13: refinement of an abstract list, induction over operation histories.
C19: direct characterisation (first header of that name).
C20, C21: arithmetic against RFC 1071; the code drops carries, exactly when is an iff.
C22, C23: induction over strings.
C24-C32: each builder's bytes equal the packed RFC diagram (`pack [(width,value);...]`), with the exact argument range.
C33-C41: wire grammar as an inductive relation; soundness, completeness, determinism by induction on fuel/derivation.
C42-C48: symbolic execution of the builders on an arbitrary heap, then the grammar.
C49: finite case analysis over all codes.
C50-C52: small-step interleaving semantics; induction over schedules; deadlock freedom by a progress argument.
C53: printed text against a specification of the lines, and injectivity (the text determines the bytes).
C54-C57: the wire grammar is invariant under edits outside the selecting bits, under reversal of option groups, under
suffixes and under trailing bytes; each by induction on the derivation.
C58-C63: consequences of C07, C20 and the heap semantics, and finite tables (defaults, Python names).
C64: induction over schedules; the step of a reader commutes with the steps of the others.
C65: the parser combinators against a grammar of address texts, both directions; then instances of C27 and C44.
C66: a Hoare-style triple for every public function (heap only grows, frame, result in order), then induction over
programs; undefined behaviour and self-deadlock each get an iff.
C67: a relational (parametricity) lemma for every public function says that it uses only the buffers it is given or
allocates and does the same whatever they are called; an invariant over reachable worlds then relates each call in
progress to the same call executed alone. Termination by accessibility, deadlock by an argument on the lock order.
C68: each printing function is proved to be its model without output (erasure) and its text to satisfy a specification
that does not follow the code's order of evaluation.
C69: arithmetic modulo 65535 on top of C42/C43 (a byte string is congruent to the sum of its words).
C70: for every public function an equivalence between the outcome `Panic e` and a condition on arguments and buffers;
the wire grammar gets a relation that says where, and so with which message, a byte string ends too early.
C71: the relational lemma of C67 with output; an invariant relates what a call in progress has written to the call alone.
C72: the same lemma, run to the end on two heaps whose corresponding buffers hold the same.
C73: the documented programs are evaluated call by call from the empty heap; C72 carries each call to any other heap.
C74: one relation between a checked and an unchecked computation, kept by every sequencing operation, for calls and for threads.
C75: the ways through the program of a call (Threads.v) with their numbers of allocations and locks; a triple of outcome, price and bound for every function, kept by sequencing.
C76: a graph of entry points; parsed bytes are a way through it by the tables of Grammar.v, and for each way a header is built for every step that leads on to the next.
C77: every write lies behind the text written so far and over the old contents; the format is read off that text.
C78: no program of critical sections (Threads.v) ends with the poison panic of its own; an invariant of the executions that end with the first panic.
C79: how the grammar treats an input cut at any length; only the first byte behind the last label is looked at before it is copied.
C80: texts are cancelled from the left: a heading has a fixed width and names the type, a line has the width of its field, the fields cover the header; a dump begins with a line break.
C81: an invariant ties every reachable world to one thread that has made the logged calls; each step of a call of one step is that call, replace in progress leaves the other buffers alone; a two-bit read torn by a set is the counterexample (PropLin).
C82: a call that is cut off is simulated by a thread that waits for ever and a new thread in its place; every program is "gentle": after its first write to a buffer it prints nothing.
C83: a relation between places and buffers, kept by every step (the relational reading of calls of ThreadsRel at every relation of references); memory is finite, handles are decidable.
C84: views and stamps beside the worlds of C67; the lock of a buffer that is not held carries the view of the last access, or there has been none but the creation.
C85: the functions over any headers are sequences of the headers' methods, run in turn; on owned headers they are the functions of Packet.v; an assigned packet is made without assignment by pop, remove, push and +.
C86: the fields tile the header (C08), so setters of all fields leave nothing of the old bytes; the layout as a packed diagram.
C87: the folded sum moves as the sum does but for one carry, so that two words that both pass differ by amounts that cannot cancel if the garbled bits span 15 places at most (powers of two, lia).
C88: reads keep the bytes however they end (a structural lemma per reading function); a setter writes its last bit first, so it panics before anything is written; set_bytes is followed byte by byte; C66_frame and C70_poisons give the rest.
C89: the parts of an or of shifted values are the ors of the parts, read off bit by bit; a word is the concatenation of its parts, so its diagram is cut from it; fitting arguments are the diagram of the bytes, which determines them.
C90: one call's effect on every buffer from the outcome of the call, then induction on the history from its end; a call that panics halfway leaves the buffer poisoned, and poison is for ever; swaps of neighbouring writes by bit extensionality
C91: induction on the session from its end, with the buffers as in C90 and the packet as lists; a byte is the number of its eight bits; calls that return poison nothing
C92: a program that only writes bits in a set S, or to buffers it has made itself, keeps all bits in S; S is taken to be all bits with a source, and a bit read is in the set of bits that stood there during the call
C93: the threads of one group are projected to the world of C83 in which the buffers are freed, so that its simulation gives an execution without the others; a thread alone in its group is then followed step by step by a program of one thread
C94: the remainder, the place in the byte and the shift amount never leave W bits; loops by induction on the number of rounds; numbers that agree modulo 2^W agree in the 16 bits that are kept
C95: the bodies of both parsers are walked once, with what is known of the calls and what follows for the caller as parameters (also used for C33-C36); the bound is an induction on the nesting with the sizes of the headers
C96: two inputs that agree in the steering bits have, by induction on the grammar, decompositions of the same form, cuts at the same place and nesting of the same depth; that each deciding bit matters is computed on one witness for each function
C97: the run lemmas of C42 and C43 give the bytes as a function of the request; fixed header widths split two equal frames header by header, EtherType and protocol tell the kinds apart, and equal diagrams have equal entries
C98: each header the builders write is read back from its diagram in turn; UDP and VXLAN over IPv4 differ in the checksum, since the sums differ by 16 and folding keeps that; protocol numbers tell the tunnels apart, flags say which option words follow, and for VXLAN over IPv6 the length field says where the inner packet starts
C99: the sum of the words but the checksum changes by the new word less the old one; the running value of the update stays congruent to it modulo 65535 and does not become zero, and the function's value is the complement of the representative, or one more if the fold carries
C100: equal sums of words; exchanging the bytes of a word multiplies by 256 modulo 65535, so the folded sums are exchanged too, and the one lost by a second carry spoils that
C101: every operation on buffers keeps poison, adds at most one and none without a panic; the property is closed under sequencing, so it holds of every call by its shape; programs by counting; with threads each step of a call poisons nothing or ends its call in a panic, and a buffer whose lock is held is not poisoned.
C102: one header of the grammar at a time: Ethernet and Vlan share a table, so the grammar of a frame and of its tagged form continue alike; C34 carries this to both parsers.
C103: the table of headers is checked row by row against the grammar; a step of the grammar is reversible, so sequences follow by induction; C34 carries this to both parsers.
C104: induction over the grammar: optional words are reported last to first right behind their header and no other header has their types; C34 carries this to both parsers.

## 4. Not modelled

PyO3 itself (of the Python bindings only the name tables and the functions that use them are in Python.v), memory exhaustion, the size of a stack frame
(C95 gives the exact number of nested calls instead),
performance, `Debug` formatting of anything but a `Vec<u8>`, the benches of the crate (its tests are replayed in
Replay.v, its documented programs are in Programs.v) and examples/*.py.

## 5. Trusted base

* Coq's kernel (the whole development is also re-checked by coqchk), and the reading of the Rust source recorded in
  the comments of the model files; for C65 also the reading of std's `Ipv6Addr::from_str` in Ipv6.v.
* `Print Assumptions` of every theorem listed in section 6 answers "Closed under the global context": no axioms,
  neither our own nor the standard library's.
* coqchk lists seven constants `Coq.ssr.ssrunder.Under_rel.*` of the standard library as assumptions of the loaded
  libraries. They are the fields of a module type in a file that `Lia` loads; no theorem here uses them.

## 6. Theorems

| property | status | theorems (each: closed under the global context) | note |
|---|---|---|---|
| C01 Field getter reads network-order bits | proved | C01_getter, C01_getter_bits, C01_getter_slice |  |
| C02 Set then get | proved | C02_set_get, C02_set_get_exact, C02_get_set |  |
| C03 A setter touches only its field | proved | C03_setter_frame, C03_disjoint_commute |  |
| C04 Owned and slice headers agree | proved | C04_getters_agree, C04_bytes_agree |  |
| C05 Getters of fields wider than 64 bits | proved | C05_wide_getter_refuted, C05_wide_getter, C05_only_ipv6 | the property's positive reading is false (IPv6 src/dst); refuted with a witness and characterised exactly |
| C06 Out-of-buffer field access is contained | proved | C06_read_out_of_buffer, C06_write_out_of_buffer, C06_poison_for_ever |  |
| C07 bytes / set_bytes | proved | C07_bytes, C07_set_bytes, C07_asserts, C07_widest, C07_reversed, C07_set_bytes_partial_write_refuted |  |
| C08 Predefined layouts are sound | proved | C08_layouts_sound, C08_tester_refuted | holds for every protocol header; the Tester exception is a _refuted theorem |
| C09 Default contents have the declared length | proved | C09_default_length, C09_icmp_refuted | false for ICMP only: refuted for ICMP, proved for all others |
| C10 Header clone shares its bytes | proved | C10_clone_independent_refuted, C10_write_seen_through_clone, C10_clone_shares_for_ever | independence is refuted; sharing is proved for every later history |
| C11 replace copies and stays independent | proved | C11_replace, C11_replace_alias, C11_replace_poisoned |  |
| C12 Header list operations behave like a list | proved | C12_list_refinement, C12_borrowed_panics |  |
| C13 Serialisation order | proved | C13_to_vec, C13_to_vec_pure |  |
| C14 len equals serialised length | proved | C14_len, C14_len_refuted, C14_len_iff, C14_llc_refuted, C14_from_refuted | the unconditional claim is refuted; the conditional one is proved |
| C15 set_payload | proved | C15_set_payload_appends, C15_set_payload_iff, C15_set_payload_refuted, C15_set_payload_history | refuted in general; exact condition proved |
| C16 Packet addition | proved | C16_add, C16_add_bytes, C16_add_concat, C16_add_concat_refuted, C16_add_concat_iff, C16_laws | byte concatenation refuted; the actual result proved for all packets |
| C17 Packet clone | proved | C17_clone_same, C17_structure_independent, C17_contents_independent_refuted, C17_contents_shared | content independence refuted; sharing proved in every later heap |
| C18 compare and compare_with_slice | proved | C18_compare_with_slice, C18_compare_eq, C18_equivalence, C18_reflexive_refuted, C18_symmetric_refuted, C18_transitive_refuted, C18_reflexive | reflexivity and symmetry refuted in general; proved as byte equality for sized packets |
| C19 Lookup by name | proved | C19_get_header, C19_get_header_err, C19_index, C19_write_through |  |
| C20 IPv4 checksum function | proved | C20_value, C20_value_any, C20_rfc, C20_rfc_refuted, C20_ignores, C20_odd, C20_eleven | value proved for every even length; RFC 1071 agreement exactly when the fold does not carry (refuted otherwise); odd lengths panic except 11 |
| C21 Built IPv4 headers verify | proved | C21_built_checksum, C21_built_checksum_refuted | refuted with a witness; validity characterised exactly |
| C22 MAC text | proved | C22_mac, C22_mac_panics, C22_mac_total, C22_mac_roundtrip |  |
| C23 IPv4 text | proved | C23_ipv4, C23_ipv4_panics, C23_ipv4_total, C23_ipv4_roundtrip |  |
| C24 Ethernet, 802.3, ARP builders follow the wire format | proved | C24_ethernet, C24_dot3, C24_arp, C24_panics, C24_arp_panics |  |
| C25 VLAN builder | proved | C25_vlan_general, C25_vlan, C25_cfi_refuted, C25_vid_refuted | cfi and wide vid are refuted with witnesses; the bytes built are characterised for all arguments |
| C26 IPv4 builder wire format | proved | C26_ipv4, C26_panics |  |
| C27 IPv6 builder wire format | proved | C27_ipv6, C27_flow_refuted | a flow label above 20 bits is refuted with a witness |
| C28 UDP, TCP, ICMP builders | proved | C28_udp, C28_icmp, C28_tcp, C28_res_refuted |  |
| C29 VXLAN, GRE, GRE option builders | proved | C29_vxlan, C29_gre, C29_gre_chksum_offset, C29_gre_key, C29_gre_sequence_number |  |
| C30 ERSPAN builders | proved | C30_erspan2, C30_erspan3, C30_session_refuted |  |
| C31 MPLS builder | proved | C31_mpls_actual, C31_mpls_refuted, C31_label_refuted | the claim is refuted for every call with a bos or exp, and for the label; what is built is proved for all arguments |
| C32 SNAP and LLC builders | proved | C32_snap, C32_snap_oui_iff, C32_llc_refuted | snap characterised for all arguments, correct iff the three oui bytes are equal; llc refuted |
| C33 Parsing is total and safe | proved | C33_slow_total, C33_fast_total, C33_slow_equations, C33_fast_equations, C33_slow_depth, C33_fast_depth, C33_depth_unbounded | also shows that the nesting depth is not bounded by any constant (VLAN stack) |
| C34 What parsing returns | proved | C34_tables_total, C34_slow_complete, C34_slow_sound, C34_slow_panics, C34_fast_complete, C34_fast_sound, C34_fast_panics |  |
| C35 Slow and fast parsers agree | proved | C35_agree |  |
| C36 Parse then serialise | proved | C36_bytes, C36_identity_iff, C36_identity_without_gre, C36_permutation, C36_fast_same, C36_identity_refuted | identity refuted (GRE with two options); exact condition, permutation and the GRE-free case proved |
| C37 Parsed packets own fresh buffers | proved | C37_fresh, C37_writes_local, C37_isolated |  |
| C38 Fast parse is zero-copy and contiguous | proved | C38_windows, C38_tile |  |
| C39 XSlice::from on short input | proved | C39_from_ub_iff, C39_from_ok, C39_from_refuted | refuted for every protocol header; undefined behaviour characterised exactly |
| C40 802.3 versus Ethernet II | proved | C40_except_1500, C40_at_1500, C40_refuted | refuted at 1500, proved for every other length word |
| C41 MPLS bottom of stack | proved | C41_extra_word_ipv4, C41_extra_word_other, C41_one_more_entry, C41_refuted | refuted; the extra entry consumed is proved for every stack, and the shape that does parse is given |
| C42 create_tcp/udp/icmp packets | proved | C42_eth, C42_arp, C42_ipv4, C42_tcp, C42_udp, C42_icmp, C42_in_range, C42_panics, C42_cases | holds for all arguments; the checksum inherits the carry error of C20 (stated as an iff); unreadable addresses panic |
| C43 create_*v6 packets | proved | C43_ipv6, C43_tcpv6, C43_udpv6, C43_icmpv6, C43_panics, C43_in_range |  |
| C44 Build then parse | proved | C44_arp, C44_tcp, C44_udp, C44_icmp, C44_tcpv6, C44_udpv6, C44_icmpv6, C44_vxlan_port_refuted | proved for all seven builders; port 4789 with a short payload is a _refuted witness |
| C45 IP-in-IP packets | proved | C45_ipv4ip, C45_ipv6ip, C45_empty, C45_inner_panics |  |
| C46 VXLAN packets | proved | C46_vxlan, C46_checksum_refuted, C46_parse, C46_vxlanv6, C46_vxlanv6_refuted | lengths proved, checksum proved wrong for every argument (and refuted by a witness); the IPv6 duplication is proved and refuted |
| C47 GRE packets | proved | C47_gre, C47_empty, C47_routing_refuted | length right exactly when routing adds a multiple of 65536; refuted by a witness otherwise; parsing proved, including the reversed option order |
| C48 ERSPAN packets | proved | C48_erspan2, C48_erspan2_length, C48_erspan3, C48_erspan3_length, C48_total_len_refuted, C48_total_len3_refuted, C48_flag_refuted | length and flag claims refuted with witnesses; what is built is proved for all arguments |
| C49 Protocol number conversions | proved | C49_ip_type, C49_ip_protocol, C49_ether_type, C49_erspan_version |  |
| C50 Concurrent writers of disjoint fields | proved | C50_disjoint_setters, C50_independent_threads, C50_alone | interleaving model with one lock per bit (Conc.v); schedules arbitrary, memory sequentially consistent; stated for setters and for threads of any calls with disjoint footprints |
| C51 Concurrent access to one field | proved | C51_torn_read_shape, C51_torn_read_all, C51_torn_read_refuted, C51_bits, C51_single_value, C51_torn_write_all, C51_torn_write_refuted | both halves refuted with witnesses; exact set of outcomes proved: a getter sees old high bits and new low bits (every cut happens), two setters can leave every bitwise mix |
| C52 Deadlock | proved | C52_no_deadlock, C52_methods, C52_schedules_finite, C52_all_finish, C52_ordered_replace, C52_self_replace, C52_crossing_replace, C52_mutual_exclusion | no deadlock without replace for every program; self and crossing replace proved to hang/deadlock; replace in a fixed order proved safe |
| C53 show prints the contents | proved | C53_header, C53_full_size, C53_borrowed, C53_owned_borrowed, C53_short, C53_readable, C53_packet, C53_packet_slice, C53_dump_readable, C53_value_refuted | output modelled as a string; text printed before a panic is C68; the extra bit is part of the specification (groups) and a _refuted witness shows it is not the plain value |
| C54 Editing a parsed packet | proved | C54_edit, C54_reparse | contents after GRE options come back in the other order (C36); types and payload are the same with GRE too |
| C55 Parse, serialise, parse | proved | C55_reparse, C55_fast, C55_compare |  |
| C56 Decapsulation and encapsulation | proved | C56_suffix, C56_decapsulate, C56_encapsulate |  |
| C57 Length fields are not honoured | proved | C57_trailing, C57_trailing_fast, C57_fields, C57_lengths_ignored, C57_ihl_refuted, C57_data_offset_refuted, C57_total_len_refuted, C57_fragment_refuted | four refutations with witnesses: IHL, TCP data offset, total length, fragment offset |
| C58 Field constants with bytes and set_bytes | proved | C58_constants, C58_bytes, C58_set_bytes, C58_aligned, C58_all_bytes | octet-sized fields; other sizes panic (C07) |
| C59 The Header trait object | proved | C59_common, C59_as_slice, C59_as_slice_refuted, C59_owned_only, C59_clone_refuted, C59_downcast, C59_own_copy, C59_packet_slice |  |
| C60 Refreshing an IPv4 checksum | proved | C60_refresh, C60_idempotent, C60_valid_refuted | validity is an iff; the unconditional claim is refuted with a witness |
| C61 Diagnostics | proved | C61_get_header, C61_compare | the printed line is a string of the model |
| C62 What new() holds | proved | C62_new, C62_complete, C62_stack, C62_checksum_refuted | the checksum claim is refuted |
| C63 Python name tables | proved | C63_tables, C63_getitem, C63_setitem, C63_self_assignment_refuted | tables and the functions around them; PyO3 itself is not modelled. Self assignment is refuted for every packet with an Ether |
| C64 Copying bytes out while others write | proved | C64_header_snapshot, C64_packet_moments, C64_packet_quiet, C64_packet_mixes, C64_packet_atomic_refuted, C64_replace_unseen, C64_alone, C64_methods_alone | atomicity of the packet copy refuted with a witness; the exact set of results proved |
| C65 IPv6 address texts | proved | C65_ipv6, C65_unique, C65_octets16, C65_to_bytes, C65_unreadable_refuted, C65_full, C65_compressed, C65_roundtrip, C65_mapped, C65_header, C65_args, C65_tcpv6 | that a wrong text can be told from an address is refuted with a witness; relies on the model of std's parser |
| C66 Safety of any program of public calls | proved | C66_safety, C66_invariant, C66_reachable, C66_history, C66_careful, C66_frame, C66_poison, C66_reads, C66_no_ub_refuted, C66_no_hang_refuted | that safe code is free of undefined behaviour and that one thread cannot block itself are refuted with reachable witnesses |
| C67 Any number of threads making public calls | proved | C67_alone, C67_uninterrupted, C67_invariant, C67_safety, C67_frame, C67_private, C67_poison, C67_isolated, C67_fresh, C67_blocked, C67_exclusion, C67_ordered, C67_deadlock, C67_finite, C67_no_deadlock_refuted | deadlock freedom without an order on replace is refuted with a reachable witness |
| C68 What public calls print | proved | C68_same, C68_silent, C68_program, C68_octet, C68_complaint, C68_mac, C68_ipv4, C68_ipv6, C68_clean, C68_header, C68_packet, C68_text_unique, C68_show, C68_show_short, C68_show_poisoned, C68_show_borrowed, C68_show_packet, C68_show_packet_short, C68_show_packet_slice, C68_compare, C68_compare_packets, C68_getitem, C68_one_line_refuted | the text is an exact function of call and state; the address specification is relational and proved to determine the text |
| C69 Transport checksums | proved | C69_tcp, C69_tcpv6, C69_udp, C69_udpv6, C69_icmp, C69_icmpv6, C69_set, C69_set_fields, C69_ipv4_checksum, C69_tcp_refuted, C69_udpv6_refuted, C69_icmp_refuted, C69_ipv4_checksum_refuted |  |
| C70 When public calls panic | proved | C70_panics, C70_one, C70_returns, C70_history, C70_poisons, C70_release, C70_predefined, C70_never_refuted, C70_no_effect_refuted | for headers shown, the fields of their type must not end before they start (a type with such a field does not compile); the poisoning statement is about buffers that existed before the call |
| C71 Standard output of several threads | proved | C71_alone, C71_erase, C71_complete, C71_safety, C71_blocked, C71_step, C71_by_thread, C71_runs, C71_prefix, C71_isolated, C71_fresh, C71_ended, C71_uninterrupted, C71_lines, C71_whole_lines_refuted, C71_serial_refuted | that lines and calls are not interleaved is refuted with a reachable witness |
| C72 A call depends on its arguments only | proved | C72_call, C72_unrelated, C72_independent, C72_program, C72_start, C72_append |  |
| C73 The documented programs | proved | C73_pkt_rs, C73_header, C73_packet, C73_parse, C73_define, C73_push, C73_insert, C73_pop, C73_remove, C73_payload, C73_get, C73_get_mut, C73_new, C73_compare, C73_compare_slice, C73_to_vec, C73_readme_header, C73_readme_packet, C73_readme_never, C73_readme_refuted |  |
| C74 Debug and release builds | proved | C74_call, C74_text, C74_program, C74_threads, C74_where, C74_same, C74_differ, C74_trap, C74_equal_refuted |  |
| C75 What calls cost | proved | C75_returned, C75_bound, C75_unfinished, C75_parse, C75_lock_free, C75_one_lock_refuted |  |
| C76 Which packets can be parsed | proved | C76_shapes, C76_fast, C76_pairs, C76_labels, C76_one_label_refuted, C76_unbounded |  |
| C77 Capture files of the tests | proved | C77_outcome, C77_fresh, C77_longer, C77_leftover, C77_overwrite_refuted, C77_time, C77_time_refuted, C77_snap, C77_snap_refuted, C77_cut_short |  |
| C78 Builds that abort | proved | C78_same, C78_sound, C78_no_poison, C78_one, C78_first, C78_origin, C78_unwinding_refuted |  |
| C79 Packets cut short | proved | C79_split, C79_payload, C79_payload_fast, C79_cut_payload, C79_cut_headers, C79_cut_fast, C79_lengths, C79_prefix_free |  |
| C80 Texts tell packets apart | proved | C80_header, C80_packet, C80_slice, C80_both, C80_parsed, C80_parsed_fast, C80_longer_refuted, C80_border_refuted |  |
| C81 Calls that use one lock once are linearizable | proved | C81_linear, C81_threads, C81_extends, C81_quiet, C81_two_steps_refuted |  |
| C82 When standard output fails | proved | C82_erase, C82_complete, C82_fail, C82_safety, C82_blocked, C82_untouched, C82_lost, C82_by_thread, C82_runs, C82_alone, C82_closed, C82_uninterrupted, C82_show_only_refuted |  |
| C83 Buffers that are freed, and memory that is used again | proved | C83_same, C83_complete, C83_alive, C83_safety, C83_private, C83_blocked, C83_reclaim, C83_empty, C83_new_places_refuted |  |
| C84 No data races | proved | C84_no_race, C84_same, C84_complete, C84_safety, C84_relaxed_refuted, C84_unpublished_refuted |  |
| C85 Packets of any headers | proved | C85_owned, C85_push, C85_lists, C85_to_vec, C85_clone, C85_add, C85_show, C85_compare, C85_assign, C85_first, C85_assign_index, C85_slices, C85_get_header, C85_keeps, C85_safe, C85_reach, C85_clone_refuted, C85_assign_index_refuted, C85_compare_refuted |  |
| C86 A header is its fields | proved | C86_determine, C86_diagram, C86_exists, C86_set_all, C86_getters, C86_copy, C86_getters_refuted, C86_copy_refuted, C86_exists_refuted |  |
| C87 Which errors the IPv4 checksum detects | proved | C87_burst, C87_bit, C87_word, C87_value, C87_built, C87_burst_refuted, C87_swap_refuted, C87_bits_refuted |  |
| C88 What a panicking call leaves behind | proved | C88_kept, C88_set_bytes, C88_replace, C88_to_vec, C88_exactly, C88_bytes_refuted, C88_replace_refuted |  |
| C89 What the header builders make of arguments too wide for their field | proved | C89_ipv4, C89_ipv6, C89_tcp, C89_vxlan, C89_gre, C89_erspan2, C89_erspan3, C89_vlan, C89_exactly, C89_lossless, C89_lossless_refuted |  |
| C90 After any history of header calls each bit is what the last write gave it | proved | C90_now, C90_readable, C90_reads, C90_gets, C90_bytes, C90_to_vec, C90_any_order, C90_absorb, C90_any_order_refuted, C90_torn_refuted |  |
| C91 The wire bytes of a packet after any editing session | proved | C91_packet, C91_wire, C91_returns, C91_looks, C91_len_refuted |  |
| C92 No bit out of thin air | proved | C92_source, C92_unwritten, C92_stood, C92_no_thin_air, C92_values_refuted |  |
| C93 Threads that exchange no values do not notice each other | proved | C93_groups, C93_disjoint, C93_untouched, C93_waits, C93_alone, C93_never_waits, C93_own_values_refuted |  |
| C94 What depends on the width of usize | proved | C94_calls, C94_slices, C94_checked, C94_unchecked, C94_len, C94_ps_len, C94_compare, C94_sizes, C94_len_returns_refuted, C94_len_payload_refuted, C94_erspan_2, C94_erspan_3 |  |
| C95 How deeply the parsers nest | proved | C95_determined, C95_slow, C95_fast, C95_same, C95_slow_shown, C95_fast_shown, C95_worst, C95_enough, C95_any, C95_constant_refuted |  |
| C96 Which bits steer the parsers | proved | C96_fast, C96_slow, C96_either, C96_depth, C96_needed |  |
| C97 A frame says what was asked for | proved | C97_lossless, C97_same, C97_layers, C97_refuted |  |
| C98 A tunnel packet says what was wrapped and how | proved | C98_lossless, C98_apart, C98_erspan3_refuted, C98_values_refuted |  |
| C99 Updating the IPv4 checksum incrementally | proved | C99_incremental, C99_one_carry, C99_two_carries, C99_setter, C99_ttl, C99_always_refuted |  |
| C100 Which laws of the Internet checksum Packet::ipv4_checksum keeps | proved | C100_order, C100_byte_order, C100_receivers, C100_byte_order_refuted, C100_receivers_refuted |  |
| C101 How many buffers panics poison | proved | C101_call, C101_program, C101_none, C101_tight, C101_every_refuted, C101_spread_refuted, C101_threads_counted, C101_threads, C101_threads_none, C101_threads_stays, C101_threads_held |  |
| C102 An 802.1Q tag is transparent to both parsers | proved | C102_starts, C102_tag, C102_panics, C102_total, C102_dot3, C102_other_tpid, C102_keeps_refuted |  |
| C103 What the parsers make of a packet inside other headers | proved | C103_starts, C103_encap, C103_panics, C103_parse, C103_vxlan, C103_label, C103_bottom |  |
| C104 Parsing loses nothing | proved | C104_original, C104_slow, C104_fast, C104_injective, C104_same, C104_contents_refuted |  |

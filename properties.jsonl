{"id": "C01", "title": "Field getter reads network-order bits", "statement": "For every header type made by make_header!, reading a field declared start-end (at most 64 bits) of a header whose buffer holds the field returns the unsigned big-endian value of bits start..=end of the buffer, bit 0 being the most significant bit of byte 0, in debug and release builds alike, and changes nothing.", "quantifier": "every layout, every field of width 1..64, every buffer content and length that covers the field, both build profiles", "why_tests_cant": "tests read a few fields of a few literals; alignment and width cases are unbounded", "anchors": ["src/headers.rs: make_header! BitRange::bit_range, $field()"]}
{"id": "C02", "title": "Set then get", "statement": "After set_field(v), field() returns v mod 2^width for every v: in-range values are read back exactly, excess high bits are dropped.", "quantifier": "every field position and width 1..64, every prior content, every u64 value", "why_tests_cant": "2^64 values times every alignment", "anchors": ["src/headers.rs: set_bit_range, set_$field, $field()"]}
{"id": "C03", "title": "A setter touches only its field", "statement": "set_field(v) leaves every bit outside the field, the buffer length, every other header's buffer, and hence every disjoint field, unchanged; two sets of disjoint fields commute.", "quantifier": "every pair of disjoint fields, every content, every value, every other live header", "why_tests_cant": "a missed mask only shows at particular neighbours and values", "anchors": ["src/headers.rs: set_bit_range"]}
{"id": "C04", "title": "Owned and slice headers agree", "statement": "For the same bytes, every getter and bytes() of the borrowed XSlice header gives the same result (value or panic) as that of the owned X header.", "quantifier": "every layout, field, byte string and build profile", "why_tests_cant": "two separately written code paths over unbounded inputs", "anchors": ["src/headers.rs: XSlice::bit_range, X::bit_range, bytes"]}
{"id": "C05", "title": "Getters of fields wider than 64 bits", "statement": "A getter of a predefined header never panics on a full-size buffer in either build profile and returns the field. (False: IPv6 src/dst are 128 bits wide; overflow-checked builds panic, unchecked builds return only the low bits.)", "quantifier": "every predefined header, field and buffer content, both build profiles", "why_tests_cant": "needs both profiles and every field; the truncated value looks plausible in tests", "anchors": ["src/headers.rs: bit_range, IPv6 src 64-191, dst 192-319"]}
{"id": "C06", "title": "Out-of-buffer field access is contained", "statement": "Accessing a field that does not lie in the buffer panics without modifying the buffer; afterwards the header (and every clone of it) is unusable: every later access panics; no other header is affected.", "quantifier": "every field, every too-short buffer, every value, every later operation sequence", "why_tests_cant": "depends on mutex poisoning after a panic and on all later histories", "anchors": ["src/headers.rs: bit_range, set_bit_range (lock().unwrap())"]}
{"id": "C07", "title": "bytes / set_bytes", "statement": "bytes(msb,lsb) returns bits lsb..=msb as consecutive big-endian octets; set_bytes followed by bytes returns the bytes written and changes nothing else; the asserts reject exactly the ranges whose length does not fit; the one range whose length is no usize (0..=usize::MAX) panics before anything is locked or after the first octet out of range; a range that ends before it begins panics with overflow checks, and without them has its length modulo 2^64, so that set_bytes may accept a value for it and write nothing.", "quantifier": "every bit range (also not byte aligned), buffer and value, both build profiles", "why_tests_cant": "every alignment and length", "anchors": ["src/headers.rs: bytes, set_bytes"]}
{"id": "C08", "title": "Predefined layouts are sound", "statement": "In each predefined protocol header the fields are pairwise disjoint, lie inside the declared size and together cover every bit; the exported Tester header violates disjointness.", "quantifier": "every predefined header and every pair of its fields", "why_tests_cant": "a layout typo corrupts a neighbour only for specific values", "anchors": ["src/headers.rs: make_header! invocations 529-854"]}
{"id": "C09", "title": "Default contents have the declared length", "statement": "X::new().to_vec().len() == X::size() for each predefined header. (False for ICMP: size 4, default of 6 bytes.)", "quantifier": "every predefined header", "why_tests_cant": "finite but untested; the consequence (len() disagreeing with to_vec()) ranges over all packets", "anchors": ["src/headers.rs: ICMP 4 ... vec![..6..]", "src/headers.rs: new, len, size"]}
{"id": "C10", "title": "Header clone shares its bytes", "statement": "A clone of a header is independent of the original: writing one does not change the other. (False: clone shares the buffer, so every write through either is seen by both, for every later history.)", "quantifier": "every header, field, value and later history of operations on either handle", "why_tests_cant": "aliasing shows only in histories that write after cloning", "anchors": ["src/headers.rs: clone (Arc clone)", "src/packet.rs: From<&Box<dyn Header>>"]}
{"id": "C11", "title": "replace copies and stays independent", "statement": "a.replace(&b) makes a's bytes equal to b's, leaves b unchanged, and later writes to either do not affect the other; it changes no third header. When b is a clone of a the call never returns; when b is poisoned a is emptied and poisoned.", "quantifier": "every pair of headers, contents and later writes", "why_tests_cant": "aliasing and poisoning cases depend on history", "anchors": ["src/headers.rs: replace"]}
{"id": "C12", "title": "Header list operations behave like a list", "statement": "Any sequence of push, insert, pop and remove leaves exactly the header sequence of the same operations on an abstract list (append at end, prepend, drop last, drop i-th; pop on empty and out-of-range remove do nothing), and leaves the payload and all header bytes alone.", "quantifier": "every sequence of operations of any length", "why_tests_cant": "unbounded histories", "anchors": ["src/packet.rs: push, insert, pop, remove"]}
{"id": "C13", "title": "Serialisation order", "statement": "to_vec() is the concatenation of the headers' bytes in order followed by the payload, whatever history built the packet.", "quantifier": "every packet, every history", "why_tests_cant": "unbounded", "anchors": ["src/packet.rs: to_vec", "src/packet.rs: PacketSlice::to_vec"]}
{"id": "C14", "title": "len equals serialised length", "statement": "pkt.len() == pkt.to_vec().len() whenever each header's buffer has its declared size, and exactly when the buffers together have as many bytes as the types declare; it is not so for all packets the API can build (ICMP::new(), Packet::llc, X::from(short)).", "quantifier": "every packet", "why_tests_cant": "unbounded; the exceptions come from particular constructors", "anchors": ["src/packet.rs: len, to_vec", "src/headers.rs: len"]}
{"id": "C15", "title": "set_payload", "statement": "After set_payload(x), payload() == x. (False in general: it appends; true exactly when the payload was empty or so that old ++ x = x. On a PacketSlice it replaces.)", "quantifier": "every packet and sequence of set_payload calls", "why_tests_cant": "needs histories with two calls", "anchors": ["src/packet.rs: Packet::set_payload, payload", "src/packet.rs: PacketSlice::set_payload"]}
{"id": "C16", "title": "Packet addition", "statement": "p + q has p's headers followed by q's headers and p's payload. q's payload is dropped, so (p+q).to_vec() == p.to_vec() ++ q.to_vec() fails in general: it holds exactly if q's payload is empty and the bytes of q's headers commute with p's payload. Addition is associative, and a packet without headers adds nothing from the right.", "quantifier": "every pair of packets", "why_tests_cant": "unbounded", "anchors": ["src/packet.rs: Add for Packet"]}
{"id": "C17", "title": "Packet clone", "statement": "p.clone() serialises to the same bytes, and adding/removing headers or payload on one does not affect the other; but header contents are shared, so writing a field of the clone changes the original.", "quantifier": "every packet, every later history", "why_tests_cant": "aliasing after clone", "anchors": ["src/packet.rs: Clone, clone_me"]}
{"id": "C18", "title": "compare and compare_with_slice", "statement": "compare_with_slice(b) is true exactly when b.len() == pkt.len() and b is a prefix of pkt.to_vec(); hence for packets whose headers have their declared size it is byte equality and compare is reflexive, symmetric and transitive; in general it is neither reflexive nor symmetric nor transitive, and a packet equals itself exactly if len() is the length of its to_vec().", "quantifier": "every packet and byte string", "why_tests_cant": "unbounded; relational", "anchors": ["src/packet.rs: compare, compare_with_slice"]}
{"id": "C19", "title": "Lookup by name", "statement": "get_header / get_header_mut / indexing find the first header of that name; get_header fails exactly when there is none or the first one has another type; indexing panics exactly when there is none; writing through a mutable lookup changes only that header's bytes.", "quantifier": "every packet (duplicate names, user types reusing a name), every name and type", "why_tests_cant": "needs tunnelled packets with repeated headers and name collisions", "anchors": ["src/packet.rs: get_header, get_header_mut, Index, IndexMut", "src/headers.rs: From<&Box<dyn Header>>"]}
{"id": "C20", "title": "IPv4 checksum function", "statement": "ipv4_checksum(v) never looks at bytes 10-11; on every even-length header it computes the complement of (s>>16 + s) mod 2^16; it equals the RFC 1071 checksum exactly when that addition does not carry out of 16 bits; odd lengths panic, except that of 11 bytes the last is not looked at.", "quantifier": "every byte string of every length, both build profiles", "why_tests_cant": "the lost end-around carry occurs for few inputs", "anchors": ["src/packet.rs: ipv4_checksum"]}
{"id": "C21", "title": "Built IPv4 headers verify", "statement": "The header built by Packet::ipv4 has a valid RFC 1071 checksum for all arguments. (False: fails exactly when the folded sum carries; proved valid otherwise.)", "quantifier": "all argument values", "why_tests_cant": "a fraction of about 2^-13 of the inputs fails", "anchors": ["src/packet.rs: ipv4, ipv4_checksum"]}
{"id": "C22", "title": "MAC text", "statement": "A colon separated text of at most six parts gives six bytes: each part's hexadecimal value if it is a valid u8, 0 otherwise, missing parts 0; more than six parts panics; printing six bytes as hex and converting back is the identity.", "quantifier": "every string", "why_tests_cant": "unbounded strings", "anchors": ["src/packet.rs: to_mac_bytes"]}
{"id": "C23", "title": "IPv4 text", "statement": "Same for dotted decimal with four parts.", "quantifier": "every string", "why_tests_cant": "unbounded strings", "anchors": ["src/packet.rs: to_ipv4_bytes"]}
{"id": "C24", "title": "Ethernet, 802.3, ARP builders follow the wire format", "statement": "Packet::ethernet/dot3/arp produce exactly the fields of the standard diagrams from their arguments, for every argument.", "quantifier": "every argument", "why_tests_cant": "unbounded strings and all u16 values", "anchors": ["src/packet.rs: ethernet, dot3, arp"]}
{"id": "C25", "title": "VLAN builder", "statement": "Packet::vlan(pcp,cfi,vid,etype) yields those field values for pcp<8, vid<4096 with cfi read as 0; the cfi argument is ignored and vid>=4096 corrupts pcp/cfi.", "quantifier": "every argument", "why_tests_cant": "bit overlap for out-of-range values", "anchors": ["src/packet.rs: vlan"]}
{"id": "C26", "title": "IPv4 builder wire format", "statement": "Packet::ipv4 follows the RFC 791 diagram for ihl<16 and any other argument, with flags/fragment taken from frag and the checksum of the other bytes.", "quantifier": "every argument", "why_tests_cant": "2^100s of inputs", "anchors": ["src/packet.rs: ipv4"]}
{"id": "C27", "title": "IPv6 builder wire format", "statement": "Packet::ipv6 follows the RFC 8200 diagram for flow_label<2^20 and any other argument.", "quantifier": "every argument", "why_tests_cant": "all values", "anchors": ["src/packet.rs: ipv6"]}
{"id": "C28", "title": "UDP, TCP, ICMP builders", "statement": "Packet::udp/tcp/icmp follow their diagrams for in-range arguments (data_offset<16, res<16).", "quantifier": "every argument", "why_tests_cant": "all values", "anchors": ["src/packet.rs: udp, tcp, icmp"]}
{"id": "C29", "title": "VXLAN, GRE, GRE option builders", "statement": "Packet::vxlan (vni<2^24), gre (flags<32, ver<8), gre_chksum_offset, gre_key, gre_sequence_number follow their diagrams.", "quantifier": "every argument", "why_tests_cant": "all values", "anchors": ["src/packet.rs: vxlan, gre, gre_chksum_offset, gre_key, gre_sequence_number"]}
{"id": "C30", "title": "ERSPAN builders", "statement": "Packet::erspan2/erspan3 follow the ERSPAN II/III diagrams for in-range arguments.", "quantifier": "every argument", "why_tests_cant": "all values", "anchors": ["src/packet.rs: erspan2, erspan3"]}
{"id": "C31", "title": "MPLS builder", "statement": "Packet::mpls(label,exp,bos,ttl) yields those fields. (False: exp and bos are always read back as 0 and the label as (label*256 + ...) mod 2^20; no argument gives a bottom-of-stack entry.)", "quantifier": "every argument", "why_tests_cant": "no test exists; claim is over all arguments", "anchors": ["src/packet.rs: mpls"]}
{"id": "C32", "title": "SNAP and LLC builders", "statement": "Packet::snap(oui,code).oui()==oui (false unless the bytes happen to rotate to themselves; code is right); Packet::llc returns an LLC header (false: a 3-byte Dot3 whose address getters panic).", "quantifier": "every argument", "why_tests_cant": "all values", "anchors": ["src/packet.rs: snap, llc"]}
{"id": "C33", "title": "Parsing is total and safe", "statement": "slow::parse and fast::parse (and every parse_x entry) terminate on every input, nest at most linearly in the input length, and fast parsing never creates an out-of-bounds slice.", "quantifier": "every byte string, every entry point", "why_tests_cant": "unbounded input; unsafe code", "anchors": ["src/parser/slow.rs: all", "src/parser/fast.rs: all", "src/headers.rs: XSlice::from (from_raw_parts)"]}
{"id": "C34", "title": "What parsing returns", "statement": "A parse returns headers and payload exactly as the protocol demultiplexing tables prescribe (EtherType, IP protocol, UDP port, GRE proto and flags, ERSPAN o bit, MPLS bos); it panics exactly when some header the tables call for is cut short.", "quantifier": "every byte string, every entry point", "why_tests_cant": "unbounded nesting of encapsulations", "anchors": ["src/parser/slow.rs: all", "src/types.rs: try_from"]}
{"id": "C35", "title": "Slow and fast parsers agree", "statement": "For every input the two parsers either both panic or return the same header types in the same order with the same bytes, the same payload, and so the same to_vec and len.", "quantifier": "every byte string, entry point, build profile", "why_tests_cant": "two separately written parsers", "anchors": ["src/parser/slow.rs: all", "src/parser/fast.rs: all"]}
{"id": "C36", "title": "Parse then serialise", "statement": "slow::parse(b).to_vec() == b (also fast) for every b it accepts. (False: a GRE header with two or three optional words gets them reversed. True exactly when no such reordering changes the bytes; always a permutation of b in whole words, same length.)", "quantifier": "every byte string", "why_tests_cant": "needs GRE with several options nested anywhere", "anchors": ["src/parser/slow.rs: parse_gre", "src/parser/fast.rs: parse_gre", "src/packet.rs: to_vec"]}
{"id": "C37", "title": "Parsed packets own fresh buffers", "statement": "A slow-parsed packet shares no buffer with anything alive before; writing it changes no earlier packet, and no two of its headers share a buffer.", "quantifier": "every heap, input, later write", "why_tests_cant": "aliasing over histories", "anchors": ["src/parser/slow.rs: all", "src/headers.rs: From<Vec<u8>>"]}
{"id": "C38", "title": "Fast parse is zero-copy and contiguous", "statement": "Every header slice and the payload of a fast parse are windows of the input at the offset where that header lies on the wire; together they tile the input.", "quantifier": "every byte string", "why_tests_cant": "unbounded", "anchors": ["src/parser/fast.rs: all"]}
{"id": "C39", "title": "XSlice::from on short input", "statement": "The safe constructor XSlice::from never reads outside its argument. (False: any slice shorter than X::size() gives an out-of-bounds slice.)", "quantifier": "every slice", "why_tests_cant": "undefined behaviour is not observable by tests", "anchors": ["src/headers.rs: XSlice::from"]}
{"id": "C40", "title": "802.3 versus Ethernet II", "statement": "A frame whose type/length word is a legal 802.3 length (<=1500) is parsed as 802.3, others as Ethernet. (False only at 1500.)", "quantifier": "every frame", "why_tests_cant": "boundary", "anchors": ["src/parser/slow.rs: parse", "src/parser/fast.rs: parse"]}
{"id": "C41", "title": "MPLS bottom of stack", "statement": "An MPLS stack whose last entry has bos=1 followed by an IP packet parses to the labels and the IP packet. (False: one more entry is consumed after the bottom of stack; with one extra 4-byte word it does.)", "quantifier": "every label stack of any depth and payload", "why_tests_cant": "stack depth unbounded", "anchors": ["src/parser/slow.rs: parse_mpls, parse_mpls_bos"]}
{"id": "C42", "title": "create_tcp/udp/icmp packets", "statement": "utils::create_{tcp,udp,icmp}_packet produce Ethernet [VLAN] IPv4 L4 payload with the diagram contents; IPv4 total_len equals the bytes from the IPv4 header on modulo 2^16, UDP length likewise, and the checksum covers the final header.", "quantifier": "every argument and payload of any length", "why_tests_cant": "lengths wrap; all arguments", "anchors": ["src/utils.rs: create_tcp_packet, create_udp_packet, create_icmp_packet, create_ipv4_packet, create_eth_packet"]}
{"id": "C43", "title": "create_*v6 packets", "statement": "Same for create_{tcp,udp,icmp}v6_packet: payload_len equals the bytes after the IPv6 header modulo 2^16.", "quantifier": "every argument", "why_tests_cant": "all", "anchors": ["src/utils.rs: create_tcpv6_packet, create_udpv6_packet, create_icmpv6_packet"]}
{"id": "C44", "title": "Build then parse", "statement": "Parsing the bytes of a packet made by create_{arp,tcp,udp,icmp,tcpv6,udpv6,icmpv6}_packet gives back the same headers (types and bytes, in order) and payload (for UDP: destination port not 4789).", "quantifier": "every argument and payload", "why_tests_cant": "round trip over unbounded inputs", "anchors": ["src/utils.rs: create_*", "src/parser/slow.rs: parse"]}
{"id": "C45", "title": "IP-in-IP packets", "statement": "create_ipv4ip/ipv6ip_packet carry inner.to_vec() as payload, select the protocol from its version nibble, and panic exactly when the inner packet serialises to nothing; parsing the result parses the inner packet too.", "quantifier": "every inner packet", "why_tests_cant": "all inner packets", "anchors": ["src/utils.rs: create_ipv4ip_packet, create_ipv6ip_packet"]}
{"id": "C46", "title": "VXLAN packets", "statement": "create_vxlan_packet output has consistent lengths and a valid IPv4 checksum (checksum false: it is never recomputed after the length changes); create_vxlanv6_packet carries the inner packet once (false: its headers are duplicated).", "quantifier": "every argument and inner packet", "why_tests_cant": "all", "anchors": ["src/utils.rs: create_vxlan_packet, create_vxlanv6_packet"]}
{"id": "C47", "title": "GRE packets", "statement": "create_gre_packet total_len equals the actual size (false when routing bytes are given, true otherwise), option words appear in RFC order matching the flags.", "quantifier": "every argument combination", "why_tests_cant": "2^5 flag combinations times all sizes", "anchors": ["src/utils.rs: create_gre_packet"]}
{"id": "C48", "title": "ERSPAN packets", "statement": "create_erspan_2/3_packet total_len equals the actual size (false: inner counted twice), the sequence flag says whether a sequence word is present (false for even non-zero sequence numbers in ERSPAN III).", "quantifier": "every argument and inner packet", "why_tests_cant": "all", "anchors": ["src/utils.rs: create_erspan_2_packet, create_erspan_3_packet"]}
{"id": "C49", "title": "Protocol number conversions", "statement": "try_from of each enum accepts exactly the listed codes and inverts `as`.", "quantifier": "every u8/u16", "why_tests_cant": "65536 values each", "anchors": ["src/types.rs: TryFrom impls"]}
{"id": "C50", "title": "Concurrent writers of disjoint fields", "statement": "When threads holding clones of one header set pairwise disjoint fields, every interleaving ends with all fields set: no update is lost and neighbouring bits survive.", "quantifier": "every number of threads, every schedule", "why_tests_cant": "schedules", "anchors": ["src/headers.rs: set_bit_range (lock per bit)"]}
{"id": "C51", "title": "Concurrent access to one field", "statement": "A getter racing with a setter returns the old or the new value, and two racing setters leave one of the two values. (False: both can be torn; each single bit is old/new.)", "quantifier": "every schedule", "why_tests_cant": "schedules", "anchors": ["src/headers.rs: bit_range, set_bit_range"]}
{"id": "C52", "title": "Deadlock", "statement": "Programs using getters, setters, bytes, set_bytes and to_vec on shared headers never deadlock; a.replace(&b) with b sharing a's buffer, or crossing a.replace(&b) and b.replace(&a), can.", "quantifier": "every program and schedule", "why_tests_cant": "schedules", "anchors": ["src/headers.rs: replace, lock()"]}
{"id": "C53", "title": "show prints the contents", "statement": "show() of a full-size header never panics; each field of at most 8 bits or of whole octets is printed as its value in hex; other widths print one bit too many in the last group; the packet's raw dump is exactly to_vec() in hex.", "quantifier": "every header, contents, packet", "why_tests_cant": "unbounded", "anchors": ["src/headers.rs: show", "src/packet.rs: show"]}
{"id": "C54", "title": "Editing a parsed packet", "statement": "Setting a field of a header of a parsed packet changes, in the serialised packet, exactly the bits of that field (placed after the declared sizes of the headers before it). If none of those bits selects a parser branch, parsing the result gives the same header types and payload, and without GRE the same contents.", "quantifier": "every input that parses, every header and field, every value, every heap", "why_tests_cant": "packets, fields and values are unbounded", "anchors": ["src/headers.rs: set_bit_range", "src/packet.rs: to_vec", "src/parser/slow.rs"]}
{"id": "C55", "title": "Parse, serialise, parse", "statement": "Parsing what to_vec wrote gives the same types and payload, and serialising that gives the first input back; compare_with_slice of a freshly parsed packet accepts exactly its to_vec.", "quantifier": "every input that parses, both parsers", "why_tests_cant": "inputs are unbounded", "anchors": ["src/parser/slow.rs", "src/parser/fast.rs", "src/packet.rs: to_vec, compare_with_slice"]}
{"id": "C56", "title": "Decapsulation and encapsulation", "statement": "The bytes from any non-option header on parse, from that header's parse function, to the rest of the packet; removing leading headers with remove(0) and serialising does the same; inserting a header whose type field leads to the parse function used gives a packet that parses with that header in front.", "quantifier": "every input that parses, every header in it", "why_tests_cant": "inputs are unbounded", "anchors": ["src/parser/slow.rs", "src/packet.rs: remove, insert"]}
{"id": "C57", "title": "Length fields are not honoured", "statement": "Bytes after a packet that parses always become payload; apart from fifteen named fields (and three more behind MPLS) no field decides anything; the claims that the parsers honour IHL, TCP data offset, total length or fragment offset are false.", "quantifier": "every input that parses, every field of every header type", "why_tests_cant": "inputs are unbounded", "anchors": ["src/parser/slow.rs", "src/parser/fast.rs"]}
{"id": "C58", "title": "Field constants with bytes and set_bytes", "statement": "The per-field constants (size, lsb, msb) of every protocol header are in range and add up to the header size; bytes(msb, lsb) reads a field of whole octets however wide, set_bytes(msb, lsb, v) writes it, equals the setter, and touches nothing else; an aligned field is replaced in place.", "quantifier": "every header, contents and field", "why_tests_cant": "field positions and contents are unbounded", "anchors": ["src/headers.rs: make_header"]}
{"id": "C59", "title": "The Header trait object", "statement": "name, len and to_vec work on every trait object; as_slice works exactly for borrowed headers; clone, to_owned and as_any exactly for owned ones; a downcast succeeds exactly for an owned header of that type and shares its buffer.", "quantifier": "every trait object and heap", "why_tests_cant": "types are open (user-defined headers)", "anchors": ["src/headers.rs: trait Header, make_header"]}
{"id": "C60", "title": "Refreshing an IPv4 checksum", "statement": "x.set_header_checksum(ipv4_checksum(&x.to_vec())) changes bytes 10 and 11 only, gives the RFC 791 value unless the fold carries (then one more), verifies exactly when it does not carry, and is idempotent. The claim that the header then always verifies is false.", "quantifier": "every even-length header of at least 12 bytes, options included", "why_tests_cant": "2^160 headers", "anchors": ["src/utils.rs", "src/packet.rs: ipv4_checksum"]}
{"id": "C61", "title": "Diagnostics", "statement": "get_header returns the stored header or the text '<name> header not found'; compare_with_slice prints nothing exactly when it answers true, otherwise one line with both lengths and, when equal, the number of agreeing positions.", "quantifier": "every packet, name and slice", "why_tests_cant": "inputs are unbounded", "anchors": ["src/packet.rs: get_header, compare_with_slice"]}
{"id": "C62", "title": "What new() holds", "statement": "X::new() gives, field by field, the documented default values in a fresh buffer; Ether/IPv4/TCP defaults serialise to a packet both parsers read back. The claim that IPv4::new() carries a valid checksum is false.", "quantifier": "every predefined header, every heap", "why_tests_cant": "heaps are unbounded", "anchors": ["src/headers.rs: 529-854"]}
{"id": "C63", "title": "Python name tables", "statement": "The three tables of the Python bindings name every protocol header once with its own type; pkt[name] shares the buffer of the first header of that name; assignment replaces an Ether and panics otherwise; pkt['Ether'] = pkt['Ether'] never returns.", "quantifier": "every packet, name and heap", "why_tests_cant": "packets are unbounded", "anchors": ["src/packet.rs: python-module", "src/lib.rs"]}
{"id": "C64", "title": "Copying bytes out while others write", "statement": "A header's to_vec is atomic among any threads; Packet::to_vec is not: it returns contents at later and later moments, every such mix occurs, and the claim that it is a snapshot is false. replace is never seen half done by to_vec. A thread alone behaves as the one-thread model says, including where it hangs.", "quantifier": "every heap, every set of threads, every schedule", "why_tests_cant": "interleavings are unbounded", "anchors": ["src/headers.rs: to_vec, replace", "src/packet.rs: to_vec"]}
{"id": "C65", "title": "IPv6 address texts", "statement": "to_ipv6_bytes reads exactly the texts of RFC 4291 section 2.2 (full, compressed, with dotted quad) and gives their 16 octets; any other text gives 16 zeros without an error, so it cannot be told from '::'. Every address printed in full reads back. IPv6 headers and packets built from two address texts carry those addresses.", "quantifier": "every string", "why_tests_cant": "strings are unbounded; 2^128 addresses with many spellings each", "anchors": ["src/packet.rs:50-52", "src/utils.rs: create_*v6"]}
{"id": "C66", "title": "Safety of any program of public calls", "statement": "In every state a single-threaded program can reach through public functions, every header and packet refers to an existing buffer, all buffers and payloads hold bytes and every borrowed header lies within its slice. A call is undefined behaviour exactly if it is XSlice::from of a slice shorter than the header; it waits for itself exactly if it is replace with two headers sharing an unpoisoned buffer; otherwise it returns or panics. A call changes only the buffers of the headers it is given to write or read bit by bit; a call that writes to no header and returns changes no existing buffer; a poisoned buffer never changes again.", "quantifier": "every sequence of public calls (header methods and constructors, Packet methods, utils, both parsers, borrowed headers), all arguments of their Rust types, both build profiles", "why_tests_cant": "the set of call sequences is infinite and undefined behaviour need not show", "anchors": ["src/headers.rs", "src/packet.rs", "src/utils.rs", "src/parser/slow.rs", "src/parser/fast.rs"]}
{"id": "C67", "title": "Any number of threads making public calls", "statement": "Whatever threads do with shared headers and packets, in every interleaving: references stay valid and buffers keep holding bytes; a call that ends has returned or panicked unless it was XSlice::from of a short slice; a step changes only buffers its call was given or allocated; what a call allocates stays its own until it returns; a poisoned buffer never changes. A call whose buffers nobody else changes meanwhile does exactly what it does alone, and so does every call that is given no buffer (parse, create_*, new). A blocked thread waits for a thread inside replace; with replaces in one order somebody can always proceed; calls in progress cannot run for ever; threads waiting for each other do so for ever. That calls which come back alone never deadlock together is false.", "quantifier": "every number of threads, every program of public calls, every schedule", "why_tests_cant": "schedules and call sequences are both unbounded", "anchors": ["src/headers.rs", "src/packet.rs", "src/utils.rs", "src/parser/slow.rs", "src/parser/fast.rs"]}
{"id": "C68", "title": "What public calls print", "statement": "Standard output of every public call is exactly: for each address text converted, in order of the resulting bytes and up to the first that has too many parts, one line per part that is not an octet naming the first thing wrong with it (a MAC or IPv4 text is silent and returns iff it consists of at most six or four octets); for show the text of C53, and when a field lies outside the buffer the lines before it, its label and the octets that are there, then a panic, nothing after; for comparisons a line iff the packets differ; for pkt[name] in Python 'Getting name'. All other calls print nothing, and printing changes neither result nor effects. That a malformed address gives one line is false.", "quantifier": "every call, argument text, header type, state of the buffers; both build profiles", "why_tests_cant": "strings and states are unbounded; output before a panic and output order are rarely asserted", "anchors": ["src/packet.rs:12-59", "src/headers.rs:224-250", "src/headers.rs:397-423", "src/packet.rs:279-285", "src/packet.rs:340-376", "src/packet.rs:744-760", "src/utils.rs"]}
{"id": "C69", "title": "Transport checksums", "statement": "TCP, UDP over IPv6, ICMP and ICMPv6 packets from create_* carry a checksum the receiver accepts. (False: the field is the constant 0, or 0xffff for UDP over IPv6, and is accepted exactly if 65535 divides the sum of the addresses, protocol, length, header arguments and payload words; UDP over IPv4 has none and is accepted.) Setting the field afterwards makes a message acceptable exactly for the value of RFC 1071 (0 and 0xffff counting as one when the sum is all ones) and changes nothing else; Packet::ipv4_checksum does not give that value, it leaves out the length.", "quantifier": "every address, argument in range, payload and value; both build profiles", "why_tests_cant": "the residue depends on every byte; a packet from a test can be right by accident", "anchors": ["src/utils.rs:133-289", "src/utils.rs:371-502", "src/packet.rs:508-583"]}
{"id": "C70", "title": "When public calls panic", "statement": "Every public call on well-typed arguments panics exactly under stated conditions on its arguments and on the buffers before the call (a range past the end of the buffer, a poisoned buffer, a range of more than 64 bits or reversed with overflow checks, byte ranges that are not whole or do not fit, a name not in the packet, a downcast to another type, a borrowed header, an address text with too many parts, a checksum over an odd number of bytes or whose 32-bit sum overflows, bytes that end in a header or before a byte that selects the next one), with exactly the stated message and no other; otherwise it returns, but for the two calls of C66. A call poisons exactly the buffers stated. Builds without overflow checks never report an overflow. That public calls never panic, and that a panic has no effect on later calls, are false.", "quantifier": "every public function, argument and reachable state; both build profiles", "why_tests_cant": "an exact condition speaks about all the calls that do not panic, too", "anchors": ["src/headers.rs:66-374", "src/packet.rs:36-583", "src/utils.rs:1-60", "src/parser/slow.rs:1-230", "src/parser/fast.rs:1-230"]}
{"id": "C71", "title": "Standard output of several threads", "statement": "Threads that print reach the same values, buffers, waits and results as threads that do not (C67), and no others; printing never waits. What a thread has written is what its calls have printed, in order; a call whose buffers no other thread changes prints exactly the text it prints alone (C68), a call that is given no buffers whatever the others do; a call that is not interrupted writes its text in one piece; calls other than show write whole lines. That the output consists of the lines, or of the whole texts, of the calls is false: a show can be interrupted within a line.", "quantifier": "every number of threads, schedule, program of public calls; both build profiles", "why_tests_cant": "the interleaving of output is chosen by the scheduler; a test sees one", "anchors": ["src/headers.rs:224-250", "src/headers.rs:397-423", "src/packet.rs:20-58", "src/packet.rs:326-376", "src/packet.rs:744-760"]}
{"id": "C72", "title": "A call depends on its arguments only", "statement": "The same public call on buffers of the same contents, under other (distinct) names and among any other buffers, prints the same text, returns, panics, hangs or is undefined alike, returns the same value up to the names, allocates as many buffers with the same contents, leaves the same in the buffers it was given and leaves all others alone. So a call that does not touch the arguments of another can come before it or be left out, and a program started later, after any history, does what it does at the start, its buffers being added to those there.", "quantifier": "every public call and program of calls, heap, renaming, history; both build profiles", "why_tests_cant": "a test runs on the few heaps it builds itself", "anchors": ["src/headers.rs:297-511", "src/packet.rs:61-403", "src/utils.rs:1-876", "src/parser/slow.rs:1-227"]}
{"id": "C73", "title": "The documented programs", "statement": "examples/pkt.rs and the examples in the comments of src/lib.rs and src/packet.rs, run in any state and built either way, end normally, print exactly the expected text, leave exactly the expected packets and buffers, and touch nothing that was there before. The examples of README.md run too but do not print what README.md shows: no MyHeader and no IPv4 header, whatever its bytes, prints the lines README.md shows for field_3 and frag_startset.", "quantifier": "every state of the heap the program starts in, both build profiles; for README.md every content of the header", "why_tests_cant": "the examples are only compiled and run from a fresh process, and nobody compares what they print", "anchors": ["examples/pkt.rs:1-93", "src/lib.rs:23-103", "src/packet.rs:108-384", "README.md:23-107"]}
{"id": "C74", "title": "Debug and release builds", "statement": "A build with overflow checks and one without do the same until an overflow check fails: any public call whose checked run does not panic with an overflow prints, returns and leaves the same in both builds; so does any program, however it chooses its calls from earlier results, and any schedule of threads, up to the first such panic. Only getters and bit_range on reversed ranges or ranges of more than 64 bits, bytes and set_bytes on reversed ranges (or the whole of usize), and ipv4_checksum of 131076 bytes or more can fail that way, and then nothing has been printed or changed.", "quantifier": "every public call, argument, heap, program (as a function of results), schedule of threads", "why_tests_cant": "tests run in one build profile, and on ranges that fit", "anchors": ["src/headers.rs:196-263", "src/headers.rs:304-364", "src/packet.rs:93-107", "Cargo.toml:1-36"]}
{"id": "C75", "title": "What calls cost", "statement": "Every public call makes a number of steps (allocations of a buffer, uses of a buffer under its lock) that is known beforehand and does not depend on what other threads do meanwhile: accessors take one lock for each bit of their range (bytes and set_bytes too), to_vec and compare one for each header, replace two, show one for each bit it prints (one bit twice in fields longer than an octet that are not whole octets), constructors and create_* a fixed number plus one for each header of the inner packet; parsing allocates one buffer for each header and looks at the demultiplexing bits only, at most five steps for every octet of input. A call that panics has made no more steps than that, and one that has not finished has made fewer. Borrowed headers, the borrowing parser, checksums, addresses and everything that only moves headers and packets take no lock at all.", "quantifier": "every public call, argument, buffer content, poisoned lock, schedule of any number of threads", "why_tests_cant": "tests see results, not locks; the counts hold under every interleaving", "anchors": ["src/headers.rs:299-447", "src/packet.rs:109-400", "src/utils.rs:1-876", "src/parser/slow.rs:1-227"]}
{"id": "C76", "title": "Which packets can be parsed", "statement": "The sequences of header types that parsing reports are exactly the ways through one graph: from every entry point, in both parsers and build profiles, each returned packet has such a sequence, and each such sequence is reported for some bytes, with any payload behind it. Consequences: which type stands right behind which is a fixed table of pairs, each of which occurs; nothing is read behind ARP, ICMP, TCP and SNAP; GRE options are reported in the reverse of their order on the wire; an MPLS header is always next to another one, so that a packet with a single label is never reported; the number of headers is not bounded.", "quantifier": "every entry point, byte slice, payload, build profile", "why_tests_cant": "the set of reported sequences is infinite, and that a sequence is never reported is about all inputs", "anchors": ["src/parser/slow.rs:1-227", "src/parser/fast.rs:1-229"]}
{"id": "C77", "title": "Capture files of the tests", "statement": "pcap_write returns exactly if the clock is past 1970, the file can be opened and each write succeeds, and panics otherwise. Where there was no file, or none longer than the new one, it leaves a capture file (libpcap, little-endian, version 2.4, Ethernet) from which exactly the given packets are read, whole and in order. A longer file is not truncated: its end stays behind the new records, so that packets of an earlier run are read as well or the file cannot be read at all. The microseconds field of the time holds milliseconds, so the time is right only in the first microsecond of a second, and early by less than a second otherwise. Packets longer than the announced 65535 bytes are written in full. After a panic the file is as it was or the beginning of the new one lies over it.", "quantifier": "every list of packets, time, earlier contents of the file, failing write", "why_tests_cant": "tests call it once and do not read the file back", "anchors": ["tests/pcap.rs:1-37", "tests/lib.rs:672-672"]}
{"id": "C78", "title": "Builds that abort", "statement": "The crate's own release profile ends the process at a panic. Executions of any number of threads in such a build are those of a build that unwinds, up to the first panic. In them no lock is ever poisoned while the process lives, no call panics because it finds a lock poisoned, and the panic that ends the process is that of one thread. In a build that unwinds, every poisoned lock and every panic because of one goes back to an earlier panic of another kind.", "quantifier": "every program of public calls, schedule of any number of threads, build profile", "why_tests_cant": "about all schedules, and about what can never be seen", "anchors": ["Cargo.toml:31-35", "src/headers.rs:299-447"]}
{"id": "C79", "title": "Packets cut short", "statement": "If parsing a packet succeeds, what it reports of the headers depends on the bytes of the headers only: with any other payload behind them the same headers are found. Cut at any length that keeps the headers, the packet parses to the same headers and the shorter payload; cut anywhere before, parsing panics, and the message tells whether the type word or the byte behind the last MPLS entry was missing, or a header. Hence the headers of one packet never begin those of another. Both parsers.", "quantifier": "every packet that parses, every length, every payload, every entry point, both parsers", "why_tests_cant": "a statement about all packets and all lengths", "anchors": ["src/parser/slow.rs: all", "src/parser/fast.rs: all"]}
{"id": "C80", "title": "Texts tell packets apart", "statement": "Two headers of predefined types, with the bytes their types declare, print the same text with show only if they have the same type and the same bytes. Two packets made of such headers, owned or borrowed, print the same text if and only if they have the same headers, contents and payload. So parsing and then printing loses nothing: two inputs parsed from the same entry point print the same exactly if they are the same bytes. Buffers longer than declared are an exception.", "quantifier": "all headers of all predefined types, all packets of such headers, all inputs, both parsers, both build profiles", "why_tests_cant": "injectivity over all packets", "anchors": ["src/headers.rs:224-250", "src/headers.rs:397-423", "src/packet.rs:360-376", "src/packet.rs:744-760"]}
{"id": "C81", "title": "Calls that use one lock once are linearizable", "statement": "Take any number of threads that share headers and packets, where every call they make is one that is given no buffer, makes at most one step (one lock, by the price list of C75), or is a header's replace. Then the calls take effect one after the other: for every execution there is an order of the calls - each taking effect between its beginning and its end - such that one thread making the same calls in that order gets the same outcomes and ends up with the same headers and packets, up to the names of buffers, and every buffer that is not just being replaced holds the same bytes. The calls of each thread appear in that order as the thread made them, and a call that ended before another began comes before it. This is as far as it goes: with calls of two steps (reading a field of two bits while it is set) an outcome is possible that no order of the calls explains.", "quantifier": "For every build mode, every number of threads, every interleaving and every sequence of such calls", "why_tests_cant": "Linearizability is a statement about all interleavings of all programs; tests see a few schedules of a few programs", "anchors": ["src/headers.rs:299-447", "src/packet.rs:109-400"]}
{"id": "C82", "title": "When standard output fails", "statement": "print! and println! panic when a write fails. In a program of any number of threads in which any write of any call may fail after any number of its bytes, and the panic is caught: (1) every state that is reached is reached without failing writes by a program with more threads, each of which waits for a write for ever, so undefined behaviour occurs only in from with too few bytes, every other call that ends returns or panics, and a call waits only for a replace; every state reached without failing writes is reached; (2) a write that fails ends the call of that thread and changes no value, no buffer, no lock (nothing is poisoned) and no other thread; (3) a call that is cut off has changed no buffer: each of its steps has at most added buffers; (4) what it had added is in no value that anybody has or gets and does not change any more; (5) for each thread the output is the texts of its calls in order, of a call that was cut off what it had written; (6) a call makes its writes in a fixed order, none empty, together the text of C68: if all succeed the call is that of C68, if write number n fails then exactly the writes before have been made, the old buffers are as before, and without standard output exactly the calls that print nothing come to an end. The claim that only the show methods need standard output is false (refuted: to_mac_bytes of a malformed text).", "quantifier": "all programs, numbers of threads, interleavings, writes that fail and numbers of bytes, calls, heaps, both build profiles", "why_tests_cant": "a closed pipe at every write of every call under every interleaving cannot be arranged in a test", "anchors": ["src/headers.rs:224-250", "src/headers.rs:397-423", "src/packet.rs:20-58", "src/packet.rs:340-376", "src/packet.rs:744-760"]}
{"id": "C83", "title": "Buffers that are freed, and memory that is used again", "statement": "When the last handle to a header's buffer is dropped the buffer is freed, and a later allocation may take the same place. For any number of threads, any order of calls, drops, frees and allocations, and any choice of places: the execution is, place by place, one in which nothing is ever freed - the same calls end in the same order with the same results, and the buffers that can still be reached hold the same bytes; every such execution also exists without freeing. Where a handle leads there is a buffer; no call accesses a freed buffer; what a call in progress has allocated is nobody else's; a call that cannot proceed waits for a lock held by replace; whatever no handle leads to can be freed, and when all threads are idle and all values dropped, the memory can be empty. That headers made by different calls are at different places is false.", "quantifier": "all executions of any number of threads with drops, frees and any choice of free places", "why_tests_cant": "a use after free or a mix-up of two headers at one address would depend on the allocator and on the schedule", "anchors": ["src/headers.rs:129-133", "src/headers.rs:299-302"]}
{"id": "C84", "title": "No data races", "statement": "An access to a buffer that conflicts with one that did not happen before it is undefined behaviour. One access happens before another if a mutex was unlocked after the one and locked before the other; and whoever has a handle has got it from somebody for whom the buffer had been created. With any number of threads making any public calls, no access to a buffer is a race: when a thread can proceed, every earlier access to what it is about to access happened before. So the executions are those of the interleaving model, all of them, and no call is undefined but XSlice::from of a slice shorter than the header. Neither rule can be dropped: if locking did not order, or if handles were passed on without the creation being visible, there would be races.", "quantifier": "all executions of any number of threads", "why_tests_cant": "races depend on the schedule and on the hardware and need not show", "anchors": ["src/headers.rs:129-133", "src/headers.rs:304-324", "src/headers.rs:392-396", "src/headers.rs:429-432"]}
{"id": "C85", "title": "Packets of any headers", "statement": "A packet can hold more than the crate's owned headers: pkt[name] = Box::new(..) puts an XSlice or a type of the program's own into it. push and insert add what the header's to_owned returns, and panic on an XSlice. The packet's functions call the headers' methods in turn: to_vec is what their to_vec return, joined, and the payload; clone and + clone each header; the first method that does not return decides, and those after it are not called. Assigning changes the first header of that name only (or panics if there is none), and mem::replace yields the old one. A packet of the crate's headers can be cloned or be the right operand of + exactly if it has no XSlice, otherwise both panic; get_header panics on an XSlice. compare_with_slice is true exactly if len is the number of bytes and to_vec begins with them. If the methods come back from every state of an invariant to one, so do the packet's functions; so there is no undefined behaviour with the crate's headers. On owned headers the functions are those of the main model, and assigning an owned header leads to nothing that other calls would not. It is false that a packet of the crate's headers can always be cloned, that what was assigned to a name is found under it, and that bytes that compare equal are the packet's.", "quantifier": "all packets of any headers, all types that implement Header, all heaps", "why_tests_cant": "a program's own header types cannot be enumerated", "anchors": ["src/packet.rs:61-84", "src/packet.rs:117-181", "src/packet.rs:221-259", "src/packet.rs:326-404", "src/headers.rs:37-56", "src/headers.rs:268-296"]}
{"id": "C86", "title": "A header is its fields", "statement": "Two headers of one of the crate's types hold the same bytes exactly if all fields have the same values. Read as one number, the bytes of a protocol header are its fields side by side in the order of their declaration, and every choice of values that there is room for belongs to exactly one byte string. Setting every field once, in any order, leaves nothing of what was there before. Except for IPv6, headers are told apart by their getters, and copying a header field by field (x.set_f(y.f())) makes a copy, in any order of the fields. With IPv6 both are false: the getters of the addresses panic or drop the first 64 bits. For the Tester header, whose fields overlap, there are values that no bytes have.", "quantifier": "all protocol headers, all contents, all orders of the fields", "why_tests_cant": "2^160 contents and 12! orders for IPv4 alone", "anchors": ["src/headers.rs:529-854", "src/headers.rs:334-344", "src/headers.rs:304-324"]}
{"id": "C87", "title": "Which errors the IPv4 checksum detects", "statement": "Call a header verified if Packet::ipv4_checksum of it is what stands in its checksum field. If at most 15 neighbouring bits of a verified header are garbled, wherever they are and whether or not they include bits of the checksum, it is no longer verified; a single flipped bit is always noticed. If one 16-bit word is garbled, only the exchange of 0 and 65535 goes unnoticed, and never in the checksum itself. The value of the function changes whenever at most 15 neighbouring bits are garbled and one of them lies outside the checksum. Headers that Packet::ipv4 makes are verified. Sixteen neighbouring bits can be garbled unnoticed, so can two bits apart from each other, and so can the order of the words.", "quantifier": "all headers of even length from 12 to 65534 bytes, all positions of the error, all errors, both build modes", "why_tests_cant": "the theorem ranges over 2^160 headers times all bursts; the interplay of carries and positions is what tests miss", "anchors": ["src/packet.rs:93-107", "src/packet.rs: ipv4"]}
{"id": "C88", "title": "What a panicking call leaves behind", "statement": "When a public call panics, every buffer that existed keeps its bytes, except that set_bytes and replace may have changed the buffer of the header they are called on. Setters and set_bit_range are all or nothing: they panic before the first bit is written. set_bytes that runs out of the buffer has written exactly the bytes for which there was room, and nothing if it panics for another reason. replace with a poisoned header leaves its own header empty and poisoned. A buffer is changed in any way by a panicking call exactly if it is poisoned by it, so whatever can still be read has the bytes it had before. It is false that a panicking call changes no bytes, and that replace keeps its header if it fails.", "quantifier": "all states reachable by public calls, all calls that panic, all buffers, both build modes", "why_tests_cant": "the contents of every buffer after every possible panic in every state", "anchors": ["src/headers.rs:315-324", "src/headers.rs:356-364", "src/headers.rs:392-396"]}
{"id": "C89", "title": "What the header builders make of arguments too wide for their field", "statement": "For every value of the Rust argument types, including values too wide for the header field they go to, each of ipv4, ipv6, tcp, vxlan, gre, erspan2, erspan3 and vlan returns a header with exactly these fields: the low bits of each argument in its own field, the excess bits or-ed into the next fields above (ihl into the version, the flow label into traffic class and version, res into the data offset, ver into the GRE flags, a session id into t, en and cos, t into en and cos, en into cos, an ERSPAN vlan into the version, an index into the reserved bits, a VLAN id into cfi and pcp), bits above the word lost; no other field changes. The header holds its arguments exactly when they all fit. Two calls whose arguments fit return the same header only if the arguments were the same (addresses: denote the same bytes). That last claim is false for mpls, for the cfi of vlan, and for arguments that do not fit.", "quantifier": "all argument values of the builders, all heaps", "why_tests_cant": "tests use a few in-range values; no test passes an oversized argument or compares two calls", "anchors": ["src/packet.rs:448-628"]}
{"id": "C90", "title": "After any history of header calls each bit is what the last write gave it", "statement": "For every history of calls of new, from, clone, getters, setters, bit_range, set_bit_range, bytes, set_bytes, replace and to_vec on any headers of any declaration, from any heap, in debug and release builds, some calls returning and some panicking, halfway or not: each bit of each buffer that is not poisoned (and, if no set_bytes or replace panicked, of each poisoned one) is the bit given it by the last call that returned and whose range contained it (through replace, the bit the source had then), or the one it started with; the buffers are the old ones and one for each new and from, and their lengths change only by replace. Every getter, bit_range of at most 64 bits, bytes and to_vec that returns after the history returns those bits. Writes of pairwise disjoint ranges that all return give the same buffers in any order; a write directly before one that covers its range can be left out. The order matters when ranges overlap, and a set_bytes that panics halfway leaves bits in its buffer, then poisoned, that no returned write gave. Excluded is x.replace(&x), which never ends.", "quantifier": "all histories, all header declarations, all heaps of bytes, both build modes", "why_tests_cant": "tests make a few edits of one header and compare; none checks that no other bit of any buffer changed, or that the order does not matter", "anchors": ["src/headers.rs:180-440"]}
{"id": "C91", "title": "The wire bytes of a packet after any editing session", "statement": "For every sequence of calls on a packet variable (push, insert, pop, remove, set_payload, p = p + q, p = p.clone()) interleaved with any calls on headers (in the packet or not, shared or not), starting from any packet and any buffers, some calls returning and some panicking, halfway or not (but without x.replace(&x), which never ends), in both build modes: the packet's headers are those of the list operations applied in order, its payload is the old one followed by every set_payload argument in order, and to_vec, if it returns, returns for each header in order the bytes whose bits the last write gave them, then the payload; if every call before returned and no buffer was poisoned, to_vec does return. len is the sum of the declared header sizes and the payload length; p[name] is the first header of that name and panics exactly if there is none. len need not be the length of to_vec.", "quantifier": "all sessions, all starting packets and heaps, both build modes", "why_tests_cant": "tests make one short session; none interleaves list edits with edits of shared headers", "anchors": ["src/packet.rs:61-200", "src/packet.rs:385-404", "src/headers.rs:297-440"]}
{"id": "C92", "title": "No bit out of thin air", "statement": "Any number of threads make any public calls on shared headers and packets, interleaved in any way, in both build modes. Take any moment, and a buffer that exists then and that no call then in progress was given or has made. Each bit found in it later, however often it was overwritten, torn or lost meanwhile, stood there at that moment, or one of the calls begun since (a setter, set_bit_range or set_bytes on that buffer) writes that bit at that place, or one of them copies it there (replace) from a buffer where it has such a source; so a buffer that no such call writes keeps its bits, whatever is built, parsed, printed or compared meanwhile. Each bit that a getter, bit_range of at most 64 bits, bytes, to_vec of a header or to_vec of a packet returns stood at its place at some moment between the beginning and the end of that call, and so has such a source too. The claim that a getter returns the old value of the field or a value some setter was given is false.", "quantifier": "all reachable states of any number of threads, all executions from there, all bits of all buffers, both build modes", "why_tests_cant": "a stress test sees some interleavings and can only recognise a bit as wrong if it knows all that may be right; the claim is about every bit of every buffer under every schedule", "anchors": ["src/headers.rs:297-511", "src/packet.rs:56-400", "src/utils.rs:1-876"]}
{"id": "C93", "title": "Threads that exchange no values do not notice each other", "statement": "Any number of threads are divided into groups in any way, and each thread calls any public operations, interleaved in any way, on headers and packets that its own group has obtained. Then for each group there is an execution in which only its threads make calls: the same calls in the same order with the same outcomes, the same values and the same contents of the buffers, up to which buffer is which. Two groups never have a buffer in common, a step of a thread leaves every buffer of the other groups unchanged, and a thread waits only for threads of its own group. A thread that is a group of its own gets from each call, finished or about to return, what a program of one thread gets that makes its calls one after the other, finds the contents that program would leave, and never waits except for itself in x.replace(&x). The claim that it is enough that the thread itself uses only its own values is false: another thread that uses them is noticed.", "quantifier": "all numbers of threads, all divisions into groups, all calls and schedules, both build modes", "why_tests_cant": "a test with two threads that share nothing sees one schedule; that no schedule and no call of another thread can be noticed needs all of them", "anchors": ["src/headers.rs:297-511", "src/packet.rs:56-400", "src/utils.rs:1-876"]}
{"id": "C94", "title": "What depends on the width of usize", "statement": "With every calculation on usize made as a machine with 16 to 64 bits makes it (a panic in a checked build and a wrapped result in an unchecked one when it does not fit), a call on a header has the outcome, the value and the effects that it has when positions and lengths are unbounded numbers, for all positions a usize can hold; the same holds for the accessors of header slices. On a machine with other than 64 bits the exceptions are bytes and set_bytes for all positions together and set_bytes for a reversed range. A checked build panics there before anything is locked or changed; an unchecked set_bytes with a reversed range changes nothing and returns only if the number of bits given and the length of the range agree modulo 2^W. The length of a packet and of a packet slice is the sum of declared sizes and payload if that fits, otherwise a panic or the sum modulo 2^W; comparison of a packet with bytes agrees when the length fits. The ERSPAN builders agree in unchecked builds always and in checked ones when the sums fit. The claims that Packet::len always returns and that in an unchecked build it is at least the length of the payload are false.", "quantifier": "all widths from 16 to 64 bits, all calls, positions, values, heaps and packets, both build modes", "why_tests_cant": "tests run on one machine with small numbers; that no intermediate result of a shift amount, position or length overflows for any argument needs all of them", "anchors": ["src/headers.rs:202-263", "src/headers.rs:304-371", "src/packet.rs:340-358", "src/packet.rs:402-404", "src/packet.rs:741-743", "src/utils.rs:697-876"]}
{"id": "C95", "title": "How deeply the parsers nest", "statement": "The number of calls that are active at the deepest moment of a parse is determined by the bytes and by the function called, and is the same for the slow and the fast parser: one call for each header that is not a GRE option or an ERSPAN platform header, one for the payload and one for parse itself, or, when a header does not fit, the calls up to the one that finds it missing. On a stack with room for fewer nested calls the parser overflows, on any other it gives the result of an unlimited stack. The greatest depth of parse on L bytes is 1 below 14 bytes, 4 at 17 bytes and (L-2)/4 otherwise, and some input of every length reaches it. For every function, four times the depth is at most the length plus five. The claim that some fixed stack suffices for all inputs is false.", "quantifier": "every byte string, every function, every room on the stack, both build modes", "why_tests_cant": "tests do not measure the stack and do not try frames that are all tags; the exact maximum needs all inputs of every length", "anchors": ["src/parser/slow.rs: all", "src/parser/fast.rs: all"]}
{"id": "C96", "title": "Which bits steer the parsers", "statement": "Whether a parse panics, and otherwise which headers it finds where and where the payload starts, depends only on the length of the input and on the bits that steer it: the type word of Ethernet and VLAN headers, the LLC header, the bottom of stack bit, the version nibble behind the labels, the IPv4 protocol, the IPv6 next header, the C, K and S flags and the protocol of GRE, the O bit of ERSPAN III and the UDP destination port, each where the parse reaches such a header. Two inputs of one length that agree in the bits that steer the first get the same header types at the same places or the same panic from the slow and the fast parser, and nest equally deeply; both are then steered by the same bits. Each of these bits can matter: for every function and every deciding bit of it there are two inputs that differ in that bit alone and that both parsers read differently.", "quantifier": "every byte string, every function, every pair of inputs however many of their other bits differ, both build modes", "why_tests_cant": "tests change single fields of sample packets; that no other combination of bits has any influence needs all pairs of inputs", "anchors": ["src/parser/slow.rs: all", "src/parser/fast.rs: all"]}
{"id": "C97", "title": "A frame says what was asked for", "statement": "Two calls of create_arp_packet, create_tcp_packet, create_udp_packet, create_icmp_packet, create_tcpv6_packet, create_udpv6_packet and create_icmpv6_packet, with values that fit their fields, make packets with the same bytes only if they are calls of the same function with the same MAC and IP octets, the same tag or none, the same field values and the same payload. Conversely the bytes depend on nothing else: not on the spelling of the addresses, on VLAN arguments that are not used, on the build mode or on the heap. The functions of lower layers can make the same bytes: each of these frames is also what create_ipv4_packet or create_ipv6_packet makes of the transport header and payload, and what create_eth_packet makes of everything behind the Ethernet part. With values too wide for their fields the first part is false: a VLAN id of 0x2064 with priority 0 gives the frame of id 0x64 with priority 1, and likewise for TCP's data offset and reserved bits and for IPv6's flow label and traffic class.", "quantifier": "every pair of calls of the seven functions with all their arguments and payloads of any length, every IPv6 address reader that returns 16 bytes, both build modes, every heap", "why_tests_cant": "that no two different requests collide is a statement about all pairs of calls; tests compare single frames with expected bytes", "anchors": ["src/utils.rs: create_arp_packet", "src/utils.rs: create_tcp_packet", "src/utils.rs: create_udp_packet", "src/utils.rs: create_icmp_packet", "src/utils.rs: create_tcpv6_packet", "src/utils.rs: create_udpv6_packet", "src/utils.rs: create_icmpv6_packet", "src/packet.rs: to_vec"]}
{"id": "C98", "title": "A tunnel packet says what was wrapped and how", "statement": "Two calls of create_ipv4ip_packet, create_ipv6ip_packet, create_vxlan_packet, create_vxlanv6_packet, create_gre_packet and create_erspan_2_packet, with values that fit their fields, make packets with the same bytes only if they asked for the same tunnel: the same kind, the same MAC and IP octets, tag and header values, the same ports and VNI, GRE flags, version and announced option words, or ERSPAN sequence number, fields and index, and an inner packet with the same bytes. This holds for create_vxlanv6_packet, which sends the inner headers twice, as long as the UDP length fits 16 bits. The bytes are never those of a packet of C97, except that create_udpv6_packet and create_vxlanv6_packet agree when the inner packet has no header bytes (or a multiple of 65536): over IPv4 the checksum that create_vxlan_packet leaves outdated tells VXLAN from UDP. It is false for create_erspan_3_packet even with values in range: it stores the sequence number in the one-bit S flag, so an even one is sent unannounced, and sequence number 0x20000000 around a packet of 3 bytes gives the bytes of sequence number 0, another timestamp and an inner packet of 5 bytes. GRE routing bytes and the top byte of a 32-bit VNI cannot be told from the bytes.", "quantifier": "every pair of calls of the six functions with all their arguments, inner packets with any headers and payload of any length, every IPv6 address reader that returns 16 bytes, both build modes, every heap", "why_tests_cant": "that no two different requests collide is a statement about all pairs of calls and inner packets; tests compare single frames with expected bytes", "anchors": ["src/utils.rs: create_ipv4ip_packet", "src/utils.rs: create_ipv6ip_packet", "src/utils.rs: create_vxlan_packet", "src/utils.rs: create_vxlanv6_packet", "src/utils.rs: create_gre_packet", "src/utils.rs: create_erspan_2_packet", "src/utils.rs: create_erspan_3_packet", "src/packet.rs: to_vec"]}
{"id": "C99", "title": "Updating the IPv4 checksum incrementally", "statement": "Let any words of a header but the checksum be changed, by a setter or otherwise. If neither the old nor the new sum carries twice and the new header is not all zero, then what Packet::ipv4_checksum computes for the new header is what the incremental update of RFC 1624 makes of its old value, word by word in any order; for a decremented TTL it is enough to add 256 (RFC 1141), unless the old value was 0xFEFF. If exactly one of the sums carries twice the update never gives the function's value, so a router that updates the checksum sends on a header that no longer verifies; if both do it does, but for 0 in place of 65535. Every setter of a field that has no bits in the checksum changes only the words its bits are in.", "quantifier": "all headers of even length from 12 to 65534 bytes, all sets of changed words, all new values, all fields, both build modes, every heap", "why_tests_cant": "the cases in which the update fails are about one header in ten thousand, and equality is claimed for all others", "anchors": ["src/packet.rs: ipv4_checksum", "src/headers.rs: set_bit_range"]}
{"id": "C100", "title": "Which laws of the Internet checksum Packet::ipv4_checksum keeps", "statement": "The value of Packet::ipv4_checksum, or its panic, depends only on which words other than zero the input has beside the checksum and how often it has each: not on their order, and not on words that are zero (RFC 1071, 2(A)), for inputs of any even length. If the bytes of every word of a header are exchanged, the function gives its old value with the bytes exchanged (RFC 1071, 2(B)) exactly if neither of the two sums carries twice. A header that the function verifies is accepted by a receiver that sums all words and expects all ones (RFC 1071, 1(3)) exactly if the sum does not carry twice; a header such a receiver accepts is verified by the function exactly if the sum does not carry twice and the checksum is not 65535 (unless all other words are zero). That byte order never matters, and that the library verifies what such a receiver accepts or the reverse, are false.", "quantifier": "all inputs of even length (order of words), all headers of even length from 12 to 65534 bytes (the other laws), both build modes", "why_tests_cant": "a sum that carries twice is rare, and the laws are claimed for all headers without one and denied for all with one", "anchors": ["src/packet.rs: ipv4_checksum"]}
{"id": "C101", "title": "How many buffers panics poison", "statement": "For any arguments and any state of the buffers: no public call makes a poisoned buffer usable again; a call that panics poisons at most one buffer, an old one or one it made; a call that does not panic poisons none. So a program whose calls panicked n times has poisoned at most n buffers, one none of whose calls panicked has none, and for every n there is a program with n panics and n poisoned buffers. With any number of threads and any interleaving, no more buffers are poisoned than calls have panicked, a poisoned buffer stays poisoned, and a buffer whose lock is held is not poisoned. That every panic poisons a buffer, and that a call that panics because a buffer is poisoned poisons no other, are false.", "quantifier": "every call and every sequence of calls of public functions, all arguments and heaps, every execution of any number of threads, both build modes", "why_tests_cant": "tests stop at the first panic; the bound speaks about every sequence of caught panics", "anchors": ["src/headers.rs: 304-432", "src/packet.rs: Packet", "src/utils.rs", "src/parser/slow.rs"]}
{"id": "C102", "title": "An 802.1Q tag is transparent to both parsers", "statement": "For every frame of at least 14 bytes that is taken for Ethernet II (given to parse_ethernet, or to parse with a type word of 1500 or more) and every two bytes of tag control information: with 0x8100 and these bytes inserted behind the addresses, both parsers report the Ethernet header with the type 0x8100, a Vlan header of the two bytes and the old type, and then exactly the headers and the payload of the frame without the tag; a frame that panics still panics with the same panic, and none starts to. So tags stack. It fails for 802.3 frames: parse of the tagged frame reports Ethernet and Vlan only, and the LLC and SNAP headers become payload. A tag with an identifier outside the table of EtherTypes (for parse, of 1500 or more), such as 0x88A8, ends the headers: the tag and all behind it are payload.", "quantifier": "all frames, all tag control information, all heaps, both parsers, both build modes", "why_tests_cant": "tests have one tagged frame; this relates every frame to its tagged form", "anchors": ["src/parser/slow.rs: parse, parse_ethernet, parse_vlan", "src/parser/fast.rs: parse, parse_ethernet, parse_vlan"]}
{"id": "C103", "title": "What the parsers make of a packet inside other headers", "statement": "Take any sequence of complete headers each of which says which parser function reads what follows it: Ethernet and Vlan by type, IPv4 and IPv6 by protocol, UDP by the destination port 4789, VXLAN, GRE with any of its optional words, ERSPAN II and III with or without the platform header, MPLS labels that are not the bottom of the stack. With any bytes behind them, both parsers report these headers first (GRE options last to first), then exactly the headers and the payload that the function for what is inside reports of those bytes alone, in either build mode; they panic exactly when that function panics, with the same panic. slow::parse and fast::parse agree with parse_ethernet on all frames that start so. In particular a VXLAN tunnel is transparent to the frame inside, and pushing a label in front of a stack of labels adds that label and changes nothing else. Behind the label at the bottom of the stack four bytes are reported as one more label whatever they are, a next byte must follow, and its first half decides whether IPv4, IPv6 or Ethernet is inside, which is then reported or panics as it does alone.", "quantifier": "all such sequences of any length, all bytes inside, all heaps, both parsers, both build modes", "why_tests_cant": "tests have single nested packets; this covers nesting of any depth", "anchors": ["src/parser/slow.rs", "src/parser/fast.rs"]}
{"id": "C104", "title": "Parsing loses nothing", "statement": "From the types and contents of the headers that a parse reports, in order, and the payload, the input can be put together again: its bytes are the contents of the headers, each run of optional words of GRE taken last to first, and then the payload. So two inputs with the same headers and payload are the same bytes, whatever function, parser and build mode each was given to. That the contents without the types determine the input is false: what parse_gre reports of a header with key and sequence number has the contents that parse_mpls reports of other bytes.", "quantifier": "all inputs, all parser functions of both parsers, all heaps, both build modes", "why_tests_cant": "a round-trip test cannot show that no two inputs are confused", "anchors": ["src/parser/slow.rs", "src/parser/fast.rs"]}

{"id": "C01", "title": "Constructors accept exactly the buffers that hold the fixed header", "statement": "For every derived packet type, XPacket::new / MutableXPacket::new / owned return Some exactly when the buffer has at least minimum_packet_size() bytes, where minimum_packet_size() is the total number of fixed-width bits rounded up to bytes; the packet returned views exactly the given bytes.", "quantifier": "all packet descriptions the derive macro accepts, all buffers", "why_tests_cant": "The claim ranges over every possible user-defined packet struct and every buffer length; tests fix a handful of structs and lengths.", "anchors": ["derive/src/gen.rs: packet_impl (new, owned, minimum_packet_size)"]}
{"id": "C02", "title": "Big-endian getters read exactly the field's bits", "statement": "For a fixed-width field of n bits (1..64) that starts at bit b of the packet, get_<field>() equals the unsigned number written MSB-first by bits b..b+n-1 of the buffer, and does not depend on any other bit.", "quantifier": "all bit positions and widths the macro supports, all byte offsets, all buffer contents", "why_tests_cant": "2^(8*len) buffer contents times 512 layouts; unit tests compare a few generated operation lists.", "anchors": ["derive/src/util.rs: operations, get_mask, get_shiftl, get_shiftr", "derive/src/gen.rs: gen_get_ops, gen_accessor"]}
{"id": "C03", "title": "Big-endian setters write exactly the field's bits", "statement": "set_<field>(v) replaces bits b..b+n-1 of the buffer by the n low-order bits of v (MSB first) and leaves every other bit of the buffer, and its length, unchanged.", "quantifier": "all supported layouts, all buffers, all argument values of the field's container type (including values that do not fit in n bits)", "why_tests_cant": "Needs a frame condition over every other bit in every buffer; tests check equality with a few reference packets.", "anchors": ["derive/src/util.rs: to_mutator, mask_high_bits, SetOperation::fmt", "derive/src/gen.rs: gen_set_ops, gen_mutator"]}
{"id": "C04", "title": "Set-then-get truncates, never corrupts", "statement": "After set_<field>(v), get_<field>() returns v mod 2^n; and get_<field>() always returns a value below 2^n, so a value read back can always be stored again without loss.", "quantifier": "all supported layouts, buffers and values", "why_tests_cant": "Quantifies over all values including out-of-range ones.", "anchors": ["derive/src/util.rs: operations, to_mutator", "derive/src/gen.rs: gen_accessor, gen_mutator"]}
{"id": "C05", "title": "Any history of header writes behaves like independent cells", "statement": "After any sequence of set_<field> calls on fixed header fields of a packet, each get_<field>() returns the last value set for that field (truncated to its width), or its original value if it was never set; bytes outside the header are untouched. In particular setting one field never disturbs another.", "quantifier": "all packet descriptions with pairwise disjoint fixed header fields, all buffers, all finite sequences of setter calls", "why_tests_cant": "Histories are unbounded; tests run one sequence per protocol.", "anchors": ["derive/src/gen.rs: packet_impl, gen_mutator, gen_accessor"]}
{"id": "C06", "title": "Little-endian and host-endian byte-multiple fields", "statement": "A byte-aligned uNle field with N a multiple of 8 is read as the little-endian number of its N/8 bytes and written back in the same order, touching no other byte; uNhe behaves as the endianness of the machine that runs the macro.", "quantifier": "all N in {8,16,...,64}, all byte positions (also after variable-length fields), all buffers and values, both host endiannesses", "why_tests_cant": "Ranges over all contents and both hosts; the test-suite only inspects generated masks.", "anchors": ["derive/src/util.rs: to_little_endian, operations"]}
{"id": "C07", "title": "Little-endian fields: exactly which placements lose data", "statement": "For a uNle field starting at bit o of a byte, set-then-get returns the stored value (mod 2^N) exactly when the field lies in one byte (o+N <= 8) or 2*o+N is a multiple of 8; for every other supported placement (e.g. u9le at a byte boundary) there is a value below 2^N that is not read back.", "quantifier": "all little-endian placements, all packet descriptions; all buffers and values for the lossless ones, a witness for each lossy one", "why_tests_cant": "Unit tests do not cover such widths for setters at all; the exact failing set needs a proof over all 64 widths and 8 offsets.", "anchors": ["derive/src/util.rs: to_little_endian, to_mutator"]}
{"id": "C08", "title": "The macro never silently mis-generates an unsupported bit placement", "statement": "operations(offset,size) produces accessors that satisfy C02/C03 for exactly the placements with size%8 + offset%8 <= 8 (or size multiple of 8); for every other placement the macro, when compiled with overflow checks, aborts instead of generating code. (Without overflow checks it generates wrong code.)", "quantifier": "all offsets, all sizes, both overflow profiles of the macro crate", "why_tests_cant": "Needs the complete classification of 512 placements against all buffers.", "anchors": ["derive/src/util.rs: operations, get_shiftl, get_shiftr"]}
{"id": "C09", "title": "Generated mask literals are always valid and denote the mask", "statement": "For every type name the crate offers and every supported placement, the getter and setter bodies the macro builds as strings are well-formed blocks of Rust, their hexadecimal literals are non-empty, denote the planned masks and fit the operand type, their shift amounts are below the operand's width, and evaluating the text performs the planned operations, i.e. reads and writes the bits of the field. The only exceptions are setters of u16le/u32le (and u16he/u32he on a little-endian host) at bit offsets 5 to 7, whose mask literal is larger than the type of the value.", "quantifier": "all type names, all supported placements, both bodies, all buffers, offsets and values", "why_tests_cant": "radix16 prints 0 as the empty string, so validity depends on an invariant over all placements.", "anchors": ["derive/src/util.rs: radix_fn!, GetOperation::fmt, SetOperation::fmt"]}
{"id": "C10", "title": "Fixed-header accessors cannot panic on a constructed packet", "statement": "On any packet obtained from new/owned, getters and setters of the fixed-width fields that precede the first variable-length field never panic.", "quantifier": "all packet descriptions, all accepted buffers, all values", "why_tests_cant": "Absence of a panic for all buffers is not testable.", "anchors": ["derive/src/gen.rs: packet_impl, gen_accessor, gen_mutator"]}
{"id": "C11", "title": "No mutator ever changes the buffer length", "statement": "Every setter, populate and clone_from leave the length of the underlying buffer unchanged, whether they succeed or panic half way.", "quantifier": "all packet descriptions, all buffers, all arguments, all panic points", "why_tests_cant": "Includes the states left behind by a panic in the middle of a multi-step mutation.", "anchors": ["derive/src/gen.rs: packet_impl (set_*, populate)", "core/src/packet.rs: MutablePacket::clone_from"]}
{"id": "C12", "title": "payload() is total and stays inside the packet", "statement": "For every non-QUIC packet struct of the crate (GRE with routing_present = 0, NdpOption with length < 32 when overflow checks are on), payload() never panics on any accepted buffer and returns the contiguous bytes from the payload offset to min(payload end, buffer length), or the empty slice if the offset is past the end.", "quantifier": "all accepted buffers of every protocol type, including attacker-chosen length fields", "why_tests_cant": "Length fields are attacker controlled; requires all buffers.", "anchors": ["derive/src/gen.rs: impl_packet_trait_for", "src/*.rs: length attributes"]}
{"id": "C13", "title": "payload_mut() exposes the same window and only that window", "statement": "payload_mut() denotes the same byte range as payload(); writing any bytes through it changes only that range.", "quantifier": "all packet descriptions, buffers and replacement bytes", "why_tests_cant": "Frame condition over all buffers.", "anchors": ["derive/src/gen.rs: impl_packet_trait_for (mutable)"]}
{"id": "C14", "title": "Variable-length getters: exact panic condition and result", "statement": "get_<f>() / get_<f>_raw() of a Vec<u8> field returns bytes [off, min(off+len, buffer length)) when off <= buffer length, and panics exactly when the field's offset computation panics, its length expression panics, or off > buffer length.", "quantifier": "all packet descriptions, all buffers", "why_tests_cant": "Exact iff over all buffers.", "anchors": ["derive/src/gen.rs: packet_impl (Type::Vector)"]}
{"id": "C15", "title": "Setting a byte vector is all-or-nothing", "statement": "set_<f>(vals) for a Vec<u8> field with a length either panics leaving the buffer bit-for-bit unchanged (vals longer than the field length, or does not fit in the buffer) or overwrites exactly vals.len() bytes at the field offset and nothing else.", "quantifier": "all packet descriptions, buffers, values", "why_tests_cant": "Panic-state and frame conditions over all inputs.", "anchors": ["derive/src/gen.rs: packet_impl (Type::Vector setters)"]}
{"id": "C16", "title": "packet_size() is header size plus declared lengths", "statement": "The PacketSize::packet_size() of a packet equals the number of fixed header bytes plus the sum of the declared lengths of its variable fields, and never depends on bytes outside the length-determining fields.", "quantifier": "all packet descriptions, all buffers on which lengths evaluate", "why_tests_cant": "General law over user-defined structs.", "anchors": ["derive/src/gen.rs: packet_size_impls, current_offset"]}
{"id": "C17", "title": "XPacket::packet_size(&X) is the encoded size", "statement": "For structs whose variable fields are byte vectors, XPacket::packet_size(&x) is the number of bytes from the first to the last byte that populate(&x) writes; for structs with vectors of sub-packets (TCP, IPv4, NDP, GRE) the value is wrong as it counts elements, not bytes.", "quantifier": "all packet descriptions and struct values; counterexamples for sub-packet vectors", "why_tests_cant": "Tests only measure one byte-vector struct.", "anchors": ["derive/src/gen.rs: packet_impl (packet_size)", "derive/src/parse.rs: packet (struct_length)"]}
{"id": "C18", "title": "populate then from_packet returns the same struct", "statement": "If every field value fits its width, every byte vector has exactly its declared length, and the buffer has exactly the encoded size, then populate(&x) succeeds and from_packet() returns x.", "quantifier": "all packet descriptions without sub-packets (and separately TCP, IPv4, GRE, NDP with sub-packets), all struct values, any previous buffer contents", "why_tests_cant": "Round trip over all values of all structs.", "anchors": ["derive/src/gen.rs: packet_impl (populate), converters"]}
{"id": "C19", "title": "from_packet then populate reproduces the wire bytes", "statement": "Parsing a packet into its struct and populating a fresh buffer of the same length from it reproduces the original bytes.", "quantifier": "all complete packets of every protocol whose fields tile the buffer", "why_tests_cant": "Round trip over all buffers.", "anchors": ["derive/src/gen.rs: converters, packet_impl (populate)"]}
{"id": "C20", "title": "Packet iterators terminate and tile the buffer", "statement": "Iterating an XIterable over any buffer yields finitely many items when the fixed header has at least 8 bits; consecutive items start where the previous one's packet_size() ends; concatenating the consumed pieces and the unconsumed tail gives the original buffer; the unconsumed tail is shorter than the minimum size.", "quantifier": "all packet descriptions with >= 1 header byte, all buffers; non-termination exhibited for headers below one byte with zero-length fields", "why_tests_cant": "Termination and tiling for all buffers.", "anchors": ["derive/src/gen.rs: iterables", "src/ipv6.rs: ExtensionIterable::new"]}
{"id": "C21", "title": "Vectors of multi-byte integers cannot be read back", "statement": "For a Vec<uN> field with N >= 16 the getter panics on every non-empty field, so set-then-get cannot be performed; the setter writes big-endian regardless of the declared endianness and its length check counts elements, not bytes.", "quantifier": "all buffers with a non-empty field", "why_tests_cant": "The run-pass tests never call such a getter.", "anchors": ["derive/src/gen.rs: packet_impl (Type::Vector of Primitive)"]}
{"id": "C22", "title": "clone_from copies a prefix", "statement": "dst.clone_from(&src) panics iff src is longer than dst (leaving dst unchanged); otherwise the first src.len() bytes of dst become src and the remaining bytes are unchanged.", "quantifier": "all pairs of packets", "why_tests_cant": "unsafe copy; needs all lengths.", "anchors": ["core/src/packet.rs: MutablePacket::clone_from"]}
{"id": "C23", "title": "Packet equality depends on ownership, not only on bytes", "statement": "Two packets compare equal iff they have the same bytes and the same ownership kind; a borrowed packet never equals an owned packet with identical bytes.", "quantifier": "all pairs of packets", "why_tests_cant": "A universally quantified equivalence.", "anchors": ["core/src/packet.rs: PacketData, MutPacketData", "derive/src/gen.rs: packet_struct"]}
{"id": "C24", "title": "Views preserve bytes", "statement": "to_immutable, consume_to_immutable and packet() preserve the bytes, hence every getter returns the same result on the mutable and the immutable view.", "quantifier": "all packets and getters", "why_tests_cant": "All buffers.", "anchors": ["derive/src/gen.rs: packet_impl (to_immutable, consume_to_immutable)", "core/src/packet.rs: to_immutable"]}
{"id": "C25", "title": "checksum() is the RFC 1071 Internet checksum", "statement": "util::checksum(data, k) is the one's complement of the one's-complement sum of the big-endian 16-bit words of data with word k regarded as zero and an odd trailing byte padded with zero; the empty slice gives 0.", "quantifier": "all byte strings up to 131074 bytes (the bound below which the 32-bit accumulator cannot overflow), all skip positions", "why_tests_cant": "All inputs.", "anchors": ["src/util.rs: checksum, finalize_checksum, sum_be_words"]}
{"id": "C26", "title": "A checksum does not depend on the checksum field", "statement": "Changing the two bytes at word position k arbitrarily leaves checksum(data,k) unchanged; likewise for the IPv4/IPv6 pseudo-header variants.", "quantifier": "all data, all replacements, all skip positions", "why_tests_cant": "All inputs.", "anchors": ["src/util.rs: checksum, ipv4_checksum, ipv6_checksum"]}
{"id": "C27", "title": "Storing the checksum makes the packet verify", "statement": "If the checksum is stored big-endian in word k, the one's-complement sum of all words (plus pseudo header where applicable) is 0xFFFF.", "quantifier": "all data, addresses, protocols", "why_tests_cant": "All inputs.", "anchors": ["src/util.rs: checksum, ipv4_checksum, ipv6_checksum"]}
{"id": "C28", "title": "Pseudo-header checksums follow RFC 768/793/8200", "statement": "util::ipv4_checksum and ipv6_checksum equal the RFC 1071 checksum of the concatenation pseudo-header ++ data (checksum word zeroed), when no extra data is supplied; with extra data of even length the extra words are appended.", "quantifier": "all data, extra data, addresses and protocol numbers within the size bound", "why_tests_cant": "All inputs.", "anchors": ["src/util.rs: ipv4_checksum, ipv6_checksum, ipv4_word_sum, ipv6_word_sum"]}
{"id": "C29", "title": "Every single-word corruption is detected", "statement": "If one non-skipped 16-bit word of the data changes to a value that differs modulo 65535, the checksum changes; so any corruption confined to one byte outside the checksum word (in particular any single bit flip) always changes the checksum and makes verification fail.", "quantifier": "all data, positions, bit flips", "why_tests_cant": "All inputs.", "anchors": ["src/util.rs: checksum"]}
{"id": "C30", "title": "Odd-length extra data loses its final byte", "statement": "ipv4_checksum_adv/ipv6_checksum_adv ignore the last byte of extra_data when its length is odd: two different extra_data strings that differ only there always have the same checksum, contrary to the documented contract.", "quantifier": "all odd-length extra data", "why_tests_cant": "No test passes extra data of odd length.", "anchors": ["src/util.rs: ipv4_checksum, ipv6_checksum, sum_be_words"]}
{"id": "C31", "title": "Checksum accumulator overflow bound", "statement": "With overflow checks checksum() panics exactly when the non-skipped words add up to 2^32 or more (impossible up to 131074 bytes) and otherwise returns the RFC 1071 value; without overflow checks it always returns, but on all-ones data just above that length it returns 1 where RFC 1071 gives 0.", "quantifier": "all data of any length; a family of witnesses above the bound", "why_tests_cant": "Needs a maximum over all contents of 128 KiB buffers.", "anchors": ["src/util.rs: sum_be_words"]}
{"id": "C32", "title": "Protocol checksum functions use the right field and protocol number", "statement": "udp/tcp/icmp/icmpv6/ipv4 checksum functions skip exactly the two bytes of that header's checksum field and use protocol numbers 17, 6, 58; after set_checksum(checksum(p)) the packet verifies per RFC.", "quantifier": "all packets of each type, all addresses", "why_tests_cant": "All packets.", "anchors": ["src/udp.rs: ipv4_checksum, ipv6_checksum", "src/tcp.rs: ipv4_checksum, ipv6_checksum", "src/icmp.rs: checksum", "src/icmpv6.rs: checksum", "src/ipv4.rs: checksum"]}
{"id": "C33", "title": "IPv4 header checksum clamps the header length", "statement": "ipv4::checksum never panics on an accepted packet and covers exactly the first min(max(20, 4*IHL), packet length) bytes.", "quantifier": "all accepted IPv4 buffers, all IHL values", "why_tests_cant": "All buffers.", "anchors": ["src/ipv4.rs: checksum"]}
{"id": "C34", "title": "UDP checksum may be the reserved value zero", "statement": "udp::ipv4_checksum can return 0x0000, which on the wire means 'no checksum'; RFC 768 requires 0xFFFF to be sent. Exactly the datagrams whose word sum is congruent to 0 (and nonzero) are affected.", "quantifier": "characterisation over all datagrams plus witness", "why_tests_cant": "1 in 65536 event; characterisation over all inputs.", "anchors": ["src/udp.rs: ipv4_checksum, ipv6_checksum"]}
{"id": "C35", "title": "MAC addresses print and parse back", "statement": "Parsing the text printed for a MacAddr returns that MacAddr; the printed text is always 17 characters of lower-case hex pairs separated by colons; printing is injective.", "quantifier": "all 2^48 addresses", "why_tests_cant": "2^48 values.", "anchors": ["core/src/macaddr.rs: Display, FromStr"]}
{"id": "C36", "title": "MAC parsing accepts exactly six colon-separated hex octets", "statement": "from_str(s) succeeds iff s has exactly six colon-separated components each being an optional '+' followed by at least one hex digit with value < 256; the result is those six values. It never panics.", "quantifier": "all strings", "why_tests_cant": "All strings.", "anchors": ["core/src/macaddr.rs: FromStr"]}
{"id": "C37", "title": "MAC parse errors are classified in order", "statement": "from_str fails with InvalidComponent iff one of the first six components is not a valid octet and it precedes any other failure; TooManyComponents iff the first six are valid and a seventh exists; TooFewComponents iff all components are valid and fewer than six.", "quantifier": "all strings", "why_tests_cant": "All strings.", "anchors": ["core/src/macaddr.rs: FromStr, ParseMacAddrErr"]}
{"id": "C38", "title": "MAC parsing accepts non-canonical spellings", "statement": "from_str is not a canonical-form validator: strings that differ from the printed form in case, leading zeros, or a leading '+' per component are accepted; so equal addresses do not imply equal strings.", "quantifier": "family of witnesses", "why_tests_cant": "Counterexample to an implicit universally quantified assumption.", "anchors": ["core/src/macaddr.rs: FromStr"]}
{"id": "C39", "title": "MAC predicates agree with IEEE bit definitions", "statement": "is_multicast is the I/G bit, is_local the U/L bit, is_universal/is_unicast their complements, is_broadcast implies multicast and local, is_zero implies unicast and universal; at most one of is_zero/is_broadcast holds.", "quantifier": "all addresses", "why_tests_cant": "2^48 values.", "anchors": ["core/src/macaddr.rs: is_broadcast, is_local, is_multicast, is_universal, is_unicast, is_zero"]}
{"id": "C40", "title": "MAC conversions and serde are lossless", "statement": "From<[u8;6]> and Into<[u8;6]> are inverse; deserialising the human-readable or binary serialised form yields the original; binary input of any length other than 6 is rejected.", "quantifier": "all addresses and all byte strings", "why_tests_cant": "2^48 values.", "anchors": ["core/src/macaddr.rs: From, Serialize, Deserialize"]}
{"id": "C41", "title": "Wire layouts match the RFC header diagrams", "statement": "For Ethernet II, 802.1Q, ARP, IPv4, IPv6, IPv6 extension headers, UDP, TCP, ICMP(v6), NDP and GRE, each fixed-header getter returns the bits at the offset and width given by the protocol's header diagram.", "quantifier": "all protocols, all fields, all accepted buffers", "why_tests_cant": "All buffers.", "anchors": ["src/ethernet.rs: Ethernet", "src/vlan.rs: Vlan", "src/arp.rs: Arp", "src/ipv4.rs: Ipv4", "src/ipv6.rs: Ipv6, Extension, Routing, Fragment", "src/udp.rs: Udp", "src/tcp.rs: Tcp", "src/icmp.rs", "src/icmpv6.rs", "src/gre.rs: Gre"]}
{"id": "C42", "title": "IPv4 options and payload split the datagram", "statement": "For IHL >= 5, options are bytes [20, 4*IHL) and payload() is bytes [4*IHL, total_length), both clipped to the buffer, and they never overlap.", "quantifier": "all accepted IPv4 buffers", "why_tests_cant": "All buffers with attacker-chosen lengths.", "anchors": ["src/ipv4.rs: Ipv4, ipv4_options_length, ipv4_payload_length"]}
{"id": "C43", "title": "IPv4 payload is not bounded by total_length when IHL < 5", "statement": "With IHL < 5 payload() can return bytes beyond total_length (trailing link-layer padding exposed as payload).", "quantifier": "exact characterisation and witness", "why_tests_cant": "Malformed header space not tested.", "anchors": ["src/ipv4.rs: ipv4_payload_length"]}
{"id": "C44", "title": "TCP options and payload split the segment", "statement": "For data_offset >= 5, options are bytes [20, 4*data_offset) and payload() is the bytes from 4*data_offset to the end of the buffer; together with the 20-byte header they tile the segment.", "quantifier": "all accepted TCP buffers", "why_tests_cant": "All buffers.", "anchors": ["src/tcp.rs: Tcp, tcp_options_length"]}
{"id": "C45", "title": "Option getters panic on a truncated trailing option", "statement": "TcpPacket::get_options, Ipv4Packet::get_options (and Debug / from_packet) panic on some packets accepted by new, namely when the last byte of the option area starts a non-EOL/NOP option; get_options_iter, get_options_raw and payload of the yielded options never panic.", "quantifier": "exact panic condition over all option areas", "why_tests_cant": "Exact iff over all buffers.", "anchors": ["src/tcp.rs: TcpOption", "src/ipv4.rs: Ipv4Option"]}
{"id": "C46", "title": "from_packet panics when the header claims more bytes than the buffer", "statement": "Ipv4Packet/TcpPacket::from_packet panic when 4*IHL resp. 4*data_offset exceeds the buffer length, although payload() on the same packet is safe.", "quantifier": "all such buffers", "why_tests_cant": "All buffers.", "anchors": ["src/tcp.rs: Tcp", "src/ipv4.rs: Ipv4", "derive/src/gen.rs: converters"]}
{"id": "C47", "title": "TCP option constructors are well formed and survive the wire", "statement": "nop, mss, wscale, sack_perm, timestamp and selective_ack (up to 63 entries) build options whose length byte is consistent and which are read back unchanged after set_options/get_options.", "quantifier": "all argument values, all lists of such options that fit the header", "why_tests_cant": "All values and lists.", "anchors": ["src/tcp.rs: TcpOption"]}
{"id": "C48", "title": "selective_ack silently emits a wrong length for 64 or more entries", "statement": "For every list of at least 64 acknowledgements TcpOption::selective_ack produces a length byte that does not equal 2 + data length.", "quantifier": "all lists of length >= 64", "why_tests_cant": "Unbounded family.", "anchors": ["src/tcp.rs: TcpOption::selective_ack"]}
{"id": "C49", "title": "NDP option size is 8*length octets only below 32 units", "statement": "For NDP options with length 1..31 the option occupies 8*length octets; for length >= 32 a checked build panics and an unchecked build computes a wrong size (RFC 4861 allows up to 255); length 0 is treated as a 2-octet option.", "quantifier": "all option buffers, both profiles", "why_tests_cant": "All length values and contents.", "anchors": ["src/icmpv6.rs: ndp::NdpOption"]}
{"id": "C50", "title": "IPv6 extension header sizes", "statement": "For Extension (hop-by-hop/destination) and Routing headers packet_size() is (hdr_ext_len+1)*8, payload is the remainder of the header after the fixed part, and ExtensionIterable walks them back to back.", "quantifier": "all accepted buffers", "why_tests_cant": "All buffers.", "anchors": ["src/ipv6.rs: Extension, Routing, ExtensionIterable"]}
{"id": "C51", "title": "IPv6 fragment accessors are independent", "statement": "set_fragment_offset never changes the more-fragments flag and set_last_fragment never changes the offset; set_last_fragment(b) then is_last_fragment() = b; set_fragment_offset(o) then get_fragment_offset() = o with the two low bits cleared.", "quantifier": "all fragment headers, all arguments, any interleaving", "why_tests_cant": "All 2^16 x 2^16 combinations and histories.", "anchors": ["src/ipv6.rs: FragmentPacket, MutableFragmentPacket"]}
{"id": "C52", "title": "IPv6 fragment offset includes a reserved bit", "statement": "get_fragment_offset masks two flag bits although RFC 8200 has three; a packet with reserved bit 2 set reports an offset that is not a multiple of 8.", "quantifier": "exact characterisation", "why_tests_cant": "All field values.", "anchors": ["src/ipv6.rs: FRAGMENT_FLAGS_MASK, FRAGMENT_OFFSET_MASK"]}
{"id": "C53", "title": "GRE optional fields", "statement": "With routing_present=0, the checksum/offset/key/sequence words are present exactly when their flag bits are set, at the RFC 2784/2890 offsets, and payload starts after them; with routing_present=1 payload(), packet_size() and from_packet() panic.", "quantifier": "all accepted GRE buffers", "why_tests_cant": "All flag combinations and contents.", "anchors": ["src/gre.rs: Gre, U16BE, U32BE"]}
{"id": "C54", "title": "QUIC variable-length integers", "statement": "varint_length and varint decode exactly the RFC 9000 section 16 encoding: for every value below 2^62 and each of its valid encodings, varint_length of the encoding followed by anything is the encoding's length and varint of it is the value.", "quantifier": "all values, all encodings, all suffixes", "why_tests_cant": "2^62 values.", "anchors": ["src/quic.rs: varint, varint_length"]}
{"id": "C55", "title": "n_varints measures consecutive varints", "statement": "n_varints(n, bytes) returns the total length of the first n varints in bytes, and panics iff bytes does not contain n complete varints.", "quantifier": "all n, all byte strings", "why_tests_cant": "Unbounded n.", "anchors": ["src/quic.rs: n_varints"]}
{"id": "C56", "title": "packet_number decodes big-endian", "statement": "packet_number(bytes) is the big-endian value of at most 8 bytes and panics iff more than 8 are given.", "quantifier": "all byte strings", "why_tests_cant": "All byte strings.", "anchors": ["src/quic.rs: packet_number"]}
{"id": "C57", "title": "Datagram splitting terminates and tiles the datagram", "statement": "QuicPacket::new terminates on every datagram; when it returns Some(packets) the first packet is the whole datagram, each next packet's bytes are a proper suffix of the previous one, i.e. the remaining() of the previous one, and the last packet's remaining() is empty.", "quantifier": "all datagrams, both overflow profiles", "why_tests_cant": "Unbounded inputs.", "anchors": ["src/quic.rs: QuicPacket::new, remaining"]}
{"id": "C58", "title": "Coalesced well-formed QUIC packets are recovered", "statement": "For any sequence of well-formed Initial/0-RTT/Handshake packets (encoded per RFC 9000 section 17.2) optionally followed by one final packet (long header, Retry, version negotiation or 1-RTT), QuicPacket::new on the concatenation returns them in order with the encoded version, ids, token, packet number and frames.", "quantifier": "all field values and all sequences", "why_tests_cant": "All sequences.", "anchors": ["src/quic.rs: QuicPacket::new, accessors"]}
{"id": "C59", "title": "QUIC packet classification", "statement": "Each packet is classified by header form, fixed bit, version and type exactly as implemented by RFC 9000 for packets with the fixed bit set; inputs shorter than 5 bytes or with a long-header type and clear fixed bit and nonzero version are rejected with None.", "quantifier": "all buffers", "why_tests_cant": "All buffers.", "anchors": ["src/quic.rs: QuicPacket::new"]}
{"id": "C60", "title": "QuicPacket::new panics on malformed datagrams", "statement": "There are datagrams (truncated ids, missing varints, payload length smaller than the packet number, lengths past the end) on which QuicPacket::new panics instead of returning None; the exact condition for panic-freedom is that the packet's variable fields lie inside the buffer. Without overflow checks a length smaller than the packet number does not panic; the next packet is then looked for inside this packet's number.", "quantifier": "exact panic condition for the first packet; witnesses", "why_tests_cant": "Exact iff over all datagrams.", "anchors": ["src/quic.rs: QuicPacket::new"]}
{"id": "C61", "title": "Short-header look-alikes are parsed as long-header packets", "statement": "A first byte with header form 0 and fixed bit 0 followed by four zero bytes is classified as VersionNegotiation although its header form bit says short.", "quantifier": "all such buffers", "why_tests_cant": "All buffers.", "anchors": ["src/quic.rs: QuicPacket::new"]}
{"id": "C62", "title": "1-RTT packets of 5 to 8 bytes are accepted but unreadable", "statement": "QuicPacket::new accepts every 1-RTT packet of at least 5 bytes; packet_number() (and Display) panics exactly when it is shorter than 9 bytes.", "quantifier": "all 1-RTT buffers", "why_tests_cant": "All buffers.", "anchors": ["src/quic.rs: QuicPacket::packet_number, OneRtt"]}
{"id": "C63", "title": "Frame parsing terminates and tiles the payload", "statement": "Frame::new terminates on every input; if it returns Some, the frames in order consume the whole input, with each maximal run of padding bytes reported as one Padding frame carrying the run length.", "quantifier": "all payloads", "why_tests_cant": "Unbounded.", "anchors": ["src/quic.rs: Frame::new"]}
{"id": "C64", "title": "Well-formed frame sequences are recovered", "statement": "For every sequence of frames encoded per RFC 9000 section 19 (ACK frames limited to zero ranges) Frame::new returns the frames in order with types and fields intact.", "quantifier": "all frame sequences and field values", "why_tests_cant": "All sequences.", "anchors": ["src/quic.rs: Frame::new, frame structs"]}
{"id": "C65", "title": "ACK frames with ranges are mis-measured", "statement": "An ACK frame with k>0 ranges encodes 2k varints (RFC 9000 19.3.1) but the parser consumes only k, so the rest is parsed as further frames.", "quantifier": "all well-formed ACK frames with at least one range", "why_tests_cant": "No test has ack ranges.", "anchors": ["src/quic.rs: Ack"]}
{"id": "C66", "title": "Unknown frame types reject the whole payload", "statement": "Frame::new returns Some iff the frames, measured one after the other, end exactly at the end of the payload; it returns None iff a frame reached in sequence has a type above 0x1e or is a lone NEW_CONNECTION_ID type byte; it panics (index out of range) iff a known frame reached in sequence does not end before the payload does. It never returns a partial list.", "quantifier": "all payloads", "why_tests_cant": "All payloads.", "anchors": ["src/quic.rs: Frame::new"]}
{"id": "C67", "title": "Protocol name tables are unambiguous", "statement": "For EtherType, IpNextHeaderProtocol, QUIC frame and packet types, two values print the same name only if they are equal, both unknown, or documented aliases; every named constant prints its own name.", "quantifier": "all 65536 / 256 values", "why_tests_cant": "Cross product of all pairs.", "anchors": ["src/ethernet.rs: EtherType Display", "src/ip.rs: IpNextHeaderProtocol Display", "src/quic.rs: FrameType Display"]}
{"id": "C68", "title": "Type syntax of the derive macro", "statement": "A field type string is treated as a primitive iff it is 'u' digits with optional be/le/he suffix (and the number fits usize), with that size and endianness; sizes above 8 without suffix are rejected for fields and read big-endian in construct_with.", "quantifier": "all strings", "why_tests_cant": "All strings.", "anchors": ["derive/src/parse.rs: parse_ty, parse_type"]}
{"id": "C69", "title": "Struct acceptance rules of the derive macro", "statement": "parse::packet accepts a struct iff every field is named, at most one payload attribute occurs, all attributes are known and well formed, every vector other than the last field has a length, and every non-primitive field has construct_with; the accepted description preserves field order, names and types.", "quantifier": "all attribute/field lists", "why_tests_cant": "All structs.", "anchors": ["derive/src/parse.rs: packet"]}
{"id": "C70", "title": "Integer aliases are wide enough", "statement": "Every alias uN, uNbe, uNle, uNhe in core::types denotes the smallest of u8/u16/u32/u64 that holds N bits.", "quantifier": "all 168+7 aliases", "why_tests_cant": "Exhaustive check against every alias, used by the accessor proofs.", "anchors": ["core/src/types.rs"]}
{"id": "C71", "title": "octets() is the big-endian encoding", "statement": "u8/u16/u32/u64::octets() returns the big-endian bytes whose value is the number.", "quantifier": "all integers", "why_tests_cant": "2^64 values.", "anchors": ["src/util.rs: Octets"]}
{"id": "C72", "title": "populate() of attribute lengths that look at the packet depends on old bytes", "statement": "When a length attribute inspects the bytes of the field itself (the QUIC varint_length(...) attributes), populate() compares the value with the length computed from the previous buffer contents, so populating a value with a multi-byte varint into a zeroed buffer panics although the struct is well formed and the buffer is large enough.", "quantifier": "all structs with a multi-byte varint, all zeroed buffers", "why_tests_cant": "Quantifies over struct values and previous buffer contents.", "anchors": ["derive/src/gen.rs: packet_impl (Type::Vector setters, populate)", "src/quic.rs: Initial"]}
{"id": "C73", "title": "Address constructors and to_primitive_values are inverse", "statement": "For MacAddr, Ipv4Addr and Ipv6Addr, the constructor used by generated getters applied to to_primitive_values() gives back the address, and to_primitive_values() of a constructed address gives back the (truncated to the component width) components.", "quantifier": "all addresses and all component tuples", "why_tests_cant": "2^128 addresses.", "anchors": ["core/src/packet.rs: PrimitiveValues for MacAddr, Ipv4Addr, Ipv6Addr"]}
{"id": "C74", "title": "The derive macro generates code exactly for acceptable structs with supported placements", "statement": "Deriving Packet succeeds iff the struct is acceptable (C69), every integer field and construct_with argument has 1 to 64 bits and, when the macro is built with overflow checks, lies so that its starting bit in the byte plus size mod 8 is at most 8; vector elements are sub-packets or integers of whole bytes; construct_with arguments are integers. The number of header bits is the sum of the integer sizes.", "quantifier": "all structs, both build profiles of the macro, both host byte orders", "why_tests_cant": "All structs.", "anchors": ["derive/src/lib.rs: derive_packet", "derive/src/gen.rs: packet_impl"]}
{"id": "C75", "title": "The checksum does not depend on the order of the words", "statement": "checksum() of two byte strings whose 16-bit words (the checksum word counted as zero) are the same up to order is the same; in particular exchanging two words, or the source and destination address of ipv4_checksum/ipv6_checksum, is never noticed.", "quantifier": "all byte strings up to 131074 bytes, all permutations, all addresses", "why_tests_cant": "All permutations of all inputs.", "anchors": ["src/util.rs: checksum", "src/util.rs: ipv4_checksum", "src/util.rs: ipv6_checksum"]}
{"id": "C76", "title": "The checksum is independent of byte order", "statement": "Exchanging the two bytes of every word of an even-length string exchanges the two bytes of its checksum (RFC 1071 section 2 (B)).", "quantifier": "all even-length byte strings up to 131074 bytes", "why_tests_cant": "All inputs.", "anchors": ["src/util.rs: checksum", "src/util.rs: sum_be_words", "src/util.rs: finalize_checksum"]}
{"id": "C77", "title": "Checksums of parts combine", "statement": "The checksum of a concatenation whose first part has even length is the complement of the one's complement sum of the complements of the checksums of the parts.", "quantifier": "all pairs of byte strings, all checksum word positions in the first part", "why_tests_cant": "All inputs.", "anchors": ["src/util.rs: checksum"]}
{"id": "C78", "title": "Incremental checksum update is sound", "statement": "After replacing one word, updating the old checksum() result by RFC 1624 equation 3 gives the same value as calling checksum() again, except when all covered bytes have become zero, where checksum() returns 0xFFFF and the equation 0.", "quantifier": "all byte strings up to 131074 bytes, all words and new values", "why_tests_cant": "All inputs.", "anchors": ["src/util.rs: checksum"]}
{"id": "C79", "title": "What comparing get_checksum() with the computed checksum decides", "statement": "A received IPv4 header, UDP, TCP, ICMP or ICMPv6 packet passes the RFC check (all words with the pseudo header add up to 0xFFFF) exactly when get_checksum() equals the value computed by the module's checksum function, or when 0xFFFF is stored and 0 is computed; so comparing for equality rejects valid UDP datagrams whose sender replaced 0 by 0xFFFF as RFC 768 requires (finding).", "quantifier": "all packets, addresses and even-length extra data within the length limits", "why_tests_cant": "All packets.", "anchors": ["src/udp.rs: ipv4_checksum, ipv6_checksum", "src/tcp.rs: ipv4_checksum, ipv6_checksum", "src/icmp.rs: checksum", "src/icmpv6.rs: checksum", "src/ipv4.rs: checksum"]}
{"id": "C80", "title": "MAC addresses are ordered as numbers and as texts", "statement": "The derived Ord of MacAddr orders two addresses as the 48-bit numbers they denote and as their display texts are ordered; it says Equal exactly when == does, the all-zero address is the least and the broadcast address the greatest.", "quantifier": "all pairs of MAC addresses", "why_tests_cant": "2^96 pairs.", "anchors": ["core/src/macaddr.rs: MacAddr (derive Ord)"]}
{"id": "C81", "title": "Packets inside packets", "statement": "For any stack of protocol layers of the crate around any data, in which the payload of every struct is the wire form of the layers inside it: writing the structs innermost first with populate() gives the wire form, and taking the bytes apart with new()/from_packet()/payload() layer by layer gives back every struct and the data. On arbitrary bytes, whatever such a program ends up with is a contiguous part of the bytes it was given, and payload() is the payload field of from_packet().", "quantifier": "all stacks of any depth, all structs, all data, all bytes", "why_tests_cant": "Stacks of unbounded depth over all struct values.", "anchors": ["derive/src/gen.rs: packet_impl (populate), packet_trait_impls, from_packet impls", "src/*.rs"]}
{"id": "C82", "title": "Editing an inner packet in place", "statement": "Reaching into a stack of packets with MutableXPacket::new(..) and payload_mut() layer by layer and editing the innermost bytes (with any code that keeps their number, such as the setters of the innermost packet) leaves a stack of the same layers, whose structs differ in the payload only, around the edited bytes. On arbitrary bytes, everything before and after the innermost view keeps its value, also when the edit panics half way, and the length never changes.", "quantifier": "all stacks of any depth, all edits, all bytes", "why_tests_cant": "All edits of all stacks.", "anchors": ["derive/src/gen.rs: packet_trait_impls (payload_mut)", "src/*.rs"]}
{"id": "C83", "title": "Where the payload of the fixed-header packets lies", "statement": "For Ethernet, VLAN, ARP, IPv6, fragment, UDP, ICMP, ICMPv6 and neighbour discovery packets, payload() and the getter of the payload field return exactly: all bytes after the header (Ethernet, VLAN, UDP, ICMP, ICMPv6), nothing (ARP, fragment, neighbour discovery messages, GRE words), or min(payload_length, available) bytes after the header (IPv6); packet_size() is the header plus that many announced bytes; from_packet() and Debug never panic on the packets without options. The UDP payload ignores the length field, so trailing padding is part of it (finding).", "quantifier": "all buffers of all nineteen packet types", "why_tests_cant": "All buffers.", "anchors": ["src/ethernet.rs: Ethernet", "src/vlan.rs: Vlan", "src/arp.rs: Arp", "src/ipv6.rs: Ipv6, Fragment", "src/udp.rs: Udp", "src/icmp.rs: Icmp, EchoReply, EchoRequest, DestinationUnreachable, TimeExceeded", "src/icmpv6.rs: Icmpv6, RouterSolicit, RouterAdvert, NeighborSolicit, NeighborAdvert, Redirect"]}
{"id": "C84", "title": "Options of neighbour discovery messages", "statement": "The options of the five neighbour discovery messages are everything after the header. Well-formed options of up to 31 units are read back in order by get_options(), in both build profiles. On arbitrary bytes, a build with overflow checks panics in get_options(), from_packet(), Debug and while iterating exactly when walking the options meets a length of 32 units or more; a build without never panics but continues at the length modulo 32 units (finding). A length of zero is taken for two bytes and a single trailing byte is ignored.", "quantifier": "all messages, all buffers, all option lists, both build profiles", "why_tests_cant": "All buffers and unbounded option lists.", "anchors": ["src/icmpv6.rs: NdpOption, RouterSolicit, RouterAdvert, NeighborSolicit, NeighborAdvert, Redirect", "derive/src/gen.rs: iterables"]}
{"id": "C85", "title": "Setting a list of options: what reaches the buffer", "statement": "The setter of a list of sub-packets (TCP, IPv4 and neighbour discovery options, GRE words) stores the elements one after the other and checks after each whether they still fit the announced area. If all fit, exactly their bytes are stored; otherwise the call panics, and the elements that fit and the first that does not have been stored, the latter over the bytes after the area, such as the payload (finding). If the buffer ends first the call panics and the bytes before the area are unchanged.", "quantifier": "all protocols with lists, all buffers, all lists of well-formed elements", "why_tests_cant": "Unbounded lists over all buffers.", "anchors": ["derive/src/gen.rs: packet_impl (set_<field> of Vec<Packet>)", "src/tcp.rs: TcpOption", "src/ipv4.rs: Ipv4Option", "src/icmpv6.rs: NdpOption"]}
{"id": "C86", "title": "populate() writes the whole struct or panics", "statement": "populate() of a well-formed struct of any protocol into a buffer at least as long as its wire form writes exactly the wire form and leaves the rest of the buffer alone; into a shorter buffer (even one that new() accepts) it panics: a struct is never silently truncated.", "quantifier": "all protocols, all well-formed structs, all buffers of any length", "why_tests_cant": "All structs and buffer lengths.", "anchors": ["derive/src/gen.rs: populate"]}
{"id": "C87", "title": "A datagram delivers exactly the frames its sender wrote", "statement": "If a sender writes a datagram of coalesced packets (RFC 9000 section 12.2) whose payloads are sequences of frames (without additional ACK ranges, see C65), then QuicPacket::new() returns one packet per packet written, and for each of them Frame::new() applied to frames() returns exactly the frames written, runs of padding joined; Retry and Version Negotiation packets have no frames.", "quantifier": "all datagrams of any number of packets, all frame sequences of any length", "why_tests_cant": "Unbounded nested sequences: packets of frames of variable-length integers.", "anchors": ["src/quic.rs: QuicPacket::new, frames", "src/quic.rs: Frame::new"]}
{"id": "C88", "title": "Debug of a packet prints its name and every field but the payload", "statement": "For every struct that derives Packet, {:?} of XPacket and MutableXPacket prints the name, then 'field : value, ' for each field in order except the payload, with the value that the getter returns; it panics exactly when one of these getters does. The braces of the format strings built by the macro never interfere with the names.", "quantifier": "all structs with scoped length attributes, all buffers, both packet types", "why_tests_cant": "All structs and buffers, format strings built at compile time.", "anchors": ["derive/src/gen.rs: debug_impls", "derive/src/parse.rs: packet_name, packet_name_mut"]}
{"id": "C89", "title": "The Debug text of a packet determines its type and all its fields", "statement": "Two packets of the crate (of any types, shared or mutable) that print the same text under {:?} have the same type and the same values in all printed fields, including the elements of option lists; so logs made with {:?} are unambiguous. The same holds for the enums QuicPacket and Frame, including the number of joined padding frames.", "quantifier": "all pairs of buffers, all pairs of packet types, every injective IPv6 text of hex digits, colons and dots", "why_tests_cant": "All pairs of packets.", "anchors": ["derive/src/gen.rs: debug_impls", "src/quic.rs: QuicPacket, Frame (derive Debug)", "core/src/macaddr.rs: Display, Debug for MacAddr"]}
{"id": "C90", "title": "Display of a QUIC packet shows what the sender put into it", "statement": "For every packet of a datagram written by a sender, Display prints the lines packet-type, quic-version, token, packet-number, dest-id, src-id and payload that the packet has, in this order, with the values the sender chose and the length of the payload. For arbitrary buffers, two packets printing the same text have the same type, version, token, packet number, connection IDs and payload length.", "quantifier": "all datagrams of any number of packets, all pairs of buffers", "why_tests_cant": "All packets.", "anchors": ["src/quic.rs: Display for QuicPacket", "src/quic.rs: Display for Version"]}
{"id": "C91", "title": "The hand-written functions compute what their source text says", "statement": "For each of 42 functions of the crate (all of src/util.rs that computes, every checksum function, the length functions named in attributes, the QUIC integer functions, the predicates of MacAddr) and all arguments of the types in its signature, executing the source text as the Rust reference prescribes, with every call executed from the callee's text, ends with the value or the panic that the model gives, in both build profiles; in particular the text of util::checksum computes RFC 1071 and the text of varint decodes RFC 9000 integers.", "quantifier": "all 42 functions, all arguments, both build profiles", "why_tests_cant": "All arguments, including slices of any length; loops of unbounded length.", "anchors": ["src/util.rs", "src/quic.rs: varint_length, varint, packet_number, n_varints", "src/ipv4.rs", "src/ipv6.rs", "src/tcp.rs", "src/udp.rs", "src/icmp.rs", "src/icmpv6.rs", "core/src/macaddr.rs"]}
{"id": "C92", "title": "The packet types are the ones declared in the source", "statement": "For each of the 53 structs that derive Packet, the source text of the declaration is accepted by the macro, and the packet type all other properties talk about has its fields in the same order with the same names, types, byte orders, construct_with types and payload mark; every length attribute, executed as Rust (with the getters of the packet, ... as the bytes from the field on, and called functions executed from their own text), gives the length or the panic used for that field, in any buffer and both build profiles.", "quantifier": "all 53 structs, all buffers, all values of the fields, both build profiles", "why_tests_cant": "All buffers and field values; attributes run symbolically.", "anchors": ["src/*.rs: structs deriving Packet", "derive/src/parse.rs: packet, parse_length_expr", "derive/src/gen.rs: packet_impl"]}
{"id": "C93", "title": "The reading methods emitted by the derive macro do what the packet description says", "statement": "For every packet struct of the crate: filling the macro's own code templates with the parsed declaration, reading the result as Rust and running it gives, on every buffer and in both packet types, exactly the documented result: getters of integers, of constructed values, of byte vectors and of lists of packets return the described value or panic where described; get_<field>_raw(), get_<field>_iter(), payload(), payload_mut(), packet(), packet_mut() return the described bytes; new() and owned() accept exactly the buffers of at least minimum_packet_size() bytes; the three size functions return the described numbers. None of them changes a byte of the packet.", "quantifier": "all 53 packet structs, all their fields, all buffers, both packet types, all build configurations (overflow checks in the macro and in the crate, byte order of the host)", "why_tests_cant": "Every buffer of every packet type, and the code under test is itself computed by a macro.", "anchors": ["derive/src/gen.rs: packet_impl, packet_size_impls, packet_trait_impls, gen_accessor, gen_get_ops", "src/*.rs"]}
{"id": "C94", "title": "The writing methods emitted by the derive macro do what the packet description says", "statement": "For every packet struct of the crate: filling the macro's own code templates with the parsed declaration, reading the result as Rust and running it gives, on every buffer, exactly the documented effect: the setters of integers, of constructed values, of byte vectors and of lists of packets leave the described bytes, panic where described, and after a panic have left the described bytes too; get_<field>_raw_mut() returns the same range as get_<field>_raw(); populate() calls the setter of every field, in the order of the declaration.", "quantifier": "all 53 packet structs, all their fields, all values, all buffers, all build configurations (overflow checks in the macro and in the crate, byte order of the host)", "why_tests_cant": "Every buffer and value of every packet type, and the code under test is itself computed by a macro.", "anchors": ["derive/src/gen.rs: packet_impl, gen_mutator, gen_set_ops, populate", "derive/src/util.rs: operations, to_mutator", "src/*.rs"]}
{"id": "C95", "title": "The iterators and conversions emitted by the derive macro do what the packet description says", "statement": "For every packet struct of the crate: running the emitted code gives for next() of XIterable the item over the remaining bytes and leaves the iterator with what follows that item, None when the rest is empty or too short; a for loop over it therefore ends, and every item starts where the one before it ends. from_packet() of both packet types fills every field of the struct with the value of its getter and panics with the first getter that panics; to_immutable() and consume_to_immutable() give an XPacket over the same bytes.", "quantifier": "all 53 packet structs (the loop: all 27 protocol structs), all buffers, both packet types, all build configurations", "why_tests_cant": "Every buffer of every packet type, loops of unbounded length, and the code under test is itself computed by a macro.", "anchors": ["derive/src/gen.rs: iterables, converters, packet_impl (to_immutable, consume_to_immutable)", "src/*.rs"]}
{"id": "C96", "title": "The code generator plans and prints what its source text says, and that is the field", "statement": "For every bit offset, width and byte order, running the source text of operations(), to_mutator(), gen_get_ops(), gen_set_ops(), of the Display impls of the operations and of every function they call gives the plan, the printed body or the panic all other properties start from. For every integer type and supported place of a field the printed getter body parses as Rust and returns exactly the bits of the field, and the printed setter body writes exactly those bits: nothing but the source text of the macro stands between the declaration and the bytes. An empty plan makes build_return overflow in a checked build.", "quantifier": "all usize offsets and sizes, all byte orders, all lists of operations, all buffers and values, both profiles of the macro crate, both host byte orders", "why_tests_cant": "All offsets and sizes, all buffers; the code under test writes code.", "anchors": ["derive/src/util.rs: operations, get_mask, get_shiftl, get_shiftr, to_mutator, to_little_endian, mask_high_bits, Display for GetOperation, Display for SetOperation, radix_fn", "derive/src/gen.rs: gen_get_ops, gen_set_ops, build_return"]}
{"id": "C97", "title": "MAC addresses, number types and TCP options behave as their source text says", "statement": "Running the source text gives, for all arguments: for MacAddr the constructors, the six predicates, the conversions from and to arrays and comparison with an array, Display, Debug, the error messages and from_str with its three errors; for each type around a number new and to_primitive_values, and the name its Display prints; for TcpOption the struct built by each constructor. The text of Display prints every address in a form that the text of from_str parses back to the same address, and from_str accepts exactly the spellings of C36.", "quantifier": "all addresses, all strings, all arrays, all numbers, all lists of acknowledgements, both build profiles", "why_tests_cant": "All strings and numbers; the interplay of the printing and the parsing code.", "anchors": ["core/src/macaddr.rs", "src/ethernet.rs: EtherType", "src/ip.rs: IpNextHeaderProtocol", "src/tcp.rs: TcpOption", "src/arp.rs, src/icmp.rs, src/icmpv6.rs, src/ipv4.rs: types around numbers", "src/quic.rs: Version, FrameType, HeaderForm, FixedBit, LongPacketType"]}
{"id": "C98", "title": "QUIC packets and frames are parsed as the source text says", "statement": "For every datagram, running the source text of QuicPacket::new and Frame::new, loops included, ends, and gives the packets or frames, None, or the panic that the other QUIC properties start from; so do version, token, packet_number, dest_id, src_id, packet, frames, remaining and Display of QuicPacket and ty, payload, remaining and Display of Frame. Hence the text itself recovers the coalesced packets and the frames of a sender, returns only sequences that cover the datagram, and panics exactly on truncated frames.", "quantifier": "all datagrams shorter than 2^61 bytes, all packets and frames, both build profiles", "why_tests_cant": "Datagrams of any length, loops over variable-length integers.", "anchors": ["src/quic.rs: QuicPacket", "src/quic.rs: Frame", "src/quic.rs: Display for QuicPacket, Display for Frame"]}
{"id": "C99", "title": "The derive macro emits the code its source text says, and nothing else", "statement": "For every packet struct of the crate, running the source text of generate_packet and of all functions of gen.rs it calls on the parsed struct yields, token for token and in this order: the two packet types, their methods, Packet, MutablePacket and PacketSize, the iterator, FromPacket and Debug, each being the code whose behaviour C93, C94 and C95 establish; Debug prints with the format string of C88 and calls the getters of the fields that are not the payload, in order. The result does not depend on the profile or byte order of the machine that runs the macro. So from the text of the macro to the bytes of a packet: the getter found in what the macro emits returns what the description says on every buffer.", "quantifier": "all 53 packet structs, all fields, all buffers, both profiles of the macro crate, both host byte orders", "why_tests_cant": "The code under test computes code; a test sees the effect of one expansion on some buffers.", "anchors": ["derive/src/lib.rs: generate_packet", "derive/src/gen.rs: packet_struct, packet_impls, packet_impl, current_offset, gen_accessor, gen_mutator, packet_size_impls, packet_trait_impls, impl_packet_trait_for, iterables, converters, debug_impls", "derive/src/parse.rs: packet_name, packet_name_mut"]}
{"id": "C100", "title": "The derive macro emits the code its source text says for any struct", "statement": "For every list of fields, not only the structs of the crate: running the source text of generate_packet and of the functions it calls ends and returns, token for token, the two packet types, their methods, the trait implementations, the iterator, the conversions and Debug, assembled field by field as described; the only conditions are that the type names are identifiers, that the texts the macro prints and reads again (the length expression with the offset put in, _packet.x.len()) come back as the same tokens, and that the macro has code for the fields: primitives of 1 to 64 bits that are not spread over more bytes than needed, lists of whole bytes or of packets, primitive constructor arguments. The constant minimum_packet_size() of both packet types is the number of bits of the fixed part, rounded up to bytes. Every struct of the crate meets the conditions.", "quantifier": "all lists of fields whose fixed part is smaller than 2^64 bits, both profiles of the macro crate, both host byte orders", "why_tests_cant": "All structs a user may declare: unboundedly many inputs of a program that computes programs.", "anchors": ["derive/src/lib.rs: generate_packet", "derive/src/gen.rs: packet_struct, packet_impls, packet_impl, current_offset, gen_accessor, gen_mutator, packet_size_impls, packet_trait_impls, impl_packet_trait_for, iterables, converters, debug_impls", "derive/src/parse.rs: packet_name, packet_name_mut"]}
{"id": "C101", "title": "The derive macro refuses a struct with the error of its first unsupported field", "statement": "For every list of fields: if the macro has code for the fields before it, a list whose elements are not whole bytes makes the macro return \"unimplemented variable length field\", a list of lists \"variable length fields may not contain vectors\", and a constructed field with an argument that is not a primitive \"arguments to #[construct_with] must be primitives\", wherever the argument is and whatever fields come after; no code is emitted. An error found while parsing the struct is returned unchanged.", "quantifier": "all lists of fields, all positions of the unsupported field and argument, both profiles of the macro crate, both host byte orders", "why_tests_cant": "All structs a user may declare; tests try a few.", "anchors": ["derive/src/lib.rs: generate_packet", "derive/src/gen.rs: packet_impls, packet_impl"]}
{"id": "C102", "title": "The packet types of any struct have exactly the documented methods, the read-only one none that changes bytes", "statement": "For every list of fields the macro has code for: XPacket has exactly new, owned, to_immutable, consume_to_immutable, minimum_packet_size, packet_size and, per field in the order of the declaration, get_<field>, for lists that are not the payload also get_<field>_raw, for lists of packets also get_<field>_iter; MutableXPacket has these, populate, set_<field> and for lists that are not the payload get_<field>_raw_mut. Setters, get_<field>_raw_mut and populate take &mut self; no method of XPacket does. No type has two methods of one name if no field is called like another one or like a list with _raw, _raw_mut or _iter; so in the crate. Fields with different names are not enough for that (refuted: tail and tail_raw).", "quantifier": "all lists of fields whose fixed part is smaller than 2^64 bits, both profiles of the macro crate, both host byte orders", "why_tests_cant": "All structs a user may declare.", "anchors": ["derive/src/gen.rs: packet_impl, gen_accessor, gen_mutator", "derive/src/lib.rs: generate_packet"]}
{"id": "C103", "title": "populate, packet_size and from_packet of any struct treat every field, once and in order", "statement": "For every list of fields the macro has code for: the body of populate(&x) of MutableXPacket is set_<field>(x.<field>) for every field, in the order of the declaration, and nothing else; from_packet of both packet types builds X with every field taken from its getter; minimum_packet_size() of both is the number of bits of the fields with a fixed size in bytes, rounded up, and packet_size(&x) the same rounded down plus x.<field>.len() of every list. Hence packet_size(&x) is not always at least minimum_packet_size() (refuted: a u4 and an empty payload give 0 and 1).", "quantifier": "all lists of fields whose fixed part is smaller than 2^64 bits, both profiles of the macro crate, both host byte orders", "why_tests_cant": "All structs a user may declare.", "anchors": ["derive/src/gen.rs: packet_impl, converters, current_offset", "derive/src/parse.rs: packet", "derive/src/lib.rs: generate_packet"]}
{"id": "C104", "title": "The payload of any struct starts behind the declared lengths of the fields before it, where packet_size() ends", "statement": "For every list of fields the macro has code for, whichever field is the payload: payload() of both packet types and payload_mut() start at the bits of the fields before it in whole bytes plus the lengths those fields declare, in order, and end there plus the declared length of the payload, or at the end of the buffer; fields after it do not matter. PacketSize::packet_size() of both is the same sum over all fields. If the payload is the last field and has no length, payload() starts at exactly the expression packet_size() returns, so header and payload make up the buffer. The payload does not always lie behind the other fields (refuted: after a u4 it starts at byte 0, which the u4 is in).", "quantifier": "all lists of fields whose fixed part is smaller than 2^64 bits, all positions of the payload, both profiles of the macro crate, both host byte orders", "why_tests_cant": "All structs a user may declare.", "anchors": ["derive/src/gen.rs: packet_impl, current_offset, packet_size_impls, packet_trait_impls, impl_packet_trait_for", "derive/src/lib.rs: generate_packet"]}
{"id": "C105", "title": "Debug of any struct prints every field but the payload; its iterator does not depend on the fields", "statement": "For every list of fields the macro has code for, with names made of letters, digits and underscores: Debug of both packet types calls the getter of every field that is not the payload, once and in the order of the declaration, and, whatever texts the values have, prints Name { a : x, b : y,  } with the name of the type, the names of the fields and those texts. The iterator XIterable is the same code for all structs but for the two names: it stops at an empty buffer or one XPacket::new refuses, otherwise advances by packet_size(), at most to the end.", "quantifier": "all lists of fields whose fixed part is smaller than 2^64 bits, all texts of values, both profiles of the macro crate, both host byte orders", "why_tests_cant": "All structs a user may declare, all texts.", "anchors": ["derive/src/gen.rs: debug_impls, iterables", "derive/src/lib.rs: generate_packet"]}

(** Source text: functions and packet structs of the crate, copied from /repo without
    changes.  This file is data; RustSyntax.v and RustItem.v read it. *)
From Coq Require Import String List.
Import ListNotations.
Open Scope string_scope.

(** ** Functions *)

(** src/quic.rs:169-173 *)
Definition fn_quic_varint_length : string :=
"pub fn varint_length(rest: &[u8]) -> usize {
    let prefix = rest[0] >> 6;
    let length = 1 << prefix;
    length
}".

(** src/quic.rs:175-181 *)
Definition fn_quic_varint : string :=
"pub fn varint(bytes: &[u8]) -> usize {
    let mut length = (bytes[0] & 0x3f) as u64;
    for v in &bytes[1..] {
        length = (length << 8) + *v as u64;
    }
    length as usize
}".

(** src/quic.rs:183-187 *)
Definition fn_quic_packet_number : string :=
"pub fn packet_number(bytes: &[u8]) -> u64 {
    let mut pn = [0; 8];
    pn[(8 - bytes.len())..].copy_from_slice(bytes);
    u64::from_be_bytes(pn)
}".

(** src/quic.rs:189-199 *)
Definition fn_quic_n_varints : string :=
"pub fn n_varints(n: usize, mut bytes: &[u8]) -> usize {
    let mut length = 0;
    for _ in 0..n {
        let prefix = bytes[0] >> 6;
        let vlen = 1 << prefix;
        length += vlen;
        let (_, rest) = bytes.split_at(vlen);
        bytes = rest;
    }
    length
}".

(** src/ipv4.rs:216-221 *)
Definition fn_ipv4_ipv4_options_length : string :=
"fn ipv4_options_length(header_length: u8) -> usize {
    // the header_length unit is the ""word""
    // - and a word is made of 4 bytes,
    // - and the header length (without the options) is 5 words long
    (header_length as usize * 4).saturating_sub(20)
}".

(** src/ipv4.rs:228-230 *)
Definition fn_ipv4_ipv4_payload_length : string :=
"fn ipv4_payload_length(total_length: u16, header_length: u8) -> usize {
    (total_length as usize).saturating_sub(header_length as usize * 4)
}".

(** src/ipv4.rs:259-265 *)
Definition fn_ipv4_ipv4_option_length : string :=
"fn ipv4_option_length(number: Ipv4OptionNumber) -> usize {
    match number {
        Ipv4OptionNumbers::EOL => 0,
        Ipv4OptionNumbers::NOP => 0,
        _ => 1,
    }
}".

(** src/ipv4.rs:267-272 *)
Definition fn_ipv4_ipv4_option_payload_length : string :=
"fn ipv4_option_payload_length(length: &[u8]) -> usize {
    match length.first() {
        Some(len) => (*len as usize).saturating_sub(2),
        None => 0,
    }
}".

(** src/ipv4.rs:159-169 *)
Definition fn_ipv4_checksum : string :=
"pub fn checksum(packet: &Ipv4Packet) -> u16be {
    let min = Ipv4Packet::minimum_packet_size();
    let max = packet.packet().len();
    let header_length = match packet.get_header_length() as usize * 4 {
        length if length < min => min,
        length if length > max => max,
        length => length,
    };
    let data = &packet.packet()[..header_length];
    util::checksum(data, 5)
}".

(** src/ipv6.rs:51-53 *)
Definition fn_ipv6_ipv6_extension_length : string :=
"fn ipv6_extension_length(hdr_ext_len: u8) -> usize {
    hdr_ext_len as usize * 8 + 8 - 2
}".

(** src/ipv6.rs:75-77 *)
Definition fn_ipv6_routing_extension_length : string :=
"fn routing_extension_length(hdr_ext_len: u8) -> usize {
    hdr_ext_len as usize * 8 + 8 - 4
}".

(** src/tcp.rs:198-204 *)
Definition fn_tcp_tcp_option_length : string :=
"fn tcp_option_length(number: TcpOptionNumber) -> usize {
    match number {
        TcpOptionNumbers::EOL => 0,
        TcpOptionNumbers::NOP => 0,
        _ => 1,
    }
}".

(** src/tcp.rs:206-211 *)
Definition fn_tcp_tcp_option_payload_length : string :=
"fn tcp_option_payload_length(length: &[u8]) -> usize {
    match length.first() {
        Some(len) if *len >= 2 => *len as usize - 2,
        _ => 0,
    }
}".

(** src/tcp.rs:228-234 *)
Definition fn_tcp_tcp_options_length : string :=
"fn tcp_options_length(data_offset: u8) -> usize {
    if data_offset > 5 {
        data_offset as usize * 4 - 20
    } else {
        0
    }
}".

(** src/tcp.rs:237-239 *)
Definition fn_tcp_ipv4_checksum : string :=
"pub fn ipv4_checksum(packet: &TcpPacket, source: &Ipv4Addr, destination: &Ipv4Addr) -> u16 {
    ipv4_checksum_adv(packet, &[], source, destination)
}".

(** src/tcp.rs:248-262 *)
Definition fn_tcp_ipv4_checksum_adv : string :=
"pub fn ipv4_checksum_adv(
    packet: &TcpPacket,
    extra_data: &[u8],
    source: &Ipv4Addr,
    destination: &Ipv4Addr,
) -> u16 {
    util::ipv4_checksum(
        packet.packet(),
        8,
        extra_data,
        source,
        destination,
        IpNextHeaderProtocols::Tcp,
    )
}".

(** src/tcp.rs:265-267 *)
Definition fn_tcp_ipv6_checksum : string :=
"pub fn ipv6_checksum(packet: &TcpPacket, source: &Ipv6Addr, destination: &Ipv6Addr) -> u16 {
    ipv6_checksum_adv(packet, &[], source, destination)
}".

(** src/tcp.rs:276-290 *)
Definition fn_tcp_ipv6_checksum_adv : string :=
"pub fn ipv6_checksum_adv(
    packet: &TcpPacket,
    extra_data: &[u8],
    source: &Ipv6Addr,
    destination: &Ipv6Addr,
) -> u16 {
    util::ipv6_checksum(
        packet.packet(),
        8,
        extra_data,
        source,
        destination,
        IpNextHeaderProtocols::Tcp,
    )
}".

(** src/udp.rs:27-29 *)
Definition fn_udp_ipv4_checksum : string :=
"pub fn ipv4_checksum(packet: &UdpPacket, source: &Ipv4Addr, destination: &Ipv4Addr) -> u16be {
    ipv4_checksum_adv(packet, &[], source, destination)
}".

(** src/udp.rs:38-52 *)
Definition fn_udp_ipv4_checksum_adv : string :=
"pub fn ipv4_checksum_adv(
    packet: &UdpPacket,
    extra_data: &[u8],
    source: &Ipv4Addr,
    destination: &Ipv4Addr,
) -> u16be {
    util::ipv4_checksum(
        packet.packet(),
        3,
        extra_data,
        source,
        destination,
        IpNextHeaderProtocols::Udp,
    )
}".

(** src/udp.rs:101-103 *)
Definition fn_udp_ipv6_checksum : string :=
"pub fn ipv6_checksum(packet: &UdpPacket, source: &Ipv6Addr, destination: &Ipv6Addr) -> u16be {
    ipv6_checksum_adv(packet, &[], source, destination)
}".

(** src/udp.rs:112-126 *)
Definition fn_udp_ipv6_checksum_adv : string :=
"pub fn ipv6_checksum_adv(
    packet: &UdpPacket,
    extra_data: &[u8],
    source: &Ipv6Addr,
    destination: &Ipv6Addr,
) -> u16be {
    util::ipv6_checksum(
        packet.packet(),
        3,
        extra_data,
        source,
        destination,
        IpNextHeaderProtocols::Udp,
    )
}".

(** src/icmp.rs:65-67 *)
Definition fn_icmp_checksum : string :=
"pub fn checksum(packet: &IcmpPacket) -> u16be {
    util::checksum(packet.packet(), 1)
}".

(** src/icmpv6.rs:75-84 *)
Definition fn_icmpv6_checksum : string :=
"pub fn checksum(packet: &Icmpv6Packet, source: &Ipv6Addr, destination: &Ipv6Addr) -> u16be {
    util::ipv6_checksum(
        packet.packet(),
        1,
        &[],
        source,
        destination,
        IpNextHeaderProtocols::Icmpv6,
    )
}".

(** src/util.rs:73-79 *)
Definition fn_util_checksum : string :=
"pub fn checksum(data: &[u8], skipword: usize) -> u16be {
    if data.len() == 0 {
        return 0;
    }
    let sum = sum_be_words(data, skipword);
    finalize_checksum(sum)
}".

(** src/util.rs:81-86 *)
Definition fn_util_finalize_checksum : string :=
"fn finalize_checksum(mut sum: u32) -> u16be {
    while sum >> 16 != 0 {
        sum = (sum >> 16) + (sum & 0xFFFF);
    }
    !sum as u16
}".

(** src/util.rs:89-114 *)
Definition fn_util_ipv4_checksum : string :=
"pub fn ipv4_checksum(
    data: &[u8],
    skipword: usize,
    extra_data: &[u8],
    source: &Ipv4Addr,
    destination: &Ipv4Addr,
    next_level_protocol: IpNextHeaderProtocol,
) -> u16be {
    let mut sum = 0u32;

    // Checksum pseudo-header
    sum += ipv4_word_sum(source);
    sum += ipv4_word_sum(destination);

    let IpNextHeaderProtocol(next_level_protocol) = next_level_protocol;
    sum += next_level_protocol as u32;

    let len = data.len() + extra_data.len();
    sum += len as u32;

    // Checksum packet header and data
    sum += sum_be_words(data, skipword);
    sum += sum_be_words(extra_data, extra_data.len() / 2);

    finalize_checksum(sum)
}".

(** src/util.rs:116-119 *)
Definition fn_util_ipv4_word_sum : string :=
"fn ipv4_word_sum(ip: &Ipv4Addr) -> u32 {
    let octets = ip.octets();
    ((octets[0] as u32) << 8 | octets[1] as u32) + ((octets[2] as u32) << 8 | octets[3] as u32)
}".

(** src/util.rs:122-147 *)
Definition fn_util_ipv6_checksum : string :=
"pub fn ipv6_checksum(
    data: &[u8],
    skipword: usize,
    extra_data: &[u8],
    source: &Ipv6Addr,
    destination: &Ipv6Addr,
    next_level_protocol: IpNextHeaderProtocol,
) -> u16be {
    let mut sum = 0u32;

    // Checksum pseudo-header
    sum += ipv6_word_sum(source);
    sum += ipv6_word_sum(destination);

    let IpNextHeaderProtocol(next_level_protocol) = next_level_protocol;
    sum += next_level_protocol as u32;

    let len = data.len() + extra_data.len();
    sum += len as u32;

    // Checksum packet header and data
    sum += sum_be_words(data, skipword);
    sum += sum_be_words(extra_data, extra_data.len() / 2);

    finalize_checksum(sum)
}".

(** src/util.rs:149-151 *)
Definition fn_util_ipv6_word_sum : string :=
"fn ipv6_word_sum(ip: &Ipv6Addr) -> u32 {
    ip.segments().iter().map(|x| *x as u32).sum()
}".

(** src/util.rs:155-178 *)
Definition fn_util_sum_be_words : string :=
"fn sum_be_words(data: &[u8], skipword: usize) -> u32 {
    if data.len() == 0 {
        return 0;
    }
    let len = data.len();
    let mut cur_data = &data[..];
    let mut sum = 0u32;
    let mut i = 0;
    while cur_data.len() >= 2 {
        if i != skipword {
            // It's safe to unwrap because we verified there are at least 2 bytes
            sum += u16::from_be_bytes(cur_data[0..2].try_into().unwrap()) as u32;
        }
        cur_data = &cur_data[2..];
        i += 1;
    }

    // If the length is odd, make sure to checksum the final byte
    if i != skipword && len & 1 != 0 {
        sum += (data[len - 1] as u32) << 8;
    }

    sum
}".

(** src/util.rs:28-39 *)
Definition fn_u64_octets : string :=
"    fn octets(&self) -> Self::Output {
        [
            (*self >> 56) as u8,
            (*self >> 48) as u8,
            (*self >> 40) as u8,
            (*self >> 32) as u8,
            (*self >> 24) as u8,
            (*self >> 16) as u8,
            (*self >> 8) as u8,
            *self as u8,
        ]
    }".

(** src/util.rs:45-52 *)
Definition fn_u32_octets : string :=
"    fn octets(&self) -> Self::Output {
        [
            (*self >> 24) as u8,
            (*self >> 16) as u8,
            (*self >> 8) as u8,
            *self as u8,
        ]
    }".

(** src/util.rs:58-60 *)
Definition fn_u16_octets : string :=
"    fn octets(&self) -> Self::Output {
        [(*self >> 8) as u8, *self as u8]
    }".

(** src/util.rs:66-68 *)
Definition fn_u8_octets : string :=
"    fn octets(&self) -> Self::Output {
        [*self]
    }".

(** core/src/macaddr.rs:31-33 *)
Definition fn_mac_new : string :=
"    pub fn new(a: u8, b: u8, c: u8, d: u8, e: u8, f: u8) -> MacAddr {
        MacAddr(a, b, c, d, e, f)
    }".

(** core/src/macaddr.rs:46-48 *)
Definition fn_mac_is_zero : string :=
"    pub fn is_zero(&self) -> bool {
        *self == Self::zero()
    }".

(** core/src/macaddr.rs:51-53 *)
Definition fn_mac_is_universal : string :=
"    pub fn is_universal(&self) -> bool {
        !self.is_local()
    }".

(** core/src/macaddr.rs:56-58 *)
Definition fn_mac_is_local : string :=
"    pub fn is_local(&self) -> bool {
        (self.0 & LOCAL_ADDR_BIT) == LOCAL_ADDR_BIT
    }".

(** core/src/macaddr.rs:61-63 *)
Definition fn_mac_is_unicast : string :=
"    pub fn is_unicast(&self) -> bool {
        !self.is_multicast()
    }".

(** core/src/macaddr.rs:66-68 *)
Definition fn_mac_is_multicast : string :=
"    pub fn is_multicast(&self) -> bool {
        (self.0 & MULTICAST_ADDR_BIT) == MULTICAST_ADDR_BIT
    }".

(** core/src/macaddr.rs:71-73 *)
Definition fn_mac_is_broadcast : string :=
"    pub fn is_broadcast(&self) -> bool {
        *self == Self::broadcast()
    }".

(** Module (or, for methods, type), name and text. *)
Definition crate_texts : list (string * string * string) :=
  [("quic", "varint_length", fn_quic_varint_length);
   ("quic", "varint", fn_quic_varint);
   ("quic", "packet_number", fn_quic_packet_number);
   ("quic", "n_varints", fn_quic_n_varints);
   ("ipv4", "ipv4_options_length", fn_ipv4_ipv4_options_length);
   ("ipv4", "ipv4_payload_length", fn_ipv4_ipv4_payload_length);
   ("ipv4", "ipv4_option_length", fn_ipv4_ipv4_option_length);
   ("ipv4", "ipv4_option_payload_length", fn_ipv4_ipv4_option_payload_length);
   ("ipv4", "checksum", fn_ipv4_checksum);
   ("ipv6", "ipv6_extension_length", fn_ipv6_ipv6_extension_length);
   ("ipv6", "routing_extension_length", fn_ipv6_routing_extension_length);
   ("tcp", "tcp_option_length", fn_tcp_tcp_option_length);
   ("tcp", "tcp_option_payload_length", fn_tcp_tcp_option_payload_length);
   ("tcp", "tcp_options_length", fn_tcp_tcp_options_length);
   ("tcp", "ipv4_checksum", fn_tcp_ipv4_checksum);
   ("tcp", "ipv4_checksum_adv", fn_tcp_ipv4_checksum_adv);
   ("tcp", "ipv6_checksum", fn_tcp_ipv6_checksum);
   ("tcp", "ipv6_checksum_adv", fn_tcp_ipv6_checksum_adv);
   ("udp", "ipv4_checksum", fn_udp_ipv4_checksum);
   ("udp", "ipv4_checksum_adv", fn_udp_ipv4_checksum_adv);
   ("udp", "ipv6_checksum", fn_udp_ipv6_checksum);
   ("udp", "ipv6_checksum_adv", fn_udp_ipv6_checksum_adv);
   ("icmp", "checksum", fn_icmp_checksum);
   ("icmpv6", "checksum", fn_icmpv6_checksum);
   ("util", "checksum", fn_util_checksum);
   ("util", "finalize_checksum", fn_util_finalize_checksum);
   ("util", "ipv4_checksum", fn_util_ipv4_checksum);
   ("util", "ipv4_word_sum", fn_util_ipv4_word_sum);
   ("util", "ipv6_checksum", fn_util_ipv6_checksum);
   ("util", "ipv6_word_sum", fn_util_ipv6_word_sum);
   ("util", "sum_be_words", fn_util_sum_be_words);
   ("u64", "octets", fn_u64_octets);
   ("u32", "octets", fn_u32_octets);
   ("u16", "octets", fn_u16_octets);
   ("u8", "octets", fn_u8_octets);
   ("mac", "new", fn_mac_new);
   ("mac", "is_zero", fn_mac_is_zero);
   ("mac", "is_universal", fn_mac_is_universal);
   ("mac", "is_local", fn_mac_is_local);
   ("mac", "is_unicast", fn_mac_is_unicast);
   ("mac", "is_multicast", fn_mac_is_multicast);
   ("mac", "is_broadcast", fn_mac_is_broadcast)].

(** ** Packet structs *)

(** src/ethernet.rs:15-25 *)
Definition struct_Ethernet : string :=
"#[derive(Debug, Packet)]
pub struct Ethernet {
    #[construct_with(u8, u8, u8, u8, u8, u8)]
    pub destination: MacAddr,
    #[construct_with(u8, u8, u8, u8, u8, u8)]
    pub source: MacAddr,
    #[construct_with(u16)]
    pub ethertype: EtherType,
    #[payload]
    pub payload: Vec<u8>,
}".

(** src/vlan.rs:57-67 *)
Definition struct_Vlan : string :=
"#[derive(Debug, Packet)]
pub struct Vlan {
    #[construct_with(u3)]
    pub priority_code_point: ClassOfService,
    pub drop_eligible_indicator: u1,
    pub vlan_identifier: u12be,
    #[construct_with(u16be)]
    pub ethertype: EtherType,
    #[payload]
    pub payload: Vec<u8>,
}".

(** src/arp.rs:75-101 *)
Definition struct_Arp : string :=
"#[derive(Debug, Packet)]
#[allow(non_snake_case)]
pub struct Arp {
    #[construct_with(u16)]
    pub hardware_type: ArpHardwareType,
    #[construct_with(u16)]
    pub protocol_type: EtherType,
    // We completely ignore hw_addr_len and
    // proto_addr_len and use values for
    // Ipv4 on top of Ethernet as it's the
    // most common use case
    pub hw_addr_len: u8,
    pub proto_addr_len: u8,
    #[construct_with(u16)]
    pub operation: ArpOperation,
    #[construct_with(u8, u8, u8, u8, u8, u8)]
    pub sender_hw_addr: MacAddr,
    #[construct_with(u8, u8, u8, u8)]
    pub sender_proto_addr: Ipv4Addr,
    #[construct_with(u8, u8, u8, u8, u8, u8)]
    pub target_hw_addr: MacAddr,
    #[construct_with(u8, u8, u8, u8)]
    pub target_proto_addr: Ipv4Addr,
    #[payload]
    #[length = ""0""]
    pub payload: Vec<u8>,
}".

(** src/ipv4.rs:132-155 *)
Definition struct_Ipv4 : string :=
"#[derive(Debug, Packet)]
pub struct Ipv4 {
    pub version: u4,
    pub header_length: u4,
    pub dscp: u6,
    pub ecn: u2,
    pub total_length: u16be,
    pub identification: u16be,
    pub flags: u3,
    pub fragment_offset: u13be,
    pub ttl: u8,
    #[construct_with(u8)]
    pub next_level_protocol: IpNextHeaderProtocol,
    pub checksum: u16be,
    #[construct_with(u8, u8, u8, u8)]
    pub source: Ipv4Addr,
    #[construct_with(u8, u8, u8, u8)]
    pub destination: Ipv4Addr,
    #[length = ""ipv4_options_length(header_length)""]
    pub options: Vec<Ipv4Option>,
    #[length = ""ipv4_payload_length(total_length, header_length)""]
    #[payload]
    pub payload: Vec<u8>,
}".

(** src/ipv4.rs:241-254 *)
Definition struct_Ipv4Option : string :=
"#[derive(Debug, Packet)]
pub struct Ipv4Option {
    copied: u1,
    class: u2,
    #[construct_with(u5)]
    number: Ipv4OptionNumber,
    #[length = ""ipv4_option_length(number)""]
    // The length field is an optional field, using a Vec is a way to implement
    // it
    length: Vec<u8>,
    #[length = ""ipv4_option_payload_length(&length)""]
    #[payload]
    data: Vec<u8>,
}".

(** src/ipv6.rs:16-32 *)
Definition struct_Ipv6 : string :=
"#[derive(Debug, Packet)]
pub struct Ipv6 {
    pub version: u4,
    pub traffic_class: u8,
    pub flow_label: u20be,
    pub payload_length: u16be,
    #[construct_with(u8)]
    pub next_header: IpNextHeaderProtocol,
    pub hop_limit: u8,
    #[construct_with(u16, u16, u16, u16, u16, u16, u16, u16)]
    pub source: Ipv6Addr,
    #[construct_with(u16, u16, u16, u16, u16, u16, u16, u16)]
    pub destination: Ipv6Addr,
    #[length = ""payload_length""]
    #[payload]
    pub payload: Vec<u8>,
}".

(** src/ipv6.rs:41-49 *)
Definition struct_Extension : string :=
"#[derive(Debug, Packet)]
pub struct Extension {
    #[construct_with(u8)]
    pub next_header: IpNextHeaderProtocol,
    pub hdr_ext_len: u8,
    #[length = ""ipv6_extension_length(hdr_ext_len)""]
    #[payload]
    pub options: Vec<u8>,
}".

(** src/ipv6.rs:63-73 *)
Definition struct_Routing : string :=
"#[derive(Debug, Packet)]
pub struct Routing {
    #[construct_with(u8)]
    pub next_header: IpNextHeaderProtocol,
    pub hdr_ext_len: u8,
    pub routing_type: u8,
    pub segments_left: u8,
    #[length = ""routing_extension_length(hdr_ext_len)""]
    #[payload]
    pub data: Vec<u8>,
}".

(** src/ipv6.rs:80-90 *)
Definition struct_Fragment : string :=
"#[derive(Debug, Packet)]
pub struct Fragment {
    #[construct_with(u8)]
    pub next_header: IpNextHeaderProtocol,
    pub reserved: u8,
    pub fragment_offset_with_flags: u16be,
    pub id: u32be,
    #[length = ""0""]
    #[payload]
    pub payload: Vec<u8>,
}".

(** src/udp.rs:16-24 *)
Definition struct_Udp : string :=
"#[derive(Debug, Packet)]
pub struct Udp {
    pub source: u16be,
    pub destination: u16be,
    pub length: u16be,
    pub checksum: u16be,
    #[payload]
    pub payload: Vec<u8>,
}".

(** src/tcp.rs:54-70 *)
Definition struct_Tcp : string :=
"#[derive(Debug, Packet)]
pub struct Tcp {
    pub source: u16be,
    pub destination: u16be,
    pub sequence: u32be,
    pub acknowledgement: u32be,
    pub data_offset: u4,
    pub reserved: u3,
    pub flags: u9be,
    pub window: u16be,
    pub checksum: u16be,
    pub urgent_ptr: u16be,
    #[length = ""tcp_options_length(data_offset)""]
    pub options: Vec<TcpOption>,
    #[payload]
    pub payload: Vec<u8>,
}".

(** src/tcp.rs:105-116 *)
Definition struct_TcpOption : string :=
"#[derive(Debug, Packet)]
pub struct TcpOption {
    #[construct_with(u8)]
    number: TcpOptionNumber,
    #[length = ""tcp_option_length(number)""]
    // The length field is an optional field, using a Vec is a way to implement
    // it
    length: Vec<u8>,
    #[length = ""tcp_option_payload_length(&length)""]
    #[payload]
    data: Vec<u8>,
}".

(** src/gre.rs:37-60 *)
Definition struct_Gre : string :=
"#[derive(Debug, Packet)]
pub struct Gre {
    pub checksum_present: u1,
    pub routing_present: u1,
    pub key_present: u1,
    pub sequence_present: u1,
    pub strict_source_route: u1,
    pub recursion_control: u3,
    pub zero_flags: u5,
    pub version: u3,
    pub protocol_type: u16be, // 0x800 for ipv4 [basically an ethertype
    #[length = ""(checksum_present | routing_present) * 2""]
    pub checksum: Vec<U16BE>,
    #[length = ""(checksum_present | routing_present) * 2""]
    pub offset: Vec<U16BE>,
    #[length = ""key_present * 4""]
    pub key: Vec<U32BE>,
    #[length = ""sequence_present * 4""]
    pub sequence: Vec<U32BE>,
    #[length = ""if routing_present == 0 { 0 } else { unimplemented!() }""]
    pub routing: Vec<u8>,
    #[payload]
    pub payload: Vec<u8>,
}".

(** src/gre.rs:63-69 *)
Definition struct_U16BE : string :=
"#[derive(Debug, Packet)]
pub struct U16BE {
    number: u16be,
    #[length = ""0""]
    #[payload]
    unused: Vec<u8>,
}".

(** src/gre.rs:72-78 *)
Definition struct_U32BE : string :=
"#[derive(Debug, Packet)]
pub struct U32BE {
    number: u32be,
    #[length = ""0""]
    #[payload]
    unused: Vec<u8>,
}".

(** src/icmp.rs:50-62 *)
Definition struct_Icmp : string :=
"#[derive(Debug, Packet)]
pub struct Icmp {
    #[construct_with(u8)]
    pub icmp_type: IcmpType,
    #[construct_with(u8)]
    pub icmp_code: IcmpCode,
    pub checksum: u16be,
    // theoretically, the header is 64 bytes long, but since the ""Rest Of Header"" part depends on
    // the ICMP type and ICMP code, we consider it's part of the payload.
    // rest_of_header: u32be,
    #[payload]
    pub payload: Vec<u8>,
}".

(** src/icmp.rs:205-216 *)
Definition struct_EchoReply : string :=
"    #[derive(Debug, Packet)]
    pub struct EchoReply {
        #[construct_with(u8)]
        pub icmp_type: IcmpType,
        #[construct_with(u8)]
        pub icmp_code: IcmpCode,
        pub checksum: u16be,
        pub identifier: u16be,
        pub sequence_number: u16be,
        #[payload]
        pub payload: Vec<u8>,
    }".

(** src/icmp.rs:282-293 *)
Definition struct_EchoRequest : string :=
"    #[derive(Debug, Packet)]
    pub struct EchoRequest {
        #[construct_with(u8)]
        pub icmp_type: IcmpType,
        #[construct_with(u8)]
        pub icmp_code: IcmpCode,
        pub checksum: u16be,
        pub identifier: u16be,
        pub sequence_number: u16be,
        #[payload]
        pub payload: Vec<u8>,
    }".

(** src/icmp.rs:352-362 *)
Definition struct_DestinationUnreachable : string :=
"    #[derive(Debug, Packet)]
    pub struct DestinationUnreachable {
        #[construct_with(u8)]
        pub icmp_type: IcmpType,
        #[construct_with(u8)]
        pub icmp_code: IcmpCode,
        pub checksum: u16be,
        pub unused: u32be,
        #[payload]
        pub payload: Vec<u8>,
    }".

(** src/icmp.rs:393-403 *)
Definition struct_TimeExceeded : string :=
"    #[derive(Debug, Packet)]
    pub struct TimeExceeded {
        #[construct_with(u8)]
        pub icmp_type: IcmpType,
        #[construct_with(u8)]
        pub icmp_code: IcmpCode,
        pub checksum: u16be,
        pub unused: u32be,
        #[payload]
        pub payload: Vec<u8>,
    }".

(** src/icmpv6.rs:63-72 *)
Definition struct_Icmpv6 : string :=
"#[derive(Debug, Packet)]
pub struct Icmpv6 {
    #[construct_with(u8)]
    pub icmpv6_type: Icmpv6Type,
    #[construct_with(u8)]
    pub icmpv6_code: Icmpv6Code,
    pub checksum: u16be,
    #[payload]
    pub payload: Vec<u8>,
}".

(** src/icmpv6.rs:277-286 *)
Definition struct_NdpOption : string :=
"    #[derive(Debug, Packet)]
    pub struct NdpOption {
        #[construct_with(u8)]
        pub option_type: NdpOptionType,
        #[construct_with(u8)]
        pub length: u8,
        #[length = ""(length * 8).saturating_sub(2)""]
        #[payload]
        pub data: Vec<u8>,
    }".

(** src/icmpv6.rs:300-312 *)
Definition struct_RouterSolicit : string :=
"    #[derive(Debug, Packet)]
    pub struct RouterSolicit {
        #[construct_with(u8)]
        pub icmpv6_type: Icmpv6Type,
        #[construct_with(u8)]
        pub icmpv6_code: Icmpv6Code,
        pub checksum: u16be,
        pub reserved: u32be,
        #[payload]
        #[length = ""0""]
        pub payload: Vec<u8>,
        pub options: Vec<NdpOption>,
    }".

(** src/icmpv6.rs:343-359 *)
Definition struct_RouterAdvert : string :=
"    #[derive(Debug, Packet)]
    pub struct RouterAdvert {
        #[construct_with(u8)]
        pub icmpv6_type: Icmpv6Type,
        #[construct_with(u8)]
        pub icmpv6_code: Icmpv6Code,
        pub checksum: u16be,
        pub hop_limit: u8,
        pub flags: u8,
        pub lifetime: u16be,
        pub reachable_time: u32be,
        pub retrans_time: u32be,
        #[payload]
        #[length = ""0""]
        pub payload: Vec<u8>,
        pub options: Vec<NdpOption>,
    }".

(** src/icmpv6.rs:382-396 *)
Definition struct_NeighborSolicit : string :=
"    #[derive(Debug, Packet)]
    pub struct NeighborSolicit {
        #[construct_with(u8)]
        pub icmpv6_type: Icmpv6Type,
        #[construct_with(u8)]
        pub icmpv6_code: Icmpv6Code,
        pub checksum: u16be,
        pub reserved: u32be,
        #[construct_with(u16, u16, u16, u16, u16, u16, u16, u16)]
        pub target_addr: Ipv6Addr,
        #[payload]
        #[length = ""0""]
        pub payload: Vec<u8>,
        pub options: Vec<NdpOption>,
    }".

(** src/icmpv6.rs:433-448 *)
Definition struct_NeighborAdvert : string :=
"    #[derive(Debug, Packet)]
    pub struct NeighborAdvert {
        #[construct_with(u8)]
        pub icmpv6_type: Icmpv6Type,
        #[construct_with(u8)]
        pub icmpv6_code: Icmpv6Code,
        pub checksum: u16be,
        pub flags: u8,
        pub reserved: u24be,
        #[construct_with(u16, u16, u16, u16, u16, u16, u16, u16)]
        pub target_addr: Ipv6Addr,
        #[payload]
        #[length = ""0""]
        pub payload: Vec<u8>,
        pub options: Vec<NdpOption>,
    }".

(** src/icmpv6.rs:479-495 *)
Definition struct_Redirect : string :=
"    #[derive(Debug, Packet)]
    pub struct Redirect {
        #[construct_with(u8)]
        pub icmpv6_type: Icmpv6Type,
        #[construct_with(u8)]
        pub icmpv6_code: Icmpv6Code,
        pub checksum: u16be,
        pub reserved: u32be,
        #[construct_with(u16, u16, u16, u16, u16, u16, u16, u16)]
        pub target_addr: Ipv6Addr,
        #[construct_with(u16, u16, u16, u16, u16, u16, u16, u16)]
        pub dest_addr: Ipv6Addr,
        #[payload]
        #[length = ""0""]
        pub payload: Vec<u8>,
        pub options: Vec<NdpOption>,
    }".

(** src/quic.rs:201-214 *)
Definition struct_VersionNegotiation : string :=
"#[derive(Debug, Packet)]
pub struct VersionNegotiation {
    #[construct_with(u1)]
    header_form: HeaderForm,
    unused: u7,
    version: u32be,
    dest_id_len: u8,
    #[length = ""dest_id_len""]
    dest_id: Vec<u8>,
    src_id_len: u8,
    #[length = ""src_id_len""]
    src_id: Vec<u8>,
    supported_versions: Vec<u8>,
}".

(** src/quic.rs:216-245 *)
Definition struct_Initial : string :=
"#[derive(Debug, Packet)]
pub struct Initial {
    #[construct_with(u1)]
    header_form: HeaderForm,
    #[construct_with(u1)]
    fixed_bit: FixedBit,
    #[construct_with(u2)]
    long_packet_type: LongPacketType,
    reserved: u2,
    packet_number_len: u2,
    #[construct_with(u32be)]
    version: Version,
    dest_id_len: u8,
    #[length = ""dest_id_len""]
    dest_id: Vec<u8>,
    src_id_len: u8,
    #[length = ""src_id_len""]
    src_id: Vec<u8>,
    #[length = ""varint_length(...)""]
    token_length: Vec<u8>,
    #[length = ""varint(&token_length)""]
    token: Vec<u8>,
    #[length = ""varint_length(...)""]
    length: Vec<u8>,
    #[length = ""packet_number_len + 1""]
    packet_number: Vec<u8>,
    #[length = ""varint(&length) - packet_number.len()""]
    frames: Vec<u8>,
    remaining: Vec<u8>,
}".

(** src/quic.rs:247-272 *)
Definition struct_ZeroRtt : string :=
"#[derive(Debug, Packet)]
pub struct ZeroRtt {
    #[construct_with(u1)]
    header_form: HeaderForm,
    #[construct_with(u1)]
    fixed_bit: FixedBit,
    #[construct_with(u2)]
    long_packet_type: LongPacketType,
    reserved: u2,
    packet_number_len: u2,
    #[construct_with(u32be)]
    version: Version,
    dest_id_len: u8,
    #[length = ""dest_id_len""]
    dest_id: Vec<u8>,
    src_id_len: u8,
    #[length = ""src_id_len""]
    src_id: Vec<u8>,
    #[length = ""varint_length(...)""]
    length: Vec<u8>,
    #[length = ""packet_number_len + 1""]
    packet_number: Vec<u8>,
    #[length = ""varint(&length) - packet_number.len()""]
    frames: Vec<u8>,
    remaining: Vec<u8>,
}".

(** src/quic.rs:274-299 *)
Definition struct_Handshake : string :=
"#[derive(Debug, Packet)]
pub struct Handshake {
    #[construct_with(u1)]
    header_form: HeaderForm,
    #[construct_with(u1)]
    fixed_bit: FixedBit,
    #[construct_with(u2)]
    long_packet_type: LongPacketType,
    reserved: u2,
    packet_number_len: u2,
    #[construct_with(u32be)]
    version: Version,
    dest_id_len: u8,
    #[length = ""dest_id_len""]
    dest_id: Vec<u8>,
    src_id_len: u8,
    #[length = ""src_id_len""]
    src_id: Vec<u8>,
    #[length = ""varint_length(...)""]
    length: Vec<u8>,
    #[length = ""packet_number_len + 1""]
    packet_number: Vec<u8>,
    #[length = ""varint(&length) - packet_number.len()""]
    frames: Vec<u8>,
    remaining: Vec<u8>,
}".

(** src/quic.rs:301-319 *)
Definition struct_Retry : string :=
"#[derive(Debug, Packet)]
pub struct Retry {
    #[construct_with(u1)]
    header_form: HeaderForm,
    #[construct_with(u1)]
    fixed_bit: FixedBit,
    #[construct_with(u2)]
    long_packet_type: LongPacketType,
    unused: u4,
    #[construct_with(u32be)]
    version: Version,
    dest_id_len: u8,
    #[length = ""dest_id_len""]
    dest_id: Vec<u8>,
    src_id_len: u8,
    #[length = ""src_id_len""]
    src_id: Vec<u8>,
    retry_token: Vec<u8>,
}".

(** src/quic.rs:321-335 *)
Definition struct_OneRtt : string :=
"#[derive(Debug, Packet)]
pub struct OneRtt {
    header_form: u1,
    fixed_bit: u1,
    spin_bit: u1,
    reserved_bits: u2,
    key_phase: u1,
    packet_number_len: u2,
    #[length = ""8""] // TODO: dest_id len
    dest_id: Vec<u8>,
    #[length = ""packet_number_len + 1""]
    packet_number: Vec<u8>,
    #[payload]
    payload: Vec<u8>,
}".

(** src/quic.rs:620-625 *)
Definition struct_Padding : string :=
"#[derive(Debug, Packet)]
pub struct Padding {
    #[construct_with(u8)]
    ty: FrameType,
    remaining: Vec<u8>,
}".

(** src/quic.rs:627-632 *)
Definition struct_Ping : string :=
"#[derive(Debug, Packet)]
pub struct Ping {
    #[construct_with(u8)]
    ty: FrameType,
    remaining: Vec<u8>,
}".

(** src/quic.rs:634-651 *)
Definition struct_Ack : string :=
"#[derive(Debug, Packet)]
pub struct Ack {
    #[construct_with(u8)]
    ty: FrameType,
    #[length = ""varint_length(...)""]
    largest_acknowledged: Vec<u8>,
    #[length = ""varint_length(...)""]
    ack_delay: Vec<u8>,
    #[length = ""varint_length(...)""]
    ack_range_count: Vec<u8>,
    #[length = ""varint_length(...)""]
    first_ack_range: Vec<u8>,
    #[length = ""n_varints(varint(&ack_range_count), ...)""]
    ack_range: Vec<u8>,
    #[length = ""n_varints(if ty.0 == 0x03 { 3 } else { 0 }, ...)""]
    ecn_counts: Vec<u8>,
    remaining: Vec<u8>,
}".

(** src/quic.rs:653-664 *)
Definition struct_ResetStream : string :=
"#[derive(Debug, Packet)]
pub struct ResetStream {
    #[construct_with(u8)]
    ty: FrameType,
    #[length = ""varint_length(...)""]
    stream_id: Vec<u8>,
    #[length = ""varint_length(...)""]
    application_protocol_error_code: Vec<u8>,
    #[length = ""varint_length(...)""]
    final_size: Vec<u8>,
    remaining: Vec<u8>,
}".

(** src/quic.rs:666-675 *)
Definition struct_StopSending : string :=
"#[derive(Debug, Packet)]
pub struct StopSending {
    #[construct_with(u8)]
    ty: FrameType,
    #[length = ""varint_length(...)""]
    stream_id: Vec<u8>,
    #[length = ""varint_length(...)""]
    application_protocol_error_code: Vec<u8>,
    remaining: Vec<u8>,
}".

(** src/quic.rs:677-688 *)
Definition struct_Crypto : string :=
"#[derive(Debug, Packet)]
pub struct Crypto {
    #[construct_with(u8)]
    ty: FrameType,
    #[length = ""varint_length(...)""]
    offset: Vec<u8>,
    #[length = ""varint_length(...)""]
    length: Vec<u8>,
    #[length = ""varint(&length)""]
    crypto_payload: Vec<u8>,
    remaining: Vec<u8>,
}".

(** src/quic.rs:690-699 *)
Definition struct_NewToken : string :=
"#[derive(Debug, Packet)]
pub struct NewToken {
    #[construct_with(u8)]
    ty: FrameType,
    #[length = ""varint_length(...)""]
    token_length: Vec<u8>,
    #[length = ""varint(&token_length)""]
    token: Vec<u8>,
    remaining: Vec<u8>,
}".

(** src/quic.rs:701-715 *)
Definition struct_Stream : string :=
"#[derive(Debug, Packet)]
pub struct Stream {
    #[construct_with(u8)]
    ty: FrameType,
    #[length = ""varint_length(...)""]
    stream_id: Vec<u8>,
    #[length = ""n_varints(if ty.0 & 0x04 > 0 { 1 } else { 0 }, ...)""]
    offset: Vec<u8>,
    #[length = ""n_varints(if ty.0 & 0x02 > 0 { 1 } else { 0 }, ...)""]
    length: Vec<u8>,
    #[payload]
    #[length = ""if length.is_empty() { (...).len() } else { varint(&length) }""]
    stream_data: Vec<u8>,
    remaining: Vec<u8>,
}".

(** src/quic.rs:717-724 *)
Definition struct_MaxData : string :=
"#[derive(Debug, Packet)]
pub struct MaxData {
    #[construct_with(u8)]
    ty: FrameType,
    #[length = ""varint_length(...)""]
    max_data: Vec<u8>,
    remaining: Vec<u8>,
}".

(** src/quic.rs:726-735 *)
Definition struct_MaxStreamData : string :=
"#[derive(Debug, Packet)]
pub struct MaxStreamData {
    #[construct_with(u8)]
    ty: FrameType,
    #[length = ""varint_length(...)""]
    stream_id: Vec<u8>,
    #[length = ""varint_length(...)""]
    max_stream_data: Vec<u8>,
    remaining: Vec<u8>,
}".

(** src/quic.rs:737-744 *)
Definition struct_MaxStreams : string :=
"#[derive(Debug, Packet)]
pub struct MaxStreams {
    #[construct_with(u8)]
    ty: FrameType,
    #[length = ""varint_length(...)""]
    max_streams: Vec<u8>,
    remaining: Vec<u8>,
}".

(** src/quic.rs:746-753 *)
Definition struct_DataBlocked : string :=
"#[derive(Debug, Packet)]
pub struct DataBlocked {
    #[construct_with(u8)]
    ty: FrameType,
    #[length = ""varint_length(...)""]
    max_data: Vec<u8>,
    remaining: Vec<u8>,
}".

(** src/quic.rs:755-764 *)
Definition struct_StreamDataBlocked : string :=
"#[derive(Debug, Packet)]
pub struct StreamDataBlocked {
    #[construct_with(u8)]
    ty: FrameType,
    #[length = ""varint_length(...)""]
    stream_id: Vec<u8>,
    #[length = ""varint_length(...)""]
    max_stream_data: Vec<u8>,
    remaining: Vec<u8>,
}".

(** src/quic.rs:766-773 *)
Definition struct_StreamsBlocked : string :=
"#[derive(Debug, Packet)]
pub struct StreamsBlocked {
    #[construct_with(u8)]
    ty: FrameType,
    #[length = ""varint_length(...)""]
    max_streams: Vec<u8>,
    remaining: Vec<u8>,
}".

(** src/quic.rs:775-789 *)
Definition struct_NewConnectionId : string :=
"#[derive(Debug, Packet)]
pub struct NewConnectionId {
    #[construct_with(u8)]
    ty: FrameType,
    #[length = ""varint_length(...)""]
    sequence_number: Vec<u8>,
    #[length = ""varint_length(...)""]
    retire_prior_to: Vec<u8>,
    length: u8,
    #[length = ""length""]
    connection_id: Vec<u8>,
    #[length = ""16""]
    stateless_reset_token: Vec<u8>,
    remaining: Vec<u8>,
}".

(** src/quic.rs:791-798 *)
Definition struct_RetireConnectionId : string :=
"#[derive(Debug, Packet)]
pub struct RetireConnectionId {
    #[construct_with(u8)]
    ty: FrameType,
    #[length = ""varint_length(...)""]
    sequence_number: Vec<u8>,
    remaining: Vec<u8>,
}".

(** src/quic.rs:800-807 *)
Definition struct_PathChallenge : string :=
"#[derive(Debug, Packet)]
pub struct PathChallenge {
    #[construct_with(u8)]
    ty: FrameType,
    #[length = ""8""]
    data: Vec<u8>,
    remaining: Vec<u8>,
}".

(** src/quic.rs:809-816 *)
Definition struct_PathResponse : string :=
"#[derive(Debug, Packet)]
pub struct PathResponse {
    #[construct_with(u8)]
    ty: FrameType,
    #[length = ""8""]
    data: Vec<u8>,
    remaining: Vec<u8>,
}".

(** src/quic.rs:818-831 *)
Definition struct_ConnectionClose : string :=
"#[derive(Debug, Packet)]
pub struct ConnectionClose {
    #[construct_with(u8)]
    ty: FrameType,
    #[length = ""varint_length(...)""]
    error_code: Vec<u8>,
    #[length = ""n_varints(if ty.0 == 0x1d { 0 } else { 1 }, ...)""]
    frame_type: Vec<u8>,
    #[length = ""varint_length(...)""]
    reason_phrase_length: Vec<u8>,
    #[length = ""varint(&reason_phrase_length)""]
    reason_phrase: Vec<u8>,
    remaining: Vec<u8>,
}".

(** src/quic.rs:833-838 *)
Definition struct_HandshakeDone : string :=
"#[derive(Debug, Packet)]
pub struct HandshakeDone {
    #[construct_with(u8)]
    ty: FrameType,
    remaining: Vec<u8>,
}".

(** Module, name and text. *)
Definition crate_structs : list (string * string * string) :=
  [("ethernet", "Ethernet", struct_Ethernet);
   ("vlan", "Vlan", struct_Vlan);
   ("arp", "Arp", struct_Arp);
   ("ipv4", "Ipv4", struct_Ipv4);
   ("ipv4", "Ipv4Option", struct_Ipv4Option);
   ("ipv6", "Ipv6", struct_Ipv6);
   ("ipv6", "Extension", struct_Extension);
   ("ipv6", "Routing", struct_Routing);
   ("ipv6", "Fragment", struct_Fragment);
   ("udp", "Udp", struct_Udp);
   ("tcp", "Tcp", struct_Tcp);
   ("tcp", "TcpOption", struct_TcpOption);
   ("gre", "Gre", struct_Gre);
   ("gre", "U16BE", struct_U16BE);
   ("gre", "U32BE", struct_U32BE);
   ("icmp", "Icmp", struct_Icmp);
   ("icmp", "EchoReply", struct_EchoReply);
   ("icmp", "EchoRequest", struct_EchoRequest);
   ("icmp", "DestinationUnreachable", struct_DestinationUnreachable);
   ("icmp", "TimeExceeded", struct_TimeExceeded);
   ("icmpv6", "Icmpv6", struct_Icmpv6);
   ("icmpv6", "NdpOption", struct_NdpOption);
   ("icmpv6", "RouterSolicit", struct_RouterSolicit);
   ("icmpv6", "RouterAdvert", struct_RouterAdvert);
   ("icmpv6", "NeighborSolicit", struct_NeighborSolicit);
   ("icmpv6", "NeighborAdvert", struct_NeighborAdvert);
   ("icmpv6", "Redirect", struct_Redirect);
   ("quic", "VersionNegotiation", struct_VersionNegotiation);
   ("quic", "Initial", struct_Initial);
   ("quic", "ZeroRtt", struct_ZeroRtt);
   ("quic", "Handshake", struct_Handshake);
   ("quic", "Retry", struct_Retry);
   ("quic", "OneRtt", struct_OneRtt);
   ("quic", "Padding", struct_Padding);
   ("quic", "Ping", struct_Ping);
   ("quic", "Ack", struct_Ack);
   ("quic", "ResetStream", struct_ResetStream);
   ("quic", "StopSending", struct_StopSending);
   ("quic", "Crypto", struct_Crypto);
   ("quic", "NewToken", struct_NewToken);
   ("quic", "Stream", struct_Stream);
   ("quic", "MaxData", struct_MaxData);
   ("quic", "MaxStreamData", struct_MaxStreamData);
   ("quic", "MaxStreams", struct_MaxStreams);
   ("quic", "DataBlocked", struct_DataBlocked);
   ("quic", "StreamDataBlocked", struct_StreamDataBlocked);
   ("quic", "StreamsBlocked", struct_StreamsBlocked);
   ("quic", "NewConnectionId", struct_NewConnectionId);
   ("quic", "RetireConnectionId", struct_RetireConnectionId);
   ("quic", "PathChallenge", struct_PathChallenge);
   ("quic", "PathResponse", struct_PathResponse);
   ("quic", "ConnectionClose", struct_ConnectionClose);
   ("quic", "HandshakeDone", struct_HandshakeDone)].

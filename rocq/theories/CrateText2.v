(** Source text: functions of the derive crate, impl blocks, modules of constants and tuple
    structs of the crates, copied from /repo without changes.  This file is data; RustAst.v
    reads it. *)
From Coq Require Import String List.
Import ListNotations.
Open Scope string_scope.

(** ** Functions *)

(** derive/src/util.rs:21-29 *)
Definition code_derive_0 : string :=
"impl std::fmt::Display for Endianness {
    fn fmt(&self, f: &mut std::fmt::Formatter) -> std::fmt::Result {
        match self {
            Self::Big => write!(f, ""big-endian""),
            Self::Little => write!(f, ""little-endian""),
            Self::Host => write!(f, ""host-endian""),
        }
    }
}".

(** derive/src/util.rs:38-57 *)
Definition code_derive_1 : string :=
"impl fmt::Display for GetOperation {
    fn fmt(&self, fmt: &mut fmt::Formatter) -> fmt::Result {
        let should_mask = self.mask != 0xFF;
        let shift = (self.shiftr as i16) - (self.shiftl as i16);

        let mask_str = if should_mask {
            format!(""({{}} & 0x{})"", radix16_u8(self.mask))
        } else {
            ""{}"".to_owned()
        };

        if shift == 0 {
            write!(fmt, ""{}"", mask_str)
        } else if shift < 0 {
            write!(fmt, ""{} << {}"", mask_str, shift.abs())
        } else {
            write!(fmt, ""{} >> {}"", mask_str, shift.abs())
        }
    }
}".

(** derive/src/util.rs:122-147 *)
Definition code_derive_2 : string :=
"macro_rules! radix_fn {
    ($name:ident, $ty:ty) => {
        fn $name(mut val: $ty) -> String {
            let mut ret = String::new();
            let vals = ""0123456789abcdef"".as_bytes();
            while val > 0 {
                let remainder = val % 16;
                val /= 16;
                ret = format!(""{}{}"", vals[remainder as usize] as char, ret);
            }

            ret
        }

        mod $name {
            #[test]
            fn test() {
                assert_eq!(super::$name(0xab), ""ab"".to_owned());
                assert_eq!(super::$name(0x1c), ""1c"".to_owned());
            }
        }
    };
}

radix_fn!(radix16_u8, u8);
radix_fn!(radix16_u64, u64);".

(** derive/src/util.rs:149-185 *)
Definition code_derive_3 : string :=
"impl fmt::Display for SetOperation {
    fn fmt(&self, fmt: &mut fmt::Formatter) -> fmt::Result {
        let should_mask = self.value_mask != 0xFF;
        let should_save = self.save_mask != 0x00;
        let shift = (self.shiftr as i16) - (self.shiftl as i16);

        let save_str = if should_save {
            format!(""({{packet}} & 0x{})"", radix16_u8(self.save_mask))
        } else {
            """".to_owned()
        };

        let mask_str = if should_mask {
            format!(""({{val}} & 0x{})"", radix16_u64(self.value_mask))
        } else {
            ""{val}"".to_owned()
        };

        let shift_str = if shift == 0 {
            format!(""{}"", mask_str)
        } else if shift < 0 {
            format!(""{} << {}"", mask_str, shift.abs())
        } else {
            format!(""{} >> {}"", mask_str, shift.abs())
        };

        if should_save {
            write!(
                fmt,
                ""{{packet}} = ({} | ({}) as u8) as u8"",
                save_str, shift_str
            )
        } else {
            write!(fmt, ""{{packet}} = ({}) as u8"", shift_str)
        }
    }
}".

(** derive/src/util.rs:245-270 *)
Definition code_derive_4 : string :=
"fn get_mask(offset: usize, bits_remaining: usize) -> (usize, u8) {
    fn bits_remaining_in_byte(offset: usize, bits_remaining: usize) -> usize {
        fn round_down(max_val: usize, val: usize) -> usize {
            if val > max_val {
                max_val
            } else {
                val
            }
        }
        if (bits_remaining / 8) >= 1 {
            8 - offset
        } else {
            round_down(8 - offset, bits_remaining)
        }
    }
    assert!(offset <= 7);
    let mut num_bits_to_mask = bits_remaining_in_byte(offset, bits_remaining);
    assert!(num_bits_to_mask <= 8 - offset);
    let mut mask = 0;
    while num_bits_to_mask > 0 {
        mask = mask | (0x80 >> (offset + num_bits_to_mask - 1));
        num_bits_to_mask -= 1;
    }

    (bits_remaining_in_byte(offset, bits_remaining), mask)
}".

(** derive/src/util.rs:307-319 *)
Definition code_derive_5 : string :=
"fn get_shiftl(offset: usize, size: usize, byte_number: usize, num_bytes: usize) -> u8 {
    if num_bytes == 1 || byte_number + 1 == num_bytes {
        0
    } else {
        let base_shift = 8 - ((num_bytes * 8) - offset - size);
        let bytes_to_shift = num_bytes - byte_number - 2;

        let ret = base_shift + (8 * bytes_to_shift);

        // (ret % 8) as u8
        ret as u8
    }
}".

(** derive/src/util.rs:347-353 *)
Definition code_derive_6 : string :=
"fn get_shiftr(offset: usize, size: usize, byte_number: usize, num_bytes: usize) -> u8 {
    if byte_number + 1 == num_bytes {
        ((num_bytes * 8) - offset - size) as u8
    } else {
        0
    }
}".

(** derive/src/util.rs:390-432 *)
Definition code_derive_7 : string :=
"pub fn operations(offset: usize, size: usize, endianness: Endianness) -> Option<Vec<GetOperation>> {
    if offset > 7 || size == 0 || size > 64 {
        return None;
    }

    let num_full_bytes = size / 8;
    let num_bytes = if offset > 0 || size % 8 != 0 {
        num_full_bytes + 1
    } else {
        num_full_bytes
    };

    let mut current_offset = offset;
    let mut num_bits_remaining = size;
    let mut ops = Vec::with_capacity(num_bytes);
    for i in 0..num_bytes {
        let (consumed, mask) = get_mask(current_offset, num_bits_remaining);
        ops.push(GetOperation {
            mask: mask,
            shiftl: get_shiftl(offset, size, i, num_bytes),
            shiftr: get_shiftr(offset, size, i, num_bytes),
        });
        current_offset = 0;
        if num_bits_remaining >= consumed {
            num_bits_remaining -= consumed;
        }
    }

    let target_endianness = if cfg!(target_endian = ""little"") {
        Endianness::Little
    } else {
        Endianness::Big
    };
    Some(
        if endianness == Endianness::Little
            || (target_endianness == Endianness::Little && endianness == Endianness::Host)
        {
            to_little_endian(ops)
        } else {
            ops
        },
    )
}".

(** derive/src/util.rs:656-664 *)
Definition code_derive_8 : string :=
"fn mask_high_bits(mut bits: u64) -> u64 {
    let mut mask = 0;
    while bits > 0 {
        mask = mask | (1 << (bits - 1));
        bits -= 1;
    }

    mask
}".

(** derive/src/util.rs:670-693 *)
Definition code_derive_9 : string :=
"pub fn to_mutator(ops: &[GetOperation]) -> Vec<SetOperation> {
    fn num_bits_set(n: u8) -> u64 {
        let mut count = 0;
        for i in 0..8 {
            if n & (1 << i) > 0 {
                count += 1;
            }
        }

        count
    }

    let mut sops = Vec::with_capacity(ops.len());
    for op in ops {
        sops.push(SetOperation {
            save_mask: !op.mask,
            value_mask: mask_high_bits(num_bits_set(op.mask)) << op.shiftl,
            shiftl: op.shiftr,
            shiftr: op.shiftl,
        });
    }

    sops
}".

(** derive/src/util.rs:1075-1081 *)
Definition code_derive_10 : string :=
"fn to_little_endian(_ops: Vec<GetOperation>) -> Vec<GetOperation> {
    let mut ops = _ops.clone();
    for (op, be_op) in ops.iter_mut().zip(_ops.iter().rev()) {
        op.shiftl = be_op.shiftl;
    }
    ops
}".

(** derive/src/gen.rs:755-768 *)
Definition code_derive_11 : string :=
"fn gen_set_ops(name: &str, operations: &[SetOperation]) -> proc_macro2::TokenStream {
    let mut op_strings = String::new();
    for (idx, sop) in operations.iter().enumerate() {
        let pkt_replace = format!(""{}[co + {}]"", name, idx);
        let val_replace = ""val"";
        let sop = sop
            .to_string()
            .replace(""{packet}"", &pkt_replace[..])
            .replace(""{val}"", val_replace);
        op_strings = op_strings + &sop[..] + "";\n"";
    }
    let stmt = syn::parse_str::<syn::Expr>(&format!(""{{{}}}"", op_strings)).expect(""gen_set_ops"");
    quote!(#stmt)
}".

(** derive/src/gen.rs:774-806 *)
Definition code_derive_12 : string :=
"fn gen_get_ops(name: &str, ty: &str, operations: &[GetOperation]) -> proc_macro2::TokenStream {
    fn build_return(max: usize) -> String {
        let mut ret = """".to_owned();
        for i in 0..max {
            ret = ret + &format!(""b{} | "", i)[..];
        }
        let new_len = ret.len() - 3;
        ret.truncate(new_len);

        ret
    }

    let op_strings = if operations.len() == 1 {
        let replacement_str = format!(""({}[co] as {})"", name, ty);
        operations
            .first()
            .unwrap()
            .to_string()
            .replace(""{}"", &replacement_str[..])
    } else {
        let mut op_strings = """".to_owned();
        for (idx, operation) in operations.iter().enumerate() {
            let replacement_str = format!(""({}[co + {}] as {})"", name, idx, ty);
            let operation = operation.to_string().replace(""{}"", &replacement_str[..]);
            op_strings = op_strings + &format!(""let b{} = ({}) as {};\n"", idx, operation, ty)[..];
        }
        op_strings = op_strings + &format!(""\n{}\n"", build_return(operations.len()))[..];

        op_strings
    };
    let stmt = syn::parse_str::<syn::Expr>(&format!(""{{{}}}"", op_strings)).expect(""gen_get_ops"");
    quote!(#stmt)
}".

(** src/ethernet.rs:116-121 *)
Definition code_ethernet_0 : string :=
"impl EtherType {
    /// Construct a new `EtherType` instance.
    pub fn new(val: u16) -> EtherType {
        EtherType(val)
    }
}".

(** src/ethernet.rs:123-128 *)
Definition code_ethernet_1 : string :=
"impl PrimitiveValues for EtherType {
    type T = (u16,);
    fn to_primitive_values(&self) -> (u16,) {
        (self.0,)
    }
}".

(** src/ethernet.rs:130-163 *)
Definition code_ethernet_2 : string :=
"impl fmt::Display for EtherType {
    fn fmt(&self, f: &mut fmt::Formatter) -> fmt::Result {
        write!(
            f,
            ""{}"",
            match self {
                &EtherTypes::Ipv4 => ""Ipv4"",                     //(0x0800)
                &EtherTypes::Arp => ""Arp"",                       //(0x0806)
                &EtherTypes::WakeOnLan => ""WakeOnLan"",           //(0x0842)
                &EtherTypes::Trill => ""Trill"",                   //(0x22F3)
                &EtherTypes::DECnet => ""DECnet"",                 //(0x6003)
                &EtherTypes::Rarp => ""Rarp"",                     //(0x8035)
                &EtherTypes::AppleTalk => ""AppleTalk"",           //(0x809B)
                &EtherTypes::Aarp => ""Aarp"",                     //(0x80F3)
                &EtherTypes::Ipx => ""Ipx"",                       //(0x8137)
                &EtherTypes::Qnx => ""Qnx"",                       //(0x8204)
                &EtherTypes::Ipv6 => ""Ipv6"",                     //(0x86DD)
                &EtherTypes::FlowControl => ""FlowControl"",       //(0x8808)
                &EtherTypes::CobraNet => ""CobraNet"",             //(0x8819)
                &EtherTypes::Mpls => ""Mpls"",                     //(0x8847)
                &EtherTypes::MplsMcast => ""MplsMcast"",           //(0x8848)
                &EtherTypes::PppoeDiscovery => ""PppoeDiscovery"", //(0x8863)
                &EtherTypes::PppoeSession => ""PppoeSession"",     //(0x8864)
                &EtherTypes::Vlan => ""Vlan"",                     //(0x8100)
                &EtherTypes::PBridge => ""PBridge"",               //(0x88a8)
                &EtherTypes::Lldp => ""Lldp"",                     //(0x88cc)
                &EtherTypes::Ptp => ""Ptp"",                       //(0x88f7)
                &EtherTypes::Cfm => ""Cfm"",                       //(0x8902)
                &EtherTypes::QinQ => ""QinQ"",                     //(0x9100)
                _ => ""unknown"",
            }
        )
    }
}".

(** src/ip.rs:474-479 *)
Definition code_ip_0 : string :=
"impl IpNextHeaderProtocol {
    /// Create a new IpNextHeaderProtocol
    pub fn new(value: u8) -> IpNextHeaderProtocol {
        IpNextHeaderProtocol(value)
    }
}".

(** src/ip.rs:481-486 *)
Definition code_ip_1 : string :=
"impl PrimitiveValues for IpNextHeaderProtocol {
    type T = (u8,);
    fn to_primitive_values(&self) -> (u8,) {
        (self.0,)
    }
}".

(** src/ip.rs:488-644 *)
Definition code_ip_2 : string :=
"impl fmt::Display for IpNextHeaderProtocol {
    fn fmt(&self, f: &mut fmt::Formatter) -> fmt::Result {
        write!(
            f,
            ""{}"",
            match self {
                &IpNextHeaderProtocols::Hopopt => ""Hopopt"",         // 0
                &IpNextHeaderProtocols::Icmp => ""Icmp"",             // 1
                &IpNextHeaderProtocols::Igmp => ""Igmp"",             // 2
                &IpNextHeaderProtocols::Ggp => ""Ggp"",               // 3
                &IpNextHeaderProtocols::Ipv4 => ""Ipv4"",             // 4
                &IpNextHeaderProtocols::St => ""St"",                 // 5
                &IpNextHeaderProtocols::Tcp => ""Tcp"",               // 6
                &IpNextHeaderProtocols::Cbt => ""Cbt"",               // 7
                &IpNextHeaderProtocols::Egp => ""Egp"",               // 8
                &IpNextHeaderProtocols::Igp => ""Igp"",               // 9
                &IpNextHeaderProtocols::BbnRccMon => ""BbnRccMon"",   // 10
                &IpNextHeaderProtocols::NvpII => ""NvpII"",           // 11
                &IpNextHeaderProtocols::Pup => ""Pup"",               // 12
                &IpNextHeaderProtocols::Argus => ""Argus"",           // 13
                &IpNextHeaderProtocols::Emcon => ""Emcon"",           // 14
                &IpNextHeaderProtocols::Xnet => ""Xnet"",             // 15
                &IpNextHeaderProtocols::Chaos => ""Chaos"",           // 16
                &IpNextHeaderProtocols::Udp => ""Udp"",               // 17
                &IpNextHeaderProtocols::Mux => ""Mux"",               // 18
                &IpNextHeaderProtocols::DcnMeas => ""DcnMeas"",       // 19
                &IpNextHeaderProtocols::Hmp => ""Hmp"",               // 20
                &IpNextHeaderProtocols::Prm => ""Prm"",               // 21
                &IpNextHeaderProtocols::XnsIdp => ""XnsIdp"",         // 22
                &IpNextHeaderProtocols::Trunk1 => ""Trunk1"",         // 23
                &IpNextHeaderProtocols::Trunk2 => ""Trunk2"",         // 24
                &IpNextHeaderProtocols::Leaf1 => ""Leaf1"",           // 25
                &IpNextHeaderProtocols::Leaf2 => ""Leaf2"",           // 26
                &IpNextHeaderProtocols::Rdp => ""Rdp"",               // 27
                &IpNextHeaderProtocols::Irtp => ""Irtp"",             // 28
                &IpNextHeaderProtocols::IsoTp4 => ""IsoTp4"",         // 29
                &IpNextHeaderProtocols::Netblt => ""Netblt"",         // 30
                &IpNextHeaderProtocols::MfeNsp => ""MfeNsp"",         // 31
                &IpNextHeaderProtocols::MeritInp => ""MeritInp"",     // 32
                &IpNextHeaderProtocols::Dccp => ""Dccp"",             // 33
                &IpNextHeaderProtocols::ThreePc => ""ThreePc"",       // 34
                &IpNextHeaderProtocols::Idpr => ""Idpr"",             // 35
                &IpNextHeaderProtocols::Xtp => ""Xtp"",               // 36
                &IpNextHeaderProtocols::Ddp => ""Ddp"",               // 37
                &IpNextHeaderProtocols::IdprCmtp => ""IdprCmtp"",     // 38
                &IpNextHeaderProtocols::TpPlusPlus => ""TpPlusPlus"", // 39
                &IpNextHeaderProtocols::Il => ""Il"",                 // 40
                &IpNextHeaderProtocols::Ipv6 => ""Ipv6"",             // 41
                &IpNextHeaderProtocols::Sdrp => ""Sdrp"",             // 42
                &IpNextHeaderProtocols::Ipv6Route => ""Ipv6Route"",   // 43
                &IpNextHeaderProtocols::Ipv6Frag => ""Ipv6Frag"",     // 44
                &IpNextHeaderProtocols::Idrp => ""Idrp"",             // 45
                &IpNextHeaderProtocols::Rsvp => ""Rsvp"",             // 46
                &IpNextHeaderProtocols::Gre => ""Gre"",               // 47
                &IpNextHeaderProtocols::Dsr => ""Dsr"",               // 48
                &IpNextHeaderProtocols::Bna => ""Bna"",               // 49
                &IpNextHeaderProtocols::Esp => ""Esp"",               // 50
                &IpNextHeaderProtocols::Ah => ""Ah"",                 // 51
                &IpNextHeaderProtocols::INlsp => ""INlsp"",           // 52
                &IpNextHeaderProtocols::Swipe => ""Swipe"",           // 53
                &IpNextHeaderProtocols::Narp => ""Narp"",             // 54
                &IpNextHeaderProtocols::Mobile => ""Mobile"",         // 55
                &IpNextHeaderProtocols::Tlsp => ""Tlsp"",             // 56
                &IpNextHeaderProtocols::Skip => ""Skip"",             // 57
                &IpNextHeaderProtocols::Icmpv6 => ""Icmpv6"",         // 58
                &IpNextHeaderProtocols::Ipv6NoNxt => ""Ipv6NoNxt"",   // 59
                &IpNextHeaderProtocols::Ipv6Opts => ""Ipv6Opts"",     // 60
                &IpNextHeaderProtocols::HostInternal => ""HostInternal"", // 61
                &IpNextHeaderProtocols::Cftp => ""Cftp"",             // 62
                &IpNextHeaderProtocols::LocalNetwork => ""LocalNetwork"", // 63
                &IpNextHeaderProtocols::SatExpak => ""SatExpak"",     // 64
                &IpNextHeaderProtocols::Kryptolan => ""Kryptolan"",   // 65
                &IpNextHeaderProtocols::Rvd => ""Rvd"",               // 66
                &IpNextHeaderProtocols::Ippc => ""Ippc"",             // 67
                &IpNextHeaderProtocols::DistributedFs => ""DistributedFs"", // 68
                &IpNextHeaderProtocols::SatMon => ""SatMon"",         // 69
                &IpNextHeaderProtocols::Visa => ""Visa"",             // 70
                &IpNextHeaderProtocols::Ipcv => ""Ipcv"",             // 71
                &IpNextHeaderProtocols::Cpnx => ""Cpnx"",             // 72
                &IpNextHeaderProtocols::Cphb => ""Cphb"",             // 73
                &IpNextHeaderProtocols::Wsn => ""Wsn"",               // 74
                &IpNextHeaderProtocols::Pvp => ""Pvp"",               // 75
                &IpNextHeaderProtocols::BrSatMon => ""BrSatMon"",     // 76
                &IpNextHeaderProtocols::SunNd => ""SunNd"",           // 77
                &IpNextHeaderProtocols::WbMon => ""WbMon"",           // 78
                &IpNextHeaderProtocols::WbExpak => ""WbExpak"",       // 79
                &IpNextHeaderProtocols::IsoIp => ""IsoIp"",           // 80
                &IpNextHeaderProtocols::Vmtp => ""Vmtp"",             // 81
                &IpNextHeaderProtocols::SecureVmtp => ""SecureVmtp"", // 82
                &IpNextHeaderProtocols::Vines => ""Vines"",           // 83
                &IpNextHeaderProtocols::TtpOrIptm => ""TtpOrIptm"",   // 84
                &IpNextHeaderProtocols::NsfnetIgp => ""NsfnetIgp"",   // 85
                &IpNextHeaderProtocols::Dgp => ""Dgp"",               // 86
                &IpNextHeaderProtocols::Tcf => ""Tcf"",               // 87
                &IpNextHeaderProtocols::Eigrp => ""Eigrp"",           // 88
                &IpNextHeaderProtocols::OspfigP => ""OspfigP"",       // 89
                &IpNextHeaderProtocols::SpriteRpc => ""SpriteRpc"",   // 90
                &IpNextHeaderProtocols::Larp => ""Larp"",             // 91
                &IpNextHeaderProtocols::Mtp => ""Mtp"",               // 92
                &IpNextHeaderProtocols::Ax25 => ""Ax25"",             // 93
                &IpNextHeaderProtocols::IpIp => ""IpIp"",             // 94
                &IpNextHeaderProtocols::Micp => ""Micp"",             // 95
                &IpNextHeaderProtocols::SccSp => ""SccSp"",           // 96
                &IpNextHeaderProtocols::Etherip => ""Etherip"",       // 97
                &IpNextHeaderProtocols::Encap => ""Encap"",           // 98
                &IpNextHeaderProtocols::PrivEncryption => ""PrivEncryption"", // 99
                &IpNextHeaderProtocols::Gmtp => ""Gmtp"",             // 100
                &IpNextHeaderProtocols::Ifmp => ""Ifmp"",             // 101
                &IpNextHeaderProtocols::Pnni => ""Pnni"",             // 102
                &IpNextHeaderProtocols::Pim => ""Pim"",               // 103
                &IpNextHeaderProtocols::Aris => ""Aris"",             // 104
                &IpNextHeaderProtocols::Scps => ""Scps"",             // 105
                &IpNextHeaderProtocols::Qnx => ""Qnx"",               // 106
                &IpNextHeaderProtocols::AN => ""AN"",                 // 107
                &IpNextHeaderProtocols::IpComp => ""IpComp"",         // 108
                &IpNextHeaderProtocols::Snp => ""Snp"",               // 109
                &IpNextHeaderProtocols::CompaqPeer => ""CompaqPeer"", // 110
                &IpNextHeaderProtocols::IpxInIp => ""IpxInIp"",       // 111
                &IpNextHeaderProtocols::Vrrp => ""Vrrp"",             // 112
                &IpNextHeaderProtocols::Pgm => ""Pgm"",               // 113
                &IpNextHeaderProtocols::ZeroHop => ""ZeroHop"",       // 114
                &IpNextHeaderProtocols::L2tp => ""L2tp"",             // 115
                &IpNextHeaderProtocols::Ddx => ""Ddx"",               // 116
                &IpNextHeaderProtocols::Iatp => ""Iatp"",             // 117
                &IpNextHeaderProtocols::Stp => ""Stp"",               // 118
                &IpNextHeaderProtocols::Srp => ""Srp"",               // 119
                &IpNextHeaderProtocols::Uti => ""Uti"",               // 120
                &IpNextHeaderProtocols::Smp => ""Smp"",               // 121
                &IpNextHeaderProtocols::Sm => ""Sm"",                 // 122
                &IpNextHeaderProtocols::Ptp => ""Ptp"",               // 123
                &IpNextHeaderProtocols::IsisOverIpv4 => ""IsisOverIpv4"", // 124
                &IpNextHeaderProtocols::Fire => ""Fire"",             // 125
                &IpNextHeaderProtocols::Crtp => ""Crtp"",             // 126
                &IpNextHeaderProtocols::Crudp => ""Crudp"",           // 127
                &IpNextHeaderProtocols::Sscopmce => ""Sscopmce"",     // 128
                &IpNextHeaderProtocols::Iplt => ""Iplt"",             // 129
                &IpNextHeaderProtocols::Sps => ""Sps"",               // 130
                &IpNextHeaderProtocols::Pipe => ""Pipe"",             // 131
                &IpNextHeaderProtocols::Sctp => ""Sctp"",             // 132
                &IpNextHeaderProtocols::Fc => ""Fc"",                 // 133
                &IpNextHeaderProtocols::RsvpE2eIgnore => ""RsvpE2eIgnore"", // 134
                &IpNextHeaderProtocols::MobilityHeader => ""MobilityHeader"", // 135
                &IpNextHeaderProtocols::UdpLite => ""UdpLite"",       // 136
                &IpNextHeaderProtocols::MplsInIp => ""MplsInIp"",     // 137
                &IpNextHeaderProtocols::Manet => ""Manet"",           // 138
                &IpNextHeaderProtocols::Hip => ""Hip"",               // 139
                &IpNextHeaderProtocols::Shim6 => ""Shim6"",           // 140
                &IpNextHeaderProtocols::Wesp => ""Wesp"",             // 141
                &IpNextHeaderProtocols::Rohc => ""Rohc"",             // 142
                &IpNextHeaderProtocols::Test1 => ""Test1"",           // 253
                &IpNextHeaderProtocols::Test2 => ""Test2"",           // 254*/
                &IpNextHeaderProtocols::Reserved => ""Reserved"",     // 255
                _ => ""unknown"",
            }
        )
    }
}".

(** src/arp.rs:19-24 *)
Definition code_arp_0 : string :=
"impl ArpOperation {
    /// Create a new `ArpOperation`.
    pub fn new(value: u16) -> Self {
        ArpOperation(value)
    }
}".

(** src/arp.rs:26-31 *)
Definition code_arp_1 : string :=
"impl PrimitiveValues for ArpOperation {
    type T = (u16,);
    fn to_primitive_values(&self) -> (u16,) {
        (self.0,)
    }
}".

(** src/arp.rs:50-55 *)
Definition code_arp_2 : string :=
"impl ArpHardwareType {
    /// Create a new `ArpHardwareType`.
    pub fn new(value: u16) -> Self {
        ArpHardwareType(value)
    }
}".

(** src/arp.rs:57-62 *)
Definition code_arp_3 : string :=
"impl PrimitiveValues for ArpHardwareType {
    type T = (u16,);
    fn to_primitive_values(&self) -> (u16,) {
        (self.0,)
    }
}".

(** src/vlan.rs:10-15 *)
Definition code_vlan_0 : string :=
"impl ClassOfService {
    /// Create a new `ClassOfService` instance.
    pub fn new(value: u3) -> ClassOfService {
        ClassOfService(value)
    }
}".

(** src/vlan.rs:17-22 *)
Definition code_vlan_1 : string :=
"impl PrimitiveValues for ClassOfService {
    type T = (u3,);
    fn to_primitive_values(&self) -> (u3,) {
        (self.0,)
    }
}".

(** src/ipv4.rs:117-122 *)
Definition code_ipv4_0 : string :=
"impl Ipv4OptionNumber {
    /// Create a new `Ipv4OptionNumber` instance.
    pub fn new(value: u8) -> Ipv4OptionNumber {
        Ipv4OptionNumber(value)
    }
}".

(** src/ipv4.rs:124-129 *)
Definition code_ipv4_1 : string :=
"impl PrimitiveValues for Ipv4OptionNumber {
    type T = (u8,);
    fn to_primitive_values(&self) -> (u8,) {
        (self.0,)
    }
}".

(** src/tcp.rs:118-192 *)
Definition code_tcp_0 : string :=
"impl TcpOption {
    /// NOP: This may be used to align option fields on 32-bit boundaries for better performance.
    pub fn nop() -> Self {
        TcpOption {
            number: TcpOptionNumbers::NOP,
            length: vec![],
            data: vec![],
        }
    }

    /// Timestamp: TCP timestamps, defined in RFC 1323, can help TCP determine in which order
    /// packets were sent. TCP timestamps are not normally aligned to the system clock and
    /// start at some random value.
    pub fn timestamp(my: u32, their: u32) -> Self {
        let mut data = vec![];
        data.extend_from_slice(&my.octets()[..]);
        data.extend_from_slice(&their.octets()[..]);

        TcpOption {
            number: TcpOptionNumbers::TIMESTAMPS,
            length: vec![10],
            data: data,
        }
    }

    /// MSS: The maximum segment size (MSS) is the largest amount of data, specified in bytes,
    /// that TCP is willing to receive in a single segment.
    pub fn mss(val: u16) -> Self {
        let mut data = vec![];
        data.extend_from_slice(&val.octets()[..]);

        TcpOption {
            number: TcpOptionNumbers::MSS,
            length: vec![4],
            data: data,
        }
    }

    /// Window scale: The TCP window scale option, as defined in RFC 1323, is an option used to
    /// increase the maximum window size from 65,535 bytes to 1 gigabyte.
    pub fn wscale(val: u8) -> Self {
        TcpOption {
            number: TcpOptionNumbers::WSCALE,
            length: vec![3],
            data: vec![val],
        }
    }

    /// Selective acknowledgment (SACK) option, defined in RFC 2018 allows the receiver to acknowledge
    /// discontinuous blocks of packets which were received correctly. This options enables use of
    /// SACK during negotiation.
    pub fn sack_perm() -> Self {
        TcpOption {
            number: TcpOptionNumbers::SACK_PERMITTED,
            length: vec![2],
            data: vec![],
        }
    }

    /// Selective acknowledgment (SACK) option, defined in RFC 2018 allows the receiver to acknowledge
    /// discontinuous blocks of packets which were received correctly. The acknowledgement can specify
    /// a number of SACK blocks, where each SACK block is conveyed by the starting and ending sequence
    /// numbers of a contiguous range that the receiver correctly received.
    pub fn selective_ack(acks: &[u32]) -> Self {
        let mut data = vec![];
        for ack in acks {
            data.extend_from_slice(&ack.octets()[..]);
        }
        TcpOption {
            number: TcpOptionNumbers::SACK,
            length: vec![1 /* number */ + 1 /* length */ + data.len() as u8],
            data: data,
        }
    }
}".

(** src/tcp.rs:213-218 *)
Definition code_tcp_1 : string :=
"impl TcpOptionNumber {
    /// Create a new `TcpOptionNumber` instance.
    pub fn new(value: u8) -> TcpOptionNumber {
        TcpOptionNumber(value)
    }
}".

(** src/tcp.rs:220-225 *)
Definition code_tcp_2 : string :=
"impl PrimitiveValues for TcpOptionNumber {
    type T = (u8,);
    fn to_primitive_values(&self) -> (u8,) {
        (self.0,)
    }
}".

(** src/icmp.rs:17-22 *)
Definition code_icmp_0 : string :=
"impl IcmpType {
    /// Create a new `IcmpType` instance.
    pub fn new(val: u8) -> IcmpType {
        IcmpType(val)
    }
}".

(** src/icmp.rs:24-29 *)
Definition code_icmp_1 : string :=
"impl PrimitiveValues for IcmpType {
    type T = (u8,);
    fn to_primitive_values(&self) -> (u8,) {
        (self.0,)
    }
}".

(** src/icmp.rs:35-40 *)
Definition code_icmp_2 : string :=
"impl IcmpCode {
    /// Create a new `IcmpCode` instance.
    pub fn new(val: u8) -> IcmpCode {
        IcmpCode(val)
    }
}".

(** src/icmp.rs:42-47 *)
Definition code_icmp_3 : string :=
"impl PrimitiveValues for IcmpCode {
    type T = (u8,);
    fn to_primitive_values(&self) -> (u8,) {
        (self.0,)
    }
}".

(** src/icmpv6.rs:19-24 *)
Definition code_icmpv6_0 : string :=
"impl Icmpv6Type {
    /// Create a new `Icmpv6Type` instance.
    pub fn new(val: u8) -> Icmpv6Type {
        Icmpv6Type(val)
    }
}".

(** src/icmpv6.rs:26-31 *)
Definition code_icmpv6_1 : string :=
"impl PrimitiveValues for Icmpv6Type {
    type T = (u8,);
    fn to_primitive_values(&self) -> (u8,) {
        (self.0,)
    }
}".

(** src/icmpv6.rs:37-42 *)
Definition code_icmpv6_2 : string :=
"impl Icmpv6Code {
    /// Create a new `Icmpv6Code` instance.
    pub fn new(val: u8) -> Icmpv6Code {
        Icmpv6Code(val)
    }
}".

(** src/icmpv6.rs:44-49 *)
Definition code_icmpv6_3 : string :=
"impl PrimitiveValues for Icmpv6Code {
    type T = (u8,);
    fn to_primitive_values(&self) -> (u8,) {
        (self.0,)
    }
}".

(** src/icmpv6.rs:166-171 *)
Definition code_ndp_0 : string :=
"    impl NdpOptionType {
        /// Create a new `NdpOptionType` instance.
        pub fn new(value: u8) -> NdpOptionType {
            NdpOptionType(value)
        }
    }".

(** src/icmpv6.rs:173-178 *)
Definition code_ndp_1 : string :=
"    impl PrimitiveValues for NdpOptionType {
        type T = (u8,);
        fn to_primitive_values(&self) -> (u8,) {
            (self.0,)
        }
    }".

(** src/quic.rs:13-135 *)
Definition code_quic_0 : string :=
"impl<'a> QuicPacket<'a> {
    pub fn new(mut packet: &'a [u8]) -> Option<Vec<Self>> {
        let mut packets = vec![];
        while !packet.is_empty() {
            if packet.len() < 5 {
                return None;
            }
            let header_form = packet[0] & (1 << 7) > 0;
            let fixed_bit = packet[0] & (1 << 6) > 0;
            let quic = if fixed_bit && !header_form {
                Self::OneRtt(OneRttPacket::new(packet)?)
            } else {
                if packet[1..5] == [0u8; 4] {
                    Self::VersionNegotiation(VersionNegotiationPacket::new(packet)?)
                } else {
                    match (LongPacketType::new((packet[0] >> 4) & 0b11), fixed_bit) {
                        (LongPacketTypes::Initial, true) => {
                            Self::Initial(InitialPacket::new(packet)?)
                        }
                        (LongPacketTypes::ZeroRtt, true) => {
                            Self::ZeroRtt(ZeroRttPacket::new(packet)?)
                        }
                        (LongPacketTypes::Handshake, true) => {
                            Self::Handshake(HandshakePacket::new(packet)?)
                        }
                        (LongPacketTypes::Retry, true) => Self::Retry(RetryPacket::new(packet)?),
                        _ => return None,
                    }
                }
            };
            // lifetime of payload is 'a so this is safe to do.
            let remaining = unsafe { std::mem::transmute(quic.remaining()) };
            packets.push(quic);
            packet = remaining;
        }
        Some(packets)
    }

    pub fn version(&self) -> Option<Version> {
        match self {
            Self::VersionNegotiation(_) => None,
            Self::Initial(packet) => Some(packet.get_version()),
            Self::ZeroRtt(packet) => Some(packet.get_version()),
            Self::Handshake(packet) => Some(packet.get_version()),
            Self::Retry(packet) => Some(packet.get_version()),
            Self::OneRtt(_) => None,
        }
    }

    pub fn token(&self) -> Option<Vec<u8>> {
        match self {
            Self::Initial(packet) => Some(packet.get_token()),
            _ => None,
        }
    }

    pub fn packet_number(&self) -> Option<u64> {
        match self {
            Self::VersionNegotiation(_) => None,
            Self::Initial(packet) => Some(packet.get_packet_number_raw()),
            Self::ZeroRtt(packet) => Some(packet.get_packet_number_raw()),
            Self::Handshake(packet) => Some(packet.get_packet_number_raw()),
            Self::Retry(_) => None,
            Self::OneRtt(packet) => Some(packet.get_packet_number_raw()),
        }
        .map(packet_number)
    }

    pub fn dest_id(&self) -> Vec<u8> {
        match self {
            Self::VersionNegotiation(packet) => packet.get_dest_id(),
            Self::Initial(packet) => packet.get_dest_id(),
            Self::ZeroRtt(packet) => packet.get_dest_id(),
            Self::Handshake(packet) => packet.get_dest_id(),
            Self::Retry(packet) => packet.get_dest_id(),
            Self::OneRtt(packet) => packet.get_dest_id(),
        }
    }

    pub fn src_id(&self) -> Option<Vec<u8>> {
        Some(match self {
            Self::VersionNegotiation(packet) => packet.get_src_id(),
            Self::Initial(packet) => packet.get_src_id(),
            Self::ZeroRtt(packet) => packet.get_src_id(),
            Self::Handshake(packet) => packet.get_src_id(),
            Self::Retry(packet) => packet.get_src_id(),
            Self::OneRtt(_) => return None,
        })
    }

    pub fn packet(&self) -> &[u8] {
        match self {
            Self::VersionNegotiation(p) => p.packet(),
            Self::Initial(p) => p.packet(),
            Self::ZeroRtt(p) => p.packet(),
            Self::Handshake(p) => p.packet(),
            Self::Retry(p) => p.packet(),
            Self::OneRtt(p) => p.packet(),
        }
    }

    pub fn frames(&self) -> Option<&[u8]> {
        match self {
            Self::VersionNegotiation(_) => None,
            Self::Initial(packet) => Some(packet.get_frames_raw()),
            Self::ZeroRtt(packet) => Some(packet.get_frames_raw()),
            Self::Handshake(packet) => Some(packet.get_frames_raw()),
            Self::Retry(_) => None,
            Self::OneRtt(packet) => Some(packet.payload()),
        }
    }

    pub fn remaining(&self) -> &[u8] {
        match self {
            Self::VersionNegotiation(_) => &[],
            Self::Initial(packet) => packet.get_remaining_raw(),
            Self::ZeroRtt(packet) => packet.get_remaining_raw(),
            Self::Handshake(packet) => packet.get_remaining_raw(),
            Self::Retry(_) => &[],
            Self::OneRtt(_) => &[],
        }
    }
}".

(** src/quic.rs:137-167 *)
Definition code_quic_1 : string :=
"impl<'a> std::fmt::Display for QuicPacket<'a> {
    fn fmt(&self, f: &mut std::fmt::Formatter) -> std::fmt::Result {
        let ty = match self {
            Self::VersionNegotiation(_) => ""version-negotiation"",
            Self::Initial(_) => ""initial"",
            Self::ZeroRtt(_) => ""0rtt"",
            Self::Handshake(_) => ""handshake"",
            Self::Retry(_) => ""retry"",
            Self::OneRtt(_) => ""1rtt"",
        };
        writeln!(f, ""packet-type: {}"", ty)?;
        if let Some(version) = self.version() {
            writeln!(f, ""quic-version: {}"", version)?;
        }
        if let Some(token) = self.token() {
            writeln!(f, ""token: {:?}"", token)?;
        }
        if let Some(pn) = self.packet_number() {
            writeln!(f, ""packet-number: {}"", pn)?;
        }
        let dest_id = self.dest_id();
        writeln!(f, ""dest-id: {:?}"", dest_id)?;
        if let Some(src_id) = self.src_id() {
            writeln!(f, ""src-id: {:?}"", src_id)?;
        }
        if let Some(payload) = self.frames() {
            writeln!(f, ""payload: {}"", payload.len())?;
        }
        Ok(())
    }
}".

(** src/quic.rs:489-612 *)
Definition code_quic_2 : string :=
"impl<'a> Frame<'a> {
    pub fn new(mut packet: &'a [u8]) -> Option<Vec<Self>> {
        let mut frames = vec![];
        while packet.len() > 0 {
            let frame = match FrameType(packet[0]) {
                FrameTypes::Padding => Self::Padding(PaddingPacket::new(packet)?, 1),
                FrameTypes::Ping => Self::Ping(PingPacket::new(packet)?),
                FrameTypes::Ack0 | FrameTypes::Ack1 => Self::Ack(AckPacket::new(packet)?),
                FrameTypes::ResetStream => Self::ResetStream(ResetStreamPacket::new(packet)?),
                FrameTypes::StopSending => Self::StopSending(StopSendingPacket::new(packet)?),
                FrameTypes::Crypto => Self::Crypto(CryptoPacket::new(packet)?),
                FrameTypes::NewToken => Self::NewToken(NewTokenPacket::new(packet)?),
                x if (0x8..=0xf).contains(&x.0) => Self::Stream(StreamPacket::new(packet)?),
                FrameTypes::MaxData => Self::MaxData(MaxDataPacket::new(packet)?),
                FrameTypes::MaxStreamData => Self::MaxStreamData(MaxStreamDataPacket::new(packet)?),
                FrameTypes::MaxStreams0 | FrameTypes::MaxStreams1 => {
                    Self::MaxStreams(MaxStreamsPacket::new(packet)?)
                }
                FrameTypes::DataBlocked => Self::DataBlocked(DataBlockedPacket::new(packet)?),
                FrameTypes::StreamDataBlocked => {
                    Self::StreamDataBlocked(StreamDataBlockedPacket::new(packet)?)
                }
                FrameTypes::StreamsBlocked0 | FrameTypes::StreamsBlocked1 => {
                    Self::StreamsBlocked(StreamsBlockedPacket::new(packet)?)
                }
                FrameTypes::NewConnectionId => {
                    Self::NewConnectionId(NewConnectionIdPacket::new(packet)?)
                }
                FrameTypes::RetireConnectionId => {
                    Self::RetireConnectionId(RetireConnectionIdPacket::new(packet)?)
                }
                FrameTypes::PathChallenge => Self::PathChallenge(PathChallengePacket::new(packet)?),
                FrameTypes::PathResponse => Self::PathResponse(PathResponsePacket::new(packet)?),
                FrameTypes::ConnectionClose0 | FrameTypes::ConnectionClose1 => {
                    Self::ConnectionClose(ConnectionClosePacket::new(packet)?)
                }
                FrameTypes::HandshakeDone => Self::HandshakeDone(HandshakeDonePacket::new(packet)?),
                _ => return None,
            };
            // lifetime of payload is 'a so this is safe to do.
            packet = unsafe { std::mem::transmute(frame.remaining()) };
            match (frames.last_mut(), frame) {
                (Some(Frame::Padding(_, x)), Frame::Padding(_, y)) => *x += y,
                (_, frame) => frames.push(frame),
            }
        }
        Some(frames)
    }

    fn ty(&self) -> FrameType {
        match self {
            Self::Padding(p, _) => p.get_ty(),
            Self::Ping(p) => p.get_ty(),
            Self::Ack(p) => p.get_ty(),
            Self::ResetStream(p) => p.get_ty(),
            Self::StopSending(p) => p.get_ty(),
            Self::Crypto(p) => p.get_ty(),
            Self::NewToken(p) => p.get_ty(),
            Self::Stream(p) => p.get_ty(),
            Self::MaxData(p) => p.get_ty(),
            Self::MaxStreamData(p) => p.get_ty(),
            Self::MaxStreams(p) => p.get_ty(),
            Self::DataBlocked(p) => p.get_ty(),
            Self::StreamDataBlocked(p) => p.get_ty(),
            Self::StreamsBlocked(p) => p.get_ty(),
            Self::NewConnectionId(p) => p.get_ty(),
            Self::RetireConnectionId(p) => p.get_ty(),
            Self::PathChallenge(p) => p.get_ty(),
            Self::PathResponse(p) => p.get_ty(),
            Self::ConnectionClose(p) => p.get_ty(),
            Self::HandshakeDone(p) => p.get_ty(),
        }
    }

    pub fn payload(&self) -> &[u8] {
        match self {
            Self::Padding(p, _) => p.payload(),
            Self::Ping(p) => p.payload(),
            Self::Ack(p) => p.payload(),
            Self::ResetStream(p) => p.payload(),
            Self::StopSending(p) => p.payload(),
            Self::Crypto(p) => p.payload(),
            Self::NewToken(p) => p.payload(),
            Self::Stream(p) => p.payload(),
            Self::MaxData(p) => p.payload(),
            Self::MaxStreamData(p) => p.payload(),
            Self::MaxStreams(p) => p.payload(),
            Self::DataBlocked(p) => p.payload(),
            Self::StreamDataBlocked(p) => p.payload(),
            Self::StreamsBlocked(p) => p.payload(),
            Self::NewConnectionId(p) => p.payload(),
            Self::RetireConnectionId(p) => p.payload(),
            Self::PathChallenge(p) => p.payload(),
            Self::PathResponse(p) => p.payload(),
            Self::ConnectionClose(p) => p.payload(),
            Self::HandshakeDone(p) => p.payload(),
        }
    }

    fn remaining(&self) -> &[u8] {
        match self {
            Self::Padding(p, _) => p.get_remaining_raw(),
            Self::Ping(p) => p.get_remaining_raw(),
            Self::Ack(p) => p.get_remaining_raw(),
            Self::ResetStream(p) => p.get_remaining_raw(),
            Self::StopSending(p) => p.get_remaining_raw(),
            Self::Crypto(p) => p.get_remaining_raw(),
            Self::NewToken(p) => p.get_remaining_raw(),
            Self::Stream(p) => p.get_remaining_raw(),
            Self::MaxData(p) => p.get_remaining_raw(),
            Self::MaxStreamData(p) => p.get_remaining_raw(),
            Self::MaxStreams(p) => p.get_remaining_raw(),
            Self::DataBlocked(p) => p.get_remaining_raw(),
            Self::StreamDataBlocked(p) => p.get_remaining_raw(),
            Self::StreamsBlocked(p) => p.get_remaining_raw(),
            Self::NewConnectionId(p) => p.get_remaining_raw(),
            Self::RetireConnectionId(p) => p.get_remaining_raw(),
            Self::PathChallenge(p) => p.get_remaining_raw(),
            Self::PathResponse(p) => p.get_remaining_raw(),
            Self::ConnectionClose(p) => p.get_remaining_raw(),
            Self::HandshakeDone(p) => p.get_remaining_raw(),
        }
    }
}".

(** src/quic.rs:614-618 *)
Definition code_quic_3 : string :=
"impl<'a> std::fmt::Display for Frame<'a> {
    fn fmt(&self, f: &mut std::fmt::Formatter) -> std::fmt::Result {
        write!(f, ""{}"", self.ty())
    }
}".

(** src/quic.rs:349-354 *)
Definition code_quic_4 : string :=
"impl HeaderForm {
    /// Construct a new `FixedBit`.
    pub fn new(val: u8) -> Self {
        Self(val)
    }
}".

(** src/quic.rs:356-361 *)
Definition code_quic_5 : string :=
"impl PrimitiveValues for HeaderForm {
    type T = (u8,);
    fn to_primitive_values(&self) -> Self::T {
        (self.0,)
    }
}".

(** src/quic.rs:363-372 *)
Definition code_quic_6 : string :=
"impl std::fmt::Display for HeaderForm {
    fn fmt(&self, f: &mut std::fmt::Formatter) -> std::fmt::Result {
        let s = match self {
            &HeaderForms::Short => ""short"",
            &HeaderForms::Long => ""long"",
            _ => ""unknown"",
        };
        write!(f, ""{}"", s)
    }
}".

(** src/quic.rs:377-382 *)
Definition code_quic_7 : string :=
"impl FixedBit {
    /// Construct a new `FixedBit`.
    pub fn new(val: u8) -> Self {
        Self(val)
    }
}".

(** src/quic.rs:384-389 *)
Definition code_quic_8 : string :=
"impl PrimitiveValues for FixedBit {
    type T = (u8,);
    fn to_primitive_values(&self) -> Self::T {
        (self.0,)
    }
}".

(** src/quic.rs:391-399 *)
Definition code_quic_9 : string :=
"impl std::fmt::Display for FixedBit {
    fn fmt(&self, f: &mut std::fmt::Formatter) -> std::fmt::Result {
        let s = match self.0 {
            1 => ""1"",
            _ => ""unknown"",
        };
        write!(f, ""{}"", s)
    }
}".

(** src/quic.rs:415-420 *)
Definition code_quic_10 : string :=
"impl LongPacketType {
    /// Construct a new `LongPacketType`.
    pub fn new(val: u8) -> Self {
        Self(val)
    }
}".

(** src/quic.rs:422-427 *)
Definition code_quic_11 : string :=
"impl PrimitiveValues for LongPacketType {
    type T = (u8,);
    fn to_primitive_values(&self) -> Self::T {
        (self.0,)
    }
}".

(** src/quic.rs:429-440 *)
Definition code_quic_12 : string :=
"impl std::fmt::Display for LongPacketType {
    fn fmt(&self, f: &mut std::fmt::Formatter) -> std::fmt::Result {
        let s = match self {
            &LongPacketTypes::Initial => ""initial"",
            &LongPacketTypes::ZeroRtt => ""0-rtt"",
            &LongPacketTypes::Handshake => ""handshake"",
            &LongPacketTypes::Retry => ""retry"",
            _ => ""unknown"",
        };
        write!(f, ""{}"", s)
    }
}".

(** src/quic.rs:445-450 *)
Definition code_quic_13 : string :=
"impl Version {
    /// Construct a new `LongPacketType`.
    pub fn new(val: u32) -> Self {
        Self(val)
    }
}".

(** src/quic.rs:452-457 *)
Definition code_quic_14 : string :=
"impl PrimitiveValues for Version {
    type T = (u32be,);
    fn to_primitive_values(&self) -> Self::T {
        (self.0,)
    }
}".

(** src/quic.rs:459-463 *)
Definition code_quic_15 : string :=
"impl std::fmt::Display for Version {
    fn fmt(&self, f: &mut std::fmt::Formatter) -> std::fmt::Result {
        write!(f, ""0x{:08x}"", self.0)
    }
}".

(** src/quic.rs:881-886 *)
Definition code_quic_16 : string :=
"impl FrameType {
    /// Construct a new `FrameType`.
    pub fn new(val: u8) -> Self {
        Self(val)
    }
}".

(** src/quic.rs:888-893 *)
Definition code_quic_17 : string :=
"impl PrimitiveValues for FrameType {
    type T = (u8,);
    fn to_primitive_values(&self) -> Self::T {
        (self.0,)
    }
}".

(** src/quic.rs:895-922 *)
Definition code_quic_18 : string :=
"impl std::fmt::Display for FrameType {
    fn fmt(&self, f: &mut std::fmt::Formatter) -> std::fmt::Result {
        let s = match self {
            &FrameTypes::Padding => ""padding"",
            &FrameTypes::Ping => ""ping"",
            &FrameTypes::Ack0 | &FrameTypes::Ack1 => ""ack"",
            &FrameTypes::ResetStream => ""reset-stream"",
            &FrameTypes::StopSending => ""stop-sending"",
            &FrameTypes::Crypto => ""crypto"",
            &FrameTypes::NewToken => ""new-token"",
            x if (0x8..=0xf).contains(&x.0) => ""stream"",
            &FrameTypes::MaxData => ""max-data"",
            &FrameTypes::MaxStreamData => ""max-stream-data"",
            &FrameTypes::MaxStreams0 | &FrameTypes::MaxStreams1 => ""max-streams"",
            &FrameTypes::DataBlocked => ""data-blocked"",
            &FrameTypes::StreamDataBlocked => ""stream-data-blocked"",
            &FrameTypes::StreamsBlocked0 | &FrameTypes::StreamsBlocked1 => ""streams-blocked"",
            &FrameTypes::NewConnectionId => ""new-connection-id"",
            &FrameTypes::RetireConnectionId => ""retire-connection-id"",
            &FrameTypes::PathChallenge => ""path-challenge"",
            &FrameTypes::PathResponse => ""path-response"",
            &FrameTypes::ConnectionClose0 | &FrameTypes::ConnectionClose1 => ""connection-close"",
            &FrameTypes::HandshakeDone => ""handshake-done"",
            _ => ""unknown"",
        };
        write!(f, ""{}"", s)
    }
}".

(** src/icmp.rs:162-167 *)
Definition code_echo_reply_0 : string :=
"    impl Identifier {
        /// Create a new `Identifier` instance.
        pub fn new(val: u16) -> Identifier {
            Identifier(val)
        }
    }".

(** src/icmp.rs:169-174 *)
Definition code_echo_reply_1 : string :=
"    impl PrimitiveValues for Identifier {
        type T = (u16,);
        fn to_primitive_values(&self) -> (u16,) {
            (self.0,)
        }
    }".

(** src/icmp.rs:180-185 *)
Definition code_echo_reply_2 : string :=
"    impl SequenceNumber {
        /// Create a new `SequenceNumber` instance.
        pub fn new(val: u16) -> SequenceNumber {
            SequenceNumber(val)
        }
    }".

(** src/icmp.rs:187-192 *)
Definition code_echo_reply_3 : string :=
"    impl PrimitiveValues for SequenceNumber {
        type T = (u16,);
        fn to_primitive_values(&self) -> (u16,) {
            (self.0,)
        }
    }".

(** src/icmp.rs:239-244 *)
Definition code_echo_request_0 : string :=
"    impl Identifier {
        /// Create a new `Identifier` instance.
        pub fn new(val: u16) -> Identifier {
            Identifier(val)
        }
    }".

(** src/icmp.rs:246-251 *)
Definition code_echo_request_1 : string :=
"    impl PrimitiveValues for Identifier {
        type T = (u16,);
        fn to_primitive_values(&self) -> (u16,) {
            (self.0,)
        }
    }".

(** src/icmp.rs:257-262 *)
Definition code_echo_request_2 : string :=
"    impl SequenceNumber {
        /// Create a new `SequenceNumber` instance.
        pub fn new(val: u16) -> SequenceNumber {
            SequenceNumber(val)
        }
    }".

(** src/icmp.rs:264-269 *)
Definition code_echo_request_3 : string :=
"    impl PrimitiveValues for SequenceNumber {
        type T = (u16,);
        fn to_primitive_values(&self) -> (u16,) {
            (self.0,)
        }
    }".

(** core/src/macaddr.rs:29-74 *)
Definition code_mac_0 : string :=
"impl MacAddr {
    /// Construct a new `MacAddr` instance.
    pub fn new(a: u8, b: u8, c: u8, d: u8, e: u8, f: u8) -> MacAddr {
        MacAddr(a, b, c, d, e, f)
    }

    /// Construct an all-zero `MacAddr` instance.
    pub fn zero() -> MacAddr {
        Default::default()
    }

    /// Construct a broadcast `MacAddr` instance.
    pub fn broadcast() -> MacAddr {
        [0xff; ETHER_ADDR_LEN].into()
    }

    /// Returns true if a `MacAddr` is an all-zero address.
    pub fn is_zero(&self) -> bool {
        *self == Self::zero()
    }

    /// Returns true if the MacAddr is a universally administered addresses (UAA).
    pub fn is_universal(&self) -> bool {
        !self.is_local()
    }

    /// Returns true if the MacAddr is a locally administered addresses (LAA).
    pub fn is_local(&self) -> bool {
        (self.0 & LOCAL_ADDR_BIT) == LOCAL_ADDR_BIT
    }

    /// Returns true if the MacAddr is a unicast address.
    pub fn is_unicast(&self) -> bool {
        !self.is_multicast()
    }

    /// Returns true if the MacAddr is a multicast address.
    pub fn is_multicast(&self) -> bool {
        (self.0 & MULTICAST_ADDR_BIT) == MULTICAST_ADDR_BIT
    }

    /// Returns true if the MacAddr is a broadcast address.
    pub fn is_broadcast(&self) -> bool {
        *self == Self::broadcast()
    }
}".

(** core/src/macaddr.rs:76-80 *)
Definition code_mac_1 : string :=
"impl From<EtherAddr> for MacAddr {
    fn from(addr: EtherAddr) -> MacAddr {
        MacAddr(addr[0], addr[1], addr[2], addr[3], addr[4], addr[5])
    }
}".

(** core/src/macaddr.rs:82-86 *)
Definition code_mac_2 : string :=
"impl From<MacAddr> for EtherAddr {
    fn from(addr: MacAddr) -> Self {
        [addr.0, addr.1, addr.2, addr.3, addr.4, addr.5]
    }
}".

(** core/src/macaddr.rs:88-92 *)
Definition code_mac_3 : string :=
"impl PartialEq<EtherAddr> for MacAddr {
    fn eq(&self, other: &EtherAddr) -> bool {
        *self == MacAddr::from(*other)
    }
}".

(** core/src/macaddr.rs:94-102 *)
Definition code_mac_4 : string :=
"impl fmt::Display for MacAddr {
    fn fmt(&self, fmt: &mut fmt::Formatter) -> fmt::Result {
        write!(
            fmt,
            ""{:02x}:{:02x}:{:02x}:{:02x}:{:02x}:{:02x}"",
            self.0, self.1, self.2, self.3, self.4, self.5
        )
    }
}".

(** core/src/macaddr.rs:160-164 *)
Definition code_mac_5 : string :=
"impl fmt::Debug for MacAddr {
    fn fmt(&self, fmt: &mut fmt::Formatter) -> fmt::Result {
        fmt::Display::fmt(self, fmt)
    }
}".

(** core/src/macaddr.rs:179-187 *)
Definition code_mac_6 : string :=
"impl ParseMacAddrErr {
    fn description(&self) -> &str {
        match *self {
            ParseMacAddrErr::TooManyComponents => ""Too many components in a MAC address string"",
            ParseMacAddrErr::TooFewComponents => ""Too few components in a MAC address string"",
            ParseMacAddrErr::InvalidComponent => ""Invalid component in a MAC address string"",
        }
    }
}".

(** core/src/macaddr.rs:189-193 *)
Definition code_mac_7 : string :=
"impl fmt::Display for ParseMacAddrErr {
    fn fmt(&self, f: &mut fmt::Formatter) -> fmt::Result {
        write!(f, ""{}"", self.description())
    }
}".

(** core/src/macaddr.rs:195-220 *)
Definition code_mac_8 : string :=
"impl FromStr for MacAddr {
    type Err = ParseMacAddrErr;
    fn from_str(s: &str) -> Result<MacAddr, ParseMacAddrErr> {
        let mut parts = [0u8; 6];
        let splits = s.split(':');
        let mut i = 0;
        for split in splits {
            if i == 6 {
                return Err(ParseMacAddrErr::TooManyComponents);
            }
            match u8::from_str_radix(split, 16) {
                Ok(b) if split.len() != 0 => parts[i] = b,
                _ => return Err(ParseMacAddrErr::InvalidComponent),
            }
            i += 1;
        }

        if i == 6 {
            Ok(MacAddr(
                parts[0], parts[1], parts[2], parts[3], parts[4], parts[5],
            ))
        } else {
            Err(ParseMacAddrErr::TooFewComponents)
        }
    }
}".

(** The texts of a module. *)
Definition code_texts : list (string * list string) :=
  [("derive", [code_derive_0; code_derive_1; code_derive_2; code_derive_3; code_derive_4; code_derive_5; code_derive_6; code_derive_7; code_derive_8; code_derive_9; code_derive_10; code_derive_11; code_derive_12]);
   ("ethernet", [code_ethernet_0; code_ethernet_1; code_ethernet_2]);
   ("ip", [code_ip_0; code_ip_1; code_ip_2]);
   ("arp", [code_arp_0; code_arp_1; code_arp_2; code_arp_3]);
   ("vlan", [code_vlan_0; code_vlan_1]);
   ("ipv4", [code_ipv4_0; code_ipv4_1]);
   ("tcp", [code_tcp_0; code_tcp_1; code_tcp_2]);
   ("icmp", [code_icmp_0; code_icmp_1; code_icmp_2; code_icmp_3]);
   ("icmpv6", [code_icmpv6_0; code_icmpv6_1; code_icmpv6_2; code_icmpv6_3]);
   ("ndp", [code_ndp_0; code_ndp_1]);
   ("quic", [code_quic_0; code_quic_1; code_quic_2; code_quic_3; code_quic_4; code_quic_5; code_quic_6; code_quic_7; code_quic_8; code_quic_9; code_quic_10; code_quic_11; code_quic_12; code_quic_13; code_quic_14; code_quic_15; code_quic_16; code_quic_17; code_quic_18]);
   ("echo_reply", [code_echo_reply_0; code_echo_reply_1; code_echo_reply_2; code_echo_reply_3]);
   ("echo_request", [code_echo_request_0; code_echo_request_1; code_echo_request_2; code_echo_request_3]);
   ("mac", [code_mac_0; code_mac_1; code_mac_2; code_mac_3; code_mac_4; code_mac_5; code_mac_6; code_mac_7; code_mac_8])].

(** ** Constants *)

(** src/ethernet.rs:61-110 *)
Definition const_ethernet_0 : string :=
"pub mod EtherTypes {
    use super::EtherType;

    /// Internet Protocol version 4 (IPv4) [RFC7042].
    pub const Ipv4: EtherType = EtherType(0x0800);
    /// Address Resolution Protocol (ARP) [RFC7042].
    pub const Arp: EtherType = EtherType(0x0806);
    /// Wake on Lan.
    pub const WakeOnLan: EtherType = EtherType(0x0842);
    /// IETF TRILL Protocol [IEEE].
    pub const Trill: EtherType = EtherType(0x22F3);
    /// DECnet Phase IV.
    pub const DECnet: EtherType = EtherType(0x6003);
    /// Reverse Address Resolution Protocol (RARP) [RFC903].
    pub const Rarp: EtherType = EtherType(0x8035);
    /// AppleTalk - EtherTalk [Apple].
    pub const AppleTalk: EtherType = EtherType(0x809B);
    /// AppleTalk Address Resolution Protocol (AARP) [Apple].
    pub const Aarp: EtherType = EtherType(0x80F3);
    /// IPX [Xerox].
    pub const Ipx: EtherType = EtherType(0x8137);
    /// QNX Qnet [QNX Software Systems].
    pub const Qnx: EtherType = EtherType(0x8204);
    /// Internet Protocol version 6 (IPv6) [RFC7042].
    pub const Ipv6: EtherType = EtherType(0x86DD);
    /// Ethernet Flow Control [IEEE 802.3x].
    pub const FlowControl: EtherType = EtherType(0x8808);
    /// CobraNet [CobraNet].
    pub const CobraNet: EtherType = EtherType(0x8819);
    /// MPLS Unicast [RFC 3032].
    pub const Mpls: EtherType = EtherType(0x8847);
    /// MPLS Multicast [RFC 5332].
    pub const MplsMcast: EtherType = EtherType(0x8848);
    /// PPPOE Discovery Stage [RFC 2516].
    pub const PppoeDiscovery: EtherType = EtherType(0x8863);
    /// PPPoE Session Stage [RFC 2516].
    pub const PppoeSession: EtherType = EtherType(0x8864);
    /// VLAN-tagged frame (IEEE 802.1Q).
    pub const Vlan: EtherType = EtherType(0x8100);
    /// Provider Bridging [IEEE 802.1ad / IEEE 802.1aq].
    pub const PBridge: EtherType = EtherType(0x88a8);
    /// Link Layer Discovery Protocol (LLDP) [IEEE 802.1AB].
    pub const Lldp: EtherType = EtherType(0x88cc);
    /// Precision Time Protocol (PTP) over Ethernet [IEEE 1588].
    pub const Ptp: EtherType = EtherType(0x88f7);
    /// CFM / Y.1731 [IEEE 802.1ag].
    pub const Cfm: EtherType = EtherType(0x8902);
    /// Q-in-Q Vlan Tagging [IEEE 802.1Q].
    pub const QinQ: EtherType = EtherType(0x9100);
}".

(** src/ip.rs:24-467 *)
Definition const_ip_0 : string :=
"pub mod IpNextHeaderProtocols {
    use super::IpNextHeaderProtocol;

    /// IPv6 Hop-by-Hop Option [RFC2460]
    pub const Hopopt: IpNextHeaderProtocol = IpNextHeaderProtocol(0);

    /// Internet Control Message [RFC792]
    pub const Icmp: IpNextHeaderProtocol = IpNextHeaderProtocol(1);

    /// Internet Group Management [RFC1112]
    pub const Igmp: IpNextHeaderProtocol = IpNextHeaderProtocol(2);

    /// Gateway-to-Gateway [RFC823]
    pub const Ggp: IpNextHeaderProtocol = IpNextHeaderProtocol(3);

    /// IPv4 encapsulation [RFC2003]
    pub const Ipv4: IpNextHeaderProtocol = IpNextHeaderProtocol(4);

    /// Stream [RFC1190][RFC1819]
    pub const St: IpNextHeaderProtocol = IpNextHeaderProtocol(5);

    /// Transmission Control [RFC793]
    pub const Tcp: IpNextHeaderProtocol = IpNextHeaderProtocol(6);

    /// CBT
    pub const Cbt: IpNextHeaderProtocol = IpNextHeaderProtocol(7);

    /// Exterior Gateway Protocol [RFC888]
    pub const Egp: IpNextHeaderProtocol = IpNextHeaderProtocol(8);

    /// any private interior gateway (used by Cisco for their IGRP)
    pub const Igp: IpNextHeaderProtocol = IpNextHeaderProtocol(9);

    /// BBN RCC Monitoring
    pub const BbnRccMon: IpNextHeaderProtocol = IpNextHeaderProtocol(10);

    /// Network Voice Protocol [RFC741]
    pub const NvpII: IpNextHeaderProtocol = IpNextHeaderProtocol(11);

    /// PUP
    pub const Pup: IpNextHeaderProtocol = IpNextHeaderProtocol(12);

    /// ARGUS
    pub const Argus: IpNextHeaderProtocol = IpNextHeaderProtocol(13);

    /// EMCON
    pub const Emcon: IpNextHeaderProtocol = IpNextHeaderProtocol(14);

    /// Cross Net Debugger
    pub const Xnet: IpNextHeaderProtocol = IpNextHeaderProtocol(15);

    /// Chaos
    pub const Chaos: IpNextHeaderProtocol = IpNextHeaderProtocol(16);

    /// User Datagram [RFC768]
    pub const Udp: IpNextHeaderProtocol = IpNextHeaderProtocol(17);

    /// Multiplexing
    pub const Mux: IpNextHeaderProtocol = IpNextHeaderProtocol(18);

    /// DCN Measurement Subsystems
    pub const DcnMeas: IpNextHeaderProtocol = IpNextHeaderProtocol(19);

    /// Host Monitoring [RFC869]
    pub const Hmp: IpNextHeaderProtocol = IpNextHeaderProtocol(20);

    /// Packet Radio Measurement
    pub const Prm: IpNextHeaderProtocol = IpNextHeaderProtocol(21);

    /// XEROX NS IDP
    pub const XnsIdp: IpNextHeaderProtocol = IpNextHeaderProtocol(22);

    /// Trunk-1
    pub const Trunk1: IpNextHeaderProtocol = IpNextHeaderProtocol(23);

    /// Trunk-2
    pub const Trunk2: IpNextHeaderProtocol = IpNextHeaderProtocol(24);

    /// Leaf-1
    pub const Leaf1: IpNextHeaderProtocol = IpNextHeaderProtocol(25);

    /// Leaf-2
    pub const Leaf2: IpNextHeaderProtocol = IpNextHeaderProtocol(26);

    /// Reliable Data Protocol [RFC908]
    pub const Rdp: IpNextHeaderProtocol = IpNextHeaderProtocol(27);

    /// Internet Reliable Transaction [RFC938]
    pub const Irtp: IpNextHeaderProtocol = IpNextHeaderProtocol(28);

    /// ISO Transport Protocol Class 4 [RFC905]
    pub const IsoTp4: IpNextHeaderProtocol = IpNextHeaderProtocol(29);

    /// Bulk Data Transfer Protocol [RFC969]
    pub const Netblt: IpNextHeaderProtocol = IpNextHeaderProtocol(30);

    /// MFE Network Services Protocol
    pub const MfeNsp: IpNextHeaderProtocol = IpNextHeaderProtocol(31);

    /// MERIT Internodal Protocol
    pub const MeritInp: IpNextHeaderProtocol = IpNextHeaderProtocol(32);

    /// Datagram Congestion Control Protocol [RFC4340]
    pub const Dccp: IpNextHeaderProtocol = IpNextHeaderProtocol(33);

    /// Third Party Connect Protocol
    pub const ThreePc: IpNextHeaderProtocol = IpNextHeaderProtocol(34);

    /// Inter-Domain Policy Routing Protocol
    pub const Idpr: IpNextHeaderProtocol = IpNextHeaderProtocol(35);

    /// XTP
    pub const Xtp: IpNextHeaderProtocol = IpNextHeaderProtocol(36);

    /// Datagram Delivery Protocol
    pub const Ddp: IpNextHeaderProtocol = IpNextHeaderProtocol(37);

    /// IDPR Control Message Transport Proto
    pub const IdprCmtp: IpNextHeaderProtocol = IpNextHeaderProtocol(38);

    /// TP++ Transport Protocol
    pub const TpPlusPlus: IpNextHeaderProtocol = IpNextHeaderProtocol(39);

    /// IL Transport Protocol
    pub const Il: IpNextHeaderProtocol = IpNextHeaderProtocol(40);

    /// IPv6 encapsulation [RFC2473]
    pub const Ipv6: IpNextHeaderProtocol = IpNextHeaderProtocol(41);

    /// Source Demand Routing Protocol
    pub const Sdrp: IpNextHeaderProtocol = IpNextHeaderProtocol(42);

    /// Routing Header for IPv6
    pub const Ipv6Route: IpNextHeaderProtocol = IpNextHeaderProtocol(43);

    /// Fragment Header for IPv6
    pub const Ipv6Frag: IpNextHeaderProtocol = IpNextHeaderProtocol(44);

    /// Inter-Domain Routing Protocol
    pub const Idrp: IpNextHeaderProtocol = IpNextHeaderProtocol(45);

    /// Reservation Protocol [RFC2205][RFC3209]
    pub const Rsvp: IpNextHeaderProtocol = IpNextHeaderProtocol(46);

    /// Generic Routing Encapsulation [RFC1701]
    pub const Gre: IpNextHeaderProtocol = IpNextHeaderProtocol(47);

    /// Dynamic Source Routing Protocol [RFC4728]
    pub const Dsr: IpNextHeaderProtocol = IpNextHeaderProtocol(48);

    /// BNA
    pub const Bna: IpNextHeaderProtocol = IpNextHeaderProtocol(49);

    /// Encap Security Payload [RFC4303]
    pub const Esp: IpNextHeaderProtocol = IpNextHeaderProtocol(50);

    /// Authentication Header [RFC4302]
    pub const Ah: IpNextHeaderProtocol = IpNextHeaderProtocol(51);

    /// Integrated Net Layer Security TUBA
    pub const INlsp: IpNextHeaderProtocol = IpNextHeaderProtocol(52);

    /// IP with Encryption
    pub const Swipe: IpNextHeaderProtocol = IpNextHeaderProtocol(53);

    /// NBMA Address Resolution Protocol [RFC1735]
    pub const Narp: IpNextHeaderProtocol = IpNextHeaderProtocol(54);

    /// IP Mobility
    pub const Mobile: IpNextHeaderProtocol = IpNextHeaderProtocol(55);

    /// Transport Layer Security Protocol using Kryptonet key management
    pub const Tlsp: IpNextHeaderProtocol = IpNextHeaderProtocol(56);

    /// SKIP
    pub const Skip: IpNextHeaderProtocol = IpNextHeaderProtocol(57);

    #[deprecated(note = ""Please use `IpNextHeaderProtocols::Icmpv6` instead"")]
    pub const Ipv6Icmp: IpNextHeaderProtocol = IpNextHeaderProtocol(58);

    /// ICMPv6 [RFC4443]
    pub const Icmpv6: IpNextHeaderProtocol = IpNextHeaderProtocol(58);

    /// No Next Header for IPv6 [RFC2460]
    pub const Ipv6NoNxt: IpNextHeaderProtocol = IpNextHeaderProtocol(59);

    /// Destination Options for IPv6 [RFC2460]
    pub const Ipv6Opts: IpNextHeaderProtocol = IpNextHeaderProtocol(60);

    /// any host internal protocol
    pub const HostInternal: IpNextHeaderProtocol = IpNextHeaderProtocol(61);

    /// CFTP
    pub const Cftp: IpNextHeaderProtocol = IpNextHeaderProtocol(62);

    /// any local network
    pub const LocalNetwork: IpNextHeaderProtocol = IpNextHeaderProtocol(63);

    /// SATNET and Backroom EXPAK
    pub const SatExpak: IpNextHeaderProtocol = IpNextHeaderProtocol(64);

    /// Kryptolan
    pub const Kryptolan: IpNextHeaderProtocol = IpNextHeaderProtocol(65);

    /// MIT Remote Virtual Disk Protocol
    pub const Rvd: IpNextHeaderProtocol = IpNextHeaderProtocol(66);

    /// Internet Pluribus Packet Core
    pub const Ippc: IpNextHeaderProtocol = IpNextHeaderProtocol(67);

    /// any distributed file system
    pub const DistributedFs: IpNextHeaderProtocol = IpNextHeaderProtocol(68);

    /// SATNET Monitoring
    pub const SatMon: IpNextHeaderProtocol = IpNextHeaderProtocol(69);

    /// VISA Protocol
    pub const Visa: IpNextHeaderProtocol = IpNextHeaderProtocol(70);

    /// Internet Packet Core Utility
    pub const Ipcv: IpNextHeaderProtocol = IpNextHeaderProtocol(71);

    /// Computer Protocol Network Executive
    pub const Cpnx: IpNextHeaderProtocol = IpNextHeaderProtocol(72);

    /// Computer Protocol Heart Beat
    pub const Cphb: IpNextHeaderProtocol = IpNextHeaderProtocol(73);

    /// Wang Span Network
    pub const Wsn: IpNextHeaderProtocol = IpNextHeaderProtocol(74);

    /// Packet Video Protocol
    pub const Pvp: IpNextHeaderProtocol = IpNextHeaderProtocol(75);

    /// Backroom SATNET Monitoring
    pub const BrSatMon: IpNextHeaderProtocol = IpNextHeaderProtocol(76);

    /// SUN ND PROTOCOL-Temporary
    pub const SunNd: IpNextHeaderProtocol = IpNextHeaderProtocol(77);

    /// WIDEBAND Monitoring
    pub const WbMon: IpNextHeaderProtocol = IpNextHeaderProtocol(78);

    /// WIDEBAND EXPAK
    pub const WbExpak: IpNextHeaderProtocol = IpNextHeaderProtocol(79);

    /// ISO Internet Protocol
    pub const IsoIp: IpNextHeaderProtocol = IpNextHeaderProtocol(80);

    /// VMTP
    pub const Vmtp: IpNextHeaderProtocol = IpNextHeaderProtocol(81);

    /// SECURE-VMTP
    pub const SecureVmtp: IpNextHeaderProtocol = IpNextHeaderProtocol(82);

    /// VINES
    pub const Vines: IpNextHeaderProtocol = IpNextHeaderProtocol(83);

    /// Transaction Transport Protocol/IP Traffic Manager
    pub const TtpOrIptm: IpNextHeaderProtocol = IpNextHeaderProtocol(84);

    /// NSFNET-IGP
    pub const NsfnetIgp: IpNextHeaderProtocol = IpNextHeaderProtocol(85);

    /// Dissimilar Gateway Protocol
    pub const Dgp: IpNextHeaderProtocol = IpNextHeaderProtocol(86);

    /// TCF
    pub const Tcf: IpNextHeaderProtocol = IpNextHeaderProtocol(87);

    /// EIGRP
    pub const Eigrp: IpNextHeaderProtocol = IpNextHeaderProtocol(88);

    /// OSPFIGP [RFC1583][RFC2328][RFC5340]
    pub const OspfigP: IpNextHeaderProtocol = IpNextHeaderProtocol(89);

    /// Sprite RPC Protocol
    pub const SpriteRpc: IpNextHeaderProtocol = IpNextHeaderProtocol(90);

    /// Locus Address Resolution Protocol
    pub const Larp: IpNextHeaderProtocol = IpNextHeaderProtocol(91);

    /// Multicast Transport Protocol
    pub const Mtp: IpNextHeaderProtocol = IpNextHeaderProtocol(92);

    /// AX.25 Frames
    pub const Ax25: IpNextHeaderProtocol = IpNextHeaderProtocol(93);

    /// IP-within-IP Encapsulation Protocol
    pub const IpIp: IpNextHeaderProtocol = IpNextHeaderProtocol(94);

    /// Mobile Internetworking Control Pro.
    pub const Micp: IpNextHeaderProtocol = IpNextHeaderProtocol(95);

    /// Semaphore Communications Sec. Pro.
    pub const SccSp: IpNextHeaderProtocol = IpNextHeaderProtocol(96);

    /// Ethernet-within-IP Encapsulation [RFC3378]
    pub const Etherip: IpNextHeaderProtocol = IpNextHeaderProtocol(97);

    /// Encapsulation Header [RFC1241]
    pub const Encap: IpNextHeaderProtocol = IpNextHeaderProtocol(98);

    /// any private encryption scheme
    pub const PrivEncryption: IpNextHeaderProtocol = IpNextHeaderProtocol(99);

    /// GMTP
    pub const Gmtp: IpNextHeaderProtocol = IpNextHeaderProtocol(100);

    /// Ipsilon Flow Management Protocol
    pub const Ifmp: IpNextHeaderProtocol = IpNextHeaderProtocol(101);

    /// PNNI over IP
    pub const Pnni: IpNextHeaderProtocol = IpNextHeaderProtocol(102);

    /// Protocol Independent Multicast [RFC4601]
    pub const Pim: IpNextHeaderProtocol = IpNextHeaderProtocol(103);

    /// ARIS
    pub const Aris: IpNextHeaderProtocol = IpNextHeaderProtocol(104);

    /// SCPS
    pub const Scps: IpNextHeaderProtocol = IpNextHeaderProtocol(105);

    /// QNX
    pub const Qnx: IpNextHeaderProtocol = IpNextHeaderProtocol(106);

    /// Active Networks
    pub const AN: IpNextHeaderProtocol = IpNextHeaderProtocol(107);

    /// IP Payload Compression Protocol [RFC2393]
    pub const IpComp: IpNextHeaderProtocol = IpNextHeaderProtocol(108);

    /// Sitara Networks Protocol
    pub const Snp: IpNextHeaderProtocol = IpNextHeaderProtocol(109);

    /// Compaq Peer Protocol
    pub const CompaqPeer: IpNextHeaderProtocol = IpNextHeaderProtocol(110);

    /// IPX in IP
    pub const IpxInIp: IpNextHeaderProtocol = IpNextHeaderProtocol(111);

    /// Virtual Router Redundancy Protocol [RFC5798]
    pub const Vrrp: IpNextHeaderProtocol = IpNextHeaderProtocol(112);

    /// PGM Reliable Transport Protocol
    pub const Pgm: IpNextHeaderProtocol = IpNextHeaderProtocol(113);

    /// any 0-hop protocol
    pub const ZeroHop: IpNextHeaderProtocol = IpNextHeaderProtocol(114);

    /// Layer Two Tunneling Protocol [RFC3931]
    pub const L2tp: IpNextHeaderProtocol = IpNextHeaderProtocol(115);

    /// D-II Data Exchange (DDX)
    pub const Ddx: IpNextHeaderProtocol = IpNextHeaderProtocol(116);

    /// Interactive Agent Transfer Protocol
    pub const Iatp: IpNextHeaderProtocol = IpNextHeaderProtocol(117);

    /// Schedule Transfer Protocol
    pub const Stp: IpNextHeaderProtocol = IpNextHeaderProtocol(118);

    /// SpectraLink Radio Protocol
    pub const Srp: IpNextHeaderProtocol = IpNextHeaderProtocol(119);

    /// UTI
    pub const Uti: IpNextHeaderProtocol = IpNextHeaderProtocol(120);

    /// Simple Message Protocol
    pub const Smp: IpNextHeaderProtocol = IpNextHeaderProtocol(121);

    /// Simple Multicast Protocol
    pub const Sm: IpNextHeaderProtocol = IpNextHeaderProtocol(122);

    /// Performance Transparency Protocol
    pub const Ptp: IpNextHeaderProtocol = IpNextHeaderProtocol(123);

    ///
    pub const IsisOverIpv4: IpNextHeaderProtocol = IpNextHeaderProtocol(124);

    ///
    pub const Fire: IpNextHeaderProtocol = IpNextHeaderProtocol(125);

    /// Combat Radio Transport Protocol
    pub const Crtp: IpNextHeaderProtocol = IpNextHeaderProtocol(126);

    /// Combat Radio User Datagram
    pub const Crudp: IpNextHeaderProtocol = IpNextHeaderProtocol(127);

    ///
    pub const Sscopmce: IpNextHeaderProtocol = IpNextHeaderProtocol(128);

    ///
    pub const Iplt: IpNextHeaderProtocol = IpNextHeaderProtocol(129);

    /// Secure Packet Shield
    pub const Sps: IpNextHeaderProtocol = IpNextHeaderProtocol(130);

    /// Private IP Encapsulation within IP
    pub const Pipe: IpNextHeaderProtocol = IpNextHeaderProtocol(131);

    /// Stream Control Transmission Protocol
    pub const Sctp: IpNextHeaderProtocol = IpNextHeaderProtocol(132);

    /// Fibre Channel [RFC6172]
    pub const Fc: IpNextHeaderProtocol = IpNextHeaderProtocol(133);

    /// [RFC3175]
    pub const RsvpE2eIgnore: IpNextHeaderProtocol = IpNextHeaderProtocol(134);

    /// [RFC6275]
    pub const MobilityHeader: IpNextHeaderProtocol = IpNextHeaderProtocol(135);

    /// [RFC3828]
    pub const UdpLite: IpNextHeaderProtocol = IpNextHeaderProtocol(136);

    /// [RFC4023]
    pub const MplsInIp: IpNextHeaderProtocol = IpNextHeaderProtocol(137);

    /// MANET Protocols [RFC5498]
    pub const Manet: IpNextHeaderProtocol = IpNextHeaderProtocol(138);

    /// Host Identity Protocol [RFC5201]
    pub const Hip: IpNextHeaderProtocol = IpNextHeaderProtocol(139);

    /// Shim6 Protocol [RFC5533]
    pub const Shim6: IpNextHeaderProtocol = IpNextHeaderProtocol(140);

    /// Wrapped Encapsulating Security Payload [RFC5840]
    pub const Wesp: IpNextHeaderProtocol = IpNextHeaderProtocol(141);

    /// Robust Header Compression [RFC5858]
    pub const Rohc: IpNextHeaderProtocol = IpNextHeaderProtocol(142);

    /// Use for experimentation and testing [RFC3692]
    pub const Test1: IpNextHeaderProtocol = IpNextHeaderProtocol(253);

    /// Use for experimentation and testing [RFC3692]
    pub const Test2: IpNextHeaderProtocol = IpNextHeaderProtocol(254);

    ///
    pub const Reserved: IpNextHeaderProtocol = IpNextHeaderProtocol(255);
}".

(** src/arp.rs:36-44 *)
Definition const_arp_0 : string :=
"pub mod ArpOperations {
    use super::ArpOperation;

    /// ARP request
    pub const Request: ArpOperation = ArpOperation(1);

    /// ARP reply
    pub const Reply: ArpOperation = ArpOperation(2);
}".

(** src/arp.rs:67-72 *)
Definition const_arp_1 : string :=
"pub mod ArpHardwareTypes {
    use super::ArpHardwareType;

    /// Ethernet
    pub const Ethernet: ArpHardwareType = ArpHardwareType(1);
}".

(** src/vlan.rs:28-54 *)
Definition const_vlan_0 : string :=
"pub mod ClassesOfService {
    use super::ClassOfService;

    /// Background
    pub const BK: ClassOfService = ClassOfService(1);

    /// Best Effort
    pub const BE: ClassOfService = ClassOfService(0);

    /// Excellent Effort
    pub const EE: ClassOfService = ClassOfService(2);

    /// Critical Applications
    pub const CA: ClassOfService = ClassOfService(3);

    /// Video, < 100 ms latency
    pub const VI: ClassOfService = ClassOfService(4);

    /// Voice, < 10 ms latency
    pub const VO: ClassOfService = ClassOfService(5);

    /// Internetwork Control
    pub const IC: ClassOfService = ClassOfService(6);

    /// Network Control
    pub const NC: ClassOfService = ClassOfService(7);
}".

(** src/ipv4.rs:31-111 *)
Definition const_ipv4_0 : string :=
"pub mod Ipv4OptionNumbers {
    use super::Ipv4OptionNumber;

    /// End of Options List.
    pub const EOL: Ipv4OptionNumber = Ipv4OptionNumber(0);

    /// No Operation.
    pub const NOP: Ipv4OptionNumber = Ipv4OptionNumber(1);

    /// Security.
    pub const SEC: Ipv4OptionNumber = Ipv4OptionNumber(2);

    /// Loose Source Route.
    pub const LSR: Ipv4OptionNumber = Ipv4OptionNumber(3);

    /// Time Stamp.
    pub const TS: Ipv4OptionNumber = Ipv4OptionNumber(4);

    /// Extended Security.
    pub const ESEC: Ipv4OptionNumber = Ipv4OptionNumber(5);

    /// Commercial Security.
    pub const CIPSO: Ipv4OptionNumber = Ipv4OptionNumber(6);

    /// Record Route.
    pub const RR: Ipv4OptionNumber = Ipv4OptionNumber(7);

    /// Stream ID.
    pub const SID: Ipv4OptionNumber = Ipv4OptionNumber(8);

    /// Strict Source Route.
    pub const SSR: Ipv4OptionNumber = Ipv4OptionNumber(9);

    /// Experimental Measurement.
    pub const ZSU: Ipv4OptionNumber = Ipv4OptionNumber(10);

    /// MTU Probe.
    pub const MTUP: Ipv4OptionNumber = Ipv4OptionNumber(11);

    /// MTU Reply.
    pub const MTUR: Ipv4OptionNumber = Ipv4OptionNumber(12);

    /// Experimental Flow Control.
    pub const FINN: Ipv4OptionNumber = Ipv4OptionNumber(13);

    /// Experimental Access Control.
    pub const VISA: Ipv4OptionNumber = Ipv4OptionNumber(14);

    /// ENCODE.
    pub const ENCODE: Ipv4OptionNumber = Ipv4OptionNumber(15);

    /// IMI Traffic Descriptor.
    pub const IMITD: Ipv4OptionNumber = Ipv4OptionNumber(16);

    /// Extended Internet Protocol.
    pub const EIP: Ipv4OptionNumber = Ipv4OptionNumber(17);

    /// Traceroute.
    pub const TR: Ipv4OptionNumber = Ipv4OptionNumber(18);

    /// Address Extension.
    pub const ADDEXT: Ipv4OptionNumber = Ipv4OptionNumber(19);

    /// Router Alert.
    pub const RTRALT: Ipv4OptionNumber = Ipv4OptionNumber(20);

    /// Selective Directed Broadcast.
    pub const SDB: Ipv4OptionNumber = Ipv4OptionNumber(21);

    /// Dynamic Packet State.
    pub const DPS: Ipv4OptionNumber = Ipv4OptionNumber(23);

    /// Upstream Multicast Pkt.
    pub const UMP: Ipv4OptionNumber = Ipv4OptionNumber(24);

    /// Quick-Start.
    pub const QS: Ipv4OptionNumber = Ipv4OptionNumber(25);

    /// RFC3692-style Experiment.
    pub const EXP: Ipv4OptionNumber = Ipv4OptionNumber(30);
}".

(** src/ipv4.rs:18-25 *)
Definition const_ipv4_1 : string :=
"pub mod Ipv4Flags {
    use crate::types::*;

    /// Don't Fragment flag.
    pub const DontFragment: u3 = 0b010;
    /// More Fragments flag.
    pub const MoreFragments: u3 = 0b001;
}".

(** src/tcp.rs:79-102 *)
Definition const_tcp_0 : string :=
"pub mod TcpOptionNumbers {
    use crate::tcp::TcpOptionNumber;

    /// End of Options list.
    pub const EOL: TcpOptionNumber = TcpOptionNumber(0);

    /// No operation.
    pub const NOP: TcpOptionNumber = TcpOptionNumber(1);

    /// Maximum segment size.
    pub const MSS: TcpOptionNumber = TcpOptionNumber(2);

    /// Window scale.
    pub const WSCALE: TcpOptionNumber = TcpOptionNumber(3);

    /// Selective acknowledgements permitted.
    pub const SACK_PERMITTED: TcpOptionNumber = TcpOptionNumber(4);

    /// Selective acknowledgment.
    pub const SACK: TcpOptionNumber = TcpOptionNumber(5);

    /// Timestamps.
    pub const TIMESTAMPS: TcpOptionNumber = TcpOptionNumber(8);
}".

(** src/tcp.rs:22-51 *)
Definition const_tcp_1 : string :=
"pub mod TcpFlags {
    use crate::types::*;
    /// NS – ECN-nonce concealment protection (experimental: see RFC 3540).
    pub const NS: u9be = 0b100000000;
    /// CWR – Congestion Window Reduced (CWR) flag is set by the sending
    /// host to indicate that it received a TCP segment with the ECE flag set
    /// and had responded in congestion control mechanism (added to header by RFC 3168).
    pub const CWR: u9be = 0b010000000;
    /// ECE – ECN-Echo has a dual role, depending on the value of the
    /// SYN flag. It indicates:
    /// If the SYN flag is set (1), that the TCP peer is ECN capable.
    /// If the SYN flag is clear (0), that a packet with Congestion Experienced
    /// flag set (ECN=11) in IP header received during normal transmission
    /// (added to header by RFC 3168).
    pub const ECE: u9be = 0b001000000;
    /// URG – indicates that the Urgent pointer field is significant.
    pub const URG: u9be = 0b000100000;
    /// ACK – indicates that the Acknowledgment field is significant.
    /// All packets after the initial SYN packet sent by the client should have this flag set.
    pub const ACK: u9be = 0b000010000;
    /// PSH – Push function. Asks to push the buffered data to the receiving application.
    pub const PSH: u9be = 0b000001000;
    /// RST – Reset the connection.
    pub const RST: u9be = 0b000000100;
    /// SYN – Synchronize sequence numbers. Only the first packet sent from each end
    /// should have this flag set.
    pub const SYN: u9be = 0b000000010;
    /// FIN – No more data from sender.
    pub const FIN: u9be = 0b000000001;
}".

(** src/icmp.rs:105-140 *)
Definition const_icmp_0 : string :=
"pub mod IcmpTypes {

    use crate::icmp::IcmpType;
    /// ICMP type for ""echo reply"" packet.
    pub const EchoReply: IcmpType = IcmpType(0);
    /// ICMP type for ""destination unreachable"" packet.
    pub const DestinationUnreachable: IcmpType = IcmpType(3);
    /// ICMP type for ""source quench"" packet.
    pub const SourceQuench: IcmpType = IcmpType(4);
    /// ICMP type for ""redirect message"" packet.
    pub const RedirectMessage: IcmpType = IcmpType(5);
    /// ICMP type for ""echo request"" packet.
    pub const EchoRequest: IcmpType = IcmpType(8);
    /// ICMP type for ""router advertisement"" packet.
    pub const RouterAdvertisement: IcmpType = IcmpType(9);
    /// ICMP type for ""router solicitation"" packet.
    pub const RouterSolicitation: IcmpType = IcmpType(10);
    /// ICMP type for ""time exceeded"" packet.
    pub const TimeExceeded: IcmpType = IcmpType(11);
    /// ICMP type for ""parameter problem"" packet.
    pub const ParameterProblem: IcmpType = IcmpType(12);
    /// ICMP type for ""timestamp"" packet.
    pub const Timestamp: IcmpType = IcmpType(13);
    /// ICMP type for ""timestamp reply"" packet.
    pub const TimestampReply: IcmpType = IcmpType(14);
    /// ICMP type for ""information request"" packet.
    pub const InformationRequest: IcmpType = IcmpType(15);
    /// ICMP type for ""information reply"" packet.
    pub const InformationReply: IcmpType = IcmpType(16);
    /// ICMP type for ""address mask request"" packet.
    pub const AddressMaskRequest: IcmpType = IcmpType(17);
    /// ICMP type for ""address mask reply"" packet.
    pub const AddressMaskReply: IcmpType = IcmpType(18);
    /// ICMP type for ""traceroute"" packet.
    pub const Traceroute: IcmpType = IcmpType(30);
}".

(** src/icmpv6.rs:118-143 *)
Definition const_icmpv6_0 : string :=
"pub mod Icmpv6Types {
    use crate::icmpv6::Icmpv6Type;
    /// ICMPv6 type for ""destination unreachable"".
    pub const DestinationUnreachable: Icmpv6Type = Icmpv6Type(1);
    /// ICMPv6 type for ""packet too big"".
    pub const PacketTooBig: Icmpv6Type = Icmpv6Type(2);
    /// ICMPv6 type for ""time exceeded"".
    pub const TimeExceeded: Icmpv6Type = Icmpv6Type(3);
    /// ICMPv6 type for ""parameter problem"".
    pub const ParameterProblem: Icmpv6Type = Icmpv6Type(4);
    /// ICMPv6 type for ""echo request"".
    pub const EchoRequest: Icmpv6Type = Icmpv6Type(128);
    /// ICMPv6 type for ""echo reply"".
    pub const EchoReply: Icmpv6Type = Icmpv6Type(129);
    // Neighbor Discovery Protocol [RFC4861]
    /// ICMPv6 type for ""router solicitation"".
    pub const RouterSolicit: Icmpv6Type = Icmpv6Type(133);
    /// ICMPv6 type for ""router advertisement"".
    pub const RouterAdvert: Icmpv6Type = Icmpv6Type(134);
    /// ICMPv6 type for ""neighbor solicitation"".
    pub const NeighborSolicit: Icmpv6Type = Icmpv6Type(135);
    /// ICMPv6 type for ""neighbor advertisement"".
    pub const NeighborAdvert: Icmpv6Type = Icmpv6Type(136);
    /// ICMPv6 type for ""redirect"".
    pub const Redirect: Icmpv6Type = Icmpv6Type(137);
}".

(** src/icmpv6.rs:156-160 *)
Definition const_ndp_0 : string :=
"    pub mod Icmpv6Codes {
        use crate::icmpv6::Icmpv6Code;
        /// 0 is the only available ICMPv6 Code for the NDP.
        pub const NoCode: Icmpv6Code = Icmpv6Code(0);
    }".

(** src/icmpv6.rs:185-264 *)
Definition const_ndp_1 : string :=
"    pub mod NdpOptionTypes {
        use super::NdpOptionType;

        /// Source Link-Layer Address Option [RFC 4861 § 4.6.1]
        ///
        /// ```text
        /// +-+-+-+-+-+-+-+-+-+-+-+-+-+-+-+-+-+-+-+-+-+-+-+-+-+-+-+-+-+-+-+-+
        /// |     Type      |    Length     |    Link-Layer Address ...
        /// +-+-+-+-+-+-+-+-+-+-+-+-+-+-+-+-+-+-+-+-+-+-+-+-+-+-+-+-+-+-+-+-+
        /// ```
        ///
        /// [RFC 4861 § 4.6.1]: https://tools.ietf.org/html/rfc4861#section-4.6.1
        pub const SourceLLAddr: NdpOptionType = NdpOptionType(1);

        /// Target Link-Layer Address Option [RFC 4861 § 4.6.1]
        ///
        /// ```text
        /// +-+-+-+-+-+-+-+-+-+-+-+-+-+-+-+-+-+-+-+-+-+-+-+-+-+-+-+-+-+-+-+-+
        /// |     Type      |    Length     |    Link-Layer Address ...
        /// +-+-+-+-+-+-+-+-+-+-+-+-+-+-+-+-+-+-+-+-+-+-+-+-+-+-+-+-+-+-+-+-+
        /// ```
        ///
        /// [RFC 4861 § 4.6.1]: https://tools.ietf.org/html/rfc4861#section-4.6.1
        pub const TargetLLAddr: NdpOptionType = NdpOptionType(2);

        /// Prefix Information Option [RFC 4861 § 4.6.2]
        ///
        /// ```text
        /// +-+-+-+-+-+-+-+-+-+-+-+-+-+-+-+-+-+-+-+-+-+-+-+-+-+-+-+-+-+-+-+-+
        /// |     Type      |    Length     | Prefix Length |L|A| Reserved1 |
        /// +-+-+-+-+-+-+-+-+-+-+-+-+-+-+-+-+-+-+-+-+-+-+-+-+-+-+-+-+-+-+-+-+
        /// |                         Valid Lifetime                        |
        /// +-+-+-+-+-+-+-+-+-+-+-+-+-+-+-+-+-+-+-+-+-+-+-+-+-+-+-+-+-+-+-+-+
        /// |                       Preferred Lifetime                      |
        /// +-+-+-+-+-+-+-+-+-+-+-+-+-+-+-+-+-+-+-+-+-+-+-+-+-+-+-+-+-+-+-+-+
        /// |                           Reserved2                           |
        /// +-+-+-+-+-+-+-+-+-+-+-+-+-+-+-+-+-+-+-+-+-+-+-+-+-+-+-+-+-+-+-+-+
        /// |                                                               |
        /// +                                                               +
        /// |                                                               |
        /// +                            Prefix                             +
        /// |                                                               |
        /// +                                                               +
        /// |                                                               |
        /// +-+-+-+-+-+-+-+-+-+-+-+-+-+-+-+-+-+-+-+-+-+-+-+-+-+-+-+-+-+-+-+-+
        /// ```
        ///
        /// [RFC 4861 § 4.6.2]: https://tools.ietf.org/html/rfc4861#section-4.6.2
        pub const PrefixInformation: NdpOptionType = NdpOptionType(3);

        /// Redirected Header Option [RFC 4861 § 4.6.3]
        ///
        /// ```text
        /// +-+-+-+-+-+-+-+-+-+-+-+-+-+-+-+-+-+-+-+-+-+-+-+-+-+-+-+-+-+-+-+-+
        /// |     Type      |    Length     |            Reserved           |
        /// +-+-+-+-+-+-+-+-+-+-+-+-+-+-+-+-+-+-+-+-+-+-+-+-+-+-+-+-+-+-+-+-+
        /// |                           Reserved                            |
        /// +-+-+-+-+-+-+-+-+-+-+-+-+-+-+-+-+-+-+-+-+-+-+-+-+-+-+-+-+-+-+-+-+
        /// |                                                               |
        /// ~                       IP header + data                        ~
        /// |                                                               |
        /// +-+-+-+-+-+-+-+-+-+-+-+-+-+-+-+-+-+-+-+-+-+-+-+-+-+-+-+-+-+-+-+-+
        /// ```
        ///
        /// [RFC 4861 § 4.6.3]: https://tools.ietf.org/html/rfc4861#section-4.6.3
        pub const RedirectedHeader: NdpOptionType = NdpOptionType(4);

        /// MTU Option [RFC 4861 § 4.6.4]
        ///
        /// ```text
        /// +-+-+-+-+-+-+-+-+-+-+-+-+-+-+-+-+-+-+-+-+-+-+-+-+-+-+-+-+-+-+-+-+
        /// |     Type      |    Length     |           Reserved            |
        /// +-+-+-+-+-+-+-+-+-+-+-+-+-+-+-+-+-+-+-+-+-+-+-+-+-+-+-+-+-+-+-+-+
        /// |                              MTU                              |
        /// +-+-+-+-+-+-+-+-+-+-+-+-+-+-+-+-+-+-+-+-+-+-+-+-+-+-+-+-+-+-+-+-+
        /// ```
        ///
        /// [RFC 4861 § 4.6.4]: https://tools.ietf.org/html/rfc4861#section-4.6.4
        pub const MTU: NdpOptionType = NdpOptionType(5);
    }".

(** src/icmpv6.rs:317-324 *)
Definition const_ndp_2 : string :=
"    pub mod RouterAdvertFlags {
        /// ""Managed Address Configuration"" flag. This is set when
        /// addresses are available via DHCPv6.
        pub const ManagedAddressConf: u8 = 0b10000000;
        /// ""Other Configuration"" flag. This is set when other
        /// configuration information is available via DHCPv6.
        pub const OtherConf: u8 = 0b01000000;
    }".

(** src/icmpv6.rs:401-410 *)
Definition const_ndp_3 : string :=
"    pub mod NeighborAdvertFlags {
        /// Indicates that the sender is a router.
        pub const Router: u8 = 0b10000000;
        /// Indicates that the advertisement was sent due to the receipt of a
        /// Neighbor Solicitation message.
        pub const Solicited: u8 = 0b01000000;
        /// Indicates that the advertisement should override an existing cache
        /// entry.
        pub const Override: u8 = 0b00100000;
    }".

(** src/quic.rs:339-344 *)
Definition const_quic_0 : string :=
"pub mod HeaderForms {
    use super::HeaderForm;

    pub const Short: HeaderForm = HeaderForm(0);
    pub const Long: HeaderForm = HeaderForm(1);
}".

(** src/quic.rs:403-410 *)
Definition const_quic_1 : string :=
"pub mod LongPacketTypes {
    use super::LongPacketType;

    pub const Initial: LongPacketType = LongPacketType(0);
    pub const ZeroRtt: LongPacketType = LongPacketType(1);
    pub const Handshake: LongPacketType = LongPacketType(2);
    pub const Retry: LongPacketType = LongPacketType(3);
}".

(** src/quic.rs:842-876 *)
Definition const_quic_2 : string :=
"pub mod FrameTypes {
    use super::FrameType;

    pub const Padding: FrameType = FrameType(0x00);
    pub const Ping: FrameType = FrameType(0x01);
    pub const Ack0: FrameType = FrameType(0x02);
    pub const Ack1: FrameType = FrameType(0x03);
    pub const ResetStream: FrameType = FrameType(0x04);
    pub const StopSending: FrameType = FrameType(0x05);
    pub const Crypto: FrameType = FrameType(0x06);
    pub const NewToken: FrameType = FrameType(0x07);
    pub const Stream0: FrameType = FrameType(0x08);
    pub const Stream1: FrameType = FrameType(0x09);
    pub const Stream2: FrameType = FrameType(0x0a);
    pub const Stream3: FrameType = FrameType(0x0b);
    pub const Stream4: FrameType = FrameType(0x0c);
    pub const Stream5: FrameType = FrameType(0x0d);
    pub const Stream6: FrameType = FrameType(0x0e);
    pub const Stream7: FrameType = FrameType(0x0f);
    pub const MaxData: FrameType = FrameType(0x10);
    pub const MaxStreamData: FrameType = FrameType(0x11);
    pub const MaxStreams0: FrameType = FrameType(0x12);
    pub const MaxStreams1: FrameType = FrameType(0x13);
    pub const DataBlocked: FrameType = FrameType(0x14);
    pub const StreamDataBlocked: FrameType = FrameType(0x15);
    pub const StreamsBlocked0: FrameType = FrameType(0x16);
    pub const StreamsBlocked1: FrameType = FrameType(0x17);
    pub const NewConnectionId: FrameType = FrameType(0x18);
    pub const RetireConnectionId: FrameType = FrameType(0x19);
    pub const PathChallenge: FrameType = FrameType(0x1a);
    pub const PathResponse: FrameType = FrameType(0x1b);
    pub const ConnectionClose0: FrameType = FrameType(0x1c);
    pub const ConnectionClose1: FrameType = FrameType(0x1d);
    pub const HandshakeDone: FrameType = FrameType(0x1e);
}".

(** src/icmp.rs:198-202 *)
Definition const_echo_reply_0 : string :=
"    pub mod IcmpCodes {
        use crate::icmp::IcmpCode;
        /// 0 is the only available ICMP code for ""echo reply"" ICMP packets.
        pub const NoCode: IcmpCode = IcmpCode(0);
    }".

(** src/icmp.rs:275-279 *)
Definition const_echo_request_0 : string :=
"    pub mod IcmpCodes {
        use crate::icmp::IcmpCode;
        /// 0 is the only available ICMP code for ""echo reply"" ICMP packets.
        pub const NoCode: IcmpCode = IcmpCode(0);
    }".

(** src/icmp.rs:315-349 *)
Definition const_destination_unreachable_0 : string :=
"    pub mod IcmpCodes {
        use crate::icmp::IcmpCode;
        /// ICMP code for ""destination network unreachable"" packet.
        pub const DestinationNetworkUnreachable: IcmpCode = IcmpCode(0);
        /// ICMP code for ""destination host unreachable"" packet.
        pub const DestinationHostUnreachable: IcmpCode = IcmpCode(1);
        /// ICMP code for ""destination protocol unreachable"" packet.
        pub const DestinationProtocolUnreachable: IcmpCode = IcmpCode(2);
        /// ICMP code for ""destination port unreachable"" packet.
        pub const DestinationPortUnreachable: IcmpCode = IcmpCode(3);
        /// ICMP code for ""fragmentation required and DFF flag set"" packet.
        pub const FragmentationRequiredAndDFFlagSet: IcmpCode = IcmpCode(4);
        /// ICMP code for ""source route failed"" packet.
        pub const SourceRouteFailed: IcmpCode = IcmpCode(5);
        /// ICMP code for ""destination network unknown"" packet.
        pub const DestinationNetworkUnknown: IcmpCode = IcmpCode(6);
        /// ICMP code for ""destination host unknown"" packet.
        pub const DestinationHostUnknown: IcmpCode = IcmpCode(7);
        /// ICMP code for ""source host isolated"" packet.
        pub const SourceHostIsolated: IcmpCode = IcmpCode(8);
        /// ICMP code for ""network administrative prohibited"" packet.
        pub const NetworkAdministrativelyProhibited: IcmpCode = IcmpCode(9);
        /// ICMP code for ""host administrative prohibited"" packet.
        pub const HostAdministrativelyProhibited: IcmpCode = IcmpCode(10);
        /// ICMP code for ""network unreachable for this Type Of Service"" packet.
        pub const NetworkUnreachableForTOS: IcmpCode = IcmpCode(11);
        /// ICMP code for ""host unreachable for this Type Of Service"" packet.
        pub const HostUnreachableForTOS: IcmpCode = IcmpCode(12);
        /// ICMP code for ""communication administratively prohibited"" packet.
        pub const CommunicationAdministrativelyProhibited: IcmpCode = IcmpCode(13);
        /// ICMP code for ""host precedence violation"" packet.
        pub const HostPrecedenceViolation: IcmpCode = IcmpCode(14);
        /// ICMP code for ""precedence cut off in effect"" packet.
        pub const PrecedenceCutoffInEffect: IcmpCode = IcmpCode(15);
    }".

(** src/icmp.rs:384-390 *)
Definition const_time_exceeded_0 : string :=
"    pub mod IcmpCodes {
        use crate::icmp::IcmpCode;
        /// ICMP code for ""time to live exceeded in transit"" packet.
        pub const TimeToLiveExceededInTransit: IcmpCode = IcmpCode(0);
        /// ICMP code for ""fragment reassembly time exceeded"" packet.
        pub const FragmentReasemblyTimeExceeded: IcmpCode = IcmpCode(1);
    }".

(** core/src/macaddr.rs:17-17 *)
Definition const_mac_0 : string :=
"pub const ETHER_ADDR_LEN: usize = 6;".

(** core/src/macaddr.rs:22-22 *)
Definition const_mac_1 : string :=
"const LOCAL_ADDR_BIT: u8 = 0x02;".

(** core/src/macaddr.rs:23-23 *)
Definition const_mac_2 : string :=
"const MULTICAST_ADDR_BIT: u8 = 0x01;".

(** The texts of a module. *)
Definition const_texts : list (string * list string) :=
  [("ethernet", [const_ethernet_0]);
   ("ip", [const_ip_0]);
   ("arp", [const_arp_0; const_arp_1]);
   ("vlan", [const_vlan_0]);
   ("ipv4", [const_ipv4_0; const_ipv4_1]);
   ("tcp", [const_tcp_0; const_tcp_1]);
   ("icmp", [const_icmp_0]);
   ("icmpv6", [const_icmpv6_0]);
   ("ndp", [const_ndp_0; const_ndp_1; const_ndp_2; const_ndp_3]);
   ("quic", [const_quic_0; const_quic_1; const_quic_2]);
   ("echo_reply", [const_echo_reply_0]);
   ("echo_request", [const_echo_request_0]);
   ("destination_unreachable", [const_destination_unreachable_0]);
   ("time_exceeded", [const_time_exceeded_0]);
   ("mac", [const_mac_0; const_mac_1; const_mac_2])].

(** ** Tuple structs *)

(** src/ethernet.rs:114-114 *)
Definition tuple_ethernet_EtherType : string :=
"pub struct EtherType(pub u16);".

(** src/ip.rs:472-472 *)
Definition tuple_ip_IpNextHeaderProtocol : string :=
"pub struct IpNextHeaderProtocol(pub u8);".

(** src/arp.rs:17-17 *)
Definition tuple_arp_ArpOperation : string :=
"pub struct ArpOperation(pub u16);".

(** src/arp.rs:48-48 *)
Definition tuple_arp_ArpHardwareType : string :=
"pub struct ArpHardwareType(pub u16);".

(** src/vlan.rs:8-8 *)
Definition tuple_vlan_ClassOfService : string :=
"pub struct ClassOfService(pub u3);".

(** src/ipv4.rs:115-115 *)
Definition tuple_ipv4_Ipv4OptionNumber : string :=
"pub struct Ipv4OptionNumber(pub u8);".

(** src/tcp.rs:74-74 *)
Definition tuple_tcp_TcpOptionNumber : string :=
"pub struct TcpOptionNumber(pub u8);".

(** src/icmp.rs:15-15 *)
Definition tuple_icmp_IcmpType : string :=
"pub struct IcmpType(pub u8);".

(** src/icmp.rs:33-33 *)
Definition tuple_icmp_IcmpCode : string :=
"pub struct IcmpCode(pub u8);".

(** src/icmpv6.rs:17-17 *)
Definition tuple_icmpv6_Icmpv6Type : string :=
"pub struct Icmpv6Type(pub u8);".

(** src/icmpv6.rs:35-35 *)
Definition tuple_icmpv6_Icmpv6Code : string :=
"pub struct Icmpv6Code(pub u8);".

(** src/icmpv6.rs:164-164 *)
Definition tuple_ndp_NdpOptionType : string :=
"    pub struct NdpOptionType(pub u8);".

(** src/quic.rs:347-347 *)
Definition tuple_quic_HeaderForm : string :=
"pub struct HeaderForm(pub u8);".

(** src/quic.rs:375-375 *)
Definition tuple_quic_FixedBit : string :=
"pub struct FixedBit(pub u8);".

(** src/quic.rs:413-413 *)
Definition tuple_quic_LongPacketType : string :=
"pub struct LongPacketType(pub u8);".

(** src/quic.rs:443-443 *)
Definition tuple_quic_Version : string :=
"pub struct Version(pub u32);".

(** src/quic.rs:879-879 *)
Definition tuple_quic_FrameType : string :=
"pub struct FrameType(pub u8);".

(** src/icmp.rs:160-160 *)
Definition tuple_echo_reply_Identifier : string :=
"    pub struct Identifier(pub u16);".

(** src/icmp.rs:178-178 *)
Definition tuple_echo_reply_SequenceNumber : string :=
"    pub struct SequenceNumber(pub u16);".

(** src/icmp.rs:237-237 *)
Definition tuple_echo_request_Identifier : string :=
"    pub struct Identifier(pub u16);".

(** src/icmp.rs:255-255 *)
Definition tuple_echo_request_SequenceNumber : string :=
"    pub struct SequenceNumber(pub u16);".

(** core/src/macaddr.rs:27-27 *)
Definition tuple_mac_MacAddr : string :=
"pub struct MacAddr(pub u8, pub u8, pub u8, pub u8, pub u8, pub u8);".

(** Module, name and text. *)
Definition tuple_texts : list (string * string * string) :=
  [("ethernet", "EtherType", tuple_ethernet_EtherType);
   ("ip", "IpNextHeaderProtocol", tuple_ip_IpNextHeaderProtocol);
   ("arp", "ArpOperation", tuple_arp_ArpOperation);
   ("arp", "ArpHardwareType", tuple_arp_ArpHardwareType);
   ("vlan", "ClassOfService", tuple_vlan_ClassOfService);
   ("ipv4", "Ipv4OptionNumber", tuple_ipv4_Ipv4OptionNumber);
   ("tcp", "TcpOptionNumber", tuple_tcp_TcpOptionNumber);
   ("icmp", "IcmpType", tuple_icmp_IcmpType);
   ("icmp", "IcmpCode", tuple_icmp_IcmpCode);
   ("icmpv6", "Icmpv6Type", tuple_icmpv6_Icmpv6Type);
   ("icmpv6", "Icmpv6Code", tuple_icmpv6_Icmpv6Code);
   ("ndp", "NdpOptionType", tuple_ndp_NdpOptionType);
   ("quic", "HeaderForm", tuple_quic_HeaderForm);
   ("quic", "FixedBit", tuple_quic_FixedBit);
   ("quic", "LongPacketType", tuple_quic_LongPacketType);
   ("quic", "Version", tuple_quic_Version);
   ("quic", "FrameType", tuple_quic_FrameType);
   ("echo_reply", "Identifier", tuple_echo_reply_Identifier);
   ("echo_reply", "SequenceNumber", tuple_echo_reply_SequenceNumber);
   ("echo_request", "Identifier", tuple_echo_request_Identifier);
   ("echo_request", "SequenceNumber", tuple_echo_request_SequenceNumber);
   ("mac", "MacAddr", tuple_mac_MacAddr)].

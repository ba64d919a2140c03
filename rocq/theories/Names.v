(** Models the name tables of the protocol crates: the constants of [EtherTypes],
    [IpNextHeaderProtocols], [HeaderForms], [LongPacketTypes] and [FrameTypes], and the
    [Display] implementations that print them.  The tables below list the constants and
    the match arms in source order; the text of both is transcribed from /repo. *)
From Coq Require Import String ZArith List Bool.
From Verif Require Import Base DeriveUtil DeriveOps DeriveGen MacAddr Quic.
Import ListNotations.
Open Scope string_scope.
Open Scope Z_scope.

(** One arm of a [match self] in a [Display] implementation: [&Mod::A | &Mod::B => s]
    or [x if (lo..=hi).contains(&x.0) => s] (src/quic.rs:905). *)
Inductive arm :=
| AConst : list string -> string -> arm
| ARange : Z -> Z -> string -> arm.

(** Resolution of a constant by its name; the compiler rejects unknown names. *)
Fixpoint const_value (consts : list (string * Z)) (n : string) : option Z :=
  match consts with
  | [] => None
  | (m, v) :: r => if String.eqb m n then Some v else const_value r n
  end.

(** Whether an arm matches a value.  [EtherType] and the others derive [PartialEq] and
    [Eq] on one integer field (src/ethernet.rs:112-113, src/ip.rs:471-472,
    src/quic.rs:346, 411, 879), so a constant pattern compares that integer. *)
Definition arm_matches (consts : list (string * Z)) (v : Z) (a : arm) : bool :=
  match a with
  | AConst ns _ =>
      existsb (fun n => match const_value consts n with Some w => v =? w | None => false end) ns
  | ARange lo hi _ => (lo <=? v) && (v <=? hi)
  end.
Definition arm_text (a : arm) : string :=
  match a with AConst _ s => s | ARange _ _ s => s end.

(** [match]: the first arm that matches, [_ => "unknown"] last (src/ethernet.rs:159,
    src/ip.rs:639, src/quic.rs:368, 436, 918). *)
Fixpoint name_of (consts : list (string * Z)) (arms : list arm) (v : Z) : string :=
  match arms with
  | [] => "unknown"
  | a :: r => if arm_matches consts v a then arm_text a else name_of consts r v
  end.

(** src/ethernet.rs:61-110, [mod EtherTypes] *)
Definition ethertype_consts : list (string * Z) :=
  [("Ipv4", 2048); ("Arp", 2054); ("WakeOnLan", 2114); ("Trill", 8947);
   ("DECnet", 24579); ("Rarp", 32821); ("AppleTalk", 32923); ("Aarp", 33011);
   ("Ipx", 33079); ("Qnx", 33284); ("Ipv6", 34525); ("FlowControl", 34824);
   ("CobraNet", 34841); ("Mpls", 34887); ("MplsMcast", 34888); ("PppoeDiscovery", 34915);
   ("PppoeSession", 34916); ("Vlan", 33024); ("PBridge", 34984); ("Lldp", 35020);
   ("Ptp", 35063); ("Cfm", 35074); ("QinQ", 37120)].

(** src/ethernet.rs:130-163, the arms of [Display for EtherType] before [_] *)
Definition ethertype_arms : list arm :=
  [AConst ["Ipv4"] "Ipv4"; AConst ["Arp"] "Arp";
   AConst ["WakeOnLan"] "WakeOnLan"; AConst ["Trill"] "Trill";
   AConst ["DECnet"] "DECnet"; AConst ["Rarp"] "Rarp";
   AConst ["AppleTalk"] "AppleTalk"; AConst ["Aarp"] "Aarp";
   AConst ["Ipx"] "Ipx"; AConst ["Qnx"] "Qnx";
   AConst ["Ipv6"] "Ipv6"; AConst ["FlowControl"] "FlowControl";
   AConst ["CobraNet"] "CobraNet"; AConst ["Mpls"] "Mpls";
   AConst ["MplsMcast"] "MplsMcast"; AConst ["PppoeDiscovery"] "PppoeDiscovery";
   AConst ["PppoeSession"] "PppoeSession"; AConst ["Vlan"] "Vlan";
   AConst ["PBridge"] "PBridge"; AConst ["Lldp"] "Lldp";
   AConst ["Ptp"] "Ptp"; AConst ["Cfm"] "Cfm";
   AConst ["QinQ"] "QinQ"].

(** src/ip.rs:24-466, [mod IpNextHeaderProtocols] *)
Definition ip_consts : list (string * Z) :=
  [("Hopopt", 0); ("Icmp", 1); ("Igmp", 2); ("Ggp", 3);
   ("Ipv4", 4); ("St", 5); ("Tcp", 6); ("Cbt", 7);
   ("Egp", 8); ("Igp", 9); ("BbnRccMon", 10); ("NvpII", 11);
   ("Pup", 12); ("Argus", 13); ("Emcon", 14); ("Xnet", 15);
   ("Chaos", 16); ("Udp", 17); ("Mux", 18); ("DcnMeas", 19);
   ("Hmp", 20); ("Prm", 21); ("XnsIdp", 22); ("Trunk1", 23);
   ("Trunk2", 24); ("Leaf1", 25); ("Leaf2", 26); ("Rdp", 27);
   ("Irtp", 28); ("IsoTp4", 29); ("Netblt", 30); ("MfeNsp", 31);
   ("MeritInp", 32); ("Dccp", 33); ("ThreePc", 34); ("Idpr", 35);
   ("Xtp", 36); ("Ddp", 37); ("IdprCmtp", 38); ("TpPlusPlus", 39);
   ("Il", 40); ("Ipv6", 41); ("Sdrp", 42); ("Ipv6Route", 43);
   ("Ipv6Frag", 44); ("Idrp", 45); ("Rsvp", 46); ("Gre", 47);
   ("Dsr", 48); ("Bna", 49); ("Esp", 50); ("Ah", 51);
   ("INlsp", 52); ("Swipe", 53); ("Narp", 54); ("Mobile", 55);
   ("Tlsp", 56); ("Skip", 57); ("Ipv6Icmp", 58); ("Icmpv6", 58);
   ("Ipv6NoNxt", 59); ("Ipv6Opts", 60); ("HostInternal", 61); ("Cftp", 62);
   ("LocalNetwork", 63); ("SatExpak", 64); ("Kryptolan", 65); ("Rvd", 66);
   ("Ippc", 67); ("DistributedFs", 68); ("SatMon", 69); ("Visa", 70);
   ("Ipcv", 71); ("Cpnx", 72); ("Cphb", 73); ("Wsn", 74);
   ("Pvp", 75); ("BrSatMon", 76); ("SunNd", 77); ("WbMon", 78);
   ("WbExpak", 79); ("IsoIp", 80); ("Vmtp", 81); ("SecureVmtp", 82);
   ("Vines", 83); ("TtpOrIptm", 84); ("NsfnetIgp", 85); ("Dgp", 86);
   ("Tcf", 87); ("Eigrp", 88); ("OspfigP", 89); ("SpriteRpc", 90);
   ("Larp", 91); ("Mtp", 92); ("Ax25", 93); ("IpIp", 94);
   ("Micp", 95); ("SccSp", 96); ("Etherip", 97); ("Encap", 98);
   ("PrivEncryption", 99); ("Gmtp", 100); ("Ifmp", 101); ("Pnni", 102);
   ("Pim", 103); ("Aris", 104); ("Scps", 105); ("Qnx", 106);
   ("AN", 107); ("IpComp", 108); ("Snp", 109); ("CompaqPeer", 110);
   ("IpxInIp", 111); ("Vrrp", 112); ("Pgm", 113); ("ZeroHop", 114);
   ("L2tp", 115); ("Ddx", 116); ("Iatp", 117); ("Stp", 118);
   ("Srp", 119); ("Uti", 120); ("Smp", 121); ("Sm", 122);
   ("Ptp", 123); ("IsisOverIpv4", 124); ("Fire", 125); ("Crtp", 126);
   ("Crudp", 127); ("Sscopmce", 128); ("Iplt", 129); ("Sps", 130);
   ("Pipe", 131); ("Sctp", 132); ("Fc", 133); ("RsvpE2eIgnore", 134);
   ("MobilityHeader", 135); ("UdpLite", 136); ("MplsInIp", 137); ("Manet", 138);
   ("Hip", 139); ("Shim6", 140); ("Wesp", 141); ("Rohc", 142);
   ("Test1", 253); ("Test2", 254); ("Reserved", 255)].

(** src/ip.rs:488-644, the arms of [Display for IpNextHeaderProtocol] before [_] *)
Definition ip_arms : list arm :=
  [AConst ["Hopopt"] "Hopopt"; AConst ["Icmp"] "Icmp";
   AConst ["Igmp"] "Igmp"; AConst ["Ggp"] "Ggp";
   AConst ["Ipv4"] "Ipv4"; AConst ["St"] "St";
   AConst ["Tcp"] "Tcp"; AConst ["Cbt"] "Cbt";
   AConst ["Egp"] "Egp"; AConst ["Igp"] "Igp";
   AConst ["BbnRccMon"] "BbnRccMon"; AConst ["NvpII"] "NvpII";
   AConst ["Pup"] "Pup"; AConst ["Argus"] "Argus";
   AConst ["Emcon"] "Emcon"; AConst ["Xnet"] "Xnet";
   AConst ["Chaos"] "Chaos"; AConst ["Udp"] "Udp";
   AConst ["Mux"] "Mux"; AConst ["DcnMeas"] "DcnMeas";
   AConst ["Hmp"] "Hmp"; AConst ["Prm"] "Prm";
   AConst ["XnsIdp"] "XnsIdp"; AConst ["Trunk1"] "Trunk1";
   AConst ["Trunk2"] "Trunk2"; AConst ["Leaf1"] "Leaf1";
   AConst ["Leaf2"] "Leaf2"; AConst ["Rdp"] "Rdp";
   AConst ["Irtp"] "Irtp"; AConst ["IsoTp4"] "IsoTp4";
   AConst ["Netblt"] "Netblt"; AConst ["MfeNsp"] "MfeNsp";
   AConst ["MeritInp"] "MeritInp"; AConst ["Dccp"] "Dccp";
   AConst ["ThreePc"] "ThreePc"; AConst ["Idpr"] "Idpr";
   AConst ["Xtp"] "Xtp"; AConst ["Ddp"] "Ddp";
   AConst ["IdprCmtp"] "IdprCmtp"; AConst ["TpPlusPlus"] "TpPlusPlus";
   AConst ["Il"] "Il"; AConst ["Ipv6"] "Ipv6";
   AConst ["Sdrp"] "Sdrp"; AConst ["Ipv6Route"] "Ipv6Route";
   AConst ["Ipv6Frag"] "Ipv6Frag"; AConst ["Idrp"] "Idrp";
   AConst ["Rsvp"] "Rsvp"; AConst ["Gre"] "Gre";
   AConst ["Dsr"] "Dsr"; AConst ["Bna"] "Bna";
   AConst ["Esp"] "Esp"; AConst ["Ah"] "Ah";
   AConst ["INlsp"] "INlsp"; AConst ["Swipe"] "Swipe";
   AConst ["Narp"] "Narp"; AConst ["Mobile"] "Mobile";
   AConst ["Tlsp"] "Tlsp"; AConst ["Skip"] "Skip";
   AConst ["Icmpv6"] "Icmpv6"; AConst ["Ipv6NoNxt"] "Ipv6NoNxt";
   AConst ["Ipv6Opts"] "Ipv6Opts"; AConst ["HostInternal"] "HostInternal";
   AConst ["Cftp"] "Cftp"; AConst ["LocalNetwork"] "LocalNetwork";
   AConst ["SatExpak"] "SatExpak"; AConst ["Kryptolan"] "Kryptolan";
   AConst ["Rvd"] "Rvd"; AConst ["Ippc"] "Ippc";
   AConst ["DistributedFs"] "DistributedFs"; AConst ["SatMon"] "SatMon";
   AConst ["Visa"] "Visa"; AConst ["Ipcv"] "Ipcv";
   AConst ["Cpnx"] "Cpnx"; AConst ["Cphb"] "Cphb";
   AConst ["Wsn"] "Wsn"; AConst ["Pvp"] "Pvp";
   AConst ["BrSatMon"] "BrSatMon"; AConst ["SunNd"] "SunNd";
   AConst ["WbMon"] "WbMon"; AConst ["WbExpak"] "WbExpak";
   AConst ["IsoIp"] "IsoIp"; AConst ["Vmtp"] "Vmtp";
   AConst ["SecureVmtp"] "SecureVmtp"; AConst ["Vines"] "Vines";
   AConst ["TtpOrIptm"] "TtpOrIptm"; AConst ["NsfnetIgp"] "NsfnetIgp";
   AConst ["Dgp"] "Dgp"; AConst ["Tcf"] "Tcf";
   AConst ["Eigrp"] "Eigrp"; AConst ["OspfigP"] "OspfigP";
   AConst ["SpriteRpc"] "SpriteRpc"; AConst ["Larp"] "Larp";
   AConst ["Mtp"] "Mtp"; AConst ["Ax25"] "Ax25";
   AConst ["IpIp"] "IpIp"; AConst ["Micp"] "Micp";
   AConst ["SccSp"] "SccSp"; AConst ["Etherip"] "Etherip";
   AConst ["Encap"] "Encap"; AConst ["PrivEncryption"] "PrivEncryption";
   AConst ["Gmtp"] "Gmtp"; AConst ["Ifmp"] "Ifmp";
   AConst ["Pnni"] "Pnni"; AConst ["Pim"] "Pim";
   AConst ["Aris"] "Aris"; AConst ["Scps"] "Scps";
   AConst ["Qnx"] "Qnx"; AConst ["AN"] "AN";
   AConst ["IpComp"] "IpComp"; AConst ["Snp"] "Snp";
   AConst ["CompaqPeer"] "CompaqPeer"; AConst ["IpxInIp"] "IpxInIp";
   AConst ["Vrrp"] "Vrrp"; AConst ["Pgm"] "Pgm";
   AConst ["ZeroHop"] "ZeroHop"; AConst ["L2tp"] "L2tp";
   AConst ["Ddx"] "Ddx"; AConst ["Iatp"] "Iatp";
   AConst ["Stp"] "Stp"; AConst ["Srp"] "Srp";
   AConst ["Uti"] "Uti"; AConst ["Smp"] "Smp";
   AConst ["Sm"] "Sm"; AConst ["Ptp"] "Ptp";
   AConst ["IsisOverIpv4"] "IsisOverIpv4"; AConst ["Fire"] "Fire";
   AConst ["Crtp"] "Crtp"; AConst ["Crudp"] "Crudp";
   AConst ["Sscopmce"] "Sscopmce"; AConst ["Iplt"] "Iplt";
   AConst ["Sps"] "Sps"; AConst ["Pipe"] "Pipe";
   AConst ["Sctp"] "Sctp"; AConst ["Fc"] "Fc";
   AConst ["RsvpE2eIgnore"] "RsvpE2eIgnore"; AConst ["MobilityHeader"] "MobilityHeader";
   AConst ["UdpLite"] "UdpLite"; AConst ["MplsInIp"] "MplsInIp";
   AConst ["Manet"] "Manet"; AConst ["Hip"] "Hip";
   AConst ["Shim6"] "Shim6"; AConst ["Wesp"] "Wesp";
   AConst ["Rohc"] "Rohc"; AConst ["Test1"] "Test1";
   AConst ["Test2"] "Test2"; AConst ["Reserved"] "Reserved"].

(** src/quic.rs:339-344, [mod HeaderForms] *)
Definition header_form_consts : list (string * Z) :=
  [("Short", 0); ("Long", 1)].

(** src/quic.rs:363-372, the arms of [Display for HeaderForm] before [_] *)
Definition header_form_arms : list arm :=
  [AConst ["Short"] "short"; AConst ["Long"] "long"].

(** src/quic.rs:400-408, [mod LongPacketTypes] *)
Definition long_type_consts : list (string * Z) :=
  [("Initial", 0); ("ZeroRtt", 1); ("Handshake", 2); ("Retry", 3)].

(** src/quic.rs:428-440, the arms of [Display for LongPacketType] before [_] *)
Definition long_type_arms : list arm :=
  [AConst ["Initial"] "initial"; AConst ["ZeroRtt"] "0-rtt";
   AConst ["Handshake"] "handshake"; AConst ["Retry"] "retry"].

(** src/quic.rs:841-876, [mod FrameTypes] *)
Definition frame_type_consts : list (string * Z) :=
  [("Padding", 0); ("Ping", 1); ("Ack0", 2); ("Ack1", 3);
   ("ResetStream", 4); ("StopSending", 5); ("Crypto", 6); ("NewToken", 7);
   ("Stream0", 8); ("Stream1", 9); ("Stream2", 10); ("Stream3", 11);
   ("Stream4", 12); ("Stream5", 13); ("Stream6", 14); ("Stream7", 15);
   ("MaxData", 16); ("MaxStreamData", 17); ("MaxStreams0", 18); ("MaxStreams1", 19);
   ("DataBlocked", 20); ("StreamDataBlocked", 21); ("StreamsBlocked0", 22); ("StreamsBlocked1", 23);
   ("NewConnectionId", 24); ("RetireConnectionId", 25); ("PathChallenge", 26); ("PathResponse", 27);
   ("ConnectionClose0", 28); ("ConnectionClose1", 29); ("HandshakeDone", 30)].

(** src/quic.rs:895-922, the arms of [Display for FrameType] before [_] *)
Definition frame_type_arms : list arm :=
  [AConst ["Padding"] "padding"; AConst ["Ping"] "ping";
   AConst ["Ack0"; "Ack1"] "ack"; AConst ["ResetStream"] "reset-stream";
   AConst ["StopSending"] "stop-sending"; AConst ["Crypto"] "crypto";
   AConst ["NewToken"] "new-token"; ARange 8 15 "stream";
   AConst ["MaxData"] "max-data"; AConst ["MaxStreamData"] "max-stream-data";
   AConst ["MaxStreams0"; "MaxStreams1"] "max-streams"; AConst ["DataBlocked"] "data-blocked";
   AConst ["StreamDataBlocked"] "stream-data-blocked"; AConst ["StreamsBlocked0"; "StreamsBlocked1"] "streams-blocked";
   AConst ["NewConnectionId"] "new-connection-id"; AConst ["RetireConnectionId"] "retire-connection-id";
   AConst ["PathChallenge"] "path-challenge"; AConst ["PathResponse"] "path-response";
   AConst ["ConnectionClose0"; "ConnectionClose1"] "connection-close"; AConst ["HandshakeDone"] "handshake-done"].


(** [Display for EtherType], src/ethernet.rs:130-163 *)
Definition ethertype_name (v : Z) : string := name_of ethertype_consts ethertype_arms v.
(** [Display for IpNextHeaderProtocol], src/ip.rs:488-644 *)
Definition ip_name (v : Z) : string := name_of ip_consts ip_arms v.
(** [Display for HeaderForm], src/quic.rs:363-372 *)
Definition header_form_name (v : Z) : string := name_of header_form_consts header_form_arms v.
(** [Display for LongPacketType], src/quic.rs:429-440 *)
Definition long_type_name (v : Z) : string := name_of long_type_consts long_type_arms v.
(** [Display for FrameType], src/quic.rs:895-922 *)
Definition frame_type_name (v : Z) : string := name_of frame_type_consts frame_type_arms v.
(** [Display for FixedBit], src/quic.rs:391-399 *)
Definition fixed_bit_name (v : Z) : string := if v =? 1 then "1" else "unknown".

(** [{:08x}] of a u32 (std): lower-case hexadecimal digits, the most significant
    first, padded with zeros on the left to eight digits; a u32 never needs more. *)
Fixpoint fmt_0nx (n : nat) (x : Z) : string :=
  match n with
  | O => ""
  | S k => fmt_0nx k (x / 16) ++ String (hex_digit (x mod 16)) ""
  end.
(** [Display for Version], src/quic.rs:459-463 *)
Definition version_display (v : Z) : string := "0x" ++ fmt_0nx 8 v.

(** [Display for Frame], src/quic.rs:614-618 *)
Definition frame_display (c : cfg) (f : frame) : res string :=
  t <- frame_ty c f ;; Ok (frame_type_name t).

(** What the names printed for protocol numbers ought to be, written from the
    registries: the IANA "Assigned Internet Protocol Numbers", the IEEE EtherTypes as
    listed by the RFCs quoted in the crate's documentation, and RFC 9000, table 3. *)
From Coq Require Import String Ascii ZArith List Bool.
Import ListNotations.
Open Scope string_scope.
Open Scope Z_scope.

(** The IANA keywords of the protocols 0 to 142, in order; [None] where the registry
    only has a description ("any host internal protocol"). *)
Definition iana_keywords : list (option string) :=
  [Some "HOPOPT"; Some "ICMP"; Some "IGMP"; Some "GGP"; Some "IPv4"; Some "ST";
   Some "TCP"; Some "CBT"; Some "EGP"; Some "IGP"; Some "BBN-RCC-MON"; Some "NVP-II";
   Some "PUP"; Some "ARGUS"; Some "EMCON"; Some "XNET"; Some "CHAOS"; Some "UDP";
   Some "MUX"; Some "DCN-MEAS"; Some "HMP"; Some "PRM"; Some "XNS-IDP"; Some "TRUNK-1";
   Some "TRUNK-2"; Some "LEAF-1"; Some "LEAF-2"; Some "RDP"; Some "IRTP"; Some "ISO-TP4";
   Some "NETBLT"; Some "MFE-NSP"; Some "MERIT-INP"; Some "DCCP"; Some "3PC"; Some "IDPR";
   Some "XTP"; Some "DDP"; Some "IDPR-CMTP"; Some "TP++"; Some "IL"; Some "IPv6";
   Some "SDRP"; Some "IPv6-Route"; Some "IPv6-Frag"; Some "IDRP"; Some "RSVP"; Some "GRE";
   Some "DSR"; Some "BNA"; Some "ESP"; Some "AH"; Some "I-NLSP"; Some "SWIPE";
   Some "NARP"; Some "MOBILE"; Some "TLSP"; Some "SKIP"; Some "IPv6-ICMP"; Some "IPv6-NoNxt";
   Some "IPv6-Opts"; None; Some "CFTP"; None; Some "SAT-EXPAK"; Some "KRYPTOLAN";
   Some "RVD"; Some "IPPC"; None; Some "SAT-MON"; Some "VISA"; Some "IPCV";
   Some "CPNX"; Some "CPHB"; Some "WSN"; Some "PVP"; Some "BR-SAT-MON"; Some "SUN-ND";
   Some "WB-MON"; Some "WB-EXPAK"; Some "ISO-IP"; Some "VMTP"; Some "SECURE-VMTP"; Some "VINES";
   Some "TTP/IPTM"; Some "NSFNET-IGP"; Some "DGP"; Some "TCF"; Some "EIGRP"; Some "OSPFIGP";
   Some "Sprite-RPC"; Some "LARP"; Some "MTP"; Some "AX.25"; Some "IPIP"; Some "MICP";
   Some "SCC-SP"; Some "ETHERIP"; Some "ENCAP"; None; Some "GMTP"; Some "IFMP";
   Some "PNNI"; Some "PIM"; Some "ARIS"; Some "SCPS"; Some "QNX"; Some "A/N";
   Some "IPComp"; Some "SNP"; Some "Compaq-Peer"; Some "IPX-in-IP"; Some "VRRP"; Some "PGM";
   None; Some "L2TP"; Some "DDX"; Some "IATP"; Some "STP"; Some "SRP";
   Some "UTI"; Some "SMP"; Some "SM"; Some "PTP"; Some "ISIS over IPv4"; Some "FIRE";
   Some "CRTP"; Some "CRUDP"; Some "SSCOPMCE"; Some "IPLT"; Some "SPS"; Some "PIPE";
   Some "SCTP"; Some "FC"; Some "RSVP-E2E-IGNORE"; Some "Mobility Header"; Some "UDPLite"; Some "MPLS-in-IP";
   Some "manet"; Some "HIP"; Some "Shim6"; Some "WESP"; Some "ROHC"].

(** Keywords are compared by their letters and digits; a [+] is spelled out, anything else is a
    separator. *)
Definition lower (a : ascii) : ascii :=
  let n := N_of_ascii a in if (65 <=? n)%N && (n <=? 90)%N then ascii_of_N (n + 32) else a.
Definition alnum (a : ascii) : bool :=
  let n := N_of_ascii a in
  ((48 <=? n) && (n <=? 57) || (65 <=? n) && (n <=? 90) || (97 <=? n) && (n <=? 122))%N.
Fixpoint letters (s : string) : string :=
  match s with
  | "" => ""
  | String a r =>
      if Ascii.eqb a "+" then "plus" ++ letters r
      else if alnum a then String (lower a) (letters r)
      else letters r
  end.

(** The numbers assigned by IANA without being spelled like the keyword, with the crate's
    name: 3PC, IPv6-ICMP, TTP or IPTM, and the five without keyword. *)
Definition other_spelling : list (Z * string) :=
  [(34, "ThreePc"); (58, "Icmpv6"); (84, "TtpOrIptm"); (61, "HostInternal"); (63, "LocalNetwork");
   (68, "DistributedFs"); (99, "PrivEncryption"); (114, "ZeroHop")].

(** The name [s] is right for the protocol number [v]. *)
Definition right_ip_name (v : Z) (s : string) : Prop :=
  (In (v, s) other_spelling) \/
  (~ In v (map fst other_spelling) /\ 0 <= v <= 142 /\
   exists k, nth_error iana_keywords (Z.to_nat v) = Some (Some k) /\ letters s = letters k) \/
  (143 <= v <= 252 /\ s = "unknown") \/
  (v = 253 /\ s = "Test1") \/ (v = 254 /\ s = "Test2") \/ (v = 255 /\ s = "Reserved").

(** The EtherTypes the crate documents, by their assigned numbers. *)
Definition assigned_ethertypes : list (Z * string) :=
  [(0x0800, "Ipv4"); (0x0806, "Arp"); (0x0842, "WakeOnLan"); (0x22F3, "Trill"); (0x6003, "DECnet");
   (0x8035, "Rarp"); (0x809B, "AppleTalk"); (0x80F3, "Aarp"); (0x8100, "Vlan"); (0x8137, "Ipx");
   (0x8204, "Qnx"); (0x86DD, "Ipv6"); (0x8808, "FlowControl"); (0x8819, "CobraNet"); (0x8847, "Mpls");
   (0x8848, "MplsMcast"); (0x8863, "PppoeDiscovery"); (0x8864, "PppoeSession"); (0x88A8, "PBridge");
   (0x88CC, "Lldp"); (0x88F7, "Ptp"); (0x8902, "Cfm"); (0x9100, "QinQ")].

(** RFC 9000, table 3: the first and last type value of each frame type, and its name. *)
Definition rfc_frames : list (Z * Z * string) :=
  [(0x00, 0x00, "PADDING"); (0x01, 0x01, "PING"); (0x02, 0x03, "ACK"); (0x04, 0x04, "RESET_STREAM");
   (0x05, 0x05, "STOP_SENDING"); (0x06, 0x06, "CRYPTO"); (0x07, 0x07, "NEW_TOKEN"); (0x08, 0x0f, "STREAM");
   (0x10, 0x10, "MAX_DATA"); (0x11, 0x11, "MAX_STREAM_DATA"); (0x12, 0x13, "MAX_STREAMS");
   (0x14, 0x14, "DATA_BLOCKED"); (0x15, 0x15, "STREAM_DATA_BLOCKED"); (0x16, 0x17, "STREAMS_BLOCKED");
   (0x18, 0x18, "NEW_CONNECTION_ID"); (0x19, 0x19, "RETIRE_CONNECTION_ID"); (0x1a, 0x1a, "PATH_CHALLENGE");
   (0x1b, 0x1b, "PATH_RESPONSE"); (0x1c, 0x1d, "CONNECTION_CLOSE"); (0x1e, 0x1e, "HANDSHAKE_DONE")].

(** The crate prints RFC names in lower case with [-] for [_]. *)
Fixpoint dashed (s : string) : string :=
  match s with
  | "" => ""
  | String a r => String (if Ascii.eqb a "_" then "-"%char else lower a) (dashed r)
  end.

(** The value of a hexadecimal numeral in lower-case digits, as a reader knows it. *)
Definition digit_value (a : ascii) : option Z :=
  let n := Z.of_N (N_of_ascii a) in
  if (48 <=? n) && (n <=? 57) then Some (n - 48)
  else if (97 <=? n) && (n <=? 102) then Some (n - 87)
  else None.
Fixpoint numeral_value (acc : Z) (s : string) : option Z :=
  match s with
  | "" => Some acc
  | String a r => match digit_value a with Some d => numeral_value (16 * acc + d) r | None => None end
  end.

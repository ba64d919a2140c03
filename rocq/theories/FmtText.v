(** Models the text of the [Debug] and [Display] implementations of packets: the format
    strings the derive macro builds (derive/src/gen.rs:722-753), what [write!] makes of
    them, the [Debug] text of field values, and [Display for QuicPacket]
    (src/quic.rs:137-167).  The alternate form [{:#?}] and width or precision flags are
    not modelled. *)
From Coq Require Import String Ascii ZArith List Bool.
From Verif Require Import Base DeriveUtil DeriveOps DeriveGen MacAddr Protocols Quic Names EmitText.
Import ListNotations.
Open Scope string_scope.
Open Scope Z_scope.

(** [format!] / [write!] (std) for format strings made of text, [{{], [}}], [{}] and
    [{:?}].  The arguments are given as the text their trait prints.  [None] = the
    compiler rejects the string or the number of arguments. *)
Fixpoint format (f : string) (args : list string) : option string :=
  match f with
  | "" => match args with [] => Some "" | _ => None end
  | String a r =>
      if Ascii.eqb a "{" then
        match r with
        | "" => None
        | String b r1 =>
            if Ascii.eqb b "{" then option_map (String "{") (format r1 args)
            else if Ascii.eqb b "}" then
              match args with x :: t => option_map (append x) (format r1 t) | [] => None end
            else if Ascii.eqb b ":" then
              match r1 with
              | String q (String e r3) =>
                  if Ascii.eqb q "?" && Ascii.eqb e "}"
                  then match args with x :: t => option_map (append x) (format r3 t) | [] => None end
                  else None
              | _ => None
              end
            else None
        end
      else if Ascii.eqb a "}" then
        match r with
        | String b r1 => if Ascii.eqb b "}" then option_map (String "}") (format r1 args) else None
        | "" => None
        end
      else option_map (String a) (format r args)
  end.

(** ** The format strings of the macro *)

(** derive/src/parse.rs:42-47 *)
Definition packet_name (mutable : bool) (base : string) : string :=
  (if mutable then "Mutable" else "") ++ base ++ "Packet".
(** derive/src/gen.rs:723-732: [field_fmt_str] after the fields [names]. *)
Fixpoint field_fmt (acc : string) (names : list string) : option string :=
  match names with
  | [] => Some acc
  | n :: r =>
      match format "{}{} : {{:?}}, " [acc; n] with
      | Some a => field_fmt a r
      | None => None
      end
  end.
(** derive/src/gen.rs:735-737: [packet_fmt_str] and [packet_mut_fmt_str]. *)
Definition packet_fmt (name : string) (names : list string) : option string :=
  match field_fmt "" names with
  | Some f => format "{} {{{{ {} }}}}" [name; f]
  | None => None
  end.

(** ** Values *)

(** The types of fields as far as their [Debug] text is concerned: an integer, a tuple
    struct with one integer and derived [Debug], MAC and IP addresses, [Vec<u8>]. *)
Inductive flat := FInt | FNew (name : string) | FMac | FIp4 | FIp6 | FBytes.
(** The type of a field of a packet: one of those, or a [Vec] of a packet struct with
    derived [Debug] (all its fields are flat). *)
Inductive shape := SFlat (f : flat) | SVec (name : string) (fields : list (string * flat)).

(** [Debug] of slices and vectors (std). *)
Definition debug_list (l : list string) : string := "[" ++ String.concat ", " l ++ "]".
(** Derived [Debug] of a struct with named fields (std's [debug_struct]). *)
Definition debug_struct (name : string) (fields : list (string * string)) : string :=
  name ++ " { " ++ String.concat ", " (map (fun p => fst p ++ ": " ++ snd p) fields) ++ " }".

Section Values.
(** The text of an IPv6 address given as eight 16-bit groups (std); which of several
    notations std picks is left open. *)
Variable v6 : list Z -> string.

(** A value whose form does not belong to the type has no text; getters never return
    one.  IPv4 addresses (std): four decimal numbers with dots. *)
Definition debug_flat (f : flat) (v : val) : string :=
  match f, v with
  | FInt, VInt z => dec z
  | FNew n, VTup [z] => n ++ "(" ++ dec z ++ ")"
  | FMac, VTup [a; b; c; d; e; g] => mac_display (MacAddr a b c d e g)
  | FIp4, VTup [a; b; c; d] => dec a ++ "." ++ dec b ++ "." ++ dec c ++ "." ++ dec d
  | FIp6, VTup l => v6 l
  | FBytes, VBytes l => debug_list (map dec l)
  | _, _ => ""
  end.
Definition debug_value (s : shape) (v : val) : string :=
  match s, v with
  | SFlat f, _ => debug_flat f v
  | SVec n fields, VPkts l =>
      debug_list (map (fun xs => debug_struct n
        (map (fun p => (fst (fst p), debug_flat (snd (fst p)) (snd p))) (combine fields xs))) l)
  | _, _ => ""
  end.

(** derive/src/gen.rs:738-753: [write!(fmt, packet_fmt_str, self.get_a(), ...)]; the
    getters run before anything is printed.  [shapes] are the types of all fields. *)
Definition shown_shapes (fs : schema) (shapes : list shape) : list shape :=
  map snd (filter (fun p => negb (f_payload (fst p))) (combine fs shapes)).
Definition debug_text (c : cfg) (mutable : bool) (base : string) (fs : schema) (shapes : list shape) (b : buf)
  : res string :=
  vs <- debug_values c fs b ;;
  match packet_fmt (packet_name mutable base) (map f_name (filter (fun f => negb (f_payload f)) fs)) with
  | Some f =>
      match format f (map (fun p => debug_value (fst p) (snd p)) (combine (shown_shapes fs shapes) vs)) with
      | Some s => Ok s
      | None => Panic EUnimpl
      end
  | None => Panic EUnimpl
  end.
End Values.

(** ** The types of the crate's fields *)

(** For every packet struct, the fields that are neither integers nor [Vec<u8>], with
    their types: src/ethernet.rs:16-25, src/vlan.rs:58-67, src/arp.rs:77-101,
    src/ipv4.rs:133-155, 242-254, src/ipv6.rs:17-32, 42-49, 64-73, 81-90,
    src/tcp.rs:55-70, 106-116, src/gre.rs:38-60, src/icmp.rs:51-62, 206-216, 283-293,
    353-362, 394-403, src/icmpv6.rs:64-72, 278-286, 301-312, 344-359, 383-396, 434-448,
    480-495, src/quic.rs:202-335, 621-838. *)
Definition icmp_types : list (string * string) :=
  [("icmp_type", "IcmpType"); ("icmp_code", "IcmpCode")].
Definition icmpv6_types : list (string * string) :=
  [("icmpv6_type", "Icmpv6Type"); ("icmpv6_code", "Icmpv6Code"); ("options", "NdpOption");
   ("target_addr", "Ipv6Addr"); ("dest_addr", "Ipv6Addr")].
Definition long_types : list (string * string) :=
  [("header_form", "HeaderForm"); ("fixed_bit", "FixedBit"); ("long_packet_type", "LongPacketType");
   ("version", "Version")].
Definition field_types : list (string * list (string * string)) :=
  [("Ethernet", [("destination", "MacAddr"); ("source", "MacAddr"); ("ethertype", "EtherType")]);
   ("Vlan", [("priority_code_point", "ClassOfService"); ("ethertype", "EtherType")]);
   ("Arp", [("hardware_type", "ArpHardwareType"); ("protocol_type", "EtherType"); ("operation", "ArpOperation");
            ("sender_hw_addr", "MacAddr"); ("sender_proto_addr", "Ipv4Addr"); ("target_hw_addr", "MacAddr");
            ("target_proto_addr", "Ipv4Addr")]);
   ("Ipv4Option", [("number", "Ipv4OptionNumber")]);
   ("Ipv4", [("next_level_protocol", "IpNextHeaderProtocol"); ("source", "Ipv4Addr"); ("destination", "Ipv4Addr");
             ("options", "Ipv4Option")]);
   ("Ipv6", [("next_header", "IpNextHeaderProtocol"); ("source", "Ipv6Addr"); ("destination", "Ipv6Addr")]);
   ("Extension", [("next_header", "IpNextHeaderProtocol")]);
   ("Routing", [("next_header", "IpNextHeaderProtocol")]);
   ("Fragment", [("next_header", "IpNextHeaderProtocol")]);
   ("TcpOption", [("number", "TcpOptionNumber")]);
   ("Tcp", [("options", "TcpOption")]);
   ("Gre", [("checksum", "U16BE"); ("offset", "U16BE"); ("key", "U32BE"); ("sequence", "U32BE")]);
   ("Icmp", icmp_types); ("EchoReply", icmp_types); ("EchoRequest", icmp_types);
   ("DestinationUnreachable", icmp_types); ("TimeExceeded", icmp_types);
   ("Icmpv6", icmpv6_types); ("NdpOption", [("option_type", "NdpOptionType")]);
   ("RouterSolicit", icmpv6_types); ("RouterAdvert", icmpv6_types); ("NeighborSolicit", icmpv6_types);
   ("NeighborAdvert", icmpv6_types); ("Redirect", icmpv6_types);
   ("VersionNegotiation", [("header_form", "HeaderForm")]);
   ("Initial", long_types); ("ZeroRtt", long_types); ("Handshake", long_types); ("Retry", long_types)].

Definition assoc {A} (d : A) (l : list (string * A)) (n : string) : A :=
  match find (fun p => String.eqb (fst p) n) l with Some (_, x) => x | None => d end.
(** Constructed fields of the QUIC frames have type [FrameType]. *)
Definition field_type (struct field : string) : string :=
  assoc "FrameType" (assoc [] field_types struct) field.

(** The variants of [QuicPacket] and [Frame] are named like the structs they hold
    (src/quic.rs:4-11, 466-487). *)
Definition quic_struct (k : quic_kind) : string :=
  match k with
  | QVersionNegotiation => "VersionNegotiation" | QInitial => "Initial" | QZeroRtt => "ZeroRtt"
  | QHandshake => "Handshake" | QRetry => "Retry" | QOneRtt => "OneRtt"
  end.
Definition frame_struct (k : frame_kind) : string :=
  match k with
  | FPadding => "Padding" | FPing => "Ping" | FAck => "Ack" | FResetStream => "ResetStream"
  | FStopSending => "StopSending" | FCrypto => "Crypto" | FNewToken => "NewToken" | FStream => "Stream"
  | FMaxData => "MaxData" | FMaxStreamData => "MaxStreamData" | FMaxStreams => "MaxStreams"
  | FDataBlocked => "DataBlocked" | FStreamDataBlocked => "StreamDataBlocked"
  | FStreamsBlocked => "StreamsBlocked" | FNewConnectionId => "NewConnectionId"
  | FRetireConnectionId => "RetireConnectionId" | FPathChallenge => "PathChallenge"
  | FPathResponse => "PathResponse" | FConnectionClose => "ConnectionClose"
  | FHandshakeDone => "HandshakeDone"
  end.
Definition quic_kinds : list quic_kind :=
  [QVersionNegotiation; QInitial; QZeroRtt; QHandshake; QRetry; QOneRtt].
Definition frame_kinds : list frame_kind :=
  [FPadding; FPing; FAck; FResetStream; FStopSending; FCrypto; FNewToken; FStream; FMaxData;
   FMaxStreamData; FMaxStreams; FDataBlocked; FStreamDataBlocked; FStreamsBlocked;
   FNewConnectionId; FRetireConnectionId; FPathChallenge; FPathResponse; FConnectionClose;
   FHandshakeDone].
(** Every packet struct of src/*.rs: Protocols.v lists those outside src/quic.rs. *)
Definition all_packets (c : cfg) : list (string * schema) :=
  (crate_schemas c ++ map (fun k => (quic_struct k, quic_schema c k)) quic_kinds ++
   map (fun k => (frame_struct k, frame_schema k)) frame_kinds)%list.

Definition flat_of (struct : string) (f : field) : flat :=
  match f_ty f with
  | TPrim _ => FInt
  | TVecPrim _ | TVecPkt _ => FBytes
  | TMisc _ =>
      let t := field_type struct (f_name f) in
      if String.eqb t "MacAddr" then FMac
      else if String.eqb t "Ipv4Addr" then FIp4
      else if String.eqb t "Ipv6Addr" then FIp6
      else FNew t
  end.
Definition shape_of (c : cfg) (struct : string) (f : field) : shape :=
  match f_ty f with
  | TVecPkt _ =>
      let t := field_type struct (f_name f) in
      SVec t (map (fun g => (f_name g, flat_of t g)) (assoc [] (crate_schemas c) t))
  | _ => SFlat (flat_of struct f)
  end.
Definition shapes_of (c : cfg) (struct : string) (fs : schema) : list shape := map (shape_of c struct) fs.

(** [{:?}] of a packet of the crate. *)
Definition packet_debug (v6 : list Z -> string) (c : cfg) (mutable : bool) (struct : string) (fs : schema) (b : buf)
  : res string := debug_text v6 c mutable struct fs (shapes_of c struct fs) b.

(** ** QUIC *)

(** Derived [Debug] of [QuicPacket] and [Frame] (src/quic.rs:3, 465). *)
Definition quic_debug (v6 : list Z -> string) (c : cfg) (q : quic) : res string :=
  let n := quic_struct (q_kind q) in
  s <- packet_debug v6 c false n (quic_schema c (q_kind q)) (q_buf q) ;;
  Ok (n ++ "(" ++ s ++ ")").
Definition frame_debug (v6 : list Z -> string) (c : cfg) (f : frame) : res string :=
  let n := frame_struct (fr_kind f) in
  s <- packet_debug v6 c false n (frame_schema (fr_kind f)) (fr_buf f) ;;
  Ok (n ++ "(" ++ s ++ (if is_padding (fr_kind f) then ", " ++ dec (fr_count f) else "") ++ ")").

(** src/quic.rs:137-167, as text ([quic_display] of Quic.v lists the values).  A getter
    that panics does so after the lines before it have been handed to the formatter;
    that text is lost with the panic. *)
Definition newline : string := String "010" "".
Definition quic_ty_text (k : quic_kind) : string :=
  match k with
  | QVersionNegotiation => "version-negotiation" | QInitial => "initial" | QZeroRtt => "0rtt"
  | QHandshake => "handshake" | QRetry => "retry" | QOneRtt => "1rtt"
  end.
Definition quic_line_text (l : quic_line) : string :=
  match l with
  | LType k => "packet-type: " ++ quic_ty_text k
  | LVersion v => "quic-version: " ++ version_display v
  | LToken t => "token: " ++ debug_list (map dec t)
  | LNumber n => "packet-number: " ++ dec n
  | LDest d => "dest-id: " ++ debug_list (map dec d)
  | LSrc s => "src-id: " ++ debug_list (map dec s)
  | LPayload n => "payload: " ++ dec n
  end ++ newline.
Definition quic_display_text (c : cfg) (q : quic) : res string :=
  ls <- quic_display c q ;; Ok (String.concat "" (map quic_line_text ls)).

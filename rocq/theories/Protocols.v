(** The packet descriptions of src/*.rs (QUIC: Quic.v), as accepted by the
    derive macro: field types, length attributes and payload marks, in
    declaration order.  Constructed types appear by their construct_with lists;
    a construct_with integer without byte order is big-endian
    (derive/src/parse.rs:272-276, 316-318). *)
From Coq Require Import String ZArith List Bool.
From Verif Require Import Base DeriveUtil DeriveOps DeriveGen.
Import ListNotations.
Open Scope Z_scope.

(** ** Shorthands *)

Definition u (n : Z) : prim := Prim n Big.
(** A field without attributes, with a length attribute, and the payload with
    and without length attribute (derive/src/parse.rs:24-33). *)
Definition fld (n : string) (t : fty) : field := Field n t None false.
Definition vfld (n : string) (t : fty) (le : lenexpr) : field := Field n t (Some le) false.
Definition pfld (n : string) (le : lenexpr) : field := Field n (TVecPrim (u 8)) (Some le) true.
Definition pall (n : string) : field := Field n (TVecPrim (u 8)) None true.
(** Integer field, one-integer constructed field, MAC / IPv4 / IPv6 address
    (construct_with(u8 x 6), (u8 x 4), (u16 x 8)), byte vector. *)
Definition int (n : string) (w : Z) : field := fld n (TPrim (u w)).
Definition one (n : string) (w : Z) : field := fld n (TMisc [u w]).
Definition mac (n : string) : field := fld n (TMisc (repeat (u 8) 6)).
Definition ip4 (n : string) : field := fld n (TMisc (repeat (u 8) 4)).
Definition ip6 (n : string) : field := fld n (TMisc (repeat (u 16) 8)).
Definition bytes_ty : fty := TVecPrim (u 8).

(** The integer of a getter result (an integer field, or the single number of a
    constructed field), and the bytes of one. *)
Definition int_of (r : res val) : res Z :=
  v <- r ;; match v with VInt z => Ok z | VTup [z] => Ok z | _ => Panic EUnimpl end.
Definition bytes_of (r : res val) : res buf :=
  v <- r ;; match v with VBytes l => Ok l | _ => Panic EUnimpl end.

(** The length attribute "k" for an integer literal k. *)
Definition len_const (k : Z) : lenexpr := fun _ _ => Ok k.
(** The length attribute "f(n)" for a field n and a function f that does not
    panic. *)
Definition len_of_int (n : string) (f : Z -> Z) : lenexpr := fun e _ => rmap f (int_of (e n)).

(** ** Link layer *)

(** src/ethernet.rs:15-25 *)
Definition ethernet : schema :=
  [mac "destination"; mac "source"; one "ethertype" 16; pall "payload"].

(** src/vlan.rs:57-67 *)
Definition vlan : schema :=
  [one "priority_code_point" 3; int "drop_eligible_indicator" 1; int "vlan_identifier" 12;
   one "ethertype" 16; pall "payload"].

(** src/arp.rs:75-101 *)
Definition arp : schema :=
  [one "hardware_type" 16; one "protocol_type" 16; int "hw_addr_len" 8; int "proto_addr_len" 8;
   one "operation" 16; mac "sender_hw_addr"; ip4 "sender_proto_addr"; mac "target_hw_addr";
   ip4 "target_proto_addr"; pfld "payload" (len_const 0)].

(** ** IPv4 *)

(** src/ipv4.rs:259-265 and 267-272 *)
Definition ipv4_option_length (number : Z) : Z :=
  if (number =? 0) || (number =? 1) then 0 else 1.
Definition ipv4_option_payload_length (length : buf) : Z :=
  match length with l :: _ => sat_sub l 2 | [] => 0 end.

(** src/ipv4.rs:241-254 *)
Definition ipv4_option : schema :=
  [int "copied" 1; int "class" 2; one "number" 5;
   vfld "length" bytes_ty (len_of_int "number" ipv4_option_length);
   pfld "data" (fun e _ => rmap ipv4_option_payload_length (bytes_of (e "length"%string)))].

(** src/ipv4.rs:216-221 and 228-230 *)
Definition ipv4_options_length (header_length : Z) : Z := sat_sub (header_length * 4) 20.
Definition ipv4_payload_length (total_length header_length : Z) : Z :=
  sat_sub total_length (header_length * 4).

(** src/ipv4.rs:132-155 *)
Definition ipv4 (c : cfg) : schema :=
  [int "version" 4; int "header_length" 4; int "dscp" 6; int "ecn" 2; int "total_length" 16;
   int "identification" 16; int "flags" 3; int "fragment_offset" 13; int "ttl" 8;
   one "next_level_protocol" 8; int "checksum" 16; ip4 "source"; ip4 "destination";
   vfld "options" (TVecPkt (sem_of c ipv4_option)) (len_of_int "header_length" ipv4_options_length);
   pfld "payload" (fun e _ =>
     t <- int_of (e "total_length"%string) ;;
     h <- int_of (e "header_length"%string) ;;
     Ok (ipv4_payload_length t h))].

(** ** IPv6 *)

(** src/ipv6.rs:16-32 *)
Definition ipv6 : schema :=
  [int "version" 4; int "traffic_class" 8; int "flow_label" 20; int "payload_length" 16;
   one "next_header" 8; int "hop_limit" 8; ip6 "source"; ip6 "destination";
   pfld "payload" (len_of_int "payload_length" (fun n => n))].

(** src/ipv6.rs:51-53 and 75-77 *)
Definition ipv6_extension_length (n : Z) : Z := n * 8 + 8 - 2.
Definition routing_extension_length (n : Z) : Z := n * 8 + 8 - 4.

(** src/ipv6.rs:41-49 (also HopByHop, 55-60) *)
Definition extension : schema :=
  [one "next_header" 8; int "hdr_ext_len" 8;
   pfld "options" (len_of_int "hdr_ext_len" ipv6_extension_length)].

(** src/ipv6.rs:63-73 *)
Definition routing : schema :=
  [one "next_header" 8; int "hdr_ext_len" 8; int "routing_type" 8; int "segments_left" 8;
   pfld "data" (len_of_int "hdr_ext_len" routing_extension_length)].

(** src/ipv6.rs:80-90 *)
Definition fragment : schema :=
  [one "next_header" 8; int "reserved" 8; int "fragment_offset_with_flags" 16; int "id" 32;
   pfld "payload" (len_const 0)].

(** ** Transport layer *)

(** src/udp.rs:16-24 *)
Definition udp : schema :=
  [int "source" 16; int "destination" 16; int "length" 16; int "checksum" 16; pall "payload"].

(** src/tcp.rs:198-204 and 206-211 *)
Definition tcp_option_length (number : Z) : Z :=
  if (number =? 0) || (number =? 1) then 0 else 1.
Definition tcp_option_payload_length (length : buf) : Z :=
  match length with l :: _ => if 2 <=? l then l - 2 else 0 | [] => 0 end.

(** src/tcp.rs:105-116 *)
Definition tcp_option : schema :=
  [one "number" 8; vfld "length" bytes_ty (len_of_int "number" tcp_option_length);
   pfld "data" (fun e _ => rmap tcp_option_payload_length (bytes_of (e "length"%string)))].

(** src/tcp.rs:228-234 *)
Definition tcp_options_length (data_offset : Z) : Z :=
  if 5 <? data_offset then data_offset * 4 - 20 else 0.

(** src/tcp.rs:54-70 *)
Definition tcp (c : cfg) : schema :=
  [int "source" 16; int "destination" 16; int "sequence" 32; int "acknowledgement" 32;
   int "data_offset" 4; int "reserved" 3; int "flags" 9; int "window" 16; int "checksum" 16;
   int "urgent_ptr" 16;
   vfld "options" (TVecPkt (sem_of c tcp_option)) (len_of_int "data_offset" tcp_options_length);
   pall "payload"].

(** ** GRE *)

(** src/gre.rs:63-69 and 72-78 *)
Definition gre_u16 : schema := [int "number" 16; pfld "unused" (len_const 0)].
Definition gre_u32 : schema := [int "number" 32; pfld "unused" (len_const 0)].

(** src/gre.rs:37-60.  The arithmetic of the attributes is on u8; the fields are
    single bits, so it cannot overflow. *)
Definition gre_two (c : cfg) : lenexpr := fun e _ =>
  a <- int_of (e "checksum_present"%string) ;;
  r <- int_of (e "routing_present"%string) ;;
  mul_u (c_mode c) 8 (Z.lor a r) 2.
Definition gre_four (c : cfg) (n : string) : lenexpr := fun e _ =>
  k <- int_of (e n) ;; mul_u (c_mode c) 8 k 4.
Definition gre (c : cfg) : schema :=
  [int "checksum_present" 1; int "routing_present" 1; int "key_present" 1;
   int "sequence_present" 1; int "strict_source_route" 1; int "recursion_control" 3;
   int "zero_flags" 5; int "version" 3; int "protocol_type" 16;
   vfld "checksum" (TVecPkt (sem_of c gre_u16)) (gre_two c);
   vfld "offset" (TVecPkt (sem_of c gre_u16)) (gre_two c);
   vfld "key" (TVecPkt (sem_of c gre_u32)) (gre_four c "key_present");
   vfld "sequence" (TVecPkt (sem_of c gre_u32)) (gre_four c "sequence_present");
   vfld "routing" bytes_ty (fun e _ =>
     r <- int_of (e "routing_present"%string) ;; if r =? 0 then Ok 0 else Panic EUnimpl);
   pall "payload"].

(** ** ICMP *)

(** src/icmp.rs:50-62 *)
Definition icmp : schema :=
  [one "icmp_type" 8; one "icmp_code" 8; int "checksum" 16; pall "payload"].
(** src/icmp.rs:205-216 *)
Definition echo_reply : schema :=
  [one "icmp_type" 8; one "icmp_code" 8; int "checksum" 16; int "identifier" 16;
   int "sequence_number" 16; pall "payload"].
(** src/icmp.rs:282-293 *)
Definition echo_request : schema :=
  [one "icmp_type" 8; one "icmp_code" 8; int "checksum" 16; int "identifier" 16;
   int "sequence_number" 16; pall "payload"].
(** src/icmp.rs:352-362 *)
Definition destination_unreachable : schema :=
  [one "icmp_type" 8; one "icmp_code" 8; int "checksum" 16; int "unused" 32; pall "payload"].
(** src/icmp.rs:393-403 *)
Definition time_exceeded : schema :=
  [one "icmp_type" 8; one "icmp_code" 8; int "checksum" 16; int "unused" 32; pall "payload"].

(** ** ICMPv6 *)

(** src/icmpv6.rs:63-72 *)
Definition icmpv6 : schema :=
  [one "icmpv6_type" 8; one "icmpv6_code" 8; int "checksum" 16; pall "payload"].

(** src/icmpv6.rs:277-286; the attribute is computed on u8. *)
Definition ndp_option (c : cfg) : schema :=
  [one "option_type" 8; int "length" 8;
   pfld "data" (fun e _ =>
     l <- int_of (e "length"%string) ;;
     x <- mul_u (c_mode c) 8 l 8 ;;
     Ok (sat_sub x 2))].

(** src/icmpv6.rs:300-312 *)
Definition router_solicit (c : cfg) : schema :=
  [one "icmpv6_type" 8; one "icmpv6_code" 8; int "checksum" 16; int "reserved" 32;
   pfld "payload" (len_const 0); fld "options" (TVecPkt (sem_of c (ndp_option c)))].
(** src/icmpv6.rs:343-359 *)
Definition router_advert (c : cfg) : schema :=
  [one "icmpv6_type" 8; one "icmpv6_code" 8; int "checksum" 16; int "hop_limit" 8; int "flags" 8;
   int "lifetime" 16; int "reachable_time" 32; int "retrans_time" 32;
   pfld "payload" (len_const 0); fld "options" (TVecPkt (sem_of c (ndp_option c)))].
(** src/icmpv6.rs:382-396 *)
Definition neighbor_solicit (c : cfg) : schema :=
  [one "icmpv6_type" 8; one "icmpv6_code" 8; int "checksum" 16; int "reserved" 32;
   ip6 "target_addr"; pfld "payload" (len_const 0);
   fld "options" (TVecPkt (sem_of c (ndp_option c)))].
(** src/icmpv6.rs:433-448 *)
Definition neighbor_advert (c : cfg) : schema :=
  [one "icmpv6_type" 8; one "icmpv6_code" 8; int "checksum" 16; int "flags" 8; int "reserved" 24;
   ip6 "target_addr"; pfld "payload" (len_const 0);
   fld "options" (TVecPkt (sem_of c (ndp_option c)))].
(** src/icmpv6.rs:479-495 *)
Definition redirect (c : cfg) : schema :=
  [one "icmpv6_type" 8; one "icmpv6_code" 8; int "checksum" 16; int "reserved" 32;
   ip6 "target_addr"; ip6 "dest_addr"; pfld "payload" (len_const 0);
   fld "options" (TVecPkt (sem_of c (ndp_option c)))].

(** Every packet struct of src/*.rs outside src/quic.rs, with its name. *)
Definition crate_schemas (c : cfg) : list (string * schema) :=
  [("Ethernet"%string, ethernet); ("Vlan"%string, vlan); ("Arp"%string, arp);
   ("Ipv4Option"%string, ipv4_option); ("Ipv4"%string, ipv4 c); ("Ipv6"%string, ipv6);
   ("Extension"%string, extension); ("Routing"%string, routing); ("Fragment"%string, fragment);
   ("Udp"%string, udp); ("TcpOption"%string, tcp_option); ("Tcp"%string, tcp c);
   ("U16BE"%string, gre_u16); ("U32BE"%string, gre_u32); ("Gre"%string, gre c);
   ("Icmp"%string, icmp); ("EchoReply"%string, echo_reply); ("EchoRequest"%string, echo_request);
   ("DestinationUnreachable"%string, destination_unreachable);
   ("TimeExceeded"%string, time_exceeded); ("Icmpv6"%string, icmpv6);
   ("NdpOption"%string, ndp_option c); ("RouterSolicit"%string, router_solicit c);
   ("RouterAdvert"%string, router_advert c); ("NeighborSolicit"%string, neighbor_solicit c);
   ("NeighborAdvert"%string, neighbor_advert c); ("Redirect"%string, redirect c)].

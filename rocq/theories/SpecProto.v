(** Protocol specifications: header diagrams and option grammars, from the
    RFCs. *)
From Coq Require Import String ZArith List Bool.
From Verif Require Import Base BitSpec DeriveOps DeriveGen SpecPacket Protocols ProtoMethods SpecStruct.
Import ListNotations.
Open Scope Z_scope.

(** ** Header diagrams *)

(** One field: name, position in bits and the widths of its numbers. *)
Definition cell := (string * Z * list Z)%type.
(** A header: protocol, number of bits, fields. *)
Definition diagram := (string * Z * list cell)%type.
(** Bit [k] of the [w]-th 32-bit line of a diagram. *)
Definition at_ (w k : Z) : Z := 32 * w + k.

Local Open Scope string_scope.
Definition diagrams : list diagram :=
  [ (* IEEE 802.3 *)
    ("Ethernet", 112, [("destination", 0, [8; 8; 8; 8; 8; 8]); ("source", 48, [8; 8; 8; 8; 8; 8]); ("ethertype", 96, [16])]);
    (* IEEE 802.1Q, after the tag protocol identifier *)
    ("Vlan", 32, [("priority_code_point", 0, [3]); ("drop_eligible_indicator", 3, [1]); ("vlan_identifier", 4, [12]);
                  ("ethertype", 16, [16])]);
    (* RFC 826 *)
    ("Arp", 224, [("hardware_type", 0, [16]); ("protocol_type", 16, [16]); ("hw_addr_len", 32, [8]);
                  ("proto_addr_len", 40, [8]); ("operation", 48, [16]); ("sender_hw_addr", 64, [8; 8; 8; 8; 8; 8]);
                  ("sender_proto_addr", 112, [8; 8; 8; 8]); ("target_hw_addr", 144, [8; 8; 8; 8; 8; 8]);
                  ("target_proto_addr", 192, [8; 8; 8; 8])]);
    (* RFC 791 3.1 *)
    ("Ipv4Option", 8, [("copied", 0, [1]); ("class", 1, [2]); ("number", 3, [5])]);
    ("Ipv4", 160, [("version", at_ 0 0, [4]); ("header_length", at_ 0 4, [4]); ("dscp", at_ 0 8, [6]);
                   ("ecn", at_ 0 14, [2]); ("total_length", at_ 0 16, [16]); ("identification", at_ 1 0, [16]);
                   ("flags", at_ 1 16, [3]); ("fragment_offset", at_ 1 19, [13]); ("ttl", at_ 2 0, [8]);
                   ("next_level_protocol", at_ 2 8, [8]); ("checksum", at_ 2 16, [16]);
                   ("source", at_ 3 0, [8; 8; 8; 8]); ("destination", at_ 4 0, [8; 8; 8; 8])]);
    (* RFC 8200 3, 4.2, 4.4, 4.5 *)
    ("Ipv6", 320, [("version", at_ 0 0, [4]); ("traffic_class", at_ 0 4, [8]); ("flow_label", at_ 0 12, [20]);
                   ("payload_length", at_ 1 0, [16]); ("next_header", at_ 1 16, [8]); ("hop_limit", at_ 1 24, [8]);
                   ("source", at_ 2 0, [16; 16; 16; 16; 16; 16; 16; 16]);
                   ("destination", at_ 6 0, [16; 16; 16; 16; 16; 16; 16; 16])]);
    ("Extension", 16, [("next_header", 0, [8]); ("hdr_ext_len", 8, [8])]);
    ("Routing", 32, [("next_header", 0, [8]); ("hdr_ext_len", 8, [8]); ("routing_type", 16, [8]); ("segments_left", 24, [8])]);
    ("Fragment", 64, [("next_header", 0, [8]); ("reserved", 8, [8]); ("fragment_offset_with_flags", 16, [16]);
                      ("id", at_ 1 0, [32])]);
    (* RFC 768 *)
    ("Udp", 64, [("source", at_ 0 0, [16]); ("destination", at_ 0 16, [16]); ("length", at_ 1 0, [16]);
                 ("checksum", at_ 1 16, [16])]);
    (* RFC 793 3.1; nine flags since RFC 3540 *)
    ("TcpOption", 8, [("number", 0, [8])]);
    ("Tcp", 160, [("source", at_ 0 0, [16]); ("destination", at_ 0 16, [16]); ("sequence", at_ 1 0, [32]);
                  ("acknowledgement", at_ 2 0, [32]); ("data_offset", at_ 3 0, [4]); ("reserved", at_ 3 4, [3]);
                  ("flags", at_ 3 7, [9]); ("window", at_ 3 16, [16]); ("checksum", at_ 4 0, [16]);
                  ("urgent_ptr", at_ 4 16, [16])]);
    (* RFC 2784 2, RFC 2890 2, RFC 1701 *)
    ("U16BE", 16, [("number", 0, [16])]);
    ("U32BE", 32, [("number", 0, [32])]);
    ("Gre", 32, [("checksum_present", 0, [1]); ("routing_present", 1, [1]); ("key_present", 2, [1]);
                 ("sequence_present", 3, [1]); ("strict_source_route", 4, [1]); ("recursion_control", 5, [3]);
                 ("zero_flags", 8, [5]); ("version", 13, [3]); ("protocol_type", 16, [16])]);
    (* RFC 792 *)
    ("Icmp", 32, [("icmp_type", 0, [8]); ("icmp_code", 8, [8]); ("checksum", 16, [16])]);
    ("EchoReply", 64, [("icmp_type", 0, [8]); ("icmp_code", 8, [8]); ("checksum", 16, [16]);
                       ("identifier", at_ 1 0, [16]); ("sequence_number", at_ 1 16, [16])]);
    ("EchoRequest", 64, [("icmp_type", 0, [8]); ("icmp_code", 8, [8]); ("checksum", 16, [16]);
                         ("identifier", at_ 1 0, [16]); ("sequence_number", at_ 1 16, [16])]);
    ("DestinationUnreachable", 64, [("icmp_type", 0, [8]); ("icmp_code", 8, [8]); ("checksum", 16, [16]); ("unused", at_ 1 0, [32])]);
    ("TimeExceeded", 64, [("icmp_type", 0, [8]); ("icmp_code", 8, [8]); ("checksum", 16, [16]); ("unused", at_ 1 0, [32])]);
    (* RFC 4443 2.1, RFC 4861 4 *)
    ("Icmpv6", 32, [("icmpv6_type", 0, [8]); ("icmpv6_code", 8, [8]); ("checksum", 16, [16])]);
    ("NdpOption", 16, [("option_type", 0, [8]); ("length", 8, [8])]);
    ("RouterSolicit", 64, [("icmpv6_type", 0, [8]); ("icmpv6_code", 8, [8]); ("checksum", 16, [16]); ("reserved", at_ 1 0, [32])]);
    ("RouterAdvert", 128, [("icmpv6_type", 0, [8]); ("icmpv6_code", 8, [8]); ("checksum", 16, [16]);
                           ("hop_limit", at_ 1 0, [8]); ("flags", at_ 1 8, [8]); ("lifetime", at_ 1 16, [16]);
                           ("reachable_time", at_ 2 0, [32]); ("retrans_time", at_ 3 0, [32])]);
    ("NeighborSolicit", 192, [("icmpv6_type", 0, [8]); ("icmpv6_code", 8, [8]); ("checksum", 16, [16]);
                              ("reserved", at_ 1 0, [32]); ("target_addr", at_ 2 0, [16; 16; 16; 16; 16; 16; 16; 16])]);
    ("NeighborAdvert", 192, [("icmpv6_type", 0, [8]); ("icmpv6_code", 8, [8]); ("checksum", 16, [16]);
                             ("flags", at_ 1 0, [8]); ("reserved", at_ 1 8, [24]);
                             ("target_addr", at_ 2 0, [16; 16; 16; 16; 16; 16; 16; 16])]);
    ("Redirect", 320, [("icmpv6_type", 0, [8]); ("icmpv6_code", 8, [8]); ("checksum", 16, [16]); ("reserved", at_ 1 0, [32]);
                       ("target_addr", at_ 2 0, [16; 16; 16; 16; 16; 16; 16; 16]);
                       ("dest_addr", at_ 6 0, [16; 16; 16; 16; 16; 16; 16; 16])]) ].
Local Close Scope string_scope.

(** The numbers found at position [off] for widths [ws], and the bits that spell
    numbers. *)
Fixpoint cell_numbers (b : buf) (off : Z) (ws : list Z) : list Z :=
  match ws with
  | [] => []
  | w :: r => field_val b (Z.to_nat off) (Z.to_nat w) :: cell_numbers b (off + w) r
  end.
Fixpoint cell_bits (ws : list Z) (zs : list Z) : list bool :=
  match ws, zs with
  | w :: r, z :: t => bits_of_Z (Z.to_nat w) z ++ cell_bits r t
  | _, _ => []
  end.

(** The numbers of a value of a fixed field. *)
Definition numbers (x : val) (zs : list Z) : Prop := (exists z, x = VInt z /\ zs = [z]) \/ x = VTup zs.
(** Values of the same Rust type. *)
Definition same_type (x y : val) : Prop :=
  match x, y with
  | VInt _, VInt _ => True
  | VTup l, VTup k => length l = length k
  | _, _ => False
  end.

(** ** GRE *)

(** An optional word of [w] bits at octet [off], present when [flag] is set (RFC
    2784 2.1, RFC 2890 2). *)
Definition gre_word (flag : Z) (b : buf) (off : Z) (w : nat) : list (list val) :=
  if flag =? 0 then [] else [[VInt (field_val b (Z.to_nat (8 * off)) w); VBytes []]].

(** ** Options of TCP (RFC 793 3.1) and IPv4 (RFC 791 3.1) *)

(** Two kinds of options: End of Option List and No Operation are one octet, all
    others have a length octet that counts the type and the length octet.
    [num] is the option number of a type octet, [mk] the option struct.  As in
    the crate, End of Option List does not end the list, a length below two is
    taken for two, and data may be cut off by the end of the area. *)
Section Options.
Variable num : Z -> Z.
Variable mk : Z -> list Z -> list Z -> list val.

Inductive opts : buf -> list (list val) -> Prop :=
| opts_nil : opts [] []
| opts_one : forall x r l, num x < 2 -> opts r l -> opts (x :: r) (mk x [] [] :: l)
| opts_tlv : forall x n r l, 2 <= num x -> opts (skipn (Z.to_nat (n - 2)) r) l ->
    opts (x :: n :: r) (mk x [n] (firstn (Z.to_nat (n - 2)) r) :: l).

(** The last octet of the area starts an option with a length octet. *)
Inductive dangling : buf -> Prop :=
| dang_here : forall x, 2 <= num x -> dangling [x]
| dang_one : forall x r, num x < 2 -> dangling r -> dangling (x :: r)
| dang_tlv : forall x n r, 2 <= num x -> dangling (skipn (Z.to_nat (n - 2)) r) -> dangling (x :: n :: r).
End Options.

(** TCP: number, length, data. *)
Definition tcp_num (x : Z) : Z := x.
Definition tcp_mk (x : Z) (len data : list Z) : list val := [VTup [x]; VBytes len; VBytes data].
(** IPv4: copied flag, class, number, length, data. *)
Definition ipv4_num (x : Z) : Z := x mod 32.
Definition ipv4_mk (x : Z) (len data : list Z) : list val :=
  [VInt (x / 128); VInt (x / 32 mod 4); VTup [x mod 32]; VBytes len; VBytes data].

(** ** Packets inside packets *)

(** The description of the elements of a vector of packets: options of IPv4
    (src/ipv4.rs:150-151), TCP (src/tcp.rs:66-67) and neighbour discovery
    (src/icmpv6.rs:311 and others), optional words of GRE (src/gre.rs:47-54). *)
Definition elem_schema (c : cfg) (proto f : string) : schema :=
  if String.eqb proto "Ipv4" then ipv4_option
  else if String.eqb proto "Tcp" then tcp_option
  else if String.eqb proto "Gre"
       then if String.eqb f "checksum" || String.eqb f "offset" then gre_u16 else gre_u32
       else ndp_option c.
Definition elem_wire (c : cfg) (proto f : string) : list val -> buf :=
  wire (fun _ _ => []) c (elem_schema c proto f).
Definition elem_ok (c : cfg) (proto f : string) : list val -> Prop :=
  struct_ok (fun _ _ => []) (fun _ _ => False) c (elem_schema c proto f).

(** A struct of protocol [proto] whose values fit and belong together, and its
    bytes. *)
Definition packet_ok (c : cfg) (proto : string) (fs : schema) (xs : list val) : Prop :=
  struct_ok (elem_wire c proto) (elem_ok c proto) c fs xs.
Definition packet_wire (c : cfg) (proto : string) (fs : schema) (xs : list val) : buf :=
  wire (elem_wire c proto) c fs xs.

(** A TCP option struct (src/tcp.rs:105-116) whose length octet counts the octets
    it occupies, at most 255; one-octet options have neither length nor data. *)
Definition tcp_option_good (number : Z) (len data : buf) : Prop :=
  (0 <= number < 2 /\ len = [] /\ data = []) \/
  (2 <= number < 256 /\ len = [2 + blen data] /\ blen data < 254 /\ bytes_ok data).

(** ** Fragments *)

(** Calls of the two setters of a fragment header. *)
Inductive frag_op := SetOffset (offset : Z) | SetLast (is_last : bool).
(** Arguments are u16. *)
Definition op_ok (o : frag_op) : Prop := match o with SetOffset x => 0 <= x < 65536 | SetLast _ => True end.
(** Running the calls. *)
Definition frag_step (c : cfg) (o : frag_op) : mut :=
  match o with SetOffset x => set_fragment_offset c x | SetLast l => set_last_fragment c l end.
Fixpoint frag_run (c : cfg) (ops : list frag_op) : mut :=
  match ops with
  | [] => mret
  | o :: r => mseq (frag_step c o) (frag_run c r)
  end.
(** What the two getters return after a sequence of calls. *)
Definition offset_after (ops : list frag_op) (old : Z) : Z :=
  fold_left (fun cur o => match o with SetOffset x => 4 * (x / 4) | SetLast _ => cur end) ops old.
Definition last_after (ops : list frag_op) (old : bool) : bool :=
  fold_left (fun cur o => match o with SetLast x => x | SetOffset _ => cur end) ops old.

(** ** Lists of TCP options *)

(** A TCP option: number, length octets, data. *)
Definition option_parts : Type := Z * buf * buf.
Definition parts_good (o : option_parts) : Prop := let '(x, l, d) := o in tcp_option_good x l d.
Definition parts_struct (o : option_parts) : list val := let '(x, l, d) := o in tcp_mk x l d.
Definition parts_bytes (o : option_parts) : buf := let '(x, l, d) := o in x :: l ++ d.

(** ** IPv6 extension headers *)

(** Headers one after the other, each 8 * (length octet + 1) octets long (RFC
    8200 4.3, 4.6), seen through the rest of the buffer from its first octet. *)
Inductive ext_chain : buf -> list buf -> Prop :=
| chain_end : forall s, blen s < 2 -> ext_chain s []
| chain_step : forall h n r l, ext_chain (skipn (Z.to_nat (8 * (n + 1))) (h :: n :: r)) l ->
    ext_chain (h :: n :: r) ((h :: n :: r) :: l).

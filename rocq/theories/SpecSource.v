(** The crate's functions as their source text defines them: the meaning of a text
    (RustLex.v, RustSyntax.v, RustSem.v) in the context of the crate's constants and of
    the functions it calls, which are run from their own texts. *)
From Coq Require Import String Ascii ZArith List Bool.
From Verif Require Import Base DeriveUtil DeriveOps DeriveGen Protocols Quic Checksum MacAddr RustLex RustSyntax RustSem CrateText.
Import ListNotations.
Open Scope string_scope.
Open Scope Z_scope.

(** Constants the functions mention: src/ipv4.rs:34-38, src/tcp.rs:80-84, src/ip.rs:46,
    79, 205, core/src/macaddr.rs:22-23. *)
Definition crate_const (p : string) : option rv :=
  match find (fun x => String.eqb (fst x) p)
    [("Ipv4OptionNumbers::EOL", VC "Ipv4OptionNumber" U8 [0]); ("Ipv4OptionNumbers::NOP", VC "Ipv4OptionNumber" U8 [1]);
     ("TcpOptionNumbers::EOL", VC "TcpOptionNumber" U8 [0]); ("TcpOptionNumbers::NOP", VC "TcpOptionNumber" U8 [1]);
     ("IpNextHeaderProtocols::Tcp", VC "IpNextHeaderProtocol" U8 [6]); ("IpNextHeaderProtocols::Udp", VC "IpNextHeaderProtocol" U8 [17]);
     ("IpNextHeaderProtocols::Icmpv6", VC "IpNextHeaderProtocol" U8 [58]);
     ("LOCAL_ADDR_BIT", VI (Some U8) 2); ("MULTICAST_ADDR_BIT", VI (Some U8) 1)] with
  | Some (_, v) => Some v
  | None => None
  end.

(** The types rustc gives to the variables declared without one and initialised with a
    literal: [length] of varint_length and n_varints, [vlen] and [i] are [usize] (they are
    returned, passed to [split_at], or compared with one), [pn] is an array of [u8]. *)
Definition crate_hint (x : string) : option ity :=
  if String.eqb x "length" || String.eqb x "vlen" || String.eqb x "i" then Some Usize
  else if String.eqb x "pn" then Some U8 else None.

(** What the texts use that is not written in the crate: methods the derive macro
    generates (as DeriveGen.v has them; a packet is its bytes), the constructor of
    MacAddr (core/src/macaddr.rs:27), and [zero] and [broadcast] (core/src/macaddr.rs:36-43),
    whose bodies are calls into traits. *)
Definition outside (c : cfg) (f : string) (l : list rv) : option answer :=
  let is x := String.eqb f x in
  match l with
  | [] =>
      if is "Ipv4Packet::minimum_packet_size" then Some (AInt Usize (Ok (minimum_packet_size (ipv4 c))))
      else if is "Self::zero" then Some (AObj "MacAddr" U8 (Ok (mac_to_array mac_zero)))
      else if is "Self::broadcast" then Some (AObj "MacAddr" U8 (rmap mac_to_array mac_broadcast))
      else None
  | [VC t _ b] =>
      if String.eqb f (t ++ "::packet")
      then if existsb (String.eqb t) ["UdpPacket"; "TcpPacket"; "IcmpPacket"; "Icmpv6Packet"; "Ipv4Packet"]
           then Some (ABytes (Ok b)) else None
      else if is "Ipv4Packet::get_header_length" then Some (AInt U8 (int_of (get c (ipv4 c) "header_length" b)))
      else None
  | [VI (Some U8) x0; VI (Some U8) x1; VI (Some U8) x2; VI (Some U8) x3; VI (Some U8) x4; VI (Some U8) x5] =>
      if is "MacAddr" then Some (AObj "MacAddr" U8 (Ok [x0; x1; x2; x3; x4; x5])) else None
  | _ => None
  end.

(** Which text a name refers to. *)
Definition cut (n : nat) (s : string) : string := substring n (String.length s - n) s.
Definition resolve (mod_ f : string) : string * string :=
  if prefix "util::" f then ("util", cut 6 f)
  else if prefix "MacAddr::" f then ("mac", cut 9 f)
  else (mod_, f).
Definition find_text (mod_ f : string) : option string :=
  match find (fun x => String.eqb (fst (fst x)) mod_ && String.eqb (snd (fst x)) f)%bool crate_texts with
  | Some (_, t) => Some t
  | None => None
  end.

(** The types the called functions return (checked against the texts in
    SourceProofs.sigs_ok). *)
Definition outside_sig (f : string) : option shape :=
  match find (fun x => String.eqb (fst x) f)
    [("Ipv4Packet::minimum_packet_size", SInt Usize); ("Self::zero", SObj "MacAddr" U8); ("Self::broadcast", SObj "MacAddr" U8);
     ("UdpPacket::packet", SBytes); ("TcpPacket::packet", SBytes); ("IcmpPacket::packet", SBytes); ("Icmpv6Packet::packet", SBytes);
     ("Ipv4Packet::packet", SBytes); ("Ipv4Packet::get_header_length", SInt U8); ("MacAddr", SObj "MacAddr" U8)] with
  | Some (_, s) => Some s
  | None => None
  end.
Definition text_sigs : list (string * string * shape) :=
  [("util", "sum_be_words", SInt U32); ("util", "finalize_checksum", SInt U16); ("util", "ipv4_word_sum", SInt U32);
   ("util", "ipv6_word_sum", SInt U32); ("util", "checksum", SInt U16); ("util", "ipv4_checksum", SInt U16);
   ("util", "ipv6_checksum", SInt U16); ("udp", "ipv4_checksum_adv", SInt U16); ("udp", "ipv6_checksum_adv", SInt U16);
   ("tcp", "ipv4_checksum_adv", SInt U16); ("tcp", "ipv6_checksum_adv", SInt U16);
   ("mac", "is_local", SBool); ("mac", "is_multicast", SBool);
   ("quic", "varint_length", SInt Usize); ("quic", "varint", SInt Usize); ("quic", "n_varints", SInt Usize);
   ("ipv4", "ipv4_options_length", SInt Usize); ("ipv4", "ipv4_payload_length", SInt Usize);
   ("ipv4", "ipv4_option_length", SInt Usize); ("ipv4", "ipv4_option_payload_length", SInt Usize);
   ("ipv6", "ipv6_extension_length", SInt Usize); ("ipv6", "routing_extension_length", SInt Usize);
   ("tcp", "tcp_option_length", SInt Usize); ("tcp", "tcp_option_payload_length", SInt Usize);
   ("tcp", "tcp_options_length", SInt Usize)].
Definition crate_sig (mod_ f : string) : option shape :=
  match outside_sig f with
  | Some s => Some s
  | None =>
      let '(mod', f') := resolve mod_ f in
      match find (fun x => String.eqb (fst (fst x)) mod' && String.eqb (snd (fst x)) f')%bool text_sigs with
      | Some (_, s) => Some s
      | None => None
      end
  end.

(** The function of a text, run on arguments. *)
Definition run_text (c : cfg) (mod_ : string) (funs : string -> list rv -> option answer) (rounds : nat) (text : string) (args : list rv) : out :=
  match read_fn text with
  | Some f => run_fn (c_mode c) crate_const funs (crate_sig mod_) crate_hint rounds f args
  | None => Stuck
  end.
Definition answer_of (o : out) : option answer :=
  match o with
  | Done (VI (Some t) z) => Some (AInt t (Ok z))
  | Done (VB b) => Some (ABool (Ok b))
  | Done (VA (Some U8) l) => Some (ABytes (Ok l))
  | Done (VC x t l) => Some (AObj x t (Ok l))
  | Pan e => Some (AInt Usize (Panic e))
  | _ => None
  end.
(** A call from the text of module [mod_], where calls are followed [d] deep. *)
Fixpoint linked (c : cfg) (rounds : nat) (d : nat) (mod_ f : string) (args : list rv) : option answer :=
  match outside c f args with
  | Some a => Some a
  | None =>
      match d with
      | O => None
      | S d' =>
          let '(mod', f') := resolve mod_ f in
          match find_text mod' f' with
          | Some t => answer_of (run_text c mod' (linked c rounds d' mod') rounds t args)
          | None => None
          end
      end
  end.
(** No chain of calls in the crate is longer than this. *)
Definition call_depth : nat := 5.
Definition run_source (c : cfg) (rounds : nat) (mod_ text : string) (args : list rv) : out :=
  run_text c mod_ (linked c rounds call_depth mod_) rounds text args.

(** What a parameter of the type a signature names can be. *)
Definition in_range (t : ity) (z : Z) : Prop := 0 <= z < 2 ^ width t.
Definition fits (c : cfg) (t : string) (v : rv) : Prop :=
  let is x := String.eqb t x in
  let obj u n := exists l, v = VC t u l /\ Forall (in_range u) l /\ List.length l = n in
  match int_ty t with
  | Some u => exists z, v = VI (Some u) z /\ in_range u z
  | None =>
      if is "[u8]" then exists b, v = VA (Some U8) b /\ buf_ok b
      else if is "Ipv4Addr" then obj U8 4%nat
      else if is "Ipv6Addr" then obj U16 8%nat
      else if is "MacAddr" then obj U8 6%nat
      else if is "Ipv4OptionNumber" || is "TcpOptionNumber" || is "IpNextHeaderProtocol" then obj U8 1%nat
      else if is "UdpPacket" || is "TcpPacket" || is "IcmpPacket" || is "Icmpv6Packet"
      then exists b, v = VC t U8 b /\ buf_ok b
      else if is "Ipv4Packet" then exists b, v = VC t U8 b /\ buf_ok b /\ new (ipv4 c) b = Some b
      else False
  end%bool.
(** The receiver of a method has the type the [impl] block is for. *)
Definition arg_fits (c : cfg) (mod_ : string) (p : string * string) (v : rv) : Prop :=
  fits c (if String.eqb (snd p) "&Self" then if String.eqb mod_ "mac" then "MacAddr" else mod_
          else strip_ref (snd p)) v.

(** How many rounds of a loop are enough. *)
Definition size_of (v : rv) : nat := match v with VA _ l => List.length l | VC _ _ l => List.length l | _ => O end.
Fixpoint enough (args : list rv) : nat := match args with [] => 5 | v :: r => size_of v + enough r end.

(** What the model says the functions return. *)
Definition of_mac (l : list Z) (f : mac -> res bool) : res bool := m <- mac_from_array l ;; f m.
Definition crate_fun (c : cfg) (mod_ f : string) (l : list rv) : option answer :=
  let m := c_mode c in
  let is x := String.eqb (mod_ ++ "::" ++ f) x in
  let int t r := Some (AInt t r) in
  match l with
  | [VA (Some U8) b] =>
      if is "quic::varint_length" then int Usize (varint_length b)
      else if is "quic::varint" then int Usize (varint b)
      else if is "quic::packet_number" then int U64 (packet_number m b)
      else if is "ipv4::ipv4_option_payload_length" then int Usize (Ok (ipv4_option_payload_length b))
      else if is "tcp::tcp_option_payload_length" then int Usize (Ok (tcp_option_payload_length b))
      else None
  | [VI (Some Usize) n; VA (Some U8) b] =>
      if is "quic::n_varints" then int Usize (n_varints n b) else None
  | [VI (Some _) n] =>
      if is "ipv4::ipv4_options_length" then int Usize (Ok (ipv4_options_length n))
      else if is "ipv6::ipv6_extension_length" then int Usize (Ok (ipv6_extension_length n))
      else if is "ipv6::routing_extension_length" then int Usize (Ok (routing_extension_length n))
      else if is "tcp::tcp_options_length" then int Usize (Ok (tcp_options_length n))
      else if is "util::finalize_checksum" then int U16 (finalize_checksum m n)
      else if is "u64::octets" then Some (ABytes (Ok (octets_u64 n)))
      else if is "u32::octets" then Some (ABytes (Ok (octets_u32 n)))
      else if is "u16::octets" then Some (ABytes (Ok (octets_u16 n)))
      else if is "u8::octets" then Some (ABytes (Ok (octets_u8 n)))
      else None
  | [VI (Some U16) t; VI (Some U8) h] =>
      if is "ipv4::ipv4_payload_length" then int Usize (Ok (ipv4_payload_length t h)) else None
  | [VA (Some U8) b; VI (Some Usize) k] =>
      if is "util::checksum" then int U16 (checksum m b k)
      else if is "util::sum_be_words" then int U32 (sum_be_words m b k)
      else None
  | [VA (Some U8) b; VI (Some Usize) k; VA (Some U8) x; VC _ _ s; VC _ _ d; VC _ _ [p]] =>
      if is "util::ipv4_checksum" then int U16 (ipv4_checksum m b k x s d p)
      else if is "util::ipv6_checksum" then int U16 (ipv6_checksum m b k x s d p)
      else None
  | [VC _ _ b] =>
      if is "util::ipv4_word_sum" then int U32 (ipv4_word_sum m b)
      else if is "util::ipv6_word_sum" then int U32 (ipv6_word_sum m b)
      else if is "icmp::checksum" then int U16 (icmp_checksum m b)
      else if is "ipv4::checksum" then int U16 (ipv4_header_checksum c b)
      else if is "mac::is_zero" then Some (ABool (of_mac b (fun a => Ok (is_zero a))))
      else if is "mac::is_universal" then Some (ABool (of_mac b (fun a => Ok (is_universal a))))
      else if is "mac::is_local" then Some (ABool (of_mac b (fun a => Ok (is_local a))))
      else if is "mac::is_unicast" then Some (ABool (of_mac b (fun a => Ok (is_unicast a))))
      else if is "mac::is_multicast" then Some (ABool (of_mac b (fun a => Ok (is_multicast a))))
      else if is "mac::is_broadcast" then Some (ABool (of_mac b is_broadcast))
      else match b with
           | [n] => if is "ipv4::ipv4_option_length" then int Usize (Ok (ipv4_option_length n))
                    else if is "tcp::tcp_option_length" then int Usize (Ok (tcp_option_length n))
                    else None
           | _ => None
           end
  | [VC _ _ b; VC _ _ s; VC _ _ d] =>
      if is "udp::ipv4_checksum" then int U16 (udp_ipv4_checksum m b s d)
      else if is "udp::ipv6_checksum" then int U16 (udp_ipv6_checksum m b s d)
      else if is "tcp::ipv4_checksum" then int U16 (tcp_ipv4_checksum m b s d)
      else if is "tcp::ipv6_checksum" then int U16 (tcp_ipv6_checksum m b s d)
      else if is "icmpv6::checksum" then int U16 (icmpv6_checksum m b s d)
      else None
  | [VC _ _ b; VA (Some U8) x; VC _ _ s; VC _ _ d] =>
      if is "udp::ipv4_checksum_adv" then int U16 (udp_ipv4_checksum_adv m b x s d)
      else if is "udp::ipv6_checksum_adv" then int U16 (udp_ipv6_checksum_adv m b x s d)
      else if is "tcp::ipv4_checksum_adv" then int U16 (tcp_ipv4_checksum_adv m b x s d)
      else if is "tcp::ipv6_checksum_adv" then int U16 (tcp_ipv6_checksum_adv m b x s d)
      else None
  | [VI _ x0; VI _ x1; VI _ x2; VI _ x3; VI _ x4; VI _ x5] =>
      if is "mac::new" then Some (AObj "MacAddr" U8 (Ok (mac_to_array (MacAddr x0 x1 x2 x3 x4 x5)))) else None
  | _ => None
  end%bool.
Definition returns (a : option answer) : out :=
  match a with Some a => answered a Done | None => Stuck end.

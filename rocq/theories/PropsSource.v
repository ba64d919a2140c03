(** Property C91: the model of the crate's hand-written functions is what their source
    text says. *)
From Coq Require Import String ZArith List Bool Lia.
From Verif Require Import Base DeriveUtil DeriveOps DeriveGen Protocols Quic SpecQuic Checksum SpecChecksum MacAddr Samples
  RustLex RustSyntax RustSem CrateText SpecSource SourceGood.
Import ListNotations.
Open Scope string_scope.
Open Scope Z_scope.

(** ** C91: functions *)

(** For every function of CrateText.v and all arguments of the types in its signature,
    running the text (and the texts of the functions it calls) gives the value or the
    panic of the model, given enough rounds for its loops. *)
Theorem C91_functions_mean_their_source : forall c mod_ f text, In (mod_, f, text) crate_texts ->
  exists g, read_fn text = Some g /\ fn_name g = f /\
    forall args, Forall2 (arg_fits c mod_) (fn_params g) args -> forall rounds, (enough args <= rounds)%nat ->
      exists a, crate_fun c mod_ f args = Some a /\ run_source c rounds mod_ text args = answered a Done.
Proof. exact all_good. Qed.
Print Assumptions C91_functions_mean_their_source.

(** From the text to the standard: src/util.rs:18-25 computes RFC 1071, src/quic.rs reads
    the integers of RFC 9000. *)
Theorem C91_checksum_text : forall c rounds b k, buf_ok b -> 0 <= k < 2 ^ 64 -> blen b <= 131074 ->
  (List.length b + 5 <= rounds)%nat ->
  run_source c rounds "util" fn_util_checksum [RustSem.VA (Some U8) b; RustSem.VI (Some Usize) k] =
  Done (RustSem.VI (Some U16) (match b with [] => 0 | _ => rfc1071 (zero_word (Z.to_nat k) b) end)).
Proof. exact checksum_text. Qed.
Print Assumptions C91_checksum_text.
Theorem C91_varint_text : forall c rounds x, vi_ok x ->
  run_source c rounds "quic" fn_quic_varint [RustSem.VA (Some U8) (vi_bytes x)] = Done (RustSem.VI (Some Usize) (vi_value x)).
Proof. exact varint_text. Qed.
Print Assumptions C91_varint_text.

(** All functions meant; runs of some of them, one of which panics. *)
Definition c91_addr : rv := VC "Ipv4Addr" U8 [192; 168; 3; 4].
Definition c91_args : list rv := [VC "UdpPacket" U8 [48; 57; 212; 49; 0; 9; 0; 0; 116]; c91_addr; c91_addr].
Example C91_case :
  map (fun x => (fst (fst x) ++ "::" ++ snd (fst x))%string) crate_texts =
    ["quic::varint_length"; "quic::varint"; "quic::packet_number"; "quic::n_varints"; "ipv4::ipv4_options_length";
     "ipv4::ipv4_payload_length"; "ipv4::ipv4_option_length"; "ipv4::ipv4_option_payload_length"; "ipv4::checksum";
     "ipv6::ipv6_extension_length"; "ipv6::routing_extension_length"; "tcp::tcp_option_length"; "tcp::tcp_option_payload_length";
     "tcp::tcp_options_length"; "tcp::ipv4_checksum"; "tcp::ipv4_checksum_adv"; "tcp::ipv6_checksum"; "tcp::ipv6_checksum_adv";
     "udp::ipv4_checksum"; "udp::ipv4_checksum_adv"; "udp::ipv6_checksum"; "udp::ipv6_checksum_adv"; "icmp::checksum";
     "icmpv6::checksum"; "util::checksum"; "util::finalize_checksum"; "util::ipv4_checksum"; "util::ipv4_word_sum";
     "util::ipv6_checksum"; "util::ipv6_word_sum"; "util::sum_be_words"; "u64::octets"; "u32::octets"; "u16::octets";
     "u8::octets"; "mac::new"; "mac::is_zero"; "mac::is_universal"; "mac::is_local"; "mac::is_unicast"; "mac::is_multicast";
     "mac::is_broadcast"] /\
  Forall2 (arg_fits dbg "udp") [("packet", "&UdpPacket"); ("source", "&Ipv4Addr"); ("destination", "&Ipv4Addr")] c91_args /\
  run_source dbg (enough c91_args) "udp" fn_udp_ipv4_checksum c91_args = Done (RustSem.VI (Some U16) 24) /\
  udp_ipv4_checksum Checked [48; 57; 212; 49; 0; 9; 0; 0; 116] [192; 168; 3; 4] [192; 168; 3; 4] = Ok 24 /\
  run_source dbg 5 "quic" fn_quic_n_varints [RustSem.VI (Some Usize) 2; RustSem.VA (Some U8) [65; 2; 3; 4]] = Done (RustSem.VI (Some Usize) 3) /\
  run_source dbg 5 "quic" fn_quic_n_varints [RustSem.VI (Some Usize) 2; RustSem.VA (Some U8) [65]] = Pan EIndex /\
  run_source dbg 5 "mac" fn_mac_is_multicast [VC "MacAddr" U8 [3; 2; 3; 4; 5; 6]] = Done (VB true).
Proof.
  split; [vm_compute; reflexivity |]. split.
  - unfold c91_args, c91_addr, arg_fits. repeat constructor; cbv -[in_range List.length buf_ok]; eexists; split; try reflexivity.
    + split; [repeat constructor; lia | reflexivity].
    + split; [repeat constructor; discriminate | reflexivity].
    + split; [repeat constructor; discriminate | reflexivity].
  - vm_compute. repeat split; reflexivity.
Qed.

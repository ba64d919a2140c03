(** Property C97: MAC addresses, the types around numbers and the TCP option constructors,
    run from their source text. *)
From Coq Require Import String ZArith List Bool Lia.
From Verif Require Import Base DeriveUtil DeriveOps DeriveGen MacAddr SpecMac ProtoMethods Samples RustAst RustEval CrateText2 SpecSource2 SpecSource3 CrateSrc8.
From Verif Require Names.
Import ListNotations.
Open Scope string_scope.
Open Scope Z_scope.

(** ** C97: the names of numbers *)

Theorem C97_display_source : forall c rounds z,
  run c rounds "ethernet" "EtherType::fmt" [XE "EtherType" [XI (Some tu16) z]] = FDone (XS (Names.ethertype_name z)) /\
  run c rounds "ip" "IpNextHeaderProtocol::fmt" [XE "IpNextHeaderProtocol" [XI (Some tu8) z]] = FDone (XS (Names.ip_name z)) /\
  run c rounds "quic" "HeaderForm::fmt" [XE "HeaderForm" [XI (Some tu8) z]] = FDone (XS (Names.header_form_name z)) /\
  run c rounds "quic" "FixedBit::fmt" [XE "FixedBit" [XI (Some tu8) z]] = FDone (XS (Names.fixed_bit_name z)) /\
  run c rounds "quic" "LongPacketType::fmt" [XE "LongPacketType" [XI (Some tu8) z]] = FDone (XS (Names.long_type_name z)) /\
  run c rounds "quic" "FrameType::fmt" [frame_type_v z] = FDone (XS (Names.frame_type_name z)) /\
  run c rounds "quic" "Version::fmt" [version_v z] = FDone (XS (Names.version_display z)).
Proof. exact display_runs. Qed.
Print Assumptions C97_display_source.

(** Every tuple struct around one number: [new] wraps it and [to_primitive_values] gives it
    back. *)
Theorem C97_newtype_source : forall mo ty text s, In (mo, ty, text) tuple_texts -> read_newtype text = Some (ty, [s]) ->
  forall c rounds t z, num_ty s = Some t ->
  run c rounds mo (ty ++ "::new") [XI (Some t) z] = FDone (XE ty [XI (Some t) z]) /\
  run c rounds mo (ty ++ "::to_primitive_values") [XE ty [XI (Some t) z]] = FDone (XT [XI (Some t) z]).
Proof. exact newtype_runs. Qed.
Print Assumptions C97_newtype_source.

(** ** C97: MAC addresses *)

Theorem C97_mac_source : forall c rounds,
  (forall x0 x1 x2 x3 x4 x5, run c rounds "mac" "MacAddr::new" (map u8_v [x0; x1; x2; x3; x4; x5]) = FDone (mac_v (mac_new x0 x1 x2 x3 x4 x5))) /\
  run c rounds "mac" "MacAddr::zero" [] = FDone (mac_v mac_zero) /\
  run c rounds "mac" "MacAddr::broadcast" [] = outcome mac_v mac_broadcast /\
  forall x,
  run c rounds "mac" "MacAddr::is_zero" [mac_v x] = FDone (XB (is_zero x)) /\
  run c rounds "mac" "MacAddr::is_broadcast" [mac_v x] = outcome XB (is_broadcast x) /\
  run c rounds "mac" "MacAddr::is_local" [mac_v x] = FDone (XB (is_local x)) /\
  run c rounds "mac" "MacAddr::is_universal" [mac_v x] = FDone (XB (is_universal x)) /\
  run c rounds "mac" "MacAddr::is_multicast" [mac_v x] = FDone (XB (is_multicast x)) /\
  run c rounds "mac" "MacAddr::is_unicast" [mac_v x] = FDone (XB (is_unicast x)).
Proof. exact mac_runs. Qed.
Print Assumptions C97_mac_source.

Theorem C97_mac_array_source : forall c rounds x a,
  run c rounds "mac" "MacAddr::from" [bytes_v a] = outcome mac_v (mac_from_array a) /\
  run c rounds "mac" "EtherAddr::from" [mac_v x] = FDone (bytes_v (mac_to_array x)) /\
  run c rounds "mac" "MacAddr::eq" [mac_v x; bytes_v a] = outcome XB (mac_eq_array x a).
Proof. exact mac_array_runs. Qed.
Print Assumptions C97_mac_array_source.

Theorem C97_mac_text_source : forall c rounds x e s,
  run c rounds "mac" "MacAddr::fmt" [mac_v x] = FDone (XS (mac_display x)) /\
  run c rounds "mac" "MacAddr::debug_fmt" [mac_v x] = FDone (XS (mac_display x)) /\
  run c rounds "mac" "ParseMacAddrErr::fmt" [mac_err_v e] = FDone (XS (mac_err_text e)) /\
  run c rounds "mac" "MacAddr::from_str" [XS s] = FDone (parsed_v (mac_from_str s)).
Proof. exact mac_text_runs. Qed.
Print Assumptions C97_mac_text_source.

(** The text of [fmt] prints an address that the text of [from_str] parses back. *)
Theorem C97_mac_round_trip_source : forall c rounds x, mac_ok x -> exists t,
  run c rounds "mac" "MacAddr::fmt" [mac_v x] = FDone (XS t) /\
  run c rounds "mac" "MacAddr::from_str" [XS t] = FDone (XE "Ok" [mac_v x]).
Proof. exact mac_trip_runs. Qed.
Print Assumptions C97_mac_round_trip_source.

(** What the text of [from_str] accepts, in terms of C36. *)
Theorem C97_mac_accepts_source : forall c rounds s x0 x1 x2 x3 x4 x5,
  run c rounds "mac" "MacAddr::from_str" [XS s] = FDone (XE "Ok" [mac_v (MacAddr x0 x1 x2 x3 x4 x5)]) <->
  exists l, s = String.concat ":" l /\ Forall2 octet l [x0; x1; x2; x3; x4; x5].
Proof. exact mac_accepts_runs. Qed.
Print Assumptions C97_mac_accepts_source.

(** ** C97: TCP options *)

Theorem C97_options_source : forall c rounds,
  run c rounds "tcp" "TcpOption::nop" [] = FDone (option_v opt_nop) /\
  run c rounds "tcp" "TcpOption::sack_perm" [] = FDone (option_v opt_sack_perm) /\
  (forall z, run c rounds "tcp" "TcpOption::wscale" [u8_v z] = FDone (option_v (opt_wscale z))) /\
  (forall z, run c rounds "tcp" "TcpOption::mss" [XI (Some tu16) z] = FDone (option_v (opt_mss z))) /\
  (forall x y, run c rounds "tcp" "TcpOption::timestamp" [XI (Some tu32) x; XI (Some tu32) y] = FDone (option_v (opt_timestamp x y))) /\
  (forall l, run c rounds "tcp" "TcpOption::selective_ack" [XA (Some tu32) l] = outcome option_v (opt_selective_ack (c_mode c) l)).
Proof. exact option_runs. Qed.
Print Assumptions C97_options_source.

Definition c97_mac : mac := MacAddr 2 0 94 255 16 7.
Example C97_case :
  run dbg 1 "ethernet" "EtherType::fmt" [XE "EtherType" [XI (Some tu16) 2054]] = FDone (XS "Arp") /\
  run dbg 1 "quic" "Version::fmt" [version_v 255] = FDone (XS "0x000000ff") /\
  map (fun p => (fst (fst p), snd (fst p), read_newtype (snd p))) (firstn 2 tuple_texts) =
    [("ethernet", "EtherType", Some ("EtherType", ["u16"])); ("ip", "IpNextHeaderProtocol", Some ("IpNextHeaderProtocol", ["u8"]))] /\
  num_ty "u16" = Some tu16 /\
  run dbg 1 "arp" "ArpOperation::new" [XI (Some tu16) 2] = FDone (XE "ArpOperation" [XI (Some tu16) 2]) /\
  mac_ok c97_mac /\
  run dbg 1 "mac" "MacAddr::fmt" [mac_v c97_mac] = FDone (XS "02:00:5e:ff:10:07") /\
  run dbg 1 "mac" "MacAddr::from_str" [XS "2:0:5E:ff:10:+7"] = FDone (XE "Ok" [mac_v c97_mac]) /\
  run dbg 1 "mac" "MacAddr::from_str" [XS "2:0:5e"] = FDone (XE "Err" [mac_err_v TooFewComponents]) /\
  run dbg 1 "mac" "MacAddr::from_str" [XS "2:0:5e:1:2:3:4"] = FDone (XE "Err" [mac_err_v TooManyComponents]) /\
  run dbg 1 "mac" "MacAddr::from_str" [XS "2:0:5e:1:2:g"] = FDone (XE "Err" [mac_err_v InvalidComponent]) /\
  run dbg 1 "mac" "MacAddr::is_local" [mac_v c97_mac] = FDone (XB true) /\
  run dbg 1 "mac" "MacAddr::is_broadcast" [mac_v c97_mac] = FDone (XB false) /\
  run dbg 1 "mac" "MacAddr::from" [bytes_v [1; 2; 3]] = FPan EIndex /\
  run dbg 1 "mac" "MacAddr::eq" [mac_v c97_mac; bytes_v [2; 0; 94; 255; 16; 7]] = FDone (XB true) /\
  run dbg 1 "tcp" "TcpOption::mss" [XI (Some tu16) 1460] =
    FDone (XR "TcpOption" [("number", XE "TcpOptionNumber" [XI None 2]); ("length", bytes_v [4]); ("data", bytes_v [5; 180])]) /\
  run dbg 1 "tcp" "TcpOption::selective_ack" [XA (Some tu32) (repeat 7 64)] =
    FDone (XR "TcpOption" [("number", XE "TcpOptionNumber" [XI None 5]); ("length", bytes_v [2]);
                           ("data", bytes_v (concat (repeat [0; 0; 0; 7] 64)))]).
Proof. repeat split; try (vm_compute; reflexivity || (intro; discriminate)). Qed.

(** Values of the types of src/, for stating what a run of their source text gives back
    (core/src/macaddr.rs:27, 168-187; src/tcp.rs:74, 106-117; src/quic.rs:4-11, 443, 466-487, 879). *)
From Coq Require Import String ZArith List.
From Verif Require Import Base DeriveGen MacAddr Quic RustAst RustEval SpecSource2.
From Verif Require FmtText.
Import ListNotations.
Open Scope string_scope.
Open Scope Z_scope.

Definition bytes_v (l : list Z) : wv := XA (Some tu8) l.

(** A MAC address is a tuple struct of six bytes (core/src/macaddr.rs:27). *)
Definition mac_v (x : mac) : wv :=
  XE "MacAddr" [u8_v (mac0 x); u8_v (mac1 x); u8_v (mac2 x); u8_v (mac3 x); u8_v (mac4 x); u8_v (mac5 x)].
(** core/src/macaddr.rs:168-175 *)
Definition mac_err_v (e : mac_err) : wv :=
  XE (match e with TooManyComponents => "ParseMacAddrErr::TooManyComponents"
      | TooFewComponents => "ParseMacAddrErr::TooFewComponents" | InvalidComponent => "ParseMacAddrErr::InvalidComponent" end) [].
Definition parsed_v (x : mac + mac_err) : wv :=
  match x with inl a => XE "Ok" [mac_v a] | inr e => XE "Err" [mac_err_v e] end.
(** core/src/macaddr.rs:179-187 *)
Definition mac_err_text (e : mac_err) : string :=
  match e with TooManyComponents => "Too many components in a MAC address string"
  | TooFewComponents => "Too few components in a MAC address string"
  | InvalidComponent => "Invalid component in a MAC address string" end.

(** A TCP option as the constructors of src/tcp.rs build it: number, length and data
    (lines 118-192); an
    empty vector is the [vec![]] of the source, of no element type. *)
Definition vec_v (l : list Z) : wv := match l with [] => XL [] | _ => XA (Some tu8) l end.
Definition option_v (x : list val) : wv :=
  match x with
  | [VTup [n]; VBytes len; VBytes data] =>
      XR "TcpOption" [("number", XE "TcpOptionNumber" [XI None n]); ("length", vec_v len); ("data", vec_v data)]
  | _ => XUnit
  end.

(** src/quic.rs:4-11 and 466-487: a variant around a packet of the type named after it; a
    padding frame carries its count. *)
Definition quic_v (q : quic) : wv :=
  XE (cat "QuicPacket::" (FmtText.quic_struct (q_kind q))) [XP (cat (FmtText.quic_struct (q_kind q)) "Packet") (q_buf q)].
Definition quics_v (l : list quic) : wv := XL (map quic_v l).
Definition version_v (z : Z) : wv := XE "Version" [XI (Some tu32) z].
Definition frame_v (f : frame) : wv :=
  XE (cat "Frame::" (FmtText.frame_struct (fr_kind f)))
     (XP (cat (FmtText.frame_struct (fr_kind f)) "Packet") (fr_buf f) ::
      match fr_kind f with FPadding => [usize_v (fr_count f)] | _ => [] end).
Definition frames_v (l : list frame) : wv := XL (map frame_v l).
Definition frame_type_v (z : Z) : wv := XE "FrameType" [u8_v z].

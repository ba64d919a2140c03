(** Hand-written methods on the packets of src/ipv6.rs and src/tcp.rs. *)
From Coq Require Import String ZArith List Bool.
From Verif Require Import Base DeriveUtil DeriveOps DeriveGen Protocols Checksum.
Import ListNotations.
Open Scope Z_scope.

(** ** IPv6 fragments *)

(** src/ipv6.rs:92-94 *)
Definition FRAGMENT_FLAGS_MASK : Z := 3.
Definition FRAGMENT_FLAGS_MORE_FRAGMENTS : Z := 1.
Definition FRAGMENT_OFFSET_MASK : Z := cast_u 16 (Z.lnot FRAGMENT_FLAGS_MASK).

(** src/ipv6.rs:97-99 and 107-109 *)
Definition get_fragment_offset (c : cfg) (b : buf) : res Z :=
  v <- int_of (get c fragment "fragment_offset_with_flags" b) ;;
  Ok (Z.land v FRAGMENT_OFFSET_MASK).

(** src/ipv6.rs:101-103 and 111-113 *)
Definition is_last_fragment (c : cfg) (b : buf) : res bool :=
  v <- int_of (get c fragment "fragment_offset_with_flags" b) ;;
  Ok (Z.land v FRAGMENT_FLAGS_MORE_FRAGMENTS =? 0).

(** src/ipv6.rs:115-121 *)
Definition set_fragment_offset (c : cfg) (offset : Z) : mut := fun b =>
  match int_of (get c fragment "fragment_offset_with_flags" b) with
  | Panic e => (b, Panic e)
  | Ok v => set c fragment "fragment_offset_with_flags"
              (VInt (Z.lor (Z.land offset FRAGMENT_OFFSET_MASK) (Z.land v FRAGMENT_FLAGS_MASK))) b
  end.

(** src/ipv6.rs:123-131 *)
Definition set_last_fragment (c : cfg) (is_last : bool) : mut := fun b =>
  match int_of (get c fragment "fragment_offset_with_flags" b) with
  | Panic e => (b, Panic e)
  | Ok v => set c fragment "fragment_offset_with_flags"
              (VInt (if is_last then Z.land v (cast_u 16 (Z.lnot FRAGMENT_FLAGS_MORE_FRAGMENTS))
                     else Z.lor v FRAGMENT_FLAGS_MORE_FRAGMENTS)) b
  end.

(** ** IPv6 extension headers *)

(** src/ipv6.rs:34-38: the iterator over [buf]; its items are those of
    derive/src/gen.rs:664-678 (iter_next). *)
Definition extension_iterable (buf : list Z) : list Z := buf.

(** ** TCP options *)

(** A TcpOption struct (src/tcp.rs:105-116). *)
Definition tcp_opt (number : Z) (length data : list Z) : list val :=
  [VTup [number]; VBytes length; VBytes data].

(** src/tcp.rs:120-126 *)
Definition opt_nop : list val := tcp_opt 1 [] [].
(** src/tcp.rs:131-141 *)
Definition opt_timestamp (my their : Z) : list val := tcp_opt 8 [10] (octets_u32 my ++ octets_u32 their).
(** src/tcp.rs:145-154 *)
Definition opt_mss (v : Z) : list val := tcp_opt 2 [4] (octets_u16 v).
(** src/tcp.rs:158-164 *)
Definition opt_wscale (v : Z) : list val := tcp_opt 3 [3] [v].
(** src/tcp.rs:169-175 *)
Definition opt_sack_perm : list val := tcp_opt 4 [2] [].
(** src/tcp.rs:181-191; [1 + 1 + data.len() as u8] is computed on u8. *)
Definition opt_selective_ack (m : mode) (acks : list Z) : res (list val) :=
  let data := flat_map octets_u32 acks in
  n <- add_u m 8 2 (cast_u 8 (blen data)) ;;
  Ok (tcp_opt 5 [n] data).

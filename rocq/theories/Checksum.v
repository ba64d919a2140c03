(** Model of src/util.rs (checksums, Octets) and of the checksum functions of
    src/{udp,tcp,icmp,icmpv6,ipv4}.rs. *)
From Coq Require Import String ZArith List Bool.
From Verif Require Import Base DeriveUtil DeriveOps DeriveGen Protocols.
Import ListNotations.
Open Scope Z_scope.

(** src/util.rs:25-40, 42-53, 55-61, 63-69: [Octets] for u64, u32, u16, u8. *)
Definition octets_u64 (x : Z) : buf :=
  [cast_u 8 (Z.shiftr x 56); cast_u 8 (Z.shiftr x 48); cast_u 8 (Z.shiftr x 40); cast_u 8 (Z.shiftr x 32);
   cast_u 8 (Z.shiftr x 24); cast_u 8 (Z.shiftr x 16); cast_u 8 (Z.shiftr x 8); cast_u 8 x].
Definition octets_u32 (x : Z) : buf :=
  [cast_u 8 (Z.shiftr x 24); cast_u 8 (Z.shiftr x 16); cast_u 8 (Z.shiftr x 8); cast_u 8 x].
Definition octets_u16 (x : Z) : buf := [cast_u 8 (Z.shiftr x 8); cast_u 8 x].
Definition octets_u8 (x : Z) : buf := [x].

(** src/util.rs:163-169: the loop of [sum_be_words] over full words: word number
    [i], running sum [sum]; also returns the word number reached.  The counter
    [i] cannot overflow (a slice has less than 2^63 bytes). *)
Fixpoint sum_words (m : mode) (data : buf) (skip i sum : Z) : res (Z * Z) :=
  match data with
  | hi :: lo :: r =>
      s <- (if negb (i =? skip) then add_u m 32 sum (256 * hi + lo) else Ok sum) ;;
      sum_words m r skip (i + 1) s
  | _ => Ok (sum, i)
  end.

(** src/util.rs:155-178 *)
Definition sum_be_words (m : mode) (data : buf) (skip : Z) : res Z :=
  if blen data =? 0 then Ok 0
  else
    '(sum, i) <- sum_words m data skip 0 0 ;;
    if negb (i =? skip) && negb (Z.land (blen data) 1 =? 0) then
      x <- idx data (blen data - 1) ;;
      add_u m 32 sum (Z.shiftl x 8)
    else Ok sum.

(** src/util.rs:81-84: folding the carries; [fuel] bounds the number of
    iterations (three suffice, ChecksumProofs.fold_carry_canon). *)
Fixpoint fold_carry (m : mode) (fuel : nat) (sum : Z) : res Z :=
  match fuel with
  | O => Panic EDiverge
  | S k => if Z.shiftr sum 16 =? 0 then Ok sum
           else s <- add_u m 32 (Z.shiftr sum 16) (Z.land sum 65535) ;; fold_carry m k s
  end.

(** src/util.rs:81-86; [!sum as u16] on a u32. *)
Definition finalize_checksum (m : mode) (sum : Z) : res Z :=
  s <- fold_carry m 4 sum ;;
  Ok (cast_u 16 (2 ^ 32 - 1 - s)).

(** src/util.rs:73-79 *)
Definition checksum (m : mode) (data : buf) (skip : Z) : res Z :=
  if blen data =? 0 then Ok 0
  else s <- sum_be_words m data skip ;; finalize_checksum m s.

(** src/util.rs:116-119; an address is its four octets. *)
Definition ipv4_word_sum (m : mode) (ip : buf) : res Z :=
  match ip with
  | [a; b; c; d] => add_u m 32 (Z.lor (Z.shiftl a 8) b) (Z.lor (Z.shiftl c 8) d)
  | _ => Panic EUnimpl
  end.

(** src/util.rs:149-151; an address is its eight segments. *)
Fixpoint sum_u32 (m : mode) (l : list Z) (acc : Z) : res Z :=
  match l with
  | [] => Ok acc
  | x :: r => s <- add_u m 32 acc x ;; sum_u32 m r s
  end.
Definition ipv6_word_sum (m : mode) (ip : list Z) : res Z := sum_u32 m ip 0.

(** The common body of src/util.rs:89-114 and 122-147. *)
Definition pseudo_checksum (m : mode) (word_sum : mode -> list Z -> res Z) (data : buf) (skip : Z)
    (extra : buf) (src dst : list Z) (proto : Z) : res Z :=
  a <- word_sum m src ;; sum <- add_u m 32 0 a ;;
  b <- word_sum m dst ;; sum <- add_u m 32 sum b ;;
  sum <- add_u m 32 sum proto ;;
  len <- add_u m usize (blen data) (blen extra) ;;
  sum <- add_u m 32 sum (cast_u 32 len) ;;
  d <- sum_be_words m data skip ;; sum <- add_u m 32 sum d ;;
  e <- sum_be_words m extra (blen extra / 2) ;; sum <- add_u m 32 sum e ;;
  finalize_checksum m sum.

(** src/util.rs:89-114 *)
Definition ipv4_checksum (m : mode) (data : buf) (skip : Z) (extra src dst : buf) (proto : Z) : res Z :=
  pseudo_checksum m ipv4_word_sum data skip extra src dst proto.

(** src/util.rs:122-147 *)
Definition ipv6_checksum (m : mode) (data : buf) (skip : Z) (extra : buf) (src dst : list Z) (proto : Z) : res Z :=
  pseudo_checksum m ipv6_word_sum data skip extra src dst proto.

(** src/ip.rs:46 (Tcp), 79 (Udp), 205 (Icmpv6): see Names.v for the whole table. *)
Definition proto_tcp : Z := 6.
Definition proto_udp : Z := 17.
Definition proto_icmpv6 : Z := 58.

(** src/udp.rs:27-52 and 101-125; a packet is its bytes. *)
Definition udp_ipv4_checksum_adv (m : mode) (packet extra src dst : buf) : res Z :=
  ipv4_checksum m packet 3 extra src dst proto_udp.
Definition udp_ipv4_checksum (m : mode) (packet src dst : buf) : res Z :=
  udp_ipv4_checksum_adv m packet [] src dst.
Definition udp_ipv6_checksum_adv (m : mode) (packet extra : buf) (src dst : list Z) : res Z :=
  ipv6_checksum m packet 3 extra src dst proto_udp.
Definition udp_ipv6_checksum (m : mode) (packet : buf) (src dst : list Z) : res Z :=
  udp_ipv6_checksum_adv m packet [] src dst.

(** src/tcp.rs:236-261 and 264-289 *)
Definition tcp_ipv4_checksum_adv (m : mode) (packet extra src dst : buf) : res Z :=
  ipv4_checksum m packet 8 extra src dst proto_tcp.
Definition tcp_ipv4_checksum (m : mode) (packet src dst : buf) : res Z :=
  tcp_ipv4_checksum_adv m packet [] src dst.
Definition tcp_ipv6_checksum_adv (m : mode) (packet extra : buf) (src dst : list Z) : res Z :=
  ipv6_checksum m packet 8 extra src dst proto_tcp.
Definition tcp_ipv6_checksum (m : mode) (packet : buf) (src dst : list Z) : res Z :=
  tcp_ipv6_checksum_adv m packet [] src dst.

(** src/icmp.rs:65-67 *)
Definition icmp_checksum (m : mode) (packet : buf) : res Z := checksum m packet 1.

(** src/icmpv6.rs:75-84 *)
Definition icmpv6_checksum (m : mode) (packet : buf) (src dst : list Z) : res Z :=
  ipv6_checksum m packet 1 [] src dst proto_icmpv6.

(** src/ipv4.rs:159-169 *)
Definition ipv4_header_checksum (c : cfg) (packet : buf) : res Z :=
  let min := minimum_packet_size (ipv4 c) in
  let max := blen packet in
  hl <- int_of (get c (ipv4 c) "header_length" packet) ;;
  length <- mul_u (c_mode c) usize hl 4 ;;
  let header_length := if length <? min then min else if max <? length then max else length in
  data <- slice packet 0 header_length ;;
  checksum (c_mode c) data 5.

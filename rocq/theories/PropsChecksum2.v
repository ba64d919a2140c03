(** Checksum algebra: C75-C79. *)
From Coq Require Import String ZArith List Bool Lia Permutation.
From Verif Require Import Base BitSpec DeriveUtil DeriveOps DeriveGen SpecPacket Protocols Samples
  Checksum SpecChecksum SpecChecksum2 ChecksumProofs ChecksumProofs2 ChecksumProofs3.
Import ListNotations.
Open Scope Z_scope.

(** ** C75: the order of the words does not matter *)

(** Data with the same words in any order have the same checksum. *)
Theorem C75_word_order_irrelevant : forall m d d' k k',
  bytes_ok d -> bytes_ok d' -> blen d <= 131074 -> blen d' <= 131074 ->
  Permutation (words (zero_word k d)) (words (zero_word k' d')) ->
  checksum m d (Z.of_nat k) = checksum m d' (Z.of_nat k').
Proof. exact checksum_perm. Qed.
Print Assumptions C75_word_order_irrelevant.
Theorem C75_swapped_words_undetected : forall m d i j k, bytes_ok d -> blen d <= 131074 ->
  (2 * i + 1 < length d)%nat -> (2 * j + 1 < length d)%nat -> i <> j -> i <> k -> j <> k ->
  checksum m (swap_words i j d) (Z.of_nat k) = checksum m d (Z.of_nat k).
Proof. exact checksum_swap_words. Qed.
Print Assumptions C75_swapped_words_undetected.
(** A reply may reuse the checksum of the request: the addresses are interchangeable. *)
Theorem C75_addresses_interchangeable_ipv4 : forall m d k e src dst proto,
  bytes_ok d -> bytes_ok e -> ipv4_addr src -> ipv4_addr dst ->
  byte_ok proto -> Nat.even (length e) = true -> blen d + blen e <= 65535 ->
  ipv4_checksum m d (Z.of_nat k) e src dst proto = ipv4_checksum m d (Z.of_nat k) e dst src proto.
Proof. exact ipv4_swap_addresses. Qed.
Print Assumptions C75_addresses_interchangeable_ipv4.
Theorem C75_addresses_interchangeable_ipv6 : forall m d k e src dst proto,
  bytes_ok d -> bytes_ok e -> ipv6_addr src -> ipv6_addr dst ->
  byte_ok proto -> Nat.even (length e) = true -> blen d + blen e <= 131000 ->
  ipv6_checksum m d (Z.of_nat k) e src dst proto = ipv6_checksum m d (Z.of_nat k) e dst src proto.
Proof. exact ipv6_swap_addresses. Qed.
Print Assumptions C75_addresses_interchangeable_ipv6.
Example C75_case :
  swap_words 0 3 [1; 2; 3; 4; 5; 6; 7; 8; 9] = [7; 8; 3; 4; 5; 6; 1; 2; 9] /\
  checksum Checked [1; 2; 3; 4; 5; 6; 7; 8; 9] 1 = Ok 59887 /\
  checksum Checked [7; 8; 3; 4; 5; 6; 1; 2; 9] 1 = Ok 59887 /\
  udp_ipv4_checksum Checked [48; 57; 212; 49; 0; 9; 0; 0; 120] [10; 0; 0; 1] [10; 9; 0; 2] = Ok 28517 /\
  udp_ipv4_checksum Checked [48; 57; 212; 49; 0; 9; 0; 0; 120] [10; 9; 0; 2] [10; 0; 0; 1] = Ok 28517.
Proof. vm_compute. auto. Qed.

(** ** C76: byte order independence (RFC 1071 section 2 (B)) *)

Theorem C76_byte_order_independent : forall m d k,
  bytes_ok d -> d <> [] -> Nat.even (length d) = true -> blen d <= 131074 ->
  exists ck, checksum m d (Z.of_nat k) = Ok ck /\ checksum m (swap_pairs d) (Z.of_nat k) = Ok (bswap ck).
Proof. exact checksum_byte_order. Qed.
Print Assumptions C76_byte_order_independent.
Example C76_case : swap_pairs [0; 1; 242; 3; 244; 245; 246; 247] = [1; 0; 3; 242; 245; 244; 247; 246] /\
  checksum Checked [0; 1; 242; 3; 244; 245; 246; 247] 9 = Ok 8717 /\
  checksum Checked [1; 0; 3; 242; 245; 244; 247; 246] 9 = Ok 3362 /\ bswap 8717 = 3362.
Proof. vm_compute. auto. Qed.

(** ** C77: checksums of parts combine *)

Theorem C77_checksum_of_parts : forall m a b k kb, bytes_ok a -> bytes_ok b -> blen a + blen b <= 131074 ->
  Nat.even (length a) = true -> (2 * k + 1 < length a)%nat -> b <> [] -> (length b <= 2 * kb)%nat ->
  exists x y, checksum m a (Z.of_nat k) = Ok x /\ checksum m b (Z.of_nat kb) = Ok y /\
    checksum m (a ++ b) (Z.of_nat k) = Ok (65535 - oadd (65535 - x) (65535 - y)).
Proof. exact checksum_parts. Qed.
Print Assumptions C77_checksum_of_parts.
Example C77_case :
  checksum Checked [8; 0; 9; 9; 255; 255] 1 = Ok 63487 /\ checksum Checked [240; 1; 97] 2 = Ok 44797 /\
  checksum Checked [8; 0; 9; 9; 255; 255; 240; 1; 97] 1 = Ok 42749 /\ 65535 - oadd (65535 - 63487) (65535 - 44797) = 42749.
Proof. vm_compute. auto. Qed.

(** ** C78: incremental update (RFC 1624) *)

(** Replacing one word and updating the checksum by equation 3 of RFC 1624
    gives what recomputing gives, unless all the data are then zero. *)
Theorem C78_incremental_update : forall m d j k v,
  bytes_ok d -> blen d <= 131074 -> (2 * j + 1 < length d)%nat -> j <> k -> 0 <= v < 65536 ->
  exists hc hc', checksum m d (Z.of_nat k) = Ok hc /\ checksum m (put_word j v d) (Z.of_nat k) = Ok hc' /\
    ((exists x, In x (zero_word k (put_word j v d)) /\ x <> 0) -> hc' = rfc1624 hc (word_at j d) v) /\
    (Forall (fun x => x = 0) (zero_word k (put_word j v d)) -> hc' = 65535 /\ rfc1624 hc (word_at j d) v = 0).
Proof. exact checksum_incremental. Qed.
Print Assumptions C78_incremental_update.
(** The TTL of an IPv4 header goes from 64 to 63; the example of RFC 1624
    section 4 (where equation 2 goes wrong); the exception. *)
Example C78_case :
  checksum Checked [69; 0; 0; 115; 0; 0; 64; 0; 64; 17; 184; 97; 192; 168; 0; 1; 192; 168; 0; 199] 5 = Ok 47201 /\
  checksum Checked [69; 0; 0; 115; 0; 0; 64; 0; 63; 17; 184; 97; 192; 168; 0; 1; 192; 168; 0; 199] 5 = Ok 47457 /\
  rfc1624 47201 16401 16145 = 47457 /\
  rfc1624 56623 21845 12933 = 0 /\
  checksum Checked [0; 7; 0; 0] 1 = Ok 65528 /\ checksum Checked [0; 0; 0; 0] 1 = Ok 65535 /\ rfc1624 65528 7 0 = 0.
Proof. vm_compute. repeat split. Qed.

(** ** C79: what comparing get_checksum() with the computed checksum decides *)

(** The received data verify exactly when the stored checksum is the computed
    one, or when 0xFFFF is stored and 0 is computed. *)
Theorem C79_comparison : forall m d k, bytes_ok d -> (2 * k + 1 < length d)%nat -> blen d <= 131074 ->
  exists ck, checksum m d (Z.of_nat k) = Ok ck /\
    (verifies d <-> word_at k d = ck \/ (ck = 0 /\ word_at k d = 65535)).
Proof. exact checksum_receiver. Qed.
Print Assumptions C79_comparison.
Theorem C79_udp_ipv4 : forall c b extra src dst, buf_ok b -> new udp b = Some b -> bytes_ok extra ->
  Nat.even (length extra) = true -> ipv4_addr src -> ipv4_addr dst -> blen b + blen extra <= 65535 ->
  exists ck v, udp_ipv4_checksum_adv (c_mode c) b extra src dst = Ok ck /\ get c udp "checksum" b = Ok (VInt v) /\
    (verifies (pseudo_v4 src dst 17 (blen b + blen extra) ++ pad2 b ++ extra) <-> v = ck \/ (ck = 0 /\ v = 65535)).
Proof. exact udp_v4_receiver. Qed.
Print Assumptions C79_udp_ipv4.
Theorem C79_udp_ipv6 : forall c b extra src dst, buf_ok b -> new udp b = Some b -> bytes_ok extra ->
  Nat.even (length extra) = true -> ipv6_addr src -> ipv6_addr dst -> blen b + blen extra <= 131000 ->
  exists ck v, udp_ipv6_checksum_adv (c_mode c) b extra src dst = Ok ck /\ get c udp "checksum" b = Ok (VInt v) /\
    (verifies (pseudo_v6 src dst 17 (blen b + blen extra) ++ pad2 b ++ extra) <-> v = ck \/ (ck = 0 /\ v = 65535)).
Proof. exact udp_v6_receiver. Qed.
Print Assumptions C79_udp_ipv6.
Theorem C79_tcp_ipv4 : forall c b extra src dst, buf_ok b -> new (tcp c) b = Some b -> bytes_ok extra ->
  Nat.even (length extra) = true -> ipv4_addr src -> ipv4_addr dst -> blen b + blen extra <= 65535 ->
  exists ck v, tcp_ipv4_checksum_adv (c_mode c) b extra src dst = Ok ck /\ get c (tcp c) "checksum" b = Ok (VInt v) /\
    (verifies (pseudo_v4 src dst 6 (blen b + blen extra) ++ pad2 b ++ extra) <-> v = ck \/ (ck = 0 /\ v = 65535)).
Proof. exact tcp_v4_receiver. Qed.
Print Assumptions C79_tcp_ipv4.
Theorem C79_tcp_ipv6 : forall c b extra src dst, buf_ok b -> new (tcp c) b = Some b -> bytes_ok extra ->
  Nat.even (length extra) = true -> ipv6_addr src -> ipv6_addr dst -> blen b + blen extra <= 131000 ->
  exists ck v, tcp_ipv6_checksum_adv (c_mode c) b extra src dst = Ok ck /\ get c (tcp c) "checksum" b = Ok (VInt v) /\
    (verifies (pseudo_v6 src dst 6 (blen b + blen extra) ++ pad2 b ++ extra) <-> v = ck \/ (ck = 0 /\ v = 65535)).
Proof. exact tcp_v6_receiver. Qed.
Print Assumptions C79_tcp_ipv6.
Theorem C79_icmpv6 : forall c b src dst, buf_ok b -> new icmpv6 b = Some b ->
  ipv6_addr src -> ipv6_addr dst -> blen b <= 131000 ->
  exists ck v, icmpv6_checksum (c_mode c) b src dst = Ok ck /\ get c icmpv6 "checksum" b = Ok (VInt v) /\
    (verifies (pseudo_v6 src dst 58 (blen b) ++ b) <-> v = ck \/ (ck = 0 /\ v = 65535)).
Proof. exact icmpv6_receiver. Qed.
Print Assumptions C79_icmpv6.
Theorem C79_icmp : forall c b, buf_ok b -> new icmp b = Some b -> blen b <= 131074 ->
  exists ck v, icmp_checksum (c_mode c) b = Ok ck /\ get c icmp "checksum" b = Ok (VInt v) /\
    (verifies b <-> v = ck \/ (ck = 0 /\ v = 65535)).
Proof. exact icmp_receiver. Qed.
Print Assumptions C79_icmp.
Theorem C79_ipv4_header : forall c b, buf_ok b -> new (ipv4 c) b = Some b ->
  exists ck v, ipv4_header_checksum c b = Ok ck /\ get c (ipv4 c) "checksum" b = Ok (VInt v) /\
    (verifies (firstn (covered b) b) <-> v = ck \/ (ck = 0 /\ v = 65535)).
Proof. exact ipv4_header_receiver. Qed.
Print Assumptions C79_ipv4_header.
(** Finding: a UDP sender that follows RFC 768 transmits 0xFFFF for a computed
    0, and the comparison with the library's function fails for that valid datagram. *)
Theorem C79_comparison_accepts_refuted : exists b src dst ck v,
  new udp b = Some b /\ ipv4_addr src /\ ipv4_addr dst /\
  verifies (pseudo_v4 src dst 17 (blen b) ++ pad2 b) /\
  udp_ipv4_checksum Checked b src dst = Ok ck /\ get dbg udp "checksum" b = Ok (VInt v) /\ v <> ck.
Proof.
  exists [48; 57; 212; 49; 0; 10; 255; 255; 231; 108], [10; 0; 0; 1], [10; 0; 0; 2], 0, 65535.
  repeat split; try (repeat (apply Forall_cons; [cbv [byte_ok]; lia|]); apply Forall_nil); vm_compute; try reflexivity. discriminate.
Qed.
Print Assumptions C79_comparison_accepts_refuted.
Example C79_case :
  udp_ipv4_checksum Checked [48; 57; 212; 49; 0; 9; 111; 110; 120] [10; 0; 0; 1] [10; 0; 0; 2] = Ok 28526 /\
  get dbg udp "checksum" [48; 57; 212; 49; 0; 9; 111; 110; 120] = Ok (VInt 28526) /\
  verifies (pseudo_v4 [10; 0; 0; 1] [10; 0; 0; 2] 17 9 ++ pad2 [48; 57; 212; 49; 0; 9; 111; 110; 120]).
Proof. vm_compute. auto. Qed.

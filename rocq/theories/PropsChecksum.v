(** Checksum properties: C25-C34 and C71. *)
From Coq Require Import String ZArith List Bool Lia.
From Verif Require Import Base BitSpec DeriveUtil DeriveOps DeriveGen SpecPacket Protocols Samples
  Checksum SpecChecksum ChecksumProofs ChecksumProofs2.
Import ListNotations.
Open Scope Z_scope.

(** ** C25: checksum() is the RFC 1071 checksum *)

Theorem C25_checksum_is_rfc1071 : forall m d k, bytes_ok d -> 0 <= k -> blen d <= 131074 ->
  checksum m d k = Ok (match d with [] => 0 | _ => rfc1071 (zero_word (Z.to_nat k) d) end).
Proof. exact checksum_rfc1071. Qed.
Print Assumptions C25_checksum_is_rfc1071.
(** Even and odd lengths, a skipped word in the middle, a carry, the trailing
    byte skipped. *)
Example C25_case :
  checksum Checked [69; 0; 0; 115; 0; 0; 64; 0; 64; 17; 184; 97; 192; 168; 0; 1; 192; 168; 0; 199] 5 = Ok 47201 /\
  checksum Wrapping [255; 255; 255; 255; 7] 9 = Ok (rfc1071 [255; 255; 255; 255; 7]) /\
  rfc1071 [255; 255; 255; 255; 7] = 63743 /\ checksum Checked [1; 2; 3] 1 = Ok (rfc1071 [1; 2; 0]).
Proof. vm_compute. auto. Qed.

(** ** C26: the checksum field is ignored *)

Theorem C26_checksum_field_ignored : forall m d d' k, same_outside k d d' ->
  checksum m d (Z.of_nat k) = checksum m d' (Z.of_nat k).
Proof. exact checksum_same. Qed.
Print Assumptions C26_checksum_field_ignored.
Theorem C26_checksum_field_ignored_ipv4 : forall m d d' k extra src dst proto, same_outside k d d' ->
  ipv4_checksum m d (Z.of_nat k) extra src dst proto = ipv4_checksum m d' (Z.of_nat k) extra src dst proto.
Proof. exact (fun m => pseudo_same m ipv4_word_sum). Qed.
Print Assumptions C26_checksum_field_ignored_ipv4.
Theorem C26_checksum_field_ignored_ipv6 : forall m d d' k extra src dst proto, same_outside k d d' ->
  ipv6_checksum m d (Z.of_nat k) extra src dst proto = ipv6_checksum m d' (Z.of_nat k) extra src dst proto.
Proof. exact (fun m => pseudo_same m ipv6_word_sum). Qed.
Print Assumptions C26_checksum_field_ignored_ipv6.
Example C26_case : same_outside 1 [1; 2; 3; 4; 5] [1; 2; 77; 88; 5] /\
  checksum Checked [1; 2; 3; 4; 5] 1 = Ok 63997 /\ checksum Checked [1; 2; 77; 88; 5] 1 = Ok 63997 /\
  checksum Checked [1; 2; 3; 4; 5] 0 <> checksum Checked [1; 2; 77; 88; 5] 0.
Proof.
  split; [|vm_compute; repeat split; discriminate].
  split; [reflexivity|]. intros i H. do 5 (destruct i as [|i]; [try reflexivity; exfalso; apply H; reflexivity|]). reflexivity.
Qed.

(** ** C27: storing the checksum makes the data verify *)

Theorem C27_stored_checksum_verifies : forall m d k, bytes_ok d -> (2 * k + 1 < length d)%nat -> blen d <= 131074 ->
  exists ck, checksum m d (Z.of_nat k) = Ok ck /\ 0 <= ck < 65536 /\
    verifies (put_word k ck d) /\ checksum m (put_word k ck d) (Z.of_nat k) = Ok ck.
Proof. exact checksum_verifies. Qed.
Print Assumptions C27_stored_checksum_verifies.
Theorem C27_stored_checksum_verifies_ipv4 : forall m d k e src dst proto,
  bytes_ok d -> bytes_ok e -> ipv4_addr src -> ipv4_addr dst ->
  byte_ok proto -> Nat.even (length e) = true -> blen d + blen e <= 65535 -> (2 * k + 1 < length d)%nat ->
  exists ck, ipv4_checksum m d (Z.of_nat k) e src dst proto = Ok ck /\ 0 <= ck < 65536 /\
    verifies (pseudo_v4 src dst proto (blen d + blen e) ++ pad2 (put_word k ck d) ++ e).
Proof. exact ipv4_checksum_verifies. Qed.
Print Assumptions C27_stored_checksum_verifies_ipv4.
Theorem C27_stored_checksum_verifies_ipv6 : forall m d k e src dst proto,
  bytes_ok d -> bytes_ok e -> ipv6_addr src -> ipv6_addr dst ->
  byte_ok proto -> Nat.even (length e) = true -> blen d + blen e <= 131000 -> (2 * k + 1 < length d)%nat ->
  exists ck, ipv6_checksum m d (Z.of_nat k) e src dst proto = Ok ck /\ 0 <= ck < 65536 /\
    verifies (pseudo_v6 src dst proto (blen d + blen e) ++ pad2 (put_word k ck d) ++ e).
Proof. exact ipv6_checksum_verifies. Qed.
Print Assumptions C27_stored_checksum_verifies_ipv6.
Example C27_case : checksum Checked [8; 0; 0; 0; 18; 52; 0; 1; 97] 1 = Ok 33994 /\
  put_word 1 33994 [8; 0; 0; 0; 18; 52; 0; 1; 97] = [8; 0; 132; 202; 18; 52; 0; 1; 97] /\
  verifies [8; 0; 132; 202; 18; 52; 0; 1; 97].
Proof. vm_compute. auto. Qed.

(** ** C28: pseudo headers *)

Theorem C28_ipv4_pseudo_header : forall m d k e src dst proto,
  bytes_ok d -> bytes_ok e -> ipv4_addr src -> ipv4_addr dst ->
  byte_ok proto -> Nat.even (length e) = true -> blen d + blen e <= 65535 ->
  ipv4_checksum m d (Z.of_nat k) e src dst proto =
  Ok (rfc1071 (pseudo_v4 src dst proto (blen d + blen e) ++ pad2 (zero_word k d) ++ e)).
Proof. exact ipv4_checksum_spec. Qed.
Print Assumptions C28_ipv4_pseudo_header.
Theorem C28_ipv6_pseudo_header : forall m d k e src dst proto,
  bytes_ok d -> bytes_ok e -> ipv6_addr src -> ipv6_addr dst ->
  byte_ok proto -> Nat.even (length e) = true -> blen d + blen e <= 131000 ->
  ipv6_checksum m d (Z.of_nat k) e src dst proto =
  Ok (rfc1071 (pseudo_v6 src dst proto (blen d + blen e) ++ pad2 (zero_word k d) ++ e)).
Proof. exact ipv6_checksum_spec. Qed.
Print Assumptions C28_ipv6_pseudo_header.
(** The datagrams of the tests of src/udp.rs:54-90 and 128-163. *)
Example C28_case :
  ipv4_addr [192; 168; 0; 1] /\ ipv6_addr [0; 0; 0; 0; 0; 0; 0; 1] /\
  ipv4_checksum Checked [48; 57; 212; 49; 0; 12; 0; 0; 116; 101; 115; 116] 3 [] [192; 168; 0; 1] [192; 168; 0; 199] 17 = Ok 37240 /\
  ipv6_checksum Checked [48; 57; 212; 49; 0; 12; 0; 0; 116; 101; 115; 116] 3 []
    [0; 0; 0; 0; 0; 0; 0; 1] [0; 0; 0; 0; 0; 0; 0; 1] 17 = Ok 5008.
Proof.
  split; [|split; [|vm_compute; auto]]; (split; [reflexivity|]); repeat (apply Forall_cons; [cbv [byte_ok]; lia|]); apply Forall_nil.
Qed.

(** ** C29: corruption of one word or one byte changes the checksum *)

Theorem C29_word_corruption_detected : forall m d j k v,
  bytes_ok d -> blen d <= 131074 -> (2 * j + 1 < length d)%nat -> j <> k ->
  0 <= v < 65536 -> v mod 65535 <> word_at j d mod 65535 ->
  checksum m (put_word j v d) (Z.of_nat k) <> checksum m d (Z.of_nat k).
Proof. exact word_corruption. Qed.
Print Assumptions C29_word_corruption_detected.
(** In particular any flip of bits of one byte. *)
Theorem C29_byte_corruption_detected : forall m d i k y,
  bytes_ok d -> blen d <= 131074 -> (i < length d)%nat -> (i / 2 <> k)%nat ->
  byte_ok y -> y <> nth i d 0 ->
  checksum m (put_byte i y d) (Z.of_nat k) <> checksum m d (Z.of_nat k).
Proof. exact byte_corruption. Qed.
Print Assumptions C29_byte_corruption_detected.
Theorem C29_byte_corruption_fails_verification : forall d i y, bytes_ok d -> (i < length d)%nat ->
  byte_ok y -> y <> nth i d 0 -> verifies d -> ~ verifies (put_byte i y d).
Proof. exact byte_corruption_rejected. Qed.
Print Assumptions C29_byte_corruption_fails_verification.
(** The guard of the first theorem is needed: 0 and 0xFFFF are confused. *)
Example C29_case : checksum Checked [8; 0; 0; 0; 18; 52; 0; 1; 97] 1 = Ok 33994 /\
  checksum Checked (put_byte 8 96 [8; 0; 0; 0; 18; 52; 0; 1; 97]) 1 = Ok 34250 /\
  checksum Checked (put_word 0 0 [255; 255; 1; 1; 0; 3]) 1 = checksum Checked [255; 255; 1; 1; 0; 3] 1.
Proof. vm_compute. auto. Qed.

(** ** C30 (finding): the last byte of odd extra data is not covered *)

Theorem C30_odd_extra_data_drops_last_byte_ipv4 : forall m d k extra x y src dst proto,
  Nat.even (length extra) = true ->
  ipv4_checksum m d k (extra ++ [x]) src dst proto = ipv4_checksum m d k (extra ++ [y]) src dst proto.
Proof. exact (fun m => extra_odd m ipv4_word_sum). Qed.
Print Assumptions C30_odd_extra_data_drops_last_byte_ipv4.
Theorem C30_odd_extra_data_drops_last_byte_ipv6 : forall m d k extra x y src dst proto,
  Nat.even (length extra) = true ->
  ipv6_checksum m d k (extra ++ [x]) src dst proto = ipv6_checksum m d k (extra ++ [y]) src dst proto.
Proof. exact (fun m => extra_odd m ipv6_word_sum). Qed.
Print Assumptions C30_odd_extra_data_drops_last_byte_ipv6.
(** So the result is not the checksum of header, data and extra data. *)
Theorem C30_extra_data_checksum_refuted : exists d extra src dst,
  bytes_ok d /\ bytes_ok extra /\ ipv4_addr src /\ ipv4_addr dst /\
  udp_ipv4_checksum_adv Checked d extra src dst <>
  Ok (rfc1071 (pseudo_v4 src dst 17 (blen d + blen extra) ++ pad2 (zero_word 3 d) ++ extra)).
Proof.
  exists [48; 57; 212; 49; 0; 9; 0; 0], [116], [192; 168; 0; 1], [192; 168; 0; 199].
  repeat split; try (repeat (apply Forall_cons; [cbv [byte_ok]; lia|]); apply Forall_nil). vm_compute. discriminate.
Qed.
Print Assumptions C30_extra_data_checksum_refuted.
Example C30_case :
  udp_ipv4_checksum_adv Checked [48; 57; 212; 49; 0; 11; 0; 0] [1; 2; 3] [192; 168; 0; 1] [192; 168; 0; 199] = Ok 30802 /\
  udp_ipv4_checksum_adv Checked [48; 57; 212; 49; 0; 11; 0; 0] [1; 2; 250] [192; 168; 0; 1] [192; 168; 0; 199] = Ok 30802.
Proof. vm_compute. auto. Qed.

(** ** C31: overflow of the accumulator *)

(** With overflow checks: exactly the data whose words add up to less than 2^32
    are handled, the rest panics. *)
Theorem C31_checked_exact : forall d k, bytes_ok d -> 0 <= k ->
  checksum Checked d k =
    if total (zero_word (Z.to_nat k) d) <? 2 ^ 32
    then Ok (match d with [] => 0 | _ => rfc1071 (zero_word (Z.to_nat k) d) end)
    else Panic EOverflow.
Proof. exact checksum_checked_exact. Qed.
Print Assumptions C31_checked_exact.
Theorem C31_checked_overflow : forall n k, 65537 < Z.of_nat n -> Z.of_nat n <= k ->
  checksum Checked (repeat 255 (2 * n)) k = Panic EOverflow.
Proof. exact ones_checked. Qed.
Print Assumptions C31_checked_overflow.
(** Without: a value is always returned, but it may be wrong. *)
Theorem C31_wrapping_total : forall d k, bytes_ok d -> 0 <= k ->
  exists v, checksum Wrapping d k = Ok v /\ 0 <= v < 65536.
Proof. exact checksum_wrapping_total. Qed.
Print Assumptions C31_wrapping_total.
Theorem C31_wrapping_wrong : forall n k, 65537 < Z.of_nat n <= 131074 -> Z.of_nat n <= k ->
  checksum Wrapping (repeat 255 (2 * n)) k = Ok 1.
Proof. exact ones_wrapping. Qed.
Print Assumptions C31_wrapping_wrong.
Theorem C31_all_ones_rfc1071 : forall n, (0 < n)%nat -> rfc1071 (repeat 255 (2 * n)) = 0.
Proof. exact ones_rfc. Qed.
Print Assumptions C31_all_ones_rfc1071.
Example C31_case : exists n, 65537 < Z.of_nat n <= 131074.
Proof. exists (Z.to_nat 65538). rewrite Z2Nat.id by lia. lia. Qed.

(** ** C32: the functions of the protocol modules *)

Theorem C32_udp_ipv4 : forall c b extra src dst, buf_ok b -> new udp b = Some b -> bytes_ok extra ->
  Nat.even (length extra) = true -> ipv4_addr src -> ipv4_addr dst -> blen b + blen extra <= 65535 ->
  exists ck b', udp_ipv4_checksum_adv (c_mode c) b extra src dst = Ok ck /\
    set c udp "checksum" (VInt ck) b = (b', Ok tt) /\ get c udp "checksum" b' = Ok (VInt ck) /\
    verifies (pseudo_v4 src dst 17 (blen b + blen extra) ++ pad2 b' ++ extra).
Proof. exact udp_v4_verifies. Qed.
Print Assumptions C32_udp_ipv4.
Theorem C32_udp_ipv6 : forall c b extra src dst, buf_ok b -> new udp b = Some b -> bytes_ok extra ->
  Nat.even (length extra) = true -> ipv6_addr src -> ipv6_addr dst -> blen b + blen extra <= 131000 ->
  exists ck b', udp_ipv6_checksum_adv (c_mode c) b extra src dst = Ok ck /\
    set c udp "checksum" (VInt ck) b = (b', Ok tt) /\ get c udp "checksum" b' = Ok (VInt ck) /\
    verifies (pseudo_v6 src dst 17 (blen b + blen extra) ++ pad2 b' ++ extra).
Proof. exact udp_v6_verifies. Qed.
Print Assumptions C32_udp_ipv6.
Theorem C32_tcp_ipv4 : forall c b extra src dst, buf_ok b -> new (tcp c) b = Some b -> bytes_ok extra ->
  Nat.even (length extra) = true -> ipv4_addr src -> ipv4_addr dst -> blen b + blen extra <= 65535 ->
  exists ck b', tcp_ipv4_checksum_adv (c_mode c) b extra src dst = Ok ck /\
    set c (tcp c) "checksum" (VInt ck) b = (b', Ok tt) /\ get c (tcp c) "checksum" b' = Ok (VInt ck) /\
    verifies (pseudo_v4 src dst 6 (blen b + blen extra) ++ pad2 b' ++ extra).
Proof. exact tcp_v4_verifies. Qed.
Print Assumptions C32_tcp_ipv4.
Theorem C32_tcp_ipv6 : forall c b extra src dst, buf_ok b -> new (tcp c) b = Some b -> bytes_ok extra ->
  Nat.even (length extra) = true -> ipv6_addr src -> ipv6_addr dst -> blen b + blen extra <= 131000 ->
  exists ck b', tcp_ipv6_checksum_adv (c_mode c) b extra src dst = Ok ck /\
    set c (tcp c) "checksum" (VInt ck) b = (b', Ok tt) /\ get c (tcp c) "checksum" b' = Ok (VInt ck) /\
    verifies (pseudo_v6 src dst 6 (blen b + blen extra) ++ pad2 b' ++ extra).
Proof. exact tcp_v6_verifies. Qed.
Print Assumptions C32_tcp_ipv6.
Theorem C32_icmpv6 : forall c b src dst, buf_ok b -> new icmpv6 b = Some b ->
  ipv6_addr src -> ipv6_addr dst -> blen b <= 131000 ->
  exists ck b', icmpv6_checksum (c_mode c) b src dst = Ok ck /\
    set c icmpv6 "checksum" (VInt ck) b = (b', Ok tt) /\ get c icmpv6 "checksum" b' = Ok (VInt ck) /\
    verifies (pseudo_v6 src dst 58 (blen b) ++ b').
Proof. exact icmpv6_verifies. Qed.
Print Assumptions C32_icmpv6.
Theorem C32_icmp : forall c b, buf_ok b -> new icmp b = Some b -> blen b <= 131074 ->
  exists ck b', icmp_checksum (c_mode c) b = Ok ck /\
    set c icmp "checksum" (VInt ck) b = (b', Ok tt) /\ get c icmp "checksum" b' = Ok (VInt ck) /\ verifies b'.
Proof. exact icmp_verifies. Qed.
Print Assumptions C32_icmp.
Theorem C32_ipv4_header : forall c b, buf_ok b -> new (ipv4 c) b = Some b ->
  exists ck b', ipv4_header_checksum c b = Ok ck /\
    set c (ipv4 c) "checksum" (VInt ck) b = (b', Ok tt) /\ get c (ipv4 c) "checksum" b' = Ok (VInt ck) /\
    verifies (firstn (covered b) b').
Proof. exact ipv4_header_verifies. Qed.
Print Assumptions C32_ipv4_header.
Example C32_case :
  new udp [48; 57; 212; 49; 0; 9; 255; 255; 120] = Some [48; 57; 212; 49; 0; 9; 255; 255; 120] /\
  udp_ipv4_checksum Checked [48; 57; 212; 49; 0; 9; 255; 255; 120] [10; 0; 0; 1] [10; 0; 0; 2] = Ok 28526 /\
  set dbg udp "checksum" (VInt 28526) [48; 57; 212; 49; 0; 9; 255; 255; 120] = ([48; 57; 212; 49; 0; 9; 111; 110; 120], Ok tt).
Proof. vm_compute. auto. Qed.

(** ** C33: the IPv4 header checksum *)

Theorem C33_ipv4_header_checksum : forall c b, buf_ok b -> new (ipv4 c) b = Some b ->
  ipv4_header_checksum c b = Ok (rfc1071 (zero_word 5 (firstn (covered b) b))).
Proof. exact ipv4_header_rfc1071. Qed.
Print Assumptions C33_ipv4_header_checksum.
(** IHL 0 and IHL 15 on a 22-byte packet: 20 and 22 bytes are covered. *)
Example C33_case :
  let b x := [x; 0; 0; 115; 0; 0; 64; 0; 64; 17; 184; 97; 192; 168; 0; 1; 192; 168; 0; 199; 1; 2] in
  covered (b 64) = 20%nat /\ covered (b 79) = 22%nat /\
  ipv4_header_checksum dbg (b 64) = Ok 48481 /\ ipv4_header_checksum dbg (b 79) = Ok 44383.
Proof. vm_compute. auto. Qed.

(** ** C34 (finding): udp checksums of zero *)

Theorem C34_udp_zero_checksum_iff : forall c b src dst,
  bytes_ok b -> ipv4_addr src -> ipv4_addr dst -> blen b <= 65535 ->
  (udp_ipv4_checksum (c_mode c) b src dst = Ok 0 <->
   total (pseudo_v4 src dst 17 (blen b) ++ zero_word 3 b) mod 65535 = 0).
Proof. exact udp_zero_iff. Qed.
Print Assumptions C34_udp_zero_checksum_iff.
(** Any datagram becomes such a datagram by the right choice of any one word. *)
Theorem C34_udp_zero_checksum_reachable : forall c b src dst j,
  bytes_ok b -> ipv4_addr src -> ipv4_addr dst -> blen b <= 65535 ->
  (2 * j + 1 < length b)%nat -> j <> 3%nat ->
  exists v, 0 <= v < 65536 /\ udp_ipv4_checksum (c_mode c) (put_word j v b) src dst = Ok 0.
Proof. exact udp_zero_reachable. Qed.
Print Assumptions C34_udp_zero_checksum_reachable.
Example C34_case :
  udp_ipv4_checksum Checked [48; 57; 212; 49; 0; 10; 0; 0; 231; 108] [10; 0; 0; 1] [10; 0; 0; 2] = Ok 0.
Proof. vm_compute. auto. Qed.

(** ** C71: octets() *)

Theorem C71_octets_big_endian : forall x, 0 <= x ->
  octets_u64 x = be_bytes 8 x /\ octets_u32 x = be_bytes 4 x /\ octets_u16 x = be_bytes 2 x /\
  (x < 256 -> octets_u8 x = be_bytes 1 x).
Proof. exact octets_be. Qed.
Print Assumptions C71_octets_big_endian.
Theorem C71_octets_value : forall x, 0 <= x ->
  (x < 2 ^ 64 -> be_val (octets_u64 x) = x) /\ (x < 2 ^ 32 -> be_val (octets_u32 x) = x) /\
  (x < 2 ^ 16 -> be_val (octets_u16 x) = x) /\ (x < 2 ^ 8 -> be_val (octets_u8 x) = x).
Proof. exact octets_value. Qed.
Print Assumptions C71_octets_value.
Example C71_case : octets_u32 3735928559 = [222; 173; 190; 239] /\ be_val [222; 173; 190; 239] = 3735928559.
Proof. vm_compute. auto. Qed.

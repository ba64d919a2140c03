(** Core crate properties: C22-C24, C70 and C73. *)
From Coq Require Import String ZArith List Bool Lia.
From Verif Require Import Base DeriveUtil DeriveOps DeriveGen MacAddr SpecMac Samples CorePacket CoreTypes SpecCore
  SpecPacket Protocols ProtoFacts CorePacketProofs.
Import ListNotations.
Open Scope Z_scope.

(** ** C01: all four constructors *)

Theorem C01_every_constructor : forall fs b, scoped [] fs ->
  let fits := header_bits fs <=? 8 * blen b in
  option_map x_packet (x_new fs b) = (if fits then Some b else None) /\
  option_map x_packet (x_owned fs b) = (if fits then Some b else None) /\
  option_map mx_packet (mx_new fs b) = (if fits then Some b else None) /\
  option_map mx_packet (mx_owned fs b) = (if fits then Some b else None).
Proof. exact constructors_accept. Qed.
Print Assumptions C01_every_constructor.
Example C01_constructors_case : scoped [] udp /\ header_bits udp = 64 /\
  option_map mx_packet (mx_owned udp (repeat 7 8)) = Some (repeat 7 8) /\ mx_owned udp (repeat 7 7) = None.
Proof. split; [exact udp_scoped|]. vm_compute. auto. Qed.

(** ** C22: clone_from copies a prefix *)

Theorem C22_clone_from_copies : forall h self other, apart self other -> (r_len other <= r_len self)%nat ->
  exists h', clone_from h self other = (h', Ok tt) /\
    mem_read h' self = mem_read h other ++ skipn (r_len other) (mem_read h self) /\
    (forall a, ~ inside self a -> h' a = h a).
Proof. exact clone_from_copies. Qed.
Print Assumptions C22_clone_from_copies.
Theorem C22_clone_from_panics : forall h self other, (r_len self < r_len other)%nat ->
  clone_from h self other = (h, Panic EAssert).
Proof. exact clone_from_panics. Qed.
Print Assumptions C22_clone_from_panics.
Theorem C22_clone_from_getters : forall c fs n h h' self other, apart self other -> r_len other = r_len self ->
  clone_from h self other = (h', Ok tt) ->
  get c fs n (mem_read h' self) = get c fs n (mem_read h other) /\
  mem_read h' other = mem_read h other.
Proof. exact clone_from_getters. Qed.
Print Assumptions C22_clone_from_getters.
(** A three-byte packet cloned into a five-byte one that starts right after it. *)
Example C22_case : let h := fun a => a + 40 in
  apart (Region 3 5) (Region 0 3) /\
  mem_read (fst (clone_from h (Region 3 5) (Region 0 3))) (Region 0 9) = [40; 41; 42; 40; 41; 42; 46; 47; 48] /\
  clone_from h (Region 0 3) (Region 3 5) = (h, Panic EAssert).
Proof. unfold apart. cbn [r_base r_len]. split; [lia|]. split; reflexivity. Qed.

(** ** C23: equality looks at ownership *)

Theorem C23_equality : forall fs a b p q p' q',
  x_new fs a = Some p -> x_owned fs a = Some q -> x_new fs b = Some p' -> x_owned fs b = Some q' ->
  (x_eqb p p' = true <-> a = b) /\ (x_eqb q q' = true <-> a = b) /\ x_eqb p q' = false /\ x_eqb q p' = false.
Proof. exact equality_of_constructed. Qed.
Print Assumptions C23_equality.
Theorem C23_equality_mutable : forall fs a b p q p' q',
  mx_new fs a = Some p -> mx_owned fs a = Some q -> mx_new fs b = Some p' -> mx_owned fs b = Some q' ->
  (mx_eqb p p' = true <-> a = b) /\ (mx_eqb q q' = true <-> a = b) /\ mx_eqb p q' = false /\ mx_eqb q p' = false.
Proof. exact mut_equality_of_constructed. Qed.
Print Assumptions C23_equality_mutable.
(** An owned packet differs from its own immutable view. *)
Theorem C23_view_equality : forall fs b p q, x_new fs b = Some p -> x_owned fs b = Some q ->
  x_eqb (x_to_immutable p) p = true /\ x_eqb (x_to_immutable q) q = false /\
  x_eqb (x_consume_to_immutable p) p = true /\ x_eqb (x_consume_to_immutable q) q = true.
Proof. exact view_equality. Qed.
Print Assumptions C23_view_equality.
(** Consuming a mutable packet keeps the kind of ownership; borrowing does not. *)
Theorem C23_mutable_views : forall p q : mxpacket,
  x_eqb (mx_consume_to_immutable p) (mx_consume_to_immutable q) = mx_eqb p q /\
  (x_eqb (mx_to_immutable p) (mx_to_immutable q) = true <-> mx_packet p = mx_packet q).
Proof. exact mut_view_equality. Qed.
Print Assumptions C23_mutable_views.
Example C23_case : exists p q, x_new tiny [7; 8] = Some p /\ x_owned tiny [7; 8] = Some q /\
  x_packet p = x_packet q /\ x_eqb p q = false.
Proof. do 2 eexists. repeat (split; [reflexivity|]). reflexivity. Qed.

(** ** C24: views preserve bytes *)

Theorem C24_constructed_bytes : forall fs b,
  (minimum_packet_size fs <= blen b ->
    exists p q p' q', x_new fs b = Some p /\ x_owned fs b = Some q /\ mx_new fs b = Some p' /\ mx_owned fs b = Some q' /\
      x_packet p = b /\ x_packet q = b /\ mx_packet p' = b /\ mx_packet q' = b) /\
  (blen b < minimum_packet_size fs ->
    x_new fs b = None /\ x_owned fs b = None /\ mx_new fs b = None /\ mx_owned fs b = None).
Proof. exact constructed_bytes. Qed.
Print Assumptions C24_constructed_bytes.
Theorem C24_views_bytes : forall (p : mxpacket) (q : xpacket),
  x_packet (mx_to_immutable p) = mx_packet p /\ x_packet (mx_consume_to_immutable p) = mx_packet p /\
  x_packet (x_to_immutable q) = x_packet q /\ x_packet (x_consume_to_immutable q) = x_packet q.
Proof. exact views_bytes. Qed.
Print Assumptions C24_views_bytes.
(** After any mutation. *)
Theorem C24_views_getters : forall c fs n f p, let p' := fst (mx_mutate f p) in
  x_get c fs n (mx_to_immutable p') = mx_get c fs n p' /\
  x_get c fs n (mx_consume_to_immutable p') = mx_get c fs n p' /\
  x_get_raw c fs n (mx_to_immutable p') = mx_get_raw c fs n p' /\
  x_payload c fs (mx_to_immutable p') = mx_payload c fs p' /\
  x_packet_size c fs (mx_to_immutable p') = mx_packet_size c fs p' /\
  x_from_packet c fs (mx_to_immutable p') = mx_from_packet c fs p' /\
  mx_get c fs n p' = get c fs n (fst (f (mx_packet p))).
Proof. exact views_getters. Qed.
Print Assumptions C24_views_getters.
Example C24_case : exists p, mx_owned kv kv_buf = Some p /\
  let p' := fst (mx_mutate (set dbg kv "crc" (VInt 513)) p) in
  mx_packet p' <> mx_packet p /\
  x_get dbg kv "crc" (mx_to_immutable p') = Ok (VInt 513) /\ mx_get dbg kv "crc" p' = Ok (VInt 513).
Proof. eexists. split; [reflexivity|]. vm_compute. repeat split; discriminate. Qed.

(** ** C70: integer aliases *)

Theorem C70_aliases : forall name w, In (name, w) aliases <->
  exists n s, (1 <= n <= 64)%nat /\ In s (suffixes n) /\ name = alias_name n s /\ w = smallest (Z.of_nat n).
Proof. exact aliases_exact. Qed.
Print Assumptions C70_aliases.
Theorem C70_wide_enough : forall n, 1 <= n <= 64 ->
  n <= smallest n /\ In (smallest n) [8; 16; 32; 64] /\ (forall w, In w [8; 16; 32; 64] -> n <= w -> smallest n <= w) /\
  smallest n = container n.
Proof. exact smallest_spec. Qed.
Print Assumptions C70_wide_enough.
Theorem C70_no_duplicates : NoDup (map fst aliases) /\ length aliases = 175%nat.
Proof. exact aliases_once. Qed.
Print Assumptions C70_no_duplicates.
Example C70_case : In ("u13be"%string, 16) aliases /\ alias_name 13 "be" = "u13be"%string /\ smallest 13 = 16 /\
  suffixes 13 = ["be"; "le"; "he"]%string.
Proof. split; [do 11 right; left; reflexivity|]. repeat split. Qed.

(** ** C73: constructors and primitive values of the address types *)

Theorem C73_mac : (forall m, mac_new (mac0 m) (mac1 m) (mac2 m) (mac3 m) (mac4 m) (mac5 m) = m) /\
  forall a b c d e f, mac_to_primitive_values (mac_new a b c d e f) = [a; b; c; d; e; f].
Proof. exact mac_values. Qed.
Print Assumptions C73_mac.
Theorem C73_ipv4 : forall a b c d, ipv4_to_primitive_values (ipv4_new a b c d) = Ok [a; b; c; d].
Proof. exact ipv4_values. Qed.
Print Assumptions C73_ipv4.
Theorem C73_ipv4_back : forall x, length (v4_octets x) = 4%nat ->
  exists a b c d, ipv4_to_primitive_values x = Ok [a; b; c; d] /\ ipv4_new a b c d = x.
Proof. exact ipv4_values_inv. Qed.
Print Assumptions C73_ipv4_back.
Theorem C73_ipv6 : forall segs, length segs = 8%nat -> Forall (fun s => 0 <= s < 65536) segs ->
  ipv6_to_primitive_values (ipv6_new segs) = Ok segs.
Proof. exact ipv6_values. Qed.
Print Assumptions C73_ipv6.
Theorem C73_ipv6_back : forall x, length (v6_octets x) = 16%nat -> bytes_ok (v6_octets x) ->
  exists segs, ipv6_to_primitive_values x = Ok segs /\ length segs = 8%nat /\
    Forall (fun s => 0 <= s < 65536) segs /\ ipv6_new segs = x.
Proof. exact ipv6_values_inv. Qed.
Print Assumptions C73_ipv6_back.
Example C73_case : ipv6_to_primitive_values (ipv6_new [8193; 3512; 0; 0; 0; 65535; 49320; 1]) =
  Ok [8193; 3512; 0; 0; 0; 65535; 49320; 1] /\
  v6_octets (ipv6_new [8193; 3512; 0; 0; 0; 65535; 49320; 1]) = [32; 1; 13; 184; 0; 0; 0; 0; 0; 0; 255; 255; 192; 168; 0; 1].
Proof. vm_compute. auto. Qed.

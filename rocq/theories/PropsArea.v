(** Properties C83 and C84: payload areas of the fixed-header packets and lists
    of neighbour discovery options. *)
From Coq Require Import String ZArith List Bool.
From Verif Require Import Base BitSpec DeriveOps DeriveGen SpecPacket Protocols SpecArea ProtoAreaProofs Samples.
Import ListNotations.
Open Scope Z_scope.

(** ** C83: payloads *)

Theorem C83_payload_areas : forall c n fs h p a b, In (n, fs) (crate_schemas c) -> In (n, h, p, a) areas ->
  buf_ok b -> new fs b = Some b ->
  h <= blen b /\
  payload c fs b = Ok (clip b h (area_len a b)) /\
  get c fs p b = Ok (VBytes (clip b h (area_len a b))) /\
  packet_size c fs b = Ok (h + area_size a b).
Proof. exact payload_areas. Qed.
Print Assumptions C83_payload_areas.

Theorem C83_structs_can_be_built : forall c n fs h p a b, In (n, fs) (crate_schemas c) -> In (n, h, p, a) areas ->
  ~ In n (map fst ndp_messages) -> buf_ok b -> new fs b = Some b ->
  (exists xs, from_packet c fs b = Ok xs) /\ (exists xs, debug_values c fs b = Ok xs).
Proof. exact fixed_from_packet. Qed.
Print Assumptions C83_structs_can_be_built.

Theorem C83_areas_are_complete : forall c n fs, In (n, fs) (crate_schemas c) ->
  (exists h p a, In (n, h, p, a) areas) \/ In n variable_packets.
Proof. exact areas_complete. Qed.
Print Assumptions C83_areas_are_complete.

(** RFC 768: the length counts header and data.  payload() of a UDP packet does
    not look at it. *)
Theorem C83_udp_payload_within_length_refuted : exists b, buf_ok b /\ new udp b = Some b /\
  field_val b 32 16 = 10 /\ payload dbg udp b = Ok [1; 2; 0; 0].
Proof.
  exists [0; 7; 0; 9; 0; 10; 0; 0; 1; 2; 0; 0]. split; [|vm_compute; auto].
  split; [|reflexivity]. repeat (constructor; [split; [discriminate|reflexivity]|]). constructor.
Qed.
Print Assumptions C83_udp_payload_within_length_refuted.

(** An IPv6 packet of three octets followed by padding. *)
Example C83_case :
  let b := [96; 0; 0; 0; 0; 3; 59; 64] ++ repeat 0 32 ++ [1; 2; 3; 0; 0] in
  new ipv6 b = Some b /\ payload dbg ipv6 b = Ok [1; 2; 3] /\ packet_size dbg ipv6 b = Ok 43 /\
  clip b 40 (area_len (Counted 32 16) b) = [1; 2; 3] /\
  payload dbg ethernet (repeat 0 14 ++ [9; 9]) = Ok [9; 9] /\ payload dbg arp (repeat 0 30) = Ok [].
Proof. vm_compute. repeat split. Qed.

(** ** C84: neighbour discovery options *)

Theorem C84_options_area : forall c n fs h b, In (n, fs) (crate_schemas c) -> In (n, h) ndp_messages ->
  buf_ok b -> new fs b = Some b ->
  let s := skipn (Z.to_nat h) b in
  get_raw c fs "options" b = Ok s /\ get_iter c fs "options" b = Ok s.
Proof. exact options_area. Qed.
Print Assumptions C84_options_area.

Theorem C84_debug_builds : forall c n fs h b, In (n, fs) (crate_schemas c) -> In (n, h) ndp_messages ->
  c_mode c = Checked -> buf_ok b -> new fs b = Some b ->
  let s := skipn (Z.to_nat h) b in
  (forall l, get c fs "options" b = Ok (VPkts l) <-> ndp_opts octets_checked units_checked s l) /\
  (get c fs "options" b = Panic EOverflow <-> ndp_bad octets_checked units_checked s) /\
  ((exists l, ndp_opts octets_checked units_checked s l) \/ ndp_bad octets_checked units_checked s) /\
  (from_packet c fs b = Panic EOverflow <-> ndp_bad octets_checked units_checked s) /\
  (debug_values c fs b = Panic EOverflow <-> ndp_bad octets_checked units_checked s) /\
  (iter_all (sem_of c (ndp_option c)) (fun x => Ok x) s = Panic EOverflow <-> ndp_bad octets_checked units_checked s).
Proof. exact ndp_checked. Qed.
Print Assumptions C84_debug_builds.

Theorem C84_release_builds : forall c n fs h b, In (n, fs) (crate_schemas c) -> In (n, h) ndp_messages ->
  c_mode c = Wrapping -> buf_ok b -> new fs b = Some b ->
  let s := skipn (Z.to_nat h) b in
  (forall l, get c fs "options" b = Ok (VPkts l) <-> ndp_opts octets_wrapped units_wrapped s l) /\
  (exists l, ndp_opts octets_wrapped units_wrapped s l) /\
  (exists xs, from_packet c fs b = Ok xs) /\ (exists xs, debug_values c fs b = Ok xs).
Proof. exact ndp_wrapping. Qed.
Print Assumptions C84_release_builds.

Theorem C84_wellformed_options_are_read_back : forall c n fs h hd os, In (n, fs) (crate_schemas c) -> In (n, h) ndp_messages ->
  bytes_ok hd -> blen hd = h -> Forall ndp_good os -> let b := hd ++ concat (map ndp_bytes os) in blen b < 2 ^ 63 ->
  new fs b = Some b /\ get c fs "options" b = Ok (VPkts (map ndp_struct os)).
Proof. exact ndp_read_back. Qed.
Print Assumptions C84_wellformed_options_are_read_back.

(** A router solicitation with a link-layer address; with an option of 32 units;
    with an option of length zero and a stray octet. *)
Example C84_case :
  let hd := [133; 0; 0; 0; 0; 0; 0; 0] in let o := (1, 1, [2; 0; 94; 0; 0; 1]) in
  ndp_good o /\
  get dbg (router_solicit dbg) "options" (hd ++ ndp_bytes o) = Ok (VPkts [ndp_struct o]) /\
  ndp_bad octets_checked units_checked (ndp_bytes o ++ [1; 32]) /\
  get dbg (router_solicit dbg) "options" (hd ++ ndp_bytes o ++ [1; 32]) = Panic EOverflow /\
  get rel (router_solicit rel) "options" (hd ++ [1; 33; 9; 9; 9; 9; 9; 9]) = Ok (VPkts [ndp_mk 1 33 [9; 9; 9; 9; 9; 9]]) /\
  get dbg (router_solicit dbg) "options" (hd ++ [5; 0; 7]) = Ok (VPkts [ndp_mk 5 0 []]).
Proof.
  split.
  { split; [split; [discriminate|reflexivity]|]. split; [split; [discriminate|reflexivity]|]. split; [|reflexivity].
    repeat (constructor; [split; [discriminate|reflexivity]|]). constructor. }
  split; [vm_compute; reflexivity|]. split.
  { apply bad_later; [reflexivity|]. apply bad_here. intros H. discriminate H. }
  vm_compute. repeat split.
Qed.

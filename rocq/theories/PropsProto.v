(** Properties C41-C53, and C18, C19 for the packets of the crate. *)
From Coq Require Import String ZArith List Bool Lia.
From Verif Require Import Base BitSpec DeriveUtil DeriveOps DeriveGen SpecPacket Protocols SpecStruct ProtoMethods SpecProto Samples SpecStack StackSamples.
From Verif Require Import DeriveStructProofs ProtoFacts ProtoPayloadProofs ProtoLayoutProofs ProtoSplitProofs ProtoGreProofs
  ProtoOptionProofs ProtoStructProofs ProtoFragProofs ProtoTcpProofs ProtoMoreProofs.
Import ListNotations.
Open Scope Z_scope.

(** ** C18, C19: structs of the crate *)

Theorem C18_crate_struct_to_wire_and_back : forall c n fs xs b, In (n, fs) (crate_schemas c) ->
  packet_ok c n fs xs -> buf_ok b -> blen b = blen (packet_wire c n fs xs) ->
  populate c fs xs b = (packet_wire c n fs xs, Ok tt) /\ from_packet c fs (packet_wire c n fs xs) = Ok xs.
Proof. exact crate_roundtrip. Qed.
Print Assumptions C18_crate_struct_to_wire_and_back.

Theorem C19_crate_wire_to_struct_and_back : forall c n fs b b0 xs m, In (n, fs) (crate_schemas c) ->
  buf_ok b -> buf_ok b0 -> length b0 = length b ->
  from_packet c fs b = Ok xs -> vecs_tile c fs b -> packet_size c fs b = Ok m -> m <= blen b ->
  packet_ok c n fs xs /\
  populate c fs xs b0 =
    (if forallb (fun f => negb (is_vec (f_ty f)) || match f_len f with Some _ => true | None => false end) fs
     then firstn (Z.to_nat m) b ++ skipn (Z.to_nat m) b0 else b, Ok tt).
Proof. exact crate_rebuild. Qed.
Print Assumptions C19_crate_wire_to_struct_and_back.

Example C18_crate_case :
  let xs := [VInt 80; VInt 51201; VInt 1; VInt 2; VInt 6; VInt 0; VInt 2; VInt 4096; VInt 4660; VInt 0;
             VPkts [[VTup [3]; VBytes [3]; VBytes [7]]; [VTup [1]; VBytes []; VBytes []]]; VBytes [42; 43]] in
  In ("Tcp"%string, tcp dbg) (crate_schemas dbg) /\ packet_ok dbg "Tcp" (tcp dbg) xs /\
  packet_wire dbg "Tcp" (tcp dbg) xs = tcp_opt_buf /\
  populate dbg (tcp dbg) xs (repeat 255 26) = (tcp_opt_buf, Ok tt) /\
  from_packet dbg (tcp dbg) tcp_opt_buf = Ok xs.
Proof. split; [unfold crate_schemas; cbn [In]; intuition|]. split; [packet_case|]. vm_compute. auto. Qed.

(** ** C41: header diagrams *)

Theorem C41_every_fixed_field_is_in_the_diagram : forall c n fs, In (n, fs) (crate_schemas c) ->
  exists bits cells, In (n, bits, cells) diagrams /\
  forall f, In f fs -> is_vec (f_ty f) = false -> exists off ws, In (f_name f, off, ws) cells.
Proof. exact layout_complete. Qed.
Print Assumptions C41_every_fixed_field_is_in_the_diagram.

Theorem C41_getters_read_the_diagram : forall c n fs bits cells b,
  In (n, fs) (crate_schemas c) -> In (n, bits, cells) diagrams -> buf_ok b ->
  (new fs b = Some b <-> bits <= 8 * blen b) /\
  (bits <= 8 * blen b -> forall m off ws, In (m, off, ws) cells ->
     exists v, get c fs m b = Ok v /\ numbers v (cell_numbers b off ws)).
Proof. exact layout_read. Qed.
Print Assumptions C41_getters_read_the_diagram.

Theorem C41_setters_write_the_diagram : forall c n fs bits cells b m off ws v x zs,
  In (n, fs) (crate_schemas c) -> In (n, bits, cells) diagrams ->
  buf_ok b -> bits <= 8 * blen b -> In (m, off, ws) cells -> get c fs m b = Ok v -> same_type v x -> numbers x zs ->
  Forall (fun z => 0 <= z) zs ->
  exists b', set c fs m x b = (b', Ok tt) /\ bits_written b (Z.to_nat off) (cell_bits ws zs) b'.
Proof. exact layout_write. Qed.
Print Assumptions C41_setters_write_the_diagram.

Example C41_case : In ("Ipv6"%string, ipv6) (crate_schemas dbg) /\
  get dbg ipv6 "flow_label" ([96; 18; 52; 86] ++ repeat 0 36) = Ok (VInt 144470) /\
  cell_numbers ([96; 18; 52; 86] ++ repeat 0 36) 12 [20] = [144470].
Proof. split; [unfold crate_schemas; cbn [In]; intuition|]. vm_compute. auto. Qed.

(** ** C42, C43: IPv4 *)

(** A header with one word of options, total length 26, and two bytes of
    link-layer padding; the same with a header length of 4. *)
Definition ipv4_buf (ihl : Z) : buf :=
  [64 + ihl; 0; 0; 26; 0; 0; 0; 0; 64; 17; 0; 0; 10; 0; 0; 1; 10; 0; 0; 2; 1; 1; 1; 0; 8; 9; 170; 187].

Theorem C42_ipv4_options_and_payload : forall c b, buf_ok b -> new (ipv4 c) b = Some b ->
  let h := field_val b 4 4 in let t := field_val b 16 16 in 5 <= h ->
  let options := clip b 20 (4 * h - 20) in let data := clip b (4 * h) (t - 4 * h) in
  get_raw c (ipv4 c) "options" b = Ok options /\ payload c (ipv4 c) b = Ok data /\
  packet_size c (ipv4 c) b = Ok (Z.max (4 * h) t) /\
  (4 * h <= t -> firstn 20 b ++ options ++ data = firstn (Z.to_nat t) b) /\
  (t < 4 * h -> data = []).
Proof. exact ipv4_regions. Qed.
Print Assumptions C42_ipv4_options_and_payload.

Example C42_case : new (ipv4 dbg) (ipv4_buf 6) = Some (ipv4_buf 6) /\ field_val (ipv4_buf 6) 4 4 = 6 /\
  get_raw dbg (ipv4 dbg) "options" (ipv4_buf 6) = Ok [1; 1; 1; 0] /\
  payload dbg (ipv4 dbg) (ipv4_buf 6) = Ok [8; 9].
Proof. vm_compute. auto. Qed.

Theorem C43_ipv4_payload_past_total_length : forall c b, buf_ok b -> new (ipv4 c) b = Some b ->
  let h := field_val b 4 4 in let t := field_val b 16 16 in
  exists data, payload c (ipv4 c) b = Ok data /\
    (h < 5 -> data = clip b 20 (t - 4 * h)) /\
    (data <> [] /\ t < Z.max 20 (4 * h) + blen data <-> h < 5 /\ 4 * h < t < blen b /\ 20 < blen b).
Proof. exact ipv4_beyond_total. Qed.
Print Assumptions C43_ipv4_payload_past_total_length.

Theorem C43_payload_within_total_length_refuted :
  exists b, buf_ok b /\ new (ipv4 dbg) b = Some b /\
    payload dbg (ipv4 dbg) b = Ok [1; 1; 1; 0; 8; 9; 170; 187] /\
    field_val b 16 16 = 26 /\ skipn 26 b = [170; 187].
Proof.
  exists (ipv4_buf 4). split; [|vm_compute; auto].
  split; [|reflexivity]. repeat (constructor; [split; [discriminate|reflexivity]|]). constructor.
Qed.
Print Assumptions C43_payload_within_total_length_refuted.

(** ** C44: TCP *)

Theorem C44_tcp_header_options_payload_tile : forall c b, buf_ok b -> new (tcp c) b = Some b ->
  let d := field_val b 96 4 in
  exists options data, get_raw c (tcp c) "options" b = Ok options /\ payload c (tcp c) b = Ok data /\
    (5 <= d -> options = clip b 20 (4 * d - 20) /\ data = skipn (Z.to_nat (4 * d)) b) /\
    (d < 5 -> options = [] /\ data = skipn 20 b) /\
    firstn 20 b ++ options ++ data = b.
Proof. exact tcp_regions. Qed.
Print Assumptions C44_tcp_header_options_payload_tile.

Example C44_case : new (tcp dbg) tcp_opt_buf = Some tcp_opt_buf /\ field_val tcp_opt_buf 96 4 = 6 /\
  get_raw dbg (tcp dbg) "options" tcp_opt_buf = Ok [3; 3; 7; 1] /\
  payload dbg (tcp dbg) tcp_opt_buf = Ok [42; 43].
Proof. vm_compute. auto. Qed.

(** ** C45: when reading options panics *)

Theorem C45_tcp_get_options : forall c b, buf_ok b -> new (tcp c) b = Some b ->
  let s := clip b 20 (4 * field_val b 96 4 - 20) in
  (forall l, get c (tcp c) "options" b = Ok (VPkts l) <-> opts tcp_num tcp_mk s l) /\
  (get c (tcp c) "options" b = Panic EIndex <-> dangling tcp_num s) /\
  (debug_values c (tcp c) b = Panic EIndex <-> dangling tcp_num s) /\
  ((exists l, opts tcp_num tcp_mk s l) \/ dangling tcp_num s) /\
  get_raw c (tcp c) "options" b = Ok s /\ get_iter c (tcp c) "options" b = Ok s /\
  exists l, iter_all (sem_of c tcp_option) (fun x => Ok x) s = Ok l /\
    Forall (fun i => exists p, payload c tcp_option i = Ok p) l.
Proof. exact tcp_options_exact. Qed.
Print Assumptions C45_tcp_get_options.

Theorem C45_ipv4_get_options : forall c b, buf_ok b -> new (ipv4 c) b = Some b ->
  let s := clip b 20 (4 * field_val b 4 4 - 20) in
  (forall l, get c (ipv4 c) "options" b = Ok (VPkts l) <-> opts ipv4_num ipv4_mk s l) /\
  (get c (ipv4 c) "options" b = Panic EIndex <-> dangling ipv4_num s) /\
  (debug_values c (ipv4 c) b = Panic EIndex <-> dangling ipv4_num s) /\
  ((exists l, opts ipv4_num ipv4_mk s l) \/ dangling ipv4_num s) /\
  get_raw c (ipv4 c) "options" b = Ok s /\ get_iter c (ipv4 c) "options" b = Ok s /\
  exists l, iter_all (sem_of c ipv4_option) (fun x => Ok x) s = Ok l /\
    Forall (fun i => exists p, payload c ipv4_option i = Ok p) l.
Proof. exact ipv4_options_exact. Qed.
Print Assumptions C45_ipv4_get_options.

(** Three NOPs and a lone kind octet. *)
Example C45_case :
  let b := firstn 20 tcp_opt_buf ++ [1; 1; 1; 8] in
  new (tcp dbg) b = Some b /\ dangling tcp_num [1; 1; 1; 8] /\
  get dbg (tcp dbg) "options" b = Panic EIndex /\ payload dbg (tcp dbg) b = Ok [] /\
  opts tcp_num tcp_mk [3; 3; 7; 1] [tcp_mk 3 [3] [7]; tcp_mk 1 [] []] /\
  get dbg (ipv4 dbg) "options" (firstn 23 (ipv4_buf 6) ++ [7; 0; 0; 0; 0]) = Panic EIndex.
Proof.
  split; [reflexivity|]. split.
  { do 3 (apply dang_one; [reflexivity|]). apply dang_here. discriminate. }
  split; [vm_compute; reflexivity|]. split; [vm_compute; reflexivity|]. split; [|vm_compute; reflexivity].
  apply (opts_tlv tcp_num tcp_mk 3 3 [7; 1]); [discriminate|].
  apply (opts_one tcp_num tcp_mk 1 []); [reflexivity|]. constructor.
Qed.

(** ** C46: when building the struct panics *)

Theorem C46_tcp_from_packet : forall c b, buf_ok b -> new (tcp c) b = Some b ->
  let d := field_val b 96 4 in let s := clip b 20 (4 * d - 20) in
  (from_packet c (tcp c) b = Panic EIndex <-> dangling tcp_num s \/ blen b < 4 * d) /\
  (from_packet c (tcp c) b <> Panic EIndex -> exists xs, from_packet c (tcp c) b = Ok xs) /\
  exists p, payload c (tcp c) b = Ok p.
Proof. exact tcp_from_packet_exact. Qed.
Print Assumptions C46_tcp_from_packet.

Theorem C46_ipv4_from_packet : forall c b, buf_ok b -> new (ipv4 c) b = Some b ->
  let h := field_val b 4 4 in let s := clip b 20 (4 * h - 20) in
  (from_packet c (ipv4 c) b = Panic EIndex <-> dangling ipv4_num s \/ blen b < 4 * h) /\
  (from_packet c (ipv4 c) b <> Panic EIndex -> exists xs, from_packet c (ipv4 c) b = Ok xs) /\
  exists p, payload c (ipv4 c) b = Ok p.
Proof. exact ipv4_from_packet_exact. Qed.
Print Assumptions C46_ipv4_from_packet.

Example C46_case : from_packet dbg (tcp dbg) (firstn 23 tcp_opt_buf) = Panic EIndex /\
  payload dbg (tcp dbg) (firstn 23 tcp_opt_buf) = Ok [] /\
  from_packet dbg (ipv4 dbg) (firstn 20 (ipv4_buf 6)) = Panic EIndex.
Proof. vm_compute. auto. Qed.

(** ** C47, C48: TCP option constructors *)

Theorem C47_constructors_build_good_options : forall m,
  (opt_nop = parts_struct (1, [], []) /\ parts_good (1, [], [])) /\
  (opt_sack_perm = parts_struct (4, [2], []) /\ parts_good (4, [2], [])) /\
  (forall v, 0 <= v < 256 -> opt_wscale v = parts_struct (3, [3], [v]) /\ parts_good (3, [3], [v])) /\
  (forall v, 0 <= v < 65536 -> opt_mss v = parts_struct (2, [4], be_bytes 2 v) /\ parts_good (2, [4], be_bytes 2 v)) /\
  (forall x y, 0 <= x < 2 ^ 32 -> 0 <= y < 2 ^ 32 ->
     opt_timestamp x y = parts_struct (8, [10], be_bytes 4 x ++ be_bytes 4 y) /\
     parts_good (8, [10], be_bytes 4 x ++ be_bytes 4 y)) /\
  (forall acks, Forall (fun x => 0 <= x < 2 ^ 32) acks -> (length acks < 64)%nat ->
     let o := (5, [2 + 4 * Z.of_nat (length acks)], flat_map (be_bytes 4) acks) in
     opt_selective_ack m acks = Ok (parts_struct o) /\ parts_good o).
Proof. exact constructors_good. Qed.
Print Assumptions C47_constructors_build_good_options.

Theorem C47_options_survive_the_wire : forall c b os, buf_ok b -> new (tcp c) b = Some b -> Forall parts_good os ->
  let n := Z.max 0 (4 * field_val b 96 4 - 20) in
  let bytes := concat (map parts_bytes os) in
  20 + blen bytes <= blen b ->
  (blen bytes <= n ->
     exists b', set c (tcp c) "options" (VPkts (map parts_struct os)) b = (b', Ok tt) /\
       b' = splice b 20 bytes /\
       forall l, opts tcp_num tcp_mk (clip b (20 + blen bytes) (n - blen bytes)) l ->
         get c (tcp c) "options" b' = Ok (VPkts (map parts_struct os ++ l))) /\
  (n < blen bytes -> exists b', set c (tcp c) "options" (VPkts (map parts_struct os)) b = (b', Panic EAssert)).
Proof. exact tcp_options_set. Qed.
Print Assumptions C47_options_survive_the_wire.

Example C47_case :
  let os := [opt_wscale 9; opt_nop] in
  set dbg (tcp dbg) "options" (VPkts os) tcp_opt_buf = (splice tcp_opt_buf 20 [3; 3; 9; 1], Ok tt) /\
  get dbg (tcp dbg) "options" (splice tcp_opt_buf 20 [3; 3; 9; 1]) = Ok (VPkts os) /\
  snd (set dbg (tcp dbg) "options" (VPkts [opt_wscale 9; opt_sack_perm]) tcp_opt_buf) = Panic EAssert.
Proof. vm_compute. auto. Qed.

Theorem C48_selective_ack_wrong_length : forall c m acks,
  Forall (fun x => 0 <= x < 2 ^ 32) acks -> (64 <= length acks)%nat -> Z.of_nat (length acks) < 2 ^ 60 ->
  exists n, opt_selective_ack m acks = Ok (tcp_mk 5 [n] (flat_map (be_bytes 4) acks)) /\
    n = 2 + 4 * Z.of_nat (length acks) mod 256 /\ 0 <= n < 256 /\ n <> 2 + blen (flat_map (be_bytes 4) acks) /\
    forall rest, bytes_ok rest -> blen rest < 2 ^ 60 ->
      from_packet c tcp_option (5 :: n :: flat_map (be_bytes 4) acks ++ rest) =
      Ok (tcp_mk 5 [n] (flat_map (be_bytes 4) (firstn (length acks mod 64) acks))).
Proof. exact selective_ack_wrong. Qed.
Print Assumptions C48_selective_ack_wrong_length.

Example C48_case : exists data, opt_selective_ack Checked (repeat 1 65) = Ok (tcp_mk 5 [6] data) /\ blen data = 260.
Proof. eexists. split; vm_compute; reflexivity. Qed.

(** ** C49: neighbour discovery options *)

Theorem C49_ndp_option_sizes : forall c b, buf_ok b -> new (ndp_option c) b = Some b ->
  let n := field_val b 8 8 in
  (1 <= n < 32 -> packet_size c (ndp_option c) b = Ok (8 * n) /\
     payload c (ndp_option c) b = Ok (clip b 2 (8 * n - 2)) /\
     get c (ndp_option c) "data" b = Ok (VBytes (clip b 2 (8 * n - 2)))) /\
  (n = 0 -> packet_size c (ndp_option c) b = Ok 2 /\ payload c (ndp_option c) b = Ok []) /\
  (32 <= n -> c_mode c = Checked ->
     packet_size c (ndp_option c) b = Panic EOverflow /\ payload c (ndp_option c) b = Panic EOverflow /\
     get c (ndp_option c) "data" b = Panic EOverflow /\ from_packet c (ndp_option c) b = Panic EOverflow) /\
  (32 <= n -> c_mode c = Wrapping ->
     packet_size c (ndp_option c) b = Ok (Z.max 2 (8 * n - 256 * (n / 32))) /\
     payload c (ndp_option c) b = Ok (clip b 2 (8 * n - 256 * (n / 32) - 2)) /\
     Z.max 2 (8 * n - 256 * (n / 32)) < 8 * n).
Proof. exact ndp_sizes. Qed.
Print Assumptions C49_ndp_option_sizes.

Example C49_case :
  packet_size dbg (ndp_option dbg) [1; 1; 2; 3; 4; 5; 6; 7; 99] = Ok 8 /\
  payload dbg (ndp_option dbg) [1; 1; 2; 3; 4; 5; 6; 7; 99] = Ok [2; 3; 4; 5; 6; 7] /\
  packet_size dbg (ndp_option dbg) [1; 0; 9] = Ok 2 /\
  packet_size dbg (ndp_option dbg) (1 :: 33 :: repeat 0 262) = Panic EOverflow /\
  packet_size rel (ndp_option rel) (1 :: 33 :: repeat 0 262) = Ok 8.
Proof. vm_compute. auto. Qed.

(** ** C50: IPv6 extension headers *)

Theorem C50_extension : forall c b, buf_ok b -> new extension b = Some b ->
  let n := field_val b 8 8 in
  packet_size c extension b = Ok (8 * (n + 1)) /\
  payload c extension b = Ok (clip b 2 (8 * (n + 1) - 2)) /\
  get c extension "options" b = Ok (VBytes (clip b 2 (8 * (n + 1) - 2))).
Proof. exact extension_split. Qed.
Print Assumptions C50_extension.

Theorem C50_routing : forall c b, buf_ok b -> new routing b = Some b ->
  let n := field_val b 8 8 in
  packet_size c routing b = Ok (8 * (n + 1)) /\
  payload c routing b = Ok (clip b 4 (8 * (n + 1) - 4)) /\
  get c routing "data" b = Ok (VBytes (clip b 4 (8 * (n + 1) - 4))).
Proof. exact routing_split. Qed.
Print Assumptions C50_routing.

Theorem C50_iterable_walks_the_chain : forall c s l, buf_ok s ->
  (iter_all (sem_of c extension) (fun x => Ok x) (extension_iterable s) = Ok l <-> ext_chain s l).
Proof. exact chain_exact. Qed.
Print Assumptions C50_iterable_walks_the_chain.

Theorem C50_iterable_never_panics : forall c s, buf_ok s -> exists l, ext_chain s l /\
  iter_all (sem_of c extension) (fun x => Ok x) (extension_iterable s) = Ok l.
Proof. exact chain_iter. Qed.
Print Assumptions C50_iterable_never_panics.

Example C50_case :
  let second := [59; 1; 9; 9] in let first := [0; 0; 1; 2; 3; 4; 5; 6] in
  iter_all (sem_of dbg extension) (fun x => Ok x) (first ++ second) = Ok [first ++ second; second] /\
  payload dbg extension (first ++ second) = Ok [1; 2; 3; 4; 5; 6] /\
  payload dbg routing ([43; 0; 0; 1; 7; 7; 7; 7] ++ second) = Ok [7; 7; 7; 7].
Proof. vm_compute. auto. Qed.

(** ** C51, C52: IPv6 fragments *)

Theorem C51_fragment_setters_are_independent : forall c ops b off lst, buf_ok b -> new fragment b = Some b ->
  Forall op_ok ops -> get_fragment_offset c b = Ok off -> is_last_fragment c b = Ok lst ->
  exists b', frag_run c ops b = (b', Ok tt) /\ length b' = length b /\
    get_fragment_offset c b' = Ok (offset_after ops off) /\
    is_last_fragment c b' = Ok (last_after ops lst) /\
    forall i, (i < 16 \/ i = 30 \/ 32 <= i)%nat -> nth i (bits_of b') false = nth i (bits_of b) false.
Proof. exact fragment_history. Qed.
Print Assumptions C51_fragment_setters_are_independent.

Example C51_case :
  let ops := [SetOffset 1447; SetLast false; SetOffset 2896; SetLast true; SetLast false] in
  fst (frag_run dbg ops [6; 0; 0; 2; 1; 2; 3; 4]) = [6; 0; 11; 83; 1; 2; 3; 4] /\
  get_fragment_offset dbg [6; 0; 11; 83; 1; 2; 3; 4] = Ok 2896 /\
  is_last_fragment dbg [6; 0; 11; 83; 1; 2; 3; 4] = Ok false.
Proof. vm_compute. auto. Qed.

Theorem C52_offset_includes_a_reserved_bit : forall c b, buf_ok b -> new fragment b = Some b ->
  exists v, get_fragment_offset c b = Ok v /\
    v = 8 * field_val b 16 13 + 4 * field_val b 29 1 /\ (v mod 8 <> 0 <-> field_val b 29 1 = 1) /\
    is_last_fragment c b = Ok (field_val b 31 1 =? 0).
Proof. exact fragment_reserved. Qed.
Print Assumptions C52_offset_includes_a_reserved_bit.

Theorem C52_offset_multiple_of_eight_refuted :
  exists b v, buf_ok b /\ new fragment b = Some b /\ get_fragment_offset dbg b = Ok v /\ v mod 8 <> 0.
Proof.
  exists [6; 0; 0; 12; 0; 0; 0; 1], 12. split; [|split; [reflexivity|split; [vm_compute; reflexivity|discriminate]]].
  split; [|reflexivity]. repeat (constructor; [split; [discriminate|reflexivity]|]). constructor.
Qed.
Print Assumptions C52_offset_multiple_of_eight_refuted.

(** ** C53: GRE *)

Theorem C53_gre_optional_words : forall c b, buf_ok b -> new (gre c) b = Some b -> field_val b 1 1 = 0 ->
  let C := field_val b 0 1 in let K := field_val b 2 1 in let S := field_val b 3 1 in
  let e := 4 + 4 * C + 4 * K + 4 * S in
  packet_size c (gre c) b = Ok e /\
  payload c (gre c) b = Ok (skipn (Z.to_nat e) b) /\
  (e <= blen b ->
     get c (gre c) "checksum" b = Ok (VPkts (gre_word C b 4 16)) /\
     get c (gre c) "offset" b = Ok (VPkts (gre_word C b 6 16)) /\
     get c (gre c) "key" b = Ok (VPkts (gre_word K b (4 + 4 * C) 32)) /\
     get c (gre c) "sequence" b = Ok (VPkts (gre_word S b (4 + 4 * C + 4 * K) 32)) /\
     get c (gre c) "routing" b = Ok (VBytes []) /\
     get c (gre c) "payload" b = Ok (VBytes (skipn (Z.to_nat e) b))) /\
  (blen b < e -> get c (gre c) "payload" b = Panic EIndex).
Proof. exact gre_split. Qed.
Print Assumptions C53_gre_optional_words.

Theorem C53_gre_routing_panics : forall c b, buf_ok b -> new (gre c) b = Some b -> field_val b 1 1 = 1 ->
  packet_size c (gre c) b = Panic EUnimpl /\ payload c (gre c) b = Panic EUnimpl /\
  get c (gre c) "routing" b = Panic EUnimpl /\ get c (gre c) "payload" b = Panic EUnimpl /\
  exists e, from_packet c (gre c) b = Panic e.
Proof. exact gre_routing. Qed.
Print Assumptions C53_gre_routing_panics.

Example C53_case :
  let b := [160; 0; 8; 0; 1; 2; 0; 0; 0; 0; 0; 7; 69; 1] in
  new (gre dbg) b = Some b /\ payload dbg (gre dbg) b = Ok [69; 1] /\
  get dbg (gre dbg) "checksum" b = Ok (VPkts [[VInt 258; VBytes []]]) /\
  get dbg (gre dbg) "key" b = Ok (VPkts [[VInt 7; VBytes []]]) /\
  get dbg (gre dbg) "sequence" b = Ok (VPkts []) /\
  payload dbg (gre dbg) [64; 0; 8; 0] = Panic EUnimpl.
Proof. vm_compute. auto 10. Qed.

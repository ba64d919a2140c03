(** Properties C88-C90: printed packets. *)
From Coq Require Import String ZArith List Bool Lia.
From Verif Require Import Base BitSpec DeriveUtil DeriveOps DeriveGen SpecPacket Protocols Quic SpecQuic Samples
  FmtText SpecFmt SpecQuicText FmtPacketProofs FmtSpecProofs QuicFmtProofs FmtSamples.
Import ListNotations.
Open Scope string_scope.
Open Scope Z_scope.

(** ** C88: the text of a printed packet *)

Theorem C88_any_packet : forall c v6 m base fs shapes b, scoped [] fs -> ident base -> Forall ident (map f_name fs) ->
  List.length shapes = List.length fs ->
  (forall vs ts, Forall2 (fun f v => get c fs (f_name f) b = Ok v) (shown fs) vs ->
     Forall2 (fun p t => shows v6 (fst p) (snd p) t) (combine (shown_shapes fs shapes) vs) ts ->
     debug_text v6 c m base fs shapes b = Ok (printed (full_name m base) (combine (map f_name (shown fs)) ts))) /\
  ((exists f e, In f (shown fs) /\ get c fs (f_name f) b = Panic e) -> exists e, debug_text v6 c m base fs shapes b = Panic e).
Proof. exact debug_any_shows. Qed.
Print Assumptions C88_any_packet.

Theorem C88_crate_packets : forall c v6 m n fs b, In (n, fs) (all_packets c) -> buf_ok b ->
  (forall vs, Forall2 (fun f v => get c fs (f_name f) b = Ok v) (shown fs) vs ->
     exists ts, Forall2 (fun p t => shows v6 (shape_of c n (fst p)) (snd p) t) (combine (shown fs) vs) ts /\
       packet_debug v6 c m n fs b = Ok (printed (full_name m n) (combine (map f_name (shown fs)) ts))) /\
  ((exists f e, In f (shown fs) /\ get c fs (f_name f) b = Panic e) -> exists e, packet_debug v6 c m n fs b = Panic e).
Proof. exact debug_crate_shows. Qed.
Print Assumptions C88_crate_packets.

Definition c88_tcp : string :=
  "TcpPacket { source : 80, destination : 51201, sequence : 1, acknowledgement : 2, data_offset : 6, reserved : 0, " ++
  "flags : 2, window : 4096, checksum : 4660, urgent_ptr : 0, " ++
  "options : [TcpOption { number: TcpOptionNumber(3), length: [3], data: [7] }, " ++
  "TcpOption { number: TcpOptionNumber(1), length: [], data: [] }],  }".
Definition c88_eth : buf := [255; 255; 255; 255; 255; 255; 0; 17; 34; 51; 68; 85; 8; 0; 1; 2].
Example C88_case : packet_debug v6_long dbg false "Tcp" (tcp dbg) tcp_opt_buf = Ok c88_tcp /\
  packet_debug v6_long dbg true "Ethernet" ethernet c88_eth =
    Ok "MutableEthernetPacket { destination : ff:ff:ff:ff:ff:ff, source : 00:11:22:33:44:55, ethertype : EtherType(2048),  }" /\
  packet_debug v6_long dbg false "Tcp" (tcp dbg) (firstn 19 tcp_opt_buf) = Panic EIndex /\
  debug_text v6_long dbg false "Kv" kv (map SFlat [FInt; FInt; FBytes; FInt; FBytes]) kv_buf =
    Ok "KvPacket { n : 2, flag : 15, data : [10, 11], crc : 43981,  }" /\
  debug_text v6_long dbg false "Kv" kv (map SFlat [FInt; FInt; FBytes; FInt; FBytes]) [255; 1; 2; 3] = Panic EIndex /\
  shows v6_long (SFlat (FNew "EtherType")) (VTup [2048]) "EtherType(2048)" /\
  shows v6_long (SFlat FIp4) (VTup [192; 0; 2; 7]) "192.0.2.7".
Proof.
  repeat split; try (vm_compute; reflexivity).
  - constructor. change "EtherType(2048)" with ("EtherType" ++ "(" ++ decimal 2048 ++ ")"). constructor.
  - constructor. change "192.0.2.7" with (String.concat "." (map decimal [192; 0; 2; 7])). now constructor.
Qed.

(** ** C89: a printed packet determines what was printed *)

Theorem C89_text_determines_fields : forall c v6 m m' n n' fs fs' b b' s, v6_text v6 ->
  In (n, fs) (all_packets c) -> In (n', fs') (all_packets c) -> buf_ok b -> buf_ok b' ->
  packet_debug v6 c m n fs b = Ok s -> packet_debug v6 c m' n' fs' b' = Ok s ->
  m = m' /\ n = n' /\ fs = fs' /\
  forall f, In f (shown fs) -> exists v, get c fs (f_name f) b = Ok v /\ get c fs (f_name f) b' = Ok v.
Proof. exact debug_injective. Qed.
Print Assumptions C89_text_determines_fields.

Theorem C89_quic_text_determines_fields : forall c v6 q q' s, v6_text v6 -> buf_ok (q_buf q) -> buf_ok (q_buf q') ->
  quic_debug v6 c q = Ok s -> quic_debug v6 c q' = Ok s ->
  q_kind q = q_kind q' /\
  forall f, In f (shown (quic_schema c (q_kind q))) -> exists v,
    get c (quic_schema c (q_kind q)) (f_name f) (q_buf q) = Ok v /\
    get c (quic_schema c (q_kind q)) (f_name f) (q_buf q') = Ok v.
Proof. exact quic_debug_injective. Qed.
Print Assumptions C89_quic_text_determines_fields.

Theorem C89_frame_text_determines_fields : forall c v6 q q' s, v6_text v6 -> buf_ok (fr_buf q) -> buf_ok (fr_buf q') ->
  0 <= fr_count q -> 0 <= fr_count q' ->
  frame_debug v6 c q = Ok s -> frame_debug v6 c q' = Ok s ->
  fr_kind q = fr_kind q' /\ (fr_kind q = FPadding -> fr_count q = fr_count q') /\
  forall f, In f (shown (frame_schema (fr_kind q))) -> exists v,
    get c (frame_schema (fr_kind q)) (f_name f) (fr_buf q) = Ok v /\
    get c (frame_schema (fr_kind q)) (f_name f) (fr_buf q') = Ok v.
Proof. exact frame_debug_injective. Qed.
Print Assumptions C89_frame_text_determines_fields.

(** The assumption about IPv6 addresses can be met; two Ethernet frames that differ
    only in the payload print alike, one that differs in the type does not; the
    remaining bytes of a frame are printed, since they are no payload. *)
Example C89_case : v6_text v6_long /\ In ("Ethernet", ethernet) (all_packets dbg) /\
  packet_debug v6_long dbg false "Ethernet" ethernet c88_eth =
    packet_debug v6_long dbg false "Ethernet" ethernet (firstn 14 c88_eth ++ [9])%list /\
  packet_debug v6_long dbg false "Ethernet" ethernet c88_eth <>
    packet_debug v6_long dbg false "Ethernet" ethernet (firstn 13 c88_eth ++ [6])%list /\
  frame_debug v6_long dbg (Frame FPadding [0; 0] 2) = Ok "Padding(PaddingPacket { ty : FrameType(0), remaining : [0],  }, 2)" /\
  frame_debug v6_long dbg (Frame FMaxData [16; 64; 200; 7] 0) =
    Ok "MaxData(MaxDataPacket { ty : FrameType(16), max_data : [64, 200], remaining : [7],  })".
Proof.
  split; [exact v6_long_text|]. split; [left; reflexivity|].
  split; [vm_compute; reflexivity|split; [vm_compute; discriminate|vm_compute; split; reflexivity]].
Qed.

(** ** C90: printed QUIC packets *)

Theorem C90_sent_packets_are_printed : forall c l, rpackets_ok l -> blen (rpackets_bytes l) < 2 ^ 61 ->
  exists qs, quic_new c (rpackets_bytes l) = Ok (Some qs) /\
    Forall2 (fun p q => quic_display_text c q = Ok (packet_text p)) l qs.
Proof. exact sent_displayed. Qed.
Print Assumptions C90_sent_packets_are_printed.

Theorem C90_text_determines_values : forall c q q' s, buf_ok (q_buf q) -> buf_ok (q_buf q') ->
  quic_display_text c q = Ok s -> quic_display_text c q' = Ok s ->
  q_kind q = q_kind q' /\ quic_version c q = quic_version c q' /\ quic_token c q = quic_token c q' /\
  quic_packet_number c q = quic_packet_number c q' /\ quic_dest_id c q = quic_dest_id c q' /\
  quic_src_id c q = quic_src_id c q' /\
  rmap (option_map blen) (quic_frames c q) = rmap (option_map blen) (quic_frames c q').
Proof. exact display_injective. Qed.
Print Assumptions C90_text_determines_values.

Definition c90_initial : rpacket := RLong QInitial 0 4207849473 [1; 2] [3] (Some (VI 1 2, [9; 10])) (VI 2 3) [7] [1; 1].
Example C90_case : rpackets_ok [c90_initial] /\
  packet_text c90_initial =
    line "packet-type: initial" ++ line "quic-version: 0xfaceb001" ++ line "token: [9, 10]" ++ line "packet-number: 7" ++
    line "dest-id: [1, 2]" ++ line "src-id: [3]" ++ line "payload: 2" /\
  quic_display_text dbg (Quic QInitial (rpackets_bytes [c90_initial])) = Ok (packet_text c90_initial) /\
  quic_display_text dbg (Quic QOneRtt [64; 1; 2; 3; 4]) = Panic EIndex.
Proof.
  split; [|vm_compute; repeat split].
  cbn [rpackets_ok c90_initial rpacket_ok has_end]. unfold id_ok, number_ok, data_ok, vi_ok, bytes_ok, byte_ok.
  repeat match goal with
         | |- _ /\ _ => split
         | |- Forall _ _ => constructor
         | |- _ -> _ => intros
         end; try reflexivity; try congruence; try (vm_compute; intuition congruence).
Qed.

(** Properties C54-C66 and C72: QUIC. *)
From Coq Require Import String ZArith List Bool Lia.
From Verif Require Import Base BitSpec DeriveUtil DeriveOps DeriveGen SpecPacket Protocols Quic SpecQuic Samples.
From Verif Require Import QuicIntProofs QuicWalkProofs QuicSeqProofs QuicRfcProofs QuicLongProofs QuicPacketProofs QuicRecoverProofs
  QuicPopulateProofs.
Import ListNotations.
Open Scope Z_scope.

(** ** C54: variable-length integers *)

Theorem C54_encodings_are_decoded : forall x s, vi_ok x -> bytes_ok s ->
  varint_length (vi_bytes x ++ s) = Ok (blen (vi_bytes x)) /\ varint (vi_bytes x) = Ok (vi_value x).
Proof. exact varint_encodings. Qed.
Print Assumptions C54_encodings_are_decoded.

Theorem C54_decoded_bytes_are_encodings : forall s k, bytes_ok s -> varint_length s = Ok k ->
  1 <= k <= 8 /\
  (k <= blen s -> exists x r, vi_ok x /\ s = vi_bytes x ++ r /\ blen (vi_bytes x) = k /\
     varint (firstn (Z.to_nat k) s) = Ok (vi_value x)).
Proof. exact varint_total. Qed.
Print Assumptions C54_decoded_bytes_are_encodings.

(** The sample encodings of RFC 9000 A.1, and a value written longer than needed. *)
Example C54_case :
  map vi_bytes [VI 8 151288809941952652; VI 4 494878333; VI 2 15293; VI 1 37; VI 2 37] =
    [[194; 25; 124; 94; 255; 20; 232; 140]; [157; 127; 62; 125]; [123; 189]; [37]; [64; 37]] /\
  vi_ok (VI 2 37) /\ varint [64; 37] = Ok 37 /\ varint_length [64; 37; 9] = Ok 2 /\
  varint_length [] = Panic EIndex /\ varint [] = Panic EIndex.
Proof. vm_compute. intuition congruence. Qed.

(** ** C55: n_varints *)

Theorem C55_n_varints : forall n s, bytes_ok s -> 0 <= n ->
  (forall k, n_varints n s = Ok k <-> exists p r, varints n p /\ s = p ++ r /\ k = blen p) /\
  (n_varints n s = Panic EIndex <-> ~ exists p r, varints n p /\ s = p ++ r).
Proof. exact n_varints_exact. Qed.
Print Assumptions C55_n_varints.

Example C55_case : n_varints 3 [7; 64; 1; 9; 200] = Ok 4 /\ n_varints 4 [7; 64; 1; 9; 200] = Panic EIndex /\
  n_varints 0 [] = Ok 0 /\ varints 2 [7; 64; 1].
Proof.
  repeat split; try reflexivity. change 2 with (0 + 1 + 1). change [7; 64; 1] with (vi_bytes (VI 1 7) ++ vi_bytes (VI 2 1) ++ []).
  repeat constructor; vm_compute; intuition congruence.
Qed.

(** ** C56: packet_number *)

Theorem C56_packet_number : forall m l, bytes_ok l -> blen l < 2 ^ 63 ->
  packet_number m l =
  (if blen l <=? 8 then Ok (be_val l) else Panic (match m with Checked => EOverflow | Wrapping => EIndex end)).
Proof. exact packet_number_exact. Qed.
Print Assumptions C56_packet_number.

Example C56_case : packet_number Checked [1; 0; 2] = Ok 65538 /\ packet_number Wrapping (repeat 255 8) = Ok (2 ^ 64 - 1) /\
  packet_number Checked (repeat 0 9) = Panic EOverflow /\ packet_number Wrapping (repeat 0 9) = Panic EIndex.
Proof. vm_compute. auto. Qed.

(** ** C57: a datagram is cut into packets *)

Theorem C57_packets_tile_the_datagram : forall c b, dgram b ->
  quic_new c b <> Panic EDiverge /\ forall l, quic_new c b = Ok (Some l) -> chain c b l.
Proof. exact quic_tiles. Qed.
Print Assumptions C57_packets_tile_the_datagram.

(** An Initial packet without token and two bytes of frames, a Handshake packet
    with a two-byte number, a 1-RTT packet. *)
Definition initial_pkt : rpacket := RLong QInitial 0 1 [1; 2] [3] (Some (VI 1 0, [])) (VI 2 3) [7] [1; 1].
Definition handshake_pkt : rpacket := RLong QHandshake 2 4207849473 [] [9; 9; 9] None (VI 1 4) [1; 0] [6; 0].
Definition short_pkt : rpacket := ROneRtt 9 [1; 2; 3; 4; 5; 6; 7; 8] [0; 0; 1] [1; 0; 0].
Definition coalesced : list rpacket := [initial_pkt; handshake_pkt; short_pkt].
Example C57_case : dgram (rpackets_bytes coalesced) /\
  quic_new dbg (rpackets_bytes coalesced) = Ok (Some (rpackets_views coalesced)) /\
  List.length (rpackets_views coalesced) = 3%nat.
Proof.
  split; [split; [|vm_compute; reflexivity]|vm_compute; auto].
  repeat constructor; vm_compute; intuition congruence.
Qed.

(** ** C58: packets written by a sender are recovered *)

Theorem C58_coalesced_packets_are_recovered : forall c l, rpackets_ok l -> blen (rpackets_bytes l) < 2 ^ 61 ->
  quic_new c (rpackets_bytes l) = Ok (Some (rpackets_views l)) /\
  forall pre p post, l = pre ++ p :: post ->
    reports c p (Quic (rpacket_kind p) (rpackets_bytes (p :: post))).
Proof. exact packets_recovered. Qed.
Print Assumptions C58_coalesced_packets_are_recovered.

Example C58_case : rpackets_ok coalesced /\
  rpackets_bytes coalesced =
    [192; 0; 0; 0; 1; 2; 1; 2; 1; 3; 0; 64; 3; 7; 1; 1;
     233; 250; 206; 176; 1; 0; 3; 9; 9; 9; 4; 1; 0; 6; 0;
     102; 1; 2; 3; 4; 5; 6; 7; 8; 0; 0; 1; 1; 0; 0] /\
  quic_packet_number dbg (Quic QHandshake (rpackets_bytes [handshake_pkt; short_pkt])) = Ok (Some 256) /\
  rpackets_ok [RRetry 3 1 [5] [] [1; 2; 3; 4]] /\ rpackets_ok [RNegotiation 64 [5] [6] [0; 0; 0; 1]] /\
  quic_new rel (rpackets_bytes [initial_pkt; RNegotiation 0 [5] [6] [0; 0; 0; 1]]) =
    Ok (Some (rpackets_views [initial_pkt; RNegotiation 0 [5] [6] [0; 0; 0; 1]])).
Proof.
  split; [|split; [reflexivity|split; [reflexivity|split; [|split; [|reflexivity]]]]];
    cbn [rpackets_ok coalesced initial_pkt handshake_pkt short_pkt rpacket_ok has_end];
    unfold id_ok, number_ok, data_ok, vi_ok, bytes_ok, byte_ok;
    repeat match goal with
           | |- _ /\ _ => split
           | |- Forall _ _ => constructor
           | |- _ <> [] -> _ => let X := fresh in intros X; try (exfalso; apply X; reflexivity)
           end; try exact I; try reflexivity; try discriminate; try (cbn; lia); try (vm_compute; intuition congruence).
Qed.

(** ** C59: classification *)

Theorem C59_packets_are_classified : forall c b, dgram b -> b <> [] ->
  (blen b < 5 -> quic_new c b = Ok None) /\
  (5 <= blen b -> Z.testbit (nth 0 b 0) 7 = true \/ Z.testbit (nth 0 b 0) 6 = true ->
   match rfc_kind b with
   | None => quic_new c b = Ok None
   | Some k => forall l, quic_new c b = Ok (Some l) -> exists r, l = Quic k b :: r
   end /\
   (rfc_kind b = None <-> Z.testbit (nth 0 b 0) 7 = true /\ Z.testbit (nth 0 b 0) 6 = false /\ version_of b <> 0)) /\
  (5 <= blen b -> Z.testbit (nth 0 b 0) 6 = false -> version_of b <> 0 -> quic_new c b = Ok None).
Proof. exact classification. Qed.
Print Assumptions C59_packets_are_classified.

Example C59_case :
  map rfc_kind [[192; 0; 0; 0; 1]; [208; 0; 0; 0; 1]; [224; 0; 0; 0; 1]; [240; 0; 0; 0; 1]; [128; 0; 0; 0; 0];
                [64; 0; 0; 0; 0]; [128; 0; 0; 0; 1]; [0; 0; 0; 0; 0]] =
    [Some QInitial; Some QZeroRtt; Some QHandshake; Some QRetry; Some QVersionNegotiation; Some QOneRtt; None; None] /\
  quic_new dbg [208; 0; 0; 0; 1; 0; 0; 1; 5] = Ok (Some [Quic QZeroRtt [208; 0; 0; 0; 1; 0; 0; 1; 5]]) /\
  quic_new dbg [128; 0; 0; 0; 1; 0; 0; 1; 5] = Ok None /\ quic_new dbg [64; 0; 0; 0] = Ok None.
Proof. vm_compute. auto. Qed.

(** ** C60: when the constructor panics *)

Theorem C60_outcome_of_the_first_packet : forall c b k, dgram b -> 5 <= blen b -> rfc_kind b = Some k ->
  quic_new c b =
  (if blen b <? match k with QOneRtt => 1 | _ => 7 end then Ok None
   else match (if has_length k then long_rest (c_mode c) (has_token k) b else Ok []) with
        | Ok r => match quic_new c r with Ok (Some l) => Ok (Some (Quic k b :: l)) | x => x end
        | Panic e => Panic e
        end).
Proof. exact first_packet. Qed.
Print Assumptions C60_outcome_of_the_first_packet.

Theorem C60_checked_panic_condition : forall t b r, bytes_ok b ->
  long_rest Checked t b = Ok r <-> exists seen, read_fields (long_wire t (pn_size b)) [] (skipn 5 b) = Some (seen, r).
Proof. exact rest_checked. Qed.
Print Assumptions C60_checked_panic_condition.

Theorem C60_wellformed_never_panics : forall m t b seen r, bytes_ok b ->
  read_fields (long_wire t (pn_size b)) [] (skipn 5 b) = Some (seen, r) -> long_rest m t b = Ok r.
Proof. exact rest_any. Qed.
Print Assumptions C60_wellformed_never_panics.

(** Truncated ids, a missing length, a length beyond the end, a length smaller
    than the packet number: no Option shields the caller. *)
Theorem C60_malformed_is_none_refuted : exists c b, dgram b /\ exists e, quic_new c b = Panic e.
Proof.
  exists dbg, [224; 0; 0; 0; 1; 9; 0; 0]. split; [split; [repeat constructor; lia|reflexivity]|].
  exists EIndex. vm_compute. reflexivity.
Qed.
Print Assumptions C60_malformed_is_none_refuted.
Example C60_case :
  quic_new dbg [224; 0; 0; 0; 1; 0; 0] = Panic EIndex /\
  quic_new dbg [224; 0; 0; 0; 1; 0; 0; 9; 1; 2] = Panic EIndex /\
  quic_new dbg [225; 0; 0; 0; 1; 0; 0; 1; 1; 2] = Panic EOverflow /\
  quic_new rel [225; 0; 0; 0; 1; 0; 0; 1; 1; 64] = Ok None /\
  quic_remaining rel (Quic QHandshake [225; 0; 0; 0; 1; 0; 0; 1; 1; 64]) = Ok [64] /\
  quic_new dbg [225; 0; 0; 0; 1; 0; 0; 2; 1; 64] = Ok (Some [Quic QHandshake [225; 0; 0; 0; 1; 0; 0; 2; 1; 64]]).
Proof. vm_compute. repeat split. Qed.

(** ** C61: look-alikes *)

Theorem C61_zero_version_with_both_bits_clear : forall c b, dgram b ->
  Z.testbit (nth 0 b 0) 7 = false -> Z.testbit (nth 0 b 0) 6 = false -> version_of b = 0 -> 5 <= blen b ->
  rfc_kind b = None /\
  quic_new c b = Ok (if 7 <=? blen b then Some [Quic QVersionNegotiation b] else None).
Proof. exact lookalike. Qed.
Print Assumptions C61_zero_version_with_both_bits_clear.

Example C61_case : quic_new dbg [63; 0; 0; 0; 0; 1; 2] = Ok (Some [Quic QVersionNegotiation [63; 0; 0; 0; 0; 1; 2]]) /\
  quic_dest_id dbg (Quic QVersionNegotiation [63; 0; 0; 0; 0; 1; 2]) = Ok [2].
Proof. vm_compute. auto. Qed.

(** ** C62: short 1-RTT packets *)

Theorem C62_short_packets : forall c b, dgram b -> 5 <= blen b ->
  Z.testbit (nth 0 b 0) 7 = false -> Z.testbit (nth 0 b 0) 6 = true ->
  let q := Quic QOneRtt b in
  quic_new c b = Ok (Some [q]) /\
  quic_packet_number c q = (if 9 <=? blen b then Ok (Some (be_val (firstn (Z.to_nat (pn_size b)) (skipn 9 b)))) else Panic EIndex) /\
  quic_display c q =
    (if 9 <=? blen b
     then Ok [LType QOneRtt; LNumber (be_val (firstn (Z.to_nat (pn_size b)) (skipn 9 b)));
              LDest (firstn 8 (skipn 1 b)); LPayload (Z.max 0 (blen b - 9 - pn_size b))]
     else Panic EIndex).
Proof. exact rtt_exact. Qed.
Print Assumptions C62_short_packets.

Example C62_case : quic_new dbg [64; 1; 2; 3; 4] = Ok (Some [Quic QOneRtt [64; 1; 2; 3; 4]]) /\
  quic_packet_number dbg (Quic QOneRtt [64; 1; 2; 3; 4]) = Panic EIndex /\
  quic_packet_number dbg (Quic QOneRtt [65; 1; 2; 3; 4; 5; 6; 7; 8; 1; 0; 9]) = Ok (Some 256) /\
  quic_packet_number dbg (Quic QOneRtt [67; 1; 2; 3; 4; 5; 6; 7; 8]) = Ok (Some 0).
Proof. vm_compute. auto. Qed.

(** ** C63: frames cover the payload *)

Theorem C63_frames_tile_the_payload : forall c b, dgram b ->
  frame_new c b <> Panic EDiverge /\ forall l, frame_new c b = Ok (Some l) -> tiles c b l.
Proof. exact frames_tile. Qed.
Print Assumptions C63_frames_tile_the_payload.

Example C63_case : frame_new dbg [1; 0; 0; 0; 16; 64; 200; 0] =
  Ok (Some [Frame FPing [1; 0; 0; 0; 16; 64; 200; 0] 0; Frame FPadding [0; 0; 0; 16; 64; 200; 0] 3;
            Frame FMaxData [16; 64; 200; 0] 0; Frame FPadding [0] 1]).
Proof. vm_compute. reflexivity. Qed.

(** ** C64: frames written by a sender are recovered *)

Theorem C64_frames_are_recovered : forall c l, rframes_ok l -> Forall no_ranges l -> blen (rencodes l) < 2 ^ 61 ->
  frame_new c (rencodes l) = Ok (Some (grouped l)) /\
  forall pre f post n, l = pre ++ f :: post ->
    let fr := Frame (rkind f) (rencodes (f :: post)) n in
    frame_ty c fr = Ok (rtype f) /\ frame_remaining c fr = Ok (rencodes post) /\
    from_packet c (frame_schema (rkind f)) (rencodes (f :: post)) =
      Ok (VTup [rtype f] :: rfields f ++ [VBytes (rencodes post)]).
Proof. exact frames_recovered. Qed.
Print Assumptions C64_frames_are_recovered.

Example C64_case :
  let l := [RPadding; RPadding; RAck (VI 1 9) (VI 2 100) (VI 1 0) (VI 1 3) [] (Some (VI 1 1, VI 1 2, VI 1 3));
            RCrypto (VI 1 0) (VI 1 3) [22; 3; 1]; RNewConnectionId (VI 1 1) (VI 1 0) [7; 7] (repeat 5 16);
            RConnectionClose (VI 1 10) None (VI 1 2) [104; 105]; RStream true (VI 1 4) (Some (VI 2 300)) None [1; 2; 3]] in
  rframes_ok l /\ Forall no_ranges l /\
  frame_new dbg (rencodes l) = Ok (Some (grouped l)) /\ map fr_kind (grouped l) =
    [FPadding; FAck; FCrypto; FNewConnectionId; FConnectionClose; FStream] /\ map fr_count (grouped l) = [2; 0; 0; 0; 0; 0].
Proof.
  cbv zeta. split; [|split; [repeat constructor|vm_compute; auto]].
  cbn [rframes_ok rframe_ok opt_ok ecn_vi ranges_vi flat_map]. unfold data_ok, vi_ok, bytes_ok, byte_ok.
  repeat match goal with
         | |- _ /\ _ => split
         | |- Forall _ _ => constructor
         end; try exact I; try reflexivity; try (cbn; lia); try (vm_compute; intuition congruence).
Qed.

(** ** C65: ACK ranges *)

Theorem C65_ack_ranges_are_left_over : forall c la d n f r e rest, rframe_ok false (RAck la d n f r e) -> r <> [] ->
  let b := rencode (RAck la d n f r e) ++ rest in
  let left := skipn (length r + length (ecn_vi e)) (ranges_vi r ++ ecn_vi e) in
  dgram b ->
  length left = length r /\ frame_remaining c (Frame FAck b 0) = Ok (vis_bytes left ++ rest) /\
  vis_bytes left ++ rest <> rest /\
  frame_new c b = match frame_new c (vis_bytes left ++ rest) with
                  | Ok (Some l) => Ok (Some (Frame FAck b 0 :: l))
                  | Ok None => Ok None
                  | Panic e => Panic e
                  end.
Proof. exact ack_ranges_left. Qed.
Print Assumptions C65_ack_ranges_are_left_over.

(** So the reader's promise of C64 fails for ACK frames with ranges. *)
Theorem C65_ack_ranges_recovered_refuted : exists c l, rframes_ok l /\ frame_new c (rencodes l) <> Ok (Some (grouped l)).
Proof.
  exists dbg, [RAck (VI 1 20) (VI 1 0) (VI 1 1) (VI 1 2) [(VI 1 5, VI 1 1)] None]. split; [|vm_compute; discriminate].
  cbn [rframes_ok rframe_ok ranges_vi ecn_vi flat_map app fst snd]. unfold vi_ok.
  repeat match goal with
         | |- _ /\ _ => split
         | |- Forall _ _ => constructor
         end; try exact I; try reflexivity; cbn; lia.
Qed.
Print Assumptions C65_ack_ranges_recovered_refuted.

(** The length 1 of the range is taken for a PING, a length of 40 rejects the
    payload, a length of 16 makes the parser panic. *)
Example C65_case :
  frame_new dbg (rencodes [RAck (VI 1 20) (VI 1 0) (VI 1 1) (VI 1 2) [(VI 1 5, VI 1 1)] None]) =
    Ok (Some [Frame FAck [2; 20; 0; 1; 2; 5; 1] 0; Frame FPing [1] 0]) /\
  frame_new dbg (rencodes [RAck (VI 2 200) (VI 1 0) (VI 1 1) (VI 1 2) [(VI 1 5, VI 1 40)] None]) = Ok None /\
  frame_new dbg (rencodes [RAck (VI 2 200) (VI 1 0) (VI 1 1) (VI 1 2) [(VI 1 5, VI 1 16)] None]) = Panic EIndex.
Proof. vm_compute. auto. Qed.

(** ** C66: outcomes *)

Theorem C66_outcomes_of_frame_parsing : forall c b, dgram b ->
  ((exists l, frame_new c b = Ok (Some l)) <-> reached b []) /\
  (frame_new c b = Ok None <-> exists r, reached b r /\ unknown_frame r) /\
  ((exists e, frame_new c b = Panic e) <-> exists r, reached b r /\ truncated_frame r) /\
  (forall e, frame_new c b = Panic e -> e = EIndex).
Proof. exact frames_outcomes. Qed.
Print Assumptions C66_outcomes_of_frame_parsing.

Example C66_case : frame_new dbg [1; 1; 31; 1] = Ok None /\ frame_new dbg [1; 24] = Ok None /\
  frame_new dbg [1; 16] = Panic EIndex /\ frame_new dbg [1; 6; 0; 3; 1; 2] = Panic EIndex /\ frame_new dbg [] = Ok (Some []).
Proof. vm_compute. auto. Qed.

(** ** C72: populate() and the old contents *)

Theorem C72_setter_checks_the_old_byte : forall c b fs pre n post p v, scoped [] fs -> fs = pre ++ vint n :: post -> dgram b ->
  blen v < 2 ^ 63 -> ends c fs b pre p -> 0 <= p < blen b ->
  set c fs n (VBytes v) b =
  (if blen v <=? 2 ^ (nth (Z.to_nat p) b 0 / 64)
   then if p + blen v <=? blen b then (splice b (Z.to_nat p) v, Ok tt) else (b, Panic EIndex)
   else (b, Panic EAssert)).
Proof. exact set_varint. Qed.
Print Assumptions C72_setter_checks_the_old_byte.

Theorem C72_populate_depends_on_old_bytes : forall c k n post b t v r, frame_schema k = ty_field :: vint n :: post -> dgram b ->
  2 <= blen b -> byte_ok t -> bytes_ok v -> blen v < 2 ^ 63 ->
  (2 ^ (nth 1 b 0 / 64) < blen v ->
   populate c (frame_schema k) (VTup [t] :: VBytes v :: r) b = (t :: tl b, Panic EAssert)) /\
  (blen v <= 2 ^ (nth 1 b 0 / 64) -> 1 + blen v <= blen b ->
   populate c (frame_schema k) [VTup [t]; VBytes v] b = (t :: splice (tl b) 0 v, Ok tt)).
Proof. exact populate_old_bytes. Qed.
Print Assumptions C72_populate_depends_on_old_bytes.

Theorem C72_zeroed_buffers_reject_long_integers : forall c k n post N t x r, frame_schema k = ty_field :: vint n :: post ->
  (2 <= N)%nat -> Z.of_nat N < 2 ^ 61 -> byte_ok t -> vi_ok x -> 1 < vi_width x ->
  populate c (frame_schema k) (VTup [t] :: VBytes (vi_bytes x) :: r) (repeat 0 N) = (t :: repeat 0 (N - 1), Panic EAssert).
Proof. exact populate_zeroed. Qed.
Print Assumptions C72_zeroed_buffers_reject_long_integers.

(** MAX_DATA 200: the same struct, a zeroed buffer and one with a 2-byte integer
    in place. *)
Example C72_case :
  frame_schema FMaxData = [ty_field; vint "max_data"; last_bytes "remaining"] /\
  populate dbg max_data_frame [VTup [16]; VBytes (vi_bytes (VI 2 200)); VBytes []] [0; 0; 0; 0] = ([16; 0; 0; 0], Panic EAssert) /\
  populate dbg max_data_frame [VTup [16]; VBytes (vi_bytes (VI 2 200)); VBytes []] [0; 64; 0; 0] = ([16; 64; 200; 0], Ok tt).
Proof. vm_compute. auto. Qed.

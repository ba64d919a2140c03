(** Property C98: the QUIC packets and frames, run from the text of src/quic.rs. *)
From Coq Require Import String Ascii ZArith List Bool Lia.
From Verif Require Import Base DeriveUtil DeriveOps DeriveGen Quic SpecQuic Samples RustAst RustEval CrateText2 SpecSource2 SpecSource3 CrateSrc8.
From Verif Require Names FmtText.
Import ListNotations.
Open Scope string_scope.
Open Scope Z_scope.

(** ** C98: packets *)

Theorem C98_packet_source : forall c rounds q,
  run c rounds "quic" "QuicPacket::version" [quic_v q] = outcome (opt_v version_v) (quic_version c q) /\
  run c rounds "quic" "QuicPacket::token" [quic_v q] = outcome (opt_v bytes_v) (quic_token c q) /\
  run c rounds "quic" "QuicPacket::packet_number" [quic_v q] = outcome (opt_v u64_v) (quic_packet_number c q) /\
  run c rounds "quic" "QuicPacket::dest_id" [quic_v q] = outcome bytes_v (quic_dest_id c q) /\
  run c rounds "quic" "QuicPacket::src_id" [quic_v q] = outcome (opt_v bytes_v) (quic_src_id c q) /\
  run c rounds "quic" "QuicPacket::packet" [quic_v q] = FDone (bytes_v (quic_packet q)) /\
  run c rounds "quic" "QuicPacket::frames" [quic_v q] = outcome (opt_v bytes_v) (quic_frames c q) /\
  run c rounds "quic" "QuicPacket::remaining" [quic_v q] = outcome bytes_v (quic_remaining c q) /\
  run c rounds "quic" "QuicPacket::fmt" [quic_v q] = outcome XS (FmtText.quic_display_text c q).
Proof. exact quic_runs. Qed.
Print Assumptions C98_packet_source.

(** The loop of [QuicPacket::new]: one round for each byte is enough. *)
Theorem C98_packets_source : forall c rounds b, dgram b -> (List.length b < rounds)%nat ->
  run c rounds "quic" "QuicPacket::new" [bytes_v b] = outcome (opt_v quics_v) (quic_new c b).
Proof. exact quic_new_runs. Qed.
Print Assumptions C98_packets_source.

(** What the text of [QuicPacket::new] returns covers the datagram, in the sense of C57. *)
Theorem C98_packets_tile_source : forall c rounds b v, dgram b -> (List.length b < rounds)%nat ->
  run c rounds "quic" "QuicPacket::new" [bytes_v b] = FDone v ->
  v = XE "None" [] \/ exists l, v = XE "Some" [quics_v l] /\ chain c b l.
Proof. exact quic_tiles_runs. Qed.
Print Assumptions C98_packets_tile_source.

(** The packets of a sender, in the sense of C58. *)
Theorem C98_packets_recovered_source : forall c rounds l, rpackets_ok l -> blen (rpackets_bytes l) < 2 ^ 61 ->
  (List.length (rpackets_bytes l) < rounds)%nat ->
  run c rounds "quic" "QuicPacket::new" [bytes_v (rpackets_bytes l)] = FDone (XE "Some" [quics_v (rpackets_views l)]).
Proof. exact packets_recovered_runs. Qed.
Print Assumptions C98_packets_recovered_source.

(** ** C98: frames *)

Theorem C98_frame_source : forall c rounds f,
  run c rounds "quic" "Frame::ty" [frame_v f] = outcome frame_type_v (frame_ty c f) /\
  run c rounds "quic" "Frame::payload" [frame_v f] = outcome bytes_v (frame_payload c f) /\
  run c rounds "quic" "Frame::remaining" [frame_v f] = outcome bytes_v (frame_remaining c f) /\
  run c rounds "quic" "Frame::fmt" [frame_v f] = outcome XS (rmap Names.frame_type_name (frame_ty c f)).
Proof. exact frame_runs. Qed.
Print Assumptions C98_frame_source.

Theorem C98_frames_source : forall c rounds b, dgram b -> (List.length b < rounds)%nat ->
  run c rounds "quic" "Frame::new" [bytes_v b] = outcome (opt_v frames_v) (frame_new c b).
Proof. exact frame_new_runs. Qed.
Print Assumptions C98_frames_source.

Theorem C98_frames_tile_source : forall c rounds b v, dgram b -> (List.length b < rounds)%nat ->
  run c rounds "quic" "Frame::new" [bytes_v b] = FDone v ->
  v = XE "None" [] \/ exists l, v = XE "Some" [frames_v l] /\ tiles c b l.
Proof. exact frame_tiles_runs. Qed.
Print Assumptions C98_frames_tile_source.

(** The frames of a sender, in the sense of C64. *)
Theorem C98_frames_recovered_source : forall c rounds l, rframes_ok l -> Forall no_ranges l -> blen (rencodes l) < 2 ^ 61 ->
  (List.length (rencodes l) < rounds)%nat ->
  run c rounds "quic" "Frame::new" [bytes_v (rencodes l)] = FDone (XE "Some" [frames_v (grouped l)]).
Proof. exact frames_recovered_runs. Qed.
Print Assumptions C98_frames_recovered_source.

(** When it returns frames, [None], or panics, in terms of the bytes alone (C66). *)
Theorem C98_frame_outcomes_source : forall c rounds b, dgram b -> (List.length b < rounds)%nat ->
  let r := run c rounds "quic" "Frame::new" [bytes_v b] in
  ((exists l, r = FDone (XE "Some" [frames_v l])) <-> reached b []) /\
  (r = FDone (XE "None" []) <-> exists x, reached b x /\ unknown_frame x) /\
  (r = FPan EIndex <-> exists x, reached b x /\ truncated_frame x) /\
  ((exists l, r = FDone (XE "Some" [frames_v l])) \/ r = FDone (XE "None" []) \/ r = FPan EIndex).
Proof. exact frames_outcomes_runs. Qed.
Print Assumptions C98_frame_outcomes_source.

(** An Initial packet without token and a 1-RTT packet; a ping, three padding bytes and a
    MAX_DATA frame. *)
Definition c98_packets : list rpacket :=
  [RLong QInitial 0 1 [1; 2] [3] (Some (VI 1 0, [])) (VI 2 3) [7] [1; 1]; ROneRtt 9 [1; 2; 3; 4; 5; 6; 7; 8] [0; 0; 1] [1; 0; 0]].
Definition c98_frames : list rframe := [RPing; RPadding; RPadding; RPadding; RMaxData (VI 2 200)].
Example C98_case :
  let nl := String "010"%char EmptyString in
  rpackets_ok c98_packets /\ dgram (rpackets_bytes c98_packets) /\
  run dbg 32 "quic" "QuicPacket::new" [bytes_v (rpackets_bytes c98_packets)] = FDone (XE "Some" [quics_v (rpackets_views c98_packets)]) /\
  run dbg 1 "quic" "QuicPacket::packet_number" [quic_v (Quic QInitial (rpackets_bytes c98_packets))] = FDone (XE "Some" [u64_v 7]) /\
  run dbg 1 "quic" "QuicPacket::fmt" [quic_v (Quic QInitial (rpackets_bytes c98_packets))] =
    FDone (XS ("packet-type: initial" ++ nl ++ "quic-version: 0x00000001" ++ nl ++ "token: []" ++ nl ++ "packet-number: 7" ++ nl ++
               "dest-id: [1, 2]" ++ nl ++ "src-id: [3]" ++ nl ++ "payload: 2" ++ nl)) /\
  run dbg 9 "quic" "QuicPacket::new" [bytes_v [224; 0; 0; 0; 1; 9; 0; 0]] = FPan EIndex /\
  run dbg 5 "quic" "QuicPacket::new" [bytes_v [64; 0; 0; 0]] = FDone (XE "None" []) /\
  rframes_ok c98_frames /\ Forall no_ranges c98_frames /\
  run dbg 8 "quic" "Frame::new" [bytes_v (rencodes c98_frames)] = FDone (XE "Some" [frames_v (grouped c98_frames)]) /\
  run dbg 8 "quic" "Frame::new" [bytes_v [1; 1; 31; 1]] = FDone (XE "None" []) /\
  run dbg 8 "quic" "Frame::new" [bytes_v [1; 16]] = FPan EIndex /\
  run dbg 1 "quic" "Frame::fmt" [frame_v (Frame FMaxData [16; 64; 200] 0)] = FDone (XS "max-data") /\
  run dbg 1 "quic" "Frame::remaining" [frame_v (Frame FPadding [0; 0; 1] 2)] = FDone (bytes_v [0; 1]).
Proof.
  assert (N : rpackets_ok c98_packets).
  { cbn [rpackets_ok c98_packets rpacket_ok has_end]. unfold id_ok, number_ok, data_ok, vi_ok, bytes_ok, byte_ok.
    repeat match goal with
           | |- _ /\ _ => split
           | |- Forall _ _ => constructor
           | |- _ <> [] -> _ => let X := fresh in intros X; try (exfalso; apply X; reflexivity)
           end; try exact I; try reflexivity; try discriminate; try (cbn; lia); try (vm_compute; intuition congruence). }
  cbv zeta. split; [exact N |]. split; [split; [repeat constructor; vm_compute; intuition congruence | vm_compute; reflexivity] |].
  split; [rewrite C98_packets_recovered_source; [reflexivity | exact N | vm_compute; reflexivity | apply PeanoNat.Nat.ltb_lt; vm_compute; reflexivity] |].
  split; [vm_compute; reflexivity |].
  split; [refine (eq_trans (proj2 (proj2 (proj2 (proj2 (proj2 (proj2 (proj2 (proj2 (C98_packet_source dbg 1 (Quic QInitial (rpackets_bytes c98_packets))))))))))) _); vm_compute; reflexivity |].
  split; [rewrite C98_packets_source; [vm_compute; reflexivity | split; [repeat constructor; vm_compute; intuition congruence | vm_compute; reflexivity] | apply PeanoNat.Nat.ltb_lt; vm_compute; reflexivity] |].
  split; [vm_compute; reflexivity |].
  split; [cbn; unfold vi_ok; cbn; intuition (try lia; auto) |]. split; [repeat constructor |].
  repeat match goal with
         | |- run _ _ _ "Frame::new" _ = _ /\ _ =>
             split; [rewrite C98_frames_source; [vm_compute; reflexivity | split; [repeat constructor; vm_compute; intuition congruence | vm_compute; reflexivity] | apply PeanoNat.Nat.ltb_lt; vm_compute; reflexivity] |]
         end.
  split; [refine (eq_trans (proj2 (proj2 (proj2 (C98_frame_source dbg 1 (Frame FMaxData [16; 64; 200] 0))))) _); vm_compute; reflexivity |]. vm_compute. reflexivity.
Qed.

(** Property C87: from a datagram to the frames of its packets. *)
From Coq Require Import String ZArith List Bool Lia.
From Verif Require Import Base BitSpec DeriveUtil DeriveOps DeriveGen SpecPacket Protocols Quic SpecQuic SpecQuicEnd Samples QuicEndProofs.
Import ListNotations.
Open Scope Z_scope.

(** ** C87: everything a sender put into a datagram reaches the receiver *)

Theorem C87_datagram_to_frames : forall c l fss, rpackets_ok l -> Forall2 carries l fss -> blen (rpackets_bytes l) < 2 ^ 61 ->
  exists qs, quic_new c (rpackets_bytes l) = Ok (Some qs) /\ Forall2 (delivers c) qs fss.
Proof. exact datagram_to_frames. Qed.
Print Assumptions C87_datagram_to_frames.

(** A coalesced datagram: an Initial packet with a CRYPTO frame and padding, and a
    short packet with a stream frame. *)
Definition c87_frames : list (option (list rframe)) :=
  [Some [RCrypto (VI 1 0) (VI 1 3) [22; 3; 1]; RPadding; RPadding]; Some [RPing; RStream true (VI 1 4) None None [104; 105]]].
Definition c87_packets : list rpacket :=
  [RLong QInitial 0 1 [1; 2] [3] (Some (VI 1 0, [])) (VI 2 9) [7] [6; 0; 3; 22; 3; 1; 0; 0];
   ROneRtt 0 [1; 2; 3; 4; 5; 6; 7; 8] [2; 1] [1; 9; 4; 104; 105]].
Example C87_case : rpackets_ok c87_packets /\ Forall2 carries c87_packets c87_frames /\
  rmap (option_map (fun qs => map (fun q => rmap (option_map (frame_new dbg)) (quic_frames dbg q)) qs))
    (quic_new dbg (rpackets_bytes c87_packets)) =
  Ok (Some [Ok (Some (Ok (Some [Frame FCrypto [6; 0; 3; 22; 3; 1; 0; 0] 0; Frame FPadding [0; 0] 2])));
            Ok (Some (Ok (Some [Frame FPing [1; 9; 4; 104; 105] 0; Frame FStream [9; 4; 104; 105] 0])))]).
Proof.
  split; [|split; [|vm_compute; reflexivity]].
  - cbn [rpackets_ok c87_packets rpacket_ok has_end]. unfold id_ok, number_ok, data_ok, vi_ok, bytes_ok, byte_ok.
    repeat match goal with
           | |- _ /\ _ => split
           | |- Forall _ _ => constructor
           | |- _ \/ _ => vm_compute; tauto
           | |- _ -> _ => intros
           end; try reflexivity; try congruence; try (vm_compute; intuition congruence).
  - unfold c87_packets, c87_frames.
    repeat match goal with |- Forall2 _ _ _ => constructor end; cbn [carries rpayload];
    (split; [reflexivity|split; [|repeat constructor]]);
    cbn [rframes_ok rframe_ok opt_ok]; unfold data_ok, vi_ok, bytes_ok, byte_ok;
    repeat match goal with
           | |- _ /\ _ => split
           | |- Forall _ _ => constructor
           end; try reflexivity; try (vm_compute; intuition congruence).
Qed.

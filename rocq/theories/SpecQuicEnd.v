(** Datagrams of packets whose payloads are sequences of frames. *)
From Coq Require Import ZArith List Bool.
From Verif Require Import Base BitSpec DeriveUtil DeriveOps DeriveGen Quic SpecQuic.
Import ListNotations.
Open Scope Z_scope.

(** The bytes of a packet that hold frames; Retry and Version Negotiation
    packets have none. *)
Definition rpayload (p : rpacket) : option buf :=
  match p with
  | RLong _ _ _ _ _ _ _ _ f => Some f
  | ROneRtt _ _ _ f => Some f
  | RRetry _ _ _ _ _ | RNegotiation _ _ _ _ => None
  end.
(** The payload of [p] was written as the frames [fs]. *)
Definition carries (p : rpacket) (fs : option (list rframe)) : Prop :=
  match fs with
  | Some l => rpayload p = Some (rencodes l) /\ rframes_ok l /\ Forall no_ranges l
  | None => rpayload p = None
  end.
(** A reader that asks a packet for its payload and parses it gets the frames. *)
Definition delivers (c : cfg) (q : quic) (fs : option (list rframe)) : Prop :=
  match fs with
  | Some l => exists f, quic_frames c q = Ok (Some f) /\ frame_new c f = Ok (Some (grouped l))
  | None => quic_frames c q = Ok None
  end.

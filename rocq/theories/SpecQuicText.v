(** Specification of what printing a QUIC packet shows. *)
From Coq Require Import String Ascii ZArith List Bool.
From Verif Require Import Base BitSpec Quic SpecQuic Names EmitText.
Import ListNotations.
Open Scope string_scope.
Open Scope Z_scope.

Definition line (s : string) : string := s ++ String "010" "".
Definition byte_list (l : buf) : string := "[" ++ String.concat ", " (map dec l) ++ "]".
(** The printed form of a packet as its sender made it. *)
Definition packet_text (p : rpacket) : string :=
  match p with
  | RLong k _ v d s t _ n f =>
      line ("packet-type: " ++ match k with QInitial => "initial" | QZeroRtt => "0rtt" | _ => "handshake" end) ++
      line ("quic-version: " ++ version_display v) ++
      match t with Some (_, t) => line ("token: " ++ byte_list t) | None => "" end ++
      line ("packet-number: " ++ dec (be_val n)) ++
      line ("dest-id: " ++ byte_list d) ++ line ("src-id: " ++ byte_list s) ++
      line ("payload: " ++ dec (blen f))
  | RRetry _ v d s _ =>
      line "packet-type: retry" ++ line ("quic-version: " ++ version_display v) ++
      line ("dest-id: " ++ byte_list d) ++ line ("src-id: " ++ byte_list s)
  | RNegotiation _ d s _ =>
      line "packet-type: version-negotiation" ++
      line ("dest-id: " ++ byte_list d) ++ line ("src-id: " ++ byte_list s)
  | ROneRtt _ d n p =>
      line "packet-type: 1rtt" ++ line ("packet-number: " ++ dec (be_val n)) ++
      line ("dest-id: " ++ byte_list d) ++ line ("payload: " ++ dec (blen p))
  end.

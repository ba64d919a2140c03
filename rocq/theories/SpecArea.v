(** Where the payload of the fixed-header packets lies, and the list of
    neighbour discovery options (RFC 4861 4.6). *)
From Coq Require Import String ZArith List Bool.
From Verif Require Import Base BitSpec DeriveOps DeriveGen.
Import ListNotations.
Open Scope Z_scope.

(** ** Payloads *)

(** Everything after the header; nothing; as many octets as a field of the
    header (position and width in bits) says. *)
Inductive area := ToEnd | Nothing | Counted (off w : nat).
Definition area_len (a : area) (b : buf) : Z :=
  match a with ToEnd => blen b | Nothing => 0 | Counted o w => field_val b o w end.
(** The part of it that packet_size() adds to the header. *)
Definition area_size (a : area) (b : buf) : Z :=
  match a with ToEnd => 0 | _ => area_len a b end.

(** Protocol, octets of the header, name of the payload field, payload. *)
Local Open Scope string_scope.
Definition areas : list (string * Z * string * area) :=
  [("Ethernet", 14, "payload", ToEnd); ("Vlan", 4, "payload", ToEnd); ("Arp", 28, "payload", Nothing);
   ("Ipv6", 40, "payload", Counted 32 16); ("Fragment", 8, "payload", Nothing); ("Udp", 8, "payload", ToEnd);
   ("U16BE", 2, "unused", Nothing); ("U32BE", 4, "unused", Nothing);
   ("Icmp", 4, "payload", ToEnd); ("EchoReply", 8, "payload", ToEnd); ("EchoRequest", 8, "payload", ToEnd);
   ("DestinationUnreachable", 8, "payload", ToEnd); ("TimeExceeded", 8, "payload", ToEnd);
   ("Icmpv6", 4, "payload", ToEnd); ("RouterSolicit", 8, "payload", Nothing);
   ("RouterAdvert", 16, "payload", Nothing); ("NeighborSolicit", 24, "payload", Nothing);
   ("NeighborAdvert", 24, "payload", Nothing); ("Redirect", 40, "payload", Nothing)].
(** The messages of neighbour discovery: after the header come options. *)
Definition ndp_messages : list (string * Z) :=
  [("RouterSolicit", 8); ("RouterAdvert", 16); ("NeighborSolicit", 24); ("NeighborAdvert", 24); ("Redirect", 40)].
(** The packets with further variable parts (C42-C50, C53). *)
Definition variable_packets : list string :=
  ["Ipv4Option"; "Ipv4"; "Extension"; "Routing"; "TcpOption"; "Tcp"; "Gre"; "NdpOption"].
Local Close Scope string_scope.

(** ** Neighbour discovery options *)

(** Type, length in units of eight octets, data up to the end of the option or
    of the area.  As in the crate, a length of zero is taken for two octets and
    a single octet at the end is ignored. *)
Definition ndp_mk (t n : Z) (data : list Z) : list val := [VTup [t]; VInt n; VBytes data].
(** [octets n] is the size of an option that says [n]. *)
Section NdpList.
Variable octets : Z -> Z.
Variable good : Z -> Prop.
Inductive ndp_opts : buf -> list (list val) -> Prop :=
| ndp_end : forall s, blen s < 2 -> ndp_opts s []
| ndp_more : forall t n r l, good n -> ndp_opts (skipn (Z.to_nat (octets n - 2)) r) l ->
    ndp_opts (t :: n :: r) (ndp_mk t n (firstn (Z.to_nat (octets n - 2)) r) :: l).
(** Walking the options meets one whose length is not [good]. *)
Inductive ndp_bad : buf -> Prop :=
| bad_here : forall t n r, ~ good n -> ndp_bad (t :: n :: r)
| bad_later : forall t n r, good n -> ndp_bad (skipn (Z.to_nat (octets n - 2)) r) -> ndp_bad (t :: n :: r).
End NdpList.

(** Well-formed options (RFC 4861 4.6): type, units, data filling the units. *)
Definition ndp_parts : Type := Z * Z * buf.
Definition ndp_good (o : ndp_parts) : Prop :=
  let '(t, n, d) := o in 0 <= t < 256 /\ 1 <= n < 32 /\ bytes_ok d /\ blen d = 8 * n - 2.
Definition ndp_struct (o : ndp_parts) : list val := let '(t, n, d) := o in ndp_mk t n d.
Definition ndp_bytes (o : ndp_parts) : buf := let '(t, n, d) := o in t :: n :: d.

(** Debug builds: options of up to 31 units.  Release builds: the size is
    computed modulo 256. *)
Definition octets_checked (n : Z) : Z := 8 * n.
Definition units_checked (n : Z) : Prop := n < 32.
Definition octets_wrapped (n : Z) : Z := 8 * (n mod 32).
Definition units_wrapped (n : Z) : Prop := True.

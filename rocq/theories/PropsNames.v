(** Property C67: the names printed for protocol numbers. *)
From Coq Require Import String ZArith List Bool Lia.
From Verif Require Import Base DeriveUtil DeriveOps DeriveGen Quic Names SpecQuic SpecNames Samples NamesProofs.
Import ListNotations.
Open Scope Z_scope.

(** ** Named constants print their own name; Ipv6Icmp is a deprecated alias *)

Theorem C67_ethertype_constants : forall n v, In (n, v) ethertype_consts -> ethertype_name v = n.
Proof. exact ethertype_consts_printed. Qed.
Print Assumptions C67_ethertype_constants.

Theorem C67_ip_constants : forall n v, In (n, v) ip_consts ->
  ip_name v = n \/ (n = "Ipv6Icmp"%string /\ v = 58 /\ ip_name v = "Icmpv6"%string).
Proof. exact ip_consts_printed. Qed.
Print Assumptions C67_ip_constants.

(** ** Two values never share a name *)

Theorem C67_ethertypes_unambiguous : forall v w, ethertype_name v = ethertype_name w ->
  v = w \/ (ethertype_name v = "unknown"%string /\ ethertype_name w = "unknown"%string).
Proof. exact ethertype_pairs. Qed.
Print Assumptions C67_ethertypes_unambiguous.

Theorem C67_ip_unambiguous : forall v w, ip_name v = ip_name w ->
  v = w \/ (ip_name v = "unknown"%string /\ ip_name w = "unknown"%string).
Proof. exact ip_pairs. Qed.
Print Assumptions C67_ip_unambiguous.

(** ** The names are those of the registries *)

Theorem C67_ethertypes_assigned : forall v s, ethertype_name v = s <->
  In (v, s) assigned_ethertypes \/ (s = "unknown"%string /\ ~ In v (map fst assigned_ethertypes)).
Proof. exact ethertype_assigned. Qed.
Print Assumptions C67_ethertypes_assigned.

Theorem C67_ip_iana : forall v, 0 <= v <= 255 -> right_ip_name v (ip_name v).
Proof. exact ip_iana. Qed.
Print Assumptions C67_ip_iana.

Theorem C67_frames_rfc : forall t,
  (forall lo hi n, In (lo, hi, n) rfc_frames -> lo <= t <= hi -> frame_type_name t = dashed n) /\
  ((forall lo hi n, In (lo, hi, n) rfc_frames -> ~ lo <= t <= hi) -> frame_type_name t = "unknown"%string).
Proof. exact frame_rfc. Qed.
Print Assumptions C67_frames_rfc.

(** ** Frame types share a name exactly when Frame::new gives them the same variant *)

Theorem C67_frame_names_are_variants : forall t u, frame_type_name t = frame_type_name u <-> frame_kind_of t = frame_kind_of u.
Proof. exact frame_names_kinds. Qed.
Print Assumptions C67_frame_names_are_variants.

Theorem C67_parsed_frames_print_their_name : forall c b l f, dgram b -> frame_new c b = Ok (Some l) -> In f l ->
  exists t r, fr_buf f = t :: r /\ byte_ok t /\ frame_kind_of t = Some (fr_kind f) /\ frame_ty c f = Ok t /\
    frame_display c f = Ok (frame_type_name t) /\ frame_type_name t <> "unknown"%string.
Proof. exact frames_display. Qed.
Print Assumptions C67_parsed_frames_print_their_name.

(** ** Packet types, header bits and versions *)

Theorem C67_long_packet_types : forall v, 0 <= v <= 3 ->
  long_type_name v = nth (Z.to_nat v) ["initial"; "0-rtt"; "handshake"; "retry"]%string "unknown"%string.
Proof. exact long_types. Qed.
Print Assumptions C67_long_packet_types.

Theorem C67_header_bits : forall v, 0 <= v <= 1 ->
  header_form_name v = (if (v =? 0)%Z then "short" else "long")%string /\ (fixed_bit_name v = "1"%string <-> v = 1).
Proof. exact header_bits. Qed.
Print Assumptions C67_header_bits.

Theorem C67_version_text : forall v, 0 <= v < 2 ^ 32 -> exists s, version_display v = ("0x" ++ s)%string /\
  String.length s = 8%nat /\ numeral_value 0 s = Some v.
Proof. exact version_text. Qed.
Print Assumptions C67_version_text.

Example C67_case :
  (In ("Ipv6Icmp", 58) ip_consts /\ In ("Icmpv6", 58) ip_consts /\ ip_name 58 = "Icmpv6")%string /\
  map ethertype_name [2048; 34525; 33024; 2049] = ["Ipv4"; "Ipv6"; "Vlan"; "unknown"]%string /\
  map ip_name [0; 6; 39; 84; 142; 143; 255] = ["Hopopt"; "Tcp"; "TpPlusPlus"; "TtpOrIptm"; "Rohc"; "unknown"; "Reserved"]%string /\
  map frame_type_name [0; 2; 3; 15; 30; 31] = ["padding"; "ack"; "ack"; "stream"; "handshake-done"; "unknown"]%string /\
  version_display 4278190109 = "0xff00001d"%string /\ version_display 1 = "0x00000001"%string /\
  (exists l f, frame_new dbg [0; 0; 15; 4; 0; 1; 7] = Ok (Some l) /\ In f l /\ frame_display dbg f = Ok "stream"%string).
Proof.
  split; [repeat split; [cbn; do 58 right; left; reflexivity|cbn; do 59 right; left; reflexivity]|].
  split; [reflexivity|]. split; [reflexivity|]. split; [reflexivity|]. split; [reflexivity|]. split; [reflexivity|].
  eexists. eexists. split; [vm_compute; reflexivity|]. split; [right; left; reflexivity|vm_compute; reflexivity].
Qed.

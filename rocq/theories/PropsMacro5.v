(** Property C103: what [populate], [packet_size] and [from_packet] of any struct consist of. *)
From Coq Require Import String ZArith List Bool Lia.
From Verif Require Import Base DeriveUtil DeriveOps DeriveParse RustLex RustSyntax RustItem SpecItem EmitText EmitGen SpecEmit GenCode MacroEval SpecAny MacroFine SpecBody MacroBody.
Import ListNotations.
Open Scope string_scope.
Open Scope Z_scope.

(** [populate] calls the setter of every field once, in the order of the struct, with that
    field of its argument, and does nothing else. *)
Theorem C103_populate : forall m host_le base ps, all_bits ps < 2 ^ 64 -> all_fine 0 [] ps -> all_code 0 ps ->
  exists before im after, expand m host_le base ps = Some (inl (before ++ im ++ after)%list) /\
    impl_holds ("Mutable" ++ base ++ "Packet") (populate_fn base ps) im.
Proof. exact any_populate. Qed.
Print Assumptions C103_populate.

(** [minimum_packet_size] of both types returns the bits of the fields in bytes, rounded up;
    [packet_size] the same rounded down, plus the lengths of the lists of its argument. *)
Theorem C103_sizes : forall m host_le base ps, all_bits ps < 2 ^ 64 -> all_fine 0 [] ps -> all_code 0 ps ->
  exists before i im after, expand m host_le base ps = Some (inl (before ++ i ++ im ++ after)%list) /\
    (impl_holds (base ++ "Packet") (minimum_fn ((all_bits ps + 7) / 8)) i /\ impl_holds (base ++ "Packet") (packet_size_fn base ps) i) /\
    (impl_holds ("Mutable" ++ base ++ "Packet") (minimum_fn ((all_bits ps + 7) / 8)) im /\ impl_holds ("Mutable" ++ base ++ "Packet") (packet_size_fn base ps) im).
Proof. exact any_sizes. Qed.
Print Assumptions C103_sizes.

(** [from_packet] of both types fills every field with what its getter returns. *)
Theorem C103_from_packet : forall m host_le base ps, all_bits ps < 2 ^ 64 -> all_fine 0 [] ps -> all_code 0 ps ->
  exists before after, expand m host_le base ps =
    Some (inl (before ++ from_packet_impl (base ++ "Packet") base ps ++ from_packet_impl ("Mutable" ++ base ++ "Packet") base ps ++ after)%list).
Proof. exact any_from_packet. Qed.
Print Assumptions C103_from_packet.

(** So [packet_size] is not always at least [minimum_packet_size]: with an empty [body] it is 0
    here, and a buffer of that size is refused by [new]. *)
Theorem C103_size_at_least_minimum_refuted : exists text name sf ps,
  read_struct text = Some (name, sf) /\ parse_packet sf = Ok (inl ps) /\ forall m host_le, exists before i after,
    expand m host_le name ps = Some (inl (before ++ i ++ after)%list) /\
    impl_holds (name ++ "Packet") (trees_of "pub const fn minimum_packet_size() -> usize { 1usize }") i /\
    impl_holds (name ++ "Packet") (trees_of "pub fn packet_size(_packet: &Half) -> usize { 0usize + _packet.body.len() }") i.
Proof. exact short_size. Qed.
Print Assumptions C103_size_at_least_minimum_refuted.

(** A struct with a constructed field, two lists and a payload. *)
Definition c103_text : string :=
"pub struct Probe {
    #[construct_with(u8)]
    pub kind: Kind,
    pub count: u8,
    #[length = ""count * 2""]
    pub words: Vec<u16be>,
    #[payload]
    pub body: Vec<u8>,
}".
Definition c103_fields : list pfield :=
  match read_struct c103_text with Some (_, sf) => match parse_packet sf with Ok (inl ps) => ps | _ => [] end | None => [] end.
Example C103_case :
  all_bits c103_fields < 2 ^ 64 /\ all_fine 0 [] c103_fields /\ all_code 0 c103_fields /\
  populate_fn "Probe" c103_fields = trees_of
    "pub fn populate(&mut self, packet: &Probe) { self.set_kind(packet.kind); self.set_count(packet.count); self.set_words(&packet.words); self.set_body(&packet.body); }" /\
  packet_size_fn "Probe" c103_fields = trees_of "pub fn packet_size(_packet: &Probe) -> usize { 2usize + _packet.words.len() + _packet.body.len() }" /\
  minimum_fn ((all_bits c103_fields + 7) / 8) = trees_of "pub const fn minimum_packet_size() -> usize { 2usize }" /\
  from_packet_impl "ProbePacket" "Probe" c103_fields = trees_of
    "impl<'p> libpacket_core::FromPacket for ProbePacket<'p> { type T = Probe; #[inline] fn from_packet(&self) -> Probe {
       use libpacket_core::Packet; Probe { kind: self.get_kind(), count: self.get_count(), words: self.get_words(), body: self.get_body(), } } }".
Proof.
  destruct (covered_ok c103_fields) as (B & F & C); [vm_cast_no_check (eq_refl true) |].
  split; [exact B |]. split; [exact F |]. split; [exact C |]. repeat split; vm_compute; reflexivity.
Qed.

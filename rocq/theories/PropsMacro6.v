(** Property C104: where [payload] of any struct starts and ends, and [PacketSize]. *)
From Coq Require Import String ZArith List Bool Lia.
From Verif Require Import Base DeriveUtil DeriveOps DeriveParse RustLex RustSyntax RustItem SpecItem EmitText EmitGen SpecEmit GenCode MacroEval SpecAny MacroFine SpecBody SpecPay MacroPay.
Import ListNotations.
Open Scope string_scope.
Open Scope Z_scope.

(** [payload] of both types and [payload_mut] start after the fields before the payload: their
    fixed bits in whole bytes plus the lengths they declare; fields behind it do not matter. *)
Theorem C104_payload : forall m host_le base a p b, let ps := (a ++ p :: b)%list in
  all_bits ps < 2 ^ 64 -> all_fine 0 [] ps -> all_code 0 ps -> pf_payload p = true -> Forall (fun q => pf_payload q = false) b ->
  exists before i j k after, expand m host_le base ps = Some (inl (before ++ i ++ j ++ k ++ after)%list) /\
    trait_holds "Packet" (base ++ "Packet") (payload_fn (place a) (payload_end a p)) i /\
    trait_holds "Packet" ("Mutable" ++ base ++ "Packet") (payload_fn (place a) (payload_end a p)) j /\
    trait_holds "MutablePacket" ("Mutable" ++ base ++ "Packet") (payload_mut_fn (place a) (payload_end a p)) k.
Proof. exact any_payload. Qed.
Print Assumptions C104_payload.

(** [PacketSize::packet_size] of both types: the fixed bits in whole bytes plus all declared
    lengths. *)
Theorem C104_packet_size : forall m host_le base ps, all_bits ps < 2 ^ 64 -> all_fine 0 [] ps -> all_code 0 ps ->
  exists before i j after, expand m host_le base ps = Some (inl (before ++ i ++ j ++ after)%list) /\
    trait_holds "PacketSize" (base ++ "Packet") (sized_fn (place ps)) i /\
    trait_holds "PacketSize" ("Mutable" ++ base ++ "Packet") (sized_fn (place ps)) j.
Proof. exact any_sized. Qed.
Print Assumptions C104_packet_size.

(** If the payload is the last field and has no length, it is what [packet_size] leaves of the
    buffer: [payload] starts at the very expression [packet_size] returns. *)
Theorem C104_payload_after_packet_size : forall m host_le base a p t, let ps := (a ++ [p])%list in
  all_bits ps < 2 ^ 64 -> all_fine 0 [] ps -> all_code 0 ps -> pf_payload p = true -> pf_ty p = RVector t -> pf_len p = None ->
  exists before i j k u v after size, expand m host_le base ps = Some (inl (before ++ i ++ j ++ k ++ u ++ v ++ after)%list) /\
    trait_holds "Packet" (base ++ "Packet") (payload_fn size (trees_of "self.packet.len()")) i /\
    trait_holds "Packet" ("Mutable" ++ base ++ "Packet") (payload_fn size (trees_of "self.packet.len()")) j /\
    trait_holds "MutablePacket" ("Mutable" ++ base ++ "Packet") (payload_mut_fn size (trees_of "self.packet.len()")) k /\
    trait_holds "PacketSize" (base ++ "Packet") (sized_fn size) u /\
    trait_holds "PacketSize" ("Mutable" ++ base ++ "Packet") (sized_fn size) v.
Proof. exact any_whole. Qed.
Print Assumptions C104_payload_after_packet_size.

(** The payload need not lie behind the other fields: after four bits it starts at byte 0. *)
Theorem C104_payload_behind_fields_refuted : exists text name sf ps,
  read_struct text = Some (name, sf) /\ parse_packet sf = Ok (inl ps) /\ forall m host_le, exists before i after,
    expand m host_le name ps = Some (inl (before ++ i ++ after)%list) /\ all_bits ps = 4 /\
    trait_holds "Packet" (name ++ "Packet") (payload_fn (trees_of "0usize") (trees_of "self.packet.len()")) i.
Proof. exact shared_byte. Qed.
Print Assumptions C104_payload_behind_fields_refuted.

(** A struct with a length given by a field and one given by a function of it. *)
Definition c104_text : string :=
"pub struct Probe {
    pub kind: u16be,
    pub count: u8,
    #[length = ""count""]
    pub words: Vec<u8>,
    #[length = ""parts_length(count)""]
    pub parts: Vec<Part>,
    #[payload]
    pub body: Vec<u8>,
}".
Definition c104_fields : list pfield :=
  match read_struct c104_text with Some (_, sf) => match parse_packet sf with Ok (inl ps) => ps | _ => [] end | None => [] end.
Example C104_case :
  all_bits c104_fields < 2 ^ 64 /\ all_fine 0 [] c104_fields /\ all_code 0 c104_fields /\
  map pf_payload c104_fields = [false; false; false; false; true] /\ map pf_len (skipn 4 c104_fields) = [None] /\
  place c104_fields = place (firstn 4 c104_fields) /\
  sized_fn (place c104_fields) = trees_of "fn packet_size(&self) -> usize { 3usize + (self.get_count()) as usize + (parts_length(self.get_count())) as usize }".
Proof.
  destruct (covered_ok c104_fields) as (B & F & C); [vm_cast_no_check (eq_refl true) |].
  split; [exact B |]. split; [exact F |]. split; [exact C |]. repeat (split; [vm_compute; reflexivity |]). vm_compute. 
  reflexivity.
Qed.

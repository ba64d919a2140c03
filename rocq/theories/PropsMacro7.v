(** Property C105: [Debug] and the iterator of any struct. *)
From Coq Require Import String ZArith List Bool Lia.
From Verif Require SpecFmt.
From Verif Require Import Base DeriveUtil DeriveOps DeriveParse FmtText RustLex RustSyntax RustItem SpecItem EmitText EmitGen SpecEmit GenCode MacroEval SpecAny MacroFine SpecDbg MacroDbg.
Import ListNotations.
Open Scope string_scope.
Open Scope Z_scope.

(** The last two items are [Debug] of the two types. They call the getter of every field but
    the payload, in order, and print [Name { a : x, b : y,  }] with the texts of the values. *)
Theorem C105_debug : forall m host_le base ps, all_bits ps < 2 ^ 64 -> all_fine 0 [] ps -> all_code 0 ps ->
  SpecFmt.ident base -> Forall SpecFmt.ident (visible ps) ->
  exists before f fm, expand m host_le base ps =
      Some (inl (before ++ debug_impl (base ++ "Packet") f (visible ps) ++ debug_impl ("Mutable" ++ base ++ "Packet") fm (visible ps))%list) /\
    forall texts, length texts = length (visible ps) ->
      format f texts = Some (SpecFmt.printed (base ++ "Packet") (combine (visible ps) texts)) /\
      format fm texts = Some (SpecFmt.printed ("Mutable" ++ base ++ "Packet") (combine (visible ps) texts)).
Proof. exact any_debug. Qed.
Print Assumptions C105_debug.

(** The iterator of every struct is the same but for the names. *)
Theorem C105_iterator : forall m host_le base ps, all_bits ps < 2 ^ 64 -> all_fine 0 [] ps -> all_code 0 ps ->
  exists before after, expand m host_le base ps = Some (inl (before ++ iterator_items (base ++ "Iterable") (base ++ "Packet") ++ after)%list).
Proof. exact any_iterator. Qed.
Print Assumptions C105_iterator.

Definition c105_text : string :=
"pub struct Probe {
    #[construct_with(u8)]
    pub kind: Kind,
    #[length = ""kind_length(kind)""]
    #[payload]
    pub body: Vec<u8>,
    #[length = ""2""]
    pub tail: Vec<u8>,
}".
Definition c105_fields : list pfield :=
  match read_struct c105_text with Some (_, sf) => match parse_packet sf with Ok (inl ps) => ps | _ => [] end | None => [] end.
Example C105_case :
  all_bits c105_fields < 2 ^ 64 /\ all_fine 0 [] c105_fields /\ all_code 0 c105_fields /\ SpecFmt.ident "Probe" /\ Forall SpecFmt.ident (visible c105_fields) /\
  visible c105_fields = ["kind"; "tail"] /\
  SpecFmt.printed "ProbePacket" (combine (visible c105_fields) ["Kind(7)"; "[1, 2]"]) = "ProbePacket { kind : Kind(7), tail : [1, 2],  }" /\
  debug_impl "ProbePacket" "%" (visible c105_fields) = trees_of
    ("impl<'p> std::fmt::Debug for ProbePacket<'p> { #[cfg_attr(feature = " ++ dq ++ "clippy" ++ dq ++ ", allow(used_underscore_binding))]
       fn fmt(&self, fmt: &mut std::fmt::Formatter) -> std::fmt::Result { write!(fmt, " ++ dq ++ "%" ++ dq ++ ", self.get_kind(), self.get_tail(),) } }").
Proof.
  destruct (covered_ok c105_fields) as (B & F & C); [vm_cast_no_check (eq_refl true) |].
  split; [exact B |]. split; [exact F |]. split; [exact C |]. split; [vm_compute; reflexivity |]. split; [| repeat split; vm_compute; reflexivity].
  change (visible c105_fields) with ["kind"; "tail"]. repeat constructor; vm_compute; reflexivity.
Qed.

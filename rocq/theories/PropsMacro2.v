(** Property C99: the functions of the derive crate that assemble the emitted code, run from
    their source text on every struct of the crate, emit the code C88, C93, C94 and C95 are
    about. *)
From Coq Require Import String ZArith List Bool Lia.
From Verif Require Import Base DeriveUtil DeriveOps DeriveGen DeriveParse Protocols Quic FmtText Samples
  RustLex RustSyntax RustItem RustSem RustMethod RustExec CrateText SpecItem EmitText EmitGen SpecEmit GenCode MacroEval SpecMacro MacroRun.
Import ListNotations.
Open Scope string_scope.
Open Scope Z_scope.

(** [generate_packet] emits, in this order and nothing else: the two structs; their
    inherent implementations; [Packet] for both and [MutablePacket] for the mutable one;
    [PacketSize] for both; the iterator; [FromPacket] for both; [Debug] for both, with the
    format string and the getters of the fields that are not the payload. *)
Theorem C99_expansion_source : forall c name fs mod_ ps, In (name, fs) (all_packets c) -> parsed mod_ name ps ->
  exists i im p pm pmm z d dm,
    emit_impl (c_macro c) (c_host_le c) false name ps = Some i /\
    emit_impl (c_macro c) (c_host_le c) true name ps = Some im /\
    emit_packet (c_macro c) (c_host_le c) name ps false false = Some p /\
    emit_packet (c_macro c) (c_host_le c) name ps true false = Some pm /\
    emit_packet (c_macro c) (c_host_le c) name ps true true = Some pmm /\
    emit_size (c_macro c) (c_host_le c) name ps = Some z /\
    want_debug name false ps = Some d /\ want_debug name true ps = Some dm /\
    expand (c_macro c) (c_host_le c) name ps =
      Some (inl (want_struct name false ++ want_struct name true ++ i ++ im ++ p ++ pm ++ pmm ++ z ++
                 emit_iterable name ++ emit_converters name ps ++ d ++ dm)%list).
Proof. exact expansion_parts. Qed.
Print Assumptions C99_expansion_source.

(** From the text of the macro to the bytes of a packet: the getter of a field, found in
    what the macro emits, returns what the model says on every buffer. *)
Theorem C99_getters_source : forall c name fs mod_ ps, In (name, fs) (all_packets c) -> parsed mod_ name ps ->
  forall mutable p, In p ps ->
  exists before impl after ms me,
    expand (c_macro c) (c_host_le c) name ps = Some (inl (before ++ impl ++ after)%list) /\
    read_impls impl = Some [ms] /\ find_meth ("get_" ++ pf_name p) ms = Some me /\
    forall rounds b, buf_ok b ->
      reads (run_meth c rounds mod_ name mutable ps fs me [VSelf] b) b (get c fs (pf_name p) b) (shows p).
Proof. exact expanded_getters. Qed.
Print Assumptions C99_getters_source.

(** VLAN tags meet the hypotheses; the tokens of their [Debug]; structs the macro rejects. *)
Definition c99_vlan : list pfield :=
  match read_struct struct_Vlan with Some (_, sf) => match parse_packet sf with Ok (inl ps) => ps | _ => [] end | None => [] end.
Definition c99_field (t : rtype) (cons : list rtype) : list pfield := [PField "x" t None false false cons].
Example C99_case :
  In ("Vlan", vlan) (all_packets dbg) /\ parsed "vlan" "Vlan" c99_vlan /\ List.length c99_vlan = 5%nat /\
  (exists before, want_debug "Vlan" true c99_vlan =
     Some (trees_of (before ++ "{ write!(fmt, " ++
       in_quotes "MutableVlanPacket {{ priority_code_point : {:?}, drop_eligible_indicator : {:?}, vlan_identifier : {:?}, ethertype : {:?},  }}" ++
       ", self.get_priority_code_point(),self.get_drop_eligible_indicator(),self.get_vlan_identifier(),self.get_ethertype(),) } }"))) /\
  map (fun ps => expand Checked true "X" ps)
      [c99_field (RVector (RPrimitive "u4" 4 Big)) []; c99_field (RVector (RVector (RPrimitive "u8" 8 Big))) [];
       c99_field (RMisc "T") [RMisc "U"]] =
    [Some (inr "unimplemented variable length field"); Some (inr "variable length fields may not contain vectors");
     Some (inr "arguments to #[construct_with] must be primitives")].
Proof.
  split; [apply (nth_error_In _ 1); reflexivity |].
  split; [exists struct_Vlan; eexists; split; [exact (nth_error_In crate_structs 1 eq_refl) |]; split; vm_compute; reflexivity |].
  split; [vm_compute; reflexivity |].
  split; [exists ("impl<'p> std::fmt::Debug for MutableVlanPacket<'p> { #[cfg_attr(feature = " ++ in_quotes "clippy" ++
                  ", allow(used_underscore_binding))] fn fmt(&self, fmt: &mut std::fmt::Formatter) -> std::fmt::Result "); vm_compute; reflexivity |].
  vm_compute. reflexivity.
Qed.

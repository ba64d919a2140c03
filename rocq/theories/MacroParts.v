(** The parts of the emitted code from the fields gone through once. *)
From Coq Require Import String Ascii ZArith List Bool.
From Verif Require Import Base DeriveUtil DeriveOps DeriveParse RustLex EmitText EmitGen.
Import ListNotations.
Open Scope string_scope.
Open Scope Z_scope.

Definition size_from (base : string) (s : emitted) : list ttree :=
  quote tpl_size_impls [("name", ident (type_name base false)); ("name_mut", ident (type_name base true));
                        ("size", HOne (offset_tokens (e_bit s) (e_offs s)))].
Definition packet_from (base : string) (of_mut mutable : bool) (s : emitted) : list ttree :=
  quote tpl_packet_trait
    [("name", ident (type_name base of_mut)); ("lower", HOne (e_lower s)); ("upper", HOne (e_upper s));
     ("mut_", HOne (if mutable then [TIdent "mut"] else []));
     ("packet", ident (if mutable then "packet_mut" else "packet"));
     ("payload", ident (if mutable then "payload_mut" else "payload"));
     ("trait_name", ident (if mutable then "MutablePacket" else "Packet"))].
Definition impl_from (base : string) (mutable : bool) (s : emitted) : list ttree :=
  let byte_size := if e_bit s mod 8 =? 0 then e_bit s / 8 else e_bit s / 8 + 1 in
  let populate := if mutable then quote tpl_populate [("base_name", ident base); ("populate", HMany (e_pop s))] else [] in
  quote tpl_impl
    [("name", ident (type_name base mutable)); ("imm_name", ident (type_name base false)); ("base_name", ident base);
     ("mut_", HOne (if mutable then [TIdent "mut"] else []));
     ("packet_data", ident (if mutable then "MutPacketData" else "PacketData"));
     ("byte_size", HOne (usize_lit byte_size)); ("struct_size", HOne (offset_tokens (e_bit s) (e_soffs s)));
     ("populate", HOne populate); ("accessors", HMany (e_acc s)); ("mutators", HMany (if mutable then e_mut s else []))].
Lemma impl_is : forall m h mu base ps, emit_impl m h mu base ps = option_map (impl_from base mu) (emit_fields m h (type_name base mu) ps start).
Proof. intros. unfold emit_impl. destruct (emit_fields m h (type_name base mu) ps start); [| reflexivity]. cbn [option_map]. unfold impl_from. reflexivity. Qed.
Lemma packet_is : forall m h a b base ps, emit_packet m h base ps a b = option_map (packet_from base a b) (emit_fields m h (type_name base false) ps start).
Proof. intros. unfold emit_packet. destruct (emit_fields m h (type_name base false) ps start); [| reflexivity]. cbn [option_map]. unfold packet_from. reflexivity. Qed.
Lemma size_is : forall m h base ps, emit_size m h base ps = option_map (size_from base) (emit_fields m h (type_name base false) ps start).
Proof. intros. unfold emit_size. destruct (emit_fields m h (type_name base false) ps start); [| reflexivity]. cbn [option_map]. unfold size_from. reflexivity. Qed.

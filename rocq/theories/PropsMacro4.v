(** Property C102: the methods of the packet types the derive macro makes of any struct. *)
From Coq Require Import String ZArith List Bool Lia.
From Verif Require Import Base DeriveUtil DeriveOps DeriveParse RustLex RustSyntax RustItem SpecItem EmitText EmitGen SpecEmit GenCode MacroEval SpecAny SpecSig MacroFine MacroSig MacroNames.
Import ListNotations.
Open Scope string_scope.
Open Scope Z_scope.

(** Both types have exactly these methods, with these receivers, in this order: the common
    ones and the getters of every field; the mutable one [populate] and the setters too. *)
Theorem C102_methods_of_any_struct : forall m host_le base ps, all_bits ps < 2 ^ 64 -> all_fine 0 [] ps -> all_code 0 ps ->
  exists before i im after, expand m host_le base ps = Some (inl (before ++ i ++ im ++ after)%list) /\
    impl_with (base ++ "Packet") (common_methods ++ flat_map getters ps)%list i /\
    impl_with ("Mutable" ++ base ++ "Packet") (common_methods ++ ("populate", "&mut self") :: flat_map getters ps ++ flat_map setters ps)%list im.
Proof. exact any_methods. Qed.
Print Assumptions C102_methods_of_any_struct.

(** No method of the read-only type takes [&mut self]. *)
Theorem C102_read_only_type : forall m host_le base ps, all_bits ps < 2 ^ 64 -> all_fine 0 [] ps -> all_code 0 ps ->
  exists before after body,
    expand m host_le base ps = Some (inl (before ++ (trees_of "impl<'a>" ++ [TIdent (base ++ "Packet")] ++ trees_of "<'a>" ++ [TGroup "{}" body]) ++ after)%list) /\
    Forall (fun d => receiver (snd d) <> "&mut self") (declared body).
Proof. exact any_read_only. Qed.
Print Assumptions C102_read_only_type.

(** Methods have different names if no field is called like another one, or like a list with
    [_raw], [_raw_mut] or [_iter]. *)
Theorem C102_names_unique : forall m host_le base ps, all_bits ps < 2 ^ 64 -> all_fine 0 [] ps -> all_code 0 ps -> names_differ ps ->
  exists before body mbody after,
    expand m host_le base ps = Some (inl (before ++ (trees_of "impl<'a>" ++ [TIdent (base ++ "Packet")] ++ trees_of "<'a>" ++ [TGroup "{}" body]) ++
      (trees_of "impl<'a>" ++ [TIdent ("Mutable" ++ base ++ "Packet")] ++ trees_of "<'a>" ++ [TGroup "{}" mbody]) ++ after)%list) /\
    NoDup (map fst (declared body)) /\ NoDup (map fst (declared mbody)).
Proof. exact any_names_apart. Qed.
Print Assumptions C102_names_unique.

(** In the crate no two methods of a type have the same name ... *)
Theorem C102_crate_names_unique : forall m host_le mod_ name ps, parsed mod_ name ps ->
  exists before body mbody after,
    expand m host_le name ps = Some (inl (before ++ (trees_of "impl<'a>" ++ [TIdent (name ++ "Packet")] ++ trees_of "<'a>" ++ [TGroup "{}" body]) ++
      (trees_of "impl<'a>" ++ [TIdent ("Mutable" ++ name ++ "Packet")] ++ trees_of "<'a>" ++ [TGroup "{}" mbody]) ++ after)%list) /\
    NoDup (map fst (declared body)) /\ NoDup (map fst (declared mbody)).
Proof. exact parsed_distinct. Qed.
Print Assumptions C102_crate_names_unique.

(** ... but different names of fields are not enough for that: fields [tail] and [tail_raw]
    both give [get_tail_raw], and the macro emits it twice without an error. *)
Theorem C102_names_unique_refuted : exists ps, NoDup (map pf_name ps) /\ forall m host_le base, exists before body after,
  expand m host_le base ps = Some (inl (before ++ (trees_of "impl<'a>" ++ [TIdent (base ++ "Packet")] ++ trees_of "<'a>" ++ [TGroup "{}" body]) ++ after)%list) /\
  ~ NoDup (map fst (declared body)).
Proof. exact names_clash. Qed.
Print Assumptions C102_names_unique_refuted.

(** A struct with a list of packets, a list of numbers, a constructed field and a payload. *)
Definition c102_text : string :=
"pub struct Probe {
    #[construct_with(u8)]
    pub kind: Kind,
    pub count: u8,
    #[length = ""count * 2""]
    pub words: Vec<u16be>,
    #[length = ""parts_length(count)""]
    pub parts: Vec<Part>,
    #[payload]
    pub body: Vec<u8>,
}".
Definition c102_fields : list pfield :=
  match read_struct c102_text with Some (_, sf) => match parse_packet sf with Ok (inl ps) => ps | _ => [] end | None => [] end.
Example C102_case :
  all_bits c102_fields < 2 ^ 64 /\ all_fine 0 [] c102_fields /\ all_code 0 c102_fields /\ names_differ c102_fields /\
  map fst (flat_map getters c102_fields) = ["get_kind"; "get_count"; "get_words_raw"; "get_words"; "get_parts_raw"; "get_parts"; "get_parts_iter"; "get_body"] /\
  flat_map setters c102_fields =
    [("set_kind", "&mut self"); ("set_count", "&mut self"); ("get_words_raw_mut", "&mut self"); ("set_words", "&mut self");
     ("get_parts_raw_mut", "&mut self"); ("set_parts", "&mut self"); ("set_body", "&mut self")].
Proof.
  destruct (covered_ok c102_fields) as (B & F & C); [vm_cast_no_check (eq_refl true) |].
  split; [exact B |]. split; [exact F |]. split; [exact C |]. split; [| split; vm_compute; reflexivity].
  split; [apply distinct_ok; vm_compute; reflexivity |].
  intros p q P Q. assert (N : In (pf_name q) ["kind"; "count"; "words"; "parts"; "body"]) by (apply (in_map pf_name) in Q; exact Q). clear Q.
  let l := eval vm_compute in c102_fields in change (In p l) in P. cbn [In] in *.
  repeat destruct P as [<- | P]; try contradiction; (split; intros t T; try discriminate T);
    repeat (destruct N as [<- | N]; [try (intros _; split); let H := fresh in intros H; vm_compute in H; discriminate H |]); contradiction.
Qed.

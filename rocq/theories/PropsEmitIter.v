(** Property C95: the iterator and the conversions the derive macro emits, run from the
    text of its templates, do what the model says. *)
From Coq Require Import String ZArith List Bool Lia.
From Verif Require Import Base DeriveUtil DeriveOps DeriveGen DeriveParse Protocols Quic FmtText Samples
  RustLex RustSyntax RustItem RustSem RustMethod RustExec CrateText SpecSource SpecItem EmitGen SpecEmit SpecEmitIter EmitProofsIter.
Import ListNotations.
Open Scope string_scope.
Open Scope Z_scope.

(** ** C95: iterating and converting *)

(** [next] gives the item the model gives and leaves the iterator with the rest, or panics
    and leaves it alone; [size_hint] promises nothing. *)
Theorem C95_next : forall c name fs mod_ ps, In (name, fs) (all_packets c) -> parsed mod_ name ps ->
  exists m1 m2, trait_methods (Some (emit_iterable name)) = [m1; m2] /\ fn_name (m_fn m1) = "next" /\ fn_name (m_fn m2) = "size_hint" /\
    forall b, steps name (run_iter c name fs m1 b) b (iter_next (sem_of c fs) b) /\
      run_iter c name fs m2 b = Returned (VT [RustSem.VI None 0; VO None]) b.
Proof. exact iterator_steps. Qed.
Print Assumptions C95_next.

(** A loop over the emitted iterator ends after at most as many calls of [next] as there
    are bytes, and one; every item starts where the one before it ends. *)
Theorem C95_loop : forall c name fs mod_ ps, In (name, fs) (crate_schemas c) -> parsed mod_ name ps ->
  exists m1 m2, trait_methods (Some (emit_iterable name)) = [m1; m2] /\ fn_name (m_fn m1) = "next" /\
    forall b, buf_ok b -> exists l e, drain (run_iter c name fs m1) (S (List.length b)) b = Some (l, e) /\ items_of c fs b l e.
Proof. exact loops. Qed.
Print Assumptions C95_loop.

(** [from_packet] of XPacket and of MutableXPacket fills the struct with the values of the
    getters, in the order of the declaration, and panics with the first that panics. *)
Theorem C95_from_packet : forall c name fs mod_ ps, In (name, fs) (all_packets c) -> parsed mod_ name ps ->
  exists m1 m2, trait_methods (Some (emit_converters name ps)) = [m1; m2] /\
    forall me, In me [m1; m2] -> fn_name (m_fn me) = "from_packet" /\ forall rounds mutable b, buf_ok b ->
      reads (run_meth c rounds mod_ name mutable ps fs me [VSelf] b) b (from_packet c fs b) (fun vs r => struct_rv ps vs = Some r).
Proof. exact conversions. Qed.
Print Assumptions C95_from_packet.

(** [to_immutable] and [consume_to_immutable] give an XPacket over the same bytes. *)
Theorem C95_immutable : forall c name fs mod_ ps, In (name, fs) (all_packets c) -> parsed mod_ name ps ->
  forall rounds mutable n b, In n ["to_immutable"; "consume_to_immutable"] -> exists me, method_of c mutable name ps n = Some me /\
    run_meth c rounds mod_ name mutable ps fs me [VSelf] b = Returned (VP (type_name name false) b) b.
Proof. exact immutable_twin. Qed.
Print Assumptions C95_immutable.

(** A loop over the options 148/4, 1 and a cut off 7/9 of an IPv4 header, and the emitted
    code of [from_packet] and [to_immutable] run on a UDP packet. *)
Definition c95_fields (text : string) : list pfield :=
  match read_struct text with Some (_, sf) => match parse_packet sf with Ok (inl ps) => ps | _ => [] end | None => [] end.
Definition c95_opts : buf := [148; 4; 0; 0; 1; 7; 9; 5].
Definition c95_udp : buf := [0; 53; 18; 52; 0; 10; 0; 0; 170; 187; 11].
Definition c95_next (b : buf) : ran :=
  match trait_methods (Some (emit_iterable "Ipv4Option")) with m1 :: _ => run_iter dbg "Ipv4Option" (ipv4_option) m1 b | [] => Unknown end.
Example C95_case :
  In ("Ipv4Option", ipv4_option) (crate_schemas dbg) /\ parsed "ipv4" "Ipv4Option" (c95_fields struct_Ipv4Option) /\ buf_ok c95_opts /\
  c95_next c95_opts = Returned (VO (Some (VP "Ipv4OptionPacket" c95_opts))) [1; 7; 9; 5] /\
  drain c95_next 9 c95_opts = Some ([c95_opts; [1; 7; 9; 5]; [7; 9; 5]], None) /\
  map (fun me => run_meth dbg 5 "udp" "Udp" true (c95_fields struct_Udp) udp me [VSelf] c95_udp)
    (trait_methods (Some (emit_converters "Udp" (c95_fields struct_Udp)))) =
  repeat (Returned (VS [("source", RustSem.VI (Some U16) 53); ("destination", RustSem.VI (Some U16) 4660); ("length", RustSem.VI (Some U16) 10);
                        ("checksum", RustSem.VI (Some U16) 0); ("payload", VA (Some U8) [170; 187; 11])]) c95_udp) 2 /\
  option_map (fun me => run_meth dbg 5 "udp" "Udp" true (c95_fields struct_Udp) udp me [VSelf] c95_udp)
    (method_of dbg true "Udp" (c95_fields struct_Udp) "to_immutable") = Some (Returned (VP "UdpPacket" c95_udp) c95_udp).
Proof.
  split; [apply (nth_error_In (crate_schemas dbg) 3); reflexivity |].
  split; [exists struct_Ipv4Option; eexists; split; [apply (nth_error_In crate_structs 4); reflexivity |]; split; vm_compute; reflexivity |].
  split; [split; [repeat constructor; unfold byte_ok; lia | vm_compute; reflexivity] |].
  repeat split; vm_compute; reflexivity.
Qed.

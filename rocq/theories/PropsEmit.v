(** Property C93: the methods the derive macro emits for reading a packet, run from the
    text of its templates, do what the model says. *)
From Coq Require Import String ZArith List Bool Lia.
From Verif Require Import Base DeriveUtil DeriveOps DeriveGen DeriveParse Protocols Quic FmtText Samples
  RustLex RustSyntax RustItem RustSem RustMethod RustExec CrateText SpecSource SpecItem EmitGen SpecEmit EmitProofs.
Import ListNotations.
Open Scope string_scope.
Open Scope Z_scope.

(** ** C93: reading *)

(** The emitted getter of a field (an integer, a constructed value, a Vec of bytes,
    a Vec of packets) returns the value the model gives, panics where the model does, and
    leaves the bytes of the packet alone.  [mutable]: in XPacket and in MutableXPacket. *)
Theorem C93_getters : forall c name fs mod_ ps, In (name, fs) (all_packets c) -> parsed mod_ name ps ->
  forall rounds mutable b, buf_ok b -> forall p, In p ps ->
  exists me, method_of c mutable name ps ("get_" ++ pf_name p) = Some me /\
    reads (run_meth c rounds mod_ name mutable ps fs me [VSelf] b) b (get c fs (pf_name p) b) (shows p).
Proof. exact getters. Qed.
Print Assumptions C93_getters.

(** The raw bytes of a Vec that is not the payload. *)
Theorem C93_raw_getters : forall c name fs mod_ ps, In (name, fs) (all_packets c) -> parsed mod_ name ps ->
  forall rounds mutable b, buf_ok b -> forall p, In p ps -> is_vec p = true -> pf_payload p = false ->
  exists me, method_of c mutable name ps ("get_" ++ pf_name p ++ "_raw") = Some me /\
    reads (run_meth c rounds mod_ name mutable ps fs me [VSelf] b) b (get_raw c fs (pf_name p) b) shows_bytes.
Proof. exact raw_getters. Qed.
Print Assumptions C93_raw_getters.

(** The iterator over a Vec of packets. *)
Theorem C93_iterators : forall c name fs mod_ ps, In (name, fs) (all_packets c) -> parsed mod_ name ps ->
  forall rounds mutable b, buf_ok b -> forall p, In p ps -> is_pkts p = true ->
  exists me, method_of c mutable name ps ("get_" ++ pf_name p ++ "_iter") = Some me /\
    reads (run_meth c rounds mod_ name mutable ps fs me [VSelf] b) b (get_iter c fs (pf_name p) b) (shows_iter p).
Proof. exact iterators. Qed.
Print Assumptions C93_iterators.

(** [new] and [owned] accept exactly the buffers the model accepts. *)
Theorem C93_new : forall c name fs mod_ ps, In (name, fs) (all_packets c) -> parsed mod_ name ps ->
  forall rounds mutable n, In n ["new"; "owned"] -> exists me, method_of c mutable name ps n = Some me /\
    forall d, run_meth c rounds mod_ name mutable ps fs me [VA (Some U8) d] [] = Returned (made name mutable (new fs d)) [].
Proof. exact constructors. Qed.
Print Assumptions C93_new.

(** The three sizes: of the fixed part, of a struct, of a packet. *)
Theorem C93_sizes : forall c name fs mod_ ps, In (name, fs) (all_packets c) -> parsed mod_ name ps ->
  forall rounds mutable,
  (exists me, method_of c mutable name ps "minimum_packet_size" = Some me /\
     run_meth c rounds mod_ name mutable ps fs me [] [] = Returned (RustSem.VI (Some Usize) (minimum_packet_size fs)) []) /\
  (exists me, method_of c mutable name ps "packet_size" = Some me /\
     forall vs r, struct_rv ps vs = Some r ->
       reads (run_meth c rounds mod_ name mutable ps fs me [r] []) [] (struct_packet_size c fs vs) shows_usize) /\
  (exists m1 m2, trait_methods (emit_size (c_macro c) (c_host_le c) name ps) = [m1; m2] /\
     forall me, In me [m1; m2] -> fn_name (m_fn me) = "packet_size" /\ forall b, buf_ok b ->
       reads (run_meth c rounds mod_ name mutable ps fs me [VSelf] b) b (packet_size c fs b) shows_usize).
Proof. exact sizes. Qed.
Print Assumptions C93_sizes.

(** The whole buffer and the payload, in the three trait implementations
    (Packet for XPacket and MutableXPacket, MutablePacket for MutableXPacket). *)
Theorem C93_packet_and_payload : forall c name fs mod_ ps, In (name, fs) (all_packets c) -> parsed mod_ name ps ->
  forall of_mut mutable, implb mutable of_mut = true ->
  exists m1 m2, trait_methods (emit_packet (c_macro c) (c_host_le c) name ps of_mut mutable) = [m1; m2] /\
    fn_name (m_fn m1) = (if mutable then "packet_mut" else "packet") /\
    fn_name (m_fn m2) = (if mutable then "payload_mut" else "payload") /\
    forall rounds b, buf_ok b ->
      reads (run_meth c rounds mod_ name of_mut ps fs m1 [VSelf] b) b (Ok b) shows_bytes /\
      reads (run_meth c rounds mod_ name of_mut ps fs m2 [VSelf] b) b (payload c fs b) shows_bytes.
Proof. exact packet_payload. Qed.
Print Assumptions C93_packet_and_payload.

(** An IPv4 packet with an option and one with a header length beyond its end: the emitted
    code is run on both. *)
Definition c93_fields : list pfield :=
  match read_struct struct_Ipv4 with Some (_, sf) => match parse_packet sf with Ok (inl ps) => ps | _ => [] end | None => [] end.
Definition c93_ip : buf := [70; 0; 0; 28; 0; 1; 64; 0; 64; 17; 0; 0; 10; 0; 0; 1; 10; 0; 0; 2; 148; 4; 0; 0; 7; 8; 9; 10].
Definition c93_short : buf := [74; 0; 0; 20; 0; 1; 64; 0; 64; 17; 0; 0; 10; 0; 0; 1; 10; 0; 0; 2].
Definition c93_run (n : string) (b : buf) : option ran :=
  option_map (fun me => run_meth dbg 5 "ipv4" "Ipv4" false c93_fields (ipv4 dbg) me [VSelf] b) (method_of dbg false "Ipv4" c93_fields n).
Example C93_case :
  In ("Ipv4", ipv4 dbg) (all_packets dbg) /\ parsed "ipv4" "Ipv4" c93_fields /\ buf_ok c93_ip /\
  List.length c93_fields = 15%nat /\
  map (fun n => c93_run n c93_ip) ["get_version"; "get_fragment_offset"; "get_source"; "get_options_raw"; "get_options_iter"; "get_options"; "get_payload"] =
  map Some [Returned (RustSem.VI (Some U8) 4) c93_ip; Returned (RustSem.VI (Some U16) 0) c93_ip;
            Returned (VC "Ipv4Addr" U8 [10; 0; 0; 1]) c93_ip; Returned (VA (Some U8) [148; 4; 0; 0]) c93_ip;
            Returned (VP "Ipv4OptionIterable" [148; 4; 0; 0]) c93_ip;
            Returned (VL [VX [VInt 1; VInt 0; VTup [20]; VBytes [4]; VBytes [0; 0]]]) c93_ip; Returned (VV 4 (Some U8) [7; 8; 9; 10]) c93_ip] /\
  c93_run "get_payload" c93_short = Some (Panicked EIndex c93_short) /\
  get dbg (ipv4 dbg) "payload" c93_short = Panic EIndex.
Proof.
  split; [right; right; right; right; left; reflexivity |].
  split; [exists struct_Ipv4; eexists; split; [exact (nth_error_In crate_structs 3 eq_refl) |]; split; vm_compute; reflexivity |].
  split; [split; [repeat constructor; unfold byte_ok; lia | vm_compute; reflexivity] |].
  repeat split; vm_compute; reflexivity.
Qed.

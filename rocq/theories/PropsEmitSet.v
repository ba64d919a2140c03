(** Property C94: the methods the derive macro emits for changing a packet, run from the
    text of its templates, do what the model says. *)
From Coq Require Import String ZArith List Bool Lia.
From Verif Require Import Base DeriveUtil DeriveOps DeriveGen DeriveParse Protocols Quic FmtText Samples
  RustLex RustSyntax RustItem RustSem RustMethod RustExec CrateText SpecSource SpecItem EmitGen SpecEmit EmitProofsSet.
Import ListNotations.
Open Scope string_scope.
Open Scope Z_scope.

(** ** C94: writing *)

(** The emitted setter of a field (an integer, a constructed value, a Vec of bytes,
    a Vec of packets) leaves the bytes the model gives, whether it returns or panics, and
    panics where the model does. *)
Theorem C94_setters : forall c name fs mod_ ps, In (name, fs) (all_packets c) -> parsed mod_ name ps ->
  forall rounds b, buf_ok b -> forall p, In p ps ->
  exists me, method_of c true name ps ("set_" ++ pf_name p) = Some me /\
    forall v r, field_rv p v = Some r ->
      writes (run_meth c rounds mod_ name true ps fs me [VSelf; r] b) (set c fs (pf_name p) v b).
Proof. exact setters. Qed.
Print Assumptions C94_setters.

(** The writable bytes of a Vec that is not the payload are the same range. *)
Theorem C94_raw_mut : forall c name fs mod_ ps, In (name, fs) (all_packets c) -> parsed mod_ name ps ->
  forall rounds b, buf_ok b -> forall p, In p ps -> is_vec p = true -> pf_payload p = false ->
  exists me, method_of c true name ps ("get_" ++ pf_name p ++ "_raw_mut") = Some me /\
    reads (run_meth c rounds mod_ name true ps fs me [VSelf] b) b (get_raw c fs (pf_name p) b) shows_bytes.
Proof. exact raw_mut_getters. Qed.
Print Assumptions C94_raw_mut.

(** [populate] calls the setters of all fields in the order of the declaration. *)
Theorem C94_populate : forall c name fs mod_ ps, In (name, fs) (all_packets c) -> parsed mod_ name ps ->
  forall rounds b, exists me, method_of c true name ps "populate" = Some me /\
    forall vs r, struct_rv ps vs = Some r ->
      writes (run_meth c rounds mod_ name true ps fs me [VSelf; r] b) (populate c fs vs b).
Proof. exact populates. Qed.
Print Assumptions C94_populate.

(** An IPv4 packet with an option: the emitted setters are run, among them one with more
    payload than the total length announces and one with more options than the header
    length announces (noticed after the payload has been overwritten). *)
Definition c94_fields (text : string) : list pfield :=
  match read_struct text with Some (_, sf) => match parse_packet sf with Ok (inl ps) => ps | _ => [] end | None => [] end.
Definition c94_ip : buf := [70; 0; 0; 28; 0; 1; 64; 0; 64; 17; 0; 0; 10; 0; 0; 1; 10; 0; 0; 2; 148; 4; 0; 0; 7; 8; 9; 10].
Definition c94_run (n : string) (v : rv) : option ran :=
  option_map (fun me => run_meth dbg 5 "ipv4" "Ipv4" true (c94_fields struct_Ipv4) (ipv4 dbg) me [VSelf; v] c94_ip)
    (method_of dbg true "Ipv4" (c94_fields struct_Ipv4) n).
Definition c94_opt : list val := [VInt 1; VInt 0; VTup [20]; VBytes [2]; VBytes []].
Definition c94_udp : option ran :=
  option_map (fun me => run_meth dbg 5 "udp" "Udp" true (c94_fields struct_Udp) udp me
      [VSelf; VS [("source", RustSem.VI (Some U16) 53); ("destination", RustSem.VI (Some U16) 4660); ("length", RustSem.VI (Some U16) 10);
                  ("checksum", RustSem.VI (Some U16) 0); ("payload", VA (Some U8) [170; 187])]] [1; 2; 3; 4; 5; 6; 7; 8; 9; 10; 11])
    (method_of dbg true "Udp" (c94_fields struct_Udp) "populate").
Example C94_case :
  In ("Ipv4", ipv4 dbg) (all_packets dbg) /\ parsed "ipv4" "Ipv4" (c94_fields struct_Ipv4) /\ buf_ok c94_ip /\
  c94_run "set_fragment_offset" (RustSem.VI (Some U16) 4660) =
    Some (Returned VUnit [70; 0; 0; 28; 0; 1; 82; 52; 64; 17; 0; 0; 10; 0; 0; 1; 10; 0; 0; 2; 148; 4; 0; 0; 7; 8; 9; 10]) /\
  c94_run "set_destination" (VC "Ipv4Addr" U8 [1; 2; 3; 4]) =
    Some (Returned VUnit [70; 0; 0; 28; 0; 1; 64; 0; 64; 17; 0; 0; 10; 0; 0; 1; 1; 2; 3; 4; 148; 4; 0; 0; 7; 8; 9; 10]) /\
  c94_run "set_payload" (VA (Some U8) [255; 254; 253]) =
    Some (Returned VUnit [70; 0; 0; 28; 0; 1; 64; 0; 64; 17; 0; 0; 10; 0; 0; 1; 10; 0; 0; 2; 148; 4; 0; 0; 255; 254; 253; 10]) /\
  c94_run "set_payload" (VA (Some U8) [1; 2; 3; 4; 5]) = Some (Panicked EAssert c94_ip) /\
  c94_run "set_options" (VL [VX c94_opt; VX c94_opt]) =
    Some (Returned VUnit [70; 0; 0; 28; 0; 1; 64; 0; 64; 17; 0; 0; 10; 0; 0; 1; 10; 0; 0; 2; 148; 2; 148; 2; 7; 8; 9; 10]) /\
  c94_run "set_options" (VL [VX c94_opt; VX c94_opt; VX c94_opt]) =
    Some (Panicked EAssert [70; 0; 0; 28; 0; 1; 64; 0; 64; 17; 0; 0; 10; 0; 0; 1; 10; 0; 0; 2; 148; 2; 148; 2; 148; 2; 9; 10]) /\
  c94_udp = Some (Returned VUnit [0; 53; 18; 52; 0; 10; 0; 0; 170; 187; 11]).
Proof.
  split; [right; right; right; right; left; reflexivity |].
  split; [exists struct_Ipv4; eexists; split; [exact (nth_error_In crate_structs 3 eq_refl) |]; split; vm_compute; reflexivity |].
  split; [split; [repeat constructor; unfold byte_ok; lia | vm_compute; reflexivity] |].
  repeat split; vm_compute; reflexivity.
Qed.

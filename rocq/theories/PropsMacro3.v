(** Properties C100 and C101: the functions of the derive crate that assemble the emitted
    code, run from their source text on any struct (not only those of the crate). *)
From Coq Require Import String ZArith List Bool Lia.
From Verif Require Import Base DeriveUtil DeriveOps DeriveParse RustLex RustSyntax RustItem SpecItem EmitText EmitGen SpecEmit GenCode MacroEval MacroProofs SpecMacro SpecAny MacroAny MacroTotal MacroFine MacroReject.
Import ListNotations.
Open Scope string_scope.
Open Scope Z_scope.

(** Whatever the struct: if its fields have code, [generate_packet] returns it. *)
Theorem C100_any_struct : forall m host_le base ps, all_bits ps < 2 ^ 64 -> all_fine 0 [] ps -> forall out,
  want_code m host_le base ps = Some out -> expand m host_le base ps = Some (inl out).
Proof. exact any_struct. Qed.
Print Assumptions C100_any_struct.

(** The fields have code if primitives have 1 to 64 bits and are not spread over more bytes
    than needed, list elements are whole bytes or packets and constructor arguments are
    primitives. *)
Theorem C100_any_struct_has_code : forall m host_le base ps, all_bits ps < 2 ^ 64 -> all_fine 0 [] ps -> all_code 0 ps ->
  exists out, want_code m host_le base ps = Some out /\ expand m host_le base ps = Some (inl out).
Proof. exact any_code. Qed.
Print Assumptions C100_any_struct_has_code.

(** The constant [minimum_packet_size] of both packet types is the size of the fixed part,
    rounded up to bytes. *)
Theorem C100_minimum_size_emitted : forall m host_le base ps, all_bits ps < 2 ^ 64 -> all_fine 0 [] ps -> all_code 0 ps ->
  exists before i im after, expand m host_le base ps = Some (inl (before ++ i ++ im ++ after)%list) /\
    minimum_of (base ++ "Packet") (all_bits ps) i /\ minimum_of ("Mutable" ++ base ++ "Packet") (all_bits ps) im.
Proof. exact any_minimum. Qed.
Print Assumptions C100_minimum_size_emitted.

(** The hypotheses hold for every struct of the crate. *)
Theorem C100_crate_structs_covered : forall mod_ name ps, parsed mod_ name ps -> all_bits ps < 2 ^ 64 /\ all_fine 0 [] ps /\ all_code 0 ps.
Proof. exact parsed_meets. Qed.
Print Assumptions C100_crate_structs_covered.

(** A struct that is not in the crate: a little-endian field, a constructed field, lists with
    a length, and a fixed part of 28 bits. *)
Definition c100_text : string :=
"pub struct Probe {
    pub port: u16le,
    #[construct_with(u8)]
    pub kind: Kind,
    pub count: u4,
    #[length = ""count * 2""]
    pub words: Vec<u16be>,
    #[length = ""parts_length(count)""]
    pub parts: Vec<Part>,
    #[payload]
    pub body: Vec<u8>,
}".
Definition c100_fields : list pfield :=
  match read_struct c100_text with Some (_, sf) => match parse_packet sf with Ok (inl ps) => ps | _ => [] end | None => [] end.
Definition has_text (t : string) (l : list ttree) : bool :=
  match trees_of t with [] => false | p => existsb (fun n => trees_eqb (firstn (List.length p) (skipn n l)) p) (seq 0 (List.length l)) end.
Definition c100_impl : list ttree :=
  match expand Wrapping false "Probe" c100_fields with
  | Some (inl out) => match nth_error out 30 with Some (TGroup _ g) => g | _ => out end
  | _ => []
  end.
Example C100_case :
  List.length c100_fields = 6%nat /\ all_bits c100_fields = 28 /\ all_fine 0 [] c100_fields /\ all_code 0 c100_fields /\
  has_text "pub const fn minimum_packet_size() -> usize { 4usize }" c100_impl = true /\
  has_text ("pub fn get_port(&self) -> u16le { let co = 0usize; { let b0 = ((self.packet[co + 0] as u16le)) as u16le; " ++
            "let b1 = ((self.packet[co + 1] as u16le) << 8) as u16le; b0 | b1 } }") c100_impl = true.
Proof.
  split; [vm_compute; reflexivity |]. split; [vm_compute; reflexivity |].
  destruct (covered_ok c100_fields) as (_ & F & C); [vm_cast_no_check (eq_refl true) |].
  split; [exact F |]. split; [exact C |]. split; vm_compute; reflexivity.
Qed.

(** A field the macro has no code for makes it return the error for that field, whatever
    the fields after it, if it has code for those before. *)
Theorem C101_field_refused : forall m host_le base before p after msg,
  all_fine 0 [] (before ++ [p])%list -> all_bits (before ++ [p])%list < 2 ^ 64 -> all_code 0 before -> refused (all_bits before) p msg ->
  expand m host_le base (before ++ p :: after)%list = Some (inr msg).
Proof. exact bad_struct. Qed.
Print Assumptions C101_field_refused.

(** An error of [parse::packet] is the result of the macro. *)
Theorem C101_parse_error_passed_on : forall m host_le base msg, run_code code_read (planned m host_le) (GE "Err" [GS msg]) base = Some (inr msg).
Proof. exact bad_parse. Qed.
Print Assumptions C101_parse_error_passed_on.

(** Errors after a field of 12 bits; fields after it do not matter, not even broken ones. *)
Definition c101_before : list pfield := [PField "id" (RPrimitive "u12be" 12 Big) None false false []].
Definition c101_bad : list pfield :=
  [PField "x" (RVector (RPrimitive "u12be" 12 Big)) None false true []; PField "x" (RVector (RVector (RMisc "T"))) None false false [];
   PField "x" (RMisc "T") None false false [RPrimitive "u4" 4 Big; RMisc "U"; RPrimitive "u9be" 9 Big]].
Definition c101_msgs : list string :=
  ["unimplemented variable length field"; "variable length fields may not contain vectors"; "arguments to #[construct_with] must be primitives"].
Example C101_case :
  Forall (fun '(p, msg) =>
      (all_fine 0 [] (c101_before ++ [p])%list /\ all_bits (c101_before ++ [p])%list < 2 ^ 64 /\ all_code 0 c101_before /\ refused (all_bits c101_before) p msg) /\
      expand Checked true "X" (c101_before ++ p :: c101_bad)%list = Some (inr msg))
    (combine c101_bad c101_msgs).
Proof.
  repeat apply Forall_cons; [.. | apply Forall_nil]; cbn [fst snd].
  all: match goal with |- ?a /\ _ => assert (H : a); [| split; [exact H | destruct H as (F & B & C & R); now apply C101_field_refused]] end.
  all: split; [repeat split; try (cbn; lia); try discriminate; try (repeat constructor; cbn; try lia); try (vm_compute; reflexivity) |].
  all: split; [vm_compute; reflexivity |]; split; [cbn; repeat split; lia |].
  - split; [vm_compute; discriminate | reflexivity].
  - reflexivity.
  - split; [| reflexivity]. exists [RPrimitive "u4" 4 Big], (RMisc "U"), [RPrimitive "u9be" 9 Big]. cbn. repeat split; try reflexivity; try lia.
Qed.

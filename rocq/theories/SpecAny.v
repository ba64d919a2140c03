(** Which structs the text of the derive macro can be run on without knowing them. *)
From Coq Require Import String Ascii ZArith List Bool.
From Verif Require Import Base DeriveUtil DeriveOps DeriveParse RustLex RustEval EmitText EmitGen MacroEval.
Import ListNotations.
Open Scope string_scope.
Open Scope Z_scope.

(** A text that is one identifier. *)
Definition one_ident (s : string) : Prop := read_trees s = Some [TIdent s].
(** The bits a field takes in the fixed part. *)
Definition prim_bits (t : rtype) : Z := match t with RPrimitive _ z _ => z | _ => 0 end.
Definition bits_taken (p : pfield) : Z :=
  match pf_ty p with
  | RPrimitive _ z _ => z
  | RVector _ => 0
  | RMisc _ => fold_right Z.add 0 (map prim_bits (pf_cons p))
  end.
Definition all_bits (ps : list pfield) : Z := fold_right Z.add 0 (map bits_taken ps).
(** Types are identifiers and have no negative size. *)
Definition fine_prim (t : rtype) : Prop := match t with RPrimitive ty z _ => 0 <= z < 2 ^ 64 /\ one_ident ty | _ => True end.
Definition fine_type (p : pfield) : Prop :=
  match pf_ty p with
  | RPrimitive _ _ _ => fine_prim (pf_ty p)
  | RVector t => match t with RMisc ty => one_ident ty | _ => fine_prim t end
  | RMisc ty => one_ident ty /\ pf_cons p <> [] /\ Forall fine_prim (pf_cons p)
  end.
(** The two texts the macro makes and reads again come back as the tokens they were made
    from: [_packet.name.len()] (derive/src/parse.rs:186, gen.rs:363-365) and the length
    expression with the offset put in (gen.rs:104-110). *)
Definition fine_struct_len (p : pfield) : Prop :=
  pf_struct_len p = true ->
  read_trees ("_packet." ++ pf_name p ++ ".len()") = Some [TIdent "_packet"; TPunct "."; TIdent (pf_name p); TPunct "."; TIdent "len"; TGroup "()" []].
Definition fine_len (bit : Z) (offs : list (list ttree)) (p : pfield) : Prop :=
  forall l, pf_len p = Some l ->
  read_trees (replace "r#field_offset" ("&self.packet[(" ++ trees_text (offset_tokens bit offs) ++ ")..]") (trees_text [TGroup "()" l; TIdent "as"; TIdent "usize"]))
    = Some (length_expr (offset_tokens bit offs) l).
Definition fine (bit : Z) (offs : list (list ttree)) (p : pfield) : Prop := fine_type p /\ fine_struct_len p /\ fine_len bit offs p.
Definition more_offs (bit : Z) (offs : list (list ttree)) (p : pfield) : list (list ttree) :=
  match pf_len p with Some l => (offs ++ [length_expr (offset_tokens bit offs) l])%list | None => offs end.
Fixpoint all_fine (bit : Z) (offs : list (list ttree)) (ps : list pfield) : Prop :=
  match ps with
  | [] => True
  | p :: r => fine bit offs p /\ all_fine (bit + bits_taken p) (more_offs bit offs p) r
  end.

(** Fields the macro has code for.  A primitive has 1 to 64 bits and its last bits are not
    spread over two bytes more than needed (derive/src/util.rs plans such a field; see C09 for
    what it does with the others); list elements are whole bytes (gen.rs:164-169) or packets,
    never lists (234-239); arguments of [#[construct_with]] are primitives (303, 330-333). *)
Definition fits_at (bit : Z) (t : rtype) : Prop :=
  match t with RPrimitive _ z _ => 1 <= z <= 64 /\ bit mod 8 + z mod 8 <= 8 | _ => False end.
Fixpoint args_at (bit : Z) (l : list rtype) : Prop :=
  match l with [] => True | t :: r => fits_at bit t /\ args_at (bit + prim_bits t) r end.
Definition has_code (bit : Z) (p : pfield) : Prop :=
  match pf_ty p with
  | RPrimitive _ _ _ => fits_at bit (pf_ty p)
  | RVector t => match t with RMisc _ => True | _ => fits_at 0 t /\ prim_bits t mod 8 = 0 end
  | RMisc _ => args_at bit (pf_cons p)
  end.
Fixpoint all_code (bit : Z) (ps : list pfield) : Prop :=
  match ps with [] => True | p :: r => has_code bit p /\ all_code (bit + bits_taken p) r end.

(** An implementation block for the type [name] with the constant [minimum_packet_size]: the
    bits of the fixed part, in bytes, rounded up (derive/src/gen.rs:389-393, 428-436). *)
Definition minimum_of (name : string) (bits : Z) (l : list ttree) : Prop :=
  exists pre post, l = (trees_of "impl<'a>" ++ [TIdent name] ++ trees_of "<'a>" ++
    [TGroup "{}" (pre ++ trees_of "pub const fn minimum_packet_size() -> usize" ++ [TGroup "{}" [TLit true (dec ((bits + 7) / 8) ++ "usize")]] ++ post)])%list.

(** Fields the macro refuses, and the error: derive/src/gen.rs:164-169, 234-239, 330-333. *)
Definition refused (bit : Z) (p : pfield) (msg : string) : Prop :=
  match pf_ty p with
  | RPrimitive _ _ _ => False
  | RVector (RPrimitive _ z _) => z mod 8 <> 0 /\ msg = "unimplemented variable length field"
  | RVector (RVector _) => msg = "variable length fields may not contain vectors"
  | RVector (RMisc _) => False
  | RMisc _ =>
      (exists good bad rest, pf_cons p = (good ++ bad :: rest)%list /\ args_at bit good /\ match bad with RPrimitive _ _ _ => False | _ => True end) /\
      msg = "arguments to #[construct_with] must be primitives"
  end.

(** Derive macro front end: C68, C69 and C74. *)
From Coq Require Import String ZArith List Bool Lia.
From Verif Require Import Base DeriveUtil DeriveOps DeriveParse SpecParse DeriveParseProofs.
Import ListNotations.
Open Scope Z_scope.

(** ** C68: type syntax *)

Theorem C68_integer_names : forall s n e g, parse_ty s = Some (n, e, g) <-> int_name s n e g.
Proof. exact parse_ty_iff. Qed.
Print Assumptions C68_integer_names.
Theorem C68_types : forall s strict t, parse_type s strict = Ok (inl t) <-> reads strict s t.
Proof. exact parse_type_iff. Qed.
Print Assumptions C68_types.
Theorem C68_errors : forall s strict,
  (parse_type s strict = Ok (inr EndiannessMissing) <->
     strict = true /\ exists core n e, wraps s core /\ int_name core n e false /\ 8 < n) /\
  (parse_type s strict = Ok (inr InvalidType) <-> exists core, wraps s core /\ starts "&" core) /\
  ((exists e, parse_type s strict = Panic e) <-> wraps s "Vec<").
Proof. exact parse_type_errors. Qed.
Print Assumptions C68_errors.
Example C68_case :
  parse_ty "u13le" = Some (13, Little, true) /\ parse_ty "u013" = Some (13, Big, false) /\
  parse_ty "u13xe" = None /\ parse_ty "u18446744073709551616" = None /\
  parse_type "Vec<u16be>" true = Ok (inl (RVector (RPrimitive "u16be" 16 Big))) /\
  parse_type "Vec<u16>" true = Ok (inr EndiannessMissing) /\
  parse_type "u16" false = Ok (inl (RPrimitive "u16" 16 Big)) /\
  parse_type "&u8" true = Ok (inr InvalidType) /\ parse_type "Ipv4Addr" true = Ok (inl (RMisc "Ipv4Addr")) /\
  parse_type "Vec<" true = Panic EIndex.
Proof. repeat split. Qed.

(** ** C69: which structs are accepted *)

Theorem C69_accepts : forall l ps, parse_packet l = Ok (inl ps) <-> struct_ok l ps.
Proof. exact parse_packet_iff. Qed.
Print Assumptions C69_accepts.
Definition hwtype := SField (Some "hwtype"%string) [AttrList (Some "construct_with"%string) [NMeta "u16be"]] "HwType".
Definition count := SField (Some "count"%string) [] "u8".
Definition items := SField (Some "items"%string)
  [AttrNameValue (Some "length"%string) (LitStr (Some [TIdent "count"; TPunct "*"; TLit true "2"]))] "Vec<u8>".
Definition rest := SField (Some "rest"%string) [AttrPath (Some "payload"%string)] "Vec<u8>".
Example C69_case :
  parse_packet [hwtype; count; items; rest] = Ok (inl
    [PField "hwtype" (RMisc "HwType") None false false [RPrimitive "u16be" 16 Big];
     PField "count" (RPrimitive "u8" 8 Big) None false false [];
     PField "items" (RVector (RPrimitive "u8" 8 Big))
       (Some [TIdent "self"; TPunct "."; TIdent "get_count"; TGroup "()" []; TPunct "*"; TLit true "2"]) true false [];
     PField "rest" (RVector (RPrimitive "u8" 8 Big)) None true true []]).
Proof. reflexivity. Qed.
(** A vector without length before the last field, a second payload, a
    documentation comment on a field, a literal that is not an integer. *)
Example C69_rejected :
  parse_packet [rest; count] = Ok (inr MissingLength) /\
  parse_packet [SField (Some "a"%string) [AttrPath (Some "payload"%string); AttrNameValue (Some "length"%string) (LitStr (Some [TLit true "1"]))] "Vec<u8>"; rest]
    = Ok (inr MultiplePayloads) /\
  parse_packet [SField (Some "a"%string) [AttrNameValue (Some "doc"%string) (LitStr None)] "u8"] = Ok (inr UnknownNameValue) /\
  parse_packet [SField (Some "a"%string) [AttrNameValue (Some "length"%string) (LitStr (Some [TLit false "1.5"]))] "Vec<u8>"]
    = Ok (inr BadLength).
Proof. repeat split. Qed.

(** ** C74: which structs get code *)

Theorem C74_derives : forall m h l bits,
  derive_packet m h l = Ok (inl bits) <-> exists ps, struct_ok l ps /\ gen_ok m 0 ps bits.
Proof. exact derive_packet_iff. Qed.
Print Assumptions C74_derives.
Definition bits_at (pos n : string) : list sfield :=
  [SField (Some "a"%string) [] pos; SField (Some "b"%string) [] n].
Example C74_case :
  derive_packet Checked true [hwtype; count; items; rest] = Ok (inl 24) /\
  derive_packet Checked true (bits_at "u3" "u13be") = Ok (inl 16) /\
  derive_packet Checked true (bits_at "u3" "u14be") = Panic EOverflow /\
  derive_packet Wrapping true (bits_at "u3" "u14be") = Ok (inl 17) /\
  derive_packet Checked true (bits_at "u3" "u65be") = Panic EUnwrap /\
  derive_packet Checked true [SField (Some "a"%string) [] "Vec<u12be>"] = Ok (inr VecBits).
Proof. repeat split. Qed.

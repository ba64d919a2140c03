(** The macro, run from its text on every struct of the crate, emits the expected code. *)
From Coq Require Import String Ascii ZArith List Bool.
From Verif Require Import Base DeriveUtil DeriveOps DeriveGen DeriveParse Protocols Quic FmtText RustLex RustSyntax RustItem RustSem RustMethod RustExec
  RustAst EmitText EmitGen SpecEmit EmitWant EmitStable CrateText GenCode MacroEval SpecMacro MacroParts MacroProofs.
Import ListNotations.
Open Scope string_scope.
Open Scope Z_scope.

(** [want_code] computed with the fields gone through once per packet type. *)
Definition want_fast (base : string) (ps : list pfield) : option (list ttree) :=
  match emit_fields Checked true (type_name base false) ps start, emit_fields Checked true (type_name base true) ps start with
  | Some s, Some t =>
      together [Some (want_struct base false); Some (want_struct base true);
        Some (impl_from base false s); Some (impl_from base true t);
        Some (packet_from base false false s); Some (packet_from base true false s); Some (packet_from base true true s);
        Some (size_from base s); Some (emit_iterable base); Some (emit_converters base ps);
        want_debug base false ps; want_debug base true ps]
  | _, _ => None
  end.
Lemma want_fast_ok : forall base ps r, want_fast base ps = Some r -> want_code Checked true base ps = Some r.
Proof.
  intros base ps r H. unfold want_fast in H. unfold want_code, want_parts. rewrite !impl_is, !packet_is, size_is.
  destruct (emit_fields Checked true (type_name base false) ps start) as [s |]; [| discriminate].
  destruct (emit_fields Checked true (type_name base true) ps start) as [t |]; [| discriminate].
  cbn [option_map]. exact H.
Qed.

Definition expands (code : option (list func * tpls)) (base : string) (ps : list pfield) : bool :=
  match run_code code plan_safe (GE "Ok" [gpacket base ps]) base, want_fast base ps with
  | Some (inl l), Some r => trees_eqb l r
  | _, _ => false
  end.
Definition expands_all (code : option (list func * tpls)) (l : list (string * string * string)) : bool :=
  forallb (fun '(mo, n, t) => expands code n (struct_fields t)) l.
Lemma all_expand : expands_all code_read crate_structs = true.
Proof. vm_cast_no_check (eq_refl true). Qed.

(** The conditions on the descriptions that the proofs about setters need. *)
From Coq Require Import String Ascii ZArith List Bool Lia.
From Verif Require Import Base DeriveUtil DeriveOps DeriveGen DeriveParse FmtText RustLex RustSyntax RustItem RustSem RustMethod RustExec CrateText
  SpecSource SpecItem EmitText EmitGen SpecEmit EmitEq EmitWant EmitLayout EmitStable EmitReads EmitWrites EmitPkts.
Import ListNotations.
Open Scope string_scope.
Open Scope Z_scope.

Definition spot_set_ready (mo base : string) (ps : list pfield) (s : spot) : bool :=
  match pf_ty (sp_field s) with
  | RPrimitive _ _ _ as t => set_ready (sp_bit s) t
  | RMisc ty => misc_set_ready mo base true ps (type_name base true) s ty
  | RVector (RMisc ty) => pkts_set_ready mo base true ps ty
  | RVector _ => true
  end.
Lemma set_ready_all : forallb (fun '(mo, n, t) => forallb (spot_set_ready mo n (struct_fields t)) (spots (struct_fields t) 0 [])) crate_structs = true.
Proof. vm_compute. reflexivity. Qed.

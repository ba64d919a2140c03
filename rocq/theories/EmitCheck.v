(** Every struct of the crate is emitted as described, and the descriptions meet the
    conditions the proofs about them need. *)
From Coq Require Import String Ascii ZArith List Bool Lia.
From Verif Require Import Base DeriveUtil DeriveOps DeriveGen DeriveParse FmtText RustLex RustSyntax RustItem RustSem RustMethod RustExec CrateText
  SpecSource SpecItem EmitText EmitGen SpecEmit EmitEq EmitWant EmitLayout EmitStable EmitReads EmitPkts.
Import ListNotations.
Open Scope string_scope.
Open Scope Z_scope.

Definition spot_ready (mo base : string) (mu : bool) (ps : list pfield) (s : spot) : bool :=
  match pf_ty (sp_field s) with
  | RPrimitive n z e => prim_ready (sp_bit s) (RPrimitive n z e)
  | RMisc ty => (args_ready (sp_bit s) (pf_cons (sp_field s)) && misc_ready mo base mu ps (type_name base mu) s ty)%bool
  | RVector (RMisc ty) => (iter_ready mo base mu ps ty && match int_ty (ty ++ "Iterable") with None => true | Some _ => false end &&
                         pkts_get_ready mo base mu ps (pf_name (sp_field s)) ty)%bool
  | RVector t => is_u8 t
  end.
Fixpoint nodup_names (l : list string) : bool :=
  match l with [] => true | x :: r => (negb (existsb (String.eqb x) r) && nodup_names r)%bool end.
(** The other functions of the crate refer to the size of an IPv4 header (see SpecSource.v). *)
Definition min_ready (mo base : string) (mu : bool) (ps : list pfield) : bool :=
  let f := (type_name base mu ++ "::minimum_packet_size")%string in
  match kind_of mo base mu ps [] f with
  | KMin => true
  | KLen => (String.eqb f "Ipv4Packet::minimum_packet_size" && String.eqb mo "ipv4" &&
             match getter_of ps f with None => true | Some _ => false end && (total ps =? 160))%bool
  | _ => false
  end.
Definition struct_ready (mo base : string) (ps : list pfield) : bool :=
  (forallb (len_ready mo ps) ps && tys_ready 0 ps && nodup_names (map pf_name ps) &&
   forallb (fun p => Bool.eqb (pf_struct_len p) (is_vec p)) ps &&
   inert ps [] "std::cmp::min" &&
   forallb (fun mu => forallb (free mo base mu ps) ["min"; "std::cmp::min"; "Vec::with_capacity"] &&
                      new_ready mo base mu ps "Borrowed" && new_ready mo base mu ps "Owned" && min_ready mo base mu ps &&
                      forallb (spot_ready mo base mu ps) (spots ps 0 [])) [false; true])%bool.

Lemma ready_all : forallb (fun '(mo, n, t) => struct_ready mo n (struct_fields t)) crate_structs = true.
Proof. vm_compute. reflexivity. Qed.
Lemma names_all : nodup_names (map (fun t => snd (fst t)) crate_structs) = true.
Proof. vm_compute. reflexivity. Qed.
Lemma emits_all : forallb (fun '(mo, n, t) => emits n (struct_fields t)) crate_structs = true.
Proof. vm_compute. reflexivity. Qed.

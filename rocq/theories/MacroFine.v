(** Deciding the hypotheses of C100; every struct of the crate meets them. *)
From Coq Require Import String Ascii ZArith List Bool Lia.
From Verif Require Import Base DeriveUtil DeriveOps DeriveParse RustLex RustSyntax RustMethod RustAst RustEval EmitText EmitGen SpecEmit GenCode MacroEval MacroProofs CrateText EmitWant SpecAny.
Import ListNotations.
Open Scope string_scope.
Open Scope Z_scope.

Definition reads_as (s : string) (l : list ttree) : bool := match read_trees s with Some x => trees_eqb x l | None => false end.
Lemma reads_as_ok : forall s l, reads_as s l = true -> read_trees s = Some l.
Proof. intros s l H. unfold reads_as in H. destruct (read_trees s); [| discriminate]. f_equal. now apply trees_eqb_ok. Qed.
Definition ident_b (s : string) : bool := reads_as s [TIdent s].
Definition prim_b (t : rtype) : bool := match t with RPrimitive ty z _ => ((0 <=? z) && (z <? 2 ^ 64) && ident_b ty)%bool | _ => true end.
Lemma prim_b_ok : forall t, prim_b t = true -> fine_prim t.
Proof.
  intros [ty z e | |] H; cbn [fine_prim prim_b] in *; try exact I. apply andb_prop in H. destruct H as [H J]. apply andb_prop in H. destruct H as [A B].
  apply Z.leb_le in A. apply Z.ltb_lt in B. split; [lia | now apply reads_as_ok].
Qed.
Definition type_b (p : pfield) : bool :=
  match pf_ty p with
  | RPrimitive _ _ _ => prim_b (pf_ty p)
  | RVector t => match t with RMisc ty => ident_b ty | _ => prim_b t end
  | RMisc ty => (ident_b ty && match pf_cons p with [] => false | _ => true end && forallb prim_b (pf_cons p))%bool
  end.
Lemma type_b_ok : forall p, type_b p = true -> fine_type p.
Proof.
  intros p H. unfold type_b, fine_type in *. destruct (pf_ty p) as [ty z e | [ty z e | t | ty] | ty]; try (now apply prim_b_ok); try (now apply reads_as_ok).
  apply andb_prop in H. destruct H as [H J]. apply andb_prop in H. destruct H as [A B].
  split; [now apply reads_as_ok |]. split; [intros K; rewrite K in B; discriminate |].
  apply Forall_forall. intros t T. rewrite forallb_forall in J. apply prim_b_ok. now apply J.
Qed.
Definition field_b (bit : Z) (offs : list (list ttree)) (p : pfield) : bool :=
  (type_b p &&
   (if pf_struct_len p then reads_as ("_packet." ++ pf_name p ++ ".len()") [TIdent "_packet"; TPunct "."; TIdent (pf_name p); TPunct "."; TIdent "len"; TGroup "()" []] else true) &&
   match pf_len p with
   | Some l => reads_as (replace "r#field_offset" ("&self.packet[(" ++ trees_text (offset_tokens bit offs) ++ ")..]") (trees_text [TGroup "()" l; TIdent "as"; TIdent "usize"]))
                 (length_expr (offset_tokens bit offs) l)
   | None => true
   end)%bool.
Lemma field_b_ok : forall bit offs p, field_b bit offs p = true -> fine bit offs p.
Proof.
  intros bit offs p H. unfold field_b in H. apply andb_prop in H. destruct H as [H C]. apply andb_prop in H. destruct H as [A B].
  split; [now apply type_b_ok |]. split.
  - intros S. rewrite S in B. now apply reads_as_ok.
  - intros l L. rewrite L in C. now apply reads_as_ok.
Qed.
Fixpoint fields_b (bit : Z) (offs : list (list ttree)) (ps : list pfield) : bool :=
  match ps with
  | [] => true
  | p :: r => (field_b bit offs p && fields_b (bit + bits_taken p) (more_offs bit offs p) r)%bool
  end.
Lemma fields_b_ok : forall ps bit offs, fields_b bit offs ps = true -> all_fine bit offs ps.
Proof.
  induction ps as [| p ps IH]; intros bit offs H; cbn [fields_b all_fine] in *; [exact I |]. apply andb_prop in H. destruct H as [A B].
  split; [now apply field_b_ok | now apply IH].
Qed.
Definition at_b (bit : Z) (t : rtype) : bool :=
  match t with RPrimitive _ z _ => ((1 <=? z) && (z <=? 64) && (bit mod 8 + z mod 8 <=? 8))%bool | _ => false end.
Lemma at_b_ok : forall bit t, at_b bit t = true -> fits_at bit t.
Proof.
  intros bit [ty z e | |] H; cbn [at_b fits_at] in *; try discriminate. apply andb_prop in H. destruct H as [H C]. apply andb_prop in H. destruct H as [A B].
  apply Z.leb_le in A. apply Z.leb_le in B. apply Z.leb_le in C. split; [lia | exact C].
Qed.
Fixpoint args_b (bit : Z) (l : list rtype) : bool := match l with [] => true | t :: r => (at_b bit t && args_b (bit + prim_bits t) r)%bool end.
Lemma args_b_ok : forall l bit, args_b bit l = true -> args_at bit l.
Proof. induction l as [| t l IH]; intros bit H; cbn [args_b args_at] in *; [exact I |]. apply andb_prop in H. destruct H. split; [now apply at_b_ok | now apply IH]. Qed.
Fixpoint code_b (bit : Z) (ps : list pfield) : bool :=
  match ps with
  | [] => true
  | p :: r =>
      (match pf_ty p with
       | RPrimitive _ _ _ => at_b bit (pf_ty p)
       | RVector t => match t with RMisc _ => true | _ => (at_b 0 t && (prim_bits t mod 8 =? 0))%bool end
       | RMisc _ => args_b bit (pf_cons p)
       end && code_b (bit + bits_taken p) r)%bool
  end.
Lemma code_b_ok : forall ps bit, code_b bit ps = true -> all_code bit ps.
Proof.
  induction ps as [| p ps IH]; intros bit H; cbn [code_b all_code] in *; [exact I |]. apply andb_prop in H. destruct H as [A B]. split; [| now apply IH].
  unfold has_code. destruct (pf_ty p) as [ty z e | [ty z e | t | ty] | ty]; try exact I; try (now apply at_b_ok); try (now apply args_b_ok).
  - apply andb_prop in A. destruct A as [A C]. split; [now apply at_b_ok | now apply Z.eqb_eq].
  - discriminate A.
Qed.
Definition covered (ps : list pfield) : bool := ((all_bits ps <? 2 ^ 64) && fields_b 0 [] ps && code_b 0 ps)%bool.
Lemma covered_ok : forall ps, covered ps = true -> all_bits ps < 2 ^ 64 /\ all_fine 0 [] ps /\ all_code 0 ps.
Proof.
  intros ps H. unfold covered in H. apply andb_prop in H. destruct H as [H C]. apply andb_prop in H. destruct H as [A B].
  split; [now apply Z.ltb_lt |]. split; [now apply fields_b_ok | now apply code_b_ok].
Qed.
Lemma crate_covered : forallb (fun '(_, _, t) => covered (struct_fields t)) crate_structs = true.
Proof. vm_cast_no_check (eq_refl true). Qed.
Lemma crate_meets : forall mo n t, In (mo, n, t) crate_structs -> all_bits (struct_fields t) < 2 ^ 64 /\ all_fine 0 [] (struct_fields t) /\ all_code 0 (struct_fields t).
Proof. intros mo n t H. apply covered_ok. exact (proj1 (forallb_forall _ _) crate_covered (mo, n, t) H). Qed.
Lemma parsed_meets : forall mo n ps, SpecEmit.parsed mo n ps -> all_bits ps < 2 ^ 64 /\ all_fine 0 [] ps /\ all_code 0 ps.
Proof.
  intros mo n ps (t & sf & I & R & P). assert (S : struct_fields t = ps) by (unfold struct_fields; now rewrite R, P). rewrite <- S. exact (crate_meets mo n t I).
Qed.

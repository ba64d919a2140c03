(** Structs whose fields the macro has code for: lemmas behind C100. *)
From Coq Require Import String Ascii ZArith List Bool Lia.
From Verif Require Import Base DeriveUtil DeriveOps DeriveUtilProofs DeriveParse FmtText RustLex RustSyntax RustMethod RustAst RustEval EmitText EmitGen GenCode MacroEval SpecMacro MacroParts MacroCode
  SpecAny MacroRound MacroImpl MacroRest MacroAny.
Import ListNotations.
Open Scope string_scope.
Open Scope Z_scope.

Section Total.
Variables (m : mode) (h : bool).
Lemma ops_total : forall bit ty z e, fits_at bit (RPrimitive ty z e) -> exists ops, ops_of m h bit z e = Some ops.
Proof.
  intros bit ty z e [A B]. unfold ops_of. rewrite operations_closed; [eexists; reflexivity |]. pose proof (Z.mod_pos_bound bit 8). unfold placed. lia.
Qed.
Lemma misc_total : forall nm l offs i bit, args_at bit l -> exists r, misc_args m h nm offs i bit l = Some r.
Proof.
  intros nm. induction l as [| t l IH]; intros offs i bit A; cbn [misc_args]; [eexists; reflexivity |]. destruct A as [F A]. destruct t as [ty z e | |]; try contradiction.
  destruct (ops_total bit ty z e F) as [ops ->]. cbn [prim_bits] in A. destruct (IH offs (i + 1) (bit + z) A) as [[[[[b a] u] g] t] ->]. eexists. reflexivity.
Qed.
Lemma field_total : forall nm p s, has_code (e_bit s) p -> exists s', emit_field m h nm p s = Some s'.
Proof.
  intros nm p s H. unfold has_code in H. unfold emit_field. destruct (pf_ty p) as [ty z e | [ty z e | t | ty] | ty].
  - destruct (ops_total _ _ _ _ H) as [ops ->]. eexists. reflexivity.
  - destruct H as [H M]. cbn [prim_bits] in M. rewrite M. destruct (ops_total 0 ty z Big H) as [ops ->]. eexists. reflexivity.
  - destruct H as [H _]. contradiction.
  - eexists. reflexivity.
  - destruct (misc_total nm (pf_cons p) (e_offs s) 0 (e_bit s) H) as [[[[[b a] u] g] t] ->]. eexists. reflexivity.
Qed.
Lemma fields_total : forall nm ps s, all_code (e_bit s) ps -> exists s', emit_fields m h nm ps s = Some s'.
Proof.
  intros nm. induction ps as [| p ps IH]; intros s C; cbn [emit_fields]; [eexists; reflexivity |]. destruct C as [H C]. destruct (field_total nm p s H) as [s1 E]. rewrite E.
  apply IH. destruct (emit_next m h nm p s s1 E) as [-> _]. exact C.
Qed.
Lemma code_total : forall base ps, all_code 0 ps -> exists out, want_code m h base ps = Some out.
Proof.
  intros base ps C. unfold want_code, want_parts. rewrite !impl_is, !packet_is, size_is.
  destruct (fields_total (type_name base false) ps start C) as [s ->]. destruct (fields_total (type_name base true) ps start C) as [t ->].
  destruct (debug_total base ps false) as [d ->], (debug_total base ps true) as [dm ->]. cbn [option_map]. unfold together. eexists. reflexivity.
Qed.
Lemma any_code : forall base ps, all_bits ps < 2 ^ 64 -> all_fine 0 [] ps -> all_code 0 ps ->
  exists out, want_code m h base ps = Some out /\ expand m h base ps = Some (inl out).
Proof. intros base ps B F C. destruct (code_total base ps C) as [out W]. exists out. split; [exact W |]. now apply any_struct. Qed.

Lemma bit_is : forall nm ps s s', emit_fields m h nm ps s = Some s' -> e_bit s' = e_bit s + all_bits ps.
Proof.
  intros nm. unfold all_bits. induction ps as [| p ps IH]; intros s s' E; cbn [emit_fields map fold_right] in *; [injection E as <-; lia |].
  destruct (emit_field m h nm p s) as [s1 |] eqn:E1; [| discriminate E]. apply IH in E. destruct (emit_next m h nm p s s1 E1) as [N _]. lia.
Qed.
Lemma round_up : forall b, (if b mod 8 =? 0 then b / 8 else b / 8 + 1) = (b + 7) / 8.
Proof.
  intros b. pose proof (Z.div_mod b 8 ltac:(lia)) as D. pose proof (Z.mod_pos_bound b 8 ltac:(lia)) as R.
  destruct (b mod 8 =? 0) eqn:E; [apply Z.eqb_eq in E | apply Z.eqb_neq in E]; [apply (Z.div_unique _ _ _ 7) | apply (Z.div_unique _ _ _ (b mod 8 - 1))]; lia.
Qed.
Definition inside (l : list ttree) : list ttree := match nth 10 l (TPunct "") with TGroup _ g => g | _ => [] end.
Lemma minimum_text : forall a b c md pd x ss pop acc mt,
  let q := quote t_31 [("name", HOne [TIdent a]); ("imm_name", HOne [TIdent b]); ("base_name", HOne [TIdent c]); ("mut_", HOne md); ("packet_data", HOne [TIdent pd]);
     ("byte_size", HOne [x]); ("struct_size", HOne ss); ("populate", HOne pop); ("accessors", HMany acc); ("mutators", HMany mt)] in
  q = (trees_of "impl<'a>" ++ [TIdent a] ++ trees_of "<'a>" ++
       [TGroup "{}" (firstn 64 (inside q) ++ trees_of "pub const fn minimum_packet_size() -> usize" ++ [TGroup "{}" [x]] ++ skipn 72 (inside q))])%list.
Proof. intros a b c md pd x ss pop acc mt q. unfold q. vm_compute. reflexivity. Qed.
Lemma minimum_in : forall base mu s, exists pre post,
  impl_from base mu s = (trees_of "impl<'a>" ++ [TIdent (type_name base mu)] ++ trees_of "<'a>" ++
    [TGroup "{}" (pre ++ trees_of "pub const fn minimum_packet_size() -> usize" ++ [TGroup "{}" [TLit true (dec ((e_bit s + 7) / 8) ++ "usize")]] ++ post)])%list.
Proof.
  intros base mu s. unfold impl_from. rewrite round_up, is_impl. unfold ident, usize_lit. eexists. eexists. apply minimum_text.
Qed.
Lemma any_minimum : forall base ps, all_bits ps < 2 ^ 64 -> all_fine 0 [] ps -> all_code 0 ps ->
  exists before i im after, expand m h base ps = Some (inl (before ++ i ++ im ++ after)%list) /\
    minimum_of (base ++ "Packet") (all_bits ps) i /\ minimum_of ("Mutable" ++ base ++ "Packet") (all_bits ps) im.
Proof.
  intros base ps B F C. destruct (fields_total (type_name base false) ps start C) as [s E]. destruct (fields_total (type_name base true) ps start C) as [t T].
  destruct (any_code base ps B F C) as (out & W & X). rewrite X. clear X. revert W. unfold want_code, want_parts. rewrite !impl_is, !packet_is, size_is, E, T. cbn [option_map].
  destruct (debug_total base ps false) as [d ->], (debug_total base ps true) as [dm ->]. unfold together.
  apply bit_is in E, T. cbn [start e_bit] in E, T. rewrite Z.add_0_l in E, T.
  pose proof (minimum_in base false s) as I. pose proof (minimum_in base true t) as IM. rewrite E in I. rewrite T in IM. revert I IM.
  generalize (packet_from base false false s), (packet_from base true false s), (packet_from base true true s), (size_from base s), (emit_iterable base), (emit_converters base ps),
    (want_struct base false), (want_struct base true), (impl_from base false s), (impl_from base true t).
  intros l0 l1 l2 l3 l4 l5 l6 l7 i im I IM W. injection W as <-.
  exists (l6 ++ l7)%list, i, im, (l0 ++ l1 ++ l2 ++ l3 ++ l4 ++ l5 ++ d ++ dm ++ [])%list.
  split; [now rewrite <- !app_assoc |]. split; [exact I | exact IM].
Qed.
End Total.

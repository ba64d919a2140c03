(** The loop over the fields, run from its text. *)
From Coq Require Import String Ascii ZArith List Bool Lia.
From Verif Require Import Base DeriveUtil DeriveOps DeriveParse RustLex RustSyntax RustMethod RustAst RustEval EmitText EmitGen GenCode MacroEval MacroCode MacroFill MacroSym MacroLoop MacroMisc SpecAny.
Import ListNotations.
Open Scope string_scope.
Open Scope Z_scope.

Section Round.
Variables (m : mode) (h : bool) (parsed : gv).
Notation G := (gev (planned m h) fs_c q_c parsed).
Variables (pk : gv) (mu : bool) (nm : string).

Lemma misc_bits : forall l offs i b b' a u g t, misc_args m h nm offs i b l = Some (b', a, u, g, t) -> b' = b + fold_right Z.add 0 (map prim_bits l).
Proof.
  induction l as [| x l IH]; intros offs i b b' a u g t M; cbn [misc_args] in M; [injection M as <- <- <- <- <-; cbn; lia |].
  destruct x as [ty z e | |]; try discriminate. destruct (ops_of m h b z e); [| discriminate].
  destruct (misc_args m h nm offs (i + 1) (b + z) l) as [[[[[? ?] ?] ?] ?] |] eqn:E; [| discriminate].
  injection M as <- <- <- <- <-. apply IH in E. cbn [map fold_right prim_bits]. lia.
Qed.
Lemma fine_usable : forall l, Forall fine_prim l -> Forall usable l.
Proof. intros l F. eapply Forall_impl; [| exact F]. intros [] H; cbn [usable fine_prim] in *; try exact I. destruct H as [A B]. split; [lia | exact B]. Qed.
Lemma width_pos : forall p, fine_type p -> 0 <= bits_taken p.
Proof.
  intros p F. unfold bits_taken, fine_type in *. destruct (pf_ty p); [apply F | lia |]. destruct F as (_ & _ & F).
  induction F as [| x l P _ IH]; cbn [map fold_right]; [lia |]. assert (0 <= prim_bits x) by (destruct x; cbn [prim_bits fine_prim] in *; lia). lia.
Qed.
Definition cons_of (p : pfield) : gv := match pf_cons p with [] => GE "None" [] | l => GE "Some" [GL (map gtype l)] end.
Definition plen_of (p : pfield) : option string := option_map (fun l => trees_text [TGroup "()" l; TIdent "as"; TIdent "usize"]) (pf_len p).
Lemma field_is : forall p, gfield p = fieldv (pf_name p) (pf_ty p) (plen_of p) (pf_struct_len p) (pf_payload p) (cons_of p).
Proof. intros p. unfold gfield, fieldv, plen_of, cons_of. destruct (pf_len p); reflexivity. Qed.

Lemma emit_next : forall p s s', emit_field m h nm p s = Some s' -> e_bit s' = e_bit s + bits_taken p /\ e_offs s' = more_offs (e_bit s) (e_offs s) p.
Proof.
  intros p s s' E. unfold emit_field in E. unfold bits_taken, more_offs.
  destruct (pf_ty p) as [ty z e | [ty z e | t | ty] | ty].
  - destruct (ops_of m h (e_bit s) z e); [| discriminate E]. injection E as <-. cbn [e_bit e_offs]. split; [reflexivity |]. destruct (pf_len p); reflexivity.
  - destruct (negb (z mod 8 =? 0)); [discriminate E |]. destruct (ops_of m h 0 z Big); [| discriminate E]. injection E as <-. cbn [e_bit e_offs]. split; [lia |]. destruct (pf_len p); reflexivity.
  - discriminate E.
  - injection E as <-. cbn [e_bit e_offs]. split; [lia |]. destruct (pf_len p); reflexivity.
  - destruct (misc_args m h nm (e_offs s) 0 (e_bit s) (pf_cons p)) as [[[[[b a] u] g] t] |] eqn:M; [| discriminate E]. injection E as <-. cbn [e_bit e_offs].
    apply misc_bits in M. split; [exact M |]. destruct (pf_len p); reflexivity.
Qed.

Lemma round : forall k p s s', (40 <= k)%nat -> emit_field m h nm p s = Some s' -> fine (e_bit s) (e_offs s) p -> 0 <= e_bit s -> e_bit s' < 2 ^ 64 ->
  G k loop_body (("field", gfield p) :: env0 pk mu nm s) = Done GUnit (("field", gfield p) :: env0 pk mu nm s').
Proof.
  intros k p s s' K E (FT & FS & FL) B B'. pose proof (emit_next p s s' E) as [NB _]. pose proof (width_pos p FT) as WP.
  destruct k as [| k]; [lia |]. rewrite parts, field_is.
  set (len := match pf_len p with Some l => length_expr (offset_tokens (e_bit s) (e_offs s)) l | None => packet_len end).
  assert (LEN : match plen_of p with
                | Some l => read_trees (replace "r#field_offset" ("&self.packet[(" ++ trees_text (offset_tokens (e_bit s) (e_offs s)) ++ ")..]") l) = Some len
                | None => len = packet_len
                end).
  { unfold plen_of, len. unfold fine_len in FL. destruct (pf_len p) as [l |]; cbn [option_map]; [now apply FL | reflexivity]. }
  pose proof (stage_a (planned m h) parsed pk mu nm (pf_name p) k (pf_ty p) (plen_of p) (pf_struct_len p) (pf_payload p) (cons_of p) s len ltac:(lia) ltac:(lia) LEN) as SA.
  destruct s as [b o so ac mt po lo up]. cbn [e_bit e_offs] in *.
  pose proof (stage_b (planned m h) parsed pk mu nm (pf_name p) k (pf_ty p) (plen_of p) (pf_struct_len p) (pf_payload p) (cons_of p) (offset_tokens b o) len b o so ac mt po lo up ltac:(lia)) as SB.
  set (lo' := if pf_payload p then offset_tokens b o else lo) in *.
  set (up' := if pf_payload p then match plen_of p with Some _ => (offset_tokens b o ++ TPunct "+" :: len)%list | None => packet_len end else up) in *.
  assert (SC : exists co' ac' mt', stmts (planned m h) parsed k [part_c]
     (env1 (pf_name p) (fieldv (pf_name p) (pf_ty p) (plen_of p) (pf_struct_len p) (pf_payload p) (cons_of p)) (offset_tokens b o) len (env0 pk mu nm (Emitted b o so ac mt po lo' up')))
     (env1 (pf_name p) (fieldv (pf_name p) (pf_ty p) (plen_of p) (pf_struct_len p) (pf_payload p) (cons_of p)) co' len (env0 pk mu nm (Emitted (e_bit s') o so ac' mt' po lo' up'))) /\
     ac' = e_acc s' /\ mt' = e_mut s').
  { clear SA SB LEN FL FS. unfold emit_field in E. cbn [e_bit e_offs e_soffs e_acc e_mut e_pop e_lower e_upper] in E. unfold fine_type in FT. unfold cons_of. fold len in E.
    destruct (pf_ty p) as [ty z e | [ty z e | t | ty] | ty] eqn:T.
    - destruct (ops_of m h b z e) as [ops |] eqn:O; [| discriminate E]. injection E as <-. cbn [e_bit e_acc e_mut] in *. destruct FT as [Z1 FT]. apply plan_of in O.
      do 3 eexists. split; [eapply stage_c_prim; [lia | lia | lia | exact O | exact FT] | split; reflexivity].
    - destruct (z mod 8 =? 0) eqn:M8; [| discriminate E]. cbn [negb] in E. destruct (ops_of m h 0 z Big) as [ops |] eqn:O; [| discriminate E]. injection E as <-.
      cbn [e_bit e_acc e_mut] in *. destruct FT as [Z1 FT]. apply plan_of in O. change (0 mod 8) with 0 in O.
      do 3 eexists. split; [eapply stage_c_vec; [lia | lia | exact M8 | exact O | exact FT] |].
      unfold raw_of, raw_mut_of, plen_of. split; [reflexivity |]. destruct (pf_len p); reflexivity.
    - discriminate E.
    - injection E as <-. cbn [e_bit e_acc e_mut] in *.
      do 3 eexists. split; [eapply stage_c_pkts; [lia | exact FT] |]. unfold raw_of, raw_mut_of. split; reflexivity.
    - destruct FT as (FT & NC & FC). destruct (misc_args m h nm o 0 b (pf_cons p)) as [[[[[b1 a] u] g] t] |] eqn:M; [| discriminate E]. injection E as <-. cbn [e_bit e_acc e_mut] in *.
      pose proof (stage_c_misc m h parsed pk mu nm (pf_name p) k ty (pf_cons p) (plen_of p) (pf_struct_len p) (pf_payload p) len b o so ac mt po lo' up' b1 a u g t
        ltac:(lia) M (fine_usable _ FC) B B' FT) as S. cbv zeta in S. destruct S as (co' & S).
      destruct (pf_cons p) as [| c0 cr]; [contradiction |]. do 3 eexists. split; [exact S | split; reflexivity]. }
  destruct SC as (co' & ac' & mt' & SC & AC & MT).
  assert (FS' : if pf_struct_len p then read_trees ("_packet." ++ pf_name p ++ ".len()") = Some [TIdent "_packet"; TPunct "."; TIdent (pf_name p); TPunct "."; TIdent "len"; TGroup "()" []] else True).
  { unfold fine_struct_len in FS. destruct (pf_struct_len p); [now apply FS | exact I]. }
  pose proof (stage_d (planned m h) parsed pk mu nm (pf_name p) k (pf_ty p) (plen_of p) (pf_struct_len p) (pf_payload p) (cons_of p) co' len (e_bit s') o so ac' mt' po lo' up' ltac:(lia) FS') as SD.
  eapply r_block; [| apply stage_e; lia |].
  - eapply stmts_app; [exact SA |]. change (part_b :: part_c :: part_d) with ([part_b] ++ [part_c] ++ part_d)%list. eapply stmts_app; [exact SB |]. eapply stmts_app; [exact SC | exact SD].
  - subst ac' mt'. clear SA SB SC SD.
    match goal with |- skipn _ (env1 _ ?f _ _ (env0 _ _ _ ?x)) = _ => change (("field", f) :: env0 pk mu nm x = ("field", f) :: env0 pk mu nm s') end.
    f_equal. f_equal. unfold emit_field in E. cbn [e_bit e_offs e_soffs e_acc e_mut e_pop e_lower e_upper] in E. fold len in E. unfold lo', up', plen_of.
    destruct (pf_ty p) as [ty z e | [ty z e | t | ty] | ty] eqn:T;
      [destruct (ops_of m h b z e) as [ops |] eqn:O; [| discriminate E]
      | destruct (negb (z mod 8 =? 0)); [discriminate E |]; destruct (ops_of m h 0 z Big) as [ops |] eqn:O; [| discriminate E]
      | discriminate E | 
      | destruct (misc_args m h nm o 0 b (pf_cons p)) as [[[[[b1 a] u] g] t] |] eqn:M; [| discriminate E]];
      injection E as <-; cbn [e_bit e_acc e_mut]; destruct (pf_payload p), (pf_len p); reflexivity.
Qed.

Lemma loop : forall k ps s s', (40 <= k)%nat -> emit_fields m h nm ps s = Some s' -> all_fine (e_bit s) (e_offs s) ps -> 0 <= e_bit s -> e_bit s + all_bits ps < 2 ^ 64 ->
  each (G k) (QVar "field") loop_body (map gfield ps) (env0 pk mu nm s) = Done GUnit (env0 pk mu nm s') /\ e_bit s' = e_bit s + all_bits ps.
Proof.
  intros k ps. induction ps as [| p ps IH]; intros s s' K E F B T; cbn [emit_fields] in E.
  { injection E as <-. split; [reflexivity |]. cbn. lia. }
  destruct (emit_field m h nm p s) as [s1 |] eqn:E1; [| discriminate E]. destruct F as [F1 F]. destruct (emit_next p s s1 E1) as [NB NO].
  unfold all_bits in *. cbn [map fold_right] in *. pose proof (width_pos p (proj1 F1)) as WP. rewrite <- NB, <- NO in F.
  assert (TP : 0 <= fold_right Z.add 0 (map bits_taken ps)).
  { clear - F. revert F. generalize (e_bit s1), (e_offs s1). induction ps as [| q ps IH]; intros b o F; cbn [map fold_right]; [lia |]. destruct F as [[F1 _] F]. apply width_pos in F1. apply IH in F. lia. }
  destruct (IH s1 s' K E F ltac:(lia) ltac:(lia)) as [W TB]. split; [| lia].
  eapply each_var; [apply (round k p s s1 K E1 F1 B ltac:(lia)) | | exact W].
  match goal with |- skipn _ (_ :: ?x) = _ => change (x = env0 pk mu nm s1) end. reflexivity.
Qed.
End Round.

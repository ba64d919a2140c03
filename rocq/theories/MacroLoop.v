(** One round of the loop over the fields, run from its text. *)
From Coq Require Import String Ascii ZArith List Bool Lia.
From Verif Require Import Base DeriveUtil DeriveOps DeriveParse RustLex RustSyntax RustMethod RustAst RustEval EmitText EmitGen GenCode MacroEval MacroCode MacroFill MacroSym.
Import ListNotations.
Open Scope string_scope.
Open Scope Z_scope.

Definition loop_of (e : xp) : xp := match e with YBlock l _ => match nth 8 l (ZExp e) with ZFor _ _ b => b | _ => e end | _ => e end.
Definition loop_body : xp := Eval vm_compute in loop_of (fu_body f_packet_impl).
Definition stmts_of (e : xp) : list sx := match e with YBlock l _ => l | _ => [] end.
Definition last_of (e : xp) : xp := match e with YBlock _ (Some l) => l | _ => e end.
Definition part_a : list sx := Eval vm_compute in firstn 5 (stmts_of loop_body).
Definition part_b : sx := Eval vm_compute in nth 5 (stmts_of loop_body) (ZExp loop_body).
Definition part_c : sx := Eval vm_compute in nth 6 (stmts_of loop_body) (ZExp loop_body).
Definition part_d : list sx := Eval vm_compute in skipn 7 (stmts_of loop_body).
Definition part_e : xp := Eval vm_compute in last_of loop_body.
Lemma parts : loop_body = YBlock (part_a ++ part_b :: part_c :: part_d) (Some part_e).
Proof. reflexivity. Qed.

Definition fieldv (n : string) (t : rtype) (plen : option string) (slen pay : bool) (cons : gv) : gv :=
  GR [("name", GS n); ("span", GUnit); ("ty", gtype t); ("packet_length", gopt GS plen);
      ("struct_length", if slen then GE "Some" [GS ("_packet." ++ n ++ ".len()")] else GE "None" []);
      ("is_payload", GB pay); ("construct_with", cons)].
Definition env0 (pk : gv) (mu : bool) (nm : string) (s : emitted) : genv :=
  [("name", GQ [TIdent nm]); ("payload_bounds", GR [("lower", GQ (e_lower s)); ("upper", GQ (e_upper s))]);
   ("populate", GL (map GQ (e_pop s))); ("mutators", GL (map GQ (e_mut s))); ("accessors", GL (map GQ (e_acc s)));
   ("offset_fns_struct", GL (map GQ (e_soffs s))); ("offset_fns_packet", GL (map GQ (e_offs s))); ("bit_offset", GN (e_bit s));
   ("packet", pk); ("mutable", GB mu)].
Definition env1 (n : string) (f : gv) (co len : list ttree) (rest : genv) : genv :=
  ("packet_length", GQ len) :: ("co", GQ co) :: ("set_field_name", GQ [TIdent ("set_" ++ n)]) :: ("get_field_name", GQ [TIdent ("get_" ++ n)]) ::
  ("field_name", GQ [TIdent n]) :: ("field", f) :: rest.

Section Loop.
Variable plan : Z -> Z -> endian -> option (option (list getop)).
Variable parsed : gv.
Notation G := (gev plan fs_c q_c parsed).
Variables (pk : gv) (mu : bool) (nm : string).

Lemma to_stmts : forall k l s t t', stmts plan parsed k l s t -> t = t' -> stmts plan parsed k l s t'.
Proof. intros k l s t t' H <-. exact H. Qed.
Lemma one_hole : forall l, quote t_7 [("packet_length", HOne (gtokens (GQ l)))] = l.
Proof. intros l. change ((l ++ [])%list = l). apply app_nil_r. Qed.
Lemma sum_hole : forall a l, quote t_9 [("co", HOne (gtokens (GQ a))); ("packet_length", HOne (gtokens (GQ l)))] = (a ++ TPunct "+" :: l)%list.
Proof. intros a l. change ((a ++ TPunct "+" :: (l ++ []))%list = (a ++ TPunct "+" :: l)%list). now rewrite app_nil_r. Qed.

Lemma stage_a : forall n k t plen slen pay cons s len, (20 <= k)%nat -> 0 <= e_bit s < 2 ^ 64 ->
  match plen with
  | Some l => read_trees (replace "r#field_offset" ("&self.packet[(" ++ trees_text (offset_tokens (e_bit s) (e_offs s)) ++ ")..]") l) = Some len
  | None => len = packet_len
  end ->
  stmts plan parsed k part_a (("field", fieldv n t plen slen pay cons) :: env0 pk mu nm s)
    (env1 n (fieldv n t plen slen pay cons) (offset_tokens (e_bit s) (e_offs s)) len (env0 pk mu nm s)).
Proof.
  intros n k t plen slen pay cons s len K B L. do 20 (destruct k as [| k]; [exfalso; lia |]). unfold part_a, env1, env0, fieldv.
  destruct plen as [l |]; cbn [gopt].
  - eapply to_stmts; [sts |]. rewrite one_hole. reflexivity.
  - subst len. sts.
Qed.
Lemma stage_b : forall n k t plen (slen pay : bool) cons co len b o so ac mt po lo up, (20 <= k)%nat ->
  stmts plan parsed k [part_b] (env1 n (fieldv n t plen slen pay cons) co len (env0 pk mu nm (Emitted b o so ac mt po lo up)))
    (env1 n (fieldv n t plen slen pay cons) co len (env0 pk mu nm
      (Emitted b o so ac mt po (if (pay : bool) then co else lo)
         (if (pay : bool) then match plen with Some _ => (co ++ TPunct "+" :: len)%list | None => packet_len end else up)))).
Proof.
  intros n k t plen slen pay cons co len b o so ac mt po lo up K. do 20 (destruct k as [| k]; [exfalso; lia |]).
  unfold part_b, env1, env0, fieldv. cbn [e_bit e_offs e_soffs e_acc e_mut e_pop e_lower e_upper].
  destruct pay; [destruct plen as [l |] |]; cbn [gopt]; (eapply to_stmts; [sts |]); rewrite ?sum_hole; reflexivity.
Qed.
Lemma stage_d : forall n k t plen (slen pay : bool) cons co len b o so ac mt po lo up, (20 <= k)%nat ->
  (if (slen : bool) then read_trees ("_packet." ++ n ++ ".len()") = Some [TIdent "_packet"; TPunct "."; TIdent n; TPunct "."; TIdent "len"; TGroup "()" []] else True) ->
  stmts plan parsed k part_d (env1 n (fieldv n t plen slen pay cons) co len (env0 pk mu nm (Emitted b o so ac mt po lo up)))
    (env1 n (fieldv n t plen slen pay cons) co len (env0 pk mu nm
      (Emitted b (match plen with Some _ => (o ++ [len])%list | None => o end)
         (if (slen : bool) then (so ++ [[TIdent "_packet"; TPunct "."; TIdent n; TPunct "."; TIdent "len"; TGroup "()" []]])%list else so) ac mt po lo up))).
Proof.
  intros n k t plen slen pay cons co len b o so ac mt po lo up K R. do 20 (destruct k as [| k]; [exfalso; lia |]).
  unfold part_d, env1, env0, fieldv. cbn [e_bit e_offs e_soffs e_acc e_mut e_pop e_lower e_upper].
  destruct slen; destruct plen as [l |]; cbn [gopt]; (eapply to_stmts; [sts |]); reflexivity.
Qed.
Lemma stage_e : forall n k t plen (slen pay : bool) cons co len b o so ac mt po lo up, (20 <= k)%nat ->
  G k part_e (env1 n (fieldv n t plen slen pay cons) co len (env0 pk mu nm (Emitted b o so ac mt po lo up))) =
  Done GUnit (env1 n (fieldv n t plen slen pay cons) co len (env0 pk mu nm
      (Emitted b o so ac mt
         (po ++ [[TIdent "self"; TPunct "."; TIdent ("set_" ++ n);
                  TGroup "()" ((match t with RVector _ => [TPunct "&"] | _ => [] end) ++ [TIdent "packet"; TPunct "."; TIdent n])%list; TPunct ";"]])%list lo up))).
Proof.
  intros n k t plen slen pay cons co len b o so ac mt po lo up K. do 20 (destruct k as [| k]; [exfalso; lia |]).
  unfold part_e, env1, env0, fieldv. cbn [e_bit e_offs e_soffs e_acc e_mut e_pop e_lower e_upper].
  destruct t as [ty z e | t | ty]; run; reflexivity.
Qed.
Lemma stage_c_prim : forall n k ty z e plen slen pay cons co len b o so ac mt po lo up ops, (20 <= k)%nat -> 0 <= b < 2 ^ 64 -> 0 <= b + z < 2 ^ 64 ->
  plan (b mod 8) z e = Some (Some ops) -> read_trees ty = Some [TIdent ty] ->
  stmts plan parsed k [part_c] (env1 n (fieldv n (RPrimitive ty z e) plen slen pay cons) co len (env0 pk mu nm (Emitted b o so ac mt po lo up)))
   (env1 n (fieldv n (RPrimitive ty z e) plen slen pay cons) co len (env0 pk mu nm
      (Emitted (b + z) o so (ac ++ [EmitGen.gen_accessor n ty co ops None])%list (mt ++ [EmitGen.gen_mutator n ty co (to_mutator ops) None])%list po lo up))).
Proof.
  intros n k ty z e plen slen pay cons co len b o so ac mt po lo up ops K B S P R. do 20 (destruct k as [| k]; [exfalso; lia |]).
  unfold part_c, env1, env0, fieldv. cbn [e_bit e_offs e_soffs e_acc e_mut e_pop e_lower e_upper].
  (eapply to_stmts; [sts |]); reflexivity.
Qed.
Definition raw_of (n : string) (pay : bool) (co len : list ttree) : list (list ttree) := if pay then [] else
    [quote tpl_raw [("get_field_name_raw", ident ("get_" ++ n ++ "_raw")); ("co", HOne co); ("packet_length", HOne len)]].
Definition raw_mut_of (n : string) (pay : bool) (co len : list ttree) : list (list ttree) := if pay then [] else
    [quote tpl_raw_mut [("get_field_name_raw_mut", ident ("get_" ++ n ++ "_raw_mut")); ("co", HOne co); ("packet_length", HOne len)]].
Lemma stage_c_vec : forall n k ty z e plen (slen pay : bool) cons co len b o so ac mt po lo up ops, (20 <= k)%nat -> 0 <= z < 2 ^ 64 ->
  (z mod 8 =? 0) = true -> plan 0 z Big = Some (Some ops) -> read_trees ty = Some [TIdent ty] ->
  let h := [("get_name", ident ("get_" ++ n)); ("set_name", ident ("set_" ++ n)); ("inner_ty", ident ty); ("co", HOne co); ("packet_length", HOne len);
                    ("size", HOne (usize_lit (z / 8)))] in
  let check := match plen with Some _ => quote tpl_check_len h | None => [] end in
  let copy := if String.eqb ty "u8" then quote tpl_copy_bytes []
              else quote tpl_copy_loop (("sop", HOne (set_ops_tokens "self.packet" (to_mutator ops))) :: h) in
  stmts plan parsed k [part_c] (env1 n (fieldv n (RVector (RPrimitive ty z e)) plen slen pay cons) co len (env0 pk mu nm (Emitted b o so ac mt po lo up)))
   (env1 n (fieldv n (RVector (RPrimitive ty z e)) plen slen pay cons) co len (env0 pk mu nm
      (Emitted b o so (ac ++ raw_of n pay co len ++ [quote tpl_vec_get (("access_ops", HOne (get_ops_tokens "packet" ty ops)) :: h)])%list
         (mt ++ raw_mut_of n pay co len ++ [quote tpl_vec_set (("check_len", HOne check) :: ("copy_vals", HOne copy) :: h)])%list po lo up))).
Proof.
  intros n k ty z e plen slen pay cons co len b o so ac mt po lo up ops K Z M P R. do 20 (destruct k as [| k]; [exfalso; lia |]).
  unfold part_c, env1, env0, fieldv. cbn [e_bit e_offs e_soffs e_acc e_mut e_pop e_lower e_upper].
  unfold raw_of, raw_mut_of. tplnames. destruct (String.eqb ty "u8") eqn:U; destruct pay, plen as [l |]; cbn [gopt app];
    (eapply to_stmts; [sts |]); rewrite <- ?app_assoc; cbn [app]; same.
Qed.
Lemma stage_c_pkts : forall n k ty plen (slen pay : bool) cons co len b o so ac mt po lo up, (20 <= k)%nat -> read_trees ty = Some [TIdent ty] ->
  let h := [("get_name", ident ("get_" ++ n)); ("set_name", ident ("set_" ++ n)); ("get_name_iter", ident ("get_" ++ n ++ "_iter"));
                ("inner_ty", ident ty); ("inner_ty_iterable", ident (ty ++ "Iterable"));
                ("inner_ty_packet_mut", ident ("Mutable" ++ ty ++ "Packet")); ("co", HOne co); ("packet_length", HOne len)] in
  stmts plan parsed k [part_c] (env1 n (fieldv n (RVector (RMisc ty)) plen slen pay cons) co len (env0 pk mu nm (Emitted b o so ac mt po lo up)))
   (env1 n (fieldv n (RVector (RMisc ty)) plen slen pay cons) co len (env0 pk mu nm
      (Emitted b o so (ac ++ raw_of n pay co len ++ [quote tpl_pkts_get h])%list
         (mt ++ raw_mut_of n pay co len ++ [quote tpl_pkts_set h])%list po lo up))).
Proof.
  intros n k ty plen slen pay cons co len b o so ac mt po lo up K R. do 20 (destruct k as [| k]; [exfalso; lia |]).
  unfold part_c, env1, env0, fieldv. cbn [e_bit e_offs e_soffs e_acc e_mut e_pop e_lower e_upper].
  unfold raw_of, raw_mut_of. tplnames. destruct pay; cbn [gopt app];
    (eapply to_stmts; [sts |]); rewrite <- ?app_assoc; cbn [app]; same.
Qed.
End Loop.

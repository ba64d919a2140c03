(** Fields of a struct type: the loop over the arguments of [construct_with]. *)
From Coq Require Import String Ascii ZArith List Bool Lia.
From Verif Require Import Base DeriveUtil DeriveOps DeriveParse RustLex RustSyntax RustMethod RustAst RustEval EmitText EmitGen GenCode MacroEval MacroCode MacroFill MacroSym MacroLoop.
Import ListNotations.
Open Scope string_scope.
Open Scope Z_scope.

(** The body of the loop over the arguments. *)
Definition args_of (c : sx) : xp :=
  match c with
  | ZExp (YMatch _ [_; _; (_, _, YBlock l _)]) => match nth 6 l c with ZFor _ _ b => b | _ => YInt "" 0 end
  | _ => YInt "" 0
  end.
Definition arg_body : xp := Eval vm_compute in args_of part_c.

Definition usable (t : rtype) : Prop := match t with RPrimitive ty z _ => 0 <= z /\ read_trees ty = Some [TIdent ty] | _ => True end.

Ltac forloop ::= match goal with W : each _ _ _ _ _ = _ |- _ => exact W end.

Section Misc.
Variables (m : mode) (h : bool) (parsed : gv).
Notation G := (gev (planned m h) fs_c q_c parsed).
Variables (pk : gv) (mu : bool) (nm : string).

Lemma plan_of : forall bit z e ops, ops_of m h bit z e = Some ops -> planned m h (bit mod 8) z e = Some (Some ops).
Proof. intros bit z e ops H. unfold ops_of in H. unfold planned. destruct (operations m h (bit mod 8) z e) as [o |]; [now subst o | discriminate]. Qed.

Definition menv (n : string) (f : gv) (len : list ttree) (ty : string) (cw : gv) (so ac mt po : list (list ttree)) (lo up : list ttree) (o : list (list ttree))
    (co : list ttree) (b : Z) (a u g t : list (list ttree)) : genv :=
  ("ty", GQ [TIdent ty]) :: ("construct_with", cw) :: ("set_args", GL (map GQ t)) :: ("get_args", GL (map GQ g)) :: ("inner_mutators", GL (map GQ u)) ::
  ("inner_accessors", GL (map GQ a)) :: ("ty_str", GS ty) :: env1 n f co len (env0 pk mu nm (Emitted b o so ac mt po lo up)).

Lemma misc_mono : forall l offs i b b' a u g t, misc_args m h nm offs i b l = Some (b', a, u, g, t) -> Forall usable l -> b <= b'.
Proof.
  induction l as [| x l IH]; intros offs i b b' a u g t M F; cbn [misc_args] in M; [injection M as <- <- <- <- <-; lia |].
  destruct x as [ty z e | |]; try discriminate. destruct (ops_of m h b z e); [| discriminate].
  destruct (misc_args m h nm offs (i + 1) (b + z) l) as [[[[[? ?] ?] ?] ?] |] eqn:E; [| discriminate].
  injection M as <- <- <- <- <-. inversion F as [| ? ? UU F']; subst. cbn [usable] in UU. destruct UU as [U _]. specialize (IH _ _ _ _ _ _ _ _ E F'). lia.
Qed.

Lemma misc_loop : forall k n f len ty cw so ac mt po lo up o l i b b' a u g t a' u' g' t', (20 <= k)%nat ->
  misc_args m h nm o i b l = Some (b', a', u', g', t') -> Forall usable l -> 0 <= b -> b' < 2 ^ 64 ->
  exists co', each (G k) (QTup [QVar "i"; QVar "arg"]) arg_body (enumerated i (map gtype l)) (menv n f len ty cw so ac mt po lo up o (offset_tokens b o) b a u g t) =
    Done GUnit (menv n f len ty cw so ac mt po lo up o co' b' (a ++ a')%list (u ++ u')%list (g ++ g')%list (t ++ t')%list).
Proof.
  intros k n f len ty cw so ac mt po lo up o l. induction l as [| x l IH]; intros i b b' a u g t a' u' g' t' K M F B B'; cbn [misc_args] in M.
  { injection M as <- <- <- <- <-. exists (offset_tokens b o). rewrite !app_nil_r. reflexivity. }
  destruct x as [ty' z e | |]; try discriminate. destruct (ops_of m h b z e) as [ops |] eqn:O; [| discriminate].
  destruct (misc_args m h nm o (i + 1) (b + z) l) as [[[[[b2 a2] u2] g2] t2] |] eqn:E; [| discriminate].
  injection M as <- <- <- <- <-. inversion F as [| ? ? UU F']; subst. cbn [usable] in UU. destruct UU as [U R]. pose proof (misc_mono _ _ _ _ _ _ _ _ _ E F') as MM.
  apply plan_of in O.
  destruct (IH (i + 1) (b + z) b2
      (a ++ [EmitGen.gen_accessor ("arg" ++ dec i) ty' (offset_tokens b o) ops (Some nm)])%list
      (u ++ [EmitGen.gen_mutator ("arg" ++ dec i) ty' (offset_tokens b o) (to_mutator ops) (Some nm)])%list
      (g ++ [[TIdent ("get_arg" ++ dec i); TGroup "()" [TIdent "self"]]])%list
      (t ++ [[TIdent ("set_arg" ++ dec i); TGroup "()" [TIdent "self"; TPunct ","; TIdent "vals"; TPunct "."; idx_lit i]]])%list
      a2 u2 g2 t2 K E F' ltac:(lia) B') as (co' & W).
  exists co'. rewrite <- !app_assoc in W. cbn [app] in W. refine (eq_trans _ W). clear W IH E. cbn [map enumerated gtype].
  destruct k as [| k]; [lia |]. do 19 (destruct k as [| k]; [exfalso; lia |]).
  assert (B1 : 0 <= b < 2 ^ 64) by lia. assert (B2 : 0 <= b + z < 2 ^ 64) by lia.
  eapply each_tup; [unfold arg_body, menv, env1, env0; cbn [e_bit e_offs e_soffs e_acc e_mut e_pop e_lower e_upper]; ev | drop |].
  apply (f_equal (each _ _ _ _)). unfold menv, env1, env0. cbn [e_bit e_offs e_soffs e_acc e_mut e_pop e_lower e_upper]. same.
Qed.
Lemma stage_c_misc : forall n k ty l plen (slen pay : bool) len b o so ac mt po lo up b' a u g t, (30 <= k)%nat ->
  misc_args m h nm o 0 b l = Some (b', a, u, g, t) -> Forall usable l -> 0 <= b -> b' < 2 ^ 64 -> read_trees ty = Some [TIdent ty] ->
  let f := fieldv n (RMisc ty) plen slen pay (GE "Some" [GL (map gtype l)]) in
  let ho := [("get_field_name", ident ("get_" ++ n)); ("set_field_name", ident ("set_" ++ n)); ("ty", ident ty); ("inner_accessors", HMany a);
             ("inner_mutators", HMany u); ("get_args", HMany g); ("set_args", HMany t)] in
  exists co',
  stmts (planned m h) parsed k [part_c] (env1 n f (offset_tokens b o) len (env0 pk mu nm (Emitted b o so ac mt po lo up)))
   (env1 n f co' len (env0 pk mu nm (Emitted b' o so (ac ++ [quote tpl_misc_get ho])%list (mt ++ [quote tpl_misc_set ho])%list po lo up))).
Proof.
  intros n k ty l plen slen pay len b o so ac mt po lo up b' a u g t K M F B B' R f ho.
  do 6 (destruct k as [| k]; [exfalso; lia |]).
  destruct (misc_loop (S (S (S (S k)))) n f len ty (GL (map gtype l)) so ac mt po lo up o l 0 b b' [] [] [] [] a u g t ltac:(lia) M F B B') as (co' & W).
  exists co'. do 20 (destruct k as [| k]; [exfalso; lia |]).
  unfold menv, f, env1, env0, fieldv, arg_body in W. cbn [e_bit e_offs e_soffs e_acc e_mut e_pop e_lower e_upper app] in W.
  unfold part_c, env1, env0, f, fieldv. cbn [e_bit e_offs e_soffs e_acc e_mut e_pop e_lower e_upper]. unfold ho. tplnames.
  eapply to_stmts; [sts |]. same.
Qed.
End Misc.

(** [generate_packet] run from its text on a struct that is not known. *)
From Coq Require Import String Ascii ZArith List Bool Lia.
From Verif Require Import Base DeriveUtil DeriveOps DeriveParse FmtText RustLex RustSyntax RustMethod RustAst RustEval EmitText EmitGen GenCode MacroEval SpecMacro MacroParts MacroCode MacroFill MacroSym MacroLoop MacroMisc
  SpecAny MacroRound MacroImpl MacroRest.
Import ListNotations.
Open Scope string_scope.
Open Scope Z_scope.

Lemma field_fmt_total : forall l f, exists f', field_fmt f l = Some f'.
Proof. induction l as [| n l IH]; intros f; cbn [field_fmt]; [now exists f |]. destruct (format "{}{} : {{:?}}, " [f; n]) as [g |] eqn:E; [apply IH | vm_compute in E; discriminate E]. Qed.

Lemma format_packet : forall n f, format "{} {{{{ {} }}}}" [n; f] = Some (n ++ " {{ " ++ f ++ " }}").
Proof. intros n f. vm_compute. reflexivity. Qed.

Section Any.
Variables (m : mode) (h : bool) (parsed : gv) (base : string) (ps : list pfield).
Notation G := (gev (planned m h) fs_c q_c parsed).

Lemma run_converters : forall k, (40 <= k)%nat -> exists env, G k (fu_body f_converters) [("packet", gpacket base ps)] = Done (GE "Ok" [GQ (emit_converters base ps)]) env.
Proof.
  intros k K. do 20 (destruct k as [| k]; [exfalso; lia |]).
  match type of K with (_ <= S ?k)%nat => pose proof (conv_loop m h parsed k ps [] ("packet_name_mut", GQ [TIdent (type_name base true)]) ("packet_name", GQ [TIdent (type_name base false)]) ("name", GQ [TIdent base]) ("packet", gpacket base ps) ltac:(lia)) as W end.
  unfold f_converters. unfold gpacket in *. cbn [fu_body]. unfold conv_body in W.
  eexists; (eapply to_done; [ev | | reflexivity]); unfold emit_converters; tplnames; apply (f_equal (fun x => GE "Ok" [GQ x])); cbn [app]; same.
Qed.
Lemma run_debug : forall k d dm, (40 <= k)%nat -> want_debug base false ps = Some d -> want_debug base true ps = Some dm ->
  exists env, G k (fu_body f_debug_impls) [("packet", gpacket base ps)] = Done (GE "Ok" [GQ (d ++ dm)%list]) env.
Proof.
  intros k d dm K D DM. do 20 (destruct k as [| k]; [exfalso; lia |]). unfold want_debug, packet_fmt in D, DM.
  destruct (field_fmt "" (shown ps)) as [f |] eqn:F; [| discriminate D].
  match type of K with (_ <= S ?k)%nat => pose proof (debug_loop m h parsed k ps [] "" f ("packet", gpacket base ps) ltac:(lia) F) as W end.
  unfold f_debug_impls. unfold gpacket in *. cbn [fu_body]. unfold debug_body in W.
  eexists; (eapply to_done; [ev | | reflexivity]). apply (f_equal (fun x => GE "Ok" [GQ x])). cbn [app gtokens]. rewrite tok_id, debug_text.
  rewrite format_packet in D, DM. injection D as <-. injection DM as <-. reflexivity.
Qed.
End Any.
Ltac callee ::= lazymatch goal with
  | |- gev _ _ _ _ _ (fu_body f_packet_struct) _ = _ => apply settled, run_struct; lia
  | |- gev _ _ _ _ _ (fu_body f_packet_impl) _ = _ => apply settled, run_impl; [assumption | assumption | lia | eassumption]
  | |- gev _ _ _ _ _ (fu_body f_packet_trait_impls) _ = _ => apply settled, run_traits; lia
  | |- gev _ _ _ _ _ (fu_body f_packet_size_impls) _ = _ => apply settled, run_sizes; lia
  | |- gev _ _ _ _ _ (fu_body f_iterables) _ = _ => apply settled, run_iterables; lia
  | |- gev _ _ _ _ _ (fu_body f_converters) _ = _ => apply settled, run_converters; lia
  | |- gev _ _ _ _ _ (fu_body f_debug_impls) _ = _ => apply settled, run_debug; [lia | eassumption | eassumption]
  end.

Section Any2.
Variables (m : mode) (h : bool) (parsed : gv) (base : string) (ps : list pfield).
Notation G := (gev (planned m h) fs_c q_c parsed).
Hypothesis fit : all_bits ps < 2 ^ 64.
Hypothesis texts : all_fine 0 [] ps.
Lemma two : forall a b, quote t_2 [("p", HOne a); ("p_mut", HOne b)] = (a ++ b)%list.
Proof. intros a b. change ((a ++ (b ++ []))%list = (a ++ b)%list). now rewrite app_nil_r. Qed.
Lemma run_impls : forall k s t, (80 <= k)%nat -> emit_fields m h (type_name base false) ps start = Some s -> emit_fields m h (type_name base true) ps start = Some t ->
  exists env, G k (fu_body f_packet_impls) [("packet", gpacket base ps)] =
    Done (GE "Ok" [GT [GQ (impl_from base false s ++ impl_from base true t)%list; bounds s; GQ (offset_tokens (e_bit s) (e_offs s))]]) env.
Proof.
  intros k s t K E F. do 20 (destruct k as [| k]; [exfalso; lia |]). unfold f_packet_impls. cbn [fu_body].
  eexists; (eapply to_done; [ev | | reflexivity]). apply (f_equal (fun x => GE "Ok" [GT [GQ x; _; _]])). cbn [gtokens]. apply two.
Qed.
End Any2.


Ltac callee ::= lazymatch goal with
  | |- gev _ _ _ _ _ (fu_body f_packet_struct) _ = _ => apply settled, run_struct; lia
  | |- gev _ _ _ _ _ (fu_body f_packet_impls) _ = _ => apply settled, run_impls; [assumption | assumption | lia | eassumption | eassumption]
  | |- gev _ _ _ _ _ (fu_body f_packet_trait_impls) _ = _ => apply settled, run_traits; lia
  | |- gev _ _ _ _ _ (fu_body f_packet_size_impls) _ = _ => apply settled, run_sizes; lia
  | |- gev _ _ _ _ _ (fu_body f_iterables) _ = _ => apply settled, run_iterables; lia
  | |- gev _ _ _ _ _ (fu_body f_converters) _ = _ => apply settled, run_converters; lia
  | |- gev _ _ _ _ _ (fu_body f_debug_impls) _ = _ => apply settled, run_debug; [lia | eassumption | eassumption]
  end.
Ltac pat ::= lazymatch goal with |- gmatch ?p ?v = _ =>
  let r := eval lazy beta iota zeta delta [gmatch String.eqb Ascii.eqb Bool.eqb gopt gtype] in (gmatch p v) in exact (@eq_refl _ r) end.
Section Any3.
Variables (m : mode) (h : bool) (base : string) (ps : list pfield).
Notation G := (gev (planned m h) fs_c q_c (GE "Ok" [gpacket base ps])).
Hypothesis fit : all_bits ps < 2 ^ 64.
Hypothesis texts : all_fine 0 [] ps.
Lemma seven : forall a b c d e f g, quote t_0 [("structs", HOne a); ("ts_packet_impls", HOne b); ("ts_trait_impls", HOne c); ("ts_size_impls", HOne d);
    ("ts_iterables", HOne e); ("ts_converters", HOne f); ("ts_debug_impls", HOne g)] = (a ++ b ++ c ++ d ++ e ++ f ++ g)%list.
Proof. intros a b c d e f g. change ((a ++ b ++ c ++ d ++ e ++ f ++ (g ++ []))%list = (a ++ b ++ c ++ d ++ e ++ f ++ g)%list). now rewrite app_nil_r. Qed.
Lemma run_packet : forall k s t d dm, (99 <= k)%nat -> emit_fields m h (type_name base false) ps start = Some s -> emit_fields m h (type_name base true) ps start = Some t ->
  want_debug base false ps = Some d -> want_debug base true ps = Some dm ->
  exists env, G k (fu_body f_generate_packet) [("s", GUnit); ("name", GS base)] =
    Done (GE "Ok" [GQ ((want_struct base false ++ want_struct base true) ++ (impl_from base false s ++ impl_from base true t) ++
      (packet_from base false false s ++ packet_from base true false s ++ packet_from base true true s) ++ size_from base s ++ emit_iterable base ++ emit_converters base ps ++ d ++ dm)%list]) env.
Proof.
  intros k s t d dm K E F D DM. do 10 (destruct k as [| k]; [exfalso; lia |]). unfold f_generate_packet. cbn [fu_body].
  eexists; (eapply to_done; [ev | | reflexivity]). apply (f_equal (fun x => GE "Ok" [GQ x])). cbn [gtokens].
  generalize (want_struct base false ++ want_struct base true)%list, (impl_from base false s ++ impl_from base true t)%list,
    (packet_from base false false s ++ packet_from base true false s ++ packet_from base true true s)%list, (size_from base s), (emit_iterable base), (emit_converters base ps), (d ++ dm)%list.
  intros. rewrite seven. reflexivity.
Qed.
Lemma debug_total : forall mu, exists d, want_debug base mu ps = Some d.
Proof.
  intros mu. unfold want_debug, packet_fmt. destruct (field_fmt_total (shown ps) "") as [f ->]. rewrite format_packet. eexists. reflexivity.
Qed.
Lemma any_struct : forall out, want_code m h base ps = Some out -> expand m h base ps = Some (inl out).
Proof.
  intros out W. unfold want_code, want_parts in W. rewrite !impl_is, !packet_is, size_is in W.
  destruct (emit_fields m h (type_name base false) ps start) as [s |] eqn:E; [| discriminate W].
  destruct (emit_fields m h (type_name base true) ps start) as [t |] eqn:F; [| discriminate W].
  destruct (debug_total false) as [d D], (debug_total true) as [dm DM]. rewrite D, DM in W. cbn [option_map] in W.
  destruct (run_packet 100 s t d dm ltac:(lia) E F D DM) as [env R].
  unfold expand, run_code. rewrite code_is. change (find_func fs_c "generate_packet") with (Some f_generate_packet). cbv iota. rewrite R. clear R. cbn [String.eqb Ascii.eqb Bool.eqb].
  revert W. clear E F D DM. unfold together.
  generalize (want_struct base false), (want_struct base true), (impl_from base false s), (impl_from base true t), (packet_from base false false s),
    (packet_from base true false s), (packet_from base true true s), (size_from base s), (emit_iterable base), (emit_converters base ps).
  intros l l0 l1 l2 l3 l4 l5 l6 l7 l8 W. injection W as <-. rewrite <- !app_assoc, !app_nil_r. reflexivity.
Qed.
End Any3.

(** The other functions of the derive macro and [generate_packet], run from their text. *)
From Coq Require Import String Ascii ZArith List Bool Lia.
From Verif Require Import Base DeriveUtil DeriveOps DeriveParse FmtText RustLex RustSyntax RustMethod RustAst RustEval EmitText EmitGen GenCode MacroEval SpecMacro MacroParts MacroCode MacroFill MacroSym MacroLoop MacroMisc
  SpecAny MacroRound MacroImpl.
Import ListNotations.
Open Scope string_scope.
Open Scope Z_scope.

Definition left_in (o : gout) : genv := match o with Done _ s => s | _ => [] end.
Lemma settled : forall o v, (exists s, o = Done v s) -> o = Done v (left_in o).
Proof. intros o v [s ->]. reflexivity. Qed.

Lemma struct_text : forall a b,
  quote t_1 [("name", HOne [TIdent a]); ("name_mut", HOne [TIdent b])] =
  (trees_of "#[derive(PartialEq)] pub struct" ++ [TIdent a] ++ trees_of "<'p>" ++
   [TGroup "{}" (trees_of "packet: libpacket_core::" ++ [TIdent "PacketData"] ++ trees_of "<'p>,")] ++
   trees_of "#[derive(PartialEq)] pub struct" ++ [TIdent b] ++ trees_of "<'p>" ++
   [TGroup "{}" (trees_of "packet: libpacket_core::" ++ [TIdent "MutPacketData"] ++ trees_of "<'p>,")])%list.
Proof. intros a b. vm_compute. reflexivity. Qed.
Lemma commas : forall it : list (list ttree), between [] (map (fun v => (v ++ [TPunct ","])%list) it) = List.concat (map (fun g => (g ++ [TPunct ","])%list) it).
Proof. induction it as [| x [| y it] IH]; [reflexivity | cbn; now rewrite app_nil_r |]. cbn [map between List.concat app] in *. now rewrite IH. Qed.
Lemma debug_text : forall a b x y it,
  quote t_51 [("packet_name", HOne [TIdent a]); ("packet_fmt_str", HOne [x]); ("get_fields", HMany it); ("packet_name_mut", HOne [TIdent b]); ("packet_mut_fmt_str", HOne [y]); ("get_fields", HMany it)] =
  (debug_with a x it ++ debug_with b y it)%list.
Proof. intros a b x y it. unfold debug_with. rewrite <- commas, <- (app_nil_r (between [] (map (fun v => v ++ [TPunct ","]) it)))%list. vm_compute. reflexivity. Qed.

Section Rest.
Variables (m : mode) (h : bool) (parsed : gv) (base : string) (ps : list pfield).
Notation G := (gev (planned m h) fs_c q_c parsed).
Hypothesis fit : all_bits ps < 2 ^ 64.
Hypothesis texts : all_fine 0 [] ps.

Lemma run_struct : forall k, (20 <= k)%nat -> exists env, G k (fu_body f_packet_struct) [("packet", gpacket base ps)] =
  Done (GQ (want_struct base false ++ want_struct base true)) env.
Proof.
  intros k K. do 20 (destruct k as [| k]; [exfalso; lia |]). unfold f_packet_struct, gpacket. cbn [fu_body]. eexists. eapply to_done; [ev | | reflexivity].
  cbn [gtokens]. rewrite struct_text. unfold want_struct. rewrite <- !app_assoc. reflexivity.
Qed.
Lemma run_trait_for : forall k (of_mut mutable : bool) s, (20 <= k)%nat ->
  exists env, G k (fu_body f_impl_packet_trait_for) [("payload_bounds", bounds s); ("name", GS (type_name base of_mut)); ("mutable", GB mutable)] =
    Done (GE "Ok" [GQ (packet_from base of_mut mutable s)]) env.
Proof.
  intros k of_mut mutable s K. do 20 (destruct k as [| k]; [exfalso; lia |]). unfold f_impl_packet_trait_for, bounds. cbn [fu_body].
  destruct mutable; eexists; (eapply to_done; [ev | | reflexivity]); unfold packet_from; tplnames; apply (f_equal (fun x => GE "Ok" [GQ x])); same.
Qed.
Lemma three : forall a b c, quote t_37 [("a", HOne a); ("b", HOne b); ("c", HOne c)] = (a ++ b ++ c)%list.
Proof. intros a b c. change ((a ++ b ++ (c ++ []))%list = (a ++ b ++ c)%list). now rewrite app_nil_r. Qed.
Lemma run_sizes : forall k s, (20 <= k)%nat ->
  exists env, G k (fu_body f_packet_size_impls) [("packet", gpacket base ps); ("size", GQ (offset_tokens (e_bit s) (e_offs s)))] = Done (GE "Ok" [GQ (size_from base s)]) env.
Proof.
  intros k s K. do 20 (destruct k as [| k]; [exfalso; lia |]). unfold f_packet_size_impls, gpacket. cbn [fu_body].
  eexists; (eapply to_done; [ev | | reflexivity]); unfold size_from; tplnames; apply (f_equal (fun x => GE "Ok" [GQ x])); same.
Qed.
Lemma run_iterables : forall k, (20 <= k)%nat -> exists env, G k (fu_body f_iterables) [("packet", gpacket base ps)] = Done (GE "Ok" [GQ (emit_iterable base)]) env.
Proof.
  intros k K. do 20 (destruct k as [| k]; [exfalso; lia |]). unfold f_iterables, gpacket. cbn [fu_body].
  eexists; (eapply to_done; [ev | | reflexivity]); unfold emit_iterable; tplnames; apply (f_equal (fun x => GE "Ok" [GQ x])); same.
Qed.
End Rest.
Ltac callee ::= lazymatch goal with
  | |- gev _ _ _ _ _ (fu_body f_packet_name) _ = _ => apply run_name; lia
  | |- gev _ _ _ _ _ (fu_body f_packet_name_mut) _ = _ => apply run_name_mut; lia
  | |- gev _ _ _ _ _ (fu_body f_impl_packet_trait_for) _ = _ => apply settled, run_trait_for; lia
  end.
Section Rest2.
Variables (m : mode) (h : bool) (parsed : gv) (base : string) (ps : list pfield).
Notation G := (gev (planned m h) fs_c q_c parsed).
Lemma run_traits : forall k s, (40 <= k)%nat ->
  exists env, G k (fu_body f_packet_trait_impls) [("packet", gpacket base ps); ("payload_bounds", bounds s)] =
    Done (GE "Ok" [GQ (packet_from base false false s ++ packet_from base true false s ++ packet_from base true true s)]) env.
Proof.
  intros k s K. do 20 (destruct k as [| k]; [exfalso; lia |]). unfold f_packet_trait_impls, gpacket. cbn [fu_body].
  eexists; (eapply to_done; [ev | | reflexivity]). apply (f_equal (fun x => GE "Ok" [GQ x])). cbn [gtokens]. apply three.
Qed.
Definition body_of (e : xp) : xp :=
  match e with YBlock l _ => match find (fun x => match x with ZFor _ _ _ => true | _ => false end) l with Some (ZFor _ _ b) => b | _ => e end | _ => e end.
Definition conv_body : xp := Eval vm_compute in body_of (fu_body f_converters).
Definition debug_body : xp := Eval vm_compute in body_of (fu_body f_debug_impls).
Definition conv_of (p : pfield) : list ttree := [TIdent (pf_name p); TPunct ":"; TIdent "self"; TPunct "."; TIdent ("get_" ++ pf_name p); TGroup "()" []].
Definition getter_of (n : string) : list ttree := [TIdent "self"; TPunct "."; TIdent ("get_" ++ n); TGroup "()" []].
Lemma conv_loop : forall k l acc a b c d, (20 <= k)%nat ->
  each (G k) (QVar "field") conv_body (map gfield l) [("get_fields", GL (map GQ acc)); a; b; c; d] =
    Done GUnit [("get_fields", GL (map GQ (acc ++ map conv_of l)%list)); a; b; c; d].
Proof.
  intros k l. do 20 (destruct k as [| k]; [intros; exfalso; lia |]). induction l as [| p l IH]; intros acc a b c d K; cbn [map]; [now rewrite app_nil_r |].
  replace (acc ++ conv_of p :: map conv_of l)%list with ((acc ++ [conv_of p]) ++ map conv_of l)%list by now rewrite <- app_assoc.
  eapply each_var; [unfold conv_body, gfield; ev | drop |]. apply IH. exact K.
Qed.
Lemma debug_loop : forall k l acc f f' a, (20 <= k)%nat -> field_fmt f (shown l) = Some f' ->
  each (G k) (QVar "field") debug_body (map gfield l) [("get_fields", GL (map GQ acc)); ("field_fmt_str", GS f); a] =
    Done GUnit [("get_fields", GL (map GQ (acc ++ map getter_of (shown l))%list)); ("field_fmt_str", GS f'); a].
Proof.
  intros k l. do 20 (destruct k as [| k]; [intros; exfalso; lia |]). unfold shown. induction l as [| p l IH]; intros acc f f' a K F; cbn [map filter] in *.
  { injection F as <-. now rewrite app_nil_r. }
  unfold gfield at 1. destruct (pf_payload p); cbn [negb map field_fmt] in *.
  - eapply each_var; [unfold debug_body; ev | drop |]. apply IH; [exact K | exact F].
  - match type of F with match ?x with _ => _ end = _ => destruct x as [f1 |] eqn:F1; [| discriminate F] end.
    replace (acc ++ getter_of (pf_name p) :: map getter_of (map pf_name (filter (fun p => negb (pf_payload p)) l)))%list
      with ((acc ++ [getter_of (pf_name p)]) ++ map getter_of (map pf_name (filter (fun p => negb (pf_payload p)) l)))%list by now rewrite <- app_assoc.
    eapply each_var; [unfold debug_body; ev | drop |].
    match goal with |- each _ _ _ _ [_; (_, GS ?x); _] = _ => replace x with f1 end; [apply IH; [exact K | exact F] |].
    vm_compute in F1. injection F1 as <-. reflexivity.
Qed.
End Rest2.

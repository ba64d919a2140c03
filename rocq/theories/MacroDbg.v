(** [Debug] and the iterator of any struct: lemmas behind C105. *)
From Coq Require Import String Ascii ZArith List Bool Lia.
From Verif Require SpecFmt FmtProofs.
From Verif Require Import Base DeriveUtil DeriveOps DeriveUtilProofs DeriveParse FmtText RustLex RustSyntax RustMethod RustAst RustEval EmitText EmitGen GenCode MacroEval SpecMacro MacroParts MacroCode
  SpecAny MacroRound MacroImpl MacroRest MacroAny MacroTotal MacroFine MacroSig SpecBody MacroBody SpecDbg.
Import ListNotations.
Open Scope string_scope.
Open Scope Z_scope.

Lemma calls_flat : forall names,
  concat (map (fun g => g ++ [TPunct ","])%list (map (fun n => [TIdent "self"; TPunct "."; TIdent ("get_" ++ n); TGroup "()" []]) names)) =
  flat_map (fun n => [TIdent "self"; TPunct "."; TIdent ("get_" ++ n); TGroup "()" []; TPunct ","]) names.
Proof. intros. rewrite map_map, flat_map_concat_map. reflexivity. Qed.
Lemma debug_is : forall name f names,
  debug_with name (TLit false (in_quotes f)) (map (fun n => [TIdent "self"; TPunct "."; TIdent ("get_" ++ n); TGroup "()" []]) names) = debug_impl name f names.
Proof.
  intros. unfold debug_with. rewrite calls_flat. unfold debug_impl.
  generalize (flat_map (fun n => [TIdent "self"; TPunct "."; TIdent ("get_" ++ n); TGroup "()" []; TPunct ","]) names). intros l.
  replace (in_quotes f) with (dq ++ f ++ dq)%string by reflexivity. generalize (dq ++ f ++ dq)%string. intros. vm_compute. reflexivity.
Qed.
Lemma debug_ok : forall base mu ps d, want_debug base mu ps = Some d -> SpecFmt.ident (packet_name mu base) -> Forall SpecFmt.ident (visible ps) ->
  exists f, d = debug_impl (packet_name mu base) f (visible ps) /\
    forall texts, length texts = length (visible ps) -> format f texts = Some (SpecFmt.printed (packet_name mu base) (combine (visible ps) texts)).
Proof.
  intros base mu ps d W N I. unfold want_debug in W. change (shown ps) with (visible ps) in W.
  destruct (FmtProofs.format_packet (packet_name mu base) (visible ps) (map (fun _ => "") (visible ps)) N I (map_length _ _)) as (f & P & _).
  rewrite P in W. injection W as <-. exists f. split; [apply debug_is |]. intros texts L.
  destruct (FmtProofs.format_packet (packet_name mu base) (visible ps) texts N I L) as (f' & P' & R). rewrite P in P'. injection P' as <-. exact R.
Qed.
Lemma iter_text : forall i p, contains (quote tpl_iterable [("iterator", ident i); ("packet_name", ident p)]) (iterator_items i p).
Proof. intros. match goal with |- contains ?l ?p => exists (firstn (length l - length p) l), [] end. vm_compute. reflexivity. Qed.

Lemma any_debug : forall m h base ps, all_bits ps < 2 ^ 64 -> all_fine 0 [] ps -> all_code 0 ps -> SpecFmt.ident base -> Forall SpecFmt.ident (visible ps) ->
  exists before f fm, expand m h base ps = Some (inl (before ++ debug_impl (packet_name false base) f (visible ps) ++ debug_impl (packet_name true base) fm (visible ps))%list) /\
    forall texts, length texts = length (visible ps) ->
      format f texts = Some (SpecFmt.printed (packet_name false base) (combine (visible ps) texts)) /\
      format fm texts = Some (SpecFmt.printed (packet_name true base) (combine (visible ps) texts)).
Proof.
  intros m h base ps B F C N I. destruct (fields_total m h (type_name base false) ps start C) as [s E]. destruct (fields_total m h (type_name base true) ps start C) as [t T].
  destruct (any_code m h base ps B F C) as (out & W & X). rewrite X. clear X. revert W. unfold want_code, want_parts. rewrite !impl_is, !packet_is, size_is, E, T. cbn [option_map].
  destruct (debug_total base ps false) as [d D], (debug_total base ps true) as [dm DM]. rewrite D, DM. unfold together.
  assert (NN : forall mu, SpecFmt.ident (packet_name mu base)).
  { intros mu. unfold SpecFmt.ident, packet_name in *. clear -N.
    assert (A : forall a b, SpecFmt.chars_in SpecFmt.ident_char a = true -> SpecFmt.chars_in SpecFmt.ident_char b = true -> SpecFmt.chars_in SpecFmt.ident_char (a ++ b) = true).
    { induction a as [| c a IH]; intros b P Q; [exact Q |]. cbn in *. apply andb_true_iff in P as [P1 P2]. rewrite P1. now apply IH. }
    destruct mu; repeat apply A; try assumption; vm_compute; reflexivity. }
  destruct (debug_ok base false ps d D (NN false) I) as (f & Q & R), (debug_ok base true ps dm DM (NN true) I) as (fm & QM & RM). clear D DM.
  generalize (packet_from base false false s), (packet_from base true false s), (packet_from base true true s), (size_from base s), (emit_iterable base), (emit_converters base ps),
    (want_struct base false), (want_struct base true), (impl_from base false s), (impl_from base true t).
  intros l0 l1 l2 l3 l4 l5 l6 l7 u v W. injection W as <-.
  exists (l6 ++ l7 ++ u ++ v ++ l0 ++ l1 ++ l2 ++ l3 ++ l4 ++ l5)%list, f, fm. split; [| intros texts L; split; [now apply R | now apply RM]].
  rewrite <- Q, <- QM. clear. rewrite app_nil_r. now rewrite <- !app_assoc.
Qed.
Lemma any_iterator : forall m h base ps, all_bits ps < 2 ^ 64 -> all_fine 0 [] ps -> all_code 0 ps ->
  exists before after, expand m h base ps = Some (inl (before ++ iterator_items (base ++ "Iterable") (type_name base false) ++ after)%list).
Proof.
  intros m h base ps B F C. destruct (fields_total m h (type_name base false) ps start C) as [s E]. destruct (fields_total m h (type_name base true) ps start C) as [t T].
  destruct (any_code m h base ps B F C) as (out & W & X). rewrite X. clear X. revert W. unfold want_code, want_parts. rewrite !impl_is, !packet_is, size_is, E, T. cbn [option_map].
  destruct (debug_total base ps false) as [d ->], (debug_total base ps true) as [dm ->]. unfold together.
  assert (Z : exists a b, emit_iterable base = (a ++ iterator_items (base ++ "Iterable") (type_name base false) ++ b)%list) by apply iter_text. destruct Z as (a & b & ->).
  generalize (packet_from base false false s), (packet_from base true false s), (packet_from base true true s), (size_from base s), (emit_converters base ps),
    (want_struct base false), (want_struct base true), (impl_from base false s), (impl_from base true t), (iterator_items (base ++ "Iterable") (type_name base false)).
  intros l0 l1 l2 l3 l5 l6 l7 u v it W. injection W as <-.
  exists (l6 ++ l7 ++ u ++ v ++ l0 ++ l1 ++ l2 ++ l3 ++ a)%list, (b ++ l5 ++ d ++ dm ++ [])%list. now rewrite <- !app_assoc.
Qed.

From Coq Require Import String Ascii ZArith List Bool Lia ZifyBool ZifyNat.
From Verif Require Import Base DeriveUtil DeriveOps DeriveGen RustAst RustEval CrateText2 SpecSource2 SpecSource3 EvalTac CrateSrcTac.
From Verif Require RustSem EmitText FmtText MacAddr Names SourceProofs Checksum ProtoMethods.
Import ListNotations.
Open Scope string_scope.
Open Scope Z_scope.
Lemma sapp_nil : forall s, (s ++ "" = s)%string.
Proof. induction s; cbn; congruence. Qed.
Lemma sel : forall (b : bool) A s t, A = FDone (XS t) ->
  (if b then FDone (XS s) else A) = FDone (XS (if (if b then true else false) then s else t)).
Proof. intros [] A s t H; [reflexivity | exact H]. Qed.
Ltac arms z := repeat apply sel; change RustSem.zeq with Z.eqb; repeat (match goal with |- (if ?b then _ else _) = _ => destruct b; [reflexivity |] end); reflexivity.
Lemma ethertype_src : forall c r d z, run_at c r d "ethernet" "EtherType::fmt" [XE "EtherType" [XI (Some tu16) z]] =
  FDone (XS (Names.ethertype_name z)).
Proof. intros. begin. step. arms z. Qed.
Lemma ip_name_src : forall c r d z, run_at c r d "ip" "IpNextHeaderProtocol::fmt" [XE "IpNextHeaderProtocol" [XI (Some tu8) z]] =
  FDone (XS (Names.ip_name z)).
Proof. intros. begin. step. arms z. Qed.
Lemma header_form_src : forall c r d z, run_at c r d "quic" "HeaderForm::fmt" [XE "HeaderForm" [XI (Some tu8) z]] =
  FDone (XS (Names.header_form_name z)).
Proof. intros. begin. step. arms z. Qed.
Lemma fixed_bit_src : forall c r d z, run_at c r d "quic" "FixedBit::fmt" [XE "FixedBit" [XI (Some tu8) z]] =
  FDone (XS (Names.fixed_bit_name z)).
Proof. intros. begin. step. change RustSem.zeq with Z.eqb. rewrite (Z.eqb_sym 1). arms z. Qed.
Lemma long_type_src : forall c r d z, run_at c r d "quic" "LongPacketType::fmt" [XE "LongPacketType" [XI (Some tu8) z]] =
  FDone (XS (Names.long_type_name z)).
Proof. intros. begin. step. arms z. Qed.
Lemma frame_type_src : forall c r d z, run_at c r d "quic" "FrameType::fmt" [XE "FrameType" [XI (Some tu8) z]] =
  FDone (XS (Names.frame_type_name z)).
Proof. intros. begin. step. arms z. Qed.
Lemma version_src : forall c r d z, run_at c r d "quic" "Version::fmt" [XE "Version" [XI (Some tu32) z]] =
  FDone (XS (Names.version_display z)).
Proof. intros. begin. step. now rewrite sapp_nil. Qed.

Lemma newtype_src : forall mo ty text s, In (mo, ty, text) tuple_texts -> read_newtype text = Some (ty, [s]) ->
  forall c r d t z, num_ty s = Some t ->
  run_at c r d mo (ty ++ "::new") [XI (Some t) z] = FDone (XE ty [XI (Some t) z]) /\
  run_at c r d mo (ty ++ "::to_primitive_values") [XE ty [XI (Some t) z]] = FDone (XT [XI (Some t) z]).
Proof.
  intros mo ty text s I R c r d t z T. unfold tuple_texts in I. cbn [In] in I.
  repeat (destruct I as [I | I];
    [injection I as <- <- <-; vm_compute in R; try discriminate R; injection R as <-; vm_compute in T; injection T as <-;
     cbv [String.append]; split; (begin; step; reflexivity) |]).
  contradiction.
Qed.

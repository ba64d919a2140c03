From Coq Require Import String Ascii ZArith List Bool Lia ZifyBool ZifyNat.
From Verif Require Import Base DeriveUtil DeriveOps DeriveGen RustAst RustEval CrateText2 SpecSource2 SpecSource3 EvalTac CrateSrcTac.
From Verif Require RustSem EmitText FmtText MacAddr Names SourceProofs Checksum ProtoMethods.
Import ListNotations.
Open Scope string_scope.
Open Scope Z_scope.
From Verif Require Import CrateSrc1 CrateSrc4 CrateSrc5.
From Verif Require Import Protocols Quic.
Ltac by_frame f := destruct f as [[] p n]; begin; lstep.
Lemma frame_ty_src : forall c r d f, run_at c r d "quic" "Frame::ty" [frame_v f] = outcome frame_type_v (frame_ty c f).
Proof. intros. unfold frame_ty. by_frame f; cbn [fr_kind fr_buf]; destruct (int_of _); reflexivity. Qed.
Lemma frame_payload_src : forall c r d f, run_at c r d "quic" "Frame::payload" [frame_v f] = outcome bytes_v (frame_payload c f).
Proof. intros. unfold frame_payload. by_frame f; cbn [fr_kind fr_buf]; destruct (payload _ _ _); reflexivity. Qed.
Lemma frame_remaining_src : forall c r d f, run_at c r d "quic" "Frame::remaining" [frame_v f] = outcome bytes_v (frame_remaining c f).
Proof. intros. unfold frame_remaining. by_frame f; cbn [fr_kind fr_buf]; destruct (get_raw _ _ _ _); reflexivity. Qed.
Lemma frame_remaining_call : forall c r d f k, taken as_bytes (linked c r (S d) "quic" "Frame::remaining" [frame_v f]) k = wlift (frame_remaining c f) k.
Proof. intros. apply (call_ok _ _ bytes_v); [reflexivity | vm_compute; discriminate | apply frame_remaining_src]. Qed.
Lemma frame_ty_call : forall c r d f k, taken (as_obj "FrameType" tu8) (linked c r (S d) "quic" "Frame::ty" [frame_v f]) k = wlift (frame_ty c f) k.
Proof. intros. apply (call_ok _ _ frame_type_v); [reflexivity | vm_compute; discriminate | apply frame_ty_src]. Qed.
Lemma frame_fmt_src : forall c r d f, run_at c r (S d) "quic" "Frame::fmt" [frame_v f] = outcome XS (rmap Names.frame_type_name (frame_ty c f)).
Proof.
  intros. pose proof (fun k => frame_ty_call c r d f k) as T.
  assert (U : forall z k, taken as_str (linked c r (S d) "quic" "FrameType::fmt" [XE "FrameType" [XI (Some tu8) z]]) k = k (Names.frame_type_name z)).
  { intros. erewrite (call_ok _ _ XS _ _ _ _ _ _ (Ok _)); [reflexivity | reflexivity | vm_compute; discriminate | apply frame_type_src]. }
  destruct f as [[] p n]; begin; lstep; rewrite T; (destruct (frame_ty c _) as [a |]; cbn [wlift rmap outcome]; [| reflexivity]);
  rewrite U; cbn [String.append]; rewrite sapp_nil; reflexivity.
Qed.


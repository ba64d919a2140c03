From Coq Require Import String Ascii ZArith List Bool Lia ZifyBool ZifyNat.
From Verif Require Import Base DeriveUtil DeriveOps DeriveGen RustAst RustEval CrateText2 SpecSource2 SpecSource3 EvalTac CrateSrcTac.
From Verif Require RustSem EmitText FmtText MacAddr Names SourceProofs Checksum ProtoMethods.
Import ListNotations.
Open Scope string_scope.
Open Scope Z_scope.
From Verif Require Import CrateSrc1.
From Verif Require Import Protocols Quic.
Ltac solve_match := repeat match goal with |- context [wlift ?x _] => lazymatch x with context [wlift] => fail | _ => destruct x end; cbn [wlift] end; reflexivity.
Ltac by_kind q := destruct q as [[] p]; begin; lstep; try (lazymatch goal with |- FDone _ = _ => idtac end; reflexivity).
Lemma quic_version_src : forall c r d q, run_at c r d "quic" "QuicPacket::version" [quic_v q] = outcome (opt_v version_v) (quic_version c q).
Proof. intros. by_kind q; unfold quic_version, q_get; cbn [q_kind q_buf]; destruct (int_of _); reflexivity. Qed.
Lemma quic_token_src : forall c r d q, run_at c r d "quic" "QuicPacket::token" [quic_v q] = outcome (opt_v bytes_v) (quic_token c q).
Proof. intros. by_kind q; unfold quic_token, q_get; cbn [q_kind q_buf]; destruct (bytes_of _); reflexivity. Qed.
Lemma quic_packet_number_src : forall c r d q, run_at c r d "quic" "QuicPacket::packet_number" [quic_v q] = outcome (opt_v u64_v) (quic_packet_number c q).
Proof. intros. by_kind q; unfold quic_packet_number; cbn [q_kind q_buf]; (destruct (get_raw _ _ _ _) as [l |]; [| reflexivity]); cbn [wlift bind rmap outcome];
  (destruct (packet_number _ l); reflexivity). Qed.
Lemma quic_dest_id_src : forall c r d q, run_at c r d "quic" "QuicPacket::dest_id" [quic_v q] = outcome bytes_v (quic_dest_id c q).
Proof. intros. by_kind q; unfold quic_dest_id, q_get; cbn [q_kind q_buf]; destruct (bytes_of _); reflexivity. Qed.
Lemma quic_src_id_src : forall c r d q, run_at c r d "quic" "QuicPacket::src_id" [quic_v q] = outcome (opt_v bytes_v) (quic_src_id c q).
Proof. intros. by_kind q; unfold quic_src_id, q_get; cbn [q_kind q_buf]; destruct (bytes_of _); reflexivity. Qed.
Lemma quic_packet_src : forall c r d q, run_at c r d "quic" "QuicPacket::packet" [quic_v q] = FDone (bytes_v (quic_packet q)).
Proof. intros. by_kind q. Qed.
Lemma quic_frames_src : forall c r d q, run_at c r d "quic" "QuicPacket::frames" [quic_v q] = outcome (opt_v bytes_v) (quic_frames c q).
Proof. intros. by_kind q; unfold quic_frames; cbn [q_kind q_buf]; 
  lazymatch goal with |- context [wlift ?x _] => destruct x eqn:E end; change (one_rtt c) with (quic_schema c QOneRtt); rewrite ?E; reflexivity. Qed.
Lemma quic_remaining_src : forall c r d q, run_at c r d "quic" "QuicPacket::remaining" [quic_v q] = outcome bytes_v (quic_remaining c q).
Proof. intros. by_kind q; unfold quic_remaining; cbn [q_kind q_buf]; destruct (get_raw _ _ _ _); reflexivity. Qed.

Lemma quic_remaining_call : forall c r d q k, taken as_bytes (linked c r (S d) "quic" "QuicPacket::remaining" [quic_v q]) k = wlift (quic_remaining c q) k.
Proof. intros. apply (call_ok _ _ bytes_v); [reflexivity | vm_compute; discriminate | apply quic_remaining_src]. Qed.



Ltac hide :=
  match goal with |- context [closing ?a ?b] => remember (closing a b) as RK eqn:HRK end;
  match goal with |- context [lv _ _ _ _ ?cs] => remember cs as CS eqn:HCS; clear HCS end;
  rewrite lv_block;
  match goal with |- bk _ _ _ _ _ _ _ _ _ _ _ _ _ _ ?k = _ => remember k as KK eqn:HKK end.
Lemma version_call : forall c r d q k, taken (as_opt (as_obj "Version" tu32)) (linked c r (S d) "quic" "QuicPacket::version" [quic_v q]) k = wlift (quic_version c q) k.
Proof. intros. apply (call_ok _ _ (opt_v version_v)); [now intros [] | vm_compute; discriminate | apply quic_version_src]. Qed.
Lemma token_call : forall c r d q k, taken (as_opt as_bytes) (linked c r (S d) "quic" "QuicPacket::token" [quic_v q]) k = wlift (quic_token c q) k.
Proof. intros. apply (call_ok _ _ (opt_v bytes_v)); [now intros [] | vm_compute; discriminate | apply quic_token_src]. Qed.
Lemma number_call : forall c r d q k, taken (as_opt (as_int tu64)) (linked c r (S d) "quic" "QuicPacket::packet_number" [quic_v q]) k = wlift (quic_packet_number c q) k.
Proof. intros. apply (call_ok _ _ (opt_v u64_v)); [now intros [] | vm_compute; discriminate | apply quic_packet_number_src]. Qed.
Lemma dest_call : forall c r d q k, taken as_bytes (linked c r (S d) "quic" "QuicPacket::dest_id" [quic_v q]) k = wlift (quic_dest_id c q) k.
Proof. intros. apply (call_ok _ _ bytes_v); [reflexivity | vm_compute; discriminate | apply quic_dest_id_src]. Qed.
Lemma src_call : forall c r d q k, taken (as_opt as_bytes) (linked c r (S d) "quic" "QuicPacket::src_id" [quic_v q]) k = wlift (quic_src_id c q) k.
Proof. intros. apply (call_ok _ _ (opt_v bytes_v)); [now intros [] | vm_compute; discriminate | apply quic_src_id_src]. Qed.
Lemma frames_call : forall c r d q k, taken (as_opt as_bytes) (linked c r (S d) "quic" "QuicPacket::frames" [quic_v q]) k = wlift (quic_frames c q) k.
Proof. intros. apply (call_ok _ _ (opt_v bytes_v)); [now intros [] | vm_compute; discriminate | apply quic_frames_src]. Qed.
Lemma version_fmt_call : forall c r d z k, taken as_str (linked c r (S d) "quic" "Version::fmt" [XE "Version" [XI (Some tu32) z]]) k = k (Names.version_display z).
Proof. intros. erewrite (call_ok _ _ XS _ _ _ _ _ _ (Ok _)); [reflexivity | reflexivity | vm_compute; discriminate | apply version_src]. Qed.
Ltac known_kind := unfold quic_version, quic_token, quic_packet_number, quic_dest_id, quic_src_id, quic_frames, q_get; cbn [q_kind q_buf].
Lemma wlift_rmap : forall A B (f : A -> B) x k, wlift (rmap f x) k = wlift x (fun v => k (f v)).
Proof. now intros A B f []. Qed.
Lemma wlift_bind : forall A B (x : res A) (f : A -> res B) k, wlift (bind x f) k = wlift x (fun v => wlift (f v) k).
Proof. now intros A B [] f k. Qed.
Ltac settle :=
  repeat lazymatch goal with
  | |- wlift (Ok _) _ = _ => rewrite wlift_ok
  | |- wlift (rmap _ _) _ = _ => rewrite wlift_rmap
  | |- wlift (bind _ _) _ = _ => rewrite wlift_bind
  | |- wlift ?X _ = _ => let E := fresh "E" in destruct X eqn:E; cbn [wlift rmap bind]; [| reflexivity]
  end.
Ltac asked L := rewrite L; known_kind; settle; cbn [bind rmap].
Ltac fmt_steps c r d q :=
  begin; hide; stm; stm;
  stm; asked (version_call c r d q); try rewrite (version_fmt_call c r d);
  stm; asked (token_call c r d q);
  stm; asked (number_call c r d q);
  stm; asked (dest_call c r d q); stm;
  stm; asked (src_call c r d q);
  stm; asked (frames_call c r d q);
  stm.
Lemma sapp_assoc4 : forall a b d : string, (a ++ b) ++ d = a ++ (b ++ d).
Proof. induction a; intros; cbn [String.append]; [reflexivity | now rewrite IHa]. Qed.
Ltac pieces := repeat (progress (cbn [String.append]; rewrite ?sapp_assoc4, ?sapp_nil)).
Ltac finish_text :=
  unfold opt_line; cbn [app map String.concat]; unfold FmtText.quic_line_text, FmtText.newline, Names.version_display; cbn [FmtText.quic_ty_text];
  lazymatch goal with |- FDone (XS ?x) = FDone (XS ?y) => replace x with y; [reflexivity | pieces; try reflexivity] end.
Ltac fmt_all c r d q := fmt_steps c r d q; lazymatch goal with H : ?k = (fun v s1 => _), G : ?rk = closing _ _ |- _ => rewrite H, G end;
  cbn [outcome]; etransitivity; [go; reflexivity |]; finish_text.
Lemma quic_fmt_src : forall c r d q, run_at c r (S d) "quic" "QuicPacket::fmt" [quic_v q] = outcome XS (FmtText.quic_display_text c q).
Proof.
  intros. unfold FmtText.quic_display_text, quic_display. destruct q as [[] p]; known_kind.
  - fmt_all c r d (Quic QVersionNegotiation p).
  - fmt_all c r d (Quic QInitial p).
  - fmt_all c r d (Quic QZeroRtt p).
  - fmt_all c r d (Quic QHandshake p).
  - fmt_all c r d (Quic QRetry p).
  - fmt_all c r d (Quic QOneRtt p).
Qed.

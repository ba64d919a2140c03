From Coq Require Import String Ascii ZArith List Bool Lia ZifyBool ZifyNat.
From Verif Require Import Base DeriveUtil DeriveOps DeriveGen RustAst RustEval CrateText2 SpecSource2 SpecSource3 EvalTac CrateSrcTac.
From Verif Require RustSem EmitText FmtText MacAddr Names SourceProofs Checksum ProtoMethods.
Import ListNotations.
Open Scope string_scope.
Open Scope Z_scope.
From Verif Require Import CrateSrc1.
Import ProtoMethods.
(** A vector that nothing was put into carries no type. *)
Lemma opt_nop_src : forall c r d, run_at c r d "tcp" "TcpOption::nop" [] = FDone (option_v opt_nop).
Proof. intros. begin. lstep. reflexivity. Qed.
Lemma opt_sack_perm_src : forall c r d, run_at c r d "tcp" "TcpOption::sack_perm" [] = FDone (option_v opt_sack_perm).
Proof. intros. begin. lstep. reflexivity. Qed.
Lemma opt_wscale_src : forall c r d z, run_at c r d "tcp" "TcpOption::wscale" [u8_v z] = FDone (option_v (opt_wscale z)).
Proof. intros. begin. lstep. reflexivity. Qed.
Lemma opt_mss_src : forall c r d z, run_at c r d "tcp" "TcpOption::mss" [XI (Some tu16) z] = FDone (option_v (opt_mss z)).
Proof. intros. begin. lstep. reflexivity. Qed.
Lemma opt_timestamp_src : forall c r d x y, run_at c r d "tcp" "TcpOption::timestamp" [XI (Some tu32) x; XI (Some tu32) y] =
  FDone (option_v (opt_timestamp x y)).
Proof. intros. begin. lstep. reflexivity. Qed.
Lemma opt_sack_src : forall c r d l, run_at c r d "tcp" "TcpOption::selective_ack" [XA (Some tu32) l] =
  outcome option_v (opt_selective_ack (c_mode c) l).
Proof.
  intros. begin. lstep. name_for body HB. generalize (XA (Some tu32) l) as A. intro A.
  assert (G : forall l acc K, for_loop body (map (XI (Some tu32)) l) [("data", vec_v acc); ("acks", A)] K =
    K [("data", vec_v (acc ++ flat_map Checksum.octets_u32 l)%list); ("acks", A)]).
  { clear l. induction l as [| x l IH]; intros acc K; cbn [map for_loop flat_map].
    - now rewrite app_nil_r.
    - rewrite app_assoc, <- IH. rewrite HB. clear HB.
      remember (fun s' : list (string * wv) => for_loop body (map (XI (Some tu32)) l) s' K) as J. clear IH HeqJ.
      destruct acc as [| a acc]; cbn [vec_v app]; lstep; cbn [leave_loop]; reflexivity. }
  specialize (G l [] ). cbn [vec_v app] in G. rewrite G. clear G HB.
  unfold opt_selective_ack. generalize (flat_map Checksum.octets_u32 l) as q. intro q.
  destruct q as [| x q]; cbn [vec_v].
  - lstep. reflexivity.
  - lstep. rewrite SourceProofs.add_fits by (cbn; lia). rewrite wlift_ok.
    change (1 + 1) with 2. change (RustSem.width RustSem.U8) with 8.
    destruct (add_u (c_mode c) 8 2 (cast_u 8 (blen (x :: q)))); reflexivity.
Qed.

(** Frames. *)
From Coq Require Import String ZArith List Bool Lia ZifyBool ZifyNat.
From Verif Require Import Base BitSpec DeriveUtil DeriveOps BaseFacts BitFacts
  DeriveUtilProofs DeriveOpsProofs DeriveLEProofs DeriveGen SpecPacket DeriveGenProofs DeriveInvProofs
  DeriveAccProofs DeriveVarProofs DeriveApiProofs DerivePropProofs DerivePropProofs2 Protocols ProtoFacts
  ProtoPayloadProofs ProtoSplitProofs ProtoTcpProofs Quic SpecQuic QuicIntProofs QuicWalkProofs.
Import ListNotations.
Open Scope Z_scope.
Ltac Zify.zify_post_hook ::= Z.to_euclidean_division_equations.

(** ** Static facts *)

Ltac qreads_tac :=
  let e := fresh in let e' := fresh in let r := fresh in let H := fresh in
  intros e e' r H;
  cbv beta delta [len_const len_of_int len_varint len_of_varint len_n_varints len_packet_number len_frames ty_of];
  repeat match goal with
         | |- context [e ?n] => rewrite (H n) by (cbn [In app]; tauto)
         end; reflexivity.
Ltac qscoped_tac :=
  repeat (cbn [scoped app f_len f_name f_ty fld vfld pfld pall int one mac ip4 ip6 ty_field last_bytes vint];
          match goal with
          | |- True => exact I
          | |- _ /\ _ => split
          | |- reads _ _ => qreads_tac
          | |- 0 <= bit_width _ => vm_compute; discriminate
          | |- ~ In _ _ => notin
          end).
Lemma frame_scoped : forall k, scoped [] (frame_schema k).
Proof.
  intros k. destruct k; cbn [frame_schema];
    unfold bare_frame, ack_frame, reset_stream_frame, stop_sending_frame, crypto_frame, new_token_frame,
      stream_frame, max_data_frame, max_stream_data_frame, max_streams_frame, new_connection_id_frame,
      retire_connection_id_frame, path_frame, connection_close_frame; qscoped_tac.
Qed.

Definition frame_mid (k : frame_kind) : schema := removelast (tl (frame_schema k)).
Lemma frame_split : forall k, frame_schema k = [ty_field] ++ frame_mid k ++ [last_bytes "remaining"].
Proof. intros k. destruct k; reflexivity. Qed.
Lemma frame_hbits : forall k, header_bits (frame_schema k) < 2 ^ 60.
Proof. intros k. destruct k; vm_compute; reflexivity. Qed.
Lemma frame_min : forall k, minimum_packet_size (frame_schema k) = match k with FNewConnectionId => 2 | _ => 1 end.
Proof. intros k. destruct k; reflexivity. Qed.

Ltac sized_tac :=
  first
    [ apply sized_varint
    | apply sized_byteof; reflexivity
    | apply sized_of; reflexivity
    | apply sized_varintsof; reflexivity
    | apply (sized_data _ _ "length" true); reflexivity
    | apply (sized_data _ _ "length" false); reflexivity
    | apply sized_opt; let e := fresh in let HE := fresh in intros e HE; unfold ty_of; rewrite HE; reflexivity
    | apply sized_varints; let e := fresh in let HE := fresh in intros e HE; unfold ty_of; rewrite HE; reflexivity
    | apply sized_fixed; [lia|]; intros; reflexivity ].
Ltac impl_tac :=
  repeat match goal with
         | |- True => exact I
         | |- _ /\ _ => split
         | |- impl_field _ _ _ _ => unfold impl_field; cbn [fst snd f_name f_ty f_len int fld vfld pfld vint]
         | |- exists le, Some ?l = Some le /\ _ => exists l
         | |- sized _ _ _ _ => sized_tac
         | |- _ = _ => reflexivity
         end.

Lemma frame_table : forall t, 0 <= t <= 30 -> exists k w,
  frame_kind_of t = Some k /\ frame_wire 1 t = Some w /\
  impl (fun e => e "ty"%string = Ok (VTup [t])) [] (frame_mid k) w /\
  caps w < 2 ^ 62 + 2 ^ 60 /\ Forall (fun nw => 0 <= cap (snd nw)) w.
Proof.
  intros t T.
  assert (C : t = 0 \/ t = 1 \/ t = 2 \/ t = 3 \/ t = 4 \/ t = 5 \/ t = 6 \/ t = 7 \/ t = 8 \/ t = 9 \/ t = 10 \/
    t = 11 \/ t = 12 \/ t = 13 \/ t = 14 \/ t = 15 \/ t = 16 \/ t = 17 \/ t = 18 \/ t = 19 \/ t = 20 \/ t = 21 \/
    t = 22 \/ t = 23 \/ t = 24 \/ t = 25 \/ t = 26 \/ t = 27 \/ t = 28 \/ t = 29 \/ t = 30) by lia.
  clear T. repeat (destruct C as [->|C]); subst;
    (eexists; eexists; split; [reflexivity|]; split; [reflexivity|]; split;
     [unfold frame_mid; cbn [frame_schema];
      unfold bare_frame, ack_frame, reset_stream_frame, stop_sending_frame, crypto_frame, new_token_frame,
        stream_frame, max_data_frame, max_stream_data_frame, max_streams_frame, new_connection_id_frame,
        retire_connection_id_frame, path_frame, connection_close_frame;
      cbn [tl removelast impl app]; impl_tac
     |split; [vm_compute; reflexivity|repeat constructor; vm_compute; discriminate]]).
Qed.
Lemma frame_types : forall per t, byte_ok t -> frame_wire per t = None <-> 30 < t.
Proof.
  intros per t B. unfold byte_ok in B. unfold frame_wire.
  repeat match goal with |- context [if ?q then _ else _] => destruct q eqn:? end; split; intros; try discriminate; try lia; auto.
Qed.
Lemma frame_kinds : forall t, byte_ok t -> frame_kind_of t = None <-> 30 < t.
Proof.
  intros t B. unfold byte_ok in B. unfold frame_kind_of.
  repeat match goal with |- context [if ?q then _ else _] => destruct q eqn:? end; split; intros; try discriminate; try lia; auto.
Qed.

(** ** One frame *)

(** The values of the fields. *)
Definition shown_fields (w : wire) (seen : list (string * buf)) : list val :=
  map (fun p => shown (snd (fst p)) (snd (snd p))) (combine w seen).

Lemma impl_names : forall H mid w ws, impl H ws mid w -> map f_name mid = map fst w.
Proof.
  intros H mid. induction mid as [|f mid IH]; intros [|nw w] ws I; cbn [impl] in I; try easy.
  destruct I as [[N _] I]. cbn [map]. f_equal; eauto.
Qed.
Lemma agrees_values : forall e w seen, agrees e w seen ->
  map e (map fst w) = map Ok (shown_fields w seen).
Proof.
  intros e w seen A. induction A as [|nw nl w seen (N & E & _) A IH]; [reflexivity|].
  cbn [map shown_fields combine fst snd]. fold (shown_fields w seen). rewrite E. f_equal. exact IH.
Qed.
Lemma seq_res_Ok : forall A (l : list A), seq_res (map Ok l) = Ok l.
Proof. intros A l. induction l as [|x l IH]; cbn [map seq_res bind]; [reflexivity|]. now rewrite IH. Qed.

Section Frames.
Variable c : cfg.

Lemma frame_head : forall k t s, dgram (t :: s) -> new (frame_schema k) (t :: s) = Some (t :: s) ->
  get c (frame_schema k) "ty" (t :: s) = Ok (VTup [t]).
Proof.
  intros k t s [B L] NW.
  assert (BO : buf_ok (t :: s)) by (split; [exact B|lia]).
  assert (Q := header_one c (frame_schema k) 0 ty_field 8 (t :: s)).
  rewrite (frame_split k) in Q at 1. specialize (Q eq_refl eq_refl (frame_scoped k) ltac:(constructor)).
  cbn [firstn header_bits f_name ty_field one fld] in Q. rewrite Q; auto.
  - do 3 f_equal. assert (X := byte_bits (t :: s) 0 B ltac:(cbn [List.length]; lia)).
    etransitivity; [exact X|]. cbn [skipn firstn]. unfold be_val. cbn [fold_left].
    now replace (256 * 0 + t) with t by lia.
  - split; [lia|]. vm_compute. discriminate.
Qed.

Theorem frame_read : forall t k w s, dgram (t :: s) -> frame_kind_of t = Some k -> frame_wire 1 t = Some w ->
  new (frame_schema k) (t :: s) = Some (t :: s) ->
  match read_fields w [] s with
  | Some (seen, rest) =>
      get_raw c (frame_schema k) "remaining" (t :: s) = Ok rest /\
      from_packet c (frame_schema k) (t :: s) = Ok (VTup [t] :: shown_fields w seen ++ [VBytes rest]) /\
      exists own, s = own ++ rest
  | None => get_raw c (frame_schema k) "remaining" (t :: s) = Panic EIndex
  end.
Proof.
  intros t k w s D K W NW. set (b := t :: s) in *. set (fs := frame_schema k) in *.
  assert (BT : byte_ok t) by (destruct D as [B _]; now inversion B).
  assert (T : 0 <= t <= 30).
  { assert (Q := frame_kinds t BT). unfold byte_ok in BT. destruct (Z_lt_le_dec 30 t) as [X|X]; [|lia].
    apply Q in X. congruence. }
  destruct (frame_table t T) as (k' & w' & K' & W' & I & C & FC). rewrite K in K'. injection K' as <-.
  rewrite W in W'. injection W' as <-.
  assert (S := frame_scoped k). fold fs in S. assert (FS := frame_split k). fold fs in FS.
  assert (G0 := frame_head k t s D NW). fold fs b in G0.
  assert (E0 : ends c fs b [ty_field] 1).
  { unfold ends. cbn [pos_after f_len ty_field one fld bit_width f_ty]. reflexivity. }
  assert (LB : 1 <= blen b) by (unfold b; rewrite blen_cons; pose proof (blen_pos s); lia).
  assert (DL : blen b < 2 ^ 61) by apply D.
  assert (Q := walk c (fun e => e "ty"%string = Ok (VTup [t])) fs b S D G0 w (frame_mid k) [ty_field] [last_bytes "remaining"]
    [] [] 1 FS I E0 ltac:(lia) C FC eq_refl ltac:(constructor)).
  change (skipn (Z.to_nat 1) b) with s in Q.
  assert (FS' : fs = ([ty_field] ++ frame_mid k) ++ [last_bytes "remaining"]) by (rewrite <- app_assoc; exact FS).
  destruct (read_fields w [] s) as [[seen rest]|].
  - destruct Q as (A & p & P & R & ->). cbn [app] in A.
    destruct (step_last c fs b S D _ (last_bytes "remaining") p FS' eq_refl eq_refl P ltac:(lia)) as [G1 G2].
    cbn [f_name last_bytes fld] in G1, G2. replace (p <=? blen b) with true in * by lia.
    split; [exact G2|]. split.
    + rewrite from_packet_gets by exact S. rewrite FS, !map_app. cbn [map f_name ty_field one fld last_bytes].
      rewrite <- FS. rewrite G0, G1.
      rewrite <- (map_map f_name (fun n => get c fs n b) (frame_mid k)), (impl_names _ _ _ _ I).
      rewrite (agrees_values _ _ _ A).
      assert (X := seq_res_Ok _ ([VTup [t]] ++ shown_fields w seen ++ [VBytes (skipn (Z.to_nat p) b)])).
      rewrite !map_app in X. exact X.
    + unfold b. replace (Z.to_nat p) with (1 + Z.to_nat (p - 1))%nat by lia. cbn [skipn Nat.add].
      exists (firstn (Z.to_nat (p - 1)) s). symmetry. apply firstn_skipn.
  - destruct Q as [Q|(p & P & R)].
    + destruct (stuck_get c fs b S _ (last_bytes "remaining") [] EIndex FS' eq_refl (frame_hbits k) Q) as [_ X]. exact X.
    + destruct (step_last c fs b S D _ (last_bytes "remaining") p FS' eq_refl eq_refl P ltac:(lia)) as [_ G2].
      cbn [f_name last_bytes fld] in G2. now replace (p <=? blen b) with false in G2 by lia.
Qed.
End Frames.

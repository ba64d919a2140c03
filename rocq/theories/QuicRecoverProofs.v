(** What a sender writes is what the packets of a datagram report. *)
From Coq Require Import String ZArith List Bool Lia ZifyBool ZifyNat.
From Verif Require Import Base BitSpec DeriveUtil DeriveOps BaseFacts BitFacts
  DeriveUtilProofs DeriveOpsProofs DeriveLEProofs DeriveGen SpecPacket DeriveGenProofs DeriveInvProofs
  DeriveAccProofs DeriveVarProofs DeriveApiProofs DerivePropProofs DerivePropProofs2 Protocols ProtoFacts
  ProtoPayloadProofs ProtoSplitProofs ProtoTcpProofs Quic SpecQuic QuicIntProofs QuicWalkProofs QuicFrameProofs
  QuicSeqProofs QuicRfcProofs QuicLongProofs QuicPacketProofs.
Import ListNotations.
Open Scope Z_scope.
Ltac Zify.zify_post_hook ::= Z.to_euclidean_division_equations.

Definition high_ok (x : Z) : bool :=
  Bool.eqb (Z.testbit x 7) (128 <=? x) && Bool.eqb (Z.testbit x 6) (64 <=? x mod 128).
Lemma high_all : forallb high_ok (zrange 0 256) = true.
Proof. vm_compute. reflexivity. Qed.
Lemma high_bits : forall x, 0 <= x < 256 -> Z.testbit x 7 = (128 <=? x) /\ Z.testbit x 6 = (64 <=? x mod 128).
Proof.
  intros x B. assert (Q := proj1 (forallb_forall _ _) high_all x).
  specialize (Q ltac:(apply in_zrange; lia)). unfold high_ok in Q. apply andb_prop in Q. destruct Q as [Q1 Q2].
  apply eqb_prop in Q1, Q2. auto.
Qed.

(** The four bytes of a version. *)
Lemma version_bytes : forall v, 0 <= v < 2 ^ 32 -> exists a b c d,
  be_bytes 4 v = [a; b; c; d] /\ bytes_ok [a; b; c; d] /\ be_val [a; b; c; d] = v.
Proof.
  intros v V. do 4 eexists. split; [reflexivity|]. split.
  - repeat constructor; lia.
  - change (be_val (be_bytes 4 v) = v). apply be_val_be_bytes. exact V.
Qed.
Lemma be_one : forall x, be_val [x] = x.
Proof. intros x. unfold be_val. cbn [fold_left]. lia. Qed.
Lemma read_id : forall n m w seen d s, id_ok d -> bytes_at n (seen ++ [(n, [blen d])]) = [blen d] ->
  read_fields ((n, WByte) :: (m, WByteOf n) :: w) seen (id_bytes d ++ s) =
  read_fields w ((seen ++ [(n, [blen d])]) ++ [(m, d)]) s.
Proof.
  intros n m w seen d s [B L] BA. change (id_bytes d ++ s) with ([blen d] ++ d ++ s).
  rewrite read_step by reflexivity. apply read_step. cbn [width_size]. now rewrite BA, be_one.
Qed.
Lemma id_bytes_ok : forall d, id_ok d -> bytes_ok (id_bytes d).
Proof. intros d [B L]. constructor; [|exact B]. assert (P := blen_pos d). unfold byte_ok. lia. Qed.
Lemma id_len : forall d, blen (id_bytes d) = 1 + blen d.
Proof. intros d. unfold id_bytes. rewrite blen_cons. lia. Qed.

Definition ids_seen (d s : buf) : list (string * buf) :=
  [("dest_id_len"%string, [blen d]); ("dest_id"%string, d); ("src_id_len"%string, [blen s]); ("src_id"%string, s)].
Lemma read_ids : forall w d s r, id_ok d -> id_ok s ->
  read_fields (ids_wire ++ w) [] (id_bytes d ++ id_bytes s ++ r) = read_fields w (ids_seen d s) r.
Proof. intros w d s r Dk Sk. unfold ids_wire. cbn [app]. rewrite read_id by auto. rewrite read_id by auto. reflexivity. Qed.

Lemma long_read : forall t d s l n f r, id_ok d -> id_ok s -> vi_ok l -> vi_value l = blen n + blen f ->
  match t with Some (tl, td) => data_ok tl td | None => True end ->
  exists seen,
    read_fields (long_wire (match t with Some _ => true | None => false end) (blen n)) []
      (id_bytes d ++ id_bytes s ++ match t with Some (tl, td) => vi_bytes tl ++ td | None => [] end ++
       vi_bytes l ++ n ++ f ++ r) = Some (seen, r) /\
    bytes_at "dest_id" seen = d /\ bytes_at "src_id" seen = s /\
    bytes_at "packet_number" seen = n /\ bytes_at "frames" seen = f /\
    match t with Some (_, td) => bytes_at "token" seen = td | None => True end.
Proof.
  intros t d s l n f r Dk Sk V VV T. unfold long_wire. rewrite read_ids by auto.
  assert (N0 := blen_pos n). assert (F0 := blen_pos f).
  destruct t as [[tl td]|].
  - destruct T as (TV & TE & TB). unfold token_wire. cbn [app]. rewrite <- app_assoc.
    rewrite read_vi by auto.
    rewrite (read_data (WOf "token_length") _ _ _ tl td); [|split; auto|reflexivity].
    rewrite read_vi by auto. rewrite read_fixed by reflexivity. rewrite read_step.
    2:{ cbn [width_size ids_seen app bytes_at String.eqb Ascii.eqb Bool.eqb]. rewrite vi_read_bytes by auto.
        replace (0 <=? vi_value l - blen n) with true by lia. f_equal. lia. }
    eexists. split; [reflexivity|]. cbn [ids_seen app bytes_at String.eqb Ascii.eqb Bool.eqb]. auto.
  - cbn [app]. rewrite read_vi by auto. rewrite read_fixed by reflexivity. rewrite read_step.
    2:{ cbn [width_size ids_seen app bytes_at String.eqb Ascii.eqb Bool.eqb]. rewrite vi_read_bytes by auto.
        replace (0 <=? vi_value l - blen n) with true by lia. f_equal. lia. }
    eexists. split; [reflexivity|]. cbn [ids_seen app bytes_at String.eqb Ascii.eqb Bool.eqb]. auto.
Qed.

Lemma rpacket_bytes_ok : forall p, rpacket_ok p -> bytes_ok (rpacket_bytes p).
Proof.
  intros p OK. destruct p as [k r v d s t l n f|u v d s t|u d s vs|fl d n p]; cbn [rpacket_ok rpacket_bytes] in *.
  - destruct OK as (K & R & V & Dk & Sk & T & LV & _ & (NB & NL) & FB).
    constructor; [unfold byte_ok; destruct k; lia|].
    destruct (version_bytes v ltac:(lia)) as (a & b & e & g & -> & WB & _).
    repeat (apply bytes_ok_app; auto using id_bytes_ok, vi_bytes_bytes).
    destruct t as [[tl td]|]; [|constructor]. destruct T as (_ & TV & _ & TB). apply bytes_ok_app; auto using vi_bytes_bytes.
  - destruct OK as (U & V & Dk & Sk & TB). constructor; [unfold byte_ok; lia|].
    destruct (version_bytes v ltac:(lia)) as (a & b & e & g & -> & WB & _).
    repeat (apply bytes_ok_app; auto using id_bytes_ok).
  - destruct OK as (U & Dk & Sk & TB). constructor; [unfold byte_ok; lia|].
    apply bytes_ok_app; [repeat constructor; lia|].
    repeat (apply bytes_ok_app; auto using id_bytes_ok).
  - destruct OK as (FL & DB & _ & (NB & NL) & PB). constructor; [unfold byte_ok; lia|].
    repeat (apply bytes_ok_app; auto).
Qed.

(** ** One packet *)

Section One.
Variable c : cfg.

Lemma first_long : forall k r n, has_length k = true -> 0 <= r < 4 -> 1 <= n <= 4 ->
  let x := 192 + 16 * match k with QInitial => 0 | QZeroRtt => 1 | _ => 2 end + 4 * r + (n - 1) in
  Z.testbit x 7 = true /\ Z.testbit x 6 = true /\ x mod 4 + 1 = n /\
  match (x / 16) mod 4 with 0 => Some QInitial | 1 => Some QZeroRtt | 2 => Some QHandshake | _ => Some QRetry end = Some k.
Proof.
  intros k r n K R N x.
  destruct (high_bits x) as [H7 H6]; [unfold x; destruct k; try discriminate K; lia|].
  rewrite H7, H6. split; [unfold x; destruct k; try discriminate K; lia|].
  split; [unfold x; destruct k; try discriminate K; lia|]. split; [unfold x; destruct k; try discriminate K; lia|].
  destruct k; try discriminate K.
  - replace ((x / 16) mod 4) with 0 by (unfold x; lia). reflexivity.
  - replace ((x / 16) mod 4) with 1 by (unfold x; lia). reflexivity.
  - replace ((x / 16) mod 4) with 2 by (unfold x; lia). reflexivity.
Qed.

Lemma recover_long : forall k r v d s t l n f rest, let p := RLong k r v d s t l n f in
  rpacket_ok p -> dgram (rpacket_bytes p ++ rest) ->
  quic_new c (rpacket_bytes p ++ rest) = qprepend [Quic k (rpacket_bytes p ++ rest)] (quic_new c rest) /\
  reports c p (Quic k (rpacket_bytes p ++ rest)).
Proof.
  intros k r v d s t l n f rest p OK D. unfold p in OK. cbn [rpacket_ok] in OK.
  destruct OK as (K & R & V & Dk & Sk & T & LV & LE & (NB & NL) & FB).
  destruct (first_long k r (blen n) K R NL) as (T7 & T6 & PS & KD).
  unfold p in *. cbn [rpacket_bytes] in *.
  set (x := 192 + _ + 4 * r + (blen n - 1)) in *.
  destruct (version_bytes v ltac:(lia)) as (a & b & e & g & VB & WB & VV). rewrite VB in *.
  rewrite !app_comm_cons, <- !app_assoc in *. rewrite <- !app_comm_cons in *. cbn [app] in *.
  set (tail := id_bytes d ++ _) in *. set (B := x :: a :: b :: e :: g :: tail) in *.
  assert (TK : has_token k = match t with Some _ => true | None => false end).
  { destruct t as [[tl td]|]; [destruct T as [-> _]; reflexivity|]. destruct k; try reflexivity. congruence. }
  destruct (long_read t d s l n f rest Dk Sk LV LE) as (seen & RD & S1 & S2 & S3 & S4 & S5).
  { destruct t as [[tl td]|]; [apply T|exact I]. }
  assert (BL : 7 <= blen B).
  { unfold B, tail. rewrite !blen_cons, !blen_app', !id_len.
    assert (P1 := blen_pos d). assert (P2 := blen_pos s).
    match goal with |- context [blen ?y] => assert (P3 := blen_pos y) end.
    repeat match goal with |- context [blen ?y] => lazymatch goal with H : 0 <= blen y |- _ => fail | _ => assert (0 <= blen y) by apply blen_pos end end. lia. }
  assert (PN : pn_size B = blen n) by (unfold pn_size, B; cbn [nth]; exact PS).
  assert (VE : version_of B = v) by (unfold version_of, B; cbn [skipn firstn]; exact VV).
  assert (CL : quic_classify B = Some k).
  { rewrite classify_rfc by (try apply D; lia). unfold rfc_kind. rewrite VE. unfold B. cbn [nth]. rewrite T7, T6. cbn [orb].
    replace (v =? 0) with false by lia. exact KD. }
  assert (RD' : read_fields (long_wire (has_token k) (pn_size B)) [] (skipn 5 B) = Some (seen, rest)).
  { rewrite PN, TK. unfold B. cbn [skipn]. exact RD. }
  split.
  - destruct (long_panics c k B D CL K) as [Q|Q]; [|lia]. rewrite Q. replace (blen B <? 7) with false by lia.
    rewrite (rest_any (c_mode c) (has_token k) B seen rest) by (auto; apply D). reflexivity.
  - destruct (long_fields c (has_token k) B D BL seen rest RD') as (A & GP & GF & _).
    assert (LVN := long_version c (has_token k) B D BL).
    set (W := long_wire (has_token k) (pn_size B)) in *.
    destruct (agrees_at _ W seen "dest_id" _ A eq_refl) as (GD & _).
    destruct (agrees_at _ W seen "src_id" _ A eq_refl) as (GS & _).
    rewrite <- (quic_long c k K) in *. cbn [shown] in *. rewrite S1 in GD. rewrite S2 in GS. rewrite S3 in GP. rewrite S4 in GF.
    assert (QV : quic_version c (Quic k B) = Ok (Some v)).
    { unfold quic_version, q_get. cbn [q_kind q_buf]. rewrite LVN. cbn [int_of rmap bind].
      change (be_val (firstn 4 (skipn 1 B))) with (version_of B). rewrite VE. destruct k; try discriminate K; reflexivity. }
    cbn [reports]. split; [exact QV|]. split; [|split; [|split; [|split]]].
    + unfold quic_token, q_get. cbn [q_kind q_buf]. destruct t as [[tl td]|].
      * destruct T as [-> _]. destruct (agrees_at _ W seen "token" _ A eq_refl) as (GT & _). cbn [shown] in GT.
        cbn [quic_schema] in GT. cbn [q_kind]. cbn [quic_schema]. rewrite GT, S5. reflexivity.
      * destruct k; try discriminate K; try reflexivity. congruence.
    + assert (PE : packet_number (c_mode c) n = Ok (be_val n)).
      { rewrite packet_number_exact by (auto; lia). now replace (blen n <=? 8) with true by lia. }
      unfold quic_packet_number. cbn [q_kind q_buf].
      clear -K GP PE. destruct k; try discriminate K; rewrite GP; cbn [bind]; rewrite PE; reflexivity.
    + unfold quic_dest_id, q_get. cbn [q_kind q_buf]. rewrite GD. reflexivity.
    + unfold quic_src_id, q_get. cbn [q_kind q_buf]. rewrite GS. destruct k; try discriminate K; reflexivity.
    + unfold quic_frames. cbn [q_kind q_buf]. clear -K GF. destruct k; try discriminate K; rewrite GF; reflexivity.
Qed.

(** The packets without length field: connection ids and the rest. *)
Lemma recover_ids : forall fs pre n b d s rest, scoped [] fs -> fs = pre ++ ids_mid ++ [last_bytes n] ->
  dgram b -> ends c fs b pre 5 -> header_bits pre mod 8 = 0 -> id_ok d -> id_ok s -> 5 <= blen b ->
  skipn 5 b = id_bytes d ++ id_bytes s ++ rest ->
  get c fs "dest_id" b = Ok (VBytes d) /\ get c fs "src_id" b = Ok (VBytes s) /\ get_raw c fs n b = Ok rest.
Proof.
  intros fs pre n b d s rest S E D EN HB Dk Sk L SK. assert (DL : blen b < 2 ^ 61) by apply D.
  destruct (ids_tok_caps false) as [CP FC]. assert (II := ids_tok_impl (fun _ => True) false).
  unfold ids_tok in *. cbn [tok_mid] in II. rewrite !app_nil_r in II. rewrite app_nil_r in CP, FC.
  assert (Q := walk c (fun _ => True) fs b S D I ids_wire ids_mid pre [last_bytes n] [] [] 5 E II EN ltac:(lia) CP FC HB ltac:(constructor)).
  change (Z.to_nat 5) with 5%nat in Q. rewrite SK in Q.
  assert (RI := read_ids [] d s rest Dk Sk). rewrite app_nil_r in RI. rewrite RI in Q. cbn [read_fields app] in Q.
  destruct Q as (A & p & E2 & R & RS).
  destruct (agrees_at _ ids_wire _ "dest_id" _ A eq_refl) as (GD & _).
  destruct (agrees_at _ ids_wire _ "src_id" _ A eq_refl) as (GS & _).
  split; [exact GD|]. split; [exact GS|].
  destruct (step_last c fs b S D (pre ++ ids_mid) (last_bytes n) p) as [_ GR]; auto; [now rewrite <- app_assoc|lia|].
  cbn [f_name last_bytes fld] in GR. rewrite GR. replace (p <=? blen b) with true by lia. now rewrite RS.
Qed.

Lemma retry_scoped : scoped [] retry.
Proof. unfold retry. qscoped_tac. Qed.
Lemma negotiation_scoped : scoped [] version_negotiation.
Proof. unfold version_negotiation. qscoped_tac. Qed.

Lemma recover_retry : forall u v d s t, let p := RRetry u v d s t in
  rpacket_ok p -> dgram (rpacket_bytes p) ->
  quic_new c (rpacket_bytes p) = Ok (Some [Quic QRetry (rpacket_bytes p)]) /\
  reports c p (Quic QRetry (rpacket_bytes p)).
Proof.
  intros u v d s t p OK D. unfold p in OK. cbn [rpacket_ok] in OK. destruct OK as (U & V & Dk & Sk & TB).
  unfold p in *. cbn [rpacket_bytes] in *. set (x := 240 + u) in *.
  destruct (high_bits x ltac:(unfold x; lia)) as [H7 H6].
  replace (128 <=? x) with true in H7 by (unfold x; lia). replace (64 <=? x mod 128) with true in H6 by (unfold x; lia).
  destruct (version_bytes v ltac:(lia)) as (a & b & e & g & VB & WB & VV). rewrite VB in *. cbn [app] in *.
  set (B := x :: a :: b :: e :: g :: _) in *.
  assert (BL : 7 <= blen B).
  { unfold B. rewrite !blen_cons, !blen_app', !id_len.
    assert (P1 := blen_pos d). assert (P2 := blen_pos s). assert (P3 := blen_pos t). lia. }
  assert (VE : version_of B = v) by (unfold version_of, B; cbn [skipn firstn]; exact VV).
  assert (CL : quic_classify B = Some QRetry).
  { rewrite classify_rfc by (try apply D; lia). unfold rfc_kind. rewrite VE. unfold B. cbn [nth]. rewrite H7, H6. cbn [orb].
    replace (v =? 0) with false by lia. replace ((x / 16) mod 4) with 3 by (unfold x; lia). reflexivity. }
  split.
  - rewrite (quic_unfold c B D) by discriminate. rewrite CL. replace (blen B <? 5) with false by lia.
    replace (7 <=? blen B) with true by lia. reflexivity.
  - destruct (recover_ids retry (firstn 5 retry) "retry_token" B d s t retry_scoped eq_refl D) as (GD & GS & GR);
      [unfold ends; reflexivity|reflexivity|exact Dk|exact Sk|lia|reflexivity|].
    assert (DL : blen B < 2 ^ 61) by apply D.
    assert (BO : buf_ok B) by (split; [apply D|lia]).
    assert (NW : new retry B = Some B) by (unfold new; change (minimum_packet_size retry) with 7; now replace (7 <=? blen B) with true by lia).
    assert (Q := header_one c retry 4 (one "version" 32) 32 B eq_refl eq_refl retry_scoped ltac:(repeat constructor) ltac:(split; [lia|vm_compute; discriminate]) BO NW).
    cbn [f_name one fld] in Q.
    assert (FB := field_bytes B 1 4 (proj1 D)). cbn [reports].
    split.
    { unfold quic_version, q_get. cbn [q_kind q_buf quic_schema]. rewrite Q. cbn [int_of rmap bind]. do 2 f_equal.
      etransitivity; [exact FB|]. exact VE. }
    split; [reflexivity|]. split; [reflexivity|].
    unfold quic_dest_id, quic_src_id, q_get. cbn [q_kind q_buf quic_schema]. rewrite GD, GS, GR. auto.
Qed.

Lemma recover_negotiation : forall u d s vs, let p := RNegotiation u d s vs in
  rpacket_ok p -> dgram (rpacket_bytes p) ->
  quic_new c (rpacket_bytes p) = Ok (Some [Quic QVersionNegotiation (rpacket_bytes p)]) /\
  reports c p (Quic QVersionNegotiation (rpacket_bytes p)).
Proof.
  intros u d s vs p OK D. unfold p in OK. cbn [rpacket_ok] in OK. destruct OK as (U & Dk & Sk & TB).
  unfold p in *. cbn [rpacket_bytes] in *. set (x := 128 + u) in *.
  destruct (high_bits x ltac:(unfold x; lia)) as [H7 _].
  replace (128 <=? x) with true in H7 by (unfold x; lia). cbn [app] in *.
  set (B := x :: 0 :: 0 :: 0 :: 0 :: _) in *.
  assert (BL : 7 <= blen B).
  { unfold B. rewrite !blen_cons, !blen_app', !id_len.
    assert (P1 := blen_pos d). assert (P2 := blen_pos s). assert (P3 := blen_pos vs). lia. }
  assert (VE : version_of B = 0) by reflexivity.
  assert (CL : quic_classify B = Some QVersionNegotiation).
  { rewrite classify_rfc by (try apply D; lia). unfold rfc_kind. rewrite VE. unfold B. cbn [nth]. rewrite H7. reflexivity. }
  split.
  - rewrite (quic_unfold c B D) by discriminate. rewrite CL. replace (blen B <? 5) with false by lia.
    replace (7 <=? blen B) with true by lia. reflexivity.
  - destruct (recover_ids version_negotiation (firstn 3 version_negotiation) "supported_versions" B d s vs negotiation_scoped eq_refl D) as (GD & GS & GR);
      [unfold ends; reflexivity|reflexivity|exact Dk|exact Sk|lia|reflexivity|].
    cbn [reports]. split; [reflexivity|]. split; [reflexivity|]. split; [reflexivity|].
    unfold quic_dest_id, quic_src_id, q_get. cbn [q_kind q_buf quic_schema]. rewrite GD, GS, GR. auto.
Qed.

Lemma recover_rtt : forall fl d n pl, let p := ROneRtt fl d n pl in
  rpacket_ok p -> dgram (rpacket_bytes p) ->
  quic_new c (rpacket_bytes p) = Ok (Some [Quic QOneRtt (rpacket_bytes p)]) /\
  reports c p (Quic QOneRtt (rpacket_bytes p)).
Proof.
  intros fl d n pl p OK D. unfold p in OK. cbn [rpacket_ok] in OK. destruct OK as (F & DB & DL & (NB & NL) & PB).
  unfold p in *. cbn [rpacket_bytes] in *. set (x := 64 + 4 * fl + (blen n - 1)) in *.
  destruct (high_bits x ltac:(unfold x; lia)) as [H7 H6].
  replace (128 <=? x) with false in H7 by (unfold x; lia). replace (64 <=? x mod 128) with true in H6 by (unfold x; lia).
  set (B := x :: d ++ n ++ pl) in *.
  assert (PN : pn_size B = blen n) by (unfold pn_size, B, x; cbn [nth]; lia).
  assert (LB : blen B = 1 + 8 + blen n + blen pl) by (unfold B; rewrite blen_cons, !blen_app'; lia).
  assert (P0 := blen_pos pl).
  assert (LD : List.length d = 8%nat) by (unfold blen in DL; lia).
  assert (S1 : skipn 1 B = d ++ n ++ pl) by reflexivity.
  assert (S9 : skipn 9 B = n ++ pl).
  { change 9%nat with (1 + 8)%nat. rewrite <- skipn_skipn', S1, skipn_app, LD, Nat.sub_diag. rewrite skipn_all2 by lia. reflexivity. }
  assert (LN : Z.to_nat (blen n) = List.length n) by (unfold blen; lia).
  destruct (rtt_exact c B D ltac:(lia) H7 H6) as (Q & QN & _).
  destruct (rtt_fields c B D ltac:(lia)) as (GD & _ & PL).
  split; [exact Q|]. cbn [reports]. split; [reflexivity|]. split; [reflexivity|].
  split; [|split; [|split; [reflexivity|]]].
  - rewrite QN. replace (9 <=? blen B) with true by lia. rewrite PN, S9, LN, firstn_app, Nat.sub_diag, firstn_all. cbn [firstn]. now rewrite app_nil_r.
  - unfold quic_dest_id, q_get. cbn [q_kind q_buf quic_schema]. rewrite GD. cbn [bytes_of]. f_equal.
    rewrite S1, <- LD, firstn_app, Nat.sub_diag, firstn_all. cbn [firstn]. rewrite app_nil_r. reflexivity.
  - unfold quic_frames. cbn [q_kind q_buf]. rewrite PL, PN. cbn [rmap bind]. do 2 f_equal.
    rewrite <- skipn_skipn', S9, LN, skipn_app, Nat.sub_diag, skipn_all. reflexivity.
Qed.

(** ** A datagram *)

Lemma rpackets_bytes_ok : forall l, rpackets_ok l -> bytes_ok (rpackets_bytes l).
Proof.
  induction l as [|p l IH]; intros OK; [constructor|]. destruct OK as (P & _ & OK). cbn [rpackets_bytes flat_map].
  apply bytes_ok_app; auto using rpacket_bytes_ok.
Qed.
Lemma recover_first : forall p l, rpackets_ok (p :: l) -> dgram (rpackets_bytes (p :: l)) ->
  quic_new c (rpackets_bytes (p :: l)) =
    qprepend [Quic (rpacket_kind p) (rpackets_bytes (p :: l))] (quic_new c (rpackets_bytes l)) /\
  reports c p (Quic (rpacket_kind p) (rpackets_bytes (p :: l))).
Proof.
  intros p l OK D. destruct OK as (P & E & OK). cbn [rpackets_bytes flat_map] in *. fold (rpackets_bytes l) in *.
  destruct (has_end p) eqn:HE.
  - destruct p as [k r v d s t ln n f|u v d s t|u d s vs|fl d n pl]; try discriminate HE. cbn [rpacket_kind].
    now apply recover_long.
  - assert (l = []) as -> by (destruct l; [reflexivity|]; assert (X := E ltac:(discriminate)); discriminate X).
    cbn [rpackets_bytes flat_map] in *. rewrite app_nil_r in *.
    destruct p as [k r v d s t ln n f|u v d s t|u d s vs|fl d n pl]; try discriminate HE; cbn [rpacket_kind].
    + destruct (recover_retry u v d s t P D) as [-> R]. now split.
    + destruct (recover_negotiation u d s vs P D) as [-> R]. now split.
    + destruct (recover_rtt fl d n pl P D) as [-> R]. now split.
Qed.

Theorem packets_recovered : forall l, rpackets_ok l -> blen (rpackets_bytes l) < 2 ^ 61 ->
  quic_new c (rpackets_bytes l) = Ok (Some (rpackets_views l)) /\
  forall pre p post, l = pre ++ p :: post ->
    reports c p (Quic (rpacket_kind p) (rpackets_bytes (p :: post))).
Proof.
  induction l as [|p l IH]; intros OK L.
  { split; [reflexivity|]. intros [|? ?] p post; discriminate. }
  assert (D : dgram (rpackets_bytes (p :: l))) by (split; [now apply rpackets_bytes_ok|exact L]).
  destruct (recover_first p l OK D) as [Q R]. destruct OK as (P & E & OK).
  assert (LL : blen (rpackets_bytes l) < 2 ^ 61).
  { cbn [rpackets_bytes flat_map] in L. rewrite blen_app' in L. fold (rpackets_bytes l) in L.
    assert (X := blen_pos (rpacket_bytes p)). lia. }
  destruct (IH OK LL) as [IH1 IH2]. split.
  - rewrite Q, IH1. reflexivity.
  - intros [|p0 pre] p1 post EQ; cbn [app] in EQ; injection EQ; intros; subst; auto. eapply IH2. reflexivity.
Qed.
End One.

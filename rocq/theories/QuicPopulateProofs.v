(** populate() of packets whose length attributes look at the packet. *)
From Coq Require Import String ZArith List Bool Lia ZifyBool ZifyNat.
From Verif Require Import Base BitSpec DeriveUtil DeriveOps BaseFacts BitFacts
  DeriveUtilProofs DeriveOpsProofs DeriveLEProofs DeriveGen SpecPacket DeriveGenProofs DeriveInvProofs
  DeriveAccProofs DeriveVarProofs DeriveApiProofs DerivePropProofs DerivePropProofs2 Protocols ProtoFacts
  ProtoPayloadProofs ProtoSplitProofs ProtoTcpProofs Quic SpecQuic QuicIntProofs QuicWalkProofs QuicFrameProofs
  QuicSeqProofs QuicRfcProofs QuicLongProofs QuicPacketProofs QuicRecoverProofs.
Import ListNotations.
Open Scope Z_scope.
Ltac Zify.zify_post_hook ::= Z.to_euclidean_division_equations.

Section Populate.
Variable c : cfg.

(** The setter of a varint field looks at the byte stored there. *)
Theorem set_varint : forall b fs pre n post p v, scoped [] fs -> fs = pre ++ vint n :: post -> dgram b ->
  blen v < 2 ^ 63 -> ends c fs b pre p -> 0 <= p < blen b ->
  set c fs n (VBytes v) b =
  (if blen v <=? 2 ^ (nth (Z.to_nat p) b 0 / 64)
   then if p + blen v <=? blen b then (splice b (Z.to_nat p) v, Ok tt) else (b, Panic EIndex)
   else (b, Panic EAssert)).
Proof.
  intros b fs pre n post p v S E [B L] LV EN P.
  assert (BO : buf_ok b) by (split; [exact B|lia]). unfold ends in EN.
  assert (Q := api_set_bytes c b fs pre (vint n) post (8 * p) (u 8) v S E eq_refl eq_refl BO LV EN ltac:(lia)).
  cbn [f_name vint vfld] in Q. rewrite Q. clear Q. replace (8 * p / 8) with p by lia.
  cbn [f_len vint vfld option_map]. unfold len_varint. rewrite slice_at by lia. replace (p <=? blen b) with true by lia.
  cbn [bind]. destruct (skipn (Z.to_nat p) b) as [|x s] eqn:SK.
  { apply (f_equal (@List.length Z)) in SK. rewrite skipn_length in SK. unfold blen in P. cbn [List.length] in SK. lia. }
  assert (NX : nth (Z.to_nat p) b 0 = x).
  { rewrite <- (firstn_skipn (Z.to_nat p) b), SK. rewrite app_nth2; rewrite firstn_length; unfold blen in P;
      replace (Nat.min (Z.to_nat p) (List.length b)) with (Z.to_nat p) by lia; [|lia]. now rewrite Nat.sub_diag. }
  rewrite NX. cbn [varint_length]. rewrite Z.shiftl_1_l, Z.shiftr_div_pow2 by lia. reflexivity.
Qed.

(** populate() calls the setters in order. *)
Lemma populate_step : forall fs i f v r b, scoped [] fs -> nth_error fs i = Some f ->
  populate_from c fs i (v :: r) b = mseq (set c fs (f_name f) v) (populate_from c fs (S i) r) b.
Proof.
  intros fs i f v r b SC N. cbn [populate_from]. unfold mseq. unfold set.
  destruct (nth_error_split fs i N) as (pre & post & E & LP).
  assert (FA := field_at_intro fs pre f post SC E).
  rewrite (find_at c b fs _ pre f FA).
  assert (NL : nth_error (layout c b fs) i = find_field c b fs (f_name f)).
  { rewrite (find_at c b fs _ pre f FA). rewrite E. unfold layout. rewrite layout_app.
    assert (LL : List.length (layout_from c b pre 0 [] []) = i).
    { rewrite <- LP. clear. generalize 0 as o, (@nil (res Z)) as ls, (@nil (string * res val)) as e.
      induction pre as [|g pre IH]; intros; [reflexivity|]. cbn [layout_from List.length]. now rewrite IH. }
    rewrite nth_error_app2 by lia. rewrite LL, Nat.sub_diag. cbn [layout_from nth_error].
    unfold len_of, layout. reflexivity. }
  rewrite NL, (find_at c b fs _ pre f FA). reflexivity.
Qed.

Lemma set_type : forall fs n post b t, scoped [] fs -> fs = ty_field :: vint n :: post -> dgram b -> b <> [] -> byte_ok t ->
  set c fs "ty" (VTup [t]) b = (t :: tl b, Ok tt).
Proof.
  intros fs n post b t S E [B L] NE BT. unfold byte_ok in BT.
  assert (L1 : 1 <= blen b) by (destruct b as [|x s]; [congruence|]; rewrite blen_cons; assert (P := blen_pos s); lia).
  destruct (api_set_fixed c b fs [] ty_field (vint n :: post) 0 (VTup [t]) S E) as (b' & Q & LB & BB & W).
  - cbn [f_ty ty_field one fld fixed_ok header_bits places_ok]. split; [|exact I]. apply big_place. split; [lia|vm_compute; discriminate].
  - cbn. repeat constructor; lia.
  - split; [exact B|lia].
  - constructor.
  - change (0 + 8 <= 8 * blen b). lia.
  - cbn [f_name ty_field one fld] in Q. rewrite Q. f_equal.
    destruct b as [|x s]; [congruence|]. destruct b' as [|x' s']; [discriminate LB|]. cbn [tl].
    apply bits_of_inj; [exact BB|constructor; [exact BT|now inversion B]|]. rewrite W. reflexivity.
Qed.

(** A frame whose second field is an integer: populate() succeeds only if the
    byte stored at the place of the integer announces enough bytes. *)
Theorem populate_frame : forall fs n post b t v r, scoped [] fs -> fs = ty_field :: vint n :: post -> dgram b ->
  2 <= blen b -> byte_ok t -> bytes_ok v -> blen v < 2 ^ 63 ->
  populate c fs (VTup [t] :: VBytes v :: r) b =
  (if blen v <=? 2 ^ (nth 1 b 0 / 64)
   then if 1 + blen v <=? blen b then populate_from c fs 2 r (t :: splice (tl b) 0 v) else (t :: tl b, Panic EIndex)
   else (t :: tl b, Panic EAssert)).
Proof.
  intros fs n post b t v r S E D L2 BT BV LV. unfold populate.
  rewrite (populate_step fs 0 ty_field) by (auto; now rewrite E). unfold mseq at 1.
  cbn [f_name ty_field one fld]. rewrite (set_type fs n post b t S E D) by (auto; intros ->; unfold blen in L2; cbn in L2; lia).
  destruct b as [|x s]; [unfold blen in L2; cbn in L2; lia|]. cbn [tl nth].
  assert (D' : dgram (t :: s)).
  { destruct D as [B L]. split; [|rewrite blen_cons in *; exact L]. constructor; [exact BT|]. now inversion B. }
  rewrite (populate_step fs 1 (vint n)) by (auto; now rewrite E). unfold mseq at 1.
  cbn [f_name vint vfld].
  assert (EN : ends c fs (t :: s) [ty_field] 1) by (unfold ends; reflexivity).
  rewrite blen_cons in L2.
  rewrite (set_varint (t :: s) fs [ty_field] n post 1 v S E D' LV EN) by (rewrite blen_cons; lia).
  change (Z.to_nat 1) with 1%nat. cbn [nth]. rewrite !blen_cons.
  destruct (_ <=? 2 ^ _); [|reflexivity]. destruct (_ <=? _); reflexivity.
Qed.
Theorem populate_old_bytes : forall k n post b t v r, frame_schema k = ty_field :: vint n :: post -> dgram b ->
  2 <= blen b -> byte_ok t -> bytes_ok v -> blen v < 2 ^ 63 ->
  (2 ^ (nth 1 b 0 / 64) < blen v ->
   populate c (frame_schema k) (VTup [t] :: VBytes v :: r) b = (t :: tl b, Panic EAssert)) /\
  (blen v <= 2 ^ (nth 1 b 0 / 64) -> 1 + blen v <= blen b ->
   populate c (frame_schema k) [VTup [t]; VBytes v] b = (t :: splice (tl b) 0 v, Ok tt)).
Proof.
  intros k n post b t v r E D L2 BT BV LV. assert (S := frame_scoped k).
  split; [intros H|intros H U]; rewrite (populate_frame _ n post) by auto.
  - now replace (blen v <=? 2 ^ (nth 1 b 0 / 64)) with false by lia.
  - replace (blen v <=? 2 ^ (nth 1 b 0 / 64)) with true by lia. replace (1 + blen v <=? blen b) with true by lia. reflexivity.
Qed.
Theorem populate_zeroed : forall k n post N t x r, frame_schema k = ty_field :: vint n :: post ->
  (2 <= N)%nat -> Z.of_nat N < 2 ^ 61 -> byte_ok t -> vi_ok x -> 1 < vi_width x ->
  populate c (frame_schema k) (VTup [t] :: VBytes (vi_bytes x) :: r) (repeat 0 N) = (t :: repeat 0 (N - 1), Panic EAssert).
Proof.
  intros k n post N t x r E N2 NL BT V W.
  assert (LR : blen (repeat 0 N) = Z.of_nat N) by (unfold blen; now rewrite repeat_length).
  assert (LV := vi_len x V). assert (WB : vi_width x <= 8) by (destruct V as [V _]; lia).
  destruct (populate_old_bytes k n post (repeat 0 N) t (vi_bytes x) r E) as [P _];
    [split; [apply Forall_forall; intros y IN; apply repeat_spec in IN; subst y; unfold byte_ok; lia|lia]|lia|exact BT|now apply vi_bytes_bytes|lia|].
  destruct N as [|[|N]]; [lia|lia|]. rewrite P; [cbn [repeat tl Nat.sub]; reflexivity|].
  cbn [repeat nth]. change (2 ^ (0 / 64)) with 1. lia.
Qed.
End Populate.

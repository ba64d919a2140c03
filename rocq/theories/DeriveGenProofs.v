(** Proofs about the code generated for an arbitrary packet description:
    encoding and decoding whole packets. *)
From Coq Require Import String ZArith List Bool Lia ZifyBool ZifyNat.
From Verif Require Import Base BitSpec DeriveUtil DeriveOps BaseFacts BitFacts
  DeriveUtilProofs DeriveOpsProofs DeriveLEProofs DeriveGen SpecPacket.
Import ListNotations.
Open Scope Z_scope.
Ltac Zify.zify_post_hook ::= Z.to_euclidean_division_equations.

Local Notation length := List.length.

(** ** Bit strings *)

Lemma bits_written_nil : forall b o, bytes_ok b -> bits_written b o [] b.
Proof.
  intros. unfold bits_written. split; [auto|]. split; [auto|].
  cbn [List.length app]. rewrite Nat.add_0_r. now rewrite firstn_skipn.
Qed.

Lemma bits_written_field : forall b o n v b',
  field_written b o n v b' -> bits_written b o (bits_of_Z n v) b'.
Proof.
  intros b o n v b' (L & B & E). unfold bits_written. rewrite bits_of_Z_length. auto.
Qed.

Lemma bits_written_app : forall b o bs1 b1 bs2 b2,
  (o + length bs1 + length bs2 <= 8 * length b)%nat ->
  bits_written b o bs1 b1 -> bits_written b1 (o + length bs1) bs2 b2 ->
  bits_written b o (bs1 ++ bs2) b2.
Proof.
  intros b o bs1 b1 bs2 b2 F (L1 & B1 & E1) (L2 & B2 & E2).
  unfold bits_written. split; [congruence|]. split; [auto|]. rewrite E2.
  assert (FL : length (firstn o (bits_of b)) = o) by (rewrite firstn_length, bits_of_length; lia).
  assert (X1 : firstn (o + length bs1) (bits_of b1) = firstn o (bits_of b) ++ bs1).
  { rewrite E1, app_assoc. apply firstn_app_exact. rewrite app_length. lia. }
  assert (X2 : skipn (o + length bs1 + length bs2) (bits_of b1)
             = skipn (o + (length bs1 + length bs2)) (bits_of b)).
  { rewrite <- (skipn_skipn' _ (length bs2) (o + length bs1)).
    rewrite E1 at 1. rewrite app_assoc. rewrite skipn_app_exact by (rewrite app_length; lia).
    rewrite skipn_skipn'. f_equal. lia. }
  rewrite X1, X2, app_length, <- !app_assoc. reflexivity.
Qed.

Lemma bits_written_splice : forall b lo bs, (lo + length bs <= length b)%nat ->
  bytes_ok b -> bytes_ok bs -> bits_written b (8 * lo) (bits_of bs) (splice b lo bs).
Proof.
  intros b lo bs H B S. unfold bits_written. split; [now apply splice_length|].
  split; [now apply splice_bytes|].
  unfold splice. rewrite !bits_of_app, bits_firstn, bits_skipn, bits_of_length.
  do 3 f_equal. lia.
Qed.

Lemma splice_unique : forall b lo bs b', (lo + length bs <= length b)%nat ->
  bytes_ok b -> bytes_ok bs -> bits_written b (8 * lo) (bits_of bs) b' -> b' = splice b lo bs.
Proof.
  intros b lo bs b' H B S (L & B' & E). apply bits_of_inj; auto using splice_bytes.
  destruct (bits_written_splice b lo bs H B S) as (_ & _ & E'). congruence.
Qed.

Lemma bits_written_prefix : forall b o bs b', (o + length bs <= 8 * length b)%nat ->
  bits_written b o bs b' ->
  firstn (o + length bs) (bits_of b') = firstn o (bits_of b) ++ bs.
Proof.
  intros b o bs b' H (L & B & E). rewrite E, app_assoc.
  apply firstn_app_exact. rewrite app_length, firstn_length, bits_of_length. lia.
Qed.

Lemma window_decode : forall b P v T k, bytes_ok b -> bytes_ok v ->
  bits_of b = P ++ bits_of v ++ T -> length P = (8 * k)%nat ->
  exists t, bytes_ok t /\ skipn k b = v ++ t /\ bits_of t = T /\ (k + length v <= length b)%nat.
Proof.
  intros b P v T k B V E L.
  assert (LE := f_equal (@length bool) E). rewrite !app_length, !bits_of_length in LE.
  assert (K : (k + length v <= length b)%nat) by lia.
  exists (skipn (k + length v) b). split; [now apply bytes_skipn|].
  assert (ET : bits_of (skipn (k + length v) b) = T).
  { rewrite bits_skipn, E. rewrite app_assoc. apply skipn_app_exact.
    rewrite app_length, bits_of_length. lia. }
  split; [|split; auto].
  apply bits_of_inj.
  - now apply bytes_skipn.
  - apply bytes_app. split; auto. now apply bytes_skipn.
  - rewrite bits_of_app, ET, bits_skipn, E. apply skipn_app_exact. lia.
Qed.

Lemma pack_n_bits : forall n l, length l = (8 * n)%nat -> bits_of (pack_n n l) = l.
Proof.
  induction n; intros l H.
  - destruct l; [reflexivity|cbn [List.length] in H; lia].
  - cbn [pack_n].
    change (bits_of (Z_of_bits (firstn 8 l) :: pack_n n (skipn 8 l)))
      with (bits_of_byte (Z_of_bits (firstn 8 l)) ++ bits_of (pack_n n (skipn 8 l))).
    rewrite IHn by (rewrite skipn_length; lia).
    rewrite <- (firstn_skipn 8 l) at 3. f_equal.
    assert (L8 : length (firstn 8 l) = 8%nat) by (rewrite firstn_length; lia).
    rewrite <- (bits_of_Z_of_bits (firstn 8 l)) at 2. rewrite L8. reflexivity.
Qed.

Lemma pack_n_bytes : forall n l, bytes_ok (pack_n n l).
Proof.
  induction n; intros; constructor.
  - split; [apply Z_of_bits_nonneg|].
    eapply Z.lt_le_trans; [apply Z_of_bits_bound|].
    change 256 with (2 ^ 8). apply Z.pow_le_mono_r; [lia|]. rewrite firstn_length. lia.
  - apply IHn.
Qed.

Lemma pack_n_length : forall n l, length (pack_n n l) = n.
Proof. induction n; intros; cbn [pack_n List.length]; auto. Qed.

Lemma pack_bits : forall l, (length l mod 8 = 0)%nat -> bits_of (pack l) = l.
Proof. intros. apply pack_n_bits. lia. Qed.
Lemma pack_bytes : forall l, bytes_ok (pack l).
Proof. intros. apply pack_n_bytes. Qed.
Lemma pack_length : forall l, length (pack l) = (length l / 8)%nat.
Proof. intros. apply pack_n_length. Qed.
Lemma pack_unique : forall l b, bytes_ok b -> bits_of b = l -> pack l = b.
Proof.
  intros l b B E. apply bits_of_inj; auto using pack_bytes.
  rewrite pack_bits; [auto|]. rewrite <- E, bits_of_length. lia.
Qed.

(** ** Offsets *)

Definition zsum (l : list Z) : Z := fold_right Z.add 0 l.

Lemma zsum_app : forall a b, zsum (a ++ b) = zsum a + zsum b.
Proof.
  induction a as [|x a IH]; intros; [reflexivity|]. cbn [zsum fold_right app].
  change (x + zsum (a ++ b) = x + zsum a + zsum b). rewrite IH. lia.
Qed.

Lemma zsum_nonneg : forall l, Forall (fun z => 0 <= z) l -> 0 <= zsum l.
Proof. induction 1; cbn [zsum fold_right]; [lia|]. fold (zsum l). lia. Qed.

Lemma fold_offset : forall m ns a, 0 <= a -> Forall (fun z => 0 <= z) ns ->
  a + zsum ns < 2 ^ 64 ->
  fold_left (fun acc l => x <- acc ;; y <- l ;; add_u m usize x y) (map Ok ns) (Ok a)
  = Ok (a + zsum ns).
Proof.
  intros m ns. induction ns as [|n ns IH]; intros a A F H.
  - cbn [map fold_left zsum fold_right]. f_equal. lia.
  - inversion F; subst. cbn [map fold_left bind].
    cbn [zsum fold_right] in *. fold (zsum ns) in *.
    assert (0 <= zsum ns) by now apply zsum_nonneg.
    rewrite add_u_in by (change usize with 64; lia).
    rewrite IH; auto; try lia. f_equal. lia.
Qed.

Lemma current_offset_ok : forall c bit ns, 0 <= bit -> Forall (fun z => 0 <= z) ns ->
  bit / 8 + zsum ns < 2 ^ 64 ->
  current_offset c bit (map Ok ns) = Ok (bit / 8 + zsum ns).
Proof. intros. apply fold_offset; auto. lia. Qed.

(** ** One integer *)

Lemma place_placed : forall c bit p, place_ok (c_host_le c) bit p -> 0 <= bit ->
  is_big c p = true -> placed (bit mod 8) (p_size p).
Proof.
  intros c bit p (S & H) B E. unfold placed.
  change (is_big c p) with (big_endian (c_host_le c) (p_end p)) in E. rewrite E in H. lia.
Qed.

Lemma place_le : forall c bit p, place_ok (c_host_le c) bit p -> is_big c p = false ->
  bit mod 8 = 0 /\ exists n, 1 <= n <= 8 /\ p = Prim (8 * n) (p_end p).
Proof.
  intros c bit p (S & H) E.
  change (is_big c p) with (big_endian (c_host_le c) (p_end p)) in E. rewrite E in H.
  split; [lia|]. exists (p_size p / 8). split; [lia|]. destruct p as [s e]. cbn [p_size p_end] in *. f_equal. lia.
Qed.

Lemma enc_prim_length : forall c bit p v, place_ok (c_host_le c) bit p ->
  length (enc_prim (c_host_le c) p v) = Z.to_nat (p_size p).
Proof.
  intros c bit p v (S & H). unfold enc_prim.
  destruct (big_endian (c_host_le c) (p_end p)).
  - apply bits_of_Z_length.
  - rewrite bits_of_length, le_bytes_length. lia.
Qed.

Lemma le_val_le_bytes : forall n v, le_val (le_bytes n v) = v mod 2 ^ (8 * Z.of_nat n).
Proof.
  intros n v. apply Z.bits_inj'. intros j J. rewrite testbit_le_val by auto using le_bytes_ok.
  destruct (Z.lt_ge_cases j (8 * Z.of_nat n)) as [Q|Q].
  - rewrite le_bytes_testbit by lia. rewrite Z.mod_pow2_bits_low by lia. f_equal. lia.
  - rewrite nth_overflow by (rewrite le_bytes_length; lia).
    rewrite Z.testbit_0_l, Z.mod_pow2_bits_high by lia. reflexivity.
Qed.

Lemma prim_get_enc : forall c bit p b co v P T, place_ok (c_host_le c) bit p ->
  0 <= bit -> 0 <= v -> 0 <= co -> bytes_ok b -> blen b < 2 ^ 63 ->
  bits_of b = P ++ enc_prim (c_host_le c) p v ++ T ->
  Z.of_nat (length P) = 8 * co + bit mod 8 ->
  prim_get c bit p b co = Ok (v mod 2 ^ p_size p).
Proof.
  intros c bit p b co v P T PL BI V CO B L E LP.
  assert (LE := f_equal (@length bool) E).
  rewrite !app_length, bits_of_length, (enc_prim_length c bit p v PL) in LE.
  destruct (is_big c p) eqn:BG.
  - assert (PD := place_placed _ _ _ PL BI BG).
    assert (NF := num_bytes_facts _ _ PD). unfold slack in NF.
    rewrite prim_get_be; auto; try (unfold span, blen; lia).
    unfold field_val, field_bits. rewrite E.
    rewrite skipn_app_exact by lia.
    unfold enc_prim. change (is_big c p) with (big_endian (c_host_le c) (p_end p)) in BG. rewrite BG.
    rewrite firstn_app_exact by apply bits_of_Z_length.
    rewrite Z_of_bits_of_Z. do 2 f_equal. f_equal. destruct PL. lia.
  - destruct (place_le _ _ _ PL BG) as (A & n & N & PN).
    rewrite PN in *. cbn [p_size] in *.
    rewrite prim_get_le; auto; try (unfold blen; lia).
    unfold enc_prim in E. cbn [p_size p_end] in E.
    change (is_big c (Prim (8 * n) (p_end p))) with (big_endian (c_host_le c) (p_end p)) in BG.
    rewrite BG in E.
    destruct (window_decode b P _ T (Z.to_nat co) B (le_bytes_ok _ _) E ltac:(lia)) as (t & TB & TS & TE & TL).
    rewrite TS. rewrite firstn_app_exact by (rewrite le_bytes_length; lia).
    rewrite le_val_le_bytes. do 2 f_equal. f_equal. lia.
Qed.

Lemma prim_set_enc : forall c bit p b co v, place_ok (c_host_le c) bit p ->
  0 <= bit -> 0 <= v -> 0 <= co -> bytes_ok b -> blen b < 2 ^ 63 ->
  8 * co + bit mod 8 + p_size p <= 8 * blen b ->
  exists b', prim_set c bit p v co b = (b', Ok tt) /\
    bits_written b (Z.to_nat (8 * co + bit mod 8)) (enc_prim (c_host_le c) p v) b'.
Proof.
  intros c bit p b co v PL BI V CO B L H.
  destruct (is_big c p) eqn:BG.
  - assert (PD := place_placed _ _ _ PL BI BG).
    assert (NF := num_bytes_facts _ _ PD). unfold slack in NF.
    destruct (prim_set_be c bit p b v co) as (b' & E & F); auto; try (unfold span, blen in *; lia).
    exists b'. split; auto. unfold enc_prim.
    change (is_big c p) with (big_endian (c_host_le c) (p_end p)) in BG. rewrite BG.
    now apply bits_written_field.
  - destruct (place_le _ _ _ PL BG) as (A & n & N & PN).
    rewrite PN in *. cbn [p_size] in *.
    rewrite prim_set_le by (auto; lia).
    eexists. split; [reflexivity|]. unfold enc_prim. cbn [p_size p_end].
    change (is_big c (Prim (8 * n) (p_end p))) with (big_endian (c_host_le c) (p_end p)) in BG.
    rewrite BG. replace (Z.to_nat (8 * co + bit mod 8)) with (8 * Z.to_nat co)%nat by lia.
    replace (8 * n / 8) with n by lia.
    apply bits_written_splice; auto using le_bytes_ok.
    rewrite le_bytes_length. unfold blen in H. lia.
Qed.

(** ** Constructed fields *)

Lemma args_bits_nonneg : forall h ps bit, places_ok h bit ps -> 0 <= args_bits ps.
Proof.
  induction ps; intros bit H; cbn [args_bits fold_right]; [lia|].
  destruct H as [[S _] H]. apply IHps in H. fold (args_bits ps). lia.
Qed.

Lemma enc_args_length : forall c ps vs bit, places_ok (c_host_le c) bit ps ->
  length vs = length ps ->
  Z.of_nat (length (enc_args (c_host_le c) ps vs)) = args_bits ps.
Proof.
  induction ps as [|p ps IH]; intros vs bit PL H; destruct vs; try discriminate; [reflexivity|].
  cbn [List.length] in H. destruct PL as [PL PS].
  cbn [enc_args args_bits fold_right]. fold (args_bits ps).
  rewrite app_length, (enc_prim_length c bit p z PL).
  specialize (IH vs _ PS ltac:(lia)). destruct PL. lia.
Qed.

Lemma misc_get_enc : forall c ps vs bit ns b P T, places_ok (c_host_le c) bit ps ->
  length vs = length ps -> Forall (fun z => 0 <= z) vs ->
  0 <= bit -> Forall (fun z => 0 <= z) ns -> bytes_ok b -> blen b < 2 ^ 63 ->
  bits_of b = P ++ enc_args (c_host_le c) ps vs ++ T ->
  Z.of_nat (length P) = bit + 8 * zsum ns ->
  misc_get c ps bit (map Ok ns) b = Ok (norm_args ps vs).
Proof.
  intros c ps. induction ps as [|p ps IH]; intros vs bit ns b P T PL LN NN BI NS B L E LP;
    destruct vs as [|v vs]; try discriminate; [reflexivity|].
  cbn [List.length] in LN. destruct PL as [PL PS]. inversion NN; subst.
  cbn [misc_get enc_args norm_args] in *.
  assert (LE := f_equal (@length bool) E). rewrite bits_of_length, !app_length in LE.
  assert (0 <= zsum ns) by now apply zsum_nonneg.
  rewrite current_offset_ok by (auto; unfold blen in L; lia). cbn [bind].
  rewrite <- app_assoc in E.
  rewrite (prim_get_enc c bit p b _ v P _ PL) with (1 := BI) (5 := L) (6 := E); auto; try lia.
  cbn [bind].
  assert (LN' := enc_prim_length c bit p v PL). assert (SZ : 1 <= p_size p) by (destruct PL; lia).
  rewrite (IH vs _ ns b (P ++ enc_prim (c_host_le c) p v) T PS); auto; try lia.
  - rewrite <- app_assoc. exact E.
  - rewrite app_length. lia.
Qed.

Lemma misc_set_enc : forall c ps vs bit ns b, places_ok (c_host_le c) bit ps ->
  length vs = length ps -> Forall (fun z => 0 <= z) vs ->
  0 <= bit -> Forall (fun z => 0 <= z) ns -> bytes_ok b -> blen b < 2 ^ 63 ->
  bit + 8 * zsum ns + args_bits ps <= 8 * blen b ->
  exists b', misc_set c ps vs bit (map Ok ns) b = (b', Ok tt) /\
    bits_written b (Z.to_nat (bit + 8 * zsum ns)) (enc_args (c_host_le c) ps vs) b'.
Proof.
  intros c ps. induction ps as [|p ps IH]; intros vs bit ns b PL LN NN BI NS B L H;
    destruct vs as [|v vs]; try discriminate.
  - exists b. split; [reflexivity|]. now apply bits_written_nil.
  - cbn [List.length] in LN. inversion NN; subst.
    assert (LA := enc_args_length c (p :: ps) (v :: vs) bit PL ltac:(cbn [List.length]; lia)).
    destruct PL as [PL PS]. cbn [enc_args] in LA. rewrite app_length in LA.
    cbn [misc_set enc_args args_bits fold_right] in *. fold (args_bits ps) in *.
    assert (0 <= zsum ns) by now apply zsum_nonneg.
    assert (AB := args_bits_nonneg _ _ _ PS). assert (SZ : 1 <= p_size p) by (destruct PL; lia).
    unfold mseq, lift_set. rewrite current_offset_ok by (auto; lia).
    destruct (prim_set_enc c bit p b (bit / 8 + zsum ns) v PL) as (b1 & E1 & W1); auto; try lia.
    rewrite E1.
    replace (Z.to_nat (8 * (bit / 8 + zsum ns) + bit mod 8)) with (Z.to_nat (bit + 8 * zsum ns)) in W1 by lia.
    assert (W1' := W1). destruct W1' as (L1 & B1 & _).
    assert (BL1 : blen b1 = blen b) by (unfold blen; lia).
    destruct (IH vs (bit + p_size p) ns b1 PS) as (b2 & E2 & W2); auto; try lia.
    exists b2. split; [exact E2|].
    assert (LN' := enc_prim_length c bit p v PL).
    eapply bits_written_app; eauto.
    + unfold blen in H. lia.
    + replace (Z.to_nat (bit + 8 * zsum ns) + length (enc_prim (c_host_le c) p v))%nat
        with (Z.to_nat (bit + p_size p + 8 * zsum ns)) by lia. exact W2.
Qed.

(** ** Byte vectors *)

Lemma prim_get_byte : forall c p s co, p_size p = 8 -> bytes_ok s -> blen s < 2 ^ 63 ->
  0 <= co < blen s -> prim_get c 0 (Prim (p_size p) Big) s co = Ok (nth (Z.to_nat co) s 0).
Proof.
  intros c p s co S B L H. rewrite S.
  rewrite prim_get_be; auto; try (unfold span, num_bytes, placed; cbn [p_size]; cbn; lia).
  cbn [p_size]. f_equal. unfold field_val, field_bits.
  replace (Z.to_nat (8 * co + 0 mod 8)) with (8 * Z.to_nat co)%nat by lia.
  change (Z.to_nat 8) with (8 * 1)%nat.
  rewrite <- bits_skipn, <- bits_firstn.
  assert (LE : (Z.to_nat co < length s)%nat) by (unfold blen in H; lia).
  assert (X : firstn 1 (skipn (Z.to_nat co) s) = [nth (Z.to_nat co) s 0]).
  { destruct (skipn (Z.to_nat co) s) eqn:Q.
    - assert (Y := f_equal (@length Z) Q). rewrite skipn_length in Y. cbn [List.length] in Y. lia.
    - cbn [firstn]. f_equal. replace (Z.to_nat co) with (Z.to_nat co + 0)%nat by lia.
      rewrite <- nth_skipn, Q. reflexivity. }
  rewrite X. assert (BY := byte_nth s (Z.to_nat co) B).
  apply byte_ext; auto.
  - split; [apply Z_of_bits_nonneg|]. apply (Z_of_bits_bound (bits_of [nth (Z.to_nat co) s 0])).
  - intros k K. rewrite testbit_Z_of_bits by lia. rewrite bits_of_length. cbn [List.length].
    destruct (k <? Z.of_nat (8 * 1)) eqn:Q; [|lia].
    rewrite nth_bits_of. replace ((8 * 1 - 1 - Z.to_nat k) / 8)%nat with 0%nat by lia.
    cbn [nth]. f_equal. lia.
Qed.

Lemma vec_get_u8 : forall c p s k co, p_size p = 8 -> bytes_ok s -> blen s < 2 ^ 63 ->
  0 <= co -> co + Z.of_nat k <= blen s ->
  vec_get_loop c p s k co = Ok (firstn k (skipn (Z.to_nat co) s)).
Proof.
  intros c p s k. induction k; intros co S B L C H; [reflexivity|].
  cbn [vec_get_loop]. rewrite prim_get_byte by (auto; lia). cbn [bind].
  rewrite add_u_in by (change usize with 64; lia). cbn [bind].
  rewrite S. change (8 / 8) with 1. rewrite IHk by (auto; lia). cbn [bind].
  assert (LE : (Z.to_nat co < length s)%nat) by (unfold blen in H; lia).
  f_equal. destruct (skipn (Z.to_nat co) s) eqn:Q.
  - assert (Y := f_equal (@length Z) Q). rewrite skipn_length in Y. cbn [List.length] in Y. lia.
  - cbn [firstn]. f_equal.
    + replace (Z.to_nat co) with (Z.to_nat co + 0)%nat by lia. rewrite <- nth_skipn, Q. reflexivity.
    + replace (Z.to_nat (co + 1)) with (Z.to_nat co + 1)%nat by lia.
      rewrite <- skipn_skipn', Q. reflexivity.
Qed.

Lemma vec_get_u8_all : forall c p s, p_size p = 8 -> bytes_ok s -> blen s < 2 ^ 63 ->
  vec_get_loop c p s (length s) 0 = Ok s.
Proof.
  intros. rewrite vec_get_u8; auto; try (unfold blen; lia).
  change (Z.to_nat 0) with 0%nat. cbn [skipn]. now rewrite firstn_all.
Qed.

(** ** Packed packets *)

Lemma iter_next_codec : forall k E W x t, codec k E W -> W x -> bytes_ok t ->
  blen (E x ++ t) < 2 ^ 63 -> iter_next k (E x ++ t) = Ok (Some (E x ++ t, t)).
Proof.
  intros k E W x t C X T L. unfold iter_next.
  destruct (cd_min _ _ _ C x X) as [M1 M2]. rewrite blen_app in *.
  assert (0 <= blen t) by apply blen_nonneg.
  replace ((0 <? blen (E x) + blen t) && (k_min k <=? blen (E x) + blen t)) with true by lia.
  rewrite (cd_size _ _ _ C) by (auto; rewrite blen_app; lia). cbn [bind].
  rewrite Z.min_l by lia. do 3 f_equal. apply skipn_app_exact. unfold blen. lia.
Qed.

Lemma iter_collect_codec : forall k E W, codec k E W -> forall xs fuel, Forall W xs ->
  blen (concat (map E xs)) < 2 ^ 63 -> (length (concat (map E xs)) < fuel)%nat ->
  iter_collect k (k_from k) fuel (concat (map E xs)) = Ok xs.
Proof.
  intros k E W C xs. induction xs as [|x xs IH]; intros fuel F L FU.
  - destruct fuel; [lia|]. reflexivity.
  - inversion F; subst. destruct fuel; [lia|]. cbn [map concat iter_collect] in *.
    assert (BT : bytes_ok (concat (map E xs))).
    { apply Forall_concat. apply Forall_map. eapply Forall_impl; [|eauto].
      intros; eapply cd_bytes; eauto. }
    erewrite iter_next_codec by eauto. cbn [bind].
    erewrite cd_from by eauto. cbn [bind].
    destruct (cd_min _ _ _ C x) as [M1 M2]; auto.
    rewrite blen_app in *. assert (0 <= blen (concat (map E xs))) by apply blen_nonneg.
    destruct (blen (concat (map E xs)) =? blen (E x) + blen (concat (map E xs))) eqn:Q; [lia|].
    rewrite app_length in FU.
    assert (0 < Z.of_nat (length (E x))) by (unfold blen in M1; lia).
    rewrite IH; auto; lia.
Qed.

Lemma iter_all_codec : forall k E W xs, codec k E W -> Forall W xs ->
  blen (concat (map E xs)) < 2 ^ 63 ->
  iter_all k (k_from k) (concat (map E xs)) = Ok xs.
Proof. intros. unfold iter_all. eapply iter_collect_codec; eauto. Qed.

Lemma pkts_set_codec : forall c k E W, codec k E W -> forall xs co e b, Forall W xs ->
  0 <= co -> bytes_ok b -> blen b < 2 ^ 63 ->
  co + blen (concat (map E xs)) <= e -> co + blen (concat (map E xs)) <= blen b ->
  pkts_set_loop c k xs co e b = (splice b (Z.to_nat co) (concat (map E xs)), Ok tt).
Proof.
  intros c k E W C xs. induction xs as [|x xs IH]; intros co e b F CO B L He Hb.
  - cbn [pkts_set_loop map concat]. unfold mret, splice. cbn [List.length app].
    rewrite Nat.add_0_r, firstn_skipn. reflexivity.
  - inversion F; subst. cbn [pkts_set_loop map concat] in *.
    destruct (cd_min _ _ _ C x) as [M1 M2]; auto.
    assert (BX := cd_bytes _ _ _ C x ltac:(auto)).
    assert (BT : bytes_ok (concat (map E xs))).
    { apply Forall_concat. apply Forall_map. eapply Forall_impl; [|eauto].
      intros; eapply cd_bytes; eauto. }
    rewrite blen_app in *. assert (0 <= blen (concat (map E xs))) by apply blen_nonneg.
    assert (SK : blen (skipn (Z.to_nat co) b) = blen b - co)
      by (rewrite blen_skipn by (unfold blen in *; lia); lia).
    rewrite slice_from_ok by lia.
    destruct (blen (skipn (Z.to_nat co) b) <? k_min k) eqn:Q; [lia|].
    unfold mseq, on_tail.
    rewrite (cd_populate _ _ _ C) by (auto using bytes_skipn; lia).
    set (b1 := firstn (Z.to_nat co) b ++ E x ++ skipn (length (E x)) (skipn (Z.to_nat co) b)).
    assert (FL : length (firstn (Z.to_nat co) b) = Z.to_nat co)
      by (rewrite firstn_length; unfold blen in *; lia).
    assert (SB : skipn (Z.to_nat co) b1 = E x ++ skipn (length (E x)) (skipn (Z.to_nat co) b))
      by (unfold b1; now apply skipn_app_exact).
    assert (B1 : bytes_ok b1).
    { unfold b1. rewrite !bytes_app. auto using bytes_firstn, bytes_skipn. }
    assert (L1 : length b1 = length b).
    { unfold b1. rewrite !app_length, !skipn_length, FL. unfold blen in *. lia. }
    assert (BL : blen b1 = blen b) by (unfold blen; lia).
    rewrite SB.
    rewrite (cd_size _ _ _ C); auto using bytes_skipn.
    2:{ rewrite <- SB. unfold blen. rewrite skipn_length, L1. unfold blen in L. lia. }
    cbn [bind]. rewrite add_u_in by (change usize with 64; lia).
    destruct (co + blen (E x) <=? e) eqn:Q2; [|lia].
    rewrite IH; auto; try lia. f_equal.
    unfold splice. rewrite app_length.
    replace (Z.to_nat (co + blen (E x))) with (Z.to_nat co + length (E x))%nat by (unfold blen; lia).
    assert (F1 : firstn (Z.to_nat co + length (E x)) b1 = firstn (Z.to_nat co) b ++ E x).
    { unfold b1. rewrite app_assoc. apply firstn_app_exact. rewrite app_length. lia. }
    rewrite F1, <- app_assoc. f_equal. rewrite <- app_assoc. do 2 f_equal.
    set (j := length (concat (map E xs))).
    replace (Z.to_nat co + length (E x) + j)%nat with (Z.to_nat co + (length (E x) + j))%nat by lia.
    rewrite <- (skipn_skipn' _ (length (E x) + j) (Z.to_nat co) b1), SB.
    rewrite <- (skipn_skipn' _ j (length (E x)) (E x ++ _)).
    rewrite skipn_app_exact by reflexivity.
    rewrite !skipn_skipn'. f_equal.
Qed.

Lemma firstn_app_len : forall (a t : list Z), firstn (length a) (a ++ t) = a.
Proof. intros. now apply firstn_app_exact. Qed.

(** ** One field *)

Section Steps.
Variable c : cfg.
Variable ie : string -> list val -> buf.
Variable iw : string -> list val -> Prop.
Let h := c_host_le c.

Lemma vec_bytes_ok : forall bit f x, val_fits h ie iw bit f x -> is_vec (f_ty f) = true ->
  bytes_ok (vec_bytes ie (f_name f) x).
Proof.
  intros bit f x V IV. unfold val_fits in V. destruct (f_ty f); try discriminate.
  - destruct x; try contradiction. apply V.
  - destruct x; try contradiction. destruct V as (C & F & _). cbn [vec_bytes].
    apply Forall_concat. apply Forall_map. eapply Forall_impl; [|eauto].
    intros; eapply cd_bytes; eauto.
Qed.

Lemma enc_field_vec : forall bit f x, val_fits h ie iw bit f x -> is_vec (f_ty f) = true ->
  enc_field h ie f x = bits_of (vec_bytes ie (f_name f) x) /\ bit mod 8 = 0 /\
  norm_val (f_ty f) x = x /\ fixed_bits (f_ty f) = 0.
Proof.
  intros bit f x V IV. unfold val_fits, enc_field in *. destruct (f_ty f); try discriminate;
    destruct x; try contradiction; repeat split; apply V.
Qed.

Lemma enc_field_fixed : forall bit f x, val_fits h ie iw bit f x -> is_vec (f_ty f) = false ->
  Z.of_nat (length (enc_field h ie f x)) = fixed_bits (f_ty f).
Proof.
  intros bit f x V IV. unfold val_fits, enc_field in *. destruct (f_ty f); try discriminate;
    destruct x; try contradiction; cbn [fixed_bits].
  - destruct V as [V P]. unfold h. rewrite (enc_prim_length c bit p z P). destruct P. lia.
  - destruct V as (LN & F & P). apply enc_args_length with (bit := bit); auto.
Qed.

Lemma fixed_bits_nonneg : forall bit f x, val_fits h ie iw bit f x -> 0 <= fixed_bits (f_ty f).
Proof.
  intros bit f x V. destruct (is_vec (f_ty f)) eqn:Q.
  - destruct (f_ty f); try discriminate; cbn; lia.
  - erewrite <- enc_field_fixed by eauto. lia.
Qed.

(** What the decoder needs to know about the declared length of a field. *)
Definition len_dec (f : field) (x : val) (len : option (res Z)) (T : list bool) : Prop :=
  match len with
  | None => is_vec (f_ty f) = true -> T = []
  | Some r => is_vec (f_ty f) = true /\ r = Ok (blen (vec_bytes ie (f_name f) x))
  end.

Lemma var_slice_dec : forall bit f x len ns b P T,
  val_fits h ie iw bit f x -> is_vec (f_ty f) = true -> len_dec f x len T ->
  0 <= bit -> Forall (fun z => 0 <= z) ns -> bytes_ok b -> blen b < 2 ^ 63 ->
  bits_of b = P ++ enc_field h ie f x ++ T ->
  Z.of_nat (length P) = bit + 8 * zsum ns ->
  var_slice c (current_offset c bit (map Ok ns)) len b = Ok (vec_bytes ie (f_name f) x).
Proof.
  intros bit f x len ns b P T V IV LD BI NS B L E LP.
  destruct (enc_field_vec _ _ _ V IV) as (EV & AL & _ & _). rewrite EV in E.
  assert (VB := vec_bytes_ok _ _ _ V IV).
  set (v := vec_bytes ie (f_name f) x) in *.
  assert (0 <= zsum ns) by now apply zsum_nonneg.
  assert (LE := f_equal (@length bool) E). rewrite !app_length, !bits_of_length in LE.
  destruct (window_decode b P v T (Z.to_nat (bit / 8 + zsum ns)) B VB E ltac:(lia))
    as (t & TB & TS & TE & TL).
  unfold var_slice, var_range.
  rewrite current_offset_ok by (auto; unfold blen in L; lia). cbn [bind].
  assert (0 <= blen v) by apply blen_nonneg.
  destruct len as [r|]; cbn [len_or_all].
  - destruct LD as [_ ->]. fold v. cbn [bind].
    rewrite add_u_in by (change usize with 64; unfold blen in *; lia). cbn [bind].
    rewrite Z.min_l by (unfold blen in *; lia).
    rewrite slice_ok by (unfold blen in *; lia). f_equal.
    replace (Z.to_nat (bit / 8 + zsum ns + blen v - (bit / 8 + zsum ns))) with (length v)
      by (unfold blen in *; lia).
    rewrite TS. apply firstn_app_len.
  - cbn [bind]. cbn [len_dec] in LD. assert (TN := LD IV). rewrite TN in *.
    rewrite add_u_in by (change usize with 64; unfold blen in *; lia). cbn [bind].
    rewrite Z.min_r by (unfold blen in *; lia).
    rewrite slice_ok by (unfold blen in *; lia). f_equal.
    assert (t = []).
    { destruct t; auto. assert (X := f_equal (@length bool) TE). rewrite bits_of_length in X.
      cbn [List.length] in X. lia. }
    subst t. rewrite app_nil_r in TS.
    rewrite TS. apply firstn_all2.
    cbn [List.length] in LE. unfold blen in *. lia.
Qed.

Lemma field_get_dec : forall bit f x len ns b P T,
  val_fits h ie iw bit f x -> len_dec f x len T ->
  0 <= bit -> Forall (fun z => 0 <= z) ns -> bytes_ok b -> blen b < 2 ^ 63 ->
  bits_of b = P ++ enc_field h ie f x ++ T ->
  Z.of_nat (length P) = bit + 8 * zsum ns ->
  field_get c f bit (map Ok ns) len b = Ok (norm_val (f_ty f) x).
Proof.
  intros bit f x len ns b P T V LD BI NS B L E LP.
  assert (0 <= zsum ns) by now apply zsum_nonneg.
  assert (LE := f_equal (@length bool) E). rewrite !app_length, !bits_of_length in LE.
  destruct (is_vec (f_ty f)) eqn:IV.
  - assert (VS := var_slice_dec _ _ _ _ _ _ _ _ V IV LD BI NS B L E LP).
    assert (VB := vec_bytes_ok _ _ _ V IV).
    destruct (enc_field_vec _ _ _ V IV) as (EV & AL & NV & _).
    assert (VL : blen (vec_bytes ie (f_name f) x) < 2 ^ 63).
    { rewrite EV, bits_of_length in LE. unfold blen in *. lia. }
    rewrite NV. unfold field_get, val_fits in *. destruct (f_ty f); try discriminate;
      destruct x; try contradiction; rewrite VS; cbn [bind vec_bytes] in *.
    + rewrite vec_get_u8_all by (auto; apply V). reflexivity.
    + destruct V as (C & F & _). rewrite (iter_all_codec _ _ _ _ C F VL). reflexivity.
  - unfold field_get, val_fits, enc_field in *. destruct (f_ty f) as [p|args|p|k]; try discriminate;
      destruct x; try contradiction; cbn [norm_val].
    + destruct V as [V PL].
      rewrite current_offset_ok by (auto; unfold blen in L; lia). cbn [bind].
      rewrite (prim_get_enc c bit p b (bit / 8 + zsum ns) z P T PL); auto; lia.
    + destruct V as (LN & F & PL).
      rewrite (misc_get_enc c args l bit ns b P T PL); auto.
Qed.

(** What the encoder needs to know about the declared length. *)
Definition len_enc (f : field) (x : val) (len : option (res Z)) : Prop :=
  match len with
  | None => True
  | Some r => exists n, r = Ok n /\ blen (vec_bytes ie (f_name f) x) <= n < 2 ^ 63
  end.

Lemma field_set_enc : forall bit f x len ns b g,
  val_fits h ie iw bit f x -> len_enc f x len ->
  0 <= bit -> Forall (fun z => 0 <= z) ns -> bytes_ok b -> blen b < 2 ^ 63 ->
  bit + 8 * zsum ns + Z.of_nat (length (enc_field h ie f x)) <= 8 * blen b ->
  exists b', field_set c (Loc f bit (map Ok ns) len g) x b = (b', Ok tt) /\
    bits_written b (Z.to_nat (bit + 8 * zsum ns)) (enc_field h ie f x) b'.
Proof.
  intros bit f x len ns b g V LN BI NS B L H.
  assert (0 <= zsum ns) by now apply zsum_nonneg.
  destruct (is_vec (f_ty f)) eqn:IV.
  - assert (VB := vec_bytes_ok _ _ _ V IV).
    destruct (enc_field_vec _ _ _ V IV) as (EV & AL & NV & _). rewrite EV in *.
    rewrite bits_of_length in H.
    set (v := vec_bytes ie (f_name f) x) in *.
    assert (CO : current_offset c bit (map Ok ns) = Ok (bit / 8 + zsum ns))
      by (apply current_offset_ok; auto; unfold blen in *; lia).
    assert (FIT : (Z.to_nat (bit / 8 + zsum ns) + length v <= length b)%nat) by (unfold blen in *; lia).
    exists (splice b (Z.to_nat (bit / 8 + zsum ns)) v). split.
    2:{ replace (Z.to_nat (bit + 8 * zsum ns)) with (8 * Z.to_nat (bit / 8 + zsum ns))%nat by lia.
        now apply bits_written_splice. }
    assert (0 <= blen v) by apply blen_nonneg.
    unfold field_set, val_fits, l_co in *. cbn [l_field l_bit l_lens l_len] in *.
    destruct (f_ty f) as [p|args|p|k]; try discriminate;
      destruct x as [z|l|l|l]; try contradiction; cbn [vec_bytes] in v; unfold lift_set; rewrite CO.
    + destruct V as (S8 & BL & _). fold v.
      assert (CK : match len with
               | Some r => n <- r ;; if blen v <=? n then Ok tt else Panic EAssert
               | None => Ok tt end = Ok tt).
      { destruct len as [r|]; [|reflexivity]. destruct LN as (n & -> & N). cbn [bind].
        cbn [vec_bytes] in N. fold v in N. replace (blen v <=? n) with true by lia. reflexivity. }
      rewrite CK. rewrite S8. change (8 =? 8) with true. cbv iota. unfold copy_at.
      rewrite add_u_in by (change usize with 64; unfold blen in *; lia).
      replace ((0 <=? bit / 8 + zsum ns) && (bit / 8 + zsum ns <=? bit / 8 + zsum ns + blen v)
               && (bit / 8 + zsum ns + blen v <=? blen b)) with true by (unfold blen in *; lia).
      replace (bit / 8 + zsum ns + blen v - (bit / 8 + zsum ns) =? blen v) with true by lia.
      reflexivity.
    + destruct V as (C & F & _).
      assert (EN : exists n, len_or_all len b = Ok n /\ blen v <= n < 2 ^ 63).
      { destruct len as [r|]; cbn [len_or_all].
        - destruct LN as (n & -> & N). exists n. auto.
        - exists (blen b). split; auto. unfold blen in *. lia. }
      destruct EN as (n & -> & N). cbn [bind].
      rewrite add_u_in by (change usize with 64; unfold blen in *; lia).
      rewrite (pkts_set_codec c k _ _ C); auto; try (fold v; unfold blen in *; lia).
  - unfold field_set, val_fits, enc_field, l_co in *. cbn [l_field l_bit l_lens l_len] in *.
    destruct (f_ty f) as [p|args|p|k]; try discriminate; destruct x as [z|l|l|l]; try contradiction.
    + destruct V as [V PL]. unfold h in *. rewrite (enc_prim_length c bit p z PL) in H.
      unfold lift_set. rewrite current_offset_ok by (auto; unfold blen in *; destruct PL; lia).
      destruct (prim_set_enc c bit p b (bit / 8 + zsum ns) z PL) as (b' & E & W); auto;
        try (destruct PL; lia).
      exists b'. split; auto.
      replace (Z.to_nat (bit + 8 * zsum ns)) with (Z.to_nat (8 * (bit / 8 + zsum ns) + bit mod 8)) by lia.
      exact W.
    + destruct V as (LL & F & PL). unfold h in *. rewrite (enc_args_length c args l bit PL LL) in H.
      apply misc_set_enc; auto.
Qed.

(** ** Whole packets *)

(** The declared lengths met along a description. *)
Fixpoint var_lens (fs : schema) (xs : list val) : list Z :=
  match fs, xs with
  | f :: fs', x :: xs' =>
      (match f_len f with Some _ => [blen (vec_bytes ie (f_name f) x)] | None => [] end)
      ++ var_lens fs' xs'
  | _, _ => []
  end.

Fixpoint env_of (fs : schema) (xs : list val) : list (string * res val) :=
  match fs, xs with
  | f :: fs', x :: xs' => (f_name f, Ok (norm_val (f_ty f) x)) :: env_of fs' xs'
  | _, _ => []
  end.

Lemma var_lens_nonneg : forall fs xs, Forall (fun z => 0 <= z) (var_lens fs xs).
Proof.
  induction fs; intros [|x xs]; cbn [var_lens]; try constructor.
  apply Forall_app. split; [|auto]. destruct (f_len a); auto using blen_nonneg.
Qed.

Lemma fits_weaken : forall l1 l2 : lenexpr -> env -> buf -> list bool -> Prop,
  (forall le e v a, bytes_ok v -> l1 le e v a -> l2 le e v a) ->
  forall fs xs bit e T, fits h ie iw l1 fs xs bit e T -> fits h ie iw l2 fs xs bit e T.
Proof.
  intros l1 l2 I. induction fs; intros [|x xs] bit e T H; auto.
  cbn [fits] in *. destruct H as (V & LN & R). split; [auto|]. split; [|auto].
  destruct (f_len a); auto. destruct LN as [IV LN]. split; auto. apply I; auto.
  eapply vec_bytes_ok; eauto.
Qed.

Lemma lok_enc_dec : forall le e v a, bytes_ok v -> lok_enc le e v a -> lok_dec le e v a.
Proof.
  intros le e v a BV [_ H] rest BR E.
  destruct (window_decode rest [] v a 0 BR BV E eq_refl) as (t & TB & TS & _ & _).
  cbn [skipn] in TS. subst rest. auto.
Qed.

Lemma total_bits_nonneg : forall (lok : lenexpr -> env -> buf -> list bool -> Prop) fs xs bit e T,
  fits h ie iw lok fs xs bit e T -> 0 <= total_bits fs.
Proof.
  intros lok fs. induction fs as [|g fs IH]; intros xs bit e T F; [cbn; lia|].
  destruct xs; [contradiction|]. destruct F as (V & _ & F). apply IH in F.
  cbn [total_bits fold_right]. fold (total_bits fs). apply fixed_bits_nonneg in V. lia.
Qed.

(** The positions and getters of the first fields of a packet that starts with
    their encodings, whatever follows. *)
Lemma layout_dec : forall (lok : lenexpr -> env -> buf -> list bool -> Prop) pre xs post bit ns e b P T,
  (forall le e v a, bytes_ok v -> lok le e v a -> lok_dec le e v a) ->
  closed pre -> fits h ie iw lok pre xs bit e T ->
  0 <= bit -> Forall (fun z => 0 <= z) ns -> bytes_ok b -> blen b < 2 ^ 63 ->
  bits_of b = P ++ encode h ie pre xs ++ T ->
  Z.of_nat (length P) = bit + 8 * zsum ns ->
  exists L, length L = length pre /\
    map l_get L = map Ok (norm_vals pre xs) /\
    all_lens L = map Ok (var_lens pre xs) /\
    layout_from c b (pre ++ post) bit (map Ok ns) e
    = L ++ layout_from c b post (bit + total_bits pre) (map Ok (ns ++ var_lens pre xs))
             (e ++ env_of pre xs).
Proof.
  intros lok pre. induction pre as [|f pre IH]; intros xs post bit ns e b P T LK CL F BI NS B L E LP.
  - destruct xs; [|contradiction]. exists [].
    cbn [app total_bits fold_right var_lens env_of encode List.length map combine last].
    rewrite !app_nil_r, Z.add_0_r. repeat split; reflexivity.
  - destruct xs as [|x xs]; [contradiction|]. cbn [fits] in F. destruct F as (V & LN & R).
    inversion CL as [|? ? CL1 CL2]; subst.
    cbn [encode] in E. rewrite <- app_assoc in E.
    assert (0 <= zsum ns) by now apply zsum_nonneg.
    assert (LE := f_equal (@length bool) E). rewrite !app_length, !bits_of_length in LE.
    cbn [app layout_from].
    rewrite current_offset_ok by (auto; unfold blen in L; lia). cbn [bind].
    set (len := match f_len f with
                | Some le => Some (le (lookup e) (slice_from b (bit / 8 + zsum ns)))
                | None => None end).
    assert (LD : len_dec f x len (encode h ie pre xs ++ T) /\
       len = match f_len f with Some _ => Some (Ok (blen (vec_bytes ie (f_name f) x))) | None => None end).
    { unfold len. destruct (f_len f) as [le|].
      2:{ split; auto. intros IV. destruct (LN IV) as [-> ->]. destruct xs; reflexivity. }
      destruct LN as [IV LO]. apply LK in LO; [|eapply vec_bytes_ok; eauto].
      destruct (enc_field_vec _ _ _ V IV) as (EV & AL & _ & _).
      rewrite EV in E. assert (VB := vec_bytes_ok _ _ _ V IV).
      rewrite slice_from_ok by (unfold blen in *; lia).
      destruct (window_decode b P _ _ (Z.to_nat (bit / 8 + zsum ns)) B VB E ltac:(lia))
        as (t & TB & TS & TE & TL).
      assert (X : le (lookup e) (Ok (skipn (Z.to_nat (bit / 8 + zsum ns)) b))
                  = Ok (blen (vec_bytes ie (f_name f) x))).
      { apply LO; [now apply bytes_skipn|]. rewrite TS, bits_of_app, TE. reflexivity. }
      rewrite X. split; [split; auto|reflexivity]. }
    destruct LD as [LD LEN].
    rewrite (field_get_dec bit f x len ns b P _ V LD BI NS B L E LP).
    assert (FB := fixed_bits_nonneg _ _ _ V).
    set (vl := match f_len f with Some _ => [blen (vec_bytes ie (f_name f) x)] | None => [] end).
    assert (NSE : match len with Some l => map Ok ns ++ [l] | None => map Ok ns end = map Ok (ns ++ vl)).
    { rewrite LEN. unfold vl. rewrite map_app. destruct (f_len f); [reflexivity|]. now rewrite app_nil_r. }
    rewrite NSE.
    assert (ENL : Z.of_nat (length (enc_field h ie f x)) = fixed_bits (f_ty f) + 8 * zsum vl).
    { unfold vl. destruct (is_vec (f_ty f)) eqn:IV.
      - destruct (enc_field_vec _ _ _ V IV) as (EV & AL & _ & FX). rewrite EV, bits_of_length, FX.
        specialize (CL1 eq_refl). destruct (f_len f); [|congruence].
        unfold blen. cbn [zsum fold_right]. lia.
      - destruct (f_len f); [destruct LN; congruence|].
        rewrite (enc_field_fixed _ _ _ V IV). cbn [zsum fold_right]. lia. }
    assert (VN : Forall (fun z => 0 <= z) vl).
    { unfold vl. destruct (f_len f); auto using blen_nonneg. }
    destruct (IH xs post (bit + fixed_bits (f_ty f)) (ns ++ vl) (e ++ [(f_name f, Ok (norm_val (f_ty f) x))])
                b (P ++ enc_field h ie f x) T) as (L' & L1 & L2 & L3 & L4); auto; try lia.
    { apply Forall_app. auto. }
    { rewrite <- app_assoc. exact E. }
    { rewrite app_length, zsum_app. lia. }
    exists (Loc f bit (map Ok ns) len (Ok (norm_val (f_ty f) x)) :: L').
    split; [cbn [List.length]; lia|]. split; [cbn [map norm_vals l_get]; congruence|].
    split.
    { cbn [all_lens flat_map l_len var_lens]. fold (all_lens L'). rewrite L3, LEN, map_app.
      unfold vl. destruct (f_len f); reflexivity. }
    cbn [app]. f_equal. rewrite L4. f_equal. cbn [var_lens env_of total_bits fold_right].
    fold (total_bits pre). fold vl. rewrite <- !app_assoc. cbn [app]. f_equal. lia.
Qed.

Lemma encode_closed_length : forall (lok : lenexpr -> env -> buf -> list bool -> Prop) fs xs bit e T, closed fs ->
  fits h ie iw lok fs xs bit e T ->
  Z.of_nat (length (encode h ie fs xs)) = total_bits fs + 8 * zsum (var_lens fs xs).
Proof.
  intros lok fs. induction fs as [|f fs IH]; intros xs bit e T CL F.
  - destruct xs; [reflexivity|contradiction].
  - destruct xs as [|x xs]; [contradiction|]. cbn [fits] in F. destruct F as (V & LN & R).
    inversion CL as [|? ? CL1 CL2]; subst. apply IH in R; auto.
    cbn [encode var_lens total_bits fold_right]. rewrite app_length, zsum_app.
    fold (total_bits fs).
    destruct (is_vec (f_ty f)) eqn:IV.
    + destruct (enc_field_vec _ _ _ V IV) as (EV & AL & _ & FX). rewrite EV, bits_of_length, FX.
      specialize (CL1 eq_refl). destruct (f_len f); [|congruence].
      unfold blen. cbn [zsum fold_right]. lia.
    + destruct (f_len f); [destruct LN; congruence|].
      assert (X := enc_field_fixed _ _ _ V IV). cbn [zsum fold_right]. lia.
Qed.

Lemma fits_length : forall (lok : lenexpr -> env -> buf -> list bool -> Prop) fs xs bit e T, fits h ie iw lok fs xs bit e T -> length xs = length fs.
Proof.
  intros lok fs. induction fs; intros [|x xs] bit e T F; try contradiction; auto.
  cbn [List.length]. f_equal. destruct F as (_ & _ & F). eauto.
Qed.

Lemma encode_app : forall fs xs gs ys, length xs = length fs ->
  encode h ie (fs ++ gs) (xs ++ ys) = encode h ie fs xs ++ encode h ie gs ys.
Proof.
  induction fs; intros [|x xs] gs ys H; try discriminate; auto.
  cbn [encode app]. rewrite IHfs by (cbn [List.length] in H; lia). now rewrite app_assoc.
Qed.

Lemma norm_vals_app : forall fs xs gs ys, length xs = length fs ->
  norm_vals (fs ++ gs) (xs ++ ys) = norm_vals fs xs ++ norm_vals gs ys.
Proof.
  induction fs; intros [|x xs] gs ys H; try discriminate; auto.
  cbn [norm_vals app]. rewrite IHfs by (cbn [List.length] in H; lia). reflexivity.
Qed.

Lemma fits_app : forall (lok : lenexpr -> env -> buf -> list bool -> Prop) fs xs gs ys bit e T, length xs = length fs ->
  fits h ie iw lok (fs ++ gs) (xs ++ ys) bit e T ->
  fits h ie iw lok fs xs bit e (encode h ie gs ys ++ T) /\
  fits h ie iw lok gs ys (bit + total_bits fs) (e ++ env_of fs xs) T.
Proof.
  intros lok fs. induction fs as [|f fs IH]; intros [|x xs] gs ys bit e T H F; try discriminate.
  - cbn [app total_bits fold_right env_of fits] in *. rewrite app_nil_r, Z.add_0_r. auto.
  - cbn [List.length] in H. cbn [app fits] in F. destruct F as (V & LN & R).
    apply IH in R; [|lia]. destruct R as [R1 R2]. split.
    + cbn [fits]. split; [auto|]. split; [|auto].
      rewrite encode_app in LN by lia. rewrite <- app_assoc in LN.
      destruct (f_len f); [auto|]. intros IV. destruct (LN IV) as [A B].
      apply app_eq_nil in A. destruct A as [-> ->]. subst T. split; [auto|]. destruct ys; auto.
    + cbn [total_bits fold_right env_of]. fold (total_bits fs).
      rewrite Z.add_assoc. rewrite <- app_assoc in R2. exact R2.
Qed.

Lemma seq_res_ok : forall A (l : list A), seq_res (map Ok l) = Ok l.
Proof. induction l; auto. cbn [map seq_res bind]. rewrite IHl. reflexivity. Qed.

(** A description is closed, or closed up to a last vector without length. *)
Lemma fits_split : forall (lok : lenexpr -> env -> buf -> list bool -> Prop) fs xs bit e T, fits h ie iw lok fs xs bit e T ->
  closed fs \/ exists pre f, fs = pre ++ [f] /\ closed pre /\ f_len f = None /\
    is_vec (f_ty f) = true /\ T = [].
Proof.
  intros lok fs. induction fs as [|f fs IH]; intros [|x xs] bit e T F; try contradiction.
  - left. constructor.
  - cbn [fits] in F. destruct F as (V & LN & R).
    destruct (f_len f) as [le|] eqn:FL.
    + destruct (IH _ _ _ _ R) as [C|(pre & g & -> & C & R')].
      * left. constructor; auto. congruence.
      * right. exists (f :: pre), g. repeat split; auto; try apply R'. constructor; auto. congruence.
    + destruct (is_vec (f_ty f)) eqn:IV.
      * right. exists [], f. destruct (LN eq_refl) as [-> ->]. repeat split; auto. constructor.
      * destruct (IH _ _ _ _ R) as [C|(pre & g & -> & C & R')].
        -- left. constructor; auto. congruence.
        -- right. exists (f :: pre), g. repeat split; auto; try apply R'. constructor; auto. congruence.
Qed.

Lemma env_lookup_nil : forall (A : Type) (l : list A), [] ++ l = l.
Proof. reflexivity. Qed.

(** Decoding: from_packet() returns the struct whose encoding starts the buffer. *)
Theorem from_packet_encode : forall fs xs b T,
  fits h ie iw lok_dec fs xs 0 [] T -> bytes_ok b -> blen b < 2 ^ 63 ->
  bits_of b = encode h ie fs xs ++ T ->
  from_packet c fs b = Ok (norm_vals fs xs).
Proof.
  intros fs xs b T F B L E.
  assert (LX := fits_length _ _ _ _ _ _ F).
  destruct (fits_split _ _ _ _ _ _ F) as [CL|(pre & f & -> & CL & FL & IV & ->)].
  - destruct (layout_dec lok_dec fs xs [] 0 [] [] b [] T) as (LL & L1 & L2 & L3 & L4); auto; try lia.
    rewrite app_nil_r in L4. change (map Ok []) with (@nil (res Z)) in L4.
    unfold from_packet, layout. rewrite L4. cbn [layout_from]. rewrite app_nil_r, L2.
    apply seq_res_ok.
  - rewrite app_length in LX. cbn [List.length] in LX.
    destruct (exists_last (l := xs)) as (ys & x & ->).
    { intros ->. cbn [List.length] in LX. lia. }
    rewrite app_length in LX. cbn [List.length] in LX.
    assert (LY : length ys = length pre) by lia.
    apply fits_app in F; auto. destruct F as [F1 F2].
    rewrite encode_app in E by auto. rewrite <- app_assoc in E.
    cbn [encode] in E. rewrite !app_nil_r in E.
    cbn [encode] in F1. rewrite !app_nil_r in F1.
    assert (EL := encode_closed_length _ _ _ _ _ _ CL F1).
    destruct (layout_dec lok_dec pre ys [f] 0 [] [] b [] (enc_field h ie f x)) as (LL & L1 & L2 & L3 & L4); auto; try lia.
    unfold from_packet, layout. change (@nil (res Z)) with (@map Z (res Z) Ok []). rewrite L4.
    cbn [layout_from]. rewrite FL.
    cbn [fits] in F2. destruct F2 as (V & _ & _).
    assert (TB : 0 <= total_bits pre) by (eapply total_bits_nonneg; eauto).
    cbn [app] in *.
    rewrite (field_get_dec (0 + total_bits pre) f x None (var_lens pre ys) b (encode h ie pre ys) []);
      auto; try lia.
    + rewrite map_app, L2. cbn [map l_get]. rewrite norm_vals_app by auto. cbn [norm_vals].
      change [Ok (norm_val (f_ty f) x)] with (map (@Ok val) [norm_val (f_ty f) x]).
      rewrite <- map_app. apply seq_res_ok.
    + intros _. reflexivity.
    + apply var_lens_nonneg.
    + rewrite app_nil_r. exact E.
Qed.

Lemma fits_tail : forall fs xs bit e T T', closed fs -> fits h ie iw lok_enc fs xs bit e T ->
  fits h ie iw lok_enc fs xs bit e T'.
Proof.
  induction fs as [|g fs IHp]; intros xs bit e T T' CL F; [destruct xs; auto|].
  destruct xs as [|x xs]; [contradiction|]. inversion CL; subst.
  cbn [fits] in *. destruct F as (V & LN & R). split; [auto|]. split.
  - destruct (f_len g); auto. intros IV. exfalso. match goal with X : _ -> None <> None |- _ => now apply X end.
  - eapply IHp; eauto.
Qed.

(** Encoding: populate() writes the encoding at the start of the buffer. *)
Lemma populate_from_enc : forall post ys pre xs b,
  length xs = length pre -> closed pre ->
  fits h ie iw lok_enc (pre ++ post) (xs ++ ys) 0 [] [] ->
  bytes_ok b -> blen b < 2 ^ 63 ->
  Z.of_nat (length (encode h ie (pre ++ post) (xs ++ ys))) <= 8 * blen b ->
  firstn (length (encode h ie pre xs)) (bits_of b) = encode h ie pre xs ->
  exists b', populate_from c (pre ++ post) (length pre) ys b = (b', Ok tt) /\
    bits_written b (length (encode h ie pre xs)) (encode h ie post ys) b'.
Proof.
  induction post as [|f post IH]; intros ys pre xs b LX CL F B L H FI.
  - destruct ys as [|y ys].
    + exists b. split; [reflexivity|]. now apply bits_written_nil.
    + apply fits_app in F; auto. destruct F as [_ F]. contradiction.
  - assert (F' := F). apply fits_app in F'; auto. destruct F' as [F1 F2].
    destruct ys as [|y ys]; [contradiction|].
    rewrite encode_app in H by auto. rewrite app_length in H.
    cbn [encode] in H. rewrite app_length in H.
    assert (EL := encode_closed_length _ _ _ _ _ _ CL F1).
    cbn [populate_from]. unfold mseq.
    assert (EB : bits_of b = [] ++ encode h ie pre xs ++ skipn (length (encode h ie pre xs)) (bits_of b)).
    { cbn [app]. rewrite <- FI at 1. symmetry. apply firstn_skipn. }
    (* the fields already written determine the position of [f] *)
    assert (F1' : exists T', bits_of b = encode h ie pre xs ++ T' /\ fits h ie iw lok_enc pre xs 0 [] T').
    { exists (skipn (length (encode h ie pre xs)) (bits_of b)). split; [exact EB|].
      eapply fits_tail; eauto. }
    destruct F1' as (T' & E' & F1').
    destruct (layout_dec lok_enc pre xs (f :: post) 0 [] [] b [] T') as (LL & L1 & L2 & L3 & L4);
      auto using lok_enc_dec; try lia.
    unfold layout at 1. change (@nil (res Z)) with (@map Z (res Z) Ok []). rewrite L4.
    rewrite nth_error_app2 by lia. replace (length pre - length LL)%nat with 0%nat by lia.
    cbn [layout_from nth_error].
    assert (TB : 0 <= total_bits pre) by (eapply total_bits_nonneg; eauto).
    assert (VN := var_lens_nonneg pre xs). assert (ZN := zsum_nonneg _ VN).
    cbn [app] in *.
    assert (F2' := F2). cbn [fits] in F2'. destruct F2' as (V & LN & R).
    rewrite current_offset_ok by (auto; lia). cbn [bind].
    set (len := match f_len f with
                | Some le => Some (le (lookup (env_of pre xs)) (slice_from b ((0 + total_bits pre) / 8 + zsum (var_lens pre xs))))
                | None => None end).
    assert (LE : len_enc f y len).
    { unfold len. destruct (f_len f) as [le|]; [|exact I].
      destruct LN as [IV [LN _]]. rewrite slice_from_ok by lia. cbn [len_enc].
      destruct (LN (skipn (Z.to_nat ((0 + total_bits pre) / 8 + zsum (var_lens pre xs))) b)) as (n & EN & N).
      exists n. auto. }
    destruct (field_set_enc (0 + total_bits pre) f y len (var_lens pre xs) b
                (field_get c f (0 + total_bits pre) (map Ok (var_lens pre xs)) len b)
                V LE) as (b1 & E1 & W1); auto; try lia.
    rewrite E1.
    replace (Z.to_nat (0 + total_bits pre + 8 * zsum (var_lens pre xs)))
      with (length (encode h ie pre xs)) in W1 by lia.
    assert (W1' := W1). destruct W1' as (LB1 & B1 & _).
    assert (BL1 : blen b1 = blen b) by (unfold blen; lia).
    assert (EA : encode h ie (pre ++ [f]) (xs ++ [y]) = encode h ie pre xs ++ enc_field h ie f y).
    { rewrite encode_app by auto. cbn [encode]. now rewrite app_nil_r. }
    destruct (is_vec (f_ty f)) eqn:IV; [destruct (f_len f) as [le|] eqn:FL|].
    2:{ (* last field *)
        destruct (LN eq_refl) as [-> _]. destruct ys; [|contradiction].
        cbn [populate_from encode]. exists b1. split; [reflexivity|]. rewrite app_nil_r. exact W1. }
    all: specialize (IH ys (pre ++ [f]) (xs ++ [y]) b1);
      rewrite <- !app_assoc in IH; cbn [app] in IH;
      rewrite EA, !app_length in IH; cbn [List.length] in IH;
      destruct IH as (b2 & E2 & W2); auto; try lia;
      [ apply Forall_app; split; auto; constructor; auto; congruence
      | rewrite encode_app by auto; rewrite app_length; cbn [encode]; rewrite app_length; lia
      | rewrite (bits_written_prefix b (length (encode h ie pre xs)) (enc_field h ie f y) b1
                 ltac:(unfold blen in H; lia) W1), FI; reflexivity
      | rewrite Nat.add_1_r in E2; exists b2; split; [exact E2|];
        cbn [encode]; eapply bits_written_app; eauto; unfold blen in H; lia ].
Qed.

Theorem populate_encode : forall fs xs b,
  fits h ie iw lok_enc fs xs 0 [] [] -> bytes_ok b -> blen b < 2 ^ 63 ->
  Z.of_nat (length (encode h ie fs xs)) <= 8 * blen b ->
  exists b', populate c fs xs b = (b', Ok tt) /\
    bits_written b 0 (encode h ie fs xs) b'.
Proof.
  intros fs xs b F B L H.
  apply (populate_from_enc fs xs [] [] b); auto. constructor.
Qed.

Theorem packet_size_encode : forall fs xs b T, closed fs ->
  fits h ie iw lok_dec fs xs 0 [] T -> bytes_ok b -> blen b < 2 ^ 63 ->
  bits_of b = encode h ie fs xs ++ T ->
  packet_size c fs b = Ok (total_bits fs / 8 + zsum (var_lens fs xs)).
Proof.
  intros fs xs b T CL F B L E.
  assert (EL := encode_closed_length _ _ _ _ _ _ CL F).
  destruct (layout_dec lok_dec fs xs [] 0 [] [] b [] T) as (LL & L1 & L2 & L3 & L4); auto; try lia.
  rewrite app_nil_r in L4. change (map Ok []) with (@nil (res Z)) in L4.
  unfold packet_size, layout. rewrite L4. cbn [layout_from]. rewrite app_nil_r, L3.
  assert (TB : 0 <= total_bits fs) by (eapply total_bits_nonneg; eauto).
  assert (VN := var_lens_nonneg fs xs). assert (ZN := zsum_nonneg _ VN).
  apply current_offset_ok; auto.
  assert (LE := f_equal (@length bool) E). rewrite app_length, bits_of_length in LE.
  unfold blen in L. lia.
Qed.

(** The generated code of a closed description of whole bytes implements its
    encoder; this is what an enclosing packet relies on. *)
Definition fits_all (fs : schema) (xs : list val) : Prop :=
  fits h ie iw lok_enc fs xs 0 [] [] /\ norm_vals fs xs = xs /\
  (0 < length (encode h ie fs xs))%nat.

Theorem schema_codec : forall fs, closed fs -> total_bits fs mod 8 = 0 ->
  codec (sem_of c fs) (fun x => pack (encode h ie fs x)) (fits_all fs).
Proof.
  intros fs CL TB8.
  assert (PB : forall x, fits_all fs x -> bits_of (pack (encode h ie fs x)) = encode h ie fs x /\
      blen (pack (encode h ie fs x)) = total_bits fs / 8 + zsum (var_lens fs x) /\ 0 <= total_bits fs).
  { intros x (F & _ & _). assert (EL := encode_closed_length _ _ _ _ _ _ CL F).
    split; [|split].
    - apply pack_bits. lia.
    - unfold blen. rewrite pack_length. lia.
    - eapply total_bits_nonneg; eauto. }
  split.
  - intros x W. apply pack_bytes.
  - intros x W. destruct (PB x W) as (P1 & P2 & P3). destruct W as (F & _ & P).
    assert (EL := encode_closed_length _ _ _ _ _ _ CL F).
    assert (ZN := zsum_nonneg _ (var_lens_nonneg fs x)).
    unfold sem_of. cbn [k_min]. unfold minimum_packet_size. rewrite TB8. cbn [Z.eqb]. lia.
  - intros x t W BT L. destruct (PB x W) as (P1 & P2 & _). destruct W as (F & _ & P).
    unfold sem_of. cbn [k_size]. rewrite P2.
    apply (packet_size_encode fs x _ (bits_of t)); auto.
    + eapply fits_weaken; [apply lok_enc_dec|]. eapply fits_tail; eauto.
    + apply bytes_app. split; auto using pack_bytes.
    + now rewrite bits_of_app, P1.
  - intros x t W BT L. destruct (PB x W) as (P1 & P2 & _). destruct W as (F & N & P).
    unfold sem_of. cbn [k_from]. rewrite <- N at 2.
    apply (from_packet_encode fs x _ (bits_of t)); auto.
    + eapply fits_weaken; [apply lok_enc_dec|]. eapply fits_tail; eauto.
    + apply bytes_app. split; auto using pack_bytes.
    + now rewrite bits_of_app, P1.
  - intros x b W B L H. destruct (PB x W) as (P1 & P2 & _). destruct W as (F & N & P).
    assert (EL := encode_closed_length _ _ _ _ _ _ CL F).
    unfold sem_of. cbn [k_populate].
    destruct (populate_encode fs x b F B L ltac:(lia)) as (b' & E & W).
    rewrite E. f_equal.
    rewrite <- P1 in W. change 0%nat with (8 * 0)%nat in W.
    apply splice_unique in W; auto using pack_bytes. unfold blen in H. lia.
Qed.

End Steps.

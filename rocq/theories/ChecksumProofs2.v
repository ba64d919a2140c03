(** Further proofs about the checksum functions: exact overflow behaviour,
    corruption, extra data, and the functions of the protocol modules. *)
From Coq Require Import String ZArith List Bool Lia ZifyBool ZifyNat.
From Verif Require Import Base BitSpec DeriveUtil DeriveOps BaseFacts BitFacts
  DeriveUtilProofs DeriveOpsProofs DeriveLEProofs DeriveGen SpecPacket DeriveGenProofs DeriveInvProofs
  DeriveAccProofs DeriveVarProofs DeriveApiProofs DerivePropProofs DerivePropProofs2 Protocols ProtoFacts
  ProtoPayloadProofs Checksum SpecChecksum ChecksumProofs.
Import ListNotations.
Open Scope Z_scope.
Ltac Zify.zify_post_hook ::= Z.to_euclidean_division_equations.

(** ** Exact behaviour of the 32-bit accumulator *)

Lemma ovf_in : forall m w x, 0 <= x < 2 ^ w -> ovf m w x = Ok x.
Proof. intros m w x H. unfold ovf. replace ((0 <=? x) && (x <? 2 ^ w)) with true by lia. reflexivity. Qed.

Lemma ovf_out : forall m w x, 0 <= x -> 2 ^ w <= x -> ovf m w x = match m with Checked => Panic EOverflow | Wrapping => Ok (x mod 2 ^ w) end.
Proof. intros m w x H G. unfold ovf. replace ((0 <=? x) && (x <? 2 ^ w)) with false by lia. reflexivity. Qed.

Lemma ovf_step : forall m a b (A : Type) (f : Z -> res A), 0 <= a -> 0 <= b ->
  (s <- ovf m 32 a ;; t <- add_u m 32 s b ;; f t) = (t <- ovf m 32 (a + b) ;; f t).
Proof.
  intros m a b A f Ha Hb. destruct (a <? 2 ^ 32) eqn:E.
  - rewrite (ovf_in m 32 a) by lia. reflexivity.
  - rewrite (ovf_out m 32 a), (ovf_out m 32 (a + b)) by lia. destruct m; [reflexivity|]. cbn [bind].
    unfold add_u. destruct (a mod 2 ^ 32 + b <? 2 ^ 32) eqn:F.
    + rewrite ovf_in by (assert (0 <= a mod 2 ^ 32) by (apply Z.mod_pos_bound; lia); lia). cbn [bind]. f_equal.
      rewrite <- (Z.mod_small (a mod 2 ^ 32 + b) (2 ^ 32)) by (assert (0 <= a mod 2 ^ 32) by (apply Z.mod_pos_bound; lia); lia).
      apply Zplus_mod_idemp_l.
    + rewrite ovf_out by (assert (0 <= a mod 2 ^ 32) by (apply Z.mod_pos_bound; lia); lia). cbn [bind]. f_equal.
      apply Zplus_mod_idemp_l.
Qed.

Lemma sum_words_exact : forall m d skip i a (A : Type) (f : Z * Z -> res A), bytes_ok d -> 0 <= a ->
  (s <- ovf m 32 a ;; p <- sum_words m d skip i s ;; f p)
  = (s <- ovf m 32 (a + full d skip i) ;; f (s, i + blen d / 2)).
Proof.
  intros m d skip. unfold blen. induction d as [|x|u v r IH] using pair_ind; intros i a A f B N.
  - cbn [sum_words full length bind]. change (Z.of_nat 0 / 2) with 0. now rewrite !Z.add_0_r.
  - cbn [sum_words full length bind]. change (Z.of_nat 1 / 2) with 0. now rewrite !Z.add_0_r.
  - inversion B as [|? ? B1 B2]; subst. inversion B2; subst. unfold byte_ok in *.
    cbn [sum_words full]. 
    assert (LE : i + 1 + Z.of_nat (length r) / 2 = i + Z.of_nat (length (u :: v :: r)) / 2) by (cbn [length]; lia).
    destruct (i =? skip); cbn [negb].
    + rewrite <- LE. replace (a + (0 + full r skip (i + 1))) with (a + full r skip (i + 1)) by lia.
      rewrite <- (IH (i + 1) a A f) by (auto; lia). destruct (ovf m 32 a); reflexivity.
    + rewrite Z.add_assoc, <- LE, <- (IH (i + 1) (a + (256 * u + v)) A f) by (auto; lia).
      rewrite <- (ovf_step m a (256 * u + v) A (fun s => p <- sum_words m r skip (i + 1) s ;; f p)) by lia.
      destruct (ovf m 32 a); [|reflexivity]. cbn [bind]. destruct (add_u m 32 a0 (256 * u + v)); reflexivity.
Qed.

Theorem sum_be_words_exact : forall m d k, bytes_ok d -> 0 <= k ->
  sum_be_words m d k = ovf m 32 (total (zero_word (Z.to_nat k) d)).
Proof.
  intros m d k B K. unfold sum_be_words. change total with (fun x => wsum (words x)). cbv beta.
  destruct (blen d =? 0) eqn:E.
  - destruct d; [|unfold blen in E; cbn in E; lia]. destruct (Z.to_nat k); reflexivity.
  - assert (X := sum_words_exact m d k 0 0 Z (fun p => let (sum, i) := p in
      if negb (i =? k) && negb (Z.land (blen d) 1 =? 0) then x <- idx d (blen d - 1) ;; add_u m 32 sum (Z.shiftl x 8) else Ok sum) B).
    rewrite (ovf_in m 32 0) in X by lia. cbn [bind] in X. rewrite X by lia. clear X.
    assert (Z0 := full_zero d k 0). replace (k - 0) with k in Z0 by lia. rewrite Z0 by lia. clear Z0.
    assert (FB := full_bound d k 0 B). rewrite Z.add_0_l.
    destruct (0 + blen d / 2 =? k) eqn:KK; cbn [negb andb].
    + rewrite Z.add_0_r. destruct (ovf m 32 (full d k 0)); reflexivity.
    + destruct (Z.land (blen d) 1 =? 0) eqn:O; cbn [negb].
      * rewrite odd_last_even by lia. rewrite Z.add_0_r. destruct (ovf m 32 (full d k 0)); reflexivity.
      * destruct (odd_last_nth d) as [I1 I2]; [lia|]. rewrite I1. cbn [bind].
        rewrite Z.shiftl_mul_pow2 by lia. change (2 ^ 8) with 256.
        replace (odd_last d / 256 * 256) with (odd_last d) by lia.
        assert (Y := ovf_step m (full d k 0) (odd_last d) Z (fun t => Ok t)). cbv beta in Y.
        destruct (ovf m 32 (full d k 0)) as [s|e] eqn:Q; cbn [bind] in *.
        -- specialize (Y ltac:(lia) ltac:(lia)).
           destruct (add_u m 32 s (odd_last d)), (ovf m 32 (full d k 0 + odd_last d)); cbn [bind] in Y; congruence.
        -- specialize (Y ltac:(lia) ltac:(lia)). destruct (ovf m 32 (full d k 0 + odd_last d)); cbn [bind] in Y; congruence.
Qed.

Theorem checksum_checked_exact : forall d k, bytes_ok d -> 0 <= k ->
  checksum Checked d k =
    if total (zero_word (Z.to_nat k) d) <? 2 ^ 32
    then Ok (match d with [] => 0 | _ => rfc1071 (zero_word (Z.to_nat k) d) end)
    else Panic EOverflow.
Proof.
  intros d k B K. unfold checksum. destruct d as [|x d].
  - destruct (Z.to_nat k); reflexivity.
  - replace (blen (x :: d) =? 0) with false by (unfold blen; cbn [length]; lia).
    rewrite sum_be_words_exact by auto. assert (ZO := zero_word_ok (x :: d) (Z.to_nat k) B).
    assert (NN := wsum_nonneg _ (words_ok _ ZO)). change (wsum (words _)) with (total (zero_word (Z.to_nat k) (x :: d))) in NN.
    destruct (total (zero_word (Z.to_nat k) (x :: d)) <? 2 ^ 32) eqn:E.
    + rewrite ovf_in by lia. cbn [bind]. rewrite finalize_canon by lia. unfold rfc1071.
      rewrite osum_canon by (now apply words_ok). reflexivity.
    + rewrite ovf_out by lia. reflexivity.
Qed.

Theorem checksum_wrapping_total : forall d k, bytes_ok d -> 0 <= k ->
  exists v, checksum Wrapping d k = Ok v /\ 0 <= v < 65536.
Proof.
  intros d k B K. unfold checksum. destruct d as [|x d].
  - exists 0. split; [reflexivity|lia].
  - replace (blen (x :: d) =? 0) with false by (unfold blen; cbn [length]; lia).
    rewrite sum_be_words_exact by auto. assert (ZO := zero_word_ok (x :: d) (Z.to_nat k) B).
    assert (NN := wsum_nonneg _ (words_ok _ ZO)). change (wsum (words _)) with (total (zero_word (Z.to_nat k) (x :: d))) in NN.
    set (t := total _) in *. assert (R : exists s, ovf Wrapping 32 t = Ok s /\ 0 <= s < 2 ^ 32).
    { destruct (t <? 2 ^ 32) eqn:E; [exists t; rewrite ovf_in by lia; split; [auto|lia]|].
      exists (t mod 2 ^ 32). rewrite ovf_out by lia. split; [auto|]. apply Z.mod_pos_bound. lia. }
    destruct R as (s & -> & R). cbn [bind]. rewrite finalize_canon by auto. eexists. split; [reflexivity|].
    assert (CR := canon_range s). lia.
Qed.

(** The all-ones string. *)
Lemma total_ones : forall n, total (repeat 255 (2 * n)) = 65535 * Z.of_nat n.
Proof.
  induction n as [|n IH]; [reflexivity|]. replace (2 * S n)%nat with (S (S (2 * n))) by lia.
  cbn [repeat]. unfold total in *. cbn [words fold_right]. rewrite IH. lia.
Qed.
Lemma ones_ok : forall n, bytes_ok (repeat 255 n).
Proof. induction n; cbn [repeat]; constructor; auto. unfold byte_ok. lia. Qed.

Theorem ones_rfc : forall n, (0 < n)%nat -> rfc1071 (repeat 255 (2 * n)) = 0.
Proof.
  intros n N. unfold rfc1071. rewrite osum_canon by (apply words_ok, ones_ok).
  change (wsum (words ?x)) with (total x). rewrite total_ones. unfold canon. destruct (_ =? 0) eqn:E; lia.
Qed.

Theorem ones_checked : forall n k, 65537 < Z.of_nat n -> Z.of_nat n <= k ->
  checksum Checked (repeat 255 (2 * n)) k = Panic EOverflow.
Proof.
  intros n k N K. rewrite checksum_checked_exact by (auto using ones_ok; lia).
  rewrite zero_word_past by (rewrite repeat_length; lia). rewrite total_ones.
  replace (65535 * Z.of_nat n <? 2 ^ 32) with false by lia. reflexivity.
Qed.

Theorem ones_wrapping : forall n k, 65537 < Z.of_nat n <= 131074 -> Z.of_nat n <= k ->
  checksum Wrapping (repeat 255 (2 * n)) k = Ok 1.
Proof.
  intros n k N K. unfold checksum.
  replace (blen (repeat 255 (2 * n)) =? 0) with false by (unfold blen; rewrite repeat_length; lia).
  rewrite sum_be_words_exact by (auto using ones_ok; lia).
  rewrite zero_word_past by (rewrite repeat_length; lia). rewrite total_ones.
  rewrite ovf_out by lia. cbn [bind].
  replace ((65535 * Z.of_nat n) mod 2 ^ 32) with (65535 * Z.of_nat n - 2 ^ 32) by lia.
  rewrite finalize_canon by lia. f_equal. unfold canon. destruct (_ =? 0) eqn:E; lia.
Qed.

(** ** C29: corruption *)

Lemma put_byte_length : forall i y (d : buf), (i < length d)%nat -> length (put_byte i y d) = length d.
Proof. intros i y d L. unfold put_byte, splice. rewrite !app_length, firstn_length, skipn_length. cbn [length]. lia. Qed.

Lemma put_byte_ok : forall i y d, bytes_ok d -> byte_ok y -> bytes_ok (put_byte i y d).
Proof.
  intros i y d B V. unfold put_byte, splice, bytes_ok in *.
  apply Forall_app. split; [now apply Forall_firstn|]. apply Forall_app. split; [|now apply Forall_skipn].
  constructor; auto.
Qed.

Lemma nth_byte : forall d i, bytes_ok d -> (i < length d)%nat -> byte_ok (nth i d 0).
Proof. intros d i B L. unfold bytes_ok in B. rewrite Forall_forall in B. apply B. now apply nth_In. Qed.

Lemma checksum_canon : forall m d k, bytes_ok d -> 0 < blen d <= 131074 ->
  checksum m d (Z.of_nat k) = Ok (65535 - canon (wsum (words (zero_word k d)))).
Proof.
  intros m d k B L. rewrite checksum_rfc1071 by (auto; lia). destruct d; [cbn in L; lia|].
  rewrite Nat2Z.id, rfc_canon by (now apply zero_word_ok). reflexivity.
Qed.

Lemma ok_differ : forall a b, canon a <> canon b -> Ok (65535 - canon a) <> Ok (65535 - canon b).
Proof. intros a b H E. assert (X : 65535 - canon a = 65535 - canon b) by congruence. apply H. lia. Qed.

Lemma mod_shift : forall w a b, a mod 65535 <> b mod 65535 -> (w + a - b) mod 65535 <> w mod 65535.
Proof.
  intros w a b D E. apply D. assert (X : (w + a - b - w) mod 65535 = 0).
  { rewrite Zminus_mod, E, Z.sub_diag. reflexivity. }
  clear E D. lia.
Qed.

Theorem word_corruption : forall m d j k v, bytes_ok d -> blen d <= 131074 -> (2 * j + 1 < length d)%nat -> j <> k ->
  0 <= v < 65536 -> v mod 65535 <> word_at j d mod 65535 ->
  checksum m (put_word j v d) (Z.of_nat k) <> checksum m d (Z.of_nat k).
Proof.
  intros m d j k v B L J N V D.
  assert (0 < blen d) by (unfold blen; lia).
  rewrite !checksum_canon by (auto using put_word_ok; rewrite ?blen_put_word; lia).
  apply ok_differ, canon_differ; try (apply wsum_nonneg, words_ok, zero_word_ok; auto using put_word_ok; fail).
  rewrite put_other_wsum by auto. now apply mod_shift.
Qed.

Theorem byte_corruption : forall m d i k y, bytes_ok d -> blen d <= 131074 -> (i < length d)%nat -> (i / 2 <> k)%nat ->
  byte_ok y -> y <> nth i d 0 ->
  checksum m (put_byte i y d) (Z.of_nat k) <> checksum m d (Z.of_nat k).
Proof.
  intros m d i k y B L J N V D.
  assert (0 < blen d) by (unfold blen; lia).
  assert (PL : blen (put_byte i y d) = blen d) by (unfold blen; now rewrite put_byte_length).
  rewrite !checksum_canon by (auto using put_byte_ok; rewrite ?PL; lia).
  assert (X := nth_byte d i B J).
  apply ok_differ, canon_differ; try (apply wsum_nonneg, words_ok, zero_word_ok; auto using put_byte_ok; fail).
  rewrite put_byte_wsum by auto. unfold byte_ok in *. destruct (Nat.even i); lia.
Qed.

(** The receiver's check fails after any change confined to one byte, and
    after any change of one word except between 0 and 0xFFFF. *)
Theorem byte_corruption_rejected : forall d i y, bytes_ok d -> (i < length d)%nat ->
  byte_ok y -> y <> nth i d 0 -> verifies d -> ~ verifies (put_byte i y d).
Proof.
  intros d i y B J V D VF VG. unfold verifies in *. rewrite osum_canon in * by (apply words_ok; auto using put_byte_ok).
  assert (X := nth_byte d i B J). unfold byte_ok in *.
  apply (canon_differ (wsum (words (put_byte i y d))) (wsum (words d)));
    try (apply wsum_nonneg, words_ok; auto using put_byte_ok; fail); [|congruence].
  rewrite put_byte_wsum' by auto. destruct (Nat.even i); lia.
Qed.

(** ** C30: odd extra data *)
Theorem extra_odd : forall m ws d k extra x y src dst proto, Nat.even (length extra) = true ->
  pseudo_checksum m ws d k (extra ++ [x]) src dst proto = pseudo_checksum m ws d k (extra ++ [y]) src dst proto.
Proof.
  intros m ws d k extra x y src dst proto E. unfold pseudo_checksum.
  assert (LB : blen (extra ++ [x]) = blen (extra ++ [y])) by (unfold blen; rewrite !app_length; reflexivity).
  rewrite <- LB. apply Nat.even_spec in E. destruct E as [h E].
  assert (K : blen (extra ++ [x]) / 2 = Z.of_nat h) by (unfold blen; rewrite app_length; cbn [length]; lia).
  rewrite K. rewrite (sum_same m (extra ++ [x]) (extra ++ [y]) h); [reflexivity|].
  split; [rewrite !app_length; reflexivity|]. intros i I.
  destruct (Nat.lt_ge_cases i (length extra)) as [A|A].
  - rewrite !app_nth1 by auto. reflexivity.
  - rewrite !app_nth2 by auto. destruct (i - length extra)%nat as [|[|]] eqn:Q; try reflexivity. lia.
Qed.

(** ** C71: octets *)
Lemma octet_shift : forall x n, cast_u 8 (Z.shiftr x n) = (Z.shiftr x n) mod 256.
Proof. reflexivity. Qed.

Theorem octets_be : forall x, 0 <= x ->
  octets_u64 x = be_bytes 8 x /\ octets_u32 x = be_bytes 4 x /\ octets_u16 x = be_bytes 2 x /\
  (x < 256 -> octets_u8 x = be_bytes 1 x).
Proof.
  intros x X. unfold octets_u64, octets_u32, octets_u16, octets_u8, cast_u.
  rewrite !Z.shiftr_div_pow2 by lia. cbn [be_bytes app].
  rewrite !Z.div_div by lia. cbn [Z.mul Pos.mul].
  repeat split. intros. rewrite Z.mod_small by lia. reflexivity.
Qed.

Theorem octets_value : forall x, 0 <= x ->
  (x < 2 ^ 64 -> be_val (octets_u64 x) = x) /\ (x < 2 ^ 32 -> be_val (octets_u32 x) = x) /\
  (x < 2 ^ 16 -> be_val (octets_u16 x) = x) /\ (x < 2 ^ 8 -> be_val (octets_u8 x) = x).
Proof.
  assert (V : forall n x, 0 <= x < 256 ^ Z.of_nat n -> be_val (be_bytes n x) = x).
  { induction n as [|n IH]; intros x X.
    - cbn [Z.of_nat] in X. change (256 ^ 0) with 1 in X. cbn. lia.
    - cbn [be_bytes]. unfold be_val. rewrite fold_left_app. cbn [fold_left]. fold (be_val (be_bytes n (x / 256))).
      rewrite IH; [lia|]. rewrite Nat2Z.inj_succ, Z.pow_succ_r in X by lia. lia. }
  intros x X. destruct (octets_be x X) as (E1 & E2 & E3 & E4).
  rewrite E1, E2, E3. change (2 ^ 64) with (256 ^ Z.of_nat 8). change (2 ^ 32) with (256 ^ Z.of_nat 4).
  change (2 ^ 16) with (256 ^ Z.of_nat 2). change (2 ^ 8) with (256 ^ Z.of_nat 1).
  repeat split; intros H; apply V; lia.
Qed.

(** ** Storing a checksum through the generated setter *)

Lemma bits_two : forall v, 0 <= v < 65536 -> bits_of [v / 256; v mod 256] = bits_of_Z 16 v.
Proof.
  intros v V. cbn [bits_of flat_map app]. unfold bits_of_byte, bits_of_Z. cbn [seq map app].
  change 256 with (2 ^ 8). rewrite !Z.div_pow2_bits by lia. rewrite !Z.mod_pow2_bits_low by lia. reflexivity.
Qed.

Lemma set_word : forall c fs j f k b v, nth_error fs j = Some f -> f_ty f = TPrim (Prim 16 Big) ->
  scoped [] fs -> Forall (fun g => f_len g = None) (firstn j fs) -> header_bits (firstn j fs) = 16 * Z.of_nat k ->
  buf_ok b -> 2 * Z.of_nat k + 2 <= blen b -> 0 <= v < 65536 ->
  set c fs (f_name f) (VInt v) b = (put_word k v b, Ok tt).
Proof.
  intros c fs j f k b v N T S F HB BO L V.
  assert (N' := N). apply nth_error_split in N'. destruct N' as (l1 & l2 & E & LL).
  assert (FN : firstn j fs = l1) by (rewrite E, firstn_app, <- LL, Nat.sub_diag, firstn_all; apply app_nil_r).
  rewrite FN in *.
  destruct (set_int c fs l1 f l2 16 b (16 * Z.of_nat k) v) as (b' & E1 & W); auto; try lia.
  - assert (X := pos_header (fun x => get c fs x b) b l1 0 0 F). rewrite HB in X.
    now replace (16 * Z.of_nat k) with (0 + 16 * Z.of_nat k + 8 * 0) by lia.
  - unfold supported. lia.
  - rewrite E1. f_equal. eapply field_written_unique; [exact W|].
    split; [|split].
    + apply put_word_length. unfold blen in L. lia.
    + apply put_word_ok; [apply BO|auto].
    + unfold put_word, splice. rewrite !bits_of_app, bits_firstn, bits_skipn, bits_two by auto. cbn [length].
      change (Z.to_nat 16) with 16%nat.
      replace (Z.to_nat (16 * Z.of_nat k)) with (8 * (2 * k))%nat by lia.
      replace (8 * (2 * k + 2))%nat with (8 * (2 * k) + 16)%nat by lia. reflexivity.
Qed.

Lemma put_word_field : forall k v b, bytes_ok b -> 2 * Z.of_nat k + 2 <= blen b -> 0 <= v < 65536 ->
  field_written b (16 * k) 16 v (put_word k v b).
Proof.
  intros k v b B L V. split; [|split].
  + apply put_word_length. unfold blen in L. lia.
  + now apply put_word_ok.
  + unfold put_word, splice. rewrite !bits_of_app, bits_firstn, bits_skipn, bits_two by auto. cbn [length].
    replace (16 * k)%nat with (8 * (2 * k))%nat by lia.
    replace (8 * (2 * k + 2))%nat with (8 * (2 * k) + 16)%nat by lia. reflexivity.
Qed.

Lemma set_get_word : forall c fs j f k b v, nth_error fs j = Some f -> f_ty f = TPrim (Prim 16 Big) ->
  scoped [] fs -> Forall (fun g => f_len g = None) (firstn j fs) -> header_bits (firstn j fs) = 16 * Z.of_nat k ->
  buf_ok b -> new fs b = Some b -> 2 * Z.of_nat k + 2 <= blen b -> 0 <= v < 65536 ->
  set c fs (f_name f) (VInt v) b = (put_word k v b, Ok tt) /\
  get c fs (f_name f) (put_word k v b) = Ok (VInt v).
Proof.
  intros c fs j f k b v N T S F HB BO NW L V. split; [eapply set_word; eauto|].
  assert (LL : blen (put_word k v b) = blen b) by (apply blen_put_word; unfold blen in L; lia).
  rewrite (header_int c fs j f 16); auto.
  - do 2 f_equal. rewrite HB. replace (Z.to_nat (16 * Z.of_nat k)) with (16 * k)%nat by lia. change (Z.to_nat 16) with 16%nat.
    rewrite (field_written_same b (16 * k) 16 v).
    + change (2 ^ Z.of_nat 16) with 65536. lia.
    + unfold blen in L. lia.
    + apply put_word_field; auto. apply BO.
  - rewrite HB. unfold supported. lia.
  - split; [apply put_word_ok; auto; apply BO|]. rewrite LL. apply BO.
  - unfold new in *. rewrite LL. destruct (_ <=? _); congruence.
Qed.

(** The seven functions, with the schema of their packet type. *)
Section Wrappers.
Variable c : cfg.
Let m := c_mode c.

Lemma new_min : forall fs b, new fs b = Some b -> minimum_packet_size fs <= blen b.
Proof. intros fs b. unfold new. destruct (_ <=? _) eqn:E; [lia|discriminate]. Qed.

Lemma udp_set : forall b v, buf_ok b -> new udp b = Some b -> 0 <= v < 65536 ->
  set c udp "checksum" (VInt v) b = (put_word 3 v b, Ok tt) /\ get c udp "checksum" (put_word 3 v b) = Ok (VInt v).
Proof.
  intros b v BO NW V. apply (set_get_word c udp 3 (int "checksum" 16) 3); auto using udp_scoped; try reflexivity.
  - repeat constructor.
  - apply new_min in NW. change (minimum_packet_size udp) with 8 in NW. lia.
Qed.

Lemma tcp_set : forall b v, buf_ok b -> new (tcp c) b = Some b -> 0 <= v < 65536 ->
  set c (tcp c) "checksum" (VInt v) b = (put_word 8 v b, Ok tt) /\ get c (tcp c) "checksum" (put_word 8 v b) = Ok (VInt v).
Proof.
  intros b v BO NW V. apply (set_get_word c (tcp c) 8 (int "checksum" 16) 8); auto using tcp_scoped; try reflexivity.
  - repeat constructor.
  - apply new_min in NW. change (minimum_packet_size (tcp c)) with 20 in NW. lia.
Qed.

Lemma icmp_set : forall b v, buf_ok b -> new icmp b = Some b -> 0 <= v < 65536 ->
  set c icmp "checksum" (VInt v) b = (put_word 1 v b, Ok tt) /\ get c icmp "checksum" (put_word 1 v b) = Ok (VInt v).
Proof.
  intros b v BO NW V. apply (set_get_word c icmp 2 (int "checksum" 16) 1); auto using icmp_scoped; try reflexivity.
  - repeat constructor.
  - apply new_min in NW. change (minimum_packet_size icmp) with 4 in NW. lia.
Qed.

Lemma icmpv6_set : forall b v, buf_ok b -> new icmpv6 b = Some b -> 0 <= v < 65536 ->
  set c icmpv6 "checksum" (VInt v) b = (put_word 1 v b, Ok tt) /\ get c icmpv6 "checksum" (put_word 1 v b) = Ok (VInt v).
Proof.
  intros b v BO NW V. apply (set_get_word c icmpv6 2 (int "checksum" 16) 1); auto using icmpv6_scoped; try reflexivity.
  - repeat constructor.
  - apply new_min in NW. change (minimum_packet_size icmpv6) with 4 in NW. lia.
Qed.

Lemma ipv4_set : forall b v, buf_ok b -> new (ipv4 c) b = Some b -> 0 <= v < 65536 ->
  set c (ipv4 c) "checksum" (VInt v) b = (put_word 5 v b, Ok tt) /\ get c (ipv4 c) "checksum" (put_word 5 v b) = Ok (VInt v).
Proof.
  intros b v BO NW V. apply (set_get_word c (ipv4 c) 10 (int "checksum" 16) 5); auto using ipv4_scoped; try reflexivity.
  - repeat constructor.
  - apply new_min in NW. change (minimum_packet_size (ipv4 c)) with 20 in NW. lia.
Qed.

Theorem udp_v4_verifies : forall b extra src dst, buf_ok b -> new udp b = Some b -> bytes_ok extra ->
  Nat.even (length extra) = true -> ipv4_addr src -> ipv4_addr dst -> blen b + blen extra <= 65535 ->
  exists ck b', udp_ipv4_checksum_adv m b extra src dst = Ok ck /\
    set c udp "checksum" (VInt ck) b = (b', Ok tt) /\ get c udp "checksum" b' = Ok (VInt ck) /\
    verifies (pseudo_v4 src dst 17 (blen b + blen extra) ++ pad2 b' ++ extra).
Proof.
  intros b extra src dst BO NW BE EV VS VD L. assert (MN := new_min _ _ NW). change (minimum_packet_size udp) with 8 in MN.
  destruct (ipv4_checksum_verifies m b 3 extra src dst 17) as (ck & E & R & V); auto; try apply BO; try (unfold byte_ok; lia).
  { unfold blen in MN. lia. }
  destruct (udp_set b ck BO NW R) as [S G]. exists ck, (put_word 3 ck b). auto.
Qed.

Theorem udp_v6_verifies : forall b extra src dst, buf_ok b -> new udp b = Some b -> bytes_ok extra ->
  Nat.even (length extra) = true -> ipv6_addr src -> ipv6_addr dst -> blen b + blen extra <= 131000 ->
  exists ck b', udp_ipv6_checksum_adv m b extra src dst = Ok ck /\
    set c udp "checksum" (VInt ck) b = (b', Ok tt) /\ get c udp "checksum" b' = Ok (VInt ck) /\
    verifies (pseudo_v6 src dst 17 (blen b + blen extra) ++ pad2 b' ++ extra).
Proof.
  intros b extra src dst BO NW BE EV VS VD L. assert (MN := new_min _ _ NW). change (minimum_packet_size udp) with 8 in MN.
  destruct (ipv6_checksum_verifies m b 3 extra src dst 17) as (ck & E & R & V); auto; try apply BO; try (unfold byte_ok; lia).
  { unfold blen in MN. lia. }
  destruct (udp_set b ck BO NW R) as [S G]. exists ck, (put_word 3 ck b). auto.
Qed.

Theorem tcp_v4_verifies : forall b extra src dst, buf_ok b -> new (tcp c) b = Some b -> bytes_ok extra ->
  Nat.even (length extra) = true -> ipv4_addr src -> ipv4_addr dst -> blen b + blen extra <= 65535 ->
  exists ck b', tcp_ipv4_checksum_adv m b extra src dst = Ok ck /\
    set c (tcp c) "checksum" (VInt ck) b = (b', Ok tt) /\ get c (tcp c) "checksum" b' = Ok (VInt ck) /\
    verifies (pseudo_v4 src dst 6 (blen b + blen extra) ++ pad2 b' ++ extra).
Proof.
  intros b extra src dst BO NW BE EV VS VD L. assert (MN := new_min _ _ NW). change (minimum_packet_size (tcp c)) with 20 in MN.
  destruct (ipv4_checksum_verifies m b 8 extra src dst 6) as (ck & E & R & V); auto; try apply BO; try (unfold byte_ok; lia).
  { unfold blen in MN. lia. }
  destruct (tcp_set b ck BO NW R) as [S G]. exists ck, (put_word 8 ck b). auto.
Qed.

Theorem tcp_v6_verifies : forall b extra src dst, buf_ok b -> new (tcp c) b = Some b -> bytes_ok extra ->
  Nat.even (length extra) = true -> ipv6_addr src -> ipv6_addr dst -> blen b + blen extra <= 131000 ->
  exists ck b', tcp_ipv6_checksum_adv m b extra src dst = Ok ck /\
    set c (tcp c) "checksum" (VInt ck) b = (b', Ok tt) /\ get c (tcp c) "checksum" b' = Ok (VInt ck) /\
    verifies (pseudo_v6 src dst 6 (blen b + blen extra) ++ pad2 b' ++ extra).
Proof.
  intros b extra src dst BO NW BE EV VS VD L. assert (MN := new_min _ _ NW). change (minimum_packet_size (tcp c)) with 20 in MN.
  destruct (ipv6_checksum_verifies m b 8 extra src dst 6) as (ck & E & R & V); auto; try apply BO; try (unfold byte_ok; lia).
  { unfold blen in MN. lia. }
  destruct (tcp_set b ck BO NW R) as [S G]. exists ck, (put_word 8 ck b). auto.
Qed.

Lemma pseudo_v6_even : forall src dst proto len, Nat.even (length (pseudo_v6 src dst proto len)) = true.
Proof.
  intros. unfold pseudo_v6. rewrite !app_length, !Nat.even_add, !addr_v6_even. reflexivity.
Qed.

Theorem icmpv6_verifies : forall b src dst, buf_ok b -> new icmpv6 b = Some b ->
  ipv6_addr src -> ipv6_addr dst -> blen b <= 131000 ->
  exists ck b', icmpv6_checksum m b src dst = Ok ck /\
    set c icmpv6 "checksum" (VInt ck) b = (b', Ok tt) /\ get c icmpv6 "checksum" b' = Ok (VInt ck) /\
    verifies (pseudo_v6 src dst 58 (blen b) ++ b').
Proof.
  intros b src dst BO NW VS VD L. assert (MN := new_min _ _ NW). change (minimum_packet_size icmpv6) with 4 in MN.
  destruct (ipv6_checksum_verifies m b 1 [] src dst 58) as (ck & E & R & V); auto; try apply BO; try (unfold byte_ok; lia).
  { constructor. } { cbn [blen length Z.of_nat]. unfold blen in *. cbn. lia. }
  { unfold blen in MN. lia. }
  destruct (icmpv6_set b ck BO NW R) as [S G]. exists ck, (put_word 1 ck b). split; [exact E|]. split; [exact S|]. split; [exact G|].
  rewrite app_nil_r in V. change (blen []) with 0 in V. rewrite Z.add_0_r in V.
  unfold verifies in *. rewrite words_app in V by apply pseudo_v6_even. rewrite words_app by apply pseudo_v6_even. now rewrite words_pad in V.
Qed.

Theorem icmp_verifies : forall b, buf_ok b -> new icmp b = Some b -> blen b <= 131074 ->
  exists ck b', icmp_checksum m b = Ok ck /\
    set c icmp "checksum" (VInt ck) b = (b', Ok tt) /\ get c icmp "checksum" b' = Ok (VInt ck) /\ verifies b'.
Proof.
  intros b BO NW L. assert (MN := new_min _ _ NW). change (minimum_packet_size icmp) with 4 in MN.
  destruct (checksum_verifies m b 1) as (ck & E & R & V & _); auto; try apply BO.
  { unfold blen in MN. lia. }
  destruct (icmp_set b ck BO NW R) as [S G]. exists ck, (put_word 1 ck b). auto.
Qed.

(** ** C33: the IPv4 header checksum *)

Lemma ipv4_ihl : forall b, buf_ok b -> new (ipv4 c) b = Some b ->
  get c (ipv4 c) "header_length" b = Ok (VInt (field_val b 4 4)) /\ 0 <= field_val b 4 4 < 16.
Proof.
  intros b BO NW. assert (MN := new_min _ _ NW). change (minimum_packet_size (ipv4 c)) with 20 in MN. split.
  - assert (X := header_int c (ipv4 c) 1 (int "header_length" 4) 4 b). apply X; auto using ipv4_scoped.
    + repeat constructor.
    + unfold supported. cbn. lia.
  - apply (field_val_range b 4 4). unfold blen in MN. lia.
Qed.

Lemma ipv4_header_data : forall b, buf_ok b -> new (ipv4 c) b = Some b ->
  ipv4_header_checksum c b = checksum m (firstn (covered b) b) 5.
Proof.
  intros b BO NW. destruct (ipv4_ihl b BO NW) as [G R].
  assert (MN := new_min _ _ NW). change (minimum_packet_size (ipv4 c)) with 20 in MN.
  unfold ipv4_header_checksum. rewrite G. cbn [int_of bind]. change (minimum_packet_size (ipv4 c)) with 20.
  assert (M : mul_u (c_mode c) usize (field_val b 4 4) 4 = Ok (4 * field_val b 4 4)).
  { unfold mul_u. rewrite ovf_in by (unfold usize; lia). f_equal. lia. }
  rewrite M. cbn [bind].
  set (h := if 4 * field_val b 4 4 <? 20 then 20 else if blen b <? 4 * field_val b 4 4 then blen b else 4 * field_val b 4 4).
  assert (H : h = Z.of_nat (covered b)).
  { unfold h, covered, blen in *. destruct (_ <? 20) eqn:E1; [lia|]. destruct (_ <? 4 * _) eqn:E2; lia. }
  rewrite H. unfold slice. replace ((0 <=? 0) && (0 <=? Z.of_nat (covered b)) && (Z.of_nat (covered b) <=? blen b)) with true
    by (unfold covered, blen in *; lia).
  cbn [bind]. rewrite Z.sub_0_r, Nat2Z.id. reflexivity.
Qed.

Theorem ipv4_header_rfc1071 : forall b, buf_ok b -> new (ipv4 c) b = Some b ->
  ipv4_header_checksum c b = Ok (rfc1071 (zero_word 5 (firstn (covered b) b))).
Proof.
  intros b BO NW. rewrite ipv4_header_data by auto. destruct (ipv4_ihl b BO NW) as [G R].
  assert (MN := new_min _ _ NW). change (minimum_packet_size (ipv4 c)) with 20 in MN.
  assert (L : (20 <= length (firstn (covered b) b) <= 60)%nat).
  { rewrite firstn_length. unfold covered, blen in *. lia. }
  rewrite checksum_rfc1071; [|apply Forall_firstn, BO|lia|unfold blen; lia].
  destruct (firstn (covered b) b); [cbn in L; lia|]. reflexivity.
Qed.

Lemma firstn_put_word : forall n k v (b : buf), (2 * k + 2 <= n)%nat -> (n <= length b)%nat ->
  firstn n (put_word k v b) = put_word k v (firstn n b).
Proof.
  intros n k v b K N. unfold put_word, splice. rewrite firstn_app, firstn_length, firstn_firstn.
  rewrite Nat.min_r by lia. rewrite Nat.min_l by lia. rewrite firstn_app. cbn [length].
  rewrite firstn_firstn, Nat.min_l by lia. f_equal. 
  rewrite firstn_all2 by (cbn [length]; lia). f_equal.
  rewrite skipn_firstn_comm. f_equal. lia.
Qed.

Theorem ipv4_header_verifies : forall b, buf_ok b -> new (ipv4 c) b = Some b ->
  exists ck b', ipv4_header_checksum c b = Ok ck /\
    set c (ipv4 c) "checksum" (VInt ck) b = (b', Ok tt) /\ get c (ipv4 c) "checksum" b' = Ok (VInt ck) /\
    verifies (firstn (covered b) b').
Proof.
  intros b BO NW. rewrite ipv4_header_data by auto. destruct (ipv4_ihl b BO NW) as [G R].
  assert (MN := new_min _ _ NW). change (minimum_packet_size (ipv4 c)) with 20 in MN.
  assert (L : (20 <= length (firstn (covered b) b) <= 60)%nat).
  { rewrite firstn_length. unfold covered, blen in *. lia. }
  assert (CB : (covered b <= length b)%nat) by (unfold covered; lia).
  assert (C20 : (20 <= covered b)%nat) by (rewrite firstn_length in L; lia).
  destruct (checksum_verifies m (firstn (covered b) b) 5) as (ck & E & RG & V & _).
  - apply Forall_firstn, BO.
  - lia.
  - unfold blen. lia.
  - destruct (ipv4_set b ck BO NW RG) as [S GT]. exists ck, (put_word 5 ck b).
    split; [exact E|]. split; [exact S|]. split; [exact GT|]. rewrite firstn_put_word by lia. exact V.
Qed.

(** ** C34: a computed UDP checksum of zero *)

Lemma udp_text_total : forall b src dst, bytes_ok b -> ipv4_addr src -> ipv4_addr dst -> blen b <= 65535 ->
  let t := pseudo_v4 src dst 17 (blen b) ++ zero_word 3 b in
  bytes_ok t /\ total t = wsum (words src) + wsum (words dst) + 17 + blen b + wsum (words (zero_word 3 b)) /\ 17 <= total t.
Proof.
  intros b src dst B VS VD L t. subst t.
  destruct (segment_v4 src dst 17 (zero_word 3 b) []) as [OK S]; auto using zero_word_ok.
  { unfold byte_ok. lia. } { constructor. } { rewrite blen_zero_word. change (blen []) with 0. lia. }
  rewrite blen_zero_word, app_nil_r in OK, S. change (blen []) with 0 in *. rewrite Z.add_0_r in OK, S.
  assert (EV : Nat.even (length (pseudo_v4 src dst 17 (blen b))) = true).
  { unfold pseudo_v4. rewrite !app_length. destruct VS as [-> _], VD as [-> _]. reflexivity. }
  rewrite words_app, words_pad in S by exact EV. 
  assert (OK2 : bytes_ok (pseudo_v4 src dst 17 (blen b) ++ zero_word 3 b)).
  { unfold bytes_ok in *. apply Forall_app in OK. apply Forall_app. split; [apply OK|now apply zero_word_ok]. }
  assert (T : total (pseudo_v4 src dst 17 (blen b) ++ zero_word 3 b) =
    wsum (words src) + wsum (words dst) + 17 + blen b + wsum (words (zero_word 3 b))).
  { unfold total. rewrite words_app by exact EV. etransitivity; [exact S|]. change (wsum (words [])) with 0. lia. }
  split; [exact OK2|]. split; [exact T|]. rewrite T.
  destruct (v4_sum m src VS) as (A & _ & EA & RA). destruct (v4_sum m dst VD) as (B' & _ & EB & RB).
  assert (0 <= blen b) by (unfold blen; lia). assert (ND := wsum_nonneg _ (words_ok _ (zero_word_ok b 3 B))). lia.
Qed.

Lemma udp_v4_value : forall b src dst, bytes_ok b -> ipv4_addr src -> ipv4_addr dst -> blen b <= 65535 ->
  udp_ipv4_checksum m b src dst = Ok (65535 - canon (total (pseudo_v4 src dst 17 (blen b) ++ zero_word 3 b))).
Proof.
  intros b src dst B VS VD L. destruct (udp_text_total b src dst B VS VD L) as (OK & T & _).
  unfold udp_ipv4_checksum, udp_ipv4_checksum_adv, ipv4_checksum. change proto_udp with 17. change 3 with (Z.of_nat 3) at 1.
  destruct (v4_sum m src VS) as (A & HA & EA & RA). destruct (v4_sum m dst VD) as (B' & HB & EB & RB).
  rewrite (pseudo_ok m ipv4_word_sum src dst 17 b 3 [] A B'); auto; try lia.
  - rewrite T. change (blen []) with 0. change (wsum (words [])) with 0. subst. do 3 f_equal. lia.
  - constructor.
  - unfold byte_ok. lia.
  - change (blen []) with 0. lia.
Qed.

Theorem udp_zero_iff : forall b src dst, bytes_ok b -> ipv4_addr src -> ipv4_addr dst -> blen b <= 65535 ->
  (udp_ipv4_checksum m b src dst = Ok 0 <-> total (pseudo_v4 src dst 17 (blen b) ++ zero_word 3 b) mod 65535 = 0).
Proof.
  intros b src dst B VS VD L. destruct (udp_text_total b src dst B VS VD L) as (OK & T & P).
  rewrite udp_v4_value by auto. set (t := total _) in *. clearbody t. unfold canon.
  replace (t =? 0) with false by lia. split; intros H.
  - assert (65535 - ((t - 1) mod 65535 + 1) = 0) by congruence. lia.
  - f_equal. lia.
Qed.

(** Any datagram with two bytes outside the checksum field can be completed so. *)
Theorem udp_zero_reachable : forall b src dst j, bytes_ok b -> ipv4_addr src -> ipv4_addr dst -> blen b <= 65535 ->
  (2 * j + 1 < length b)%nat -> j <> 3%nat ->
  exists v, 0 <= v < 65536 /\ udp_ipv4_checksum m (put_word j v b) src dst = Ok 0.
Proof.
  intros b src dst j B VS VD L J N. destruct (udp_text_total b src dst B VS VD L) as (OK & T & P).
  set (t := total (pseudo_v4 src dst 17 (blen b) ++ zero_word 3 b)) in *.
  exists ((word_at j b - t) mod 65535). set (v := (word_at j b - t) mod 65535).
  assert (V : 0 <= v < 65536) by lia. split; [exact V|].
  assert (LB : blen (put_word j v b) = blen b) by (now apply blen_put_word).
  destruct (udp_text_total (put_word j v b) src dst) as (OK' & T' & P'); auto using put_word_ok; [rewrite LB; auto|].
  apply udp_zero_iff; auto using put_word_ok; [rewrite LB; auto|]. rewrite T', LB, put_other_wsum by auto.
  replace (wsum (words src) + wsum (words dst) + 17 + blen b + (wsum (words (zero_word 3 b)) + v - word_at j b))
    with (t + v - word_at j b) by lia. unfold v. clear. lia.
Qed.
End Wrappers.

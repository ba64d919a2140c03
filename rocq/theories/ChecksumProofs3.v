(** Proofs about the algebra of the checksum functions. *)
From Coq Require Import String ZArith List Bool Lia ZifyBool ZifyNat Permutation.
From Verif Require Import Base BitSpec DeriveUtil DeriveOps DeriveGen Protocols Checksum SpecChecksum SpecChecksum2.
From Verif Require Import BaseFacts DeriveGenProofs ChecksumProofs ChecksumProofs2.
Import ListNotations.
Open Scope Z_scope.
Ltac Zify.zify_post_hook ::= Z.to_euclidean_division_equations.

(** ** Order of the words *)

Lemma wsum_perm : forall a b, Permutation a b -> wsum a = wsum b.
Proof. induction 1; cbn [wsum fold_right] in *; unfold wsum in *; lia. Qed.

Theorem checksum_perm : forall m d d' k k', bytes_ok d -> bytes_ok d' -> blen d <= 131074 -> blen d' <= 131074 ->
  Permutation (words (zero_word k d)) (words (zero_word k' d')) ->
  checksum m d (Z.of_nat k) = checksum m d' (Z.of_nat k').
Proof.
  intros m d d' k k' B B' L L' P.
  destruct d as [|x d].
  - replace (zero_word k []) with (@nil Z) in P by (destruct k; reflexivity). cbn [words] in P.
    apply Permutation_nil in P. destruct d' as [|y [|z d']].
    + destruct k, k'; reflexivity.
    + destruct k'; discriminate P.
    + destruct k'; discriminate P.
  - destruct d' as [|y d'].
    { replace (zero_word k' []) with (@nil Z) in P by (destruct k'; reflexivity). cbn [words] in P.
      apply Permutation_sym, Permutation_nil in P. destruct d as [|z d]; destruct k; discriminate P. }
    assert (0 < blen (x :: d)) by (unfold blen; cbn [length]; lia).
    assert (0 < blen (y :: d')) by (unfold blen; cbn [length]; lia).
    rewrite !checksum_canon by (auto; lia). now rewrite (wsum_perm _ _ P).
Qed.

Lemma word_at_bound : forall d j, bytes_ok d -> (2 * j + 1 < length d)%nat -> 0 <= word_at j d < 65536.
Proof.
  intros d j B L. unfold word_at.
  assert (X := nth_byte d (2 * j) B ltac:(lia)). assert (Y := nth_byte d (2 * j + 1) B L). unfold byte_ok in *. lia.
Qed.

Lemma put_word_at : forall (d : buf) j i v, (2 * j + 1 < length d)%nat -> i <> j -> word_at i (put_word j v d) = word_at i d.
Proof.
  intros d. induction d as [|x|a b r IH] using pair_ind; intros j i v L N; cbn [length] in L; try lia.
  destruct j as [|j].
  - change (put_word 0 v (a :: b :: r)) with (v / 256 :: v mod 256 :: r). destruct i as [|i]; [lia|].
    unfold word_at. replace (2 * S i)%nat with (S (S (2 * i))) by lia. reflexivity.
  - rewrite put_word_S. destruct i as [|i]; [reflexivity|].
    specialize (IH j i v ltac:(lia) ltac:(lia)). unfold word_at in *.
    replace (2 * S i)%nat with (S (S (2 * i))) by lia. cbn [nth Nat.add]. exact IH.
Qed.

Theorem checksum_swap_words : forall m d i j k, bytes_ok d -> blen d <= 131074 ->
  (2 * i + 1 < length d)%nat -> (2 * j + 1 < length d)%nat -> i <> j -> i <> k -> j <> k ->
  checksum m (swap_words i j d) (Z.of_nat k) = checksum m d (Z.of_nat k).
Proof.
  intros m d i j k B L I J IJ IK JK. unfold swap_words.
  assert (WI := word_at_bound d i B I). assert (WJ := word_at_bound d j B J).
  assert (B1 : bytes_ok (put_word j (word_at i d) d)) by auto using put_word_ok.
  assert (L1 : length (put_word j (word_at i d) d) = length d) by auto using put_word_length.
  assert (0 < blen d) by (unfold blen; lia).
  rewrite (checksum_canon m d k B) by lia.
  rewrite checksum_canon; [|auto using put_word_ok|unfold blen in *; rewrite put_word_length; rewrite L1; lia].
  rewrite put_other_wsum by (rewrite ?L1; auto). rewrite put_other_wsum by auto. rewrite put_word_at by auto.
  do 3 f_equal. lia.
Qed.

Theorem ipv4_swap_addresses : forall m d k e src dst proto, bytes_ok d -> bytes_ok e -> ipv4_addr src -> ipv4_addr dst ->
  byte_ok proto -> Nat.even (length e) = true -> blen d + blen e <= 65535 ->
  ipv4_checksum m d (Z.of_nat k) e src dst proto = ipv4_checksum m d (Z.of_nat k) e dst src proto.
Proof.
  intros m d k e src dst proto BD BE VS VD P EV L.
  destruct (v4_sum m src VS) as (A & HA & EA & RA). destruct (v4_sum m dst VD) as (B & HB & EB & RB).
  unfold ipv4_checksum. rewrite (pseudo_ok m ipv4_word_sum src dst proto d k e A B); auto; try lia.
  rewrite (pseudo_ok m ipv4_word_sum dst src proto d k e B A); auto; try lia. do 3 f_equal. lia.
Qed.

Theorem ipv6_swap_addresses : forall m d k e src dst proto, bytes_ok d -> bytes_ok e -> ipv6_addr src -> ipv6_addr dst ->
  byte_ok proto -> Nat.even (length e) = true -> blen d + blen e <= 131000 ->
  ipv6_checksum m d (Z.of_nat k) e src dst proto = ipv6_checksum m d (Z.of_nat k) e dst src proto.
Proof.
  intros m d k e src dst proto BD BE VS VD P EV L.
  destruct (v6_sum m src VS) as (A & HA & EA & RA). destruct (v6_sum m dst VD) as (B & HB & EB & RB).
  unfold ipv6_checksum. rewrite (pseudo_ok m ipv6_word_sum src dst proto d k e A B); auto; try lia.
  rewrite (pseudo_ok m ipv6_word_sum dst src proto d k e B A); auto; try lia. do 3 f_equal. lia.
Qed.

(** ** Byte order *)

Lemma swap_pairs_ok : forall d : buf, bytes_ok d -> bytes_ok (swap_pairs d).
Proof.
  intros d. unfold bytes_ok. induction d as [|x|a b r IH] using pair_ind; cbn [swap_pairs]; auto.
  intros F. inversion F as [|? ? A F1]; subst. inversion F1 as [|? ? B F2]; subst. auto.
Qed.

Lemma swap_pairs_length : forall d : buf, length (swap_pairs d) = length d.
Proof. intros d. induction d as [|x|a b r IH] using pair_ind; cbn [swap_pairs length]; congruence. Qed.

Lemma swap_zero : forall (d : buf) k, Nat.even (length d) = true -> zero_word k (swap_pairs d) = swap_pairs (zero_word k d).
Proof.
  intros d. induction d as [|x|a b r IH] using pair_ind; intros k E; [now destruct k|discriminate E|].
  destruct k as [|k]; cbn [swap_pairs zero_word]; [reflexivity|]. now rewrite IH.
Qed.

Lemma swap_wsum : forall d : buf, Nat.even (length d) = true -> bytes_ok d ->
  wsum (words (swap_pairs d)) mod 65535 = (256 * wsum (words d)) mod 65535 /\
  (wsum (words (swap_pairs d)) = 0 <-> wsum (words d) = 0).
Proof.
  intros d. induction d as [|x|a b r IH] using pair_ind; intros E B; [split; [reflexivity|tauto]|discriminate E|].
  inversion B as [|? ? BA F1]; subst. inversion F1 as [|? ? BB F2]; subst.
  destruct (IH E F2) as [I1 I2].
  assert (N1 := wsum_nonneg _ (words_ok _ (swap_pairs_ok r F2))). assert (N2 := wsum_nonneg _ (words_ok _ F2)).
  cbn [swap_pairs words wsum fold_right]. fold (wsum (words r)) (wsum (words (swap_pairs r))).
  set (u := wsum (words (swap_pairs r))) in *. set (w := wsum (words r)) in *. unfold byte_ok in *.
  split; [|lia].
  replace (256 * (256 * a + b + w)) with (256 * w + (256 * b + a) + a * 65535) by lia.
  rewrite Z_mod_plus_full. replace (256 * b + a + u) with (u + (256 * b + a)) by lia.
  rewrite <- (Z.add_mod_idemp_l u), I1 by lia. now rewrite Z.add_mod_idemp_l by lia.
Qed.

Lemma bswap_canon : forall s t, 0 <= s -> 0 <= t -> (t = 0 <-> s = 0) -> t mod 65535 = (256 * s) mod 65535 ->
  canon t = bswap (canon s).
Proof.
  intros s t S T Z0 M. unfold canon, bswap. destruct (t =? 0) eqn:E; destruct (s =? 0) eqn:F; try (exfalso; lia); [reflexivity|].
  assert (X : exists q c, s = q * 65535 + c /\ 1 <= c <= 65535 /\ (s - 1) mod 65535 + 1 = c).
  { exists ((s - 1) / 65535), ((s - 1) mod 65535 + 1). lia. }
  destruct X as (q & c & Es & C & ->).
  assert (Y : (t - 1) mod 65535 + 1 = 256 * (c mod 256) + c / 256); [|exact Y].
  assert (K : t mod 65535 = (256 * c) mod 65535).
  { rewrite M, Es. replace (256 * (q * 65535 + c)) with (256 * c + (256 * q) * 65535) by lia. apply Z_mod_plus_full. }
  clear M Es.
  assert (W : (256 * c) mod 65535 = (256 * (c mod 256) + c / 256) mod 65535).
  { replace (256 * c) with (256 * (c mod 256) + c / 256 + (c / 256) * 65535) by lia. apply Z_mod_plus_full. }
  rewrite W in K. clear W. set (v := 256 * (c mod 256) + c / 256) in *.
  assert (1 <= v <= 65535) by (subst v; lia). clearbody v. lia.
Qed.

Lemma bswap_compl : forall x, 0 <= x <= 65535 -> bswap (65535 - x) = 65535 - bswap x.
Proof. intros x X. unfold bswap. lia. Qed.

Theorem checksum_byte_order : forall m d k, bytes_ok d -> d <> [] -> Nat.even (length d) = true -> blen d <= 131074 ->
  exists ck, checksum m d (Z.of_nat k) = Ok ck /\ checksum m (swap_pairs d) (Z.of_nat k) = Ok (bswap ck).
Proof.
  intros m d k B NE E L.
  assert (0 < blen d) by (destruct d; [congruence|unfold blen; cbn [length]; lia]).
  exists (65535 - canon (wsum (words (zero_word k d)))). split; [apply checksum_canon; auto; lia|].
  assert (Bz := zero_word_ok d k B).
  rewrite checksum_canon; [|now apply swap_pairs_ok|unfold blen in *; rewrite swap_pairs_length; lia].
  rewrite swap_zero by auto. destruct (swap_wsum (zero_word k d)) as [M Z]; [now rewrite zero_word_length|auto|].
  assert (N1 := wsum_nonneg _ (words_ok _ Bz)).
  rewrite bswap_compl by (now apply canon_range).
  do 2 f_equal. apply bswap_canon; auto.
  apply wsum_nonneg, words_ok. now apply swap_pairs_ok.
Qed.

(** ** Checksums of parts *)

Lemma canon_oadd : forall s t, 0 <= s -> 0 <= t -> canon (s + t) = oadd (canon s) (canon t).
Proof.
  intros s t S T. unfold canon, oadd.
  destruct (s =? 0) eqn:A; destruct (t =? 0) eqn:B; destruct (s + t =? 0) eqn:C; try lia;
  match goal with |- context [?x <? 65536] => destruct (x <? 65536) eqn:D end; lia.
Qed.

Lemma zero_word_app : forall (a b : buf) k, (2 * k + 1 < length a)%nat -> zero_word k (a ++ b) = zero_word k a ++ b.
Proof.
  intros a. induction a as [|x|x y r IH] using pair_ind; intros b k L; cbn [length] in L; try lia.
  destruct k as [|k]; cbn [app zero_word]; [reflexivity|]. rewrite IH by lia. reflexivity.
Qed.

Theorem checksum_parts : forall m a b k kb, bytes_ok a -> bytes_ok b -> blen a + blen b <= 131074 ->
  Nat.even (length a) = true -> (2 * k + 1 < length a)%nat -> b <> [] -> (length b <= 2 * kb)%nat ->
  exists x y, checksum m a (Z.of_nat k) = Ok x /\ checksum m b (Z.of_nat kb) = Ok y /\
    checksum m (a ++ b) (Z.of_nat k) = Ok (65535 - oadd (65535 - x) (65535 - y)).
Proof.
  intros m a b k kb BA BB L E K NE KB.
  assert (0 < blen a) by (unfold blen; lia).
  assert (0 < blen b) by (destruct b; [congruence|unfold blen; cbn [length]; lia]).
  do 2 eexists. split; [apply checksum_canon; auto; lia|]. split; [apply checksum_canon; auto; lia|].
  assert (blen (a ++ b) = blen a + blen b) by (unfold blen; rewrite app_length; lia).
  rewrite checksum_canon; [|apply Forall_app; auto|lia].
  rewrite zero_word_app, words_app, wsum_app by (rewrite ?zero_word_length; auto).
  rewrite (zero_word_past b kb) by lia.
  assert (N1 := wsum_nonneg _ (words_ok _ (zero_word_ok a k BA))). assert (N2 := wsum_nonneg _ (words_ok _ BB)).
  rewrite canon_oadd by auto. do 2 f_equal. f_equal; lia.
Qed.

(** ** Incremental update *)

Lemma total_zero : forall d : buf, bytes_ok d -> (wsum (words d) = 0 <-> Forall (fun x => x = 0) d).
Proof.
  intros d. induction d as [|x|a b r IH] using pair_ind; intros B.
  - split; [constructor|reflexivity].
  - inversion B; subst. unfold byte_ok in *. cbn [words wsum fold_right]. split; intros H.
    + constructor; [lia|constructor].
    + inversion H; subst. reflexivity.
  - inversion B as [|? ? BA F1]; subst. inversion F1 as [|? ? BB F2]; subst. unfold byte_ok in *.
    cbn [words wsum fold_right]. fold (wsum (words r)). assert (N := wsum_nonneg _ (words_ok _ F2)).
    specialize (IH F2). split; intros H.
    + constructor; [lia|]. constructor; [lia|]. apply IH. lia.
    + inversion H as [|? ? HA G1]; subst. inversion G1 as [|? ? HB G2]; subst. apply IH in G2. lia.
Qed.

Theorem checksum_incremental : forall m d j k v, bytes_ok d -> blen d <= 131074 -> (2 * j + 1 < length d)%nat -> j <> k ->
  0 <= v < 65536 ->
  exists hc hc', checksum m d (Z.of_nat k) = Ok hc /\ checksum m (put_word j v d) (Z.of_nat k) = Ok hc' /\
    ((exists x, In x (zero_word k (put_word j v d)) /\ x <> 0) -> hc' = rfc1624 hc (word_at j d) v) /\
    (Forall (fun x => x = 0) (zero_word k (put_word j v d)) -> hc' = 65535 /\ rfc1624 hc (word_at j d) v = 0).
Proof.
  intros m d j k v B L J N V.
  assert (0 < blen d) by (unfold blen; lia).
  assert (B' := put_word_ok j v d B V).
  do 2 eexists. split; [apply checksum_canon; auto; lia|].
  split; [apply checksum_canon; auto; rewrite blen_put_word; lia|].
  assert (TZ := total_zero _ (zero_word_ok _ k B')).
  rewrite put_other_wsum in TZ |- * by auto.
  assert (W := word_at_bound d j B J).
  assert (NN := wsum_nonneg _ (words_ok _ (zero_word_ok _ k B'))). rewrite put_other_wsum in NN by auto.
  assert (NS := wsum_nonneg _ (words_ok _ (zero_word_ok _ k B))).
  assert (GE : word_at j d <= wsum (words (zero_word k d))).
  { assert (X := wsum_nonneg _ (words_ok _ (zero_word_ok _ k (put_word_ok j 0 d B ltac:(lia))))).
    rewrite put_other_wsum in X by auto. lia. }
  set (s := wsum (words (zero_word k d))) in *. set (w := word_at j d) in *. clearbody s w.
  unfold rfc1624. replace (65535 - (65535 - canon s)) with (canon s) by lia.
  assert (R : oadd (oadd (canon s) (65535 - w)) v = canon (canon s + (65535 - w) + v)).
  {
    rewrite canon_oadd by (assert (C := canon_range s NS); lia).
    rewrite canon_oadd by (assert (C := canon_range s NS); lia).
    f_equal; [|unfold canon; destruct (v =? 0) eqn:Q; lia]. f_equal.
    - unfold canon. destruct (s =? 0) eqn:Q; [reflexivity|]. destruct ((s - 1) mod 65535 + 1 =? 0) eqn:Q2; lia.
    - unfold canon. destruct (65535 - w =? 0) eqn:Q; lia. }
  rewrite R. clear R. split.
  - intros (x & IX & X0). f_equal. assert (NZ : s + v - w <> 0).
    { intros Q. apply TZ in Q. rewrite Forall_forall in Q. auto. }
    clear TZ. unfold canon.
    destruct (s =? 0) eqn:Q1; destruct (s + v - w =? 0) eqn:Q2;
      match goal with |- context [?x =? 0] => destruct (x =? 0) eqn:Q3 end; lia.
  - intros F. apply TZ in F. clear TZ. rewrite F. split; [reflexivity|].
    assert (v = 0) by lia. assert (s = w) by lia. subst v w. unfold canon.
    destruct (s =? 0) eqn:Q1.
    + assert (s = 0) by lia. subst s. reflexivity.
    + match goal with |- context [?x =? 0] => destruct (x =? 0) eqn:Q3 end; lia.
Qed.

(** ** The receiver's comparison *)

Lemma verify_iff : forall s v, 0 <= s -> 0 <= v < 65536 ->
  (canon (s + v) = 65535 <-> v = 65535 - canon s \/ (65535 - canon s = 0 /\ v = 65535)).
Proof.
  intros s v S V. unfold canon. destruct (s =? 0) eqn:A; destruct (s + v =? 0) eqn:B; lia.
Qed.

Theorem checksum_receiver : forall m d k, bytes_ok d -> (2 * k + 1 < length d)%nat -> blen d <= 131074 ->
  exists ck, checksum m d (Z.of_nat k) = Ok ck /\
    (verifies d <-> word_at k d = ck \/ (ck = 0 /\ word_at k d = 65535)).
Proof.
  intros m d k B K L. assert (0 < blen d) by (unfold blen; lia).
  eexists. split; [apply checksum_canon; auto; lia|].
  unfold verifies. rewrite osum_canon by (now apply words_ok).
  assert (E : wsum (words d) = wsum (words (zero_word k d)) + word_at k d).
  { assert (X := put_word_wsum d k 0 K). assert (Y := put_word_wsum' d k 0 K). lia. }
  rewrite E. apply verify_iff; [apply wsum_nonneg, words_ok; now apply zero_word_ok|now apply word_at_bound].
Qed.

Lemma wsum_zero_at : forall d k, (2 * k + 1 < length d)%nat -> wsum (words d) = wsum (words (zero_word k d)) + word_at k d.
Proof. intros d k K. assert (X := put_word_wsum d k 0 K). assert (Y := put_word_wsum' d k 0 K). lia. Qed.

Theorem ipv4_receiver : forall m d k e src dst proto, bytes_ok d -> bytes_ok e -> ipv4_addr src -> ipv4_addr dst ->
  byte_ok proto -> Nat.even (length e) = true -> blen d + blen e <= 65535 -> (2 * k + 1 < length d)%nat ->
  exists ck, ipv4_checksum m d (Z.of_nat k) e src dst proto = Ok ck /\
    (verifies (pseudo_v4 src dst proto (blen d + blen e) ++ pad2 d ++ e) <->
     word_at k d = ck \/ (ck = 0 /\ word_at k d = 65535)).
Proof.
  intros m d k e src dst proto BD BE VS VD P EV L K.
  eexists. split; [apply ipv4_checksum_spec; auto|].
  destruct (segment_v4 src dst proto (zero_word k d) e) as [OK S]; auto using zero_word_ok; [rewrite blen_zero_word; lia|].
  destruct (segment_v4 src dst proto d e) as [OK' S']; auto.
  rewrite blen_zero_word in OK, S. rewrite rfc_canon by auto.
  unfold verifies. rewrite osum_canon by (now apply words_ok).
  assert (E : wsum (words (pseudo_v4 src dst proto (blen d + blen e) ++ pad2 d ++ e)) =
    wsum (words (pseudo_v4 src dst proto (blen d + blen e) ++ pad2 (zero_word k d) ++ e)) + word_at k d).
  { rewrite S, S', (wsum_zero_at d k K). lia. }
  rewrite E. apply verify_iff; [apply wsum_nonneg, words_ok; auto|now apply word_at_bound].
Qed.

Theorem ipv6_receiver : forall m d k e src dst proto, bytes_ok d -> bytes_ok e -> ipv6_addr src -> ipv6_addr dst ->
  byte_ok proto -> Nat.even (length e) = true -> blen d + blen e <= 131000 -> (2 * k + 1 < length d)%nat ->
  exists ck, ipv6_checksum m d (Z.of_nat k) e src dst proto = Ok ck /\
    (verifies (pseudo_v6 src dst proto (blen d + blen e) ++ pad2 d ++ e) <->
     word_at k d = ck \/ (ck = 0 /\ word_at k d = 65535)).
Proof.
  intros m d k e src dst proto BD BE VS VD P EV L K.
  eexists. split; [apply ipv6_checksum_spec; auto|].
  destruct (segment_v6 src dst proto (zero_word k d) e) as [OK S]; auto using zero_word_ok; [rewrite blen_zero_word; lia|].
  destruct (segment_v6 src dst proto d e) as [OK' S']; auto.
  rewrite blen_zero_word in OK, S. rewrite rfc_canon by auto.
  unfold verifies. rewrite osum_canon by (now apply words_ok).
  rewrite S, S', (wsum_zero_at d k K).
  set (A := wsum (words (addr_v6 src))). set (B := wsum (words (addr_v6 dst))).
  assert (0 <= A) by (apply wsum_nonneg, words_ok; now apply addr_v6_ok).
  assert (0 <= B) by (apply wsum_nonneg, words_ok; now apply addr_v6_ok).
  assert (0 <= wsum (words (zero_word k d))) by (apply wsum_nonneg, words_ok; now apply zero_word_ok).
  assert (0 <= wsum (words e)) by (apply wsum_nonneg; now apply words_ok).
  assert (0 <= blen d + blen e) by (unfold blen; lia). unfold byte_ok in P.
  match goal with |- canon ?x = _ <-> _ = 65535 - canon ?y \/ _ => replace x with (y + word_at k d) by lia end.
  apply verify_iff; [lia|now apply word_at_bound].
Qed.

Lemma put_word_same : forall (d : buf) k, bytes_ok d -> (2 * k + 1 < length d)%nat -> put_word k (word_at k d) d = d.
Proof.
  intros d. induction d as [|x|a b r IH] using pair_ind; intros k B L; cbn [length] in L; try lia.
  inversion B as [|? ? BA F1]; subst. inversion F1 as [|? ? BB F2]; subst. unfold byte_ok in *.
  destruct k as [|k].
  - unfold word_at. cbn [Nat.mul Nat.add nth].
    change (put_word 0 (256 * a + b) (a :: b :: r)) with ((256 * a + b) / 256 :: (256 * a + b) mod 256 :: r).
    f_equal; [lia|]. f_equal. lia.
  - rewrite put_word_S. replace (word_at (S k) (a :: b :: r)) with (word_at k r)
      by (unfold word_at; replace (2 * S k)%nat with (S (S (2 * k))) by lia; reflexivity).
    rewrite IH by (auto; lia). reflexivity.
Qed.

Section Receive.
Variable c : cfg.
Let m := c_mode c.

Ltac min_of NW fs n MN := assert (MN := new_min _ _ NW); change (minimum_packet_size fs) with n in MN.
Ltac got L k BO NW :=
  match goal with b : buf |- _ =>
    let X := fresh in
    assert (X := proj2 (L b (word_at k b) BO NW (word_at_bound b k (proj1 BO) ltac:(unfold blen in *; lia))));
    rewrite put_word_same in X by (try apply BO; unfold blen in *; lia); exact X
  end.

Theorem udp_v4_receiver : forall b extra src dst, buf_ok b -> new udp b = Some b -> bytes_ok extra ->
  Nat.even (length extra) = true -> ipv4_addr src -> ipv4_addr dst -> blen b + blen extra <= 65535 ->
  exists ck v, udp_ipv4_checksum_adv m b extra src dst = Ok ck /\ get c udp "checksum" b = Ok (VInt v) /\
    (verifies (pseudo_v4 src dst 17 (blen b + blen extra) ++ pad2 b ++ extra) <-> v = ck \/ (ck = 0 /\ v = 65535)).
Proof.
  intros b extra src dst BO NW BE EV VS VD L. min_of NW udp 8 MN.
  destruct (ipv4_receiver m b 3 extra src dst 17) as (ck & E & V); auto; try apply BO; try (unfold byte_ok; lia).
  { unfold blen in MN. lia. }
  exists ck, (word_at 3 b). split; [exact E|]. split; [got (udp_set c) 3%nat BO NW|exact V].
Qed.

Theorem udp_v6_receiver : forall b extra src dst, buf_ok b -> new udp b = Some b -> bytes_ok extra ->
  Nat.even (length extra) = true -> ipv6_addr src -> ipv6_addr dst -> blen b + blen extra <= 131000 ->
  exists ck v, udp_ipv6_checksum_adv m b extra src dst = Ok ck /\ get c udp "checksum" b = Ok (VInt v) /\
    (verifies (pseudo_v6 src dst 17 (blen b + blen extra) ++ pad2 b ++ extra) <-> v = ck \/ (ck = 0 /\ v = 65535)).
Proof.
  intros b extra src dst BO NW BE EV VS VD L. min_of NW udp 8 MN.
  destruct (ipv6_receiver m b 3 extra src dst 17) as (ck & E & V); auto; try apply BO; try (unfold byte_ok; lia).
  { unfold blen in MN. lia. }
  exists ck, (word_at 3 b). split; [exact E|]. split; [got (udp_set c) 3%nat BO NW|exact V].
Qed.

Theorem tcp_v4_receiver : forall b extra src dst, buf_ok b -> new (tcp c) b = Some b -> bytes_ok extra ->
  Nat.even (length extra) = true -> ipv4_addr src -> ipv4_addr dst -> blen b + blen extra <= 65535 ->
  exists ck v, tcp_ipv4_checksum_adv m b extra src dst = Ok ck /\ get c (tcp c) "checksum" b = Ok (VInt v) /\
    (verifies (pseudo_v4 src dst 6 (blen b + blen extra) ++ pad2 b ++ extra) <-> v = ck \/ (ck = 0 /\ v = 65535)).
Proof.
  intros b extra src dst BO NW BE EV VS VD L. min_of NW (tcp c) 20 MN.
  destruct (ipv4_receiver m b 8 extra src dst 6) as (ck & E & V); auto; try apply BO; try (unfold byte_ok; lia).
  { unfold blen in MN. lia. }
  exists ck, (word_at 8 b). split; [exact E|]. split; [got (tcp_set c) 8%nat BO NW|exact V].
Qed.

Theorem tcp_v6_receiver : forall b extra src dst, buf_ok b -> new (tcp c) b = Some b -> bytes_ok extra ->
  Nat.even (length extra) = true -> ipv6_addr src -> ipv6_addr dst -> blen b + blen extra <= 131000 ->
  exists ck v, tcp_ipv6_checksum_adv m b extra src dst = Ok ck /\ get c (tcp c) "checksum" b = Ok (VInt v) /\
    (verifies (pseudo_v6 src dst 6 (blen b + blen extra) ++ pad2 b ++ extra) <-> v = ck \/ (ck = 0 /\ v = 65535)).
Proof.
  intros b extra src dst BO NW BE EV VS VD L. min_of NW (tcp c) 20 MN.
  destruct (ipv6_receiver m b 8 extra src dst 6) as (ck & E & V); auto; try apply BO; try (unfold byte_ok; lia).
  { unfold blen in MN. lia. }
  exists ck, (word_at 8 b). split; [exact E|]. split; [got (tcp_set c) 8%nat BO NW|exact V].
Qed.

Theorem icmpv6_receiver : forall b src dst, buf_ok b -> new icmpv6 b = Some b ->
  ipv6_addr src -> ipv6_addr dst -> blen b <= 131000 ->
  exists ck v, icmpv6_checksum m b src dst = Ok ck /\ get c icmpv6 "checksum" b = Ok (VInt v) /\
    (verifies (pseudo_v6 src dst 58 (blen b) ++ b) <-> v = ck \/ (ck = 0 /\ v = 65535)).
Proof.
  intros b src dst BO NW VS VD L. min_of NW icmpv6 4 MN.
  destruct (ipv6_receiver m b 1 [] src dst 58) as (ck & E & V); auto; try apply BO; try (unfold byte_ok; lia).
  { constructor. } { change (blen []) with 0. lia. } { unfold blen in MN. lia. }
  exists ck, (word_at 1 b). split; [exact E|]. split; [got (icmpv6_set c) 1%nat BO NW|].
  rewrite app_nil_r in V. change (blen []) with 0 in V. rewrite Z.add_0_r in V.
  unfold verifies in *. rewrite words_app in V by apply pseudo_v6_even. rewrite words_app by apply pseudo_v6_even.
  now rewrite words_pad in V.
Qed.

Theorem icmp_receiver : forall b, buf_ok b -> new icmp b = Some b -> blen b <= 131074 ->
  exists ck v, icmp_checksum m b = Ok ck /\ get c icmp "checksum" b = Ok (VInt v) /\
    (verifies b <-> v = ck \/ (ck = 0 /\ v = 65535)).
Proof.
  intros b BO NW L. min_of NW icmp 4 MN.
  destruct (checksum_receiver m b 1) as (ck & E & V); auto; try apply BO. { unfold blen in MN. lia. }
  exists ck, (word_at 1 b). split; [exact E|]. split; [got (icmp_set c) 1%nat BO NW|exact V].
Qed.

Theorem ipv4_header_receiver : forall b, buf_ok b -> new (ipv4 c) b = Some b ->
  exists ck v, ipv4_header_checksum c b = Ok ck /\ get c (ipv4 c) "checksum" b = Ok (VInt v) /\
    (verifies (firstn (covered b) b) <-> v = ck \/ (ck = 0 /\ v = 65535)).
Proof.
  intros b BO NW. min_of NW (ipv4 c) 20 MN. destruct (ipv4_ihl c b BO NW) as [G R].
  rewrite ipv4_header_data by auto.
  assert (L : (20 <= length (firstn (covered b) b) <= 60)%nat).
  { rewrite firstn_length. unfold covered, blen in *. lia. }
  destruct (checksum_receiver m (firstn (covered b) b) 5) as (ck & E & V).
  - apply Forall_firstn, BO.
  - lia.
  - unfold blen. lia.
  - exists ck, (word_at 5 b). split; [exact E|]. split; [got (ipv4_set c) 5%nat BO NW|].
    replace (word_at 5 b) with (word_at 5 (firstn (covered b) b)); [exact V|].
    assert (C20 : (20 <= covered b)%nat) by (rewrite firstn_length in L; lia).
    assert (N : forall i, (i < covered b)%nat -> nth i (firstn (covered b) b) 0 = nth i b 0).
    { intros i I. clear -I. revert i I. generalize (covered b). intros n. revert b.
      induction n as [|n IH]; intros b i I; [lia|]. destruct b as [|x b]; [destruct i; reflexivity|].
      destruct i as [|i]; [reflexivity|]. cbn [firstn nth]. apply IH. lia. }
    unfold word_at. rewrite !N by lia. reflexivity.
Qed.
End Receive.

(** Proofs about the checksum functions. *)
From Coq Require Import String ZArith List Bool Lia ZifyBool ZifyNat.
From Verif Require Import Base BitSpec DeriveUtil DeriveOps DeriveGen Protocols Checksum SpecChecksum.
From Verif Require Import BaseFacts DeriveGenProofs.
Import ListNotations.
Open Scope Z_scope.
Ltac Zify.zify_post_hook ::= Z.to_euclidean_division_equations.

Lemma pair_ind : forall (P : buf -> Prop), P [] -> (forall x, P [x]) ->
  (forall a b r, P r -> P (a :: b :: r)) -> forall d, P d.
Proof.
  intros P H0 H1 H2. assert (X : forall d, P d /\ forall x, P (x :: d)).
  { induction d as [|a d [IH1 IH2]]; split; auto. }
  intros d. apply X.
Qed.

(** ** One's complement sums *)

Definition canon (s : Z) : Z := if s =? 0 then 0 else (s - 1) mod 65535 + 1.

Lemma canon_range : forall s, 0 <= s -> 0 <= canon s <= 65535.
Proof. intros s S. unfold canon. destruct (s =? 0); lia. Qed.

Definition wsum (l : list Z) : Z := fold_right Z.add 0 l.

Definition word_ok (w : Z) : Prop := 0 <= w < 65536.

Lemma wsum_nonneg : forall l, Forall word_ok l -> 0 <= wsum l.
Proof. induction 1; cbn [wsum fold_right]; [lia|]. unfold word_ok, wsum in *. lia. Qed.

Lemma osum_canon : forall l, Forall word_ok l -> osum l = canon (wsum l).
Proof.
  induction 1 as [|w l W F IH]; [reflexivity|].
  cbn [osum wsum fold_right]. fold (osum l) (wsum l). rewrite IH. assert (N := wsum_nonneg l F).
  unfold oadd, canon, word_ok in *.
  destruct (wsum l =? 0) eqn:A; destruct (w + wsum l =? 0) eqn:B;
  match goal with |- context [?x <? 65536] => destruct (x <? 65536) eqn:C end; lia.
Qed.

Lemma canon_congr : forall a b, 0 <= a -> 0 <= b -> (a = 0 <-> b = 0) -> a mod 65535 = b mod 65535 ->
  canon a = canon b.
Proof. intros a b A B Z M. unfold canon. destruct (a =? 0) eqn:E; destruct (b =? 0) eqn:F; lia. Qed.

Lemma canon_differ : forall a b, 0 <= a -> 0 <= b -> a mod 65535 <> b mod 65535 -> canon a <> canon b.
Proof. intros a b A B M. unfold canon. destruct (a =? 0) eqn:E; destruct (b =? 0) eqn:F; lia. Qed.

Lemma add32 : forall m a b, 0 <= a -> 0 <= b -> a + b < 2 ^ 32 -> add_u m 32 a b = Ok (a + b).
Proof.
  intros m a b A B C. unfold add_u, ovf. replace ((0 <=? a + b) && (a + b <? 2 ^ 32)) with true by lia. reflexivity.
Qed.

Lemma land_ffff : forall a, Z.land a 65535 = a mod 65536.
Proof. intros. change 65535 with (Z.ones 16). rewrite Z.land_ones by lia. reflexivity. Qed.

Lemma fold_carry_canon : forall m s, 0 <= s < 2 ^ 32 -> fold_carry m 4 s = Ok (canon s).
Proof.
  assert (ST : forall m k s, 0 <= s < 2 ^ 32 -> fold_carry m (S k) s =
    if s <? 65536 then Ok s else fold_carry m k (s / 65536 + s mod 65536)).
  { intros m k s B. cbn [fold_carry]. rewrite Z.shiftr_div_pow2, land_ffff by lia.
    change (2 ^ 16) with 65536. destruct (s <? 65536) eqn:E.
    - replace (s / 65536 =? 0) with true by lia. reflexivity.
    - replace (s / 65536 =? 0) with false by lia. rewrite add32 by lia. reflexivity. }
  intros m s B. rewrite ST by lia. unfold canon.
  destruct (s <? 65536) eqn:E1; [f_equal; destruct (s =? 0) eqn:Z0; lia|].
  replace (s =? 0) with false by lia.
  set (s1 := s / 65536 + s mod 65536). assert (M1 : (s1 - 1) mod 65535 = (s - 1) mod 65535) by lia.
  assert (B1 : 1 <= s1 <= 131070) by lia. clearbody s1.
  rewrite ST by lia. destruct (s1 <? 65536) eqn:E2; [f_equal; lia|].
  set (s2 := s1 / 65536 + s1 mod 65536). assert (M2 : (s2 - 1) mod 65535 = (s1 - 1) mod 65535) by lia.
  assert (B2 : 1 <= s2 <= 65535) by lia. clearbody s2.
  rewrite ST by lia. replace (s2 <? 65536) with true by lia. f_equal. lia.
Qed.

Lemma finalize_canon : forall m s, 0 <= s < 2 ^ 32 -> finalize_checksum m s = Ok (65535 - canon s).
Proof.
  intros m s B. unfold finalize_checksum. rewrite fold_carry_canon by auto. cbn [bind].
  f_equal. unfold cast_u. assert (R := canon_range s). change (2 ^ 16) with 65536. lia.
Qed.

(** ** Summing the words *)

Lemma words_ok : forall d, bytes_ok d -> Forall word_ok (words d).
Proof.
  intros d. induction d as [|x|a b r IH] using pair_ind; intros B.
  - constructor.
  - inversion B; subst. cbn [words]. constructor; [|constructor]. unfold byte_ok, word_ok in *; lia.
  - inversion B as [|? ? B1 B2]; subst. inversion B2; subst. cbn [words]. constructor; auto.
    unfold byte_ok, word_ok in *; lia.
Qed.

Lemma words_bound : forall d, bytes_ok d -> wsum (words d) <= 65535 * ((blen d + 1) / 2).
Proof.
  intros d. unfold blen. induction d as [|x|a b r IH] using pair_ind; intros B.
  - cbn [words wsum fold_right length]. lia.
  - inversion B; subst. unfold byte_ok in *. cbn [words wsum fold_right length]. lia.
  - inversion B as [|? ? B1 B2]; subst. inversion B2; subst. specialize (IH ltac:(auto)).
    cbn [words wsum fold_right length]. fold (wsum (words r)). unfold byte_ok in *.
    replace ((Z.of_nat (S (S (length r))) + 1) / 2) with ((Z.of_nat (length r) + 1) / 2 + 1) by lia. lia.
Qed.

Lemma zero_word_length : forall d k, length (zero_word k d) = length d.
Proof.
  intros d. induction d as [|x|a b r IH] using pair_ind; intros [|k]; cbn [zero_word length]; auto.
Qed.

Lemma zero_word_ok : forall d k, bytes_ok d -> bytes_ok (zero_word k d).
Proof.
  intros d. induction d as [|x|a b r IH] using pair_ind; intros [|k] B; cbn [zero_word]; auto;
  inversion B as [|? ? B1 B2]; subst; try inversion B2; subst; repeat constructor; auto; unfold byte_ok in *; try lia.
  apply IH. auto.
Qed.

(** Value of the full words, and of the last odd byte. *)
Fixpoint full (d : buf) (skip i : Z) : Z :=
  match d with
  | hi :: lo :: r => (if i =? skip then 0 else 256 * hi + lo) + full r skip (i + 1)
  | _ => 0
  end.
Fixpoint odd_last (d : buf) : Z :=
  match d with
  | _ :: _ :: r => odd_last r
  | [x] => 256 * x
  | [] => 0
  end.

Lemma full_bound : forall d skip i, bytes_ok d -> 0 <= full d skip i /\ full d skip i + odd_last d <= wsum (words d) /\ 0 <= odd_last d.
Proof.
  intros d skip. induction d as [|x|a b r IH] using pair_ind; intros i B.
  - cbn [words wsum fold_right full odd_last]. lia.
  - inversion B; subst. unfold byte_ok in *. cbn [words wsum fold_right full odd_last]. lia.
  - inversion B as [|? ? B1 B2]; subst. inversion B2; subst. specialize (IH (i + 1) ltac:(auto)).
    cbn [words wsum fold_right full odd_last]. fold (wsum (words r)). unfold byte_ok in *.
    destruct (i =? skip); lia.
Qed.

Lemma full_zero : forall d skip i, 0 <= i -> i <= skip ->
  wsum (words (zero_word (Z.to_nat (skip - i)) d)) =
  full d skip i + (if i + blen d / 2 =? skip then 0 else odd_last d).
Proof.
  intros d skip. unfold blen. induction d as [|x|a b r IH] using pair_ind; intros i I SK.
  - destruct (Z.to_nat (skip - i)); cbn; destruct (_ =? _); reflexivity.
  - destruct (Z.to_nat (skip - i)) eqn:K; cbn [zero_word words wsum fold_right full odd_last length];
    change (Z.of_nat 1 / 2) with 0; destruct (i + 0 =? skip) eqn:E; lia.
  - destruct (Z.to_nat (skip - i)) eqn:K; cbn [zero_word words wsum fold_right full odd_last length];
    fold (wsum (words r)).
    + replace (i =? skip) with true by lia. replace (i + Z.of_nat (S (S (length r))) / 2 =? skip) with false by lia.
      assert (X : forall d j, skip < j -> wsum (words d) = full d skip j + odd_last d).
      { intros d. induction d as [|y|a' b' r' IH'] using pair_ind; intros j J; cbn [words wsum fold_right full odd_last]; try lia.
        fold (wsum (words r')). rewrite (IH' (j + 1)) by lia. replace (j =? skip) with false by lia. lia. }
      rewrite (X r (i + 1)) by lia. lia.
    + replace (i =? skip) with false by lia. specialize (IH (i + 1)).
      replace (Z.to_nat (skip - (i + 1))) with n in IH by lia.
      fold (wsum (words (zero_word n r))). rewrite IH by lia.
      replace (i + Z.of_nat (S (S (length r))) / 2) with (i + 1 + Z.of_nat (length r) / 2) by lia. lia.
Qed.

Lemma sum_words_ok : forall m d skip i acc, bytes_ok d -> 0 <= acc -> acc + wsum (words d) < 2 ^ 32 ->
  sum_words m d skip i acc = Ok (acc + full d skip i, i + blen d / 2).
Proof.
  intros m d skip. unfold blen. induction d as [|x|a b r IH] using pair_ind; intros i acc B A L.
  - cbn [sum_words full length]. f_equal. f_equal; lia.
  - cbn [sum_words full length]. f_equal. f_equal; lia.
  - inversion B as [|? ? B1 B2]; subst. inversion B2; subst. unfold byte_ok in *.
    cbn [words wsum fold_right] in L. fold (wsum (words r)) in L.
    assert (N := wsum_nonneg _ (words_ok r ltac:(auto))).
    cbn [sum_words full length]. destruct (i =? skip) eqn:E; cbn [negb].
    + cbn [bind]. rewrite IH by (auto; lia). f_equal. f_equal; lia.
    + rewrite add32 by lia. cbn [bind]. rewrite IH by (auto; lia). f_equal. f_equal; lia.
Qed.

Lemma odd_last_nth : forall d, Z.land (blen d) 1 <> 0 ->
  idx d (blen d - 1) = Ok (odd_last d / 256) /\ odd_last d = 256 * (odd_last d / 256).
Proof.
  intros d. change 1 with (Z.ones 1) at 1. rewrite Z.land_ones by lia. change (2 ^ 1) with 2. unfold blen.
  induction d as [|x|a b r IH] using pair_ind; intros O.
  - cbn in O. lia.
  - cbn [odd_last]. split; [|lia]. replace (256 * x / 256) with x by lia. reflexivity.
  - cbn [length] in O. destruct IH as [I1 I2]; [lia|]. cbn [odd_last]. split; [|auto]. rewrite <- I1.
    unfold idx, blen. cbn [length].
    destruct r as [|y r]; [cbn in O; lia|].
    replace ((0 <=? Z.of_nat (S (S (length (y :: r)))) - 1) && (Z.of_nat (S (S (length (y :: r)))) - 1 <? Z.of_nat (S (S (length (y :: r)))))) with true by lia.
    replace ((0 <=? Z.of_nat (length (y :: r)) - 1) && (Z.of_nat (length (y :: r)) - 1 <? Z.of_nat (length (y :: r)))) with true by (cbn [length]; lia).
    f_equal. replace (Z.to_nat (Z.of_nat (S (S (length (y :: r)))) - 1)) with (S (S (Z.to_nat (Z.of_nat (length (y :: r)) - 1)))) by (cbn [length]; lia).
    reflexivity.
Qed.

Lemma odd_last_even : forall d, Z.land (blen d) 1 = 0 -> odd_last d = 0.
Proof.
  intros d. change 1 with (Z.ones 1). rewrite Z.land_ones by lia. change (2 ^ 1) with 2. unfold blen.
  induction d as [|x|a b r IH] using pair_ind; intros O; auto.
  - cbn in O. lia.
  - cbn [odd_last length] in *. apply IH. lia.
Qed.

Lemma sum_be_words_ok : forall m d skip, bytes_ok d -> 0 <= skip -> wsum (words d) < 2 ^ 32 ->
  sum_be_words m d skip = Ok (wsum (words (zero_word (Z.to_nat skip) d))).
Proof.
  intros m d skip B SK L. unfold sum_be_words. destruct (blen d =? 0) eqn:E.
  - destruct d; [|unfold blen in E; cbn in E; lia]. destruct (Z.to_nat skip); reflexivity.
  - rewrite sum_words_ok by (auto; lia). cbn [bind].
    assert (Z0 := full_zero d skip 0). replace (skip - 0) with skip in Z0 by lia. rewrite Z0 by lia.
    assert (FB := full_bound d skip 0 B).
    destruct (0 + blen d / 2 =? skip) eqn:K; cbn [negb andb].
    + f_equal. lia.
    + destruct (Z.land (blen d) 1 =? 0) eqn:O; cbn [negb].
      * rewrite odd_last_even by lia. f_equal. lia.
      * destruct (odd_last_nth d) as [I1 I2]; [lia|]. rewrite I1. cbn [bind].
        rewrite Z.shiftl_mul_pow2 by lia. change (2 ^ 8) with 256.
        rewrite add32 by lia. f_equal. lia.
Qed.

Lemma len_bound : forall d, bytes_ok d -> blen d <= 131074 -> wsum (words d) < 2 ^ 32.
Proof. intros d B L. assert (X := words_bound d B). lia. Qed.

(** ** C25 *)
Theorem checksum_rfc1071 : forall m d k, bytes_ok d -> 0 <= k -> blen d <= 131074 ->
  checksum m d k = Ok (match d with [] => 0 | _ => rfc1071 (zero_word (Z.to_nat k) d) end).
Proof.
  intros m d k B K L. unfold checksum. destruct d as [|x d]; [reflexivity|].
  replace (blen (x :: d) =? 0) with false by (unfold blen; cbn [length]; lia).
  rewrite sum_be_words_ok by (auto using len_bound). cbn [bind].
  assert (ZO := zero_word_ok (x :: d) (Z.to_nat k) B).
  assert (LB := len_bound (zero_word (Z.to_nat k) (x :: d)) ZO).
  rewrite finalize_canon.
  - unfold rfc1071. rewrite osum_canon by (apply words_ok; auto). reflexivity.
  - split; [apply wsum_nonneg, words_ok; auto|]. apply LB. unfold blen in *. now rewrite zero_word_length.
Qed.

(** ** C26 *)
Lemma sum_words_same : forall m skip (d d' : buf) i acc, length d = length d' -> 
  (forall j, i + Z.of_nat (j / 2) <> skip -> nth j d 0 = nth j d' 0) ->
  sum_words m d skip i acc = sum_words m d' skip i acc.
Proof.
  intros m skip d. induction d as [|x|a b r IH] using pair_ind; intros d' i acc L H.
  - destruct d'; [reflexivity|discriminate].
  - destruct d' as [|y [|z d']]; try discriminate. reflexivity.
  - destruct d' as [|y [|z d']]; try discriminate. cbn [sum_words].
    assert (E : (if negb (i =? skip) then add_u m 32 acc (256 * a + b) else Ok acc) =
                (if negb (i =? skip) then add_u m 32 acc (256 * y + z) else Ok acc)).
    { destruct (i =? skip) eqn:E; [reflexivity|]. cbn [negb].
      assert (X0 := H 0%nat). assert (X1 := H 1%nat). cbn in X0, X1.
      rewrite X0 by lia. rewrite X1 by lia. reflexivity. }
    rewrite E. destruct (if negb (i =? skip) then add_u m 32 acc (256 * y + z) else Ok acc) as [s|e]; [|reflexivity].
    cbn [bind]. apply IH; [cbn [length] in L; lia|].
    intros j J. assert (X := H (S (S j))). cbn [nth] in X. apply X.
    replace (S (S j) / 2)%nat with (S (j / 2)) by (symmetry; change (S (S j)) with (2 + j)%nat; lia). lia.
Qed.

Lemma sum_words_index : forall m skip d i acc s n, sum_words m d skip i acc = Ok (s, n) -> n = i + blen d / 2.
Proof.
  intros m skip d. unfold blen. induction d as [|x|a b r IH] using pair_ind; intros i acc s n H.
  - inversion H. cbn. lia.
  - inversion H. cbn [length]. lia.
  - cbn [sum_words] in H. destruct (if negb (i =? skip) then _ else _) as [t|]; [|discriminate].
    cbn [bind] in H. apply IH in H. cbn [length]. lia.
Qed.

Theorem sum_same : forall m d d' k, same_outside k d d' ->
  sum_be_words m d (Z.of_nat k) = sum_be_words m d' (Z.of_nat k).
Proof.
  intros m d d' k [L H]. unfold sum_be_words.
  assert (LB : blen d = blen d') by (unfold blen; lia). rewrite <- LB.
  destruct (blen d =? 0); [reflexivity|].
  rewrite (sum_words_same m (Z.of_nat k) d d' 0 0) by (auto; intros; apply H; lia).
  destruct (sum_words m d' (Z.of_nat k) 0 0) as [[s n]|e] eqn:E; [|reflexivity]. cbn [bind].
  apply sum_words_index in E.
  destruct (negb (n =? Z.of_nat k) && negb (Z.land (blen d) 1 =? 0)) eqn:Q; [|reflexivity].
  assert (O : Z.land (blen d) 1 <> 0) by lia. change 1 with (Z.ones 1) in O. rewrite Z.land_ones in O by lia.
  change (2 ^ 1) with 2 in O.
  assert (NK : n <> Z.of_nat k) by lia. clear Q.
  assert (I : idx d (blen d - 1) = idx d' (blen d - 1)).
  { unfold idx. rewrite <- LB. destruct ((0 <=? blen d - 1) && _); [|reflexivity]. f_equal. apply H. unfold blen in *. lia. }
  rewrite I. reflexivity.
Qed.

Theorem checksum_same : forall m d d' k, same_outside k d d' ->
  checksum m d (Z.of_nat k) = checksum m d' (Z.of_nat k).
Proof.
  intros m d d' k SO. unfold checksum. rewrite (sum_same m d d' k SO). destruct SO as [L _].
  unfold blen. rewrite L. reflexivity.
Qed.

Theorem pseudo_same : forall m ws d d' k extra src dst proto, same_outside k d d' ->
  pseudo_checksum m ws d (Z.of_nat k) extra src dst proto = pseudo_checksum m ws d' (Z.of_nat k) extra src dst proto.
Proof.
  intros m ws d d' k extra src dst proto SO. unfold pseudo_checksum. rewrite (sum_same m d d' k SO).
  destruct SO as [L _]. unfold blen. rewrite L. reflexivity.
Qed.

(** ** Storing a word *)

Lemma put_word_S : forall k v a b r, put_word (S k) v (a :: b :: r) = a :: b :: put_word k v r.
Proof. intros. unfold put_word. replace (2 * S k)%nat with (S (S (2 * k))) by lia. reflexivity. Qed.

Lemma put_word_length : forall k v d, (2 * k + 1 < length d)%nat -> length (put_word k v d) = length d.
Proof.
  intros k v d L. unfold put_word, splice. rewrite !app_length, firstn_length, skipn_length. cbn [length]. lia.
Qed.

Lemma put_word_ok : forall k v d, bytes_ok d -> 0 <= v < 65536 -> bytes_ok (put_word k v d).
Proof.
  intros k v d B V. unfold put_word, splice, bytes_ok in *.
  apply Forall_app. split; [now apply Forall_firstn|]. apply Forall_app. split; [|now apply Forall_skipn].
  constructor; [|constructor; [|constructor]]; unfold byte_ok; lia.
Qed.

Lemma put_zero : forall (d : buf) k v, (2 * k + 1 < length d)%nat -> zero_word k (put_word k v d) = zero_word k d.
Proof.
  intros d. induction d as [|x|a b r IH] using pair_ind; intros k v L; cbn [length] in L; try lia.
  destruct k as [|k]; [reflexivity|]. rewrite put_word_S. cbn [zero_word]. do 2 f_equal. apply IH. lia.
Qed.

Lemma put_word_wsum : forall (d : buf) k v, (2 * k + 1 < length d)%nat ->
  wsum (words (put_word k v d)) = wsum (words (zero_word k d)) + v.
Proof.
  intros d. induction d as [|x|a b r IH] using pair_ind; intros k v L; cbn [length] in L; try lia.
  destruct k as [|k].
  - change (put_word 0 v (a :: b :: r)) with (v / 256 :: v mod 256 :: r).
    cbn [zero_word words wsum fold_right]. fold (wsum (words r)). lia.
  - rewrite put_word_S. cbn [zero_word words wsum fold_right].
    fold (wsum (words (put_word k v r))) (wsum (words (zero_word k r))). rewrite IH by lia. lia.
Qed.

Lemma put_word_wsum' : forall (d : buf) j v, (2 * j + 1 < length d)%nat ->
  wsum (words (put_word j v d)) = wsum (words d) + v - word_at j d.
Proof.
  intros d. unfold word_at.
  induction d as [|x|a b r IH] using pair_ind; intros j v L; cbn [length] in L; try lia.
  destruct j as [|j].
  - change (put_word 0 v (a :: b :: r)) with (v / 256 :: v mod 256 :: r).
    cbn [words wsum fold_right Nat.mul Nat.add nth]. fold (wsum (words r)). lia.
  - rewrite put_word_S. replace (2 * S j)%nat with (S (S (2 * j))) by lia. cbn [nth Nat.add words wsum fold_right].
    fold (wsum (words (put_word j v r))) (wsum (words r)). rewrite IH by lia. lia.
Qed.

Lemma put_other_wsum : forall (d : buf) j k v, (2 * j + 1 < length d)%nat -> j <> k ->
  wsum (words (zero_word k (put_word j v d))) = wsum (words (zero_word k d)) + v - word_at j d.
Proof.
  intros d. induction d as [|x|a b r IH] using pair_ind; intros j k v L N; cbn [length] in L; try lia.
  destruct j as [|j].
  - change (put_word 0 v (a :: b :: r)) with (v / 256 :: v mod 256 :: r).
    destruct k as [|k]; [lia|]. unfold word_at. cbn [zero_word words wsum fold_right Nat.mul Nat.add nth].
    fold (wsum (words (zero_word k r))). lia.
  - rewrite put_word_S. replace (word_at (S j) (a :: b :: r)) with (word_at j r)
      by (unfold word_at; replace (2 * S j)%nat with (S (S (2 * j))) by lia; reflexivity).
    destruct k as [|k]; cbn [zero_word words wsum fold_right].
    + fold (wsum (words (put_word j v r))) (wsum (words r)). rewrite put_word_wsum' by lia. lia.
    + fold (wsum (words (zero_word k (put_word j v r)))) (wsum (words (zero_word k r))). rewrite IH by lia. lia.
Qed.

Lemma put_byte_2 : forall i y a b r, put_byte (S (S i)) y (a :: b :: r) = a :: b :: put_byte i y r.
Proof. reflexivity. Qed.

Lemma put_byte_wsum' : forall (d : buf) i y, (i < length d)%nat ->
  wsum (words (put_byte i y d)) = wsum (words d) + (y - nth i d 0) * (if Nat.even i then 256 else 1).
Proof.
  intros d. induction d as [|x|a b r IH] using pair_ind; intros i y L; cbn [length] in L; try lia.
  - destruct i; [|lia]. change (put_byte 0 y [x]) with [y]. cbn [words wsum fold_right nth Nat.even]. lia.
  - destruct i as [|[|i]].
    + change (put_byte 0 y (a :: b :: r)) with (y :: b :: r).
      cbn [words wsum fold_right nth Nat.even]. fold (wsum (words r)). lia.
    + change (put_byte 1 y (a :: b :: r)) with (a :: y :: r).
      cbn [words wsum fold_right nth Nat.even]. fold (wsum (words r)). lia.
    + rewrite put_byte_2. cbn [words wsum fold_right nth Nat.even].
      fold (wsum (words (put_byte i y r))) (wsum (words r)). rewrite IH by lia. lia.
Qed.

Lemma put_byte_wsum : forall (d : buf) i k y, (i < length d)%nat -> (i / 2 <> k)%nat ->
  wsum (words (zero_word k (put_byte i y d))) =
  wsum (words (zero_word k d)) + (y - nth i d 0) * (if Nat.even i then 256 else 1).
Proof.
  intros d. induction d as [|x|a b r IH] using pair_ind; intros i k y L N; cbn [length] in L; try lia.
  - destruct i; [|lia]. change (0 / 2)%nat with 0%nat in N. destruct k; [lia|].
    change (put_byte 0 y [x]) with [y]. cbn [zero_word words wsum fold_right nth Nat.even]. lia.
  - destruct i as [|[|i]].
    + change (0 / 2)%nat with 0%nat in N. destruct k; [lia|].
      change (put_byte 0 y (a :: b :: r)) with (y :: b :: r).
      cbn [zero_word words wsum fold_right nth Nat.even]. fold (wsum (words (zero_word k r))). lia.
    + change (1 / 2)%nat with 0%nat in N. destruct k; [lia|].
      change (put_byte 1 y (a :: b :: r)) with (a :: y :: r).
      cbn [zero_word words wsum fold_right nth Nat.even]. fold (wsum (words (zero_word k r))). lia.
    + rewrite put_byte_2.
      replace (S (S i) / 2)%nat with (S (i / 2)) in N by (change (S (S i)) with (2 + i)%nat; lia).
      destruct k as [|k]; cbn [zero_word words wsum fold_right nth Nat.even].
      * fold (wsum (words (put_byte i y r))) (wsum (words r)). rewrite put_byte_wsum' by lia. lia.
      * fold (wsum (words (zero_word k (put_byte i y r)))) (wsum (words (zero_word k r))). rewrite IH by lia. lia.
Qed.

(** ** C27 *)
Lemma verify_sum : forall s t, 0 <= s -> t = s + (65535 - canon s) -> canon t = 65535.
Proof. intros s t S ->. unfold canon in *. destruct (s =? 0) eqn:E; destruct (s + _ =? 0) eqn:F; lia. Qed.

Theorem checksum_verifies : forall m d k, bytes_ok d -> (2 * k + 1 < length d)%nat -> blen d <= 131074 ->
  exists ck, checksum m d (Z.of_nat k) = Ok ck /\ 0 <= ck < 65536 /\
    verifies (put_word k ck d) /\ checksum m (put_word k ck d) (Z.of_nat k) = Ok ck.
Proof.
  intros m d k B K L.
  assert (ZO := zero_word_ok d k B).
  assert (NN := wsum_nonneg _ (words_ok _ ZO)). assert (CR := canon_range _ NN).
  assert (E : forall e, bytes_ok e -> length e = length d -> zero_word k e = zero_word k d ->
    checksum m e (Z.of_nat k) = Ok (65535 - canon (wsum (words (zero_word k d))))).
  { intros e BE LE ZE. rewrite checksum_rfc1071 by (auto; unfold blen in *; lia).
    destruct e; [cbn in LE; lia|]. rewrite Nat2Z.id. unfold rfc1071. rewrite ZE.
    rewrite osum_canon by (now apply words_ok). reflexivity. }
  exists (65535 - canon (wsum (words (zero_word k d)))). set (ck := 65535 - canon _) in *.
  assert (CK : 0 <= ck < 65536) by lia.
  split; [now apply E|]. split; [auto|]. split.
  - unfold verifies. rewrite osum_canon by (apply words_ok, put_word_ok; auto).
    rewrite put_word_wsum by auto. eapply verify_sum; [exact NN|]. reflexivity.
  - apply E; [now apply put_word_ok|now apply put_word_length|now apply put_zero].
Qed.

(** ** C28: pseudo headers *)

Lemma lor_byte : forall a b, byte_ok a -> byte_ok b -> Z.lor (Z.shiftl a 8) b = 256 * a + b.
Proof.
  intros a b A B. rewrite Z.shiftl_mul_pow2 by lia. change (2 ^ 8) with 256.
  replace (256 * a) with (a * 256) by lia.
  assert (D : Z.land (a * 256) b = 0).
  { apply Z.bits_inj'. intros n N. rewrite Z.land_spec, Z.bits_0. change 256 with (2 ^ 8).
    destruct (n <? 8) eqn:E.
    + rewrite Z.mul_pow2_bits_low by lia. reflexivity.
    + replace b with (b mod 2 ^ 8) by (unfold byte_ok in B; change (2 ^ 8) with 256; lia).
      rewrite Z.mod_pow2_bits_high by lia. apply andb_false_r. }
  rewrite <- Z.lxor_lor by exact D. rewrite <- Z.add_nocarry_lxor by exact D. reflexivity.
Qed.

Lemma wsum_app : forall a b, wsum (a ++ b) = wsum a + wsum b.
Proof.
  intros a b. unfold wsum. induction a as [|x a IH]; [reflexivity|].
  cbn [app fold_right]. rewrite IH. lia.
Qed.

Lemma words_app : forall (a b : buf), Nat.even (length a) = true -> words (a ++ b) = words a ++ words b.
Proof.
  intros a. induction a as [|x|u v r IH] using pair_ind; intros b E; cbn in E; try discriminate; [reflexivity|].
  cbn [app words]. now rewrite IH.
Qed.

Lemma words_pad : forall d, words (pad2 d) = words d.
Proof.
  intros d. unfold pad2. induction d as [|x|u v r IH] using pair_ind; [reflexivity| |].
  - cbn [length Nat.even app words]. f_equal. lia.
  - cbn [length Nat.even]. destruct (Nat.even (length r)); [reflexivity|]. cbn [app words]. now rewrite IH.
Qed.

Lemma pad2_even : forall d, Nat.even (length (pad2 d)) = true.
Proof.
  intros d. unfold pad2. destruct (Nat.even (length d)) eqn:E; [auto|].
  rewrite app_length, Nat.add_1_r, Nat.even_succ. now rewrite <- Nat.negb_even, E.
Qed.

Lemma pad2_ok : forall d, bytes_ok d -> bytes_ok (pad2 d).
Proof.
  intros d B. unfold pad2. destruct (Nat.even (length d)); [auto|]. apply Forall_app. split; auto.
  constructor; [unfold byte_ok; lia|constructor].
Qed.

Lemma add64 : forall m a b, 0 <= a -> 0 <= b -> a + b < 2 ^ 64 -> add_u m usize a b = Ok (a + b).
Proof.
  intros m a b A B C. unfold add_u, ovf, usize. replace ((0 <=? a + b) && (a + b <? 2 ^ 64)) with true by lia. reflexivity.
Qed.

Lemma zero_word_past : forall (d : buf) k, (length d <= 2 * k)%nat -> zero_word k d = d.
Proof.
  intros d. induction d as [|x|a b r IH] using pair_ind; intros k ND; destruct k; cbn [length zero_word] in *; auto; try lia.
  do 2 f_equal. apply IH. lia.
Qed.

(** The even part of [extra]: what the code adds up. *)
Lemma extra_even : forall m e, bytes_ok e -> Nat.even (length e) = true -> blen e <= 131074 ->
  sum_be_words m e (blen e / 2) = Ok (wsum (words e)).
Proof.
  intros m e B E L. assert (N : 0 <= blen e) by (unfold blen; lia).
  rewrite sum_be_words_ok by (auto using len_bound; lia). rewrite zero_word_past; [reflexivity|].
  apply Nat.even_spec in E. destruct E as [h E]. unfold blen. lia.
Qed.

(** Everything the pseudo-header functions compute, for an address sum. *)
Lemma pseudo_ok : forall m ws src dst proto d k e A B, bytes_ok d -> bytes_ok e -> 
  Nat.even (length e) = true -> ws m src = Ok A -> ws m dst = Ok B -> 0 <= A <= 524280 -> 0 <= B <= 524280 -> byte_ok proto ->
  blen d + blen e <= 131000 ->
  pseudo_checksum m ws d (Z.of_nat k) e src dst proto =
  Ok (65535 - canon (A + B + proto + (blen d + blen e) + wsum (words (zero_word k d)) + wsum (words e))).
Proof.
  intros m ws src dst proto d k e A B BD BE EV HA HB RA RB P L. unfold pseudo_checksum.
  assert (ZO := zero_word_ok d k BD).
  assert (N1 := wsum_nonneg _ (words_ok _ ZO)). assert (N2 := wsum_nonneg _ (words_ok _ BE)).
  assert (U1 := words_bound _ ZO). assert (U2 := words_bound _ BE).
  assert (LZ : blen (zero_word k d) = blen d) by (unfold blen; now rewrite zero_word_length). rewrite LZ in U1.
  assert (LN : 0 <= blen d /\ 0 <= blen e) by (unfold blen; lia).
  assert (EE : (blen e + 1) / 2 = blen e / 2).
  { apply Nat.even_spec in EV. destruct EV as [h EV]. unfold blen. lia. }
  rewrite EE in U2. unfold byte_ok in P.
  rewrite HA. cbn [bind]. rewrite add32 by lia. cbn [bind]. rewrite HB. cbn [bind]. rewrite add32 by lia. cbn [bind].
  rewrite add32 by lia. cbn [bind]. rewrite add64 by lia. cbn [bind].
  assert (C : cast_u 32 (blen d + blen e) = blen d + blen e).
  { unfold cast_u. apply Z.mod_small. lia. }
  rewrite C, add32 by lia. cbn [bind].
  rewrite sum_be_words_ok by (auto; try lia; apply len_bound; auto; lia). rewrite Nat2Z.id. cbn [bind].
  rewrite add32 by lia. cbn [bind].
  rewrite extra_even by (auto; lia). cbn [bind]. rewrite add32 by lia. cbn [bind].
  rewrite finalize_canon by lia. do 3 f_equal.
Qed.

Lemma v4_sum : forall m a, ipv4_addr a -> exists A, ipv4_word_sum m a = Ok A /\ A = wsum (words a) /\ 0 <= A <= 131070.
Proof.
  intros m a [L B]. destruct a as [|x [|y [|z [|t [|]]]]]; try discriminate.
  inversion B as [|? ? B1 Ba]; subst. inversion Ba as [|? ? B2 Bb]; subst.
  inversion Bb as [|? ? B3 Bc]; subst. inversion Bc as [|? ? B4 B5]; subst.
  unfold ipv4_word_sum. rewrite !lor_byte by auto. unfold byte_ok in *. rewrite add32 by lia.
  eexists. split; [reflexivity|]. cbn [words wsum fold_right]. lia.
Qed.

Lemma addr_v6_cons : forall x l, addr_v6 (x :: l) = (x / 256) mod 256 :: x mod 256 :: addr_v6 l.
Proof. reflexivity. Qed.

Lemma v6_sum : forall m a, ipv6_addr a -> exists A, ipv6_word_sum m a = Ok A /\ A = wsum (words (addr_v6 a)) /\ 0 <= A <= 524280.
Proof.
  intros m a [L B]. unfold ipv6_word_sum.
  assert (X : forall l acc, Forall (fun s => 0 <= s < 65536) l -> 0 <= acc -> acc + 65535 * Z.of_nat (length l) < 2 ^ 32 ->
    sum_u32 m l acc = Ok (acc + wsum (words (addr_v6 l))) /\ 0 <= wsum (words (addr_v6 l)) <= 65535 * Z.of_nat (length l)).
  { induction l as [|x l IH]; intros acc F A U.
    - cbn [sum_u32 addr_v6 flat_map words wsum fold_right length]. split; [f_equal|]; lia.
    - inversion F; subst. cbn [length] in U. cbn [sum_u32]. rewrite add32 by lia. cbn [bind].
      destruct (IH (acc + x)) as [E R]; auto; try lia. rewrite E.
      rewrite addr_v6_cons. cbn [words wsum fold_right]. fold (wsum (words (addr_v6 l))). cbv beta in H1.
      cbn [length]. split; [f_equal|]; lia. }
  destruct (X a 0 B) as [E R]; [lia|rewrite L; lia|]. exists (wsum (words (addr_v6 a))). rewrite L in R.
  rewrite E. split; [f_equal; lia|]. split; [reflexivity|lia].
Qed.

Lemma addr_v6_even : forall a, Nat.even (length (addr_v6 a)) = true.
Proof. intros. induction a; [reflexivity|]. rewrite addr_v6_cons. cbn [length Nat.even]. auto. Qed.

Lemma addr_v6_ok : forall a, ipv6_addr a -> bytes_ok (addr_v6 a).
Proof.
  intros a [_ F]. induction F; [constructor|].
  rewrite addr_v6_cons. constructor; [unfold byte_ok; lia|]. constructor; [unfold byte_ok; lia|]. auto.
Qed.

(** The text of a segment covered by the checksum. *)
Lemma segment_v4 : forall src dst proto d e, ipv4_addr src -> ipv4_addr dst -> byte_ok proto ->
  bytes_ok d -> bytes_ok e -> blen d + blen e <= 65535 ->
  let t := pseudo_v4 src dst proto (blen d + blen e) ++ pad2 d ++ e in
  bytes_ok t /\ wsum (words t) = wsum (words src) + wsum (words dst) + proto + (blen d + blen e) + wsum (words d) + wsum (words e).
Proof.
  intros src dst proto d e [LS BS] [LD BD'] P BD BE L. unfold pseudo_v4. set (n := blen d + blen e) in *.
  assert (N : 0 <= n) by (unfold n, blen; lia). cbv zeta. rewrite <- !app_assoc. split.
  - assert (BP := pad2_ok d BD). unfold bytes_ok in *. repeat (apply Forall_app; split); auto; cbn [be_bytes app]; unfold byte_ok in *;
    repeat (apply Forall_cons; [lia|]); try apply Forall_nil.
  - rewrite !words_app, !wsum_app, words_pad by (try apply pad2_even; try (rewrite LS; reflexivity); try (rewrite LD; reflexivity); reflexivity).
    cbn [be_bytes app words]. unfold byte_ok in *.
    change (wsum [256 * 0 + proto]) with (256 * 0 + proto + 0).
    change (wsum [256 * (n / 256 mod 256) + n mod 256]) with (256 * (n / 256 mod 256) + n mod 256 + 0). lia.
Qed.

Lemma segment_v6 : forall src dst proto d e, ipv6_addr src -> ipv6_addr dst -> byte_ok proto ->
  bytes_ok d -> bytes_ok e -> blen d + blen e <= 131000 ->
  let t := pseudo_v6 src dst proto (blen d + blen e) ++ pad2 d ++ e in
  let s := wsum (words (addr_v6 src)) + wsum (words (addr_v6 dst)) + proto + (blen d + blen e) + wsum (words d) + wsum (words e) in
  bytes_ok t /\ canon (wsum (words t)) = canon s.
Proof.
  intros src dst proto d e VS VD P BD BE L. unfold pseudo_v6. set (n := blen d + blen e) in *.
  assert (N : 0 <= n) by (unfold n, blen; lia). cbv zeta. rewrite <- !app_assoc. split.
  - assert (BP := pad2_ok d BD). assert (B1 := addr_v6_ok _ VS). assert (B2 := addr_v6_ok _ VD). unfold bytes_ok in *.
    repeat (apply Forall_app; split); auto; cbn [be_bytes app]; unfold byte_ok in *;
    repeat (apply Forall_cons; [lia|]); try apply Forall_nil.
  - rewrite !words_app, !wsum_app, words_pad by (try apply pad2_even; try apply addr_v6_even; reflexivity).
    cbn [be_bytes app words]. unfold byte_ok in *.
    match goal with |- context [wsum [?a; ?b]] => change (wsum [a; b]) with (a + (b + 0)) end.
    change (wsum [256 * 0 + 0; 256 * 0 + proto]) with (256 * 0 + 0 + (256 * 0 + proto + 0)).
    assert (Z1 := wsum_nonneg _ (words_ok _ BE)). assert (Z2 := wsum_nonneg _ (words_ok _ BD)).
    assert (Z3 := wsum_nonneg _ (words_ok _ (addr_v6_ok _ VS))). assert (Z4 := wsum_nonneg _ (words_ok _ (addr_v6_ok _ VD))).
    apply canon_congr; lia.
Qed.

Lemma rfc_canon : forall t, bytes_ok t -> rfc1071 t = 65535 - canon (wsum (words t)).
Proof. intros t B. unfold rfc1071. rewrite osum_canon; [reflexivity|now apply words_ok]. Qed.

Lemma blen_zero_word : forall k d, blen (zero_word k d) = blen d.
Proof. intros. unfold blen. now rewrite zero_word_length. Qed.

Theorem ipv4_checksum_spec : forall m d k e src dst proto, bytes_ok d -> bytes_ok e -> ipv4_addr src -> ipv4_addr dst ->
  byte_ok proto -> Nat.even (length e) = true -> blen d + blen e <= 65535 ->
  ipv4_checksum m d (Z.of_nat k) e src dst proto =
  Ok (rfc1071 (pseudo_v4 src dst proto (blen d + blen e) ++ pad2 (zero_word k d) ++ e)).
Proof.
  intros m d k e src dst proto BD BE VS VD P EV L.
  destruct (v4_sum m src VS) as (A & HA & EA & RA). destruct (v4_sum m dst VD) as (B & HB & EB & RB).
  unfold ipv4_checksum. rewrite (pseudo_ok m ipv4_word_sum src dst proto d k e A B); auto; try lia.
  destruct (segment_v4 src dst proto (zero_word k d) e) as [OK S]; auto using zero_word_ok; [rewrite blen_zero_word; lia|].
  rewrite blen_zero_word in OK, S. rewrite rfc_canon by auto. rewrite S. subst. reflexivity.
Qed.

Theorem ipv6_checksum_spec : forall m d k e src dst proto, bytes_ok d -> bytes_ok e -> ipv6_addr src -> ipv6_addr dst ->
  byte_ok proto -> Nat.even (length e) = true -> blen d + blen e <= 131000 ->
  ipv6_checksum m d (Z.of_nat k) e src dst proto =
  Ok (rfc1071 (pseudo_v6 src dst proto (blen d + blen e) ++ pad2 (zero_word k d) ++ e)).
Proof.
  intros m d k e src dst proto BD BE VS VD P EV L.
  destruct (v6_sum m src VS) as (A & HA & EA & RA). destruct (v6_sum m dst VD) as (B & HB & EB & RB).
  unfold ipv6_checksum. rewrite (pseudo_ok m ipv6_word_sum src dst proto d k e A B); auto; try lia.
  destruct (segment_v6 src dst proto (zero_word k d) e) as (OK & S); auto using zero_word_ok; [rewrite blen_zero_word; lia|].
  rewrite blen_zero_word in OK, S. rewrite rfc_canon by auto. rewrite S. subst. reflexivity.
Qed.

(** Verification with a pseudo header: what a receiver sees. *)
Lemma blen_put_word : forall k v d, (2 * k + 1 < length d)%nat -> blen (put_word k v d) = blen d.
Proof. intros. unfold blen. now rewrite put_word_length. Qed.

Theorem ipv4_checksum_verifies : forall m d k e src dst proto, bytes_ok d -> bytes_ok e -> ipv4_addr src -> ipv4_addr dst ->
  byte_ok proto -> Nat.even (length e) = true -> blen d + blen e <= 65535 -> (2 * k + 1 < length d)%nat ->
  exists ck, ipv4_checksum m d (Z.of_nat k) e src dst proto = Ok ck /\ 0 <= ck < 65536 /\
    verifies (pseudo_v4 src dst proto (blen d + blen e) ++ pad2 (put_word k ck d) ++ e).
Proof.
  intros m d k e src dst proto BD BE VS VD P EV L K. eexists. split; [now apply ipv4_checksum_spec|].
  destruct (segment_v4 src dst proto (zero_word k d) e) as [OK S]; auto using zero_word_ok; [rewrite blen_zero_word; lia|].
  rewrite blen_zero_word in OK, S. rewrite rfc_canon by auto. rewrite S.
  set (s := wsum (words src) + _ + _ + _ + _ + _) in *.
  assert (SN : 0 <= s) by (rewrite <- S; apply wsum_nonneg, words_ok, OK).
  assert (CR := canon_range s SN). split; [lia|].
  set (ck := 65535 - canon s).
  destruct (segment_v4 src dst proto (put_word k ck d) e) as [OK' S']; auto; [apply put_word_ok; auto; lia|rewrite blen_put_word; lia|].
  rewrite blen_put_word in OK', S' by auto. unfold verifies. rewrite osum_canon by (now apply words_ok).
  rewrite S', put_word_wsum by auto. apply (verify_sum s); [exact SN|]. fold ck. unfold s. lia.
Qed.

Theorem ipv6_checksum_verifies : forall m d k e src dst proto, bytes_ok d -> bytes_ok e -> ipv6_addr src -> ipv6_addr dst ->
  byte_ok proto -> Nat.even (length e) = true -> blen d + blen e <= 131000 -> (2 * k + 1 < length d)%nat ->
  exists ck, ipv6_checksum m d (Z.of_nat k) e src dst proto = Ok ck /\ 0 <= ck < 65536 /\
    verifies (pseudo_v6 src dst proto (blen d + blen e) ++ pad2 (put_word k ck d) ++ e).
Proof.
  intros m d k e src dst proto BD BE VS VD P EV L K. eexists. split; [now apply ipv6_checksum_spec|].
  destruct (segment_v6 src dst proto (zero_word k d) e) as (OK & S); auto using zero_word_ok; [rewrite blen_zero_word; lia|].
  rewrite blen_zero_word in OK, S. rewrite rfc_canon by auto. rewrite S.
  destruct (v6_sum m src VS) as (A & _ & EA & RA). destruct (v6_sum m dst VD) as (B & _ & EB & RB).
  assert (NE := wsum_nonneg _ (words_ok _ BE)). assert (ND := wsum_nonneg _ (words_ok _ (zero_word_ok d k BD))).
  assert (LN : 0 <= blen d /\ 0 <= blen e) by (unfold blen; lia).
  set (s := wsum (words (addr_v6 src)) + _ + _ + _ + _ + _) in *.
  assert (SN : 0 <= s) by (unfold s, byte_ok in *; lia).
  assert (CR := canon_range s SN). split; [lia|].
  set (ck := 65535 - canon s).
  destruct (segment_v6 src dst proto (put_word k ck d) e) as (OK' & S'); auto; [apply put_word_ok; auto; lia|rewrite blen_put_word; lia|].
  rewrite blen_put_word in OK', S' by auto. unfold verifies. rewrite osum_canon by (now apply words_ok).
  rewrite S', put_word_wsum by auto. apply (verify_sum s); [exact SN|]. fold ck. unfold s. lia.
Qed.

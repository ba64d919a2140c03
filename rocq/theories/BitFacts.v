(** Facts about bit strings (BitSpec.v). *)
From Coq Require Import ZArith List Bool Lia ZifyBool ZifyNat.
From Verif Require Import Base BitSpec BaseFacts.
Import ListNotations.
Open Scope Z_scope.
Ltac Zify.zify_post_hook ::= Z.to_euclidean_division_equations.

Lemma bits_of_length : forall b, length (bits_of b) = (8 * length b)%nat.
Proof.
  unfold bits_of. induction b; auto. cbn [flat_map]. rewrite app_length, IHb. simpl. lia.
Qed.

Lemma bits_of_app : forall a b, bits_of (a ++ b) = bits_of a ++ bits_of b.
Proof. intros; unfold bits_of; now rewrite flat_map_app. Qed.

Lemma nth_bits_of_byte : forall x k, (k < 8)%nat ->
  nth k (bits_of_byte x) false = Z.testbit x (7 - Z.of_nat k).
Proof.
  intros x k H. do 8 (destruct k; [reflexivity|]). lia.
Qed.

Lemma nth_bits_of : forall b i,
  nth i (bits_of b) false = Z.testbit (nth (i / 8) b 0) (7 - Z.of_nat (i mod 8)).
Proof.
  induction b; intros.
  - rewrite (nth_overflow (bits_of []) false) by (simpl; lia).
    rewrite (nth_overflow [] 0) by (simpl; lia). now rewrite Z.testbit_0_l.
  - change (bits_of (a :: b)) with (bits_of_byte a ++ bits_of b).
    destruct (Nat.lt_ge_cases i 8) as [H|H].
    + rewrite app_nth1 by (simpl; lia). rewrite nth_bits_of_byte by lia.
      rewrite Nat.div_small, Nat.mod_small by lia. reflexivity.
    + rewrite app_nth2 by (simpl; lia). change (length (bits_of_byte a)) with 8%nat.
      rewrite IHb.
      assert (E : (i / 8 = S ((i - 8) / 8))%nat).
      { lia. }
      assert (M : (i mod 8 = (i - 8) mod 8)%nat).
      { lia. }
      rewrite E, M. reflexivity.
Qed.

Lemma Z_of_bits_snoc : forall l x, Z_of_bits (l ++ [x]) = 2 * Z_of_bits l + Z.b2z x.
Proof. intros; unfold Z_of_bits; rewrite fold_left_app; simpl. destruct x; reflexivity. Qed.

Lemma Z_of_bits_nonneg : forall l, 0 <= Z_of_bits l.
Proof.
  induction l using rev_ind; [reflexivity|]. rewrite Z_of_bits_snoc. destruct x; cbn [Z.b2z]; lia.
Qed.

Lemma testbit_Z_of_bits : forall l j, 0 <= j ->
  Z.testbit (Z_of_bits l) j =
  if j <? Z.of_nat (length l) then nth (length l - 1 - Z.to_nat j) l false else false.
Proof.
  induction l using rev_ind; intros j J.
  - simpl. rewrite Z.testbit_0_l. destruct (j <? 0) eqn:E; auto.
  - rewrite Z_of_bits_snoc, app_length. simpl length.
    destruct (Z.eq_dec j 0) as [->|N].
    + rewrite Z.testbit_0_r. destruct (0 <? _) eqn:E; [|lia].
      rewrite app_nth2 by lia.
      replace (length l + 1 - 1 - Z.to_nat 0 - length l)%nat with 0%nat by lia. reflexivity.
    + replace j with (Z.succ (j - 1)) at 1 by lia. rewrite Z.testbit_succ_r by lia.
      rewrite IHl by lia.
      destruct (j - 1 <? Z.of_nat (length l)) eqn:A;
        destruct (j <? Z.of_nat (length l + 1)) eqn:B; try lia; auto.
      rewrite app_nth1 by lia. f_equal. lia.
Qed.

Lemma Z_of_bits_bound : forall l, Z_of_bits l < 2 ^ Z.of_nat (length l).
Proof.
  induction l using rev_ind; [reflexivity|].
  rewrite Z_of_bits_snoc, app_length. simpl length.
  replace (Z.of_nat (length l + 1)) with (Z.succ (Z.of_nat (length l))) by lia.
  rewrite Z.pow_succ_r by lia. destruct x; cbn [Z.b2z]; lia.
Qed.

Lemma bits_of_Z_length : forall n v, length (bits_of_Z n v) = n.
Proof. intros; unfold bits_of_Z; now rewrite map_length, seq_length. Qed.

Lemma nth_bits_of_Z : forall n v i, (i < n)%nat ->
  nth i (bits_of_Z n v) false = Z.testbit v (Z.of_nat n - 1 - Z.of_nat i).
Proof.
  intros n v i H. unfold bits_of_Z.
  rewrite nth_indep with (d' := Z.testbit v (Z.of_nat n - 1 - Z.of_nat 0))
    by (now rewrite map_length, seq_length).
  rewrite map_nth with (f := fun i => Z.testbit v (Z.of_nat n - 1 - Z.of_nat i)).
  now rewrite seq_nth by lia.
Qed.

Lemma Z_of_bits_of_Z : forall n v, Z_of_bits (bits_of_Z n v) = v mod 2 ^ Z.of_nat n.
Proof.
  intros. apply Z.bits_inj'. intros j J.
  rewrite testbit_Z_of_bits, bits_of_Z_length by lia.
  destruct (j <? Z.of_nat n) eqn:E.
  - rewrite Z.mod_pow2_bits_low by lia. rewrite nth_bits_of_Z by lia. f_equal. lia.
  - rewrite Z.mod_pow2_bits_high by lia. reflexivity.
Qed.

Lemma bits_of_Z_of_bits : forall l, bits_of_Z (length l) (Z_of_bits l) = l.
Proof.
  intros. apply list_eq_nth with (d := false).
  - apply bits_of_Z_length.
  - intros i H. rewrite bits_of_Z_length in H. rewrite nth_bits_of_Z by lia.
    rewrite testbit_Z_of_bits by lia.
    destruct (_ <? _) eqn:E; [|lia]. f_equal. lia.
Qed.

Lemma bits_of_Z_mod : forall n v, bits_of_Z n (v mod 2 ^ Z.of_nat n) = bits_of_Z n v.
Proof.
  intros. apply list_eq_nth with (d := false); rewrite !bits_of_Z_length; auto.
  intros i H. rewrite !nth_bits_of_Z by lia. apply Z.mod_pow2_bits_low. lia.
Qed.

Lemma byte_testbit_high : forall x k, byte_ok x -> 8 <= k -> Z.testbit x k = false.
Proof.
  intros x k [A B] K. destruct (Z.eq_dec x 0) as [->|N]; [apply Z.testbit_0_l|].
  apply Z.bits_above_log2; auto.
  assert (Z.log2 x < 8); [|lia]. apply Z.log2_lt_pow2; lia.
Qed.

Lemma byte_ext : forall x y, byte_ok x -> byte_ok y ->
  (forall k, 0 <= k < 8 -> Z.testbit x k = Z.testbit y k) -> x = y.
Proof.
  intros x y X Y H. apply Z.bits_inj'. intros k K.
  destruct (Z.lt_ge_cases k 8); [apply H; lia|].
  now rewrite !byte_testbit_high.
Qed.

Lemma bits_of_inj : forall a b, bytes_ok a -> bytes_ok b -> bits_of a = bits_of b -> a = b.
Proof.
  intros a b A B E.
  assert (L : length a = length b).
  { assert (H := f_equal (@length bool) E). rewrite !bits_of_length in H. lia. }
  apply list_eq_nth with (d := 0); auto. intros i I.
  apply byte_ext; try (now apply byte_nth).
  intros k K.
  assert (H := f_equal (fun l => nth (8 * i + (7 - Z.to_nat k))%nat l false) E).
  cbv beta in H.
  rewrite !nth_bits_of in H.
  assert (D : ((8 * i + (7 - Z.to_nat k)) / 8 = i)%nat).
  { rewrite Nat.mul_comm, Nat.div_add_l by lia. rewrite Nat.div_small; lia. }
  assert (M : ((8 * i + (7 - Z.to_nat k)) mod 8 = 7 - Z.to_nat k)%nat).
  { rewrite Nat.add_comm, Nat.mul_comm, Nat.mod_add by lia. apply Nat.mod_small. lia. }
  rewrite D, M in H. replace (7 - Z.of_nat (7 - Z.to_nat k)) with k in H by lia. exact H.
Qed.

Lemma bits_firstn : forall n b, bits_of (firstn n b) = firstn (8 * n) (bits_of b).
Proof.
  induction n; intros; auto. destruct b; [now rewrite firstn_nil|].
  replace (8 * S n)%nat with (8 + 8 * n)%nat by lia.
  change (bits_of (z :: b)) with (bits_of_byte z ++ bits_of b).
  cbn [firstn]. change (bits_of (z :: firstn n b)) with (bits_of_byte z ++ bits_of (firstn n b)).
  rewrite IHn. reflexivity.
Qed.

Lemma bits_skipn : forall n b, bits_of (skipn n b) = skipn (8 * n) (bits_of b).
Proof.
  induction n; intros; auto. destruct b; [now rewrite skipn_nil|].
  replace (8 * S n)%nat with (8 + 8 * n)%nat by lia.
  change (bits_of (z :: b)) with (bits_of_byte z ++ bits_of b).
  cbn [skipn]. rewrite IHn. reflexivity.
Qed.

(** A bit of a field. *)
Lemma nth_field_bits : forall b o n i, (i < n)%nat ->
  nth i (field_bits b o n) false = nth (o + i) (bits_of b) false.
Proof. intros. unfold field_bits. rewrite nth_firstn by lia. apply nth_skipn. Qed.

Lemma field_bits_length : forall b o n, (o + n <= 8 * length b)%nat ->
  length (field_bits b o n) = n.
Proof.
  intros. unfold field_bits. rewrite firstn_length, skipn_length, bits_of_length. lia.
Qed.

(** Bit [j] (from the least significant end) of a field's value. *)
Lemma testbit_field_val : forall b o n j, (o + n <= 8 * length b)%nat -> 0 <= j < Z.of_nat n ->
  Z.testbit (field_val b o n) j = nth (o + (n - 1 - Z.to_nat j)) (bits_of b) false.
Proof.
  intros. unfold field_val. rewrite testbit_Z_of_bits by lia.
  rewrite field_bits_length by lia.
  destruct (_ <? _) eqn:E; [|lia]. rewrite nth_field_bits by lia. f_equal.
Qed.

Lemma field_val_range : forall b o n, (o + n <= 8 * length b)%nat ->
  0 <= field_val b o n < 2 ^ Z.of_nat n.
Proof.
  intros. unfold field_val. split; [apply Z_of_bits_nonneg|].
  replace (Z.of_nat n) with (Z.of_nat (length (field_bits b o n)))
    by (now rewrite field_bits_length).
  apply Z_of_bits_bound.
Qed.

(** Reading after writing. *)
Lemma field_written_same : forall b o n v b', (o + n <= 8 * length b)%nat ->
  field_written b o n v b' -> field_val b' o n = v mod 2 ^ Z.of_nat n.
Proof.
  intros b o n v b' H (L & B & E). unfold field_val, field_bits. rewrite E.
  rewrite skipn_app_exact by (rewrite firstn_length, bits_of_length; lia).
  rewrite firstn_app_exact by (apply bits_of_Z_length).
  apply Z_of_bits_of_Z.
Qed.

Lemma field_written_bit : forall b o n v b' i, (o + n <= 8 * length b)%nat ->
  field_written b o n v b' -> (i < o \/ o + n <= i)%nat ->
  nth i (bits_of b') false = nth i (bits_of b) false.
Proof.
  intros b o n v b' i H (L & B & E) I. rewrite E.
  assert (F : length (firstn o (bits_of b)) = o)
    by (rewrite firstn_length, bits_of_length; lia).
  destruct I as [I|I].
  - rewrite app_nth1 by lia. apply nth_firstn. lia.
  - rewrite app_nth2 by lia. rewrite app_nth2 by (rewrite bits_of_Z_length; lia).
    rewrite bits_of_Z_length, F, nth_skipn. f_equal. lia.
Qed.

Lemma field_written_other : forall b o n v b' o' n', (o + n <= 8 * length b)%nat ->
  (o' + n' <= 8 * length b)%nat ->
  field_written b o n v b' -> (o' + n' <= o \/ o + n <= o')%nat ->
  field_bits b' o' n' = field_bits b o' n'.
Proof.
  intros b o n v b' o' n' H H' W D.
  assert (L : length b' = length b) by apply W.
  apply list_eq_nth with (d := false).
  - rewrite !field_bits_length by lia. auto.
  - intros i I. rewrite field_bits_length in I by lia.
    rewrite !nth_field_bits by lia. apply (field_written_bit b o n v); auto. lia.
Qed.

(** Writing back what is already there changes nothing. *)
Lemma field_written_id : forall b o n b', bytes_ok b -> (o + n <= 8 * length b)%nat ->
  field_written b o n (field_val b o n) b' -> b' = b.
Proof.
  intros b o n b' B H (L & B' & E). apply bits_of_inj; auto. rewrite E.
  assert (F : bits_of_Z n (field_val b o n) = field_bits b o n).
  { unfold field_val. replace n with (length (field_bits b o n)) at 1
      by (apply field_bits_length; lia). apply bits_of_Z_of_bits. }
  rewrite F. unfold field_bits.
  rewrite <- (skipn_skipn' _ n o), firstn_skipn, firstn_skipn. reflexivity.
Qed.

(** A write is determined by its description. *)
Lemma field_written_unique : forall b o n v b1 b2,
  field_written b o n v b1 -> field_written b o n v b2 -> b1 = b2.
Proof.
  intros b o n v b1 b2 (L1 & B1 & E1) (L2 & B2 & E2). apply bits_of_inj; congruence.
Qed.

Lemma field_written_mod : forall b o n v b',
  field_written b o n v b' <-> field_written b o n (v mod 2 ^ Z.of_nat n) b'.
Proof. intros. unfold field_written. now rewrite bits_of_Z_mod. Qed.

(** Pointwise characterisation of a write. *)
Lemma field_written_intro : forall b o n v b', (o + n <= 8 * length b)%nat ->
  length b' = length b -> bytes_ok b' ->
  (forall i, (i < 8 * length b)%nat ->
     nth i (bits_of b') false =
     if (o <=? i)%nat && (i <? o + n)%nat
     then Z.testbit v (Z.of_nat (o + n) - 1 - Z.of_nat i)
     else nth i (bits_of b) false) ->
  field_written b o n v b'.
Proof.
  intros b o n v b' H L B P. split; [auto|split;[auto|]].
  assert (F : length (firstn o (bits_of b)) = o)
    by (rewrite firstn_length, bits_of_length; lia).
  apply list_eq_nth with (d := false).
  - rewrite !app_length, skipn_length, F, !bits_of_length, bits_of_Z_length. lia.
  - intros i I. rewrite bits_of_length in I. rewrite P by lia.
    destruct (o <=? i)%nat eqn:X; destruct (i <? o + n)%nat eqn:Y; simpl.
    + apply Nat.leb_le in X. apply Nat.ltb_lt in Y.
      rewrite app_nth2 by lia. rewrite app_nth1 by (rewrite bits_of_Z_length; lia).
      rewrite nth_bits_of_Z by lia. f_equal. lia.
    + apply Nat.leb_le in X. apply Nat.ltb_ge in Y.
      rewrite app_nth2 by lia. rewrite app_nth2 by (rewrite bits_of_Z_length; lia).
      rewrite bits_of_Z_length, F, nth_skipn. f_equal. lia.
    + apply Nat.leb_gt in X. rewrite app_nth1 by lia. now rewrite nth_firstn by lia.
    + apply Nat.leb_gt in X. rewrite app_nth1 by lia. now rewrite nth_firstn by lia.
Qed.

(** IPv6 fragment headers and chains of extension headers. *)
From Coq Require Import String ZArith List Bool Lia ZifyBool ZifyNat.
From Verif Require Import Base BitSpec DeriveUtil DeriveOps BaseFacts BitFacts
  DeriveUtilProofs DeriveOpsProofs DeriveLEProofs DeriveGen SpecPacket DeriveGenProofs DeriveInvProofs
  DeriveAccProofs DeriveVarProofs DeriveApiProofs DerivePropProofs DerivePropProofs2 Protocols ProtoFacts
  ProtoMethods SpecProto ProtoPayloadProofs ProtoSplitProofs ProtoOptionProofs.
Import ListNotations.
Open Scope Z_scope.
Ltac Zify.zify_post_hook ::= Z.to_euclidean_division_equations.

Lemma Z_of_bits_app : forall a b, Z_of_bits (a ++ b) = Z_of_bits a * 2 ^ Z.of_nat (length b) + Z_of_bits b.
Proof.
  intros a b. revert a. induction b as [|x b IH] using rev_ind; intros a.
  - rewrite app_nil_r. cbn [length]. change (Z_of_bits []) with 0. change (2 ^ Z.of_nat 0) with 1. lia.
  - rewrite app_assoc, !Z_of_bits_snoc, IH, app_length. cbn [length].
    replace (Z.of_nat (length b + 1)) with (Z.of_nat (length b) + 1) by lia.
    rewrite Z.pow_add_r by lia. lia.
Qed.
Lemma field_val_app : forall b o m n, (o + m + n <= 8 * length b)%nat ->
  field_val b o (m + n) = field_val b o m * 2 ^ Z.of_nat n + field_val b (o + m) n.
Proof.
  intros b o m n H. unfold field_val, field_bits.
  rewrite <- (firstn_skipn m (firstn (m + n) (skipn o (bits_of b)))).
  rewrite firstn_firstn, skipn_firstn_comm, skipn_skipn'.
  rewrite Z_of_bits_app. replace (Nat.min m (m + n)) with m by lia. replace (m + n - m)%nat with n by lia.
  f_equal. f_equal. f_equal. rewrite firstn_length, skipn_length, bits_of_length. lia.
Qed.

(** Masks on 16-bit numbers. *)
Lemma and_3 : forall v, Z.land v 3 = v mod 4.
Proof. intros v. exact (Z.land_ones v 2 ltac:(lia)). Qed.
Lemma and_1 : forall v, Z.land v 1 = v mod 2.
Proof. intros v. exact (Z.land_ones v 1 ltac:(lia)). Qed.
Lemma and_high : forall v k, 0 <= v < 65536 -> 0 <= k -> Z.land v (cast_u 16 (Z.lnot (Z.ones k))) = 2 ^ k * (v / 2 ^ k).
Proof.
  intros v k V K. unfold cast_u. rewrite <- Z.land_ones by lia.
  rewrite (Z.land_comm (Z.lnot _)), Z.land_assoc, Z.land_ones by lia.
  rewrite Z.mod_small by (change (2 ^ 16) with 65536; lia).
  rewrite <- Z.ldiff_land, Z.ldiff_ones_r by lia. rewrite Z.shiftl_mul_pow2, Z.shiftr_div_pow2 by lia. lia.
Qed.
Lemma or_low : forall a r k, 0 <= r < 2 ^ k -> 0 <= k -> Z.lor (2 ^ k * a) r = 2 ^ k * a + r.
Proof.
  intros a r k R K.
  assert (D : Z.land (2 ^ k * a) r = 0).
  { apply Z.bits_inj'. intros i I. rewrite Z.land_spec, Z.bits_0.
    destruct (Z.lt_ge_cases i k).
    - rewrite Z.mul_comm, Z.mul_pow2_bits_low by lia. reflexivity.
    - replace (Z.testbit r i) with false; [apply andb_false_r|].
      symmetry. rewrite <- (Z.mod_small r (2 ^ k)) by lia. apply Z.mod_pow2_bits_high. lia. }
  rewrite <- Z.lxor_lor by exact D. rewrite <- Z.add_nocarry_lxor by exact D. reflexivity.
Qed.

Lemma Ok_inj : forall {A} (x y : A), Ok x = Ok y -> x = y.
Proof. congruence. Qed.

Section F.
Variable c : cfg.

Lemma frag_get : forall b, buf_ok b -> new fragment b = Some b ->
  get c fragment "fragment_offset_with_flags" b = Ok (VInt (field_val b 16 16)) /\ 8 <= blen b.
Proof.
  intros b BO NW. hg c b BO fragment 2%nat 16 fragment_scoped NW G. split; [exact G|].
  exact (new_min _ _ NW).
Qed.

Lemma word_parts : forall b, 8 <= blen b ->
  field_val b 16 16 = 8 * field_val b 16 13 + 4 * field_val b 29 1 + 2 * field_val b 30 1 + field_val b 31 1.
Proof.
  intros b L. unfold blen in L.
  assert (A := field_val_app b 16 13 3 ltac:(lia)). assert (B := field_val_app b 29 1 2 ltac:(lia)).
  assert (C := field_val_app b 30 1 1 ltac:(lia)). cbn [Nat.add] in A, B, C.
  change (2 ^ Z.of_nat 3) with 8 in A. change (2 ^ Z.of_nat 2) with 4 in B. change (2 ^ Z.of_nat 1) with 2 in C.
  lia.
Qed.

Lemma fragment_getters : forall b, buf_ok b -> new fragment b = Some b ->
  get_fragment_offset c b = Ok (8 * field_val b 16 13 + 4 * field_val b 29 1) /\
  is_last_fragment c b = Ok (field_val b 31 1 =? 0).
Proof.
  intros b BO NW. destruct (frag_get b BO NW) as [G L]. assert (W := word_parts b L).
  assert (R := field_val_range b 16 16). assert (R1 := field_val_range b 16 13).
  assert (R2 := field_val_range b 29 1). assert (R3 := field_val_range b 30 1). assert (R4 := field_val_range b 31 1).
  change (2 ^ Z.of_nat 16) with 65536 in R. change (2 ^ Z.of_nat 13) with 8192 in R1.
  change (2 ^ Z.of_nat 1) with 2 in R2, R3, R4.
  unfold get_fragment_offset, is_last_fragment. rewrite G. cbn [int_of bind].
  unfold FRAGMENT_OFFSET_MASK, FRAGMENT_FLAGS_MASK, FRAGMENT_FLAGS_MORE_FRAGMENTS. rewrite and_1.
  change 3 with (Z.ones 2). rewrite and_high by lia. change (2 ^ 2) with 4.
  split; f_equal.
  - lia.
  - destruct (field_val b 31 1 =? 0) eqn:Q; lia.
Qed.

Lemma frag_step_spec : forall o b, buf_ok b -> new fragment b = Some b -> op_ok o ->
  exists b', frag_step c o b = (b', Ok tt) /\ buf_ok b' /\ new fragment b' = Some b' /\ length b' = length b /\
    field_val b' 16 16 =
      (match o with
       | SetOffset x => 4 * (x / 4) + field_val b 16 16 mod 4
       | SetLast l => 2 * (field_val b 16 16 / 2) + (if l then 0 else 1)
       end) /\
    forall i, (i < 16 \/ 32 <= i)%nat -> nth i (bits_of b') false = nth i (bits_of b) false.
Proof.
  intros o b BO NW OK. destruct (frag_get b BO NW) as [G L].
  assert (R := field_val_range b 16 16). change (2 ^ Z.of_nat 16) with 65536 in R.
  set (v := field_val b 16 16) in *.
  set (v' := match o with
       | SetOffset x => 4 * (x / 4) + v mod 4
       | SetLast l => 2 * (v / 2) + (if l then 0 else 1)
       end).
  assert (V' : 0 <= v' < 65536) by (unfold v'; destruct o as [x|[]]; cbn [op_ok] in OK; lia).
  assert (ST : frag_step c o b = set c fragment "fragment_offset_with_flags" (VInt v') b).
  { unfold frag_step, v'. destruct o as [x|l]; cbn [op_ok] in OK.
    - unfold set_fragment_offset. rewrite G. cbn [int_of bind].
      unfold FRAGMENT_OFFSET_MASK, FRAGMENT_FLAGS_MASK. rewrite and_3. change 3 with (Z.ones 2).
      rewrite and_high by lia. rewrite or_low by (change (2 ^ 2) with 4; lia). reflexivity.
    - unfold set_last_fragment. rewrite G. cbn [int_of bind]. unfold FRAGMENT_FLAGS_MORE_FRAGMENTS. destruct l.
      + change 1 with (Z.ones 1). rewrite and_high by lia. change (2 ^ 1) with 2. now rewrite Z.add_0_r.
      + do 2 f_equal. replace v with (2 ^ 1 * (v / 2) + v mod 2) at 1 by (change (2 ^ 1) with 2; lia).
        rewrite <- or_low by (change (2 ^ 1) with 2; lia). rewrite <- Z.lor_assoc.
        replace (Z.lor (v mod 2) 1) with 1 by (assert (v mod 2 = 0 \/ v mod 2 = 1) as [->| ->] by lia; reflexivity).
        rewrite or_low by (change (2 ^ 1) with 2; lia). reflexivity. }
  rewrite ST.
  destruct (set_int c fragment (firstn 2 fragment) (int "fragment_offset_with_flags" 16) (skipn 3 fragment) 16 b 16 v')
    as (b' & E1 & W); auto using fragment_scoped; try lia.
  { reflexivity. } { split; vm_compute; intuition discriminate. }
  exists b'. split; [exact E1|]. assert (LB : length b' = length b) by apply W.
  assert (BO' : buf_ok b') by (split; [apply W|destruct BO; unfold blen in *; lia]).
  split; [exact BO'|]. split; [|split; [exact LB|split]].
  - unfold new in *. unfold blen in *. rewrite LB. destruct (_ <=? _) in *; [reflexivity|discriminate].
  - rewrite (field_written_same b 16 16 v' b'); auto; [|unfold blen in L; lia].
    change (2 ^ Z.of_nat 16) with 65536. lia.
  - intros i I. apply (field_written_bit b 16 16 v' b'); auto; unfold blen in L; lia.
Qed.

Lemma bit_field : forall b i, (i < 8 * length b)%nat -> field_val b i 1 = Z.b2z (nth i (bits_of b) false).
Proof.
  intros b i H. assert (R := field_val_range b i 1). change (2 ^ Z.of_nat 1) with 2 in R.
  assert (T := testbit_field_val b i 1 0 ltac:(lia) ltac:(lia)).
  replace (i + (1 - 1 - Z.to_nat 0))%nat with i in T by lia. rewrite <- T.
  assert (field_val b i 1 = 0 \/ field_val b i 1 = 1) as [->| ->] by lia; reflexivity.
Qed.

Lemma fragment_history : forall ops b off lst, buf_ok b -> new fragment b = Some b -> Forall op_ok ops ->
  get_fragment_offset c b = Ok off -> is_last_fragment c b = Ok lst ->
  exists b', frag_run c ops b = (b', Ok tt) /\ length b' = length b /\
    get_fragment_offset c b' = Ok (offset_after ops off) /\
    is_last_fragment c b' = Ok (last_after ops lst) /\
    forall i, (i < 16 \/ i = 30 \/ 32 <= i)%nat -> nth i (bits_of b') false = nth i (bits_of b) false.
Proof.
  induction ops as [|o ops IH]; intros b off lst BO NW F GO GL.
  - exists b. auto.
  - inversion F as [|? ? OK F']; subst.
    destruct (frag_step_spec o b BO NW OK) as (b1 & E1 & BO1 & NW1 & L1 & V1 & N1).
    destruct (fragment_getters b BO NW) as [X1 X2]. destruct (fragment_getters b1 BO1 NW1) as [Y1 Y2].
    destruct (frag_get b BO NW) as [_ LB]. destruct (frag_get b1 BO1 NW1) as [_ LB1].
    assert (W := word_parts b LB). assert (W1 := word_parts b1 LB1).
    assert (R0 := field_val_range b 16 16). change (2 ^ Z.of_nat 16) with 65536 in R0.
    assert (R1 := field_val_range b 16 13). assert (R2 := field_val_range b 29 1).
    assert (R3 := field_val_range b 30 1). assert (R4 := field_val_range b 31 1).
    assert (S1 := field_val_range b1 16 13). assert (S2 := field_val_range b1 29 1).
    assert (S3 := field_val_range b1 30 1). assert (S4 := field_val_range b1 31 1).
    change (2 ^ Z.of_nat 13) with 8192 in *. change (2 ^ Z.of_nat 1) with 2 in *.
    rewrite GO in X1. rewrite GL in X2. apply Ok_inj in X1, X2.
    specialize (IH b1 (match o with SetOffset x => 4 * (x / 4) | SetLast _ => off end)
                      (match o with SetLast x => x | SetOffset _ => lst end) BO1 NW1 F').
    destruct IH as (b' & E2 & L2 & G2 & I2 & N2).
    + rewrite Y1. f_equal. destruct o as [x|l]; cbn [op_ok] in OK; [lia|]. destruct l; cbv beta iota in V1; lia.
    + rewrite Y2. f_equal. clear - V1 W W1 R0 R1 R2 R3 R4 S1 S2 S3 S4 OK X2.
      assert (D : field_val b1 31 1 = 0 \/ field_val b1 31 1 = 1) by lia.
      assert (D0 : field_val b 31 1 = 0 \/ field_val b 31 1 = 1) by lia.
      destruct o as [x|[]]; cbn [op_ok] in OK.
      * destruct D as [D|D], D0 as [D0|D0]; rewrite X2, D, D0; try reflexivity; exfalso; lia.
      * destruct D as [D|D]; rewrite D; [reflexivity|exfalso; lia].
      * destruct D as [D|D]; rewrite D; [exfalso; lia|reflexivity].
    + exists b'. split; [cbn [frag_run]; unfold mseq; rewrite E1; exact E2|].
      split; [lia|]. split; [rewrite G2; destruct o; reflexivity|]. split; [rewrite I2; destruct o; reflexivity|].
      intros i I. rewrite N2 by exact I.
      destruct (Nat.eq_dec i 30) as [->|NE]; [|apply N1; lia].
      assert (B30 : field_val b1 30 1 = field_val b 30 1) by (destruct o as [x|[]]; cbn [op_ok] in OK; cbv beta iota in V1; clear - V1 W W1 R0 R1 R2 R3 R4 S1 S2 S3 S4 OK; lia).
      unfold blen in LB, LB1. rewrite !bit_field in B30 by lia.
      destruct (nth 30 (bits_of b1) false), (nth 30 (bits_of b) false); cbn in B30; congruence.
Qed.
End F.

Section E.
Variable c : cfg.

Lemma iter_short : forall A k (g : buf -> res A) s, blen s < k_min k -> iter_all k g s = Ok [].
Proof.
  intros A k g s H. unfold iter_all. cbn [iter_collect]. unfold iter_next.
  replace (k_min k <=? blen s) with false by lia. rewrite andb_false_r. reflexivity.
Qed.

Lemma second_octet : forall h n r, bytes_ok (h :: n :: r) -> field_val (h :: n :: r) 8 8 = n.
Proof.
  intros h n r B. inversion_clear B as [|? ? _ B']. inversion_clear B' as [|? ? N _].
  exact (proj1 (byte_field n r N)).
Qed.

Lemma chain_iter : forall s, buf_ok s -> exists l, ext_chain s l /\
  iter_all (sem_of c extension) (fun x => Ok x) (extension_iterable s) = Ok l.
Proof.
  unfold extension_iterable. intros s. induction s as [s IH] using (induction_ltof1 _ (@length Z)). unfold ltof in IH. intros BO.
  destruct (Z.ltb_spec (blen s) 2) as [Q|Q].
  { exists []. split; [now constructor|]. now apply iter_short. }
  destruct s as [|h [|n r]]; try (unfold blen in Q; cbn [List.length] in Q; lia).
  assert (NW : new extension (h :: n :: r) = Some (h :: n :: r)).
  { unfold new. change (minimum_packet_size extension) with 2. now replace (2 <=? blen (h :: n :: r)) with true by lia. }
  destruct (extension_split c _ BO NW) as (SZ & _ & _).
  rewrite second_octet in SZ by apply BO.
  assert (NB : 0 <= n < 256). { destruct BO as [B _]. inversion_clear B as [|? ? _ B']. now inversion_clear B'. }
  destruct (IH (skipn (Z.to_nat (8 * (n + 1))) (h :: n :: r))) as (l & CH & IT).
  { rewrite skipn_length. cbn [List.length]. lia. }
  { destruct BO as [B L]. split; [now apply bytes_skipn|]. unfold blen in *. rewrite skipn_length. lia. }
  exists ((h :: n :: r) :: l). split; [now constructor|].
  rewrite (iter_step _ (sem_of c extension) _ _ (8 * (n + 1))); try lia; try exact SZ; try exact Q.
  cbn [bind]. rewrite IT. reflexivity.
Qed.

Lemma chain_unique : forall s l, ext_chain s l -> forall l', ext_chain s l' -> l = l'.
Proof.
  intros s l H. induction H as [s L|h n r l H IH]; intros l' H'; inversion H'; subst; auto.
  - unfold blen in L. cbn [List.length] in L. lia.
  - unfold blen in H0. cbn [List.length] in H0. lia.
  - f_equal. now apply IH.
Qed.

Lemma chain_exact : forall s l, buf_ok s ->
  (iter_all (sem_of c extension) (fun x => Ok x) (extension_iterable s) = Ok l <-> ext_chain s l).
Proof.
  intros s l BO. destruct (chain_iter s BO) as (l0 & CH & IT). rewrite IT. split.
  - intros E. now injection E as <-.
  - intros H. f_equal. eapply chain_unique; eauto.
Qed.
End E.

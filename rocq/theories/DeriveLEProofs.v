(** Getters and setters of one integer: primitives at a bit offset, little
    endian plans, unsupported placements, emitted literals. *)
From Coq Require Import ZArith List Bool Lia ZifyBool ZifyNat Ascii.
From Verif Require Import Base BitSpec DeriveUtil DeriveOps BaseFacts BitFacts
  DeriveUtilProofs DeriveOpsProofs.
Import ListNotations.
Open Scope Z_scope.
Ltac Zify.zify_post_hook ::= Z.to_euclidean_division_equations.

(** ** Big-endian primitives *)

Definition is_big (c : cfg) (p : prim) : bool :=
  match p_end p with Big => true | Little => false | Host => negb (c_host_le c) end.

Lemma plan_be : forall c bit p, is_big c p = true -> placed (bit mod 8) (p_size p) ->
  plan c bit p = Some (be_ops (bit mod 8) (p_size p)).
Proof.
  intros c bit p E P. unfold plan. rewrite operations_closed by auto.
  unfold is_big in E. destruct (p_end p); try discriminate; auto.
  destruct (c_host_le c); [discriminate|reflexivity].
Qed.

Definition span (bit : Z) (p : prim) : Z := num_bytes (bit mod 8) (p_size p).

Lemma prim_get_be : forall c bit p b co, is_big c p = true -> placed (bit mod 8) (p_size p) ->
  bytes_ok b -> blen b < 2 ^ 63 -> 0 <= co -> co + span bit p <= blen b ->
  prim_get c bit p b co
  = Ok (field_val b (Z.to_nat (8 * co + bit mod 8)) (Z.to_nat (p_size p))).
Proof.
  intros. unfold prim_get. rewrite plan_be by auto. apply be_get; auto. lia.
Qed.

Lemma be_ops_nil : forall o s, placed o s -> be_ops o s <> [].
Proof.
  intros o s P X. assert (L := be_ops_length o s P). rewrite X in L.
  assert (F := num_bytes_facts o s P). cbn [length] in L. lia.
Qed.

Lemma prim_get_be_err : forall c bit p b co, is_big c p = true -> placed (bit mod 8) (p_size p) ->
  bytes_ok b -> blen b < 2 ^ 63 -> 0 <= co < 2 ^ 64 - 9 -> blen b < co + span bit p ->
  prim_get c bit p b co = Panic EIndex.
Proof.
  intros c bit p b co E P B L C H. unfold prim_get. rewrite plan_be by auto.
  assert (F := num_bytes_facts _ _ P). assert (Ln := be_ops_length _ _ P). unfold span in H.
  eapply gen_get_ops_err; eauto using be_ops_wf, be_ops_nil; lia.
Qed.

Lemma prim_set_be : forall c bit p b v co, is_big c p = true -> placed (bit mod 8) (p_size p) ->
  bytes_ok b -> blen b < 2 ^ 63 -> 0 <= co -> 0 <= v -> co + span bit p <= blen b ->
  exists b', prim_set c bit p v co b = (b', Ok tt) /\
    field_written b (Z.to_nat (8 * co + bit mod 8)) (Z.to_nat (p_size p)) v b'.
Proof.
  intros. unfold prim_set. rewrite plan_be by auto. apply be_set; auto. lia.
Qed.

Lemma prim_set_length : forall c bit p v co b,
  length (fst (prim_set c bit p v co b)) = length b.
Proof.
  intros. unfold prim_set. destruct (plan c bit p); [apply gen_set_ops_length|reflexivity].
Qed.

(** ** Reading back what was written, for any well-formed plan *)

Definition covered (l : list (getop * Z)) (j : Z) : bool :=
  existsb (fun x => in_mask (fst x) (snd x) (j - g_shiftl (fst x) + g_shiftr (fst x))) l.

Lemma existsb_number : forall (f : nat * (getop * Z) -> bool) (g : getop * Z -> bool) l i,
  (forall q x, find (fun y => (fst y =? q)%nat) (number i l) = Some (q, x) -> f (q, x) = g x) ->
  existsb f (number i l) = existsb g l.
Proof.
  intros f g l. induction l; intros i H; [reflexivity|].
  rewrite number_cons. cbn [existsb]. f_equal.
  - apply H. rewrite number_cons. cbn [find fst]. rewrite Nat.eqb_refl. reflexivity.
  - apply IHl. intros q x X. apply H. rewrite number_cons. cbn [find fst].
    destruct (i =? q)%nat eqn:E; [|exact X].
    assert (i = q) by lia. subst. rewrite find_number_lt in X by lia. discriminate.
Qed.

Lemma get_set_any : forall m w ops ps b co val b',
  ops_wf w ops ps -> ops <> [] -> bytes_ok b -> blen b < 2 ^ 64 -> 0 <= co -> 0 <= val ->
  co + Z.of_nat (length ops) <= blen b ->
  gen_set_ops m w (to_mutator ops) co 0 val b = (b', Ok tt) ->
  exists v, gen_get_ops m w ops b' co = Ok v /\ 0 <= v /\
    forall j, 0 <= j -> Z.testbit v j = covered (combine ops ps) j && Z.testbit val j.
Proof.
  intros m w ops ps b co val b' WF NE B L C V H E.
  destruct (gen_set_ops_spec m w ops ps val co 0 b WF) as (b2 & E2 & L2 & B2 & F2 & T2); auto; try lia.
  change (Z.of_nat 0) with 0 in E2. rewrite E in E2. injection E2 as <-.
  destruct (gen_get_ops_spec m w ops ps b' co WF) as (v & G & V' & T); auto.
  { unfold blen in *. lia. }
  { unfold blen in *. lia. }
  exists v. split; [auto|]. split; [auto|]. intros j J. rewrite T by auto.
  unfold covered.
  transitivity (existsb (fun x => in_mask (fst x) (snd x) (j - g_shiftl (fst x) + g_shiftr (fst x))
                                  && Z.testbit val j) (combine ops ps)).
  - apply existsb_number. intros q [op p] X. cbn [fst snd]. unfold contrib.
    destruct (in_mask op p (j - g_shiftl op + g_shiftr op)) eqn:I; [|reflexivity].
    cbn [andb].
    assert (K : 0 <= j - g_shiftl op + g_shiftr op < 8).
    { assert (W : op_wf w op p).
      { assert (IN : In (op, p) (combine ops ps)).
        { apply find_some in X. destruct X as [X _]. unfold number in X.
          apply in_combine_r in X. exact X. }
        clear - WF IN. induction WF; cbn in IN; [tauto|].
        destruct IN as [[= <- <-]|IN]; auto. }
      destruct W as (W1 & W2 & W3 & W4 & W5 & W6 & W7). unfold in_mask in I. lia. }
    rewrite T2 by auto. unfold written_bit. rewrite X, I. f_equal. lia.
  - generalize (combine ops ps). intros l. induction l; [reflexivity|].
    cbn [existsb]. rewrite IHl. symmetry. apply andb_orb_distrib_l.
Qed.

(** ** Little-endian plans *)

(** Placements for which the little-endian plan loses nothing: one byte, or the
    unused bits at both ends of the byte span are equally many. *)
Definition symmetric (o s : Z) : Prop := placed o s /\ (num_bytes o s = 1 \/ slack o s = o).

Definition le_op (o s i : Z) : getop :=
  GetOp (g_mask (be_op o s i)) (g_shiftl (be_op o s (num_bytes o s - 1 - i))) (g_shiftr (be_op o s i)).

Lemma rev_map_seq : forall A (f : nat -> A) n,
  rev (map f (seq 0 n)) = map (fun i => f (n - 1 - i)%nat) (seq 0 n).
Proof.
  intros A f n. destruct n; [reflexivity|].
  apply nth_ext with (d := f 0%nat) (d' := f (S n - 1 - 0)%nat).
  - now rewrite rev_length, !map_length.
  - intros i I. rewrite rev_length, map_length, seq_length in I.
    rewrite rev_nth by (rewrite map_length, seq_length; lia).
    rewrite map_length, seq_length.
    rewrite (map_nth f), (map_nth (fun i => f (S n - 1 - i)%nat)).
    rewrite !seq_nth by lia. f_equal. lia.
Qed.

Lemma le_ops_closed : forall o s, placed o s ->
  to_little_endian (be_ops o s)
  = map (fun j => le_op o s (Z.of_nat j)) (seq 0 (Z.to_nat (num_bytes o s))).
Proof.
  intros o s P. assert (F := num_bytes_facts o s P).
  unfold to_little_endian, be_ops. rewrite rev_map_seq, combine_map, map_map.
  apply map_ext_in. intros j J. apply in_seq in J. cbn [fst snd].
  unfold le_op. do 3 f_equal. lia.
Qed.

Lemma le_op_wf : forall o s i, symmetric o s -> 0 <= i < num_bytes o s ->
  op_wf (container s) (le_op o s i) (be_len o s i).
Proof.
  intros o s i [P SY] I. assert (F := num_bytes_facts o s P).
  assert (W1 := be_op_wf o s i P I).
  destruct P as (O & S & P). assert (W := container_facts s S).
  destruct W1 as (A1 & A2 & A3 & A4 & A5 & A6 & A7).
  unfold op_wf, le_op. cbn [g_mask g_shiftl g_shiftr].
  unfold be_op at 3 4. cbn [g_shiftl].
  unfold be_len, byte_stop, byte_start, slack in *.
  repeat split; auto; try lia;
  destruct (num_bytes o s - 1 - i + 1 =? num_bytes o s) eqn:IL; destruct (i =? 0) eqn:I0; lia.
Qed.

Lemma le_ops_wf : forall o s, symmetric o s ->
  ops_wf (container s) (to_little_endian (be_ops o s)) (be_lens o s).
Proof.
  intros o s SY. rewrite le_ops_closed by apply SY. unfold ops_wf, be_lens.
  apply Forall2_map. intros x X. apply in_seq in X. apply le_op_wf; auto.
  destruct SY as [P _]. assert (F := num_bytes_facts o s P). lia.
Qed.

Lemma le_covered : forall o s j, symmetric o s -> 0 <= j ->
  covered (combine (to_little_endian (be_ops o s)) (be_lens o s)) j = (j <? s).
Proof.
  intros o s j [P SY] J. assert (F := num_bytes_facts o s P).
  rewrite le_ops_closed by auto. unfold be_lens, covered. rewrite combine_map, existsb_map.
  cbn [fst snd]. apply eq_true_iff_eq. rewrite existsb_seq.
  destruct P as (O & S & P). split.
  - intros (i & I & X). unfold in_mask, le_op, be_op, be_len in X. cbn [g_shiftl g_shiftr] in X.
    unfold byte_stop, byte_start, slack in *.
    destruct (Z.of_nat i =? 0) eqn:I0; destruct (Z.of_nat i + 1 =? num_bytes o s) eqn:IL;
    destruct (num_bytes o s - 1 - Z.of_nat i + 1 =? num_bytes o s) eqn:IR; lia.
  - intros X.
    destruct SY as [N1|SY].
    + exists 0%nat. split; [lia|]. change (Z.of_nat 0) with 0.
      unfold in_mask, le_op, be_op, be_len. cbn [g_shiftl g_shiftr].
      unfold byte_stop, byte_start, slack in *. rewrite N1 in *. cbn. lia.
    + exists (Z.to_nat (if j <? 8 - o then 0 else (j + o) / 8)).
      unfold in_mask, le_op, be_op, be_len. cbn [g_shiftl g_shiftr].
      unfold byte_stop, byte_start, slack in *.
      set (i := Z.of_nat (Z.to_nat (if j <? 8 - o then 0 else (j + o) / 8))).
      assert (Ei : i = if j <? 8 - o then 0 else (j + o) / 8) by (unfold i; destruct (j <? 8 - o) eqn:Q; lia).
      assert (IR : 0 <= i < num_bytes o s) by (destruct (j <? 8 - o) eqn:Q; lia).
      split; [lia|].
      destruct (i =? 0) eqn:I0; destruct (i + 1 =? num_bytes o s) eqn:IL;
      destruct (num_bytes o s - 1 - i + 1 =? num_bytes o s) eqn:IRR;
      destruct (j <? 8 - o) eqn:Q; lia.
Qed.

Lemma be_covered : forall o s j, placed o s -> 0 <= j ->
  covered (combine (be_ops o s) (be_lens o s)) j = (j <? s).
Proof.
  intros o s j P J. assert (F := num_bytes_facts o s P).
  unfold be_ops, be_lens, covered. rewrite combine_map, existsb_map.
  cbn [fst snd]. apply eq_true_iff_eq. rewrite existsb_seq. split.
  - intros (i & I & X). destruct (be_op_bit o s (Z.of_nat i) j P ltac:(lia) J) as [E1 E2].
    rewrite E1, E2 in X. lia.
  - intros X. assert (P' := P). destruct P as (O & S & P).
    exists (Z.to_nat ((o + s - 1 - j) / 8)). unfold slack in *.
    split; [lia|].
    destruct (be_op_bit o s (Z.of_nat (Z.to_nat ((o + s - 1 - j) / 8))) j P' ltac:(lia) J) as [E1 E2].
    rewrite E1, E2. lia.
Qed.

(** The plan of a primitive and the placements for which it is lossless. *)
Definition lossless (c : cfg) (bit : Z) (p : prim) : Prop :=
  if is_big c p then placed (bit mod 8) (p_size p) else symmetric (bit mod 8) (p_size p).

Lemma plan_lossless : forall c bit p, lossless c bit p ->
  exists ops, plan c bit p = Some ops /\
    ops_wf (container (p_size p)) ops (be_lens (bit mod 8) (p_size p)) /\
    Z.of_nat (length ops) = span bit p /\ ops <> [] /\
    forall j, 0 <= j -> covered (combine ops (be_lens (bit mod 8) (p_size p))) j = (j <? p_size p).
Proof.
  intros c bit p H. unfold lossless in H. destruct (is_big c p) eqn:E.
  - exists (be_ops (bit mod 8) (p_size p)). split; [now apply plan_be|].
    split; [now apply be_ops_wf|]. split; [now apply be_ops_length|].
    split; [now apply be_ops_nil|]. intros. now apply be_covered.
  - assert (P := proj1 H). exists (to_little_endian (be_ops (bit mod 8) (p_size p))). split.
    { unfold plan. rewrite operations_closed by auto. unfold is_big in E.
      destruct (p_end p); [discriminate|reflexivity|]. destruct (c_host_le c); [reflexivity|discriminate]. }
    split; [now apply le_ops_wf|].
    assert (L : Z.of_nat (length (to_little_endian (be_ops (bit mod 8) (p_size p)))) = span bit p).
    { rewrite le_ops_closed by auto. rewrite map_length, seq_length.
      assert (F := num_bytes_facts _ _ P). unfold span. lia. }
    split; [exact L|]. split.
    { intros X. rewrite X in L. assert (F := num_bytes_facts _ _ P).
      unfold span in L. cbn [length] in L. lia. }
    intros. now apply le_covered.
Qed.

(** Round trip for every lossless placement. *)
Lemma prim_roundtrip : forall c bit p b v co, lossless c bit p ->
  bytes_ok b -> blen b < 2 ^ 63 -> 0 <= co -> 0 <= v -> co + span bit p <= blen b ->
  exists b', prim_set c bit p v co b = (b', Ok tt) /\ length b' = length b /\ bytes_ok b' /\
    prim_get c bit p b' co = Ok (v mod 2 ^ p_size p).
Proof.
  intros c bit p b v co LL B L C V H.
  destruct (plan_lossless c bit p LL) as (ops & E & WF & LN & NE & CV).
  unfold prim_set, prim_get. rewrite E.
  destruct (gen_set_ops_spec (c_mode c) _ ops _ v co 0 b WF) as (b2 & E2 & L2 & B2 & F2 & T2);
    auto; try lia.
  change (Z.of_nat 0) with 0 in E2. exists b2. split; [auto|]. split; [auto|]. split; [auto|].
  destruct (get_set_any (c_mode c) _ ops _ b co v b2 WF) as (r & G & R & T); auto; try lia.
  rewrite G. f_equal. apply Z.bits_inj'. intros j J. rewrite T, CV by auto.
  destruct (j <? p_size p) eqn:Q.
  - rewrite Z.mod_pow2_bits_low by lia. reflexivity.
  - assert (0 <= p_size p).
    { unfold lossless, symmetric, placed in LL. destruct (is_big c p); lia. }
    rewrite Z.mod_pow2_bits_high by lia. reflexivity.
Qed.

(** ** Byte-aligned little-endian fields *)

Lemma le_aligned_symmetric : forall n, 1 <= n <= 8 -> symmetric 0 (8 * n).
Proof.
  intros n N. unfold symmetric, placed, slack, num_bytes.
  replace ((0 <? 0) || negb ((8 * n) mod 8 =? 0)) with false by lia.
  split; [repeat split; lia|]. right. lia.
Qed.

Lemma add_disjoint : forall a b,
  (forall k, 0 <= k -> Z.testbit a k && Z.testbit b k = false) -> a + b = Z.lor a b.
Proof.
  intros a b H. assert (E : Z.land a b = 0).
  { apply Z.bits_inj'. intros k K. rewrite Z.land_spec, Z.testbit_0_l. auto. }
  rewrite Z.add_nocarry_lxor by auto. symmetry.
  apply Z.bits_inj'. intros k K. rewrite Z.lor_spec, Z.lxor_spec.
  specialize (H k K). destruct (Z.testbit a k), (Z.testbit b k); auto; discriminate.
Qed.

Lemma testbit_le_val : forall l j, bytes_ok l -> 0 <= j ->
  Z.testbit (le_val l) j = Z.testbit (nth (Z.to_nat (j / 8)) l 0) (j mod 8).
Proof.
  induction l as [|x l IH]; intros j B J.
  - cbn [le_val]. rewrite (nth_overflow []) by (simpl; lia). now rewrite !Z.testbit_0_l.
  - inversion B as [|? ? X B']; subst. cbn [le_val].
    replace (x + 256 * le_val l) with (Z.lor x (Z.shiftl (le_val l) 8)).
    + rewrite Z.lor_spec, Z.shiftl_spec by lia.
      destruct (Z.lt_ge_cases j 8) as [Q|Q].
      * rewrite (Z.testbit_neg_r _ (j - 8)) by lia. rewrite orb_false_r.
        replace (Z.to_nat (j / 8)) with 0%nat by lia. cbn [nth]. f_equal. lia.
      * rewrite byte_testbit_high by auto. cbn [orb]. rewrite IH by (auto; lia).
        replace (Z.to_nat (j / 8)) with (S (Z.to_nat ((j - 8) / 8))) by lia. cbn [nth].
        f_equal. lia.
    + replace (256 * le_val l) with (Z.shiftl (le_val l) 8)
        by (rewrite Z.shiftl_mul_pow2 by lia; change (2 ^ 8) with 256; lia).
      symmetry. apply add_disjoint.
      intros k K. rewrite Z.shiftl_spec by lia.
      destruct (Z.lt_ge_cases k 8).
      * rewrite (Z.testbit_neg_r _ (k - 8)) by lia. apply andb_false_r.
      * rewrite byte_testbit_high by auto. reflexivity.
Qed.

Lemma le_aligned_op : forall n i, 1 <= n <= 8 -> 0 <= i < n ->
  le_op 0 (8 * n) i = GetOp 255 (8 * i) 0 /\ be_len 0 (8 * n) i = 8.
Proof.
  intros n i N I.
  assert (NB : num_bytes 0 (8 * n) = n).
  { unfold num_bytes. replace ((0 <? 0) || negb ((8 * n) mod 8 =? 0)) with false by lia. lia. }
  unfold le_op, be_op, be_len, slack, byte_stop, byte_start. cbn [g_mask g_shiftl g_shiftr].
  rewrite NB.
  assert (ST : (if i =? 0 then 0 else 0) = 0) by (destruct (i =? 0); reflexivity).
  rewrite ST. replace (Z.min 8 (0 + 8 * n - 8 * i)) with 8 by lia.
  split; [|reflexivity]. cbn [Z.sub].
  f_equal.
  - destruct (n - 1 - i + 1 =? n) eqn:E; lia.
  - destruct (i + 1 =? n) eqn:E; lia.
Qed.

Lemma span_aligned : forall bit n e, bit mod 8 = 0 -> 1 <= n <= 8 -> span bit (Prim (8 * n) e) = n.
Proof.
  intros bit n e A N. unfold span, num_bytes. cbn [p_size]. rewrite A.
  replace ((0 <? 0) || negb ((8 * n) mod 8 =? 0)) with false by lia. lia.
Qed.

Lemma plan_le_aligned : forall c bit n e, bit mod 8 = 0 -> 1 <= n <= 8 ->
  is_big c (Prim (8 * n) e) = false ->
  plan c bit (Prim (8 * n) e) =
  Some (map (fun i => GetOp 255 (8 * Z.of_nat i) 0) (seq 0 (Z.to_nat n))).
Proof.
  intros c bit n e A N E. assert (SY := le_aligned_symmetric n N).
  unfold plan. cbn [p_size p_end]. rewrite A.
  rewrite operations_closed by apply SY.
  assert (X : to_little_endian (be_ops 0 (8 * n)) =
              map (fun i => GetOp 255 (8 * Z.of_nat i) 0) (seq 0 (Z.to_nat n))).
  { rewrite le_ops_closed by apply SY.
    replace (num_bytes 0 (8 * n)) with n
      by (unfold num_bytes; replace ((0 <? 0) || negb ((8 * n) mod 8 =? 0)) with false by lia; lia).
    apply map_ext_in. intros i I. apply in_seq in I. apply le_aligned_op; lia. }
  unfold is_big in E. cbn [p_end] in E.
  destruct e; [discriminate| now rewrite X |].
  destruct (c_host_le c); [now rewrite X|discriminate].
Qed.

Definition eights (n : Z) : list Z := map (fun _ => 8) (seq 0 (Z.to_nat n)).

Lemma le_aligned_wf : forall n, 1 <= n <= 8 ->
  ops_wf (container (8 * n)) (map (fun i => GetOp 255 (8 * Z.of_nat i) 0) (seq 0 (Z.to_nat n))) (eights n).
Proof.
  intros n N. apply Forall2_map. intros i I. apply in_seq in I.
  assert (C := container_facts (8 * n) ltac:(lia)).
  unfold op_wf. cbn [g_mask g_shiftl g_shiftr]. repeat split; try lia.
Qed.

Lemma window_length : forall (b : buf) lo n, (lo + n <= length b)%nat ->
  length (firstn n (skipn lo b)) = n.
Proof. intros. rewrite firstn_length, skipn_length. lia. Qed.

Lemma prim_get_le : forall c bit n e b co, bit mod 8 = 0 -> 1 <= n <= 8 ->
  is_big c (Prim (8 * n) e) = false ->
  bytes_ok b -> blen b < 2 ^ 63 -> 0 <= co -> co + n <= blen b ->
  prim_get c bit (Prim (8 * n) e) b co
  = Ok (le_val (firstn (Z.to_nat n) (skipn (Z.to_nat co) b))).
Proof.
  intros c bit n e b co A N E B L C H. unfold prim_get. rewrite plan_le_aligned by auto.
  cbn [p_size].
  assert (WF := le_aligned_wf n N).
  destruct (gen_get_ops_spec (c_mode c) _ _ _ b co WF) as (v & G & V & T); auto; try lia.
  { intros X. apply map_eq_nil in X. destruct (Z.to_nat n) eqn:Q; [lia|discriminate]. }
  { rewrite map_length, seq_length. lia. }
  rewrite G. f_equal. apply Z.bits_inj'. intros j J.
  assert (BW : bytes_ok (firstn (Z.to_nat n) (skipn (Z.to_nat co) b)))
    by (now apply bytes_firstn, bytes_skipn).
  rewrite T, testbit_le_val by auto.
  unfold eights. rewrite combine_map, number_map_seq, existsb_map.
  destruct (Z.lt_ge_cases j (8 * n)) as [Q|Q].
  - rewrite nth_firstn, nth_skipn by lia.
    apply eq_true_iff_eq. rewrite existsb_seq. unfold contrib, in_mask. cbn [g_shiftl g_shiftr].
    split.
    + intros (i & I & X). apply andb_true_iff in X. destruct X as [X1 X2].
      replace (j mod 8) with (j - 8 * Z.of_nat i + 0) by lia.
      replace (Z.to_nat (j / 8)) with i by lia. exact X2.
    + intros X. exists (Z.to_nat (j / 8)). split; [lia|].
      replace (j - 8 * Z.of_nat (Z.to_nat (j / 8)) + 0) with (j mod 8) by lia.
      rewrite X. lia.
  - rewrite (nth_overflow (firstn _ _)) by (rewrite firstn_length; lia).
    rewrite Z.testbit_0_l. apply not_true_iff_false. rewrite existsb_seq.
    unfold contrib, in_mask. cbn [g_shiftl g_shiftr].
    intros (i & I & X). lia.
Qed.

Lemma le_bytes_length : forall n v, length (le_bytes n v) = n.
Proof. induction n; intros; simpl; auto. Qed.

Lemma le_bytes_ok : forall n v, bytes_ok (le_bytes n v).
Proof.
  induction n; intros; simpl; constructor.
  - unfold byte_ok. lia.
  - apply IHn.
Qed.

Lemma le_bytes_testbit : forall n v i k, (i < n)%nat -> 0 <= k < 8 ->
  Z.testbit (nth i (le_bytes n v) 0) k = Z.testbit v (8 * Z.of_nat i + k).
Proof.
  induction n; intros v i k I K; [lia|]. destruct i; cbn [le_bytes nth].
  - change 256 with (2 ^ 8). rewrite Z.mod_pow2_bits_low by lia. f_equal.
  - rewrite IHn by lia. change 256 with (2 ^ 8). rewrite <- Z.shiftr_div_pow2 by lia.
    rewrite Z.shiftr_spec by lia. f_equal. lia.
Qed.

Lemma nth_splice : forall b lo bs i, (lo + length bs <= length b)%nat ->
  nth i (splice b lo bs) 0 =
  if (lo <=? i)%nat && (i <? lo + length bs)%nat then nth (i - lo) bs 0 else nth i b 0.
Proof.
  intros b lo bs i H. unfold splice.
  assert (F : length (firstn lo b) = lo) by (rewrite firstn_length; lia).
  destruct (lo <=? i)%nat eqn:A; destruct (i <? lo + length bs)%nat eqn:C; cbn [andb].
  - rewrite app_nth2 by lia. rewrite app_nth1 by lia. rewrite F. reflexivity.
  - rewrite app_nth2 by lia. rewrite app_nth2 by lia. rewrite F, nth_skipn. f_equal. lia.
  - rewrite app_nth1 by lia. apply nth_firstn. lia.
  - rewrite app_nth1 by lia. apply nth_firstn. lia.
Qed.

Lemma splice_bytes : forall b lo bs, bytes_ok b -> bytes_ok bs -> bytes_ok (splice b lo bs).
Proof.
  intros. unfold splice. rewrite !bytes_app. repeat split; auto using bytes_firstn, bytes_skipn.
Qed.

Lemma prim_set_le : forall c bit n e b v co, bit mod 8 = 0 -> 1 <= n <= 8 ->
  is_big c (Prim (8 * n) e) = false ->
  bytes_ok b -> blen b < 2 ^ 63 -> 0 <= co -> 0 <= v -> co + n <= blen b ->
  prim_set c bit (Prim (8 * n) e) v co b
  = (splice b (Z.to_nat co) (le_bytes (Z.to_nat n) v), Ok tt).
Proof.
  intros c bit n e b v co A N E B L C V H. unfold prim_set. rewrite plan_le_aligned by auto.
  cbn [p_size].
  assert (WF := le_aligned_wf n N).
  destruct (gen_set_ops_spec (c_mode c) _ _ _ v co 0 b WF) as (b2 & E2 & L2 & B2 & F2 & T2);
    auto; try lia.
  { rewrite map_length, seq_length. lia. }
  change (Z.of_nat 0) with 0 in E2. rewrite E2. f_equal.
  assert (FIT : (Z.to_nat co + length (le_bytes (Z.to_nat n) v) <= length b)%nat).
  { rewrite le_bytes_length. unfold blen in H. lia. }
  apply list_eq_nth with (d := 0).
  - rewrite L2, splice_length; auto.
  - intros i I. rewrite nth_splice by auto. rewrite le_bytes_length.
    destruct ((Z.to_nat co <=? i)%nat && (i <? Z.to_nat co + Z.to_nat n)%nat) eqn:Q.
    + apply byte_ext.
      * now apply byte_nth.
      * apply byte_nth, le_bytes_ok.
      * intros k K. replace i with (Z.to_nat co + (i - Z.to_nat co))%nat at 1 by lia.
        rewrite T2 by auto. rewrite le_bytes_testbit by lia.
        unfold written_bit, eights. rewrite combine_map, number_map_seq.
        rewrite (find_map_seq (fun x => (GetOp 255 (8 * Z.of_nat x) 0, 8))).
        destruct ((0 <=? i - Z.to_nat co)%nat && (i - Z.to_nat co <? 0 + Z.to_nat n)%nat) eqn:X; [|lia].
        unfold in_mask. cbn [g_shiftl g_shiftr].
        destruct ((0 <=? k) && (k <? 0 + 8)) eqn:Y; [|lia]. f_equal. lia.
    + destruct (Nat.lt_ge_cases i (Z.to_nat co)) as [X|X]; [apply F2; lia|].
      apply byte_ext; try (now apply byte_nth).
      intros k K. replace i with (Z.to_nat co + (i - Z.to_nat co))%nat by lia.
      rewrite T2 by auto.
      unfold written_bit, eights. rewrite combine_map, number_map_seq.
      rewrite (find_map_seq (fun x => (GetOp 255 (8 * Z.of_nat x) 0, 8))).
      destruct ((0 <=? i - Z.to_nat co)%nat && (i - Z.to_nat co <? 0 + Z.to_nat n)%nat) eqn:Y; [lia|].
      reflexivity.
Qed.

(** ** Lossy little-endian placements *)

Definition symmetricb (o s : Z) : bool :=
  (o + s mod 8 <=? 8) && ((num_bytes o s =? 1) || (slack o s =? o)).

Definition lossy_at (m : mode) (o s : Z) : bool :=
  let v := 2 ^ s - 1 in
  match operations m true o s Little with
  | Ok (Some ops) =>
      match gen_set_ops m (container s) (to_mutator ops) 0 0 v (repeat 0 9) with
      | (b', Ok _) => match gen_get_ops m (container s) ops b' 0 with
                      | Ok v' => negb (v' =? v)
                      | Panic _ => false
                      end
      | _ => false
      end
  | _ => false
  end.

Definition zrange (a n : nat) : list Z := map Z.of_nat (seq a n).

Lemma in_zrange : forall a n z, Z.of_nat a <= z < Z.of_nat (a + n) -> In z (zrange a n).
Proof.
  intros. unfold zrange. replace z with (Z.of_nat (Z.to_nat z)) by lia. apply in_map.
  apply in_seq. lia.
Qed.

Lemma lossy_sweep :
  forallb (fun m => forallb (fun o => forallb (fun s =>
    if (o + s mod 8 <=? 8) && negb (symmetricb o s) then lossy_at m o s else true)
    (zrange 1 64)) (zrange 0 8)) [Checked; Wrapping] = true.
Proof. vm_compute. reflexivity. Qed.

Lemma le_lossy : forall m o s, placed o s -> ~ symmetric o s ->
  exists ops b b' v v',
    operations m true o s Little = Ok (Some ops) /\ bytes_ok b /\ 0 <= v < 2 ^ s /\
    gen_set_ops m (container s) (to_mutator ops) 0 0 v b = (b', Ok tt) /\
    gen_get_ops m (container s) ops b' 0 = Ok v' /\ v' <> v.
Proof.
  intros m o s P NS. assert (SW := lossy_sweep).
  rewrite forallb_forall in SW. specialize (SW m ltac:(destruct m; simpl; auto)).
  rewrite forallb_forall in SW. destruct P as (O & S & P).
  specialize (SW o ltac:(apply in_zrange; lia)).
  rewrite forallb_forall in SW. specialize (SW s ltac:(apply in_zrange; lia)). cbv beta in SW.
  destruct ((o + s mod 8 <=? 8) && negb (symmetricb o s)) eqn:Q.
  - unfold lossy_at in SW. destruct (operations m true o s Little) as [[ops|]|e] eqn:E; try discriminate.
    destruct (gen_set_ops m (container s) (to_mutator ops) 0 0 (2 ^ s - 1) (repeat 0 9)) as [b' [u|e]] eqn:G;
      try discriminate.
    destruct (gen_get_ops m (container s) ops b' 0) as [v'|e] eqn:H; try discriminate.
    exists ops, (repeat 0 9), b', (2 ^ s - 1), v'. destruct u. repeat split; auto.
    + unfold bytes_ok. apply Forall_forall. intros x X. apply repeat_spec in X. subst. unfold byte_ok; lia.
    + assert (0 < 2 ^ s) by (apply Z.pow_pos_nonneg; lia). lia.
    + lia.
    + lia.
  - exfalso. apply NS. unfold symmetricb in Q. unfold symmetric, placed. lia.
Qed.

Lemma le_lossy_small : forall m mm o s, placed o s -> ~ symmetric o s ->
  exists ops b b' v v',
    operations mm true o s Little = Ok (Some ops) /\ bytes_ok b /\ blen b = 9 /\ 0 <= v < 2 ^ s /\
    gen_set_ops m (container s) (to_mutator ops) 0 0 v b = (b', Ok tt) /\
    gen_get_ops m (container s) ops b' 0 = Ok v' /\ v' <> v.
Proof.
  intros m mm o s P NS. assert (SW := lossy_sweep).
  rewrite operations_closed by auto. rewrite <- (operations_closed m true o s Little P).
  rewrite forallb_forall in SW. specialize (SW m ltac:(destruct m; simpl; auto)).
  rewrite forallb_forall in SW. destruct P as (O & S & P).
  specialize (SW o ltac:(apply in_zrange; lia)).
  rewrite forallb_forall in SW. specialize (SW s ltac:(apply in_zrange; lia)). cbv beta in SW.
  destruct ((o + s mod 8 <=? 8) && negb (symmetricb o s)) eqn:Q.
  - unfold lossy_at in SW. destruct (operations m true o s Little) as [[ops|]|e] eqn:E; try discriminate.
    destruct (gen_set_ops m (container s) (to_mutator ops) 0 0 (2 ^ s - 1) (repeat 0 9)) as [b' [u|e]] eqn:G;
      try discriminate.
    destruct (gen_get_ops m (container s) ops b' 0) as [v'|e] eqn:H; try discriminate.
    exists ops, (repeat 0 9), b', (2 ^ s - 1), v'. destruct u. repeat split; auto.
    + unfold bytes_ok. apply Forall_forall. intros x X. apply repeat_spec in X. subst. unfold byte_ok; lia.
    + assert (0 < 2 ^ s) by (apply Z.pow_pos_nonneg; lia). lia.
    + lia.
    + lia.
  - exfalso. apply NS. unfold symmetricb in Q. unfold symmetric, placed. lia.
Qed.

(** ** Unsupported placements *)

Lemma unplaced_checked : forall h o s e, 0 <= o <= 7 -> 1 <= s <= 64 -> 8 < o + s mod 8 ->
  operations Checked h o s e = Panic EOverflow.
Proof.
  intros h o s e O S U. unfold operations.
  destruct (7 <? o) eqn:A; [lia|]. destruct (s =? 0) eqn:B; [lia|].
  destruct (64 <? s) eqn:C; [lia|]. cbn [orb].
  assert (NB : num_bytes o s = s / 8 + 1).
  { unfold num_bytes. replace ((0 <? o) || negb (s mod 8 =? 0)) with true by lia. reflexivity. }
  rewrite NB.
  destruct (Z.to_nat (s / 8 + 1)) as [|k] eqn:K; [lia|]. cbn [ops_loop].
  assert (GM : exists x, get_mask o s = Ok x).
  { unfold get_mask. replace (negb (o <=? 7)) with false by lia.
    replace (negb (bits_in_byte o s <=? 8 - o)) with false; [eauto|].
    unfold bits_in_byte. destruct (1 <=? s / 8); [lia|]. destruct (8 - o <? s) eqn:X; lia. }
  destruct GM as [[x y] ->]. cbn [bind].
  unfold get_shiftl, get_shiftr.
  assert (US : 2 ^ usize = 18446744073709551616) by reflexivity.
  assert (UF : sub_u Checked usize ((s / 8 + 1) * 8 - o) s = Panic EOverflow).
  { unfold sub_u, ovf. replace ((0 <=? (s / 8 + 1) * 8 - o - s)) with false by lia. reflexivity. }
  destruct (s / 8 + 1 =? 1) eqn:N1.
  - cbn [orb bind]. replace (0 + 1 =? s / 8 + 1) with true by lia.
    rewrite (sub_u_in Checked usize ((s / 8 + 1) * 8) o) by lia. cbn [bind]. rewrite UF. reflexivity.
  - replace (0 + 1 =? s / 8 + 1) with false by lia. cbn [orb].
    rewrite (sub_u_in Checked usize ((s / 8 + 1) * 8) o) by lia. cbn [bind]. rewrite UF. reflexivity.
Qed.

Lemma operations_rejects : forall m h o s e, 0 <= o -> 7 < o \/ s = 0 \/ 64 < s ->
  operations m h o s e = Ok None.
Proof.
  intros m h o s e O H. unfold operations.
  destruct ((7 <? o) || (s =? 0) || (64 <? s)) eqn:E; [reflexivity|lia].
Qed.

(** A getter built from [n] operations looks at [n] bytes only. *)
Lemma get_multi_local : forall m w ops b b' co i acc, 0 <= co ->
  length b = length b' ->
  (forall q, (q < Z.to_nat co + i + length ops)%nat -> nth q b 0 = nth q b' 0) ->
  blen b < 2 ^ 64 -> co + Z.of_nat i + Z.of_nat (length ops) <= blen b ->
  get_multi m w ops b co (Z.of_nat i) acc = get_multi m w ops b' co (Z.of_nat i) acc.
Proof.
  intros m w ops b b' co. induction ops as [|op ops IH]; intros i acc C L H B R; [reflexivity|].
  cbn [get_multi]. cbn [length] in *. rewrite add_u_in by (change usize with 64; lia). cbn [bind].
  assert (blen b = blen b') by (unfold blen; lia).
  rewrite !idx_ok by lia. cbn [bind]. rewrite H by lia.
  destruct (eval_getop m w op _); [|reflexivity]. cbn [bind].
  replace (Z.of_nat i + 1) with (Z.of_nat (S i)) by lia. apply IH; auto; try lia.
  intros q Q. apply H. lia.
Qed.

Lemma gen_get_ops_local : forall m w ops b b' co, 0 <= co ->
  length b = length b' ->
  (forall q, (q < Z.to_nat co + length ops)%nat -> nth q b 0 = nth q b' 0) ->
  blen b < 2 ^ 64 -> co + Z.of_nat (length ops) <= blen b ->
  gen_get_ops m w ops b co = gen_get_ops m w ops b' co.
Proof.
  intros m w ops b b' co C L H B R.
  destruct ops as [|op [|op2 ops]].
  - reflexivity.
  - cbn [gen_get_ops length] in *. assert (blen b = blen b') by (unfold blen; lia).
    rewrite !idx_ok by lia. cbn [bind]. rewrite H by lia. reflexivity.
  - apply (get_multi_local m w _ b b' co 0%nat 0); auto; try lia.
    intros q Q. apply H. lia.
Qed.

Lemma ops_loop_length : forall m o s nb k i cur rem l,
  ops_loop m o s nb k i cur rem = Ok l -> length l = k.
Proof.
  induction k; intros i cur rem l H; cbn [ops_loop] in H.
  - injection H as <-. reflexivity.
  - apply bind_ok in H. destruct H as ([cs mk] & _ & H).
    apply bind_ok in H. destruct H as (sl & _ & H).
    apply bind_ok in H. destruct H as (sr & _ & H).
    apply bind_ok in H. destruct H as (r & E & H). injection H as <-.
    cbn [length]. f_equal. eapply IHk; eauto.
Qed.

Lemma operations_length : forall m h o s e ops,
  operations m h o s e = Ok (Some ops) -> Z.of_nat (length ops) = num_bytes o s \/ num_bytes o s < 0.
Proof.
  intros m h o s e ops H. unfold operations in H.
  destruct ((7 <? o) || (s =? 0) || (64 <? s)); [discriminate|].
  apply bind_ok in H. destruct H as (l & E & H). injection H as H.
  apply ops_loop_length in E.
  assert (L : length ops = length l).
  { assert (X : length (to_little_endian l) = length l).
    { unfold to_little_endian. rewrite map_length, combine_length, rev_length. lia. }
    subst ops. destruct e; auto. destruct h; auto. }
  lia.
Qed.

(** No plan can serve an unsupported placement: it covers too few bytes. *)
Lemma unplaced_wrong : forall m h o s e w, 0 <= o <= 7 -> 1 <= s <= 64 -> 8 < o + s mod 8 ->
  forall ops, operations m h o s e = Ok (Some ops) ->
  exists b, bytes_ok b /\ length b = 10%nat /\
    gen_get_ops m w ops b 0 <> Ok (field_val b (Z.to_nat o) (Z.to_nat s)).
Proof.
  intros m h o s e w O S U ops E.
  assert (NB : num_bytes o s = s / 8 + 1).
  { unfold num_bytes. replace ((0 <? o) || negb (s mod 8 =? 0)) with true by lia. reflexivity. }
  assert (LN := operations_length _ _ _ _ _ _ E).
  set (n := Z.to_nat (num_bytes o s)).
  set (b0 := repeat 0 10).
  set (b1 := upd_nat b0 n 255).
  assert (B0 : bytes_ok b0).
  { apply Forall_forall. intros x X. apply repeat_spec in X. subst. unfold byte_ok; lia. }
  assert (B1 : bytes_ok b1) by (apply Forall_upd; auto; unfold byte_ok; lia).
  assert (L0 : length b0 = 10%nat) by reflexivity.
  assert (L1 : length b1 = 10%nat) by (unfold b1; rewrite upd_nat_length; auto).
  assert (SAME : gen_get_ops m w ops b0 0 = gen_get_ops m w ops b1 0).
  { apply gen_get_ops_local; try lia.
    - intros q Q. unfold b1. rewrite upd_nat_nth.
      destruct ((q =? n)%nat) eqn:X; [unfold n in *; lia|]. reflexivity.
    - unfold blen. rewrite L0. lia.
    - unfold blen. rewrite L0. lia. }
  destruct (Z.eq_dec (field_val b0 (Z.to_nat o) (Z.to_nat s)) (field_val b1 (Z.to_nat o) (Z.to_nat s))) as [EQ|NE].
  - exfalso.
    assert (T : Z.testbit (field_val b0 (Z.to_nat o) (Z.to_nat s)) 0
                = Z.testbit (field_val b1 (Z.to_nat o) (Z.to_nat s)) 0) by congruence.
    rewrite !testbit_field_val, !nth_bits_of in T by lia.
    set (p := (Z.to_nat o + (Z.to_nat s - 1 - Z.to_nat 0))%nat) in *.
    assert (PN : (p / 8)%nat = n) by (unfold p, n; lia).
    rewrite PN in T. unfold b1 in T. rewrite upd_nat_nth, Nat.eqb_refl, L0 in T.
    replace (n <? 10)%nat with true in T by (unfold n; lia). cbn [andb] in T.
    unfold b0 in T. rewrite nth_repeat, Z.testbit_0_l in T.
    change 255 with (Z.ones 8) in T. rewrite Z.testbit_ones_nonneg in T by lia.
    assert (7 - Z.of_nat (p mod 8) < 8) by lia. lia.
  - destruct (gen_get_ops m w ops b0 0) as [v|x] eqn:G.
    + destruct (Z.eq_dec v (field_val b0 (Z.to_nat o) (Z.to_nat s))) as [->|N].
      * exists b1. split; [auto|]. split; [auto|]. rewrite <- SAME. congruence.
      * exists b0. split; [auto|]. split; [auto|]. rewrite G. congruence.
    + exists b0. split; [auto|]. split; [auto|]. rewrite G. discriminate.
Qed.

(** ** Literals *)

Definition hex_val (a : ascii) : option Z :=
  let n := Z.of_nat (nat_of_ascii a) in
  if (48 <=? n) && (n <=? 57) then Some (n - 48)
  else if (97 <=? n) && (n <=? 102) then Some (n - 87)
  else if (65 <=? n) && (n <=? 70) then Some (n - 55)
  else None.

(** Rust's reading of the digits of a hexadecimal literal. *)
Fixpoint hex_literal_acc (l : list ascii) (acc : Z) : option Z :=
  match l with
  | [] => Some acc
  | a :: r => match hex_val a with
              | Some d => hex_literal_acc r (16 * acc + d)
              | None => None
              end
  end.
Definition hex_literal (l : list ascii) : option Z :=
  match l with [] => None | _ => hex_literal_acc l 0 end.

Lemma hex_digit_val : forall d, 0 <= d < 16 -> hex_val (hex_digit d) = Some d.
Proof.
  intros d D.
  assert (S : forallb (fun d => match hex_val (hex_digit d) with Some x => x =? d | None => false end)
     (zrange 0 16) = true) by reflexivity.
  rewrite forallb_forall in S. specialize (S d ltac:(apply in_zrange; lia)). cbv beta in S.
  destruct (hex_val (hex_digit d)); [f_equal; lia|discriminate].
Qed.

Lemma radix16_spec : forall fuel v ret acc, 0 <= v < 16 ^ Z.of_nat fuel ->
  hex_literal_acc (radix16_loop fuel v ret) acc
  = (fun k => hex_literal_acc ret (acc * 16 ^ k + v))
    (Z.of_nat (length (radix16_loop fuel v [])) ).
Proof.
  assert (APP : forall fuel v ret, radix16_loop fuel v ret = radix16_loop fuel v [] ++ ret).
  { induction fuel; intros; [reflexivity|]. cbn [radix16_loop].
    destruct (0 <? v); [|reflexivity]. rewrite IHfuel, (IHfuel _ [_]), <- app_assoc. reflexivity. }
  induction fuel; intros v ret acc V.
  - cbn [radix16_loop length]. change (16 ^ Z.of_nat 0) with 1 in V. cbv beta.
    change (16 ^ Z.of_nat 0) with 1. f_equal. lia.
  - cbn [radix16_loop]. destruct (0 <? v) eqn:P.
    + rewrite IHfuel.
      2:{ replace (Z.of_nat (S fuel)) with (Z.succ (Z.of_nat fuel)) in V by lia.
          rewrite Z.pow_succ_r in V by lia. lia. }
      cbv beta. cbn [hex_literal_acc]. rewrite hex_digit_val by lia.
      rewrite (APP fuel (v / 16) [hex_digit (v mod 16)]), app_length. cbn [length].
      f_equal.
      replace (Z.of_nat (length (radix16_loop fuel (v / 16) []) + 1))
        with (Z.succ (Z.of_nat (length (radix16_loop fuel (v / 16) [])))) by lia.
      rewrite Z.pow_succ_r by lia. lia.
    + cbn [length]. cbv beta. change (16 ^ Z.of_nat 0) with 1. f_equal. lia.
Qed.

Lemma radix16_step : forall fuel v ret, radix16_loop (S fuel) v ret =
  if 0 <? v then radix16_loop fuel (v / 16) (hex_digit (v mod 16) :: ret) else ret.
Proof. reflexivity. Qed.

Lemma radix16_correct : forall v, 0 < v < 2 ^ 64 -> hex_literal (radix16 v) = Some v.
Proof.
  intros v V. unfold hex_literal.
  assert (APP : forall fuel v x ret, radix16_loop fuel v (x :: ret) <> []).
  { induction fuel; intros; cbn [radix16_loop]; [discriminate|].
    destruct (0 <? v0); [apply IHfuel|discriminate]. }
  assert (NE : radix16 v <> []).
  { unfold radix16. change 16%nat with (S 15). rewrite radix16_step.
    replace (0 <? v) with true by lia. apply APP. }
  destruct (radix16 v) eqn:E; [congruence|]. rewrite <- E. unfold radix16.
  rewrite radix16_spec by (change (16 ^ Z.of_nat 16) with (2 ^ 64); lia).
  cbv beta. cbn [hex_literal_acc]. f_equal.
Qed.

Lemma radix16_zero : hex_literal (radix16 0) = None.
Proof. reflexivity. Qed.

(** Every planned operation prints valid literals and shifts. *)
Definition op_prints (w : Z) (op : getop) : Prop :=
  0 < g_mask op < 256 /\
  Z.abs (g_shiftr op - g_shiftl op) < w /\
  0 < s_vmask (to_setop op) < 2 ^ w /\
  0 <= s_save (to_setop op) < 256 /\
  s_save (to_setop op) = 255 - g_mask op.

Lemma op_wf_prints : forall w op p, op_wf w op p -> op_prints w op.
Proof.
  intros w op p WF. unfold op_prints. rewrite (to_setop_closed _ _ _ WF).
  cbn [s_vmask s_save]. destruct WF as (W & P & R & RP & L & LP & M).
  rewrite M. rewrite !Z.shiftl_mul_pow2, !Z.ones_equiv by lia.
  assert (P2 : 2 <= 2 ^ p).
  { change 2 with (2 ^ 1) at 1. apply Z.pow_le_mono_r; lia. }
  assert (R2 : 1 <= 2 ^ g_shiftr op) by (assert (0 < 2 ^ g_shiftr op) by (apply Z.pow_pos_nonneg; lia); lia).
  assert (L2 : 1 <= 2 ^ g_shiftl op) by (assert (0 < 2 ^ g_shiftl op) by (apply Z.pow_pos_nonneg; lia); lia).
  assert (PR : 2 ^ p * 2 ^ g_shiftr op <= 256).
  { rewrite <- Z.pow_add_r by lia. change 256 with (2 ^ 8). apply Z.pow_le_mono_r; lia. }
  assert (PL : 2 ^ p * 2 ^ g_shiftl op <= 2 ^ w).
  { rewrite <- Z.pow_add_r by lia. apply Z.pow_le_mono_r; lia. }
  repeat split; try nia; lia.
Qed.

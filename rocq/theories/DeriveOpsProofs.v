(** Bit-level meaning of the emitted getters and setters of one integer. *)
From Coq Require Import ZArith List Bool Lia ZifyBool ZifyNat.
From Verif Require Import Base BitSpec DeriveUtil DeriveOps BaseFacts BitFacts DeriveUtilProofs.
Import ListNotations.
Open Scope Z_scope.
Ltac Zify.zify_post_hook ::= Z.to_euclidean_division_equations.

(** Operations [op_0 .. op_(n-1)] together with the lengths of their masks. *)
Definition ops_wf (w : Z) (ops : list getop) (ps : list Z) : Prop :=
  Forall2 (op_wf w) ops ps.

(** The bit of the buffer that supplies bit [j] of the value through operation
    number [i]. *)
Definition contrib (b : buf) (co : Z) (x : nat * (getop * Z)) (j : Z) : bool :=
  let '(i, (op, p)) := x in
  in_mask op p (j - g_shiftl op + g_shiftr op)
  && Z.testbit (nth (Z.to_nat co + i) b 0) (j - g_shiftl op + g_shiftr op).

Definition number {A} (i : nat) (l : list A) : list (nat * A) := combine (seq i (length l)) l.

Lemma number_cons : forall A i (x : A) l, number i (x :: l) = (i, x) :: number (S i) l.
Proof. reflexivity. Qed.

Lemma get_multi_spec : forall m w ops ps b co i acc,
  ops_wf w ops ps -> bytes_ok b -> 0 <= co -> blen b < 2 ^ 64 -> 0 <= acc ->
  co + Z.of_nat i + Z.of_nat (length ops) <= blen b ->
  exists v, get_multi m w ops b co (Z.of_nat i) acc = Ok v /\ 0 <= v /\
    forall j, 0 <= j ->
      Z.testbit v j = Z.testbit acc j
        || existsb (fun x => contrib b co x j) (number i (combine ops ps)).
Proof.
  intros m w ops ps b co i acc WF. revert i acc.
  induction WF as [|op p ops ps WF1 WF IH]; intros i acc B C L A H.
  - exists acc. split; [reflexivity|]. split; [auto|]. intros. simpl. now rewrite orb_false_r.
  - cbn [get_multi]. cbn [length] in H.
    rewrite add_u_in by (change usize with 64; lia). cbn [bind].
    rewrite idx_ok by lia. cbn [bind].
    replace (Z.to_nat (co + Z.of_nat i)) with (Z.to_nat co + i)%nat by lia.
    assert (BN := byte_nth b (Z.to_nat co + i) B).
    destruct (eval_getop_spec m w op p _ WF1 BN) as (v & E & V & T).
    rewrite E. cbn [bind].
    replace (Z.of_nat i + 1) with (Z.of_nat (S i)) by lia.
    destruct (IH (S i) (Z.lor acc v)) as (r & Er & R & Tr); auto; try lia.
    { apply Z.lor_nonneg; lia. }
    exists r. split; [exact Er|]. split; [auto|]. intros j J.
    rewrite Tr, Z.lor_spec, T by auto. cbn [combine]. rewrite number_cons.
    cbn [existsb]. rewrite orb_assoc. reflexivity.
Qed.

Lemma gen_get_ops_spec : forall m w ops ps b co,
  ops_wf w ops ps -> ops <> [] -> bytes_ok b -> 0 <= co -> blen b < 2 ^ 64 ->
  co + Z.of_nat (length ops) <= blen b ->
  exists v, gen_get_ops m w ops b co = Ok v /\ 0 <= v /\
    forall j, 0 <= j ->
      Z.testbit v j = existsb (fun x => contrib b co x j) (number 0 (combine ops ps)).
Proof.
  intros m w ops ps b co WF NE B C L H.
  destruct ops as [|op [|op2 ops]]; [congruence| |].
  - inversion WF as [|? p ? ps' WF1 WF2]; subst. inversion WF2; subst.
    unfold gen_get_ops. cbn [length] in H. rewrite idx_ok by lia. cbn [bind].
    destruct (eval_getop_spec m w op p _ WF1 (byte_nth b (Z.to_nat co) B)) as (v & E & V & T).
    exists v. split; [auto|]. split; [auto|]. intros j J. rewrite T by auto. simpl.
    rewrite orb_false_r, Nat.add_0_r. reflexivity.
  - destruct (get_multi_spec m w _ ps b co 0%nat 0 WF) as (v & E & V & T); auto; try lia.
    exists v. split; [exact E|]. split; [auto|]. intros j J. rewrite T by auto.
    rewrite Z.testbit_0_l. reflexivity.
Qed.

Lemma get_multi_err : forall m w ops ps b co i acc,
  ops_wf w ops ps -> bytes_ok b -> 0 <= co -> blen b < 2 ^ 64 ->
  co + Z.of_nat i + Z.of_nat (length ops) < 2 ^ 64 ->
  ops <> [] -> blen b < co + Z.of_nat i + Z.of_nat (length ops) ->
  get_multi m w ops b co (Z.of_nat i) acc = Panic EIndex.
Proof.
  intros m w ops ps b co i acc WF. revert i acc.
  induction WF as [|op p ops ps WF1 WF IH]; intros i acc B C L U NE H; [congruence|].
  cbn [get_multi]. cbn [length] in *.
  rewrite add_u_in by (change usize with 64; lia). cbn [bind].
  destruct (Z.lt_ge_cases (co + Z.of_nat i) (blen b)) as [I|I].
  - rewrite idx_ok by lia. cbn [bind].
    destruct (eval_getop_spec m w op p _ WF1
                (byte_nth b (Z.to_nat (co + Z.of_nat i)) B)) as (v & -> & V & T).
    cbn [bind]. replace (Z.of_nat i + 1) with (Z.of_nat (S i)) by lia.
    apply IH; auto; try lia. intros ->. cbn [length] in H. lia.
  - rewrite idx_err by lia. reflexivity.
Qed.

Lemma gen_get_ops_err : forall m w ops ps b co,
  ops_wf w ops ps -> bytes_ok b -> 0 <= co -> blen b < 2 ^ 64 ->
  co + Z.of_nat (length ops) < 2 ^ 64 ->
  ops <> [] -> blen b < co + Z.of_nat (length ops) ->
  gen_get_ops m w ops b co = Panic EIndex.
Proof.
  intros m w ops ps b co WF B C L U NE H.
  destruct ops as [|op [|op2 ops]]; [congruence| |].
  - unfold gen_get_ops. cbn [length] in *. rewrite idx_err by lia. reflexivity.
  - apply (get_multi_err m w _ ps b co 0%nat 0); auto; lia.
Qed.

(** ** Setters *)

(** Bit [k] of byte [i] (counted from the start of the field) after the write. *)
Definition written_bit (l : list (nat * (getop * Z))) (val : Z) (i : nat) (k : Z) (old : bool) : bool :=
  match find (fun x => (fst x =? i)%nat) l with
  | Some (_, (op, p)) =>
      if in_mask op p k then Z.testbit val (k + g_shiftl op - g_shiftr op) else old
  | None => old
  end.

Lemma find_number_lt : forall (l : list (getop * Z)) i0 i, (i < i0)%nat ->
  find (fun x => (fst x =? i)%nat) (number i0 l) = None.
Proof.
  induction l; intros; [reflexivity|]. rewrite number_cons. cbn [find fst].
  destruct (i0 =? i)%nat eqn:E; [lia|]. apply IHl. lia.
Qed.

Lemma gen_set_ops_spec : forall m w ops ps val co i b,
  ops_wf w ops ps -> bytes_ok b -> 0 <= co -> blen b < 2 ^ 64 -> 0 <= val ->
  co + Z.of_nat i + Z.of_nat (length ops) <= blen b ->
  exists b', gen_set_ops m w (to_mutator ops) co (Z.of_nat i) val b = (b', Ok tt) /\
    length b' = length b /\ bytes_ok b' /\
    (forall q, (q < Z.to_nat co + i)%nat -> nth q b' 0 = nth q b 0) /\
    (forall q k, 0 <= k < 8 ->
      Z.testbit (nth (Z.to_nat co + q) b' 0) k =
      written_bit (number i (combine ops ps)) val q k (Z.testbit (nth (Z.to_nat co + q) b 0) k)).
Proof.
  intros m w ops ps val co i b WF. revert i b.
  induction WF as [|op p ops ps WF1 WF IH]; intros i b B C L V H.
  - exists b. repeat split; auto.
  - cbn [to_mutator map gen_set_ops]. cbn [length] in H.
    rewrite add_u_in by (change usize with 64; lia). cbn [bind].
    rewrite idx_ok by lia. cbn [bind].
    destruct (eval_setop_spec m w op p _ val WF1
                (byte_nth b (Z.to_nat (co + Z.of_nat i)) B) V) as (y & E & Y & T).
    rewrite E. cbn [bind]. unfold mseq. rewrite store_ok by lia.
    set (b1 := upd_nat b (Z.to_nat (co + Z.of_nat i)) y).
    assert (L1 : length b1 = length b) by apply upd_nat_length.
    replace (Z.of_nat i + 1) with (Z.of_nat (S i)) by lia.
    destruct (IH (S i) b1) as (b' & E' & L' & B' & F' & T'); auto.
    { apply Forall_upd; auto. }
    { unfold blen in *. lia. }
    { unfold blen in *. lia. }
    unfold to_mutator in E'. rewrite E'.
    assert (LB : (Z.to_nat (co + Z.of_nat i) < length b)%nat) by (unfold blen in *; lia).
    exists b'. split; [reflexivity|]. split; [lia|]. split; [auto|]. split.
    + intros q Q. rewrite F' by lia. unfold b1. rewrite upd_nat_nth.
      destruct (q =? _)%nat eqn:X; [lia|]. reflexivity.
    + intros q k K. rewrite T' by auto. unfold b1. rewrite upd_nat_nth.
      cbn [combine]. rewrite number_cons. unfold written_bit at 2. cbn [find fst].
      destruct (Nat.eq_dec q i) as [->|N].
      * rewrite Nat.eqb_refl. unfold written_bit. rewrite find_number_lt by lia.
        replace (Z.to_nat co + i)%nat with (Z.to_nat (co + Z.of_nat i)) by lia.
        rewrite Nat.eqb_refl. destruct (_ <? _)%nat eqn:X; [|lia]. cbn [andb].
        apply T. auto.
      * destruct (Z.to_nat co + q =? Z.to_nat (co + Z.of_nat i))%nat eqn:X; [lia|].
        cbn [andb]. destruct (i =? q)%nat eqn:Y'; [lia|]. reflexivity.
Qed.

Lemma gen_set_ops_length : forall m w ops co i val b,
  length (fst (gen_set_ops m w ops co i val b)) = length b.
Proof.
  intros m w ops co. induction ops; intros; [reflexivity|].
  cbn [gen_set_ops]. destruct (bind _ _) as [[p y]|e]; [|reflexivity].
  apply mseq_length; intros; auto using store_length.
Qed.

Lemma gen_set_ops_bytes : forall m w ops co i val b, bytes_ok b ->
  (forall op x, In op ops -> byte_ok x -> forall y, eval_setop m w op x val = Ok y -> byte_ok y) ->
  bytes_ok (fst (gen_set_ops m w ops co i val b)).
Proof.
  intros m w ops co. induction ops; intros i val b B H; [auto|].
  cbn [gen_set_ops].
  destruct (add_u m usize co i) as [p|e]; [|auto]. cbn [bind].
  destruct (idx b p) as [x|e] eqn:X; [|auto]. cbn [bind].
  destruct (eval_setop m w a x val) as [y|e] eqn:Y; [|auto]. cbn [bind].
  unfold mseq, store. destruct (_ && _); [|auto].
  apply IHops.
  - apply Forall_upd; auto. eapply H; eauto; [now left|].
    unfold idx in X. destruct (_ && _); [|discriminate]. injection X as <-. now apply byte_nth.
  - intros; eapply H; eauto. now right.
Qed.

Lemma gen_set_ops_err : forall m w ops ps val co i b,
  ops_wf w ops ps -> bytes_ok b -> 0 <= co -> blen b < 2 ^ 64 -> 0 <= val ->
  co + Z.of_nat i + Z.of_nat (length ops) < 2 ^ 64 ->
  ops <> [] -> blen b < co + Z.of_nat i + Z.of_nat (length ops) ->
  snd (gen_set_ops m w (to_mutator ops) co (Z.of_nat i) val b) = Panic EIndex.
Proof.
  intros m w ops ps val co i b WF. revert i b.
  induction WF as [|op p ops ps WF1 WF IH]; intros i b B C L V U NE H; [congruence|].
  cbn [to_mutator map gen_set_ops]. cbn [length] in *.
  rewrite add_u_in by (change usize with 64; lia). cbn [bind].
  destruct (Z.lt_ge_cases (co + Z.of_nat i) (blen b)) as [I|I].
  - rewrite idx_ok by lia. cbn [bind].
    destruct (eval_setop_spec m w op p _ val WF1
                (byte_nth b (Z.to_nat (co + Z.of_nat i)) B) V) as (y & E & Y & T).
    rewrite E. cbn [bind]. unfold mseq. rewrite store_ok by lia.
    replace (Z.of_nat i + 1) with (Z.of_nat (S i)) by lia.
    unfold blen in *.
    apply IH; unfold blen; rewrite ?upd_nat_length; auto; try lia.
    + now apply Forall_upd.
    + intros ->. cbn [length] in H. lia.
  - rewrite idx_err by lia. reflexivity.
Qed.

(** ** Big-endian plans *)

Definition be_len (o s i : Z) : Z := byte_stop o s i - byte_start o i.
Definition be_lens (o s : Z) : list Z :=
  map (fun j => be_len o s (Z.of_nat j)) (seq 0 (Z.to_nat (num_bytes o s))).

Lemma container_facts : forall s, 1 <= s <= 64 -> 8 <= container s <= 64 /\ s <= container s.
Proof.
  intros s S. unfold container.
  destruct (s <=? 8) eqn:A; [lia|]. destruct (s <=? 16) eqn:B; [lia|].
  destruct (s <=? 32) eqn:C; lia.
Qed.

Lemma be_op_wf : forall o s i, placed o s -> 0 <= i < num_bytes o s ->
  op_wf (container s) (be_op o s i) (be_len o s i).
Proof.
  intros o s i P I. assert (F := num_bytes_facts o s P). destruct P as (O & S & P).
  assert (W := container_facts s S).
  unfold op_wf, be_op, be_len. cbn [g_mask g_shiftl g_shiftr].
  unfold byte_stop, byte_start, slack in *.
  destruct (i =? 0) eqn:I0; destruct (i + 1 =? num_bytes o s) eqn:IL;
    repeat split; try lia; f_equal; lia.
Qed.

Lemma Forall2_map : forall A B C (R : B -> C -> Prop) (f : A -> B) (g : A -> C) l,
  (forall x, In x l -> R (f x) (g x)) -> Forall2 R (map f l) (map g l).
Proof.
  induction l; simpl; intros; constructor; auto.
Qed.

Lemma be_ops_wf : forall o s, placed o s -> ops_wf (container s) (be_ops o s) (be_lens o s).
Proof.
  intros o s P. unfold be_ops, be_lens, ops_wf. apply Forall2_map.
  intros x X. apply in_seq in X. apply be_op_wf; auto. lia.
Qed.

Lemma be_ops_length : forall o s, placed o s -> Z.of_nat (length (be_ops o s)) = num_bytes o s.
Proof.
  intros o s P. assert (F := num_bytes_facts o s P).
  unfold be_ops. rewrite map_length, seq_length. lia.
Qed.

Lemma number_map_seq : forall A (f : nat -> A) i n,
  number i (map f (seq i n)) = map (fun j => (j, f j)) (seq i n).
Proof.
  intros A f i n. revert i. induction n; intros; [reflexivity|].
  cbn [seq map]. rewrite number_cons, IHn. reflexivity.
Qed.

Lemma combine_map : forall A B C (f : A -> B) (g : A -> C) l,
  combine (map f l) (map g l) = map (fun x => (f x, g x)) l.
Proof. induction l; simpl; congruence. Qed.

Lemma existsb_seq : forall f i n,
  existsb f (seq i n) = true <-> exists j, (i <= j < i + n)%nat /\ f j = true.
Proof.
  intros. rewrite existsb_exists. split; intros (j & A & B); exists j; split; auto.
  - apply in_seq; auto.
  - apply in_seq in A; auto.
Qed.

Lemma existsb_map : forall A B (f : B -> bool) (g : A -> B) l,
  existsb f (map g l) = existsb (fun x => f (g x)) l.
Proof. induction l; simpl; congruence. Qed.

(** The value bit supplied by bit [k] of byte [i] of the field. *)
Lemma be_op_bit : forall o s i j, placed o s -> 0 <= i < num_bytes o s -> 0 <= j ->
  j - g_shiftl (be_op o s i) + g_shiftr (be_op o s i) = j + 8 * (i + 1) - o - s /\
  in_mask (be_op o s i) (be_len o s i) (j + 8 * (i + 1) - o - s)
  = (j <? s) && (8 * i <=? o + s - 1 - j) && (o + s - 1 - j <? 8 * i + 8).
Proof.
  intros o s i j P I J. assert (F := num_bytes_facts o s P). destruct P as (O & S & P).
  unfold in_mask, be_op, be_len. cbn [g_shiftl g_shiftr].
  unfold byte_stop, byte_start, slack in *.
  destruct (i =? 0) eqn:I0; destruct (i + 1 =? num_bytes o s) eqn:IL; split; lia.
Qed.

Definition be_get_spec (b : buf) (co o s v : Z) : Prop :=
  v = field_val b (Z.to_nat (8 * co + o)) (Z.to_nat s).

Lemma placed_fits : forall b co o s, placed o s -> 0 <= co -> co + num_bytes o s <= blen b ->
  (Z.to_nat (8 * co + o) + Z.to_nat s <= 8 * length b)%nat.
Proof.
  intros b co o s P C H. assert (F := num_bytes_facts o s P). destruct P as (O & S & P).
  unfold slack, blen in *. lia.
Qed.

Lemma be_get : forall m b co o s, placed o s -> bytes_ok b -> blen b < 2 ^ 64 -> 0 <= co ->
  co + num_bytes o s <= blen b ->
  gen_get_ops m (container s) (be_ops o s) b co
  = Ok (field_val b (Z.to_nat (8 * co + o)) (Z.to_nat s)).
Proof.
  intros m b co o s P B L C H.
  assert (F := num_bytes_facts o s P). assert (FIT := placed_fits b co o s P C H).
  assert (LEN := be_ops_length o s P).
  destruct (gen_get_ops_spec m _ _ _ b co (be_ops_wf o s P)) as (v & E & V & T); auto; try lia.
  { intros X. rewrite X in LEN. cbn [length] in LEN. lia. }
  rewrite E. f_equal. apply Z.bits_inj'. intros j J. rewrite T by auto.
  unfold be_ops, be_lens. rewrite combine_map, number_map_seq, existsb_map.
  destruct P as (O & S & P).
  destruct (Z.lt_ge_cases j s) as [JS|JS].
  - rewrite testbit_field_val by lia. rewrite nth_bits_of.
    set (q := (Z.to_nat (8 * co + o) + (Z.to_nat s - 1 - Z.to_nat j))%nat).
    assert (Q : Z.of_nat q = 8 * co + (o + s - 1 - j)) by (unfold q; lia).
    set (i := Z.to_nat ((o + s - 1 - j) / 8)).
    assert (I : 0 <= Z.of_nat i < num_bytes o s) by (unfold i, slack in *; lia).
    assert (QD : (q / 8 = Z.to_nat co + i)%nat) by (unfold i; lia).
    assert (QM : Z.of_nat (q mod 8) = (o + s - 1 - j) mod 8) by lia.
    rewrite QD, QM.
    replace (7 - (o + s - 1 - j) mod 8) with (j + 8 * (Z.of_nat i + 1) - o - s)
      by (unfold i; lia).
    apply eq_true_iff_eq. rewrite existsb_seq. split.
    + intros (i' & I' & X). cbv beta in X. unfold contrib in X.
      assert (PL : placed o s) by (repeat split; lia).
      destruct (be_op_bit o s (Z.of_nat i') j PL ltac:(lia) J) as [E1 E2].
      rewrite E1, E2 in X. apply andb_true_iff in X. destruct X as [X1 X2].
      assert (i' = i) by (unfold i; lia). subst i'. exact X2.
    + intros X. exists i. split; [lia|]. unfold contrib.
      assert (PL : placed o s) by (repeat split; lia).
      destruct (be_op_bit o s (Z.of_nat i) j PL ltac:(lia) J) as [E1 E2].
      rewrite E1, E2, X, andb_true_r. unfold i. lia.
  - assert (R := field_val_range b (Z.to_nat (8 * co + o)) (Z.to_nat s) FIT).
    replace (Z.of_nat (Z.to_nat s)) with s in R by lia.
    replace (Z.testbit (field_val b (Z.to_nat (8 * co + o)) (Z.to_nat s)) j) with false.
    + apply not_true_iff_false. rewrite existsb_seq. intros (i' & I' & X).
      unfold contrib in X. assert (PL : placed o s) by (repeat split; lia).
      destruct (be_op_bit o s (Z.of_nat i') j PL ltac:(lia) J) as [E1 E2].
      rewrite E1, E2 in X. lia.
    + rewrite <- (Z.mod_small _ _ R). now rewrite Z.mod_pow2_bits_high by lia.
Qed.

Lemma find_map_seq : forall (f : nat -> getop * Z) q i n,
  find (fun x => (fst x =? q)%nat) (map (fun j => (j, f j)) (seq i n)) =
  if (i <=? q)%nat && (q <? i + n)%nat then Some (q, f q) else None.
Proof.
  intros f q i n. revert i. induction n; intros.
  - cbn [seq map find]. destruct ((i <=? q)%nat && (q <? i + 0)%nat) eqn:E; [lia|reflexivity].
  - cbn [seq map find fst]. destruct (i =? q)%nat eqn:E.
    + assert (i = q) by lia. subst.
      destruct ((q <=? q)%nat && (q <? q + S n)%nat) eqn:E'; [reflexivity|lia].
    + rewrite IHn. destruct ((S i <=? q)%nat && (q <? S i + n)%nat) eqn:X;
      destruct ((i <=? q)%nat && (q <? i + S n)%nat) eqn:Y; auto; lia.
Qed.

Lemma be_set : forall m b co o s val, placed o s -> bytes_ok b -> blen b < 2 ^ 64 -> 0 <= co ->
  0 <= val -> co + num_bytes o s <= blen b ->
  exists b', gen_set_ops m (container s) (to_mutator (be_ops o s)) co 0 val b = (b', Ok tt) /\
    field_written b (Z.to_nat (8 * co + o)) (Z.to_nat s) val b'.
Proof.
  intros m b co o s val P B L C V H.
  assert (F := num_bytes_facts o s P). assert (FIT := placed_fits b co o s P C H).
  assert (LEN := be_ops_length o s P).
  destruct (gen_set_ops_spec m _ _ _ val co 0 b (be_ops_wf o s P)) as (b' & E & L' & B' & F' & T');
    auto; try lia.
  exists b'. split; [exact E|].
  apply field_written_intro; auto. intros i I.
  rewrite !nth_bits_of. assert (PL := P). destruct P as (O & S & P).
  assert (K : 0 <= 7 - Z.of_nat (i mod 8) < 8) by lia.
  destruct (Nat.lt_ge_cases (i / 8) (Z.to_nat co)) as [Q|Q].
  - rewrite F' by lia.
    destruct ((Z.to_nat (8 * co + o) <=? i)%nat && (i <? Z.to_nat (8 * co + o) + Z.to_nat s)%nat) eqn:X;
      [lia|reflexivity].
  - set (q := (i / 8 - Z.to_nat co)%nat).
    replace (i / 8)%nat with (Z.to_nat co + q)%nat by (unfold q; lia).
    rewrite T' by auto. unfold written_bit, be_ops, be_lens.
    rewrite combine_map, number_map_seq, find_map_seq.
    destruct ((0 <=? q)%nat && (q <? 0 + Z.to_nat (num_bytes o s))%nat) eqn:X.
    + set (j := o + s - 1 - (Z.of_nat i - 8 * co)).
      destruct (Z.lt_ge_cases j 0) as [J|J].
      { (* beyond the end of the field *)
        assert (PQ : 0 <= Z.of_nat q < num_bytes o s) by lia.
        assert (M : in_mask (be_op o s (Z.of_nat q)) (be_len o s (Z.of_nat q))
                      (7 - Z.of_nat (i mod 8)) = false).
        { unfold in_mask, be_op, be_len. cbn [g_shiftl g_shiftr].
          unfold byte_stop, byte_start, slack in *.
          destruct (Z.of_nat q =? 0) eqn:I0; destruct (Z.of_nat q + 1 =? num_bytes o s) eqn:IL; lia. }
        rewrite M.
        destruct ((Z.to_nat (8 * co + o) <=? i)%nat && (i <? Z.to_nat (8 * co + o) + Z.to_nat s)%nat) eqn:Y;
        [lia|reflexivity]. }
      destruct (be_op_bit o s (Z.of_nat q) j PL ltac:(lia) J) as [E1 E2].
      replace (7 - Z.of_nat (i mod 8)) with (j + 8 * (Z.of_nat q + 1) - o - s)
        by (unfold j, q; lia).
      rewrite E2.
      replace (j + 8 * (Z.of_nat q + 1) - o - s + g_shiftl (be_op o s (Z.of_nat q))
               - g_shiftr (be_op o s (Z.of_nat q))) with j by lia.
      destruct ((Z.to_nat (8 * co + o) <=? i)%nat && (i <? Z.to_nat (8 * co + o) + Z.to_nat s)%nat) eqn:Y;
      destruct ((j <? s) && (8 * Z.of_nat q <=? o + s - 1 - j) && (o + s - 1 - j <? 8 * Z.of_nat q + 8)) eqn:Z0;
        auto; try (unfold j, q in *; lia).
      f_equal. unfold j. lia.
    + destruct ((Z.to_nat (8 * co + o) <=? i)%nat && (i <? Z.to_nat (8 * co + o) + Z.to_nat s)%nat) eqn:Y;
      [unfold q, slack in *; lia|reflexivity].
Qed.

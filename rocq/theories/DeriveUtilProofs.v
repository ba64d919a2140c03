(** Closed form of the operations planned by derive/src/util.rs and their
    meaning bit by bit. *)
From Coq Require Import ZArith List Bool Lia ZifyBool ZifyNat.
From Verif Require Import Base BitSpec DeriveUtil DeriveOps BaseFacts BitFacts.
Import ListNotations.
Open Scope Z_scope.
Ltac Zify.zify_post_hook ::= Z.to_euclidean_division_equations.

(** Placements the planner supports. *)
Definition placed (o s : Z) : Prop := 0 <= o <= 7 /\ 1 <= s <= 64 /\ o + s mod 8 <= 8.

Lemma mask_loop_closed : forall o n, 0 <= o <= 7 -> 1 <= n -> o + n <= 8 ->
  mask_loop o (Z.to_nat n) 0 = Z.shiftl (Z.ones n) (8 - o - n).
Proof.
  intros o n O N H.
  assert (S : forallb (fun o => forallb (fun n => if o + n <=? 8 then
     mask_loop o (Z.to_nat n) 0 =? Z.shiftl (Z.ones n) (8 - o - n) else true)
     [1;2;3;4;5;6;7;8]) [0;1;2;3;4;5;6;7] = true) by reflexivity.
  rewrite forallb_forall in S. specialize (S o).
  rewrite forallb_forall in S. specialize (S ltac:(simpl; lia) n ltac:(simpl; lia)).
  cbv beta in S. destruct (o + n <=? 8) eqn:E; lia.
Qed.

Lemma num_bits_closed : forall p r, 1 <= p -> 0 <= r -> p + r <= 8 ->
  num_bits_set (Z.shiftl (Z.ones p) r) = p.
Proof.
  intros p r P R H.
  assert (S : forallb (fun p => forallb (fun r => if p + r <=? 8 then
     num_bits_set (Z.shiftl (Z.ones p) r) =? p else true)
     [0;1;2;3;4;5;6;7]) [1;2;3;4;5;6;7;8] = true) by reflexivity.
  rewrite forallb_forall in S. specialize (S p ltac:(simpl; lia)).
  rewrite forallb_forall in S. specialize (S r ltac:(simpl; lia)).
  cbv beta in S. destruct (p + r <=? 8) eqn:E; lia.
Qed.

Lemma mask_high_bits_closed : forall p, 1 <= p <= 8 -> mask_high_bits p = Z.ones p.
Proof.
  intros p P.
  assert (S : forallb (fun p => mask_high_bits p =? Z.ones p) [1;2;3;4;5;6;7;8] = true)
    by reflexivity.
  rewrite forallb_forall in S. specialize (S p ltac:(simpl; lia)). lia.
Qed.

(** ** The plan in closed form *)

Definition slack (o s : Z) : Z := 8 * num_bytes o s - o - s.

Definition byte_start (o i : Z) : Z := if i =? 0 then o else 0.
Definition byte_stop (o s i : Z) : Z := Z.min 8 (o + s - 8 * i).

Definition be_op (o s i : Z) : getop :=
  let nb := num_bytes o s in
  let st := byte_start o i in
  let en := byte_stop o s i in
  GetOp (Z.shiftl (Z.ones (en - st)) (8 - en))
        (if i + 1 =? nb then 0 else 8 * (nb - 1 - i) - slack o s)
        (if i + 1 =? nb then slack o s else 0).

Lemma num_bytes_facts : forall o s, placed o s ->
  0 <= slack o s <= 7 /\ 1 <= num_bytes o s <= 9.
Proof.
  intros o s (O & S & H). unfold slack, num_bytes.
  destruct (_ || _) eqn:E; lia.
Qed.

Lemma get_mask_closed : forall o rem, 0 <= o <= 7 -> 1 <= rem ->
  o + rem <= 8 \/ 8 <= rem ->
  get_mask o rem = Ok (Z.min (8 - o) rem,
                       Z.shiftl (Z.ones (Z.min (8 - o) rem)) (8 - o - Z.min (8 - o) rem)).
Proof.
  intros o rem O R H. unfold get_mask.
  assert (E : bits_in_byte o rem = Z.min (8 - o) rem).
  { unfold bits_in_byte. destruct (1 <=? rem / 8) eqn:A; [lia|].
    destruct (8 - o <? rem) eqn:B; lia. }
  rewrite E. replace (o <=? 7) with true by lia.
  replace (Z.min (8 - o) rem <=? 8 - o) with true by lia. cbn [negb].
  rewrite mask_loop_closed by lia. reflexivity.
Qed.

Lemma get_shiftl_closed : forall m o s i, placed o s -> 0 <= i < num_bytes o s ->
  get_shiftl m o s i (num_bytes o s) = Ok (g_shiftl (be_op o s i)).
Proof.
  intros m o s i P I. assert (F := num_bytes_facts o s P).
  unfold get_shiftl, be_op; cbn [g_shiftl]. destruct P as (O & S & P).
  destruct (i + 1 =? num_bytes o s) eqn:L.
  - rewrite orb_true_r. reflexivity.
  - destruct (num_bytes o s =? 1) eqn:N; [lia|]. cbn [orb].
    assert (U : 2 ^ usize = 18446744073709551616) by reflexivity.
    unfold slack in *.
    rewrite (sub_u_in m usize (num_bytes o s * 8) o) by lia. cbn [bind].
    rewrite sub_u_in by lia. cbn [bind].
    rewrite sub_u_in by lia. cbn [bind].
    rewrite sub_u_in by lia. cbn [bind].
    rewrite sub_u_in by lia. cbn [bind].
    rewrite mul_u_in by lia. cbn [bind].
    rewrite add_u_in by lia. cbn [bind].
    unfold cast_u. f_equal. change (2 ^ 8) with 256. lia.
Qed.

Lemma get_shiftr_closed : forall m o s i, placed o s -> 0 <= i < num_bytes o s ->
  get_shiftr m o s i (num_bytes o s) = Ok (g_shiftr (be_op o s i)).
Proof.
  intros m o s i P I. assert (F := num_bytes_facts o s P).
  unfold get_shiftr, be_op; cbn [g_shiftr]. destruct P as (O & S & P).
  destruct (i + 1 =? num_bytes o s) eqn:L; [|reflexivity].
  assert (U : 2 ^ usize = 18446744073709551616) by reflexivity.
  unfold slack in *.
  rewrite (sub_u_in m usize (num_bytes o s * 8) o) by lia. cbn [bind].
  rewrite sub_u_in by lia. cbn [bind].
  unfold cast_u. f_equal. change (2 ^ 8) with 256. lia.
Qed.

Lemma ops_loop_closed : forall m o s k i, placed o s ->
  Z.of_nat i + Z.of_nat k = num_bytes o s ->
  ops_loop m o s (num_bytes o s) k (Z.of_nat i) (byte_start o (Z.of_nat i))
    (if Z.of_nat i =? 0 then s else o + s - 8 * Z.of_nat i)
  = Ok (map (fun j => be_op o s (Z.of_nat j)) (seq i k)).
Proof.
  intros m o s k. induction k; intros i P E; [reflexivity|].
  assert (F := num_bytes_facts o s P).
  cbn [ops_loop seq map].
  rewrite get_shiftl_closed, get_shiftr_closed by (auto; lia).
  assert (G : 1 <= (if Z.of_nat i =? 0 then s else o + s - 8 * Z.of_nat i)
    /\ (byte_start o (Z.of_nat i) + (if Z.of_nat i =? 0 then s else o + s - 8 * Z.of_nat i) <= 8
       \/ 8 <= (if Z.of_nat i =? 0 then s else o + s - 8 * Z.of_nat i))
    /\ 0 <= byte_start o (Z.of_nat i) <= 7).
  { unfold byte_start, slack in *. destruct P as (O & S & P).
    destruct (Z.of_nat i =? 0) eqn:I; lia. }
  destruct G as (G1 & G2 & G3).
  rewrite get_mask_closed by auto. cbn [bind].
  specialize (IHk (S i) P ltac:(lia)).
  replace (Z.of_nat i + 1) with (Z.of_nat (S i)) by lia.
  assert (B0 : byte_start o (Z.of_nat (S i)) = 0).
  { unfold byte_start. destruct (_ =? 0) eqn:X; lia. }
  rewrite B0 in IHk.
  destruct (Z.of_nat (S i) =? 0) eqn:SI; [lia|].
  assert (M : Z.min (8 - byte_start o (Z.of_nat i))
        (if Z.of_nat i =? 0 then s else o + s - 8 * Z.of_nat i)
      = byte_stop o s (Z.of_nat i) - byte_start o (Z.of_nat i)).
  { unfold byte_stop, byte_start. destruct (Z.of_nat i =? 0) eqn:I; lia. }
  destruct k as [|k'].
  - cbn [ops_loop bind seq map]. do 2 f_equal.
    unfold be_op at 3. rewrite M. unfold be_op. cbn [g_shiftl g_shiftr]. do 2 f_equal; lia.
  - assert (R : (if Z.min (8 - byte_start o (Z.of_nat i))
                   (if Z.of_nat i =? 0 then s else o + s - 8 * Z.of_nat i) <=?
                 (if Z.of_nat i =? 0 then s else o + s - 8 * Z.of_nat i)
               then (if Z.of_nat i =? 0 then s else o + s - 8 * Z.of_nat i) -
                    Z.min (8 - byte_start o (Z.of_nat i))
                   (if Z.of_nat i =? 0 then s else o + s - 8 * Z.of_nat i)
               else (if Z.of_nat i =? 0 then s else o + s - 8 * Z.of_nat i))
          = o + s - 8 * Z.of_nat (S i)).
    { unfold byte_start, slack in *. destruct (Z.of_nat i =? 0) eqn:I;
      destruct (_ <=? _) eqn:Q; lia. }
    rewrite R, IHk. cbn [bind]. do 2 f_equal.
    unfold be_op at 3. rewrite M. unfold be_op. cbn [g_shiftl g_shiftr]. do 2 f_equal; lia.
Qed.

Definition be_ops (o s : Z) : list getop :=
  map (fun j => be_op o s (Z.of_nat j)) (seq 0 (Z.to_nat (num_bytes o s))).

Lemma ops_closed : forall m o s, placed o s ->
  ops_loop m o s (num_bytes o s) (Z.to_nat (num_bytes o s)) 0 o s = Ok (be_ops o s).
Proof.
  intros m o s P. assert (F := num_bytes_facts o s P).
  apply (ops_loop_closed m o s (Z.to_nat (num_bytes o s)) 0%nat P). lia.
Qed.

Lemma operations_closed : forall m h o s e, placed o s ->
  operations m h o s e = Ok (Some (match e with
     | Little => to_little_endian (be_ops o s)
     | Host => if h then to_little_endian (be_ops o s) else be_ops o s
     | Big => be_ops o s end)).
Proof.
  intros m h o s e P. unfold operations. rewrite ops_closed by auto.
  destruct P as (O & S & P).
  destruct (7 <? o) eqn:A; [lia|]. destruct (s =? 0) eqn:B; [lia|].
  destruct (64 <? s) eqn:C; [lia|]. reflexivity.
Qed.

(** ** Meaning of one operation, bit by bit *)

(** Shape shared by all planned operations: the mask is a run of [p] ones
    starting at bit [g_shiftr], and the run fits the container after shifting. *)
Definition op_wf (w : Z) (op : getop) (p : Z) : Prop :=
  8 <= w <= 64 /\ 1 <= p /\ 0 <= g_shiftr op /\ g_shiftr op + p <= 8 /\
  0 <= g_shiftl op /\ g_shiftl op + p <= w /\
  g_mask op = Z.shiftl (Z.ones p) (g_shiftr op).

Definition in_mask (op : getop) (p k : Z) : bool :=
  (g_shiftr op <=? k) && (k <? g_shiftr op + p).

Lemma testbit_ones_shift : forall p r k, 0 <= p -> 0 <= r -> 0 <= k ->
  Z.testbit (Z.shiftl (Z.ones p) r) k = (r <=? k) && (k <? r + p).
Proof.
  intros p r k P R K. rewrite Z.shiftl_spec by lia.
  destruct (Z.lt_ge_cases k r).
  - rewrite Z.testbit_neg_r by lia. lia.
  - rewrite Z.testbit_ones_nonneg by lia. lia.
Qed.

Lemma mask_testbit : forall w op p k, op_wf w op p -> 0 <= k ->
  Z.testbit (g_mask op) k = in_mask op p k.
Proof.
  intros w op p k (W & P & R & RP & L & LP & M) K. rewrite M.
  rewrite testbit_ones_shift by lia. reflexivity.
Qed.

Lemma land_range : forall a b, 0 <= a < 256 -> 0 <= Z.land a b < 256.
Proof.
  intros a b A. split; [apply Z.land_nonneg; lia|].
  destruct (Z.eq_dec (Z.land a b) 0) as [->|N]; [lia|].
  change 256 with (2 ^ 8). apply Z.log2_lt_pow2.
  - assert (0 <= Z.land a b) by (apply Z.land_nonneg; lia). lia.
  - apply Z.log2_lt_pow2 with (b := 8); [assert (0 <= Z.land a b) by (apply Z.land_nonneg; lia); lia|].
    assert (H : Z.land a b = (Z.land a b) mod 2 ^ 8).
    { apply Z.bits_inj'. intros k K. destruct (Z.lt_ge_cases k 8).
      - now rewrite Z.mod_pow2_bits_low by lia.
      - rewrite Z.mod_pow2_bits_high by lia. rewrite Z.land_spec.
        rewrite byte_testbit_high; auto. }
    rewrite H. apply Z.mod_pos_bound. reflexivity.
Qed.

Lemma eval_getop_spec : forall m w op p x, op_wf w op p -> byte_ok x ->
  exists v, eval_getop m w op x = Ok v /\ 0 <= v /\
    forall j, 0 <= j ->
      Z.testbit v j = in_mask op p (j - g_shiftl op + g_shiftr op)
                      && Z.testbit x (j - g_shiftl op + g_shiftr op).
Proof.
  intros m w op p x WF X.
  assert (MT := fun k => mask_testbit w op p k WF).
  destruct WF as (W & P & R & RP & L & LP & M).
  unfold eval_getop.
  set (v0 := if g_mask op =? 255 then x else Z.land x (g_mask op)).
  assert (V0 : 0 <= v0).
  { unfold v0. destruct X. destruct (g_mask op =? 255); [lia|]. apply Z.land_nonneg; lia. }
  assert (T0 : forall k, 0 <= k -> Z.testbit v0 k = in_mask op p k && Z.testbit x k).
  { intros k K. unfold v0. destruct (g_mask op =? 255) eqn:E.
    - rewrite <- MT by lia. replace (g_mask op) with (Z.ones 8) by (change (Z.ones 8) with 255; lia).
      rewrite Z.testbit_ones_nonneg by lia. destruct (k <? 8) eqn:Q; [reflexivity|].
      cbn [andb]. apply byte_testbit_high; auto; lia.
    - rewrite Z.land_spec, MT by lia. apply andb_comm. }
  destruct (g_shiftr op - g_shiftl op =? 0) eqn:E0.
  - exists v0. split; [reflexivity|]. split; [lia|]. intros j J.
    replace (j - g_shiftl op + g_shiftr op) with j by lia. auto.
  - destruct (g_shiftr op - g_shiftl op <? 0) eqn:E1.
    + unfold shl_u.
      destruct ((0 <=? - (g_shiftr op - g_shiftl op)) && (- (g_shiftr op - g_shiftl op) <? w)) eqn:G;
        [|lia].
      eexists. split; [reflexivity|]. split; [apply Z.mod_pos_bound, Z.pow_pos_nonneg; lia|].
      intros j J. destruct (Z.lt_ge_cases j w).
      * rewrite Z.mod_pow2_bits_low by lia. rewrite Z.shiftl_spec by lia.
        destruct (Z.lt_ge_cases (j - - (g_shiftr op - g_shiftl op)) 0).
        -- rewrite Z.testbit_neg_r by lia. unfold in_mask. lia.
        -- rewrite T0 by lia. f_equal; f_equal; lia.
      * rewrite Z.mod_pow2_bits_high by lia. unfold in_mask. lia.
    + unfold shr_u.
      destruct ((0 <=? (g_shiftr op - g_shiftl op)) && ((g_shiftr op - g_shiftl op) <? w)) eqn:G;
        [|lia].
      eexists. split; [reflexivity|]. split; [apply Z.shiftr_nonneg; lia|].
      intros j J. rewrite Z.shiftr_spec by lia. rewrite T0 by lia. f_equal; f_equal; lia.
Qed.

Lemma to_setop_closed : forall w op p, op_wf w op p ->
  to_setop op = SetOp (255 - g_mask op) (Z.shiftl (Z.ones p) (g_shiftl op))
                      (g_shiftr op) (g_shiftl op).
Proof.
  intros w op p (W & P & R & RP & L & LP & M). unfold to_setop. rewrite M at 2.
  rewrite num_bits_closed, mask_high_bits_closed by lia. f_equal.
  apply Z.mod_small. split.
  - rewrite Z.shiftl_nonneg. rewrite Z.ones_equiv.
    assert (0 < 2 ^ p) by (apply Z.pow_pos_nonneg; lia). lia.
  - rewrite Z.shiftl_mul_pow2, Z.ones_equiv by lia.
    assert (2 ^ p * 2 ^ g_shiftl op <= 2 ^ 64).
    { rewrite <- Z.pow_add_r by lia. apply Z.pow_le_mono_r; lia. }
    assert (0 < 2 ^ g_shiftl op) by (apply Z.pow_pos_nonneg; lia). nia.
Qed.

Lemma testbit_compl_byte : forall x k, byte_ok x -> 0 <= k < 8 ->
  Z.testbit (255 - x) k = negb (Z.testbit x k).
Proof.
  intros x k X K. replace (255 - x) with ((Z.lnot x) mod 2 ^ 8).
  - rewrite Z.mod_pow2_bits_low by lia. rewrite Z.lnot_spec by lia. reflexivity.
  - unfold Z.lnot. change (2 ^ 8) with 256. destruct X. lia.
Qed.

Lemma byte_bits : forall x, 0 <= x -> (forall k, 8 <= k -> Z.testbit x k = false) -> byte_ok x.
Proof.
  intros x X H. split; auto. change 256 with (2 ^ 8).
  assert (E : x = x mod 2 ^ 8).
  { apply Z.bits_inj'. intros k K. destruct (Z.lt_ge_cases k 8).
    - now rewrite Z.mod_pow2_bits_low by lia.
    - rewrite Z.mod_pow2_bits_high by lia. apply H; lia. }
  rewrite E. apply Z.mod_pos_bound. reflexivity.
Qed.

Lemma eval_setop_spec : forall m w op p x val, op_wf w op p -> byte_ok x -> 0 <= val ->
  exists y, eval_setop m w (to_setop op) x val = Ok y /\ byte_ok y /\
    forall k, 0 <= k < 8 ->
      Z.testbit y k = if in_mask op p k then Z.testbit val (k + g_shiftl op - g_shiftr op)
                      else Z.testbit x k.
Proof.
  intros m w op p x val WF X V.
  assert (MT := fun k => mask_testbit w op p k WF).
  rewrite (to_setop_closed _ _ _ WF).
  assert (WF' := WF).
  destruct WF as (W & P & R & RP & L & LP & M).
  unfold eval_setop. cbn [s_save s_vmask s_shiftl s_shiftr].
  set (v0 := if Z.shiftl (Z.ones p) (g_shiftl op) =? 255 then val
             else Z.land val (Z.shiftl (Z.ones p) (g_shiftl op))).
  assert (V0 : 0 <= v0).
  { unfold v0. destruct (_ =? 255); [lia|]. apply Z.land_nonneg; lia. }
  (* below the end of the run, or anywhere unless the mask was left out *)
  assert (T0 : forall k, 0 <= k -> (k < 8 \/ Z.shiftl (Z.ones p) (g_shiftl op) <> 255) ->
     Z.testbit v0 k = ((g_shiftl op <=? k) && (k <? g_shiftl op + p)) && Z.testbit val k).
  { intros k K Q. unfold v0. destruct (_ =? 255) eqn:E.
    - assert (E' : Z.shiftl (Z.ones p) (g_shiftl op) = 255) by lia.
      assert (T := testbit_ones_shift p (g_shiftl op) k ltac:(lia) ltac:(lia) K).
      rewrite E' in T. change 255 with (Z.ones 8) in T.
      rewrite Z.testbit_ones_nonneg in T by lia. rewrite <- T.
      replace (k <? 8) with true by lia. reflexivity.
    - rewrite Z.land_spec, testbit_ones_shift by lia. apply andb_comm. }
  assert (FULL : Z.shiftl (Z.ones p) (g_shiftl op) = 255 -> p = 8 /\ g_shiftl op = 0 /\ g_shiftr op = 0).
  { intros E.
    assert (T0' := testbit_ones_shift p (g_shiftl op) 0 ltac:(lia) ltac:(lia) ltac:(lia)).
    assert (T7 := testbit_ones_shift p (g_shiftl op) 7 ltac:(lia) ltac:(lia) ltac:(lia)).
    rewrite E in T0', T7. cbn in T0', T7. lia. }
  set (sh := g_shiftl op - g_shiftr op) in *.
  assert (RR : exists r,
    (if sh =? 0 then Ok v0 else if sh <? 0 then shl_u m w v0 (- sh) else shr_u m w v0 sh) = Ok r
    /\ 0 <= r /\
    forall k, 0 <= k < 8 -> Z.testbit r k = in_mask op p k && Z.testbit val (k + sh)).
  { destruct (sh =? 0) eqn:E0.
    - exists v0. split; [reflexivity|]. split; [lia|]. intros k K.
      rewrite T0 by lia. unfold in_mask. f_equal; [|f_equal]; lia.
    - assert (NF : Z.shiftl (Z.ones p) (g_shiftl op) <> 255).
      { intros E. apply FULL in E. lia. }
      destruct (sh <? 0) eqn:E1.
      + unfold shl_u. destruct ((0 <=? - sh) && (- sh <? w)) eqn:G; [|lia].
        eexists. split; [reflexivity|]. split; [apply Z.mod_pos_bound, Z.pow_pos_nonneg; lia|].
        intros k K. rewrite Z.mod_pow2_bits_low by lia. rewrite Z.shiftl_spec by lia.
        destruct (Z.lt_ge_cases (k - - sh) 0).
        * rewrite Z.testbit_neg_r by lia. unfold in_mask. lia.
        * rewrite T0 by (auto; lia). unfold in_mask. f_equal; [|f_equal]; lia.
      + unfold shr_u. destruct ((0 <=? sh) && (sh <? w)) eqn:G; [|lia].
        eexists. split; [reflexivity|]. split; [apply Z.shiftr_nonneg; lia|].
        intros k K. rewrite Z.shiftr_spec by lia. rewrite T0 by (auto; lia).
        unfold in_mask. f_equal; lia. }
  destruct RR as (r & -> & R0 & RT). cbn [bind].
  assert (MB : byte_ok (g_mask op)).
  { apply byte_bits.
    - rewrite M. apply Z.shiftl_nonneg. rewrite Z.ones_equiv.
      assert (0 < 2 ^ p) by (apply Z.pow_pos_nonneg; lia). lia.
    - intros k K. rewrite MT by lia. unfold in_mask. lia. }
  assert (CB : byte_ok (cast_u 8 r)) by (apply Z.mod_pos_bound; reflexivity).
  destruct (255 - g_mask op =? 0) eqn:S0.
  - eexists. split; [reflexivity|]. split; [exact CB|]. intros k K.
    unfold cast_u. rewrite Z.mod_pow2_bits_low by lia. rewrite RT by lia.
    assert (IM : in_mask op p k = true).
    { rewrite <- MT by lia. replace (g_mask op) with (Z.ones 8) by (change (Z.ones 8) with 255; lia).
      rewrite Z.testbit_ones_nonneg by lia. lia. }
    rewrite IM. cbn [andb]. f_equal. unfold sh. lia.
  - eexists. split; [reflexivity|]. split.
    + apply byte_bits.
      * apply Z.lor_nonneg. split; [apply Z.land_nonneg; destruct X; lia | destruct CB; lia].
      * intros k K. rewrite Z.lor_spec, Z.land_spec.
        rewrite (byte_testbit_high x), (byte_testbit_high (cast_u 8 r)) by auto. reflexivity.
    + intros k K. rewrite Z.lor_spec, Z.land_spec, testbit_compl_byte, MT by (auto; lia).
      unfold cast_u. rewrite Z.mod_pow2_bits_low by lia. rewrite RT by lia.
      replace (k + g_shiftl op - g_shiftr op) with (k + sh) by (unfold sh; lia).
      destruct (in_mask op p k); cbn [andb negb].
      * rewrite andb_false_r. reflexivity.
      * rewrite andb_true_r, orb_false_r. reflexivity.
Qed.

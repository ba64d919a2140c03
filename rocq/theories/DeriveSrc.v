(** The texts of the planning and printing functions of the derive crate compute what the
    model says. *)
From Coq Require Import String Ascii ZArith List Bool Lia ZifyBool ZifyNat.
From Verif Require Import Base DeriveUtil DeriveOps DeriveGen RustAst RustEval CrateText2 SpecSource2 EvalTac.
From Verif Require RustSem EmitText FmtText MacAddr Names SourceProofs.
Import ListNotations.
Open Scope string_scope.
Open Scope Z_scope.
Ltac Zify.zify_post_hook ::= Z.to_euclidean_division_equations.
Ltac known := first [rewrite find_derive; discriminate].
Ltac cmp := unfold RustSem.cmp_z, RustSem.zeq; cbv iota.

Lemma round_down_src : forall c r d a b,
  run_at c r d "derive" "round_down" [usize_v a; usize_v b] = outcome usize_v (Ok (if a <? b then a else b)).
Proof. intros. start. lstep. cmp. destruct (a <? b); reflexivity. Qed.

Lemma view_usize : forall z, as_int tusize (usize_v z) = Some z. Proof. reflexivity. Qed.
Lemma view_u8 : forall z, as_int tu8 (u8_v z) = Some z. Proof. reflexivity. Qed.
Lemma view_u64 : forall z, as_int tu64 (u64_v z) = Some z. Proof. reflexivity. Qed.
Lemma view_str : forall z, as_str (XS z) = Some z. Proof. reflexivity. Qed.
Lemma view_pair : forall p, as_pair tusize tu8 (pair_v p) = Some p. Proof. intros [a b]. reflexivity. Qed.
Ltac call V L := erewrite call_ok; [ | exact V | known | exact L ].

Lemma bits_in_byte_src : forall c r d o n, 0 <= o <= 8 -> is_usize n ->
  run_at c r (S d) "derive" "bits_remaining_in_byte" [usize_v o; usize_v n] = outcome usize_v (Ok (bits_in_byte o n)).
Proof.
  intros c r d o n O N. red in N. start. lstep. unfold RustSem.div_u. cbn [Z.eqb]. cmp. rewrite !wlift_ok. unfold bits_in_byte.
  destruct (1 <=? n / 8).
  - change (RustSem.width RustSem.Usize) with 64. fit. reflexivity.
  - change (RustSem.width RustSem.Usize) with 64. fit. change (XI (Some tusize)) with usize_v. call view_usize (round_down_src c r d (8 - o) n). rewrite wlift_ok. reflexivity.
Qed.
Lemma get_shiftr_src : forall c r d o s i n, is_usize o -> is_usize s -> 0 <= i < 2 ^ 60 -> 0 <= n < 2 ^ 60 ->
  run_at c r d "derive" "get_shiftr" [usize_v o; usize_v s; usize_v i; usize_v n] = outcome u8_v (get_shiftr (c_macro c) o s i n).
Proof.
  intros c r d o s i n O S I N. red in O, S. change (2 ^ 60) with 1152921504606846976 in *. start. lstep.
  change (RustSem.width RustSem.Usize) with 64. unfold get_shiftr. cmp. fit. unfold usize.
  destruct (i + 1 =? n); [| reflexivity]. fit.
  destruct (sub_u (c_macro c) 64 (n * 8) o) as [x | e]; cbn [wlift bind]; [| reflexivity].
  destruct (sub_u (c_macro c) 64 x s); reflexivity.
Qed.
Lemma get_shiftl_src : forall c r d o s i n, is_usize o -> is_usize s -> 0 <= i < 2 ^ 60 -> 0 <= n < 2 ^ 60 ->
  run_at c r d "derive" "get_shiftl" [usize_v o; usize_v s; usize_v i; usize_v n] = outcome u8_v (get_shiftl (c_macro c) o s i n).
Proof.
  intros c r d o s i n O S I N. red in O, S. change (2 ^ 60) with 1152921504606846976 in *. start. lstep.
  change (RustSem.width RustSem.Usize) with 64. unfold get_shiftl. cmp. unfold usize.
  destruct (n =? 1); cbn [orb]; [reflexivity |]. fit. rewrite ?wlift_ok. 
  destruct (i + 1 =? n); [reflexivity |]. fit. rewrite ?wlift_ok.
  repeat match goal with |- context [bind ?x] => destruct x; cbn [wlift bind]; [| reflexivity] end.
  reflexivity.
Qed.
Ltac widths := change (RustSem.width RustSem.Usize) with 64; change (RustSem.width RustSem.U8) with 8; change (RustSem.width RustSem.U64) with 64.
Ltac unleave := cbn [leave_loop leave env_drop env_size Nat.sub].
Ltac fold_v := change (XI (Some tusize)) with usize_v; change (XI (Some tu8)) with u8_v; change (XI (Some tu64)) with u64_v.
Lemma get_mask_src : forall c r d o n, is_usize o -> is_usize n -> (9 <= r)%nat ->
  run_at c r (S (S d)) "derive" "get_mask" [usize_v o; usize_v n] = outcome pair_v (get_mask o n).
Proof.
  intros c r d o n O N R. red in O, N. start. lstep. cmp. unfold get_mask.
  destruct (o <=? 7) eqn:Q; cbn [negb]; [| reflexivity].
  change (XI (Some tusize)) with usize_v. call view_usize (bits_in_byte_src c r d o n ltac:(lia) N). rewrite wlift_ok.
  widths. fit.
  set (b := bits_in_byte o n).
  assert (B : 0 <= b) by (unfold b, bits_in_byte; destruct (1 <=? n / 8); [lia |]; destruct (8 - o <? n); lia).
  destruct (b <=? 8 - o) eqn:Q2; cbn [negb]; [| reflexivity].
  name_while cond HC body HB.
  assert (L : forall k r x K, (k < r)%nat -> Z.of_nat k <= 8 - o ->
    while_loop cond body r [("mask", u8_v x); ("num_bits_to_mask", usize_v (Z.of_nat k)); ("offset", usize_v o); ("bits_remaining", usize_v n)] K =
    K [("mask", u8_v (mask_loop o k x)); ("num_bits_to_mask", usize_v 0); ("offset", usize_v o); ("bits_remaining", usize_v n)]).
  { induction k; intros r' x K HR HK; (destruct r' as [| r']; [lia |]); cbn [while_loop mask_loop]; rewrite HC; lstep; cmp.
    - reflexivity.
    - rewrite HB. lstep. widths.
      destruct (0 <? Z.of_nat (S k)) eqn:Q3; [| lia]. fit. unleave. fold_v.
      replace (Z.of_nat (S k) - 1) with (Z.of_nat k) by lia. apply IHk; lia. }
  replace b with (Z.of_nat (Z.to_nat b)) at 1 by lia. fold_v. change (XI (Some tu8) 0) with (u8_v 0). rewrite L by lia. lstep. fold_v.
  call view_usize (bits_in_byte_src c r d o n ltac:(lia) N). reflexivity.
Qed.

Lemma mask_high_bits_src : forall c r d n, 0 <= n <= 64 -> (65 <= r)%nat ->
  run_at c r d "derive" "mask_high_bits" [u64_v n] = outcome u64_v (Ok (mask_high_bits n)).
Proof.
  intros c r d n N R. start. lstep.
  name_while cond HC body HB.
  assert (L : forall k r x K, (k < r)%nat -> (k <= 64)%nat -> 
    while_loop cond body r [("mask", u64_v x); ("bits", u64_v (Z.of_nat k))] K =
    K [("mask", u64_v (mask_high_bits_loop k x)); ("bits", u64_v 0)]).
  { induction k; intros r' x K HR HK; (destruct r' as [| r']; [lia |]); cbn [while_loop mask_high_bits_loop]; rewrite HC; lstep; cmp.
    - reflexivity.
    - rewrite HB. lstep. widths.
      destruct (0 <? Z.of_nat (S k)) eqn:Q3; [| lia]. fit.
      assert (P : 1 * 2 ^ (Z.of_nat (S k) - 1) < 2 ^ 64) by (rewrite Z.mul_1_l; apply Z.pow_lt_mono_r; lia).
      rewrite SourceProofs.shl_fits; [| lia | split; [apply Z.mul_nonneg_nonneg; [lia | apply Z.pow_nonneg; lia] | exact P]].
      fit. unleave. fold_v.
      replace (Z.of_nat (S k) - 1) with (Z.of_nat k) by lia. apply IHk; lia. }
  fold_v. replace n with (Z.of_nat (Z.to_nat n)) at 1 by lia. change (XI (Some tu64) 0) with (u64_v 0). rewrite L by lia. lstep. reflexivity.
Qed.
Lemma num_bits_set_src : forall c r d n, is_u8 n ->
  run_at c r d "derive" "num_bits_set" [u8_v n] = outcome u64_v (Ok (num_bits_set n)).
Proof.
  intros c r d n N. start. lstep.
  name_for body HB.
  change (RustSem.ints_from 0 8) with [0;1;2;3;4;5;6;7]. cbn [List.map].
  assert (L : forall l x K, Forall (fun i => 0 <= i < 8) l -> 0 <= x -> x + Z.of_nat (List.length l) <= 8 ->
    for_loop body (map (XI None) l) [("count", u64_v x); ("n", u8_v n)] K =
    K [("count", u64_v (fold_left (fun c i => if 0 <? Z.land n (Z.shiftl 1 i) then c + 1 else c) l x)); ("n", u8_v n)]).
  { induction l as [| i l IH]; intros x K F X B; cbn [map for_loop fold_left]; [reflexivity |].
    inversion F as [| ? ? I F']; subst. cbn [List.length] in B. rewrite HB. lstep. widths.
    rewrite SourceProofs.shl_fits; [| lia |].
    2: { assert (C : i = 0 \/ i = 1 \/ i = 2 \/ i = 3 \/ i = 4 \/ i = 5 \/ i = 6 \/ i = 7) by lia.
         repeat destruct C as [-> | C]; try (subst i); split; reflexivity || (intro; discriminate). }
    rewrite !wlift_ok. cmp. destruct (0 <? Z.land n (Z.shiftl 1 i)); fit; unleave; fold_v; apply IH; (assumption || lia). }
  change (XI (Some tu64) 0) with (u64_v 0). fold_v. change [XI None 0; XI None 1; XI None 2; XI None 3; XI None 4; XI None 5; XI None 6; XI None 7] with (map (XI None) [0;1;2;3;4;5;6;7]).
  rewrite L; [| repeat constructor; lia | lia | cbn; lia]. lstep. reflexivity.
Qed.

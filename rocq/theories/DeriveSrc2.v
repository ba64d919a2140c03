(** Continued: lists of operations. *)
From Coq Require Import String Ascii ZArith List Bool Lia ZifyBool ZifyNat.
From Verif Require Import Base DeriveUtil DeriveOps DeriveGen RustAst RustEval CrateText2 SpecSource2 EvalTac DeriveSrc.
From Verif Require RustSem EmitText FmtText MacAddr Names SourceProofs.
Import ListNotations.
Open Scope string_scope.
Open Scope Z_scope.
Ltac Zify.zify_post_hook ::= Z.to_euclidean_division_equations.

Lemma view_list : forall l, as_list (XL l) = Some l. Proof. reflexivity. Qed.
Lemma nth_mid : forall A (p s : list A) x, nth_error (p ++ x :: s) (List.length p) = Some x.
Proof. intros. rewrite nth_error_app2 by lia. now rewrite Nat.sub_diag. Qed.
Lemma set_mid : forall A (p s : list A) x y, set_nth (List.length p) y (p ++ x :: s) = (p ++ y :: s)%list.
Proof. induction p; intros; cbn; [reflexivity | now f_equal]. Qed.
Lemma nth_midm : forall A B (f : B -> A) p s x, nth_error (map f p ++ x :: s) (List.length p) = Some x.
Proof. intros. rewrite <- (map_length f p). apply nth_mid. Qed.
Lemma set_midm : forall A B (f : B -> A) p s x y, set_nth (List.length p) y (map f p ++ x :: s) = (map f p ++ y :: s)%list.
Proof. intros. rewrite <- (map_length f p). apply set_mid. Qed.
Definition le_op (p : getop * getop) : getop := GetOp (g_mask (fst p)) (g_shiftl (snd p)) (g_shiftr (fst p)).
Lemma to_little_endian_src : forall c r d l,
  run_at c r d "derive" "to_little_endian" [plan_v l] = outcome plan_v (Ok (to_little_endian l)).
Proof.
  intros c r d l. unfold plan_v at 1. remember (map getop_v l) as vs eqn:E. start. lstep. name_for body HB.
  assert (L : forall suf rs pre K, List.length suf = List.length rs ->
    for_loop body (zipped (map (fun i => XPtr "ops" [AtIdx i]) (seq (List.length pre) (List.length suf))) (map getop_v rs))
      [("ops", XL (map getop_v (pre ++ suf))); ("_ops", XL vs)] K =
    K [("ops", XL (map getop_v (pre ++ map le_op (combine suf rs)))); ("_ops", XL vs)]).
  { induction suf as [| a suf IH]; intros [| b rs] pre K H; try discriminate H; [reflexivity |].
    cbn [List.length seq map combine]. unfold zipped. cbn [combine map for_loop fst snd]. rewrite HB. cbn [getop_v].
    destruct a as [m1 sl1 sr1], b as [m2 sl2 sr2]. unfold getop_v at 1. cbn [g_mask g_shiftl g_shiftr].
    lstep. rewrite map_app. cbn [map].
    unfold read_ptr, write_ptr. cbn [find_var String.eqb Ascii.eqb Bool.eqb get_at put_at].
    rewrite !nth_midm. unfold getop_v at 1. cbn [get_at set_field String.eqb Ascii.eqb Bool.eqb g_mask g_shiftl g_shiftr].
    rewrite set_midm. cbn [set_var String.eqb Ascii.eqb Bool.eqb]. unleave.
    change (XR "GetOperation" [("mask", u8_v m1); ("shiftl", XI (Some tu8) sl2); ("shiftr", u8_v sr1)]) with (getop_v (le_op (GetOp m1 sl1 sr1, GetOp m2 sl2 sr2))).
    specialize (IH rs (pre ++ [le_op (GetOp m1 sl1 sr1, GetOp m2 sl2 sr2)])%list K ltac:(now injection H)).
    rewrite <- !app_assoc, app_length, Nat.add_1_r in IH. cbn [app] in IH. rewrite map_app in IH. cbn [map] in IH.
    exact IH. }
  specialize (L l (rev l) []). cbn [app List.length] in L.
  unfold pointers. rewrite E at 1 2. rewrite E in L. rewrite map_length, <- map_rev, E, L by now rewrite rev_length.
  lstep. reflexivity.
Qed.
Fixpoint ops_rem (k : nat) (cur rem : Z) : Z :=
  match k with
  | O => rem
  | S k' => match get_mask cur rem with Ok (c, _) => ops_rem k' 0 (if c <=? rem then rem - c else rem) | Panic _ => rem end
  end.
Definition ops_cur (k : nat) (cur : Z) : Z := match k with O => cur | S _ => 0 end.
Lemma view_plan : forall l, as_list (plan_v l) = Some (map getop_v l). Proof. reflexivity. Qed.
Lemma tle_call : forall c r d ops k, taken as_list (linked c r (S d) "derive" "to_little_endian" [XL (map getop_v ops)]) k = k (map getop_v (to_little_endian ops)).
Proof.
  intros. rewrite (call_ok _ as_list XL c r d "derive" "to_little_endian" [XL (map getop_v ops)] (Ok (map getop_v (to_little_endian ops))) k view_list ltac:(known) (to_little_endian_src c r d ops)). reflexivity.
Qed.
Lemma operations_src : forall c r d o s e, is_usize o -> is_usize s -> (9 <= r)%nat ->
  run_at c r (S (S (S d))) "derive" "operations" [usize_v o; usize_v s; endian_v e] =
  outcome (opt_v plan_v) (operations (c_macro c) (c_host_le c) o s e).
Proof.
  intros c r d o s e O N R. red in O, N. start. lstep. cmp. unfold operations.
  destruct (7 <? o) eqn:Q1; [reflexivity |]. destruct (s =? 0) eqn:Q2; [reflexivity |]. destruct (64 <? s) eqn:Q3; [reflexivity |].
  cbn [orb]. name_for body HB. fold_v.
  assert (L : forall fb nb ev k a pre cur rem K, Z.of_nat a + Z.of_nat k = nb -> nb < 100 -> 0 <= cur <= 7 -> is_usize rem ->
    for_loop body (map usize_v (map (fun j => 0 + Z.of_nat j) (seq a k)))
      [("ops", XL (map getop_v pre)); ("num_bits_remaining", usize_v rem); ("current_offset", usize_v cur); ("num_bytes", usize_v nb);
       ("num_full_bytes", usize_v fb); ("offset", usize_v o); ("size", usize_v s); ("endianness", ev)] K =
    wlift (ops_loop (c_macro c) o s nb k (Z.of_nat a) cur rem) (fun l => K
      [("ops", XL (map getop_v (pre ++ l))); ("num_bits_remaining", usize_v (ops_rem k cur rem)); ("current_offset", usize_v (ops_cur k cur)); ("num_bytes", usize_v nb);
       ("num_full_bytes", usize_v fb); ("offset", usize_v o); ("size", usize_v s); ("endianness", ev)])).
  { intros fb nb ev. induction k; intros a pre cur rem K A B C D; cbn [seq map for_loop ops_loop ops_rem ops_cur].
    - cbn [wlift]. now rewrite app_nil_r.
    - red in D. rewrite HB. lstep. fold_v.
      call view_pair (get_mask_src c r d cur rem ltac:(red; lia) ltac:(red; lia) R).
      destruct (get_mask cur rem) as [[cons mask] | er] eqn:GM; cbn [wlift bind]; [| reflexivity].
      assert (CP : 0 <= cons).
      { unfold get_mask in GM. destruct (negb (cur <=? 7)); [discriminate GM |]. destruct (negb (bits_in_byte cur rem <=? 8 - cur)) eqn:QQ; [discriminate GM |].
        injection GM as <- _. unfold bits_in_byte. destruct (1 <=? rem / 8); [lia |]. destruct (8 - cur <? rem); lia. }
      change (0 + Z.of_nat a) with (Z.of_nat a).
      call view_u8 (get_shiftl_src c r (S (S d)) o s (Z.of_nat a) nb ltac:(red; lia) ltac:(red; lia) ltac:(lia) ltac:(lia)).
      destruct (get_shiftl (c_macro c) o s (Z.of_nat a) nb) as [sl | er]; cbn [wlift bind]; [| reflexivity].
      call view_u8 (get_shiftr_src c r (S (S d)) o s (Z.of_nat a) nb ltac:(red; lia) ltac:(red; lia) ltac:(lia) ltac:(lia)).
      destruct (get_shiftr (c_macro c) o s (Z.of_nat a) nb) as [sr | er]; cbn [wlift bind]; [| reflexivity].
      cmp. 
      specialize (IHk (S a) (pre ++ [GetOp mask sl sr])%list 0 (if cons <=? rem then rem - cons else rem) K ltac:(lia) ltac:(lia) ltac:(lia) ltac:(red; destruct (cons <=? rem) eqn:?; lia)).
      replace (Z.of_nat a + 1) with (Z.of_nat (S a)) by lia.
      rewrite map_app in IHk. cbn [map] in IHk.
      replace (ops_cur k 0) with 0 in IHk by now destruct k.
      widths.
      destruct (cons <=? rem) eqn:Q; [fit |]; unleave; (etransitivity; [exact IHk |]);
        match goal with |- wlift ?x _ = _ => destruct x; cbn [wlift bind]; [| reflexivity] end;
        rewrite <- app_assoc; reflexivity. }
  unfold RustSem.div_u, RustSem.rem_u. cbn [Z.eqb]. rewrite !wlift_ok.
  assert (NB : num_bytes o s = if 0 <? o then s / 8 + 1 else if negb (s mod 8 =? 0) then s / 8 + 1 else s / 8)
    by (unfold num_bytes; destruct (0 <? o), (negb (s mod 8 =? 0)); reflexivity).
  assert (NBB : 0 <= num_bytes o s < 100) by (unfold num_bytes; destruct ((0 <? o) || negb (s mod 8 =? 0))%bool; lia).
  widths.
  destruct (0 <? o) eqn:Q4; [| destruct (negb (s mod 8 =? 0)) eqn:Q5]; fit; rewrite <- ?NB.
  all: try (unfold RustSem.ints_from at 1; rewrite Z.sub_0_r).
  all: change (XL []) with (XL (map getop_v [])).
  all: rewrite L by (lia || (red; lia)).
  all: destruct (ops_loop _ _ _ _ _ _ _ _) as [ops | er]; cbn [wlift bind]; [| reflexivity].
  all: lstep; destruct e; destruct (c_host_le c); rewrite ?tle_call; reflexivity.
Qed.
Lemma num_bits_set_le : forall n, 0 <= num_bits_set n <= 8.
Proof.
  intro n. unfold num_bits_set.
  assert (H : forall l x, 0 <= x -> 0 <= fold_left (fun c i => if 0 <? Z.land n (Z.shiftl 1 i) then c + 1 else c) l x <= x + Z.of_nat (List.length l)).
  { induction l as [| i l IH]; intros x X; cbn [fold_left List.length]; [lia |]. destruct (0 <? Z.land n (Z.shiftl 1 i)).
    - specialize (IH (x + 1)). lia.
    - specialize (IH x). lia. }
  apply H. lia.
Qed.
Lemma to_mutator_src : forall c r d l, Forall (fun o => getop_ok o /\ g_shiftl o < 64) l -> (65 <= r)%nat ->
  run_at c r (S d) "derive" "to_mutator" [plan_v l] = outcome (fun l => XL (map setop_v l)) (Ok (to_mutator l)).
Proof.
  intros c r d l F R. unfold plan_v. start. lstep. name_for body HB.
  assert (L : forall suf pre K, Forall (fun o => getop_ok o /\ g_shiftl o < 64) suf -> 
    for_loop body (map getop_v suf) [("sops", XL (map setop_v pre)); ("ops", XL (map getop_v l))] K =
    K [("sops", XL (map setop_v (pre ++ to_mutator suf))); ("ops", XL (map getop_v l))]).
  { induction suf as [| a suf IH]; intros pre K G; cbn [map for_loop to_mutator]; [now rewrite app_nil_r |].
    inversion G as [| ? ? [[M [SL SR]] SL2] G']; subst. rewrite HB. destruct a as [m1 sl1 sr1]. cbn [g_mask g_shiftl g_shiftr] in *.
    unfold getop_v at 1. cbn [g_mask g_shiftl g_shiftr]. lstep. fold_v. red in M, SL, SR.
    call view_u64 (num_bits_set_src c r d m1 M). rewrite wlift_ok. 
    call view_u64 (mask_high_bits_src c r d (num_bits_set m1) ltac:(pose proof (num_bits_set_le m1); lia) R). rewrite wlift_ok. 
    widths. unfold shl_u. replace ((0 <=? sl1) && (sl1 <? 64))%bool with true by lia. rewrite wlift_ok. unleave.
    specialize (IH (pre ++ [to_setop (GetOp m1 sl1 sr1)])%list K G'). rewrite <- app_assoc in IH. rewrite map_app in IH. exact IH. }
  change (XL []) with (XL (map setop_v [])). rewrite L by exact F. lstep. reflexivity.
Qed.

(** Continued: the text functions. *)
From Coq Require Import String Ascii ZArith List Bool Lia ZifyBool ZifyNat.
From Verif Require Import Base DeriveUtil DeriveOps DeriveGen RustAst RustEval CrateText2 SpecSource2 EvalTac DeriveSrc DeriveSrc2.
From Verif Require RustSem EmitText FmtText MacAddr Names SourceProofs.
Import ListNotations.
Open Scope string_scope.
Open Scope Z_scope.
Ltac Zify.zify_post_hook ::= Z.to_euclidean_division_equations.
Lemma sapp_assoc : forall a b c : string, (a ++ b) ++ c = a ++ b ++ c.
Proof. induction a; intros; cbn [String.append]; [reflexivity | now rewrite IHa]. Qed.
Lemma sapp_nil : forall a : string, a ++ "" = a.
Proof. induction a; cbn [String.append]; [reflexivity | now rewrite IHa]. Qed.
Ltac strings := repeat (rewrite sapp_assoc || rewrite sapp_nil); cbn [String.append]; repeat (rewrite sapp_assoc || rewrite sapp_nil).
Lemma hex_char : forall x, 0 <= x < 16 -> exists z, idx (codes "0123456789abcdef") x = Ok z /\ char_text z = String (hex_digit x) "".
Proof.
  intros x X.
  assert (C : x = 0 \/ x = 1 \/ x = 2 \/ x = 3 \/ x = 4 \/ x = 5 \/ x = 6 \/ x = 7 \/ x = 8 \/ x = 9 \/ x = 10 \/ x = 11 \/ x = 12 \/ x = 13 \/ x = 14 \/ x = 15) by lia.
  repeat destruct C as [-> | C]; try subst x; eexists; split; vm_compute; reflexivity.
Qed.
Lemma radix_fuel : forall j k x ret, 0 <= x < 16 ^ Z.of_nat k -> (k <= j)%nat -> radix16_loop j x ret = radix16_loop k x ret.
Proof.
  induction j; intros k x ret X J; [now replace k with O by lia |].
  destruct k.
  - cbn in X. cbn [radix16_loop]. replace (0 <? x) with false by lia. reflexivity.
  - cbn [radix16_loop]. destruct (0 <? x); [| reflexivity]. apply IHj; [| lia].
    rewrite Nat2Z.inj_succ, Z.pow_succ_r in X by lia. split; [apply Z.div_pos; lia | apply Z.div_lt_upper_bound; lia].
Qed.
Lemma radix16_u8_src : forall c r d z, is_u8 z -> (17 <= r)%nat ->
  run_at c r d "derive" "radix16_u8" [u8_v z] = outcome XS (Ok (EmitText.hex z)).
Proof.
  intros c r d z ZZ R. start. lstep. name_while cond HC body HB.
  assert (L : forall k r x ret st K, (k < r)%nat -> 0 <= x < 16 ^ Z.of_nat k -> st = string_of_list_ascii ret ->
    while_loop cond body r [("vals", XA (Some tu8) (codes "0123456789abcdef")); ("ret", XS st); ("val", u8_v x)] K =
    K [("vals", XA (Some tu8) (codes "0123456789abcdef")); ("ret", XS (string_of_list_ascii (radix16_loop k x ret))); ("val", u8_v 0)]).
  { induction k as [| k IHk]; intros r' x ret st K HR HX HS; (destruct r' as [| r']; [lia |]); cbn [while_loop radix16_loop]; rewrite HC; lstep; cmp.
    - replace x with 0 by (cbn in HX; lia). subst st. reflexivity.
    - destruct (0 <? x) eqn:Q; [| subst st; replace x with 0 by lia; reflexivity].
      rewrite HB. lstep. unfold RustSem.rem_u, RustSem.div_u. cbn [Z.eqb]. rewrite !wlift_ok. widths.
      rewrite SourceProofs.cast_fits by (split; [lia | apply Z.lt_trans with 16; [lia | reflexivity]]).
      destruct (hex_char (x mod 16)) as [z' [E1 E2]]; [lia |]. rewrite E1, wlift_ok, E2. cbn [String.append]. rewrite sapp_nil. unleave.
      apply IHk; [lia | | now subst st].
      rewrite Nat2Z.inj_succ, Z.pow_succ_r in HX by lia. split; [apply Z.div_pos; lia | apply Z.div_lt_upper_bound; lia]. }
  fold_v. red in ZZ.
  erewrite (L 16%nat r z [] "" _ ltac:(lia) ltac:(split; [lia | apply Z.lt_trans with 256; [lia | reflexivity]]) eq_refl). lstep. reflexivity.
Qed.
Lemma radix16_u64_src : forall c r d z, 0 <= z < 2 ^ 64 -> (17 <= r)%nat ->
  run_at c r d "derive" "radix16_u64" [u64_v z] = outcome XS (Ok (EmitText.hex z)).
Proof.
  intros c r d z ZZ R. start. lstep. name_while cond HC body HB.
  assert (L : forall k r x ret st K, (k < r)%nat -> 0 <= x < 16 ^ Z.of_nat k -> st = string_of_list_ascii ret ->
    while_loop cond body r [("vals", XA (Some tu8) (codes "0123456789abcdef")); ("ret", XS st); ("val", u64_v x)] K =
    K [("vals", XA (Some tu8) (codes "0123456789abcdef")); ("ret", XS (string_of_list_ascii (radix16_loop k x ret))); ("val", u64_v 0)]).
  { induction k as [| k IHk]; intros r' x ret st K HR HX HS; (destruct r' as [| r']; [lia |]); cbn [while_loop radix16_loop]; rewrite HC; lstep; cmp.
    - replace x with 0 by (cbn in HX; lia). subst st. reflexivity.
    - destruct (0 <? x) eqn:Q; [| subst st; replace x with 0 by lia; reflexivity].
      rewrite HB. lstep. unfold RustSem.rem_u, RustSem.div_u. cbn [Z.eqb]. rewrite !wlift_ok. widths.
      rewrite SourceProofs.cast_fits by (split; [lia | apply Z.lt_trans with 16; [lia | reflexivity]]).
      destruct (hex_char (x mod 16)) as [z' [E1 E2]]; [lia |]. rewrite E1, wlift_ok, E2. cbn [String.append]. rewrite sapp_nil. unleave.
      apply IHk; [lia | | now subst st].
      rewrite Nat2Z.inj_succ, Z.pow_succ_r in HX by lia. split; [apply Z.div_pos; lia | apply Z.div_lt_upper_bound; lia]. }
  fold_v.
  erewrite (L 16%nat r z [] "" _ ltac:(lia) ltac:(exact ZZ) eq_refl). lstep. reflexivity.
Qed.
Lemma i16_u8 : forall z, is_u8 z -> wrap_i16 z = z.
Proof. intros z H. red in H. unfold wrap_i16. lia. Qed.
Lemma i16_sub : forall m a b, is_u8 a -> is_u8 b -> sub_i16 m a b = Ok (a - b).
Proof. intros m a b A B. red in A, B. unfold sub_i16. destruct m; [now replace ((-32768 <=? a - b) && (a - b <=? 32767))%bool with true by lia | unfold wrap_i16; f_equal; lia]. Qed.
Lemma shown_abs : forall z, (if Z.abs z <? 0 then "-" ++ EmitText.dec (- Z.abs z) else EmitText.dec (Z.abs z)) = EmitText.dec (Z.abs z).
Proof. intro. now replace (Z.abs z <? 0) with false by lia. Qed.
Lemma getop_fmt_src : forall c r d o, getop_ok o -> (17 <= r)%nat ->
  run_at c r (S d) "derive" "GetOperation::fmt" [getop_v o] = outcome XS (Ok (EmitText.get_op_text o)).
Proof.
  intros c r d [m1 sl1 sr1] [M [SL SR]] R. unfold getop_v. cbn [g_mask g_shiftl g_shiftr] in *. start. lstep. fold_v. rewrite !i16_u8, i16_sub, wlift_ok by assumption.
  unfold EmitText.get_op_text, EmitText.shift_text. cbn [g_mask g_shiftl g_shiftr]. cmp. rewrite shown_abs.
  destruct (m1 =? 255) eqn:Q; cbn [negb].
  2: call view_str (radix16_u8_src c r d m1 M R); rewrite wlift_ok.
  all: destruct (sr1 - sl1 =? 0); [strings; reflexivity |]; destruct (sr1 - sl1 <? 0); strings; reflexivity.
Qed.
Lemma length_append' : forall a b, String.length (a ++ b) = (String.length a + String.length b)%nat.
Proof. induction a; intros; cbn [String.append String.length]; [reflexivity | now rewrite IHa]. Qed.
Lemma setop_fmt_src : forall c r d o, setop_ok o -> (17 <= r)%nat ->
  run_at c r (S d) "derive" "SetOperation::fmt" [setop_v o] = outcome XS (Ok (EmitText.set_op_text o)).
Proof.
  intros c r d [sv vm sl1 sr1] [M [V [SL SR]]] R. unfold setop_v. cbn [s_save s_vmask s_shiftl s_shiftr] in *. start. lstep. fold_v. rewrite !i16_u8, i16_sub, wlift_ok by assumption.
  unfold EmitText.set_op_text, EmitText.shift_text. cbn [s_save s_vmask s_shiftl s_shiftr]. cmp. rewrite shown_abs.
  destruct (sv =? 0) eqn:Q; cbn [negb]; [| call view_str (radix16_u8_src c r d sv M R); rewrite wlift_ok].
  all: destruct (vm =? 255) eqn:Q2; cbn [negb]; [| call view_str (radix16_u64_src c r d vm V R); rewrite wlift_ok].
  all: destruct (sr1 - sl1 =? 0); [strings; reflexivity |]; destruct (sr1 - sl1 <? 0); strings; reflexivity.
Qed.
Lemma endian_fmt_src : forall c r d e,
  run_at c r d "derive" "Endianness::fmt" [endian_v e] =
  outcome XS (Ok (match e with Big => "big-endian" | Little => "little-endian" | Host => "host-endian" end)).
Proof. intros c r d []; cbn [endian_v]; start; lstep; reflexivity. Qed.
(** The subtraction overflows when there is nothing to cut. *)
Lemma build_return_src : forall c r d n, slen (EmitText.return_terms 0 n) < 2 ^ 64 ->
  run_at c r d "derive" "build_return" [usize_v (Z.of_nat n)] =
  outcome XS (match n, c_macro c with O, Checked => Panic EOverflow | _, _ => Ok (EmitText.build_return n) end).
Proof.
  intros c r d n S. start. lstep. name_for body HB. fold_v.
  assert (L : forall k a st K,
    for_loop body (map usize_v (map (fun j => 0 + Z.of_nat j) (seq a k))) [("ret", XS st); ("max", usize_v (Z.of_nat n))] K =
    K [("ret", XS (st ++ EmitText.return_terms (Z.of_nat a) k)); ("max", usize_v (Z.of_nat n))]).
  { induction k; intros a st K; cbn [seq map for_loop EmitText.return_terms]; [now rewrite sapp_nil |].
    rewrite HB. lstep. unleave. rewrite IHk. replace (Z.of_nat (Datatypes.S a)) with (Z.of_nat a + 1) by lia.
    change (0 + Z.of_nat a) with (Z.of_nat a). strings. reflexivity. }
  unfold RustSem.ints_from. rewrite Z.sub_0_r, Nat2Z.id, L. change (Z.of_nat 0) with 0. cbn [String.append]. remember (EmitText.return_terms 0 n) as rt eqn:RT. lstep. widths.
  destruct n as [| n].
  - subst rt. destruct (c_macro c); reflexivity.
  - assert (P : 3 <= slen rt) by (subst rt; cbn [EmitText.return_terms String.append]; unfold slen; cbn [String.length]; rewrite !length_append'; cbn [String.length]; lia).
    rewrite SourceProofs.sub_fits by lia. rewrite wlift_ok. unfold truncated, EmitText.build_return. 
    rewrite <- RT. replace (Z.to_nat (slen rt - 3)) with (String.length rt - 3)%nat by (unfold slen; lia).
    destruct (c_macro c); reflexivity.
Qed.

Lemma shown_setop : forall c r d o k, setop_ok o -> (17 <= r)%nat ->
  taken as_str (linked c r (S (S d)) "derive" "SetOperation::fmt" [setop_v o]) k = k (EmitText.set_op_text o).
Proof. intros. call view_str (setop_fmt_src c r d o ltac:(assumption) ltac:(assumption)). reflexivity. Qed.
Lemma shown_getop : forall c r d o k, getop_ok o -> (17 <= r)%nat ->
  taken as_str (linked c r (S (S d)) "derive" "GetOperation::fmt" [getop_v o]) k = k (EmitText.get_op_text o).
Proof. intros. call view_str (getop_fmt_src c r d o ltac:(assumption) ltac:(assumption)). reflexivity. Qed.
Lemma gen_set_ops_src : forall c r d name l, Forall setop_ok l -> (17 <= r)%nat ->
  run_at c r (S (S d)) "derive" "gen_set_ops" [XS name; XL (map setop_v l)] = outcome XS (Ok (EmitText.set_body name l)).
Proof.
  intros c r d name l F R. start. lstep. name_for body HB. fold_v.
  assert (L : forall suf i st K, Forall setop_ok suf ->
    for_loop body (numbered i (map setop_v suf)) [("op_strings", XS st); ("name", XS name); ("operations", XL (map setop_v l))] K =
    K [("op_strings", XS (st ++ EmitText.set_stmts name i suf)); ("name", XS name); ("operations", XL (map setop_v l))]).
  { induction suf as [| a suf IH]; intros i st K G; cbn [map numbered for_loop EmitText.set_stmts]; [now rewrite sapp_nil |].
    inversion G as [| ? ? G1 G2]; subst. rewrite HB. destruct a as [m1 v1 sl1 sr1] eqn:A. unfold setop_v at 1. cbn [s_save s_vmask s_shiftl s_shiftr].
    lstep. etransitivity; [exact (shown_setop c r d (SetOp m1 v1 sl1 sr1) _ G1 R) |]. cbv beta. unleave. rewrite IH by exact G2.
    unfold EmitText.set_stmt. change ";
" with (";" ++ EmitText.newline). strings. reflexivity. }
  rewrite L by exact F. remember (EmitText.set_stmts name 0 l) as st eqn:E. lstep. unfold EmitText.set_body. rewrite E. strings. reflexivity.
Qed.
Lemma gen_get_ops_src : forall c r d name ty l, Forall getop_ok l -> slen (EmitText.return_terms 0 (List.length l)) < 2 ^ 64 -> (17 <= r)%nat ->
  run_at c r (S (S d)) "derive" "gen_get_ops" [XS name; XS ty; XL (map getop_v l)] =
  outcome XS (match l, c_macro c with [], Checked => Panic EOverflow | _, _ => Ok (EmitText.get_body name ty l) end).
Proof.
  intros c r d name ty l F B R.
  destruct (Nat.eq_dec (List.length l) 1) as [N | N].
  { destruct l as [| a [| b l]]; try discriminate N. cbn [map]. inversion F as [| ? ? G1 _]; subst. destruct a as [m1 sl1 sr1] eqn:A. unfold getop_v. cbn [g_mask g_shiftl g_shiftr].
    start. lstep. cmp. etransitivity; [unfold list_len; cbn [List.length RustSem.head]; change (Z.of_nat 1 =? 1) with true; go; reflexivity |].
    etransitivity; [exact (shown_getop c r d (GetOp m1 sl1 sr1) _ G1 R) |]. cbv beta. unfold EmitText.get_body. strings. reflexivity. }
  start. lstep. cmp. replace (list_len (map getop_v l) =? 1) with false by (unfold list_len; rewrite map_length; lia).
  name_for body HB. fold_v.
  assert (L : forall suf i st K, Forall getop_ok suf ->
    for_loop body (numbered i (map getop_v suf)) [("op_strings", XS st); ("name", XS name); ("ty", XS ty); ("operations", XL (map getop_v l))] K =
    K [("op_strings", XS (st ++ EmitText.get_stmts name ty i suf)); ("name", XS name); ("ty", XS ty); ("operations", XL (map getop_v l))]).
  { induction suf as [| a suf IH]; intros i st K G; cbn [map numbered for_loop EmitText.get_stmts]; [now rewrite sapp_nil |].
    inversion G as [| ? ? G1 G2]; subst. rewrite HB. destruct a as [m1 sl1 sr1] eqn:A. unfold getop_v at 1. cbn [g_mask g_shiftl g_shiftr].
    lstep. etransitivity; [exact (shown_getop c r d (GetOp m1 sl1 sr1) _ G1 R) |]. cbv beta. unleave. rewrite IH by exact G2.
    unfold EmitText.get_stmt. change (";
" ++ "") with (";" ++ EmitText.newline). strings. reflexivity. }
  rewrite L by exact F. remember (EmitText.get_stmts name ty 0 l) as st eqn:E. lstep.
  replace (list_len (map getop_v l)) with (Z.of_nat (List.length l)) by (unfold list_len; now rewrite map_length). fold_v.
  call view_str (build_return_src c r (S d) (List.length l) B).
  destruct l as [| a [| b l]].
  - destruct (c_macro c); [reflexivity |]. cbn [wlift]. rewrite E. strings. reflexivity.
  - now contradiction N.
  - remember (EmitText.build_return _) as br eqn:EB. replace (match c_macro c with Checked => Ok br | Wrapping => Ok br end) with (Ok br) by now destruct (c_macro c).
    cbn [List.length]. cbn [wlift]. transitivity (outcome XS (Ok (EmitText.get_body name ty (a :: b :: l)))); [| now destruct (c_macro c)].
    unfold EmitText.get_body. cbn [List.length] in *. rewrite <- EB, E. strings. reflexivity.
Qed.

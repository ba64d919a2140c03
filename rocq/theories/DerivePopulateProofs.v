(** Proofs about populate() and the setters of lists of packets on buffers that
    are too small, and about lists that exceed their area (C85, C86). *)
From Coq Require Import String ZArith List Bool Lia ZifyBool ZifyNat.
From Verif Require Import Base BitSpec DeriveUtil DeriveOps BaseFacts BitFacts
  DeriveUtilProofs DeriveOpsProofs DeriveLEProofs DeriveGen SpecPacket DeriveGenProofs DeriveInvProofs
  DeriveAccProofs DeriveVarProofs DeriveApiProofs DerivePropProofs DerivePropProofs2 SpecStruct DeriveStructProofs
  SpecPopulate.
Import ListNotations.
Open Scope Z_scope.
Ltac Zify.zify_post_hook ::= Z.to_euclidean_division_equations.

(** Populating a struct whose encoding does not fit panics. *)
Definition short_panics (k : pkt_sem) (E : list val -> buf) (W : list val -> Prop) : Prop :=
  forall x b, W x -> bytes_ok b -> blen b < 2 ^ 63 -> blen b < blen (E x) ->
    exists b' e, k_populate k x b = (b', Panic e) /\ length b' = length b.

Lemma codec_step : forall k E W x b (co : Z), codec k E W -> W x -> 0 <= co -> bytes_ok b -> blen b < 2 ^ 63 ->
  co + blen (E x) <= blen b ->
  let b1 := splice b (Z.to_nat co) (E x) in
  on_tail (Z.to_nat co) (k_populate k x) b = (b1, Ok tt) /\
  length b1 = length b /\ bytes_ok b1 /\ k_size k (skipn (Z.to_nat co) b1) = Ok (blen (E x)).
Proof.
  intros k E W x b co C WX CO B L H b1.
  assert (BX := cd_bytes _ _ _ C x WX). assert (N := blen_nonneg (E x)).
  assert (LT : blen (skipn (Z.to_nat co) b) = blen b - co) by (rewrite blen_skipn; unfold blen in *; lia).
  assert (FL : length (firstn (Z.to_nat co) b) = Z.to_nat co) by (rewrite firstn_length; unfold blen in *; lia).
  assert (E1 : b1 = firstn (Z.to_nat co) b ++ E x ++ skipn (length (E x)) (skipn (Z.to_nat co) b)).
  { unfold b1, splice. rewrite skipn_skipn'. do 3 f_equal. }
  assert (SB : skipn (Z.to_nat co) b1 = E x ++ skipn (length (E x)) (skipn (Z.to_nat co) b))
    by (rewrite E1; now apply skipn_app_exact).
  assert (L1 : length b1 = length b).
  { unfold b1. apply splice_length. unfold blen in *. lia. }
  split; [|split; [exact L1|split]].
  - unfold on_tail. rewrite (cd_populate _ _ _ C) by (auto using bytes_skipn; lia). now rewrite E1.
  - rewrite E1. rewrite !bytes_app. auto using bytes_firstn, bytes_skipn.
  - rewrite SB. apply (cd_size _ _ _ C); auto using bytes_skipn.
    rewrite <- SB. unfold blen. rewrite skipn_length, L1. unfold blen in L. lia.
Qed.

Lemma splice_twice : forall (b : buf) i u v, (i + length u <= length b)%nat ->
  splice (splice b i u) (i + length u) v = splice b i (u ++ v).
Proof.
  intros b i u v H. unfold splice at 1 3. unfold splice.
  assert (FL : length (firstn i b) = i) by (rewrite firstn_length; lia).
  assert (F1 : firstn (i + length u) (firstn i b ++ u ++ skipn (i + length u) b) = firstn i b ++ u).
  { rewrite app_assoc. apply firstn_app_exact. rewrite app_length. lia. }
  rewrite F1, <- !app_assoc. do 3 f_equal. rewrite app_length.
  replace (i + length u + length v)%nat with (length (firstn i b ++ u) + length v)%nat at 1 by (rewrite app_length; lia).
  rewrite app_assoc. rewrite <- (skipn_skipn' _ (length v) (length (firstn i b ++ u))).
  rewrite skipn_app_exact by reflexivity. rewrite skipn_skipn'. f_equal. lia.
Qed.

Section L.
Variable c : cfg.

(** The loop of the setter of a list of packets, in every case. *)
Lemma pkts_set_written : forall k E W, codec k E W -> forall xs co e b, Forall W xs ->
  0 <= co -> co <= e -> e < 2 ^ 64 -> bytes_ok b -> blen b < 2 ^ 63 ->
  co + blen (written E (e - co) xs) <= blen b ->
  pkts_set_loop c k xs co e b =
    (splice b (Z.to_nat co) (written E (e - co) xs),
     if co + blen (concat (map E xs)) <=? e then Ok tt else Panic EAssert).
Proof.
  intros k E W C xs. induction xs as [|x xs IH]; intros co e b F CO CE U B L H.
  - cbn [pkts_set_loop map concat written]. unfold mret, splice. cbn [List.length app].
    rewrite Nat.add_0_r, firstn_skipn. replace (co + blen [] <=? e) with true by (unfold blen; cbn [length]; lia). reflexivity.
  - inversion F as [|? ? WX FX]; subst. cbn [pkts_set_loop map concat written] in *.
    destruct (cd_min _ _ _ C x) as [M1 M2]; auto.
    rewrite blen_app in *. assert (N := blen_nonneg (concat (map E xs))).
    match type of H with _ + (_ + blen ?T) <= _ => set (tl := T) in * end.
    assert (NT := blen_nonneg tl).
    rewrite slice_from_ok by lia.
    assert (LT : blen (skipn (Z.to_nat co) b) = blen b - co) by (rewrite blen_skipn; unfold blen in *; lia).
    destruct (blen (skipn (Z.to_nat co) b) <? k_min k) eqn:Q; [lia|].
    destruct (codec_step k E W x b co C WX CO B L ltac:(lia)) as (P1 & P2 & P3 & P4).
    unfold mseq. rewrite P1, P4. cbn [bind]. rewrite add_u_in by (change usize with 64; lia).
    assert (BL : blen (splice b (Z.to_nat co) (E x)) = blen b) by (unfold blen; lia).
    unfold tl in *. destruct (co + blen (E x) <=? e) eqn:Q2.
    + replace (blen (E x) <=? e - co) with true in * by lia.
      replace (e - co - blen (E x)) with (e - (co + blen (E x))) in * by lia.
      rewrite IH; auto; try lia. f_equal.
      * replace (Z.to_nat (co + blen (E x))) with (Z.to_nat co + length (E x))%nat by (unfold blen; lia).
        apply splice_twice. unfold blen in *. lia.
      * replace (co + blen (E x) + blen (concat (map E xs))) with (co + (blen (E x) + blen (concat (map E xs)))) by lia.
        reflexivity.
    + replace (blen (E x) <=? e - co) with false in * by lia. rewrite app_nil_r.
      replace (co + (blen (E x) + blen (concat (map E xs))) <=? e) with false by lia. reflexivity.
Qed.

(** Running out of buffer. *)
Lemma pkts_set_short : forall k E W, codec k E W -> short_panics k E W -> forall xs co e b, Forall W xs ->
  0 <= co -> co <= e -> e < 2 ^ 64 -> co <= blen b -> bytes_ok b -> blen b < 2 ^ 63 ->
  blen b < co + blen (written E (e - co) xs) ->
  exists b' x, pkts_set_loop c k xs co e b = (b', Panic x) /\ same_before co b b'.
Proof.
  intros k E W C SP xs. induction xs as [|x xs IH]; intros co e b F CO CE U CB B L H.
  - cbn [written] in H. unfold blen in *. cbn [length] in H. lia.
  - inversion F as [|? ? WX FX]; subst. cbn [pkts_set_loop written] in *.
    destruct (cd_min _ _ _ C x) as [M1 M2]; auto.
    rewrite blen_app in *.
    rewrite slice_from_ok by lia.
    assert (LT : blen (skipn (Z.to_nat co) b) = blen b - co) by (rewrite blen_skipn; unfold blen in *; lia).
    assert (FL : length (firstn (Z.to_nat co) b) = Z.to_nat co) by (rewrite firstn_length; unfold blen in *; lia).
    destruct (blen (skipn (Z.to_nat co) b) <? k_min k) eqn:Q.
    { exists b, EUnwrap. repeat split. }
    destruct (Z.le_gt_cases (co + blen (E x)) (blen b)) as [FI|NF].
    + destruct (codec_step k E W x b co C WX CO B L ltac:(lia)) as (P1 & P2 & P3 & P4).
      unfold mseq. rewrite P1, P4. cbn [bind]. rewrite add_u_in by (change usize with 64; lia).
      assert (BL : blen (splice b (Z.to_nat co) (E x)) = blen b) by (unfold blen; lia).
      assert (F1 : firstn (Z.to_nat co) (splice b (Z.to_nat co) (E x)) = firstn (Z.to_nat co) b)
        by (unfold splice; now apply firstn_app_exact).
      destruct (co + blen (E x) <=? e) eqn:Q2.
      2:{ exists (splice b (Z.to_nat co) (E x)), EAssert. split; [reflexivity|]. split; auto. }
      replace (blen (E x) <=? e - co) with true in * by lia.
      replace (e - co - blen (E x)) with (e - (co + blen (E x))) in * by lia.
      destruct (IH (co + blen (E x)) e (splice b (Z.to_nat co) (E x))) as (b' & y & -> & LB & FB); auto; try lia.
      exists b', y. split; [reflexivity|]. split; [congruence|].
      rewrite <- F1. assert (X := f_equal (firstn (Z.to_nat co)) FB).
      rewrite !firstn_firstn in X. replace (Init.Nat.min (Z.to_nat co) (Z.to_nat (co + blen (E x)))) with (Z.to_nat co) in X by lia.
      exact X.
    + unfold mseq, on_tail.
      destruct (SP x (skipn (Z.to_nat co) b) WX ltac:(auto using bytes_skipn) ltac:(lia) ltac:(lia)) as (t & y & -> & LB).
      exists (firstn (Z.to_nat co) b ++ t), y. split; [reflexivity|]. split.
      * rewrite app_length, LB, skipn_length. unfold blen in *. lia.
      * now apply firstn_app_exact.
Qed.

Lemma written_fits : forall (E : list val -> buf) xs room, blen (concat (map E xs)) <= room ->
  written E room xs = concat (map E xs).
Proof.
  intros E xs. induction xs as [|x xs IH]; intros room H; [reflexivity|]. cbn [map concat written] in *.
  rewrite blen_app in H. assert (N := blen_nonneg (concat (map E xs))).
  replace (blen (E x) <=? room) with true by lia. rewrite IH by lia. reflexivity.
Qed.
End L.

(** ** populate() on a buffer that is too small *)

Section P.
Variable c : cfg.
Variable ie : string -> list val -> buf.
Variable iw : string -> list val -> Prop.
Local Notation h := (c_host_le c).

Definition inner_short (fs : schema) : Prop :=
  forall f k, In f fs -> f_ty f = TVecPkt k -> short_panics k (ie (f_name f)) (iw (f_name f)).

Lemma field_set_short : forall bit f x len ns b g,
  val_fits h ie iw bit f x -> len_enc ie f x len -> inner_short [f] ->
  0 <= bit -> Forall (fun z => 0 <= z) ns -> bytes_ok b -> blen b < 2 ^ 63 ->
  bit + 8 * zsum ns <= 8 * blen b ->
  8 * blen b < bit + 8 * zsum ns + Z.of_nat (length (enc_field h ie f x)) ->
  bit + 8 * zsum ns + Z.of_nat (length (enc_field h ie f x)) < 2 ^ 66 ->
  exists b' e, field_set c (Loc f bit (map Ok ns) len g) x b = (b', Panic e).
Proof.
  intros bit f x len ns b g V LN IS BI NS B L H0 H U.
  assert (0 <= zsum ns) by now apply zsum_nonneg.
  destruct (is_vec (f_ty f)) eqn:IV.
  - assert (VB := vec_bytes_ok c ie iw _ _ _ V IV).
    destruct (enc_field_vec c ie iw _ _ _ V IV) as (EV & AL & NV & _). rewrite EV in *.
    rewrite bits_of_length in *.
    set (v := vec_bytes ie (f_name f) x) in *.
    assert (CO : current_offset c bit (map Ok ns) = Ok (bit / 8 + zsum ns))
      by (apply current_offset_ok; auto; unfold blen in *; lia).
    assert (0 <= blen v) by apply blen_nonneg.
    unfold field_set, val_fits, l_co in *. cbn [l_field l_bit l_lens l_len] in *.
    destruct (f_ty f) as [p|args|p|k] eqn:TY; try discriminate;
      destruct x as [z|l|l|l]; try contradiction; cbn [vec_bytes] in v; unfold lift_set; rewrite CO.
    + destruct V as (S8 & BL & _). fold v.
      assert (CK : match len with
               | Some r => n <- r ;; if blen v <=? n then Ok tt else Panic EAssert
               | None => Ok tt end = Ok tt).
      { destruct len as [r|]; [|reflexivity]. destruct LN as (n & -> & N). cbn [bind].
        cbn [vec_bytes] in N. fold v in N. replace (blen v <=? n) with true by lia. reflexivity. }
      rewrite CK. rewrite S8. change (8 =? 8) with true. cbv iota. unfold copy_at.
      rewrite add_u_in by (change usize with 64; unfold blen in *; lia).
      replace ((0 <=? bit / 8 + zsum ns) && (bit / 8 + zsum ns <=? bit / 8 + zsum ns + blen v)
               && (bit / 8 + zsum ns + blen v <=? blen b)) with false by (unfold blen in *; lia).
      eauto.
    + destruct V as (C & F & _).
      assert (EN : exists n, len_or_all len b = Ok n /\ 0 <= n < 2 ^ 63 /\ (len = None \/ blen v <= n)).
      { destruct len as [r|]; cbn [len_or_all].
        - destruct LN as (n & -> & N). cbn [vec_bytes] in N. fold v in N. exists n. repeat split; auto; lia.
        - exists (blen b). repeat split; auto; unfold blen in *; lia. }
      destruct EN as (n & -> & N1 & N2). cbn [bind].
      rewrite add_u_in by (change usize with 64; unfold blen in *; lia).
      set (co := bit / 8 + zsum ns) in *.
      destruct (Z.le_gt_cases (co + blen (written (ie (f_name f)) (co + n - co) l)) (blen b)) as [FI|NF].
      * rewrite (pkts_set_written c k _ _ C); auto; try (unfold co, blen in *; lia).
        fold v. replace (co + blen v <=? co + n) with false; [eauto|].
        destruct (Z.le_gt_cases (blen v) n) as [Y|Y]; [exfalso|lia].
        rewrite written_fits in FI by (fold v; lia). fold v in FI. unfold co, blen in *. lia.
      * destruct (pkts_set_short c k _ _ C (IS f k (or_introl eq_refl) TY) l co (co + n) b)
          as (b' & y & -> & _); auto; try (unfold co, blen in *; lia). eauto.
  - unfold field_set, val_fits, enc_field, l_co in *. cbn [l_field l_bit l_lens l_len] in *.
    destruct (f_ty f) as [p|args|p|k]; try discriminate; destruct x as [z|l|l|l]; try contradiction.
    + destruct V as [V PL]. rewrite (enc_prim_length c bit p z PL) in *.
      unfold lift_set. rewrite current_offset_ok by (auto; unfold blen in *; destruct PL; lia).
      assert (X := prim_set_out c bit p b (bit / 8 + zsum ns) z PL BI V B L ltac:(destruct PL; lia) ltac:(destruct PL; lia)).
      destruct (prim_set c bit p z (bit / 8 + zsum ns) b) as [b' r]. cbn [snd] in X. subst r. eauto.
    + destruct V as (LL & F & PL). rewrite (enc_args_length c args l bit PL LL) in *.
      assert (X : snd (misc_set c args l bit (map Ok ns) b) = Panic EIndex).
      { apply misc_set_out; auto; try lia. intros ->. cbn [args_bits fold_right] in *. lia. }
      destruct (misc_set c args l bit (map Ok ns) b) as [b' r]. cbn [snd] in X. subst r. eauto.
Qed.

Lemma populate_from_short : forall post ys pre xs b,
  length xs = length pre -> closed pre -> inner_short post ->
  fits h ie iw lok_enc (pre ++ post) (xs ++ ys) 0 [] [] ->
  bytes_ok b -> blen b < 2 ^ 63 ->
  Z.of_nat (length (encode h ie pre xs)) <= 8 * blen b ->
  8 * blen b < Z.of_nat (length (encode h ie (pre ++ post) (xs ++ ys))) < 2 ^ 66 ->
  firstn (length (encode h ie pre xs)) (bits_of b) = encode h ie pre xs ->
  exists b' e, populate_from c (pre ++ post) (length pre) ys b = (b', Panic e).
Proof.
  induction post as [|f post IH]; intros ys pre xs b LX CL IS F B L HP H FI.
  - destruct ys as [|y ys].
    + rewrite !app_nil_r in H. lia.
    + apply fits_app in F; auto. destruct F as [_ F]. contradiction.
  - assert (F' := F). apply fits_app in F'; auto. destruct F' as [F1 F2].
    destruct ys as [|y ys]; [contradiction|].
    rewrite encode_app in H by auto. rewrite app_length in H.
    cbn [encode] in H. rewrite app_length in H.
    assert (EL := encode_closed_length c ie iw _ _ _ _ _ _ CL F1).
    cbn [populate_from]. unfold mseq.
    assert (EB : bits_of b = [] ++ encode h ie pre xs ++ skipn (length (encode h ie pre xs)) (bits_of b)).
    { cbn [app]. rewrite <- FI at 1. symmetry. apply firstn_skipn. }
    assert (F1' : exists T', bits_of b = encode h ie pre xs ++ T' /\ fits h ie iw lok_enc pre xs 0 [] T').
    { exists (skipn (length (encode h ie pre xs)) (bits_of b)). split; [exact EB|].
      eapply fits_tail; eauto. }
    destruct F1' as (T' & E' & F1').
    destruct (layout_dec c ie iw lok_enc pre xs (f :: post) 0 [] [] b [] T') as (LL & L1 & L2 & L3 & L4);
      auto using lok_enc_dec; try lia.
    unfold layout at 1. change (@nil (res Z)) with (@map Z (res Z) Ok []). rewrite L4.
    rewrite nth_error_app2 by lia. replace (length pre - length LL)%nat with 0%nat by lia.
    cbn [layout_from nth_error].
    assert (TB : 0 <= total_bits pre) by (eapply (total_bits_nonneg c ie iw); eauto).
    assert (VN := var_lens_nonneg ie pre xs). assert (ZN := zsum_nonneg _ VN).
    cbn [app] in *.
    assert (F2' := F2). cbn [fits] in F2'. destruct F2' as (V & LN & R).
    rewrite current_offset_ok by (auto; lia). cbn [bind].
    set (len := match f_len f with
                | Some le => Some (le (lookup (env_of pre xs)) (slice_from b ((0 + total_bits pre) / 8 + zsum (var_lens ie pre xs))))
                | None => None end).
    assert (LE : len_enc ie f y len).
    { unfold len. destruct (f_len f) as [le|]; [|exact I].
      destruct LN as [IV [LN _]]. rewrite slice_from_ok by lia. cbn [len_enc].
      destruct (LN (skipn (Z.to_nat ((0 + total_bits pre) / 8 + zsum (var_lens ie pre xs))) b)) as (n & EN & N).
      exists n. auto. }
    assert (IS1 : inner_short [f]) by (intros g k [<-|[]]; apply IS; now left).
    assert (IS2 : inner_short post) by (intros g k IN; apply IS; now right).
    destruct (Z.le_gt_cases (Z.of_nat (length (encode h ie pre xs)) + Z.of_nat (length (enc_field h ie f y))) (8 * blen b)) as [Q|Q].
    2:{ destruct (field_set_short (0 + total_bits pre) f y len (var_lens ie pre xs) b
                (field_get c f (0 + total_bits pre) (map Ok (var_lens ie pre xs)) len b)
                V LE IS1) as (b1 & e1 & E1); auto; try lia. rewrite E1. eauto. }
    destruct (field_set_enc c ie iw (0 + total_bits pre) f y len (var_lens ie pre xs) b
                (field_get c f (0 + total_bits pre) (map Ok (var_lens ie pre xs)) len b)
                V LE) as (b1 & E1 & W1); auto; try lia.
    rewrite E1.
    replace (Z.to_nat (0 + total_bits pre + 8 * zsum (var_lens ie pre xs)))
      with (length (encode h ie pre xs)) in W1 by lia.
    assert (W1' := W1). destruct W1' as (LB1 & B1 & _).
    assert (BL1 : blen b1 = blen b) by (unfold blen; lia).
    assert (EA : encode h ie (pre ++ [f]) (xs ++ [y]) = encode h ie pre xs ++ enc_field h ie f y).
    { rewrite encode_app by auto. cbn [encode]. now rewrite app_nil_r. }
    destruct (is_vec (f_ty f)) eqn:IV; [destruct (f_len f) as [le|] eqn:FL|].
    2:{ destruct (LN eq_refl) as [-> _]. destruct ys; [|contradiction]. cbn [encode length] in H. lia. }
    all: specialize (IH ys (pre ++ [f]) (xs ++ [y]) b1);
      rewrite <- !app_assoc in IH; cbn [app] in IH;
      rewrite EA, !app_length in IH; cbn [List.length] in IH;
      destruct IH as (b2 & e2 & E2); auto; try lia;
      [ apply Forall_app; split; auto; constructor; auto; congruence
      | rewrite encode_app by auto; rewrite app_length; cbn [encode]; rewrite app_length; lia
      | rewrite (bits_written_prefix b (length (encode h ie pre xs)) (enc_field h ie f y) b1
                 ltac:(unfold blen in *; lia) W1), FI; reflexivity
      | rewrite Nat.add_1_r in E2; eauto ].
Qed.

Theorem struct_short : forall fs xs b, scoped [] fs ->
  schema_ok h (fun n k => codec k (ie n) (iw n)) fs 0 -> header_bits fs mod 8 = 0 ->
  inner_short fs -> struct_ok ie iw c fs xs -> buf_ok b -> blen b < blen (wire ie c fs xs) ->
  exists b' e, populate c fs xs b = (b', Panic e).
Proof.
  intros fs xs b S OK M IS SO [B L] H. assert (F := struct_fits c ie iw fs xs S OK M SO). destruct SO as (T & C & LB).
  destruct (wire_bits c ie iw fs xs OK T M) as [W1 W2].
  assert (N := blen_nonneg b).
  apply (populate_from_short fs xs [] [] b); auto.
  - constructor.
  - cbn [encode length]. lia.
  - cbn [app]. lia.
Qed.

Theorem struct_populate : forall fs xs b, scoped [] fs ->
  schema_ok h (fun n k => codec k (ie n) (iw n)) fs 0 -> header_bits fs mod 8 = 0 ->
  struct_ok ie iw c fs xs -> buf_ok b -> blen (wire ie c fs xs) <= blen b ->
  populate c fs xs b = (wire ie c fs xs ++ skipn (length (wire ie c fs xs)) b, Ok tt).
Proof.
  intros fs xs b S OK M SO [B L] H. assert (F := struct_fits c ie iw fs xs S OK M SO). destruct SO as (T & C & LB).
  destruct (wire_bits c ie iw fs xs OK T M) as [W1 W2].
  destruct (populate_encode c ie iw fs xs b F B L) as (b' & E1 & E2); [lia|]. rewrite E1. f_equal.
  rewrite <- (pack_bits (encode h ie fs xs)) in E2 by lia. change 0%nat with (8 * 0)%nat in E2.
  assert (LW : (0 + length (pack (encode h ie fs xs)) <= length b)%nat) by (unfold wire, blen in H; lia).
  exact (splice_unique _ _ _ _ LW B (pack_bytes _) E2).
Qed.

Theorem api_set_pkts_all : forall b fs pre f post pos k len xs, scoped [] fs -> fs = pre ++ f :: post ->
  f_ty f = TVecPkt k -> codec k (ie (f_name f)) (iw (f_name f)) -> short_panics k (ie (f_name f)) (iw (f_name f)) ->
  Forall (iw (f_name f)) xs -> buf_ok b ->
  pos_after (fun n => get c fs n b) b pre 0 0 pos -> own_len (fun n => get c fs n b) b (pos / 8) f len ->
  0 <= len -> pos / 8 + len < 2 ^ 64 -> pos / 8 <= blen b ->
  let a := pos / 8 in let w := written (ie (f_name f)) len xs in
  (a + blen w <= blen b ->
     set c fs (f_name f) (VPkts xs) b =
       (splice b (Z.to_nat a) w, if blen (concat (map (ie (f_name f)) xs)) <=? len then Ok tt else Panic EAssert)) /\
  (blen b < a + blen w ->
     exists b' e, set c fs (f_name f) (VPkts xs) b = (b', Panic e) /\ same_before a b b').
Proof.
  intros b fs pre f post pos k len xs S E TY CD SP FW BO PA OL LN U1 U2 a w. destruct BO as [B L].
  destruct (pos_model c b fs pre (f :: post) pos S E PA ltac:(lia)) as (ns & AL & NS & P & T).
  assert (ZN := zsum_nonneg _ NS).
  assert (X := own_span c b fs pre f post pos len S E PA ltac:(lia) OL).
  assert (ST : set c fs (f_name f) (VPkts xs) b = pkts_set_loop c k xs a (a + len) b).
  { unfold set. rewrite (find_at c b fs (f_name f) pre f) by (eapply field_at_intro; eauto).
    unfold field_set. cbn [l_field l_len]. rewrite TY. unfold lift_set, l_co. cbn [l_bit l_lens].
    rewrite AL, current_offset_ok by (auto; lia).
    replace (total_bits pre / 8 + zsum ns) with a by (unfold a; lia).
    assert (LA : len_or_all (len_of c b pre f) b = Ok len).
    { unfold span_len in X. destruct X as [->|[-> ->]]; reflexivity. }
    rewrite LA. cbn [bind]. rewrite add_u_in by (change usize with 64; unfold a; lia). reflexivity. }
  assert (WE : written (ie (f_name f)) (a + len - a) xs = w) by (unfold w; f_equal; lia).
  rewrite ST. split; intros Q.
  - rewrite (pkts_set_written c k (ie (f_name f)) (iw (f_name f)) CD); auto; try (rewrite ?WE; unfold a in *; lia).
    rewrite WE. f_equal.
    replace (a + blen (concat (map (ie (f_name f)) xs)) <=? a + len)
      with (blen (concat (map (ie (f_name f)) xs)) <=? len) by lia. reflexivity.
  - apply (pkts_set_short c k (ie (f_name f)) (iw (f_name f)) CD SP); auto; try (rewrite ?WE; unfold a in *; lia).
Qed.
End P.

(** GRE: the optional words. *)
From Coq Require Import String ZArith List Bool Lia ZifyBool ZifyNat.
From Verif Require Import Base BitSpec DeriveUtil DeriveOps BaseFacts BitFacts
  DeriveUtilProofs DeriveOpsProofs DeriveLEProofs DeriveGen SpecPacket DeriveGenProofs DeriveInvProofs
  DeriveAccProofs DeriveVarProofs DeriveApiProofs DerivePropProofs DerivePropProofs2 Protocols ProtoFacts
  SpecProto ProtoPayloadProofs ProtoSplitProofs.
Import ListNotations.
Open Scope Z_scope.
Ltac Zify.zify_post_hook ::= Z.to_euclidean_division_equations.

Lemma field_val_clip : forall b a n o w, 0 <= a -> (o + w <= 8 * Z.to_nat n)%nat ->
  field_val (clip b a n) o w = field_val b (8 * Z.to_nat a + o) w.
Proof.
  intros b a n o w A L. unfold field_val, field_bits, clip. f_equal.
  rewrite bits_firstn, bits_skipn, skipn_firstn_comm, firstn_firstn, skipn_skipn'.
  f_equal. lia.
Qed.

Section Gre.
Variable c : cfg.

Lemma word16 : forall s, buf_ok s -> blen s = 2 ->
  iter_all (sem_of c gre_u16) (from_packet c gre_u16) s = Ok [[VInt (field_val s 0 16); VBytes []]].
Proof.
  intros s BO L.
  assert (NW : new gre_u16 s = Some s).
  { unfold new. change (minimum_packet_size gre_u16) with 2. now rewrite L. }
  assert (P1 : pos_after (fun x => get c gre_u16 x s) s (firstn 1 gre_u16) 0 0 16) by reflexivity.
  rewrite (iter_step _ (sem_of c gre_u16) (from_packet c gre_u16) s 2); try lia.
  - rewrite skipn_all2, iter_stop by (unfold blen in L; lia).
    rewrite from_packet_gets by apply gre_u16_scoped. cbn [gre_u16 map f_name int fld pfld].
    hg c s BO gre_u16 0%nat 16 gre_u16_scoped NW G. fold gre_u16. rewrite G.
    destruct (api_get_var c s gre_u16 (firstn 1 gre_u16) (pfld "unused" (len_const 0)) [] 16 0) as (_ & _ & Y);
      auto using gre_u16_scoped; try lia; try reflexivity.
    cbn [f_ty f_name pfld] in Y. specialize (Y eq_refl). change (16 / 8) with 2 in Y.
    replace (2 <=? blen s) with true in Y by lia. rewrite Y, clip_zero. reflexivity.
  - cbn [sem_of k_min]. change (minimum_packet_size gre_u16) with 2. lia.
  - cbn [sem_of k_size]. rewrite (api_packet_size c s gre_u16 16); auto using gre_u16_scoped; try lia.
    cbn [gre_u16 pos_after f_len int fld pfld f_ty]. exists 0. repeat split; try lia. 
Qed.

Lemma word32 : forall s, buf_ok s -> blen s = 4 ->
  iter_all (sem_of c gre_u32) (from_packet c gre_u32) s = Ok [[VInt (field_val s 0 32); VBytes []]].
Proof.
  intros s BO L.
  assert (NW : new gre_u32 s = Some s).
  { unfold new. change (minimum_packet_size gre_u32) with 4. now rewrite L. }
  assert (P1 : pos_after (fun x => get c gre_u32 x s) s (firstn 1 gre_u32) 0 0 32) by reflexivity.
  rewrite (iter_step _ (sem_of c gre_u32) (from_packet c gre_u32) s 4); try lia.
  - rewrite skipn_all2, iter_stop by (unfold blen in L; lia).
    rewrite from_packet_gets by apply gre_u32_scoped. cbn [gre_u32 map f_name int fld pfld].
    hg c s BO gre_u32 0%nat 32 gre_u32_scoped NW G. fold gre_u32. rewrite G.
    destruct (api_get_var c s gre_u32 (firstn 1 gre_u32) (pfld "unused" (len_const 0)) [] 32 0) as (_ & _ & Y);
      auto using gre_u32_scoped; try lia; try reflexivity.
    cbn [f_ty f_name pfld] in Y. specialize (Y eq_refl). change (32 / 8) with 4 in Y.
    replace (4 <=? blen s) with true in Y by lia. rewrite Y, clip_zero. reflexivity.
  - cbn [sem_of k_min]. change (minimum_packet_size gre_u32) with 4. lia.
  - cbn [sem_of k_size]. rewrite (api_packet_size c s gre_u32 32); auto using gre_u32_scoped; try lia.
    cbn [gre_u32 pos_after f_len int fld pfld f_ty]. exists 0. repeat split; try lia. 
Qed.

Lemma buf_ok_clip : forall b a n, buf_ok b -> buf_ok (clip b a n).
Proof. intros b a n [B L]. split; [now apply bytes_clip|]. assert (X := clip_blen c b a n). lia. Qed.

Variable b : buf.
Hypothesis BO : buf_ok b.

Lemma words16 : forall flag a, 0 <= flag < 2 -> 0 <= a -> a + flag * 2 <= blen b ->
  iter_all (sem_of c gre_u16) (from_packet c gre_u16) (clip b a (flag * 2)) = Ok (gre_word flag b a 16).
Proof.
  intros flag a F A L. assert (E : flag = 0 \/ flag = 1) by lia. destruct E as [->| ->].
  - rewrite clip_neg by lia. reflexivity.
  - rewrite word16; [|now apply buf_ok_clip|rewrite clip_len; lia].
    rewrite field_val_clip by (cbn; lia). unfold gre_word. cbn [Z.eqb]. do 5 f_equal. lia.
Qed.
Lemma words32 : forall flag a, 0 <= flag < 2 -> 0 <= a -> a + flag * 4 <= blen b ->
  iter_all (sem_of c gre_u32) (from_packet c gre_u32) (clip b a (flag * 4)) = Ok (gre_word flag b a 32).
Proof.
  intros flag a F A L. assert (E : flag = 0 \/ flag = 1) by lia. destruct E as [->| ->].
  - rewrite clip_neg by lia. reflexivity.
  - rewrite word32; [|now apply buf_ok_clip|rewrite clip_len; lia].
    rewrite field_val_clip by (cbn; lia). unfold gre_word. cbn [Z.eqb]. do 5 f_equal. lia.
Qed.

Lemma gre_split : new (gre c) b = Some b -> field_val b 1 1 = 0 ->
  let C := field_val b 0 1 in let K := field_val b 2 1 in let S := field_val b 3 1 in
  let e := 4 + 4 * C + 4 * K + 4 * S in
  packet_size c (gre c) b = Ok e /\
  payload c (gre c) b = Ok (skipn (Z.to_nat e) b) /\
  (e <= blen b ->
     get c (gre c) "checksum" b = Ok (VPkts (gre_word C b 4 16)) /\
     get c (gre c) "offset" b = Ok (VPkts (gre_word C b 6 16)) /\
     get c (gre c) "key" b = Ok (VPkts (gre_word K b (4 + 4 * C) 32)) /\
     get c (gre c) "sequence" b = Ok (VPkts (gre_word S b (4 + 4 * C + 4 * K) 32)) /\
     get c (gre c) "routing" b = Ok (VBytes []) /\
     get c (gre c) "payload" b = Ok (VBytes (skipn (Z.to_nat e) b))) /\
  (blen b < e -> get c (gre c) "payload" b = Panic EIndex).
Proof.
  intros NW R0 C K S e. assert (BL := proj2 BO).
  hg c b BO (gre c) 0%nat 1 (gre_scoped c) NW G. fold C in G.
  hg c b BO (gre c) 1%nat 1 (gre_scoped c) NW RP. rewrite R0 in RP.
  hg c b BO (gre c) 2%nat 1 (gre_scoped c) NW G2. fold K in G2.
  hg c b BO (gre c) 3%nat 1 (gre_scoped c) NW G3. fold S in G3.
  assert (V := field_val_range b 0 1). assert (V2 := field_val_range b 2 1). assert (V3 := field_val_range b 3 1).
  fold C in V. fold K in V2. fold S in V3. change (2 ^ Z.of_nat 1) with 2 in *.
  assert (M2 : forall r, gre_two c (fun n => get c (gre c) n b) r = Ok (C * 2)).
  { intros r. unfold gre_two, int_of. rewrite G, RP. cbn [bind]. rewrite Z.lor_0_r.
    unfold mul_u, ovf. change (2 ^ 8) with 256. replace ((0 <=? C * 2) && (C * 2 <? 256)) with true by lia. reflexivity. }
  assert (M4 : forall r, gre_four c "key_present" (fun n => get c (gre c) n b) r = Ok (K * 4)).
  { intros r. unfold gre_four, int_of. rewrite G2. cbn [bind].
    unfold mul_u, ovf. change (2 ^ 8) with 256. replace ((0 <=? K * 4) && (K * 4 <? 256)) with true by lia. reflexivity. }
  assert (M5 : forall r, gre_four c "sequence_present" (fun n => get c (gre c) n b) r = Ok (S * 4)).
  { intros r. unfold gre_four, int_of. rewrite G3. cbn [bind].
    unfold mul_u, ovf. change (2 ^ 8) with 256. replace ((0 <=? S * 4) && (S * 4 <? 256)) with true by lia. reflexivity. }
  set (rl := fun (e : env) (_ : res buf) => r <- int_of (e "routing_present"%string) ;; if r =? 0 then Ok 0 else Panic EUnimpl).
  assert (M6 : forall r, rl (fun n => get c (gre c) n b) r = Ok 0).
  { intros r. unfold rl, int_of. rewrite RP. reflexivity. }
  set (Gt := fun n => get c (gre c) n b) in *.
  set (f1 := vfld "checksum" (TVecPkt (sem_of c gre_u16)) (gre_two c)).
  set (f2 := vfld "offset" (TVecPkt (sem_of c gre_u16)) (gre_two c)).
  set (f3 := vfld "key" (TVecPkt (sem_of c gre_u32)) (gre_four c "key_present")).
  set (f4 := vfld "sequence" (TVecPkt (sem_of c gre_u32)) (gre_four c "sequence_present")).
  set (f5 := vfld "routing" bytes_ty rl).
  assert (SH : gre c = firstn 9 (gre c) ++ [f1; f2; f3; f4; f5; pall "payload"]) by reflexivity.
  assert (SH2 : gre c = (firstn 9 (gre c) ++ [f1]) ++ [f2; f3; f4; f5; pall "payload"]) by reflexivity.
  assert (SH3 : gre c = ((firstn 9 (gre c) ++ [f1]) ++ [f2]) ++ [f3; f4; f5; pall "payload"]) by reflexivity.
  assert (SH4 : gre c = (((firstn 9 (gre c) ++ [f1]) ++ [f2]) ++ [f3]) ++ [f4; f5; pall "payload"]) by reflexivity.
  assert (SH5 : gre c = ((((firstn 9 (gre c) ++ [f1]) ++ [f2]) ++ [f3]) ++ [f4]) ++ [f5; pall "payload"]) by reflexivity.
  assert (SH6 : gre c = (((((firstn 9 (gre c) ++ [f1]) ++ [f2]) ++ [f3]) ++ [f4]) ++ [f5]) ++ [pall "payload"]) by reflexivity.
  assert (P1 : pos_after Gt b (firstn 9 (gre c)) 0 0 32) by reflexivity.
  assert (ST : forall pre f len pos le, pos_after Gt b pre 0 0 pos -> f_len f = Some le ->
     bit_width (f_ty f) = 0 -> (forall r, le Gt r = Ok len) -> 0 <= len -> 
     pos_after Gt b (pre ++ [f]) 0 0 (pos + 8 * len)).
  { intros pre f len pos le P FL W O L. assert (X := pos_step Gt b pre f le pos len P FL (O _) L).
    rewrite W in X. now replace (pos + 0 + 8 * len) with (pos + 8 * len) in X by lia. }
  assert (P2 := ST _ f1 (C * 2) _ _ P1 eq_refl eq_refl M2 ltac:(lia)).
  assert (P3 := ST _ f2 (C * 2) _ _ P2 eq_refl eq_refl M2 ltac:(lia)).
  assert (P4 := ST _ f3 (K * 4) _ _ P3 eq_refl eq_refl M4 ltac:(lia)).
  assert (P5 := ST _ f4 (S * 4) _ _ P4 eq_refl eq_refl M5 ltac:(lia)).
  assert (P6 := ST _ f5 0 _ _ P5 eq_refl eq_refl M6 ltac:(lia)).
  assert (E1 : forall pre f post pos len le k, gre c = pre ++ f :: post -> pos_after Gt b pre 0 0 pos ->
     f_len f = Some le -> (forall r, le Gt r = Ok len) -> 0 <= len < 2 ^ 32 -> pos < 2 ^ 32 -> pos / 8 + len <= blen b ->
     f_ty f = TVecPkt k -> get c (gre c) (f_name f) b = rmap VPkts (iter_all k (k_from k) (clip b (pos / 8) len))).
  { intros pre f post pos len le k E P FL O L U BB T.
    destruct (api_get_var c b (gre c) pre f post pos len) as (_ & _ & X); auto using gre_scoped; try lia.
    { unfold own_len. rewrite FL. apply O. }
    rewrite T in X. rewrite X. now replace (pos / 8 <=? blen b) with true by lia. }
  assert (E2 : forall pre f post pos len le, gre c = pre ++ f :: post -> pos_after Gt b pre 0 0 pos ->
     f_len f = Some le -> (forall r, le Gt r = Ok len) -> 0 <= len < 2 ^ 32 -> pos < 2 ^ 32 ->
     f_ty f = bytes_ty -> get c (gre c) (f_name f) b = (if pos / 8 <=? blen b then Ok (VBytes (clip b (pos / 8) len)) else Panic EIndex)).
  { intros pre f post pos len le E P FL O L U T.
    destruct (api_get_var c b (gre c) pre f post pos len) as (_ & _ & X); auto using gre_scoped; try lia.
    { unfold own_len. rewrite FL. apply O. }
    rewrite T in X. exact (X eq_refl). }
  assert (GP : get c (gre c) "payload" b = (if e <=? blen b then Ok (VBytes (skipn (Z.to_nat e) b)) else Panic EIndex)).
  { destruct (api_get_var c b (gre c) _ (pall "payload") [] _ (blen b) (gre_scoped c) SH6 BO P6 eq_refl) as (_ & _ & X); try (unfold blen in *; lia).
    cbn [f_ty f_name pall] in X. specialize (X eq_refl).
    replace ((32 + 8 * (C * 2) + 8 * (C * 2) + 8 * (K * 4) + 8 * (S * 4) + 8 * 0) / 8) with e in X by (unfold e; lia).
    rewrite clip_rest in X by (unfold e; lia). exact X. }
  split; [|split; [|split]].
  - rewrite (api_packet_size c b (gre c) (8 * e)); auto using gre_scoped; try (unfold e; lia).
    + f_equal. lia.
    + rewrite SH6. assert (X := pos_step_fixed Gt b _ (pall "payload") _ P6 eq_refl).
      cbn [f_ty pall bit_width] in X.
      replace (8 * e) with (32 + 8 * (C * 2) + 8 * (C * 2) + 8 * (K * 4) + 8 * (S * 4) + 8 * 0 + 0) by (unfold e; lia). exact X.
  - assert (NP : Forall (fun g => f_payload g = false) (((((firstn 9 (gre c) ++ [f1]) ++ [f2]) ++ [f3]) ++ [f4]) ++ [f5])) by repeat constructor.
    rewrite (api_payload c b (gre c) _ (pall "payload") [] _ (blen b) (gre_scoped c) SH6 eq_refl NP BO P6 eq_refl); try (unfold blen in *; lia).
    replace ((32 + 8 * (C * 2) + 8 * (C * 2) + 8 * (K * 4) + 8 * (S * 4) + 8 * 0) / 8) with e by (unfold e; lia).
    rewrite clip_rest by (unfold e; lia). reflexivity.
  - intros EB. 
    split; [|split; [|split; [|split; [|split]]]].
    + change "checksum"%string with (f_name f1). rewrite (E1 _ f1 [f2; f3; f4; f5; pall "payload"] _ (C * 2) (gre_two c) (sem_of c gre_u16) SH P1); auto; try lia.
      cbn [k_from sem_of]. change (32 / 8) with 4. rewrite words16 by lia. reflexivity.
    + change "offset"%string with (f_name f2). rewrite (E1 _ f2 [f3; f4; f5; pall "payload"] _ (C * 2) (gre_two c) (sem_of c gre_u16) SH2 P2); auto; try lia.
      cbn [k_from sem_of]. rewrite words16 by lia. cbn [rmap]. do 2 f_equal.
      assert (CB : C = 0 \/ C = 1) by lia. clearbody C. destruct CB as [-> | ->]; reflexivity.
    + change "key"%string with (f_name f3). rewrite (E1 _ f3 [f4; f5; pall "payload"] _ (K * 4) (gre_four c "key_present") (sem_of c gre_u32) SH3 P3); auto; try lia.
      cbn [k_from sem_of]. rewrite words32 by lia. cbn [rmap]. do 3 f_equal. lia.
    + change "sequence"%string with (f_name f4). rewrite (E1 _ f4 [f5; pall "payload"] _ (S * 4) (gre_four c "sequence_present") (sem_of c gre_u32) SH4 P4); auto; try lia.
      cbn [k_from sem_of]. rewrite words32 by lia. cbn [rmap]. do 3 f_equal. lia.
    + change "routing"%string with (f_name f5). rewrite (E2 _ f5 [pall "payload"] _ 0 rl SH5 P5); auto; try lia. rewrite clip_zero.
      match goal with |- context [?a <=? blen b] => replace (a <=? blen b) with true by (unfold e in *; lia) end. reflexivity.
    + rewrite GP. now replace (e <=? blen b) with true by lia.
  - intros EB. rewrite GP. now replace (e <=? blen b) with false by lia.
Qed.

Lemma gre_routing : new (gre c) b = Some b -> field_val b 1 1 = 1 ->
  packet_size c (gre c) b = Panic EUnimpl /\ payload c (gre c) b = Panic EUnimpl /\
  get c (gre c) "routing" b = Panic EUnimpl /\ get c (gre c) "payload" b = Panic EUnimpl /\
  exists e, from_packet c (gre c) b = Panic e.
Proof.
  intros NW R1. assert (BL := proj2 BO).
  set (C := field_val b 0 1). set (K := field_val b 2 1). set (S := field_val b 3 1).
  hg c b BO (gre c) 0%nat 1 (gre_scoped c) NW G. fold C in G.
  hg c b BO (gre c) 1%nat 1 (gre_scoped c) NW RP. rewrite R1 in RP.
  hg c b BO (gre c) 2%nat 1 (gre_scoped c) NW G2. fold K in G2.
  hg c b BO (gre c) 3%nat 1 (gre_scoped c) NW G3. fold S in G3.
  assert (V := field_val_range b 0 1). assert (V2 := field_val_range b 2 1). assert (V3 := field_val_range b 3 1).
  fold C in V. fold K in V2. fold S in V3. change (2 ^ Z.of_nat 1) with 2 in *.
  assert (M2 : forall r, gre_two c (fun n => get c (gre c) n b) r = Ok 2).
  { intros r. unfold gre_two, int_of. rewrite G, RP. cbn [bind].
    replace (Z.lor C 1) with 1 by (assert (CB : C = 0 \/ C = 1) by lia; clearbody C; destruct CB; subst; reflexivity).
    reflexivity. }
  assert (M4 : forall r, gre_four c "key_present" (fun n => get c (gre c) n b) r = Ok (K * 4)).
  { intros r. unfold gre_four, int_of. rewrite G2. cbn [bind].
    unfold mul_u, ovf. change (2 ^ 8) with 256. replace ((0 <=? K * 4) && (K * 4 <? 256)) with true by lia. reflexivity. }
  assert (M5 : forall r, gre_four c "sequence_present" (fun n => get c (gre c) n b) r = Ok (S * 4)).
  { intros r. unfold gre_four, int_of. rewrite G3. cbn [bind].
    unfold mul_u, ovf. change (2 ^ 8) with 256. replace ((0 <=? S * 4) && (S * 4 <? 256)) with true by lia. reflexivity. }
  set (rl := fun (e : env) (_ : res buf) => r <- int_of (e "routing_present"%string) ;; if r =? 0 then Ok 0 else Panic EUnimpl).
  assert (M6 : forall r, rl (fun n => get c (gre c) n b) r = Panic EUnimpl).
  { intros r. unfold rl, int_of. rewrite RP. reflexivity. }
  assert (PF : forall post, pos_fails (fun n => get c (gre c) n b) b (firstn 14 (gre c) ++ post) 0 0 EUnimpl).
  { intros post. cbn [firstn app gre pos_fails f_len int fld vfld pall f_ty].
    right. exists 2. split; [lia|]. split; [lia|]. split; [apply M2|].
    right. exists 2. split; [lia|]. split; [lia|]. split; [apply M2|].
    right. exists (K * 4). split; [lia|]. split; [lia|]. split; [apply M4|].
    right. exists (S * 4). split; [lia|]. split; [lia|]. split; [apply M5|].
    left. exact (M6 (Ok [])). }
  assert (P5 : pos_after (fun n => get c (gre c) n b) b (firstn 13 (gre c)) 0 0 (32 + 8 * (4 + K * 4 + S * 4))).
  { cbn [firstn gre pos_after f_len int fld vfld pall f_ty].
    exists 2. split; [lia|]. split; [apply M2|].
    exists 2. split; [lia|]. split; [apply M2|].
    exists (K * 4). split; [lia|]. split; [apply M4|].
    exists (S * 4). split; [lia|]. split; [apply M5|]. cbn [bit_width p_size u]. lia. }
  assert (GR : get c (gre c) "routing" b = Panic EUnimpl).
  { apply (api_get_var_panics c b (gre c) (firstn 13 (gre c)) (vfld "routing" bytes_ty rl) [pall "payload"]
      (32 + 8 * (4 + K * 4 + S * 4)) rl EUnimpl); auto using gre_scoped; lia. }
  assert (GP : get c (gre c) "payload" b = Panic EUnimpl).
  { destruct (fails_get c b (gre c) (firstn 14 (gre c)) (pall "payload") [] EUnimpl) as (X & _); auto using gre_scoped; try reflexivity.
    specialize (PF []). now rewrite app_nil_r in PF. }
  split; [|split; [|split; [exact GR|split; [exact GP|]]]].
  - apply size_fails; [apply gre_scoped|reflexivity|]. exact (PF [pall "payload"]).
  - apply (payload_fails c b (gre c) (firstn 14 (gre c)) (pall "payload") []); auto using gre_scoped; try reflexivity.
    + repeat constructor.
    + specialize (PF []). now rewrite app_nil_r in PF.
  - rewrite from_packet_gets by apply gre_scoped.
    assert (IP : In (Panic EUnimpl) (map (fun f => get c (gre c) (f_name f) b) (gre c))).
    { apply in_map_iff. exists (pall "payload"). split; [exact GP|]. cbn. tauto. }
    clear - IP. induction (map _ (gre c)) as [|x l IH]; [easy|]. cbn [seq_res].
    destruct x as [v|e]; [|cbn [bind]; eauto]. destruct IP as [IP|IP]; [discriminate|].
    destruct (IH IP) as (e & ->). cbn [bind]. eauto.
Qed.
End Gre.

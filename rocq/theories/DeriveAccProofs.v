(** Proofs about single accessors of an arbitrary packet description. *)
From Coq Require Import String ZArith List Bool Lia ZifyBool ZifyNat.
From Verif Require Import Base BitSpec DeriveUtil DeriveOps BaseFacts BitFacts
  DeriveUtilProofs DeriveOpsProofs DeriveLEProofs DeriveGen SpecPacket DeriveGenProofs DeriveInvProofs.
Import ListNotations.
Open Scope Z_scope.
Ltac Zify.zify_post_hook ::= Z.to_euclidean_division_equations.

(** ** Errors of single integers *)

Lemma place_lossless : forall c bit p, place_ok (c_host_le c) bit p -> 0 <= bit ->
  lossless c bit p /\ 8 * span bit p < bit mod 8 + p_size p + 8 /\
  bit mod 8 + p_size p <= 8 * span bit p /\ 1 <= span bit p <= 9.
Proof.
  intros c bit p PL BI. unfold lossless.
  assert (PD : placed (bit mod 8) (p_size p)).
  { unfold placed. destruct PL as [S PL]. destruct (big_endian _ _); lia. }
  assert (NF := num_bytes_facts _ _ PD). unfold slack in NF. unfold span.
  split; [|lia]. destruct (is_big c p) eqn:BG; [auto|].
  destruct (place_le _ _ _ PL BG) as (A & n & N & PN). rewrite PN, A. cbn [p_size].
  now apply le_aligned_symmetric.
Qed.

Lemma prim_get_out : forall c bit p b co, place_ok (c_host_le c) bit p -> 0 <= bit ->
  bytes_ok b -> blen b < 2 ^ 63 -> 0 <= co < 2 ^ 64 - 9 ->
  8 * blen b < 8 * co + bit mod 8 + p_size p ->
  prim_get c bit p b co = Panic EIndex.
Proof.
  intros c bit p b co PL BI B L CO H. destruct (place_lossless c bit p PL BI) as (LL & S1 & S2 & S3).
  destruct (plan_lossless c bit p LL) as (ops & P & WF & LN & NE & _).
  unfold prim_get. rewrite P. eapply gen_get_ops_err; eauto; lia.
Qed.

Lemma prim_set_out : forall c bit p b co v, place_ok (c_host_le c) bit p -> 0 <= bit -> 0 <= v ->
  bytes_ok b -> blen b < 2 ^ 63 -> 0 <= co < 2 ^ 64 - 9 ->
  8 * blen b < 8 * co + bit mod 8 + p_size p ->
  snd (prim_set c bit p v co b) = Panic EIndex.
Proof.
  intros c bit p b co v PL BI V B L CO H. destruct (place_lossless c bit p PL BI) as (LL & S1 & S2 & S3).
  destruct (plan_lossless c bit p LL) as (ops & P & WF & LN & NE & _).
  unfold prim_set. rewrite P. apply (gen_set_ops_err (c_mode c) _ ops _ v co 0 b WF); auto; lia.
Qed.

Lemma prim_get_dec : forall c bit p b co, place_ok (c_host_le c) bit p -> 0 <= bit -> 0 <= co ->
  bytes_ok b -> blen b < 2 ^ 63 -> 8 * co + bit mod 8 + p_size p <= 8 * blen b ->
  prim_get c bit p b co
  = Ok (dec_prim (c_host_le c) p (field_bits b (Z.to_nat (8 * co + bit mod 8)) (Z.to_nat (p_size p)))).
Proof.
  intros c bit p b co PL BI CO B L H. unfold dec_prim.
  destruct (is_big c p) eqn:BG.
  - destruct (place_lossless c bit p PL BI) as (LL & S1 & S2 & S3).
    assert (PD := place_placed _ _ _ PL BI BG).
    rewrite prim_get_be by (auto; lia).
    change (is_big c p) with (big_endian (c_host_le c) (p_end p)) in BG. rewrite BG. reflexivity.
  - destruct (place_le _ _ _ PL BG) as (A & n & N & PN).
    rewrite PN in *. cbn [p_size p_end] in *.
    rewrite prim_get_le by (auto; lia).
    change (is_big c (Prim (8 * n) (p_end p))) with (big_endian (c_host_le c) (p_end p)) in BG.
    rewrite BG. do 2 f_equal. symmetry. apply pack_unique.
    + now apply bytes_firstn, bytes_skipn.
    + unfold field_bits. rewrite bits_firstn, bits_skipn. f_equal; [lia|]. f_equal. lia.
Qed.

Lemma misc_get_dec : forall c ps bit ns b, places_ok (c_host_le c) bit ps -> 0 <= bit ->
  Forall (fun z => 0 <= z) ns -> bytes_ok b -> blen b < 2 ^ 63 ->
  bit + 8 * zsum ns + args_bits ps <= 8 * blen b ->
  misc_get c ps bit (map Ok ns) b
  = Ok (dec_args (c_host_le c) ps
         (field_bits b (Z.to_nat (bit + 8 * zsum ns)) (Z.to_nat (args_bits ps)))).
Proof.
  intros c ps. induction ps as [|p ps IH]; intros bit ns b PL BI NS B L H; [reflexivity|].
  destruct PL as [PL PS]. cbn [args_bits fold_right] in *. fold (args_bits ps) in *.
  assert (0 <= zsum ns) by now apply zsum_nonneg.
  assert (AB := args_bits_nonneg _ _ _ PS). assert (SZ : 1 <= p_size p) by (destruct PL; lia).
  cbn [misc_get dec_args]. rewrite current_offset_ok by (auto; lia). cbn [bind].
  rewrite prim_get_dec by (auto; lia). cbn [bind]. rewrite IH by (auto; lia). cbn [bind].
  do 2 f_equal.
  - f_equal. unfold field_bits. rewrite firstn_firstn.
    replace (Z.to_nat (8 * (bit / 8 + zsum ns) + bit mod 8)) with (Z.to_nat (bit + 8 * zsum ns)) by lia.
    f_equal. lia.
  - f_equal. unfold field_bits.
    replace (Z.to_nat (bit + p_size p + 8 * zsum ns))
      with (Z.to_nat (bit + 8 * zsum ns) + Z.to_nat (p_size p))%nat by lia.
    rewrite <- skipn_skipn', skipn_firstn_comm. f_equal. lia.
Qed.

Lemma misc_get_out : forall c ps bit ns b, places_ok (c_host_le c) bit ps -> 0 <= bit ->
  Forall (fun z => 0 <= z) ns -> bytes_ok b -> blen b < 2 ^ 63 -> ps <> [] ->
  bit + 8 * zsum ns + args_bits ps <= 8 * (2 ^ 64 - 10) ->
  8 * blen b < bit + 8 * zsum ns + args_bits ps ->
  misc_get c ps bit (map Ok ns) b = Panic EIndex.
Proof.
  intros c ps. induction ps as [|p ps IH]; intros bit ns b PL BI NS B L NE U H; [congruence|].
  destruct PL as [PL PS]. cbn [args_bits fold_right] in *. fold (args_bits ps) in *.
  assert (0 <= zsum ns) by now apply zsum_nonneg.
  assert (AB := args_bits_nonneg _ _ _ PS). assert (SZ : 1 <= p_size p) by (destruct PL; lia).
  cbn [misc_get]. rewrite current_offset_ok by (auto; lia). cbn [bind].
  destruct (Z.le_gt_cases (bit + 8 * zsum ns + p_size p) (8 * blen b)) as [Q|Q].
  - rewrite prim_get_dec by (auto; lia). cbn [bind]. rewrite IH; auto; try lia.
    intros ->. cbn [args_bits fold_right] in H. lia.
  - rewrite prim_get_out by (auto; lia). reflexivity.
Qed.

Lemma misc_set_out : forall c ps vs bit ns b, places_ok (c_host_le c) bit ps -> 0 <= bit ->
  length vs = length ps -> Forall (fun z => 0 <= z) vs ->
  Forall (fun z => 0 <= z) ns -> bytes_ok b -> blen b < 2 ^ 63 -> ps <> [] ->
  bit + 8 * zsum ns + args_bits ps <= 8 * (2 ^ 64 - 10) ->
  8 * blen b < bit + 8 * zsum ns + args_bits ps ->
  snd (misc_set c ps vs bit (map Ok ns) b) = Panic EIndex.
Proof.
  intros c ps. induction ps as [|p ps IH]; intros vs bit ns b PL BI LV NV NS B L NE U H; [congruence|].
  destruct vs as [|v vs]; [discriminate|]. cbn [length] in LV. inversion NV; subst.
  destruct PL as [PL PS]. cbn [args_bits fold_right] in *. fold (args_bits ps) in *.
  assert (0 <= zsum ns) by now apply zsum_nonneg.
  assert (AB := args_bits_nonneg _ _ _ PS). assert (SZ : 1 <= p_size p) by (destruct PL; lia).
  cbn [misc_set]. unfold mseq, lift_set. rewrite current_offset_ok by (auto; lia).
  destruct (Z.le_gt_cases (bit + 8 * zsum ns + p_size p) (8 * blen b)) as [Q|Q].
  - destruct (prim_set_enc c bit p b (bit / 8 + zsum ns) v PL) as (b1 & E1 & (L1 & B1 & _)); auto; try lia.
    rewrite E1. assert (blen b1 = blen b) by (unfold blen; lia).
    apply IH; auto; try lia.
    intros ->. cbn [args_bits fold_right] in H. lia.
  - assert (X := prim_set_out c bit p b (bit / 8 + zsum ns) v PL BI ltac:(auto) B L ltac:(lia) ltac:(lia)).
    destruct (prim_set c bit p v (bit / 8 + zsum ns) b) as [b1 r]. cbn [snd] in X. subst r. reflexivity.
Qed.

Lemma total_bits_app : forall a b, total_bits (a ++ b) = total_bits a + total_bits b.
Proof.
  induction a as [|f a IH]; intros; [reflexivity|]. cbn [app total_bits fold_right].
  fold (total_bits (a ++ b)). fold (total_bits a). rewrite IH. lia.
Qed.

Lemma total_bits_pos : forall fs, Forall (fun g => 0 <= fixed_bits (f_ty g)) fs -> 0 <= total_bits fs.
Proof.
  induction 1; cbn [total_bits fold_right]; [lia|]. fold (total_bits l). lia.
Qed.

Section Acc.
Variable c : cfg.
Let h := c_host_le c.

(** ** Positions *)

Definition names_of (ls : list loc) : list (string * res val) :=
  map (fun l => (f_name (l_field l), l_get l)) ls.

Lemma layout_app : forall b pre post bit lens e,
  layout_from c b (pre ++ post) bit lens e
  = layout_from c b pre bit lens e ++
    layout_from c b post (bit + total_bits pre) (lens ++ all_lens (layout_from c b pre bit lens e))
      (e ++ names_of (layout_from c b pre bit lens e)).
Proof.
  intros b pre post. induction pre as [|f pre IH]; intros bit lens e.
  - cbn [app layout_from total_bits fold_right all_lens flat_map names_of map].
    now rewrite !app_nil_r, Z.add_0_r.
  - cbn [app layout_from]. rewrite IH. cbn [app total_bits fold_right]. fold (total_bits pre).
    do 2 f_equal. f_equal.
    + lia.
    + cbn [all_lens flat_map l_len].
      destruct (f_len f); cbn [app]; rewrite <- ?app_assoc; reflexivity.
    + cbn [names_of map l_field l_get]. rewrite <- app_assoc. reflexivity.
Qed.

Lemma layout_fields : forall b fs bit lens e, map l_field (layout_from c b fs bit lens e) = fs.
Proof. induction fs; intros; cbn [layout_from map l_field]; f_equal; auto. Qed.

Definition len_of (b : buf) (pre : schema) (f : field) : option (res Z) :=
  match f_len f with
  | Some le => Some (le (lookup (names_of (layout c b pre)))
                        (co <- current_offset c (total_bits pre) (all_lens (layout c b pre)) ;;
                         slice_from b co))
  | None => None
  end.

Lemma find_at : forall b fs n pre f, field_at fs n pre f ->
  find_field c b fs n =
  Some (Loc f (total_bits pre) (all_lens (layout c b pre)) (len_of b pre f)
          (field_get c f (total_bits pre) (all_lens (layout c b pre)) (len_of b pre f) b)).
Proof.
  intros b fs n pre f ((post & ->) & N & NI). unfold find_field, layout at 1.
  rewrite layout_app. fold (layout c b pre).
  assert (FA : forall l1 l2, (forall x, In x l1 -> f_name (l_field x) <> n) ->
    find (fun l => String.eqb (f_name (l_field l)) n) (l1 ++ l2)
    = find (fun l => String.eqb (f_name (l_field l)) n) l2).
  { induction l1 as [|x l1 IH]; intros l2 H; [reflexivity|]. cbn [app find].
    destruct (String.eqb_spec (f_name (l_field x)) n) as [E|E].
    - exfalso. apply (H x); cbn; auto.
    - apply IH. intros y Y. apply H. cbn. auto. }
  rewrite FA.
  - cbn [app layout_from find l_field]. rewrite N, String.eqb_refl. reflexivity.
  - intros x X E. apply NI. rewrite <- E. apply in_map.
    rewrite <- (layout_fields b pre 0 [] []). now apply in_map.
Qed.

Lemma get_at : forall b fs n pre f, field_at fs n pre f ->
  get c fs n b = field_get c f (total_bits pre) (all_lens (layout c b pre)) (len_of b pre f) b.
Proof. intros. unfold get. now rewrite (find_at b fs n pre f). Qed.

(** ** Fixed fields *)

Theorem get_fixed : forall b fs n pre f ns, field_at fs n pre f ->
  fixed_ok h (total_bits pre) (f_ty f) -> 0 <= total_bits pre -> fixed_bits (f_ty f) <> 0 ->
  bytes_ok b -> blen b < 2 ^ 63 ->
  all_lens (layout c b pre) = map Ok ns -> Forall (fun z => 0 <= z) ns ->
  total_bits pre + 8 * zsum ns + fixed_bits (f_ty f) <= 8 * (2 ^ 64 - 10) ->
  get c fs n b =
  (if total_bits pre + 8 * zsum ns + fixed_bits (f_ty f) <=? 8 * blen b
   then Ok (dec_fixed h (f_ty f)
             (field_bits b (Z.to_nat (total_bits pre + 8 * zsum ns)) (Z.to_nat (fixed_bits (f_ty f)))))
   else Panic EIndex).
Proof.
  intros b fs n pre f ns AT OK BI NZ B L AL NS U. rewrite (get_at b fs n pre f AT), AL.
  assert (0 <= zsum ns) by now apply zsum_nonneg.
  unfold field_get, fixed_ok, dec_fixed in *.
  destruct (f_ty f) as [p|args|p|k]; try contradiction; cbn [fixed_bits] in *.
  - assert (SZ : 1 <= p_size p) by (destruct OK; lia).
    rewrite current_offset_ok by (auto; lia). cbn [bind].
    destruct (_ <=? _) eqn:Q.
    + rewrite prim_get_dec by (auto; lia). cbn [rmap].
      replace (8 * (total_bits pre / 8 + zsum ns) + total_bits pre mod 8)
        with (total_bits pre + 8 * zsum ns) by lia. reflexivity.
    + rewrite prim_get_out by (auto; lia). reflexivity.
  - assert (AB := args_bits_nonneg _ _ _ OK).
    destruct (_ <=? _) eqn:Q.
    + rewrite misc_get_dec by (auto; lia). reflexivity.
    + rewrite misc_get_out; auto; try lia. intros ->. cbn in NZ. lia.
Qed.

Theorem set_fixed : forall b fs n pre f ns x, field_at fs n pre f ->
  fixed_ok h (total_bits pre) (f_ty f) -> 0 <= total_bits pre -> fixed_val (f_ty f) x ->
  bytes_ok b -> blen b < 2 ^ 63 ->
  all_lens (layout c b pre) = map Ok ns -> Forall (fun z => 0 <= z) ns ->
  total_bits pre + 8 * zsum ns + fixed_bits (f_ty f) <= 8 * blen b ->
  exists b', set c fs n x b = (b', Ok tt) /\
    bits_written b (Z.to_nat (total_bits pre + 8 * zsum ns)) (enc_fixed h (f_ty f) x) b'.
Proof.
  intros b fs n pre f ns x AT OK BI V B L AL NS H. unfold set. rewrite (find_at b fs n pre f AT), AL.
  assert (0 <= zsum ns) by now apply zsum_nonneg.
  unfold field_set, fixed_ok, fixed_val, enc_fixed, l_co in *. cbn [l_field l_bit l_lens l_len].
  destruct (f_ty f) as [p|args|p|k]; try contradiction; cbn [fixed_bits] in *;
    destruct x as [z|l|l|l]; try contradiction.
  - assert (SZ : 1 <= p_size p) by (destruct OK; lia).
    unfold lift_set. rewrite current_offset_ok by (auto; lia).
    destruct (prim_set_enc c (total_bits pre) p b (total_bits pre / 8 + zsum ns) z OK) as (b' & E & W);
      auto; try lia.
    exists b'. split; auto.
    replace (Z.to_nat (total_bits pre + 8 * zsum ns))
      with (Z.to_nat (8 * (total_bits pre / 8 + zsum ns) + total_bits pre mod 8)) by lia.
    exact W.
  - destruct V. apply misc_set_enc; auto.
Qed.

Theorem set_fixed_out : forall b fs n pre f ns x, field_at fs n pre f ->
  fixed_ok h (total_bits pre) (f_ty f) -> 0 <= total_bits pre -> fixed_val (f_ty f) x ->
  fixed_bits (f_ty f) <> 0 -> bytes_ok b -> blen b < 2 ^ 63 ->
  all_lens (layout c b pre) = map Ok ns -> Forall (fun z => 0 <= z) ns ->
  total_bits pre + 8 * zsum ns + fixed_bits (f_ty f) <= 8 * (2 ^ 64 - 10) ->
  8 * blen b < total_bits pre + 8 * zsum ns + fixed_bits (f_ty f) ->
  snd (set c fs n x b) = Panic EIndex.
Proof.
  intros b fs n pre f ns x AT OK BI V NZ B L AL NS U H. unfold set. rewrite (find_at b fs n pre f AT), AL.
  assert (0 <= zsum ns) by now apply zsum_nonneg.
  unfold field_set, fixed_ok, fixed_val, enc_fixed, l_co in *. cbn [l_field l_bit l_lens l_len].
  destruct (f_ty f) as [p|args|p|k]; try contradiction; cbn [fixed_bits] in *;
    destruct x as [z|l|l|l]; try contradiction.
  - assert (SZ : 1 <= p_size p) by (destruct OK; lia).
    unfold lift_set. rewrite current_offset_ok by (auto; lia).
    apply prim_set_out; auto; lia.
  - destruct V. apply misc_set_out; auto. intros ->. cbn in NZ. lia.
Qed.

(** ** The fixed header: fields before the first declared length *)

Definition header_at (fs : schema) (n : string) (pre : schema) (f : field) : Prop :=
  field_at fs n pre f /\ Forall (fun g => f_len g = None) pre /\
  fixed_ok h (total_bits pre) (f_ty f) /\
  Forall (fun g => 0 <= fixed_bits (f_ty g)) fs.

Lemma header_lens : forall b pre bit lens e, Forall (fun g => f_len g = None) pre ->
  all_lens (layout_from c b pre bit lens e) = [].
Proof.
  intros b pre. induction pre as [|f pre IH]; intros bit lens e H; [reflexivity|].
  inversion H as [|? ? H1 H2]; subst. cbn [layout_from]. rewrite H1.
  cbn [all_lens flat_map l_len app]. apply IH. auto.
Qed.

Lemma header_bounds : forall fs n pre f b, header_at fs n pre f -> new fs b = Some b ->
  0 <= total_bits pre /\ total_bits pre + fixed_bits (f_ty f) <= 8 * blen b /\
  total_bits pre + fixed_bits (f_ty f) <= total_bits fs.
Proof.
  intros fs n pre f b (((post & ->) & _) & _ & _ & NN) NW.
  apply Forall_app in NN. destruct NN as [N1 N2]. inversion N2; subst.
  assert (P1 := total_bits_pos _ N1). assert (P2 := total_bits_pos post ltac:(auto)).
  unfold new, minimum_packet_size in NW. rewrite total_bits_app in *.
  cbn [total_bits fold_right] in *. fold (total_bits post) in *.
  destruct (_ <=? blen b) eqn:Q; [|discriminate].
  destruct (_ mod 8 =? 0) eqn:R; lia.
Qed.

(** Width of a fixed field is positive unless it is a type constructed from nothing. *)
Lemma get_header : forall fs n pre f b, header_at fs n pre f -> buf_ok b -> new fs b = Some b ->
  get c fs n b = Ok (dec_fixed h (f_ty f)
     (field_bits b (Z.to_nat (total_bits pre)) (Z.to_nat (fixed_bits (f_ty f))))).
Proof.
  intros fs n pre f b HA [B L] NW.
  destruct (header_bounds _ _ _ _ _ HA NW) as (P1 & P2 & P3).
  destruct HA as (AT & HL & OK & NN).
  assert (AL := header_lens b pre 0 [] [] HL). fold (layout c b pre) in AL.
  destruct (Z.eq_dec (fixed_bits (f_ty f)) 0) as [Z0|NZ].
  - rewrite (get_at b fs n pre f AT), AL. change (@nil (res Z)) with (map (@Ok Z) []).
    unfold field_get, fixed_ok, dec_fixed in *.
    destruct (f_ty f) as [p|args|p|k]; try contradiction; cbn [fixed_bits] in *.
    + destruct OK. lia.
    + rewrite misc_get_dec by (auto; cbn [zsum fold_right]; lia). cbn [zsum fold_right rmap].
      do 5 f_equal. lia.
  - rewrite (get_fixed b fs n pre f []) by (auto; cbn [zsum fold_right]; lia).
    cbn [zsum fold_right]. replace (total_bits pre + 8 * 0) with (total_bits pre) by lia.
    destruct (_ <=? _) eqn:Q; [reflexivity|lia].
Qed.

Lemma set_header : forall fs n pre f b x, header_at fs n pre f -> buf_ok b -> new fs b = Some b ->
  fixed_val (f_ty f) x ->
  exists b', set c fs n x b = (b', Ok tt) /\ buf_ok b' /\ new fs b' = Some b' /\
    bits_written b (Z.to_nat (total_bits pre)) (enc_fixed h (f_ty f) x) b'.
Proof.
  intros fs n pre f b x HA [B L] NW V.
  destruct (header_bounds _ _ _ _ _ HA NW) as (P1 & P2 & P3).
  destruct HA as (AT & HL & OK & NN).
  assert (AL := header_lens b pre 0 [] [] HL). fold (layout c b pre) in AL.
  destruct (set_fixed b fs n pre f [] x) as (b' & E & W); auto; try (cbn [zsum fold_right]; lia).
  cbn [zsum fold_right] in W. replace (total_bits pre + 8 * 0) with (total_bits pre) in W by lia.
  exists b'. split; auto. assert (W' := W). destruct W' as (LB & BB & _).
  assert (BL : blen b' = blen b) by (unfold blen; lia).
  split; [split; auto; lia|]. split; auto.
  unfold new in *. rewrite BL. destruct (_ <=? _); congruence.
Qed.

(** ** Decoding an encoding *)

Lemma dec_enc_prim : forall bit p v, place_ok h bit p ->
  dec_prim h p (enc_prim h p v) = v mod 2 ^ p_size p.
Proof.
  intros bit p v (S & PL). unfold dec_prim, enc_prim. destruct (big_endian h (p_end p)).
  - rewrite Z_of_bits_of_Z. do 2 f_equal. lia.
  - rewrite (pack_unique _ (le_bytes (Z.to_nat (p_size p / 8)) v)) by auto using le_bytes_ok.
    rewrite le_val_le_bytes. do 2 f_equal. lia.
Qed.

Lemma dec_enc_args : forall ps vs bit, places_ok h bit ps -> length vs = length ps ->
  dec_args h ps (enc_args h ps vs) = norm_args ps vs.
Proof.
  induction ps as [|p ps IH]; intros [|v vs] bit PL LN; try discriminate; [reflexivity|].
  destruct PL as [PL PS]. cbn [dec_args enc_args norm_args].
  assert (EL := enc_prim_length c bit p v PL). fold h in EL.
  rewrite firstn_app_exact, skipn_app_exact by auto. f_equal.
  - eapply dec_enc_prim; eauto.
  - eapply IH; eauto.
Qed.

Lemma enc_fixed_length : forall bit t x, fixed_ok h bit t -> fixed_val t x ->
  Z.of_nat (length (enc_fixed h t x)) = fixed_bits t.
Proof.
  intros bit t x OK V. unfold fixed_ok, fixed_val, enc_fixed in *.
  destruct t; try contradiction; destruct x; try contradiction; cbn [fixed_bits].
  - unfold h. rewrite (enc_prim_length c bit p z OK). destruct OK. lia.
  - apply enc_args_length with (bit := bit); auto. apply V.
Qed.

Lemma dec_enc_fixed : forall bit t x, fixed_ok h bit t -> fixed_val t x ->
  dec_fixed h t (enc_fixed h t x) = norm_val t x.
Proof.
  intros bit t x OK V. unfold fixed_ok, fixed_val, enc_fixed, dec_fixed, norm_val in *.
  destruct t; try contradiction; destruct x; try contradiction.
  - f_equal. eapply dec_enc_prim; eauto.
  - f_equal. destruct V. eapply dec_enc_args; eauto.
Qed.

Lemma written_same : forall b o bs b', (o + length bs <= 8 * length b)%nat ->
  bits_written b o bs b' -> field_bits b' o (length bs) = bs.
Proof.
  intros b o bs b' H (L & B & E). unfold field_bits. rewrite E.
  rewrite skipn_app_exact by (rewrite firstn_length, bits_of_length; lia).
  now apply firstn_app_exact.
Qed.

Lemma written_other : forall b o bs b' o' n', (o + length bs <= 8 * length b)%nat ->
  (o' + n' <= 8 * length b)%nat ->
  bits_written b o bs b' -> (o' + n' <= o \/ o + length bs <= o')%nat ->
  field_bits b' o' n' = field_bits b o' n'.
Proof.
  intros b o bs b' o' n' H H' (L & B & E) D.
  apply list_eq_nth with (d := false); rewrite !field_bits_length by lia; auto.
  intros i I. rewrite !nth_field_bits by lia. rewrite E.
  assert (FL : length (firstn o (bits_of b)) = o) by (rewrite firstn_length, bits_of_length; lia).
  destruct D as [D|D].
  - rewrite app_nth1 by lia. apply nth_firstn. lia.
  - rewrite app_nth2 by lia. rewrite app_nth2 by lia. rewrite nth_skipn. f_equal. lia.
Qed.

(** Two different fields of the header occupy different bits. *)
Lemma header_disjoint : forall fs n pre f n' pre' f',
  header_at fs n pre f -> header_at fs n' pre' f' -> n <> n' ->
  total_bits pre + fixed_bits (f_ty f) <= total_bits pre' \/
  total_bits pre' + fixed_bits (f_ty f') <= total_bits pre.
Proof.
  intros fs n pre f n' pre' f' (((post & E) & N & NI) & _ & _ & NN) (((post' & E') & N' & NI') & _) D.
  subst fs. revert pre' E' NI'. revert NI NN. induction pre as [|g pre IH]; intros NI NN pre' E' NI'.
  - destruct pre' as [|g' pre'].
    + cbn [app] in E'. injection E' as E1 _. congruence.
    + cbn [app] in E'. injection E' as E1 E2. subst g'. left.
      assert (P : 0 <= total_bits pre').
      { apply total_bits_pos. subst post. inversion NN as [|? ? N1 N2]. apply Forall_app in N2. apply N2. }
      cbn [total_bits fold_right]. fold (total_bits pre'). lia.
  - destruct pre' as [|g' pre'].
    + cbn [app] in E'. injection E' as E1 E2. subst g. right.
      assert (P : 0 <= total_bits pre).
      { apply total_bits_pos. inversion NN as [|? ? N1 N2]. apply Forall_app in N2. apply N2. }
      cbn [total_bits fold_right]. fold (total_bits pre). lia.
    + cbn [app] in E'. injection E' as E1 E2. subst g'.
      inversion NN; subst. cbn [map In] in NI, NI'.
      specialize (IH ltac:(tauto) ltac:(auto) pre' E2 ltac:(tauto)).
      cbn [total_bits fold_right]. fold (total_bits pre). fold (total_bits pre'). lia.
Qed.

(** ** Histories of setter calls *)

Theorem history : forall ops fs b, buf_ok b -> new fs b = Some b ->
  Forall (fun o => exists pre f, header_at fs (fst o) pre f /\ fixed_val (f_ty f) (snd o)) ops ->
  exists b', run c fs ops b = (b', Ok tt) /\ length b' = length b /\
    forall n pre f, header_at fs n pre f ->
      get c fs n b' = last_write n (f_ty f) ops (get c fs n b).
Proof.
  induction ops as [|[n x] ops IH]; intros fs b BO NW F.
  - exists b. repeat split; auto.
  - inversion F as [|? ? (pre & f & HA & V) F']; subst. cbn [fst snd] in *.
    destruct (set_header fs n pre f b x HA BO NW V) as (b1 & E1 & BO1 & NW1 & W1).
    destruct (IH fs b1 BO1 NW1 F') as (b2 & E2 & L2 & G2).
    exists b2. cbn [run]. unfold mseq. rewrite E1. split; [auto|].
    assert (W1' := W1). destruct W1' as (LB1 & _). split; [congruence|].
    intros n' pre' f' HA'. rewrite (G2 n' pre' f' HA'). unfold last_write. cbn [fold_left fst snd].
    f_equal.
    destruct (header_bounds _ _ _ _ _ HA NW) as (P1 & P2 & P3).
    destruct (header_bounds _ _ _ _ _ HA' NW) as (P1' & P2' & P3').
    assert (EL : Z.of_nat (length (enc_fixed h (f_ty f) x)) = fixed_bits (f_ty f)).
    { apply enc_fixed_length with (bit := total_bits pre); auto. apply HA. }
    assert (NF' : 0 <= fixed_bits (f_ty f')).
    { destruct HA' as (((post & E) & _) & _ & _ & NN). subst fs. apply Forall_app in NN.
      destruct NN as [_ NN]. now inversion NN. }
    rewrite (get_header fs n' pre' f' b1 HA' BO1 NW1).
    destruct (String.eqb_spec n n') as [<-|D].
    + assert (SAME : pre' = pre /\ f' = f).
      { destruct HA as (((post & E) & N & NI) & _). destruct HA' as (((post' & E') & N' & NI') & _).
        subst fs. clear -E' N N' NI NI'. revert pre' E' NI'. induction pre as [|g pre IH]; intros pre' E' NI'.
        - destruct pre' as [|g' pre']; cbn [app] in E'; injection E' as -> E2; auto.
          exfalso. apply NI'. cbn. auto.
        - destruct pre' as [|g' pre']; cbn [app] in E'; injection E' as -> E2.
          + exfalso. apply NI. cbn. auto.
          + cbn [map In] in *. destruct (IH ltac:(tauto) pre' E2 ltac:(tauto)). split; congruence. }
      destruct SAME as [-> ->]. f_equal.
      replace (Z.to_nat (fixed_bits (f_ty f))) with (length (enc_fixed h (f_ty f) x)) by lia.
      rewrite (written_same b _ _ b1) by (auto; unfold blen in *; lia).
      apply dec_enc_fixed with (bit := total_bits pre); auto. apply HA.
    + rewrite (get_header fs n' pre' f' b HA' BO NW). do 2 f_equal.
      apply (written_other b (Z.to_nat (total_bits pre)) (enc_fixed h (f_ty f) x)); auto;
        try (unfold blen in *; lia).
      destruct (header_disjoint _ _ _ _ _ _ _ HA HA' D); lia.
Qed.

End Acc.

(** Structs whose values belong together go to the wire and back. *)
From Coq Require Import String ZArith List Bool Lia ZifyBool ZifyNat.
From Verif Require Import Base BitSpec DeriveUtil DeriveOps BaseFacts BitFacts
  DeriveUtilProofs DeriveOpsProofs DeriveLEProofs DeriveGen SpecPacket DeriveGenProofs DeriveInvProofs
  DeriveAccProofs DeriveVarProofs DeriveApiProofs DerivePropProofs DerivePropProofs2 SpecStruct.
Import ListNotations.
Open Scope Z_scope.
Ltac Zify.zify_post_hook ::= Z.to_euclidean_division_equations.

Lemma Forall2_len : forall A B (R : A -> B -> Prop) l l', Forall2 R l l' -> length l = length l'.
Proof. intros A B R l l' H. induction H; cbn [length]; auto. Qed.

Section S.
Variable c : cfg.
Let h := c_host_le c.
Variable ie : string -> list val -> buf.
Variable iw : string -> list val -> Prop.

Lemma norm_args_id : forall ps l, Forall2 (fun p z => 0 <= z < 2 ^ p_size p) ps l -> norm_args ps l = l.
Proof. intros ps l H. induction H; cbn [norm_args]; [auto|]. rewrite Z.mod_small by auto. now f_equal. Qed.

Lemma typed_norm : forall f x, typed_val iw f x -> norm_val (f_ty f) x = x.
Proof.
  intros f x T. unfold typed_val in T. destruct (f_ty f); destruct x; cbn [norm_val]; try contradiction; auto.
  - now rewrite Z.mod_small.
  - now rewrite norm_args_id.
Qed.
Lemma typed_norms : forall fs xs, typed iw fs xs -> norm_vals fs xs = xs.
Proof. intros fs xs T. induction T; cbn [norm_vals]; [auto|]. rewrite typed_norm by auto. now f_equal. Qed.

Lemma combine_snoc : forall A B (a : list A) (b : list B) x y, length a = length b ->
  combine (a ++ [x]) (b ++ [y]) = combine a b ++ [(x, y)].
Proof.
  intros A B a. induction a; intros [|z b] x y L; try discriminate; cbn [combine app]; [auto|].
  f_equal. apply IHa. now injection L.
Qed.

Lemma lookup_struct : forall pre xp post xq n, length pre = length xp -> In n (map f_name pre) ->
  lookup (combine (map f_name pre) (map Ok xp)) n = struct_env (pre ++ post) (xp ++ xq) n.
Proof.
  unfold lookup, struct_env. induction pre as [|f pre IH]; intros [|x xp] post xq n L I; try discriminate; [destruct I|].
  cbn [map combine app find fst]. destruct (String.eqb (f_name f) n) eqn:Q; [reflexivity|].
  apply IH; [now injection L|]. cbn [map In] in I. destruct I as [I|I]; [|auto].
  subst n. rewrite String.eqb_refl in Q. discriminate.
Qed.

Lemma enc_field_len : forall bit f x, val_fits h ie iw bit f x -> is_vec (f_ty f) = true ->
  length (enc_field h ie f x) = (8 * length (vec_bytes ie (f_name f) x))%nat.
Proof.
  intros bit f x V I. unfold val_fits in V. unfold enc_field. destruct (f_ty f); try discriminate;
    destruct x; try contradiction; now rewrite bits_of_length.
Qed.

Lemma struct_fits_from : forall fs xs pre xp bit,
  scoped (map f_name pre) fs -> schema_ok h (fun n k => codec k (ie n) (iw n)) fs bit ->
  length pre = length xp -> typed iw fs xs ->
  Forall2 (fun f x => match f_len f with
                      | Some le => forall r, le (struct_env (pre ++ fs) (xp ++ xs)) r = Ok (blen (vec_bytes ie (f_name f) x))
                      | None => True
                      end) fs xs ->
  Z.of_nat (length (encode h ie fs xs)) < 2 ^ 66 ->
  fits h ie iw lok_enc fs xs bit (combine (map f_name pre) (map Ok xp)) [].
Proof.
  induction fs as [|f fs IH]; intros xs pre xp bit S OK L T C LB; inversion T as [|f' x fs' xs' TV TR]; subst; [exact I|].
  inversion C as [|a b d e CV CR]; subst. cbn [schema_ok] in OK. destruct OK as [O1 O2].
  cbn [scoped] in S. destruct S as (S1 & S2 & S3 & S4). cbn [encode] in LB. rewrite app_length in LB.
  assert (V : val_fits h ie iw bit f x).
  { unfold val_fits. unfold typed_val in TV. destruct (f_ty f) eqn:FT; destruct x; try contradiction.
    - split; [lia|]. apply O1.
    - split; [|split; [|apply O1]]; [symmetry; eapply Forall2_len; eauto|].
      clear - TV. induction TV; constructor; auto. lia.
    - split; [apply O1|]. split; [auto|apply O1].
    - split; [apply O1|]. split; [auto|apply O1]. }
  cbn [fits]. split; [auto|]. split.
  - destruct (f_len f) as [le|] eqn:FL.
    + assert (IV : is_vec (f_ty f) = true).
      { destruct (f_ty f); auto; destruct O1 as [_ O1]; discriminate. }
      split; [auto|]. assert (EL := enc_field_len bit f x V IV).
      assert (RD : forall r, le (lookup (combine (map f_name pre) (map Ok xp))) r = Ok (blen (vec_bytes ie (f_name f) x))).
      { intros r. rewrite <- (CV r). apply S1. intros n IN. now apply lookup_struct. }
      split.
      * intros rest. exists (blen (vec_bytes ie (f_name f) x)). split; [apply RD|]. unfold blen. lia.
      * intros t _. apply RD.
    + intros IV. split; [|auto]. destruct (f_ty f); try discriminate; apply O1; auto.
  - rewrite typed_norm by auto.
    assert (LL : length (map f_name pre) = length (map (@Ok val) xp)) by (now rewrite !map_length).
    rewrite <- (combine_snoc _ _ (map f_name pre) (map Ok xp) (f_name f) (Ok x) LL).
    change [f_name f] with (map f_name [f]). change [Ok x] with (map (@Ok val) [x]). rewrite <- !map_app.
    apply IH.
    + rewrite map_app. exact S4.
    + exact O2.
    + rewrite !app_length. cbn [length]. lia.
    + exact TR.
    + rewrite <- !app_assoc. cbn [app]. exact CR.
    + lia.
Qed.

Lemma encode_mod8 : forall fs xs bit, schema_ok h (fun n k => codec k (ie n) (iw n)) fs bit -> typed iw fs xs ->
  Z.of_nat (length (encode h ie fs xs)) mod 8 = header_bits fs mod 8 /\
  header_bits fs <= Z.of_nat (length (encode h ie fs xs)).
Proof.
  induction fs as [|f fs IH]; intros xs bit OK T; inversion T as [|f' x fs' xs' TV TR]; subst; [cbn; lia|].
  cbn [schema_ok] in OK. destruct OK as [O1 O2]. specialize (IH _ _ O2 TR).
  cbn [encode header_bits]. rewrite app_length.
  assert (Z.of_nat (length (enc_field h ie f x)) mod 8 = bit_width (f_ty f) mod 8 /\
          bit_width (f_ty f) <= Z.of_nat (length (enc_field h ie f x))).
  { unfold typed_val in TV. unfold enc_field. destruct (f_ty f) eqn:FT; destruct x; try contradiction.
    - unfold h. rewrite (enc_prim_length c bit) by apply O1. destruct O1 as [[O1 _] _]. cbn [bit_width]. lia.
    - assert (LA : Z.of_nat (length (enc_args h args l)) = args_bits args).
      { unfold h. eapply enc_args_length; [apply O1|]. symmetry. eapply Forall2_len; eauto. }
      assert (AN : 0 <= args_bits args) by (eapply args_bits_nonneg; apply O1).
      cbn [bit_width]. rewrite widths_args. lia.
    - rewrite bits_of_length. cbn [bit_width]. lia.
    - rewrite bits_of_length. cbn [bit_width]. lia. }
  lia.
Qed.

Lemma wire_bits : forall fs xs, schema_ok h (fun n k => codec k (ie n) (iw n)) fs 0 -> typed iw fs xs ->
  header_bits fs mod 8 = 0 ->
  Z.of_nat (length (encode h ie fs xs)) = 8 * blen (wire ie c fs xs) /\ header_bits fs <= 8 * blen (wire ie c fs xs).
Proof.
  intros fs xs OK T M. destruct (encode_mod8 fs xs 0 OK T) as [E1 E2].
  unfold wire, blen. rewrite pack_length. fold h. lia.
Qed.

Theorem struct_fits : forall fs xs, scoped [] fs -> schema_ok h (fun n k => codec k (ie n) (iw n)) fs 0 ->
  header_bits fs mod 8 = 0 -> struct_ok ie iw c fs xs -> fits h ie iw lok_enc fs xs 0 [] [].
Proof.
  intros fs xs S OK M (T & C & L). destruct (wire_bits fs xs OK T M) as [W1 W2].
  apply (struct_fits_from fs xs [] [] 0); auto. lia.
Qed.

(** populate, then from_packet. *)
Theorem struct_roundtrip : forall fs xs b, scoped [] fs ->
  schema_ok h (fun n k => codec k (ie n) (iw n)) fs 0 -> header_bits fs mod 8 = 0 ->
  struct_ok ie iw c fs xs -> buf_ok b -> blen b = blen (wire ie c fs xs) ->
  populate c fs xs b = (wire ie c fs xs, Ok tt) /\ from_packet c fs (wire ie c fs xs) = Ok xs.
Proof.
  intros fs xs b S OK M SO BO L. assert (F := struct_fits fs xs S OK M SO). destruct SO as (T & C & LB).
  destruct (wire_bits fs xs OK T M) as [W1 W2].
  destruct (roundtrip c ie iw fs xs b F (typed_norms fs xs T) BO) as (b' & E1 & E2 & E3); [fold h; lia|].
  fold (wire ie c fs xs) in E2. subst b'. auto.
Qed.

Theorem struct_roundtrip_larger : forall fs xs b, closed fs -> scoped [] fs ->
  schema_ok h (fun n k => codec k (ie n) (iw n)) fs 0 -> header_bits fs mod 8 = 0 ->
  struct_ok ie iw c fs xs -> buf_ok b -> blen (wire ie c fs xs) <= blen b ->
  exists b', populate c fs xs b = (b', Ok tt) /\ b' = wire ie c fs xs ++ skipn (length (wire ie c fs xs)) b /\
    from_packet c fs b' = Ok xs.
Proof.
  intros fs xs b CL S OK M SO BO L. assert (F := struct_fits fs xs S OK M SO). destruct SO as (T & C & LB).
  destruct (wire_bits fs xs OK T M) as [W1 W2].
  destruct (roundtrip_closed c ie iw fs xs b CL F (typed_norms fs xs T) BO) as (b' & E1 & E2 & E3); [fold h; lia|].
  exists b'. split; [auto|]. split; [|auto].
  fold h in E2. rewrite <- (pack_bits (encode h ie fs xs)) in E2 by lia. change 0%nat with (8 * 0)%nat in E2.
  assert (LW : (0 + length (pack (encode h ie fs xs)) <= length b)%nat) by (unfold wire, blen in L; fold h in L; lia).
  exact (splice_unique _ _ _ _ LW (proj1 BO) (pack_bytes _) E2).
Qed.

(** A closed description of whole bytes is a packet type one can put in a
    vector. *)
Theorem struct_codec : forall fs, closed fs -> scoped [] fs ->
  schema_ok h (fun n k => codec k (ie n) (iw n)) fs 0 -> header_bits fs mod 8 = 0 -> 0 < header_bits fs ->
  codec (sem_of c fs) (wire ie c fs) (struct_ok ie iw c fs).
Proof.
  intros fs CL S OK M HP.
  assert (FA : forall x, struct_ok ie iw c fs x -> fits_all c ie iw fs x).
  { intros x SO. split; [now apply struct_fits|]. destruct SO as (T & _ & _). split; [now apply typed_norms|].
    destruct (wire_bits fs x OK T M) as [W1 W2]. fold h. lia. }
  assert (CD := schema_codec c ie iw fs CL ltac:(rewrite <- header_bits_total; exact M)).
  constructor.
  - intros x W. exact (cd_bytes _ _ _ CD x (FA x W)).
  - intros x W. exact (cd_min _ _ _ CD x (FA x W)).
  - intros x t W. exact (cd_size _ _ _ CD x t (FA x W)).
  - intros x t W. exact (cd_from _ _ _ CD x t (FA x W)).
  - intros x b W. exact (cd_populate _ _ _ CD x b (FA x W)).
Qed.

(** Parsing gives such a struct. *)
Lemma fits_struct : forall fs xs pre xp bit T, scoped (map f_name pre) fs -> lens_plain fs ->
  length pre = length xp -> fits h ie iw lok_enc fs xs bit (combine (map f_name pre) (map Ok xp)) T ->
  norm_vals fs xs = xs ->
  typed iw fs xs /\
  Forall2 (fun f x => match f_len f with
                      | Some le => forall r, le (struct_env (pre ++ fs) (xp ++ xs)) r = Ok (blen (vec_bytes ie (f_name f) x))
                      | None => True
                      end) fs xs.
Proof.
  induction fs as [|f fs IH]; intros xs pre xp bit T S LP L F N; destruct xs as [|x xs]; try contradiction;
    [split; constructor|].
  cbn [fits] in F. destruct F as (V & LN & R). cbn [norm_vals] in N. injection N as N1 N2.
  cbn [scoped] in S. destruct S as (S1 & S2 & S3 & S4). unfold lens_plain in LP. inversion LP as [|a b P1 P2]; subst.
  assert (TV : typed_val iw f x).
  { unfold val_fits in V. unfold typed_val. destruct (f_ty f) eqn:FT; destruct x; try contradiction.
    - cbn [norm_val] in N1. injection N1 as N1. destruct V as [V1 (V2 & _)].
      assert (0 < 2 ^ p_size p) by (apply Z.pow_pos_nonneg; lia). lia.
    - cbn [norm_val] in N1. injection N1 as N1. destruct V as (V1 & V2 & V3).
      clear - N1 V1 V2 V3. revert bit l N1 V1 V2 V3. induction args as [|p ps IH]; intros bit [|z l] N1 V1 V2 V3; try discriminate; constructor.
      + cbn [norm_args] in N1. injection N1 as N1 _. destruct V3 as [(V3 & _) _]. inversion V2; subst.
        assert (0 < 2 ^ p_size p) by (apply Z.pow_pos_nonneg; lia). lia.
      + cbn [norm_args] in N1. injection N1 as _ N1. destruct V3 as [_ V3]. inversion V2; subst. eapply IH; eauto.
    - apply V.
    - apply V. }
  assert (R' : fits h ie iw lok_enc fs xs (bit + fixed_bits (f_ty f)) (combine (map f_name (pre ++ [f])) (map Ok (xp ++ [x]))) T).
  { rewrite N1 in R. rewrite !map_app. cbn [map]. rewrite combine_snoc by (now rewrite !map_length). exact R. }
  destruct (IH xs (pre ++ [f]) (xp ++ [x]) (bit + fixed_bits (f_ty f)) T) as [I1 I2]; auto.
  { rewrite map_app. exact S4. } { rewrite !app_length. cbn [length]. lia. }
  rewrite <- !app_assoc in I2. cbn [app] in I2. split; constructor; auto.
  destruct (f_len f) as [le|] eqn:FL; [|exact I]. intros r. destruct LN as [_ [_ LN]].
  rewrite <- (LN [] ltac:(constructor)). rewrite (P1 _ r (Ok (vec_bytes ie (f_name f) x ++ []))). symmetry.
  apply S1. intros n IN. now apply lookup_struct.
Qed.

Theorem struct_decodable : forall fs, closed fs -> scoped [] fs -> lens_plain fs -> lens_small c fs ->
  schema_ok h (fun _ _ => False) fs 0 -> header_bits fs mod 8 = 0 -> 0 < header_bits fs < 2 ^ 32 ->
  Z.of_nat (length fs) < 2 ^ 16 ->
  decodable (sem_of c fs) (wire ie c fs) (struct_ok ie iw c fs).
Proof.
  intros fs CL S LP LS OK M HB FL b x n B L F SZ N.
  destruct (schema_decodable c ie iw fs CL LP) with (b := b) (x := x) (n := n) as [E W]; auto;
    try (rewrite <- header_bits_total; auto).
  { intros b0 ns BO AL. eapply lens_bound; eauto. }
  split; [exact E|]. destruct W as (W1 & W2 & _).
  destruct (fits_struct fs x [] [] 0 [] S LP eq_refl W1 W2) as [T C].
  split; [exact T|]. split; [exact C|]. unfold wire. rewrite E. unfold blen in *. rewrite firstn_length. lia.
Qed.

(** from_packet, then populate. *)
Theorem struct_rebuild : forall fs b b0 xs n, scoped [] fs ->
  schema_ok h (fun n k => decodable k (ie n) (iw n) /\ codec k (ie n) (iw n)) fs 0 ->
  lens_plain fs -> lens_small c fs -> header_bits fs mod 8 = 0 -> 0 < header_bits fs < 2 ^ 32 ->
  Z.of_nat (length fs) < 2 ^ 16 -> buf_ok b -> buf_ok b0 -> length b0 = length b ->
  from_packet c fs b = Ok xs -> vecs_tile c fs b ->
  packet_size c fs b = Ok n -> n <= blen b ->
  struct_ok ie iw c fs xs /\
  populate c fs xs b0 =
    (if forallb (fun f => negb (is_vec (f_ty f)) || match f_len f with Some _ => true | None => false end) fs
     then firstn (Z.to_nat n) b ++ skipn (Z.to_nat n) b0 else b, Ok tt).
Proof.
  intros fs b b0 xs n S OK LP LS M HB FL BO BO0 L FP VT PS N.
  destruct (packet_size_inv c b fs n PS) as (ns & AL).
  assert (PN := lens_bound c fs b ns S LS BO AL).
  assert (NS : Forall (fun z => 0 <= z) ns) by (eapply Forall_impl; [|exact PN]; cbn; lia).
  assert (LL := all_lens_length c b fs 0 [] []). fold (layout c b fs) in LL. rewrite AL, map_length in LL.
  assert (ZS := zsum_small _ PN).
  rewrite header_bits_total in M, HB.
  rewrite (packet_size_spec c b fs ns) in PS by (auto; lia). injection PS as <-.
  split.
  - destruct (encode_from_packet c ie iw fs b xs ns) as (T & ET & CT & NV & FT); auto; try apply BO;
      try (apply vecs_loc; auto); try lia.
    destruct (fits_struct fs xs [] [] 0 T S LP eq_refl (FT LP) NV) as [X1 X2].
    split; [exact X1|]. split; [exact X2|].
    assert (LE := f_equal (@length bool) ET). rewrite app_length, bits_of_length in LE.
    unfold wire, blen. rewrite pack_length. destruct BO as [_ BL]. unfold blen in BL. lia.
  - rewrite (rebuild_lens c ie iw fs b b0 xs ns); auto; try (rewrite ?header_bits_total; lia).
    replace ((total_bits fs + 8 * zsum ns) / 8) with (total_bits fs / 8 + zsum ns) by lia. reflexivity.
Qed.

(** ** Setters of vectors of packets *)

(** Elements that do not fit the declared length: the assertion after the first
    one that exceeds it fails. *)
Lemma pkts_set_over : forall k E W, codec k E W -> forall xs co e b, Forall W xs ->
  0 <= co -> co <= e -> bytes_ok b -> blen b < 2 ^ 63 ->
  e < co + blen (concat (map E xs)) -> co + blen (concat (map E xs)) <= blen b ->
  exists b', pkts_set_loop c k xs co e b = (b', Panic EAssert).
Proof.
  intros k E W C xs. induction xs as [|x xs IH]; intros co e b F CO CE B L He Hb.
  - cbn [map concat] in He. unfold blen in He. cbn [length] in He. lia.
  - inversion F as [|? ? WX FX]; subst. cbn [pkts_set_loop map concat] in *.
    destruct (cd_min _ _ _ C x) as [M1 M2]; auto.
    assert (BX := cd_bytes _ _ _ C x WX).
    assert (BL := blen_nonneg (concat (map E xs))).
    rewrite blen_app in *.
    rewrite slice_from_ok by lia.
    assert (LT : blen (skipn (Z.to_nat co) b) = blen b - co) by (rewrite blen_skipn; unfold blen in *; lia).
    destruct (blen (skipn (Z.to_nat co) b) <? k_min k) eqn:Q; [lia|].
    unfold mseq, on_tail.
    rewrite (cd_populate _ _ _ C) by (auto using bytes_skipn; lia).
    set (b1 := firstn (Z.to_nat co) b ++ E x ++ skipn (length (E x)) (skipn (Z.to_nat co) b)).
    assert (FL : length (firstn (Z.to_nat co) b) = Z.to_nat co)
      by (rewrite firstn_length; unfold blen in *; lia).
    assert (SB : skipn (Z.to_nat co) b1 = E x ++ skipn (length (E x)) (skipn (Z.to_nat co) b))
      by (unfold b1; now apply skipn_app_exact).
    assert (B1 : bytes_ok b1).
    { unfold b1. rewrite !bytes_app. auto using bytes_firstn, bytes_skipn. }
    assert (L1 : length b1 = length b).
    { unfold b1. rewrite !app_length, !skipn_length, FL. unfold blen in *. lia. }
    assert (BL1 : blen b1 = blen b) by (unfold blen; lia).
    rewrite SB.
    rewrite (cd_size _ _ _ C); auto using bytes_skipn.
    2:{ rewrite <- SB. unfold blen. rewrite skipn_length, L1. unfold blen in L. lia. }
    cbn [bind]. rewrite add_u_in by (change usize with 64; lia).
    destruct (co + blen (E x) <=? e) eqn:Q2; [|eauto].
    apply IH; auto; lia.
Qed.

Theorem api_set_pkts : forall b fs pre f post pos k len xs, scoped [] fs -> fs = pre ++ f :: post ->
  f_ty f = TVecPkt k -> codec k (ie (f_name f)) (iw (f_name f)) -> Forall (iw (f_name f)) xs -> buf_ok b ->
  pos_after (fun n => get c fs n b) b pre 0 0 pos -> own_len (fun n => get c fs n b) b (pos / 8) f len ->
  0 <= len -> pos / 8 + len < 2 ^ 64 -> pos / 8 < 2 ^ 63 ->
  let a := pos / 8 in let bytes := concat (map (ie (f_name f)) xs) in
  a + blen bytes <= blen b ->
  (blen bytes <= len -> set c fs (f_name f) (VPkts xs) b = (splice b (Z.to_nat a) bytes, Ok tt)) /\
  (len < blen bytes -> exists b', set c fs (f_name f) (VPkts xs) b = (b', Panic EAssert)).
Proof.
  intros b fs pre f post pos k len xs S E TY CD FW BO PA OL LN U1 U2 a bytes H.
  destruct (pos_model c b fs pre (f :: post) pos S E PA ltac:(lia)) as (ns & AL & NS & P & T).
  assert (ZN := zsum_nonneg _ NS).
  assert (X := own_span c b fs pre f post pos len S E PA ltac:(lia) OL).
  assert (ST : set c fs (f_name f) (VPkts xs) b = pkts_set_loop c k xs a (a + len) b).
  { unfold set. rewrite (find_at c b fs (f_name f) pre f) by (eapply field_at_intro; eauto).
    unfold field_set. cbn [l_field l_len]. rewrite TY. unfold lift_set, l_co. cbn [l_bit l_lens].
    rewrite AL, current_offset_ok by (auto; lia).
    replace (total_bits pre / 8 + zsum ns) with a by (unfold a; lia).
    assert (LA : len_or_all (len_of c b pre f) b = Ok len).
    { unfold span_len in X. destruct X as [->|[-> ->]]; reflexivity. }
    rewrite LA. cbn [bind]. rewrite add_u_in by (change usize with 64; unfold a; lia). reflexivity. }
  rewrite ST. destruct BO as [B L]. split; intros Q.
  - rewrite (pkts_set_codec c k (ie (f_name f)) (iw (f_name f)) CD); auto; unfold a, bytes in *; lia.
  - eapply (pkts_set_over k (ie (f_name f)) (iw (f_name f)) CD); auto; unfold a, bytes in *; lia.
Qed.
End S.

(** The lemmas behind the theorems of PropsDerive.v. *)
From Coq Require Import String ZArith List Bool Lia ZifyBool ZifyNat.
From Verif Require Import Base BitSpec DeriveUtil DeriveOps BaseFacts BitFacts
  DeriveUtilProofs DeriveOpsProofs DeriveLEProofs DeriveGen SpecPacket DeriveGenProofs DeriveInvProofs
  DeriveAccProofs DeriveVarProofs DeriveApiProofs.
Import ListNotations.
Open Scope Z_scope.
Ltac Zify.zify_post_hook ::= Z.to_euclidean_division_equations.

Lemma header_bits_app : forall a b, header_bits (a ++ b) = header_bits a + header_bits b.
Proof. induction a; intros; cbn [header_bits app]; [lia|]. rewrite IHa. lia. Qed.

Lemma header_bits_pos : forall fs seen, scoped seen fs -> 0 <= header_bits fs.
Proof.
  induction fs as [|f fs IH]; intros seen S; cbn [header_bits scoped] in *; [lia|].
  destruct S as (_ & W & _ & S). apply IH in S. lia.
Qed.

Lemma new_header : forall fs b, scoped [] fs ->
  new fs b = (if header_bits fs <=? 8 * blen b then Some b else None) /\
  8 * minimum_packet_size fs < header_bits fs + 8 /\ header_bits fs <= 8 * minimum_packet_size fs.
Proof.
  intros fs b S. assert (P := header_bits_pos _ _ S). unfold new, minimum_packet_size.
  rewrite <- header_bits_total. destruct (header_bits fs mod 8 =? 0) eqn:Q.
  - split; [|lia]. destruct (header_bits fs / 8 <=? blen b) eqn:R;
      destruct (header_bits fs <=? 8 * blen b) eqn:R'; auto; lia.
  - split; [|lia]. destruct (header_bits fs / 8 + 1 <=? blen b) eqn:R;
      destruct (header_bits fs <=? 8 * blen b) eqn:R'; auto; lia.
Qed.

Lemma pos_after_mod : forall G b pre bit acc pos, pos_after G b pre bit acc pos ->
  exists k, pos = bit + header_bits pre + 8 * (acc + k).
Proof.
  intros G b pre. induction pre as [|f pre IH]; intros bit acc pos P; cbn [pos_after header_bits] in *.
  - exists 0. lia.
  - destruct (f_len f).
    + destruct P as (n & _ & _ & P). apply IH in P. destruct P as (k & P). exists (n + k). lia.
    + apply IH in P. destruct P as (k & P). exists k. lia.
Qed.

Lemma pos_after_mod8 : forall G b pre pos, pos_after G b pre 0 0 pos -> pos mod 8 = header_bits pre mod 8.
Proof. intros G b pre pos P. apply pos_after_mod in P. destruct P as (k & P). lia. Qed.

Lemma pos_after_lower : forall G b pre bit acc pos seen, scoped seen pre -> pos_after G b pre bit acc pos ->
  bit + 8 * acc <= pos.
Proof.
  intros G b pre. induction pre as [|f pre IH]; intros bit acc pos seen S P; cbn [pos_after scoped] in *; [lia|].
  destruct S as (_ & W & _ & S). destruct (f_len f).
  - destruct P as (n & N & _ & P). apply (IH _ _ _ _ S) in P. lia.
  - apply (IH _ _ _ _ S) in P. lia.
Qed.

Section Prop1.
Variable c : cfg.
Let h := c_host_le c.

(** ** Integers, big-endian *)

Lemma big_place : forall bit n, supported bit n -> place_ok h bit (Prim n Big).
Proof. intros bit n [N P]. split; cbn [p_size p_end big_endian]; auto. Qed.

Lemma supported_mod : forall G b pre pos n, pos_after G b pre 0 0 pos -> supported pos n ->
  supported (header_bits pre) n.
Proof. intros G b pre pos n P [N S]. apply pos_after_mod8 in P. split; [auto|]. lia. Qed.

Lemma pos_nonneg : forall G b fs pre rest pos, scoped [] fs -> fs = pre ++ rest ->
  pos_after G b pre 0 0 pos -> 0 <= pos.
Proof.
  intros G b fs pre rest pos S E P. subst fs. apply scoped_app in S. destruct S as [S _].
  apply (pos_after_lower _ _ _ _ _ _ _ S) in P. lia.
Qed.

Lemma get_int : forall fs pre f post n b pos, scoped [] fs -> fs = pre ++ f :: post ->
  f_ty f = TPrim (Prim n Big) -> buf_ok b ->
  pos_after (fun x => get c fs x b) b pre 0 0 pos -> supported pos n -> pos < 2 ^ 65 ->
  get c fs (f_name f) b =
  if pos + n <=? 8 * blen b then Ok (VInt (field_val b (Z.to_nat pos) (Z.to_nat n))) else Panic EIndex.
Proof.
  intros fs pre f post n b pos S E T B P SP U.
  assert (SH := supported_mod _ _ _ _ _ P SP). assert (N := proj1 SP).
  rewrite (api_get_fixed c b fs pre f post pos); auto; rewrite T; cbn [bit_width fixed_ok p_size]; try lia.
  - fold h. reflexivity.
  - fold h. apply big_place. exact SH.
Qed.

Lemma set_int : forall fs pre f post n b pos v, scoped [] fs -> fs = pre ++ f :: post ->
  f_ty f = TPrim (Prim n Big) -> buf_ok b ->
  pos_after (fun x => get c fs x b) b pre 0 0 pos -> supported pos n -> 0 <= v ->
  pos + n <= 8 * blen b ->
  exists b', set c fs (f_name f) (VInt v) b = (b', Ok tt) /\
    field_written b (Z.to_nat pos) (Z.to_nat n) v b'.
Proof.
  intros fs pre f post n b pos v S E T B P SP V U.
  assert (SH := supported_mod _ _ _ _ _ P SP). assert (N := proj1 SP).
  assert (FO : fixed_ok h (header_bits pre) (f_ty f)) by (rewrite T; cbn [fixed_ok]; now apply big_place).
  destruct (api_set_fixed c b fs pre f post pos (VInt v)) as (b' & E1 & W); auto;
    try (rewrite T; cbn [bit_width p_size fixed_val]; auto; fail).
  - exists b'. split; auto. rewrite T in W. cbn [enc_fixed] in W.
    unfold enc_prim in W. cbn [p_end big_endian p_size] in W.
    destruct W as (W1 & W2 & W3). split; [auto|]. split; [auto|].
    rewrite bits_of_Z_length in W3. exact W3.
Qed.

Lemma set_int_out : forall fs pre f post n b pos v, scoped [] fs -> fs = pre ++ f :: post ->
  f_ty f = TPrim (Prim n Big) -> buf_ok b ->
  pos_after (fun x => get c fs x b) b pre 0 0 pos -> supported pos n -> 0 <= v ->
  8 * blen b < pos + n -> pos < 2 ^ 65 ->
  snd (set c fs (f_name f) (VInt v) b) = Panic EIndex.
Proof.
  intros fs pre f post n b pos v S E T B P SP V U U2.
  assert (SH := supported_mod _ _ _ _ _ P SP). assert (N := proj1 SP).
  assert (FO : fixed_ok h (header_bits pre) (f_ty f)) by (rewrite T; cbn [fixed_ok]; now apply big_place).
  apply (api_set_fixed_out c b fs pre f post pos (VInt v)); auto;
    rewrite T; cbn [bit_width p_size fixed_val]; auto; lia.
Qed.

(** ** Earlier fields do not see later bits *)

Definition agree (b b' : buf) (pos : Z) : Prop :=
  length b' = length b /\ firstn (Z.to_nat pos) (bits_of b') = firstn (Z.to_nat pos) (bits_of b).

Lemma agree_field : forall b b' pos o n, agree b b' pos -> Z.of_nat (o + n) <= pos ->
  field_bits b' o n = field_bits b o n.
Proof.
  intros b b' pos o n [L A] H. unfold field_bits.
  rewrite <- (firstn_skipn (Z.to_nat pos) (bits_of b')), <- (firstn_skipn (Z.to_nat pos) (bits_of b)), A.
  set (x := firstn (Z.to_nat pos) (bits_of b)).
  assert (LB : length (bits_of b') = length (bits_of b)) by (rewrite !bits_of_length; lia).
  destruct (Nat.le_gt_cases (o + n) (length x)).
  - rewrite !skipn_app, !firstn_app, !skipn_length.
    replace (n - (length x - o))%nat with 0%nat by (clear - H0; lia). rewrite !firstn_O. reflexivity.
  - assert (Z.to_nat pos >= length (bits_of b))%nat.
    { unfold x in H0. rewrite firstn_length in H0. lia. }
    rewrite (skipn_all2 (bits_of b)), (skipn_all2 (bits_of b')) by lia. reflexivity.
Qed.

Lemma agree_clip : forall b b' pos a n, agree b b' pos -> 0 <= a -> 0 <= n -> 8 * (a + n) <= pos ->
  bytes_ok b -> bytes_ok b' -> clip b' a n = clip b a n.
Proof.
  intros b b' pos a n A A0 N H B B'. unfold clip. apply bits_of_inj.
  - now apply bytes_firstn, bytes_skipn.
  - now apply bytes_firstn, bytes_skipn.
  - rewrite !bits_firstn, !bits_skipn. apply (agree_field b b' pos); auto. lia.
Qed.

Lemma schema_ok_app : forall inner a b bit, schema_ok h inner (a ++ b) bit ->
  schema_ok h inner b (bit + header_bits a).
Proof.
  intros inner a. induction a as [|f a IH]; intros b bit S; cbn [app schema_ok header_bits] in *.
  - now replace (bit + 0) with bit by lia.
  - destruct S as [_ S]. apply IH in S. rewrite <- bit_width_fixed in S.
    now replace (bit + (bit_width (f_ty f) + header_bits a)) with (bit + bit_width (f_ty f) + header_bits a) by lia.
Qed.

Lemma pos_after_app : forall G b p q bit acc pos, pos_after G b (p ++ q) bit acc pos <->
  exists k, pos_after G b p bit acc (bit + header_bits p + 8 * (acc + k)) /\
            pos_after G b q (bit + header_bits p) (acc + k) pos.
Proof.
  intros G b p. induction p as [|f p IH]; intros q bit acc pos; cbn [app pos_after header_bits].
  - split.
    + intros P. exists 0. split; [lia|]. now replace (bit + 0) with bit by lia; replace (acc + 0) with acc by lia.
    + intros (k & P1 & P2). assert (k = 0) by lia. subst k.
      now replace (bit + 0) with bit in P2 by lia; replace (acc + 0) with acc in P2 by lia.
  - destruct (f_len f).
    + split.
      * intros (n & N & LE & P). apply IH in P. destruct P as (k & P1 & P2). exists (n + k). split.
        -- exists n. split; [auto|]. split; [auto|].
           now replace (bit + (bit_width (f_ty f) + header_bits p) + 8 * (acc + (n + k)))
             with (bit + bit_width (f_ty f) + header_bits p + 8 * (acc + n + k)) by lia.
        -- now replace (bit + (bit_width (f_ty f) + header_bits p)) with (bit + bit_width (f_ty f) + header_bits p) by lia;
             replace (acc + (n + k)) with (acc + n + k) by lia.
      * intros (k & (n & N & LE & P1) & P2). exists n. split; [auto|]. split; [auto|].
        apply IH. exists (k - n). split.
        -- now replace (bit + bit_width (f_ty f) + header_bits p + 8 * (acc + n + (k - n)))
             with (bit + (bit_width (f_ty f) + header_bits p) + 8 * (acc + k)) by lia.
        -- now replace (bit + bit_width (f_ty f) + header_bits p) with (bit + (bit_width (f_ty f) + header_bits p)) by lia;
             replace (acc + n + (k - n)) with (acc + k) by lia.
    + split.
      * intros P. apply IH in P. destruct P as (k & P1 & P2). exists k. split.
        -- now replace (bit + (bit_width (f_ty f) + header_bits p) + 8 * (acc + k))
             with (bit + bit_width (f_ty f) + header_bits p + 8 * (acc + k)) by lia.
        -- now replace (bit + (bit_width (f_ty f) + header_bits p)) with (bit + bit_width (f_ty f) + header_bits p) by lia.
      * intros (k & P1 & P2). apply IH. exists k. split.
        -- now replace (bit + bit_width (f_ty f) + header_bits p + 8 * (acc + k))
             with (bit + (bit_width (f_ty f) + header_bits p) + 8 * (acc + k)) by lia.
        -- now replace (bit + bit_width (f_ty f) + header_bits p) with (bit + (bit_width (f_ty f) + header_bits p)) by lia.
Qed.

Lemma prefix_same : forall fs b b' pos, scoped [] fs -> schema_ok h (fun _ _ => True) fs 0 ->
  buf_ok b -> buf_ok b' -> agree b b' pos -> pos <= 8 * blen b ->
  forall q p post k, fs = p ++ q ++ post -> lens_plain q -> closed q ->
  let G := fun x => get c fs x b in let G' := fun x => get c fs x b' in
  pos_after G b p 0 0 (header_bits p + 8 * k) ->
  pos_after G' b' p 0 0 (header_bits p + 8 * k) ->
  (forall n, In n (map f_name p) -> G' n = G n) ->
  pos_after G b q (header_bits p) k pos ->
  pos_after G' b' q (header_bits p) k pos /\ (forall n, In n (map f_name (p ++ q)) -> G' n = G n).
Proof.
  intros fs b b' pos S OK BO BO' A PB q. induction q as [|f q IH]; intros p post k E LP CL G G' P1 P1' SM P2.
  - rewrite app_nil_r. auto.
  - cbn [app] in E. assert (E' : fs = p ++ f :: (q ++ post)) by exact E.
    assert (LB : blen b' = blen b) by (destruct A; unfold blen; lia).
    assert (SA := S). rewrite E in SA. apply scoped_app in SA. destruct SA as [SP SQ].
    cbn [app map] in SQ. assert (W : 0 <= bit_width (f_ty f)) by (cbn [scoped] in SQ; tauto).
    assert (HP := header_bits_pos _ _ SP).
    assert (KN : 0 <= header_bits p + 8 * k) by (exact (pos_nonneg _ _ _ _ _ _ S E' P1)).
    assert (OKF := OK). rewrite E in OKF. apply schema_ok_app in OKF. cbn [schema_ok] in OKF.
    destruct OKF as [OKF _]. replace (0 + header_bits p) with (header_bits p) in OKF by lia.
    unfold lens_plain in LP. apply Forall_cons_iff in LP. destruct LP as [LP1 LP2].
    unfold closed in CL. apply Forall_cons_iff in CL. destruct CL as [CL1 CL2].
    assert (SQ' : scoped ([] ++ map f_name p ++ [f_name f]) q).
    { cbn [scoped] in SQ. destruct SQ as (_ & _ & _ & SQ). apply scoped_app in SQ. apply SQ. }
    cbn [pos_after] in P2.
    (* the getter of f *)
    assert (GF : G' (f_name f) = G (f_name f) /\
       match f_len f with
       | Some le => exists n, 0 <= n /\ le G (slice_from b (header_bits p / 8 + k)) = Ok n /\
             le G' (slice_from b' (header_bits p / 8 + k)) = Ok n /\
             pos_after G b q (header_bits p + bit_width (f_ty f)) (k + n) pos
       | None => pos_after G b q (header_bits p + bit_width (f_ty f)) k pos
       end).
    { destruct (f_len f) as [le|] eqn:FL.
      - destruct P2 as (n & N & LE & P2).
        assert (LE' : le G' (slice_from b' (header_bits p / 8 + k)) = Ok n).
        { rewrite (LP1 _ _ (slice_from b (header_bits p / 8 + k))).
          rewrite <- LE. cbn [scoped] in SQ. rewrite FL in SQ. apply SQ. cbn [app]. exact SM. }
        split; [|exists n; auto].
        assert (LW := pos_after_lower _ _ _ _ _ _ _ SQ' P2).
        unfold G, G'.
        destruct (f_ty f) as [pr|args|pr|ks] eqn:TY; try (destruct OKF as [_ OKF]; discriminate).
        + destruct (api_get_var c b fs p f (q ++ post) (header_bits p + 8 * k) n) as (_ & _ & X); auto.
          { unfold own_len. rewrite FL. fold G. now replace ((header_bits p + 8 * k) / 8) with (header_bits p / 8 + k) by lia. }
          { destruct BO. lia. }
          destruct (api_get_var c b' fs p f (q ++ post) (header_bits p + 8 * k) n) as (_ & _ & X'); auto.
          { unfold own_len. rewrite FL. fold G'. now replace ((header_bits p + 8 * k) / 8) with (header_bits p / 8 + k) by lia. }
          { destruct BO. lia. }
          rewrite TY in X, X'. rewrite X, X' by tauto. rewrite LB.
          rewrite (agree_clip b b' pos); auto; try apply BO; try apply BO'; try lia.
        + destruct (api_get_var c b fs p f (q ++ post) (header_bits p + 8 * k) n) as (_ & _ & X); auto.
          { unfold own_len. rewrite FL. fold G. now replace ((header_bits p + 8 * k) / 8) with (header_bits p / 8 + k) by lia. }
          { destruct BO. lia. }
          destruct (api_get_var c b' fs p f (q ++ post) (header_bits p + 8 * k) n) as (_ & _ & X'); auto.
          { unfold own_len. rewrite FL. fold G'. now replace ((header_bits p + 8 * k) / 8) with (header_bits p / 8 + k) by lia. }
          { destruct BO. lia. }
          rewrite TY in X, X'. rewrite X, X'. rewrite LB.
          rewrite (agree_clip b b' pos); auto; try apply BO; try apply BO'; try lia.
      - split; [|auto].
        assert (LW := pos_after_lower _ _ _ _ _ _ _ SQ' P2).
        destruct (Z.eq_dec (bit_width (f_ty f)) 0) as [ZW|NZ].
        { unfold G, G'. destruct (f_ty f) as [pr|args|pr|ks] eqn:TY.
          - destruct OKF as [[OKF _] _]. cbn [bit_width] in ZW. lia.
          - destruct args as [|a0 args].
            + assert (FA := field_at_intro fs p f (q ++ post) S E').
              unfold get. rewrite !(find_at c _ _ _ _ _ FA). cbn [l_get]. unfold field_get. rewrite TY. reflexivity.
            + destruct OKF as [[[OKF _] OKR] _]. cbn [bit_width widths] in ZW.
              apply args_bits_nonneg in OKR. rewrite <- widths_args in OKR. lia.
          - exfalso. apply CL1; rewrite ?TY; auto.
          - exfalso. apply CL1; rewrite ?TY; auto. }
        assert (FO : fixed_ok h (header_bits p) (f_ty f)).
        { destruct (f_ty f); cbn [fixed_ok bit_width] in *; try tauto; lia. }
        unfold G, G'.
        rewrite (api_get_fixed c b fs p f (q ++ post) (header_bits p + 8 * k)); auto.
        2:{ destruct BO. lia. }
        rewrite (api_get_fixed c b' fs p f (q ++ post) (header_bits p + 8 * k)); auto.
        2:{ destruct BO. lia. }
        rewrite LB. destruct (header_bits p + 8 * k + bit_width (f_ty f) <=? 8 * blen b); [|reflexivity].
        rewrite (agree_field b b' pos); auto. lia. }
    destruct GF as [GF LF].
    assert (SM' : forall n, In n (map f_name (p ++ [f])) -> G' n = G n).
    { intros n IN. rewrite map_app in IN. apply in_app_or in IN. destruct IN as [IN|[<-|[]]]; auto. }
    assert (HB : header_bits (p ++ [f]) = header_bits p + bit_width (f_ty f)).
    { rewrite header_bits_app. cbn [header_bits]. lia. }
    assert (E2 : fs = (p ++ [f]) ++ q ++ post) by (rewrite E, <- app_assoc; reflexivity).
    replace (p ++ f :: q) with ((p ++ [f]) ++ q) by (rewrite <- app_assoc; reflexivity).
    destruct (f_len f) as [le|] eqn:FL.
    + destruct LF as (n & N & L1 & L2 & P3).
      destruct (IH (p ++ [f]) post (k + n) E2 LP2 CL2) as [IH1 IH2]; auto.
      * apply pos_after_app. exists k. rewrite HB. split.
        { now replace (0 + header_bits p + 8 * (0 + k)) with (header_bits p + 8 * k) by lia. }
        { cbn [pos_after]. rewrite FL. exists n. replace (0 + header_bits p) with (header_bits p) by lia.
          replace (0 + k) with k by lia. split; [auto|]. split; [exact L1|]. lia. }
      * apply pos_after_app. exists k. rewrite HB. split.
        { now replace (0 + header_bits p + 8 * (0 + k)) with (header_bits p + 8 * k) by lia. }
        { cbn [pos_after]. rewrite FL. exists n. replace (0 + header_bits p) with (header_bits p) by lia.
          replace (0 + k) with k by lia. split; [auto|]. split; [exact L2|]. lia. }
      * rewrite HB. exact P3.
      * rewrite HB in IH1. split; [|exact IH2]. cbn [pos_after]. rewrite FL. exists n. auto.
    + destruct (IH (p ++ [f]) post k E2 LP2 CL2) as [IH1 IH2]; auto.
      * apply pos_after_app. exists k. rewrite HB. split.
        { now replace (0 + header_bits p + 8 * (0 + k)) with (header_bits p + 8 * k) by lia. }
        { cbn [pos_after]. rewrite FL. lia. }
      * apply pos_after_app. exists k. rewrite HB. split.
        { now replace (0 + header_bits p + 8 * (0 + k)) with (header_bits p + 8 * k) by lia. }
        { cbn [pos_after]. rewrite FL. lia. }
      * rewrite HB. exact LF.
      * rewrite HB in IH1. split; [|exact IH2]. cbn [pos_after]. rewrite FL. exact IH1.
Qed.

(** ** Set then get, at any position *)

Lemma written_agree : forall b o bs b', (o + length bs <= 8 * length b)%nat ->
  bits_written b o bs b' -> agree b b' (Z.of_nat o).
Proof.
  intros b o bs b' H (L & _ & W). split; [exact L|]. rewrite Nat2Z.id, W.
  rewrite firstn_app, firstn_firstn, Nat.min_id, firstn_length, bits_of_length.
  replace (o - Nat.min o (8 * length b))%nat with 0%nat by lia. now rewrite firstn_O, app_nil_r.
Qed.

Lemma set_get : forall fs pre f post b pos x, scoped [] fs -> fs = pre ++ f :: post ->
  schema_ok h (fun _ _ => True) fs 0 -> lens_plain pre -> closed pre ->
  is_vec (f_ty f) = false -> 0 < bit_width (f_ty f) -> fixed_val (f_ty f) x -> buf_ok b ->
  pos_after (fun n => get c fs n b) b pre 0 0 pos -> pos + bit_width (f_ty f) <= 8 * blen b ->
  exists b', set c fs (f_name f) x b = (b', Ok tt) /\ length b' = length b /\
    get c fs (f_name f) b' = Ok (norm_val (f_ty f) x) /\
    forall n, In n (map f_name pre) -> get c fs n b' = get c fs n b.
Proof.
  intros fs pre f post b pos x S E OK LP CL NV W V BO P U.
  assert (FO : fixed_ok h (header_bits pre) (f_ty f)).
  { rewrite E in OK. apply schema_ok_app in OK. cbn [schema_ok] in OK. destruct OK as [OK _].
    replace (0 + header_bits pre) with (header_bits pre) in OK by lia.
    destruct (f_ty f); cbn [fixed_ok is_vec] in *; try discriminate; tauto. }
  assert (PN := pos_nonneg _ _ _ _ _ _ S E P).
  destruct (api_set_fixed c b fs pre f post pos x) as (b' & E1 & WR); auto. fold h in WR.
  assert (EL := enc_fixed_length c (header_bits pre) (f_ty f) x FO V). fold h in EL.
  rewrite <- bit_width_fixed in EL.
  assert (LE : (Z.to_nat pos + length (enc_fixed h (f_ty f) x) <= 8 * length b)%nat) by (unfold blen in *; lia).
  assert (AG := written_agree _ _ _ _ LE WR). rewrite Z2Nat.id in AG by lia.
  assert (LL : length b' = length b) by apply AG.
  assert (BO' : buf_ok b') by (split; [apply WR | destruct BO; unfold blen in *; lia]).
  destruct (prefix_same fs b b' pos S OK BO BO' AG ltac:(lia) pre [] (f :: post) 0) as [P' SM]; auto.
  { cbn [pos_after]. reflexivity. } { cbn [pos_after]. reflexivity. } { intros n []. }
  cbn [app] in SM.
  exists b'. split; [exact E1|]. split; [exact LL|]. split; [|exact SM].
  rewrite (api_get_fixed c b' fs pre f post pos); auto; try lia.
  2:{ destruct BO. lia. }
  replace (pos + bit_width (f_ty f) <=? 8 * blen b') with true by (unfold blen in *; lia).
  fold h. f_equal. rewrite <- (dec_enc_fixed c (header_bits pre) (f_ty f) x FO V). fold h. f_equal.
  replace (Z.to_nat (bit_width (f_ty f))) with (length (enc_fixed h (f_ty f) x)) by lia.
  eapply written_same; eauto.
Qed.

Lemma field_val_bound : forall b o n, 0 <= field_val b o n < 2 ^ Z.of_nat n.
Proof.
  intros. unfold field_val. assert (R := Z_of_bits_nonneg (field_bits b o n)).
  assert (R2 := Z_of_bits_bound (field_bits b o n)).
  assert (length (field_bits b o n) <= n)%nat by (unfold field_bits; rewrite firstn_length; lia).
  assert (2 ^ Z.of_nat (length (field_bits b o n)) <= 2 ^ Z.of_nat n) by (apply Z.pow_le_mono_r; lia). lia.
Qed.

Lemma get_range : forall fs pre f post n b pos v, scoped [] fs -> fs = pre ++ f :: post ->
  f_ty f = TPrim (Prim n Big) -> buf_ok b ->
  pos_after (fun x => get c fs x b) b pre 0 0 pos -> supported pos n -> pos < 2 ^ 65 ->
  get c fs (f_name f) b = Ok (VInt v) -> 0 <= v < 2 ^ n.
Proof.
  intros fs pre f post n b pos v S E T B P SP U G.
  rewrite (get_int fs pre f post n b pos) in G; auto. destruct (pos + n <=? 8 * blen b); [|discriminate].
  inversion G. assert (R := field_val_bound b (Z.to_nat pos) (Z.to_nat n)).
  rewrite Z2Nat.id in R by (destruct SP; lia). lia.
Qed.

(** ** Panicking length attributes *)

Lemma fails_lens : forall b fs q p post ns e, scoped [] fs -> fs = p ++ q ++ post ->
  all_lens (layout c b p) = map Ok ns -> Forall (fun z => 0 <= z) ns ->
  zsum ns < 2 ^ 63 -> header_bits fs < 2 ^ 60 ->
  pos_fails (fun n => get c fs n b) b q (total_bits p) (zsum ns) e ->
  exists ms r, all_lens (layout c b (p ++ q)) = map Ok ms ++ Panic e :: r /\
    Forall (fun z => 0 <= z) ms /\ zsum ms < 2 ^ 63.
Proof.
  intros b fs q. induction q as [|f q IH]; intros p post ns e S E AL NS ZS HB PF; cbn [pos_fails] in PF; [easy|].
  assert (FW := scoped_widths _ _ S).
  assert (TB : 0 <= total_bits p).
  { apply total_bits_pos. rewrite E in FW. apply Forall_app in FW. tauto. }
  assert (TU : total_bits p < 2 ^ 60).
  { assert (0 <= total_bits ((f :: q) ++ post)).
    { apply total_bits_pos. rewrite E in FW. apply Forall_app in FW. tauto. }
    rewrite header_bits_total, E, total_bits_app in HB. lia. }
  assert (ZN := zsum_nonneg _ NS).
  assert (E' : fs = (p ++ [f]) ++ q ++ post) by (rewrite <- app_assoc; exact E).
  assert (TS : total_bits (p ++ [f]) = total_bits p + bit_width (f_ty f)).
  { rewrite total_bits_app, bit_width_fixed. cbn [total_bits fold_right]. lia. }
  assert (LS : all_lens (layout c b (p ++ [f])) =
    map Ok ns ++ match len_of c b p f with Some l => [l] | None => [] end).
  { unfold layout. rewrite layout_app. unfold all_lens. rewrite flat_map_app.
    fold (layout c b p). fold (all_lens (layout c b p)). rewrite AL. f_equal.
    cbn [layout_from flat_map l_len app]. unfold len_of. rewrite AL. cbn [app].
    replace (0 + total_bits p) with (total_bits p) by lia.
    destruct (f_len f); reflexivity. }
  replace (p ++ f :: q) with ((p ++ [f]) ++ q) by (now rewrite <- app_assoc).
  unfold len_of in LS. destruct (f_len f) as [le|] eqn:FL.
  - assert (LV : le (lookup (names_of (layout c b p)))
        (co <- current_offset c (total_bits p) (all_lens (layout c b p)) ;; slice_from b co)
        = le (fun n => get c fs n b) (slice_from b (total_bits p / 8 + zsum ns))).
    { rewrite AL, current_offset_ok by (auto; lia). cbn [bind].
      subst fs. apply scoped_app in S as S'. destruct S' as [_ S'].
      cbn [scoped app] in S'. rewrite FL in S'. destruct S' as [RD _]. apply RD.
      intros m IM. eapply env_agree; eauto. }
    rewrite LV in LS.
    destruct PF as [PF|(n & N & NU & LE & PF)].
    + rewrite PF in LS. unfold layout. rewrite layout_app. fold (layout c b (p ++ [f])).
      unfold all_lens at 1. rewrite flat_map_app. fold (all_lens (layout c b (p ++ [f]))).
      rewrite LS, <- app_assoc. cbn [app]. eauto.
    + rewrite LE in LS.
      apply (IH (p ++ [f]) post (ns ++ [n]) e S E'); auto.
      * rewrite LS, map_app. reflexivity.
      * apply Forall_app. auto.
      * rewrite zsum_app. cbn [zsum fold_right]. lia.
      * rewrite TS, zsum_app. cbn [zsum fold_right]. replace (n + 0) with n by lia. exact PF.
  - apply (IH (p ++ [f]) post ns e S E'); auto.
    + rewrite LS, app_nil_r. reflexivity.
    + rewrite TS. exact PF.
Qed.

Lemma fails_offset : forall b fs pre post e, scoped [] fs -> fs = pre ++ post ->
  header_bits fs < 2 ^ 60 -> pos_fails (fun n => get c fs n b) b pre 0 0 e ->
  current_offset c (total_bits pre) (all_lens (layout c b pre)) = Panic e.
Proof.
  intros b fs pre post e S E HB PF.
  destruct (fails_lens b fs pre [] post [] e S E) as (ms & r & AL & NS & ZS); auto.
  { cbn [zsum fold_right]. lia. }
  cbn [app] in AL.
  assert (FW := scoped_widths _ _ S).
  assert (TB : 0 <= total_bits pre < 2 ^ 60).
  { rewrite header_bits_total, E, total_bits_app in HB. rewrite E in FW. apply Forall_app in FW.
    destruct FW as [F1 F2]. apply total_bits_pos in F1. apply total_bits_pos in F2. lia. }
  rewrite AL. unfold current_offset. rewrite fold_left_app.
  assert (X := current_offset_ok c (total_bits pre) ms ltac:(lia) NS ltac:(lia)).
  unfold current_offset in X. rewrite X. cbn [fold_left bind]. apply fold_offset_panic.
Qed.

Lemma fails_get : forall b fs pre f post e, scoped [] fs -> fs = pre ++ f :: post ->
  header_bits fs < 2 ^ 60 -> pos_fails (fun n => get c fs n b) b pre 0 0 e ->
  (is_vec (f_ty f) = true \/ 0 < bit_width (f_ty f)) ->
  get c fs (f_name f) b = Panic e /\ (is_vec (f_ty f) = true -> get_raw c fs (f_name f) b = Panic e) /\
  (forall x, is_vec (f_ty f) = false -> fixed_val (f_ty f) x -> set c fs (f_name f) x b = (b, Panic e)).
Proof.
  intros b fs pre f post e S E HB PF K.
  assert (OF := fails_offset b fs pre (f :: post) e S E HB PF).
  assert (FA := field_at_intro fs pre f post S E).
  destruct (is_vec (f_ty f)) eqn:IV.
  - destruct (get_var_panics c b fs (f_name f) pre f e FA IV (or_introl OF)). repeat split; auto. discriminate.
  - destruct K as [K|K]; [discriminate|]. rewrite (get_at c b _ _ _ _ FA). unfold field_get.
    split; [|split; [discriminate|]].
    + destruct (f_ty f) as [p|args| |]; try discriminate.
      * rewrite OF. reflexivity.
      * destruct args; cbn [bit_width widths] in K; [lia|]. cbn [misc_get]. rewrite OF. reflexivity.
    + intros x _ V. unfold set. rewrite (find_at c b _ _ _ _ FA). unfold field_set. cbn [l_field l_bit l_lens].
      destruct (f_ty f) as [p|args| |]; try discriminate; destruct x; cbn [fixed_val] in V; try easy.
      * unfold l_co. cbn [l_bit l_lens]. rewrite OF. reflexivity.
      * destruct args; cbn [bit_width widths] in K; [lia|]. destruct V as [V1 V2].
        destruct l; [discriminate V1|]. cbn [misc_set]. unfold mseq at 1. unfold lift_set. rewrite OF. reflexivity.
Qed.

(** ** Little-endian fields at byte boundaries *)

Lemma pack_field : forall b a n, bytes_ok b -> (a + n <= length b)%nat ->
  pack (field_bits b (8 * a) (8 * n)) = firstn n (skipn a b).
Proof.
  intros b a n B H. apply pack_unique.
  - now apply bytes_firstn, bytes_skipn.
  - rewrite bits_firstn, bits_skipn. reflexivity.
Qed.

Lemma get_le : forall fs pre f post n e b pos, scoped [] fs -> fs = pre ++ f :: post ->
  f_ty f = TPrim (Prim (8 * n) e) -> big_endian h e = false -> 1 <= n <= 8 -> buf_ok b ->
  pos_after (fun x => get c fs x b) b pre 0 0 pos -> pos mod 8 = 0 -> pos < 2 ^ 65 ->
  get c fs (f_name f) b =
  if pos / 8 + n <=? blen b then Ok (VInt (le_val (clip b (pos / 8) n))) else Panic EIndex.
Proof.
  intros fs pre f post n e b pos S E T LE N B P A U.
  assert (M := pos_after_mod8 _ _ _ _ P).
  assert (PN := pos_nonneg _ _ _ _ _ _ S E P).
  rewrite (api_get_fixed c b fs pre f post pos); auto; rewrite T; cbn [bit_width fixed_ok p_size]; try lia.
  - fold h. cbn [dec_fixed]. unfold dec_prim. cbn [p_end]. rewrite LE.
    replace (pos + 8 * n <=? 8 * blen b) with (pos / 8 + n <=? blen b) by lia.
    destruct (pos / 8 + n <=? blen b) eqn:Q; [|reflexivity].
    replace (Z.to_nat pos) with (8 * Z.to_nat (pos / 8))%nat by lia.
    replace (Z.to_nat (8 * n)) with (8 * Z.to_nat n)%nat by lia.
    rewrite pack_field; [reflexivity|apply B|unfold blen in *; lia].
  - unfold place_ok. cbn [p_size p_end]. fold h. rewrite LE. lia.
Qed.

Lemma set_le : forall fs pre f post n e b pos v, scoped [] fs -> fs = pre ++ f :: post ->
  f_ty f = TPrim (Prim (8 * n) e) -> big_endian h e = false -> 1 <= n <= 8 -> buf_ok b -> 0 <= v ->
  pos_after (fun x => get c fs x b) b pre 0 0 pos -> pos mod 8 = 0 -> pos / 8 + n <= blen b ->
  set c fs (f_name f) (VInt v) b = (splice b (Z.to_nat (pos / 8)) (le_bytes (Z.to_nat n) v), Ok tt).
Proof.
  intros fs pre f post n e b pos v S E T LE N B V P A U.
  assert (M := pos_after_mod8 _ _ _ _ P).
  assert (PN := pos_nonneg _ _ _ _ _ _ S E P).
  assert (FO : fixed_ok h (header_bits pre) (f_ty f)).
  { rewrite T. cbn [fixed_ok]. unfold place_ok. cbn [p_size p_end]. rewrite LE. lia. }
  destruct (api_set_fixed c b fs pre f post pos (VInt v)) as (b' & E1 & W); auto.
  { rewrite T. cbn [fixed_val]. exact V. } { rewrite T. cbn [bit_width p_size]. lia. }
  rewrite E1. f_equal. rewrite T in W. cbn [enc_fixed] in W. unfold enc_prim in W. cbn [p_end p_size] in W.
  fold h in W. rewrite LE in W.
  replace (Z.to_nat pos) with (8 * Z.to_nat (pos / 8))%nat in W by lia.
  replace (8 * n / 8) with n in W by lia.
  apply splice_unique; auto.
  - rewrite le_bytes_length. unfold blen in U. lia.
  - apply B.
  - apply le_bytes_ok.
Qed.

(** ** Whole packets *)

Lemma app_inj_len : forall A (a b c d : list A), a ++ b = c ++ d -> length a = length c -> a = c /\ b = d.
Proof.
  intros A a. induction a; intros b [|x c'] d E L; cbn [app length] in *; try discriminate; auto.
  inversion E. destruct (IHa b c' d) as [-> ->]; auto.
Qed.

Section Whole.
Variable ie : string -> list val -> buf.
Variable iw : string -> list val -> Prop.

Lemma roundtrip : forall fs xs b,
  fits h ie iw lok_enc fs xs 0 [] [] -> norm_vals fs xs = xs -> buf_ok b ->
  8 * blen b = Z.of_nat (length (encode h ie fs xs)) ->
  exists b', populate c fs xs b = (b', Ok tt) /\ b' = pack (encode h ie fs xs) /\
    from_packet c fs b' = Ok xs.
Proof.
  intros fs xs b F NV BO L.
  destruct (populate_encode c ie iw fs xs b F (proj1 BO) (proj2 BO)) as (b' & E1 & WL & WB & W); [fold h; lia|].
  fold h in W. cbn [firstn app Nat.add] in W.
  rewrite skipn_all2 in W by (rewrite bits_of_length; unfold blen in *; lia). rewrite app_nil_r in W.
  exists b'. split; [auto|]. split; [symmetry; now apply pack_unique|].
  rewrite <- NV. apply (from_packet_encode c ie iw fs xs b' []).
  - eapply fits_weaken; [|exact F]. apply lok_enc_dec.
  - exact WB.
  - destruct BO. unfold blen in *. lia.
  - fold h. now rewrite app_nil_r.
Qed.

Lemma roundtrip_closed : forall fs xs b, closed fs ->
  fits h ie iw lok_enc fs xs 0 [] [] -> norm_vals fs xs = xs -> buf_ok b ->
  Z.of_nat (length (encode h ie fs xs)) <= 8 * blen b ->
  exists b', populate c fs xs b = (b', Ok tt) /\ bits_written b 0 (encode h ie fs xs) b' /\
    from_packet c fs b' = Ok xs.
Proof.
  intros fs xs b CL F NV BO L.
  destruct (populate_encode c ie iw fs xs b F (proj1 BO) (proj2 BO)) as (b' & E1 & W); [fold h; lia|].
  fold h in W. exists b'. split; [auto|]. split; [auto|].
  destruct W as (WL & WB & W). cbn [firstn app Nat.add] in W.
  rewrite <- NV. apply (from_packet_encode c ie iw fs xs b' (skipn (length (encode h ie fs xs)) (bits_of b))).
  - eapply fits_weaken; [apply lok_enc_dec|]. eapply fits_tail; eauto.
  - exact WB.
  - destruct BO. unfold blen in *. lia.
  - fold h. exact W.
Qed.

Lemma vecs_loc : forall fs b, scoped [] fs -> vecs_tile c fs b -> Forall (loc_tiles c b) (layout c b fs).
Proof.
  intros fs b S V. apply Forall_forall. intros l IN. unfold loc_tiles.
  assert (IF : In (l_field l) fs) by (rewrite <- (layout_fields c b fs 0 [] []); apply in_map; exact IN).
  destruct (f_ty (l_field l)) eqn:T; auto.
  intros s SL. unfold vecs_tile in V. rewrite Forall_forall in V. specialize (V _ IF). rewrite T in V.
  apply V. clear V.
  apply in_split in IN. destruct IN as (l1 & l2 & EL).
  set (pre := map l_field l1). set (post := map l_field l2).
  assert (E : fs = pre ++ l_field l :: post).
  { rewrite <- (layout_fields c b fs 0 [] []). fold (layout c b fs). rewrite EL, map_app. reflexivity. }
  assert (FA := field_at_intro fs pre (l_field l) post S E).
  unfold get_raw, raw_range. rewrite (find_at c b _ _ _ _ FA). cbn [l_len].
  assert (LL : l = Loc (l_field l) (total_bits pre) (all_lens (layout c b pre)) (len_of c b pre (l_field l))
          (field_get c (l_field l) (total_bits pre) (all_lens (layout c b pre)) (len_of c b pre (l_field l)) b)).
  { assert (X := EL). rewrite E in X at 1. unfold layout in X. rewrite layout_app in X.
    cbn [layout_from] in X.
    assert (LN : length (layout_from c b pre 0 [] []) = length l1).
    { assert (Y := f_equal (@length field) (layout_fields c b pre 0 [] [])).
      rewrite map_length in Y. unfold pre in Y at 2. rewrite map_length in Y. exact Y. }
    apply app_inj_len in X; auto. destruct X as [_ X]. apply (f_equal (hd l)) in X. cbn [hd app] in X.
    replace (0 + total_bits pre) with (total_bits pre) in X by lia. symmetry. exact X. }
  rewrite LL in SL. cbn [l_len] in SL. unfold l_co in *. cbn [l_bit l_lens] in *.
  unfold var_slice in SL. exact SL.
Qed.

Lemma rebuild_lens : forall fs b b0 xs ns, scoped [] fs ->
  schema_ok h (fun n k => decodable k (ie n) (iw n) /\ codec k (ie n) (iw n)) fs 0 ->
  lens_plain fs -> header_bits fs mod 8 = 0 -> buf_ok b -> buf_ok b0 -> length b0 = length b ->
  from_packet c fs b = Ok xs -> vecs_tile c fs b ->
  all_lens (layout c b fs) = map Ok ns -> Forall (fun z => 0 <= z) ns -> 0 <= total_bits fs ->
  let pos := total_bits fs + 8 * zsum ns in pos <= 8 * blen b ->
  populate c fs xs b0 =
    (if forallb (fun f => negb (is_vec (f_ty f)) || match f_len f with Some _ => true | None => false end) fs
     then firstn (Z.to_nat (pos / 8)) b ++ skipn (Z.to_nat (pos / 8)) b0 else b, Ok tt).
Proof.
  intros fs b b0 xs ns S OK LP M BO BO0 L FP VT AL NS TB pos U.
  assert (PE : pos = total_bits fs + 8 * zsum ns) by reflexivity. clearbody pos.
  destruct (encode_from_packet c ie iw fs b xs ns) as (T & ET & CT & NV & FT); auto; try apply BO.
  { apply vecs_loc; auto. } { lia. }
  specialize (FT LP). fold h in ET, FT.
  set (open := forallb _ fs).
  assert (OC : open = true <-> closed fs).
  { unfold open, closed. rewrite forallb_forall, Forall_forall. split.
    - intros H f IN V. specialize (H f IN). rewrite V in H. destruct (f_len f); [discriminate|]. discriminate H.
    - intros H f IN. specialize (H f IN). destruct (is_vec (f_ty f)); [|reflexivity].
      destruct (f_len f); [reflexivity|]. exfalso. now apply H. }
  assert (LB : length (bits_of b0) = length (bits_of b)) by (rewrite !bits_of_length; lia).
  assert (LE : Z.of_nat (length (encode h ie fs xs)) <= 8 * blen b0).
  { assert (X := f_equal (@length bool) ET). rewrite app_length, bits_of_length in X. fold h in X. unfold blen. lia. }
  destruct open eqn:OP.
  - assert (CL : closed fs) by (apply OC; reflexivity).
    assert (EL := encode_closed_length c ie iw lok_enc fs xs 0 [] T CL FT). fold h in EL.
    destruct (layout_dec c ie iw lok_enc fs xs [] 0 [] [] b [] T) as (LL & L1 & L2 & L3 & L4); auto; try apply BO; try lia.
    { apply lok_enc_dec. }
    rewrite app_nil_r in L4. cbn [layout_from map app] in L4. rewrite app_nil_r in L4.
    assert (VE : map Ok ns = map Ok (var_lens ie fs xs)).
    { rewrite <- AL, <- L3. unfold layout. rewrite L4. reflexivity. }
    assert (VN : ns = var_lens ie fs xs).
    { clear - VE. revert VE. generalize (var_lens ie fs xs). induction ns; intros [|? ?] VE; inversion VE; auto. f_equal; auto. }
    rewrite <- VN in EL.
    assert (PL : (8 * Z.to_nat (pos / 8))%nat = length (encode h ie fs xs)).
    { rewrite header_bits_total in M. lia. }
    destruct (populate_encode c ie iw fs xs b0) as (b' & E1 & WL & WB & W); try apply BO0; auto.
    { eapply fits_tail; eauto. }
    rewrite E1. f_equal. apply bits_of_inj; auto.
    { apply Forall_app. split; [apply bytes_firstn, BO|apply bytes_skipn, BO0]. }
    rewrite W. cbn [firstn app Nat.add]. rewrite bits_of_app, bits_firstn, bits_skipn, PL.
    f_equal. rewrite ET, firstn_app, firstn_all, Nat.sub_diag, firstn_O, app_nil_r. reflexivity.
  - assert (NC : ~ closed fs) by (intros X; apply OC in X; discriminate).
    destruct CT as [CT|CT]; [easy|]. subst T. rewrite app_nil_r in ET.
    destruct (populate_encode c ie iw fs xs b0) as (b' & E1 & WL & WB & W); try apply BO0; auto.
    rewrite E1. f_equal. apply bits_of_inj; auto; [apply BO|].
    rewrite W. cbn [firstn app Nat.add]. fold h. rewrite skipn_all2 by (rewrite LB, ET; lia).
    now rewrite app_nil_r.
Qed.

Lemma rebuild : forall fs b b0 xs pos, scoped [] fs ->
  schema_ok h (fun n k => decodable k (ie n) (iw n) /\ codec k (ie n) (iw n)) fs 0 ->
  lens_plain fs -> header_bits fs mod 8 = 0 -> buf_ok b -> buf_ok b0 -> length b0 = length b ->
  from_packet c fs b = Ok xs -> vecs_tile c fs b ->
  pos_after (fun n => get c fs n b) b fs 0 0 pos -> pos <= 8 * blen b ->
  populate c fs xs b0 =
    (if forallb (fun f => negb (is_vec (f_ty f)) || match f_len f with Some _ => true | None => false end) fs
     then firstn (Z.to_nat (pos / 8)) b ++ skipn (Z.to_nat (pos / 8)) b0 else b, Ok tt).
Proof.
  intros fs b b0 xs pos S OK LP M BO BO0 L FP VT P U.
  destruct (pos_model c b fs fs [] pos S ltac:(now rewrite app_nil_r) P ltac:(destruct BO; lia)) as (ns & AL & NS & PE & TB).
  subst pos. now apply rebuild_lens.
Qed.

End Whole.
End Prop1.

(** More lemmas behind PropsDerive.v: iterators, sizes, and little-endian
    fields at arbitrary bit offsets. *)
From Coq Require Import String ZArith List Bool Lia ZifyBool ZifyNat.
From Verif Require Import Base BitSpec DeriveUtil DeriveOps BaseFacts BitFacts
  DeriveUtilProofs DeriveOpsProofs DeriveLEProofs DeriveGen SpecPacket DeriveGenProofs DeriveInvProofs
  DeriveAccProofs DeriveVarProofs DeriveApiProofs DerivePropProofs.
Import ListNotations.
Open Scope Z_scope.
Ltac Zify.zify_post_hook ::= Z.to_euclidean_division_equations.

(** ** Iterators *)

Lemma buf_ok_skipn : forall n b, buf_ok b -> buf_ok (skipn n b).
Proof.
  intros n b [B L]. split; [now apply bytes_skipn|]. unfold blen in *. rewrite skipn_length. lia.
Qed.

Lemma skipn_min : forall (b : buf) n, 0 <= n -> skipn (Z.to_nat (Z.min n (blen b))) b = skipn (Z.to_nat n) b.
Proof.
  intros b n N. destruct (Z.le_ge_cases n (blen b)).
  - now rewrite Z.min_l by lia.
  - rewrite Z.min_r by lia. unfold blen in *. rewrite Nat2Z.id, !skipn_all2 by lia. reflexivity.
Qed.

Lemma iter_collect_run : forall k, (forall s n, buf_ok s -> k_size k s = Ok n -> 0 < n) ->
  forall fuel b, buf_ok b -> (length b < fuel)%nat ->
  match iter_collect k (fun x => Ok x) fuel b with
  | Ok l => items k b l
  | Panic e => exists i, k_size k (skipn i b) = Panic e
  end.
Proof.
  intros k PS fuel. induction fuel as [|fuel IH]; intros b BO F; [lia|].
  cbn [iter_collect]. unfold iter_next.
  destruct ((0 <? blen b) && (k_min k <=? blen b)) eqn:Q; cbn [bind].
  - destruct (k_size k b) as [n|e] eqn:SZ; cbn [bind]; [|exists 0%nat; exact SZ].
    assert (N := PS _ _ BO SZ). rewrite skipn_min by lia.
    assert (L : (length (skipn (Z.to_nat n) b) < length b)%nat) by (rewrite skipn_length; unfold blen in *; lia).
    replace (blen (skipn (Z.to_nat n) b) =? blen b) with false by (unfold blen; lia).
    specialize (IH (skipn (Z.to_nat n) b) (buf_ok_skipn _ _ BO) ltac:(lia)).
    destruct (iter_collect k (fun x => Ok x) fuel (skipn (Z.to_nat n) b)) as [l|e] eqn:IC; cbn [bind].
    + apply items_step with n; auto; lia.
    + destruct IH as [i IH]. exists (i + Z.to_nat n)%nat. rewrite <- IH, skipn_skipn'. f_equal. f_equal. lia.
  - apply items_done. lia.
Qed.

Lemma iter_all_run : forall k b, (forall s n, buf_ok s -> k_size k s = Ok n -> 0 < n) -> buf_ok b ->
  match iter_all k (fun x => Ok x) b with
  | Ok l => items k b l
  | Panic e => exists i, k_size k (skipn i b) = Panic e
  end.
Proof. intros k b PS BO. apply iter_collect_run; auto. Qed.

Section Prop2.
Variable c : cfg.
Let h := c_host_le c.

Lemma lens_bound : forall fs b ns, scoped [] fs -> lens_small c fs -> buf_ok b ->
  all_lens (layout c b fs) = map Ok ns -> Forall (fun z => 0 <= z < 2 ^ 32) ns.
Proof.
  intros fs b ns S LS BO AL.
  assert (H : forall r, In r (all_lens (layout c b fs)) -> forall n, r = Ok n -> 0 <= n < 2 ^ 32).
  { intros r IN n E. unfold all_lens in IN. apply in_flat_map in IN. destruct IN as (l & IL & IR).
    apply in_split in IL. destruct IL as (l1 & l2 & EL).
    set (pre := map l_field l1). set (post := map l_field l2).
    assert (E' : fs = pre ++ l_field l :: post).
    { rewrite <- (layout_fields c b fs 0 [] []). fold (layout c b fs). rewrite EL, map_app. reflexivity. }
    assert (LL : l_len l = len_of c b pre (l_field l)).
    { assert (X := EL). rewrite E' in X at 1. unfold layout in X. rewrite layout_app in X.
      cbn [layout_from] in X.
      assert (LN : length (layout_from c b pre 0 [] []) = length l1).
      { assert (Y := f_equal (@length field) (layout_fields c b pre 0 [] [])).
        rewrite map_length in Y. unfold pre in Y at 2. rewrite map_length in Y. exact Y. }
      apply (app_inj_len) in X; auto. destruct X as [_ X]. apply (f_equal (hd l)) in X. cbn [hd app] in X.
      replace (0 + total_bits pre) with (total_bits pre) in X by lia. rewrite <- X at 1. reflexivity. }
    rewrite LL in IR. unfold len_of in IR. destruct (f_len (l_field l)) as [le|] eqn:FL; [|easy].
    destruct IR as [<-|[]].
    assert (RD : reads le (map f_name pre)).
    { rewrite E' in S. apply scoped_app in S. destruct S as [_ S]. cbn [scoped app] in S. rewrite FL in S. apply S. }
    rewrite (RD _ (fun x => get c fs x b)) in E by (intros m IM; eapply env_agree; eauto).
    eapply (LS b (l_field l) le _ n BO); eauto. rewrite E'. apply in_app_iff. right. left. reflexivity. }
  rewrite AL in H. apply Forall_forall. intros z IN. apply (H (Ok z)); auto. now apply in_map.
Qed.

Lemma size_pos : forall fs b n, scoped [] fs -> lens_small c fs -> 8 <= header_bits fs < 2 ^ 60 ->
  Z.of_nat (length fs) < 2 ^ 16 -> buf_ok b -> packet_size c fs b = Ok n -> 0 < n.
Proof.
  intros fs b n S LS HB LF BO PS. destruct (packet_size_inv c b fs n PS) as (ns & AL).
  assert (NS := lens_bound fs b ns S LS BO AL).
  assert (ZB := zsum_small ns NS).
  assert (LN : (length ns <= length fs)%nat).
  { assert (X := all_lens_length c b fs 0 [] []). fold (layout c b fs) in X. rewrite AL, map_length in X. exact X. }
  rewrite header_bits_total in HB.
  eapply (size_positive c fs b n ns); eauto; try lia.
  eapply Forall_impl; [|exact NS]. intros; cbn in *; lia.
Qed.

Lemma iterate : forall fs b, scoped [] fs -> lens_small c fs -> 8 <= header_bits fs < 2 ^ 60 ->
  Z.of_nat (length fs) < 2 ^ 16 -> buf_ok b ->
  match iter_all (sem_of c fs) (fun x => Ok x) b with
  | Ok l => exists ps tail, concat ps ++ tail = b /\
      Forall2 (fun item p => exists n, packet_size c fs item = Ok n /\ 0 < n /\ p = firstn (Z.to_nat n) item) l ps /\
      (tail = [] \/ blen tail < minimum_packet_size fs) /\
      forall i, (i < length l)%nat -> nth i l [] = skipn (length (concat (firstn i ps))) b
  | Panic e => exists i, packet_size c fs (skipn i b) = Panic e
  end.
Proof.
  intros fs b S LS HB LF BO.
  assert (PS : forall s n, buf_ok s -> k_size (sem_of c fs) s = Ok n -> 0 < n).
  { intros s n BS E. eapply size_pos; eauto. }
  assert (R := iter_all_run (sem_of c fs) b PS BO).
  destruct (iter_all (sem_of c fs) (fun x => Ok x) b) as [l|e]; [|exact R].
  assert (IB : forall b l, items (sem_of c fs) b l -> buf_ok b -> Forall buf_ok l).
  { clear - PS. intros b l I. induction I; intros BO; constructor; auto. apply IHI. now apply buf_ok_skipn. }
  assert (FB := IB _ _ R BO).
  destruct (items_tile c (sem_of c fs) b l R) as (ps & tail & E1 & E2 & E3 & E4).
  exists ps, tail. split; [auto|]. split; [|split; [|auto]].
  - clear - E2 FB PS. induction E2; constructor.
    + destruct H as (n & H1 & H2). exists n. inversion FB; subst. split; [exact H1|]. split; [|auto].
      eapply PS; eauto.
    + apply IHE2. now inversion FB.
  - cbn [k_min sem_of] in E3. destruct tail as [|x t]; [auto|]. right. unfold blen in *. cbn [length] in *. lia.
Qed.

(** ** packet_size() and the header *)

Definition len_from_header (fs : schema) (f : field) : Prop :=
  match f_len f with
  | None => True
  | Some le => exists ns, reads_only le ns /\
      forall n, In n ns -> exists pre g, header_field h fs n pre g
  end.

Lemma size_header : forall fs b b', scoped [] fs -> Forall (len_from_header fs) fs ->
  buf_ok b -> buf_ok b' -> new fs b = Some b -> new fs b' = Some b' ->
  firstn (Z.to_nat (minimum_packet_size fs)) b = firstn (Z.to_nat (minimum_packet_size fs)) b' ->
  packet_size c fs b = packet_size c fs b'.
Proof.
  intros fs b b' S LF. apply packet_size_header. eapply Forall_impl; [|exact LF].
  intros f H. unfold len_from_header, header_len in *. destruct (f_len f); auto.
  destruct H as (ns & H1 & H2). exists ns. split; auto. intros n IN. destruct (H2 n IN) as (pre & g & HF).
  exists pre, g. now apply header_conv.
Qed.

End Prop2.

(** ** Little-endian integers at any bit offset *)

(** Which of them can be read back after being written. *)
Definition le_lossless (o s : Z) : Prop := o + s <= 8 \/ (2 * o + s) mod 8 = 0.

Lemma lossless_symmetric : forall o s, placed o s -> le_lossless o s <-> symmetric o s.
Proof.
  intros o s P. unfold symmetric, le_lossless, slack, num_bytes. destruct P as (O & S & A).
  assert (placed o s) by (repeat split; lia).
  destruct ((0 <? o) || negb (s mod 8 =? 0)) eqn:Q; split; intros H1.
  - split; [auto|]. lia.
  - destruct H1 as [_ H1]. lia.
  - split; [auto|]. lia.
  - destruct H1 as [_ H1]. lia.
Qed.

Section LE.
Variable c : cfg.
Let h := c_host_le c.

Lemma header_prim_get : forall fs pre f post p b, scoped [] fs -> fs = pre ++ f :: post ->
  Forall (fun g => f_len g = None) pre -> f_ty f = TPrim p ->
  get c fs (f_name f) b = rmap VInt (prim_get c (header_bits pre) p b (header_bits pre / 8)).
Proof.
  intros fs pre f post p b S E NL T. assert (FA := field_at_intro fs pre f post S E).
  rewrite (get_at c b _ _ _ _ FA). unfold field_get. rewrite T.
  unfold layout. rewrite (header_lens c b pre 0 [] [] NL).
  unfold current_offset. cbn [fold_left bind]. rewrite <- (header_bits_total pre). reflexivity.
Qed.

Lemma header_prim_set : forall fs pre f post p b v, scoped [] fs -> fs = pre ++ f :: post ->
  Forall (fun g => f_len g = None) pre -> f_ty f = TPrim p ->
  set c fs (f_name f) (VInt v) b = prim_set c (header_bits pre) p v (header_bits pre / 8) b.
Proof.
  intros fs pre f post p b v S E NL T. assert (FA := field_at_intro fs pre f post S E).
  unfold set. rewrite (find_at c b _ _ _ _ FA). unfold field_set. cbn [l_field l_bit l_lens]. rewrite T.
  unfold l_co, layout. cbn [l_bit l_lens]. rewrite (header_lens c b pre 0 [] [] NL).
  unfold current_offset. cbn [fold_left bind lift_set]. rewrite <- (header_bits_total pre). reflexivity.
Qed.

Lemma header_room : forall fs pre f post p b, scoped [] fs -> fs = pre ++ f :: post -> f_ty f = TPrim p ->
  supported (header_bits pre) (p_size p) -> new fs b = Some b ->
  0 <= header_bits pre /\ placed (header_bits pre mod 8) (p_size p) /\
  header_bits pre / 8 + span (header_bits pre) p <= minimum_packet_size fs /\
  minimum_packet_size fs <= blen b.
Proof.
  intros fs pre f post p b S E T [N A] NW.
  assert (SA := S). rewrite E in SA. apply scoped_app in SA. destruct SA as [S1 S2].
  assert (H1 := header_bits_pos _ _ S1). cbn [scoped] in S2. destruct S2 as (_ & _ & _ & S2).
  assert (H2 := header_bits_pos _ _ S2).
  assert (HT : header_bits fs = header_bits pre + p_size p + header_bits post).
  { rewrite E, header_bits_app. cbn [header_bits]. rewrite T. cbn [bit_width]. lia. }
  split; [auto|]. split; [repeat split; lia|].
  unfold new in NW. destruct (minimum_packet_size fs <=? blen b) eqn:Q; [|discriminate]. split; [|lia].
  unfold minimum_packet_size. rewrite <- (header_bits_total fs). unfold span, num_bytes.
  destruct ((0 <? header_bits pre mod 8) || negb (p_size p mod 8 =? 0)) eqn:Q1;
  destruct (header_bits fs mod 8 =? 0) eqn:Q2; lia.
Qed.

Theorem le_any_roundtrip : forall fs pre f post n e b v, scoped [] fs -> fs = pre ++ f :: post ->
  Forall (fun g => f_len g = None) pre -> f_ty f = TPrim (Prim n e) -> big_endian h e = false ->
  supported (header_bits pre) n -> le_lossless (header_bits pre mod 8) n ->
  buf_ok b -> new fs b = Some b -> 0 <= v ->
  exists b', set c fs (f_name f) (VInt v) b = (b', Ok tt) /\ length b' = length b /\
    get c fs (f_name f) b' = Ok (VInt (v mod 2 ^ n)).
Proof.
  intros fs pre f post n e b v S E NL T LE SP LL BO NW V.
  destruct (header_room fs pre f post (Prim n e) b S E T SP NW) as (H0 & PL & R1 & R2).
  rewrite (header_prim_set fs pre f post (Prim n e) b v) by auto.
  destruct (prim_roundtrip c (header_bits pre) (Prim n e) b v (header_bits pre / 8)) as (b' & X1 & X2 & X3 & X4);
    auto; try apply BO; try lia.
  { unfold lossless, is_big. cbn [p_end p_size].
    assert (Q : match e with Big => true | Little => false | Host => negb (c_host_le c) end = false).
    { unfold big_endian in LE. fold h. exact LE. }
    rewrite Q. apply lossless_symmetric; auto. }
  exists b'. split; [auto|]. split; [auto|].
  rewrite (header_prim_get fs pre f post (Prim n e) b') by auto. rewrite X4. reflexivity.
Qed.

(** Moving a buffer inside a larger one. *)
Lemma idx_in : forall P (b T : buf) i, 0 <= i < blen b -> idx (P ++ b ++ T) (blen P + i) = idx b i.
Proof.
  intros P b T i I. unfold idx, blen in *. rewrite !app_length.
  replace ((0 <=? Z.of_nat (length P) + i) && (Z.of_nat (length P) + i <? Z.of_nat (length P + (length b + length T)))) with true by lia.
  replace ((0 <=? i) && (i <? Z.of_nat (length b))) with true by lia.
  f_equal. rewrite app_nth2 by lia. rewrite app_nth1 by lia. f_equal. lia.
Qed.

Lemma add_small : forall m a i, 0 <= a -> 0 <= i -> a + i < 2 ^ 64 -> add_u m usize a i = Ok (a + i).
Proof.
  intros m a i A I U. unfold add_u, ovf, usize. replace ((0 <=? a + i) && (a + i <? 2 ^ 64)) with true by lia. reflexivity.
Qed.

Lemma get_multi_in : forall m w ops P b T i acc v, blen (P ++ b ++ T) < 2 ^ 63 -> 0 <= i -> i + Z.of_nat (length ops) < 2 ^ 63 ->
  get_multi m w ops b 0 i acc = Ok v -> get_multi m w ops (P ++ b ++ T) (blen P) i acc = Ok v.
Proof.
  intros m w ops. induction ops as [|op ops IH]; intros P b T i acc v U I UI G; cbn [get_multi] in *; [exact G|].
  cbn [length] in UI.
  rewrite add_small in G by (unfold blen in *; lia). rewrite add_small by (unfold blen in *; rewrite !app_length in U; lia).
  cbn [bind] in *. destruct (idx b (0 + i)) as [x|] eqn:IX; [|discriminate]. cbn [bind] in G.
  assert (IB : 0 <= i < blen b).
  { unfold idx in IX. destruct ((0 <=? 0 + i) && (0 + i <? blen b)) eqn:Q; [lia|discriminate]. }
  rewrite idx_in by lia. replace (0 + i) with i in IX by lia. rewrite IX. cbn [bind].
  destruct (eval_getop m w op x); [|discriminate]. cbn [bind] in *. apply IH; auto; lia.
Qed.

Lemma gen_get_in : forall m w ops P b T v, blen (P ++ b ++ T) < 2 ^ 63 -> Z.of_nat (length ops) < 2 ^ 62 ->
  gen_get_ops m w ops b 0 = Ok v -> gen_get_ops m w ops (P ++ b ++ T) (blen P) = Ok v.
Proof.
  intros m w ops P b T v U L G. destruct ops as [|op [|op2 ops]].
  - exact G.
  - cbn [gen_get_ops] in *. destruct (idx b 0) as [x|] eqn:IX; [|discriminate]. cbn [bind] in G.
    assert (IB : 0 <= 0 < blen b).
    { unfold idx in IX. destruct ((0 <=? 0) && (0 <? blen b)) eqn:Q; [lia|discriminate]. }
    assert (X := idx_in P b T 0 IB). replace (blen P + 0) with (blen P) in X by lia. rewrite X, IX. exact G.
  - apply get_multi_in; auto; lia.
Qed.

Lemma store_in : forall P (b T : buf) i x b', 0 <= i < blen b -> store b i x = (b', Ok tt) ->
  store (P ++ b ++ T) (blen P + i) x = (P ++ b' ++ T, Ok tt).
Proof.
  intros P b T i x b' I ST. unfold store, blen in *. rewrite !app_length.
  replace ((0 <=? Z.of_nat (length P) + i) && (Z.of_nat (length P) + i <? Z.of_nat (length P + (length b + length T)))) with true by lia.
  replace ((0 <=? i) && (i <? Z.of_nat (length b))) with true in ST by lia.
  inversion ST. f_equal. replace (Z.to_nat (Z.of_nat (length P) + i)) with (length P + Z.to_nat i)%nat by lia.
  assert (forall (P : buf) n l, upd_nat (P ++ l) (length P + n) x = P ++ upd_nat l n x).
  { induction P0; intros; cbn [length Nat.add upd_nat app]; auto. now rewrite IHP0. }
  rewrite H. f_equal.
  assert (forall n (l T : buf), (n < length l)%nat -> upd_nat (l ++ T) n x = upd_nat l n x ++ T).
  { induction n; intros [|y l] T' L; cbn [length upd_nat app] in *; try lia; auto. rewrite IHn by lia. reflexivity. }
  apply H1. lia.
Qed.

Lemma gen_set_in : forall m w ops P b T i v b', blen (P ++ b ++ T) < 2 ^ 63 -> 0 <= i -> i + Z.of_nat (length ops) < 2 ^ 63 ->
  gen_set_ops m w ops 0 i v b = (b', Ok tt) ->
  gen_set_ops m w ops (blen P) i v (P ++ b ++ T) = (P ++ b' ++ T, Ok tt).
Proof.
  intros m w ops. induction ops as [|op ops IH]; intros P b T i v b' U I UI G; cbn [gen_set_ops] in *.
  - unfold mret in *. inversion G. reflexivity.
  - cbn [length] in UI.
    rewrite add_small in G by (unfold blen in *; lia). rewrite add_small by (unfold blen in *; rewrite !app_length in U; lia).
    cbn [bind] in *. destruct (idx b (0 + i)) as [x|] eqn:IX; [|discriminate]. cbn [bind] in G.
    assert (IB : 0 <= i < blen b).
    { unfold idx in IX. destruct ((0 <=? 0 + i) && (0 + i <? blen b)) eqn:Q; [lia|discriminate]. }
    rewrite idx_in by lia. replace (0 + i) with i in IX by lia. rewrite IX. cbn [bind].
    destruct (eval_setop m w op x v) as [y|]; [|discriminate]. cbn [bind] in *.
    unfold mseq in *. replace (0 + i) with i in G by lia.
    destruct (store b i y) as [b1 [[]|]] eqn:ST; [|discriminate].
    rewrite (store_in P b T i y b1); auto.
    assert (LB : length b1 = length b).
    { assert (X := store_length b i y). rewrite ST in X. exact X. }
    apply IH; auto; try lia. unfold blen in *. rewrite !app_length in *. lia.
Qed.

Theorem le_any_lossy : forall fs pre f post n e, scoped [] fs -> fs = pre ++ f :: post ->
  Forall (fun g => f_len g = None) pre -> f_ty f = TPrim (Prim n e) -> big_endian h e = false ->
  supported (header_bits pre) n -> ~ le_lossless (header_bits pre mod 8) n -> header_bits fs < 2 ^ 32 ->
  exists b v b' v', buf_ok b /\ new fs b = Some b /\ 0 <= v < 2 ^ n /\
    set c fs (f_name f) (VInt v) b = (b', Ok tt) /\ get c fs (f_name f) b' = Ok (VInt v') /\ v' <> v.
Proof.
  intros fs pre f post n e S E NL T LE SP LL HB.
  assert (SA := S). rewrite E in SA. apply scoped_app in SA. destruct SA as [S1 S2].
  assert (H1 := header_bits_pos _ _ S1). cbn [scoped] in S2. destruct S2 as (_ & _ & _ & S2).
  assert (H2 := header_bits_pos _ _ S2).
  assert (HT : header_bits fs = header_bits pre + n + header_bits post).
  { rewrite E, header_bits_app. cbn [header_bits]. rewrite T. cbn [bit_width p_size]. lia. }
  destruct SP as [SP1 SP2]. assert (PL : placed (header_bits pre mod 8) n) by (repeat split; lia).
  destruct (le_lossy_small (c_mode c) (c_macro c) (header_bits pre mod 8) n PL) as (ops & b0 & b1 & v & v' & O1 & B0 & L0 & V & ST & GT & NE).
  { intros X. apply LL. apply lossless_symmetric; auto. }
  set (P := repeat 0 (Z.to_nat (header_bits pre / 8))).
  set (T' := repeat 0 (Z.to_nat (minimum_packet_size fs))).
  assert (LP : blen P = header_bits pre / 8) by (unfold P, blen; rewrite repeat_length; lia).
  assert (LT : blen T' = minimum_packet_size fs).
  { unfold T', blen. rewrite repeat_length. unfold minimum_packet_size. rewrite <- (header_bits_total fs).
    destruct (header_bits fs mod 8 =? 0); lia. }
  assert (MB : minimum_packet_size fs < 2 ^ 32).
  { unfold minimum_packet_size. rewrite <- (header_bits_total fs). destruct (header_bits fs mod 8 =? 0); lia. }
  assert (LB : blen (P ++ b0 ++ T') < 2 ^ 63).
  { unfold blen in *. rewrite !app_length. lia. }
  assert (PN : plan c (header_bits pre) (Prim n e) = Some ops).
  { unfold plan. cbn [p_size p_end]. unfold big_endian in LE.
    assert (EQ : operations (c_macro c) (c_host_le c) (header_bits pre mod 8) n e
               = operations (c_macro c) true (header_bits pre mod 8) n Little).
    { unfold operations. destruct ((7 <? header_bits pre mod 8) || (n =? 0) || (64 <? n)); [reflexivity|].
      f_equal. destruct e; [discriminate|reflexivity|]. unfold h in LE. destruct (c_host_le c); [reflexivity|discriminate]. }
    rewrite EQ, O1. reflexivity. }
  assert (OL : Z.of_nat (length ops) < 2 ^ 62).
  { destruct (operations_length _ _ _ _ _ _ O1) as [X|X]; unfold num_bytes in X;
    destruct ((0 <? header_bits pre mod 8) || negb (n mod 8 =? 0)); lia. }
  assert (L1 : length b1 = length b0).
  { assert (X := gen_set_ops_length (c_mode c) (container n) (to_mutator ops) 0 0 v b0). rewrite ST in X. exact X. }
  exists (P ++ b0 ++ T'), v, (P ++ b1 ++ T'), v'.
  split; [split; [|exact LB]|].
  { unfold bytes_ok. rewrite !Forall_app. split; [|split; [exact B0|]];
    unfold P, T'; apply Forall_forall; intros x IN; apply repeat_spec in IN; subst; unfold byte_ok; lia. }
  split.
  { unfold new. replace (minimum_packet_size fs <=? blen (P ++ b0 ++ T')) with true; [reflexivity|].
    unfold blen in *. rewrite !app_length. lia. }
  split; [auto|]. split; [|split; [|auto]].
  - rewrite (header_prim_set fs pre f post (Prim n e)) by auto. unfold prim_set. rewrite PN. cbn [p_size].
    rewrite <- LP. apply gen_set_in; auto; [lia|]. unfold to_mutator. rewrite map_length. lia.
  - rewrite (header_prim_get fs pre f post (Prim n e)) by auto. unfold prim_get. rewrite PN. cbn [p_size].
    rewrite <- LP. rewrite (gen_get_in _ _ _ _ _ _ v'); auto. unfold blen in *. rewrite !app_length in *. lia.
Qed.

End LE.

(** Proofs about variable-length fields, payloads, sizes and iterators of an
    arbitrary packet description. *)
From Coq Require Import String ZArith List Bool Lia ZifyBool ZifyNat.
From Verif Require Import Base BitSpec DeriveUtil DeriveOps BaseFacts BitFacts
  DeriveUtilProofs DeriveOpsProofs DeriveLEProofs DeriveGen SpecPacket DeriveGenProofs DeriveInvProofs
  DeriveAccProofs.
Import ListNotations.
Open Scope Z_scope.
Ltac Zify.zify_post_hook ::= Z.to_euclidean_division_equations.

(** ** Offsets *)

Lemma fold_offset_panic : forall c lens e,
  fold_left (fun acc l => a <- acc ;; x <- l ;; add_u (c_mode c) usize a x) lens (Panic e) = Panic e.
Proof. induction lens; intros; cbn [fold_left bind]; auto. Qed.

Lemma fold_offset_inv : forall c lens a n, 
  fold_left (fun acc l => a <- acc ;; x <- l ;; add_u (c_mode c) usize a x) lens (Ok a) = Ok n ->
  exists ns, lens = map Ok ns /\
    (Forall (fun z => 0 <= z) ns -> 0 <= a -> c_mode c = Checked -> n = a + zsum ns).
Proof.
  intros c. induction lens as [|l lens IH]; intros a n H.
  - cbn [fold_left] in H. injection H as <-. exists []. split; auto. cbn [zsum fold_right]. lia.
  - cbn [fold_left] in H. destruct l as [x|e]; cbn [bind] in H; [|rewrite fold_offset_panic in H; discriminate].
    destruct (add_u (c_mode c) usize a x) as [y|e] eqn:AD; [|rewrite fold_offset_panic in H; discriminate].
    destruct (IH y n H) as (ns & -> & E). exists (x :: ns). split; [reflexivity|].
    intros F A M. inversion F; subst. cbn [zsum fold_right]. fold (zsum ns).
    unfold add_u, ovf in AD. rewrite M in AD. destruct (_ && _) eqn:Q; [|discriminate].
    injection AD as <-. rewrite E by (auto; lia). lia.
Qed.

Lemma offset_inv : forall c bit lens n, current_offset c bit lens = Ok n ->
  exists ns, lens = map Ok ns /\
    (Forall (fun z => 0 <= z) ns -> 0 <= bit -> c_mode c = Checked -> n = bit / 8 + zsum ns).
Proof.
  intros c bit lens n H. unfold current_offset in H. apply fold_offset_inv in H.
  destruct H as (ns & E & F). exists ns. split; auto. intros. apply F; auto. lia.
Qed.

Lemma zsum_small : forall ns, Forall (fun z => 0 <= z < 2 ^ 32) ns ->
  0 <= zsum ns <= 2 ^ 32 * Z.of_nat (length ns).
Proof.
  induction 1; cbn [zsum fold_right length]; [lia|]. fold (zsum l). lia.
Qed.

Section Var.
Variable c : cfg.
Let h := c_host_le c.

Lemma clip_all : forall (b : buf) a n, blen b <= a + n -> 0 <= a -> 0 <= n ->
  clip b a n = skipn (Z.to_nat a) b.
Proof.
  intros b a n H A N. unfold clip. apply firstn_all2. rewrite skipn_length. unfold blen in H. lia.
Qed.

Lemma clip_past : forall (b : buf) a n, blen b <= a -> 0 <= n -> clip b a n = [].
Proof.
  intros b a n H N. unfold clip. rewrite skipn_all2 by (unfold blen in H; lia). now rewrite firstn_nil.
Qed.

(** The end of a field: the declared length, or everything. *)
Definition span_len (len : option (res Z)) (b : buf) (n : Z) : Prop :=
  len = Some (Ok n) \/ (len = None /\ n = blen b).

Lemma var_slice_spec : forall b a len n, 0 <= a -> 0 <= n -> a + n < 2 ^ 64 ->
  span_len len b n ->
  var_slice c (Ok a) len b = if a <=? blen b then Ok (clip b a n) else Panic EIndex.
Proof.
  intros b a len n A N U SL. unfold var_slice, var_range. cbn [bind].
  assert (LL : len_or_all len b = Ok n) by (destruct SL as [->|[-> ->]]; reflexivity).
  rewrite LL. cbn [bind]. rewrite add_u_in by (change usize with 64; lia). cbn [bind].
  destruct (a <=? blen b) eqn:Q.
  - rewrite slice_ok by lia. f_equal. unfold clip.
    destruct (Z.le_gt_cases (a + n) (blen b)).
    + rewrite Z.min_l by lia. f_equal. lia.
    + rewrite Z.min_r by lia. rewrite !firstn_all2; auto; rewrite skipn_length; unfold blen in *; lia.
  - apply slice_err. lia.
Qed.

Lemma bytes_clip : forall b a n, bytes_ok b -> bytes_ok (clip b a n).
Proof. intros. now apply bytes_firstn, bytes_skipn. Qed.

Lemma clip_blen : forall (b : buf) a n, blen (clip b a n) <= blen b.
Proof. intros. unfold clip, blen. rewrite firstn_length, skipn_length. lia. Qed.

(** *** Getters of variable fields *)
Theorem get_var : forall b fs n pre f ns len, field_at fs n pre f ->
  0 <= total_bits pre -> bytes_ok b -> blen b < 2 ^ 63 ->
  all_lens (layout c b pre) = map Ok ns -> Forall (fun z => 0 <= z) ns ->
  span_len (len_of c b pre f) b len -> 0 <= len ->
  total_bits pre / 8 + zsum ns + len < 2 ^ 64 ->
  let a := total_bits pre / 8 + zsum ns in
  get_raw c fs n b = (if a <=? blen b then Ok (clip b a len) else Panic EIndex) /\
  get_iter c fs n b = (if a <=? blen b then Ok (clip b a len) else Panic EIndex) /\
  match f_ty f with
  | TVecPrim p => p_size p = 8 ->
      get c fs n b = (if a <=? blen b then Ok (VBytes (clip b a len)) else Panic EIndex)
  | TVecPkt k =>
      get c fs n b = (if a <=? blen b then rmap VPkts (iter_all k (k_from k) (clip b a len)) else Panic EIndex)
  | _ => True
  end.
Proof.
  intros b fs n pre f ns len AT BI B L AL NS SL LN U a.
  assert (0 <= zsum ns) by now apply zsum_nonneg.
  assert (CO : current_offset c (total_bits pre) (map Ok ns) = Ok a).
  { unfold a. apply current_offset_ok; auto. lia. }
  assert (VS := var_slice_spec b a (len_of c b pre f) len ltac:(unfold a; lia) LN U SL).
  assert (RAW : get_raw c fs n b = (if a <=? blen b then Ok (clip b a len) else Panic EIndex)).
  { unfold get_raw, raw_range. rewrite (find_at c b fs n pre f AT). unfold l_co. cbn [l_bit l_lens l_len].
    rewrite AL, CO. exact VS. }
  split; [exact RAW|]. split; [exact RAW|].
  rewrite (get_at c b fs n pre f AT), AL. unfold field_get. rewrite CO.
  destruct (f_ty f) as [p|args|p|k]; auto.
  - intros S8. rewrite VS. destruct (_ <=? _); [|reflexivity]. cbn [bind].
    rewrite vec_get_u8_all; auto using bytes_clip. assert (X := clip_blen b a len). lia.
  - rewrite VS. destruct (_ <=? _); reflexivity.
Qed.

(** A field whose offset or length cannot be computed panics. *)
Theorem get_var_panics : forall b fs n pre f e, field_at fs n pre f -> is_vec (f_ty f) = true ->
  (current_offset c (total_bits pre) (all_lens (layout c b pre)) = Panic e \/
   ((exists a, current_offset c (total_bits pre) (all_lens (layout c b pre)) = Ok a) /\
    len_of c b pre f = Some (Panic e))) ->
  get c fs n b = Panic e /\ get_raw c fs n b = Panic e.
Proof.
  intros b fs n pre f e AT V H.
  rewrite (get_at c b fs n pre f AT). unfold get_raw, raw_range. rewrite (find_at c b fs n pre f AT).
  unfold l_co, field_get, var_slice, var_range. cbn [l_bit l_lens l_len].
  destruct (f_ty f); try discriminate; (destruct H as [->|[[a ->] ->]]; split; reflexivity).
Qed.

(** *** Setters of byte vectors *)
Theorem set_bytes : forall b fs n pre f p ns vs, field_at fs n pre f ->
  f_ty f = TVecPrim p -> p_size p = 8 ->
  0 <= total_bits pre -> bytes_ok b -> blen b < 2 ^ 63 -> blen vs < 2 ^ 63 ->
  all_lens (layout c b pre) = map Ok ns -> Forall (fun z => 0 <= z) ns ->
  total_bits pre / 8 + zsum ns < 2 ^ 63 ->
  let a := total_bits pre / 8 + zsum ns in
  set c fs n (VBytes vs) b =
  match len_of c b pre f with
  | Some (Panic e) => (b, Panic e)
  | Some (Ok len) =>
      if blen vs <=? len
      then (if a + blen vs <=? blen b then (splice b (Z.to_nat a) vs, Ok tt) else (b, Panic EIndex))
      else (b, Panic EAssert)
  | None => if a + blen vs <=? blen b then (splice b (Z.to_nat a) vs, Ok tt) else (b, Panic EIndex)
  end.
Proof.
  intros b fs n pre f p ns vs AT TY S8 BI B L LV AL NS U a.
  assert (0 <= zsum ns) by now apply zsum_nonneg.
  assert (CO : current_offset c (total_bits pre) (map Ok ns) = Ok a).
  { unfold a. apply current_offset_ok; auto. lia. }
  assert (CP : copy_at (c_mode c) b a vs =
    if a + blen vs <=? blen b then (splice b (Z.to_nat a) vs, Ok tt) else (b, Panic EIndex)).
  { unfold copy_at. assert (V := blen_nonneg vs).
    rewrite add_u_in by (change usize with 64; unfold a; lia).
    replace ((0 <=? a) && (a <=? a + blen vs)) with true by (unfold a; lia). cbn [andb].
    replace (a + blen vs - a =? blen vs) with true by lia. reflexivity. }
  unfold set. rewrite (find_at c b fs n pre f AT). unfold field_set. cbn [l_field]. rewrite TY.
  unfold l_co, lift_set. cbn [l_bit l_lens l_len]. rewrite AL, CO, S8. cbn [Z.eqb Pos.eqb].
  destruct (len_of c b pre f) as [[len|e]|]; cbn [bind].
  - destruct (blen vs <=? len); [exact CP|reflexivity].
  - reflexivity.
  - exact CP.
Qed.

(** *** Payload *)
Lemma payload_find : forall b fs pre f, payload_at fs pre f ->
  find (fun l => f_payload (l_field l)) (layout c b fs) =
  Some (Loc f (total_bits pre) (all_lens (layout c b pre)) (len_of c b pre f)
          (field_get c f (total_bits pre) (all_lens (layout c b pre)) (len_of c b pre f) b)).
Proof.
  intros b fs pre f ((post & ->) & P & NP). unfold layout at 1. rewrite layout_app. fold (layout c b pre).
  assert (FA : forall l1 l2, Forall (fun x => f_payload (l_field x) = false) l1 ->
    find (fun l => f_payload (l_field l)) (l1 ++ l2) = find (fun l => f_payload (l_field l)) l2).
  { induction l1 as [|x l1 IH]; intros l2 H; [reflexivity|]. inversion H as [|? ? H1 H2]; subst.
    cbn [app find]. rewrite H1. now apply IH. }
  rewrite FA.
  - cbn [app layout_from find l_field]. rewrite P. reflexivity.
  - rewrite <- (layout_fields c b pre 0 [] []) in NP. fold (layout c b pre) in NP.
    rewrite Forall_map in NP. exact NP.
Qed.

Lemma payload_window_spec : forall b fs pre f ns len, payload_at fs pre f ->
  0 <= total_bits pre -> blen b < 2 ^ 63 ->
  all_lens (layout c b pre) = map Ok ns -> Forall (fun z => 0 <= z) ns ->
  span_len (len_of c b pre f) b len -> 0 <= len ->
  total_bits pre / 8 + zsum ns + len < 2 ^ 64 ->
  let a := total_bits pre / 8 + zsum ns in
  payload_window c fs b = Ok (if blen b <=? a then None else Some (a, Z.min (a + len) (blen b))).
Proof.
  intros b fs pre f ns len AT BI L AL NS SL LN U a.
  assert (0 <= zsum ns) by now apply zsum_nonneg.
  assert (CO : current_offset c (total_bits pre) (map Ok ns) = Ok a).
  { unfold a. apply current_offset_ok; auto. lia. }
  unfold payload_window, payload_bounds. rewrite (payload_find b fs pre f AT).
  unfold l_co. cbn [l_bit l_lens l_len]. rewrite AL, CO. cbn [bind].
  destruct SL as [->|[-> ->]]; cbn [bind].
  - rewrite add_u_in by (change usize with 64; unfold a; lia). cbn [bind].
    destruct (blen b <=? a) eqn:Q; [reflexivity|].
    rewrite slice_ok by (unfold a in *; lia). reflexivity.
  - destruct (blen b <=? a) eqn:Q; [reflexivity|].
    rewrite slice_ok by (unfold a in *; lia). cbn [bind].
    do 3 f_equal. unfold a in *. lia.
Qed.

Theorem payload_spec : forall b fs pre f ns len, payload_at fs pre f ->
  0 <= total_bits pre -> blen b < 2 ^ 63 ->
  all_lens (layout c b pre) = map Ok ns -> Forall (fun z => 0 <= z) ns ->
  span_len (len_of c b pre f) b len -> 0 <= len ->
  total_bits pre / 8 + zsum ns + len < 2 ^ 64 ->
  payload c fs b = Ok (clip b (total_bits pre / 8 + zsum ns) len).
Proof.
  intros b fs pre f ns len AT BI L AL NS SL LN U.
  assert (0 <= zsum ns) by now apply zsum_nonneg.
  unfold payload. rewrite (payload_window_spec b fs pre f ns len) by auto. cbn [bind].
  set (a := total_bits pre / 8 + zsum ns) in *.
  destruct (blen b <=? a) eqn:Q.
  - rewrite clip_past by lia. reflexivity.
  - rewrite slice_ok by lia. f_equal. unfold clip.
    destruct (Z.le_gt_cases (a + len) (blen b)).
    + rewrite Z.min_l by lia. f_equal. lia.
    + rewrite Z.min_r by lia. rewrite !firstn_all2; auto; rewrite skipn_length; unfold blen in *; lia.
Qed.

Theorem payload_mut_spec : forall b fs pre f ns len at_ data, payload_at fs pre f ->
  0 <= total_bits pre -> blen b < 2 ^ 63 ->
  all_lens (layout c b pre) = map Ok ns -> Forall (fun z => 0 <= z) ns ->
  span_len (len_of c b pre f) b len -> 0 <= len ->
  total_bits pre / 8 + zsum ns + len < 2 ^ 64 ->
  let a := total_bits pre / 8 + zsum ns in
  (at_ <= length (clip b a len))%nat ->
  payload_mut_write c fs at_ data b =
    if (at_ + length data <=? length (clip b a len))%nat
    then (firstn (Z.to_nat a) b ++ splice (clip b a len) at_ data ++ skipn (Z.to_nat a + length (clip b a len)) b, Ok tt)
    else (b, Panic EIndex).
Proof.
  intros b fs pre f ns len at_ data AT BI L AL NS SL LN U a AL'.
  assert (0 <= zsum ns) by now apply zsum_nonneg.
  unfold payload_mut_write. rewrite (payload_window_spec b fs pre f ns len) by auto.
  fold a. destruct (blen b <=? a) eqn:Q.
  - rewrite clip_past in * by lia. cbn [length] in *. assert (at_ = 0%nat) by lia. subst at_.
    destruct data; [|reflexivity]. cbn [length Nat.add Nat.leb splice firstn skipn app].
    now rewrite Nat.add_0_r, firstn_skipn.
  - assert (CL : Z.of_nat (length (clip b a len)) = Z.min (a + len) (blen b) - a).
    { unfold clip. rewrite firstn_length, skipn_length. unfold blen in *. lia. }
    destruct (Z.of_nat at_ + blen data <=? Z.min (a + len) (blen b) - a) eqn:R.
    + replace ((at_ + length data <=? length (clip b a len))%nat) with true by (unfold blen in *; lia).
      f_equal. unfold splice. unfold clip at 1 2.
      assert (FB : firstn (Z.to_nat a + at_) b
        = firstn (Z.to_nat a) b ++ firstn at_ (firstn (Z.to_nat len) (skipn (Z.to_nat a) b))).
      { rewrite firstn_firstn. rewrite Nat.min_l.
        - rewrite <- (firstn_skipn (Z.to_nat a) b) at 1. rewrite firstn_app.
          rewrite firstn_length. f_equal.
          + rewrite firstn_firstn. f_equal. unfold blen in *. lia.
          + f_equal. unfold blen in *. lia.
        - unfold clip in CL. rewrite firstn_length in CL. unfold blen in *. lia. }
      rewrite FB, <- !app_assoc. do 3 f_equal.
      rewrite skipn_firstn_comm, skipn_skipn'.
      rewrite <- (firstn_skipn (length (clip b a len) - (at_ + length data))
                    (skipn (Z.to_nat a + at_ + length data) b)) at 1.
      f_equal.
      * replace (Z.to_nat a + (at_ + length data))%nat with (Z.to_nat a + at_ + length data)%nat by lia.
        destruct (Z.le_gt_cases (a + len) (blen b)).
        -- f_equal. lia.
        -- rewrite !firstn_all2; auto; rewrite skipn_length; unfold blen in *; lia.
      * rewrite skipn_skipn'. f_equal. unfold blen in *. lia.
    + replace ((at_ + length data <=? length (clip b a len))%nat) with false by (unfold blen in *; lia).
      reflexivity.
Qed.

Theorem payload_none : forall b fs, Forall (fun f => f_payload f = false) fs ->
  payload c fs b = Ok [].
Proof.
  intros b fs NP. unfold payload, payload_window, payload_bounds.
  rewrite <- (layout_fields c b fs 0 [] []) in NP. fold (layout c b fs) in NP.
  rewrite Forall_map in NP.
  assert (FN : find (fun l => f_payload (l_field l)) (layout c b fs) = None).
  { induction NP as [|x l H1 H2 IH]; [reflexivity|]. cbn [find]. now rewrite H1. }
  rewrite FN. cbn [bind]. assert (X := blen_nonneg b).
  destruct (blen b <=? 0) eqn:Q; [reflexivity|].
  rewrite slice_ok by lia. cbn [bind]. rewrite slice_ok by lia.
  f_equal. rewrite Z.min_l by lia. reflexivity.
Qed.

(** ** Sizes *)

Theorem packet_size_spec : forall b fs ns, 0 <= total_bits fs ->
  all_lens (layout c b fs) = map Ok ns -> Forall (fun z => 0 <= z) ns ->
  total_bits fs / 8 + zsum ns < 2 ^ 64 ->
  packet_size c fs b = Ok (total_bits fs / 8 + zsum ns).
Proof. intros b fs ns T AL NS U. unfold packet_size. rewrite AL. now apply current_offset_ok. Qed.

Lemma packet_size_inv : forall b fs n, packet_size c fs b = Ok n ->
  exists ns, all_lens (layout c b fs) = map Ok ns.
Proof. intros b fs n H. unfold packet_size in H. apply offset_inv in H. destruct H as (ns & E & _). eauto. Qed.

(** Lengths that only look at header fields: the size depends on the header
    only. *)
Definition header_len (fs : schema) (f : field) : Prop :=
  match f_len f with
  | None => True
  | Some le => exists ns, reads_only le ns /\
      forall n, In n ns -> exists pre g, header_at c fs n pre g
  end.

Lemma lookup_names : forall b fs n,
  lookup (names_of (layout c b fs)) n =
  match find_field c b fs n with Some l => l_get l | None => Panic EDiverge end.
Proof.
  intros b fs n. unfold lookup, names_of, find_field. induction (layout c b fs) as [|l ls IH]; [reflexivity|].
  cbn [map find fst]. destruct (String.eqb _ _); [reflexivity|exact IH].
Qed.

Lemma find_absent : forall b fs n, ~ In n (map f_name fs) -> find_field c b fs n = None.
Proof.
  intros b fs n NI. unfold find_field. destruct (find _ _) as [l|] eqn:F; [|reflexivity].
  apply find_some in F. destruct F as [F1 F2]. apply String.eqb_eq in F2. exfalso. apply NI.
  rewrite <- F2. apply in_map. rewrite <- (layout_fields c b fs 0 [] []). now apply in_map.
Qed.

Lemma field_at_prefix : forall fs n pre f p q, field_at fs n pre f -> fs = p ++ q ->
  field_at p n pre f \/ ~ In n (map f_name p).
Proof.
  intros fs n pre f p q ((post & ->) & N & NI) E.
  destruct (Nat.le_gt_cases (length p) (length pre)) as [LE|GT].
  - right. assert (exists m, pre = p ++ m) as (m & ->).
    { exists (skipn (length p) pre). rewrite <- (firstn_skipn (length p) pre) at 1. f_equal.
      assert (X := f_equal (firstn (length p)) E).
      rewrite !firstn_app, Nat.sub_diag, firstn_all, firstn_O, app_nil_r in X.
      replace (length p - length pre)%nat with 0%nat in X by lia. rewrite firstn_O, app_nil_r in X. exact X. }
    intros IN. apply NI. rewrite map_app. apply in_or_app. auto.
  - left. split; [|auto].
    assert (exists m, p = (pre ++ [f]) ++ m) as (m & ->).
    { exists (skipn (length (pre ++ [f])) p).
      rewrite <- (firstn_skipn (length (pre ++ [f])) p) at 1. f_equal.
      assert (X := f_equal (firstn (length (pre ++ [f]))) E).
      replace (pre ++ f :: post) with ((pre ++ [f]) ++ post) in X by (now rewrite <- app_assoc).
      rewrite firstn_app_exact in X by reflexivity.
      rewrite firstn_app in X. rewrite app_length in *. cbn [length] in *.
      replace (length pre + 1 - length p)%nat with 0%nat in X by lia.
      rewrite firstn_O, app_nil_r in X. symmetry. exact X. }
    exists m. now rewrite <- app_assoc.
Qed.

Theorem packet_size_header : forall fs b b', Forall (header_len fs) fs ->
  buf_ok b -> buf_ok b' -> new fs b = Some b -> new fs b' = Some b' ->
  firstn (Z.to_nat (minimum_packet_size fs)) b = firstn (Z.to_nat (minimum_packet_size fs)) b' ->
  packet_size c fs b = packet_size c fs b'.
Proof.
  intros fs b b' HL BO BO' NW NW' EQ.
  assert (GE : forall n pre g, header_at c fs n pre g -> get c fs n b = get c fs n b').
  { intros n pre g HA. rewrite (get_header c fs n pre g b), (get_header c fs n pre g b') by auto.
    do 2 f_equal.
    destruct (header_bounds c _ _ _ _ _ HA NW) as (P1 & P2 & P3).
    unfold field_bits.
    assert (FB : forall x, firstn (Z.to_nat (fixed_bits (f_ty g))) (skipn (Z.to_nat (total_bits pre)) (bits_of x))
      = firstn (Z.to_nat (fixed_bits (f_ty g))) (skipn (Z.to_nat (total_bits pre))
          (bits_of (firstn (Z.to_nat (minimum_packet_size fs)) x)))).
    { intros x. rewrite bits_firstn, skipn_firstn_comm, firstn_firstn. f_equal.
      assert (NF : 0 <= fixed_bits (f_ty g)).
      { destruct HA as (((post & E) & _) & _ & _ & NN). subst fs. apply Forall_app in NN.
        destruct NN as [_ NN]. now inversion NN. }
      unfold minimum_packet_size. destruct (total_bits fs mod 8 =? 0) eqn:Q; lia. }
    rewrite (FB b), (FB b'), EQ. reflexivity. }
  unfold packet_size. f_equal.
  assert (G : forall q p, fs = p ++ q -> all_lens (layout c b p) = all_lens (layout c b' p) ->
     all_lens (layout c b fs) = all_lens (layout c b' fs)).
  { induction q as [|f q IH]; intros p E AL.
    - rewrite app_nil_r in E. now subst p.
    - apply (IH (p ++ [f])); [now rewrite <- app_assoc|].
      unfold layout in *. rewrite !layout_app. unfold all_lens in *. rewrite !flat_map_app. rewrite AL. f_equal.
      cbn [layout_from flat_map l_len app]. 
      assert (HF : header_len fs f).
      { rewrite Forall_forall in HL. apply HL. rewrite E. apply in_or_app. cbn. auto. }
      unfold header_len in HF. destruct (f_len f) as [le|]; [|reflexivity]. do 2 f_equal.
      destruct HF as (ns & RO & HN). apply RO. intros n IN. destruct (HN n IN) as (pre & g & HA).
      cbn [app]. fold (layout c b p). fold (layout c b' p). rewrite !lookup_names.
      destruct HA as [AT REST].
      destruct (field_at_prefix fs n pre g p (f :: q) AT E) as [PA|NI].
      + assert (X := GE n pre g (conj AT REST)). unfold get in X.
        rewrite (find_at c b fs n pre g AT), (find_at c b' fs n pre g AT) in X.
        rewrite (find_at c b p n pre g PA), (find_at c b' p n pre g PA). exact X.
      + rewrite !find_absent by auto. reflexivity. }
  apply (G fs []); reflexivity.
Qed.

(** ** Length preservation *)

Lemma keeps_lift : forall r f, (forall x, keeps (f x)) -> keeps (lift_set r f).
Proof. intros [x|e] f H b; cbn [lift_set fst]; auto. apply H. Qed.

Lemma keeps_prim : forall bit p v co, keeps (prim_set c bit p v co).
Proof. intros bit p v co b. apply prim_set_length. Qed.

Lemma keeps_misc : forall args vs bit lens, keeps (misc_set c args vs bit lens).
Proof.
  induction args as [|p args IH]; intros [|v vs] bit lens b; cbn [misc_set]; auto.
  apply mseq_length.
  - apply keeps_lift. intros; apply keeps_prim.
  - intros b'. apply IH.
Qed.

Lemma keeps_vec : forall p vs co, keeps (vec_set_loop c p vs co).
Proof.
  intros p. induction vs as [|v vs IH]; intros co b; cbn [vec_set_loop]; auto.
  apply mseq_length.
  - apply keeps_prim.
  - apply keeps_lift. intros; apply IH.
Qed.

Lemma keeps_copy : forall m lo vs, keeps (fun b => copy_at m b lo vs).
Proof.
  intros m lo vs b. unfold copy_at. destruct (add_u m usize lo (blen vs)) as [hi|]; [|reflexivity].
  destruct (_ && _) eqn:Q; [|reflexivity]. destruct (_ =? _) eqn:R; [|reflexivity].
  cbn [fst]. apply splice_length. unfold blen in *. lia.
Qed.

Lemma keeps_pkts : forall k vs co e, (forall x, keeps (k_populate k x)) -> keeps (pkts_set_loop c k vs co e).
Proof.
  intros k vs co e K. revert co. induction vs as [|v vs IH]; intros co b; cbn [pkts_set_loop]; [reflexivity|].
  destruct (slice_from b co) as [t|]; [|reflexivity]. destruct (_ <? _); [reflexivity|].
  apply mseq_length.
  - intros b'. apply on_tail_length. apply K.
  - intros b'. destruct (bind _ _) as [co'|]; [|reflexivity].
    destruct (_ <=? _); [apply IH|reflexivity].
Qed.

Lemma keeps_field : forall l v, keeps_inner (f_ty (l_field l)) -> keeps (field_set c l v).
Proof.
  intros l v K b. unfold field_set. destruct (f_ty (l_field l)) as [p|args|p|k]; destruct v; try reflexivity.
  - apply keeps_lift. intros; apply keeps_prim.
  - apply keeps_misc.
  - apply (keeps_lift (l_co c l)). intros co b'.
    destruct (match l_len l with Some _ => _ | None => _ end); [|reflexivity].
    destruct (_ =? _); [apply (keeps_copy (c_mode c) co l0)|apply keeps_vec].
  - apply (keeps_lift (l_co c l)). intros co b'.
    destruct (bind _ _); [|reflexivity]. now apply keeps_pkts.
Qed.

Theorem set_keeps : forall fs n v, Forall (fun f => keeps_inner (f_ty f)) fs -> keeps (set c fs n v).
Proof.
  intros fs n v K b. unfold set. destruct (find_field c b fs n) as [l|] eqn:F; [|reflexivity].
  apply keeps_field. unfold find_field in F. apply find_some in F. destruct F as [F _].
  rewrite Forall_forall in K. apply K. rewrite <- (layout_fields c b fs 0 [] []). now apply in_map.
Qed.

Theorem populate_keeps : forall fs vs, Forall (fun f => keeps_inner (f_ty f)) fs -> keeps (populate c fs vs).
Proof.
  intros fs vs K. unfold populate. generalize 0%nat. induction vs as [|v vs IH]; intros i b; [reflexivity|].
  cbn [populate_from]. apply mseq_length; [|intros b'; apply IH].
  intros b'. destruct (nth_error (layout c b' fs) i) as [l|] eqn:F; [|reflexivity].
  apply keeps_field. apply nth_error_In in F.
  rewrite Forall_forall in K. apply K. rewrite <- (layout_fields c b' fs 0 [] []). now apply in_map.
Qed.

Corollary sem_keeps : forall fs, Forall (fun f => keeps_inner (f_ty f)) fs ->
  keeps_inner (TVecPkt (sem_of c fs)).
Proof. intros fs K x. now apply populate_keeps. Qed.

(** ** Vectors of wider integers *)

Lemma vec_get_wide : forall p s k co, p_size p mod 8 = 0 -> 16 <= p_size p <= 64 ->
  bytes_ok s -> blen s < 2 ^ 32 -> 0 <= co < 2 ^ 60 -> Z.of_nat k < 2 ^ 32 -> (0 < k)%nat ->
  co + 8 * Z.of_nat k < 2 ^ 60 ->
  blen s < co + Z.of_nat k * (p_size p / 8) ->
  vec_get_loop c p s k co = Panic EIndex.
Proof.
  intros p s k. induction k as [|k IH]; intros co M P B L CO KL K U H; [lia|].
  cbn [vec_get_loop].
  assert (PL : place_ok (c_host_le c) 0 (Prim (p_size p) Big)).
  { split; cbn [p_size p_end big_endian]; lia. }
  destruct (Z.le_gt_cases (co + p_size p / 8) (blen s)) as [Q|Q].
  - rewrite prim_get_dec by (auto; cbn [p_size]; lia). cbn [bind].
    rewrite add_u_in by (change usize with 64; lia). cbn [bind].
    rewrite IH; auto; lia.
  - rewrite prim_get_out by (auto; cbn [p_size]; lia). reflexivity.
Qed.

Theorem get_wide_panics : forall b fs n pre f p ns len, field_at fs n pre f ->
  f_ty f = TVecPrim p -> p_size p mod 8 = 0 -> 16 <= p_size p <= 64 ->
  0 <= total_bits pre -> bytes_ok b -> blen b < 2 ^ 32 ->
  all_lens (layout c b pre) = map Ok ns -> Forall (fun z => 0 <= z) ns ->
  span_len (len_of c b pre f) b len -> 0 <= len ->
  total_bits pre / 8 + zsum ns + len < 2 ^ 64 ->
  clip b (total_bits pre / 8 + zsum ns) len <> [] ->
  get c fs n b = Panic EIndex.
Proof.
  intros b fs n pre f p ns len AT TY M P BI B L AL NS SL LN U NE.
  assert (0 <= zsum ns) by now apply zsum_nonneg.
  rewrite (get_at c b fs n pre f AT), AL. unfold field_get. rewrite TY.
  rewrite current_offset_ok by (auto; lia).
  set (a := total_bits pre / 8 + zsum ns) in *.
  rewrite (var_slice_spec b a (len_of c b pre f) len) by (auto; lia).
  destruct (a <=? blen b); [|reflexivity]. cbn [bind].
  assert (CB := clip_blen b a len).
  rewrite vec_get_wide; auto using bytes_clip; try (unfold blen in *; lia).
  - destruct (clip b a len); [congruence|cbn [length]; lia].
  - assert (0 < blen (clip b a len)).
    { destruct (clip b a len); [congruence|unfold blen; cbn [length]; lia]. }
    unfold blen in *. nia.
Qed.

Lemma vec_set_wide : forall p vs co b, p_size p mod 8 = 0 -> 8 <= p_size p <= 64 ->
  Forall (fun z => 0 <= z) vs -> bytes_ok b -> blen b < 2 ^ 63 -> 0 <= co ->
  co + blen vs * (p_size p / 8) <= blen b ->
  exists b', vec_set_loop c p vs co b = (b', Ok tt) /\
    bits_written b (Z.to_nat (8 * co)) (flat_map (bits_of_Z (Z.to_nat (p_size p))) vs) b'.
Proof.
  intros p vs. induction vs as [|v vs IH]; intros co b M P V B L CO H.
  - exists b. split; [reflexivity|]. now apply bits_written_nil.
  - inversion V; subst. cbn [vec_set_loop flat_map]. unfold mseq.
    assert (PL : place_ok (c_host_le c) 0 (Prim (p_size p) Big)).
    { split; cbn [p_size p_end big_endian]; lia. }
    assert (BV : blen (v :: vs) = 1 + blen vs) by (unfold blen; cbn [length]; lia).
    assert (VN := blen_nonneg vs).
    assert (HM : co + p_size p / 8 + blen vs * (p_size p / 8) <= blen b) by nia.
    assert (0 <= blen vs * (p_size p / 8)) by nia.
    destruct (prim_set_enc c 0 (Prim (p_size p) Big) b co v PL) as (b1 & E1 & W1);
      cbn [p_size] in *; auto; try lia.
    rewrite E1. unfold lift_set. rewrite add_u_in by (change usize with 64; lia).
    assert (W1' := W1). destruct W1' as (L1 & B1 & _).
    assert (BL : blen b1 = blen b) by (unfold blen; lia).
    destruct (IH (co + p_size p / 8) b1) as (b2 & E2 & W2); auto; try lia.
    exists b2. split; [exact E2|].
    unfold enc_prim in W1. cbn [p_end p_size big_endian] in W1.
    assert (FL : length (flat_map (bits_of_Z (Z.to_nat (p_size p))) vs)
                 = (length vs * Z.to_nat (p_size p))%nat).
    { clear. induction vs; [reflexivity|]. cbn [flat_map length]. rewrite app_length, bits_of_Z_length, IHvs. lia. }
    eapply bits_written_app.
    + rewrite bits_of_Z_length, FL. unfold blen in *.
      assert (Z.of_nat (length vs * Z.to_nat (p_size p)) = 8 * (Z.of_nat (length vs) * (p_size p / 8))) by nia.
      lia.
    + replace (Z.to_nat (8 * co)) with (Z.to_nat (8 * co + 0 mod 8)) by (f_equal; lia). exact W1.
    + rewrite bits_of_Z_length.
      replace (Z.to_nat (8 * co) + Z.to_nat (p_size p))%nat with (Z.to_nat (8 * (co + p_size p / 8))) by lia.
      exact W2.
Qed.

(** What the setter of a vector of wider integers does. *)
Theorem set_wide : forall b fs n pre f p ns len vs, field_at fs n pre f ->
  f_ty f = TVecPrim p -> p_size p mod 8 = 0 -> 16 <= p_size p <= 64 ->
  0 <= total_bits pre -> bytes_ok b -> blen b < 2 ^ 63 -> Forall (fun z => 0 <= z) vs ->
  all_lens (layout c b pre) = map Ok ns -> Forall (fun z => 0 <= z) ns ->
  len_of c b pre f = Some (Ok len) -> blen vs <= len ->
  total_bits pre / 8 + zsum ns + blen vs * (p_size p / 8) <= blen b ->
  exists b', set c fs n (VBytes vs) b = (b', Ok tt) /\
    bits_written b (Z.to_nat (8 * (total_bits pre / 8 + zsum ns)))
      (flat_map (bits_of_Z (Z.to_nat (p_size p))) vs) b'.
Proof.
  intros b fs n pre f p ns len vs AT TY M P BI B L V AL NS LN LV H.
  assert (0 <= zsum ns) by now apply zsum_nonneg.
  assert (0 <= blen vs * (p_size p / 8)) by (assert (X := blen_nonneg vs); nia).
  unfold set. rewrite (find_at c b fs n pre f AT). unfold field_set. cbn [l_field]. rewrite TY.
  unfold l_co, lift_set. cbn [l_bit l_lens l_len]. rewrite AL, LN.
  rewrite current_offset_ok by (auto; lia). cbn [bind].
  replace (blen vs <=? len) with true by lia.
  replace (p_size p =? 8) with false by lia.
  apply vec_set_wide; auto; lia.
Qed.

(** ** Size of a struct *)

Definition byte_counts (xs : list val) : list Z :=
  flat_map (fun x => match x with VBytes l => [blen l] | _ => [] end) xs.

Lemma struct_size_bytes : forall ie iw (lok : lenexpr -> env -> buf -> list bool -> Prop) fs xs bit e T,
  no_pkts fs -> fits h ie iw lok fs xs bit e T ->
  Z.of_nat (length (encode h ie fs xs)) = total_bits fs + 8 * zsum (byte_counts xs) /\
  flat_map vec_count xs = map Ok (byte_counts xs) /\ Forall (fun z => 0 <= z) (byte_counts xs) /\
  0 <= total_bits fs.
Proof.
  intros ie iw lok fs. induction fs as [|f fs IH]; intros xs bit e T NP F.
  - destruct xs; [|contradiction]. cbn. repeat split; auto; lia.
  - destruct xs as [|x xs]; [contradiction|]. cbn [fits] in F. destruct F as (V & LN & R).
    inversion NP as [|? ? N1 N2]; subst. destruct (IH _ _ _ _ N2 R) as (I1 & I2 & I3 & I4).
    cbn [encode flat_map byte_counts total_bits fold_right]. fold (byte_counts xs). fold (total_bits fs).
    rewrite app_length, I2, zsum_app.
    unfold val_fits, enc_field in *.
    destruct (f_ty f) as [p|args|p|k] eqn:TY; try contradiction; destruct x as [z|l|l|l]; try contradiction;
      cbn [fixed_bits vec_count app map zsum fold_right vec_bytes].
    + destruct V as [_ PL]. assert (X := enc_prim_length c bit p z PL). fold h in X.
      assert (1 <= p_size p) by (destruct PL; lia).
      repeat split; auto; try lia.
    + destruct V as (VL & _ & PL). assert (X := enc_args_length c args l bit PL VL). fold h in X.
      assert (Y := args_bits_nonneg _ _ _ PL).
      repeat split; auto; lia.
    + rewrite bits_of_length. repeat split; auto; unfold blen; try lia.
      constructor; [lia|auto].
Qed.

Theorem struct_size : forall ie iw (lok : lenexpr -> env -> buf -> list bool -> Prop) fs xs T,
  no_pkts fs -> fits h ie iw lok fs xs 0 [] T ->
  Z.of_nat (length (encode h ie fs xs)) < 2 ^ 64 ->
  struct_packet_size c fs xs = Ok (Z.of_nat (length (encode h ie fs xs)) / 8).
Proof.
  intros ie iw lok fs xs T NP F U.
  destruct (struct_size_bytes ie iw lok fs xs 0 [] T NP F) as (E & C & N & TB).
  unfold struct_packet_size. rewrite C. assert (Z0 := zsum_nonneg _ N).
  rewrite current_offset_ok by (auto; lia). f_equal. lia.
Qed.

(** ** Iterators *)

Lemma iter_items : forall k b, (forall n, forall b', k_size k b' = Ok n -> 0 < n) ->
  (forall b', bytes_ok b' -> 0 < blen b' -> k_min k <= blen b' -> exists n, k_size k b' = Ok n) ->
  bytes_ok b -> exists l, items k b l /\ iter_all k (fun x => Ok x) b = Ok l.
Proof.
  intros k b POS TOT. unfold iter_all.
  assert (G : forall fuel b, (length b < fuel)%nat -> bytes_ok b ->
     exists l, items k b l /\ iter_collect k (fun x => Ok x) fuel b = Ok l).
  { induction fuel as [|fuel IH]; intros b' F B; [lia|].
    cbn [iter_collect]. unfold iter_next.
    destruct ((0 <? blen b') && (k_min k <=? blen b')) eqn:Q.
    - destruct (TOT b') as (n & SZ); auto; try lia. rewrite SZ. cbn [bind].
      assert (N := POS n b' SZ).
      set (rest := skipn (Z.to_nat (Z.min n (blen b'))) b').
      assert (RE : rest = skipn (Z.to_nat n) b').
      { unfold rest. destruct (Z.le_gt_cases n (blen b')).
        - now rewrite Z.min_l by lia.
        - rewrite Z.min_r by lia. rewrite !skipn_all2; auto; unfold blen in *; lia. }
      assert (RL : (length rest < length b')%nat).
      { rewrite RE, skipn_length. unfold blen in *. lia. }
      replace (blen rest =? blen b') with false by (unfold blen; lia).
      destruct (IH rest) as (l & IL & CL); [lia|unfold rest; now apply bytes_skipn|].
      exists (b' :: l). rewrite CL. split; [|reflexivity].
      apply items_step with n; auto; try lia. rewrite <- RE. exact IL.
    - exists []. split; [|reflexivity]. constructor. lia. }
  intros B. apply (G (S (length b)) b); auto.
Qed.

(** An iterator never runs forever. *)
Lemma iter_no_diverge : forall A k (g : buf -> res A) b,
  (forall n b', k_size k b' = Ok n -> 0 < n) ->
  (forall b', k_size k b' <> Panic EDiverge) -> (forall b', g b' <> Panic EDiverge) ->
  iter_all k g b <> Panic EDiverge.
Proof.
  intros A k g b POS ND NG. unfold iter_all.
  assert (G : forall fuel b, (length b < fuel)%nat -> iter_collect k g fuel b <> Panic EDiverge).
  { induction fuel as [|fuel IH]; intros b' F; [lia|].
    cbn [iter_collect]. unfold iter_next.
    destruct ((0 <? blen b') && (k_min k <=? blen b')) eqn:Q; [|cbn [bind]; discriminate].
    destruct (k_size k b') as [n|e] eqn:SZ; cbn [bind].
    - destruct (g b') as [x|e] eqn:GX; cbn [bind].
      + assert (N := POS n b' SZ).
        set (rest := skipn (Z.to_nat (Z.min n (blen b'))) b').
        assert (RL : (length rest < length b')%nat).
        { unfold rest. rewrite skipn_length. unfold blen in *. lia. }
        replace (blen rest =? blen b') with false by (unfold blen; lia).
        specialize (IH rest ltac:(lia)). destruct (iter_collect k g fuel rest); cbn [bind]; congruence.
      + specialize (NG b'). congruence.
    - specialize (ND b'). congruence. }
  apply G. lia.
Qed.

(** The pieces consumed and the tail left make up the buffer. *)
Lemma items_tile : forall k b l, items k b l -> exists ps tail,
  concat ps ++ tail = b /\
  Forall2 (fun item p => exists n, k_size k item = Ok n /\ p = firstn (Z.to_nat n) item) l ps /\
  ~ (0 < blen tail /\ k_min k <= blen tail) /\
  forall i, (i < length l)%nat -> nth i l [] = skipn (length (concat (firstn i ps))) b.
Proof.
  intros k b l H. induction H as [b H|b n l H1 H2 SZ IT IH].
  - exists [], b. cbn [concat app length]. repeat split; auto. intros; lia.
  - destruct IH as (ps & tail & E & F & T & N).
    exists (firstn (Z.to_nat n) b :: ps), tail. split; [|split; [|split]]; auto.
    + cbn [concat]. rewrite <- app_assoc, E. apply firstn_skipn.
    + constructor; eauto.
    + intros [|i] I; [reflexivity|]. cbn [nth firstn concat length] in *.
      rewrite N by lia. rewrite app_length, <- skipn_skipn'. f_equal.
      rewrite firstn_length. destruct (Nat.le_gt_cases (Z.to_nat n) (length b)).
      * now rewrite Nat.min_l by lia.
      * rewrite Nat.min_r by lia. rewrite !skipn_all2; auto; lia.
Qed.

Lemma size_positive : forall fs b n ns, 8 <= total_bits fs ->
  all_lens (layout c b fs) = map Ok ns -> Forall (fun z => 0 <= z) ns ->
  total_bits fs / 8 + zsum ns < 2 ^ 64 -> packet_size c fs b = Ok n -> 0 < n.
Proof.
  intros fs b n ns T AL NS U H. assert (Z0 := zsum_nonneg _ NS).
  rewrite (packet_size_spec b fs ns) in H by (auto; lia). injection H as <-. lia.
Qed.

(** ** Packets inside packets *)

Lemma all_lens_length : forall b fs bit lens e, (length (all_lens (layout_from c b fs bit lens e)) <= length fs)%nat.
Proof.
  intros b fs. induction fs as [|f fs IH]; intros; [cbn; lia|]. cbn [layout_from all_lens flat_map l_len].
  destruct (f_len f) as [le|]; cbn [app length].
  - specialize (IH (bit + fixed_bits (f_ty f)) (lens ++ [le (lookup e) (co <- current_offset c bit lens ;; slice_from b co)])
       (e ++ [(f_name f, field_get c f bit lens (Some (le (lookup e) (co <- current_offset c bit lens ;; slice_from b co))) b)])).
    unfold all_lens in IH. lia.
  - specialize (IH (bit + fixed_bits (f_ty f)) lens (e ++ [(f_name f, field_get c f bit lens None b)])).
    unfold all_lens in IH. lia.
Qed.

(** Parsing inverts populating for a closed description without packets
    inside. *)
Theorem schema_decodable : forall ie iw fs, closed fs -> lens_plain fs ->
  (forall b ns, buf_ok b -> all_lens (layout c b fs) = map Ok ns -> Forall (fun z => 0 <= z < 2 ^ 32) ns) ->
  schema_ok h (fun _ _ => False) fs 0 -> total_bits fs mod 8 = 0 -> 0 < total_bits fs < 2 ^ 32 ->
  Z.of_nat (length fs) < 2 ^ 16 ->
  decodable (sem_of c fs) (fun x => pack (encode h ie fs x)) (fits_all c ie iw fs).
Proof.
  intros ie iw fs CL LP SM OK T8 TP FL b x n B L F SZ N.
  cbn [sem_of k_from k_size] in *.
  destruct (packet_size_inv _ _ _ SZ) as (ns & AL).
  assert (PN := SM b ns (conj B L) AL).
  assert (NS : Forall (fun z => 0 <= z) ns) by (eapply Forall_impl; [|exact PN]; cbn; lia).
  assert (LL := all_lens_length b fs 0 [] []). fold (layout c b fs) in LL. rewrite AL, map_length in LL.
  assert (ZS := zsum_small _ PN).
  rewrite (packet_size_spec b fs ns) in SZ by (auto; lia). injection SZ as <-.
  assert (OK' : schema_ok h (inner_dec ie iw) fs 0).
  { clear -OK. revert OK. generalize 0. induction fs as [|f fs IH]; intros bit OK; [exact I|].
    cbn [schema_ok] in *. destruct OK as [O1 O2]. split; auto.
    destruct (f_ty f); auto. destruct O1 as [[] _]. }
  assert (NT : Forall (loc_tiles c b) (layout c b fs)).
  { apply Forall_forall. intros l IL. unfold loc_tiles.
    assert (IF : In (l_field l) fs).
    { rewrite <- (layout_fields c b fs 0 [] []). now apply in_map. }
    destruct (f_ty (l_field l)) eqn:TY; auto. exfalso.
    clear -OK IF TY. revert OK. generalize 0. induction fs as [|g fs IH]; intros bit OK; [destruct IF|].
    cbn [schema_ok] in OK. destruct OK as [O1 O2]. destruct IF as [->|IF].
    - rewrite TY in O1. destruct O1 as [[] _].
    - eapply IH; eauto. }
  destruct (encode_from_packet c ie iw fs b x ns OK' B L F NT AL NS ltac:(lia)) as (Tl & E & CT & NX & FX).
  specialize (FX LP).
  assert (EL := encode_closed_length c ie iw _ _ _ _ _ _ CL FX). fold h in EL.
  assert (FD : fits h ie iw lok_dec fs x 0 [] Tl).
  { eapply fits_weaken; [apply lok_enc_dec|exact FX]. }
  assert (SZ := packet_size_encode c ie iw fs x b Tl CL FD B L E).
  rewrite (packet_size_spec b fs ns) in SZ by (auto; lia). injection SZ as SZ.
  assert (PK : pack (encode h ie fs x) = firstn (Z.to_nat (total_bits fs / 8 + zsum ns)) b).
  { apply pack_unique; [now apply bytes_firstn|]. rewrite bits_firstn, E. apply firstn_app_exact. fold h in EL. lia. }
  split; [exact PK|].
  split; [|split; [exact NX|]].
  - eapply fits_tail; eauto.
  - fold h. assert (ZV := zsum_nonneg _ (var_lens_nonneg ie fs x)). lia.
Qed.
End Var.

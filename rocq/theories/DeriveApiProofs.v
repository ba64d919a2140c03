(** The accessor lemmas, restated over positions computed from the getters. *)
From Coq Require Import String ZArith List Bool Lia ZifyBool ZifyNat.
From Verif Require Import Base BitSpec DeriveUtil DeriveOps BaseFacts BitFacts
  DeriveUtilProofs DeriveOpsProofs DeriveLEProofs DeriveGen SpecPacket DeriveGenProofs DeriveInvProofs
  DeriveAccProofs DeriveVarProofs.
Import ListNotations.
Open Scope Z_scope.
Ltac Zify.zify_post_hook ::= Z.to_euclidean_division_equations.

Lemma widths_args : forall ps, widths ps = args_bits ps.
Proof. induction ps; cbn [widths args_bits fold_right]; [auto|]. fold (args_bits ps). lia. Qed.
Lemma bit_width_fixed : forall t, bit_width t = fixed_bits t.
Proof. destruct t; cbn [bit_width fixed_bits]; auto using widths_args. Qed.
Lemma header_bits_total : forall fs, header_bits fs = total_bits fs.
Proof.
  induction fs; cbn [header_bits total_bits fold_right]; [auto|]. fold (total_bits fs).
  rewrite bit_width_fixed. lia.
Qed.

Section Api.
Variable c : cfg.
Let h := c_host_le c.

Lemma scoped_app : forall a b seen, scoped seen (a ++ b) ->
  scoped seen a /\ scoped (seen ++ map f_name a) b.
Proof.
  induction a as [|f a IH]; intros b seen S.
  - cbn [app map] in *. rewrite app_nil_r. split; [exact I|auto].
  - cbn [app scoped map] in *. destruct S as (S1 & S2 & S3 & S4). apply IH in S4.
    rewrite <- app_assoc in S4. cbn [app] in S4. tauto.
Qed.

Lemma scoped_widths : forall fs seen, scoped seen fs -> Forall (fun g => 0 <= fixed_bits (f_ty g)) fs.
Proof.
  induction fs as [|f fs IH]; intros seen S; constructor; cbn [scoped] in S.
  - rewrite <- bit_width_fixed. tauto.
  - eapply IH. apply S.
Qed.

Lemma scoped_seen : forall fs seen n, scoped seen fs -> In n seen -> ~ In n (map f_name fs).
Proof.
  induction fs as [|f fs IH]; intros seen n S I1 I2; [destruct I2|]. cbn [scoped map In] in *.
  destruct S as (_ & _ & S3 & S4). destruct I2 as [<-|I2]; [auto|].
  eapply IH; eauto. apply in_or_app. auto.
Qed.

Lemma field_at_intro : forall fs pre f post, scoped [] fs -> fs = pre ++ f :: post ->
  field_at fs (f_name f) pre f.
Proof.
  intros fs pre f post S E. split; [eauto|]. split; [auto|]. subst fs.
  apply scoped_app in S. destruct S as [_ S]. cbn [scoped app] in S. tauto.
Qed.

Lemma env_agree : forall b fs pre post n, scoped [] fs -> fs = pre ++ post -> In n (map f_name pre) ->
  lookup (names_of (layout c b pre)) n = get c fs n b.
Proof.
  intros b fs pre post n S E IN. rewrite lookup_names.
  apply in_map_iff in IN. destruct IN as (f & <- & IN). apply in_split in IN.
  destruct IN as (p1 & p2 & ->). rewrite <- app_assoc in E. cbn [app] in E.
  assert (A := field_at_intro fs p1 f _ S E).
  assert (A' : field_at (p1 ++ f :: p2) (f_name f) p1 f).
  { split; [exists p2; reflexivity|]. exact (proj2 A). }
  unfold get. rewrite (find_at c b _ _ _ _ A), (find_at c b _ _ _ _ A'). reflexivity.
Qed.

Lemma pos_lens : forall b fs q p post pos ns, scoped [] fs -> fs = p ++ q ++ post ->
  all_lens (layout c b p) = map Ok ns -> Forall (fun z => 0 <= z) ns ->
  pos_after (fun n => get c fs n b) b q (total_bits p) (zsum ns) pos ->
  pos < 2 ^ 67 ->
  exists ms, all_lens (layout c b (p ++ q)) = map Ok (ns ++ ms) /\ Forall (fun z => 0 <= z) (ns ++ ms) /\
    pos = total_bits (p ++ q) + 8 * zsum (ns ++ ms).
Proof.
  intros b fs q. induction q as [|f q IH]; intros p post pos ns S E AL NS PA U.
  - exists []. rewrite !app_nil_r. cbn [pos_after] in PA. auto.
  - assert (FW := scoped_widths _ _ S).
    assert (TB : 0 <= total_bits p).
    { apply total_bits_pos. rewrite E in FW. apply Forall_app in FW. tauto. }
    assert (ZN := zsum_nonneg _ NS).
    assert (E' : fs = (p ++ [f]) ++ q ++ post) by (rewrite <- app_assoc; exact E).
    assert (TS : total_bits (p ++ [f]) = total_bits p + bit_width (f_ty f)).
    { rewrite total_bits_app, bit_width_fixed. cbn [total_bits fold_right]. lia. }
    assert (LS : all_lens (layout c b (p ++ [f])) =
      map Ok ns ++ match len_of c b p f with Some l => [l] | None => [] end).
    { unfold layout. rewrite layout_app. unfold all_lens. rewrite flat_map_app.
      fold (layout c b p). fold (all_lens (layout c b p)). rewrite AL. f_equal.
      cbn [layout_from flat_map l_len app]. unfold len_of. rewrite AL. cbn [app].
      replace (0 + total_bits p) with (total_bits p) by lia.
      destruct (f_len f); reflexivity. }
    assert (G : forall bit acc pos', pos_after (fun n => get c fs n b) b q bit acc pos' ->
        Forall (fun g => 0 <= fixed_bits (f_ty g)) q -> bit + 8 * acc <= pos').
    { clear. induction q as [|g q IH]; intros bit acc pos' PA F; cbn [pos_after] in PA; [lia|].
      inversion F; subst. rewrite bit_width_fixed in PA. destruct (f_len g).
      - destruct PA as (n & N & _ & PA). apply IH in PA; auto. lia.
      - apply IH in PA; auto. lia. }
    assert (FQ : Forall (fun g => 0 <= fixed_bits (f_ty g)) q).
    { rewrite E in FW. apply Forall_app in FW. destruct FW as [_ FW]. inversion FW; subst.
      apply Forall_app in H2. tauto. }
    assert (FF : 0 <= bit_width (f_ty f)).
    { rewrite E in FW. apply Forall_app in FW. destruct FW as [_ FW]. inversion FW; subst.
      now rewrite bit_width_fixed. }
    cbn [pos_after] in PA.
    replace (p ++ f :: q) with ((p ++ [f]) ++ q) by (now rewrite <- app_assoc).
    unfold len_of in LS. destruct (f_len f) as [le|] eqn:FL.
    + destruct PA as (n & N & LE & PA).
      assert (GB := G _ _ _ PA FQ).
      assert (LV : le (lookup (names_of (layout c b p)))
          (co <- current_offset c (total_bits p) (all_lens (layout c b p)) ;; slice_from b co) = Ok n).
      { rewrite AL, current_offset_ok by (auto; lia). cbn [bind].
        rewrite <- LE. subst fs. apply scoped_app in S as S'. destruct S' as [_ S'].
        cbn [scoped app] in S'. rewrite FL in S'. destruct S' as [RD _]. apply RD.
        intros m IM. eapply env_agree; eauto. }
      rewrite LV in LS.
      destruct (IH (p ++ [f]) post pos (ns ++ [n]) S E') as (ms & A1 & A2 & A3); auto.
      * rewrite LS, map_app. reflexivity.
      * apply Forall_app. auto.
      * rewrite TS, zsum_app. cbn [zsum fold_right]. replace (n + 0) with n by lia. exact PA.
      * exists ([n] ++ ms). rewrite (app_assoc ns [n] ms). auto.
    + destruct (IH (p ++ [f]) post pos ns S E') as (ms & A1 & A2 & A3); auto.
      * rewrite LS, app_nil_r. reflexivity.
      * rewrite TS. exact PA.
      * exists ms. auto.
Qed.

(** The position of a field as the model computes it. *)
Lemma pos_model : forall b fs pre post pos, scoped [] fs -> fs = pre ++ post ->
  pos_after (fun n => get c fs n b) b pre 0 0 pos -> pos < 2 ^ 67 ->
  exists ns, all_lens (layout c b pre) = map Ok ns /\ Forall (fun z => 0 <= z) ns /\
    pos = total_bits pre + 8 * zsum ns /\ 0 <= total_bits pre.
Proof.
  intros b fs pre post pos S E PA U.
  destruct (pos_lens b fs pre [] post pos [] S E) as (ms & A1 & A2 & A3); auto.
  cbn [app] in *. exists ms. repeat split; auto.
  apply total_bits_pos. assert (FW := scoped_widths _ _ S). rewrite E in FW. apply Forall_app in FW. tauto.
Qed.

Lemma own_model : forall b fs pre f post pos, scoped [] fs -> fs = pre ++ f :: post ->
  pos_after (fun n => get c fs n b) b pre 0 0 pos -> pos < 2 ^ 67 ->
  len_of c b pre f = match f_len f with
                     | Some le => Some (le (fun n => get c fs n b) (slice_from b (pos / 8)))
                     | None => None
                     end.
Proof.
  intros b fs pre f post pos S E PA U.
  destruct (pos_model b fs pre (f :: post) pos S E PA U) as (ns & AL & NS & P & T).
  assert (ZN := zsum_nonneg _ NS).
  unfold len_of. destruct (f_len f) as [le|] eqn:FL; [|reflexivity]. f_equal.
  rewrite AL, current_offset_ok by (auto; lia). cbn [bind].
  replace (pos / 8) with (total_bits pre / 8 + zsum ns) by lia.
  subst fs. apply scoped_app in S as S'. destruct S' as [_ S'].
  cbn [scoped app] in S'. rewrite FL in S'. destruct S' as [RD _]. apply RD.
  intros m IM. eapply env_agree; eauto.
Qed.

Lemma own_span : forall b fs pre f post pos len, scoped [] fs -> fs = pre ++ f :: post ->
  pos_after (fun n => get c fs n b) b pre 0 0 pos -> pos < 2 ^ 67 ->
  own_len (fun n => get c fs n b) b (pos / 8) f len -> span_len (len_of c b pre f) b len.
Proof.
  intros b fs pre f post pos len S E PA U OL. rewrite (own_model b fs pre f post pos) by auto.
  unfold own_len, span_len in *. destruct (f_len f); [rewrite OL|]; auto.
Qed.

(** ** Fixed fields anywhere *)

Theorem api_get_fixed : forall b fs pre f post pos, scoped [] fs -> fs = pre ++ f :: post ->
  fixed_ok h (header_bits pre) (f_ty f) -> bit_width (f_ty f) <> 0 -> buf_ok b ->
  pos_after (fun n => get c fs n b) b pre 0 0 pos ->
  pos + bit_width (f_ty f) < 2 ^ 66 ->
  get c fs (f_name f) b =
  (if pos + bit_width (f_ty f) <=? 8 * blen b
   then Ok (dec_fixed h (f_ty f) (field_bits b (Z.to_nat pos) (Z.to_nat (bit_width (f_ty f)))))
   else Panic EIndex).
Proof.
  intros b fs pre f post pos S E OK NZ [B L] PA U.
  assert (W0 : 0 <= bit_width (f_ty f)).
  { assert (FW := scoped_widths _ _ S). rewrite E in FW. apply Forall_app in FW. destruct FW as [_ FW].
    inversion FW; subst. now rewrite bit_width_fixed. }
  destruct (pos_model b fs pre (f :: post) pos S E PA ltac:(lia)) as (ns & AL & NS & P & T).
  rewrite header_bits_total in OK. rewrite bit_width_fixed in *.
  rewrite (get_fixed c b fs (f_name f) pre f ns); auto; try lia.
  - subst pos. reflexivity.
  - eapply field_at_intro; eauto.
Qed.

Theorem api_set_fixed : forall b fs pre f post pos x, scoped [] fs -> fs = pre ++ f :: post ->
  fixed_ok h (header_bits pre) (f_ty f) -> fixed_val (f_ty f) x -> buf_ok b ->
  pos_after (fun n => get c fs n b) b pre 0 0 pos ->
  pos + bit_width (f_ty f) <= 8 * blen b ->
  exists b', set c fs (f_name f) x b = (b', Ok tt) /\
    bits_written b (Z.to_nat pos) (enc_fixed h (f_ty f) x) b'.
Proof.
  intros b fs pre f post pos x S E OK V [B L] PA U.
  assert (W0 : 0 <= bit_width (f_ty f)).
  { assert (FW := scoped_widths _ _ S). rewrite E in FW. apply Forall_app in FW. destruct FW as [_ FW].
    inversion FW; subst. now rewrite bit_width_fixed. }
  destruct (pos_model b fs pre (f :: post) pos S E PA ltac:(lia)) as (ns & AL & NS & P & T).
  rewrite header_bits_total in OK. rewrite bit_width_fixed in *. subst pos.
  apply (set_fixed c b fs (f_name f) pre f ns); auto.
  eapply field_at_intro; eauto.
Qed.

Theorem api_set_fixed_out : forall b fs pre f post pos x, scoped [] fs -> fs = pre ++ f :: post ->
  fixed_ok h (header_bits pre) (f_ty f) -> fixed_val (f_ty f) x -> bit_width (f_ty f) <> 0 -> buf_ok b ->
  pos_after (fun n => get c fs n b) b pre 0 0 pos ->
  pos + bit_width (f_ty f) < 2 ^ 66 ->
  8 * blen b < pos + bit_width (f_ty f) ->
  snd (set c fs (f_name f) x b) = Panic EIndex.
Proof.
  intros b fs pre f post pos x S E OK V NZ [B L] PA U H.
  assert (W0 : 0 <= bit_width (f_ty f)).
  { assert (FW := scoped_widths _ _ S). rewrite E in FW. apply Forall_app in FW. destruct FW as [_ FW].
    inversion FW; subst. now rewrite bit_width_fixed. }
  destruct (pos_model b fs pre (f :: post) pos S E PA ltac:(lia)) as (ns & AL & NS & P & T).
  rewrite header_bits_total in OK. rewrite bit_width_fixed in *. subst pos.
  apply (set_fixed_out c b fs (f_name f) pre f ns); auto; try lia.
  eapply field_at_intro; eauto.
Qed.

(** ** Header *)

Lemma header_conv : forall fs n pre f, scoped [] fs -> header_field h fs n pre f -> header_at c fs n pre f.
Proof.
  intros fs n pre f S ((post & E) & N & HL & OK). unfold header_at.
  rewrite header_bits_total in OK.
  split; [|split; [|split]].
  - subst n. eapply field_at_intro; eauto.
  - exact HL.
  - exact OK.
  - eapply scoped_widths; eauto.
Qed.

Theorem api_get_header : forall fs n pre f b, scoped [] fs -> header_field h fs n pre f ->
  buf_ok b -> new fs b = Some b ->
  get c fs n b = Ok (dec_fixed h (f_ty f)
     (field_bits b (Z.to_nat (header_bits pre)) (Z.to_nat (bit_width (f_ty f))))).
Proof.
  intros fs n pre f b S HF BO NW. rewrite header_bits_total, bit_width_fixed.
  apply get_header; auto. now apply header_conv.
Qed.

Theorem api_set_header : forall fs n pre f b x, scoped [] fs -> header_field h fs n pre f ->
  buf_ok b -> new fs b = Some b -> fixed_val (f_ty f) x ->
  exists b', set c fs n x b = (b', Ok tt) /\ buf_ok b' /\ new fs b' = Some b' /\
    bits_written b (Z.to_nat (header_bits pre)) (enc_fixed h (f_ty f) x) b'.
Proof.
  intros fs n pre f b x S HF BO NW V. rewrite header_bits_total.
  apply set_header; auto. now apply header_conv.
Qed.

Theorem api_history : forall ops fs b, scoped [] fs -> buf_ok b -> new fs b = Some b ->
  Forall (fun o => exists pre f, header_field h fs (fst o) pre f /\ fixed_val (f_ty f) (snd o)) ops ->
  exists b', run c fs ops b = (b', Ok tt) /\ length b' = length b /\
    skipn (Z.to_nat (minimum_packet_size fs)) b' = skipn (Z.to_nat (minimum_packet_size fs)) b /\
    forall n pre f, header_field h fs n pre f ->
      get c fs n b' = last_write n (f_ty f) ops (get c fs n b).
Proof.
  intros ops fs b S BO NW F.
  assert (F' : Forall (fun o => exists pre f, header_at c fs (fst o) pre f /\ fixed_val (f_ty f) (snd o)) ops).
  { eapply Forall_impl; [|exact F]. intros o (pre & f & HF & V). exists pre, f. auto using header_conv. }
  destruct (history c ops fs b BO NW F') as (b' & R & L & G). exists b'. split; [auto|]. split; [auto|].
  split; [|intros n pre f HF; apply (G n pre); now apply header_conv].
  (* bytes after the header *)
  clear F G. revert b b' BO NW R L. induction ops as [|[n x] ops IH]; intros b b' BO NW R L.
  - cbn [run] in R. injection R as <-. reflexivity.
  - inversion F' as [|? ? (pre & f & HA & V) F'']; subst. cbn [fst snd] in *.
    destruct (set_header c fs n pre f b x HA BO NW V) as (b1 & E1 & BO1 & NW1 & W1).
    cbn [run] in R. unfold mseq in R. rewrite E1 in R.
    assert (W1' := W1). destruct W1' as (LB1 & BB1 & WE).
    rewrite (IH F'' b1 b' BO1 NW1 R ltac:(lia)).
    destruct (header_bounds c _ _ _ _ _ HA NW) as (P1 & P2 & P3).
    assert (EL := enc_fixed_length c (total_bits pre) (f_ty f) x ltac:(apply HA) V).
    apply bits_of_inj; auto using bytes_skipn; [apply bytes_skipn, BO|].
    rewrite !bits_skipn, WE, app_assoc.
    unfold minimum_packet_size in *.
    set (o := Z.to_nat (total_bits pre)) in *. set (bs := enc_fixed (c_host_le c) (f_ty f) x) in *.
    assert (LL : length (firstn o (bits_of b) ++ bs) = (o + length bs)%nat).
    { rewrite app_length, firstn_length, bits_of_length. unfold blen in *. lia. }
    rewrite skipn_app, skipn_all2 by (destruct (total_bits fs mod 8 =? 0) eqn:Q; lia).
    cbn [app]. rewrite skipn_skipn'. f_equal. destruct (total_bits fs mod 8 =? 0) eqn:Q; lia.
Qed.

(** ** Variable fields *)

Theorem api_get_var : forall b fs pre f post pos len, scoped [] fs -> fs = pre ++ f :: post ->
  buf_ok b -> pos_after (fun n => get c fs n b) b pre 0 0 pos ->
  own_len (fun n => get c fs n b) b (pos / 8) f len -> 0 <= len ->
  pos / 8 + len < 2 ^ 64 ->
  let a := pos / 8 in
  get_raw c fs (f_name f) b = (if a <=? blen b then Ok (clip b a len) else Panic EIndex) /\
  get_iter c fs (f_name f) b = (if a <=? blen b then Ok (clip b a len) else Panic EIndex) /\
  match f_ty f with
  | TVecPrim p => p_size p = 8 ->
      get c fs (f_name f) b = (if a <=? blen b then Ok (VBytes (clip b a len)) else Panic EIndex)
  | TVecPkt k =>
      get c fs (f_name f) b = (if a <=? blen b then rmap VPkts (iter_all k (k_from k) (clip b a len)) else Panic EIndex)
  | _ => True
  end.
Proof.
  intros b fs pre f post pos len S E [B L] PA OL LN U a.
  destruct (pos_model b fs pre (f :: post) pos S E PA ltac:(lia)) as (ns & AL & NS & P & T).
  assert (SL := own_span b fs pre f post pos len S E PA ltac:(lia) OL).
  replace a with (total_bits pre / 8 + zsum ns) by (unfold a; lia).
  apply get_var; auto; try lia. eapply field_at_intro; eauto.
Qed.

Theorem api_get_var_panics : forall b fs pre f post pos le e, scoped [] fs -> fs = pre ++ f :: post ->
  is_vec (f_ty f) = true -> pos_after (fun n => get c fs n b) b pre 0 0 pos -> pos < 2 ^ 66 ->
  f_len f = Some le -> le (fun n => get c fs n b) (slice_from b (pos / 8)) = Panic e ->
  get c fs (f_name f) b = Panic e /\ get_raw c fs (f_name f) b = Panic e.
Proof.
  intros b fs pre f post pos le e S E IV PA U FL LE.
  destruct (pos_model b fs pre (f :: post) pos S E PA ltac:(lia)) as (ns & AL & NS & P & T).
  assert (ZN := zsum_nonneg _ NS).
  apply (get_var_panics c b fs (f_name f) pre f e); auto; [eapply field_at_intro; eauto|].
  right. split.
  - exists (total_bits pre / 8 + zsum ns). rewrite AL. apply current_offset_ok; auto. lia.
  - rewrite (own_model b fs pre f post pos) by (auto; lia). rewrite FL, LE. reflexivity.
Qed.

Theorem api_set_bytes : forall b fs pre f post pos p vs, scoped [] fs -> fs = pre ++ f :: post ->
  f_ty f = TVecPrim p -> p_size p = 8 -> buf_ok b -> blen vs < 2 ^ 63 ->
  pos_after (fun n => get c fs n b) b pre 0 0 pos -> pos / 8 < 2 ^ 63 ->
  let a := pos / 8 in
  set c fs (f_name f) (VBytes vs) b =
  match option_map (fun le => le (fun n => get c fs n b) (slice_from b a)) (f_len f) with
  | Some (Panic e) => (b, Panic e)
  | Some (Ok len) =>
      if blen vs <=? len
      then (if a + blen vs <=? blen b then (splice b (Z.to_nat a) vs, Ok tt) else (b, Panic EIndex))
      else (b, Panic EAssert)
  | None => if a + blen vs <=? blen b then (splice b (Z.to_nat a) vs, Ok tt) else (b, Panic EIndex)
  end.
Proof.
  intros b fs pre f post pos p vs S E TY S8 [B L] LV PA U a.
  destruct (pos_model b fs pre (f :: post) pos S E PA ltac:(lia)) as (ns & AL & NS & P & T).
  assert (ZN := zsum_nonneg _ NS).
  assert (X := own_model b fs pre f post pos S E PA ltac:(lia)).
  replace a with (total_bits pre / 8 + zsum ns) by (unfold a; lia).
  rewrite (set_bytes c b fs (f_name f) pre f p ns vs); auto; try lia; [|eapply field_at_intro; eauto].
  rewrite X. replace (pos / 8) with (total_bits pre / 8 + zsum ns) by lia.
  destruct (f_len f); reflexivity.
Qed.

Theorem api_payload : forall b fs pre f post pos len, scoped [] fs -> fs = pre ++ f :: post ->
  f_payload f = true -> Forall (fun g => f_payload g = false) pre ->
  buf_ok b -> pos_after (fun n => get c fs n b) b pre 0 0 pos ->
  own_len (fun n => get c fs n b) b (pos / 8) f len -> 0 <= len -> pos / 8 + len < 2 ^ 64 ->
  payload c fs b = Ok (clip b (pos / 8) len).
Proof.
  intros b fs pre f post pos len S E PF NP [B L] PA OL LN U.
  destruct (pos_model b fs pre (f :: post) pos S E PA ltac:(lia)) as (ns & AL & NS & P & T).
  assert (SL := own_span b fs pre f post pos len S E PA ltac:(lia) OL).
  replace (pos / 8) with (total_bits pre / 8 + zsum ns) by lia.
  apply (payload_spec c b fs pre f ns len); auto; try lia.
  split; eauto.
Qed.

Theorem api_payload_mut : forall b fs pre f post pos len at_ data, scoped [] fs -> fs = pre ++ f :: post ->
  f_payload f = true -> Forall (fun g => f_payload g = false) pre ->
  buf_ok b -> pos_after (fun n => get c fs n b) b pre 0 0 pos ->
  own_len (fun n => get c fs n b) b (pos / 8) f len -> 0 <= len -> pos / 8 + len < 2 ^ 64 ->
  let a := pos / 8 in
  (at_ <= length (clip b a len))%nat ->
  payload_mut_write c fs at_ data b =
    if (at_ + length data <=? length (clip b a len))%nat
    then (firstn (Z.to_nat a) b ++ splice (clip b a len) at_ data ++ skipn (Z.to_nat a + length (clip b a len)) b, Ok tt)
    else (b, Panic EIndex).
Proof.
  intros b fs pre f post pos len at_ data S E PF NP [B L] PA OL LN U a.
  destruct (pos_model b fs pre (f :: post) pos S E PA ltac:(lia)) as (ns & AL & NS & P & T).
  assert (SL := own_span b fs pre f post pos len S E PA ltac:(lia) OL).
  replace a with (total_bits pre / 8 + zsum ns) by (unfold a; lia).
  apply (payload_mut_spec c b fs pre f ns len at_ data); auto; try lia.
  split; eauto.
Qed.

Theorem api_packet_size : forall b fs pos, scoped [] fs ->
  pos_after (fun n => get c fs n b) b fs 0 0 pos -> pos < 2 ^ 66 ->
  packet_size c fs b = Ok (pos / 8).
Proof.
  intros b fs pos S PA U.
  destruct (pos_model b fs fs [] pos S ltac:(now rewrite app_nil_r) PA ltac:(lia)) as (ns & AL & NS & P & T).
  rewrite (packet_size_spec c b fs ns) by (auto; lia). f_equal. lia.
Qed.

Theorem api_get_wide : forall b fs pre f post pos p len, scoped [] fs -> fs = pre ++ f :: post ->
  f_ty f = TVecPrim p -> p_size p mod 8 = 0 -> 16 <= p_size p <= 64 ->
  bytes_ok b -> blen b < 2 ^ 32 -> pos_after (fun n => get c fs n b) b pre 0 0 pos ->
  own_len (fun n => get c fs n b) b (pos / 8) f len -> 0 <= len -> pos / 8 + len < 2 ^ 64 ->
  clip b (pos / 8) len <> [] ->
  get c fs (f_name f) b = Panic EIndex.
Proof.
  intros b fs pre f post pos p len S E TY M P8 B L PA OL LN U NE.
  destruct (pos_model b fs pre (f :: post) pos S E PA ltac:(lia)) as (ns & AL & NS & P & T).
  assert (SL := own_span b fs pre f post pos len S E PA ltac:(lia) OL).
  replace (pos / 8) with (total_bits pre / 8 + zsum ns) in * by lia.
  apply (get_wide_panics c b fs (f_name f) pre f p ns len); auto; try lia. eapply field_at_intro; eauto.
Qed.

Theorem api_set_wide : forall b fs pre f post pos p len vs, scoped [] fs -> fs = pre ++ f :: post ->
  f_ty f = TVecPrim p -> p_size p mod 8 = 0 -> 16 <= p_size p <= 64 ->
  buf_ok b -> Forall (fun z => 0 <= z) vs -> pos_after (fun n => get c fs n b) b pre 0 0 pos ->
  f_len f <> None -> own_len (fun n => get c fs n b) b (pos / 8) f len -> blen vs <= len ->
  pos / 8 + blen vs * (p_size p / 8) <= blen b ->
  exists b', set c fs (f_name f) (VBytes vs) b = (b', Ok tt) /\
    bits_written b (Z.to_nat (8 * (pos / 8))) (flat_map (bits_of_Z (Z.to_nat (p_size p))) vs) b'.
Proof.
  intros b fs pre f post pos p len vs S E TY M P8 [B L] V PA FN OL LV U.
  assert (VN := blen_nonneg vs).
  assert (0 <= blen vs * (p_size p / 8)) by nia.
  destruct (pos_model b fs pre (f :: post) pos S E PA ltac:(lia)) as (ns & AL & NS & P & T).
  assert (X := own_model b fs pre f post pos S E PA ltac:(lia)).
  unfold own_len in OL. destruct (f_len f) as [le|] eqn:FL; [|congruence]. rewrite OL in X.
  replace (pos / 8) with (total_bits pre / 8 + zsum ns) in * by lia.
  apply (set_wide c b fs (f_name f) pre f p ns len vs); auto; try lia. eapply field_at_intro; eauto.
Qed.

End Api.

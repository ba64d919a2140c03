(** Packets with a long header. *)
From Coq Require Import String ZArith List Bool Lia ZifyBool ZifyNat.
From Verif Require Import Base BitSpec DeriveUtil DeriveOps BaseFacts BitFacts
  DeriveUtilProofs DeriveOpsProofs DeriveLEProofs DeriveGen SpecPacket DeriveGenProofs DeriveInvProofs
  DeriveAccProofs DeriveVarProofs DeriveApiProofs DerivePropProofs DerivePropProofs2 Protocols ProtoFacts
  ProtoPayloadProofs ProtoSplitProofs ProtoTcpProofs Quic SpecQuic QuicIntProofs QuicWalkProofs QuicFrameProofs
  QuicSeqProofs QuicRfcProofs.
Import ListNotations.
Open Scope Z_scope.
Ltac Zify.zify_post_hook ::= Z.to_euclidean_division_equations.

(** ** Bits of the first byte *)

Lemma Z_of_bits_app : forall a b, Z_of_bits (a ++ b) = Z_of_bits a * 2 ^ Z.of_nat (List.length b) + Z_of_bits b.
Proof.
  intros a b. induction b as [|x b IH] using rev_ind.
  - rewrite app_nil_r. cbn [List.length]. change (Z_of_bits []) with 0. change (2 ^ Z.of_nat 0) with 1. lia.
  - rewrite app_assoc, !Z_of_bits_snoc, IH, app_length. cbn [List.length].
    replace (Z.of_nat (List.length b + 1)) with (Z.succ (Z.of_nat (List.length b))) by lia.
    rewrite Z.pow_succ_r by lia. ring.
Qed.
Lemma bits_be_val : forall l, bytes_ok l -> Z_of_bits (bits_of l) = be_val l.
Proof.
  intros l. induction l as [|x l IH] using rev_ind; intros B; [reflexivity|].
  apply Forall_app in B. destruct B as [B X]. inversion X; subst.
  rewrite bits_of_app, Z_of_bits_app, be_val_snoc, IH by auto. cbn [bits_of flat_map]. rewrite app_nil_r.
  change (Z.of_nat (List.length (bits_of_byte x))) with 8.
  assert (E : Z_of_bits (bits_of_byte x) = x); [|rewrite E; lia].
  change (bits_of_byte x) with (bits_of_Z 8 x). rewrite Z_of_bits_of_Z. unfold byte_ok in H1.
  change (2 ^ Z.of_nat 8) with 256. apply Z.mod_small. lia.
Qed.
Lemma field_bytes : forall b a n, bytes_ok b -> field_val b (8 * a) (8 * n) = be_val (firstn n (skipn a b)).
Proof.
  intros b a n B. unfold field_val, field_bits. rewrite <- bits_skipn, <- bits_firstn. apply bits_be_val.
  apply bytes_firstn, bytes_skipn, B.
Qed.
Definition low2_ok (x : Z) : bool := Z_of_bits (firstn 2 (skipn 6 (bits_of_byte x))) =? x mod 4.
Lemma low2_all : forallb low2_ok (zrange 0 256) = true.
Proof. vm_compute. reflexivity. Qed.
Lemma low2 : forall x s, byte_ok x -> field_val (x :: s) 6 2 = x mod 4.
Proof.
  intros x s B. unfold byte_ok in B. assert (Q := proj1 (forallb_forall _ _) low2_all x).
  specialize (Q ltac:(apply in_zrange; lia)). unfold low2_ok in Q. apply Z.eqb_eq in Q. rewrite <- Q. reflexivity.
Qed.

(** ** The descriptions *)

Definition long_pre : schema := firstn 6 long_start.
Definition ids_mid : schema := skipn 6 long_start.
Definition tok_mid (token : bool) : schema :=
  if token then [vint "token_length"; vfld "token" bytes_ty (len_of_varint "token_length")] else [].
Definition long_schema (c : cfg) (token : bool) : schema :=
  long_start ++ tok_mid token ++ long_end c.
Lemma quic_long : forall c k, has_length k = true -> quic_schema c k = long_schema c (has_token k).
Proof. intros c k. destruct k; try discriminate; reflexivity. Qed.
Lemma long_scoped : forall c t, scoped [] (long_schema c t).
Proof.
  intros c t. unfold long_schema, long_start, long_end, tok_mid. destruct t; cbn [app]; qscoped_tac.
Qed.
Lemma long_hbits : forall c t, header_bits (long_schema c t) < 2 ^ 60.
Proof. intros c t. destruct t; vm_compute; reflexivity. Qed.
Lemma long_min : forall c t, minimum_packet_size (long_schema c t) = 7.
Proof. intros c t. destruct t; reflexivity. Qed.
Lemma read_fields_app : forall w1 w2 seen s, read_fields (w1 ++ w2) seen s =
  match read_fields w1 seen s with Some (seen', s') => read_fields w2 seen' s' | None => None end.
Proof.
  induction w1 as [|[n k] w1 IH]; intros w2 seen s; [reflexivity|]. cbn [app read_fields].
  destruct (width_size k seen s); [|reflexivity]. destruct (_ <=? _); [|reflexivity]. apply IH.
Qed.

Definition ids_tok (token : bool) : wire := ids_wire ++ (if token then token_wire else []).
Lemma ids_tok_impl : forall H t, impl H [] (ids_mid ++ tok_mid t) (ids_tok t).
Proof.
  intros H t. destruct t; cbn [ids_mid long_start skipn tok_mid app ids_tok ids_wire token_wire impl];
    unfold impl_field; cbn [fst snd];
    repeat match goal with
           | |- True => exact I
           | |- _ /\ _ => split
           | |- exists le, _ => eexists
           | |- f_name _ = _ => reflexivity
           | |- f_ty _ = _ => reflexivity
           | |- f_len _ = _ => reflexivity
           | |- sized _ _ len_varint _ => apply sized_varint
           | |- sized _ _ (len_of_int _ _) _ => apply sized_byteof; reflexivity
           | |- sized _ _ (len_of_varint _) _ => apply sized_of; reflexivity
           end.
Qed.
Lemma ids_tok_caps : forall t, caps (ids_tok t) < 2 ^ 62 + 2 ^ 60 /\ Forall (fun nw => 0 <= cap (snd nw)) (ids_tok t).
Proof. intros t. split; [destruct t; vm_compute; reflexivity|destruct t; repeat constructor; vm_compute; discriminate]. Qed.

(** ** The last field after a length that wraps around *)

Lemma ovf_wrap : forall w r, ovf Wrapping w r = Ok (r mod 2 ^ w).
Proof.
  intros w r. unfold ovf. destruct ((0 <=? r) && (r <? 2 ^ w)) eqn:Q; [|reflexivity].
  f_equal. symmetry. apply Z.mod_small. lia.
Qed.
Lemma wrap_last : forall c fs b P f g q n le, scoped [] fs -> dgram b -> fs = P ++ [f; g] ->
  c_mode c = Wrapping -> f_len f = Some le -> bit_width (f_ty f) = 0 ->
  f_len g = None -> f_ty g = bytes_ty ->
  ends c fs b P q -> 0 <= q < 2 ^ 62 -> le (fun n => get c fs n b) (slice_from b q) = Ok n ->
  let r := (q + n) mod 2 ^ 64 in r < 2 ^ 62 ->
  get_raw c fs (f_name g) b = if r <=? blen b then Ok (skipn (Z.to_nat r) b) else Panic EIndex.
Proof.
  intros c fs b P f g q n le S D E M FL BW GL GT EN Q LE r R.
  destruct D as [B L].
  unfold ends in EN.
  destruct (pos_model c b fs P [f; g] (8 * q) S E EN ltac:(lia)) as (ns & AL & NS & PE & TB).
  assert (OM := own_model c b fs P f [g] (8 * q) S E EN ltac:(lia)). rewrite FL in OM.
  replace (8 * q / 8) with q in OM by lia. rewrite LE in OM.
  assert (E' : fs = (P ++ [f]) ++ [g]) by (rewrite <- app_assoc; exact E).
  assert (FA := field_at_intro fs (P ++ [f]) g [] S E').
  unfold get_raw, raw_range. rewrite (find_at c b fs _ _ _ FA). unfold l_co. cbn [l_bit l_lens l_len].
  assert (LS : all_lens (layout c b (P ++ [f])) = map Ok ns ++ [Ok n]).
  { unfold layout. rewrite layout_app. unfold all_lens. rewrite flat_map_app.
    fold (layout c b P). fold (all_lens (layout c b P)). rewrite AL. f_equal.
    cbn [layout_from flat_map l_len app]. unfold len_of in OM. rewrite FL, AL in OM. rewrite FL.
    replace (0 + total_bits P) with (total_bits P) by lia.
    injection OM as OM. rewrite OM. reflexivity. }
  rewrite LS. rewrite total_bits_app. cbn [total_bits fold_right]. rewrite <- bit_width_fixed, BW.
  replace (total_bits P + (0 + 0)) with (total_bits P) by lia.
  assert (CO := current_offset_ok c (total_bits P) ns TB NS).
  unfold current_offset in *. rewrite fold_left_app, CO by lia. cbn [fold_left bind].
  assert (QE : total_bits P / 8 + zsum ns = q) by lia. rewrite QE.
  unfold add_u at 1. rewrite M, ovf_wrap. unfold len_of. rewrite GL.
  unfold var_range, len_or_all. change ((q + n) mod 2 ^ usize) with r. cbn [bind].
  assert (R0 : 0 <= r) by (apply Z.mod_pos_bound; lia).
  assert (B0 := blen_pos b).
  replace (add_u (c_mode c) usize r (blen b)) with (Ok (r + blen b)).
  2:{ unfold add_u. rewrite M, ovf_wrap. f_equal. symmetry. apply Z.mod_small. unfold usize. lia. }
  cbn [bind]. rewrite Z.min_r by lia. unfold slice.
  rewrite Z.leb_refl, andb_true_r. destruct (r <=? blen b) eqn:RB.
  - replace (0 <=? r) with true by lia. cbn [andb]. f_equal.
    rewrite firstn_all2; [reflexivity|]. rewrite skipn_length. unfold blen in *. lia.
  - rewrite andb_false_r. reflexivity.
Qed.

(** The getter of a byte vector copies what its raw getter shows. *)
Lemma bytes_slice : forall b lo hi s, bytes_ok b -> slice b lo hi = Ok s -> bytes_ok s /\ blen s <= blen b.
Proof.
  intros b lo hi s B. unfold slice. destruct (_ && _); [|discriminate]. intros [= <-].
  split; [apply bytes_firstn, bytes_skipn, B|]. unfold blen. rewrite firstn_length, skipn_length. lia.
Qed.
Lemma raw_bytes : forall c fs b pre f post, scoped [] fs -> fs = pre ++ f :: post -> f_ty f = bytes_ty -> buf_ok b ->
  get c fs (f_name f) b = rmap VBytes (get_raw c fs (f_name f) b).
Proof.
  intros c fs b pre f post S E T [B L]. assert (FA := field_at_intro fs pre f post S E).
  rewrite (get_at c b fs _ pre f FA). unfold get_raw, raw_range. rewrite (find_at c b fs _ pre f FA).
  unfold l_co. cbn [l_bit l_lens l_len]. unfold field_get. rewrite T. cbn [bytes_ty]. unfold var_slice.
  destruct (var_range c _ _ b) as [[lo hi]|]; [|reflexivity]. cbn [bind].
  destruct (slice b lo hi) as [s|] eqn:SL; [|reflexivity]. cbn [bind rmap].
  destruct (bytes_slice b lo hi s B SL) as [BS LS].
  rewrite vec_get_u8_all; auto. lia.
Qed.

(** ** The fields of the header *)

Section Long.
Variable c : cfg.
Variable t : bool.
Variable b : buf.
Hypothesis D : dgram b.
Hypothesis L7 : 7 <= blen b.
Let fs : schema := long_schema c t.
Let G : env := fun n => get c fs n b.

Let S : scoped [] fs.
Proof. apply long_scoped. Qed.
Let BO : buf_ok b.
Proof. destruct D as [B L]. split; [exact B|lia]. Qed.
Let NW : new fs b = Some b.
Proof. unfold new, fs. rewrite long_min. now replace (7 <=? blen b) with true by lia. Qed.

Lemma long_number_len : G "packet_number_len"%string = Ok (VInt (nth 0 b 0 mod 4)).
Proof.
  assert (Q := header_int c fs 4 (int "packet_number_len" 2) 2 b).
  unfold fs in Q at 1. destruct t; specialize (Q eq_refl eq_refl S ltac:(repeat constructor) ltac:(split; [lia|vm_compute; discriminate]) BO NW);
    unfold G; cbn [f_name int fld] in Q; rewrite Q; do 2 f_equal;
    (destruct b as [|x s]; [unfold blen in L7; cbn in L7; lia|]; apply low2; destruct D as [B _]; now inversion B).
Qed.
Lemma long_version : G "version"%string = Ok (VTup [be_val (firstn 4 (skipn 1 b))]).
Proof.
  assert (Q := header_one c fs 5 (one "version" 32) 32 b).
  unfold fs in Q at 1. destruct t; specialize (Q eq_refl eq_refl S ltac:(repeat constructor) ltac:(split; [lia|vm_compute; discriminate]) BO NW);
    unfold G; cbn [f_name one fld] in Q; rewrite Q; do 3 f_equal; apply (field_bytes b 1 4); apply D.
Qed.

Lemma size_pn : forall r, len_packet_number c G r = Ok (pn_size b).
Proof.
  intros r. unfold len_packet_number. rewrite long_number_len. cbn [int_of bind]. unfold pn_size.
  apply ovf_in. lia.
Qed.

Definition P0 : schema := long_pre.
Definition P1 : schema := P0 ++ ids_mid ++ tok_mid t.
Definition P2 : schema := P1 ++ [vint "length"].
Definition pn_field : field := vfld "packet_number" bytes_ty (len_packet_number c).
Definition fr_field : field := vfld "frames" bytes_ty (len_frames c).
Definition P3 : schema := P2 ++ [pn_field].
Definition P4 : schema := P3 ++ [fr_field].
Lemma fs0 : fs = P0 ++ (ids_mid ++ tok_mid t) ++ [vint "length"; pn_field; fr_field; last_bytes "remaining"].
Proof. unfold fs. destruct t; reflexivity. Qed.
Lemma fs1 : fs = P1 ++ vint "length" :: [pn_field; fr_field; last_bytes "remaining"].
Proof. unfold fs, P1. destruct t; reflexivity. Qed.
Lemma fs2 : fs = P2 ++ pn_field :: [fr_field; last_bytes "remaining"].
Proof. unfold fs, P2, P1. destruct t; reflexivity. Qed.
Lemma fs3 : fs = P3 ++ fr_field :: [last_bytes "remaining"].
Proof. unfold fs, P3, P2, P1. destruct t; reflexivity. Qed.
Lemma fs4 : fs = P4 ++ [last_bytes "remaining"].
Proof. unfold fs, P4, P3, P2, P1. destruct t; reflexivity. Qed.

Lemma stuck_remaining : forall q r e, pos_fails G b q 0 0 e -> P4 = q ++ r ->
  get_raw c fs "remaining" b = Panic e.
Proof.
  intros q r e PF E. apply (pos_fails_app G b q r) in PF. rewrite <- E in PF.
  destruct (stuck_get c fs b S P4 (last_bytes "remaining") [] e fs4 eq_refl (long_hbits c t) PF) as [_ X]. exact X.
Qed.
Lemma end_remaining : forall p, ends c fs b P4 p -> 0 <= p < 2 ^ 63 ->
  get_raw c fs "remaining" b = if p <=? blen b then Ok (skipn (Z.to_nat p) b) else Panic EIndex.
Proof.
  intros p E R. destruct (step_last c fs b S D P4 (last_bytes "remaining") p fs4 eq_refl eq_refl E R) as [_ X]. exact X.
Qed.

(** The length field was cut off by the end of the buffer, or not found. *)
Lemma no_length : forall p, ends c fs b P1 p -> 0 <= p < 2 ^ 62 + 2 ^ 61 + 2 ^ 60 ->
  (forall n, (x <- slice_from b p ;; varint_length x) = Ok n -> p <= blen b /\ p + n > blen b /\ 0 <= n <= 8) ->
  get_raw c fs "remaining" b = Panic EIndex.
Proof.
  intros p E R Q.
  assert (DL : blen b < 2 ^ 61) by apply D. assert (DB : bytes_ok b) by apply D.
  assert (SL := slice_at b p ltac:(lia)).
  destruct (x <- slice_from b p ;; varint_length x) as [n|e] eqn:LE.
  - destruct (Q n eq_refl) as (Q1 & Q2 & Q3).
    destruct (step_vec c fs b S D P1 (vint "length") _ p len_varint n fs1 eq_refl eq_refl E ltac:(lia) LE ltac:(lia) ltac:(lia))
      as (E2 & GL & _).
    fold P2 in E2. replace (p <=? blen b) with true in GL by lia. cbn [f_name vint vfld] in GL.
    set (l := firstn (Z.to_nat n) (skipn (Z.to_nat p) b)) in *.
    assert (pn := size_pn (slice_from b (p + n))).
    assert (PN : 1 <= pn_size b <= 4) by (unfold pn_size; lia).
    destruct (step_vec c fs b S D P2 pn_field _ (p + n) _ (pn_size b) fs2 eq_refl eq_refl E2 ltac:(lia) pn ltac:(lia) ltac:(lia))
      as (E3 & GP & _).
    fold P3 in E3. replace (p + n <=? blen b) with false in GP by lia. cbn [f_name pn_field vfld] in GP.
    eapply (stuck_remaining (P3 ++ [fr_field]) []); [|now rewrite app_nil_r].
    apply (step_stuck c fs b S P3 fr_field [last_bytes "remaining"] (p + n + pn_size b) (len_frames c) EIndex fs3 eq_refl E3);
      [lia|].
    unfold len_frames. rewrite GL. cbn [bytes_of bind].
    assert (BL : bytes_ok l) by (apply bytes_firstn, bytes_skipn, DB).
    assert (NE : l <> [] /\ blen l <= 8).
    { assert (LL : blen l = blen b - p) by (unfold l, blen in *; rewrite firstn_length, skipn_length; lia).
      assert (p < blen b).
      { destruct (Z_lt_le_dec p (blen b)) as [X|X]; [exact X|]. exfalso.
        rewrite SL in LE. replace (p <=? blen b) with true in LE by lia.
        rewrite skipn_all2 in LE by (unfold blen in *; lia). discriminate. }
      split; [|lia]. intros X. rewrite X in LL. unfold blen in LL at 1. cbn in LL. lia. }
    destruct (varint_read l BL (proj1 NE) (proj2 NE)) as [V _]. rewrite V. cbn [bind]. rewrite GP. reflexivity.
  - assert (EI : e = EIndex).
    { rewrite SL in LE. destruct (p <=? blen b); cbn [bind] in LE; [|congruence].
      destruct (skipn (Z.to_nat p) b); cbn [varint_length] in LE; congruence. }
    subst e. eapply (stuck_remaining (P1 ++ [vint "length"]) [pn_field; fr_field]); [|unfold P4, P3, P2; now rewrite <- !app_assoc].
    apply (step_stuck c fs b S P1 (vint "length") _ p len_varint EIndex fs1 eq_refl E); [lia|]. exact LE.
Qed.

(** ** What follows the packet, and its fields *)

Theorem long_remaining : get_raw c fs "remaining" b = long_rest (c_mode c) t b.
Proof.
  assert (DL : blen b < 2 ^ 61) by apply D. assert (DB : bytes_ok b) by apply D.
  assert (E0 : ends c fs b P0 5) by (unfold ends; reflexivity).
  assert (HB : header_bits P0 mod 8 = 0) by reflexivity.
  destruct (ids_tok_caps t) as [C FC].
  assert (Q := walk c (fun _ => True) fs b S D I (ids_tok t) (ids_mid ++ tok_mid t) P0 _ [] [] 5 fs0
    (ids_tok_impl _ t) E0 ltac:(lia) C FC HB ltac:(constructor)).
  fold P1 in Q. unfold long_rest, head_wire. rewrite app_assoc, read_fields_app.
  change (ids_wire ++ (if t then token_wire else [])) with (ids_tok t).
  change (Z.to_nat 5) with 5%nat in Q.
  destruct (read_fields (ids_tok t) [] (skipn 5 b)) as [[seen s]|].
  2:{ destruct Q as [Q|(p & E1 & R)].
      - eapply (stuck_remaining P1 [vint "length"; pn_field; fr_field]); [exact Q|unfold P4, P3, P2; now rewrite <- !app_assoc].
      - apply (no_length p E1); [lia|]. intros n. rewrite slice_at by lia.
        replace (p <=? blen b) with false by lia. discriminate. }
  destruct Q as (A & p & E1 & R & ->). cbn [read_fields width_size].
  set (s := skipn (Z.to_nat p) b) in *.
  assert (BS : bytes_ok s) by (apply bytes_skipn; auto).
  assert (LS : blen s = blen b - p) by (unfold s, blen in *; rewrite skipn_length; lia).
  assert (SL : slice_from b p = Ok s).
  { rewrite slice_at by lia. now replace (p <=? blen b) with true by lia. }
  assert (VL := varint_length_size s BS).
  destruct (vi_size s) as [j|] eqn:VS.
  2:{ apply (no_length p E1); [lia|]. intros n. rewrite SL. cbn [bind]. rewrite VL. discriminate. }
  assert (JR := vi_size_range s j BS VS).
  destruct (j <=? blen s) eqn:JB.
  2:{ apply (no_length p E1); [lia|]. intros n. rewrite SL. cbn [bind]. rewrite VL. intros [= <-]. lia. }
  destruct (step_vec c fs b S D P1 (vint "length") _ p len_varint j fs1 eq_refl eq_refl E1 ltac:(lia)
    ltac:(unfold len_varint; rewrite SL; exact VL) ltac:(lia) ltac:(lia)) as (E2 & GL & _).
  fold P2 in E2. replace (p <=? blen b) with true in GL by lia. cbn [f_name vint vfld] in GL. fold s in GL.
  set (l := firstn (Z.to_nat j) s) in *.
  assert (LL : blen l = j) by (unfold l, blen in *; rewrite firstn_length; lia).
  assert (BL : bytes_ok l) by (apply bytes_firstn, BS).
  assert (BA : bytes_at "length" (seen ++ [("length"%string, l)]) = l).
  { clear -A. assert (NI : forall (ws : wire) (sn : list (string * buf)), map fst ws = map fst sn -> ~ In "length"%string (map fst ws) ->
      bytes_at "length" (sn ++ [("length"%string, l)]) = l).
    { induction ws as [|x ws IH]; intros [|[n l'] sn] E NI; try discriminate; cbn [app bytes_at] in *; [reflexivity|].
      cbn [map] in *. injection E as E1 E2. destruct (String.eqb_spec n "length") as [X|X].
      - exfalso. apply NI. left. rewrite E1. exact X.
      - apply (IH sn); auto. intros Y. apply NI. now right. }
    apply (NI (ids_tok t)).
    - clear -A. cbn [app] in A. revert A. generalize (ids_tok t). intros w A.
      induction A as [|nw nl w sn (N & _) A IH]; [reflexivity|]. cbn [map]. now rewrite N, IH.
    - destruct t; cbn; intuition discriminate. }
  cbn [read_fields]. rewrite BA.
  set (p2 := p + j) in *.
  replace (skipn (Z.to_nat j) s) with (skipn (Z.to_nat p2) b) by (unfold s; rewrite skipn_skipn'; f_equal; lia).
  assert (PN : 1 <= pn_size b <= 4) by (unfold pn_size; lia).
  set (s2 := skipn (Z.to_nat p2) b) in *.
  assert (LS2 : blen s2 = blen b - p2) by (unfold s2, blen in *; rewrite skipn_length; lia).
  assert (pn := size_pn (slice_from b p2)).
  destruct (step_vec c fs b S D P2 pn_field _ p2 _ (pn_size b) fs2 eq_refl eq_refl E2 ltac:(lia) pn ltac:(lia) ltac:(lia))
      as (E3 & GP & _).
  fold P3 in E3. replace (p2 <=? blen b) with true in GP by lia. cbn [f_name pn_field vfld] in GP. fold s2 in GP.
  destruct (varint_read l BL (nonempty_len l ltac:(lia)) ltac:(lia)) as [V VR].
  set (v := vi_read l) in *. set (n := pn_size b) in *. set (k := Z.min n (blen s2)) in *.
  assert (LK : blen (firstn (Z.to_nat n) s2) = k) by (unfold k, blen in *; rewrite firstn_length; lia).
  assert (LE : forall r, len_frames c G r = sub_u (c_mode c) usize v k).
  { intros r. unfold len_frames, G. rewrite GL. cbn [bytes_of bind]. rewrite V. cbn [bind]. rewrite GP. cbn [bytes_of bind].
    now rewrite LK. }
  assert (SK : forall q, 0 <= q -> skipn (Z.to_nat q) s2 = skipn (Z.to_nat (p2 + q)) b).
  { intros q Q0. unfold s2. rewrite skipn_skipn'. f_equal. lia. }
  destruct (v <? k) eqn:VK.
  - destruct (c_mode c) eqn:M; cbn [andb].
    + eapply (stuck_remaining (P3 ++ [fr_field]) []); [|now rewrite app_nil_r].
      apply (step_stuck c fs b S P3 fr_field [last_bytes "remaining"] (p2 + n) (len_frames c) EOverflow fs3 eq_refl E3);
        [lia|]. rewrite LE. unfold sub_u, ovf. now replace (0 <=? v - k) with false by lia.
    + assert (W := wrap_last c fs b P3 fr_field (last_bytes "remaining") (p2 + n) ((v - k) mod 2 ^ 64) (len_frames c)
        S D fs3 M eq_refl eq_refl eq_refl eq_refl E3 ltac:(lia)
        ltac:(rewrite LE; unfold sub_u; apply ovf_wrap)).
      cbv zeta in W. rewrite Z.add_mod_idemp_r in W by lia.
      rewrite (Z.mod_small (p2 + n + (v - k))) in W by lia. cbn [f_name last_bytes fld] in W. rewrite W by lia.
      rewrite SK by lia. replace (p2 + (n + v - k)) with (p2 + n + (v - k)) by lia.
      destruct (p2 + n + (v - k) <=? blen b) eqn:X; destruct (n + v - k <=? blen s2) eqn:Y; try lia; reflexivity.
  - cbn [andb].
    assert (LE' : len_frames c G (slice_from b (p2 + n)) = Ok (v - k)).
    { rewrite LE. unfold sub_u. apply ovf_in. unfold usize. lia. }
    destruct (step_vec c fs b S D P3 fr_field _ (p2 + n) _ (v - k) fs3 eq_refl eq_refl E3 ltac:(lia) LE' ltac:(lia) ltac:(lia))
      as (E4 & _ & _).
    fold P4 in E4. rewrite (end_remaining _ E4) by lia. rewrite SK by lia.
    replace (p2 + (n + v - k)) with (p2 + n + (v - k)) by lia.
    destruct (p2 + n + (v - k) <=? blen b) eqn:X; destruct (n + v - k <=? blen s2) eqn:Y; try lia; reflexivity.
Qed.

(** All the fields, when they are there. *)
Lemma long_impl : impl (fun e => e "packet_number_len"%string = Ok (VInt (nth 0 b 0 mod 4))) []
  (ids_mid ++ tok_mid t ++ [vint "length"; pn_field]) (head_wire t ++ [("packet_number"%string, WFixed (pn_size b))]).
Proof.
  destruct t; cbn [ids_mid long_start skipn tok_mid app head_wire ids_wire token_wire impl];
    unfold impl_field; cbn [fst snd];
    repeat match goal with
           | |- True => exact I
           | |- _ /\ _ => split
           | |- exists le, _ => eexists
           | |- f_name _ = _ => reflexivity
           | |- f_ty _ = _ => reflexivity
           | |- f_len _ = _ => reflexivity
           | |- sized _ _ len_varint _ => apply sized_varint
           | |- sized _ _ (len_of_int _ _) _ => apply sized_byteof; reflexivity
           | |- sized _ _ (len_of_varint _) _ => apply sized_of; reflexivity
           | |- sized _ _ (len_packet_number _) _ =>
               apply sized_fixed; [unfold pn_size; lia|intros e r HE; unfold len_packet_number; rewrite HE;
                 cbn [int_of bind]; apply ovf_in; unfold pn_size; lia]
           end.
Qed.

Theorem long_fields : forall seen rest, read_fields (long_wire t (pn_size b)) [] (skipn 5 b) = Some (seen, rest) ->
  agrees G (long_wire t (pn_size b)) seen /\
  get_raw c fs "packet_number" b = Ok (bytes_at "packet_number" seen) /\
  get_raw c fs "frames" b = Ok (bytes_at "frames" seen) /\
  get_raw c fs "remaining" b = Ok rest.
Proof.
  intros seen rest R0.
  assert (DL : blen b < 2 ^ 61) by apply D. assert (DB : bytes_ok b) by apply D.
  assert (E0 : ends c fs b P0 5) by (unfold ends; reflexivity).
  assert (HB : header_bits P0 mod 8 = 0) by reflexivity.
  assert (PN : 1 <= pn_size b <= 4) by (unfold pn_size; lia).
  set (w := head_wire t ++ [("packet_number"%string, WFixed (pn_size b))]).
  assert (FSW : fs = P0 ++ (ids_mid ++ tok_mid t ++ [vint "length"; pn_field]) ++ [fr_field; last_bytes "remaining"])
    by (unfold fs; destruct t; reflexivity).
  assert (CF : caps w < 2 ^ 62 + 2 ^ 60 /\ Forall (fun nw => 0 <= cap (snd nw)) w).
  { unfold w. set (q := pn_size b) in *. clearbody q. split.
    - destruct t; cbn [head_wire ids_wire token_wire app caps fold_right snd cap]; lia.
    - destruct t; repeat constructor; cbn [snd cap]; lia. }
  destruct CF as [C FC].
  assert (Q := walk c _ fs b S D long_number_len w (ids_mid ++ tok_mid t ++ [vint "length"; pn_field]) P0 _ [] [] 5 FSW
    long_impl E0 ltac:(lia) C FC HB ltac:(constructor)).
  change (Z.to_nat 5) with 5%nat in Q. cbn [app] in Q.
  assert (LW : long_wire t (pn_size b) = w ++ [("frames"%string, WRestOf "length" "packet_number")]).
  { unfold w. destruct t; reflexivity. }
  rewrite LW in *. rewrite read_fields_app in R0.
  destruct (read_fields w [] (skipn 5 b)) as [[sn s]|]; [|discriminate].
  destruct Q as (A & p & E3 & R & ->).
  assert (P3E : P0 ++ ids_mid ++ tok_mid t ++ [vint "length"; pn_field] = P3) by (unfold P3, P2, P1; destruct t; reflexivity).
  rewrite P3E in E3.
  cbn [read_fields width_size] in R0.
  set (s := skipn (Z.to_nat p) b) in *.
  assert (BS : bytes_ok s) by (apply bytes_skipn; auto).
  assert (LS : blen s = blen b - p) by (unfold s, blen in *; rewrite skipn_length; lia).
  destruct (agrees_at G w sn "length" WVarint A) as (GL & SL & BL).
  { unfold w. destruct t; reflexivity. }
  destruct (agrees_at G w sn "packet_number" (WFixed (pn_size b)) A) as (GP & _ & BP).
  { unfold w. destruct t; reflexivity. }
  cbn [shown] in GL, GP. cbn [size_ok] in SL.
  destruct (varint_read (bytes_at "length" sn) BL (nonempty_len (bytes_at "length" sn) ltac:(lia)) ltac:(lia)) as [V VR].
  assert (K0 := blen_pos (bytes_at "packet_number" sn)).
  set (v := vi_read (bytes_at "length" sn)) in *. set (k := blen (bytes_at "packet_number" sn)) in *.
  destruct (0 <=? v - k) eqn:VK; [|discriminate].
  destruct (v - k <=? blen s) eqn:VB; [|discriminate]. apply (f_equal (fun o => match o with Some x => x | None => (sn, s) end)) in R0.
  injection R0 as <- <-.
  assert (LE : len_frames c G (slice_from b p) = Ok (v - k)).
  { unfold len_frames. rewrite GL. cbn [bytes_of bind]. rewrite V. cbn [bind]. rewrite GP. cbn [bytes_of bind].
    apply ovf_in. unfold usize. lia. }
  destruct (step_vec c fs b S D P3 fr_field _ p _ (v - k) fs3 eq_refl eq_refl E3 ltac:(lia) LE ltac:(lia) ltac:(lia))
    as (E4 & GF & GR).
  fold P4 in E4. replace (p <=? blen b) with true in GF, GR by lia. cbn [f_name fr_field vfld] in GF, GR. fold s in GF, GR.
  assert (NM : map fst sn = map fst w).
  { clear -A. induction A as [|nw nl w sn (N & _) A IH]; [reflexivity|]. cbn [map]. now rewrite N, IH. }
  assert (BA : forall f x, In f (map fst sn) -> bytes_at f (sn ++ x) = bytes_at f sn).
  { clear. intros f x. induction sn as [|[n l] sn IH]; intros I; [destruct I|]. cbn [app bytes_at].
    destruct (String.eqb_spec n f) as [X|X]; [reflexivity|]. destruct I as [I|I]; [contradiction|]. auto. }
  assert (BN : forall f l x, ~ In f (map fst sn) -> bytes_at f (sn ++ (f, l) :: x) = l).
  { clear. intros f l x. induction sn as [|[n l'] sn IH]; intros I; cbn [app bytes_at].
    - now rewrite String.eqb_refl.
    - destruct (String.eqb_spec n f) as [X|X]; [exfalso; apply I; now left|]. apply IH. intros Y. apply I. now right. }
  split; [|split; [|split]].
  - apply Forall2_app; [exact A|]. constructor; [|constructor]. cbn [fst snd shown size_ok].
    split; [reflexivity|]. split; [exact GF|]. split; [exact I|]. apply bytes_firstn, BS.
  - rewrite BA by (rewrite NM; unfold w; destruct t; cbn; tauto).
    assert (X := raw_bytes c fs b P2 pn_field _ S fs2 eq_refl BO). cbn [f_name pn_field vfld] in X.
    unfold G in GP. rewrite GP in X. destruct (get_raw c fs "packet_number" b); [|discriminate]. cbn [rmap bind] in X. congruence.
  - rewrite BN; [exact GR|]. rewrite NM. unfold w. destruct t; cbn; intuition discriminate.
  - rewrite (end_remaining _ E4) by lia. replace (p + (v - k) <=? blen b) with true by lia. f_equal.
    unfold s. rewrite skipn_skipn'. f_equal. lia.
Qed.

End Long.

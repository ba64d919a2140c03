(** Re-encoding a parsed packet gives the bytes it was parsed from. *)
From Coq Require Import String ZArith List Bool Lia ZifyBool ZifyNat.
From Verif Require Import Base BitSpec DeriveUtil DeriveOps BaseFacts BitFacts
  DeriveUtilProofs DeriveOpsProofs DeriveLEProofs DeriveGen SpecPacket DeriveGenProofs.
Import ListNotations.
Open Scope Z_scope.
Ltac Zify.zify_post_hook ::= Z.to_euclidean_division_equations.

Lemma le_bytes_le_val : forall l, bytes_ok l -> le_bytes (length l) (le_val l) = l.
Proof.
  induction l as [|x l IH]; intros B; [reflexivity|]. inversion B as [|? ? X B']; subst.
  cbn [length le_bytes le_val]. unfold byte_ok in X. f_equal.
  - lia.
  - replace ((x + 256 * le_val l) / 256) with (le_val l) by lia. auto.
Qed.

Lemma le_val_nonneg : forall l, bytes_ok l -> 0 <= le_val l.
Proof.
  induction 1 as [|x l X B IH]; cbn [le_val]; [lia|]. unfold byte_ok in X. lia.
Qed.

Lemma enc_of_get : forall c bit p b co, place_ok (c_host_le c) bit p -> 0 <= bit -> 0 <= co ->
  bytes_ok b -> blen b < 2 ^ 63 -> 8 * co + bit mod 8 + p_size p <= 8 * blen b ->
  exists v, prim_get c bit p b co = Ok v /\ 0 <= v < 2 ^ p_size p /\
    enc_prim (c_host_le c) p v = field_bits b (Z.to_nat (8 * co + bit mod 8)) (Z.to_nat (p_size p)).
Proof.
  intros c bit p b co PL BI CO B L H.
  assert (FL : length (field_bits b (Z.to_nat (8 * co + bit mod 8)) (Z.to_nat (p_size p)))
               = Z.to_nat (p_size p)).
  { apply field_bits_length. unfold blen in H. destruct PL. lia. }
  destruct (is_big c p) eqn:BG.
  - assert (PD := place_placed _ _ _ PL BI BG).
    assert (NF := num_bytes_facts _ _ PD). unfold slack in NF.
    eexists. split; [apply prim_get_be; auto; unfold span, blen in *; lia|].
    split.
    + replace (2 ^ p_size p) with (2 ^ Z.of_nat (Z.to_nat (p_size p))) by (f_equal; destruct PL; lia).
      apply field_val_range. unfold blen in H. destruct PL. lia.
    + unfold enc_prim. change (is_big c p) with (big_endian (c_host_le c) (p_end p)) in BG. rewrite BG.
      unfold field_val. rewrite <- FL at 1. apply bits_of_Z_of_bits.
  - destruct (place_le _ _ _ PL BG) as (A & n & N & PN).
    rewrite PN in *. cbn [p_size] in *.
    eexists. split; [apply prim_get_le; auto; lia|].
    set (w := firstn (Z.to_nat n) (skipn (Z.to_nat co) b)).
    assert (BW : bytes_ok w) by (now apply bytes_firstn, bytes_skipn).
    assert (LW : length w = Z.to_nat n).
    { unfold w. rewrite firstn_length, skipn_length. unfold blen in H. lia. }
    assert (EW : le_bytes (Z.to_nat n) (le_val w) = w) by (rewrite <- LW; now apply le_bytes_le_val).
    split.
    + split; [now apply le_val_nonneg|]. rewrite <- EW, le_val_le_bytes.
      replace (8 * Z.of_nat (Z.to_nat n)) with (8 * n) by lia.
      apply Z.mod_pos_bound. apply Z.pow_pos_nonneg; lia.
    + unfold enc_prim. cbn [p_size p_end].
      change (is_big c (Prim (8 * n) (p_end p))) with (big_endian (c_host_le c) (p_end p)) in BG.
      rewrite BG. replace (8 * n / 8) with n by lia. rewrite EW.
      unfold w, field_bits. rewrite bits_firstn, bits_skipn. f_equal; [lia|]. f_equal. lia.
Qed.

Lemma enc_of_misc_get : forall c ps bit ns b, places_ok (c_host_le c) bit ps -> 0 <= bit ->
  Forall (fun z => 0 <= z) ns -> bytes_ok b -> blen b < 2 ^ 63 ->
  bit + 8 * zsum ns + args_bits ps <= 8 * blen b ->
  exists vs, misc_get c ps bit (map Ok ns) b = Ok vs /\ length vs = length ps /\
    Forall (fun z => 0 <= z) vs /\ norm_args ps vs = vs /\
    enc_args (c_host_le c) ps vs
    = field_bits b (Z.to_nat (bit + 8 * zsum ns)) (Z.to_nat (args_bits ps)).
Proof.
  intros c ps. induction ps as [|p ps IH]; intros bit ns b PL BI NS B L H.
  - exists []. repeat split; auto.
  - destruct PL as [PL PS]. cbn [args_bits fold_right] in H. fold (args_bits ps) in H.
    assert (0 <= zsum ns) by now apply zsum_nonneg.
    assert (AB := args_bits_nonneg _ _ _ PS). assert (SZ : 1 <= p_size p) by (destruct PL; lia).
    destruct (enc_of_get c bit p b (bit / 8 + zsum ns) PL) as (v & G & V & E); auto; try lia.
    destruct (IH (bit + p_size p) ns b PS) as (vs & GS & LN & F & NM & ES); auto; try lia.
    exists (v :: vs). cbn [misc_get]. rewrite current_offset_ok by (auto; lia). cbn [bind].
    rewrite G. cbn [bind]. rewrite GS. cbn [bind length enc_args norm_args].
    split; [reflexivity|]. split; [lia|]. split; [constructor; auto; lia|].
    split; [rewrite Z.mod_small by lia; congruence|].
    rewrite E, ES. unfold field_bits.
    cbn [args_bits fold_right]. fold (args_bits ps).
    replace (Z.to_nat (8 * (bit / 8 + zsum ns) + bit mod 8)) with (Z.to_nat (bit + 8 * zsum ns)) by lia.
    replace (Z.to_nat (bit + p_size p + 8 * zsum ns))
      with (Z.to_nat (bit + 8 * zsum ns) + Z.to_nat (p_size p))%nat by lia.
    rewrite <- skipn_skipn'.
    replace (Z.to_nat (p_size p + args_bits ps)) with (Z.to_nat (p_size p) + Z.to_nat (args_bits ps))%nat by lia.
    set (l := skipn (Z.to_nat (bit + 8 * zsum ns)) (bits_of b)).
    set (a := Z.to_nat (p_size p)). set (d := Z.to_nat (args_bits ps)).
    rewrite <- (firstn_skipn a (firstn (a + d) l)) at 1.
    rewrite firstn_firstn, Nat.min_l by lia. f_equal.
    rewrite firstn_skipn_comm. reflexivity.
Qed.

Lemma tiles_collect : forall k E W, decodable k E W -> forall s, tiles k s ->
  forall fuel xs, bytes_ok s -> blen s < 2 ^ 63 ->
  iter_collect k (k_from k) fuel s = Ok xs ->
  concat (map E xs) = s /\ Forall W xs.
Proof.
  intros k E W D s T. induction T as [|s n SZ N MN T IH]; intros fuel xs B L H;
    (destruct fuel; [discriminate|]); cbn [iter_collect] in H.
  - unfold iter_next in H. cbn [blen length Z.of_nat Z.ltb Z.compare andb bind] in H.
    injection H as <-. split; [reflexivity|constructor].
  - unfold iter_next in H.
    replace ((0 <? blen s) && (k_min k <=? blen s)) with true in H by lia.
    rewrite SZ in H. cbn [bind] in H. rewrite Z.min_l in H by lia.
    apply bind_ok in H. destruct H as (x & GX & H).
    destruct (blen (skipn (Z.to_nat n) s) =? blen s) eqn:Q; [discriminate|].
    apply bind_ok in H. destruct H as (r & GR & H). injection H as <-.
    destruct (IH fuel r) as [IH1 IH2]; auto using bytes_skipn.
    { unfold blen in *. rewrite skipn_length. lia. }
    destruct (D s x n) as [D1 D2]; auto; try lia.
    split; [|constructor; auto]. cbn [map concat]. rewrite D1, IH1. apply firstn_skipn.
Qed.

Section Inv.
Variable c : cfg.
Variable ie : string -> list val -> buf.
Variable iw : string -> list val -> Prop.
Let h := c_host_le c.

Definition inner_dec (n : string) (k : pkt_sem) : Prop :=
  decodable k (ie n) (iw n) /\ codec k (ie n) (iw n).

(** Vectors of packets fill their windows. *)
Definition loc_tiles (b : buf) (l : loc) : Prop :=
  match f_ty (l_field l) with
  | TVecPkt k => forall s, var_slice c (l_co c l) (l_len l) b = Ok s -> tiles k s
  | _ => True
  end.

Lemma field_inv : forall f r bit ns len b x, schema_ok h inner_dec (f :: r) bit ->
  0 <= bit -> Forall (fun z => 0 <= z) ns -> bytes_ok b -> blen b < 2 ^ 63 ->
  field_get c f bit (map Ok ns) len b = Ok x ->
  loc_tiles b (Loc f bit (map Ok ns) len (Ok x)) ->
  match len with
  | Some l => exists n, l = Ok n /\ 0 <= n /\ bit + 8 * zsum ns + fixed_bits (f_ty f) + 8 * n <= 8 * blen b
  | None => bit + 8 * zsum ns + fixed_bits (f_ty f) <= 8 * blen b
  end ->
  (is_vec (f_ty f) = false -> len = None) ->
  val_fits h ie iw bit f x /\ norm_val (f_ty f) x = x /\
  enc_field h ie f x = firstn (length (enc_field h ie f x)) (skipn (Z.to_nat (bit + 8 * zsum ns)) (bits_of b)) /\
  (length (enc_field h ie f x) + Z.to_nat (bit + 8 * zsum ns) <= 8 * length b)%nat /\
  match len with
  | Some l => l = Ok (blen (vec_bytes ie (f_name f) x))
  | None => is_vec (f_ty f) = true ->
      (length (enc_field h ie f x) + Z.to_nat (bit + 8 * zsum ns) = 8 * length b)%nat
  end.
Proof.
  intros f r bit ns len b x OK BI NS B L G TI LE NV.
  assert (0 <= zsum ns) by now apply zsum_nonneg.
  cbn [schema_ok] in OK. destruct OK as [OK _].
  unfold field_get, val_fits, enc_field, norm_val, loc_tiles in *.
  cbn [l_field l_bit l_lens l_len] in *.
  destruct (f_ty f) as [p|args|p|k] eqn:TY; cbn [fixed_bits is_vec] in *.
  - destruct OK as [PL FL]. rewrite (NV eq_refl) in *.
    assert (SZ : 1 <= p_size p) by (destruct PL; lia).
    rewrite current_offset_ok in G by (auto; lia). cbn [bind] in G.
    destruct (enc_of_get c bit p b (bit / 8 + zsum ns) PL) as (v & GV & V & E); auto; try lia.
    rewrite GV in G. cbn [rmap] in G. injection G as <-.
    fold h in E. rewrite E.
    replace (Z.to_nat (8 * (bit / 8 + zsum ns) + bit mod 8)) with (Z.to_nat (bit + 8 * zsum ns)) by lia.
    rewrite field_bits_length by (unfold blen in LE; lia).
    split; [split; [lia|auto]|]. split; [rewrite Z.mod_small by lia; reflexivity|].
    split; [reflexivity|]. split; [unfold blen in LE; lia|]. discriminate.
  - destruct OK as [PL FL]. rewrite (NV eq_refl) in *.
    assert (AB := args_bits_nonneg _ _ _ PL).
    destruct (enc_of_misc_get c args bit ns b PL) as (vs & GV & LN & F & NM & E); auto; try lia.
    rewrite GV in G. cbn [rmap] in G. injection G as <-.
    fold h in E. rewrite E, NM.
    rewrite field_bits_length by (unfold blen in LE; lia).
    split; [auto|]. split; [reflexivity|]. split; [reflexivity|].
    split; [unfold blen in LE; lia|]. discriminate.
  - destruct OK as (S8 & AL & OKL).
    apply bind_ok in G. destruct G as (s & VS & G).
    assert (VS' := VS). unfold var_slice, var_range in VS.
    assert (OB : bit / 8 + zsum ns < 2 ^ 64)
      by (destruct len as [l|]; [destruct LE as (n & _ & N' & LE)|]; lia).
    rewrite current_offset_ok in VS by auto.
    cbn [bind] in VS.
    destruct len as [l|]; cbn [len_or_all] in VS.
    + destruct LE as (n & -> & N & LE). cbn [bind] in VS.
      rewrite add_u_in in VS by (change usize with 64; lia). cbn [bind] in VS.
      rewrite Z.min_l in VS by lia.
      apply slice_inv in VS. destruct VS as (_ & _ & ->).
      set (s := firstn (Z.to_nat (bit / 8 + zsum ns + n - (bit / 8 + zsum ns))) (skipn (Z.to_nat (bit / 8 + zsum ns)) b)) in *.
      assert (BS : bytes_ok s) by (now apply bytes_firstn, bytes_skipn).
      assert (LS : length s = Z.to_nat n).
      { unfold s. rewrite firstn_length, skipn_length. unfold blen in LE. lia. }
      rewrite vec_get_u8_all in G by (auto; unfold blen in *; lia).
      cbn [rmap] in G. injection G as <-. cbn [vec_bytes]. rewrite bits_of_length.
      split; [auto|]. split; [reflexivity|]. split.
      { unfold s at 1. rewrite bits_firstn, bits_skipn. f_equal; [lia|]. f_equal. lia. }
      split; [unfold blen in LE; lia|]. f_equal. unfold blen. lia.
    + cbn [bind] in VS.
      rewrite add_u_in in VS by (change usize with 64; lia). cbn [bind] in VS.
      rewrite Z.min_r in VS by lia.
      apply slice_inv in VS. destruct VS as (_ & _ & ->).
      set (s := firstn (Z.to_nat (blen b - (bit / 8 + zsum ns))) (skipn (Z.to_nat (bit / 8 + zsum ns)) b)) in *.
      assert (BS : bytes_ok s) by (now apply bytes_firstn, bytes_skipn).
      assert (LS : length s = Z.to_nat (blen b - (bit / 8 + zsum ns))).
      { unfold s. rewrite firstn_length, skipn_length. unfold blen in *. lia. }
      rewrite vec_get_u8_all in G by (auto; unfold blen in *; lia).
      cbn [rmap] in G. injection G as <-. cbn [vec_bytes]. rewrite bits_of_length.
      split; [auto|]. split; [reflexivity|]. split.
      { unfold s at 1. rewrite bits_firstn, bits_skipn. f_equal; [lia|]. f_equal. lia. }
      split; [unfold blen in *; lia|]. intros _. unfold blen in *. lia.
  - destruct OK as ([DK CK] & AL & OKL).
    apply bind_ok in G. destruct G as (s & VS & G).
    specialize (TI s VS).
    unfold var_slice, var_range in VS.
    assert (OB : bit / 8 + zsum ns < 2 ^ 64)
      by (destruct len as [l|]; [destruct LE as (n & _ & N' & LE)|]; lia).
    rewrite current_offset_ok in VS by auto.
    cbn [bind] in VS.
    destruct (iter_all k (k_from k) s) as [xs|] eqn:IT; [|discriminate].
    cbn [rmap] in G. injection G as <-. unfold iter_all in IT. cbn [vec_bytes].
    destruct len as [l|]; cbn [len_or_all] in VS.
    + destruct LE as (n & -> & N & LE). cbn [bind] in VS.
      rewrite add_u_in in VS by (change usize with 64; lia). cbn [bind] in VS.
      rewrite Z.min_l in VS by lia.
      apply slice_inv in VS. destruct VS as (_ & _ & ES).
      assert (BS : bytes_ok s) by (subst s; now apply bytes_firstn, bytes_skipn).
      assert (LS : length s = Z.to_nat n).
      { subst s. rewrite firstn_length, skipn_length. unfold blen in LE. lia. }
      destruct (tiles_collect k _ _ DK s TI _ xs BS ltac:(unfold blen in *; lia) IT) as [CE CF].
      rewrite CE, bits_of_length.
      split; [auto|]. split; [reflexivity|]. split.
      { rewrite ES at 1. rewrite bits_firstn, bits_skipn. f_equal; [lia|]. f_equal. lia. }
      split; [unfold blen in LE; lia|]. f_equal. unfold blen. lia.
    + cbn [bind] in VS.
      rewrite add_u_in in VS by (change usize with 64; lia). cbn [bind] in VS.
      rewrite Z.min_r in VS by lia.
      apply slice_inv in VS. destruct VS as (_ & _ & ES).
      assert (BS : bytes_ok s) by (subst s; now apply bytes_firstn, bytes_skipn).
      assert (LS : length s = Z.to_nat (blen b - (bit / 8 + zsum ns))).
      { subst s. rewrite firstn_length, skipn_length. unfold blen in *. lia. }
      destruct (tiles_collect k _ _ DK s TI _ xs BS ltac:(unfold blen in *; lia) IT) as [CE CF].
      rewrite CE, bits_of_length.
      split; [auto|]. split; [reflexivity|]. split.
      { rewrite ES at 1. rewrite bits_firstn, bits_skipn. f_equal; [lia|]. f_equal. lia. }
      split; [unfold blen in *; lia|]. intros _. unfold blen in *. lia.
Qed.

Lemma schema_bits_nonneg : forall fs bit, schema_ok h inner_dec fs bit -> 0 <= total_bits fs.
Proof.
  induction fs as [|f fs IH]; intros bit OK; [cbn; lia|].
  cbn [schema_ok total_bits fold_right] in *. destruct OK as [OK R]. apply IH in R.
  fold (total_bits fs). destruct (f_ty f); cbn [fixed_bits]; try lia.
  - destruct OK as [[S _] _]. lia.
  - destruct OK as [S _]. apply args_bits_nonneg in S. lia.
Qed.

(** The struct returned by from_packet() encodes to the bits it was read from. *)
Lemma layout_inv : forall fs bit ns e b xs ms, schema_ok h inner_dec fs bit -> 0 <= bit ->
  Forall (fun z => 0 <= z) ns -> bytes_ok b -> blen b < 2 ^ 63 ->
  seq_res (map l_get (layout_from c b fs bit (map Ok ns) e)) = Ok xs ->
  Forall (loc_tiles b) (layout_from c b fs bit (map Ok ns) e) ->
  all_lens (layout_from c b fs bit (map Ok ns) e) = map Ok ms ->
  Forall (fun z => 0 <= z) ms ->
  bit + 8 * zsum ns + total_bits fs + 8 * zsum ms <= 8 * blen b ->
  exists T, skipn (Z.to_nat (bit + 8 * zsum ns)) (bits_of b) = encode h ie fs xs ++ T /\
    (closed fs \/ T = []) /\ norm_vals fs xs = xs /\ length xs = length fs /\
    (lens_plain fs -> fits h ie iw lok_enc fs xs bit e T).
Proof.
  induction fs as [|f fs IH]; intros bit ns e b xs ms OK BI NS B L SR TI AL MN H.
  - injection SR as <-. exists (skipn (Z.to_nat (bit + 8 * zsum ns)) (bits_of b)).
    repeat split; auto. left. constructor.
  - cbn [layout_from] in SR, TI, AL.
    assert (OK' := OK). cbn [schema_ok] in OK'. destruct OK' as [OKF OKR].
    assert (0 <= zsum ns) by now apply zsum_nonneg.
    assert (TBR := schema_bits_nonneg _ _ OKR).
    cbn [total_bits fold_right] in H. fold (total_bits fs) in H.
    assert (ZM := zsum_nonneg _ MN).
    set (rest := co <- current_offset c bit (map Ok ns) ;; slice_from b co) in *.
    set (len := match f_len f with Some le => Some (le (lookup e) rest) | None => None end) in *.
    cbn [map seq_res l_get] in SR. apply bind_ok in SR. destruct SR as (x & GX & SR).
    apply bind_ok in SR. destruct SR as (ys & SR & Hxs). injection Hxs as <-.
    rewrite GX in *. inversion TI as [|? ? T1 T2]; subst.
    cbn [all_lens flat_map l_len] in AL.
    assert (LC : exists hd tl, ms = hd ++ tl /\
       match len with Some l => exists n, l = Ok n /\ hd = [n] | None => hd = [] end /\
       flat_map (fun l => match l_len l with Some r => [r] | None => [] end)
         (layout_from c b fs (bit + fixed_bits (f_ty f))
            match len with Some l => map Ok ns ++ [l] | None => map Ok ns end
            (e ++ [(f_name f, Ok x)])) = map Ok tl).
    { destruct len as [l|].
      - destruct ms as [|n tl]; [discriminate|]. cbn [map app] in AL. injection AL as A1 A2.
        exists [n], tl. repeat split; eauto.
      - exists [], ms. auto. }
    destruct LC as (hd & tl & -> & LH & LT).
    rewrite zsum_app in *. apply Forall_app in MN. destruct MN as [MH MT].
    assert (ZT := zsum_nonneg _ MT). assert (ZH := zsum_nonneg _ MH).
    assert (FB : 0 <= fixed_bits (f_ty f)).
    { destruct (f_ty f); cbn [fixed_bits]; try lia.
      - destruct OKF as [[S _] _]. lia.
      - destruct OKF as [S _]. apply args_bits_nonneg in S. lia. }
    assert (NV : is_vec (f_ty f) = false -> len = None).
    { intros IV. unfold len. destruct (f_ty f); try discriminate; destruct OKF as [_ ->]; reflexivity. }
    destruct (field_inv f fs bit ns len b x OK BI NS B L GX T1) as (VF & NX & EX & EL & LX).
    { destruct len as [l|].
      - destruct LH as (n & -> & ->). inversion MH; subst. exists n.
        cbn [zsum fold_right] in H. repeat split; auto; lia.
      - lia. }
    { exact NV. }
    set (lens' := match len with Some l => map Ok ns ++ [l] | None => map Ok ns end) in *.
    assert (LE' : lens' = map Ok (ns ++ hd)).
    { unfold lens'. destruct len as [l|].
      - destruct LH as (n & -> & ->). now rewrite map_app.
      - subst hd. now rewrite app_nil_r. }
    rewrite LE' in *.
    assert (POS : is_vec (f_ty f) = true -> f_len f <> None ->
       Z.of_nat (length (enc_field h ie f x)) = 8 * zsum hd /\ fixed_bits (f_ty f) = 0).
    { intros IV FN. destruct (enc_field_vec c ie iw bit f x VF IV) as (EV & _ & _ & FX).
      fold h in EV. rewrite EV, bits_of_length, FX. split; auto.
      unfold len in *. destruct (f_len f); [|congruence].
      destruct LH as (n & E1 & ->). rewrite E1 in LX. injection LX as ->.
      unfold blen. cbn [zsum fold_right]. lia. }
    assert (STEP : Z.to_nat (bit + fixed_bits (f_ty f) + 8 * zsum (ns ++ hd))
         = (Z.to_nat (bit + 8 * zsum ns) + length (enc_field h ie f x))%nat \/
       (is_vec (f_ty f) = true /\ f_len f = None)).
    { destruct (is_vec (f_ty f)) eqn:IV.
      - destruct (f_len f) eqn:FLN; [|auto]. left.
        destruct POS as [P1 P2]; [auto|congruence|]. rewrite zsum_app. lia.
      - left. assert (X := enc_field_fixed c ie iw bit f x VF IV). fold h in X.
        rewrite (NV eq_refl) in LH. subst hd. rewrite app_nil_r. lia. }
    destruct STEP as [STEP|[IV FLN]].
    + destruct (IH (bit + fixed_bits (f_ty f)) (ns ++ hd) (e ++ [(f_name f, Ok x)]) b ys tl)
        as (T & ET & CT & NT & LNT & FT); auto.
      { lia. }
      { apply Forall_app; auto. }
      { rewrite zsum_app. lia. }
      exists T. rewrite STEP, <- skipn_skipn' in ET.
      assert (EX2 : skipn (Z.to_nat (bit + 8 * zsum ns)) (bits_of b)
                    = enc_field h ie f x ++ encode h ie fs ys ++ T).
      { rewrite <- ET. rewrite EX at 1. symmetry. apply firstn_skipn. }
      split; [cbn [encode]; rewrite <- app_assoc; exact EX2|].
      assert (FNV : f_len f = None -> is_vec (f_ty f) = true -> fs = [] /\ T = []).
      { intros FLN IV.
        assert (F0 : fs = []) by (destruct (f_ty f); try discriminate; apply OKF; auto).
        split; auto. subst fs. destruct ys; [|discriminate].
        unfold len in LX. rewrite FLN in LX. specialize (LX IV).
        assert (X := f_equal (@length bool) EX2). rewrite skipn_length, bits_of_length in X.
        rewrite !app_length in X. cbn [encode length] in X.
        destruct T; auto. cbn [length] in X. lia. }
      split; [|split; [|split]].
      * destruct CT as [CT|CT]; auto.
        destruct (is_vec (f_ty f)) eqn:IV; [destruct (f_len f) eqn:FLN|].
        -- left. constructor; auto. congruence.
        -- right. apply FNV; auto.
        -- left. constructor; auto. congruence.
      * cbn [norm_vals]. congruence.
      * cbn [length]. lia.
      * intros LP. inversion LP as [|? ? LP1 LP2]; subst. cbn [fits].
        split; [auto|]. split.
        -- destruct (f_len f) as [le|] eqn:FLN; [|auto]. split.
           { destruct (f_ty f); auto; destruct OKF; discriminate. }
           unfold len in LX. rename LP1 into PI.
           assert (BD : 0 <= blen (vec_bytes ie (f_name f) x) < 2 ^ 63).
           { unfold len in LH. destruct LH as (n & E1 & ->). rewrite E1 in LX. injection LX as ->.
             cbn [zsum fold_right] in H. split; [apply blen_nonneg|lia]. }
           split.
           ++ intros r. exists (blen (vec_bytes ie (f_name f) x)).
              rewrite (PI _ _ rest). split; [exact LX|]. lia.
           ++ intros t _. rewrite (PI _ _ rest). exact LX.
        -- rewrite NX. apply FT; auto.
    + (* a last vector without declared length *)
      assert (F0 : fs = []) by (destruct (f_ty f); try discriminate; apply OKF; auto).
      subst fs. cbn [layout_from map seq_res] in SR. injection SR as <-.
      unfold len in LX. rewrite FLN in LX. specialize (LX IV).
      exists []. split; [|split; [auto|split; [|split]]].
      * cbn [encode]. rewrite !app_nil_r. rewrite EX. symmetry. apply firstn_all2.
        rewrite skipn_length, bits_of_length. lia.
      * cbn [norm_vals]. congruence.
      * reflexivity.
      * intros _. cbn [fits]. rewrite FLN. auto.
Qed.

Theorem encode_from_packet : forall fs b xs ns, schema_ok h inner_dec fs 0 ->
  bytes_ok b -> blen b < 2 ^ 63 ->
  from_packet c fs b = Ok xs ->
  Forall (loc_tiles b) (layout c b fs) ->
  all_lens (layout c b fs) = map Ok ns -> Forall (fun z => 0 <= z) ns ->
  total_bits fs + 8 * zsum ns <= 8 * blen b ->
  exists T, bits_of b = encode h ie fs xs ++ T /\
    (closed fs \/ T = []) /\ norm_vals fs xs = xs /\
    (lens_plain fs -> fits h ie iw lok_enc fs xs 0 [] T).
Proof.
  intros fs b xs ns OK B L F TI AL NN H.
  destruct (layout_inv fs 0 [] [] b xs ns OK) as (T & E & CT & NT & _ & FT); auto; try lia.
  exists T. auto.
Qed.

End Inv.

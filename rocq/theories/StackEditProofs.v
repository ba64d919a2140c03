(** Proofs about editing an inner packet in place. *)
From Coq Require Import String ZArith List Bool Lia ZifyBool ZifyNat.
From Verif Require Import Base BitSpec DeriveUtil DeriveOps DeriveGen SpecPacket SpecStruct Protocols SpecProto SpecStack.
From Verif Require Import BaseFacts BitFacts DeriveGenProofs DeriveAccProofs DeriveVarProofs DeriveStructProofs DeriveApiProofs.
From Verif Require Import ProtoFacts ProtoStructProofs StackProofs.
Import ListNotations.
Open Scope Z_scope.
Ltac Zify.zify_post_hook ::= Z.to_euclidean_division_equations.

Section P.
Variable c : cfg.
Let m := c_mode c.

(** ** On arbitrary bytes *)

Lemma window_inv : forall fs b lo hi, payload_window c fs b = Ok (Some (lo, hi)) ->
  payload c fs b = Ok (firstn (Z.to_nat (hi - lo)) (skipn (Z.to_nat lo) b)) /\ 0 <= lo <= hi /\ hi <= blen b.
Proof.
  intros fs b lo hi H. unfold payload. rewrite H. cbn [bind]. unfold payload_window in H.
  destruct (payload_bounds c fs b) as [lower upper]. destruct lower as [s|]; cbn [bind] in H; [|discriminate].
  destruct upper as [u|]; cbn [bind] in H; [|discriminate].
  destruct (blen b <=? s); [discriminate|].
  destruct (slice b s (Z.min u (blen b))) as [x|] eqn:S; cbn [bind] in H; [|discriminate]. injection H as <- <-.
  apply slice_inv in S. destruct S as (A & B & ->). split; [|lia]. apply slice_ok; lia.
Qed.

Lemma window_none : forall fs b, payload_window c fs b = Ok None -> payload c fs b = Ok [].
Proof. intros fs b H. unfold payload. now rewrite H. Qed.

Lemma splice_parts : forall b lo n s, (lo + n <= length b)%nat -> length s = n ->
  splice b lo s = firstn lo b ++ s ++ skipn n (skipn lo b).
Proof. intros b lo n s L E. unfold splice. now rewrite E, skipn_skipn', Nat.add_comm. Qed.

Theorem edit_frame : forall f, (forall d, length (fst (f d)) = length d) ->
  forall fss b xss d, peel c fss b = Ok (Some (xss, d)) ->
  exists pre post, b = pre ++ d ++ post /\ edit c fss f b = (pre ++ fst (f d) ++ post, snd (f d)).
Proof.
  intros f LF. induction fss as [|fs r IH]; intros b xss d H; cbn [peel edit] in H |- *.
  - injection H as <- <-. exists [], []. cbn [app]. rewrite !app_nil_r. split; [reflexivity|]. now destruct (f b).
  - unfold new in *. destruct (minimum_packet_size fs <=? blen b); [|discriminate].
    destruct (from_packet c fs b) as [xs|]; cbn [bind] in H; [|discriminate].
    destruct (payload_window c fs b) as [[[lo hi]|]|e] eqn:W.
    + destruct (window_inv _ _ _ _ W) as (P & A & B). rewrite P in H. cbn [bind] in H.
      set (s := firstn (Z.to_nat (hi - lo)) (skipn (Z.to_nat lo) b)) in *.
      destruct (peel c r s) as [[[xss' d']|]|] eqn:Q; cbn [bind] in H; try discriminate. injection H as <- <-.
      destruct (IH _ _ _ Q) as (pre & post & E1 & E2). rewrite E2.
      assert (LS : length s = Z.to_nat (hi - lo)).
      { unfold s. rewrite firstn_length, skipn_length. unfold blen in *. lia. }
      exists (firstn (Z.to_nat lo) b ++ pre), (post ++ skipn (Z.to_nat (hi - lo)) (skipn (Z.to_nat lo) b)). split.
      * rewrite <- (firstn_skipn (Z.to_nat lo) b) at 1.
        rewrite <- (firstn_skipn (Z.to_nat (hi - lo)) (skipn (Z.to_nat lo) b)) at 1. fold s. rewrite E1.
        now rewrite <- !app_assoc.
      * rewrite (splice_parts b _ (Z.to_nat (hi - lo))).
        -- now rewrite <- !app_assoc.
        -- unfold blen in *. lia.
        -- rewrite <- LS, E1. rewrite !app_length, LF. reflexivity.
    + rewrite (window_none _ _ W) in H. cbn [bind] in H.
      destruct (peel c r []) as [[[xss' d']|]|] eqn:Q; cbn [bind] in H; try discriminate. injection H as <- <-.
      destruct (IH _ _ _ Q) as (pre & post & E1 & E2). rewrite E2. cbn [snd].
      symmetry in E1. apply app_eq_nil in E1. destruct E1 as [-> E1]. apply app_eq_nil in E1. destruct E1 as [-> ->].
      exists [], b. cbn [app]. split; [reflexivity|].
      specialize (LF []). destruct (fst (f [])); [reflexivity|discriminate].
    + unfold payload in H. rewrite W in H. discriminate.
Qed.

Theorem edit_length : forall f, (forall d, length (fst (f d)) = length d) ->
  forall fss b, length (fst (edit c fss f b)) = length b.
Proof.
  intros f LF. induction fss as [|fs r IH]; intros b; cbn [edit]; [apply LF|].
  unfold new. destruct (minimum_packet_size fs <=? blen b); [|reflexivity].
  destruct (payload_window c fs b) as [[[lo hi]|]|e] eqn:W; try reflexivity.
  destruct (window_inv _ _ _ _ W) as (P & A & B).
  set (s := firstn (Z.to_nat (hi - lo)) (skipn (Z.to_nat lo) b)) in *.
  assert (LS : length s = Z.to_nat (hi - lo)).
  { unfold s. rewrite firstn_length, skipn_length. unfold blen in *. lia. }
  specialize (IH s). destruct (edit c r f s) as [s' o]. cbn [fst] in *.
  unfold splice. rewrite !app_length, firstn_length, skipn_length. unfold blen in *. lia.
Qed.

(** ** On stacks of packets *)

(** In the crate the payload is the last field, or it is always empty. *)
Definition payload_shape (fs : schema) : Prop :=
  In (pfld "payload" (len_const 0)) fs \/
  exists pre f, fs = pre ++ [f] /\ payload_at fs pre f /\ (f_len f = None \/ closed fs).

Lemma shape_last : forall fs, (match rev fs with
    | f :: r => f_payload f && forallb (fun g => negb (f_payload g)) r &&
        (match f_len f with None => true | Some _ =>
           forallb (fun g => negb (is_vec (f_ty g)) || match f_len g with Some _ => true | None => false end) fs end)
    | [] => false end)%bool = true -> payload_shape fs.
Proof.
  intros fs H. right. destruct (rev fs) as [|f r] eqn:R; [discriminate|].
  rewrite !andb_true_iff in H. destruct H as ((P & H2) & D). rewrite forallb_forall in H2.
  assert (E : fs = rev r ++ [f]) by (rewrite <- (rev_involutive fs), R; reflexivity).
  exists (rev r), f. split; [exact E|]. split.
  - split; [exists []; exact E|]. split; [auto|]. apply Forall_forall. intros g IG. apply in_rev in IG. specialize (H2 _ IG).
    now destruct (f_payload g).
  - destruct (f_len f); [right|now left]. apply Forall_forall. rewrite forallb_forall in D. intros g IG V. specialize (D g IG).
    rewrite V in D. destruct (f_len g); discriminate.
Qed.

Lemma crate_shape : forall n fs, In (n, fs) (crate_schemas c) -> payload_shape fs.
Proof.
  intros n fs IN. unfold crate_schemas in IN. cbn [In] in IN.
  repeat (destruct IN as [IN|IN]; [injection IN as <- <-;
    first [apply shape_last; vm_compute; reflexivity
          |left; unfold router_solicit, router_advert, neighbor_solicit, neighbor_advert, redirect; cbn [In]; tauto]|]).
  contradiction IN.
Qed.

(** Replacing the payload of a struct by one of the same length. *)
Lemma scoped_reads : forall fs seen g le, scoped seen fs -> In g fs -> f_len g = Some le -> reads le (seen ++ map f_name fs).
Proof.
  induction fs as [|f fs IH]; intros seen g le S IN L; [destruct IN|]. cbn [scoped] in S. destruct S as (S1 & _ & _ & S4).
  destruct IN as [->|IN].
  - rewrite L in S1. intros e e' r H. apply S1. intros n I. apply H. apply in_or_app. now left.
  - cbn [map]. change (f_name f :: map f_name fs) with ([f_name f] ++ map f_name fs). rewrite app_assoc. eapply IH; eauto.
Qed.

Lemma env_prefix : forall pre f xp x y n, length pre = length xp -> In n (map f_name pre) ->
  struct_env (pre ++ [f]) (xp ++ [x]) n = struct_env (pre ++ [f]) (xp ++ [y]) n.
Proof.
  intros pre f xp x y n L I. rewrite <- (lookup_struct pre xp [f] [x] n L I). now rewrite <- (lookup_struct pre xp [f] [y] n L I).
Qed.

Lemma with_payload_app : forall pre f xp x p, length pre = length xp -> Forall (fun g => f_payload g = false) pre ->
  f_payload f = true -> with_payload (pre ++ [f]) (xp ++ [x]) p = xp ++ [VBytes p].
Proof.
  unfold with_payload. induction pre as [|g pre IH]; intros f [|y xp] x p L NP P; try discriminate.
  - cbn [app combine map fst snd]. now rewrite P.
  - inversion NP as [|? ? N1 N2]; subst. cbn [app combine map fst snd]. rewrite N1. f_equal. apply IH; auto.
Qed.

Lemma payload_val_app : forall pre f xp x, length pre = length xp -> Forall (fun g => f_payload g = false) pre ->
  f_payload f = true -> payload_val (pre ++ [f]) (xp ++ [x]) = match x with VBytes p => Some p | _ => None end.
Proof.
  unfold payload_val. induction pre as [|g pre IH]; intros f [|y xp] x L NP P; try discriminate.
  - cbn [app combine find fst snd]. rewrite P. destruct x; reflexivity.
  - inversion NP as [|? ? N1 N2]; subst. cbn [app combine find fst snd]. rewrite N1. apply IH; auto.
Qed.

Lemma pack_split : forall a p, (length a mod 8 = 0)%nat -> bytes_ok p -> pack (a ++ bits_of p) = pack a ++ p.
Proof.
  intros a p M B. apply pack_unique.
  - apply Forall_app. split; [apply pack_bytes|exact B].
  - rewrite bits_of_app. now rewrite pack_bits.
Qed.

Lemma packet_size_last : forall b pre f, is_vec (f_ty f) = true ->
  packet_size c (pre ++ [f]) b =
  match len_of c b pre f with
  | Some l => a <- current_offset c (total_bits pre) (all_lens (layout c b pre)) ;; x <- l ;; add_u m usize a x
  | None => current_offset c (total_bits pre) (all_lens (layout c b pre))
  end.
Proof.
  intros b pre f V. unfold packet_size, layout at 1. rewrite layout_app. fold (layout c b pre).
  assert (T : total_bits (pre ++ [f]) = total_bits pre).
  { unfold total_bits. rewrite fold_right_app. cbn [fold_right]. destruct (f_ty f); try discriminate; reflexivity. }
  rewrite T. unfold all_lens at 1. rewrite flat_map_app. fold (all_lens (layout c b pre)).
  cbn [layout_from flat_map l_len app Z.add]. unfold len_of. fold (layout c b pre).
  destruct (f_len f) as [le|]; cbn [app]; [|now rewrite app_nil_r].
  unfold current_offset at 1. rewrite fold_left_app. cbn [fold_left]. fold m. reflexivity.
Qed.

Lemma payload_val_in : forall fs xs p, payload_val fs xs = Some p ->
  exists f, In (f, VBytes p) (combine fs xs) /\ f_payload f = true.
Proof.
  intros fs xs p H. unfold payload_val in H.
  destruct (find (fun q => f_payload (fst q)) (combine fs xs)) as [[f v]|] eqn:F; [|discriminate].
  destruct v; try discriminate. injection H as ->. apply find_some in F. exists f. exact F.
Qed.

Lemma one_payload_eq : forall fs f g, (length (filter f_payload fs) <= 1)%nat -> In f fs -> In g fs ->
  f_payload f = true -> f_payload g = true -> f = g.
Proof.
  intros fs f g L I1 I2 P1 P2.
  assert (A : In f (filter f_payload fs)) by (apply filter_In; auto).
  assert (B : In g (filter f_payload fs)) by (apply filter_In; auto).
  destruct (filter f_payload fs) as [|x [|y r]]; cbn [length In] in *; try tauto; try lia. intuition congruence.
Qed.

Lemma forall2_combine : forall A B (R : A -> B -> Prop) l k, Forall2 R l k -> forall x y, In (x, y) (combine l k) -> R x y.
Proof.
  intros A B R l k H. induction H; intros a b IN; cbn [combine In] in IN; [tauto|].
  destruct IN as [E|IN]; [injection E as <- <-; auto|auto].
Qed.

Lemma forall2_in : forall A B (R S : A -> B -> Prop) l k, (forall x y, In x l -> R x y -> S x y) ->
  Forall2 R l k -> Forall2 S l k.
Proof.
  intros A B R S l k H F. induction F; constructor.
  - apply H; [now left|auto].
  - apply IHF. intros a b I. apply H. now right.
Qed.

Lemma forall2_snoc : forall A B (R : A -> B -> Prop) l k x y, length l = length k ->
  (Forall2 R (l ++ [x]) (k ++ [y]) <-> Forall2 R l k /\ R x y).
Proof.
  intros A B R l. induction l as [|a l IH]; intros [|b k] x y L; try discriminate; cbn [app].
  - split; intros H; [inversion H; auto|]. destruct H. auto.
  - injection L as L. specialize (IH k x y L). split; intros H.
    + inversion H; subst. destruct IH as [IH _]. destruct IH; auto.
    + destruct H as [H1 H2]. inversion H1; subst. constructor; [auto|]. apply IH. auto.
Qed.

Lemma refill_ok : forall n pre f xp p q, let fs := pre ++ [f] in scoped [] fs -> length pre = length xp ->
  (exists k, f_ty f = TVecPrim k) -> bytes_ok q -> length q = length p ->
  typed (elem_ok c n) fs (xp ++ [VBytes p]) -> consistent (elem_wire c n) fs (xp ++ [VBytes p]) ->
  typed (elem_ok c n) fs (xp ++ [VBytes q]) /\ consistent (elem_wire c n) fs (xp ++ [VBytes q]).
Proof.
  intros n pre f xp p q fs S L (k & T) B LQ TY CO. unfold typed, consistent, fs in *.
  assert (G : forall g, In g (pre ++ [f]) -> forall le, f_len g = Some le ->
    forall r, le (struct_env (pre ++ [f]) (xp ++ [VBytes q])) r = le (struct_env (pre ++ [f]) (xp ++ [VBytes p])) r).
  { intros g IN le LE r. assert (SC := S). apply scoped_app in SC. destruct SC as [SP SF]. cbn [app] in SF.
    assert (RD : reads le (map f_name pre)).
    { apply in_app_iff in IN. destruct IN as [IN|[<-|[]]].
      - exact (scoped_reads pre [] g le SP IN LE).
      - cbn [scoped] in SF. rewrite LE in SF. exact (proj1 SF). }
    apply RD. intros nm I. apply env_prefix; auto. }
  rewrite forall2_snoc in TY by exact L. rewrite forall2_snoc in CO by exact L. destruct TY as [T1 T2]. destruct CO as [C1 C2].
  split; rewrite forall2_snoc by exact L; split.
  - exact T1.
  - unfold typed_val. now rewrite T.
  - eapply forall2_in; [|exact C1]. intros g x IN H. cbn beta in *. destruct (f_len g) as [le|] eqn:LE; [|exact I].
    intros r. rewrite (G g) with (le := le); [apply H|apply in_or_app; now left|exact LE].
  - destruct (f_len f) as [le|] eqn:LE; [|exact I]. intros r.
    rewrite (G f) with (le := le); [|apply in_or_app; right; now left|exact LE]. rewrite C2.
    cbn [vec_bytes]. unfold blen. now rewrite LQ.
Qed.

Lemma wire_split : forall n pre f xp p, (exists k, f_ty f = TVecPrim k) -> length pre = length xp -> bytes_ok p ->
  (length (encode (c_host_le c) (elem_wire c n) (pre ++ [f]) (xp ++ [VBytes p])) mod 8 = 0)%nat ->
  packet_wire c n (pre ++ [f]) (xp ++ [VBytes p]) = pack (encode (c_host_le c) (elem_wire c n) pre xp) ++ p.
Proof.
  intros n pre f xp p (k & T) L B M. unfold packet_wire, wire. rewrite (encode_app c _ (elem_ok c n)) by (now rewrite L). rewrite (encode_app c _ (elem_ok c n)) in M by (now rewrite L).
  cbn [encode] in *. unfold enc_field in *. rewrite T in *. cbn [vec_bytes] in *. rewrite app_nil_r in *.
  apply pack_split; [|exact B]. rewrite app_length, bits_of_length in M. lia.
Qed.

Theorem refill : forall n fs xs p q, In (n, fs) (crate_schemas c) -> packet_ok c n fs xs ->
  payload_val fs xs = Some p -> bytes_ok q -> length q = length p ->
  let w := packet_wire c n fs xs in let ys := with_payload fs xs q in
  packet_ok c n fs ys /\ payload_val fs ys = Some q /\
  ((payload_window c fs w = Ok None /\ p = [] /\ packet_wire c n fs ys = w) \/
   exists lo hi, payload_window c fs w = Ok (Some (lo, hi)) /\
     firstn (Z.to_nat (hi - lo)) (skipn (Z.to_nat lo) w) = p /\ splice w (Z.to_nat lo) q = packet_wire c n fs ys).
Proof.
  intros n fs xs p q IN OK PV B L w ys.
  destruct (wire_accepted c n fs xs IN OK) as [BW NW]. fold w in BW, NW.
  destruct (crate_roundtrip c n fs xs w IN OK BW eq_refl) as [_ FP]. fold w in FP.
  assert (PW := payload_is_field c n fs w xs p IN BW FP PV).
  assert (LN : length fs = length xs) by (destruct OK as (T & _); eapply Forall2_len; exact T).
  assert (ONE := crate_one_payload c n fs IN).
  destruct p as [|p0 p'].
  - destruct q; [|discriminate]. unfold ys. rewrite (with_payload_id fs xs [] LN ONE PV). split; [exact OK|]. split; [exact PV|].
    destruct (payload_window c fs w) as [[[lo hi]|]|e] eqn:W.
    + right. exists lo, hi. destruct (window_inv _ _ _ _ W) as (P & A & A').
      rewrite P in PW. injection PW as PW. split; [reflexivity|]. split; [exact PW|].
      unfold splice. cbn [app length]. now rewrite Nat.add_0_r, firstn_skipn.
    + left. auto.
    + unfold payload in PW. rewrite W in PW. discriminate.
  - set (p := p0 :: p') in *. assert (LP : (0 < length p)%nat) by (cbn; lia).
    destruct (crate_shape n fs IN) as [SH|(pre & f & E & PA & SH)].
    + exfalso. destruct (payload_val_in fs xs p PV) as (f & IF & PF).
      assert (f = pfld "payload" (len_const 0)) by (eapply one_payload_eq; eauto; apply in_combine_l in IF; exact IF). subst f.
      destruct OK as (_ & CO & _). assert (CF := forall2_combine _ _ _ _ _ CO _ _ IF). cbn [f_len pfld len_const] in CF.
      specialize (CF (Ok [])). cbn [vec_bytes] in CF. injection CF as CF. unfold blen in CF. lia.
    + assert (PA' := PA). destruct PA' as (_ & PF & NP).
      destruct (crate_payload_bytes c n fs IN f) as (k & TY & K8); [rewrite E; apply in_or_app; right; now left|exact PF|].
      assert (TY' : exists k, f_ty f = TVecPrim k) by eauto.
      assert (XE : exists xp x, xs = xp ++ [x] /\ length pre = length xp).
      { destruct xs as [|x0 xs0] using rev_ind; [subst fs; rewrite app_length in LN; cbn [length] in LN; lia|].
        exists xs0, x0. split; [reflexivity|]. subst fs. rewrite !app_length in LN. cbn [length] in LN. lia. }
      destruct XE as (xp & x & -> & LX). subst fs.
      rewrite payload_val_app in PV by auto. destruct x as [| |px|]; try discriminate. injection PV as ->.
      assert (YE : ys = xp ++ [VBytes q]) by (unfold ys; apply with_payload_app; auto). rewrite YE. clear ys YE.
      destruct (crate_well_formed c n _ IN) as (S & SO & LPL). destruct (crate_header c n _ IN) as (M & HB & _).
      assert (SC : schema_ok (c_host_le c) (fun m k => codec k (elem_wire c n m) (elem_ok c n m)) (pre ++ [f]) 0).
      { eapply schema_ok_inner; [exact SO|]. intros g kk IF T. now apply (elem_sound c n (pre ++ [f])). }
      assert (OK' := OK). destruct OK' as (T & CO & LB).
      destruct (refill_ok n pre f xp p q S LX TY' B L T CO) as [T' CO'].
      destruct (wire_bits c _ _ _ _ SC T M) as [W1 W2]. destruct (wire_bits c _ _ _ _ SC T' M) as [W1' W2'].
      assert (BP : bytes_ok p).
      { unfold typed in T. rewrite forall2_snoc in T by exact LX. destruct T as [_ T]. unfold typed_val in T. now rewrite TY in T. }
      assert (WS := wire_split n pre f xp p TY' LX BP ltac:(lia)).
      assert (WS' := wire_split n pre f xp q TY' LX B ltac:(lia)).
      fold w in WS. set (a := pack (encode (c_host_le c) (elem_wire c n) pre xp)) in *.
      assert (OKQ : packet_ok c n (pre ++ [f]) (xp ++ [VBytes q])).
      { split; [exact T'|]. split; [exact CO'|]. fold (packet_wire c n (pre ++ [f]) (xp ++ [VBytes q])). rewrite WS'.
        destruct BW as [_ BW]. rewrite WS in BW. unfold blen in *. rewrite app_length in *. lia. }
      split; [exact OKQ|]. split; [now rewrite payload_val_app|]. right.
      destruct (payload_window c (pre ++ [f]) w) as [[[lo hi]|]|e] eqn:W.
      2: { rewrite (window_none _ _ W) in PW. discriminate. }
      2: { unfold payload in PW. rewrite W in PW. discriminate. }
      destruct (window_inv _ _ _ _ W) as (P & A & A'). rewrite P in PW. injection PW as PW.
      assert (LH : (Z.to_nat (hi - lo) = length p)%nat).
      { rewrite <- PW. rewrite firstn_length, skipn_length. unfold blen in *. lia. }
      assert (HI : hi = blen w).
      { unfold payload_window, payload_bounds in W. rewrite (payload_find c w (pre ++ [f]) pre f PA) in W.
        unfold l_co in W. cbn [l_bit l_lens l_len] in W.
        set (co := current_offset c (total_bits pre) (all_lens (layout c w pre))) in *.
        destruct SH as [SH|SH].
        - unfold len_of in W. rewrite SH in W. destruct co as [s|]; cbn [bind] in W; [|discriminate].
          rewrite Z.min_id in W. destruct (blen w <=? s); [discriminate|].
          destruct (slice w s (blen w)); cbn [bind] in W; [|discriminate]. now injection W.
        - assert (CD := struct_codec c (elem_wire c n) (elem_ok c n) (pre ++ [f]) SH S SC M ltac:(lia)).
          assert (SZ := cd_size _ _ _ CD (xp ++ [VBytes p]) [] OK). rewrite app_nil_r in SZ.
          cbn [sem_of k_size] in SZ. fold (packet_wire c n (pre ++ [f]) (xp ++ [VBytes p])) in SZ. fold w in SZ.
          specialize (SZ (Forall_nil _) (proj2 BW)). rewrite packet_size_last in SZ by now rewrite TY.
          fold co in SZ. destruct (len_of c w pre f) as [l|] eqn:LO.
          + fold m in W. destruct co as [s|]; cbn [bind] in W, SZ; [|discriminate]. destruct l as [l|]; cbn [bind] in W, SZ; [|discriminate].
            rewrite SZ in W. cbn [bind] in W. rewrite Z.min_id in W. destruct (blen w <=? s); [discriminate|].
            destruct (slice w s (blen w)); cbn [bind] in W; [|discriminate]. now injection W.
          + destruct co as [s|]; cbn [bind] in W; [|discriminate].
            rewrite Z.min_id in W. destruct (blen w <=? s); [discriminate|].
            destruct (slice w s (blen w)); cbn [bind] in W; [|discriminate]. now injection W. }
      exists lo, hi. split; [reflexivity|]. split; [exact PW|].
      assert (LO : Z.to_nat lo = length a).
      { rewrite WS in HI. unfold blen in *. rewrite app_length in HI. lia. }
      rewrite WS', LO. unfold splice. rewrite WS. rewrite firstn_app, Nat.sub_diag, firstn_all. cbn [firstn]. rewrite app_nil_r. f_equal.
      rewrite skipn_all2; [now rewrite app_nil_r|]. rewrite app_length. lia.
Qed.

Theorem edit_stacked : forall f ls data w, stacked c ls data w ->
  length (fst (f data)) = length data -> bytes_ok (fst (f data)) ->
  exists ks v, edit c (map y_schema ls) f w = (v, snd (f data)) /\ stacked c ks (fst (f data)) v /\
    Forall2 same_header ls ks /\ length v = length w /\ (ls <> [] -> bytes_ok v).
Proof.
  intros f. induction ls as [|l r IH]; intros data w H LF BF; cbn [stacked map edit] in H |- *.
  - subst w. exists [], (fst (f data)). split; [now destruct (f data)|]. split; [reflexivity|]. split; [constructor|]. split; [auto|congruence].
  - destruct H as (inner & SI & IN & OK & PV & ->). destruct (IH _ _ SI LF BF) as (ks & v & E & SK & F & LV & BV).
    assert (BV' : bytes_ok v).
    { destruct r; [|apply BV; discriminate]. inversion F; subst. cbn [stacked] in SK. now subst v. }
    destruct (wire_accepted c _ _ _ IN OK) as [BW NW]. rewrite NW.
    destruct (refill _ _ _ _ _ IN OK PV BV' LV) as (OK' & PV' & W).
    set (k := Layer (y_name l) (y_schema l) (with_payload (y_schema l) (y_struct l) v)).
    assert (SH : same_header l k) by (split; [reflexivity|split; [reflexivity|exists v; reflexivity]]).
    exists (k :: ks), (packet_wire c (y_name l) (y_schema l) (y_struct k)).
    assert (ST : stacked c (k :: ks) (fst (f data)) (packet_wire c (y_name l) (y_schema l) (y_struct k))).
    { exists v. unfold k. cbn [y_name y_schema y_struct]. auto. }
    destruct (wire_accepted c _ _ _ IN OK') as [[BK _] _].
    destruct W as [(W & -> & WE)|(lo & hi & W & P & WE)]; rewrite W.
    + destruct v; [|discriminate]. rewrite E. cbn [snd]. unfold k at 1. cbn [y_struct]. rewrite WE.
      split; [reflexivity|]. split; [exact ST|]. split; [constructor; auto|]. split; [unfold k; cbn [y_struct]; now rewrite WE|].
      intros _. exact BK.
    + rewrite P, E. rewrite WE. unfold k at 1. cbn [y_struct].
      split; [reflexivity|]. split; [exact ST|]. split; [constructor; auto|]. split; [|intros _; exact BK].
      unfold k. cbn [y_struct]. rewrite <- WE. destruct (window_inv _ _ _ _ W) as (_ & A & A').
      unfold splice. rewrite !app_length, firstn_length, skipn_length.
      assert (length inner = Z.to_nat (hi - lo)).
      { rewrite <- P at 1. rewrite firstn_length, skipn_length. unfold blen in *. lia. }
      unfold blen in *. lia.
Qed.
End P.

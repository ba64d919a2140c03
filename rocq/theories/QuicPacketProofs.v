(** Splitting a datagram into packets. *)
From Coq Require Import String ZArith List Bool Lia ZifyBool ZifyNat.
From Verif Require Import Base BitSpec DeriveUtil DeriveOps BaseFacts BitFacts
  DeriveUtilProofs DeriveOpsProofs DeriveLEProofs DeriveGen SpecPacket DeriveGenProofs DeriveInvProofs
  DeriveAccProofs DeriveVarProofs DeriveApiProofs DerivePropProofs DerivePropProofs2 Protocols ProtoFacts
  ProtoPayloadProofs ProtoSplitProofs ProtoTcpProofs Quic SpecQuic QuicIntProofs QuicWalkProofs QuicFrameProofs
  QuicSeqProofs QuicRfcProofs QuicLongProofs.
Import ListNotations.
Open Scope Z_scope.
Ltac Zify.zify_post_hook ::= Z.to_euclidean_division_equations.

(** ** Classification *)

Definition first_ok (x : Z) : bool :=
  Bool.eqb (0 <? Z.land x 128) (Z.testbit x 7) && Bool.eqb (0 <? Z.land x 64) (Z.testbit x 6) &&
  (Z.land (Z.shiftr x 4) 3 =? (x / 16) mod 4).
Lemma first_all : forallb first_ok (zrange 0 256) = true.
Proof. vm_compute. reflexivity. Qed.
Lemma first_bits : forall x, byte_ok x ->
  (0 <? Z.land x 128) = Z.testbit x 7 /\ (0 <? Z.land x 64) = Z.testbit x 6 /\
  Z.land (Z.shiftr x 4) 3 = (x / 16) mod 4.
Proof.
  intros x B. unfold byte_ok in B. assert (Q := proj1 (forallb_forall _ _) first_all x).
  specialize (Q ltac:(apply in_zrange; lia)). unfold first_ok in Q. apply andb_prop in Q. destruct Q as [Q Q3].
  apply andb_prop in Q. destruct Q as [Q1 Q2]. apply eqb_prop in Q1, Q2. apply Z.eqb_eq in Q3. auto.
Qed.
Lemma zero_version : forall b, bytes_ok b ->
  forallb (fun x => x =? 0) (firstn 4 (skipn 1 b)) = (version_of b =? 0).
Proof.
  intros b B. unfold version_of. assert (BL : bytes_ok (firstn 4 (skipn 1 b))) by (apply bytes_firstn, bytes_skipn, B).
  generalize dependent (firstn 4 (skipn 1 b)). intros l BL. induction BL as [|x l X BL IH]; [reflexivity|].
  cbn [forallb]. rewrite be_val_cons, IH. assert (R := be_val_bound l BL). assert (P := blen_pos l).
  assert (PP : 0 < 256 ^ blen l) by (apply Z.pow_pos_nonneg; lia). unfold byte_ok in X.
  destruct (x =? 0) eqn:E; cbn [andb].
  - apply Z.eqb_eq in E. subst x. now rewrite Z.mul_0_l.
  - symmetry. apply Z.eqb_neq. nia.
Qed.
Lemma head_byte : forall b, bytes_ok b -> 1 <= blen b -> byte_ok (nth 0 b 0).
Proof. intros [|x b] B L; [unfold blen in L; cbn in L; lia|]. cbn [nth]. now inversion B. Qed.

Theorem classify_rfc : forall b, bytes_ok b -> 5 <= blen b ->
  quic_classify b =
  (if Z.testbit (nth 0 b 0) 7 || Z.testbit (nth 0 b 0) 6 then rfc_kind b
   else if version_of b =? 0 then Some QVersionNegotiation else None).
Proof.
  intros b B L. destruct (first_bits (nth 0 b 0) (head_byte b B ltac:(lia))) as (Q1 & Q2 & Q3).
  unfold quic_classify, rfc_kind. rewrite Q1, Q2, Q3, zero_version by exact B.
  destruct (Z.testbit (nth 0 b 0) 7) eqn:T7, (Z.testbit (nth 0 b 0) 6) eqn:T6; cbn [andb orb negb]; try reflexivity.
  destruct (version_of b =? 0); [reflexivity|].
  assert (C : let t := (nth 0 b 0 / 16) mod 4 in t = 0 \/ t = 1 \/ t = 2 \/ t = 3) by (cbv zeta; lia).
  cbv zeta in C. destruct C as [C|[C|[C|C]]]; rewrite C; reflexivity.
Qed.

(** ** One round of the loop *)

Section Rounds.
Variable c : cfg.

Definition qprepend (pre : list quic) (x : res (option (list quic))) : res (option (list quic)) :=
  match x with Ok (Some l) => Ok (Some (pre ++ l)) | _ => x end.
Lemma quic_acc : forall fuel b acc, quic_loop c fuel b acc = qprepend acc (quic_loop c fuel b []).
Proof.
  induction fuel as [|fuel IH]; intros [|x b] acc; cbn [quic_loop qprepend]; try (now rewrite app_nil_r); try reflexivity.
  destruct (_ <? 5); [reflexivity|]. destruct (quic_classify (x :: b)) as [k|]; [|reflexivity].
  destruct (new (quic_schema c k) (x :: b)); [|reflexivity]. destruct (quic_remaining c _); [|reflexivity].
  cbn [bind app]. rewrite IH. symmetry. rewrite IH. destruct (quic_loop c fuel _ []) as [[l|]|]; try reflexivity.
  cbn [qprepend]. now rewrite <- app_assoc.
Qed.
Lemma quic_min : forall k, minimum_packet_size (quic_schema c k) = match k with QOneRtt => 1 | _ => 7 end.
Proof. intros k. destruct k; reflexivity. Qed.
Lemma quic_new_some : forall k b p, new (quic_schema c k) b = Some p -> p = b /\ (k <> QOneRtt -> 7 <= blen b).
Proof.
  intros k b p. unfold new. rewrite quic_min. destruct (_ <=? blen b) eqn:Q; [|discriminate]. intros [= <-].
  split; [reflexivity|]. intros K. destruct k; try congruence; lia.
Qed.
Lemma read_suffix : forall w seen0 s seen r, read_fields w seen0 s = Some (seen, r) -> exists own, s = own ++ r.
Proof. exact read_fields_suffix. Qed.
Lemma long_rest_suffix : forall m t b r, 5 <= blen b -> long_rest m t b = Ok r -> exists own, own <> [] /\ b = own ++ r.
Proof.
  intros m t b r L. unfold long_rest. destruct (read_fields (head_wire t) [] (skipn 5 b)) as [[seen s]|] eqn:R; [|discriminate].
  apply read_fields_suffix in R. destruct R as [own R].
  destruct (_ && _); [discriminate|].
  set (j := pn_size b + _ - _). destruct (j <=? blen s); [|discriminate]. intros [= <-].
  exists (firstn 5 b ++ own ++ firstn (Z.to_nat j) s). split.
  - destruct b; [unfold blen in L; cbn in L; lia|]. discriminate.
  - rewrite <- !app_assoc, firstn_skipn, <- R. symmetry. apply firstn_skipn.
Qed.
Lemma remaining_long : forall k b, has_length k = true -> dgram b -> 7 <= blen b ->
  quic_remaining c (Quic k b) = long_rest (c_mode c) (has_token k) b.
Proof.
  intros k b K D L. assert (Q := long_remaining c (has_token k) b D L).
  rewrite <- (quic_long c k K) in Q. rewrite <- Q. clear Q D L.
  destruct k; try discriminate K; unfold quic_remaining; cbn [q_kind q_buf]; reflexivity.
Qed.
Lemma remaining_other : forall k b, has_length k = false -> quic_remaining c (Quic k b) = Ok [].
Proof. intros k b K. destruct k; try discriminate K; reflexivity. Qed.
Lemma remaining_suffix : forall k b r, dgram b -> 5 <= blen b -> new (quic_schema c k) b = Some b ->
  quic_remaining c (Quic k b) = Ok r -> exists own, own <> [] /\ b = own ++ r.
Proof.
  intros k b r D L NW R. destruct (has_length k) eqn:K.
  - apply quic_new_some in NW. rewrite remaining_long in R; auto; [|apply NW; intros ->; discriminate].
    now apply long_rest_suffix in R.
  - rewrite remaining_other in R by exact K. injection R as <-. exists b. rewrite app_nil_r. split; [|reflexivity].
    intros ->. unfold blen in L. cbn in L. lia.
Qed.

Lemma quic_fuel : forall f1 f2 b, dgram b -> (List.length b <= f1)%nat -> (List.length b <= f2)%nat ->
  quic_loop c f1 b [] = quic_loop c f2 b [].
Proof.
  induction f1 as [|f1 IH]; intros [|f2] [|x b] D L1 L2; try reflexivity; try (cbn in L1; lia); try (cbn in L2; lia).
  cbn [quic_loop]. destruct (_ <? 5) eqn:B5; [reflexivity|]. destruct (quic_classify (x :: b)) as [k|]; [|reflexivity].
  destruct (new (quic_schema c k) (x :: b)) as [p|] eqn:NW; [|reflexivity].
  assert (p = x :: b) by (apply (quic_new_some k); exact NW). subst p.
  destruct (quic_remaining c (Quic k (x :: b))) as [r|] eqn:R; [|reflexivity]. cbn [bind].
  destruct (remaining_suffix k (x :: b) r D ltac:(lia) NW R) as (own & NE & E).
  rewrite quic_acc, (quic_acc f2). f_equal. apply IH.
  - rewrite E in D. exact (suffix_dgram own r D).
  - rewrite E, app_length in L1. destruct own; [congruence|]. cbn [List.length] in *. lia.
  - rewrite E, app_length in L2. destruct own; [congruence|]. cbn [List.length] in *. lia.
Qed.

(** QuicPacket::new as an equation. *)
Theorem quic_unfold : forall b, dgram b -> b <> [] ->
  quic_new c b =
  (if blen b <? 5 then Ok None
   else match quic_classify b with
        | None => Ok None
        | Some k =>
            if (match k with QOneRtt => 1 | _ => 7 end) <=? blen b
            then match quic_remaining c (Quic k b) with
                 | Ok r => qprepend [Quic k b] (quic_new c r)
                 | Panic e => Panic e
                 end
            else Ok None
        end).
Proof.
  intros b D NE. unfold quic_new at 1. destruct b as [|x b]; [congruence|]. cbn [List.length quic_loop].
  destruct (_ <? 5) eqn:B5; [reflexivity|]. destruct (quic_classify (x :: b)) as [k|]; [|reflexivity].
  destruct (new (quic_schema c k) (x :: b)) as [p|] eqn:NW.
  - assert (p = x :: b) by (apply (quic_new_some k); exact NW). subst p.
    assert (NW' := NW). unfold new in NW'. rewrite quic_min in NW'. destruct (_ <=? blen (x :: b)) eqn:Q; [|discriminate].
    destruct (quic_remaining c (Quic k (x :: b))) as [r|] eqn:R; [|reflexivity]. cbn [bind app].
    destruct (remaining_suffix k (x :: b) r D ltac:(lia) NW R) as (own & NO & E).
    rewrite quic_acc. f_equal. unfold quic_new. apply quic_fuel; [|  |lia].
    + rewrite E in D. exact (suffix_dgram own r D).
    + apply (f_equal (@List.length Z)) in E. rewrite app_length in E. destruct own; [congruence|]. cbn [List.length] in *. lia.
  - unfold new in NW. rewrite quic_min in NW. destruct (_ <=? blen (x :: b)); [discriminate|]. reflexivity.
Qed.

(** ** Termination and tiling *)

Theorem quic_tiles : forall b, dgram b ->
  quic_new c b <> Panic EDiverge /\ forall l, quic_new c b = Ok (Some l) -> chain c b l.
Proof.
  assert (P : forall n b, (List.length b <= n)%nat -> dgram b ->
    quic_new c b <> Panic EDiverge /\ forall l, quic_new c b = Ok (Some l) -> chain c b l).
  { induction n as [|n IH]; intros b LN D.
    { destruct b; [|cbn in LN; lia]. cbn. split; [discriminate|]. intros l [= <-]. constructor. }
    destruct b as [|x b0]. { cbn. split; [discriminate|]. intros l [= <-]. constructor. }
    set (b := x :: b0) in *. rewrite (quic_unfold b D) by discriminate.
    destruct (blen b <? 5) eqn:B5; [split; [discriminate|intros; discriminate]|].
    destruct (quic_classify b) as [k|]; [|split; [discriminate|intros; discriminate]].
    destruct (_ <=? blen b) eqn:Q; [|split; [discriminate|intros; discriminate]].
    assert (NW : new (quic_schema c k) b = Some b) by (unfold new; rewrite quic_min, Q; reflexivity).
    destruct (quic_remaining c (Quic k b)) as [r|e] eqn:R.
    - destruct (remaining_suffix k b r D ltac:(lia) NW R) as (own & NO & E).
      assert (LR : (List.length r <= n)%nat).
      { apply (f_equal (@List.length Z)) in E. rewrite app_length in E. destruct own; [congruence|]. unfold b in *. cbn [List.length] in *. lia. }
      assert (DR : dgram r) by (rewrite E in D; exact (suffix_dgram own r D)).
      destruct (IH r LR DR) as [IH1 IH2]. clearbody b. subst b.
      destruct (quic_new c r) as [[l'|]|e']; cbn [qprepend]; (split; [congruence|]); intros l EL; try discriminate.
      injection EL as <-. apply chain_next; auto.
    - split; [|discriminate]. intros [= ->].
      destruct (has_length k) eqn:K; [|rewrite remaining_other in R by exact K; discriminate].
      rewrite remaining_long in R; auto; [|destruct k; try discriminate K; lia].
      clear -R. unfold long_rest in R. destruct (read_fields _ _ _) as [[? ?]|]; [|discriminate R]. cbv zeta in R.
      destruct (_ && _); [discriminate R|]. destruct (_ <=? _) in R; discriminate R. }
  intros b D. apply (P (List.length b)); auto.
Qed.

(** ** The exact condition for a panic in the first packet *)

Theorem long_panics : forall k b, dgram b -> quic_classify b = Some k -> has_length k = true ->
  quic_new c b =
  (if blen b <? 7 then Ok None
   else match long_rest (c_mode c) (has_token k) b with
        | Ok r => qprepend [Quic k b] (quic_new c r)
        | Panic e => Panic e
        end) \/ blen b = 0.
Proof.
  intros k b D C K. destruct b as [|x b0]; [right; reflexivity|left]. set (b := x :: b0) in *.
  rewrite (quic_unfold b D) by discriminate. rewrite C.
  destruct (blen b <? 7) eqn:B7.
  - destruct (blen b <? 5); [reflexivity|]. destruct k; try discriminate K; now replace (7 <=? blen b) with false by lia.
  - replace (blen b <? 5) with false by lia. rewrite remaining_long by (auto; lia).
    destruct k; try discriminate K; now replace (7 <=? blen b) with true by lia.
Qed.

End Rounds.

Lemma vi_read_nonneg : forall l, bytes_ok l -> 0 <= vi_read l.
Proof.
  intros l B. unfold vi_read. destruct (Z_lt_le_dec 0 (2 ^ (8 * blen l - 2))) as [P|P].
  - apply Z.mod_pos_bound. exact P.
  - assert (N : 2 ^ (8 * blen l - 2) = 0) by (assert (Q := Z.pow_nonneg 2 (8 * blen l - 2)); lia).
    rewrite N, Zmod_0_r. apply be_val_bound in B. lia.
Qed.

(** In the RFC's terms: the fields lie inside the buffer. *)
Lemma long_wire_rest : forall t b seen s, read_fields (head_wire t) [] (skipn 5 b) = Some (seen, s) ->
  forall n, 0 <= n ->
  read_fields (long_wire t n) [] (skipn 5 b) =
  (let v := vi_read (bytes_at "length" seen) in
   if (n <=? blen s) && (n <=? v) && (v <=? blen s)
   then Some (seen ++ [("packet_number"%string, firstn (Z.to_nat n) s);
                       ("frames"%string, firstn (Z.to_nat (v - n)) (skipn (Z.to_nat n) s))],
              skipn (Z.to_nat v) s)
   else None).
Proof.
  intros t b seen s R n N.
  assert (LW : long_wire t n = head_wire t ++
    [("packet_number"%string, WFixed n); ("frames"%string, WRestOf "length" "packet_number")]).
  { unfold long_wire, head_wire. now rewrite <- !app_assoc. }
  rewrite LW, read_fields_app, R. cbn [read_fields width_size].
  assert (MN : In "length"%string (map fst seen) /\ ~ In "packet_number"%string (map fst seen)).
  { assert (NM : map fst seen = map fst (head_wire t)).
    { assert (X : forall w s0 x seen' r, read_fields w s0 x = Some (seen', r) -> map fst seen' = map fst s0 ++ map fst w).
      { induction w as [|[m k] w IH]; intros s0 x seen' r; cbn [read_fields map].
        - intros [= <- <-]. now rewrite app_nil_r.
        - destruct (width_size k s0 x); [|discriminate]. destruct (_ <=? _); [|discriminate]. intros Y. apply IH in Y.
          rewrite Y, map_app, <- app_assoc. reflexivity. }
      apply X in R. exact R. }
    rewrite NM. destruct t; cbn; intuition discriminate. }
  assert (B1 : forall x, bytes_at "length" (seen ++ x) = bytes_at "length" seen).
  { destruct MN as [MN _]. clear -MN. intros x. induction seen as [|[m l] seen IH]; [destruct MN|]. cbn [app bytes_at].
    destruct (String.eqb_spec m "length") as [X|X]; [reflexivity|]. destruct MN as [MN|MN]; [contradiction|]. auto. }
  assert (B2 : forall l x, bytes_at "packet_number" (seen ++ ("packet_number"%string, l) :: x) = l).
  { destruct MN as [_ MN]. clear -MN. intros l x. induction seen as [|[m l'] seen IH]; cbn [app bytes_at].
    - reflexivity.
    - destruct (String.eqb_spec m "packet_number") as [X|X]; [exfalso; apply MN; now left|]. apply IH. intros Y. apply MN. now right. }
  rewrite B1, B2. set (v := vi_read (bytes_at "length" seen)).
  destruct (n <=? blen s) eqn:Q1; cbn [andb]; [|reflexivity].
  assert (LF : blen (firstn (Z.to_nat n) s) = n) by (unfold blen in *; rewrite firstn_length; lia).
  assert (LK : blen (skipn (Z.to_nat n) s) = blen s - n) by (unfold blen in *; rewrite skipn_length; lia).
  rewrite LF. destruct (n <=? v) eqn:Q2; cbn [andb].
  - replace (0 <=? v - n) with true by lia. rewrite LK. cbv zeta.
    destruct (v <=? blen s) eqn:Q3.
    + replace (v - n <=? blen s - n) with true by lia. rewrite <- app_assoc. cbn [app]. do 2 f_equal.
      rewrite skipn_skipn'. f_equal. lia.
    + now replace (v - n <=? blen s - n) with false by lia.
  - now replace (0 <=? v - n) with false by lia.
Qed.

Theorem rest_checked : forall t b r, bytes_ok b ->
  long_rest Checked t b = Ok r <-> exists seen, read_fields (long_wire t (pn_size b)) [] (skipn 5 b) = Some (seen, r).
Proof.
  intros t b r B. assert (N : 1 <= pn_size b <= 4) by (unfold pn_size; lia).
  unfold long_rest. destruct (read_fields (head_wire t) [] (skipn 5 b)) as [[seen s]|] eqn:R.
  - rewrite (long_wire_rest t b seen s R) by lia. cbv zeta.
    assert (S0 := blen_pos s).
    set (v := vi_read (bytes_at "length" seen)) in *. set (n := pn_size b) in *.
    split.
    + destruct (v <? Z.min n (blen s)) eqn:Q1; cbn [andb]; [discriminate|].
      destruct (n + v - Z.min n (blen s) <=? blen s) eqn:Q2; [|discriminate]. intros E. eexists.
      replace ((n <=? blen s) && (n <=? v) && (v <=? blen s)) with true by lia. f_equal.
      injection E as <-. f_equal. f_equal. lia.
    + intros [sn E]. destruct ((n <=? blen s) && (n <=? v) && (v <=? blen s)) eqn:Q; [|discriminate].
      replace (v <? Z.min n (blen s)) with false by lia. cbn [andb].
      replace (n + v - Z.min n (blen s)) with v by lia. replace (v <=? blen s) with true by lia. injection E as _ <-. reflexivity.
  - split; [discriminate|]. intros [sn E]. exfalso.
    assert (LW : long_wire t (pn_size b) = head_wire t ++
      [("packet_number"%string, WFixed (pn_size b)); ("frames"%string, WRestOf "length" "packet_number")]).
    { unfold long_wire, head_wire. now rewrite <- !app_assoc. }
    rewrite LW, read_fields_app, R in E. discriminate.
Qed.
Theorem rest_any : forall m t b seen r, bytes_ok b ->
  read_fields (long_wire t (pn_size b)) [] (skipn 5 b) = Some (seen, r) -> long_rest m t b = Ok r.
Proof.
  intros m t b seen r B R. assert (Q : long_rest Checked t b = Ok r) by (apply rest_checked; eauto).
  destruct m; [exact Q|]. unfold long_rest in *. destruct (read_fields (head_wire t) [] (skipn 5 b)) as [[sn s]|]; [|discriminate].
  cbn [andb]. rewrite andb_false_r. destruct (_ && true); [discriminate|]. exact Q.
Qed.

(** ** 1-RTT packets *)

Section OneRtt.
Variable c : cfg.
Variable b : buf.
Hypothesis D : dgram b.
Let fs : schema := one_rtt c.
Let G : env := fun n => get c fs n b.

Lemma rtt_scoped : scoped [] (one_rtt c).
Proof. unfold one_rtt. qscoped_tac. Qed.
Lemma rtt_fields : 1 <= blen b ->
  let n := pn_size b in
  get c fs "dest_id" b = Ok (VBytes (firstn 8 (skipn 1 b))) /\
  get_raw c fs "packet_number" b = (if 9 <=? blen b then Ok (firstn (Z.to_nat n) (skipn 9 b)) else Panic EIndex) /\
  payload c fs b = Ok (skipn (9 + Z.to_nat n) b).
Proof.
  intros L n. assert (DL : blen b < 2 ^ 61) by apply D. assert (DB : bytes_ok b) by apply D.
  assert (BO : buf_ok b) by (split; [exact DB|lia]).
  assert (S := rtt_scoped). fold fs in S.
  assert (NW : new fs b = Some b) by (unfold new; change (minimum_packet_size fs) with 1; now replace (1 <=? blen b) with true by lia).
  assert (GN : G "packet_number_len"%string = Ok (VInt (nth 0 b 0 mod 4))).
  { assert (Q := header_int c fs 5 (int "packet_number_len" 2) 2 b).
    specialize (Q eq_refl eq_refl S ltac:(repeat constructor) ltac:(split; [lia|vm_compute; discriminate]) BO NW).
    unfold G. cbn [f_name int fld] in Q. rewrite Q. do 2 f_equal.
    destruct b as [|x s]; [unfold blen in L; cbn in L; lia|]. apply low2. now inversion DB. }
  set (pre := firstn 6 fs). 
  assert (E0 : ends c fs b pre 1) by (unfold ends; reflexivity).
  assert (PN : 1 <= n <= 4) by (unfold n, pn_size; lia).
  destruct (step_vec c fs b S D pre (vfld "dest_id" bytes_ty (len_const 8)) _ 1 _ 8 eq_refl eq_refl eq_refl E0 ltac:(lia)
    eq_refl ltac:(lia) ltac:(lia)) as (E1 & GD & _).
  replace (1 <=? blen b) with true in GD by lia. cbn [f_name vfld] in GD.
  assert (LE : len_packet_number c G (slice_from b 9) = Ok n).
  { unfold len_packet_number. rewrite GN. cbn [int_of bind]. apply ovf_in. unfold n, pn_size. lia. }
  destruct (step_vec c fs b S D (pre ++ [vfld "dest_id" bytes_ty (len_const 8)]) (vfld "packet_number" bytes_ty (len_packet_number c))
    [pall "payload"] 9 _ n eq_refl eq_refl eq_refl E1 ltac:(lia) LE ltac:(lia) ltac:(lia)) as (E2 & _ & GP).
  cbn [f_name vfld] in GP. split; [exact GD|]. split; [exact GP|].
  unfold ends in E2.
  rewrite (api_payload c b fs ((pre ++ [vfld "dest_id" bytes_ty (len_const 8)]) ++ [vfld "packet_number" bytes_ty (len_packet_number c)]) (pall "payload") [] (8 * (9 + n)) (blen b) S eq_refl eq_refl ltac:(repeat constructor) BO E2).
  - f_equal. replace (8 * (9 + n) / 8) with (9 + n) by lia. rewrite clip_rest by lia. f_equal. lia.
  - unfold own_len. reflexivity.
  - apply blen_pos.
  - lia.
Qed.

Theorem rtt_exact : 5 <= blen b -> Z.testbit (nth 0 b 0) 7 = false -> Z.testbit (nth 0 b 0) 6 = true ->
  let q := Quic QOneRtt b in
  quic_new c b = Ok (Some [q]) /\
  quic_packet_number c q = (if 9 <=? blen b then Ok (Some (be_val (firstn (Z.to_nat (pn_size b)) (skipn 9 b)))) else Panic EIndex) /\
  quic_display c q =
    (if 9 <=? blen b
     then Ok [LType QOneRtt; LNumber (be_val (firstn (Z.to_nat (pn_size b)) (skipn 9 b)));
              LDest (firstn 8 (skipn 1 b)); LPayload (Z.max 0 (blen b - 9 - pn_size b))]
     else Panic EIndex).
Proof.
  intros L T7 T6 q. assert (DB : bytes_ok b) by apply D.
  destruct (rtt_fields ltac:(lia)) as (GD & GP & PL).
  assert (PNE : quic_packet_number c q =
    (if 9 <=? blen b then Ok (Some (be_val (firstn (Z.to_nat (pn_size b)) (skipn 9 b)))) else Panic EIndex)).
  { unfold quic_packet_number, q. cbn [q_kind q_buf quic_schema]. fold fs. rewrite GP.
    destruct (9 <=? blen b); [|reflexivity]. cbn [bind].
    assert (LN : blen (firstn (Z.to_nat (pn_size b)) (skipn 9 b)) <= 4).
    { assert (1 <= pn_size b <= 4) by (unfold pn_size; lia). unfold blen. rewrite firstn_length. lia. }
    rewrite packet_number_exact; [|apply bytes_firstn, bytes_skipn, DB|lia].
    now replace (blen _ <=? 8) with true by lia. }
  split; [|split; [exact PNE|]].
  - rewrite (quic_unfold c b D) by (intros ->; unfold blen in L; cbn in L; lia).
    rewrite classify_rfc by auto. unfold rfc_kind. rewrite T7, T6. cbn [orb].
    replace (blen b <? 5) with false by lia. replace (1 <=? blen b) with true by lia. reflexivity.
  - unfold quic_display, quic_version, quic_token. cbn [q_kind q]. fold q.
    unfold bind at 1 2. rewrite PNE. destruct (9 <=? blen b); [|reflexivity]. cbn [bind].
    unfold quic_dest_id, q_get, quic_src_id, quic_frames. cbn [q_kind q q_buf quic_schema]. fold fs. rewrite GD. cbn [bytes_of bind].
    rewrite PL. cbn [rmap bind opt_line app]. do 6 f_equal.
    assert (1 <= pn_size b <= 4) by (unfold pn_size; lia). unfold blen. rewrite skipn_length. lia.
Qed.
End OneRtt.

(** ** Version negotiation look-alikes *)

Theorem lookalike : forall c b, dgram b -> Z.testbit (nth 0 b 0) 7 = false -> Z.testbit (nth 0 b 0) 6 = false ->
  version_of b = 0 -> 5 <= blen b ->
  rfc_kind b = None /\
  quic_new c b = Ok (if 7 <=? blen b then Some [Quic QVersionNegotiation b] else None).
Proof.
  intros c b D T7 T6 V L. split; [unfold rfc_kind; now rewrite T7, T6|].
  rewrite (quic_unfold c b D) by (intros ->; unfold blen in L; cbn in L; lia).
  rewrite classify_rfc by (auto; apply D). rewrite T7, T6, V. cbn [orb]. change (0 =? 0) with true. cbv iota.
  replace (blen b <? 5) with false by lia. destruct (7 <=? blen b); reflexivity.
Qed.

(** The outcome for the first packet, by its header. *)
Theorem classification : forall c b, dgram b -> b <> [] ->
  (blen b < 5 -> quic_new c b = Ok None) /\
  (5 <= blen b -> Z.testbit (nth 0 b 0) 7 = true \/ Z.testbit (nth 0 b 0) 6 = true ->
   match rfc_kind b with
   | None => quic_new c b = Ok None
   | Some k => forall l, quic_new c b = Ok (Some l) -> exists r, l = Quic k b :: r
   end /\
   (rfc_kind b = None <-> Z.testbit (nth 0 b 0) 7 = true /\ Z.testbit (nth 0 b 0) 6 = false /\ version_of b <> 0)) /\
  (5 <= blen b -> Z.testbit (nth 0 b 0) 6 = false -> version_of b <> 0 -> quic_new c b = Ok None).
Proof.
  intros c b D NE. assert (DB : bytes_ok b) by apply D. split; [|split].
  - intros L. rewrite (quic_unfold c b D NE). now replace (blen b <? 5) with true by lia.
  - intros L T. split.
    + rewrite (quic_unfold c b D NE), (classify_rfc b DB L). replace (blen b <? 5) with false by lia.
      replace (Z.testbit (nth 0 b 0) 7 || Z.testbit (nth 0 b 0) 6) with true by (destruct T as [-> | ->]; now rewrite ?orb_true_r).
      destruct (rfc_kind b) as [k|]; [|reflexivity]. intros l. destruct (_ <=? blen b); [|discriminate].
      destruct (quic_remaining c (Quic k b)) as [r|]; [|discriminate].
      destruct (quic_new c r) as [[l'|]|]; cbn [qprepend]; intros E; try discriminate. injection E as <-. cbn [app]. eauto.
    + unfold rfc_kind. destruct (Z.testbit (nth 0 b 0) 7) eqn:T7, (Z.testbit (nth 0 b 0) 6) eqn:T6.
      * destruct (version_of b =? 0) eqn:V; [split; [discriminate|easy]|].
        assert (C : let t := (nth 0 b 0 / 16) mod 4 in t = 0 \/ t = 1 \/ t = 2 \/ t = 3) by (cbv zeta; lia).
        cbv zeta in C. destruct C as [C|[C|[C|C]]]; rewrite C; split; try discriminate; easy.
      * destruct (version_of b =? 0) eqn:V.
        -- apply Z.eqb_eq in V. split; [discriminate|]. intros (_ & _ & X). contradiction.
        -- apply Z.eqb_neq in V. tauto.
      * split; [discriminate|easy].
      * destruct T; discriminate.
  - intros L T6 V. rewrite (quic_unfold c b D NE), (classify_rfc b DB L). replace (blen b <? 5) with false by lia.
    apply Z.eqb_neq in V. unfold rfc_kind. rewrite T6, V. destruct (Z.testbit (nth 0 b 0) 7); reflexivity.
Qed.

(** The first packet of a datagram. *)
Lemma kind_classify : forall b k, bytes_ok b -> 5 <= blen b -> rfc_kind b = Some k -> quic_classify b = Some k.
Proof.
  intros b k B L R. rewrite classify_rfc by auto. rewrite R. unfold rfc_kind in R.
  destruct (Z.testbit (nth 0 b 0) 7), (Z.testbit (nth 0 b 0) 6); try reflexivity. discriminate.
Qed.
Theorem first_packet : forall c b k, dgram b -> 5 <= blen b -> rfc_kind b = Some k ->
  quic_new c b =
  (if blen b <? match k with QOneRtt => 1 | _ => 7 end then Ok None
   else match (if has_length k then long_rest (c_mode c) (has_token k) b else Ok []) with
        | Ok r => match quic_new c r with Ok (Some l) => Ok (Some (Quic k b :: l)) | x => x end
        | Panic e => Panic e
        end).
Proof.
  intros c b k D L R. assert (C := kind_classify b k (proj1 D) L R).
  rewrite (quic_unfold c b D) by (intros ->; unfold blen in L; cbn in L; lia).
  rewrite C. replace (blen b <? 5) with false by lia. rewrite Z.ltb_antisym.
  destruct (match k with QOneRtt => 1 | _ => 7 end <=? blen b) eqn:Q; cbn [negb]; [|reflexivity].
  destruct (has_length k) eqn:K.
  - rewrite remaining_long; auto; [|destruct k; try discriminate K; lia].
    destruct (long_rest _ _ _) as [r|]; [|reflexivity]. destruct (quic_new c r) as [[l|]|]; reflexivity.
  - rewrite remaining_other by exact K. reflexivity.
Qed.

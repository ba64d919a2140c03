(** Variable-length integers and packet numbers. *)
From Coq Require Import String ZArith List Bool Lia ZifyBool ZifyNat.
From Verif Require Import Base BitSpec DeriveUtil DeriveOps BaseFacts BitFacts DeriveGen Protocols
  ProtoTcpProofs Quic SpecQuic.
Import ListNotations.
Open Scope Z_scope.
Ltac Zify.zify_post_hook ::= Z.to_euclidean_division_equations.

(** ** Big-endian numbers *)

Lemma be_fold : forall l a, fold_left (fun acc x => 256 * acc + x) l a = a * 256 ^ blen l + be_val l.
Proof.
  induction l as [|x l IH]; intros a; unfold be_val, blen in *; cbn [fold_left List.length].
  - cbn. lia.
  - rewrite IH, (IH (256 * 0 + x)). rewrite Nat2Z.inj_succ, Z.pow_succ_r by lia. ring.
Qed.
Lemma be_val_cons : forall x l, be_val (x :: l) = x * 256 ^ blen l + be_val l.
Proof. intros. unfold be_val at 1. cbn [fold_left]. rewrite be_fold. ring. Qed.
Lemma be_val_snoc : forall l x, be_val (l ++ [x]) = 256 * be_val l + x.
Proof. intros. unfold be_val. rewrite fold_left_app. reflexivity. Qed.
Lemma blen_cons : forall (x : Z) l, blen (x :: l) = 1 + blen l.
Proof. intros. unfold blen. cbn [List.length]. lia. Qed.
Lemma blen_pos : forall l : buf, 0 <= blen l.
Proof. intros. unfold blen. lia. Qed.
Lemma be_val_bound : forall l, bytes_ok l -> 0 <= be_val l < 256 ^ blen l.
Proof.
  induction l as [|x l IH]; intros B; [cbn; lia|].
  inversion B; subst. rewrite be_val_cons, blen_cons, Z.pow_add_r by (pose proof (blen_pos l); lia).
  specialize (IH H2). unfold byte_ok in *. nia.
Qed.
Lemma be_val_be_bytes : forall n v, 0 <= v < 256 ^ Z.of_nat n -> be_val (be_bytes n v) = v.
Proof.
  induction n as [|n IH]; intros v V.
  - cbn in *. unfold be_val. cbn. lia.
  - cbn [be_bytes]. rewrite be_val_snoc. rewrite IH; [lia|].
    rewrite Nat2Z.inj_succ, Z.pow_succ_r in V by lia.
    split; [lia|]. apply Z.div_lt_upper_bound; lia.
Qed.
Lemma be_bytes_be_val : forall l, bytes_ok l -> be_bytes (List.length l) (be_val l) = l.
Proof.
  intros l. induction l as [|x l IH] using rev_ind; intros B; [reflexivity|].
  apply Forall_app in B. destruct B as [B1 B2]. inversion B2; subst. unfold byte_ok in *.
  rewrite app_length, Nat.add_comm. cbn [List.length Nat.add be_bytes]. rewrite be_val_snoc.
  replace ((256 * be_val l + x) / 256) with (be_val l) by lia.
  replace ((256 * be_val l + x) mod 256) with x by lia. now rewrite IH.
Qed.

(** ** Reading integers *)

Lemma size_shift : forall x, byte_ok x -> Z.shiftl 1 (Z.shiftr x 6) = 2 ^ (x / 64).
Proof.
  intros x B. rewrite Z.shiftr_div_pow2 by lia. change (2 ^ 6) with 64. rewrite Z.shiftl_mul_pow2; [lia|].
  unfold byte_ok in *. lia.
Qed.
Lemma varint_length_size : forall s, bytes_ok s ->
  varint_length s = match vi_size s with Some k => Ok k | None => Panic EIndex end.
Proof.
  intros [|x s] B; [reflexivity|]. inversion B; subst. cbn [varint_length vi_size]. now rewrite size_shift.
Qed.
Lemma size_cases : forall x, byte_ok x ->
  2 ^ (x / 64) = 1 /\ x / 64 = 0 \/ 2 ^ (x / 64) = 2 /\ x / 64 = 1 \/
  2 ^ (x / 64) = 4 /\ x / 64 = 2 \/ 2 ^ (x / 64) = 8 /\ x / 64 = 3.
Proof.
  intros x B. unfold byte_ok in B.
  assert (D : x / 64 = 0 \/ x / 64 = 1 \/ x / 64 = 2 \/ x / 64 = 3) by lia.
  destruct D as [->|[->|[->| ->]]]; cbn; lia.
Qed.
Lemma vi_size_range : forall s k, bytes_ok s -> vi_size s = Some k -> 1 <= k <= 8.
Proof.
  intros [|x s] k B E; [discriminate|]. inversion B; subst. injection E as <-.
  destruct (size_cases x H1) as [(-> & _)|[(-> & _)|[(-> & _)|(-> & _)]]]; lia.
Qed.

Lemma varint_fold : forall r a, bytes_ok r -> 0 <= a -> a * 256 ^ blen r + 256 ^ blen r <= 2 ^ 64 ->
  fold_left varint_step r a = a * 256 ^ blen r + be_val r.
Proof.
  induction r as [|x r IH]; intros a B A U.
  - cbn. lia.
  - inversion B; subst. cbn [fold_left]. rewrite be_val_cons. rewrite blen_cons in *.
    rewrite Z.pow_add_r in * by (pose proof (blen_pos r); lia). change (256 ^ 1) with 256 in *.
    assert (P : 1 <= 256 ^ blen r) by (apply (Z.pow_le_mono_r 256 0); [lia|apply blen_pos]).
    assert (S : varint_step a x = a * 256 + x).
    { unfold varint_step, cast_u. rewrite Z.shiftl_mul_pow2 by lia. change (2 ^ 8) with 256.
      rewrite Z.mod_small; [reflexivity|]. split; [lia|]. nia. }
    unfold byte_ok in *. rewrite S, IH; auto; [ring|lia|nia].
Qed.
Lemma pow256 : forall n, 0 <= n -> 256 ^ n = 2 ^ (8 * n).
Proof. intros. change 256 with (2 ^ 8). now rewrite <- Z.pow_mul_r by lia. Qed.
Lemma vi_read_cons : forall x r, bytes_ok (x :: r) ->
  vi_read (x :: r) = (x mod 64) * 256 ^ blen r + be_val r.
Proof.
  intros x r B. inversion B; subst. unfold vi_read. rewrite be_val_cons, blen_cons.
  assert (L := blen_pos r). assert (BB := be_val_bound r H2). rewrite pow256 in * by lia.
  replace (8 * (1 + blen r) - 2) with (6 + 8 * blen r) by lia. rewrite Z.pow_add_r by lia. change (2 ^ 6) with 64.
  set (p := 2 ^ (8 * blen r)) in *.
  rewrite (Z.div_mod x 64) at 1 by lia.
  replace ((64 * (x / 64) + x mod 64) * p + be_val r) with ((x mod 64 * p + be_val r) + (x / 64) * (64 * p)) by ring.
  rewrite Z.mod_add by lia. apply Z.mod_small. unfold byte_ok in *. nia.
Qed.
Lemma varint_read : forall l, bytes_ok l -> l <> [] -> blen l <= 8 ->
  varint l = Ok (vi_read l) /\ 0 <= vi_read l < 2 ^ 62.
Proof.
  intros [|x r] B NE L; [easy|]. cbn [varint]. rewrite vi_read_cons by auto.
  inversion B; subst. rewrite blen_cons in L. assert (L0 := blen_pos r). assert (BB := be_val_bound r H2).
  assert (P : 256 ^ blen r <= 2 ^ 56).
  { rewrite pow256 by lia. apply Z.pow_le_mono_r; lia. }
  change 63 with (Z.ones 6). rewrite Z.land_ones by lia. change (2 ^ 6) with 64. unfold byte_ok in *.
  split.
  - f_equal. apply varint_fold; auto; [lia|]. nia.
  - assert (1 <= 256 ^ blen r) by (apply (Z.pow_le_mono_r 256 0); lia). nia.
Qed.
Lemma n_varints_size : forall n s, bytes_ok s ->
  n_varints n s = match vis_size (List.length s) n s with Some k => Ok k | None => Panic EIndex end.
Proof.
  intros n s. unfold n_varints. generalize (List.length s). intros fuel. revert n s.
  induction fuel as [|fuel IH]; intros n s B; cbn [n_varints_loop vis_size]; destruct (n <=? 0); auto.
  destruct s as [|x s]; [reflexivity|]. cbn [vi_size]. inversion B; subst. rewrite size_shift by auto.
  destruct (2 ^ (x / 64) <=? blen (x :: s)); [|reflexivity].
  rewrite IH by (apply bytes_skipn; auto). now destruct (vis_size _ _ _).
Qed.

(** ** Encoded integers *)

Lemma vi_width_cases : forall x, vi_ok x ->
  vi_width x = 1 /\ Z.log2 (vi_width x) = 0 \/ vi_width x = 2 /\ Z.log2 (vi_width x) = 1 \/
  vi_width x = 4 /\ Z.log2 (vi_width x) = 2 \/ vi_width x = 8 /\ Z.log2 (vi_width x) = 3.
Proof. intros [w v] [[W|[W|[W|W]]] _]; cbn [vi_width] in *; subst w; auto. Qed.
Lemma vi_bytes_ok : forall x, vi_ok x -> bytes_ok (vi_bytes x) /\ blen (vi_bytes x) = vi_width x.
Proof.
  intros x V. unfold vi_bytes. destruct (be_bytes_facts (Z.to_nat (vi_width x))
    (Z.log2 (vi_width x) * 2 ^ (8 * vi_width x - 2) + vi_value x)) as [B L].
  split; [exact B|]. unfold blen. rewrite L. destruct V as [V _]. lia.
Qed.
Lemma vi_total : forall x, vi_ok x ->
  be_val (vi_bytes x) = Z.log2 (vi_width x) * 2 ^ (8 * vi_width x - 2) + vi_value x.
Proof.
  intros [w v] [W V]. unfold vi_bytes. apply be_val_be_bytes. cbn [vi_width vi_value] in *.
  destruct W as [W|[W|[W|W]]]; subst w.
  - change (Z.log2 1) with 0. change (2 ^ (8 * 1 - 2)) with 64 in *. change (256 ^ Z.of_nat (Z.to_nat 1)) with 256. lia.
  - change (Z.log2 2) with 1. change (2 ^ (8 * 2 - 2)) with 16384 in *. change (256 ^ Z.of_nat (Z.to_nat 2)) with 65536. lia.
  - change (Z.log2 4) with 2. change (2 ^ (8 * 4 - 2)) with 1073741824 in *.
    change (256 ^ Z.of_nat (Z.to_nat 4)) with 4294967296. lia.
  - change (Z.log2 8) with 3. change (2 ^ (8 * 8 - 2)) with 4611686018427387904 in *.
    change (256 ^ Z.of_nat (Z.to_nat 8)) with 18446744073709551616. lia.
Qed.
Lemma vi_read_bytes : forall x, vi_ok x -> vi_read (vi_bytes x) = vi_value x.
Proof.
  intros x V. unfold vi_read. destruct (vi_bytes_ok x V) as [_ ->]. rewrite vi_total by auto.
  rewrite Z.add_comm, Z.mod_add.
  - apply Z.mod_small. apply V.
  - apply Z.pow_nonzero; [lia|]. destruct V as [V _]. lia.
Qed.
Lemma vi_size_bytes : forall x s, vi_ok x -> vi_size (vi_bytes x ++ s) = Some (vi_width x).
Proof.
  intros x s V. destruct (vi_bytes_ok x V) as [B L]. assert (T := vi_total x V).
  destruct (vi_bytes x) as [|y l] eqn:E.
  { destruct V as [V _]. unfold blen in L. cbn in L. lia. }
  cbn [app vi_size]. inversion B; subst. rewrite be_val_cons in T. rewrite blen_cons in L.
  assert (BB := be_val_bound l H2). rewrite pow256 in * by apply blen_pos.
  replace (blen l) with (vi_width x - 1) in * by lia. f_equal. unfold byte_ok in *.
  destruct x as [w v]. destruct V as [W V]. cbn [vi_width vi_value] in *. clear E B L.
  destruct W as [W|[W|[W|W]]]; subst w; [change (Z.log2 1) with 0 in T|change (Z.log2 2) with 1 in T|
    change (Z.log2 4) with 2 in T|change (Z.log2 8) with 3 in T].
  - change (2 ^ (8 * (1 - 1))) with 1 in *. change (2 ^ (8 * 1 - 2)) with 64 in *. replace (y / 64) with 0 by lia. reflexivity.
  - change (2 ^ (8 * (2 - 1))) with 256 in *. change (2 ^ (8 * 2 - 2)) with 16384 in *. replace (y / 64) with 1 by lia. reflexivity.
  - change (2 ^ (8 * (4 - 1))) with 16777216 in *. change (2 ^ (8 * 4 - 2)) with 1073741824 in *. replace (y / 64) with 2 by lia. reflexivity.
  - change (2 ^ (8 * (8 - 1))) with 72057594037927936 in *. change (2 ^ (8 * 8 - 2)) with 4611686018427387904 in *. replace (y / 64) with 3 by lia. reflexivity.
Qed.
Ltac kcase Q :=
  first [rewrite Q in *|idtac]; clear Q;
  repeat match goal with
         | |- context [2 ^ ?e] => let v := eval vm_compute in (2 ^ e) in change (2 ^ e) with v
         | |- context [256 ^ ?e] => let v := eval vm_compute in (256 ^ e) in change (256 ^ e) with v
         | |- context [Z.log2 ?e] => let v := eval vm_compute in (Z.log2 e) in change (Z.log2 e) with v
         | H : context [256 ^ ?e] |- _ => let v := eval vm_compute in (256 ^ e) in change (256 ^ e) with v in H
         end; lia.
(** Every complete integer is the encoding of one. *)
Lemma vi_decode : forall s k, bytes_ok s -> vi_size s = Some k -> k <= blen s ->
  vi_ok (VI k (vi_read (firstn (Z.to_nat k) s))) /\
  vi_bytes (VI k (vi_read (firstn (Z.to_nat k) s))) = firstn (Z.to_nat k) s.
Proof.
  intros [|x s] k B E L; [discriminate|]. injection E as <-. inversion B; subst.
  assert (SC := size_cases x H1).
  set (k := 2 ^ (x / 64)) in *. set (l := firstn (Z.to_nat k) (x :: s)).
  assert (K : 1 <= k) by lia.
  assert (LL : blen l = k). { unfold l, blen in *. rewrite firstn_length. lia. }
  assert (BL : bytes_ok l) by (apply bytes_firstn; auto).
  assert (LC : l = x :: firstn (Z.to_nat (k - 1)) s).
  { unfold l. replace (Z.to_nat k) with (S (Z.to_nat (k - 1))) by lia. reflexivity. }
  assert (R := vi_read_cons x (firstn (Z.to_nat (k - 1)) s) ltac:(rewrite <- LC; auto)).
  assert (T := be_val_cons x (firstn (Z.to_nat (k - 1)) s)). rewrite <- LC in *.
  assert (L1 : blen (firstn (Z.to_nat (k - 1)) s) = k - 1).
  { rewrite LC, blen_cons in LL. lia. }
  rewrite L1 in *. set (t := be_val (firstn (Z.to_nat (k - 1)) s)) in *.
  assert (TB : 0 <= t < 256 ^ (k - 1)). { rewrite <- L1. apply be_val_bound, bytes_firstn; auto. }
  assert (V : vi_ok (VI k (vi_read l))).
  { unfold vi_ok. cbn [vi_width vi_value]. unfold byte_ok in *.
    rewrite R. clear R T LC L1 LL BL B H2 L.
    clearbody k t; destruct SC as [[Q D]|[[Q D]|[[Q D]|[Q D]]]]; kcase Q. }
  split; [exact V|].
  transitivity (be_bytes (List.length l) (be_val l)); [|now apply be_bytes_be_val]. unfold vi_bytes. cbn [vi_width vi_value].
  replace (List.length l) with (Z.to_nat k) by (unfold blen in LL; lia). f_equal.
  rewrite T, R. unfold byte_ok in *.
  clear R T LC L1 LL BL B H2 L V.
  clearbody k t; destruct SC as [[Q D]|[[Q D]|[[Q D]|[Q D]]]]; kcase Q.
Qed.

Lemma vis_size_sound : forall fuel n s k, bytes_ok s -> 0 <= n -> vis_size fuel n s = Some k ->
  0 <= k <= blen s /\ varints n (firstn (Z.to_nat k) s).
Proof.
  induction fuel as [|fuel IH]; intros n s k B N E; cbn [vis_size] in E; destruct (n <=? 0) eqn:Q.
  1,3: injection E as <-; split; [pose proof (blen_pos s); lia|]; replace n with 0 by lia; cbn; constructor.
  1: discriminate.
  destruct (vi_size s) as [w|] eqn:W; [|discriminate]. destruct (w <=? blen s) eqn:LE; [|discriminate].
  destruct (vis_size fuel (n - 1) (skipn (Z.to_nat w) s)) as [r|] eqn:R; [|discriminate]. injection E as <-.
  assert (WR := vi_size_range s w B W).
  destruct (IH (n - 1) _ r (bytes_skipn _ _ B) ltac:(lia) R) as [RL RV].
  assert (BL : blen (skipn (Z.to_nat w) s) = blen s - w) by (unfold blen in *; rewrite skipn_length; lia).
  split; [lia|].
  destruct (vi_decode s w B W ltac:(lia)) as [VO VB].
  replace (firstn (Z.to_nat (w + r)) s) with (firstn (Z.to_nat w) s ++ firstn (Z.to_nat r) (skipn (Z.to_nat w) s)).
  - rewrite <- VB. replace n with ((n - 1) + 1) by lia. constructor; auto.
  - rewrite <- (firstn_skipn (Z.to_nat w) (firstn (Z.to_nat (w + r)) s)).
    rewrite firstn_firstn, skipn_firstn_comm. f_equal; f_equal; lia.
Qed.
Lemma firstn_app_exact : forall (p r : buf) n, blen p = n -> firstn (Z.to_nat n) (p ++ r) = p.
Proof.
  intros p r n <-. unfold blen. rewrite Nat2Z.id, firstn_app, Nat.sub_diag, firstn_all. cbn [firstn]. apply app_nil_r.
Qed.
Lemma skipn_app_exact : forall (p r : buf) n, blen p = n -> skipn (Z.to_nat n) (p ++ r) = r.
Proof.
  intros p r n <-. unfold blen. rewrite Nat2Z.id, skipn_app, Nat.sub_diag, skipn_all. reflexivity.
Qed.
Lemma blen_app' : forall p r : buf, blen (p ++ r) = blen p + blen r.
Proof. intros. unfold blen. rewrite app_length. lia. Qed.
Lemma vis_size_complete : forall n p, varints n p -> 0 <= n /\ bytes_ok p /\
  forall fuel s, (List.length p <= fuel)%nat -> vis_size fuel n (p ++ s) = Some (blen p).
Proof.
  intros n p H. induction H as [|x n r V H (N & BR & IH)].
  - split; [lia|]. split; [constructor|]. intros [|fuel] s _; reflexivity.
  - destruct (vi_bytes_ok x V) as [BV LV]. split; [lia|]. split; [apply Forall_app; auto|].
    intros fuel s F. assert (WP : 1 <= vi_width x) by (destruct V as [V _]; lia).
    rewrite app_length in F. destruct fuel as [|fuel]; [unfold blen in LV; lia|].
    cbn [vis_size]. destruct (n + 1 <=? 0) eqn:Q; [lia|]. clear Q.
    rewrite <- app_assoc, vi_size_bytes by auto.
    rewrite !blen_app', LV. assert (P1 := blen_pos r). assert (P2 := blen_pos s).
    destruct (vi_width x <=? vi_width x + (blen r + blen s)) eqn:Q; [|lia].
    rewrite skipn_app_exact by auto. replace (n + 1 - 1) with n by lia.
    rewrite IH; [reflexivity|]. unfold blen in LV. lia.
Qed.

(** ** The functions of the crate *)

Theorem varint_encodings : forall x s, vi_ok x -> bytes_ok s ->
  varint_length (vi_bytes x ++ s) = Ok (blen (vi_bytes x)) /\ varint (vi_bytes x) = Ok (vi_value x).
Proof.
  intros x s V B. destruct (vi_bytes_ok x V) as [BV LV]. split.
  - rewrite varint_length_size by (apply Forall_app; auto). now rewrite vi_size_bytes, LV.
  - rewrite <- (vi_read_bytes x V). apply varint_read; auto.
    + intros E. rewrite E in LV. unfold blen in LV. cbn in LV. destruct V as [V _]. lia.
    + destruct V as [V _]. lia.
Qed.
(** Every nonempty byte string that is long enough starts with an encoding, the
    one the functions read. *)
Theorem varint_total : forall s k, bytes_ok s -> varint_length s = Ok k ->
  1 <= k <= 8 /\ (k <= blen s -> exists x r, vi_ok x /\ s = vi_bytes x ++ r /\ blen (vi_bytes x) = k /\
    varint (firstn (Z.to_nat k) s) = Ok (vi_value x)).
Proof.
  intros s k B E. rewrite varint_length_size in E by auto. destruct (vi_size s) as [w|] eqn:W; [|discriminate].
  injection E as ->. assert (R := vi_size_range s k B W). split; [exact R|]. intros L.
  destruct (vi_decode s k B W L) as [VO VB].
  exists (VI k (vi_read (firstn (Z.to_nat k) s))), (skipn (Z.to_nat k) s).
  split; [exact VO|]. rewrite VB, firstn_skipn. split; [reflexivity|].
  assert (LF : blen (firstn (Z.to_nat k) s) = k) by (unfold blen in *; rewrite firstn_length; lia).
  split; [exact LF|]. cbn [vi_value]. apply varint_read; [apply bytes_firstn; auto| |lia].
  intros E. rewrite E in LF. unfold blen in LF. cbn in LF. lia.
Qed.
Theorem n_varints_exact : forall n s, bytes_ok s -> 0 <= n ->
  (forall k, n_varints n s = Ok k <-> exists p r, varints n p /\ s = p ++ r /\ k = blen p) /\
  (n_varints n s = Panic EIndex <-> ~ exists p r, varints n p /\ s = p ++ r).
Proof.
  intros n s B N. rewrite n_varints_size by auto.
  assert (C : forall p r, varints n p -> s = p ++ r -> vis_size (List.length s) n s = Some (blen p)).
  { intros p r V ->. apply vis_size_complete; auto. rewrite app_length. lia. }
  destruct (vis_size (List.length s) n s) as [k|] eqn:E; split.
  - intros k'. split.
    + intros [= <-]. destruct (vis_size_sound _ _ _ _ B N E) as [L V].
      exists (firstn (Z.to_nat k) s), (skipn (Z.to_nat k) s). rewrite firstn_skipn.
      repeat split; auto. unfold blen in *. rewrite firstn_length. lia.
    + intros (p & r & V & -> & ->). assert (X := C p r V eq_refl). congruence.
  - split; [discriminate|]. intros H. exfalso. apply H.
    destruct (vis_size_sound _ _ _ _ B N E) as [L V].
    exists (firstn (Z.to_nat k) s), (skipn (Z.to_nat k) s). now rewrite firstn_skipn.
  - intros k'. split; [discriminate|]. intros (p & r & V & -> & ->). assert (X := C p r V eq_refl). congruence.
  - split; [|reflexivity]. intros _ (p & r & V & ->). assert (X := C p r V eq_refl). congruence.
Qed.

Lemma be_fold' : forall l a, fold_left (fun a v => a * 256 + v) l a = a * 256 ^ blen l + be_val l.
Proof.
  intros l a. rewrite <- be_fold. revert a. induction l as [|x l IH]; intros a; cbn [fold_left]; [reflexivity|].
  rewrite IH. f_equal. ring.
Qed.
Lemma be_zeros : forall n, fold_left (fun a v => a * 256 + v) (repeat 0 n) 0 = 0.
Proof. induction n as [|n IH]; cbn [repeat fold_left]; auto. Qed.
Theorem packet_number_exact : forall m l, bytes_ok l -> blen l < 2 ^ 63 ->
  packet_number m l =
  (if blen l <=? 8 then Ok (be_val l) else Panic (match m with Checked => EOverflow | Wrapping => EIndex end)).
Proof.
  intros m l B L. assert (P := blen_pos l). unfold packet_number, sub_u, ovf, usize.
  destruct (blen l <=? 8) eqn:Q.
  - replace ((0 <=? 8 - blen l) && (8 - blen l <? 2 ^ 64)) with true by lia.
    replace (bind (Ok (8 - blen l))) with (bind (A := Z) (B := Z) (Ok (8 - blen l))) by reflexivity.
    cbn [bind]. destruct (8 <? 8 - blen l) eqn:Q2; [lia|].
    now rewrite fold_left_app, be_zeros, be_fold'.
  - replace ((0 <=? 8 - blen l) && (8 - blen l <? 2 ^ 64)) with false by lia.
    destruct m; cbn [bind]; [reflexivity|]. unfold cast_u.
    replace ((8 - blen l) mod 2 ^ 64) with (2 ^ 64 + 8 - blen l).
    + destruct (8 <? 2 ^ 64 + 8 - blen l) eqn:Q2; [reflexivity|lia].
    + apply (Z.mod_unique _ _ (-1)); lia.
Qed.

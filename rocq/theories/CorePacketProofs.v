(** Proofs about packet data, the wrapper structs, clone_from, address types and
    the integer aliases. *)
From Coq Require Import String ZArith List Bool Lia ZifyBool ZifyNat.
From Verif Require Import Base BaseFacts DeriveUtil DeriveOps DeriveGen MacAddr SpecMac CorePacket CoreTypes SpecCore
  SpecPacket DerivePropProofs.
Import ListNotations.
Open Scope Z_scope.
Ltac Zify.zify_post_hook ::= Z.to_euclidean_division_equations.

(** ** clone_from *)

Lemma copy_frame : forall n h src dst a,
  ~ (dst <= a < dst + Z.of_nat n) -> copy_nonoverlapping h src dst n a = h a.
Proof.
  induction n as [|n IH]; intros h src dst a A; [reflexivity|].
  cbn [copy_nonoverlapping]. rewrite IH by lia. unfold mem_write. now replace (a =? dst) with false by lia.
Qed.

Lemma copy_copies : forall n h src dst i,
  (src + Z.of_nat n <= dst \/ dst + Z.of_nat n <= src) ->
  0 <= i < Z.of_nat n -> copy_nonoverlapping h src dst n (dst + i) = h (src + i).
Proof.
  induction n as [|n IH]; intros h src dst i D I; [lia|].
  cbn [copy_nonoverlapping]. destruct (Z.eq_dec i 0) as [->|NI].
  - rewrite copy_frame by lia. unfold mem_write. replace (dst + 0 =? dst) with true by lia. f_equal. lia.
  - replace (dst + i) with (dst + 1 + (i - 1)) by lia. rewrite IH by lia. unfold mem_write.
    replace (src + 1 + (i - 1)) with (src + i) by lia. now replace (src + i =? dst) with false by lia.
Qed.

Lemma mem_read_len : forall h r, length (mem_read h r) = r_len r.
Proof. intros h r. unfold mem_read. now rewrite map_length, seq_length. Qed.

Lemma mem_read_nth : forall h r i, (i < r_len r)%nat -> nth i (mem_read h r) 0 = h (r_base r + Z.of_nat i).
Proof.
  intros h r i I. unfold mem_read. rewrite (nth_indep _ _ (h (r_base r + Z.of_nat 0))) by (rewrite map_length, seq_length; auto).
  rewrite (map_nth (fun i => h (r_base r + Z.of_nat i))). now rewrite seq_nth.
Qed.

Theorem clone_from_copies : forall h self other, apart self other -> (r_len other <= r_len self)%nat ->
  exists h', clone_from h self other = (h', Ok tt) /\
    mem_read h' self = mem_read h other ++ skipn (r_len other) (mem_read h self) /\
    (forall a, ~ inside self a -> h' a = h a).
Proof.
  intros h self other D L. unfold clone_from. replace (r_len other <=? r_len self)%nat with true by lia.
  eexists. split; [reflexivity|]. unfold apart in D. split.
  - apply nth_ext with (d := 0) (d' := 0).
    + rewrite app_length, skipn_length, !mem_read_len. lia.
    + intros i I. rewrite mem_read_len in I. rewrite mem_read_nth by auto.
      destruct (le_lt_dec (r_len other) i) as [G|G].
      * rewrite app_nth2 by (rewrite mem_read_len; lia). rewrite mem_read_len, nth_skipn.
        replace (r_len other + (i - r_len other))%nat with i by lia. rewrite mem_read_nth by auto.
        apply copy_frame. lia.
      * rewrite app_nth1 by (rewrite mem_read_len; lia). rewrite mem_read_nth by auto.
        apply copy_copies; lia.
  - intros a A. apply copy_frame. unfold inside in A. lia.
Qed.

Theorem clone_from_panics : forall h self other, (r_len self < r_len other)%nat ->
  clone_from h self other = (h, Panic EAssert).
Proof. intros h self other L. unfold clone_from. now replace (r_len other <=? r_len self)%nat with false by lia. Qed.

Theorem clone_from_getters : forall c fs n h h' self other, apart self other -> r_len other = r_len self ->
  clone_from h self other = (h', Ok tt) ->
  get c fs n (mem_read h' self) = get c fs n (mem_read h other) /\
  mem_read h' other = mem_read h other.
Proof.
  intros c fs n h h' self other D L E.
  destruct (clone_from_copies h self other D) as (h2 & E2 & R & F); [lia|].
  assert (h' = h2) by congruence. subst h2. split.
  - rewrite R, skipn_all2 by (rewrite mem_read_len; lia). now rewrite app_nil_r.
  - unfold mem_read. apply map_ext_in. intros i I. apply in_seq in I. apply F. unfold apart, inside in *. lia.
Qed.

(** ** Equality *)

Lemma bytes_eqb_iff : forall a b, bytes_eqb a b = true <-> a = b.
Proof.
  induction a as [|x a IH]; intros [|y b]; cbn [bytes_eqb]; try (split; [discriminate|congruence]); [tauto|].
  rewrite andb_true_iff, IH, Z.eqb_eq. split; [intros [-> ->]; auto|intros H; inversion H; auto].
Qed.

Lemma x_eqb_iff : forall p q, x_eqb p q = true <->
  x_packet p = x_packet q /\ owns p = owns q.
Proof.
  intros [[a|a]] [[b|b]]; unfold x_eqb, x_packet, owns; cbn [x_data pd_eqb pd_range_full pd_slice];
  rewrite ?bytes_eqb_iff; intuition discriminate.
Qed.
Lemma mx_eqb_iff : forall p q, mx_eqb p q = true <->
  mx_packet p = mx_packet q /\ mowns p = mowns q.
Proof.
  intros [[a|a]] [[b|b]]; unfold mx_eqb, mx_packet, mowns; cbn [mx_data mpd_eqb mpd_range_full mpd_slice];
  rewrite ?bytes_eqb_iff; intuition discriminate.
Qed.

Theorem equality_of_constructed : forall fs a b p q p' q',
  x_new fs a = Some p -> x_owned fs a = Some q -> x_new fs b = Some p' -> x_owned fs b = Some q' ->
  (x_eqb p p' = true <-> a = b) /\ (x_eqb q q' = true <-> a = b) /\ x_eqb p q' = false /\ x_eqb q p' = false.
Proof.
  intros fs a b p q p' q'. unfold x_new, x_owned.
  destruct (minimum_packet_size fs <=? blen a); [|discriminate]. destruct (minimum_packet_size fs <=? blen b); [|discriminate].
  intros H1 H2 H3 H4; inversion H1; inversion H2; inversion H3; inversion H4; subst.
  unfold x_eqb. cbn [x_data pd_eqb]. rewrite bytes_eqb_iff. tauto.
Qed.

Theorem mut_equality_of_constructed : forall fs a b p q p' q',
  mx_new fs a = Some p -> mx_owned fs a = Some q -> mx_new fs b = Some p' -> mx_owned fs b = Some q' ->
  (mx_eqb p p' = true <-> a = b) /\ (mx_eqb q q' = true <-> a = b) /\ mx_eqb p q' = false /\ mx_eqb q p' = false.
Proof.
  intros fs a b p q p' q'. unfold mx_new, mx_owned.
  destruct (minimum_packet_size fs <=? blen a); [|discriminate]. destruct (minimum_packet_size fs <=? blen b); [|discriminate].
  intros H1 H2 H3 H4; inversion H1; inversion H2; inversion H3; inversion H4; subst.
  unfold mx_eqb. cbn [mx_data mpd_eqb]. rewrite bytes_eqb_iff. tauto.
Qed.

Theorem view_equality : forall fs b p q, x_new fs b = Some p -> x_owned fs b = Some q ->
  x_eqb (x_to_immutable p) p = true /\ x_eqb (x_to_immutable q) q = false /\
  x_eqb (x_consume_to_immutable p) p = true /\ x_eqb (x_consume_to_immutable q) q = true.
Proof.
  intros fs b p q. unfold x_new, x_owned. destruct (minimum_packet_size fs <=? blen b); [|discriminate].
  intros H1 H2; inversion H1; inversion H2; subst. unfold x_eqb. cbn. rewrite !(proj2 (bytes_eqb_iff _ _)) by auto. auto.
Qed.

Theorem mut_view_equality : forall p q : mxpacket,
  x_eqb (mx_consume_to_immutable p) (mx_consume_to_immutable q) = mx_eqb p q /\
  (x_eqb (mx_to_immutable p) (mx_to_immutable q) = true <-> mx_packet p = mx_packet q).
Proof.
  intros [[d|d]] [[e|e]]; (split; [reflexivity|]); unfold x_eqb, mx_to_immutable; cbn [x_data mx_data mpd_slice pd_eqb];
    apply bytes_eqb_iff.
Qed.

Theorem constructors_accept : forall fs b, scoped [] fs ->
  let fits := header_bits fs <=? 8 * blen b in
  option_map x_packet (x_new fs b) = (if fits then Some b else None) /\
  option_map x_packet (x_owned fs b) = (if fits then Some b else None) /\
  option_map mx_packet (mx_new fs b) = (if fits then Some b else None) /\
  option_map mx_packet (mx_owned fs b) = (if fits then Some b else None).
Proof.
  intros fs b S fits. destruct (new_header fs b S) as (N & _). fold fits in N. unfold new in N.
  unfold x_new, x_owned, mx_new, mx_owned.
  destruct (minimum_packet_size fs <=? blen b); destruct fits; try discriminate; auto.
Qed.

(** ** Views *)

Theorem constructed_bytes : forall fs b,
  (minimum_packet_size fs <= blen b ->
    exists p q p' q', x_new fs b = Some p /\ x_owned fs b = Some q /\ mx_new fs b = Some p' /\ mx_owned fs b = Some q' /\
      x_packet p = b /\ x_packet q = b /\ mx_packet p' = b /\ mx_packet q' = b) /\
  (blen b < minimum_packet_size fs ->
    x_new fs b = None /\ x_owned fs b = None /\ mx_new fs b = None /\ mx_owned fs b = None).
Proof.
  intros fs b. unfold x_new, x_owned, mx_new, mx_owned. split; intros L.
  - replace (minimum_packet_size fs <=? blen b) with true by lia. do 4 eexists. repeat (split; [reflexivity|]). reflexivity.
  - replace (minimum_packet_size fs <=? blen b) with false by lia. auto.
Qed.

Theorem views_bytes : forall (p : mxpacket) (q : xpacket),
  x_packet (mx_to_immutable p) = mx_packet p /\ x_packet (mx_consume_to_immutable p) = mx_packet p /\
  x_packet (x_to_immutable q) = x_packet q /\ x_packet (x_consume_to_immutable q) = x_packet q.
Proof. intros [[d|d]] [[e|e]]; repeat split. Qed.

Theorem mutate_bytes : forall f p, mx_packet (fst (mx_mutate f p)) = fst (f (mx_packet p)) /\
  snd (mx_mutate f p) = snd (f (mx_packet p)) /\ mowns (fst (mx_mutate f p)) = mowns p.
Proof. intros f [[d|d]]; unfold mx_mutate, mx_packet; cbn; destruct (f d); repeat split. Qed.

Theorem views_getters : forall c fs n f p, let p' := fst (mx_mutate f p) in
  x_get c fs n (mx_to_immutable p') = mx_get c fs n p' /\
  x_get c fs n (mx_consume_to_immutable p') = mx_get c fs n p' /\
  x_get_raw c fs n (mx_to_immutable p') = mx_get_raw c fs n p' /\
  x_payload c fs (mx_to_immutable p') = mx_payload c fs p' /\
  x_packet_size c fs (mx_to_immutable p') = mx_packet_size c fs p' /\
  x_from_packet c fs (mx_to_immutable p') = mx_from_packet c fs p' /\
  mx_get c fs n p' = get c fs n (fst (f (mx_packet p))).
Proof.
  intros c fs n f p p'. subst p'. destruct (mutate_bytes f p) as [<- _].
  destruct p as [[d|d]]; unfold mx_mutate; cbn; destruct (f d); repeat split.
Qed.

(** ** Address types *)

Theorem mac_values : (forall m, mac_new (mac0 m) (mac1 m) (mac2 m) (mac3 m) (mac4 m) (mac5 m) = m) /\
  forall a b c d e f, mac_to_primitive_values (mac_new a b c d e f) = [a; b; c; d; e; f].
Proof. split; [intros []|]; reflexivity. Qed.

Theorem ipv4_values : forall a b c d, ipv4_to_primitive_values (ipv4_new a b c d) = Ok [a; b; c; d].
Proof. reflexivity. Qed.

Theorem ipv4_values_inv : forall x, length (v4_octets x) = 4%nat ->
  exists a b c d, ipv4_to_primitive_values x = Ok [a; b; c; d] /\ ipv4_new a b c d = x.
Proof.
  intros [o] L. cbn [v4_octets] in L. do 5 (destruct o as [|? o]; try discriminate).
  do 4 eexists. split; reflexivity.
Qed.

Lemma be16s_flat : forall l, Forall (fun s => 0 <= s < 65536) l -> be16s (flat_map (fun s => [s / 256; s mod 256]) l) = l.
Proof.
  intros l H. induction H as [|x l X H IH]; [reflexivity|]. cbn [flat_map app be16s]. rewrite IH. f_equal. lia.
Qed.
Lemma flat_be16s : forall n o, length o = (2 * n)%nat -> bytes_ok o ->
  flat_map (fun s => [s / 256; s mod 256]) (be16s o) = o /\ Forall (fun s => 0 <= s < 65536) (be16s o) /\ length (be16s o) = n.
Proof.
  induction n as [|n IH]; intros o L B.
  - destruct o; [|discriminate]. repeat split; constructor.
  - destruct o as [|x [|y o]]; cbn [length] in L; try lia. inversion B as [|? ? X B1]; subst. inversion B1 as [|? ? Y B2]; subst.
    cbv [byte_ok] in X, Y. destruct (IH o) as (E & F & G); [lia|auto|]. cbn [be16s flat_map app].
    rewrite E. split; [f_equal; [lia|f_equal; lia]|]. split; [constructor; auto; lia|cbn [length]; lia].
Qed.

Lemma idx8 : forall s : list Z, length s = 8%nat ->
  (a <- idx s 0 ;; b <- idx s 1 ;; c <- idx s 2 ;; d <- idx s 3 ;;
   e <- idx s 4 ;; f <- idx s 5 ;; g <- idx s 6 ;; h <- idx s 7 ;; Ok [a; b; c; d; e; f; g; h]) = Ok s.
Proof. intros s L. do 9 (destruct s as [|? s]; try discriminate). reflexivity. Qed.

Theorem ipv6_values : forall segs, length segs = 8%nat -> Forall (fun s => 0 <= s < 65536) segs ->
  ipv6_to_primitive_values (ipv6_new segs) = Ok segs.
Proof.
  intros segs L F. unfold ipv6_to_primitive_values, ipv6_segments, ipv6_new. cbn [v6_octets].
  rewrite be16s_flat by auto. now apply idx8.
Qed.
Theorem ipv6_values_inv : forall x, length (v6_octets x) = 16%nat -> bytes_ok (v6_octets x) ->
  exists segs, ipv6_to_primitive_values x = Ok segs /\ length segs = 8%nat /\
    Forall (fun s => 0 <= s < 65536) segs /\ ipv6_new segs = x.
Proof.
  intros [o] L B. cbn [v6_octets] in *. destruct (flat_be16s 8 o L B) as (E & F & G).
  exists (be16s o). unfold ipv6_to_primitive_values, ipv6_segments, ipv6_new. cbn [v6_octets].
  rewrite idx8 by auto. rewrite E. auto.
Qed.

(** ** Aliases *)

Definition alias_spec_list : list (string * Z) :=
  flat_map (fun n => map (fun s => (alias_name n s, smallest (Z.of_nat n))) (suffixes n)) (List.seq 1 64).
Definition pair_dec : forall x y : string * Z, {x = y} + {x <> y}.
Proof. decide equality; [apply Z.eq_dec|apply string_dec]. Defined.
Definition subset (l k : list (string * Z)) : bool := forallb (fun x => if in_dec pair_dec x k then true else false) l.
Lemma subset_in : forall l k, subset l k = true -> forall x, In x l -> In x k.
Proof.
  intros l k H x I. unfold subset in H. rewrite forallb_forall in H. apply H in I. destruct (in_dec pair_dec x k); [auto|discriminate].
Qed.
Lemma alias_sub1 : subset aliases alias_spec_list = true.
Proof. vm_compute. reflexivity. Qed.
Lemma alias_sub2 : subset alias_spec_list aliases = true.
Proof. vm_compute. reflexivity. Qed.

Theorem aliases_exact : forall name w, In (name, w) aliases <->
  exists n s, (1 <= n <= 64)%nat /\ In s (suffixes n) /\ name = alias_name n s /\ w = smallest (Z.of_nat n).
Proof.
  intros name w. transitivity (In (name, w) alias_spec_list).
  { split; [apply (subset_in _ _ alias_sub1)|apply (subset_in _ _ alias_sub2)]. }
  unfold alias_spec_list. rewrite in_flat_map. split.
  - intros (n & N & I). apply in_map_iff in I. destruct I as (s & E & I). inversion E; subst.
    apply in_seq in N. exists n, s. repeat split; auto; lia.
  - intros (n & s & N & I & -> & ->). exists n. split; [apply in_seq; lia|]. apply in_map_iff. eauto.
Qed.

Theorem smallest_spec : forall n, 1 <= n <= 64 ->
  n <= smallest n /\ In (smallest n) [8; 16; 32; 64] /\ (forall w, In w [8; 16; 32; 64] -> n <= w -> smallest n <= w) /\
  smallest n = container n.
Proof.
  intros n N. unfold smallest, container. cbn [In].
  destruct (n <=? 8) eqn:A; [repeat split; try lia|]. destruct (n <=? 16) eqn:B; [repeat split; try lia|].
  destruct (n <=? 32) eqn:C; repeat split; try lia.
Qed.

Fixpoint nodup_b (l : list string) : bool :=
  match l with [] => true | x :: r => negb (existsb (String.eqb x) r) && nodup_b r end.
Lemma nodup_b_spec : forall l, nodup_b l = true -> NoDup l.
Proof.
  induction l as [|x l IH]; intros H; [constructor|]. cbn [nodup_b] in H. apply andb_true_iff in H. destruct H as [A B].
  constructor; [|auto]. intros I. apply negb_true_iff in A. apply eq_true_false_abs with (2 := A).
  apply existsb_exists. exists x. split; [auto|apply String.eqb_refl].
Qed.
Theorem aliases_once : NoDup (map fst aliases) /\ length aliases = 175%nat.
Proof. split; [apply nodup_b_spec; vm_compute; reflexivity|reflexivity]. Qed.

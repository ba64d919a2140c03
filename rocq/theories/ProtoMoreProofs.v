(** Headers, options and payloads of the protocols: the statements of C42 to C46,
    C49 and C52. *)
From Coq Require Import String ZArith List Bool Lia ZifyBool ZifyNat.
From Verif Require Import Base BitSpec DeriveUtil DeriveOps BaseFacts BitFacts
  DeriveUtilProofs DeriveOpsProofs DeriveLEProofs DeriveGen SpecPacket DeriveGenProofs DeriveInvProofs
  DeriveAccProofs DeriveVarProofs DeriveApiProofs DerivePropProofs DerivePropProofs2 Protocols ProtoFacts
  ProtoMethods SpecProto ProtoPayloadProofs ProtoSplitProofs ProtoOptionProofs ProtoFragProofs.
Import ListNotations.
Open Scope Z_scope.
Ltac Zify.zify_post_hook ::= Z.to_euclidean_division_equations.

Section M.
Variable c : cfg.

Theorem ipv4_regions : forall b, buf_ok b -> new (ipv4 c) b = Some b ->
  let h := field_val b 4 4 in let t := field_val b 16 16 in 5 <= h ->
  let options := clip b 20 (4 * h - 20) in let data := clip b (4 * h) (t - 4 * h) in
  get_raw c (ipv4 c) "options" b = Ok options /\ payload c (ipv4 c) b = Ok data /\
  packet_size c (ipv4 c) b = Ok (Z.max (4 * h) t) /\
  (4 * h <= t -> firstn 20 b ++ options ++ data = firstn (Z.to_nat t) b) /\
  (t < 4 * h -> data = []).
Proof.
  intros b BO NW h t H options data.
  destruct (ipv4_split c b BO NW) as (R & _ & _ & P & _ & _ & SZ). fold h t in R, P, SZ.
  replace (Z.max 0 (4 * h - 20)) with (4 * h - 20) in * by lia.
  replace (20 + (4 * h - 20)) with (4 * h) in * by lia.
  split; [exact R|]. split; [exact P|]. split; [rewrite SZ; f_equal; lia|]. split; intros Q.
  - unfold options, data. rewrite app_assoc. change 20%nat with (Z.to_nat 20).
    rewrite firstn_clip by lia. replace (20 + (4 * h - 20)) with (4 * h) by lia.
    rewrite firstn_clip by lia. f_equal. lia.
  - unfold data. apply clip_neg. lia.
Qed.

Theorem ipv4_beyond_total : forall b, buf_ok b -> new (ipv4 c) b = Some b ->
  let h := field_val b 4 4 in let t := field_val b 16 16 in
  exists data, payload c (ipv4 c) b = Ok data /\
    (h < 5 -> data = clip b 20 (t - 4 * h)) /\
    (data <> [] /\ t < Z.max 20 (4 * h) + blen data <-> h < 5 /\ 4 * h < t < blen b /\ 20 < blen b).
Proof.
  intros b BO NW h t. destruct (ipv4_split c b BO NW) as (_ & _ & _ & P & _). fold h t in P.
  assert (V := field_val_range b 4 4). fold h in V.
  assert (V2 := field_val_range b 16 16). fold t in V2.
  eexists. split; [exact P|]. split.
  - intros H. now replace (20 + Z.max 0 (4 * h - 20)) with 20 by lia.
  - set (n := Z.max 0 (4 * h - 20)).
    assert (NE : forall l : buf, l <> [] <-> 0 < blen l).
    { intros [|x l]; unfold blen; cbn [List.length]; split; intros; try congruence; try lia. }
    rewrite NE. destruct (Z.leb_spec (t - 4 * h) 0) as [Q|Q].
    + rewrite clip_neg by lia. change (blen (@nil Z)) with 0. lia.
    + rewrite clip_len by (unfold n; lia). unfold n. lia.
Qed.

Theorem tcp_regions : forall b, buf_ok b -> new (tcp c) b = Some b ->
  let d := field_val b 96 4 in
  exists options data, get_raw c (tcp c) "options" b = Ok options /\ payload c (tcp c) b = Ok data /\
    (5 <= d -> options = clip b 20 (4 * d - 20) /\ data = skipn (Z.to_nat (4 * d)) b) /\
    (d < 5 -> options = [] /\ data = skipn 20 b) /\
    firstn 20 b ++ options ++ data = b.
Proof.
  intros b BO NW d. destruct (tcp_split c b BO NW) as (R & _ & _ & P & _). fold d in R, P.
  do 2 eexists. split; [exact R|]. split; [exact P|]. split; [|split].
  - intros H. split; f_equal; lia.
  - intros H. replace (Z.max 0 (4 * d - 20)) with 0 by lia. split; [apply clip_zero|reflexivity].
  - rewrite app_assoc. change 20%nat with (Z.to_nat 20) at 1. rewrite firstn_clip by lia. apply firstn_skipn.
Qed.

(** ** Items of the option iterators *)
Lemma iter_items_ok : forall fs l s, buf_ok s -> iter_all (sem_of c fs) (fun x => Ok x) s = Ok l ->
  Forall (fun i => buf_ok i /\ new fs i = Some i) l.
Proof.
  intros fs. unfold iter_all. intros l s. generalize (S (length s)). intros k. revert l s.
  induction k as [|k IH]; intros l s BO H; [discriminate|]. cbn [iter_collect] in H.
  unfold iter_next in H. destruct ((0 <? blen s) && (k_min (sem_of c fs) <=? blen s)) eqn:Q.
  - cbn [sem_of k_size k_min] in *. destruct (packet_size c fs s) as [n|]; [|discriminate]. cbn [bind] in H.
    destruct (blen _ =? blen s); [discriminate|].
    destruct (iter_collect _ _ k _) as [r|] eqn:R; [|discriminate]. cbn [bind] in H.
    assert (E : l = s :: r) by congruence. rewrite E. constructor.
    + split; [exact BO|]. unfold new. now replace (minimum_packet_size fs <=? blen s) with true by lia.
    + eapply IH; [|exact R]. now apply buf_ok_skipn.
  - cbn [bind] in H. injection H as <-. constructor.
Qed.

Lemma options_walk : forall n fs num b s, In (n, fs) (crate_schemas c) -> n <> "NdpOption"%string -> n <> "Gre"%string ->
  minimum_packet_size fs = 1 ->
  (forall x r, buf_ok (x :: r) -> packet_size c fs (x :: r) = Ok (tlv_size num (x :: r))) ->
  buf_ok b -> s = b ->
  exists l, iter_all (sem_of c fs) (fun x => Ok x) s = Ok l /\
    Forall (fun i => exists p, payload c fs i = Ok p) l.
Proof.
  intros n fs num b s I N1 N2 MIN ONE BO ->. destruct (iter_safe c fs num b MIN ONE BO) as (l & E).
  exists l. split; [exact E|]. assert (F := iter_items_ok fs l b BO E).
  eapply Forall_impl; [|exact F]. intros i [BI NI].
  destruct (crate_payload c n fs i I BI NI) as (pre & f & post & pos & len & _ & _ & _ & _ & _ & P); try congruence.
  eauto.
Qed.

Lemma in_crate_tcp_option : In ("TcpOption"%string, tcp_option) (crate_schemas c).
Proof. unfold crate_schemas. cbn [In]. intuition. Qed.
Lemma in_crate_ipv4_option : In ("Ipv4Option"%string, ipv4_option) (crate_schemas c).
Proof. unfold crate_schemas. cbn [In]. intuition. Qed.

Lemma buf_ok_clip' : forall b a n, buf_ok b -> buf_ok (clip b a n).
Proof.
  intros b a n [B L]. split; [now apply bytes_firstn, bytes_skipn|].
  unfold clip, blen in *. rewrite firstn_length, skipn_length. lia.
Qed.

Theorem tcp_options_exact : forall b, buf_ok b -> new (tcp c) b = Some b ->
  let s := clip b 20 (4 * field_val b 96 4 - 20) in
  (forall l, get c (tcp c) "options" b = Ok (VPkts l) <-> opts tcp_num tcp_mk s l) /\
  (get c (tcp c) "options" b = Panic EIndex <-> dangling tcp_num s) /\
  (debug_values c (tcp c) b = Panic EIndex <-> dangling tcp_num s) /\
  ((exists l, opts tcp_num tcp_mk s l) \/ dangling tcp_num s) /\
  get_raw c (tcp c) "options" b = Ok s /\ get_iter c (tcp c) "options" b = Ok s /\
  exists l, iter_all (sem_of c tcp_option) (fun x => Ok x) s = Ok l /\
    Forall (fun i => exists p, payload c tcp_option i = Ok p) l.
Proof.
  intros b BO NW s.
  assert (SE : clip b 20 (Z.max 0 (4 * field_val b 96 4 - 20)) = s).
  { unfold s. destruct (Z.leb_spec 0 (4 * field_val b 96 4 - 20)).
    - f_equal. lia.
    - rewrite clip_neg by lia. rewrite clip_neg by lia. reflexivity. }
  destruct (tcp_parse c b BO NW) as (A & B & D & _). destruct (tcp_split c b BO NW) as (R1 & R2 & _).
  cbv zeta in A, B, D, R1, R2. rewrite SE in A, B, D, R1, R2.
  assert (BS : buf_ok s) by now apply buf_ok_clip'.
  repeat (split; [assumption|]). split.
  { destruct (tcp_opts_exact c s BS) as (X1 & X2 & X3). destruct X3 as [[l X3]|X3].
    - left. exists l. now apply X1.
    - right. now apply X2. }
  repeat (split; [assumption|]).
  refine (options_walk "TcpOption" tcp_option tcp_num s s in_crate_tcp_option _ _ eq_refl _ BS eq_refl); [discriminate|discriminate|].
  intros x r BX. apply (tcp_option_facts c x r BX).
Qed.

Theorem ipv4_options_exact : forall b, buf_ok b -> new (ipv4 c) b = Some b ->
  let s := clip b 20 (4 * field_val b 4 4 - 20) in
  (forall l, get c (ipv4 c) "options" b = Ok (VPkts l) <-> opts ipv4_num ipv4_mk s l) /\
  (get c (ipv4 c) "options" b = Panic EIndex <-> dangling ipv4_num s) /\
  (debug_values c (ipv4 c) b = Panic EIndex <-> dangling ipv4_num s) /\
  ((exists l, opts ipv4_num ipv4_mk s l) \/ dangling ipv4_num s) /\
  get_raw c (ipv4 c) "options" b = Ok s /\ get_iter c (ipv4 c) "options" b = Ok s /\
  exists l, iter_all (sem_of c ipv4_option) (fun x => Ok x) s = Ok l /\
    Forall (fun i => exists p, payload c ipv4_option i = Ok p) l.
Proof.
  intros b BO NW s.
  assert (SE : clip b 20 (Z.max 0 (4 * field_val b 4 4 - 20)) = s).
  { unfold s. destruct (Z.leb_spec 0 (4 * field_val b 4 4 - 20)).
    - f_equal. lia.
    - rewrite clip_neg by lia. rewrite clip_neg by lia. reflexivity. }
  destruct (ipv4_parse c b BO NW) as (A & B & D & _). destruct (ipv4_split c b BO NW) as (R1 & R2 & _).
  cbv zeta in A, B, D, R1, R2. rewrite SE in A, B, D, R1, R2.
  assert (BS : buf_ok s) by now apply buf_ok_clip'.
  repeat (split; [assumption|]). split.
  { destruct (ipv4_opts_exact c s BS) as (X1 & X2 & X3). destruct X3 as [[l X3]|X3].
    - left. exists l. now apply X1.
    - right. now apply X2. }
  repeat (split; [assumption|]).
  refine (options_walk "Ipv4Option" ipv4_option ipv4_num s s in_crate_ipv4_option _ _ eq_refl _ BS eq_refl); [discriminate|discriminate|].
  intros x r BX. apply (ipv4_option_facts c x r BX).
Qed.

Theorem tcp_from_packet_exact : forall b, buf_ok b -> new (tcp c) b = Some b ->
  let d := field_val b 96 4 in let s := clip b 20 (4 * d - 20) in
  (from_packet c (tcp c) b = Panic EIndex <-> dangling tcp_num s \/ blen b < 4 * d) /\
  (from_packet c (tcp c) b <> Panic EIndex -> exists xs, from_packet c (tcp c) b = Ok xs) /\
  exists p, payload c (tcp c) b = Ok p.
Proof.
  intros b BO NW d s.
  assert (SE : clip b 20 (Z.max 0 (4 * d - 20)) = s).
  { unfold s. destruct (Z.leb_spec 0 (4 * d - 20)).
    - f_equal. lia.
    - rewrite clip_neg by lia. rewrite clip_neg by lia. reflexivity. }
  destruct (tcp_parse c b BO NW) as (_ & _ & _ & A & B & _). destruct (tcp_split c b BO NW) as (_ & _ & _ & P & _).
  cbv zeta in A, B. fold d in A, B. rewrite SE in A, B.
  assert (L20 := new_min _ _ NW). change (minimum_packet_size (tcp c)) with 20 in L20.
  assert (V := field_val_range b 96 4). fold d in V.
  assert (A' : from_packet c (tcp c) b = Panic EIndex <-> dangling tcp_num s \/ blen b < 4 * d).
  { rewrite A. split; intros [X|X]; auto; right; lia. }
  split; [exact A'|]. split; [|eauto]. intros NP.
  destruct (tcp_opts_exact c s (buf_ok_clip' _ _ _ BO)) as (X1 & X2 & X3).
  destruct X3 as [[l X3]|X3].
  - apply B; [exists l; now apply X1|]. destruct (Z.ltb_spec (blen b) (4 * d)) as [Q|Q]; [|lia].
    exfalso. apply NP, A'. auto.
  - exfalso. apply NP, A'. left. now apply X2.
Qed.

Theorem ipv4_from_packet_exact : forall b, buf_ok b -> new (ipv4 c) b = Some b ->
  let h := field_val b 4 4 in let s := clip b 20 (4 * h - 20) in
  (from_packet c (ipv4 c) b = Panic EIndex <-> dangling ipv4_num s \/ blen b < 4 * h) /\
  (from_packet c (ipv4 c) b <> Panic EIndex -> exists xs, from_packet c (ipv4 c) b = Ok xs) /\
  exists p, payload c (ipv4 c) b = Ok p.
Proof.
  intros b BO NW d s.
  assert (SE : clip b 20 (Z.max 0 (4 * d - 20)) = s).
  { unfold s. destruct (Z.leb_spec 0 (4 * d - 20)).
    - f_equal. lia.
    - rewrite clip_neg by lia. rewrite clip_neg by lia. reflexivity. }
  destruct (ipv4_parse c b BO NW) as (_ & _ & _ & A & B & _). destruct (ipv4_split c b BO NW) as (_ & _ & _ & P & _).
  cbv zeta in A, B. fold d in A, B. rewrite SE in A, B.
  assert (L20 := new_min _ _ NW). change (minimum_packet_size (ipv4 c)) with 20 in L20.
  assert (V := field_val_range b 4 4). fold d in V.
  assert (A' : from_packet c (ipv4 c) b = Panic EIndex <-> dangling ipv4_num s \/ blen b < 4 * d).
  { rewrite A. split; intros [X|X]; auto; right; lia. }
  split; [exact A'|]. split; [|eauto]. intros NP.
  destruct (ipv4_opts_exact c s (buf_ok_clip' _ _ _ BO)) as (X1 & X2 & X3).
  destruct X3 as [[l X3]|X3].
  - apply B; [exists l; now apply X1|]. destruct (Z.ltb_spec (blen b) (4 * d)) as [Q|Q]; [|lia].
    exfalso. apply NP, A'. auto.
  - exfalso. apply NP, A'. left. now apply X2.
Qed.

Theorem ndp_sizes : forall b, buf_ok b -> new (ndp_option c) b = Some b ->
  let n := field_val b 8 8 in
  (1 <= n < 32 -> packet_size c (ndp_option c) b = Ok (8 * n) /\
     payload c (ndp_option c) b = Ok (clip b 2 (8 * n - 2)) /\
     get c (ndp_option c) "data" b = Ok (VBytes (clip b 2 (8 * n - 2)))) /\
  (n = 0 -> packet_size c (ndp_option c) b = Ok 2 /\ payload c (ndp_option c) b = Ok []) /\
  (32 <= n -> c_mode c = Checked ->
     packet_size c (ndp_option c) b = Panic EOverflow /\ payload c (ndp_option c) b = Panic EOverflow /\
     get c (ndp_option c) "data" b = Panic EOverflow /\ from_packet c (ndp_option c) b = Panic EOverflow) /\
  (32 <= n -> c_mode c = Wrapping ->
     packet_size c (ndp_option c) b = Ok (Z.max 2 (8 * n - 256 * (n / 32))) /\
     payload c (ndp_option c) b = Ok (clip b 2 (8 * n - 256 * (n / 32) - 2)) /\
     Z.max 2 (8 * n - 256 * (n / 32)) < 8 * n).
Proof.
  intros b BO NW n. assert (V := field_val_range b 8 8). fold n in V. change (2 ^ Z.of_nat 8) with 256 in V.
  assert (MU : mul_u (c_mode c) 8 n 8 = if 8 * n <? 256 then Ok (8 * n) else
                 match c_mode c with Checked => Panic EOverflow | Wrapping => Ok (8 * n - 256 * (n / 32)) end).
  { unfold mul_u, ovf. change (2 ^ 8) with 256. replace (0 <=? n * 8) with true by lia. cbn [andb].
    replace (n * 8) with (8 * n) by lia. destruct (8 * n <? 256); [reflexivity|].
    destruct (c_mode c); [reflexivity|]. f_equal. lia. }
  split; [|split; [|split]].
  - intros H. replace (8 * n <? 256) with true in MU by lia.
    destruct (ndp_split c b BO NW (8 * n) MU) as (S1 & S2 & S3 & _).
    replace (Z.max 2 (8 * n)) with (8 * n) in S1 by lia. auto.
  - intros H. replace (8 * n <? 256) with true in MU by lia.
    destruct (ndp_split c b BO NW (8 * n) MU) as (S1 & S2 & _ & _).
    rewrite H in *. split; [exact S1|]. rewrite S2. f_equal.
  - intros H M. rewrite M in MU. replace (8 * n <? 256) with false in MU by lia. rewrite <- M in MU.
    now apply ndp_panics.
  - intros H M. rewrite M in MU. replace (8 * n <? 256) with false in MU by lia. rewrite <- M in MU.
    destruct (ndp_split c b BO NW _ MU) as (S1 & S2 & _ & _). split; [exact S1|]. split; [exact S2|]. lia.
Qed.

Theorem fragment_reserved : forall b, buf_ok b -> new fragment b = Some b ->
  exists v, get_fragment_offset c b = Ok v /\
    v = 8 * field_val b 16 13 + 4 * field_val b 29 1 /\ (v mod 8 <> 0 <-> field_val b 29 1 = 1) /\
    is_last_fragment c b = Ok (field_val b 31 1 =? 0).
Proof.
  intros b BO NW. destruct (fragment_getters c b BO NW) as [A B].
  assert (V := field_val_range b 29 1). change (2 ^ Z.of_nat 1) with 2 in V.
  eexists. split; [exact A|]. split; [reflexivity|]. split; [lia|exact B].
Qed.
End M.

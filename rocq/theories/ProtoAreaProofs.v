(** Payload areas of the fixed-header packets and lists of neighbour discovery
    options. *)
From Coq Require Import String ZArith List Bool Lia ZifyBool ZifyNat.
From Verif Require Import Base BitSpec DeriveUtil DeriveOps BaseFacts BitFacts
  DeriveUtilProofs DeriveOpsProofs DeriveLEProofs DeriveGen SpecPacket DeriveGenProofs DeriveInvProofs
  DeriveAccProofs DeriveVarProofs DeriveApiProofs DerivePropProofs DerivePropProofs2 Protocols ProtoFacts
  SpecProto SpecArea ProtoPayloadProofs ProtoSplitProofs ProtoLayoutProofs ProtoOptionProofs.
Import ListNotations.
Open Scope Z_scope.
Ltac Zify.zify_post_hook ::= Z.to_euclidean_division_equations.

Section Area.
Variable c : cfg.

Lemma pos_rest : forall G b post bit acc, Forall (fun g => f_len g = None /\ bit_width (f_ty g) = 0) post ->
  pos_after G b post bit acc (bit + 8 * acc).
Proof.
  intros G b post bit acc F. revert bit acc. induction F as [|g post (L & W) F IH]; intros bit acc; cbn [pos_after]; [lia|].
  rewrite L, W. replace (bit + 0) with bit by lia. apply IH.
Qed.

Lemma area_generic : forall fs k f post a b h,
  scoped [] fs -> fs = firstn k fs ++ f :: post ->
  Forall (fun g => f_len g = None) (firstn k fs) -> header_bits (firstn k fs) = 8 * h ->
  f_payload f = true -> Forall (fun g => f_payload g = false) (firstn k fs) ->
  f_ty f = bytes_ty -> Forall (fun g => f_len g = None /\ bit_width (f_ty g) = 0) post ->
  (f_len f = None /\ a = ToEnd \/
   exists le, f_len f = Some le /\ a <> ToEnd /\ forall r, le (fun n => get c fs n b) r = Ok (area_len a b)) ->
  0 <= area_len a b < 2 ^ 63 -> area_size a b < 2 ^ 32 -> 0 <= h < 2 ^ 32 -> buf_ok b -> h <= blen b ->
  payload c fs b = Ok (clip b h (area_len a b)) /\
  get c fs (f_name f) b = Ok (VBytes (clip b h (area_len a b))) /\
  packet_size c fs b = Ok (h + area_size a b).
Proof.
  intros fs k f post a b h S E NL HB PF NP TY PO LE LB AB HR BO HL.
  assert (P1 : pos_after (fun n => get c fs n b) b (firstn k fs) 0 0 (8 * h)).
  { assert (X := pos_header (fun n => get c fs n b) b (firstn k fs) 0 0 NL).
    now replace (0 + header_bits (firstn k fs) + 8 * 0) with (8 * h) in X by lia. }
  assert (OW : own_len (fun n => get c fs n b) b (8 * h / 8) f (area_len a b)).
  { unfold own_len. destruct LE as [(-> & ->)|(le & -> & _ & LV)]; [reflexivity|apply LV]. }
  assert (H8 : 8 * h / 8 = h) by lia.
  split; [|split].
  - rewrite (api_payload c b fs (firstn k fs) f post (8 * h) (area_len a b)); auto; rewrite ?H8; try lia; auto.
  - destruct (api_get_var c b fs (firstn k fs) f post (8 * h) (area_len a b)) as (_ & _ & X); auto; try lia.
    rewrite TY in X. unfold bytes_ty in X. specialize (X eq_refl). rewrite H8 in X.
    now replace (h <=? blen b) with true in X by lia.
  - rewrite (api_packet_size c b fs (8 * (h + area_size a b))); auto.
    + f_equal. lia.
    + assert (PA : pos_after (fun n => get c fs n b) b (firstn k fs ++ f :: post) 0 0 (8 * (h + area_size a b)));
        [|rewrite <- E in PA; exact PA].
      apply (pos_after_app c).
      exists 0. split.
      { replace (0 + header_bits (firstn k fs) + 8 * (0 + 0)) with (8 * h) by lia. exact P1. }
      cbn [pos_after]. rewrite TY. cbn [bit_width bytes_ty].
      destruct LE as [(-> & ->)|(le & -> & NE & LV)].
      * cbn [area_size]. replace (8 * (h + 0)) with (0 + header_bits (firstn k fs) + 0 + 8 * (0 + 0)) by lia. now apply pos_rest.
      * exists (area_len a b). split; [lia|]. split; [apply LV|].
        assert (AS : area_size a b = area_len a b) by (destruct a; [congruence| |]; reflexivity).
        rewrite AS.
        replace (8 * (h + area_len a b)) with (0 + header_bits (firstn k fs) + 0 + 8 * (0 + 0 + area_len a b)) by lia.
        now apply pos_rest.
    + lia.
Qed.

(** ** The crate *)

Lemma area_row : forall fs k f post a b h,
  scoped [] fs -> fs = firstn k fs ++ f :: post ->
  Forall (fun g => f_len g = None) (firstn k fs) -> header_bits (firstn k fs) = 8 * h ->
  f_payload f = true -> Forall (fun g => f_payload g = false) (firstn k fs) ->
  f_ty f = bytes_ty -> Forall (fun g => f_len g = None /\ bit_width (f_ty g) = 0) post ->
  match a with ToEnd => f_len f = None | Nothing => f_len f = Some (len_const 0) | _ => False end ->
  0 <= h < 2 ^ 32 -> buf_ok b -> h <= blen b ->
  payload c fs b = Ok (clip b h (area_len a b)) /\
  get c fs (f_name f) b = Ok (VBytes (clip b h (area_len a b))) /\
  packet_size c fs b = Ok (h + area_size a b).
Proof.
  intros fs k f post a b h S E NL HB PF NP TY PO LE HR BO HL.
  apply (area_generic fs k f post); auto.
  - destruct a; [auto| |contradiction]. right. exists (len_const 0). split; [auto|]. split; [discriminate|reflexivity].
  - destruct BO. destruct a; cbn [area_len]; [unfold blen in *; lia|lia|contradiction].
  - destruct a; cbn [area_size area_len]; [lia|lia|contradiction].
Qed.

Ltac row fs k S :=
  let f := eval hnf in (nth_error fs k) in
  match f with Some ?f =>
    let post := eval hnf in (skipn (Datatypes.S k) fs) in
    apply (area_row fs k f post);
      [apply S|reflexivity|nolen|reflexivity|reflexivity|repeat constructor|reflexivity
      |repeat constructor|reflexivity|lia|assumption|assumption]
  end.

Theorem payload_areas : forall n fs h p a b, In (n, fs) (crate_schemas c) -> In (n, h, p, a) areas ->
  buf_ok b -> new fs b = Some b ->
  h <= blen b /\
  payload c fs b = Ok (clip b h (area_len a b)) /\
  get c fs p b = Ok (VBytes (clip b h (area_len a b))) /\
  packet_size c fs b = Ok (h + area_size a b).
Proof.
  intros n fs h p a b I1 I2 BO NW. assert (M := new_min _ _ NW).
  assert (HL : h <= blen b).
  { assert (X : forallb (fun s => forallb (fun r => negb (String.eqb (fst s) (fst (fst (fst r)))) ||
        (minimum_packet_size (snd s) =? snd (fst (fst r)))) areas) (crate_schemas c) = true) by reflexivity.
    rewrite forallb_forall in X. specialize (X _ I1). cbn [fst snd] in X. rewrite forallb_forall in X. specialize (X _ I2).
    cbn [fst snd] in X. rewrite String.eqb_refl in X. cbn [negb orb] in X. lia. }
  split; [exact HL|].
  unfold areas in I2. cbn [In] in I2.
  repeat (destruct I2 as [I2|I2]; [|]); try contradiction; injection I2 as <- <- <- <-;
  unfold crate_schemas in I1; cbn [In] in I1;
  repeat (destruct I1 as [I1|I1]; [first [discriminate|injection I1 as <-]|]); try contradiction.
  - row ethernet 3%nat ethernet_scoped.
  - row vlan 4%nat vlan_scoped.
  - row arp 9%nat arp_scoped.
  - hg c b BO ipv6 3%nat 16 ipv6_scoped NW G.
    apply (area_generic ipv6 8 (pfld "payload" (len_of_int "payload_length" (fun n => n))) []);
      [apply ipv6_scoped|reflexivity|nolen|reflexivity|reflexivity|repeat constructor|reflexivity|constructor| | | |lia|assumption|assumption].
    + right. eexists. split; [reflexivity|]. split; [discriminate|]. intros r. unfold len_of_int, int_of. rewrite G. reflexivity.
    + cbn [area_len]. assert (V := field_val_range b 32 16). change (2 ^ Z.of_nat 16) with 65536 in V. lia.
    + cbn [area_size area_len]. assert (V := field_val_range b 32 16). change (2 ^ Z.of_nat 16) with 65536 in V. lia.
  - row fragment 4%nat fragment_scoped.
  - row udp 4%nat udp_scoped.
  - row gre_u16 1%nat gre_u16_scoped.
  - row gre_u32 1%nat gre_u32_scoped.
  - row icmp 3%nat icmp_scoped.
  - row echo_reply 5%nat echo_reply_scoped.
  - row echo_request 5%nat echo_request_scoped.
  - row destination_unreachable 4%nat destination_unreachable_scoped.
  - row time_exceeded 4%nat time_exceeded_scoped.
  - row icmpv6 3%nat icmpv6_scoped.
  - row (router_solicit c) 4%nat router_solicit_scoped.
  - row (router_advert c) 8%nat router_advert_scoped.
  - row (neighbor_solicit c) 5%nat neighbor_solicit_scoped.
  - row (neighbor_advert c) 6%nat neighbor_advert_scoped.
  - row (redirect c) 6%nat redirect_scoped.
Qed.

Theorem areas_complete : forall n fs, In (n, fs) (crate_schemas c) ->
  (exists h p a, In (n, h, p, a) areas) \/ In n variable_packets.
Proof.
  intros n fs I.
  assert (X : forallb (fun s => existsb (fun r => String.eqb (fst s) (fst (fst (fst r)))) areas ||
      existsb (String.eqb (fst s)) variable_packets) (crate_schemas c) = true) by reflexivity.
  rewrite forallb_forall in X. specialize (X _ I). cbn [fst] in X. apply orb_true_iff in X.
  destruct X as [X|X]; apply existsb_exists in X.
  - destruct X as ((((m & h) & p) & a) & IN & Q). cbn [fst] in Q. apply String.eqb_eq in Q. subst. left. eauto.
  - destruct X as (m & IN & Q). apply String.eqb_eq in Q. subst. now right.
Qed.

(** ** The messages whose struct can always be built *)

Lemma fixed_from_packet : forall n fs h p a b, In (n, fs) (crate_schemas c) -> In (n, h, p, a) areas ->
  ~ In n (map fst ndp_messages) -> buf_ok b -> new fs b = Some b ->
  (exists xs, from_packet c fs b = Ok xs) /\ (exists xs, debug_values c fs b = Ok xs).
Proof.
  intros n fs h p a b I1 I2 NN BO NW.
  destruct (payload_areas n fs h p a b I1 I2 BO NW) as (_ & _ & GP & _).
  destruct (crate_well_formed c n fs I1) as (S & _ & _).
  assert (ALL : forall f, In f fs -> exists v, get c fs (f_name f) b = Ok v).
  { intros f IN. destruct (is_vec (f_ty f)) eqn:V.
    - assert (X : forallb (fun s => forallb (fun r => negb (String.eqb (fst s) (fst (fst (fst r)))) ||
          existsb (String.eqb (fst s)) (map fst ndp_messages) ||
          forallb (fun f => negb (is_vec (f_ty f)) || String.eqb (f_name f) (snd (fst r))) (snd s)) areas) (crate_schemas c) = true) by reflexivity.
      rewrite forallb_forall in X. specialize (X _ I1). cbn [fst snd] in X. rewrite forallb_forall in X. specialize (X _ I2).
      cbn [fst snd] in X. rewrite String.eqb_refl in X. cbn [negb orb] in X. apply orb_true_iff in X. destruct X as [X|X].
      + exfalso. apply NN. apply existsb_exists in X. destruct X as (m & IM & Q). apply String.eqb_eq in Q. now subst.
      + rewrite forallb_forall in X. specialize (X f IN). rewrite V in X. cbn [negb orb] in X.
        apply String.eqb_eq in X. rewrite X. eauto.
    - destruct (layout_complete c n fs I1) as (bits & cells & D & CF). destruct (CF f IN V) as (off & ws & IC).
      destruct (layout_read c n fs bits cells b I1 D BO) as [L1 L2]. apply L1 in NW.
      destruct (L2 NW _ _ _ IC) as (v & G & _). eauto. }
  split.
  - rewrite from_packet_gets by auto. apply seq_res_all. apply Forall_map, Forall_forall. auto.
  - rewrite debug_gets by auto. apply seq_res_all. apply Forall_map, Forall_forall.
    intros f IN. apply filter_In in IN. apply ALL, IN.
Qed.

(** ** Neighbour discovery options *)

Lemma iter_short : forall A k (g : buf -> res A) s, blen s < k_min k -> iter_all k g s = Ok [].
Proof.
  intros A k g s L. unfold iter_all. cbn [iter_collect]. unfold iter_next.
  destruct (0 <? blen s); cbn [andb]; [|reflexivity]. now replace (k_min k <=? blen s) with false by lia.
Qed.

Lemma byte_second : forall t n r, buf_ok (t :: n :: r) -> field_val (t :: n :: r) 0 8 = t /\ field_val (t :: n :: r) 8 8 = n.
Proof.
  intros t n r [B _]. inversion B as [|? ? BT B']; subst. inversion B' as [|? ? BN B'']; subst.
  split; [apply (byte_field t (n :: r) BT)|].
  transitivity (field_val (n :: r) 0 8); [|apply (byte_field n r BN)].
  reflexivity.
Qed.

Lemma ndp_wellformed : forall octets good os, Forall ndp_good os -> (forall n, 1 <= n < 32 -> good n /\ octets n = 8 * n) ->
  ndp_opts octets good (concat (map ndp_bytes os)) (map ndp_struct os).
Proof.
  intros octets good os F G. induction F as [|((t & n) & d) os H F IH]; cbn [map concat].
  - apply ndp_end. reflexivity.
  - destruct H as (T & N & B & L). destruct (G n N) as (G1 & G2). cbn [ndp_bytes ndp_struct app].
    assert (E : Z.to_nat (octets n - 2) = length d) by (unfold blen in L; lia).
    replace d with (firstn (Z.to_nat (octets n - 2)) (d ++ concat (map ndp_bytes os))) at 2.
    + apply ndp_more; auto. rewrite E, skipn_app, skipn_all, Nat.sub_diag. exact IH.
    + rewrite E, firstn_app, firstn_all, Nat.sub_diag, firstn_O. apply app_nil_r.
Qed.

Section NdpRun.
Variable octets : Z -> Z.
Variable good : Z -> Prop.
Hypothesis GD : forall n, good n \/ ~ good n.
Hypothesis SZ : forall n, 0 <= n < 256 -> good n -> mul_u (c_mode c) 8 n 8 = Ok (octets n).
Hypothesis OV : forall n, 0 <= n < 256 -> ~ good n -> mul_u (c_mode c) 8 n 8 = Panic EOverflow.
Let run (s : buf) := iter_all (sem_of c (ndp_option c)) (from_packet c (ndp_option c)) s.
Let walk (s : buf) := iter_all (sem_of c (ndp_option c)) (fun x => Ok x) s.

Lemma ndp_new : forall t n r, new (ndp_option c) (t :: n :: r) = Some (t :: n :: r).
Proof.
  intros t n r. unfold new. change (minimum_packet_size (ndp_option c)) with 2. unfold blen. cbn [length].
  now replace (2 <=? Z.of_nat (S (S (length r)))) with true by lia.
Qed.
Lemma ndp_skip : forall (t n : Z) (r : buf) x, 0 <= x -> skipn (Z.to_nat (Z.max 2 x)) (t :: n :: r) = skipn (Z.to_nat (x - 2)) r.
Proof. intros t n r x X. replace (Z.to_nat (Z.max 2 x)) with (S (S (Z.to_nat (x - 2)))) by lia. reflexivity. Qed.
Lemma units_ok : forall t n r, buf_ok (t :: n :: r) -> 0 <= n < 256.
Proof. intros t n r [B _]. inversion B as [|? ? BT B']; subst. inversion B' as [|? ? BN B'']; subst. exact BN. Qed.
Lemma octets_nonneg : forall n, 0 <= n < 256 -> good n -> 0 <= octets n.
Proof.
  intros n N G. assert (X := SZ n N G). unfold mul_u, ovf in X. change (2 ^ 8) with 256 in X.
  destruct ((0 <=? n * 8) && (n * 8 <? 256)) eqn:Q; [assert (octets n = n * 8) by congruence; lia|].
  destruct (c_mode c); [discriminate|]. assert (octets n = (n * 8) mod 256) by congruence. lia.
Qed.

Lemma ndp_step : forall A (g : buf -> res A) t n r, buf_ok (t :: n :: r) -> good n ->
  iter_all (sem_of c (ndp_option c)) g (t :: n :: r) =
  (x <- g (t :: n :: r) ;;
   l <- iter_all (sem_of c (ndp_option c)) g (skipn (Z.to_nat (octets n - 2)) r) ;; Ok (x :: l)).
Proof.
  intros A g t n r BO G. assert (N := units_ok t n r BO). destruct (byte_second t n r BO) as (_ & F2).
  destruct (ndp_split c (t :: n :: r) BO (ndp_new t n r) (octets n)) as (P & _); [rewrite F2; auto|].
  assert (ON := octets_nonneg n N G).
  rewrite (iter_step _ (sem_of c (ndp_option c)) g (t :: n :: r) (Z.max 2 (octets n))).
  - now rewrite ndp_skip by lia.
  - unfold blen. cbn [length]. lia.
  - change (k_min (sem_of c (ndp_option c))) with 2. unfold blen. cbn [length]. lia.
  - exact P.
  - lia.
Qed.
Lemma ndp_stuck : forall A (g : buf -> res A) t n r, buf_ok (t :: n :: r) -> ~ good n ->
  iter_all (sem_of c (ndp_option c)) g (t :: n :: r) = Panic EOverflow.
Proof.
  intros A g t n r BO G. assert (N := units_ok t n r BO). destruct (byte_second t n r BO) as (_ & F2).
  destruct (ndp_panics c (t :: n :: r) BO (ndp_new t n r)) as (P & _); [rewrite F2; auto|].
  unfold iter_all. cbn [iter_collect]. unfold iter_next.
  change (k_min (sem_of c (ndp_option c))) with 2. change (k_size (sem_of c (ndp_option c))) with (packet_size c (ndp_option c)).
  rewrite P. replace ((0 <? blen (t :: n :: r)) && (2 <=? blen (t :: n :: r))) with true
    by (unfold blen; cbn [length]; lia). reflexivity.
Qed.
Lemma ndp_from : forall t n r, buf_ok (t :: n :: r) -> good n ->
  from_packet c (ndp_option c) (t :: n :: r) = Ok (ndp_mk t n (firstn (Z.to_nat (octets n - 2)) r)).
Proof.
  intros t n r BO G. assert (N := units_ok t n r BO). destruct (byte_second t n r BO) as (F1 & F2).
  destruct (ndp_split c (t :: n :: r) BO (ndp_new t n r) (octets n)) as (_ & _ & _ & P); [rewrite F2; auto|].
  rewrite P, F1, F2. reflexivity.
Qed.

Lemma ndp_rest : forall t n r k, buf_ok (t :: n :: r) -> buf_ok (skipn k r).
Proof. intros t n r k H. apply buf_ok_skipn. exact (buf_ok_skipn 2 _ H). Qed.

Lemma ndp_opts_run : forall s l, ndp_opts octets good s l -> buf_ok s -> run s = Ok l.
Proof.
  intros s l H. induction H as [s L|t n r l G H IH]; intros BO.
  - now apply iter_short.
  - unfold run. rewrite ndp_step by auto. rewrite ndp_from by auto. cbn [bind]. fold (run (skipn (Z.to_nat (octets n - 2)) r)).
    now rewrite IH by (eapply ndp_rest; eauto).
Qed.
Lemma ndp_opts_walk : forall s l, ndp_opts octets good s l -> buf_ok s -> exists w, walk s = Ok w.
Proof.
  intros s l H. induction H as [s L|t n r l G H IH]; intros BO.
  - eexists. now apply iter_short.
  - unfold walk. rewrite ndp_step by auto. cbn [bind]. destruct IH as (w & W); [eapply ndp_rest; eauto|].
    unfold walk in W. rewrite W. cbn [bind]. eauto.
Qed.
Lemma ndp_bad_run : forall s, ndp_bad octets good s -> buf_ok s -> run s = Panic EOverflow /\ walk s = Panic EOverflow.
Proof.
  intros s H. induction H as [t n r G|t n r G H IH]; intros BO.
  - split; apply ndp_stuck; auto.
  - unfold run, walk. rewrite !ndp_step by auto. rewrite ndp_from by auto. cbn [bind].
    destruct IH as (E1 & E2); [eapply ndp_rest; eauto|]. unfold run, walk in E1, E2. now rewrite E1, E2.
Qed.
Lemma ndp_total : forall s, buf_ok s -> (exists l, ndp_opts octets good s l) \/ ndp_bad octets good s.
Proof.
  intros s. induction s as [s IH] using (induction_ltof1 _ (@length Z)). unfold ltof in IH. intros BO.
  destruct s as [|t [|n r]]; [left; eexists; apply ndp_end; unfold blen; cbn; lia|left; eexists; apply ndp_end; unfold blen; cbn; lia|].
  destruct (GD n) as [G|G]; [|right; now apply bad_here].
  destruct (IH (skipn (Z.to_nat (octets n - 2)) r)) as [(l & H)|H].
  - rewrite skipn_length. cbn [length]. lia.
  - eapply ndp_rest; eauto.
  - left. eexists. apply ndp_more; eauto.
  - right. apply bad_later; auto.
Qed.

Lemma ndp_exact : forall s, buf_ok s ->
  (forall l, run s = Ok l <-> ndp_opts octets good s l) /\
  (run s = Panic EOverflow <-> ndp_bad octets good s) /\
  (walk s = Panic EOverflow <-> ndp_bad octets good s) /\
  ((exists l, run s = Ok l /\ exists w, walk s = Ok w) \/ run s = Panic EOverflow).
Proof.
  intros s BO. destruct (ndp_total s BO) as [(l & H)|H].
  - assert (R := ndp_opts_run _ _ H BO). destruct (ndp_opts_walk _ _ H BO) as (w & W). rewrite R, W. split; [|split; [|split; eauto]].
    + intros l'. split; [intros X; assert (l' = l) by congruence; now subst|].
      intros X. apply ndp_opts_run in X; auto. congruence.
    + split; [discriminate|]. intros X. apply ndp_bad_run in X; auto. destruct X. congruence.
    + split; [discriminate|]. intros X. apply ndp_bad_run in X; auto. destruct X. congruence.
  - destruct (ndp_bad_run _ H BO) as (R & W). rewrite R, W. split; [|split; [|split; auto]].
    + intros l'. split; [discriminate|]. intros X. apply ndp_opts_run in X; auto. congruence.
    + split; auto.
    + split; auto.
Qed.

End NdpRun.

(** The options of a message. *)
Lemma message_options : forall n fs h b, In (n, fs) (crate_schemas c) -> In (n, h) ndp_messages ->
  buf_ok b -> new fs b = Some b ->
  let s := skipn (Z.to_nat h) b in
  get_raw c fs "options" b = Ok s /\ get_iter c fs "options" b = Ok s /\
  get c fs "options" b = rmap VPkts (iter_all (sem_of c (ndp_option c)) (from_packet c (ndp_option c)) s) /\
  exists hs ds,
    from_packet c fs b = (o <- get c fs "options" b ;; Ok (hs ++ [o])) /\
    debug_values c fs b = (o <- get c fs "options" b ;; Ok (ds ++ [o])).
Proof.
  intros n fs h b I1 I2 BO NW s.
  assert (I3 : In (n, h, "payload"%string, Nothing) areas).
  { unfold ndp_messages in I2. cbn [In] in I2. unfold areas. cbn [In].
    repeat (destruct I2 as [I2|I2]; [injection I2 as <- <-; tauto|]). contradiction. }
  destruct (payload_areas n fs h "payload" Nothing b I1 I3 BO NW) as (HL & _ & GP & _).
  destruct (crate_well_formed c n fs I1) as (S & _ & _).
  assert (SH : exists k, fs = firstn k fs ++ [pfld "payload" (len_const 0); fld "options" (TVecPkt (sem_of c (ndp_option c)))] /\
     Forall (fun g => f_len g = None) (firstn k fs) /\ header_bits (firstn k fs) = 8 * h /\
     forallb (fun f => negb (is_vec (f_ty f))) (firstn k fs) = true /\ 0 <= h < 100 /\
     filter (fun f => negb (f_payload f)) fs = firstn k fs ++ [fld "options" (TVecPkt (sem_of c (ndp_option c)))]).
  { unfold ndp_messages in I2. cbn [In] in I2.
    repeat (destruct I2 as [I2|I2]; [|]); try contradiction; injection I2 as <- <-;
    unfold crate_schemas in I1; cbn [In] in I1;
    repeat (destruct I1 as [I1|I1]; [first [discriminate|injection I1 as <-]|]); try contradiction.
    - exists 4%nat. repeat split; try reflexivity; [nolen|lia].
    - exists 8%nat. repeat split; try reflexivity; [nolen|lia].
    - exists 5%nat. repeat split; try reflexivity; [nolen|lia].
    - exists 6%nat. repeat split; try reflexivity; [nolen|lia].
    - exists 6%nat. repeat split; try reflexivity; [nolen|lia]. }
  destruct SH as (k & E & NL & HB & NV & HR & FI). assert (BL := proj2 BO).
  set (P := pfld "payload" (len_const 0)) in *. set (O := fld "options" (TVecPkt (sem_of c (ndp_option c)))) in *.
  assert (P1 : pos_after (fun x => get c fs x b) b (firstn k fs) 0 0 (8 * h)).
  { assert (X := pos_header (fun x => get c fs x b) b (firstn k fs) 0 0 NL).
    now replace (0 + header_bits (firstn k fs) + 8 * 0) with (8 * h) in X by lia. }
  assert (P2 := pos_step (fun x => get c fs x b) b (firstn k fs) P (len_const 0) (8 * h) 0 P1 eq_refl eq_refl ltac:(lia)).
  replace (8 * h + bit_width (f_ty P) + 8 * 0) with (8 * h) in P2 by (cbn; lia).
  destruct (api_get_var c b fs (firstn k fs ++ [P]) O [] (8 * h) (blen b)) as (X1 & X2 & X3); auto.
  { now rewrite <- app_assoc. }
  { reflexivity. }
  { unfold blen; lia. }
  { lia. }
  replace (8 * h / 8) with h in * by lia. replace (h <=? blen b) with true in * by lia.
  rewrite clip_rest in X1, X2, X3 by lia. cbn [f_ty f_name O fld sem_of k_from] in X1, X2, X3.
  split; [exact X1|]. split; [exact X2|]. split; [exact X3|].
  assert (HS : exists hs, seq_res (map (fun f => get c fs (f_name f) b) (firstn k fs)) = Ok hs).
  { apply seq_res_all. apply Forall_map, Forall_forall. intros f IN.
    destruct (layout_complete c n fs I1) as (bits & cells & D & CF).
    assert (V : is_vec (f_ty f) = false).
    { rewrite forallb_forall in NV. specialize (NV f IN). now destruct (is_vec (f_ty f)). }
    assert (IF : In f fs) by (rewrite <- (firstn_skipn k fs); apply in_or_app; now left).
    destruct (CF f IF V) as (off & ws & IC).
    destruct (layout_read c n fs bits cells b I1 D BO) as [L1 L2]. apply L1 in NW.
    destruct (L2 NW _ _ _ IC) as (v & G & _). eauto. }
  destruct HS as (hs & HS).
  eexists (hs ++ [_]), hs. split.
  - rewrite from_packet_gets by auto.
    replace (map (fun f => get c fs (f_name f) b) fs) with
      (map (fun f => get c fs (f_name f) b) (firstn k fs) ++ [get c fs "payload" b; get c fs "options" b]).
    + rewrite seq_res_app, HS. cbn [seq_res]. rewrite GP. cbn [bind].
      destruct (get c fs "options" b); cbn [bind]; [|reflexivity]. now rewrite <- app_assoc.
    + transitivity (map (fun f => get c fs (f_name f) b) (firstn k fs ++ [P; O])); [|now rewrite <- E].
      rewrite map_app. reflexivity.
  - rewrite debug_gets by auto. rewrite FI, map_app, seq_res_app, HS. cbn [map seq_res bind].
    change (f_name O) with "options"%string. destruct (get c fs "options" b); reflexivity.
Qed.

End Area.

Lemma options_area : forall c n fs h b, In (n, fs) (crate_schemas c) -> In (n, h) ndp_messages ->
  buf_ok b -> new fs b = Some b ->
  let s := skipn (Z.to_nat h) b in
  get_raw c fs "options" b = Ok s /\ get_iter c fs "options" b = Ok s.
Proof.
  intros c n fs h b I1 I2 BO NW. destruct (message_options c n fs h b I1 I2 BO NW) as (H1 & H2 & _). exact (conj H1 H2).
Qed.

Lemma checked_size : forall n, 0 <= n < 256 -> units_checked n -> mul_u Checked 8 n 8 = Ok (octets_checked n).
Proof.
  intros n N G. unfold units_checked, octets_checked, mul_u, ovf in *. change (2 ^ 8) with 256.
  replace ((0 <=? n * 8) && (n * 8 <? 256)) with true by lia. f_equal. lia.
Qed.
Lemma checked_over : forall n, 0 <= n < 256 -> ~ units_checked n -> mul_u Checked 8 n 8 = Panic EOverflow.
Proof.
  intros n N G. unfold units_checked, mul_u, ovf in *. change (2 ^ 8) with 256.
  now replace ((0 <=? n * 8) && (n * 8 <? 256)) with false by lia.
Qed.
Lemma wrapped_size : forall n, 0 <= n < 256 -> units_wrapped n -> mul_u Wrapping 8 n 8 = Ok (octets_wrapped n).
Proof.
  intros n N _. unfold octets_wrapped, mul_u, ovf in *. change (2 ^ 8) with 256.
  destruct ((0 <=? n * 8) && (n * 8 <? 256)) eqn:Q; f_equal; lia.
Qed.

Theorem ndp_checked : forall c n fs h b, In (n, fs) (crate_schemas c) -> In (n, h) ndp_messages ->
  c_mode c = Checked -> buf_ok b -> new fs b = Some b ->
  let s := skipn (Z.to_nat h) b in
  (forall l, get c fs "options" b = Ok (VPkts l) <-> ndp_opts octets_checked units_checked s l) /\
  (get c fs "options" b = Panic EOverflow <-> ndp_bad octets_checked units_checked s) /\
  ((exists l, ndp_opts octets_checked units_checked s l) \/ ndp_bad octets_checked units_checked s) /\
  (from_packet c fs b = Panic EOverflow <-> ndp_bad octets_checked units_checked s) /\
  (debug_values c fs b = Panic EOverflow <-> ndp_bad octets_checked units_checked s) /\
  (iter_all (sem_of c (ndp_option c)) (fun x => Ok x) s = Panic EOverflow <-> ndp_bad octets_checked units_checked s).
Proof.
  intros c n fs h b I1 I2 M BO NW s.
  destruct (message_options c n fs h b I1 I2 BO NW) as (_ & _ & GO & hs & ds & FP & DV). fold s in GO.
  assert (BS : buf_ok s) by now apply buf_ok_skipn.
  destruct (ndp_exact c octets_checked units_checked) with (s := s) as (E1 & E2 & E3 & E4); auto.
  { intros k. unfold units_checked. lia. }
  { rewrite M. apply checked_size. }
  { rewrite M. apply checked_over. }
  destruct E4 as [(l & R & w & W)|R].
  - rewrite R in GO, E1, E2. cbn [rmap] in GO. rewrite W in *. rewrite GO in *. cbn [bind] in FP, DV. rewrite FP, DV.
    assert (OL : ndp_opts octets_checked units_checked s l) by now apply E1.
    assert (NB : ~ ndp_bad octets_checked units_checked s) by (intros X; apply E2 in X; discriminate).
    split; [|split; [|split; [|split; [|split]]]]; try (split; [discriminate|intros X; contradiction]); eauto.
    intros l'. rewrite <- E1. split; congruence.
  - assert (NB : ndp_bad octets_checked units_checked s) by now apply E2.
    rewrite R in GO, E1. cbn [rmap] in GO. rewrite GO in *. cbn [bind] in FP, DV. rewrite FP, DV.
    split; [|split; [|split; [|split; [|split]]]]; try tauto.
    intros l'. rewrite <- E1. split; congruence.
Qed.

Theorem ndp_wrapping : forall c n fs h b, In (n, fs) (crate_schemas c) -> In (n, h) ndp_messages ->
  c_mode c = Wrapping -> buf_ok b -> new fs b = Some b ->
  let s := skipn (Z.to_nat h) b in
  (forall l, get c fs "options" b = Ok (VPkts l) <-> ndp_opts octets_wrapped units_wrapped s l) /\
  (exists l, ndp_opts octets_wrapped units_wrapped s l) /\
  (exists xs, from_packet c fs b = Ok xs) /\ (exists xs, debug_values c fs b = Ok xs).
Proof.
  intros c n fs h b I1 I2 M BO NW s.
  destruct (message_options c n fs h b I1 I2 BO NW) as (_ & _ & GO & hs & ds & FP & DV). fold s in GO.
  assert (BS : buf_ok s) by now apply buf_ok_skipn.
  assert (GD : forall k, units_wrapped k \/ ~ units_wrapped k) by (intros k; left; exact I).
  assert (SZ : forall n, 0 <= n < 256 -> units_wrapped n -> mul_u (c_mode c) 8 n 8 = Ok (octets_wrapped n))
    by (rewrite M; apply wrapped_size).
  assert (OV : forall n, 0 <= n < 256 -> ~ units_wrapped n -> mul_u (c_mode c) 8 n 8 = Panic EOverflow)
    by (intros k _ X; exfalso; apply X; exact I).
  destruct (ndp_exact c octets_wrapped units_wrapped GD SZ OV s BS) as (E1 & E2 & _ & E4).
  destruct E4 as [(l & R & _)|R].
  - rewrite R in GO, E1. cbn [rmap] in GO. rewrite GO in *. cbn [bind] in FP, DV. rewrite FP, DV.
    split; [|split; [|split]]; eauto.
    + intros l'. rewrite <- E1. split; congruence.
    + exists l. now apply E1.
  - exfalso. apply E2 in R. clear -R. induction R as [t k r G|]; [apply G; exact I|auto].
Qed.

Theorem ndp_read_back : forall c n fs h hd os, In (n, fs) (crate_schemas c) -> In (n, h) ndp_messages ->
  bytes_ok hd -> blen hd = h -> Forall ndp_good os -> let b := hd ++ concat (map ndp_bytes os) in blen b < 2 ^ 63 ->
  new fs b = Some b /\ get c fs "options" b = Ok (VPkts (map ndp_struct os)).
Proof.
  intros c n fs h hd os I1 I2 BH LH F b LB.
  assert (BC : bytes_ok (concat (map ndp_bytes os))).
  { clear -F. unfold bytes_ok. induction F as [|((t & n) & d) os (T & N & B & L) F IH]; cbn [map concat]; [constructor|].
    cbn [ndp_bytes app]. constructor; [exact T|]. constructor; [unfold byte_ok; lia|]. apply Forall_app. auto. }
  assert (BO : buf_ok b) by (split; [apply Forall_app; split; auto|exact LB]).
  assert (NW : new fs b = Some b).
  { assert (X : forallb (fun s => forallb (fun r => negb (String.eqb (fst s) (fst r)) ||
        (minimum_packet_size (snd s) =? snd r)) ndp_messages) (crate_schemas c) = true) by reflexivity.
    rewrite forallb_forall in X. specialize (X _ I1). cbn [fst snd] in X. rewrite forallb_forall in X. specialize (X _ I2).
    cbn [fst snd] in X. rewrite String.eqb_refl in X. cbn [negb orb] in X. unfold new.
    replace (minimum_packet_size fs <=? blen b) with true; [reflexivity|].
    unfold b, blen in *. rewrite app_length. lia. }
  split; [exact NW|].
  assert (SK : skipn (Z.to_nat h) b = concat (map ndp_bytes os)).
  { unfold b. replace (Z.to_nat h) with (length hd) by (unfold blen in LH; lia). now rewrite skipn_app, skipn_all, Nat.sub_diag. }
  destruct (c_mode c) eqn:M.
  - apply (ndp_checked c n fs h b I1 I2 M BO NW). rewrite SK. apply ndp_wellformed; auto.
    intros k K. unfold units_checked, octets_checked. lia.
  - apply (ndp_wrapping c n fs h b I1 I2 M BO NW). rewrite SK. apply ndp_wellformed; auto.
    intros k K. unfold units_wrapped, octets_wrapped. split; [exact I|]. lia.
Qed.

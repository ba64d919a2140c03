(** Whole packets of the crate's protocols: struct to bytes and back, bytes to
    struct and back. *)
From Coq Require Import String ZArith List Bool Lia ZifyBool ZifyNat.
From Verif Require Import Base BitSpec DeriveUtil DeriveOps BaseFacts BitFacts
  DeriveUtilProofs DeriveOpsProofs DeriveLEProofs DeriveGen SpecPacket DeriveGenProofs DeriveInvProofs
  DeriveAccProofs DeriveVarProofs DeriveApiProofs DerivePropProofs DerivePropProofs2 Protocols ProtoFacts
  SpecProto SpecStruct DeriveStructProofs ProtoPayloadProofs ProtoSplitProofs ProtoLayoutProofs ProtoOptionProofs.
Import ListNotations.
Open Scope Z_scope.
Ltac Zify.zify_post_hook ::= Z.to_euclidean_division_equations.

Section P.
Variable c : cfg.
Let h := c_host_le c.

(** ** Declared lengths are small *)

Lemma get_fixed_shape : forall fs k f b v w, nth_error fs k = Some f -> scoped [] fs ->
  f_ty f = TPrim (Prim w Big) -> Forall (fun g => f_len g = None) (firstn k fs) ->
  supported (header_bits (firstn k fs)) w -> header_bits (firstn k fs) < 2 ^ 65 -> buf_ok b ->
  get c fs (f_name f) b = Ok v -> exists z, v = VInt z /\ 0 <= z < 2 ^ w.
Proof.
  intros fs k f b v w N S T NL SP U BO G.
  apply nth_error_split in N. destruct N as (l1 & l2 & E & K).
  assert (EP : firstn k fs = l1).
  { rewrite E, <- K, firstn_app, Nat.sub_diag, firstn_all. cbn [firstn]. apply app_nil_r. }
  rewrite EP in *.
  assert (P := pos_header (fun n => get c fs n b) b l1 0 0 NL).
  replace (0 + header_bits l1 + 8 * 0) with (header_bits l1) in P by lia.
  assert (X := get_int c fs l1 f l2 w b (header_bits l1) S E T BO P SP U).
  rewrite G in X. destruct (header_bits l1 + w <=? 8 * blen b); [|discriminate].
  injection X as ->. eexists. split; [reflexivity|].
  eapply (get_range c fs l1 f l2 w b (header_bits l1)); eauto.
Qed.

Ltac hr fs k w S b BO G z R :=
  let f := eval hnf in (nth_error fs k) in
  match f with
  | Some ?f =>
    match type of G with get _ _ _ _ = Ok ?v =>
      let X := fresh in
      assert (X := get_fixed_shape fs k f b v w eq_refl S eq_refl ltac:(nolen) ltac:(vm_compute; intuition discriminate)
        ltac:(vm_compute; reflexivity) BO G);
      destruct X as (z & -> & R)
    end
  end.

Lemma mul8_range : forall m a b n, mul_u m 8 a b = Ok n -> 0 <= n < 256.
Proof.
  intros m a b n H. unfold mul_u, ovf in H. change (2 ^ 8) with 256 in H.
  destruct ((0 <=? a * b) && (a * b <? 256)) eqn:Q; [injection H as <-; lia|].
  destruct m; [discriminate|]. injection H as <-. lia.
Qed.
Lemma len_int_inv : forall e n f (r : res buf) x, len_of_int n f e r = Ok x ->
  exists z, int_of (e n) = Ok z /\ x = f z.
Proof.
  intros e n f r x H. unfold len_of_int in H. destruct (int_of (e n)) as [z|] eqn:Q; [|discriminate].
  injection H as <-. eauto.
Qed.
Lemma len_int_get : forall fs n f (r : res buf) x b, len_of_int n f (fun m => get c fs m b) r = Ok x ->
  exists v, get c fs n b = Ok v /\ exists z, int_of (Ok v) = Ok z /\ x = f z.
Proof.
  intros fs n f r x b H. apply len_int_inv in H. destruct H as (z & E & ->).
  destruct (get c fs n b) as [v|]; [|discriminate]. eauto.
Qed.

(** Case split over the fields of a description; [FL] is about its attribute. *)
Ltac fields IN FL :=
  unfold ethernet, vlan, arp, ipv4_option, ipv4, ipv6, extension, routing, fragment, udp, tcp_option, tcp,
    gre_u16, gre_u32, gre, icmp, echo_reply, echo_request, destination_unreachable, time_exceeded, icmpv6,
    ndp_option, router_solicit, router_advert, neighbor_solicit, neighbor_advert, redirect in IN;
  cbn [In] in IN;
  repeat (destruct IN as [<-|IN]); [..|contradiction IN];
  cbn [f_len int one mac ip4 ip6 fld vfld pfld pall] in FL; try discriminate FL; injection FL as <-.

Ltac small_hdr fs k w S zz :=
  match goal with
  | BO : buf_ok ?b, E : len_of_int _ _ _ _ = Ok _ |- _ =>
    apply len_int_get in E; destruct E as (v & G & z & Z1 & ->);
    let R := fresh "R" in hr fs k w S b BO G zz R; cbn [int_of bind] in Z1; injection Z1 as <-
  end.

Lemma const_small : forall (e : env) (r : res buf) n, len_const 0 e r = Ok n -> 0 <= n < 2 ^ 32.
Proof. intros e r n E. injection E as <-. lia. Qed.

Lemma gre_lens_small : lens_small c (gre c).
Proof.
  intros b f le r n BO IN FL E. unfold gre in IN. fields IN FL; cbv beta delta [gre_two gre_four] in E.
  - destruct (int_of _) in E; [|discriminate]. cbn [bind] in E. destruct (int_of _) in E; [|discriminate].
    apply mul8_range in E. lia.
  - destruct (int_of _) in E; [|discriminate]. cbn [bind] in E. destruct (int_of _) in E; [|discriminate].
    apply mul8_range in E. lia.
  - destruct (int_of _) in E; [|discriminate]. apply mul8_range in E. lia.
  - destruct (int_of _) in E; [|discriminate]. apply mul8_range in E. lia.
  - destruct (int_of _) in E; [|discriminate]. cbn [bind] in E. destruct (_ =? 0); [|discriminate].
    injection E as <-. lia.
Qed.

Lemma ndp_lens_small : lens_small c (ndp_option c).
Proof.
  intros b f le r n BO IN FL E. fields IN FL; cbv beta in E.
  destruct (int_of _) in E; [|discriminate]. cbn [bind] in E.
  destruct (mul_u _ _ _ _) eqn:M in E; [|discriminate]. apply mul8_range in M.
  injection E as <-. unfold sat_sub. lia.
Qed.

Lemma tcp_opt_lens_small : lens_small c tcp_option.
Proof.
  intros b f le r n BO IN FL E. fields IN FL.
  - apply len_int_get in E. destruct E as (v & _ & z & _ & ->). unfold tcp_option_length.
    destruct ((z =? 0) || (z =? 1)); lia.
  - cbv beta in E. destruct (get c tcp_option "length" b) as [v|] eqn:G; [|discriminate].
    destruct b as [|x t]; [vm_compute in G; discriminate|].
    assert (BX : byte_ok x) by (destruct BO as [B _]; now inversion B).
    destruct (byte_field x t BX) as (F1 & _).
    assert (NW : new tcp_option (x :: t) = Some (x :: t)).
    { unfold new. change (minimum_packet_size tcp_option) with 1. unfold blen. cbn [length].
      now replace (1 <=? Z.of_nat (S (length t))) with true by lia. }
    hg1 c (x :: t) BO tcp_option 0%nat 8 tcp_option_scoped NW GN. rewrite F1 in GN.
    destruct (option_facts c tcp_option 1 "number" (vfld "length" bytes_ty (len_of_int "number" tcp_option_length))
      (pfld "data" (fun e _ => rmap tcp_option_payload_length (bytes_of (e "length"%string))))
      tcp_option_length tcp_option_payload_length x (x :: t)) as (GL & _ & _);
      auto using tcp_option_scoped, payf_tcp; try reflexivity.
    + nolen.
    + unfold blen. cbn [length]. lia.
    + unfold tcp_option_length. destruct ((x =? 0) || (x =? 1)); lia.
    + rewrite GL in G. injection G as <-. cbn [bytes_of bind rmap] in E. injection E as <-.
      apply payf_tcp. apply bytes_clip, BO.
Qed.

Lemma ipv4_opt_lens_small : lens_small c ipv4_option.
Proof.
  intros b f le r n BO IN FL E. fields IN FL.
  - apply len_int_get in E. destruct E as (v & _ & z & _ & ->). unfold ipv4_option_length.
    destruct ((z =? 0) || (z =? 1)); lia.
  - cbv beta in E. destruct (get c ipv4_option "length" b) as [v|] eqn:G; [|discriminate].
    destruct b as [|x t]; [vm_compute in G; discriminate|].
    assert (BX : byte_ok x) by (destruct BO as [B _]; now inversion B).
    destruct (byte_field x t BX) as (_ & F1 & F2 & F3).
    assert (NW : new ipv4_option (x :: t) = Some (x :: t)).
    { unfold new. change (minimum_packet_size ipv4_option) with 1. unfold blen. cbn [length].
      now replace (1 <=? Z.of_nat (S (length t))) with true by lia. }
    hg1 c (x :: t) BO ipv4_option 2%nat 5 ipv4_option_scoped NW GN. rewrite F3 in GN.
    destruct (option_facts c ipv4_option 3 "number" (vfld "length" bytes_ty (len_of_int "number" ipv4_option_length))
      (pfld "data" (fun e _ => rmap ipv4_option_payload_length (bytes_of (e "length"%string))))
      ipv4_option_length ipv4_option_payload_length (x mod 32) (x :: t)) as (GL & _ & _);
      auto using ipv4_option_scoped, payf_ipv4; try reflexivity.
    + nolen.
    + unfold blen. cbn [length]. lia.
    + unfold ipv4_option_length. destruct ((x mod 32 =? 0) || (x mod 32 =? 1)); lia.
    + rewrite GL in G. injection G as <-. cbn [bytes_of bind rmap] in E. injection E as <-.
      apply payf_ipv4. apply bytes_clip, BO.
Qed.

Lemma tcp_lens_small : lens_small c (tcp c).
Proof.
  intros b f le r n BO IN FL E. fields IN FL.
  small_hdr (tcp c) 4%nat 4 (tcp_scoped c) zz. unfold tcp_options_length. destruct (5 <? zz) eqn:Q; lia.
Qed.

Lemma ipv4_lens_small : lens_small c (ipv4 c).
Proof.
  intros b f le r n BO IN FL E. fields IN FL.
  - small_hdr (ipv4 c) 1%nat 4 (ipv4_scoped c) zz. unfold ipv4_options_length, sat_sub. lia.
  - cbv beta in E. destruct (get c (ipv4 c) "total_length" b) as [v|] eqn:G1; [|discriminate].
    destruct (get c (ipv4 c) "header_length" b) as [v2|] eqn:G2.
    + hr (ipv4 c) 4%nat 16 (ipv4_scoped c) b BO G1 t R1. hr (ipv4 c) 1%nat 4 (ipv4_scoped c) b BO G2 hl R2.
      cbn [int_of bind] in E. injection E as <-. unfold ipv4_payload_length, sat_sub. lia.
    + destruct v; cbn in E; try discriminate E.
      destruct l as [|? [|? ?]]; discriminate E.
Qed.

Lemma crate_lens_small : forall n fs, In (n, fs) (crate_schemas c) -> lens_small c fs.
Proof.
  intros n fs IN. unfold crate_schemas in IN. cbn [In] in IN.
  repeat (destruct IN as [IN|IN]; [injection IN as <- <-|]); [..|contradiction IN];
    auto using gre_lens_small, ndp_lens_small, tcp_opt_lens_small, ipv4_opt_lens_small, tcp_lens_small, ipv4_lens_small;
    intros b f le r m BO IN FL E; fields IN FL;
    try (eapply const_small; exact E).
  - small_hdr ipv6 3%nat 16 ipv6_scoped zz. lia.
  - small_hdr extension 1%nat 8 extension_scoped zz. unfold ipv6_extension_length. lia.
  - small_hdr routing 1%nat 8 routing_scoped zz. unfold routing_extension_length. lia.
Qed.

(** ** Packets inside packets *)

Let none_e : string -> list val -> buf := fun _ _ => [].
Let none_w : string -> list val -> Prop := fun _ _ => False.

Lemma schema_ok_inner : forall (P Q : string -> pkt_sem -> Prop) fs bit, schema_ok h P fs bit ->
  (forall f k, In f fs -> f_ty f = TVecPkt k -> Q (f_name f) k) -> schema_ok h Q fs bit.
Proof.
  intros P Q fs. induction fs as [|f fs IH]; intros bit H I; [exact Logic.I|]. cbn [schema_ok] in *.
  destruct H as [H1 H2]. split.
  - destruct (f_ty f) eqn:T; auto. destruct H1 as [_ H1]. split; [|auto]. apply I; [now left|auto].
  - apply IH; auto. intros g k IN T. apply I; [now right|auto].
Qed.

Lemma elem_flat : forall n fs, In (n, fs) (crate_schemas c) ->
  In n ["Ipv4Option"; "TcpOption"; "U16BE"; "U32BE"; "NdpOption"]%string ->
  forall f k, In f fs -> f_ty f = TVecPkt k -> False.
Proof.
  intros n fs IN NM f k IF T. unfold crate_schemas in IN. cbn [In] in IN.
    repeat (destruct IN as [IN|IN]; [injection IN as <- <-|]); [..|contradiction IN];
      try (exfalso; cbn [In] in NM; intuition discriminate);
      cbn [In ipv4_option tcp_option gre_u16 gre_u32 ndp_option] in IF;
      repeat (destruct IF as [<-|IF]); try contradiction IF; discriminate T.
Qed.

Lemma elem_facts : forall n fs, In (n, fs) (crate_schemas c) ->
  In n ["Ipv4Option"; "TcpOption"; "U16BE"; "U32BE"; "NdpOption"]%string ->
  codec (sem_of c fs) (wire none_e c fs) (struct_ok none_e none_w c fs) /\
  decodable (sem_of c fs) (wire none_e c fs) (struct_ok none_e none_w c fs).
Proof.
  intros n fs IN NM.
  destruct (crate_well_formed c n fs IN) as (S & OK & LP). assert (LS := crate_lens_small n fs IN).
  assert (NP := elem_flat n fs IN NM).
  assert (ST : closed fs /\ header_bits fs mod 8 = 0 /\ 0 < header_bits fs < 2 ^ 32 /\ Z.of_nat (length fs) < 2 ^ 16).
  { clear S OK LP LS NP. unfold crate_schemas in IN. cbn [In] in IN.
    repeat (destruct IN as [IN|IN]; [injection IN as <- <-|]); [..|contradiction IN];
      try (exfalso; cbn [In] in NM; intuition discriminate);
      (split; [|vm_compute; auto]); unfold closed; repeat constructor; discriminate. }
  destruct ST as (CL & M & HB & FL). split.
  - apply struct_codec; auto; [|lia]. eapply schema_ok_inner; [exact OK|]. intros f k IF T. destruct (NP f k IF T).
  - apply struct_decodable; auto. eapply schema_ok_inner; [exact OK|]. intros f k IF T. exact (NP f k IF T).
Qed.

Lemma elem_known : forall n fs f k, In (n, fs) (crate_schemas c) -> In f fs -> f_ty f = TVecPkt k ->
  exists m, In (m, elem_schema c n (f_name f)) (crate_schemas c) /\
      In m ["Ipv4Option"; "TcpOption"; "U16BE"; "U32BE"; "NdpOption"]%string /\
      k = sem_of c (elem_schema c n (f_name f)).
Proof.
  intros n fs f k IN IF T.
  unfold crate_schemas in IN. cbn [In] in IN.
    repeat (destruct IN as [IN|IN]; [injection IN as <- <-|]); [..|contradiction IN];
      unfold ethernet, vlan, arp, ipv4_option, ipv4, ipv6, extension, routing, fragment, udp, tcp_option, tcp,
        gre_u16, gre_u32, gre, icmp, echo_reply, echo_request, destination_unreachable, time_exceeded, icmpv6,
        ndp_option, router_solicit, router_advert, neighbor_solicit, neighbor_advert, redirect in IF;
      cbn [In] in IF;
      repeat (destruct IF as [<-|IF]); try contradiction IF; try discriminate T;
      injection T as <-; cbn [f_name vfld fld]; unfold elem_schema; cbn [String.eqb Ascii.eqb Bool.eqb orb].
    all: first [ exists "Ipv4Option"%string; split; [now (unfold crate_schemas; cbn [In]; tauto)|split; [cbn [In]; tauto|reflexivity]]
               | exists "TcpOption"%string; split; [now (unfold crate_schemas; cbn [In]; tauto)|split; [cbn [In]; tauto|reflexivity]]
               | exists "U16BE"%string; split; [now (unfold crate_schemas; cbn [In]; tauto)|split; [cbn [In]; tauto|reflexivity]]
               | exists "U32BE"%string; split; [now (unfold crate_schemas; cbn [In]; tauto)|split; [cbn [In]; tauto|reflexivity]]
               | exists "NdpOption"%string; split; [now (unfold crate_schemas; cbn [In]; tauto)|split; [cbn [In]; tauto|reflexivity]] ].
Qed.

Lemma elem_sound : forall n fs f k, In (n, fs) (crate_schemas c) -> In f fs -> f_ty f = TVecPkt k ->
  codec k (elem_wire c n (f_name f)) (elem_ok c n (f_name f)) /\
  decodable k (elem_wire c n (f_name f)) (elem_ok c n (f_name f)).
Proof.
  intros n fs f k IN IF T.
  destruct (elem_known n fs f k IN IF T) as (m & I1 & I2 & ->). apply (elem_facts m); auto.
Qed.

Lemma crate_header : forall n fs, In (n, fs) (crate_schemas c) ->
  header_bits fs mod 8 = 0 /\ 0 < header_bits fs < 2 ^ 32 /\ Z.of_nat (length fs) < 2 ^ 16.
Proof.
  intros n fs IN. unfold crate_schemas in IN. cbn [In] in IN.
  repeat (destruct IN as [IN|IN]; [injection IN as <- <-; vm_compute; auto|]). contradiction IN.
Qed.

(** ** Whole packets *)

Theorem crate_roundtrip : forall n fs xs b, In (n, fs) (crate_schemas c) ->
  packet_ok c n fs xs -> buf_ok b -> blen b = blen (packet_wire c n fs xs) ->
  populate c fs xs b = (packet_wire c n fs xs, Ok tt) /\ from_packet c fs (packet_wire c n fs xs) = Ok xs.
Proof.
  intros n fs xs b IN OK BO L. destruct (crate_well_formed c n fs IN) as (S & SO & LP).
  destruct (crate_header n fs IN) as (M & _ & _).
  apply struct_roundtrip with (iw := elem_ok c n); auto.
  eapply schema_ok_inner; [exact SO|]. intros f k IF T. now apply (elem_sound n fs).
Qed.

Theorem crate_rebuild : forall n fs b b0 xs m, In (n, fs) (crate_schemas c) ->
  buf_ok b -> buf_ok b0 -> length b0 = length b ->
  from_packet c fs b = Ok xs -> vecs_tile c fs b -> packet_size c fs b = Ok m -> m <= blen b ->
  packet_ok c n fs xs /\
  populate c fs xs b0 =
    (if forallb (fun f => negb (is_vec (f_ty f)) || match f_len f with Some _ => true | None => false end) fs
     then firstn (Z.to_nat m) b ++ skipn (Z.to_nat m) b0 else b, Ok tt).
Proof.
  intros n fs b b0 xs m IN BO BO0 L FP VT PS ML. destruct (crate_well_formed c n fs IN) as (S & SO & LP).
  destruct (crate_header n fs IN) as (M & HB & FL).
  assert (OK : schema_ok h (fun m k => decodable k (elem_wire c n m) (elem_ok c n m) /\ codec k (elem_wire c n m) (elem_ok c n m)) fs 0).
  { eapply schema_ok_inner; [exact SO|]. intros f k IF T. destruct (elem_sound n fs f k IN IF T). auto. }
  exact (struct_rebuild c (elem_wire c n) (elem_ok c n) fs b b0 xs m S OK LP (crate_lens_small n fs IN) M HB FL BO BO0 L FP VT PS ML).
Qed.
End P.

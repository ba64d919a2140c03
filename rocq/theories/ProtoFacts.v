(** Static facts about the descriptions of Protocols.v and the header getters
    they give rise to. *)
From Coq Require Import String ZArith List Bool Lia ZifyBool ZifyNat.
From Verif Require Import Base BitSpec DeriveUtil DeriveOps BaseFacts BitFacts
  DeriveUtilProofs DeriveOpsProofs DeriveLEProofs DeriveGen SpecPacket DeriveGenProofs DeriveInvProofs
  DeriveAccProofs DeriveVarProofs DeriveApiProofs DerivePropProofs Protocols.
Import ListNotations.
Open Scope Z_scope.
Ltac Zify.zify_post_hook ::= Z.to_euclidean_division_equations.

(** ** Header getters by index *)

Section Header.
Variable c : cfg.
Let h := c_host_le c.

Lemma header_nth : forall fs k f, nth_error fs k = Some f ->
  Forall (fun g => f_len g = None) (firstn k fs) -> fixed_ok h (header_bits (firstn k fs)) (f_ty f) ->
  header_field h fs (f_name f) (firstn k fs) f.
Proof.
  intros fs k f N F O. split; [|auto].
  apply nth_error_split in N. destruct N as (l1 & l2 & -> & <-).
  exists l2. rewrite firstn_app, Nat.sub_diag, firstn_all. cbn [firstn]. now rewrite app_nil_r.
Qed.

Lemma header_int : forall fs k f w b, nth_error fs k = Some f -> f_ty f = TPrim (Prim w Big) ->
  scoped [] fs -> Forall (fun g => f_len g = None) (firstn k fs) ->
  supported (header_bits (firstn k fs)) w -> buf_ok b -> new fs b = Some b ->
  get c fs (f_name f) b = Ok (VInt (field_val b (Z.to_nat (header_bits (firstn k fs))) (Z.to_nat w))).
Proof.
  intros fs k f w b N T S F SP BO NW.
  rewrite (api_get_header c fs (f_name f) (firstn k fs) f b); auto.
  - rewrite T. reflexivity.
  - apply header_nth; auto. rewrite T. cbn [fixed_ok]. apply big_place. exact SP.
Qed.

Lemma header_one : forall fs k f w b, nth_error fs k = Some f -> f_ty f = TMisc [Prim w Big] ->
  scoped [] fs -> Forall (fun g => f_len g = None) (firstn k fs) ->
  supported (header_bits (firstn k fs)) w -> buf_ok b -> new fs b = Some b ->
  get c fs (f_name f) b = Ok (VTup [field_val b (Z.to_nat (header_bits (firstn k fs))) (Z.to_nat w)]).
Proof.
  intros fs k f w b N T S F SP BO NW.
  rewrite (api_get_header c fs (f_name f) (firstn k fs) f b); auto.
  - rewrite T. cbn [dec_fixed dec_args bit_width widths p_size]. unfold dec_prim. cbn [p_end big_endian].
    replace (w + 0) with w by lia. unfold field_val. do 4 f_equal.
    unfold field_bits. rewrite firstn_firstn, Nat.min_id. reflexivity.
  - apply header_nth; auto. rewrite T. cbn [fixed_ok places_ok]. split; [|auto]. apply big_place. exact SP.
Qed.

End Header.

(** ** Static facts, by computation *)

Ltac reads_tac :=
  let e := fresh in let e' := fresh in let r := fresh in let H := fresh in
  intros e e' r H;
  cbv beta delta [len_const len_of_int gre_two gre_four];
  repeat match goal with
         | |- context [e ?n] => rewrite (H n) by (cbn [In app]; tauto)
         end; reflexivity.

Ltac notin := cbn [In app f_name]; intuition discriminate.

Ltac scoped_tac :=
  repeat (cbn [scoped app f_len f_name f_ty fld vfld pfld pall int one mac ip4 ip6];
          match goal with
          | |- True => exact I
          | |- _ /\ _ => split
          | |- reads _ _ => reads_tac
          | |- 0 <= bit_width _ => vm_compute; discriminate
          | |- ~ In _ _ => notin
          end).

Lemma ethernet_scoped : scoped [] ethernet. Proof. unfold ethernet. scoped_tac. Qed.
Lemma vlan_scoped : scoped [] vlan. Proof. unfold vlan. scoped_tac. Qed.
Lemma arp_scoped : scoped [] arp. Proof. unfold arp. scoped_tac. Qed.
Lemma ipv4_option_scoped : scoped [] ipv4_option. Proof. unfold ipv4_option. scoped_tac. Qed.
Lemma ipv6_scoped : scoped [] ipv6. Proof. unfold ipv6. scoped_tac. Qed.
Lemma extension_scoped : scoped [] extension. Proof. unfold extension. scoped_tac. Qed.
Lemma routing_scoped : scoped [] routing. Proof. unfold routing. scoped_tac. Qed.
Lemma fragment_scoped : scoped [] fragment. Proof. unfold fragment. scoped_tac. Qed.
Lemma udp_scoped : scoped [] udp. Proof. unfold udp. scoped_tac. Qed.
Lemma tcp_option_scoped : scoped [] tcp_option. Proof. unfold tcp_option. scoped_tac. Qed.
Lemma gre_u16_scoped : scoped [] gre_u16. Proof. unfold gre_u16. scoped_tac. Qed.
Lemma gre_u32_scoped : scoped [] gre_u32. Proof. unfold gre_u32. scoped_tac. Qed.
Lemma icmp_scoped : scoped [] icmp. Proof. unfold icmp. scoped_tac. Qed.
Lemma echo_reply_scoped : scoped [] echo_reply. Proof. unfold echo_reply. scoped_tac. Qed.
Lemma echo_request_scoped : scoped [] echo_request. Proof. unfold echo_request. scoped_tac. Qed.
Lemma destination_unreachable_scoped : scoped [] destination_unreachable. Proof. unfold destination_unreachable. scoped_tac. Qed.
Lemma time_exceeded_scoped : scoped [] time_exceeded. Proof. unfold time_exceeded. scoped_tac. Qed.
Lemma icmpv6_scoped : scoped [] icmpv6. Proof. unfold icmpv6. scoped_tac. Qed.
Lemma ipv4_scoped : forall c, scoped [] (ipv4 c). Proof. intros. unfold ipv4. scoped_tac. Qed.
Lemma tcp_scoped : forall c, scoped [] (tcp c). Proof. intros. unfold tcp. scoped_tac. Qed.
Lemma gre_scoped : forall c, scoped [] (gre c). Proof. intros. unfold gre. scoped_tac. Qed.
Lemma ndp_option_scoped : forall c, scoped [] (ndp_option c). Proof. intros. unfold ndp_option. scoped_tac. Qed.
Lemma router_solicit_scoped : forall c, scoped [] (router_solicit c). Proof. intros. unfold router_solicit. scoped_tac. Qed.
Lemma router_advert_scoped : forall c, scoped [] (router_advert c). Proof. intros. unfold router_advert. scoped_tac. Qed.
Lemma neighbor_solicit_scoped : forall c, scoped [] (neighbor_solicit c). Proof. intros. unfold neighbor_solicit. scoped_tac. Qed.
Lemma neighbor_advert_scoped : forall c, scoped [] (neighbor_advert c). Proof. intros. unfold neighbor_advert. scoped_tac. Qed.
Lemma redirect_scoped : forall c, scoped [] (redirect c). Proof. intros. unfold redirect. scoped_tac. Qed.

Ltac place_tac := unfold place_ok; cbn [p_size p_end u big_endian]; split; lia.
Ltac ok_tac :=
  repeat (cbn [schema_ok places_ok app repeat f_len f_name f_ty fld vfld pfld pall int one mac ip4 ip6
               bytes_ty fixed_bits args_bits fold_right];
          match goal with
          | |- True => exact I
          | |- _ /\ _ => split
          | |- place_ok _ _ _ => place_tac
          | |- None = None => reflexivity
          | |- None = None -> _ => intros _
          | |- Some _ = None -> _ => discriminate
          | |- [] = [] => reflexivity
          | |- p_size _ = 8 => reflexivity
          | |- _ mod 8 = 0 => cbn [p_size u]; lia
          end).

Lemma ethernet_ok : forall h, schema_ok h (fun _ _ => True) ethernet 0. Proof. intros. unfold ethernet. ok_tac. Qed.
Lemma vlan_ok : forall h, schema_ok h (fun _ _ => True) vlan 0. Proof. intros. unfold vlan. ok_tac. Qed.
Lemma arp_ok : forall h, schema_ok h (fun _ _ => True) arp 0. Proof. intros. unfold arp. ok_tac. Qed.
Lemma ipv4_option_ok : forall h, schema_ok h (fun _ _ => True) ipv4_option 0. Proof. intros. unfold ipv4_option. ok_tac. Qed.
Lemma ipv6_ok : forall h, schema_ok h (fun _ _ => True) ipv6 0. Proof. intros. unfold ipv6. ok_tac. Qed.
Lemma extension_ok : forall h, schema_ok h (fun _ _ => True) extension 0. Proof. intros. unfold extension. ok_tac. Qed.
Lemma routing_ok : forall h, schema_ok h (fun _ _ => True) routing 0. Proof. intros. unfold routing. ok_tac. Qed.
Lemma fragment_ok : forall h, schema_ok h (fun _ _ => True) fragment 0. Proof. intros. unfold fragment. ok_tac. Qed.
Lemma udp_ok : forall h, schema_ok h (fun _ _ => True) udp 0. Proof. intros. unfold udp. ok_tac. Qed.
Lemma tcp_option_ok : forall h, schema_ok h (fun _ _ => True) tcp_option 0. Proof. intros. unfold tcp_option. ok_tac. Qed.
Lemma gre_u16_ok : forall h, schema_ok h (fun _ _ => True) gre_u16 0. Proof. intros. unfold gre_u16. ok_tac. Qed.
Lemma gre_u32_ok : forall h, schema_ok h (fun _ _ => True) gre_u32 0. Proof. intros. unfold gre_u32. ok_tac. Qed.
Lemma icmp_ok : forall h, schema_ok h (fun _ _ => True) icmp 0. Proof. intros. unfold icmp. ok_tac. Qed.
Lemma echo_reply_ok : forall h, schema_ok h (fun _ _ => True) echo_reply 0. Proof. intros. unfold echo_reply. ok_tac. Qed.
Lemma echo_request_ok : forall h, schema_ok h (fun _ _ => True) echo_request 0. Proof. intros. unfold echo_request. ok_tac. Qed.
Lemma destination_unreachable_ok : forall h, schema_ok h (fun _ _ => True) destination_unreachable 0. Proof. intros. unfold destination_unreachable. ok_tac. Qed.
Lemma time_exceeded_ok : forall h, schema_ok h (fun _ _ => True) time_exceeded 0. Proof. intros. unfold time_exceeded. ok_tac. Qed.
Lemma icmpv6_ok : forall h, schema_ok h (fun _ _ => True) icmpv6 0. Proof. intros. unfold icmpv6. ok_tac. Qed.
Lemma ipv4_ok : forall h c, schema_ok h (fun _ _ => True) (ipv4 c) 0. Proof. intros. unfold ipv4. ok_tac. Qed.
Lemma tcp_ok : forall h c, schema_ok h (fun _ _ => True) (tcp c) 0. Proof. intros. unfold tcp. ok_tac. Qed.
Lemma gre_ok : forall h c, schema_ok h (fun _ _ => True) (gre c) 0. Proof. intros. unfold gre. ok_tac. Qed.
Lemma ndp_option_ok : forall h c, schema_ok h (fun _ _ => True) (ndp_option c) 0. Proof. intros. unfold ndp_option. ok_tac. Qed.
Lemma router_solicit_ok : forall h c, schema_ok h (fun _ _ => True) (router_solicit c) 0. Proof. intros. unfold router_solicit. ok_tac. Qed.
Lemma router_advert_ok : forall h c, schema_ok h (fun _ _ => True) (router_advert c) 0. Proof. intros. unfold router_advert. ok_tac. Qed.
Lemma neighbor_solicit_ok : forall h c, schema_ok h (fun _ _ => True) (neighbor_solicit c) 0. Proof. intros. unfold neighbor_solicit. ok_tac. Qed.
Lemma neighbor_advert_ok : forall h c, schema_ok h (fun _ _ => True) (neighbor_advert c) 0. Proof. intros. unfold neighbor_advert. ok_tac. Qed.
Lemma redirect_ok : forall h c, schema_ok h (fun _ _ => True) (redirect c) 0. Proof. intros. unfold redirect. ok_tac. Qed.

(** The claims above for the whole crate. *)
Definition well_formed (h : bool) (fs : schema) : Prop :=
  scoped [] fs /\ schema_ok h (fun _ _ => True) fs 0 /\ lens_plain fs.

Ltac plain_tac :=
  unfold lens_plain; repeat constructor; cbn [f_len fld vfld pfld pall int one mac ip4 ip6];
  try exact I; intros ? ? ?; reflexivity.

Lemma ethernet_plain : lens_plain ethernet. Proof. unfold ethernet. plain_tac. Qed.
Lemma vlan_plain : lens_plain vlan. Proof. unfold vlan. plain_tac. Qed.
Lemma arp_plain : lens_plain arp. Proof. unfold arp. plain_tac. Qed.
Lemma ipv4_option_plain : lens_plain ipv4_option. Proof. unfold ipv4_option. plain_tac. Qed.
Lemma ipv6_plain : lens_plain ipv6. Proof. unfold ipv6. plain_tac. Qed.
Lemma extension_plain : lens_plain extension. Proof. unfold extension. plain_tac. Qed.
Lemma routing_plain : lens_plain routing. Proof. unfold routing. plain_tac. Qed.
Lemma fragment_plain : lens_plain fragment. Proof. unfold fragment. plain_tac. Qed.
Lemma udp_plain : lens_plain udp. Proof. unfold udp. plain_tac. Qed.
Lemma tcp_option_plain : lens_plain tcp_option. Proof. unfold tcp_option. plain_tac. Qed.
Lemma gre_u16_plain : lens_plain gre_u16. Proof. unfold gre_u16. plain_tac. Qed.
Lemma gre_u32_plain : lens_plain gre_u32. Proof. unfold gre_u32. plain_tac. Qed.
Lemma icmp_plain : lens_plain icmp. Proof. unfold icmp. plain_tac. Qed.
Lemma echo_reply_plain : lens_plain echo_reply. Proof. unfold echo_reply. plain_tac. Qed.
Lemma echo_request_plain : lens_plain echo_request. Proof. unfold echo_request. plain_tac. Qed.
Lemma destination_unreachable_plain : lens_plain destination_unreachable. Proof. unfold destination_unreachable. plain_tac. Qed.
Lemma time_exceeded_plain : lens_plain time_exceeded. Proof. unfold time_exceeded. plain_tac. Qed.
Lemma icmpv6_plain : lens_plain icmpv6. Proof. unfold icmpv6. plain_tac. Qed.
Lemma ipv4_plain : forall c, lens_plain (ipv4 c). Proof. intros. unfold ipv4. plain_tac. Qed.
Lemma tcp_plain : forall c, lens_plain (tcp c). Proof. intros. unfold tcp. plain_tac. Qed.
Lemma gre_plain : forall c, lens_plain (gre c). Proof. intros. unfold gre. plain_tac. Qed.
Lemma ndp_option_plain : forall c, lens_plain (ndp_option c). Proof. intros. unfold ndp_option. plain_tac. Qed.
Lemma router_solicit_plain : forall c, lens_plain (router_solicit c). Proof. intros. unfold router_solicit. plain_tac. Qed.
Lemma router_advert_plain : forall c, lens_plain (router_advert c). Proof. intros. unfold router_advert. plain_tac. Qed.
Lemma neighbor_solicit_plain : forall c, lens_plain (neighbor_solicit c). Proof. intros. unfold neighbor_solicit. plain_tac. Qed.
Lemma neighbor_advert_plain : forall c, lens_plain (neighbor_advert c). Proof. intros. unfold neighbor_advert. plain_tac. Qed.
Lemma redirect_plain : forall c, lens_plain (redirect c). Proof. intros. unfold redirect. plain_tac. Qed.

Lemma crate_well_formed : forall c n fs, In (n, fs) (crate_schemas c) -> well_formed (c_host_le c) fs.
Proof.
  intros c n fs IN. unfold crate_schemas in IN. cbn [In] in IN. unfold well_formed.
  repeat (destruct IN as [IN|IN]; [inversion IN; subst; clear IN|]); try easy;
    auto using ethernet_scoped, ethernet_ok, ethernet_plain;
    auto using vlan_scoped, vlan_ok, vlan_plain;
    auto using arp_scoped, arp_ok, arp_plain;
    auto using ipv4_option_scoped, ipv4_option_ok, ipv4_option_plain;
    auto using ipv6_scoped, ipv6_ok, ipv6_plain;
    auto using extension_scoped, extension_ok, extension_plain;
    auto using routing_scoped, routing_ok, routing_plain;
    auto using fragment_scoped, fragment_ok, fragment_plain;
    auto using udp_scoped, udp_ok, udp_plain;
    auto using tcp_option_scoped, tcp_option_ok, tcp_option_plain;
    auto using gre_u16_scoped, gre_u16_ok, gre_u16_plain;
    auto using gre_u32_scoped, gre_u32_ok, gre_u32_plain;
    auto using icmp_scoped, icmp_ok, icmp_plain;
    auto using echo_reply_scoped, echo_reply_ok, echo_reply_plain;
    auto using echo_request_scoped, echo_request_ok, echo_request_plain;
    auto using destination_unreachable_scoped, destination_unreachable_ok, destination_unreachable_plain;
    auto using time_exceeded_scoped, time_exceeded_ok, time_exceeded_plain;
    auto using icmpv6_scoped, icmpv6_ok, icmpv6_plain;
    auto using ipv4_scoped, ipv4_ok, ipv4_plain;
    auto using tcp_scoped, tcp_ok, tcp_plain;
    auto using gre_scoped, gre_ok, gre_plain;
    auto using ndp_option_scoped, ndp_option_ok, ndp_option_plain;
    auto using router_solicit_scoped, router_solicit_ok, router_solicit_plain;
    auto using router_advert_scoped, router_advert_ok, router_advert_plain;
    auto using neighbor_solicit_scoped, neighbor_solicit_ok, neighbor_solicit_plain;
    auto using neighbor_advert_scoped, neighbor_advert_ok, neighbor_advert_plain;
    auto using redirect_scoped, redirect_ok, redirect_plain.
Qed.

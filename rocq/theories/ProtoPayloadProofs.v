(** payload() of the crate's protocols never panics. *)
From Coq Require Import String ZArith List Bool Lia ZifyBool ZifyNat.
From Verif Require Import Base BitSpec DeriveUtil DeriveOps BaseFacts BitFacts
  DeriveUtilProofs DeriveOpsProofs DeriveLEProofs DeriveGen SpecPacket DeriveGenProofs DeriveInvProofs
  DeriveAccProofs DeriveVarProofs DeriveApiProofs DerivePropProofs Protocols ProtoFacts.
Import ListNotations.
Open Scope Z_scope.
Ltac Zify.zify_post_hook ::= Z.to_euclidean_division_equations.

Lemma pos_header : forall G b pre bit acc, Forall (fun g => f_len g = None) pre ->
  pos_after G b pre bit acc (bit + header_bits pre + 8 * acc).
Proof.
  intros G b pre. induction pre as [|f pre IH]; intros bit acc F; cbn [pos_after header_bits]; [lia|].
  inversion F; subst. rewrite H1. specialize (IH (bit + bit_width (f_ty f)) acc H2).
  now replace (bit + (bit_width (f_ty f) + header_bits pre)) with (bit + bit_width (f_ty f) + header_bits pre) by lia.
Qed.

Section Payload.
Variable c : cfg.

(** payload() returns the bytes of the payload field. *)
Definition payload_good (fs : schema) (b : buf) : Prop :=
  exists pre f post pos len, fs = pre ++ f :: post /\ f_payload f = true /\
    pos_after (fun n => get c fs n b) b pre 0 0 pos /\
    own_len (fun n => get c fs n b) b (pos / 8) f len /\ 0 <= len /\
    payload c fs b = Ok (clip b (pos / 8) len).

Lemma payload_at_pos : forall fs pre f post b pos len, scoped [] fs -> fs = pre ++ f :: post ->
  f_payload f = true -> forallb (fun g => negb (f_payload g)) pre = true -> buf_ok b ->
  pos_after (fun n => get c fs n b) b pre 0 0 pos ->
  own_len (fun n => get c fs n b) b (pos / 8) f len -> 0 <= len -> pos < 2 ^ 65 -> len < 2 ^ 63 ->
  payload_good fs b.
Proof.
  intros fs pre f post b pos len S E PF FP BO P OL L U UL.
  exists pre, f, post, pos, len. repeat (split; [auto|]).
  apply (api_payload c b fs pre f post pos len); auto; [|lia].
  rewrite forallb_forall in FP. apply Forall_forall. intros g IN. apply FP in IN. now destruct (f_payload g).
Qed.

Lemma payload_header : forall fs k f b len, nth_error fs k = Some f -> scoped [] fs ->
  f_payload f = true -> forallb (fun g => negb (f_payload g)) (firstn k fs) = true ->
  Forall (fun g => f_len g = None) (firstn k fs) -> header_bits (firstn k fs) < 2 ^ 60 -> buf_ok b ->
  own_len (fun n => get c fs n b) b (header_bits (firstn k fs) / 8) f len -> 0 <= len < 2 ^ 63 ->
  payload_good fs b.
Proof.
  intros fs k f b len N S PF FP FL HB BO OL L.
  assert (NS := N). apply nth_error_split in NS. destruct NS as (l1 & l2 & E & K).
  assert (EP : firstn k fs = l1).
  { rewrite E, <- K, firstn_app, Nat.sub_diag, firstn_all. cbn [firstn]. apply app_nil_r. }
  rewrite EP in *.
  apply (payload_at_pos fs l1 f l2 b (header_bits l1) len); auto; try lia.
  assert (X := pos_header (fun n => get c fs n b) b l1 0 0 FL).
  now replace (0 + header_bits l1 + 8 * 0) with (header_bits l1) in X by lia.
Qed.

End Payload.

Ltac nolen := repeat constructor.

(** The getter of the [k]-th field, an integer of the header. *)
Ltac hint c fs k w b S BO NW G V :=
  let f := eval hnf in (nth_error fs k) in
  match f with
  | Some ?f =>
    assert (G := header_int c fs k f w b eq_refl eq_refl S ltac:(nolen) ltac:(vm_compute; intuition discriminate) BO NW);
    assert (V := field_val_bound c b (Z.to_nat (header_bits (firstn k fs))) (Z.to_nat w));
    set (field_val b (Z.to_nat (header_bits (firstn k fs))) (Z.to_nat w)) in G, V;
    cbn [f_name int fld] in G
  end.
Ltac hone c fs k w b S BO NW G V :=
  let f := eval hnf in (nth_error fs k) in
  match f with
  | Some ?f =>
    assert (G := header_one c fs k f w b eq_refl eq_refl S ltac:(nolen) ltac:(vm_compute; intuition discriminate) BO NW);
    assert (V := field_val_bound c b (Z.to_nat (header_bits (firstn k fs))) (Z.to_nat w));
    set (field_val b (Z.to_nat (header_bits (firstn k fs))) (Z.to_nat w)) in G, V;
    cbn [f_name one fld] in G
  end.

Section Crate.
Variable c : cfg.
Variable b : buf.
Hypothesis BO : buf_ok b.

Ltac simple fs k S :=
  let f := eval hnf in (nth_error fs k) in
  match f with
  | Some ?f =>
    apply (payload_header c fs k f b (blen b)); [reflexivity|apply S|reflexivity|reflexivity|nolen|vm_compute; reflexivity|exact BO|reflexivity|destruct BO; unfold blen in *; lia]
  end.
Ltac const0 fs k S :=
  let f := eval hnf in (nth_error fs k) in
  match f with
  | Some ?f =>
    apply (payload_header c fs k f b 0); [reflexivity|apply S|reflexivity|reflexivity|nolen|vm_compute; reflexivity|exact BO|reflexivity|lia]
  end.

Lemma ethernet_payload : payload_good c ethernet b. Proof. simple ethernet 3%nat ethernet_scoped. Qed.
Lemma vlan_payload : payload_good c vlan b. Proof. simple vlan 4%nat vlan_scoped. Qed.
Lemma udp_payload : payload_good c udp b. Proof. simple udp 4%nat udp_scoped. Qed.
Lemma icmp_payload : payload_good c icmp b. Proof. simple icmp 3%nat icmp_scoped. Qed.
Lemma echo_reply_payload : payload_good c echo_reply b. Proof. simple echo_reply 5%nat echo_reply_scoped. Qed.
Lemma echo_request_payload : payload_good c echo_request b. Proof. simple echo_request 5%nat echo_request_scoped. Qed.
Lemma destination_unreachable_payload : payload_good c destination_unreachable b.
Proof. simple destination_unreachable 4%nat destination_unreachable_scoped. Qed.
Lemma time_exceeded_payload : payload_good c time_exceeded b.
Proof. simple time_exceeded 4%nat time_exceeded_scoped. Qed.
Lemma icmpv6_payload : payload_good c icmpv6 b. Proof. simple icmpv6 3%nat icmpv6_scoped. Qed.
Lemma arp_payload : payload_good c arp b. Proof. const0 arp 9%nat arp_scoped. Qed.
Lemma fragment_payload : payload_good c fragment b. Proof. const0 fragment 4%nat fragment_scoped. Qed.
Lemma gre_u16_payload : payload_good c gre_u16 b. Proof. const0 gre_u16 1%nat gre_u16_scoped. Qed.
Lemma gre_u32_payload : payload_good c gre_u32 b. Proof. const0 gre_u32 1%nat gre_u32_scoped. Qed.
Lemma router_solicit_payload : payload_good c (router_solicit c) b.
Proof. const0 (router_solicit c) 4%nat router_solicit_scoped. Qed.
Lemma router_advert_payload : payload_good c (router_advert c) b.
Proof. const0 (router_advert c) 8%nat router_advert_scoped. Qed.
Lemma neighbor_solicit_payload : payload_good c (neighbor_solicit c) b.
Proof. const0 (neighbor_solicit c) 5%nat neighbor_solicit_scoped. Qed.
Lemma neighbor_advert_payload : payload_good c (neighbor_advert c) b.
Proof. const0 (neighbor_advert c) 6%nat neighbor_advert_scoped. Qed.
Lemma redirect_payload : payload_good c (redirect c) b.
Proof. const0 (redirect c) 6%nat redirect_scoped. Qed.

Lemma new_min : forall fs, new fs b = Some b -> minimum_packet_size fs <= blen b.
Proof. intros fs. unfold new. destruct (minimum_packet_size fs <=? blen b) eqn:Q; [lia|discriminate]. Qed.

Ltac intlen fs k S hk w g :=
  let NW := fresh in intros NW;
  let G := fresh "G" in let V := fresh "V" in
  hint c fs hk w b S BO NW G V;
  let f := eval hnf in (nth_error fs k) in
  match f with
  | Some ?f =>
    match type of G with
    | _ = Ok (VInt ?z) =>
      apply (payload_header c fs k f b (g z)); [reflexivity|apply S|reflexivity|reflexivity|nolen|vm_compute; reflexivity|exact BO| |];
      [unfold own_len; cbn [f_len pfld]; unfold len_of_int, int_of; rewrite G; reflexivity
      |cbv delta [ipv6_extension_length routing_extension_length] beta; change (2 ^ Z.of_nat (Z.to_nat w)) with (2 ^ w) in V; lia]
    end
  end.

Lemma ipv6_payload : new ipv6 b = Some b -> payload_good c ipv6 b.
Proof. intlen ipv6 8%nat ipv6_scoped 3%nat 16 (fun n : Z => n). Qed.
Lemma extension_payload : new extension b = Some b -> payload_good c extension b.
Proof. intlen extension 2%nat extension_scoped 1%nat 8 ipv6_extension_length. Qed.
Lemma routing_payload : new routing b = Some b -> payload_good c routing b.
Proof. intlen routing 4%nat routing_scoped 1%nat 8 routing_extension_length. Qed.

Lemma ndp_option_payload : new (ndp_option c) b = Some b ->
  (forall v, get c (ndp_option c) "length" b = Ok (VInt v) -> c_mode c = Checked -> v < 32) ->
  payload_good c (ndp_option c) b.
Proof.
  intros NW ML. hint c (ndp_option c) 1%nat 8 b (ndp_option_scoped c) BO NW G V.
  change (2 ^ Z.of_nat (Z.to_nat 8)) with 256 in V.
  assert (X : exists x, mul_u (c_mode c) 8 z 8 = Ok x /\ 0 <= x < 256).
  { unfold mul_u, ovf. change (2 ^ 8) with 256. specialize (ML _ G). destruct (c_mode c).
    - specialize (ML eq_refl). exists (z * 8). replace ((0 <=? z * 8) && (z * 8 <? 256)) with true by lia. split; [reflexivity|lia].
    - destruct ((0 <=? z * 8) && (z * 8 <? 256)) eqn:Q; [exists (z * 8); split; [reflexivity|lia]|].
      exists ((z * 8) mod 256). split; [reflexivity|]. apply Z.mod_pos_bound. lia. }
  destruct X as (x & MX & XB).
  let f := eval hnf in (nth_error (ndp_option c) 2) in
  match f with Some ?f => apply (payload_header c (ndp_option c) 2 f b (sat_sub x 2)) end;
    [reflexivity|apply ndp_option_scoped|reflexivity|reflexivity|nolen|vm_compute; reflexivity|exact BO| |].
  - unfold own_len. cbn [f_len pfld]. unfold int_of. rewrite G. cbn [bind]. rewrite MX. reflexivity.
  - unfold sat_sub. lia.
Qed.

(** Options of IPv4 and TCP: a length byte that may be missing. *)
Lemma option_payload : forall fs k num w lf df (lenf : Z -> Z) (payf : buf -> Z) z,
  fs = firstn k fs ++ [lf; df] -> scoped [] fs ->
  Forall (fun g => f_len g = None) (firstn k fs) -> forallb (fun g => negb (f_payload g)) (firstn k fs) = true ->
  header_bits (firstn k fs) = 8 ->
  f_name lf = "length"%string -> f_ty lf = bytes_ty -> f_len lf = Some (len_of_int num lenf) -> f_payload lf = false ->
  f_payload df = true -> f_ty df = bytes_ty ->
  f_len df = Some (fun e _ => rmap payf (bytes_of (e "length"%string))) ->
  get c fs num b = Ok (VTup [z]) -> 1 <= blen b ->
  0 <= lenf z <= 1 -> (forall l, bytes_ok l -> 0 <= payf l < 2 ^ 32) -> w = lenf z ->
  payload_good c fs b /\ get c fs "length" b = Ok (VBytes (clip b 1 w)).
Proof.
  intros fs k num w lf df lenf payf z E S NL NP HB LN LT LL LP DP DT DL G B1 LB PB EW. subst w.
  assert (P1 : pos_after (fun n => get c fs n b) b (firstn k fs) 0 0 8).
  { assert (X := pos_header (fun n => get c fs n b) b (firstn k fs) 0 0 NL).
    now replace (0 + header_bits (firstn k fs) + 8 * 0) with 8 in X by lia. }
  assert (LV : forall r, len_of_int num lenf (fun n => get c fs n b) r = Ok (lenf z)).
  { intros r. unfold len_of_int, int_of. rewrite G. reflexivity. }
  assert (GL : get c fs "length" b = Ok (VBytes (clip b 1 (lenf z)))).
  { destruct (api_get_var c b fs (firstn k fs) lf [df] 8 (lenf z)) as (_ & _ & X); auto; try lia.
    { unfold own_len. rewrite LL. apply LV. }
    rewrite LT in X. unfold bytes_ty in X. rewrite LN in X. rewrite X by reflexivity.
    change (8 / 8) with 1. now replace (1 <=? blen b) with true by lia. }
  split; [|exact GL].
  apply (payload_at_pos c fs (firstn k fs ++ [lf]) df [] b (8 + 8 * lenf z) (payf (clip b 1 (lenf z)))); auto; try lia.
  - rewrite <- app_assoc. exact E.
  - rewrite forallb_app, NP. cbn [forallb]. now rewrite LP.
  - apply (pos_after_app c). exists 0. split.
    { now replace (0 + header_bits (firstn k fs) + 8 * (0 + 0)) with 8 by lia. }
    cbn [pos_after]. rewrite LL. exists (lenf z). split; [lia|]. split; [apply LV|].
    rewrite LT. cbn [bit_width bytes_ty]. lia.
  - unfold own_len. rewrite DL, GL. reflexivity.
  - apply PB. apply bytes_clip. apply BO.
  - assert (X := PB (clip b 1 (lenf z)) (bytes_clip _ _ _ (proj1 BO))). lia.
Qed.

Lemma payf_ipv4 : forall l, bytes_ok l -> 0 <= ipv4_option_payload_length l < 2 ^ 32.
Proof. intros [|x l] H; cbn [ipv4_option_payload_length]; [lia|]. inversion H; subst. unfold byte_ok, sat_sub in *. lia. Qed.
Lemma payf_tcp : forall l, bytes_ok l -> 0 <= tcp_option_payload_length l < 2 ^ 32.
Proof. intros [|x l] H; cbn [tcp_option_payload_length]; [lia|]. inversion H; subst. unfold byte_ok in *. destruct (2 <=? x) eqn:Q; lia. Qed.

Lemma ipv4_option_payload : new ipv4_option b = Some b -> payload_good c ipv4_option b.
Proof.
  intros NW. assert (M := new_min _ NW). change (minimum_packet_size ipv4_option) with 1 in M.
  hone c ipv4_option 2%nat 5 b ipv4_option_scoped BO NW G V.
  eapply (option_payload ipv4_option 3 "number" _ _ _ ipv4_option_length ipv4_option_payload_length z);
    try reflexivity; auto using ipv4_option_scoped, payf_ipv4; [nolen|].
  unfold ipv4_option_length. destruct ((z =? 0) || (z =? 1)); lia.
Qed.
Lemma tcp_option_payload : new tcp_option b = Some b -> payload_good c tcp_option b.
Proof.
  intros NW. assert (M := new_min _ NW). change (minimum_packet_size tcp_option) with 1 in M.
  hone c tcp_option 0%nat 8 b tcp_option_scoped BO NW G V.
  eapply (option_payload tcp_option 1 "number" _ _ _ tcp_option_length tcp_option_payload_length z);
    try reflexivity; auto using tcp_option_scoped, payf_tcp; [nolen|].
  unfold tcp_option_length. destruct ((z =? 0) || (z =? 1)); lia.
Qed.

Lemma ipv4_payload : new (ipv4 c) b = Some b -> payload_good c (ipv4 c) b.
Proof.
  intros NW.
  hint c (ipv4 c) 1%nat 4 b (ipv4_scoped c) BO NW G V.
  hint c (ipv4 c) 4%nat 16 b (ipv4_scoped c) BO NW G2 V2.
  change (2 ^ Z.of_nat (Z.to_nat 4)) with 16 in V. change (2 ^ Z.of_nat (Z.to_nat 16)) with 65536 in V2.
  let f := eval hnf in (nth_error (ipv4 c) 14) in
  match f with Some ?f =>
    apply (payload_at_pos c (ipv4 c) (firstn 14 (ipv4 c)) f [] b (160 + 8 * ipv4_options_length z) (ipv4_payload_length z0 z)) end;
    auto using ipv4_scoped; try (unfold ipv4_options_length, ipv4_payload_length, sat_sub; lia).
  - cbn [firstn ipv4 pos_after f_len int one ip4 fld vfld f_ty].
    exists (ipv4_options_length z). split; [unfold ipv4_options_length, sat_sub; lia|].
    split; [|cbn [bit_width]; vm_compute bit_width; cbn; lia].
    unfold len_of_int, int_of. rewrite G. reflexivity.
  - unfold own_len. cbn [f_len pfld]. unfold int_of. rewrite G, G2. reflexivity.
Qed.

Lemma tcp_payload : new (tcp c) b = Some b -> payload_good c (tcp c) b.
Proof.
  intros NW.
  hint c (tcp c) 4%nat 4 b (tcp_scoped c) BO NW G V.
  change (2 ^ Z.of_nat (Z.to_nat 4)) with 16 in V.
  assert (TL : 0 <= tcp_options_length z <= 40) by (unfold tcp_options_length; destruct (5 <? z) eqn:Q; lia).
  let f := eval hnf in (nth_error (tcp c) 11) in
  match f with Some ?f =>
    apply (payload_at_pos c (tcp c) (firstn 11 (tcp c)) f [] b (160 + 8 * tcp_options_length z) (blen b)) end;
    auto using tcp_scoped; try lia; try (destruct BO; unfold blen in *; lia).
  - cbn [firstn tcp pos_after f_len int one ip4 fld vfld f_ty].
    exists (tcp_options_length z). split; [lia|].
    split; [|cbn; lia].
    unfold len_of_int, int_of. rewrite G. reflexivity.
  - reflexivity.
Qed.

Lemma gre_payload : new (gre c) b = Some b ->
  get c (gre c) "routing_present" b = Ok (VInt 0) -> payload_good c (gre c) b.
Proof.
  intros NW RP.
  hint c (gre c) 0%nat 1 b (gre_scoped c) BO NW G V.
  hint c (gre c) 2%nat 1 b (gre_scoped c) BO NW G2 V2.
  hint c (gre c) 3%nat 1 b (gre_scoped c) BO NW G3 V3.
  change (2 ^ Z.of_nat (Z.to_nat 1)) with 2 in *.
  assert (M2 : forall r, gre_two c (fun n => get c (gre c) n b) r = Ok (z * 2)).
  { intros r. unfold gre_two, int_of. rewrite G, RP. cbn [bind]. rewrite Z.lor_0_r.
    unfold mul_u, ovf. change (2 ^ 8) with 256. replace ((0 <=? z * 2) && (z * 2 <? 256)) with true by lia. reflexivity. }
  assert (M4 : forall r, gre_four c "key_present" (fun n => get c (gre c) n b) r = Ok (z0 * 4)).
  { intros r. unfold gre_four, int_of. rewrite G2. cbn [bind].
    unfold mul_u, ovf. change (2 ^ 8) with 256. replace ((0 <=? z0 * 4) && (z0 * 4 <? 256)) with true by lia. reflexivity. }
  assert (M5 : forall r, gre_four c "sequence_present" (fun n => get c (gre c) n b) r = Ok (z1 * 4)).
  { intros r. unfold gre_four, int_of. rewrite G3. cbn [bind].
    unfold mul_u, ovf. change (2 ^ 8) with 256. replace ((0 <=? z1 * 4) && (z1 * 4 <? 256)) with true by lia. reflexivity. }
  let f := eval hnf in (nth_error (gre c) 14) in
  match f with Some ?f =>
    apply (payload_at_pos c (gre c) (firstn 14 (gre c)) f [] b (32 + 8 * (z * 2 + z * 2 + z0 * 4 + z1 * 4)) (blen b)) end;
    auto using gre_scoped; try lia; try (destruct BO; unfold blen in *; lia).
  - cbn [firstn gre pos_after f_len int one ip4 fld vfld f_ty].
    exists (z * 2). split; [lia|]. split; [apply M2|].
    exists (z * 2). split; [lia|]. split; [apply M2|].
    exists (z0 * 4). split; [lia|]. split; [apply M4|].
    exists (z1 * 4). split; [lia|]. split; [apply M5|].
    exists 0. split; [lia|]. split; [unfold int_of; rewrite RP; reflexivity|].
    cbn [bit_width p_size u bytes_ty]. lia.
  - reflexivity.
Qed.

End Crate.

Theorem crate_payload : forall c n fs b, In (n, fs) (crate_schemas c) -> buf_ok b -> new fs b = Some b ->
  (n = "NdpOption"%string -> forall v, get c fs "length" b = Ok (VInt v) -> c_mode c = Checked -> v < 32) ->
  (n = "Gre"%string -> get c fs "routing_present" b = Ok (VInt 0)) ->
  payload_good c fs b.
Proof.
  intros c n fs b IN BO NW ND GR. unfold crate_schemas in IN. cbn [In] in IN.
  repeat (destruct IN as [IN|IN]; [inversion IN; subst; clear IN|]); try easy.
  - now apply ethernet_payload.
  - now apply vlan_payload.
  - now apply arp_payload.
  - now apply ipv4_option_payload.
  - now apply ipv4_payload.
  - now apply ipv6_payload.
  - now apply extension_payload.
  - now apply routing_payload.
  - now apply fragment_payload.
  - now apply udp_payload.
  - now apply tcp_option_payload.
  - now apply tcp_payload.
  - now apply gre_u16_payload.
  - now apply gre_u32_payload.
  - apply gre_payload; auto.
  - now apply icmp_payload.
  - now apply echo_reply_payload.
  - now apply echo_request_payload.
  - now apply destination_unreachable_payload.
  - now apply time_exceeded_payload.
  - now apply icmpv6_payload.
  - apply ndp_option_payload; auto.
  - now apply router_solicit_payload.
  - now apply router_advert_payload.
  - now apply neighbor_solicit_payload.
  - now apply neighbor_advert_payload.
  - now apply redirect_payload.
Qed.

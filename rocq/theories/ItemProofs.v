(** The struct declarations and the packet descriptions of the model agree. *)
From Coq Require Import String Ascii ZArith List Bool Lia ZifyBool ZifyNat.
From Verif Require Import Base BaseFacts DeriveUtil DeriveOps DeriveGen DeriveParse Protocols Quic FmtText
  RustLex RustSyntax RustItem RustSem CrateText SpecSource SpecItem SourceTac SourceProofs.
Import ListNotations.
Open Scope string_scope.
Open Scope Z_scope.
Ltac Zify.zify_post_hook ::= Z.to_euclidean_division_equations.

Lemma env_field : forall fs e n f v, env_fits fs e -> find (fun f => String.eqb n (f_name f)) fs = Some f ->
  e n = Ok v -> val_fits (f_ty f) v.
Proof.
  intros fs e n f v E F V. destruct (find_some _ _ F) as [I Q]. apply String.eqb_eq in Q. subst n. exact (E f v I V).
Qed.
Definition ll c rounds mo ps e r l :=
  level (c_mode c) crate_const (len_fun c rounds mo ps e r) (len_sig mo ps) crate_hint rounds (Some Usize) l.
Lemma ll_S : forall c r mo ps e b l w x s k, ll c r mo ps e b (S l) w x s k =
  ev (c_mode c) crate_const (len_fun c r mo ps e b) (len_sig mo ps) crate_hint r (Some Usize) (ll c r mo ps e b l) run_depth w x s k.
Proof. reflexivity. Qed.
Lemma run_length_ll : forall c rounds mo ps tokens e r x, read_expr (flat_map with_rest tokens) = Some x ->
  run_length c rounds mo ps tokens e r = ll c rounds mo ps e r 5 None (XCast x "usize") [("self", VSelf)] (fun v _ => Done v).
Proof. intros. unfold run_length, ll. rewrite H. reflexivity. Qed.

Ltac lgo := cbv -[Z.add Z.sub Z.mul add_u sub_u mul_u Z.land Z.lor cast_u blen zeq cmp_z sat_sub is_nil head proj
  linked c_mode take_int take_bytes take_obj lift negb ll].
Ltac read_len :=
  lazymatch goal with
  | |- run_length ?c ?rounds ?mo ?ps ?t ?e ?r = _ =>
    let x := eval vm_compute in (read_expr (flat_map with_rest t)) in
    lazymatch x with
    | Some ?x =>
      let R := fresh "R" in
      assert (R : read_expr (flat_map with_rest t) = Some x) by (vm_compute; reflexivity);
      rewrite (run_length_ll c rounds mo ps t e r x R); clear R; rewrite ll_S; etransitivity; [lgo; reflexivity |]
    end
  end.

Ltac tidy := cbn [take_int take_bytes take_obj lift bind rmap int_of bytes_of ity_eqb String.eqb Ascii.eqb Bool.eqb andb fst snd].
Ltac env_step H :=
  match type of H with
  | env_fits ?fs ?e =>
    match goal with
    | |- context [e ?x] =>
      let T := eval lazy in (match find (fun f => String.eqb x (f_name f)) fs with Some f => Some (f_ty f) | None => None end) in
      match T with
      | Some ?T =>
        let V := fresh "V" in let E := fresh "E" in let v := fresh "v" in
        assert (V : forall v, e x = Ok v -> val_fits T v) by
          (let v := fresh in let W := fresh in intros v W; exact (env_field fs e x _ v H eq_refl W));
        destruct (e x) as [v |] eqn:E;
        [ specialize (V v eq_refl); destruct v; cbn [val_fits] in V; try contradiction | clear V; tidy; try reflexivity ]
      end
    end
  end.

(** What the called functions give is a [usize]. *)
Lemma varint_length_range : forall b z, bytes_ok b -> varint_length b = Ok z -> 0 <= z < 2 ^ 64.
Proof.
  intros [| x b] z B H; [discriminate |]. injection H as <-. pose proof (Forall_inv B) as X. red in X.
  destruct (shift_len x X) as (l & -> & C & _). pows. lia.
Qed.
Lemma varint_range : forall b z, bytes_ok b -> varint b = Ok z -> 0 <= z < 2 ^ 64.
Proof.
  intros [| x b] z B H; [discriminate |]. injection H as <-. pose proof (Forall_inv B) as X. red in X.
  pose proof (Forall_inv_tail B) as T. clear B.
  assert (L : 0 <= Z.land x 63 < 2 ^ 64).
  { change 63 with (Z.ones 6). rewrite Z.land_ones by lia. pows. change (2 ^ 6) with 64. lia. }
  revert L. generalize (Z.land x 63). induction b as [| y b IH]; intros a A; [exact A |].
  pose proof (Forall_inv T) as Y. red in Y. cbn [fold_left]. apply (IH (Forall_inv_tail T)).
  unfold varint_step, cast_u. rewrite Z.shiftl_mul_pow2 by lia. pows. lia.
Qed.
Lemma n_varints_range : forall n b z, buf_ok b -> n_varints n b = Ok z -> 0 <= z < 2 ^ 64.
Proof.
  intros n b z [B L]. unfold n_varints.
  assert (G : forall f n b z, n_varints_loop f n b = Ok z -> 0 <= z <= blen b).
  { clear. induction f as [| f IH]; intros n b z H; cbn [n_varints_loop] in H.
    - destruct (n <=? 0); [injection H as <-; unfold blen; lia | discriminate].
    - destruct (n <=? 0); [injection H as <-; unfold blen; lia |]. destruct b as [| x b]; [discriminate |].
      set (l := Z.shiftl 1 (Z.shiftr x 6)) in *. assert (0 <= l) by (unfold l; apply Z.shiftl_nonneg; lia).
      destruct (l <=? blen (x :: b)) eqn:Q; [| discriminate].
      destruct (n_varints_loop f (n - 1) (skipn (Z.to_nat l) (x :: b))) eqn:R; [| discriminate]. injection H as <-.
      apply IH in R. unfold blen in *. rewrite skipn_length in R. lia. }
  intros H. apply G in H. pows. lia.
Qed.
Ltac model_len := unfold len_of_int, len_const, len_varint, len_of_varint, len_n_varints, len_packet_number, len_frames, gre_two, gre_four, ty_of.
Ltac prims := repeat (first [apply Forall2_nil | apply Forall2_cons]); eexists; reflexivity.
Ltac same_ty := lazymatch goal with
  | |- same_type _ _ _ _ _ _ => first [ eexists; reflexivity | eexists; split; [reflexivity | eexists; reflexivity] | split; [reflexivity | prims] |
        eexists; split; [reflexivity |]; split; [unfold all_packets, crate_schemas; cbn [app]; repeat (first [left; reflexivity | right]) | reflexivity]]
  end.

Ltac facts :=
  repeat match goal with
  | H : Forall2 _ (_ :: _) _ |- _ => inversion H; subst; clear H
  | H : Forall2 _ [] _ |- _ => inversion H; subst; clear H
  end; cbn [p_size u] in *.
Ltac range := pows; cbn [p_size] in *; unfold buf_ok in *; try lia; try tauto; try (split; lia).
Ltac small :=
  unfold ipv4_options_length, ipv4_payload_length, ipv4_option_length, ipv4_option_payload_length,
    ipv6_extension_length, routing_extension_length, tcp_options_length, tcp_option_length, tcp_option_payload_length, sat_sub, blen in *;
  repeat match goal with
  | |- context [match ?l with [] => _ | _ :: _ => _ end] =>
      destruct l; [| match goal with H : buf_ok _ |- _ => pose proof (Forall_inv (proj1 H)); unfold byte_ok in * end]
  | |- context [if ?q then _ else _] => destruct q eqn:?
  end; unfold buf_ok, blen in *; range.
Ltac as_usize := rewrite cast_fits by small; reflexivity.
Ltac resolve_calls c rounds :=
  repeat (first [
    match goal with |- context [linked c rounds 5 "quic" "varint_length" [VA (Some U8) ?b]] =>
      let H := fresh "G" in let Q := fresh "Q" in let z := fresh "z" in
      assert (H : bytes_ok b) by (unfold buf_ok in *; tauto); call (varint_length_src c rounds 4 b H);
      destruct (varint_length b) as [z |] eqn:Q; [apply (varint_length_range b z H) in Q |] end
  | match goal with |- context [linked c rounds 5 "quic" "varint" [VA (Some U8) ?b]] =>
      let H := fresh "G" in let Q := fresh "Q" in let z := fresh "z" in
      assert (H : bytes_ok b) by (unfold buf_ok in *; tauto); call (varint_src c rounds 4 b H);
      destruct (varint b) as [z |] eqn:Q; [apply (varint_range b z H) in Q |] end
  | match goal with |- context [linked c rounds 5 "quic" "n_varints" [VI _ ?n; VA (Some U8) ?b]] =>
      let H := fresh "G" in let N := fresh "N" in let Q := fresh "Q" in let z := fresh "z" in
      assert (H : buf_ok b) by assumption; assert (N : 0 <= n < 2 ^ 64) by range;
      call (n_varints_src c rounds 4 n b H N);
      destruct (n_varints n b) as [z |] eqn:Q; [apply (n_varints_range n b z H) in Q |] end
  | match goal with |- context [linked c rounds 5 "ipv4" "ipv4_options_length" [VI _ ?n]] =>
      let H := fresh "G" in assert (H : 0 <= n < 256) by range; call (ipv4_options_length_src c rounds 4 n H) end
  | match goal with |- context [linked c rounds 5 "ipv4" "ipv4_payload_length" [VI _ ?t; VI _ ?n]] =>
      let H := fresh "G" in let J := fresh "G" in assert (H : 0 <= n < 256) by range;
      assert (J : 0 <= t < 65536) by range; call (ipv4_payload_length_src c rounds 4 t n J H) end
  | match goal with |- context [linked c rounds 5 "ipv4" "ipv4_option_length" [VC _ _ [?n]]] =>
      call (ipv4_option_length_src c rounds 4 n) end
  | match goal with |- context [linked c rounds 5 "ipv4" "ipv4_option_payload_length" [VA (Some U8) ?b]] =>
      let H := fresh "G" in assert (H : bytes_ok b) by (unfold buf_ok in *; tauto);
      call (ipv4_option_payload_length_src c rounds 4 b H) end
  | match goal with |- context [linked c rounds 5 "ipv6" "ipv6_extension_length" [VI _ ?n]] =>
      let H := fresh "G" in assert (H : 0 <= n < 256) by range; call (ipv6_extension_length_src c rounds 4 n H) end
  | match goal with |- context [linked c rounds 5 "ipv6" "routing_extension_length" [VI _ ?n]] =>
      let H := fresh "G" in assert (H : 0 <= n < 256) by range; call (routing_extension_length_src c rounds 4 n H) end
  | match goal with |- context [linked c rounds 5 "tcp" "tcp_options_length" [VI _ ?n]] =>
      let H := fresh "G" in assert (H : 0 <= n < 256) by range; call (tcp_options_length_src c rounds 4 n H) end
  | match goal with |- context [linked c rounds 5 "tcp" "tcp_option_length" [VC _ _ [?n]]] =>
      call (tcp_option_length_src c rounds 4 n) end
  | match goal with |- context [linked c rounds 5 "tcp" "tcp_option_payload_length" [VA (Some U8) ?b]] =>
      let H := fresh "G" in assert (H : bytes_ok b) by (unfold buf_ok in *; tauto);
      call (tcp_option_payload_length_src c rounds 4 b H) end ];
  tidy; try reflexivity).
Ltac arith :=
  repeat match goal with
  | |- context [lift (?op ?m ?w ?a ?b) _] =>
      let z := fresh "z" in let Q := fresh "Q" in destruct (op m w a b) as [z |] eqn:Q; tidy; [| reflexivity];
      apply ovf_range in Q; [| lia]
  | |- context [match ?op ?m ?w ?a ?b with Ok _ => _ | Panic _ => _ end] =>
      let z := fresh "z" in let Q := fresh "Q" in destruct (op m w a b) as [z |] eqn:Q; tidy; [| reflexivity];
      apply ovf_range in Q; [| lia]
  end.

Ltac rest_step r R := let b := fresh "b" in let e := fresh "e" in
  destruct r as [b | e]; [pose proof (R b eq_refl) | reflexivity]; tidy.
Ltac branch := match goal with
  | |- context [is_nil ?l] => destruct l; cbn [is_nil]
  | |- context [if ?q then _ else _] => destruct q eqn:?
  end.
Ltac len_eq c e r rounds E R :=
  repeat (env_step E; facts; tidy);
  try match goal with |- context [proj "0" [?y]] => change (proj "0" [y]) with (Some y); cbv iota end;
  cbn [cmp_z]; try branch; tidy; try reflexivity;
  resolve_calls c rounds; try match goal with |- lift r _ = _ => rest_step r R end;
  resolve_calls c rounds.
Ltac same_len :=
  let E := fresh "HE" in let R := fresh "HR" in
  match goal with |- same_length _ _ _ _ _ _ => cbn [pf_len f_len]; 
   first [exact I | match goal with |- same_length _ _ _ ?fs _ ?o => let y := eval hnf in o in change o with y end;
     cbn [same_length]; intros e r rounds E R; read_len; model_len; change usize with 64; tidy;
     match goal with c : cfg |- _ => len_eq c e r rounds E R end; arith; try as_usize] end.
Ltac decl :=
  intros c; cbn [quic_schema frame_schema]; eexists; eexists; split; [vm_compute; reflexivity |]; split; [vm_compute; reflexivity |]; split;
  [ repeat (first [apply Forall2_nil | apply Forall2_cons]);
    (split; [reflexivity | split; [reflexivity | split; [ same_ty |same_len] ]])
  | destruct c as [m a h]; destruct a, h; vm_compute; reflexivity ].
Lemma Ethernet_declared : forall c, declares c "ethernet" "Ethernet" struct_Ethernet ethernet.
Proof. decl. Qed.
Lemma Vlan_declared : forall c, declares c "vlan" "Vlan" struct_Vlan vlan.
Proof. decl. Qed.
Lemma Arp_declared : forall c, declares c "arp" "Arp" struct_Arp arp.
Proof. decl. Qed.
Lemma Ipv4Option_declared : forall c, declares c "ipv4" "Ipv4Option" struct_Ipv4Option ipv4_option.
Proof. decl. Qed.
Lemma Ipv4_declared : forall c, declares c "ipv4" "Ipv4" struct_Ipv4 (ipv4 c).
Proof. decl. Qed.
Lemma Ipv6_declared : forall c, declares c "ipv6" "Ipv6" struct_Ipv6 ipv6.
Proof. decl. Qed.
Lemma Extension_declared : forall c, declares c "ipv6" "Extension" struct_Extension extension.
Proof. decl. Qed.
Lemma Routing_declared : forall c, declares c "ipv6" "Routing" struct_Routing routing.
Proof. decl. Qed.
Lemma Fragment_declared : forall c, declares c "ipv6" "Fragment" struct_Fragment fragment.
Proof. decl. Qed.
Lemma Udp_declared : forall c, declares c "udp" "Udp" struct_Udp udp.
Proof. decl. Qed.
Lemma TcpOption_declared : forall c, declares c "tcp" "TcpOption" struct_TcpOption tcp_option.
Proof. decl. Qed.
Lemma Tcp_declared : forall c, declares c "tcp" "Tcp" struct_Tcp (tcp c).
Proof. decl. Qed.
Lemma U16BE_declared : forall c, declares c "gre" "U16BE" struct_U16BE gre_u16.
Proof. decl. Qed.
Lemma U32BE_declared : forall c, declares c "gre" "U32BE" struct_U32BE gre_u32.
Proof. decl. Qed.
Lemma Gre_declared : forall c, declares c "gre" "Gre" struct_Gre (gre c).
Proof. decl. Qed.
Lemma Icmp_declared : forall c, declares c "icmp" "Icmp" struct_Icmp icmp.
Proof. decl. Qed.
Lemma EchoReply_declared : forall c, declares c "icmp" "EchoReply" struct_EchoReply echo_reply.
Proof. decl. Qed.
Lemma EchoRequest_declared : forall c, declares c "icmp" "EchoRequest" struct_EchoRequest echo_request.
Proof. decl. Qed.
Lemma DestinationUnreachable_declared : forall c, declares c "icmp" "DestinationUnreachable" struct_DestinationUnreachable destination_unreachable.
Proof. decl. Qed.
Lemma TimeExceeded_declared : forall c, declares c "icmp" "TimeExceeded" struct_TimeExceeded time_exceeded.
Proof. decl. Qed.
Lemma Icmpv6_declared : forall c, declares c "icmpv6" "Icmpv6" struct_Icmpv6 icmpv6.
Proof. decl. Qed.
Lemma NdpOption_declared : forall c, declares c "icmpv6" "NdpOption" struct_NdpOption (ndp_option c).
Proof. decl. Qed.
Lemma RouterSolicit_declared : forall c, declares c "icmpv6" "RouterSolicit" struct_RouterSolicit (router_solicit c).
Proof. decl. Qed.
Lemma RouterAdvert_declared : forall c, declares c "icmpv6" "RouterAdvert" struct_RouterAdvert (router_advert c).
Proof. decl. Qed.
Lemma NeighborSolicit_declared : forall c, declares c "icmpv6" "NeighborSolicit" struct_NeighborSolicit (neighbor_solicit c).
Proof. decl. Qed.
Lemma NeighborAdvert_declared : forall c, declares c "icmpv6" "NeighborAdvert" struct_NeighborAdvert (neighbor_advert c).
Proof. decl. Qed.
Lemma Redirect_declared : forall c, declares c "icmpv6" "Redirect" struct_Redirect (redirect c).
Proof. decl. Qed.
Lemma VersionNegotiation_declared : forall c, declares c "quic" "VersionNegotiation" struct_VersionNegotiation (quic_schema c QVersionNegotiation).
Proof. decl. Qed.
Lemma Initial_declared : forall c, declares c "quic" "Initial" struct_Initial (quic_schema c QInitial).
Proof. decl. Qed.
Lemma ZeroRtt_declared : forall c, declares c "quic" "ZeroRtt" struct_ZeroRtt (quic_schema c QZeroRtt).
Proof. decl. Qed.
Lemma Handshake_declared : forall c, declares c "quic" "Handshake" struct_Handshake (quic_schema c QHandshake).
Proof. decl. Qed.
Lemma Retry_declared : forall c, declares c "quic" "Retry" struct_Retry (quic_schema c QRetry).
Proof. decl. Qed.
Lemma OneRtt_declared : forall c, declares c "quic" "OneRtt" struct_OneRtt (quic_schema c QOneRtt).
Proof. decl. Qed.
Lemma Padding_declared : forall c, declares c "quic" "Padding" struct_Padding (frame_schema FPadding).
Proof. decl. Qed.
Lemma Ping_declared : forall c, declares c "quic" "Ping" struct_Ping (frame_schema FPing).
Proof. decl. Qed.
Lemma Ack_declared : forall c, declares c "quic" "Ack" struct_Ack (frame_schema FAck).
Proof. decl. Qed.
Lemma ResetStream_declared : forall c, declares c "quic" "ResetStream" struct_ResetStream (frame_schema FResetStream).
Proof. decl. Qed.
Lemma StopSending_declared : forall c, declares c "quic" "StopSending" struct_StopSending (frame_schema FStopSending).
Proof. decl. Qed.
Lemma Crypto_declared : forall c, declares c "quic" "Crypto" struct_Crypto (frame_schema FCrypto).
Proof. decl. Qed.
Lemma NewToken_declared : forall c, declares c "quic" "NewToken" struct_NewToken (frame_schema FNewToken).
Proof. decl. Qed.
Lemma Stream_declared : forall c, declares c "quic" "Stream" struct_Stream (frame_schema FStream).
Proof. decl. Qed.
Lemma MaxData_declared : forall c, declares c "quic" "MaxData" struct_MaxData (frame_schema FMaxData).
Proof. decl. Qed.
Lemma MaxStreamData_declared : forall c, declares c "quic" "MaxStreamData" struct_MaxStreamData (frame_schema FMaxStreamData).
Proof. decl. Qed.
Lemma MaxStreams_declared : forall c, declares c "quic" "MaxStreams" struct_MaxStreams (frame_schema FMaxStreams).
Proof. decl. Qed.
Lemma DataBlocked_declared : forall c, declares c "quic" "DataBlocked" struct_DataBlocked (frame_schema FDataBlocked).
Proof. decl. Qed.
Lemma StreamDataBlocked_declared : forall c, declares c "quic" "StreamDataBlocked" struct_StreamDataBlocked (frame_schema FStreamDataBlocked).
Proof. decl. Qed.
Lemma StreamsBlocked_declared : forall c, declares c "quic" "StreamsBlocked" struct_StreamsBlocked (frame_schema FStreamsBlocked).
Proof. decl. Qed.
Lemma NewConnectionId_declared : forall c, declares c "quic" "NewConnectionId" struct_NewConnectionId (frame_schema FNewConnectionId).
Proof. decl. Qed.
Lemma RetireConnectionId_declared : forall c, declares c "quic" "RetireConnectionId" struct_RetireConnectionId (frame_schema FRetireConnectionId).
Proof. decl. Qed.
Lemma PathChallenge_declared : forall c, declares c "quic" "PathChallenge" struct_PathChallenge (frame_schema FPathChallenge).
Proof. decl. Qed.
Lemma PathResponse_declared : forall c, declares c "quic" "PathResponse" struct_PathResponse (frame_schema FPathResponse).
Proof. decl. Qed.
Lemma ConnectionClose_declared : forall c, declares c "quic" "ConnectionClose" struct_ConnectionClose (frame_schema FConnectionClose).
Proof. decl. Qed.
Lemma HandshakeDone_declared : forall c, declares c "quic" "HandshakeDone" struct_HandshakeDone (frame_schema FHandshakeDone).
Proof. decl. Qed.

Definition has_text (c : cfg) (p : string * schema) : Prop :=
  exists mo text, In (mo, fst p, text) crate_structs /\ declares c mo (fst p) text (snd p).
Ltac one_packet mo text k L := apply Forall_cons; [exists mo, text; split; [exact (nth_error_In crate_structs k eq_refl) | exact L] |].
Lemma all_declared : forall c, Forall (has_text c) (all_packets c).
Proof.
  intros c. unfold all_packets, crate_schemas, quic_kinds, frame_kinds. cbn [app map].
  one_packet "ethernet" struct_Ethernet 0%nat (Ethernet_declared c).
  one_packet "vlan" struct_Vlan 1%nat (Vlan_declared c).
  one_packet "arp" struct_Arp 2%nat (Arp_declared c).
  one_packet "ipv4" struct_Ipv4Option 4%nat (Ipv4Option_declared c).
  one_packet "ipv4" struct_Ipv4 3%nat (Ipv4_declared c).
  one_packet "ipv6" struct_Ipv6 5%nat (Ipv6_declared c).
  one_packet "ipv6" struct_Extension 6%nat (Extension_declared c).
  one_packet "ipv6" struct_Routing 7%nat (Routing_declared c).
  one_packet "ipv6" struct_Fragment 8%nat (Fragment_declared c).
  one_packet "udp" struct_Udp 9%nat (Udp_declared c).
  one_packet "tcp" struct_TcpOption 11%nat (TcpOption_declared c).
  one_packet "tcp" struct_Tcp 10%nat (Tcp_declared c).
  one_packet "gre" struct_U16BE 13%nat (U16BE_declared c).
  one_packet "gre" struct_U32BE 14%nat (U32BE_declared c).
  one_packet "gre" struct_Gre 12%nat (Gre_declared c).
  one_packet "icmp" struct_Icmp 15%nat (Icmp_declared c).
  one_packet "icmp" struct_EchoReply 16%nat (EchoReply_declared c).
  one_packet "icmp" struct_EchoRequest 17%nat (EchoRequest_declared c).
  one_packet "icmp" struct_DestinationUnreachable 18%nat (DestinationUnreachable_declared c).
  one_packet "icmp" struct_TimeExceeded 19%nat (TimeExceeded_declared c).
  one_packet "icmpv6" struct_Icmpv6 20%nat (Icmpv6_declared c).
  one_packet "icmpv6" struct_NdpOption 21%nat (NdpOption_declared c).
  one_packet "icmpv6" struct_RouterSolicit 22%nat (RouterSolicit_declared c).
  one_packet "icmpv6" struct_RouterAdvert 23%nat (RouterAdvert_declared c).
  one_packet "icmpv6" struct_NeighborSolicit 24%nat (NeighborSolicit_declared c).
  one_packet "icmpv6" struct_NeighborAdvert 25%nat (NeighborAdvert_declared c).
  one_packet "icmpv6" struct_Redirect 26%nat (Redirect_declared c).
  one_packet "quic" struct_VersionNegotiation 27%nat (VersionNegotiation_declared c).
  one_packet "quic" struct_Initial 28%nat (Initial_declared c).
  one_packet "quic" struct_ZeroRtt 29%nat (ZeroRtt_declared c).
  one_packet "quic" struct_Handshake 30%nat (Handshake_declared c).
  one_packet "quic" struct_Retry 31%nat (Retry_declared c).
  one_packet "quic" struct_OneRtt 32%nat (OneRtt_declared c).
  one_packet "quic" struct_Padding 33%nat (Padding_declared c).
  one_packet "quic" struct_Ping 34%nat (Ping_declared c).
  one_packet "quic" struct_Ack 35%nat (Ack_declared c).
  one_packet "quic" struct_ResetStream 36%nat (ResetStream_declared c).
  one_packet "quic" struct_StopSending 37%nat (StopSending_declared c).
  one_packet "quic" struct_Crypto 38%nat (Crypto_declared c).
  one_packet "quic" struct_NewToken 39%nat (NewToken_declared c).
  one_packet "quic" struct_Stream 40%nat (Stream_declared c).
  one_packet "quic" struct_MaxData 41%nat (MaxData_declared c).
  one_packet "quic" struct_MaxStreamData 42%nat (MaxStreamData_declared c).
  one_packet "quic" struct_MaxStreams 43%nat (MaxStreams_declared c).
  one_packet "quic" struct_DataBlocked 44%nat (DataBlocked_declared c).
  one_packet "quic" struct_StreamDataBlocked 45%nat (StreamDataBlocked_declared c).
  one_packet "quic" struct_StreamsBlocked 46%nat (StreamsBlocked_declared c).
  one_packet "quic" struct_NewConnectionId 47%nat (NewConnectionId_declared c).
  one_packet "quic" struct_RetireConnectionId 48%nat (RetireConnectionId_declared c).
  one_packet "quic" struct_PathChallenge 49%nat (PathChallenge_declared c).
  one_packet "quic" struct_PathResponse 50%nat (PathResponse_declared c).
  one_packet "quic" struct_ConnectionClose 51%nat (ConnectionClose_declared c).
  one_packet "quic" struct_HandshakeDone 52%nat (HandshakeDone_declared c).
  apply Forall_nil.
Qed.
Theorem declared : forall c name fs, In (name, fs) (all_packets c) ->
  exists mo text, In (mo, name, text) crate_structs /\ declares c mo name text fs.
Proof. intros c name fs I. exact (proj1 (Forall_forall _ _) (all_declared c) _ I). Qed.

Theorem every_struct : forall c mo name text, In (mo, name, text) crate_structs -> exists fs, In (name, fs) (all_packets c).
Proof.
  intros c. assert (F : Forall (fun t => In (snd (fst t)) (map fst (all_packets c))) crate_structs).
  { replace (map fst (all_packets c)) with (map fst (all_packets (Cfg Checked Checked true))) by reflexivity.
    assert (X : forallb (fun t => existsb (String.eqb (snd (fst t))) (map fst (all_packets (Cfg Checked Checked true)))) crate_structs = true)
      by (vm_compute; reflexivity).
    rewrite forallb_forall in X. apply Forall_forall. intros t T. specialize (X t T). apply existsb_exists in X.
    destruct X as (n & N & Q). apply String.eqb_eq in Q. now rewrite Q. }
  intros mo name text I. rewrite Forall_forall in F. specialize (F _ I). cbn [fst snd] in F. apply in_map_iff in F.
  destruct F as ([n fs] & <- & N). exists fs. exact N.
Qed.

(** Every function of CrateText.v: its text and the model agree. *)
From Coq Require Import String ZArith List Bool Lia ZifyBool ZifyNat.
From Verif Require Import Base BaseFacts DeriveUtil DeriveOps DeriveGen Protocols Quic Checksum ChecksumProofs ChecksumProofs2 MacAddr
  SpecChecksum SpecQuic QuicIntProofs
  RustLex RustSyntax RustSem CrateText SpecSource SourceTac SourceProofs.
Import ListNotations.
Open Scope string_scope.
Open Scope Z_scope.
Lemma one : forall l : list Z, List.length l = 1%nat -> exists x, l = [x].
Proof. intros [| x [| ? ?]] L; try discriminate. now exists x. Qed.
Lemma good_claim : forall c mo f t args rounds a, crate_fun c mo f args = Some a ->
  claim c rounds call_depth mo f t args ->
  exists a, crate_fun c mo f args = Some a /\ run_source c rounds mo t args = answered a Done.
Proof. intros. exists a. split; [exact H |]. unfold run_source. red in H0. rewrite H0, H. reflexivity. Qed.
Ltac open_args :=
  repeat match goal with
  | H : exists l, _ = VC _ _ l /\ Forall _ l /\ List.length l = 1%nat |- _ =>
      let l := fresh "l" in let F := fresh "F" in let L := fresh "L" in
      destruct H as (l & -> & F & L); destruct (one l L) as (? & ->); clear L; apply Forall_inv in F
  | H : Logic.ex _ |- _ => let K := fresh "K" in destruct H as (? & -> & K)
  end.
Ltac arith := unfold in_range, addr4, addr6, buf_ok in *; cbn [width enough size_of List.length] in *; try tauto; try lia.
Ltac src L := eapply good_claim; [reflexivity |]; unfold call_depth; apply L; arith.
Ltac begin_good := unfold good; eexists; split; [vm_compute; reflexivity |]; split; [reflexivity |];
  intros args F rounds R; cbn [fn_params] in F; args_of F; open_args.
Lemma fn_quic_varint_length_good : forall c, good c "quic" "varint_length" fn_quic_varint_length.
Proof. intros. begin_good. src varint_length_src. Qed.
Lemma fn_quic_varint_good : forall c, good c "quic" "varint" fn_quic_varint.
Proof. intros. begin_good. src varint_src. Qed.
Lemma fn_quic_packet_number_good : forall c, good c "quic" "packet_number" fn_quic_packet_number.
Proof. intros. begin_good. src packet_number_src. Qed.
Lemma fn_quic_n_varints_good : forall c, good c "quic" "n_varints" fn_quic_n_varints.
Proof. intros. begin_good. src n_varints_src. Qed.
Lemma fn_ipv4_ipv4_options_length_good : forall c, good c "ipv4" "ipv4_options_length" fn_ipv4_ipv4_options_length.
Proof. intros. begin_good. src ipv4_options_length_src. Qed.
Lemma fn_ipv4_ipv4_payload_length_good : forall c, good c "ipv4" "ipv4_payload_length" fn_ipv4_ipv4_payload_length.
Proof. intros. begin_good. src ipv4_payload_length_src. Qed.
Lemma fn_ipv4_ipv4_option_length_good : forall c, good c "ipv4" "ipv4_option_length" fn_ipv4_ipv4_option_length.
Proof. intros. begin_good. src ipv4_option_length_src. Qed.
Lemma fn_ipv4_ipv4_option_payload_length_good : forall c, good c "ipv4" "ipv4_option_payload_length" fn_ipv4_ipv4_option_payload_length.
Proof. intros. begin_good. src ipv4_option_payload_length_src. Qed.
Lemma fn_ipv4_checksum_good : forall c, good c "ipv4" "checksum" fn_ipv4_checksum.
Proof. intros. begin_good. src ipv4_header_src. Qed.
Lemma fn_ipv6_ipv6_extension_length_good : forall c, good c "ipv6" "ipv6_extension_length" fn_ipv6_ipv6_extension_length.
Proof. intros. begin_good. src ipv6_extension_length_src. Qed.
Lemma fn_ipv6_routing_extension_length_good : forall c, good c "ipv6" "routing_extension_length" fn_ipv6_routing_extension_length.
Proof. intros. begin_good. src routing_extension_length_src. Qed.
Lemma fn_tcp_tcp_option_length_good : forall c, good c "tcp" "tcp_option_length" fn_tcp_tcp_option_length.
Proof. intros. begin_good. src tcp_option_length_src. Qed.
Lemma fn_tcp_tcp_option_payload_length_good : forall c, good c "tcp" "tcp_option_payload_length" fn_tcp_tcp_option_payload_length.
Proof. intros. begin_good. src tcp_option_payload_length_src. Qed.
Lemma fn_tcp_tcp_options_length_good : forall c, good c "tcp" "tcp_options_length" fn_tcp_tcp_options_length.
Proof. intros. begin_good. src tcp_options_length_src. Qed.
Lemma fn_tcp_ipv4_checksum_good : forall c, good c "tcp" "ipv4_checksum" fn_tcp_ipv4_checksum.
Proof. intros. begin_good. src tcp4_src. Qed.
Lemma fn_tcp_ipv4_checksum_adv_good : forall c, good c "tcp" "ipv4_checksum_adv" fn_tcp_ipv4_checksum_adv.
Proof. intros. begin_good. src tcp4_adv_src. Qed.
Lemma fn_tcp_ipv6_checksum_good : forall c, good c "tcp" "ipv6_checksum" fn_tcp_ipv6_checksum.
Proof. intros. begin_good. src tcp6_src. Qed.
Lemma fn_tcp_ipv6_checksum_adv_good : forall c, good c "tcp" "ipv6_checksum_adv" fn_tcp_ipv6_checksum_adv.
Proof. intros. begin_good. src tcp6_adv_src. Qed.
Lemma fn_udp_ipv4_checksum_good : forall c, good c "udp" "ipv4_checksum" fn_udp_ipv4_checksum.
Proof. intros. begin_good. src udp4_src. Qed.
Lemma fn_udp_ipv4_checksum_adv_good : forall c, good c "udp" "ipv4_checksum_adv" fn_udp_ipv4_checksum_adv.
Proof. intros. begin_good. src udp4_adv_src. Qed.
Lemma fn_udp_ipv6_checksum_good : forall c, good c "udp" "ipv6_checksum" fn_udp_ipv6_checksum.
Proof. intros. begin_good. src udp6_src. Qed.
Lemma fn_udp_ipv6_checksum_adv_good : forall c, good c "udp" "ipv6_checksum_adv" fn_udp_ipv6_checksum_adv.
Proof. intros. begin_good. src udp6_adv_src. Qed.
Lemma fn_icmp_checksum_good : forall c, good c "icmp" "checksum" fn_icmp_checksum.
Proof. intros. begin_good. src icmp_src. Qed.
Lemma fn_icmpv6_checksum_good : forall c, good c "icmpv6" "checksum" fn_icmpv6_checksum.
Proof. intros. begin_good. src icmpv6_src. Qed.
Lemma fn_util_checksum_good : forall c, good c "util" "checksum" fn_util_checksum.
Proof. intros. begin_good. src checksum_src. Qed.
Lemma fn_util_finalize_checksum_good : forall c, good c "util" "finalize_checksum" fn_util_finalize_checksum.
Proof. intros. begin_good. src finalize_src. Qed.
Lemma fn_util_ipv4_checksum_good : forall c, good c "util" "ipv4_checksum" fn_util_ipv4_checksum.
Proof. intros. begin_good. src pseudo4_src. Qed.
Lemma fn_util_ipv4_word_sum_good : forall c, good c "util" "ipv4_word_sum" fn_util_ipv4_word_sum.
Proof. intros. begin_good. src ipv4_word_sum_src. Qed.
Lemma fn_util_ipv6_checksum_good : forall c, good c "util" "ipv6_checksum" fn_util_ipv6_checksum.
Proof. intros. begin_good. src pseudo6_src. Qed.
Lemma fn_util_ipv6_word_sum_good : forall c, good c "util" "ipv6_word_sum" fn_util_ipv6_word_sum.
Proof. intros. begin_good. src ipv6_word_sum_src. Qed.
Lemma fn_util_sum_be_words_good : forall c, good c "util" "sum_be_words" fn_util_sum_be_words.
Proof. intros. begin_good. src sum_be_words_src. Qed.
Lemma fn_u64_octets_good : forall c, good c "u64" "octets" fn_u64_octets.
Proof. intros. begin_good. src octets_u64_src. Qed.
Lemma fn_u32_octets_good : forall c, good c "u32" "octets" fn_u32_octets.
Proof. intros. begin_good. src octets_u32_src. Qed.
Lemma fn_u16_octets_good : forall c, good c "u16" "octets" fn_u16_octets.
Proof. intros. begin_good. src octets_u16_src. Qed.
Lemma fn_u8_octets_good : forall c, good c "u8" "octets" fn_u8_octets.
Proof. intros. begin_good. src octets_u8_src. Qed.
Lemma fn_mac_new_good : forall c, good c "mac" "new" fn_mac_new.
Proof. intros. begin_good. src mac_new_src. Qed.
Lemma fn_mac_is_zero_good : forall c, good c "mac" "is_zero" fn_mac_is_zero.
Proof. intros. begin_good. src is_zero_src. Qed.
Lemma fn_mac_is_universal_good : forall c, good c "mac" "is_universal" fn_mac_is_universal.
Proof. intros. begin_good. src is_universal_src. Qed.
Lemma fn_mac_is_local_good : forall c, good c "mac" "is_local" fn_mac_is_local.
Proof. intros. begin_good. src is_local_src. Qed.
Lemma fn_mac_is_unicast_good : forall c, good c "mac" "is_unicast" fn_mac_is_unicast.
Proof. intros. begin_good. src is_unicast_src. Qed.
Lemma fn_mac_is_multicast_good : forall c, good c "mac" "is_multicast" fn_mac_is_multicast.
Proof. intros. begin_good. src is_multicast_src. Qed.
Lemma fn_mac_is_broadcast_good : forall c, good c "mac" "is_broadcast" fn_mac_is_broadcast.
Proof. intros. begin_good. src is_broadcast_src. Qed.
Theorem all_good : forall c mo f t, In (mo, f, t) crate_texts -> good c mo f t.
Proof.
  intros c mo f t I. unfold crate_texts in I. cbn [In] in I.
  destruct I as [I | I]; [injection I as <- <- <-; apply fn_quic_varint_length_good |].
  destruct I as [I | I]; [injection I as <- <- <-; apply fn_quic_varint_good |].
  destruct I as [I | I]; [injection I as <- <- <-; apply fn_quic_packet_number_good |].
  destruct I as [I | I]; [injection I as <- <- <-; apply fn_quic_n_varints_good |].
  destruct I as [I | I]; [injection I as <- <- <-; apply fn_ipv4_ipv4_options_length_good |].
  destruct I as [I | I]; [injection I as <- <- <-; apply fn_ipv4_ipv4_payload_length_good |].
  destruct I as [I | I]; [injection I as <- <- <-; apply fn_ipv4_ipv4_option_length_good |].
  destruct I as [I | I]; [injection I as <- <- <-; apply fn_ipv4_ipv4_option_payload_length_good |].
  destruct I as [I | I]; [injection I as <- <- <-; apply fn_ipv4_checksum_good |].
  destruct I as [I | I]; [injection I as <- <- <-; apply fn_ipv6_ipv6_extension_length_good |].
  destruct I as [I | I]; [injection I as <- <- <-; apply fn_ipv6_routing_extension_length_good |].
  destruct I as [I | I]; [injection I as <- <- <-; apply fn_tcp_tcp_option_length_good |].
  destruct I as [I | I]; [injection I as <- <- <-; apply fn_tcp_tcp_option_payload_length_good |].
  destruct I as [I | I]; [injection I as <- <- <-; apply fn_tcp_tcp_options_length_good |].
  destruct I as [I | I]; [injection I as <- <- <-; apply fn_tcp_ipv4_checksum_good |].
  destruct I as [I | I]; [injection I as <- <- <-; apply fn_tcp_ipv4_checksum_adv_good |].
  destruct I as [I | I]; [injection I as <- <- <-; apply fn_tcp_ipv6_checksum_good |].
  destruct I as [I | I]; [injection I as <- <- <-; apply fn_tcp_ipv6_checksum_adv_good |].
  destruct I as [I | I]; [injection I as <- <- <-; apply fn_udp_ipv4_checksum_good |].
  destruct I as [I | I]; [injection I as <- <- <-; apply fn_udp_ipv4_checksum_adv_good |].
  destruct I as [I | I]; [injection I as <- <- <-; apply fn_udp_ipv6_checksum_good |].
  destruct I as [I | I]; [injection I as <- <- <-; apply fn_udp_ipv6_checksum_adv_good |].
  destruct I as [I | I]; [injection I as <- <- <-; apply fn_icmp_checksum_good |].
  destruct I as [I | I]; [injection I as <- <- <-; apply fn_icmpv6_checksum_good |].
  destruct I as [I | I]; [injection I as <- <- <-; apply fn_util_checksum_good |].
  destruct I as [I | I]; [injection I as <- <- <-; apply fn_util_finalize_checksum_good |].
  destruct I as [I | I]; [injection I as <- <- <-; apply fn_util_ipv4_checksum_good |].
  destruct I as [I | I]; [injection I as <- <- <-; apply fn_util_ipv4_word_sum_good |].
  destruct I as [I | I]; [injection I as <- <- <-; apply fn_util_ipv6_checksum_good |].
  destruct I as [I | I]; [injection I as <- <- <-; apply fn_util_ipv6_word_sum_good |].
  destruct I as [I | I]; [injection I as <- <- <-; apply fn_util_sum_be_words_good |].
  destruct I as [I | I]; [injection I as <- <- <-; apply fn_u64_octets_good |].
  destruct I as [I | I]; [injection I as <- <- <-; apply fn_u32_octets_good |].
  destruct I as [I | I]; [injection I as <- <- <-; apply fn_u16_octets_good |].
  destruct I as [I | I]; [injection I as <- <- <-; apply fn_u8_octets_good |].
  destruct I as [I | I]; [injection I as <- <- <-; apply fn_mac_new_good |].
  destruct I as [I | I]; [injection I as <- <- <-; apply fn_mac_is_zero_good |].
  destruct I as [I | I]; [injection I as <- <- <-; apply fn_mac_is_universal_good |].
  destruct I as [I | I]; [injection I as <- <- <-; apply fn_mac_is_local_good |].
  destruct I as [I | I]; [injection I as <- <- <-; apply fn_mac_is_unicast_good |].
  destruct I as [I | I]; [injection I as <- <- <-; apply fn_mac_is_multicast_good |].
  destruct I as [I | I]; [injection I as <- <- <-; apply fn_mac_is_broadcast_good |].
  contradiction.
Qed.

(** ** From the texts to the specifications *)

Lemma checksum_text : forall c r b k, buf_ok b -> 0 <= k < 2 ^ 64 -> blen b <= 131074 -> (List.length b + 5 <= r)%nat ->
  run_source c r "util" fn_util_checksum [VA (Some U8) b; VI (Some Usize) k] =
  Done (VI (Some U16) (match b with [] => 0 | _ => rfc1071 (zero_word (Z.to_nat k) b) end)).
Proof.
  intros c r b k B K L R. unfold run_source.
  rewrite (checksum_src c r 4 b k B K R : run_text c "util" (linked c r call_depth "util") r fn_util_checksum _ = _).
  unfold returns, crate_fun.
  change ("util" ++ "::" ++ "checksum")%string with "util::checksum"%string. cbv beta iota zeta delta [String.eqb Ascii.eqb Bool.eqb].
  rewrite checksum_rfc1071 by (destruct B; auto; lia). reflexivity.
Qed.
Lemma varint_text : forall c r x, SpecQuic.vi_ok x ->
  run_source c r "quic" fn_quic_varint [VA (Some U8) (SpecQuic.vi_bytes x)] = Done (VI (Some Usize) (SpecQuic.vi_value x)).
Proof.
  intros c r x V. unfold run_source.
  assert (B : bytes_ok (SpecQuic.vi_bytes x)) by apply (QuicIntProofs.vi_bytes_ok x V).
  rewrite (varint_src c r call_depth _ B).
  unfold returns, crate_fun.
  change ("quic" ++ "::" ++ "varint")%string with "quic::varint"%string. cbv beta iota zeta delta [String.eqb Ascii.eqb Bool.eqb].
  rewrite (proj2 (QuicIntProofs.varint_encodings x [] V (Forall_nil _))). reflexivity.
Qed.

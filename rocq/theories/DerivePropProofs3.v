(** Remaining proofs for the properties of derived packets: the placements the
    macro supports, and the statements for the structs of the crate. *)
From Coq Require Import String ZArith List Bool Lia ZifyBool ZifyNat.
From Verif Require Import Base BitSpec DeriveUtil DeriveOps DeriveGen SpecPacket Protocols.
From Verif Require Import BaseFacts BitFacts DeriveUtilProofs DeriveOpsProofs DeriveLEProofs DeriveGenProofs
  DeriveInvProofs DeriveAccProofs DeriveVarProofs DeriveApiProofs DerivePropProofs DerivePropProofs2 ProtoFacts.
Import ListNotations.
Open Scope Z_scope.
Ltac Zify.zify_post_hook ::= Z.to_euclidean_division_equations.

Lemma unsupported_aborts : forall h o s e, 0 <= o <= 7 -> 1 <= s <= 64 -> ~ supported o s ->
  operations Checked h o s e = Panic EOverflow.
Proof. intros h o s e O S U. apply unplaced_checked; auto. unfold supported in U. lia. Qed.

Lemma unsupported_wrong : forall m h o s e w, 0 <= o <= 7 -> 1 <= s <= 64 -> ~ supported o s ->
  forall ops, operations m h o s e = Ok (Some ops) ->
  exists b, bytes_ok b /\ length b = 10%nat /\
    gen_get_ops m w ops b 0 <> Ok (field_val b (Z.to_nat o) (Z.to_nat s)).
Proof. intros m h o s e w O S U. apply unplaced_wrong; auto. unfold supported in U. lia. Qed.

Lemma supported_generated : forall m h o s e, 0 <= o <= 7 -> supported o s ->
  exists ops, operations m h o s e = Ok (Some ops) /\
    forall mr b, bytes_ok b -> o + s <= 8 * blen b -> blen b < 2 ^ 63 ->
      big_endian h e = true ->
      gen_get_ops mr (container s) ops b 0 = Ok (field_val b (Z.to_nat o) (Z.to_nat s)).
Proof.
  intros m h o s e O [S A]. assert (P : placed o s) by (repeat split; lia).
  rewrite operations_closed by auto. eexists. split; [reflexivity|].
  intros mr b B L L2 BE.
  assert (X := be_get mr b 0 o s P B). replace (8 * 0 + o) with o in X by lia.
  assert (N := num_bytes_facts o s P). unfold slack in N.
  unfold big_endian in BE. destruct e; try discriminate; try (destruct h; [discriminate|]); apply X; lia.
Qed.

Ltac keeps_tac :=
  repeat first
    [ apply Forall_nil
    | apply Forall_cons; [cbn [keeps_inner f_ty fld vfld pfld pall int one mac ip4 ip6 bytes_ty]; try exact I|] ].

Lemma keeps_ipv4_option : forall c, keeps_inner (TVecPkt (sem_of c ipv4_option)).
Proof. intros. apply sem_keeps. unfold ipv4_option. keeps_tac. Qed.
Lemma keeps_tcp_option : forall c, keeps_inner (TVecPkt (sem_of c tcp_option)).
Proof. intros. apply sem_keeps. unfold tcp_option. keeps_tac. Qed.
Lemma keeps_gre_u16 : forall c, keeps_inner (TVecPkt (sem_of c gre_u16)).
Proof. intros. apply sem_keeps. unfold gre_u16. keeps_tac. Qed.
Lemma keeps_gre_u32 : forall c, keeps_inner (TVecPkt (sem_of c gre_u32)).
Proof. intros. apply sem_keeps. unfold gre_u32. keeps_tac. Qed.
Lemma keeps_ndp_option : forall c, keeps_inner (TVecPkt (sem_of c (ndp_option c))).
Proof. intros. apply sem_keeps. unfold ndp_option. keeps_tac. Qed.

Lemma crate_keeps : forall c n fs, In (n, fs) (crate_schemas c) ->
  Forall (fun f => keeps_inner (f_ty f)) fs.
Proof.
  intros c n fs IN. unfold crate_schemas in IN. cbn [In] in IN.
  repeat (destruct IN as [IN|IN]; [inversion IN; subst; clear IN|]); try easy;
  unfold ethernet, vlan, arp, ipv4_option, ipv4, ipv6, extension, routing, fragment, udp, tcp_option, tcp,
    gre_u16, gre_u32, gre, icmp, echo_reply, echo_request, destination_unreachable, time_exceeded,
    icmpv6, ndp_option, router_solicit, router_advert, neighbor_solicit, neighbor_advert, redirect;
  keeps_tac; first [exact (keeps_ipv4_option c)|exact (keeps_tcp_option c)|exact (keeps_gre_u16 c)
    |exact (keeps_gre_u32 c)|exact (keeps_ndp_option c)].
Qed.

(** ** XPacket::packet_size(&X) for structs with sub-packets *)

Lemma tcp_struct_size : forall c xs opts data, length xs = 10%nat -> Forall (fun x => exists z, x = VInt z) xs ->
  Z.of_nat (length opts) < 2 ^ 63 -> blen data < 2 ^ 62 ->
  struct_packet_size c (tcp c) (xs ++ [VPkts opts; VBytes data])
  = Ok (20 + Z.of_nat (length opts) + blen data).
Proof.
  intros c xs opts data L F LO LD. unfold struct_packet_size.
  assert (E : flat_map vec_count xs = []).
  { clear L. induction F as [|x l (z & ->) F IH]; [reflexivity|]. cbn [flat_map vec_count app]. exact IH. }
  rewrite flat_map_app, E. cbn [app flat_map vec_count].
  change (total_bits (tcp c)) with 160. unfold current_offset. cbn [fold_left bind].
  change (160 / 8) with 20. unfold blen in *.
  rewrite (add_small c _ 20) by lia. cbn [bind]. rewrite (add_small c) by lia. reflexivity.
Qed.

(** ** Iterating over packets with less than one byte of header *)
Lemma zero_size_repeats : forall c fs b, scoped [] fs -> 0 < blen b -> new fs b = Some b ->
  pos_after (fun n => get c fs n b) b fs 0 0 (header_bits fs) -> header_bits fs < 8 ->
  iter_next (sem_of c fs) b = Ok (Some (b, b)).
Proof.
  intros c fs b S B N P H. unfold iter_next, sem_of. cbn [k_min k_size].
  assert (H0 := header_bits_pos fs [] S).
  rewrite (api_packet_size c b fs (header_bits fs)) by (auto; lia).
  unfold new in N. destruct (minimum_packet_size fs <=? blen b); [|discriminate].
  replace (0 <? blen b) with true by lia. cbn [andb bind].
  replace (header_bits fs / 8) with 0 by lia. replace (Z.min 0 (blen b)) with 0 by lia. reflexivity.
Qed.

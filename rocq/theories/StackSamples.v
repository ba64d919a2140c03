(** Sample stacks of packets for the examples beside the claims, and a tactic
    that shows that the values of a concrete struct belong together. *)
From Coq Require Import String ZArith List Bool Lia ZifyBool.
From Verif Require Import Base BitSpec DeriveUtil DeriveOps DeriveGen SpecStruct Protocols SpecProto SpecStack Samples.
Import ListNotations.
Open Scope Z_scope.

(** A UDP datagram in an IPv4 packet with one option in an Ethernet frame. *)
Definition udp_layer (p : buf) : layer :=
  Layer "Udp" udp [VInt 5353; VInt 53; VInt 11; VInt 48879; VBytes p].
Definition ipv4_layer (p : buf) : layer :=
  Layer "Ipv4" (ipv4 dbg)
    [VInt 4; VInt 6; VInt 0; VInt 0; VInt 35; VInt 7; VInt 2; VInt 0; VInt 64; VTup [17]; VInt 4660;
     VTup [10; 0; 0; 1]; VTup [10; 0; 0; 2];
     VPkts [[VInt 1; VInt 0; VTup [20]; VBytes [4]; VBytes [9; 9]]]; VBytes p].
Definition ethernet_layer (p : buf) : layer :=
  Layer "Ethernet" ethernet [VTup [1; 2; 3; 4; 5; 6]; VTup [7; 8; 9; 10; 11; 12]; VTup [2048]; VBytes p].
Definition frame (data : buf) : buf :=
  [1; 2; 3; 4; 5; 6; 7; 8; 9; 10; 11; 12; 8; 0] ++
  [70; 0; 0; 35; 0; 7; 64; 0; 64; 17; 18; 52; 10; 0; 0; 1; 10; 0; 0; 2; 148; 4; 9; 9] ++
  [20; 233; 0; 53; 0; 11; 190; 239] ++ data.

Lemma bytes_case : forall b, forallb (fun z => (0 <=? z) && (z <? 256))%bool b = true -> bytes_ok b.
Proof.
  intros b H. apply Forall_forall. intros x IN. rewrite forallb_forall in H. specialize (H x IN).
  unfold byte_ok. lia.
Qed.
Ltac packet_vals := repeat match goal with
  | |- Forall2 _ _ _ => constructor
  | |- Forall _ _ => constructor
  | |- True => exact I
  | |- forall r, _ = Ok _ => intros r; vm_compute; reflexivity
  | |- match f_len _ with _ => _ end => cbn [f_len one int fld vfld pfld pall mac ip4 ip6]
  | |- typed_val _ _ _ => unfold typed_val; cbn [f_ty one int fld vfld pfld pall mac ip4 ip6]
  | |- _ <= _ < _ => split; [apply Z.leb_le|apply Z.ltb_lt]; vm_compute; reflexivity
  | |- bytes_ok _ => apply bytes_case; vm_compute; reflexivity
  | |- elem_ok _ _ _ _ => split; [|split; [|vm_compute; reflexivity]]; unfold elem_schema, typed, consistent;
      cbn [f_name fld vfld String.eqb Ascii.eqb Bool.eqb orb andb]; unfold ipv4_option, tcp_option, ndp_option, bytes_ty
  end.
Ltac packet_case := split; [|split; [|vm_compute; reflexivity]];
  cbn [udp_layer ipv4_layer ethernet_layer y_name y_schema y_struct];
  unfold typed, consistent, udp, ipv4, ethernet, tcp; packet_vals.

(** The text of getters and setters against the specification of packet bits. *)
From Coq Require Import String ZArith List Bool Lia ZifyBool ZifyNat.
From Verif Require Import Base BitSpec BaseFacts DeriveUtil DeriveOps DeriveGen DeriveParse SpecPacket DeriveGenProofs DeriveAccProofs
  EmitText SpecRust EmitTextProofs.
Import ListNotations.
Open Scope Z_scope.
Ltac Zify.zify_post_hook ::= Z.to_euclidean_division_equations.

Lemma place_supported : forall h bit p, place_ok h bit p -> supported bit (p_size p).
Proof. intros h bit p [S P]. split; [exact S|]. destruct (big_endian h (p_end p)); lia. Qed.

Theorem getter_text_value : forall c bit ty size e x name, parse_ty ty = Some (size, e, x) -> type_width ty <> None ->
  In name buffer_names -> 0 <= bit -> place_ok (c_host_le c) bit (Prim size e) ->
  exists ops l, plan c bit (Prim size e) = Some ops /\ block (get_body name ty ops) = Some l /\
    forall b co, bytes_ok b -> blen b < 2 ^ 63 -> 0 <= co -> 8 * co + bit mod 8 + size <= 8 * blen b ->
      returns (c_mode c) b [("co", usize)]%string [("co", co)]%string l =
      Ok (dec_prim (c_host_le c) (Prim size e) (field_bits b (Z.to_nat (8 * co + bit mod 8)) (Z.to_nat size))).
Proof.
  intros c bit ty size e x name P T N B PL.
  destruct (getter_text c bit ty size e x name P T N (place_supported _ _ _ PL)) as (ops & l & E & BL & _ & R).
  exists ops, l. split; [exact E|]. split; [exact BL|]. intros b co BO L CO H. rewrite R by exact BO.
  apply prim_get_dec; assumption.
Qed.
Theorem setter_text_bits : forall c bit ty size e x name, parse_ty ty = Some (size, e, x) -> type_width ty <> None ->
  In name buffer_names -> 0 <= bit -> place_ok (c_host_le c) bit (Prim size e) ->
  exists ops l, plan c bit (Prim size e) = Some ops /\ block (set_body name (to_mutator ops)) = Some l /\
    forall b co val, bytes_ok b -> blen b < 2 ^ 63 -> 0 <= co -> 0 <= val -> 8 * co + bit mod 8 + size <= 8 * blen b ->
      exists b', assigns (c_mode c) [("co", usize); ("val", container size)]%string [("co", co); ("val", val)]%string l b = (b', Ok tt) /\
        bits_written b (Z.to_nat (8 * co + bit mod 8)) (enc_prim (c_host_le c) (Prim size e) val) b'.
Proof.
  intros c bit ty size e x name P T N B PL.
  destruct (setter_text c bit ty size e x name P T N (place_supported _ _ _ PL)) as (ops & l & E & BL & R & _).
  exists ops, l. split; [exact E|]. split; [exact BL|]. intros b co val BO L CO V H.
  destruct R as [_ R]. { intros (X & Y & _). destruct PL as [_ PL]. cbn [p_end] in PL. rewrite X in PL. lia. }
  rewrite R by exact BO. apply prim_set_enc; assumption.
Qed.

(** populate() and the setters of lists of packets, for the structs of the
    crate (C85, C86). *)
From Coq Require Import String ZArith List Bool Lia ZifyBool ZifyNat.
From Verif Require Import Base BitSpec DeriveUtil DeriveOps BaseFacts DeriveGen SpecPacket SpecStruct
  DeriveGenProofs DeriveVarProofs DeriveStructProofs DerivePropProofs3 SpecPopulate DerivePopulateProofs
  Protocols ProtoFacts SpecProto ProtoStructProofs.
Import ListNotations.
Open Scope Z_scope.
Ltac Zify.zify_post_hook ::= Z.to_euclidean_division_equations.

Section P.
Variable c : cfg.

Lemma elem_short : forall n fs f k, In (n, fs) (crate_schemas c) -> In f fs -> f_ty f = TVecPkt k ->
  short_panics k (elem_wire c n (f_name f)) (elem_ok c n (f_name f)).
Proof.
  intros n fs f k IN IF T. destruct (elem_known c n fs f k IN IF T) as (m & I1 & I2 & ->).
  set (es := elem_schema c n (f_name f)) in *.
  destruct (crate_well_formed c m es I1) as (S & SO & _). destruct (crate_header c m es I1) as (M & _ & _).
  intros x b W B L H.
  destruct (struct_short c (fun _ _ => []) (fun _ _ => False) es x b) as (b' & e & E); auto.
  - eapply schema_ok_inner; [exact SO|]. intros g k' IG TG. destruct (elem_flat c m es I1 I2 g k' IG TG).
  - intros g k' IG TG. destruct (elem_flat c m es I1 I2 g k' IG TG).
  - split; auto.
  - exists b', e. change (k_populate (sem_of c es) x b) with (populate c es x b). split; [exact E|].
    assert (K := populate_keeps c es x (crate_keeps c m es I1) b). now rewrite E in K.
Qed.

Theorem crate_populate : forall n fs xs b, In (n, fs) (crate_schemas c) ->
  packet_ok c n fs xs -> buf_ok b ->
  let w := packet_wire c n fs xs in
  (blen w <= blen b -> populate c fs xs b = (w ++ skipn (length w) b, Ok tt)) /\
  (blen b < blen w -> exists b' e, populate c fs xs b = (b', Panic e) /\ length b' = length b).
Proof.
  intros n fs xs b IN OK BO w. destruct (crate_well_formed c n fs IN) as (S & SO & LP).
  destruct (crate_header c n fs IN) as (M & _ & _).
  assert (SC : schema_ok (c_host_le c) (fun m k => codec k (elem_wire c n m) (elem_ok c n m)) fs 0).
  { eapply schema_ok_inner; [exact SO|]. intros f k IF T. now apply (elem_sound c n fs). }
  split; intros H.
  - apply (struct_populate c (elem_wire c n) (elem_ok c n)); auto.
  - destruct (struct_short c (elem_wire c n) (elem_ok c n) fs xs b) as (b' & e & E); auto.
    + intros f k IF T. now apply (elem_short n fs).
    + exists b', e. split; [exact E|].
      assert (K := populate_keeps c fs xs (crate_keeps c n fs IN) b). now rewrite E in K.
Qed.

Theorem crate_set_list : forall n fs pre f post k b pos len xs, In (n, fs) (crate_schemas c) ->
  fs = pre ++ f :: post -> f_ty f = TVecPkt k -> Forall (elem_ok c n (f_name f)) xs -> buf_ok b ->
  pos_after (fun x => get c fs x b) b pre 0 0 pos -> own_len (fun x => get c fs x b) b (pos / 8) f len ->
  0 <= len -> pos / 8 + len < 2 ^ 64 -> pos / 8 <= blen b ->
  let a := pos / 8 in let w := written (elem_wire c n (f_name f)) len xs in
  (a + blen w <= blen b ->
     set c fs (f_name f) (VPkts xs) b =
       (splice b (Z.to_nat a) w,
        if blen (concat (map (elem_wire c n (f_name f)) xs)) <=? len then Ok tt else Panic EAssert)) /\
  (blen b < a + blen w ->
     exists b' e, set c fs (f_name f) (VPkts xs) b = (b', Panic e) /\ same_before a b b').
Proof.
  intros n fs pre f post k b pos len xs IN E T FW BO PA OL LN U1 U2.
  destruct (crate_well_formed c n fs IN) as (S & SO & LP).
  assert (IF : In f fs) by (rewrite E; apply in_elt).
  destruct (elem_sound c n fs f k IN IF T) as [CD _].
  apply (api_set_pkts_all c (elem_wire c n) (elem_ok c n) b fs pre f post pos k); auto.
  now apply (elem_short n fs).
Qed.
End P.

(** Packets inside packets (C81, C82): the claims.  Definitions: SpecStack.v. *)
From Coq Require Import String ZArith List Bool Lia.
From Verif Require Import Base DeriveUtil DeriveOps DeriveGen SpecStruct Protocols SpecProto SpecStack Samples StackSamples.
From Verif Require Import StackProofs StackEditProofs.
Import ListNotations.
Open Scope Z_scope.

Theorem C81_stack_is_recovered : forall c ls data w, stacked c ls data w ->
  peel c (map y_schema ls) w = Ok (Some (map y_struct ls, data)).
Proof. exact peel_stacked. Qed.
Print Assumptions C81_stack_is_recovered.

Theorem C81_stack_is_built : forall c ls blanks data w, stacked c ls data w ->
  Forall2 same_header ls blanks ->
  build c blanks data = (w, Ok tt).
Proof. exact build_stacked. Qed.
Print Assumptions C81_stack_is_built.

Theorem C81_payload_is_the_payload_field : forall c n fs b xs q, In (n, fs) (crate_schemas c) -> buf_ok b ->
  from_packet c fs b = Ok xs -> payload_val fs xs = Some q -> payload c fs b = Ok q.
Proof. exact payload_is_field. Qed.
Print Assumptions C81_payload_is_the_payload_field.

Theorem C81_inner_views_are_parts : forall c fss b xss d, peel c fss b = Ok (Some (xss, d)) ->
  part_of d b /\ length xss = length fss.
Proof. exact peel_part. Qed.
Print Assumptions C81_inner_views_are_parts.

Example C81_case :
  let d := [104; 105; 33] in
  let u := udp_layer d in
  let i := ipv4_layer (skipn 38 (frame d)) in
  let e := ethernet_layer (skipn 14 (frame d)) in
  stacked dbg [e; i; u] d (frame d) /\
  peel dbg [ethernet; ipv4 dbg; udp] (frame d) = Ok (Some (map y_struct [e; i; u], d)) /\
  build dbg [ethernet_layer []; ipv4_layer []; udp_layer []] d = (frame d, Ok tt) /\
  peel dbg [ethernet; ipv4 dbg; udp] (firstn 40 (frame d)) = Ok None.
Proof.
  cbv zeta. split; [|vm_compute; auto].
  exists (skipn 14 (frame [104; 105; 33])). split; [|].
  1: exists (skipn 38 (frame [104; 105; 33])); split.
  1: exists [104; 105; 33]; split; [reflexivity|].
  all: split; [unfold crate_schemas; cbn [In udp_layer ipv4_layer ethernet_layer y_name y_schema]; tauto|].
  all: split; [|split; vm_compute; reflexivity].
  all: packet_case.
Qed.

Theorem C82_edit_keeps_the_layers_around : forall c f ls data w, stacked c ls data w ->
  length (fst (f data)) = length data -> bytes_ok (fst (f data)) ->
  exists ks v, edit c (map y_schema ls) f w = (v, snd (f data)) /\ stacked c ks (fst (f data)) v /\
    Forall2 same_header ls ks /\ length v = length w /\ (ls <> [] -> bytes_ok v).
Proof. exact edit_stacked. Qed.
Print Assumptions C82_edit_keeps_the_layers_around.

Theorem C82_edit_touches_the_inner_bytes_only : forall c f, (forall d, length (fst (f d)) = length d) ->
  forall fss b xss d, peel c fss b = Ok (Some (xss, d)) ->
  exists pre post, b = pre ++ d ++ post /\ edit c fss f b = (pre ++ fst (f d) ++ post, snd (f d)).
Proof. exact edit_frame. Qed.
Print Assumptions C82_edit_touches_the_inner_bytes_only.

Theorem C82_edit_keeps_the_length : forall c f, (forall d, length (fst (f d)) = length d) ->
  forall fss b, length (fst (edit c fss f b)) = length b.
Proof. exact edit_length. Qed.
Print Assumptions C82_edit_keeps_the_length.

(** Another destination port for the datagram in the frame. *)
Example C82_case :
  let d := [104; 105; 33] in
  edit dbg [ethernet; ipv4 dbg] (set dbg udp "destination" (VInt 5354)) (frame d) =
    (firstn 40 (frame d) ++ [20; 234] ++ skipn 42 (frame d), Ok tt) /\
  (exists e, edit dbg [ethernet; ipv4 dbg] (set dbg udp "destination" (VInt 5354)) (firstn 40 (frame d)) =
    (firstn 40 (frame d), Panic e)) /\
  edit dbg [ethernet; ipv4 dbg] (fun b => (map (fun _ => 0) b, Ok tt)) (frame d) =
    (firstn 38 (frame d) ++ repeat 0 11, Ok tt).
Proof. cbv zeta. split; [|split; [eexists|]]; vm_compute; reflexivity. Qed.

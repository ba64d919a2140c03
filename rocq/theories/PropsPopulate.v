(** Filling buffers: lists of sub-packets (C85) and whole structs (C86). *)
From Coq Require Import String ZArith List Bool Lia.
From Verif Require Import Base DeriveUtil DeriveOps DeriveGen SpecPacket SpecStruct SpecPopulate Samples
  Protocols ProtoMethods ProtoFacts SpecProto StackSamples ProtoPopulateProofs.
Import ListNotations.
Open Scope Z_scope.

(** ** C85: setting a list of options *)

Theorem C85_list_setter_effect : forall c n fs pre f post k b pos len xs, In (n, fs) (crate_schemas c) ->
  fs = pre ++ f :: post -> f_ty f = TVecPkt k -> Forall (elem_ok c n (f_name f)) xs -> buf_ok b ->
  pos_after (fun x => get c fs x b) b pre 0 0 pos -> own_len (fun x => get c fs x b) b (pos / 8) f len ->
  0 <= len -> pos / 8 + len < 2 ^ 64 -> pos / 8 <= blen b ->
  let a := pos / 8 in let w := written (elem_wire c n (f_name f)) len xs in
  (a + blen w <= blen b ->
     set c fs (f_name f) (VPkts xs) b =
       (splice b (Z.to_nat a) w,
        if blen (concat (map (elem_wire c n (f_name f)) xs)) <=? len then Ok tt else Panic EAssert)) /\
  (blen b < a + blen w ->
     exists b' e, set c fs (f_name f) (VPkts xs) b = (b', Panic e) /\ same_before a b b').
Proof. exact crate_set_list. Qed.
Print Assumptions C85_list_setter_effect.

(** Four bytes of options are announced; two options of three and two bytes are
    stored.  The second one is stored although it does not fit, over the first
    byte of the payload, and then the assertion fails. *)
Example C85_case :
  let xs := [opt_wscale 9; opt_sack_perm] in
  let G x := get dbg (tcp dbg) x tcp_opt_buf in
  Forall (elem_ok dbg "Tcp" "options") xs /\
  pos_after G tcp_opt_buf (firstn 10 (tcp dbg)) 0 0 160 /\
  own_len G tcp_opt_buf 20 (nth 10 (tcp dbg) (int "" 0)) 4 /\
  written (elem_wire dbg "Tcp" "options") 4 xs = [3; 3; 9; 4; 2] /\
  set dbg (tcp dbg) "options" (VPkts xs) tcp_opt_buf = (splice tcp_opt_buf 20 [3; 3; 9; 4; 2], Panic EAssert) /\
  payload dbg (tcp dbg) tcp_opt_buf = Ok [42; 43] /\
  payload dbg (tcp dbg) (splice tcp_opt_buf 20 [3; 3; 9; 4; 2]) = Ok [2; 43] /\
  (exists b', set dbg (tcp dbg) "options" (VPkts xs) (firstn 24 tcp_opt_buf) = (b', Panic EIndex)).
Proof. split; [unfold opt_wscale, opt_sack_perm; packet_vals|]. vm_compute. repeat split. eauto. Qed.

Theorem C85_failed_set_leaves_the_payload_refuted : exists b xs b',
  buf_ok b /\ Forall (elem_ok dbg "Tcp" "options") xs /\ new (tcp dbg) b = Some b /\
  set dbg (tcp dbg) "options" (VPkts xs) b = (b', Panic EAssert) /\
  payload dbg (tcp dbg) b' <> payload dbg (tcp dbg) b.
Proof.
  exists tcp_opt_buf, [opt_wscale 9; opt_sack_perm], (splice tcp_opt_buf 20 [3; 3; 9; 4; 2]).
  split; [split; [repeat constructor; lia|reflexivity]|]. split; [unfold opt_wscale, opt_sack_perm; packet_vals|].
  vm_compute. repeat split. discriminate.
Qed.
Print Assumptions C85_failed_set_leaves_the_payload_refuted.

(** ** C86: populate() writes everything or panics *)

Theorem C86_populate_never_truncates : forall c n fs xs b, In (n, fs) (crate_schemas c) ->
  packet_ok c n fs xs -> buf_ok b ->
  let w := packet_wire c n fs xs in
  (blen w <= blen b -> populate c fs xs b = (w ++ skipn (length w) b, Ok tt)) /\
  (blen b < blen w -> exists b' e, populate c fs xs b = (b', Panic e) /\ length b' = length b).
Proof. exact crate_populate. Qed.
Print Assumptions C86_populate_never_truncates.

Example C86_case :
  let xs := [VInt 80; VInt 51201; VInt 1; VInt 2; VInt 6; VInt 0; VInt 2; VInt 4096; VInt 4660; VInt 0;
             VPkts [[VTup [3]; VBytes [3]; VBytes [7]]; [VTup [1]; VBytes []; VBytes []]]; VBytes [42; 43]] in
  packet_ok dbg "Tcp" (tcp dbg) xs /\ packet_wire dbg "Tcp" (tcp dbg) xs = tcp_opt_buf /\
  populate dbg (tcp dbg) xs (repeat 255 28) = (tcp_opt_buf ++ [255; 255], Ok tt) /\
  populate dbg (tcp dbg) xs (repeat 255 25) = (firstn 24 tcp_opt_buf ++ [255], Panic EIndex) /\
  snd (populate dbg (tcp dbg) xs (repeat 255 22)) = Panic EIndex /\
  new (tcp dbg) (repeat 255 22) = Some (repeat 255 22).
Proof. split; [packet_case|]. vm_compute. repeat split. Qed.

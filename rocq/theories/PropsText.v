(** Property C09: the text of generated getters and setters. *)
From Coq Require Import String ZArith List Bool Lia.
From Verif Require Import Base BitSpec DeriveUtil DeriveOps DeriveGen DeriveParse SpecPacket EmitText SpecRust Samples
  EmitTextProofs EmitSpecProofs.
Import ListNotations.
Open Scope Z_scope.

(** ** The getter body parses, is well typed and means the planned operations *)

Theorem C09_getter_text_is_rust : forall c bit ty size e x name,
  parse_ty ty = Some (size, e, x) -> type_width ty <> None ->
  In name buffer_names -> supported bit size ->
  exists ops l, plan c bit (Prim size e) = Some ops /\ block (get_body name ty ops) = Some l /\
    typed [("co", usize)]%string (Some (container size)) l = true /\
    forall b co, bytes_ok b ->
      returns (c_mode c) b [("co", usize)]%string [("co", co)]%string l = prim_get c bit (Prim size e) b co.
Proof. exact getter_text. Qed.
Print Assumptions C09_getter_text_is_rust.

Example C09_getter_case : parse_ty "u13be" = Some (13, Big, true) /\ type_width "u13be" = Some 16 /\ supported 51 13 /\
  (exists ops, plan dbg 51 (Prim 13 Big) = Some ops /\
    get_body "self.packet" "u13be" ops = String.concat newline
     ["{let b0 = (((self.packet[co + 0] as u13be) & 0x1f) << 8) as u13be;";
      "let b1 = ((self.packet[co + 1] as u13be)) as u13be;"; ""; "b0 | b1"; "}"]%string /\
    block (get_body "self.packet" "u13be" ops) <> None).
Proof.
  split; [reflexivity|]. split; [reflexivity|]. split; [split; [lia|vm_compute; discriminate]|].
  eexists. split; [vm_compute; reflexivity|]. split; [vm_compute; reflexivity|]. vm_compute. discriminate.
Qed.

(** ** So does the setter body, except for twelve little-endian placements whose
    mask literal does not fit the type of the value *)

Theorem C09_setter_text_is_rust : forall c bit ty size e x name,
  parse_ty ty = Some (size, e, x) -> type_width ty <> None ->
  In name buffer_names -> supported bit size ->
  exists ops l, plan c bit (Prim size e) = Some ops /\ block (set_body name (to_mutator ops)) = Some l /\
    (~ (big_endian (c_host_le c) e = false /\ 5 <= bit mod 8 /\ (size = 16 \/ size = 32)) ->
     typed [("co", usize); ("val", container size)]%string None l = true /\
     forall b co val, bytes_ok b ->
       assigns (c_mode c) [("co", usize); ("val", container size)]%string [("co", co); ("val", val)]%string l b =
       prim_set c bit (Prim size e) val co b) /\
    (big_endian (c_host_le c) e = false /\ 5 <= bit mod 8 /\ (size = 16 \/ size = 32) ->
     typed [("co", usize); ("val", container size)]%string None l = false).
Proof. exact setter_text. Qed.
Print Assumptions C09_setter_text_is_rust.

Example C09_setter_case : supported 51 13 /\ supported 5 16 /\ big_endian true Little = false /\
  (exists ops, plan dbg 51 (Prim 13 Big) = Some ops /\
    set_body "self.packet" (to_mutator ops) = String.concat newline
     ["{self.packet[co + 0] = ((self.packet[co + 0] & 0xe0) | ((val & 0x1f00) >> 8) as u8) as u8;";
      "self.packet[co + 1] = (val) as u8;"; "}"]%string) /\
  (exists ops l, plan dbg 5 (Prim 16 Little) = Some ops /\ block (set_body "self.packet" (to_mutator ops)) = Some l /\
    typed [("co", usize); ("val", 16)]%string None l = false).
Proof.
  split; [split; [lia|vm_compute; discriminate]|]. split; [split; [lia|vm_compute; discriminate]|]. split; [reflexivity|].
  split.
  - eexists. split; [vm_compute; reflexivity|]. vm_compute. reflexivity.
  - eexists. eexists. split; [vm_compute; reflexivity|].
    split; [vm_compute; reflexivity|]. vm_compute. reflexivity.
Qed.

(** ** Run on a buffer, the texts read and write the bits of the field *)

Theorem C09_getter_text_reads_the_field : forall c bit ty size e x name,
  parse_ty ty = Some (size, e, x) -> type_width ty <> None ->
  In name buffer_names -> 0 <= bit -> place_ok (c_host_le c) bit (Prim size e) ->
  exists ops l, plan c bit (Prim size e) = Some ops /\ block (get_body name ty ops) = Some l /\
    forall b co, bytes_ok b -> blen b < 2 ^ 63 -> 0 <= co -> 8 * co + bit mod 8 + size <= 8 * blen b ->
      returns (c_mode c) b [("co", usize)]%string [("co", co)]%string l =
      Ok (dec_prim (c_host_le c) (Prim size e) (field_bits b (Z.to_nat (8 * co + bit mod 8)) (Z.to_nat size))).
Proof. exact getter_text_value. Qed.
Print Assumptions C09_getter_text_reads_the_field.

Theorem C09_setter_text_writes_the_field : forall c bit ty size e x name,
  parse_ty ty = Some (size, e, x) -> type_width ty <> None ->
  In name buffer_names -> 0 <= bit -> place_ok (c_host_le c) bit (Prim size e) ->
  exists ops l, plan c bit (Prim size e) = Some ops /\ block (set_body name (to_mutator ops)) = Some l /\
    forall b co val, bytes_ok b -> blen b < 2 ^ 63 -> 0 <= co -> 0 <= val -> 8 * co + bit mod 8 + size <= 8 * blen b ->
      exists b', assigns (c_mode c) [("co", usize); ("val", container size)]%string [("co", co); ("val", val)]%string l b = (b', Ok tt) /\
        bits_written b (Z.to_nat (8 * co + bit mod 8)) (enc_prim (c_host_le c) (Prim size e) val) b'.
Proof. exact setter_text_bits. Qed.
Print Assumptions C09_setter_text_writes_the_field.

Example C09_text_case : place_ok true 12 (Prim 12 Big) /\ parse_ty "u12be" = Some (12, Big, true) /\
  exists ops l k, plan dbg 12 (Prim 12 Big) = Some ops /\
    block (get_body "_self.packet" "u12be" ops) = Some l /\ block (set_body "_self.packet" (to_mutator ops)) = Some k /\
    returns Checked [1; 2; 3] [("co", usize)]%string [("co", 1)]%string l = Ok 515 /\
    assigns Checked [("co", usize); ("val", 16)]%string [("co", 1); ("val", 2730)]%string k [17; 18; 19] = ([17; 26; 170], Ok tt).
Proof.
  split; [split; [cbn; lia|vm_compute; discriminate]|]. split; [reflexivity|].
  eexists. eexists. eexists. split; [vm_compute; reflexivity|]. split; [vm_compute; reflexivity|]. split; [vm_compute; reflexivity|].
  split; vm_compute; reflexivity.
Qed.

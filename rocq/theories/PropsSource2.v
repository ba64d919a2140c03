(** Property C96: the planning and printing functions of the derive crate, run from their
    source text. *)
From Coq Require Import String ZArith List Bool Lia.
From Verif Require Import Base BitSpec DeriveUtil DeriveOps DeriveGen DeriveParse SpecPacket EmitText SpecRust Samples
  RustAst RustEval CrateText2 SpecSource2 DeriveSrc4.
From Verif Require RustSem.
Import ListNotations.
Open Scope string_scope.
Open Scope Z_scope.

(** ** C96: functions *)

(** derive/src/util.rs: for every offset, size and byte order, the text of [operations] and
    of all it calls computes the plan of the model, or its panic. *)
Theorem C96_operations_source : forall c rounds o s e, is_usize o -> is_usize s -> (9 <= rounds)%nat ->
  run c rounds "derive" "operations" [usize_v o; usize_v s; endian_v e] =
  outcome (opt_v plan_v) (operations (c_macro c) (c_host_le c) o s e).
Proof. exact operations_run. Qed.
Print Assumptions C96_operations_source.

Theorem C96_helpers_source : forall c rounds, (65 <= rounds)%nat ->
  (forall o n, is_usize o -> is_usize n -> run c rounds "derive" "get_mask" [usize_v o; usize_v n] = outcome pair_v (get_mask o n)) /\
  (forall o n, 0 <= o <= 8 -> is_usize n -> run c rounds "derive" "bits_remaining_in_byte" [usize_v o; usize_v n] = FDone (usize_v (bits_in_byte o n))) /\
  (forall o s i n, is_usize o -> is_usize s -> 0 <= i < 2 ^ 60 -> 0 <= n < 2 ^ 60 ->
     run c rounds "derive" "get_shiftl" [usize_v o; usize_v s; usize_v i; usize_v n] = outcome u8_v (get_shiftl (c_macro c) o s i n) /\
     run c rounds "derive" "get_shiftr" [usize_v o; usize_v s; usize_v i; usize_v n] = outcome u8_v (get_shiftr (c_macro c) o s i n)) /\
  (forall n, 0 <= n <= 64 -> run c rounds "derive" "mask_high_bits" [u64_v n] = FDone (u64_v (mask_high_bits n))) /\
  (forall l, run c rounds "derive" "to_little_endian" [plan_v l] = FDone (plan_v (to_little_endian l))).
Proof. exact helpers_run. Qed.
Print Assumptions C96_helpers_source.

Theorem C96_mutator_source : forall c rounds l, Forall (fun o => getop_ok o /\ g_shiftl o < 64) l -> (65 <= rounds)%nat ->
  run c rounds "derive" "to_mutator" [plan_v l] = FDone (XL (map setop_v (to_mutator l))).
Proof. exact mutator_run. Qed.
Print Assumptions C96_mutator_source.

(** [Display] of the operations and of the byte order, and the digits they use. *)
Theorem C96_display_source : forall c rounds, (17 <= rounds)%nat ->
  (forall z, is_u8 z -> run c rounds "derive" "radix16_u8" [u8_v z] = FDone (XS (hex z))) /\
  (forall z, 0 <= z < 2 ^ 64 -> run c rounds "derive" "radix16_u64" [u64_v z] = FDone (XS (hex z))) /\
  (forall o, getop_ok o -> run c rounds "derive" "GetOperation::fmt" [getop_v o] = FDone (XS (get_op_text o))) /\
  (forall o, setop_ok o -> run c rounds "derive" "SetOperation::fmt" [setop_v o] = FDone (XS (set_op_text o))) /\
  (forall e, run c rounds "derive" "Endianness::fmt" [endian_v e] =
             FDone (XS (match e with Big => "big-endian" | Little => "little-endian" | Host => "host-endian" end))).
Proof. exact display_run. Qed.
Print Assumptions C96_display_source.

(** derive/src/gen.rs: the bodies.  An empty plan makes [build_return] subtract below zero. *)
Theorem C96_getter_text_source : forall c rounds name ty l, Forall getop_ok l -> (List.length l <= 9)%nat -> (17 <= rounds)%nat ->
  run c rounds "derive" "gen_get_ops" [XS name; XS ty; plan_v l] =
  outcome XS (match l, c_macro c with [], Checked => Panic EOverflow | _, _ => Ok (get_body name ty l) end).
Proof. exact getter_text_run. Qed.
Print Assumptions C96_getter_text_source.

Theorem C96_setter_text_source : forall c rounds name l, Forall setop_ok l -> (17 <= rounds)%nat ->
  run c rounds "derive" "gen_set_ops" [XS name; XL (map setop_v l)] = FDone (XS (set_body name l)).
Proof. exact setter_text_run. Qed.
Print Assumptions C96_setter_text_source.

Definition c96_op : getop := GetOp 31 8 0.
Example C96_case :
  map fu_name (match code_of "derive" with Some l => l | None => [] end) =
    ["Endianness::fmt"; "GetOperation::fmt"; "radix16_u8"; "radix16_u64"; "SetOperation::fmt"; "get_mask"; "bits_remaining_in_byte";
     "round_down"; "get_shiftl"; "get_shiftr"; "operations"; "mask_high_bits"; "to_mutator"; "num_bits_set"; "to_little_endian";
     "gen_set_ops"; "gen_get_ops"; "build_return"] /\
  is_usize 3 /\ is_usize 13 /\ run dbg 9 "derive" "operations" [usize_v 3; usize_v 13; endian_v Big] =
    FDone (XE "Some" [plan_v [c96_op; GetOp 255 0 0]]) /\
  run dbg 9 "derive" "operations" [usize_v 7; usize_v 10; endian_v Big] = FPan EOverflow /\
  run dbg 9 "derive" "operations" [usize_v 8; usize_v 13; endian_v Big] = FDone (XE "None" []) /\
  getop_ok c96_op /\ g_shiftl c96_op < 64 /\ run dbg 65 "derive" "to_mutator" [plan_v [c96_op]] = FDone (XL [setop_v (SetOp 224 7936 0 8)]) /\
  run dbg 17 "derive" "GetOperation::fmt" [getop_v c96_op] = FDone (XS "({} & 0x1f) << 8") /\
  setop_ok (SetOp 224 7936 0 8) /\
  run dbg 17 "derive" "gen_set_ops" [XS "packet"; XL [setop_v (SetOp 224 7936 0 8)]] =
    FDone (XS ("{packet[co + 0] = ((packet[co + 0] & 0xe0) | ((val & 0x1f00) >> 8) as u8) as u8;" ++ newline ++ "}")) /\
  run dbg 17 "derive" "gen_get_ops" [XS "packet"; XS "u5"; plan_v [GetOp 31 0 0]] = FDone (XS "{((packet[co] as u5) & 0x1f)}") /\
  run dbg 17 "derive" "gen_get_ops" [XS "packet"; XS "u5"; plan_v []] = FPan EOverflow /\
  run dbg 65 "derive" "get_mask" [usize_v 9; usize_v 4] = FPan EAssert /\
  run dbg 65 "derive" "to_little_endian" [plan_v [GetOp 255 8 0; GetOp 255 0 0]] = FDone (plan_v [GetOp 255 0 0; GetOp 255 8 0]).
Proof. repeat split; try (vm_compute; reflexivity || (intro; discriminate)). Qed.

(** ** From the source of the macro to the bits of the field *)

(** Whatever integer type and supported place a field has: the texts of [operations] and of
    [gen_get_ops] print a body that parses and that reads the bits of the field. *)
Theorem C96_getter_from_source : forall c rounds bit ty size e x name,
  parse_ty ty = Some (size, e, x) -> type_width ty <> None ->
  In name buffer_names -> 0 <= bit -> place_ok (c_host_le c) bit (Prim size e) -> (65 <= rounds)%nat ->
  exists ops text l,
    run c rounds "derive" "operations" [usize_v (bit mod 8); usize_v size; endian_v e] = FDone (XE "Some" [ops]) /\
    run c rounds "derive" "gen_get_ops" [XS name; XS ty; ops] = FDone (XS text) /\
    block text = Some l /\
    forall b co, bytes_ok b -> blen b < 2 ^ 63 -> 0 <= co -> 8 * co + bit mod 8 + size <= 8 * blen b ->
      returns (c_mode c) b [("co", usize)] [("co", co)] l =
      Ok (dec_prim (c_host_le c) (Prim size e) (field_bits b (Z.to_nat (8 * co + bit mod 8)) (Z.to_nat size))).
Proof. exact getter_from_source. Qed.
Print Assumptions C96_getter_from_source.

Theorem C96_setter_from_source : forall c rounds bit ty size e x name,
  parse_ty ty = Some (size, e, x) -> type_width ty <> None ->
  In name buffer_names -> 0 <= bit -> place_ok (c_host_le c) bit (Prim size e) -> (65 <= rounds)%nat ->
  exists ops mut text l,
    run c rounds "derive" "operations" [usize_v (bit mod 8); usize_v size; endian_v e] = FDone (XE "Some" [ops]) /\
    run c rounds "derive" "to_mutator" [ops] = FDone mut /\
    run c rounds "derive" "gen_set_ops" [XS name; mut] = FDone (XS text) /\
    block text = Some l /\
    forall b co val, bytes_ok b -> blen b < 2 ^ 63 -> 0 <= co -> 0 <= val -> 8 * co + bit mod 8 + size <= 8 * blen b ->
      exists b', assigns (c_mode c) [("co", usize); ("val", container size)] [("co", co); ("val", val)] l b = (b', Ok tt) /\
        bits_written b (Z.to_nat (8 * co + bit mod 8)) (enc_prim (c_host_le c) (Prim size e) val) b'.
Proof. exact setter_from_source. Qed.
Print Assumptions C96_setter_from_source.

Example C96_from_source_case : parse_ty "u13be" = Some (13, Big, true) /\ type_width "u13be" = Some 16 /\
  In "self.packet" buffer_names /\ place_ok true 51 (Prim 13 Big) /\
  run dbg 65 "derive" "gen_get_ops" [XS "self.packet"; XS "u13be"; plan_v [c96_op; GetOp 255 0 0]] =
    FDone (XS (String.concat newline
     ["{let b0 = (((self.packet[co + 0] as u13be) & 0x1f) << 8) as u13be;";
      "let b1 = ((self.packet[co + 1] as u13be)) as u13be;"; ""; "b0 | b1"; "}"])) /\
  dec_prim true (Prim 13 Big) (field_bits [0; 243; 5] (Z.to_nat (8 * 1 + 51 mod 8)) 13) = 4869.
Proof. split; [reflexivity |]. split; [reflexivity |]. split; [cbn; tauto |]. split; [split; cbn; lia |]. split; vm_compute; reflexivity. Qed.

(** Properties C01-C21: the methods derived for a packet description. *)
From Coq Require Import String ZArith List Bool Lia.
From Verif Require Import Base BitSpec DeriveUtil DeriveOps DeriveGen SpecPacket Protocols Samples.
From Verif Require Import DeriveUtilProofs DeriveLEProofs DeriveVarProofs DeriveApiProofs DerivePropProofs DerivePropProofs2 DerivePropProofs3 ProtoFacts ProtoPayloadProofs.
Import ListNotations.
Open Scope Z_scope.

(** ** C01: constructors *)

Theorem C01_new_accepts_iff_header_fits : forall fs b, scoped [] fs ->
  new fs b = (if header_bits fs <=? 8 * blen b then Some b else None) /\
  8 * minimum_packet_size fs < header_bits fs + 8 /\ header_bits fs <= 8 * minimum_packet_size fs.
Proof. exact new_header. Qed.
Print Assumptions C01_new_accepts_iff_header_fits.

Example C01_case : scoped [] (tcp dbg) /\ header_bits (tcp dbg) = 160 /\
  new (tcp dbg) tcp_buf = Some tcp_buf /\ new (tcp dbg) (tl tcp_buf) = None.
Proof. split; [apply tcp_scoped|]. vm_compute. auto. Qed.

(** ** C02: getters *)

Theorem C02_getter_reads_exactly_its_bits : forall c fs pre f post n b pos,
  scoped [] fs -> fs = pre ++ f :: post ->
  f_ty f = TPrim (Prim n Big) -> buf_ok b ->
  pos_after (fun x => get c fs x b) b pre 0 0 pos -> supported pos n -> pos < 2 ^ 65 ->
  get c fs (f_name f) b =
  if pos + n <=? 8 * blen b then Ok (VInt (field_val b (Z.to_nat pos) (Z.to_nat n))) else Panic EIndex.
Proof. exact get_int. Qed.
Print Assumptions C02_getter_reads_exactly_its_bits.

Theorem C02_constructed_getter_reads_exactly_its_bits : forall c b fs pre f post pos,
  scoped [] fs -> fs = pre ++ f :: post ->
  fixed_ok (c_host_le c) (header_bits pre) (f_ty f) -> bit_width (f_ty f) <> 0 -> buf_ok b ->
  pos_after (fun n => get c fs n b) b pre 0 0 pos -> pos + bit_width (f_ty f) < 2 ^ 66 ->
  get c fs (f_name f) b =
  (if pos + bit_width (f_ty f) <=? 8 * blen b
   then Ok (dec_fixed (c_host_le c) (f_ty f)
              (field_bits b (Z.to_nat pos) (Z.to_nat (bit_width (f_ty f)))))
   else Panic EIndex).
Proof. exact api_get_fixed. Qed.
Print Assumptions C02_constructed_getter_reads_exactly_its_bits.

(** A 16-bit field behind a variable-length one. *)
Example C02_case : pos_after (fun x => get dbg kv x kv_buf) kv_buf kv_pre 0 0 24 /\ supported 24 16 /\
  get dbg kv "crc" kv_buf = Ok (VInt 43981) /\
  get dbg kv "crc" [47; 10; 11; 171] = Panic EIndex.
Proof.
  split; [|split; [unfold supported; lia|vm_compute; auto]].
  exists 2. split; [lia|]. split; [vm_compute; reflexivity|reflexivity].
Qed.

(** ** C03: setters *)

Theorem C03_setter_writes_exactly_its_bits : forall c fs pre f post n b pos v,
  scoped [] fs -> fs = pre ++ f :: post ->
  f_ty f = TPrim (Prim n Big) -> buf_ok b ->
  pos_after (fun x => get c fs x b) b pre 0 0 pos -> supported pos n -> 0 <= v ->
  pos + n <= 8 * blen b ->
  exists b', set c fs (f_name f) (VInt v) b = (b', Ok tt) /\
    field_written b (Z.to_nat pos) (Z.to_nat n) v b'.
Proof. exact set_int. Qed.
Print Assumptions C03_setter_writes_exactly_its_bits.

Theorem C03_setter_out_of_range_panics : forall c fs pre f post n b pos v,
  scoped [] fs -> fs = pre ++ f :: post ->
  f_ty f = TPrim (Prim n Big) -> buf_ok b ->
  pos_after (fun x => get c fs x b) b pre 0 0 pos -> supported pos n -> 0 <= v ->
  8 * blen b < pos + n -> pos < 2 ^ 65 ->
  snd (set c fs (f_name f) (VInt v) b) = Panic EIndex.
Proof. exact set_int_out. Qed.
Print Assumptions C03_setter_out_of_range_panics.

Theorem C03_constructed_setter_writes_exactly_its_bits : forall c b fs pre f post pos x,
  scoped [] fs -> fs = pre ++ f :: post ->
  fixed_ok (c_host_le c) (header_bits pre) (f_ty f) -> fixed_val (f_ty f) x -> buf_ok b ->
  pos_after (fun n => get c fs n b) b pre 0 0 pos ->
  pos + bit_width (f_ty f) <= 8 * blen b ->
  exists b', set c fs (f_name f) x b = (b', Ok tt) /\
    bits_written b (Z.to_nat pos) (enc_fixed (c_host_le c) (f_ty f) x) b'.
Proof. exact api_set_fixed. Qed.
Print Assumptions C03_constructed_setter_writes_exactly_its_bits.

Example C03_case : set dbg kv "crc" (VInt 4660) kv_buf = ([47; 10; 11; 18; 52; 7; 8], Ok tt) /\
  set dbg (tcp dbg) "flags" (VInt 1023) (map (fun _ => 0) tcp_buf)
  = ([0; 0; 0; 0; 0; 0; 0; 0; 0; 0; 0; 0; 1; 255; 0; 0; 0; 0; 0; 0], Ok tt).
Proof. vm_compute. auto. Qed.

(** ** C04: set, then get *)

Theorem C04_set_then_get : forall c fs pre f post b pos x,
  scoped [] fs -> fs = pre ++ f :: post ->
  schema_ok (c_host_le c) (fun _ _ => True) fs 0 -> lens_plain pre -> closed pre ->
  is_vec (f_ty f) = false -> 0 < bit_width (f_ty f) -> fixed_val (f_ty f) x -> buf_ok b ->
  pos_after (fun n => get c fs n b) b pre 0 0 pos -> pos + bit_width (f_ty f) <= 8 * blen b ->
  exists b', set c fs (f_name f) x b = (b', Ok tt) /\ length b' = length b /\
    get c fs (f_name f) b' = Ok (norm_val (f_ty f) x) /\
    forall n, In n (map f_name pre) -> get c fs n b' = get c fs n b.
Proof. exact set_get. Qed.
Print Assumptions C04_set_then_get.

Theorem C04_getter_range : forall c fs pre f post n b pos v,
  scoped [] fs -> fs = pre ++ f :: post ->
  f_ty f = TPrim (Prim n Big) -> buf_ok b ->
  pos_after (fun x => get c fs x b) b pre 0 0 pos -> supported pos n -> pos < 2 ^ 65 ->
  get c fs (f_name f) b = Ok (VInt v) -> 0 <= v < 2 ^ n.
Proof. exact get_range. Qed.
Print Assumptions C04_getter_range.

Example C04_case : let b' := fst (set dbg kv "crc" (VInt 70000) kv_buf) in
  norm_val (TPrim (u 16)) (VInt 70000) = VInt 4464 /\
  get dbg kv "crc" b' = Ok (VInt 4464) /\ get dbg kv "data" b' = get dbg kv "data" kv_buf.
Proof. vm_compute. auto. Qed.

(** ** C05: histories *)

Theorem C05_history_of_header_writes : forall c ops fs b,
  scoped [] fs -> buf_ok b -> new fs b = Some b ->
  Forall (fun o => exists pre f, header_field (c_host_le c) fs (fst o) pre f /\
                                 fixed_val (f_ty f) (snd o)) ops ->
  exists b', run c fs ops b = (b', Ok tt) /\ length b' = length b /\
    skipn (Z.to_nat (minimum_packet_size fs)) b' = skipn (Z.to_nat (minimum_packet_size fs)) b /\
    forall n pre f, header_field (c_host_le c) fs n pre f ->
      get c fs n b' = last_write n (f_ty f) ops (get c fs n b).
Proof. exact api_history. Qed.
Print Assumptions C05_history_of_header_writes.

Example C05_case :
  let ops := [("flags"%string, VInt 2); ("data_offset"%string, VInt 21); ("flags"%string, VInt 17)] in
  let b' := fst (run dbg (tcp dbg) ops tcp_buf) in
  get dbg (tcp dbg) "flags" b' = Ok (VInt 17) /\ get dbg (tcp dbg) "data_offset" b' = Ok (VInt 5) /\
  get dbg (tcp dbg) "reserved" b' = get dbg (tcp dbg) "reserved" tcp_buf /\
  header_field true (tcp dbg) "flags" (firstn 6 (tcp dbg)) (int "flags" 9).
Proof.
  cbv zeta. split; [|split; [|split; [|apply (header_nth dbg (tcp dbg) 6)]]]; try (vm_compute; reflexivity).
  - vm_compute. repeat constructor.
  - vm_compute. intuition discriminate.
Qed.

(** ** C06, C07: little-endian and host-endian integers *)

Theorem C06_little_endian_get : forall c fs pre f post n e b pos,
  scoped [] fs -> fs = pre ++ f :: post ->
  f_ty f = TPrim (Prim (8 * n) e) -> big_endian (c_host_le c) e = false -> 1 <= n <= 8 -> buf_ok b ->
  pos_after (fun x => get c fs x b) b pre 0 0 pos -> pos mod 8 = 0 -> pos < 2 ^ 65 ->
  get c fs (f_name f) b =
  if pos / 8 + n <=? blen b then Ok (VInt (le_val (clip b (pos / 8) n))) else Panic EIndex.
Proof. exact get_le. Qed.
Print Assumptions C06_little_endian_get.

Theorem C06_little_endian_set : forall c fs pre f post n e b pos v,
  scoped [] fs -> fs = pre ++ f :: post ->
  f_ty f = TPrim (Prim (8 * n) e) -> big_endian (c_host_le c) e = false -> 1 <= n <= 8 -> buf_ok b -> 0 <= v ->
  pos_after (fun x => get c fs x b) b pre 0 0 pos -> pos mod 8 = 0 -> pos / 8 + n <= blen b ->
  set c fs (f_name f) (VInt v) b = (splice b (Z.to_nat (pos / 8)) (le_bytes (Z.to_nat n) v), Ok tt).
Proof. exact set_le. Qed.
Print Assumptions C06_little_endian_set.

Example C06_case :
  get dbg le_demo "x" [9; 1; 2; 3; 0; 0] = Ok (VInt 197121) /\
  set dbg le_demo "x" (VInt 197121) [9; 0; 0; 0; 0; 0] = ([9; 1; 2; 3; 0; 0], Ok tt) /\
  big_endian true Host = false /\ big_endian false Host = true.
Proof. vm_compute. auto. Qed.

Theorem C07_little_endian_lossless : forall c fs pre f post n e b v,
  scoped [] fs -> fs = pre ++ f :: post ->
  Forall (fun g => f_len g = None) pre -> f_ty f = TPrim (Prim n e) -> big_endian (c_host_le c) e = false ->
  supported (header_bits pre) n -> le_lossless (header_bits pre mod 8) n ->
  buf_ok b -> new fs b = Some b -> 0 <= v ->
  exists b', set c fs (f_name f) (VInt v) b = (b', Ok tt) /\ length b' = length b /\
    get c fs (f_name f) b' = Ok (VInt (v mod 2 ^ n)).
Proof. exact le_any_roundtrip. Qed.
Print Assumptions C07_little_endian_lossless.

Theorem C07_little_endian_lossy : forall c fs pre f post n e,
  scoped [] fs -> fs = pre ++ f :: post ->
  Forall (fun g => f_len g = None) pre -> f_ty f = TPrim (Prim n e) -> big_endian (c_host_le c) e = false ->
  supported (header_bits pre) n -> ~ le_lossless (header_bits pre mod 8) n -> header_bits fs < 2 ^ 32 ->
  exists b v b' v', buf_ok b /\ new fs b = Some b /\ 0 <= v < 2 ^ n /\
    set c fs (f_name f) (VInt v) b = (b', Ok tt) /\ get c fs (f_name f) b' = Ok (VInt v') /\ v' <> v.
Proof. exact le_any_lossy. Qed.
Print Assumptions C07_little_endian_lossy.

Example C07_case : ~ le_lossless 0 9 /\ supported 32 9 /\ le_lossless 3 10 /\ supported 3 10 /\
  get dbg le_demo "y" (fst (set dbg le_demo "y" (VInt 300) [0; 0; 0; 0; 0; 0])) <> Ok (VInt 300) /\
  get dbg le_odd "x" (fst (set dbg le_odd "x" (VInt 777) [0; 0])) = Ok (VInt 777).
Proof.
  unfold le_lossless, supported. repeat (split; [lia|]). split; [vm_compute; discriminate|].
  vm_compute. reflexivity.
Qed.

(** ** C08: which placements the macro handles *)

Theorem C08_unsupported_placement_aborts_checked_macro : forall h o s e,
  0 <= o <= 7 -> 1 <= s <= 64 -> ~ supported o s ->
  operations Checked h o s e = Panic EOverflow.
Proof. exact unsupported_aborts. Qed.
Print Assumptions C08_unsupported_placement_aborts_checked_macro.

Theorem C08_unsupported_placement_is_wrong_if_generated : forall m h o s e w,
  0 <= o <= 7 -> 1 <= s <= 64 -> ~ supported o s ->
  forall ops, operations m h o s e = Ok (Some ops) ->
  exists b, bytes_ok b /\ length b = 10%nat /\
    gen_get_ops m w ops b 0 <> Ok (field_val b (Z.to_nat o) (Z.to_nat s)).
Proof. exact unsupported_wrong. Qed.
Print Assumptions C08_unsupported_placement_is_wrong_if_generated.

Theorem C08_bad_sizes_rejected : forall m h o s e, 0 <= o -> 7 < o \/ s = 0 \/ 64 < s ->
  operations m h o s e = Ok None.
Proof. exact operations_rejects. Qed.
Print Assumptions C08_bad_sizes_rejected.

Theorem C08_supported_placement_is_generated : forall m h o s e, 0 <= o <= 7 -> supported o s ->
  exists ops, operations m h o s e = Ok (Some ops) /\
    forall mr b, bytes_ok b -> o + s <= 8 * blen b -> blen b < 2 ^ 63 ->
      big_endian h e = true ->
      gen_get_ops mr (container s) ops b 0 = Ok (field_val b (Z.to_nat o) (Z.to_nat s)).
Proof. exact supported_generated. Qed.
Print Assumptions C08_supported_placement_is_generated.

(** A two-bit field that straddles a byte boundary, and one that does not. *)
Example C08_case : ~ supported 7 2 /\ supported 6 2 /\
  operations Checked true 7 2 Big = Panic EOverflow /\
  (exists ops, operations Wrapping true 7 2 Big = Ok (Some ops) /\
     gen_get_ops Wrapping 8 ops [1; 0] 0 <> Ok (field_val [1; 0] 7 2)) /\
  operations Checked true 6 2 Big = Ok (Some [GetOp 3 0 0]).
Proof.
  unfold supported. split; [lia|]. split; [lia|]. split; [reflexivity|]. split; [|reflexivity].
  eexists. split; [vm_compute; reflexivity|]. vm_compute. discriminate.
Qed.

(** ** C10: header accessors never panic *)

Theorem C10_header_getter_total : forall c fs n pre f b,
  scoped [] fs -> header_field (c_host_le c) fs n pre f -> buf_ok b -> new fs b = Some b ->
  get c fs n b = Ok (dec_fixed (c_host_le c) (f_ty f)
     (field_bits b (Z.to_nat (header_bits pre)) (Z.to_nat (bit_width (f_ty f))))).
Proof. exact api_get_header. Qed.
Print Assumptions C10_header_getter_total.

Theorem C10_header_setter_total : forall c fs n pre f b x,
  scoped [] fs -> header_field (c_host_le c) fs n pre f ->
  buf_ok b -> new fs b = Some b -> fixed_val (f_ty f) x ->
  exists b', set c fs n x b = (b', Ok tt) /\ buf_ok b' /\ new fs b' = Some b' /\
    bits_written b (Z.to_nat (header_bits pre)) (enc_fixed (c_host_le c) (f_ty f) x) b'.
Proof. exact api_set_header. Qed.
Print Assumptions C10_header_setter_total.

(** The structs of the crate meet the conditions on descriptions used in this
    file. *)
Theorem C10_crate_descriptions_well_formed : forall c n fs, In (n, fs) (crate_schemas c) ->
  scoped [] fs /\ schema_ok (c_host_le c) (fun _ _ => True) fs 0 /\ lens_plain fs.
Proof. exact crate_well_formed. Qed.
Print Assumptions C10_crate_descriptions_well_formed.

Example C10_case : In ("Tcp"%string, tcp dbg) (crate_schemas dbg) /\
  header_field true (tcp dbg) "window" (firstn 7 (tcp dbg)) (int "window" 16) /\
  get dbg (tcp dbg) "window" tcp_buf = Ok (VInt 4096).
Proof.
  split; [do 11 right; left; reflexivity|]. split; [|vm_compute; reflexivity]. apply (header_nth dbg (tcp dbg) 7).
  - reflexivity.
  - vm_compute. repeat constructor.
  - vm_compute. intuition discriminate.
Qed.

(** ** C11: buffer lengths *)

Theorem C11_setters_keep_length : forall c fs n v,
  Forall (fun f => keeps_inner (f_ty f)) fs -> keeps (set c fs n v).
Proof. exact set_keeps. Qed.
Print Assumptions C11_setters_keep_length.

Theorem C11_populate_keeps_length : forall c fs vs,
  Forall (fun f => keeps_inner (f_ty f)) fs -> keeps (populate c fs vs).
Proof. exact populate_keeps. Qed.
Print Assumptions C11_populate_keeps_length.

Theorem C11_crate : forall c n fs, In (n, fs) (crate_schemas c) ->
  Forall (fun f => keeps_inner (f_ty f)) fs.
Proof. exact crate_keeps. Qed.
Print Assumptions C11_crate.

(** A populate that panics half way: the options do not fit. *)
Example C11_case :
  let r := populate dbg kv [VInt 1; VInt 2; VBytes [5; 6]; VInt 3; VBytes []] [0; 0; 0; 0] in
  snd r = Panic EAssert /\ fst r = [18; 0; 0; 0].
Proof. vm_compute. auto. Qed.

(** ** C12, C13: payload *)

Theorem C12_payload_total_and_clipped : forall c n fs b,
  In (n, fs) (crate_schemas c) -> buf_ok b -> new fs b = Some b ->
  (n = "NdpOption"%string -> forall v, get c fs "length" b = Ok (VInt v) -> c_mode c = Checked -> v < 32) ->
  (n = "Gre"%string -> get c fs "routing_present" b = Ok (VInt 0)) ->
  exists pre f post pos len, fs = pre ++ f :: post /\ f_payload f = true /\
    pos_after (fun x => get c fs x b) b pre 0 0 pos /\
    own_len (fun x => get c fs x b) b (pos / 8) f len /\ 0 <= len /\
    payload c fs b = Ok (clip b (pos / 8) len).
Proof. exact crate_payload. Qed.
Print Assumptions C12_payload_total_and_clipped.

Theorem C12_payload_generic : forall c b fs pre f post pos len,
  scoped [] fs -> fs = pre ++ f :: post ->
  f_payload f = true -> Forall (fun g => f_payload g = false) pre ->
  buf_ok b -> pos_after (fun n => get c fs n b) b pre 0 0 pos ->
  own_len (fun n => get c fs n b) b (pos / 8) f len -> 0 <= len -> pos / 8 + len < 2 ^ 64 ->
  payload c fs b = Ok (clip b (pos / 8) len).
Proof. exact api_payload. Qed.
Print Assumptions C12_payload_generic.

Example C12_case : payload dbg (tcp dbg) tcp_opt_buf = Ok [42; 43] /\
  payload dbg (tcp dbg) (firstn 22 tcp_opt_buf) = Ok [] /\
  payload dbg (gre dbg) [64; 0; 8; 0; 0; 0; 0; 0] = Panic EUnimpl /\
  payload dbg (ndp_option dbg) [1; 32; 0; 0] = Panic EOverflow.
Proof. vm_compute. auto. Qed.

Theorem C13_payload_mut_window : forall c b fs pre f post pos len at_ data,
  scoped [] fs -> fs = pre ++ f :: post ->
  f_payload f = true -> Forall (fun g => f_payload g = false) pre ->
  buf_ok b -> pos_after (fun n => get c fs n b) b pre 0 0 pos ->
  own_len (fun n => get c fs n b) b (pos / 8) f len -> 0 <= len -> pos / 8 + len < 2 ^ 64 ->
  let a := pos / 8 in
  (at_ <= length (clip b a len))%nat ->
  payload_mut_write c fs at_ data b =
    if (at_ + length data <=? length (clip b a len))%nat
    then (firstn (Z.to_nat a) b ++ splice (clip b a len) at_ data ++
          skipn (Z.to_nat a + length (clip b a len)) b, Ok tt)
    else (b, Panic EIndex).
Proof. exact api_payload_mut. Qed.
Print Assumptions C13_payload_mut_window.

Example C13_case : payload_mut_write dbg kv 1 [99] kv_buf = ([47; 10; 11; 171; 205; 7; 99], Ok tt) /\
  payload_mut_write dbg kv 1 [99; 99] kv_buf = (kv_buf, Panic EIndex).
Proof. vm_compute. auto. Qed.

(** ** C14, C15: variable-length fields *)

Theorem C14_variable_getter : forall c b fs pre f post pos len,
  scoped [] fs -> fs = pre ++ f :: post ->
  buf_ok b -> pos_after (fun n => get c fs n b) b pre 0 0 pos ->
  own_len (fun n => get c fs n b) b (pos / 8) f len -> 0 <= len -> pos / 8 + len < 2 ^ 64 ->
  let a := pos / 8 in
  get_raw c fs (f_name f) b = (if a <=? blen b then Ok (clip b a len) else Panic EIndex) /\
  get_iter c fs (f_name f) b = (if a <=? blen b then Ok (clip b a len) else Panic EIndex) /\
  match f_ty f with
  | TVecPrim p => p_size p = 8 ->
      get c fs (f_name f) b = (if a <=? blen b then Ok (VBytes (clip b a len)) else Panic EIndex)
  | TVecPkt k =>
      get c fs (f_name f) b =
        (if a <=? blen b then rmap VPkts (iter_all k (k_from k) (clip b a len)) else Panic EIndex)
  | _ => True
  end.
Proof. exact api_get_var. Qed.
Print Assumptions C14_variable_getter.

Theorem C14_own_length_panics : forall c b fs pre f post pos le e,
  scoped [] fs -> fs = pre ++ f :: post ->
  is_vec (f_ty f) = true -> pos_after (fun n => get c fs n b) b pre 0 0 pos -> pos < 2 ^ 66 ->
  f_len f = Some le -> le (fun n => get c fs n b) (slice_from b (pos / 8)) = Panic e ->
  get c fs (f_name f) b = Panic e /\ get_raw c fs (f_name f) b = Panic e.
Proof. exact api_get_var_panics. Qed.
Print Assumptions C14_own_length_panics.

Theorem C14_offset_panics : forall c b fs pre f post e, scoped [] fs -> fs = pre ++ f :: post ->
  header_bits fs < 2 ^ 60 -> pos_fails (fun n => get c fs n b) b pre 0 0 e ->
  (is_vec (f_ty f) = true \/ 0 < bit_width (f_ty f)) ->
  get c fs (f_name f) b = Panic e /\ (is_vec (f_ty f) = true -> get_raw c fs (f_name f) b = Panic e) /\
  (forall x, is_vec (f_ty f) = false -> fixed_val (f_ty f) x -> set c fs (f_name f) x b = (b, Panic e)).
Proof. exact fails_get. Qed.
Print Assumptions C14_offset_panics.

Example C14_case :
  get dbg kv "data" kv_buf = Ok (VBytes [10; 11]) /\ get dbg kv "data" [47; 10; 11] = Ok (VBytes [10; 11]) /\
  get dbg kv "data" [47; 10] = Ok (VBytes [10]) /\ get dbg kv "payload" [47; 10; 11; 171] = Panic EIndex /\
  get dbg (gre dbg) "payload" [64; 0; 8; 0; 0; 0; 0; 0] = Panic EUnimpl /\
  get dbg (gre dbg) "routing" [64; 0; 8; 0; 0; 0; 0; 0] = Panic EUnimpl.
Proof. vm_compute. repeat split. Qed.

Theorem C15_set_bytes_all_or_nothing : forall c b fs pre f post pos p vs,
  scoped [] fs -> fs = pre ++ f :: post ->
  f_ty f = TVecPrim p -> p_size p = 8 -> buf_ok b -> blen vs < 2 ^ 63 ->
  pos_after (fun n => get c fs n b) b pre 0 0 pos -> pos / 8 < 2 ^ 63 ->
  let a := pos / 8 in
  set c fs (f_name f) (VBytes vs) b =
  match option_map (fun le => le (fun n => get c fs n b) (slice_from b a)) (f_len f) with
  | Some (Panic e) => (b, Panic e)
  | Some (Ok len) =>
      if blen vs <=? len
      then (if a + blen vs <=? blen b then (splice b (Z.to_nat a) vs, Ok tt) else (b, Panic EIndex))
      else (b, Panic EAssert)
  | None => if a + blen vs <=? blen b then (splice b (Z.to_nat a) vs, Ok tt) else (b, Panic EIndex)
  end.
Proof. exact api_set_bytes. Qed.
Print Assumptions C15_set_bytes_all_or_nothing.

Example C15_case : set dbg kv "data" (VBytes [1; 2]) kv_buf = ([47; 1; 2; 171; 205; 7; 8], Ok tt) /\
  set dbg kv "data" (VBytes [1; 2; 3]) kv_buf = (kv_buf, Panic EAssert) /\
  set dbg kv "payload" (VBytes [1; 2; 3]) kv_buf = (kv_buf, Panic EIndex).
Proof. vm_compute. auto. Qed.

(** ** C16, C17: sizes *)

Theorem C16_packet_size_is_header_plus_lengths : forall c b fs pos, scoped [] fs ->
  pos_after (fun n => get c fs n b) b fs 0 0 pos -> pos < 2 ^ 66 ->
  packet_size c fs b = Ok (pos / 8).
Proof. exact api_packet_size. Qed.
Print Assumptions C16_packet_size_is_header_plus_lengths.

Theorem C16_packet_size_depends_on_header_only : forall c fs b b', scoped [] fs ->
  Forall (len_from_header c fs) fs -> buf_ok b -> buf_ok b' -> new fs b = Some b -> new fs b' = Some b' ->
  firstn (Z.to_nat (minimum_packet_size fs)) b = firstn (Z.to_nat (minimum_packet_size fs)) b' ->
  packet_size c fs b = packet_size c fs b'.
Proof. exact size_header. Qed.
Print Assumptions C16_packet_size_depends_on_header_only.

Example C16_case : packet_size dbg kv kv_buf = Ok 5 /\ packet_size dbg (tcp dbg) tcp_opt_buf = Ok 24.
Proof. vm_compute. auto. Qed.

Theorem C17_struct_size_without_sub_packets : forall c ie iw lok fs xs T,
  no_pkts fs -> fits (c_host_le c) ie iw lok fs xs 0 [] T ->
  Z.of_nat (length (encode (c_host_le c) ie fs xs)) < 2 ^ 64 ->
  struct_packet_size c fs xs = Ok (Z.of_nat (length (encode (c_host_le c) ie fs xs)) / 8).
Proof. exact struct_size. Qed.
Print Assumptions C17_struct_size_without_sub_packets.

(** For TCP the value counts options, not bytes of options. *)
Theorem C17_tcp_struct_size_counts_options : forall c xs opts data,
  length xs = 10%nat -> Forall (fun x => exists z, x = VInt z) xs ->
  Z.of_nat (length opts) < 2 ^ 63 -> blen data < 2 ^ 62 ->
  struct_packet_size c (tcp c) (xs ++ [VPkts opts; VBytes data])
  = Ok (20 + Z.of_nat (length opts) + blen data).
Proof. exact tcp_struct_size. Qed.
Print Assumptions C17_tcp_struct_size_counts_options.

(** So it is not the encoded size: this struct is what a 26-byte segment parses
    to. *)
Theorem C17_struct_size_is_encoded_size_refuted : exists b xs n,
  from_packet dbg (tcp dbg) b = Ok xs /\ populate dbg (tcp dbg) xs (map (fun _ => 0) b) = (b, Ok tt) /\
  struct_packet_size dbg (tcp dbg) xs = Ok n /\ n <> blen b.
Proof.
  exists tcp_opt_buf. eexists. exists 24. split; [vm_compute; reflexivity|].
  split; [vm_compute; reflexivity|]. split; [vm_compute; reflexivity|]. vm_compute. discriminate.
Qed.
Print Assumptions C17_struct_size_is_encoded_size_refuted.

Example C17_case :
  let xs := [VInt 2; VInt 15; VBytes [10; 11]; VInt 43981; VBytes [7; 8]] in
  fits true (fun _ _ => []) (fun _ _ => False) lok_enc kv xs 0 [] [] /\
  struct_packet_size dbg kv xs = Ok 7 /\ length (encode true (fun _ _ => []) kv xs) = 56%nat.
Proof.
  cbv zeta. split; [|vm_compute; auto].
  unfold kv, kv_pre. cbn [app fits]. unfold val_fits, place_ok.
  cbn [f_ty f_len int vfld pall fld p_size p_end u bytes_ty big_endian fixed_bits].
  repeat match goal with
         | |- _ /\ _ => split
         | |- bytes_ok _ => repeat constructor; unfold byte_ok; lia
         | |- lok_enc _ _ _ _ => split; [intros rest; exists 2; vm_compute; auto; split; [reflexivity|split; [discriminate|reflexivity]]|intros t T; reflexivity]
         | |- _ => first [lia | reflexivity | discriminate | exact I | intros; split; reflexivity]
         end.
Qed.

(** ** C18, C19: whole structs *)

Theorem C18_populate_then_from_packet : forall c ie iw fs xs b,
  fits (c_host_le c) ie iw lok_enc fs xs 0 [] [] -> norm_vals fs xs = xs -> buf_ok b ->
  8 * blen b = Z.of_nat (length (encode (c_host_le c) ie fs xs)) ->
  exists b', populate c fs xs b = (b', Ok tt) /\ b' = pack (encode (c_host_le c) ie fs xs) /\
    from_packet c fs b' = Ok xs.
Proof. exact roundtrip. Qed.
Print Assumptions C18_populate_then_from_packet.

Theorem C18_populate_then_from_packet_larger_buffer : forall c ie iw fs xs b, closed fs ->
  fits (c_host_le c) ie iw lok_enc fs xs 0 [] [] -> norm_vals fs xs = xs -> buf_ok b ->
  Z.of_nat (length (encode (c_host_le c) ie fs xs)) <= 8 * blen b ->
  exists b', populate c fs xs b = (b', Ok tt) /\
    bits_written b 0 (encode (c_host_le c) ie fs xs) b' /\ from_packet c fs b' = Ok xs.
Proof. exact roundtrip_closed. Qed.
Print Assumptions C18_populate_then_from_packet_larger_buffer.

(** The struct of C17_case fits; it goes to the wire and back. *)
Example C18_case :
  let xs := [VInt 2; VInt 15; VBytes [10; 11]; VInt 43981; VBytes [7; 8]] in
  norm_vals kv xs = xs /\ populate dbg kv xs [0; 0; 0; 0; 0; 0; 0] = (kv_buf, Ok tt) /\
  pack (encode true (fun _ _ => []) kv xs) = kv_buf /\ from_packet dbg kv kv_buf = Ok xs.
Proof. vm_compute. auto. Qed.

Theorem C19_from_packet_then_populate : forall c ie iw fs b b0 xs pos, scoped [] fs ->
  schema_ok (c_host_le c) (fun n k => decodable k (ie n) (iw n) /\ codec k (ie n) (iw n)) fs 0 ->
  lens_plain fs -> header_bits fs mod 8 = 0 -> buf_ok b -> buf_ok b0 -> length b0 = length b ->
  from_packet c fs b = Ok xs -> vecs_tile c fs b ->
  pos_after (fun n => get c fs n b) b fs 0 0 pos -> pos <= 8 * blen b ->
  populate c fs xs b0 =
    (if forallb (fun f => negb (is_vec (f_ty f)) || match f_len f with Some _ => true | None => false end) fs
     then firstn (Z.to_nat (pos / 8)) b ++ skipn (Z.to_nat (pos / 8)) b0 else b, Ok tt).
Proof. exact rebuild. Qed.
Print Assumptions C19_from_packet_then_populate.

Example C19_case :
  exists xs, from_packet dbg kv kv_buf = Ok xs /\ header_bits kv mod 8 = 0 /\ vecs_tile dbg kv kv_buf /\
  pos_after (fun n => get dbg kv n kv_buf) kv_buf kv 0 0 40 /\
  populate dbg kv xs [1; 1; 1; 1; 1; 1; 1] = (kv_buf, Ok tt).
Proof.
  eexists. split; [vm_compute; reflexivity|]. split; [reflexivity|]. split; [repeat constructor|].
  split; [|vm_compute; reflexivity].
  exists 2. split; [lia|]. split; [vm_compute; reflexivity|reflexivity].
Qed.

(** ** C20: iterators *)

Theorem C20_iterator_terminates_and_tiles : forall c fs b,
  scoped [] fs -> lens_small c fs -> 8 <= header_bits fs < 2 ^ 60 ->
  Z.of_nat (length fs) < 2 ^ 16 -> buf_ok b ->
  match iter_all (sem_of c fs) (fun x => Ok x) b with
  | Ok l => exists ps tail, concat ps ++ tail = b /\
      Forall2 (fun item p => exists n, packet_size c fs item = Ok n /\ 0 < n /\
                                       p = firstn (Z.to_nat n) item) l ps /\
      (tail = [] \/ blen tail < minimum_packet_size fs) /\
      forall i, (i < length l)%nat -> nth i l [] = skipn (length (concat (firstn i ps))) b
  | Panic e => exists i, packet_size c fs (skipn i b) = Panic e
  end.
Proof. exact iterate. Qed.
Print Assumptions C20_iterator_terminates_and_tiles.

Theorem C20_sub_byte_header_repeats_forever : forall c fs b,
  scoped [] fs -> 0 < blen b -> new fs b = Some b ->
  pos_after (fun n => get c fs n b) b fs 0 0 (header_bits fs) -> header_bits fs < 8 ->
  iter_next (sem_of c fs) b = Ok (Some (b, b)).
Proof. exact zero_size_repeats. Qed.
Print Assumptions C20_sub_byte_header_repeats_forever.

Example C20_case :
  iter_all (sem_of dbg tcp_option) (fun x => Ok x) [3; 3; 7; 1; 0; 2]
  = Ok [[3; 3; 7; 1; 0; 2]; [1; 0; 2]; [0; 2]; [2]] /\
  iter_next (sem_of dbg tiny) [5; 1] = Ok (Some ([5; 1], [5; 1])) /\
  header_bits tiny = 4 /\ pos_after (fun n => get dbg tiny n [5; 1]) [5; 1] tiny 0 0 4.
Proof.
  split; [vm_compute; reflexivity|]. split; [vm_compute; reflexivity|]. split; [reflexivity|].
  exists 0. split; [lia|]. split; [vm_compute; reflexivity|reflexivity].
Qed.

(** ** C21: vectors of wider integers *)

Theorem C21_wide_vector_getter_panics : forall c b fs pre f post pos p len,
  scoped [] fs -> fs = pre ++ f :: post ->
  f_ty f = TVecPrim p -> p_size p mod 8 = 0 -> 16 <= p_size p <= 64 ->
  bytes_ok b -> blen b < 2 ^ 32 -> pos_after (fun n => get c fs n b) b pre 0 0 pos ->
  own_len (fun n => get c fs n b) b (pos / 8) f len -> 0 <= len -> pos / 8 + len < 2 ^ 64 ->
  clip b (pos / 8) len <> [] ->
  get c fs (f_name f) b = Panic EIndex.
Proof. exact api_get_wide. Qed.
Print Assumptions C21_wide_vector_getter_panics.

Theorem C21_wide_vector_setter_writes_big_endian : forall c b fs pre f post pos p len vs,
  scoped [] fs -> fs = pre ++ f :: post ->
  f_ty f = TVecPrim p -> p_size p mod 8 = 0 -> 16 <= p_size p <= 64 ->
  buf_ok b -> Forall (fun z => 0 <= z) vs -> pos_after (fun n => get c fs n b) b pre 0 0 pos ->
  f_len f <> None -> own_len (fun n => get c fs n b) b (pos / 8) f len -> blen vs <= len ->
  pos / 8 + blen vs * (p_size p / 8) <= blen b ->
  exists b', set c fs (f_name f) (VBytes vs) b = (b', Ok tt) /\
    bits_written b (Z.to_nat (8 * (pos / 8))) (flat_map (bits_of_Z (Z.to_nat (p_size p))) vs) b'.
Proof. exact api_set_wide. Qed.
Print Assumptions C21_wide_vector_setter_writes_big_endian.

(** Two elements pass the length check of a two-byte field and overwrite four
    bytes. *)
Example C21_case : get dbg wide_demo "xs" [4; 0; 1; 0; 2] = Panic EIndex /\
  set dbg wide_demo "xs" (VBytes [1; 2]) [2; 9; 9; 9; 9] = ([2; 0; 1; 0; 2], Ok tt).
Proof. vm_compute. auto. Qed.

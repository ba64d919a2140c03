(** Model of derive/src/util.rs: how the macro plans the bit operations of a
    getter and of a setter, and what the printed operations compute. *)
From Coq Require Import ZArith List Bool String Ascii.
From Verif Require Import Base.
Import ListNotations.
Open Scope Z_scope.

(** derive/src/util.rs:14-19 *)
Inductive endian := Big | Little | Host.

(** derive/src/util.rs:31-36 *)
Record getop := GetOp { g_mask : Z; g_shiftl : Z; g_shiftr : Z }.

(** derive/src/util.rs:110-120 *)
Record setop := SetOp { s_save : Z; s_vmask : Z; s_shiftl : Z; s_shiftr : Z }.

(** derive/src/util.rs:246-260 ([bits_remaining_in_byte], [round_down]). *)
Definition bits_in_byte (offset rem : Z) : Z :=
  if 1 <=? rem / 8 then 8 - offset
  else if 8 - offset <? rem then 8 - offset else rem.

(** derive/src/util.rs:263-267: the mask-building loop; [n] is
    [num_bits_to_mask]. *)
Fixpoint mask_loop (offset : Z) (n : nat) (mask : Z) : Z :=
  match n with
  | O => mask
  | S k => mask_loop offset k
             (Z.lor mask (Z.shiftr 128 (offset + Z.of_nat n - 1)))
  end.

(** derive/src/util.rs:245-270 *)
Definition get_mask (offset rem : Z) : res (Z * Z) :=
  if negb (offset <=? 7) then Panic EAssert
  else
    let n := bits_in_byte offset rem in
    if negb (n <=? 8 - offset) then Panic EAssert
    else Ok (n, mask_loop offset (Z.to_nat n) 0).

(** derive/src/util.rs:307-319.  [m] is the overflow profile the macro crate
    itself was compiled with. *)
Definition get_shiftl (m : mode) (offset size byte_number num_bytes : Z) : res Z :=
  if (num_bytes =? 1) || (byte_number + 1 =? num_bytes) then Ok 0
  else
    t <- sub_u m usize (num_bytes * 8) offset ;;
    t <- sub_u m usize t size ;;
    base_shift <- sub_u m usize 8 t ;;
    k <- sub_u m usize num_bytes byte_number ;;
    bytes_to_shift <- sub_u m usize k 2 ;;
    p <- mul_u m usize 8 bytes_to_shift ;;
    r <- add_u m usize base_shift p ;;
    Ok (cast_u 8 r).

(** derive/src/util.rs:347-353 *)
Definition get_shiftr (m : mode) (offset size byte_number num_bytes : Z) : res Z :=
  if byte_number + 1 =? num_bytes then
    t <- sub_u m usize (num_bytes * 8) offset ;;
    t <- sub_u m usize t size ;;
    Ok (cast_u 8 t)
  else Ok 0.

(** derive/src/util.rs:1075-1081: only the left shifts are reversed. *)
Definition to_little_endian (ops : list getop) : list getop :=
  map (fun p => GetOp (g_mask (fst p)) (g_shiftl (snd p)) (g_shiftr (fst p)))
      (combine ops (rev ops)).

(** derive/src/util.rs:404-415: the loop over the bytes of the field; [k] is
    the number of iterations left, [i] the byte number. *)
Fixpoint ops_loop (m : mode) (offset size num_bytes : Z) (k : nat) (i cur rem : Z)
  : res (list getop) :=
  match k with
  | O => Ok []
  | S k' =>
      '(consumed, mask) <- get_mask cur rem ;;
      sl <- get_shiftl m offset size i num_bytes ;;
      sr <- get_shiftr m offset size i num_bytes ;;
      rest <- ops_loop m offset size num_bytes k' (i + 1) 0
                (if consumed <=? rem then rem - consumed else rem) ;;
      Ok (GetOp mask sl sr :: rest)
  end.

(** derive/src/util.rs:395-400: how many bytes the field is taken to span. *)
Definition num_bytes (offset size : Z) : Z :=
  if (0 <? offset) || negb (size mod 8 =? 0) then size / 8 + 1 else size / 8.

(** derive/src/util.rs:390-432.  [host_le] is [cfg!(target_endian = "little")]
    of the machine the macro was compiled for. *)
Definition operations (m : mode) (host_le : bool) (offset size : Z) (e : endian)
  : res (option (list getop)) :=
  if (7 <? offset) || (size =? 0) || (64 <? size) then Ok None
  else
    let nb := num_bytes offset size in
    ops <- ops_loop m offset size nb (Z.to_nat nb) 0 offset size ;;
    Ok (Some (match e with
              | Little => to_little_endian ops
              | Host => if host_le then to_little_endian ops else ops
              | Big => ops
              end)).

(** derive/src/util.rs:656-664 *)
Fixpoint mask_high_bits_loop (n : nat) (mask : Z) : Z :=
  match n with
  | O => mask
  | S k => mask_high_bits_loop k (Z.lor mask (Z.shiftl 1 (Z.of_nat n - 1)))
  end.
Definition mask_high_bits (bits : Z) : Z := mask_high_bits_loop (Z.to_nat bits) 0.

(** derive/src/util.rs:671-680 *)
Definition num_bits_set (n : Z) : Z :=
  fold_left (fun c i => if 0 <? Z.land n (Z.shiftl 1 i) then c + 1 else c)
            [0; 1; 2; 3; 4; 5; 6; 7] 0.

(** derive/src/util.rs:684-689: one getter operation turned into a setter
    operation ([!] is the complement of a [u8], [<<] is on [u64]). *)
Definition to_setop (op : getop) : setop :=
  SetOp (255 - g_mask op)
        ((Z.shiftl (mask_high_bits (num_bits_set (g_mask op))) (g_shiftl op)) mod 2 ^ 64)
        (g_shiftr op) (g_shiftl op).

(** derive/src/util.rs:670-693 *)
Definition to_mutator (ops : list getop) : list setop := map to_setop ops.

(** ** Meaning of the printed operations *)

(** The expression printed by derive/src/util.rs:38-57 applied to a byte that
    was cast to the field's container type of [w] bits.  [m] is the overflow
    profile of the crate that contains the generated code.  (A constant shift
    of at least [w] is rejected by rustc; the model lets it panic or wrap.) *)
Definition eval_getop (m : mode) (w : Z) (op : getop) (x : Z) : res Z :=
  let v := if g_mask op =? 255 then x else Z.land x (g_mask op) in
  let sh := g_shiftr op - g_shiftl op in
  if sh =? 0 then Ok v
  else if sh <? 0 then shl_u m w v (- sh)
  else shr_u m w v sh.

(** The assignment printed by derive/src/util.rs:149-185: new value of the
    byte [x] when [val] (of the [w]-bit container type) is stored. *)
Definition eval_setop (m : mode) (w : Z) (op : setop) (x val : Z) : res Z :=
  let v := if s_vmask op =? 255 then val else Z.land val (s_vmask op) in
  let sh := s_shiftr op - s_shiftl op in
  r <- (if sh =? 0 then Ok v
        else if sh <? 0 then shl_u m w v (- sh)
        else shr_u m w v sh) ;;
  if s_save op =? 0 then Ok (cast_u 8 r)
  else Ok (Z.lor (Z.land x (s_save op)) (cast_u 8 r)).

(** derive/src/util.rs:122-134, the digit loop of [radix16_u8]/[radix16_u64];
    [fuel] bounds the number of digits (16 suffice for a u64). *)
Definition hex_digit (d : Z) : ascii :=
  nth (Z.to_nat d)
      ["0"; "1"; "2"; "3"; "4"; "5"; "6"; "7"; "8"; "9";
       "a"; "b"; "c"; "d"; "e"; "f"]%char "0"%char.
Fixpoint radix16_loop (fuel : nat) (val : Z) (ret : list ascii) : list ascii :=
  match fuel with
  | O => ret
  | S k => if 0 <? val then radix16_loop k (val / 16) (hex_digit (val mod 16) :: ret)
           else ret
  end.
Definition radix16 (val : Z) : list ascii := radix16_loop 16 val [].

(** Concrete configurations, packet descriptions and buffers used by the
    examples that stand beside the theorems of the Props files. *)
From Coq Require Import String ZArith List Bool.
From Verif Require Import Base BitSpec DeriveUtil DeriveOps DeriveGen SpecPacket Protocols.
Import ListNotations.
Open Scope Z_scope.

(** A debug and a release build on a little-endian machine. *)
Definition dbg : cfg := Cfg Checked Checked true.
Definition rel : cfg := Cfg Wrapping Wrapping true.

(** A user-defined packet: two nibbles, a byte vector as long as the first
    nibble says, a checksum after it, the payload. *)
Definition kv_pre : schema :=
  [int "n" 4; int "flag" 4; vfld "data" bytes_ty (len_of_int "n" (fun z => z))].
Definition kv : schema := kv_pre ++ [int "crc" 16; pall "payload"].
Definition kv_buf : buf := [47; 10; 11; 171; 205; 7; 8].

(** Little-endian integers: one at a byte boundary, one of nine bits. *)
Definition le_demo : schema :=
  [int "tag" 8; fld "x" (TPrim (Prim 24 Little)); fld "y" (TPrim (Prim 9 Little)); int "pad" 7].

(** A field whose little-endian layout is unusual but lossless: bits 3..12. *)
Definition le_odd : schema :=
  [int "pad" 3; fld "x" (TPrim (Prim 10 Little)); int "rest" 3].

(** A vector of 16-bit integers. *)
Definition wide_demo : schema :=
  [int "n" 8; vfld "xs" (TVecPrim (u 16)) (len_of_int "n" (fun z => z))].

(** A packet whose fixed part is less than one byte. *)
Definition tiny : schema :=
  [int "n" 4; vfld "data" bytes_ty (len_of_int "n" (fun z => z))].

(** Twenty bytes of TCP header with all flags set, and a data offset of 6 with a
    window-scale option and a NOP. *)
Definition tcp_buf : buf :=
  [0; 80; 200; 1; 0; 0; 0; 1; 0; 0; 0; 2; 81; 255; 16; 0; 18; 52; 0; 0].
Definition tcp_opt_buf : buf :=
  [0; 80; 200; 1; 0; 0; 0; 1; 0; 0; 0; 2; 96; 2; 16; 0; 18; 52; 0; 0; 3; 3; 7; 1; 42; 43].

(** Specification vocabulary: a buffer is a string of bits, most significant
    bit of the first byte first; a field is a substring; its value is the
    number written by that substring.  Nothing here refers to the model. *)
From Coq Require Import ZArith List Bool.
From Verif Require Import Base.
Import ListNotations.
Open Scope Z_scope.

(** The eight bits of a byte, most significant first. *)
Definition bits_of_byte (x : Z) : list bool :=
  [Z.testbit x 7; Z.testbit x 6; Z.testbit x 5; Z.testbit x 4;
   Z.testbit x 3; Z.testbit x 2; Z.testbit x 1; Z.testbit x 0].

(** The bit string of a buffer. *)
Definition bits_of (b : buf) : list bool := flat_map bits_of_byte b.

(** The number a bit string writes, most significant bit first. *)
Definition Z_of_bits (l : list bool) : Z :=
  fold_left (fun acc (x : bool) => 2 * acc + (if x then 1 else 0)) l 0.

(** The [n] low-order bits of [v], most significant first. *)
Definition bits_of_Z (n : nat) (v : Z) : list bool :=
  map (fun i => Z.testbit v (Z.of_nat n - 1 - Z.of_nat i)) (seq 0 n).

(** Bits [o .. o+n-1] of a buffer. *)
Definition field_bits (b : buf) (o n : nat) : list bool :=
  firstn n (skipn o (bits_of b)).

(** The value of the [n]-bit field at bit offset [o]. *)
Definition field_val (b : buf) (o n : nat) : Z := Z_of_bits (field_bits b o n).

(** [b'] is [b] with bits [o .. o+n-1] replaced by the low [n] bits of [v]. *)
Definition field_written (b : buf) (o n : nat) (v : Z) (b' : buf) : Prop :=
  List.length b' = List.length b /\
  bytes_ok b' /\
  bits_of b' = firstn o (bits_of b) ++ bits_of_Z n v ++ skipn (o + n) (bits_of b).

(** Little-endian value of a byte string. *)
Fixpoint le_val (b : buf) : Z :=
  match b with [] => 0 | x :: r => x + 256 * le_val r end.
(** Big-endian value of a byte string. *)
Definition be_val (b : buf) : Z := fold_left (fun acc x => 256 * acc + x) b 0.

(** The big-endian [n]-byte encoding of [v]. *)
Fixpoint be_bytes (n : nat) (v : Z) : buf :=
  match n with
  | O => []
  | S k => be_bytes k (v / 256) ++ [v mod 256]
  end.

(** The little-endian [n]-byte encoding of [v]. *)
Fixpoint le_bytes (n : nat) (v : Z) : buf :=
  match n with
  | O => []
  | S k => (v mod 256) :: le_bytes k (v / 256)
  end.

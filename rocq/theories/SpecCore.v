(** Vocabulary for the core crate. *)
From Coq Require Import String DecimalString ZArith List Bool.
From Verif Require Import Base CorePacket.
Import ListNotations.
Open Scope Z_scope.

(** The addresses of a region, and regions without a common address. *)
Definition inside (r : region) (a : Z) : Prop := r_base r <= a < r_base r + Z.of_nat (r_len r).
Definition apart (r s : region) : Prop :=
  r_base r + Z.of_nat (r_len r) <= r_base s \/ r_base s + Z.of_nat (r_len s) <= r_base r.

(** Whether a packet owns its bytes. *)
Definition owns (p : xpacket) : bool := match x_data p with Owned _ => true | Borrowed _ => false end.
Definition mowns (p : mxpacket) : bool := match mx_data p with MOwned _ => true | MBorrowed _ => false end.

(** The name of an integer alias: the letter u, the number of bits in decimal,
    and a suffix.  Up to seven bits there is no suffix, eight bits is u8 itself,
    above that the suffix gives the byte order. *)
Definition alias_name (n : nat) (suffix : string) : string :=
  "u" ++ NilEmpty.string_of_uint (Nat.to_uint n) ++ suffix.
Definition suffixes (n : nat) : list string :=
  if (n <? 8)%nat then [""%string] else if (n =? 8)%nat then [] else ["be"%string; "le"%string; "he"%string].

(** The smallest primitive integer type with at least [n] bits. *)
Definition smallest (n : Z) : Z := if n <=? 8 then 8 else if n <=? 16 then 16 else if n <=? 32 then 32 else 64.

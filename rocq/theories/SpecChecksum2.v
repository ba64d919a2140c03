(** Specification for the algebra of the Internet checksum (RFC 1071 section 2,
    RFC 1624): byte order, word order, parts and incremental update.
    Independent of the model. *)
From Coq Require Import ZArith List Bool.
From Verif Require Import Base SpecChecksum.
Import ListNotations.
Open Scope Z_scope.

(** A 16-bit word with its two bytes exchanged. *)
Definition bswap (w : Z) : Z := 256 * (w mod 256) + w / 256.

(** The string with the bytes of every whole word exchanged: what the same
    16-bit numbers look like on a machine of the other byte order. *)
Fixpoint swap_pairs (d : buf) : buf :=
  match d with
  | a :: b :: r => b :: a :: swap_pairs r
  | _ => d
  end.

(** Words [i] and [j] exchanged. *)
Definition swap_words (i j : nat) (d : buf) : buf :=
  put_word i (word_at j d) (put_word j (word_at i d) d).

(** RFC 1624 equation 3: HC' = ~(~HC + ~m + m'), one's complement additions. *)
Definition rfc1624 (hc old new : Z) : Z :=
  65535 - oadd (oadd (65535 - hc) (65535 - old)) new.

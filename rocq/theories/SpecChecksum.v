(** Specification of the Internet checksum (RFC 1071): 16-bit one's complement
    arithmetic on the words of a byte string.  Independent of the model. *)
From Coq Require Import ZArith List Bool.
From Verif Require Import Base BitSpec.
Import ListNotations.
Open Scope Z_scope.

(** Big-endian 16-bit words; an odd last byte is padded with zero. *)
Fixpoint words (d : buf) : list Z :=
  match d with
  | hi :: lo :: r => (256 * hi + lo) :: words r
  | [hi] => [256 * hi]
  | [] => []
  end.

(** The plain sum of the words, and word number [j]. *)
Definition total (d : buf) : Z := fold_right Z.add 0 (words d).
Definition word_at (j : nat) (d : buf) : Z := 256 * nth (2 * j) d 0 + nth (2 * j + 1) d 0.

(** One's complement addition: the carry out of bit 15 is added back. *)
Definition oadd (a b : Z) : Z := if a + b <? 65536 then a + b else a + b - 65535.
Definition osum (l : list Z) : Z := fold_right oadd 0 l.

(** The checksum of a byte string, and what a receiver checks. *)
Definition rfc1071 (d : buf) : Z := 65535 - osum (words d).
Definition verifies (d : buf) : Prop := osum (words d) = 65535.

(** The string [d] with word number [k] replaced by zero (as far as it exists). *)
Fixpoint zero_word (k : nat) (d : buf) : buf :=
  match d, k with
  | _ :: _ :: r, O => 0 :: 0 :: r
  | [_], O => [0]
  | a :: b :: r, S j => a :: b :: zero_word j r
  | _, _ => d
  end.

(** [d] with the 16-bit number [v] stored as word [k]. *)
Definition put_word (k : nat) (v : Z) (d : buf) : buf := splice d (2 * k) [v / 256; v mod 256].

(** [d] with the byte [y] stored at index [i]. *)
Definition put_byte (i : nat) (y : Z) (d : buf) : buf := splice d i [y].

(** Strings that differ at most in word [k]. *)
Definition same_outside (k : nat) (d d' : buf) : Prop :=
  length d = length d' /\ forall i, (i / 2 <> k)%nat -> nth i d 0 = nth i d' 0.

(** Padding to a whole number of words. *)
Definition pad2 (d : buf) : buf := if Nat.even (length d) then d else d ++ [0].

(** RFC 768 / RFC 793 pseudo header; [len] is the length of the segment. *)
Definition pseudo_v4 (src dst : buf) (proto len : Z) : buf :=
  src ++ dst ++ [0; proto] ++ be_bytes 2 len.
(** RFC 8200 section 8.1 pseudo header; an address is eight 16-bit groups. *)
Definition addr_v6 (a : list Z) : buf := flat_map (be_bytes 2) a.
Definition pseudo_v6 (src dst : list Z) (proto len : Z) : buf :=
  addr_v6 src ++ addr_v6 dst ++ be_bytes 4 len ++ [0; 0; 0; proto].

(** Addresses. *)
Definition ipv4_addr (a : buf) : Prop := length a = 4%nat /\ bytes_ok a.
Definition ipv6_addr (a : list Z) : Prop := length a = 8%nat /\ Forall (fun s => 0 <= s < 65536) a.

(** The bytes of an IPv4 packet that its header checksum should cover: the
    header length in 32-bit words is in bits 4..7; at least 20 bytes, at most
    the whole packet. *)
Definition covered (b : buf) : nat := Nat.min (Nat.max 20 (4 * Z.to_nat (field_val b 4 4))) (List.length b).

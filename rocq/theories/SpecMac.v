(** What the textual and binary forms of a MAC address are. *)
From Coq Require Import String Ascii ZArith List Bool.
From Verif Require Import Base MacAddr.
Import ListNotations.
Open Scope Z_scope.

(** The six octets are octets. *)
Definition mac_ok (m : mac) : Prop :=
  byte_ok (mac0 m) /\ byte_ok (mac1 m) /\ byte_ok (mac2 m) /\ byte_ok (mac3 m) /\ byte_ok (mac4 m) /\ byte_ok (mac5 m).

(** A character that stands for the hexadecimal digit [d]. *)
Definition lower (c : ascii) (d : nat) : Prop := String.get d "0123456789abcdef" = Some c.
Definition spells (c : ascii) (d : nat) : Prop :=
  lower c d \/ String.get d "0123456789ABCDEF" = Some c.

(** A string of digits and its value, most significant first. *)
Inductive digits : string -> Z -> Prop :=
| digits_one : forall c d, spells c d -> digits (String c "") (Z.of_nat d)
| digits_more : forall s v c d, digits s v -> spells c d -> digits (s ++ String c "") (16 * v + Z.of_nat d).

(** The text of one component: digits, possibly after a plus sign, with a value
    that fits in an octet. *)
Definition octet (s : string) (v : Z) : Prop :=
  v < 256 /\ (digits s v \/ exists t, s = String "+" t /\ digits t v).

(** The pieces of a string between colons. *)
Definition no_colon (s : string) : Prop := forall i, String.get i s <> Some ":"%char.
Definition pieces (s : string) (l : list string) : Prop :=
  l <> [] /\ Forall no_colon l /\ s = String.concat ":" l.

(** Two lower-case digits. *)
Definition pair_of (s : string) (v : Z) : Prop :=
  exists c1 c2 d1 d2, s = String c1 (String c2 "") /\ lower c1 d1 /\ lower c2 d2 /\
    v = 16 * Z.of_nat d1 + Z.of_nat d2.

(** A number of zero digits. *)
Fixpoint zeros (n : nat) : string := match n with O => "" | S k => String "0" (zeros k) end.

(** Two digits in either case. *)
Definition any_pair (s : string) (v : Z) : Prop :=
  exists c1 c2 d1 d2, s = String c1 (String c2 "") /\ spells c1 d1 /\ spells c2 d2 /\
    v = 16 * Z.of_nat d1 + Z.of_nat d2.

(** The 48-bit number an address stands for, first octet most significant. *)
Definition mac_number (m : mac) : Z :=
  2 ^ 40 * mac0 m + 2 ^ 32 * mac1 m + 2 ^ 24 * mac2 m + 2 ^ 16 * mac3 m + 2 ^ 8 * mac4 m + mac5 m.

(** Specification of the printed form of packets. *)
From Coq Require Import String Ascii ZArith NArith List Bool DecimalString.
From Verif Require Import Base DeriveUtil DeriveOps DeriveGen FmtText SpecMac.
Import ListNotations.
Open Scope Z_scope.

Fixpoint chars_in (p : ascii -> bool) (s : string) : bool :=
  match s with EmptyString => true | String a r => p a && chars_in p r end.
Definition between (lo hi a : ascii) : bool :=
  (nat_of_ascii lo <=? nat_of_ascii a)%nat && (nat_of_ascii a <=? nat_of_ascii hi)%nat.
(** Letters, digits and underscores: the characters of Rust identifiers (the ASCII
    ones). *)
Definition ident_char (a : ascii) : bool :=
  between "a" "z" a || between "A" "Z" a || between "0" "9" a || Ascii.eqb a "_".
Definition ident (n : string) : Prop := chars_in ident_char n = true.

(** The fields a packet shows: all but the payload. *)
Definition shown (fs : schema) : schema := filter (fun f => negb (f_payload f)) fs.

(** [Name { a : x, b : y,  }], with a comma and a space after every field. *)
Definition printed (name : string) (entries : list (string * string)) : string :=
  (name ++ " { " ++ String.concat "" (map (fun p => fst p ++ " : " ++ snd p ++ ", ") entries) ++ " }")%string.

(** What is assumed of the text of IPv6 addresses: eight 16-bit groups can be read back
    from it, and it consists of hexadecimal digits, colons and dots. *)
Definition groups (l : list Z) : Prop := length l = 8%nat /\ Forall (fun x => 0 <= x < 2 ^ 16) l.
Definition v6_char (a : ascii) : bool :=
  between "a" "f" a || between "0" "9" a || Ascii.eqb a ":" || Ascii.eqb a ".".
Definition v6_text (v6 : list Z -> string) : Prop :=
  (forall l l', groups l -> groups l' -> v6 l = v6 l' -> l = l') /\
  (forall l, groups l -> chars_in v6_char (v6 l) = true).

(** The type of a packet: [XPacket] or [MutableXPacket]. *)
Definition full_name (mutable : bool) (base : string) : string :=
  if mutable then ("Mutable" ++ base ++ "Packet")%string else (base ++ "Packet")%string.

(** Decimal digits without leading zeros. *)
Definition decimal (z : Z) : string := NilZero.string_of_uint (N.to_uint (Z.to_N z)).
Definition bracketed (l : list string) : string := ("[" ++ String.concat ", " l ++ "]")%string.

(** The text of a value that is not a list of packets: numbers in decimal, the number of a
    one-field struct after its name, MAC addresses as six pairs of lower-case digits, IPv4
    addresses as four numbers, byte vectors as lists of numbers. *)
Inductive flat_shows (v6 : list Z -> string) : flat -> val -> string -> Prop :=
| shows_int : forall z, flat_shows v6 FInt (VInt z) (decimal z)
| shows_new : forall n z, flat_shows v6 (FNew n) (VTup [z]) (n ++ "(" ++ decimal z ++ ")")
| shows_mac : forall l ts, length l = 6%nat -> Forall2 pair_of ts l -> flat_shows v6 FMac (VTup l) (String.concat ":" ts)
| shows_ip4 : forall l, length l = 4%nat -> flat_shows v6 FIp4 (VTup l) (String.concat "." (map decimal l))
| shows_ip6 : forall l, flat_shows v6 FIp6 (VTup l) (v6 l)
| shows_bytes : forall l, flat_shows v6 FBytes (VBytes l) (bracketed (map decimal l)).
(** An element of a list of packets: [Name { a: x, b: y }]. *)
Definition element (v6 : list Z -> string) (n : string) (fields : list (string * flat)) (xs : list val) (t : string) : Prop :=
  exists us, Forall2 (fun p u => flat_shows v6 (snd (fst p)) (snd p) u) (combine fields xs) us /\ length xs = length fields /\
    t = (n ++ " { " ++ String.concat ", " (map (fun p => fst (fst p) ++ ": " ++ snd p) (combine fields us)) ++ " }")%string.
Inductive shows (v6 : list Z -> string) : shape -> val -> string -> Prop :=
| shows_flat : forall f v s, flat_shows v6 f v s -> shows v6 (SFlat f) v s
| shows_list : forall n fields l ts, Forall2 (element v6 n fields) l ts -> shows v6 (SVec n fields) (VPkts l) (bracketed ts).

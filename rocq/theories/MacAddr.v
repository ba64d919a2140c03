(** Model of core/src/macaddr.rs. *)
From Coq Require Import String Ascii ZArith List Bool.
From Verif Require Import Base.
Import ListNotations.
Open Scope Z_scope.

(** core/src/macaddr.rs:27 *)
Record mac := MacAddr { mac0 : Z; mac1 : Z; mac2 : Z; mac3 : Z; mac4 : Z; mac5 : Z }.

(** core/src/macaddr.rs:17-20: [EtherAddr], six octets; arrays are lists of that
    length. *)
Definition ETHER_ADDR_LEN : nat := 6.

(** core/src/macaddr.rs:22-23 *)
Definition LOCAL_ADDR_BIT : Z := 2.
Definition MULTICAST_ADDR_BIT : Z := 1.

(** core/src/macaddr.rs:76-80: [From<EtherAddr>]; a list of another length has
    no counterpart in the source. *)
Definition mac_from_array (a : buf) : res mac :=
  x0 <- idx a 0 ;; x1 <- idx a 1 ;; x2 <- idx a 2 ;; x3 <- idx a 3 ;; x4 <- idx a 4 ;; x5 <- idx a 5 ;;
  Ok (MacAddr x0 x1 x2 x3 x4 x5).

(** core/src/macaddr.rs:82-86 *)
Definition mac_to_array (m : mac) : buf := [mac0 m; mac1 m; mac2 m; mac3 m; mac4 m; mac5 m].

(** core/src/macaddr.rs:31-33, 36-38 (derived [Default]) and 41-43. *)
Definition mac_new (a b c d e f : Z) : mac := MacAddr a b c d e f.
Definition mac_zero : mac := MacAddr 0 0 0 0 0 0.
Definition mac_broadcast : res mac := mac_from_array (repeat 255 ETHER_ADDR_LEN).

(** core/src/macaddr.rs:26: derived [PartialEq]. *)
Definition mac_eqb (x y : mac) : bool :=
  (mac0 x =? mac0 y) && (mac1 x =? mac1 y) && (mac2 x =? mac2 y) &&
  (mac3 x =? mac3 y) && (mac4 x =? mac4 y) && (mac5 x =? mac5 y).

(** core/src/macaddr.rs:26: derived [Ord] and [PartialOrd]: the fields of line 27
    in order, the first difference decides. *)
Definition then_cmp (a b : comparison) : comparison := match a with Eq => b | _ => a end.
Definition mac_cmp (x y : mac) : comparison :=
  then_cmp (mac0 x ?= mac0 y) (then_cmp (mac1 x ?= mac1 y) (then_cmp (mac2 x ?= mac2 y)
    (then_cmp (mac3 x ?= mac3 y) (then_cmp (mac4 x ?= mac4 y) (mac5 x ?= mac5 y))))).

(** core/src/macaddr.rs:88-92: [PartialEq<EtherAddr>]. *)
Definition mac_eq_array (x : mac) (a : buf) : res bool :=
  y <- mac_from_array a ;; Ok (mac_eqb x y).

(** core/src/macaddr.rs:46-73 *)
Definition is_zero (m : mac) : bool := mac_eqb m mac_zero.
Definition is_local (m : mac) : bool := Z.land (mac0 m) LOCAL_ADDR_BIT =? LOCAL_ADDR_BIT.
Definition is_universal (m : mac) : bool := negb (is_local m).
Definition is_multicast (m : mac) : bool := Z.land (mac0 m) MULTICAST_ADDR_BIT =? MULTICAST_ADDR_BIT.
Definition is_unicast (m : mac) : bool := negb (is_multicast m).
Definition is_broadcast (m : mac) : res bool := b <- mac_broadcast ;; Ok (mac_eqb m b).

(** A [str] is its UTF-8 bytes.  [{:02x}] of a u8 (std): two lower-case
    hexadecimal digits. *)
Definition hex_digit (d : Z) : ascii := ascii_of_N (Z.to_N (if d <? 10 then 48 + d else 87 + d)).
Definition fmt_02x (x : Z) : string := String (hex_digit (x / 16)) (String (hex_digit (x mod 16)) "").

(** core/src/macaddr.rs:94-102, and 160-164 ([Debug] delegates to [Display]). *)
Definition mac_display (m : mac) : string :=
  fmt_02x (mac0 m) ++ ":" ++ fmt_02x (mac1 m) ++ ":" ++ fmt_02x (mac2 m) ++ ":" ++
  fmt_02x (mac3 m) ++ ":" ++ fmt_02x (mac4 m) ++ ":" ++ fmt_02x (mac5 m).

(** [char::to_digit(16)] (std). *)
Definition to_digit16 (c : ascii) : option Z :=
  let n := Z.of_N (N_of_ascii c) in
  if (48 <=? n) && (n <=? 57) then Some (n - 48)
  else if (97 <=? n) && (n <=? 102) then Some (n - 87)
  else if (65 <=? n) && (n <=? 70) then Some (n - 55)
  else None.

(** [u8::from_str_radix(_, 16)] (std): the digit loop, with overflow checked
    after the multiplication and after the addition. *)
Fixpoint radix_digits (acc : Z) (s : string) : option Z :=
  match s with
  | EmptyString => Some acc
  | String c r =>
      if 255 <? acc * 16 then None
      else match to_digit16 c with
           | None => None
           | Some d => if 255 <? acc * 16 + d then None else radix_digits (acc * 16 + d) r
           end
  end.

(** [u8::from_str_radix(_, 16)] (std): the empty string and a lone sign are
    errors, a leading plus sign is skipped, a minus sign is not a digit.  All
    errors are identified. *)
Definition from_str_radix (s : string) : option Z :=
  match s with
  | EmptyString => None
  | String c EmptyString => if (c =? "+")%char || (c =? "-")%char then None else radix_digits 0 s
  | String c r => if (c =? "+")%char then radix_digits 0 r else radix_digits 0 s
  end.

(** [str::split(':')] (std): always at least one piece. *)
Fixpoint split_colon (s : string) : list string :=
  match s with
  | EmptyString => [EmptyString]
  | String c r =>
      if (c =? ":")%char then EmptyString :: split_colon r
      else match split_colon r with
           | h :: t => String c h :: t
           | [] => [String c EmptyString]
           end
  end.

(** core/src/macaddr.rs:166-175 *)
Inductive mac_err := TooManyComponents | TooFewComponents | InvalidComponent.

(** core/src/macaddr.rs:200-209 and 212-218: the loop over the pieces; [parts]
    holds the entries of the array written so far, so [i] is its length. *)
Fixpoint mac_pieces (splits : list string) (parts : list Z) : mac + mac_err :=
  match splits with
  | [] =>
      match parts with
      | [a; b; c; d; e; f] => inl (MacAddr a b c d e f)
      | _ => inr TooFewComponents
      end
  | s :: r =>
      if (List.length parts =? 6)%nat then inr TooManyComponents
      else match from_str_radix s with
           | Some b => if negb (String.length s =? 0)%nat then mac_pieces r (parts ++ [b]) else inr InvalidComponent
           | None => inr InvalidComponent
           end
  end.

(** core/src/macaddr.rs:195-220 *)
Definition mac_from_str (s : string) : mac + mac_err := mac_pieces (split_colon s) [].

(** A value of a serde data format, as far as MacAddr produces one or is asked
    about one. *)
Inductive serde_value := SStr (s : string) | SBytes (b : buf) | SOther.

(** core/src/macaddr.rs:104-118 *)
Definition mac_serialize (human_readable : bool) (m : mac) : serde_value :=
  if human_readable then SStr (mac_display m) else SBytes (mac_to_array m).

(** core/src/macaddr.rs:120-158: the visitor; [visit_str], [visit_bytes], the
    provided methods of [Visitor] for everything else are errors.  A format
    calls the method for the value it holds, or reports an error of its own
    (the hint given on lines 151-156 is a hint only). *)
Definition mac_visit (v : serde_value) : option mac :=
  match v with
  | SStr s => match mac_from_str s with inl m => Some m | inr _ => None end
  | SBytes b =>
      if blen b =? 6 then match mac_from_array b with Ok m => Some m | Panic _ => None end else None
  | SOther => None
  end.

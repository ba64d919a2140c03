(** MAC address properties: C35-C40 and C80. *)
From Coq Require Import String Ascii ZArith List Bool Lia.
From Verif Require Import Base MacAddr SpecMac MacAddrProofs.
Import ListNotations.
Open Scope Z_scope.

(** ** C35: MAC addresses print and parse back *)

Theorem C35_print_parse : forall m, mac_ok m -> mac_from_str (mac_display m) = inl m.
Proof. exact display_parse. Qed.
Print Assumptions C35_print_parse.
Theorem C35_printed_shape : forall m, mac_ok m -> String.length (mac_display m) = 17%nat /\
  exists p0 p1 p2 p3 p4 p5, mac_display m = String.concat ":" [p0; p1; p2; p3; p4; p5] /\
    pair_of p0 (mac0 m) /\ pair_of p1 (mac1 m) /\ pair_of p2 (mac2 m) /\
    pair_of p3 (mac3 m) /\ pair_of p4 (mac4 m) /\ pair_of p5 (mac5 m).
Proof. exact display_shape. Qed.
Print Assumptions C35_printed_shape.
Theorem C35_print_injective : forall m n, mac_ok m -> mac_ok n -> mac_display m = mac_display n -> m = n.
Proof. exact display_injective. Qed.
Print Assumptions C35_print_injective.
Definition sample_mac : mac := MacAddr 18 52 86 171 205 9.
Example C35_case : mac_ok sample_mac /\ mac_display sample_mac = "12:34:56:ab:cd:09"%string /\
  mac_from_str "12:34:56:ab:cd:09" = inl sample_mac /\ pair_of "cd" 205 /\
  mac_display sample_mac <> mac_display (MacAddr 18 52 86 171 205 144).
Proof.
  split; [repeat split; discriminate|]. repeat split; try reflexivity; try discriminate.
  exists "c"%char, "d"%char, 12%nat, 13%nat. repeat split.
Qed.

(** ** C36: what MAC parsing accepts *)

Theorem C36_accepts_exactly : forall s a b c d e f,
  mac_from_str s = inl (MacAddr a b c d e f) <->
  exists l, s = String.concat ":" l /\ Forall2 octet l [a; b; c; d; e; f].
Proof. exact from_str_iff. Qed.
Print Assumptions C36_accepts_exactly.
Example C36_case : mac_from_str "0:+7f:aB:00001:ff:10" = inl (MacAddr 0 127 171 1 255 16) /\
  mac_from_str "0:7f:ab:1:100:10" = inr InvalidComponent /\ mac_from_str "0:7f:ab:-1:1:10" = inr InvalidComponent /\
  octet "aB" 171 /\ octet "+7f" 127.
Proof.
  repeat (split; [reflexivity|]). split; (split; [reflexivity|]).
  - left. apply (digits_more "a" 10 "B" 11); [|right; reflexivity]. apply (digits_one "a" 10). left. reflexivity.
  - right. exists "7f"%string. split; [reflexivity|].
    apply (digits_more "7" 7 "f" 15); [|left; reflexivity]. apply (digits_one "7" 7). left. reflexivity.
Qed.

(** ** C37: the errors of MAC parsing *)

Theorem C37_error_classes : forall s l, pieces s l ->
  (mac_from_str s = inr InvalidComponent <->
     exists i x, (i < 6)%nat /\ nth_error l i = Some x /\ ~ exists v, octet x v) /\
  (mac_from_str s = inr TooManyComponents <->
     (6 < length l)%nat /\ forall i x, (i < 6)%nat -> nth_error l i = Some x -> exists v, octet x v) /\
  (mac_from_str s = inr TooFewComponents <->
     (length l < 6)%nat /\ forall i x, nth_error l i = Some x -> exists v, octet x v).
Proof. exact from_str_errors. Qed.
Print Assumptions C37_error_classes.
(** Every string has exactly one division into pieces. *)
Theorem C37_pieces_exist : forall s, exists l, pieces s l /\ forall k, pieces s k -> k = l.
Proof. exact pieces_exist. Qed.
Print Assumptions C37_pieces_exist.
Example C37_case : pieces "1:2::" ["1"; "2"; ""; ""]%string /\
  mac_from_str "1:2::" = inr InvalidComponent /\ mac_from_str "1:2" = inr TooFewComponents /\
  mac_from_str "1:2:3:4:5:6:zz" = inr TooManyComponents /\ mac_from_str "1:2:3:4:5:zz:6" = inr InvalidComponent /\
  mac_from_str "" = inr InvalidComponent.
Proof.
  split; [|vm_compute; auto]. split; [discriminate|]. split; [|reflexivity].
  repeat constructor; intros [|[|[|i]]]; discriminate.
Qed.

(** ** C38: MAC parsing accepts non-canonical spellings *)

Theorem C38_loose_spellings : forall ps m k, Forall2 any_pair ps (mac_to_array m) ->
  mac_from_str (String.concat ":" ps) = inl m /\
  mac_from_str (String.concat ":" (map (fun p => zeros k ++ p)%string ps)) = inl m /\
  mac_from_str (String.concat ":" (map (fun p => String "+" (zeros k ++ p))%string ps)) = inl m.
Proof. exact loose_parse. Qed.
Print Assumptions C38_loose_spellings.
Theorem C38_infinitely_many : forall m ps, Forall2 any_pair ps (mac_to_array m) -> forall k j, k <> j ->
  String.concat ":" (map (fun p => String "+" (zeros k ++ p))%string ps) <>
  String.concat ":" (map (fun p => String "+" (zeros j ++ p))%string ps).
Proof. exact spellings_differ. Qed.
Print Assumptions C38_infinitely_many.
Example C38_case : Forall2 any_pair ["12"; "34"; "56"; "Ab"; "CD"; "09"]%string (mac_to_array sample_mac) /\
  mac_from_str "12:34:56:Ab:CD:09" = inl sample_mac /\
  mac_from_str "+0012:+0034:+0056:+00Ab:+00CD:+0009" = inl sample_mac.
Proof.
  split; [|vm_compute; auto].
  repeat (apply Forall2_cons; [
    first [ exists "1"%char, "2"%char, 1%nat, 2%nat; repeat split; first [left; reflexivity | right; reflexivity]
          | exists "3"%char, "4"%char, 3%nat, 4%nat; repeat split; first [left; reflexivity | right; reflexivity]
          | exists "5"%char, "6"%char, 5%nat, 6%nat; repeat split; first [left; reflexivity | right; reflexivity]
          | exists "A"%char, "b"%char, 10%nat, 11%nat; repeat split; first [left; reflexivity | right; reflexivity]
          | exists "C"%char, "D"%char, 12%nat, 13%nat; repeat split; first [left; reflexivity | right; reflexivity]
          | exists "0"%char, "9"%char, 0%nat, 9%nat; repeat split; first [left; reflexivity | right; reflexivity] ]|]).
  apply Forall2_nil.
Qed.

(** ** C39: MAC predicates *)

Theorem C39_bits : forall m, is_multicast m = Z.testbit (mac0 m) 0 /\ is_local m = Z.testbit (mac0 m) 1 /\
  is_unicast m = negb (Z.testbit (mac0 m) 0) /\ is_universal m = negb (Z.testbit (mac0 m) 1).
Proof. exact mac_bits. Qed.
Print Assumptions C39_bits.
Theorem C39_special : forall m,
  (is_zero m = true <-> mac_to_array m = [0; 0; 0; 0; 0; 0]) /\
  (is_broadcast m = Ok true <-> mac_to_array m = [255; 255; 255; 255; 255; 255]) /\
  (exists b, is_broadcast m = Ok b) /\
  (is_zero m = true -> is_unicast m = true /\ is_universal m = true /\ is_broadcast m = Ok false) /\
  (is_broadcast m = Ok true -> is_multicast m = true /\ is_local m = true /\ is_zero m = false).
Proof. exact mac_special. Qed.
Print Assumptions C39_special.
Example C39_case : is_multicast (MacAddr 1 0 94 0 0 1) = true /\ is_local (MacAddr 1 0 94 0 0 1) = false /\
  is_local (MacAddr 254 0 0 0 0 0) = true /\ is_unicast (MacAddr 254 0 0 0 0 0) = true /\
  is_broadcast (MacAddr 255 255 255 255 255 254) = Ok false.
Proof. vm_compute. auto. Qed.

(** ** C40: MAC conversions and serde *)

Theorem C40_arrays : (forall m, mac_from_array (mac_to_array m) = Ok m) /\
  (forall a : buf, length a = 6%nat -> exists m, mac_from_array a = Ok m /\ mac_to_array m = a) /\
  (forall m (a : buf), length a = 6%nat -> exists b, mac_eq_array m a = Ok b /\ (b = true <-> mac_to_array m = a)).
Proof. exact array_roundtrip. Qed.
Print Assumptions C40_arrays.
Theorem C40_serde : forall h m, mac_ok m -> mac_visit (mac_serialize h m) = Some m.
Proof. exact serde_roundtrip. Qed.
Print Assumptions C40_serde.
Theorem C40_serde_bytes : forall b : buf, (length b <> 6%nat -> mac_visit (SBytes b) = None) /\
  (length b = 6%nat -> exists m, mac_visit (SBytes b) = Some m /\ mac_to_array m = b).
Proof. exact serde_bytes. Qed.
Print Assumptions C40_serde_bytes.
Example C40_case : mac_from_array [18; 52; 86; 171; 205; 9] = Ok sample_mac /\
  mac_serialize true sample_mac = SStr "12:34:56:ab:cd:09" /\
  mac_serialize false sample_mac = SBytes [18; 52; 86; 171; 205; 9] /\
  mac_visit (SBytes [18; 52; 86; 171; 205]) = None /\ mac_visit (SBytes [18; 52; 86; 171; 205; 9; 0]) = None /\
  mac_eq_array sample_mac [18; 52; 86; 171; 205; 8] = Ok false.
Proof. vm_compute. auto 10. Qed.

(** ** C80: the order of MAC addresses *)

(** [Ord] is the order of the 48-bit numbers and the order of the printed texts. *)
Theorem C80_order_is_numeric : forall x y, mac_ok x -> mac_ok y -> mac_cmp x y = (mac_number x ?= mac_number y).
Proof. exact mac_cmp_number. Qed.
Print Assumptions C80_order_is_numeric.
Theorem C80_order_is_textual : forall x y, mac_ok x -> mac_ok y ->
  mac_cmp x y = String.compare (mac_display x) (mac_display y).
Proof. exact mac_cmp_text. Qed.
Print Assumptions C80_order_is_textual.
(** It agrees with [Eq], and zero and broadcast are its ends. *)
Theorem C80_order_agrees_with_equality : forall x y, mac_cmp x y = Eq <-> mac_eqb x y = true.
Proof. exact mac_cmp_eq. Qed.
Print Assumptions C80_order_agrees_with_equality.
Theorem C80_ends : forall m, mac_ok m -> mac_cmp mac_zero m <> Gt /\
  exists b, mac_broadcast = Ok b /\ mac_cmp m b <> Gt.
Proof. exact mac_cmp_ends. Qed.
Print Assumptions C80_ends.
Example C80_case : mac_cmp sample_mac (MacAddr 18 52 86 160 255 255) = Gt /\
  String.compare (mac_display sample_mac) (mac_display (MacAddr 18 52 86 160 255 255)) = Gt /\
  mac_cmp (MacAddr 9 255 0 0 0 0) (MacAddr 160 0 0 0 0 0) = Lt /\ mac_number sample_mac = 20016001699081.
Proof. vm_compute. auto. Qed.

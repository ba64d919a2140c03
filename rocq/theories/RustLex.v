(** Rust source text: tokens, token trees and the struct items the derive macro is
    given.  Written from the Rust reference (lexical structure, attributes, struct
    items); nothing here comes from the repository. *)
From Coq Require Import String Ascii ZArith List Bool.
From Verif Require Import Base DeriveParse.
Import ListNotations.
Open Scope string_scope.

(** ** Characters *)

Definition char_in (lo hi : N) (a : ascii) : bool := (N.leb lo (N_of_ascii a) && N.leb (N_of_ascii a) hi)%bool.
Definition digit_char (a : ascii) : bool := char_in 48 57 a.
Definition ident_start (a : ascii) : bool :=
  (char_in 97 122 a || char_in 65 90 a || char_in 95 95 a)%bool.
Definition ident_char (a : ascii) : bool := (ident_start a || digit_char a)%bool.
Definition space_char (a : ascii) : bool := (char_in 9 10 a || char_in 13 13 a || char_in 32 32 a)%bool.
Definition quote_char : ascii := "034".
Definition newline_char : ascii := "010".

(** The longest prefix of characters satisfying [p], and the rest. *)
Fixpoint span (p : ascii -> bool) (s : string) : string * string :=
  match s with
  | "" => ("", "")
  | String a r => if p a then let '(u, v) := span p r in (String a u, v) else ("", s)
  end.

(** ** Tokens *)

Inductive rtok :=
| KIdent (s : string)
| KLit (is_int : bool) (s : string)
| KPunct (s : string)
| KOpen (d : string)
| KClose (d : string).

(** The two-character operators; other punctuation is one character. *)
Definition two_char (s : string) : bool :=
  existsb (String.eqb s)
    ["=="; "!="; ">="; "<="; ">>"; "<<"; "&&"; "||"; "+="; "-="; "*="; "/="; "|="; "&="; "->"; "=>"; "::"; ".."].
(** The delimiter an opening or closing character belongs to. *)
Definition opening (a : ascii) : option string :=
  match a with "("%char => Some "()" | "["%char => Some "[]" | "{"%char => Some "{}" | _ => None end.
Definition closing (a : ascii) : option string :=
  match a with ")"%char => Some "()" | "]"%char => Some "[]" | "}"%char => Some "{}" | _ => None end.

(** Tokens of a text.  Line comments are dropped (a doc comment on a field would be
    an attribute: none of the texts read here has one), string literals have no
    escapes, a number may carry a type suffix.  [None]: not a token, or [n] too small
    (the length of the text is enough). *)
Fixpoint tokens (n : nat) (s : string) : option (list rtok) :=
  match n with
  | O => match s with "" => Some [] | _ => None end
  | S k =>
      let push t r := match tokens k r with Some l => Some (t :: l) | None => None end in
      match s with
      | "" => Some []
      | String a r =>
          if space_char a then tokens k r
          else if String.prefix "//" s then tokens k (snd (span (fun x => negb (Ascii.eqb x newline_char)) s))
          else if String.prefix "r#" s then
            let '(w, r') := span ident_char (String.substring 2 (String.length s - 2) s) in push (KIdent ("r#" ++ w)) r'
          else if ident_start a then let '(w, r') := span ident_char s in push (KIdent w) r'
          else if digit_char a then let '(w, r') := span ident_char s in push (KLit true w) r'
          else if Ascii.eqb a quote_char then
            let '(w, r') := span (fun x => negb (Ascii.eqb x quote_char)) r in
            match r' with
            | String _ r'' => push (KLit false (String a (w ++ String a ""))) r''
            | "" => None
            end
          else match opening a, closing a with
               | Some d, _ => push (KOpen d) r
               | _, Some d => push (KClose d) r
               | None, None =>
                   match r with
                   | String b r' => if two_char (String a (String b "")) then push (KPunct (String a (String b ""))) r'
                                    else push (KPunct (String a "")) r
                   | "" => push (KPunct (String a "")) r
                   end
               end
      end
  end.

(** ** Token trees *)

(** The trees up to the next closing delimiter or the end, and the tokens from there on. *)
Fixpoint trees (n : nat) (l : list rtok) : option (list ttree * list rtok) :=
  match n with
  | O => None
  | S k =>
      let cons t r := match trees k r with Some (ts, r') => Some (t :: ts, r') | None => None end in
      match l with
      | [] => Some ([], [])
      | KClose d :: _ => Some ([], l)
      | KIdent s :: r => cons (TIdent s) r
      | KLit i s :: r => cons (TLit i s) r
      | KPunct s :: r => cons (TPunct s) r
      | KOpen d :: r =>
          match trees k r with
          | Some (inner, KClose d' :: r') => if String.eqb d d' then cons (TGroup d inner) r' else None
          | _ => None
          end
      end
  end.
Definition read_trees (s : string) : option (list ttree) :=
  match tokens (String.length s) s with
  | Some l => match trees (S (List.length l)) l with Some (ts, []) => Some ts | _ => None end
  | None => None
  end.

(** The pieces between the commas; a comma at the end ends the last piece. *)
Fixpoint commas_from (cur l : list ttree) : list (list ttree) :=
  match l with
  | [] => match cur with [] => [] | _ => [cur] end
  | TPunct "," :: r => cur :: commas_from [] r
  | t :: r => commas_from (cur ++ [t])%list r
  end.
Definition commas (l : list ttree) : list (list ttree) := commas_from [] l.

(** ** Text replacement *)

(** [s.replace(pat, by)]: all occurrences, from the left, none overlapping. *)
Fixpoint replace_fuel (n : nat) (pat by_ s : string) : string :=
  match n with
  | O => s
  | S k =>
      match s with
      | "" => ""
      | String a r =>
          if String.prefix pat s
          then by_ ++ replace_fuel k pat by_ (String.substring (String.length pat) (String.length s - String.length pat) s)
          else String a (replace_fuel k pat by_ r)
      end
  end.
Definition replace (pat by_ s : string) : string := replace_fuel (String.length s) pat by_ s.

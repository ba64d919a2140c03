(** Struct items: from the text of a struct to what syn hands to the derive macro.
    Written from the Rust reference (struct items, attributes) and syn's documentation. *)
From Coq Require Import String Ascii ZArith List Bool.
From Verif Require Import Base DeriveParse RustLex RustSyntax.
Import ListNotations.
Open Scope string_scope.

(** The token stream of a type or path as text: tokens separated by spaces. *)
Fixpoint spaced (l : list ttree) : string :=
  match l with
  | [] => ""
  | [TIdent s] | [TPunct s] | [TLit _ s] => s
  | TIdent s :: r | TPunct s :: r | TLit _ s :: r => s ++ " " ++ spaced r
  | TGroup d _ :: r => "?" ++ spaced r
  end.
(** derive/src/parse.rs:360-364 *)
Definition ty_to_string (l : list ttree) : string :=
  replace " >" ">" (replace " > " ">" (replace " < " "<" (spaced l))).

(** The text of a string literal (which has no escapes). *)
Definition unquoted (s : string) : string := substring 1 (String.length s - 2) s.
(** derive/src/parse.rs:104-108: the text in the literal, with [...] replaced, as the
    tokens of an expression. *)
Definition length_text (s : string) : option (list ttree) :=
  match read_trees (replace "..." "r#field_offset" s) with
  | Some l => match read_expr l with Some _ => Some l | None => None end
  | None => None
  end.
(** The inside of [#[...]]; none of the structs has an attribute with a longer path. *)
Definition read_attr (l : list ttree) : attr :=
  match l with
  | [TIdent x] => AttrPath (Some x)
  | [TIdent x; TPunct "="; TLit is_int s] =>
      AttrNameValue (Some x) (if is_int then LitOther else LitStr (length_text (unquoted s)))
  | [TIdent x; TGroup "()" g] =>
      AttrList (Some x) (map (fun p => match p with [TLit _ _] => NLit | _ => NMeta (spaced p) end) (commas g))
  | _ => AttrBad
  end.

(** The attributes in front of an item, and the item. *)
Fixpoint attributes (l : list ttree) : list attr * list ttree :=
  match l with
  | TPunct "#" :: TGroup "[]" g :: r => let '(a, r') := attributes r in (read_attr g :: a, r')
  | _ => ([], l)
  end.
Definition after_pub (l : list ttree) : list ttree := match l with TIdent "pub" :: r => r | _ => l end.
Definition read_field (l : list ttree) : option sfield :=
  let '(a, r) := attributes l in
  match after_pub r with
  | TIdent x :: TPunct ":" :: t => Some (SField (Some x) a (ty_to_string t))
  | _ => None
  end.
Fixpoint read_fields (l : list (list ttree)) : option (list sfield) :=
  match l with
  | [] => Some []
  | p :: r => match read_field p, read_fields r with Some f, Some fs => Some (f :: fs) | _, _ => None end
  end.
(** The name and the fields of a struct with named fields. *)
Definition read_struct (s : string) : option (string * list sfield) :=
  match read_trees s with
  | Some l =>
      match after_pub (snd (attributes l)) with
      | [TIdent "struct"; TIdent n; TGroup "{}" g] =>
          match read_fields (commas g) with Some fs => Some (n, fs) | None => None end
      | _ => None
      end
  | None => None
  end.

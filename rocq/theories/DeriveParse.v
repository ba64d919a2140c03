(** Model of derive/src/parse.rs, and of the rejections of derive/src/gen.rs. *)
From Coq Require Import String Ascii ZArith List Bool.
From Verif Require Import Base DeriveUtil DeriveOps.
Import ListNotations.
Open Scope Z_scope.

(** ** Type names *)

(** The character class [[0-9]] of the regular expression on
    derive/src/parse.rs:299. *)
Definition digit_val (c : ascii) : option Z :=
  let n := Z.of_N (N_of_ascii c) in
  if (48 <=? n) && (n <=? 57) then Some (n - 48) else None.

(** Greedy [[0-9]+]: the longest run of digits and what follows it. *)
Fixpoint take_digits (s : string) : string * string :=
  match s with
  | EmptyString => (EmptyString, EmptyString)
  | String c r =>
      match digit_val c with
      | Some _ => let '(d, t) := take_digits r in (String c d, t)
      | None => (EmptyString, s)
      end
  end.

(** [usize::from_str] (std) on a string of digits: overflow is an error. *)
Fixpoint usize_digits (acc : Z) (s : string) : option Z :=
  match s with
  | EmptyString => Some acc
  | String c r =>
      match digit_val c with
      | None => None
      | Some d =>
          if 2 ^ 64 <=? acc * 10 then None
          else if 2 ^ 64 <=? acc * 10 + d then None
          else usize_digits (acc * 10 + d) r
      end
  end.

(** derive/src/parse.rs:306-317: capture group 2 and the end of the text. *)
Definition ty_suffix (s : string) : option (endian * bool) :=
  if (s =? "")%string then Some (Big, false)
  else if (s =? "be")%string then Some (Big, true)
  else if (s =? "he")%string then Some (Host, true)
  else if (s =? "le")%string then Some (Little, true)
  else None.

(** derive/src/parse.rs:298-327: size, byte order, whether it was specified.
    The regular expression [^u([0-9]+)(be|le|he)?$] is deterministic. *)
Definition parse_ty (s : string) : option (Z * endian * bool) :=
  match s with
  | String "u" r =>
      let '(d, t) := take_digits r in
      if (d =? "")%string then None
      else match ty_suffix t with
           | None => None
           | Some (e, spec) =>
               match usize_digits 0 d with
               | Some n => Some (n, e, spec)
               | None => None
               end
           end
  | _ => None
  end.

(** derive/src/parse.rs:14-22 *)
Inductive rtype :=
| RPrimitive (name : string) (size : Z) (e : endian)
| RVector (t : rtype)
| RMisc (name : string).

(** derive/src/parse.rs:277 and 290 *)
Inductive ty_err := EndiannessMissing | InvalidType.

(** derive/src/parse.rs:279-282: the text between the first four bytes and the
    last one.  [&s[4..len - 1]] panics when there is no such text (and when the
    cut is inside a UTF-8 sequence, which does not happen for the output of
    [ty_to_string], that ends in an angle bracket). *)
Definition vec_inner (s : string) : res string :=
  if (String.length s <? 5)%nat then Panic EIndex else Ok (String.substring 4 (String.length s - 5) s).

(** derive/src/parse.rs:272-293.  [fuel]: nesting of angle brackets, at most
    the length of the string. *)
Fixpoint parse_type_fuel (fuel : nat) (s : string) (endianness_important : bool) : res (rtype + ty_err) :=
  match parse_ty s with
  | Some (size, e, spec) =>
      if negb endianness_important || (size <=? 8) || spec then Ok (inl (RPrimitive s size e))
      else Ok (inr EndiannessMissing)
  | None =>
      if String.prefix "Vec<" s then
        inner <- vec_inner s ;;
        match fuel with
        | O => Panic EDiverge
        | S k =>
            t <- parse_type_fuel k inner endianness_important ;;
            match t with
            | inl t' => Ok (inl (RVector t'))
            | inr e => Ok (inr e)
            end
        end
      else if String.prefix "&" s then Ok (inr InvalidType)
      else Ok (inl (RMisc s))
  end.
Definition parse_type (s : string) (endianness_important : bool) : res (rtype + ty_err) :=
  parse_type_fuel (String.length s) s endianness_important.

(** ** Length attributes *)

(** Token trees (proc_macro2).  A literal carries whether syn accepts it as an
    integer. *)
Inductive ttree :=
| TIdent (s : string)
| TPunct (s : string)
| TLit (is_int : bool) (s : string)
| TGroup (delimiter : string) (l : list ttree).

(** derive/src/parse.rs:237: the tokens of [self.get_<name>()]. *)
Definition getter_call (n : string) : list ttree :=
  [TIdent "self"; TPunct "."; TIdent ("get_" ++ n); TGroup "()" []].

(** derive/src/parse.rs:224-270.  [None]: a literal that is not an integer. *)
Fixpoint length_token (names : list string) (t : ttree) : option (list ttree) :=
  match t with
  | TIdent n => if existsb (String.eqb n) names then Some (getter_call n) else Some [t]
  | TPunct _ => Some [t]
  | TLit is_int _ => if is_int then Some [t] else None
  | TGroup d l =>
      match (fix go (l : list ttree) : option (list ttree) :=
               match l with
               | [] => Some []
               | x :: r =>
                   match length_token names x with
                   | None => None
                   | Some a => match go r with Some b => Some (a ++ b) | None => None end
                   end
               end) l with
      | Some l' => Some [TGroup d l']
      | None => None
      end
  end.
Fixpoint length_tokens (names : list string) (l : list ttree) : option (list ttree) :=
  match l with
  | [] => Some []
  | x :: r =>
      match length_token names x with
      | None => None
      | Some a => match length_tokens names r with Some b => Some (a ++ b) | None => None end
      end
  end.

(** ** Structs *)

(** The literal of a name-value attribute.  [LitStr]: a string, with the tokens
    of the expression it holds once [...] is replaced (derive/src/parse.rs:104-108);
    [None] if that is not an expression.  The expression parser is syn's. *)
Inductive lit := LitStr (e : option (list ttree)) | LitOther.
(** An argument of a list attribute: a meta item with its text, or a literal. *)
Inductive nested := NMeta (text : string) | NLit.
(** syn::Meta: [id] is [None] when the path is not a single identifier.
    [AttrBad]: [parse_meta] fails. *)
Inductive attr :=
| AttrBad
| AttrPath (id : option string)
| AttrNameValue (id : option string) (l : lit)
| AttrList (id : option string) (l : list nested).

(** A field as syn gives it; [sf_ty] is [ty_to_string] of its type
    (derive/src/parse.rs:360-364, not modelled). *)
Record sfield := SField { sf_name : option string; sf_attrs : list attr; sf_ty : string }.

(** derive/src/parse.rs:24-33: the processed field.  [pf_struct_len] says
    whether struct_length is [Some] (its text is determined by the name). *)
Record pfield := PField {
  pf_name : string;
  pf_ty : rtype;
  pf_len : option (list ttree);
  pf_struct_len : bool;
  pf_payload : bool;
  pf_cons : list rtype }.

(** The errors of derive/src/parse.rs:50-221 and of derive/src/gen.rs. *)
Inductive perr :=
| NotNamed | BadMeta | MultiplePayloads | BadLength | UnknownNameValue | EmptyConstructWith
| BadConstructWith | UnknownAttribute | NotAnIdent | BadType (e : ty_err) | MissingLength | MissingConstructWith
| VecBits | VecVec | ConstructArgs.

(** What the attribute loop carries: construct_with, is_payload, packet_length
    of this field and whether some payload was seen (derive/src/parse.rs:52, 64-67). *)
Record astate := AState { a_cons : list rtype; a_payload : bool; a_len : option (list ttree); a_seen : bool }.

(** derive/src/parse.rs:137-160 *)
Fixpoint cons_items (l : list nested) (acc : list rtype) : res (list rtype + perr) :=
  match l with
  | [] => Ok (inl acc)
  | NLit :: _ => Ok (inr BadConstructWith)
  | NMeta s :: r =>
      t <- parse_type s false ;;
      match t with
      | inl ty => cons_items r (acc ++ [ty])
      | inr e => Ok (inr (BadType e))
      end
  end.

(** derive/src/parse.rs:68-175: one attribute. *)
Definition step_attr (names : list string) (a : attr) (s : astate) : res (astate + perr) :=
  match a with
  | AttrBad => Ok (inr BadMeta)
  | AttrPath (Some id) =>
      if (id =? "payload")%string then
        if a_seen s then Ok (inr MultiplePayloads)
        else Ok (inl (AState (a_cons s) true (a_len s) true))
      else Ok (inl s)
  | AttrPath None => Ok (inl s)
  | AttrNameValue (Some id) l =>
      if (id =? "length")%string then
        match l with
        | LitStr (Some e) =>
            match length_tokens names e with
            | Some e' => Ok (inl (AState (a_cons s) (a_payload s) (Some e') (a_seen s)))
            | None => Ok (inr BadLength)
            end
        | LitStr None => Ok (inr BadLength)
        | LitOther => Ok (inr BadLength)
        end
      else Ok (inr UnknownNameValue)
  | AttrNameValue None _ => Ok (inl s)
  | AttrList (Some id) l =>
      if (id =? "construct_with")%string then
        match l with
        | [] => Ok (inr EmptyConstructWith)
        | _ =>
            r <- cons_items l (a_cons s) ;;
            match r with
            | inl c => Ok (inl (AState c (a_payload s) (a_len s) (a_seen s)))
            | inr e => Ok (inr e)
            end
        end
      else Ok (inr UnknownAttribute)
  | AttrList None _ => Ok (inr NotAnIdent)
  end.
Fixpoint step_attrs (names : list string) (l : list attr) (s : astate) : res (astate + perr) :=
  match l with
  | [] => Ok (inl s)
  | a :: r =>
      x <- step_attr names a s ;;
      match x with
      | inl s' => step_attrs names r s'
      | inr e => Ok (inr e)
      end
  end.

(** derive/src/parse.rs:89-102: the other fields' names. *)
Definition other_names (all : list sfield) (me : string) : list string :=
  flat_map (fun f => match sf_name f with Some n => if (n =? me)%string then [] else [n] | None => [] end) all.

(** derive/src/parse.rs:54-214: one field; [last] = [i == sfields.len() - 1]. *)
Definition step_field (all : list sfield) (last : bool) (f : sfield) (seen : bool) : res (pfield * bool + perr) :=
  match sf_name f with
  | None => Ok (inr NotNamed)
  | Some n =>
      x <- step_attrs (other_names all n) (sf_attrs f) (AState [] false None seen) ;;
      match x with
      | inr e => Ok (inr e)
      | inl s =>
          t <- parse_type (sf_ty f) true ;;
          match t with
          | inr e => Ok (inr (BadType e))
          | inl ty =>
              let done sl := Ok (inl (PField n ty (a_len s) sl (a_payload s) (a_cons s), a_seen s)) in
              match ty with
              | RVector _ =>
                  if negb last && match a_len s with None => true | Some _ => false end
                  then Ok (inr MissingLength) else done true
              | RMisc _ => match a_cons s with [] => Ok (inr MissingConstructWith) | _ => done false end
              | RPrimitive _ _ _ => done false
              end
          end
      end
  end.
Fixpoint step_fields (all : list sfield) (l : list sfield) (seen : bool) : res (list pfield + perr) :=
  match l with
  | [] => Ok (inl [])
  | f :: r =>
      x <- step_field all (match r with [] => true | _ => false end) f seen ;;
      match x with
      | inr e => Ok (inr e)
      | inl (p, seen') =>
          y <- step_fields all r seen' ;;
          match y with
          | inl ps => Ok (inl (p :: ps))
          | inr e => Ok (inr e)
          end
      end
  end.

(** derive/src/parse.rs:50-221 *)
Definition parse_packet (l : list sfield) : res (list pfield + perr) := step_fields l l false.

(** ** The rejections of the code generator *)

(** derive/src/gen.rs:127, 182 and 302: [operations(..).unwrap()]. *)
Definition gen_ops (m : mode) (host_le : bool) (bit size : Z) (e : endian) : res unit :=
  o <- operations m host_le (bit mod 8) size e ;;
  match o with Some _ => Ok tt | None => Panic EUnwrap end.

(** derive/src/gen.rs:300-338: the arguments of construct_with; the result is
    the new bit offset (every size is at most 64 here, so [bit_offset] stays far
    below 2^64 for any struct that fits in memory). *)
Fixpoint gen_args (m : mode) (host_le : bool) (bit : Z) (l : list rtype) : res (Z + perr) :=
  match l with
  | [] => Ok (inl bit)
  | RPrimitive _ size e :: r =>
      _ <- gen_ops m host_le bit size e ;;
      gen_args m host_le (bit + size) r
  | _ :: _ => Ok (inr ConstructArgs)
  end.

(** derive/src/gen.rs:125-360: one field.  Everything else the generator does
    is assembling tokens, which cannot fail for names and types that came from
    a Rust struct (a type name with its own angle brackets inside [Vec] makes
    [format_ident!] panic; such names are outside the model). *)
Definition gen_field (m : mode) (host_le : bool) (bit : Z) (f : pfield) : res (Z + perr) :=
  match pf_ty f with
  | RPrimitive _ size e =>
      _ <- gen_ops m host_le bit size e ;;
      Ok (inl (bit + size))
  | RVector (RPrimitive _ size _) =>
      if negb (size mod 8 =? 0) then Ok (inr VecBits)
      else (_ <- gen_ops m host_le 0 size Big ;; Ok (inl bit))
  | RVector (RVector _) => Ok (inr VecVec)
  | RVector (RMisc _) => Ok (inl bit)
  | RMisc _ => gen_args m host_le bit (pf_cons f)
  end.
Fixpoint gen_fields (m : mode) (host_le : bool) (bit : Z) (l : list pfield) : res (Z + perr) :=
  match l with
  | [] => Ok (inl bit)
  | f :: r =>
      x <- gen_field m host_le bit f ;;
      match x with
      | inl b' => gen_fields m host_le b' r
      | inr e => Ok (inr e)
      end
  end.

(** derive/src/lib.rs:149-191 for a public struct: parse, then generate.  The
    result is the number of header bits. *)
Definition derive_packet (m : mode) (host_le : bool) (l : list sfield) : res (Z + perr) :=
  p <- parse_packet l ;;
  match p with
  | inl fs => gen_fields m host_le 0 fs
  | inr e => Ok (inr e)
  end.

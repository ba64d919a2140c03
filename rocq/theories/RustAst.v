(** A larger part of Rust than RustSyntax.v reads: string literals, structs, enums,
    macros with arguments, [?], [if let], alternatives in patterns, assignments to places.
    Abstract syntax and parser, written from the Rust reference; tokens, operators and
    precedences are those of RustLex.v and RustSyntax.v. *)
From Coq Require Import String Ascii ZArith List Bool.
From Verif Require Import Base DeriveParse RustLex RustSyntax RustMethod.
Import ListNotations.
Open Scope string_scope.

(** ** Syntax *)

Inductive pt :=
| QWild | QVar (x : string) | QInt (z : Z) | QConst (p : string)
| QCon (c : string) (l : list pt) | QTup (l : list pt) | QAlt (l : list pt).

Inductive xp :=
| YInt (t : string) (z : Z)
| YStr (s : string)
| YChar (s : string)
| YPath (p : string)
| YCall (f : string) (l : list xp)
| YMeth (e : xp) (m : string) (l : list xp)
| YProj (e : xp) (x : string)
| YIndex (e i : xp)
| YRange (a b : option xp) (incl : bool)
| YUn (o : unop) (e : xp)
| YBin (o : binop) (a b : xp)
| YCast (e : xp) (t : string)
| YTup (l : list xp)
| YArr (l : list xp)
| YRep (e n : xp)
| YStruct (c : string) (l : list (string * xp))
| YIf (c a : xp) (b : option xp)
| YMatch (e : xp) (l : list (pt * option xp * xp))
| YBlock (l : list sx) (e : option xp)
| YMac (m : string) (l : list xp)
| YTry (e : xp)
| YRet (e : option xp)
with sx :=
| ZLet (p : pt) (t : option string) (e : xp)
| ZSet (o : option binop) (p e : xp)
| ZExp (e : xp)
| ZFor (p : pt) (e : xp) (b : xp)
| ZWhile (c b : xp).

(** A function: name, parameters with their types, result type, body. *)
Record func := Func { fu_name : string; fu_params : list (string * string); fu_ret : string; fu_body : xp }.

(** ** Tokens *)

(** Lifetimes are dropped; a character between quotes becomes a literal, [?] and [..=] become words;
    [Self] stands for the type of the [impl] block. *)
Definition is_punct (x : string) (t : ttree) : bool := match t with TPunct s => String.eqb s x | _ => false end.
Fixpoint plain (self : string) (l : list ttree) : list ttree :=
  match l with
  | [] => []
  | TIdent s :: r => TIdent (if String.eqb s "Self" then self else s) :: plain self r
  | TPunct a :: r =>
      if String.eqb a "?" then TIdent "?" :: plain self r
      else match r with
           | TIdent _ :: r' => if String.eqb a "'" then plain self r' else TPunct a :: plain self r
           | TPunct b :: r' =>
               if (String.eqb a ".." && String.eqb b "=")%bool then TIdent "..=" :: plain self r'
               else match r' with
                    | t :: r'' => if (String.eqb a "'" && is_punct "'" t)%bool then TLit false ("'" ++ b) :: plain self r''
                                  else TPunct a :: plain self r
                    | [] => TPunct a :: plain self r
                    end
           | _ => TPunct a :: plain self r
           end
  | t :: r => t :: plain self r
  end.
Fixpoint plain_deep (self : string) (t : ttree) : ttree :=
  match t with
  | TGroup d l =>
      TGroup d (plain self ((fix go (l : list ttree) : list ttree := match l with [] => [] | t :: r => plain_deep self t :: go r end) l))
  | _ => t
  end.
(** Type arguments after [::] and [use] declarations are dropped (RustMethod.v). *)
Fixpoint bare (t : tt) : tt :=
  let inside := fix go (l : list tt) : list tt := match l with [] => [] | t :: r => bare t :: go r end in
  match t with
  | Par l => Par (drop_targs false (inside l))
  | Brk l => Brk (drop_targs false (inside l))
  | Brc l => Brc (drop_targs false (drop_use false (inside l)))
  | _ => t
  end.
Definition words (self : string) (l : list ttree) : list tt :=
  map (fun t => bare (told t)) (plain self (map (plain_deep self) l)).

(** A string literal: without its quotes; [\n] and [\\] are escapes. *)
Definition backslash : ascii := "092".
Fixpoint unescape (s : string) : string :=
  match s with
  | "" => ""
  | String a r =>
      if Ascii.eqb a quote_char then unescape r
      else match r with
           | String b r' =>
               if Ascii.eqb a backslash
               then String (if Ascii.eqb b "n"%char then newline_char else b) (unescape r')
               else String a (unescape r)
           | "" => String a ""
           end
  end.
(** A literal that is not a number: [plain] marks characters. *)
Definition text_lit (s : string) : xp :=
  match s with
  | String a r => if Ascii.eqb a quote_char then YStr (unescape r) else YChar r
  | "" => YStr ""
  end.

(** ** Patterns *)

Fixpoint alts_from (cur l : list tt) : list (list tt) :=
  match l with
  | [] => [cur]
  | Op (QBin OOr) :: r => cur :: alts_from [] r
  | t :: r => alts_from (cur ++ [t])%list r
  end.
Fixpoint qpat (n : nat) (l : list tt) : option (pt * list tt) :=
  match n with
  | O => None
  | S k =>
      let list_of g :=
        (fix go (ps : list (list tt)) : option (list pt) :=
           match ps with
           | [] => Some []
           | p :: r => match qpat k p, go r with Some (x, []), Some xs => Some (x :: xs) | _, _ => None end
           end) (pieces g) in
      match l with
      | W KWild :: r => Some (QWild, r)
      | W KMut :: Id x :: r => Some (QVar x, r)
      | Op (QBin OAnd) :: r => qpat k r
      | Li true s :: r => match int_lit s with Some (_, z) => Some (QInt z, r) | None => None end
      | Par g :: r => match list_of g with Some ps => Some (QTup ps, r) | None => None end
      | Id x :: r =>
          let '(p, r1) := path x r in
          match r1 with
          | Par g :: r2 => match list_of g with Some ps => Some (QCon p ps, r2) | None => None end
          | _ => if (upper p || has_path p)%bool then Some (QConst p, r1) else Some (QVar p, r1)
          end
      | _ => None
      end
  end.
(** [p | q | ...] *)
Definition qpats (n : nat) (l : list tt) : option pt :=
  match alts_from [] l with
  | [p] => match qpat n p with Some (x, []) => Some x | _ => None end
  | ps => match all_some (map (fun p => match qpat n p with Some (x, []) => Some x | _ => None end) ps) with
          | Some xs => Some (QAlt xs)
          | None => None
          end
  end.

(** ** Expressions *)

Definition is_arm (t : tt) : bool := match t with Op QArm => true | W KIf => true | _ => false end.
Definition is_in (t : tt) : bool := match t with W KIn => true | _ => false end.
Definition struct_lit (p : string) (g : list tt) : bool :=
  (upper p && match g with Id _ :: Op QColon :: _ => true | _ => false end)%bool.

Fixpoint yexpr (n lvl : nat) (l : list tt) : option (xp * list tt) :=
  match n with
  | O => None
  | S k =>
      match lvl with
      | O =>
          match l with
          | Op QRange :: [] => Some (YRange None None false, [])
          | Op QRange :: r => match yexpr k 1 r with Some (b, r') => Some (YRange None (Some b) false, r') | None => None end
          | _ =>
              match yexpr k 1 l with
              | Some (a, Op QRange :: []) => Some (YRange (Some a) None false, [])
              | Some (a, Op QRange :: r) =>
                  match yexpr k 1 r with Some (b, r') => Some (YRange (Some a) (Some b) false, r') | None => None end
              | Some (a, Id x :: r) =>
                  if String.eqb x "..="
                  then match yexpr k 1 r with Some (b, r') => Some (YRange (Some a) (Some b) true, r') | None => None end
                  else Some (a, Id x :: r)
              | x => x
              end
          end
      | _ => match yunary k l with Some (a, r) => ybin k lvl a r | None => None end
      end
  end
with ybin (n lvl : nat) (a : xp) (l : list tt) : option (xp * list tt) :=
  match n with
  | O => None
  | S k =>
      match l with
      | W KAs :: Id t :: r => if (lvl <=? 10)%nat then ybin k lvl (YCast a t) r else Some (a, l)
      | Op (QBin o) :: r =>
          if (lvl <=? prec o)%nat
          then match yexpr k (S (prec o)) r with Some (b, r') => ybin k lvl (YBin o a b) r' | None => None end
          else Some (a, l)
      | _ => Some (a, l)
      end
  end
with yunary (n : nat) (l : list tt) : option (xp * list tt) :=
  match n with
  | O => None
  | S k =>
      let un o r := match yunary k r with Some (e, r') => Some (YUn o e, r') | None => None end in
      match l with
      | Op (QBin OAnd) :: W KMut :: r => un URef r
      | Op (QBin OAnd) :: r => un URef r
      | Op (QBin OMul) :: r => un UDeref r
      | Op QNot :: r => un UNot r
      | W KReturn :: r =>
          match r with
          | [] | Op QSemi :: _ | Op QComma :: _ => Some (YRet None, r)
          | _ => match yexpr k 1 r with Some (e, r') => Some (YRet (Some e), r') | None => None end
          end
      | _ => match yprim k l with Some (e, r) => ypost k e r | None => None end
      end
  end
with ypost (n : nat) (e : xp) (l : list tt) : option (xp * list tt) :=
  match n with
  | O => None
  | S k =>
      match l with
      | Id x :: r => if String.eqb x "?" then ypost k (YTry e) r else Some (e, l)
      | Op QDot :: Id m :: Par g :: r =>
          match ylist k (pieces g) with Some xs => ypost k (YMeth e m xs) r | None => None end
      | Op QDot :: Id x :: r => ypost k (YProj e x) r
      | Op QDot :: Li true x :: r => ypost k (YProj e x) r
      | Brk g :: r =>
          match yexpr k 0 g with Some (i, []) => ypost k (YIndex e i) r | _ => None end
      | _ => Some (e, l)
      end
  end
with ylist (n : nat) (l : list (list tt)) : option (list xp) :=
  match n with
  | O => None
  | S k =>
      match l with
      | [] => Some []
      | p :: r => match yexpr k 0 p, ylist k r with Some (x, []), Some xs => Some (x :: xs) | _, _ => None end
      end
  end
with ynamed (n : nat) (l : list (list tt)) : option (list (string * xp)) :=
  match n with
  | O => None
  | S k =>
      match l with
      | [] => Some []
      | (Id x :: Op QColon :: v) :: r =>
          match yexpr k 1 v, ynamed k r with Some (e, []), Some xs => Some ((x, e) :: xs) | _, _ => None end
      | _ => None
      end
  end
with yprim (n : nat) (l : list tt) : option (xp * list tt) :=
  match n with
  | O => None
  | S k =>
      match l with
      | Li true s :: r => match int_lit s with Some (t, z) => Some (YInt t z, r) | None => None end
      | Li false s :: r => Some (text_lit s, r)
      | W KIf :: W KLet :: r =>
          let '(p, r1) := upto is_eq r in
          match qpats k p, (match r1 with _ :: r2 => yexpr k 1 r2 | [] => None end) with
          | Some q, Some (e, Brc g :: r3) =>
              match yblock k g with
              | Some a => Some (YMatch e [(q, None, a); (QWild, None, YBlock [] None)], r3)
              | None => None
              end
          | _, _ => None
          end
      | W KIf :: r =>
          match yexpr k 1 r with
          | Some (c, Brc g :: r1) =>
              match yblock k g with
              | None => None
              | Some a =>
                  match r1 with
                  | W KElse :: Brc h :: r2 =>
                      match yblock k h with Some b => Some (YIf c a (Some b), r2) | None => None end
                  | W KElse :: W KIf :: _ =>
                      match yprim k (tl r1) with Some (b, r3) => Some (YIf c a (Some b), r3) | None => None end
                  | _ => Some (YIf c a None, r1)
                  end
              end
          | _ => None
          end
      | W KMatch :: r =>
          match yexpr k 1 r with
          | Some (e, Brc g :: r1) =>
              match yarms k g with Some arms => Some (YMatch e arms, r1) | None => None end
          | _ => None
          end
      | Brc g :: r => match yblock k g with Some b => Some (b, r) | None => None end
      | Par g :: r =>
          match ylist k (pieces g) with
          | Some [e] => Some (match rev g with Op QComma :: _ => YTup [e] | _ => e end, r)
          | Some es => Some (YTup es, r)
          | None => None
          end
      | Brk g :: r =>
          let '(a, b) := upto is_semi g in
          match b with
          | _ :: b' =>
              match yexpr k 1 a, yexpr k 1 b' with
              | Some (x, []), Some (y, []) => Some (YRep x y, r)
              | _, _ => None
              end
          | [] => match ylist k (pieces g) with Some es => Some (YArr es, r) | None => None end
          end
      | Id m :: Op QNot :: (Par g | Brk g) :: r =>
          if String.eqb m "cfg" then
            match g with
            | [Id a; Op (QSet None); Li false b] => Some (YMac ("cfg " ++ a ++ " " ++ unescape b) [], r)
            | _ => None
            end
          else if String.eqb m "quote" then
            match g with [Op QHash; Id x] => Some (YPath x, r) | _ => None end
          else match ylist k (pieces g) with Some xs => Some (YMac m xs, r) | None => None end
      | Id x :: r =>
          let '(p, r1) := path x r in
          match r1 with
          | Par g :: r2 =>
              match ylist k (pieces g) with Some xs => Some (YCall p xs, r2) | None => None end
          | Brc g :: r2 =>
              if String.eqb x "unsafe" then match yblock k g with Some b => Some (b, r2) | None => None end
              else if struct_lit p g
              then match ynamed k (pieces g) with Some xs => Some (YStruct p xs, r2) | None => None end
              else Some (YPath p, r1)
          | _ => Some (YPath p, r1)
          end
      | _ => None
      end
  end
with yarms (n : nat) (l : list tt) : option (list (pt * option xp * xp)) :=
  match n with
  | O => None
  | S k =>
      match l with
      | [] => Some []
      | _ =>
          let '(p, r) := upto is_arm l in
          match qpats k p with
          | None => None
          | Some q =>
              let next g e r2 :=
                let r3 := match r2 with Op QComma :: r3 => r3 | _ => r2 end in
                match yarms k r3 with Some arms => Some ((q, g, e) :: arms) | None => None end in
              let body g r1 :=
                match yexpr k 1 r1 with
                | None => None
                | Some (e, Op (QSet o) :: r2) =>
                    match yexpr k 1 r2 with Some (v, r3) => next g (YBlock [ZSet o e v] None) r3 | None => None end
                | Some (e, r2) => next g e r2
                end in
              match r with
              | Op QArm :: r1 => body None r1
              | W KIf :: r1 =>
                  match yexpr k 1 r1 with
                  | Some (g, Op QArm :: r2) => body (Some g) r2
                  | _ => None
                  end
              | _ => None
              end
          end
      end
  end
with yblock (n : nat) (l : list tt) : option xp :=
  match n with
  | O => None
  | S k =>
      let cons s r :=
        match yblock k r with Some (YBlock ss e) => Some (YBlock (s :: ss) e) | _ => None end in
      match l with
      | [] => Some (YBlock [] None)
      | W KLet :: r =>
          match qpat k r with
          | Some (p, r1) =>
              let '(t, r2) := match r1 with
                              | Op QColon :: r' => let '(t, r'') := upto is_eq r' in (Some (ty_text t), r'')
                              | _ => (None, r1)
                              end in
              match r2 with
              | Op (QSet None) :: r3 =>
                  match yexpr k 1 r3 with
                  | Some (e, Op QSemi :: r4) => cons (ZLet p t e) r4
                  | _ => None
                  end
              | _ => None
              end
          | None => None
          end
      | W KFor :: r =>
          match qpat k r with
          | Some (p, W KIn :: r1) =>
              match yexpr k 0 r1 with
              | Some (e, Brc g :: r2) => match yblock k g with Some b => cons (ZFor p e b) r2 | None => None end
              | _ => None
              end
          | _ => None
          end
      | W KWhile :: r =>
          match yexpr k 1 r with
          | Some (c, Brc g :: r2) => match yblock k g with Some b => cons (ZWhile c b) r2 | None => None end
          | _ => None
          end
      | W KIf :: _ | W KMatch :: _ =>
          match (match yprim k l with
                 | Some (e, (Op QDot :: _) as r) => ypost k e r
                 | x => x
                 end) with
          | Some (e, []) => Some (YBlock [] (Some e))
          | Some (e, r) => cons (ZExp e) (match r with Op QSemi :: r' => r' | _ => r end)
          | None => None
          end
      | _ =>
          match yexpr k 1 l with
          | Some (e, []) => Some (YBlock [] (Some e))
          | Some (e, Op QSemi :: r) => cons (ZExp e) r
          | Some (e, Op (QSet o) :: r) =>
              match yexpr k 1 r with
              | Some (v, Op QSemi :: r') => cons (ZSet o e v) r'
              | _ => None
              end
          | _ => None
          end
      end
  end.

(** ** Items *)

(** The functions declared in a body, at any depth, and the body without them. *)
Fixpoint flat_fns (n : nat) (l : list tt) : option (list func) :=
  match n with
  | O => None
  | S k =>
      match fn_parts l with
      | Some (name, params, t, g) =>
          let '(xs, rest) := peel 20 g in
          match all_some (map (flat_fns k) xs), yblock depth rest with
          | Some fss, Some e => Some (Func name params t e :: List.concat fss)
          | _, _ => None
          end
      | None => None
      end
  end.

(** [impl<..> Trait for T<..> { ... }]: the type, whether the trait is [Debug], the functions. *)
Definition is_word (x : string) (t : tt) : bool := match t with Id s => String.eqb s x | _ => false end.
Definition is_for (t : tt) : bool := match t with W KFor => true | _ => false end.
Fixpoint first_name (l : list ttree) : string :=
  match l with [] => "" | TIdent s :: _ => s | _ :: r => first_name r end.
Fixpoint impl_type (cur : string) (l : list ttree) : string :=
  match l with
  | [] => cur
  | TGroup d _ :: r => if String.eqb d "{}" then cur else impl_type cur r
  | TIdent s :: r => if String.eqb s "for" then first_name (plain "" r)
                     else impl_type (if String.eqb cur "" then s else cur) r
  | TPunct _ :: r => impl_type cur r
  | TLit _ _ :: r => impl_type cur r
  end.
Definition mentions (x : string) (l : list tt) : bool := existsb (is_word x) l.
Definition rename (f : string -> string) (x : func) : func := Func (f (fu_name x)) (fu_params x) (fu_ret x) (fu_body x).
Definition read_impl (l : list ttree) : option (list func) :=
  match l with
  | TIdent _ :: r =>
      let self := impl_type "" (plain "" r) in
      let '(h, b) := upto is_brc (words self r) in
      match b with
      | [Brc g] =>
          match all_some (map (flat_fns 5) (fns_from [] g)) with
          | Some fss =>
              Some (List.concat (map (fun fs =>
                match fs with
                | [] => []
                | f :: r => rename (fun x => self ++ "::" ++ (if mentions "Debug" h then "debug_" ++ x else x)) f :: r
                end) fss))
          | None => None
          end
      | _ => None
      end
  | _ => None
  end.

(** [macro_rules! m { ($a:x, $b:y) => { items }; }] and [m!(a, b)]: the parameters, the
    items with the arguments put in. *)
Fixpoint macro_params (l : list ttree) : list string :=
  match l with
  | [] => []
  | TPunct a :: r => if String.eqb a "$" then match r with TIdent s :: _ => s :: macro_params r | _ => macro_params r end
                     else macro_params r
  | _ :: r => macro_params r
  end.
Definition put_in (s : list (string * ttree)) (x : string) : ttree :=
  match find (fun p => String.eqb (fst p) x) s with Some (_, t) => t | None => TIdent x end.
Fixpoint put_list (s : list (string * ttree)) (l : list ttree) : list ttree :=
  match l with
  | [] => []
  | TPunct a :: r =>
      if String.eqb a "$"
      then match r with TIdent x :: r' => put_in s x :: put_list s r' | _ => TPunct a :: put_list s r end
      else TPunct a :: put_list s r
  | t :: r => t :: put_list s r
  end.
Fixpoint put_deep (s : list (string * ttree)) (t : ttree) : ttree :=
  match t with
  | TGroup d l =>
      TGroup d (put_list s ((fix go (l : list ttree) : list ttree := match l with [] => [] | t :: r => put_deep s t :: go r end) l))
  | _ => t
  end.
Definition expand (body : list ttree) (args : list ttree) : option (list ttree) :=
  match body with
  | TGroup _ ps :: TPunct _ :: TGroup _ items :: _ =>
      let s := combine (macro_params ps) (List.concat (commas args)) in
      match put_deep s (TGroup "" items) with TGroup _ l => Some l | _ => None end
  | _ => None
  end.
(** The functions of all invocations in a text that starts with the macro. *)
Fixpoint invocations (body : list ttree) (l : list ttree) : option (list func) :=
  match l with
  | TIdent _ :: TPunct _ :: TGroup _ args :: TPunct _ :: r =>
      match expand body args with
      | Some items =>
          match peel 1 (words "" items), invocations body r with
          | ([f], _), Some fs => match flat_fns 5 f with Some gs => Some (gs ++ fs)%list | None => None end
          | _, _ => None
          end
      | None => None
      end
  | [] => Some []
  | _ => None
  end.

(** [/* ... */] comments are dropped first (no string literal of the texts contains one). *)
Fixpoint no_comments (inside : bool) (s : string) : string :=
  match s with
  | "" => ""
  | String a r =>
      if inside then
        match r with
        | String b r1 => if (Ascii.eqb a "*" && Ascii.eqb b "/")%bool then no_comments false r1 else no_comments true r
        | "" => ""
        end
      else
        match r with
        | String b r1 => if (Ascii.eqb a "/" && Ascii.eqb b "*")%bool then no_comments true r1 else String a (no_comments false r)
        | "" => s
        end
  end.
Definition trees_of (text : string) : option (list ttree) := read_trees (no_comments false text).

(** The functions of a text: a function, an [impl] block, a macro with invocations. *)
Definition read_funcs (text : string) : option (list func) :=
  match trees_of text with
  | Some l =>
      match l with
      | TIdent x :: r =>
          if String.eqb x "impl" then read_impl l
          else if String.eqb x "macro_rules"
          then match r with TPunct _ :: TIdent _ :: TGroup _ body :: r' => invocations body r' | _ => None end
          else flat_fns 5 (words "" l)
      | _ => flat_fns 5 (words "" l)
      end
  | None => None
  end.

(** [const N: T = e;] declarations of a text. *)
Fixpoint consts_from (n : nat) (l : list tt) : option (list (string * string * xp)) :=
  match n with
  | O => None
  | S k =>
      match l with
      | [] => Some []
      | Id w :: Id x :: Op QColon :: r =>
          if String.eqb w "const" then
            let '(t, r1) := upto is_eq r in
            match r1 with
            | _ :: r2 =>
                match yexpr depth 1 r2 with
                | Some (e, Op QSemi :: r3) => match consts_from k r3 with Some cs => Some ((x, ty_text t, e) :: cs) | None => None end
                | _ => None
                end
            | [] => None
            end
          else None
      | W KPub :: r => consts_from k r
      | Op QHash :: Brk _ :: r => consts_from k r
      | _ => None
      end
  end.
(** Those of a module are named after it. *)
Definition read_consts (text : string) : option (list (string * string * xp)) :=
  match trees_of text with
  | Some l =>
      match skip_marks (words "" l) with
      | Id w :: Id m :: Brc g :: [] =>
          match consts_from (S (List.length g)) g with
          | Some cs => Some (map (fun c => ((m ++ "::" ++ fst (fst c))%string, snd (fst c), snd c)) cs)
          | None => None
          end
      | l => consts_from (S (List.length l)) l
      end
  | None => None
  end.
(** [struct T(pub A, pub B);]: the name and the types of the fields. *)
Definition read_newtype (text : string) : option (string * list string) :=
  match trees_of text with
  | Some l =>
      match skip_marks (words "" l) with
      | Id _ :: Id x :: Par g :: Op QSemi :: [] => Some (x, map (fun p => ty_text (skip_marks p)) (pieces g))
      | _ => None
      end
  | None => None
  end.

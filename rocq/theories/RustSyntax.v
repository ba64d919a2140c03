(** Rust functions and expressions: abstract syntax and a parser for token trees,
    with Rust's operator precedence.  Written from the Rust reference. *)
From Coq Require Import String Ascii ZArith List Bool.
From Verif Require SpecRust.
From Verif Require Import Base DeriveParse RustLex.
Import ListNotations.
Open Scope string_scope.

(** ** Syntax *)

Inductive binop := OMul | ODiv | ORem | OAdd | OSub | OShl | OShr | OAnd | OXor | OOr
| OEq | ONe | OLt | OGt | OLe | OGe | OLand | OLor.
Inductive unop := URef | UDeref | UNot.

(** Patterns: [_], a name, a constant written as a path, [C(p)], an integer. *)
Inductive pat :=
| PWild | PVar (x : string) | PPath (p : string) | PCon (c : string) (l : list pat) | PTup (l : list pat) | PInt (z : Z).

Inductive ex :=
| XInt (t : string) (z : Z)                (* literal; [t] is its suffix *)
| XPath (p : string)                       (* variable, constant, constructor *)
| XCall (f : string) (l : list ex)
| XMeth (e : ex) (m : string) (l : list ex)
| XProj (e : ex) (x : string)
| XIndex (e i : ex)
| XRange (a b : option ex)
| XUn (o : unop) (e : ex)
| XBin (o : binop) (a b : ex)
| XCast (e : ex) (t : string)
| XTup (l : list ex)
| XArr (l : list ex)
| XRep (e n : ex)
| XClo (x : list string) (e : ex)
| XIf (c a : ex) (b : option ex)
| XMatch (e : ex) (l : list (pat * option ex * ex))
| XBlock (l : list st) (e : option ex)
| XMac (m : string)
| XRet (e : option ex)
with st :=
| SLet (p : pat) (t : option string) (e : ex)
| SSet (o : option binop) (p e : ex)       (* [p = e], [p op= e] *)
| SExp (e : ex)
| SFor (p : pat) (e : ex) (b : ex)
| SWhile (c b : ex).

(** A function: its name, its parameters with their types, its result type, its body. *)
Record fn := Fn { fn_name : string; fn_params : list (string * string); fn_ret : string; fn_body : ex }.

(** ** Words and operators *)

Inductive kw := KLet | KMut | KFor | KIn | KWhile | KIf | KElse | KMatch | KReturn | KAs | KPub | KFn | KWild.
Inductive pk := QBin (o : binop) | QSet (o : option binop) | QNot | QDot | QRange | QSemi | QComma | QColon | QPath
| QArm | QTo | QHash | QBad.

(** Token trees with the keywords and operators told apart. *)
Inductive tt :=
| W (k : kw) | Id (s : string) | Li (is_int : bool) (s : string) | Op (o : pk)
| Par (l : list tt) | Brk (l : list tt) | Brc (l : list tt).

Definition word (s : string) : tt :=
  match find (fun p => String.eqb (fst p) s)
    [("let", KLet); ("mut", KMut); ("for", KFor); ("in", KIn); ("while", KWhile); ("if", KIf); ("else", KElse);
     ("match", KMatch); ("return", KReturn); ("as", KAs); ("pub", KPub); ("fn", KFn); ("_", KWild)] with
  | Some (_, k) => W k
  | None => Id s
  end.
Definition oper (s : string) : pk :=
  match find (fun p => String.eqb (fst p) s)
    [("*", QBin OMul); ("/", QBin ODiv); ("%", QBin ORem); ("+", QBin OAdd); ("-", QBin OSub); ("<<", QBin OShl);
     (">>", QBin OShr); ("&", QBin OAnd); ("^", QBin OXor); ("|", QBin OOr); ("==", QBin OEq); ("!=", QBin ONe);
     ("<", QBin OLt); (">", QBin OGt); ("<=", QBin OLe); (">=", QBin OGe); ("&&", QBin OLand); ("||", QBin OLor);
     ("=", QSet None); ("+=", QSet (Some OAdd)); ("-=", QSet (Some OSub)); ("*=", QSet (Some OMul));
     ("/=", QSet (Some ODiv)); ("|=", QSet (Some OOr)); ("&=", QSet (Some OAnd));
     ("!", QNot); (".", QDot); ("..", QRange); (";", QSemi); (",", QComma); (":", QColon); ("::", QPath);
     ("=>", QArm); ("->", QTo); ("#", QHash)] with
  | Some (_, o) => o
  | None => QBad
  end.
Fixpoint told (t : ttree) : tt :=
  match t with
  | TIdent s => word s
  | TPunct s => Op (oper s)
  | TLit i s => Li i s
  | TGroup d l =>
      let l' := (fix go (l : list ttree) : list tt := match l with [] => [] | t :: r => told t :: go r end) l in
      if String.eqb d "()" then Par l' else if String.eqb d "[]" then Brk l' else Brc l'
  end.

(** The pieces between the commas; a comma at the end ends the last piece. *)
Fixpoint pieces_from (cur l : list tt) : list (list tt) :=
  match l with
  | [] => match cur with [] => [] | _ => [cur] end
  | Op QComma :: r => cur :: pieces_from [] r
  | t :: r => pieces_from (cur ++ [t])%list r
  end.
Definition pieces (l : list tt) : list (list tt) := pieces_from [] l.

(** ** Parser *)

(** How tightly an operator binds. *)
Definition prec (o : binop) : nat :=
  match o with
  | OMul | ODiv | ORem => 9
  | OAdd | OSub => 8
  | OShl | OShr => 7
  | OAnd => 6
  | OXor => 5
  | OOr => 4
  | OEq | ONe | OLt | OGt | OLe | OGe => 3
  | OLand => 2
  | OLor => 1
  end%nat.

(** An integer literal and its suffix. *)
Definition int_lit (s : string) : option (string * Z) :=
  match s with
  | String "0" (String "x" _) => match SpecRust.literal s with Some z => Some ("", z) | None => None end
  | String "0" (String "b" r) => match SpecRust.digits 2 0 r with Some z => Some ("", z) | None => None end
  | _ => let '(d, t) := span digit_char s in match SpecRust.literal d with Some z => Some (t, z) | None => None end
  end.

(** The text of a type, without spaces, [mut] and the length of arrays. *)
Definition op_text (o : pk) : string :=
  match o with QBin OAnd => "&" | QBin OLt => "<" | QBin OGt => ">" | QPath => "::" | QComma => "," | QSemi => ";" | _ => "?" end.
Fixpoint ty_text (l : list tt) : string :=
  match l with
  | [] => ""
  | W KMut :: r => ty_text r
  | Id s :: r | Li _ s :: r => s ++ ty_text r
  | Op o :: r => op_text o ++ ty_text r
  | Brk [Id s] :: r => "[" ++ s ++ "]" ++ ty_text r
  | Brk [Id s; Op QSemi; Li _ n] :: r => "[" ++ s ++ ";" ++ n ++ "]" ++ ty_text r
  | _ :: r => "?" ++ ty_text r
  end.

(** The tokens before and from the first one that is the given word or punctuation. *)
Fixpoint upto (stop : tt -> bool) (l : list tt) : list tt * list tt :=
  match l with
  | [] => ([], [])
  | t :: r => if stop t then ([], l) else let '(a, b) := upto stop r in (t :: a, b)
  end.
Definition is_semi (t : tt) : bool := match t with Op QSemi => true | _ => false end.
Definition is_bar (t : tt) : bool := match t with Op (QBin OOr) => true | _ => false end.
Definition is_eq (t : tt) : bool := match t with Op (QSet None) => true | _ => false end.

(** [a::b::c] *)
Fixpoint path (s : string) (l : list tt) : string * list tt :=
  match l with
  | Op QPath :: Id x :: r => path (s ++ "::" ++ x) r
  | _ => (s, l)
  end.

Definition upper (s : string) : bool :=
  match s with String a _ => char_in 65 90 a | "" => false end.
Fixpoint has_path (s : string) : bool :=
  match s with String ":" _ => true | String _ r => has_path r | "" => false end.

Fixpoint ppat (n : nat) (l : list tt) : option (pat * list tt) :=
  match n with
  | O => None
  | S k =>
      let list_of g :=
        (fix go (ps : list (list tt)) : option (list pat) :=
           match ps with
           | [] => Some []
           | p :: r => match ppat k p, go r with Some (x, []), Some xs => Some (x :: xs) | _, _ => None end
           end) (pieces g) in
      match l with
      | W KWild :: r => Some (PWild, r)
      | W KMut :: Id x :: r => Some (PVar x, r)
      | Op (QBin OAnd) :: r => ppat k r
      | Li _ s :: r => match int_lit s with Some (_, z) => Some (PInt z, r) | None => None end
      | Par g :: r => match list_of g with Some ps => Some (PTup ps, r) | None => None end
      | Id x :: r =>
          let '(p, r1) := path x r in
          match r1 with
          | Par g :: r2 => match list_of g with Some ps => Some (PCon p ps, r2) | None => None end
          | _ => if (upper p || has_path p)%bool then Some (PPath p, r1) else Some (PVar p, r1)
          end
      | _ => None
      end
  end.

(** Expressions.  [pexpr n lvl l] reads an expression whose operators bind at least as
    tightly as [lvl] (0: a range is allowed); [n] bounds the nesting. *)
Fixpoint pexpr (n lvl : nat) (l : list tt) : option (ex * list tt) :=
  match n with
  | O => None
  | S k =>
      match lvl with
      | O =>
          match l with
          | Op QRange :: [] => Some (XRange None None, [])
          | Op QRange :: r => match pexpr k 1 r with Some (b, r') => Some (XRange None (Some b), r') | None => None end
          | _ =>
              match pexpr k 1 l with
              | Some (a, Op QRange :: []) => Some (XRange (Some a) None, [])
              | Some (a, Op QRange :: r) =>
                  match pexpr k 1 r with
                  | Some (b, r') => Some (XRange (Some a) (Some b), r')
                  | None => None
                  end
              | x => x
              end
          end
      | _ => match punary k l with Some (a, r) => pbin k lvl a r | None => None end
      end
  end
with pbin (n lvl : nat) (a : ex) (l : list tt) : option (ex * list tt) :=
  match n with
  | O => None
  | S k =>
      match l with
      | W KAs :: Id t :: r => if (lvl <=? 10)%nat then pbin k lvl (XCast a t) r else Some (a, l)
      | Op (QBin o) :: r =>
          if (lvl <=? prec o)%nat
          then match pexpr k (S (prec o)) r with Some (b, r') => pbin k lvl (XBin o a b) r' | None => None end
          else Some (a, l)
      | _ => Some (a, l)
      end
  end
with punary (n : nat) (l : list tt) : option (ex * list tt) :=
  match n with
  | O => None
  | S k =>
      let un o r := match punary k r with Some (e, r') => Some (XUn o e, r') | None => None end in
      match l with
      | Op (QBin OAnd) :: W KMut :: r => un URef r
      | Op (QBin OAnd) :: r => un URef r
      | Op (QBin OMul) :: r => un UDeref r
      | Op QNot :: r => un UNot r
      | W KReturn :: r =>
          match r with
          | [] | Op QSemi :: _ => Some (XRet None, r)
          | _ => match pexpr k 1 r with Some (e, r') => Some (XRet (Some e), r') | None => None end
          end
      | Op (QBin OOr) :: r =>
          let '(ps, r1) := upto is_bar r in
          match r1 with
          | _ :: r2 =>
              match pexpr k 1 r2 with
              | Some (e, r') =>
                  Some (XClo (map (fun p => match p with [Id x] => x | _ => "" end) (pieces ps)) e, r')
              | None => None
              end
          | [] => None
          end
      | _ => match pprim k l with Some (e, r) => ppost k e r | None => None end
      end
  end
with ppost (n : nat) (e : ex) (l : list tt) : option (ex * list tt) :=
  match n with
  | O => None
  | S k =>
      match l with
      | Op QDot :: Id m :: Par g :: r =>
          match plist k (pieces g) with Some xs => ppost k (XMeth e m xs) r | None => None end
      | Op QDot :: Id x :: r => ppost k (XProj e x) r
      | Op QDot :: Li true x :: r => ppost k (XProj e x) r
      | Brk g :: r =>
          match pexpr k 0 g with Some (i, []) => ppost k (XIndex e i) r | _ => None end
      | _ => Some (e, l)
      end
  end
with plist (n : nat) (l : list (list tt)) : option (list ex) :=
  match n with
  | O => None
  | S k =>
      match l with
      | [] => Some []
      | p :: r => match pexpr k 1 p, plist k r with Some (x, []), Some xs => Some (x :: xs) | _, _ => None end
      end
  end
with pprim (n : nat) (l : list tt) : option (ex * list tt) :=
  match n with
  | O => None
  | S k =>
      match l with
      | Li true s :: r => match int_lit s with Some (t, z) => Some (XInt t z, r) | None => None end
      | W KIf :: r =>
          match pexpr k 1 r with
          | Some (c, Brc g :: r1) =>
              match pblock k g with
              | None => None
              | Some a =>
                  match r1 with
                  | W KElse :: Brc h :: r2 =>
                      match pblock k h with Some b => Some (XIf c a (Some b), r2) | None => None end
                  | W KElse :: W KIf :: _ =>
                      match pprim k (tl r1) with Some (b, r3) => Some (XIf c a (Some b), r3) | None => None end
                  | _ => Some (XIf c a None, r1)
                  end
              end
          | _ => None
          end
      | W KMatch :: r =>
          match pexpr k 1 r with
          | Some (e, Brc g :: r1) =>
              match parms k g with Some arms => Some (XMatch e arms, r1) | None => None end
          | _ => None
          end
      | Brc g :: r => match pblock k g with Some b => Some (b, r) | None => None end
      | Par g :: r =>
          match plist k (pieces g) with
          | Some [e] => Some (match rev g with Op QComma :: _ => XTup [e] | _ => e end, r)
          | Some es => Some (XTup es, r)
          | None => None
          end
      | Brk g :: r =>
          let '(a, b) := upto is_semi g in
          match b with
          | _ :: b' =>
              match pexpr k 1 a, pexpr k 1 b' with
              | Some (x, []), Some (y, []) => Some (XRep x y, r)
              | _, _ => None
              end
          | [] => match plist k (pieces g) with Some es => Some (XArr es, r) | None => None end
          end
      | Id m :: Op QNot :: Par _ :: r => Some (XMac m, r)
      | Id x :: r =>
          let '(p, r1) := path x r in
          match r1 with
          | Par g :: r2 =>
              match plist k (pieces g) with Some xs => Some (XCall p xs, r2) | None => None end
          | _ => Some (XPath p, r1)
          end
      | _ => None
      end
  end
with parms (n : nat) (l : list tt) : option (list (pat * option ex * ex)) :=
  match n with
  | O => None
  | S k =>
      match l with
      | [] => Some []
      | _ =>
          match ppat k l with
          | None => None
          | Some (p, r) =>
              let body g r1 :=
                match pexpr k 1 r1 with
                | None => None
                | Some (e, r2) =>
                    let r3 := match r2 with Op QComma :: r3 => r3 | _ => r2 end in
                    match parms k r3 with Some arms => Some ((p, g, e) :: arms) | None => None end
                end in
              match r with
              | Op QArm :: r1 => body None r1
              | W KIf :: r1 =>
                  match pexpr k 1 r1 with
                  | Some (g, Op QArm :: r2) => body (Some g) r2
                  | _ => None
                  end
              | _ => None
              end
          end
      end
  end
with pblock (n : nat) (l : list tt) : option ex :=
  match n with
  | O => None
  | S k =>
      let cons s r :=
        match pblock k r with Some (XBlock ss e) => Some (XBlock (s :: ss) e) | _ => None end in
      match l with
      | [] => Some (XBlock [] None)
      | W KLet :: r =>
          match ppat k r with
          | Some (p, r1) =>
              let '(t, r2) := match r1 with
                              | Op QColon :: r' => let '(t, r'') := upto is_eq r' in (Some (ty_text t), r'')
                              | _ => (None, r1)
                              end in
              match r2 with
              | Op (QSet None) :: r3 =>
                  match pexpr k 1 r3 with
                  | Some (e, Op QSemi :: r4) => cons (SLet p t e) r4
                  | _ => None
                  end
              | _ => None
              end
          | None => None
          end
      | W KFor :: r =>
          match ppat k r with
          | Some (p, W KIn :: r1) =>
              match pexpr k 0 r1 with
              | Some (e, Brc g :: r2) => match pblock k g with Some b => cons (SFor p e b) r2 | None => None end
              | _ => None
              end
          | _ => None
          end
      | W KWhile :: r =>
          match pexpr k 1 r with
          | Some (c, Brc g :: r2) => match pblock k g with Some b => cons (SWhile c b) r2 | None => None end
          | _ => None
          end
      | W KIf :: _ | W KMatch :: _ =>
          match pprim k l with
          | Some (e, []) => Some (XBlock [] (Some e))
          | Some (e, r) => cons (SExp e) (match r with Op QSemi :: r' => r' | _ => r end)
          | None => None
          end
      | _ =>
          match pexpr k 1 l with
          | Some (e, []) => Some (XBlock [] (Some e))
          | Some (e, Op QSemi :: r) => cons (SExp e) r
          | Some (e, Op (QSet o) :: r) =>
              match pexpr k 1 r with
              | Some (v, Op QSemi :: r') => cons (SSet o e v) r'
              | _ => None
              end
          | _ => None
          end
      end
  end.

(** Every tree read uses up at most a bounded number of steps; the texts read here are
    nowhere near this deep or long. *)
Definition depth : nat := 400.
Definition read_expr (l : list ttree) : option ex :=
  match pexpr depth 1 (map told l) with Some (e, []) => Some e | _ => None end.

(** ** Functions *)

(** [#[...]], [pub], [const], [unsafe] in front of an item. *)
Fixpoint skip_marks (l : list tt) : list tt :=
  match l with
  | Op QHash :: Brk _ :: r => skip_marks r
  | W KPub :: r => skip_marks r
  | _ => l
  end.
Fixpoint param_list (l : list (list tt)) : option (list (string * string)) :=
  match l with
  | [] => Some []
  | p :: r =>
      let p' := match p with W KMut :: p' => p' | _ => p end in
      match p', param_list r with
      | Id x :: Op QColon :: t, Some ps => Some ((x, ty_text t) :: ps)
      | [Op (QBin OAnd); Id x], Some ps => Some ((x, "&Self") :: ps)
      | [Id x], Some ps => Some ((x, "Self") :: ps)
      | _, _ => None
      end
  end.
Definition read_fn (s : string) : option fn :=
  match read_trees s with
  | Some l =>
      match skip_marks (map told l) with
      | W KFn :: Id name :: Par ps :: Op QTo :: r =>
          let '(t, b) := upto (fun x => match x with Brc _ => true | _ => false end) r in
          match param_list (pieces ps), b with
          | Some params, [Brc g] =>
              match pblock depth g with
              | Some e => Some (Fn name params (ty_text t) e)
              | None => None
              end
          | _, _ => None
          end
      | _ => None
      end
  | None => None
  end.

(** How Rust reads and runs the small fragment of expressions the macro emits: tokens,
    operator precedence, typing and evaluation, written from the Rust reference and not
    from the macro. *)
From Coq Require Import String Ascii ZArith List Bool.
From Verif Require Import Base CoreTypes.
Import ListNotations.
Open Scope string_scope.
Open Scope Z_scope.

(** ** Tokens *)

Inductive tok :=
| TWord (s : string)      (* identifier, field path [a.b] or keyword *)
| TNum (n : Z)            (* integer literal *)
| TLpar | TRpar | TLbracket | TRbracket | TLbrace | TRbrace
| TAmp | TBar | TLt | TGt | TEq | TSemi | TPlus
| TBad.

Definition code (a : ascii) : Z := Z.of_N (N_of_ascii a).
Definition is_digit (a : ascii) : bool := (48 <=? code a) && (code a <=? 57).
Definition is_word (a : ascii) : bool :=
  is_digit a || (65 <=? code a) && (code a <=? 90) || (97 <=? code a) && (code a <=? 122)
  || (code a =? 95) || (code a =? 46).
Definition is_space (a : ascii) : bool := (code a =? 32) || (code a =? 10).

Definition digit (base : Z) (a : ascii) : option Z :=
  let d := if is_digit a then code a - 48
           else if (97 <=? code a) && (code a <=? 102) then code a - 87
           else if (65 <=? code a) && (code a <=? 70) then code a - 55
           else base in
  if d <? base then Some d else None.
Fixpoint digits (base acc : Z) (s : string) : option Z :=
  match s with
  | "" => Some acc
  | String a r => match digit base a with Some d => digits base (base * acc + d) r | None => None end
  end.
(** Integer literals: [0x] and at least one digit, or decimal digits. *)
Definition literal (s : string) : option Z :=
  match s with
  | String "0" (String "x" r) => match r with "" => None | _ => digits 16 0 r end
  | _ => digits 10 0 s
  end.

Definition word_token (w : string) : tok :=
  match w with
  | "" => TBad
  | String a _ =>
      if is_digit a then match literal w with Some n => TNum n | None => TBad end else TWord w
  end.
Definition punct (a : ascii) : tok :=
  if code a =? 40 then TLpar else if code a =? 41 then TRpar
  else if code a =? 91 then TLbracket else if code a =? 93 then TRbracket
  else if code a =? 123 then TLbrace else if code a =? 125 then TRbrace
  else if code a =? 38 then TAmp else if code a =? 124 then TBar
  else if code a =? 60 then TLt else if code a =? 62 then TGt
  else if code a =? 61 then TEq else if code a =? 59 then TSemi
  else if code a =? 43 then TPlus else TBad.
Definition flush (w : string) (l : list tok) : list tok :=
  match w with "" => l | _ => word_token w :: l end.
(** [w]: the word being read. *)
Fixpoint tokens_from (w s : string) : list tok :=
  match s with
  | "" => flush w []
  | String a r =>
      if is_word a then tokens_from (w ++ String a "") r
      else flush w (if is_space a then tokens_from "" r else punct a :: tokens_from "" r)
  end.
Definition tokens (s : string) : list tok := tokens_from "" s.

(** ** Expressions; [as] binds tighter than [+], then the shifts, [&] and [|], all of
    them left-associative *)

Inductive expr :=
| ENum (n : Z)
| EVar (x : string)
| EIndex (x : string) (i : expr)
| ECast (e : expr) (ty : string)
| EAdd (a b : expr) | EShl (a b : expr) | EShr (a b : expr) | EAnd (a b : expr) | EOr (a b : expr).

(** The operator of a precedence level at the start of the input. *)
Definition operator (level : nat) (l : list tok) : option ((expr -> expr -> expr) * list tok) :=
  match level, l with
  | 2%nat, TPlus :: r => Some (EAdd, r)
  | 3%nat, TLt :: TLt :: r => Some (EShl, r)
  | 3%nat, TGt :: TGt :: r => Some (EShr, r)
  | 4%nat, TAmp :: r => Some (EAnd, r)
  | 5%nat, TBar :: r => Some (EOr, r)
  | _, _ => None
  end.
Fixpoint casts (fuel : nat) (e : expr) (l : list tok) : expr * list tok :=
  match fuel, l with
  | S k, TWord "as" :: TWord t :: r => casts k (ECast e t) r
  | _, _ => (e, l)
  end.
(** [parse fuel level]: an expression of the level, and the rest of the input.
    [more]: further operands of the level after [e]. *)
Fixpoint parse (fuel level : nat) (l : list tok) {struct fuel} : option (expr * list tok) :=
  match fuel with
  | O => None
  | S k =>
      match level with
      | O =>
          match l with
          | TLpar :: r =>
              match parse k 5 r with Some (e, TRpar :: r') => Some (e, r') | _ => None end
          | TWord x :: TLbracket :: r =>
              match parse k 5 r with Some (e, TRbracket :: r') => Some (EIndex x e, r') | _ => None end
          | TWord x :: r => Some (EVar x, r)
          | TNum n :: r => Some (ENum n, r)
          | _ => None
          end
      | 1%nat => match parse k 0 l with Some (e, r) => Some (casts k e r) | None => None end
      | S lower => match parse k lower l with Some (e, r) => more k level lower e r | None => None end
      end
  end
with more (fuel level lower : nat) (e : expr) (l : list tok) {struct fuel} : option (expr * list tok) :=
  match fuel with
  | O => None
  | S k =>
      match operator level l with
      | None => Some (e, l)
      | Some (mk, r) => match parse k lower r with Some (e', r') => more k level lower (mk e e') r' | None => None end
      end
  end.
(** The nesting of the emitted expressions is small; a deeper one would be rejected. *)
Definition expression (l : list tok) : option (expr * list tok) := parse 40 5 l.

(** ** Blocks *)

Inductive stmt :=
| SLet (x : string) (e : expr)
| SAssign (x : string) (i e : expr)
| SRet (e : expr).
Fixpoint statements (fuel : nat) (l : list tok) : option (list stmt) :=
  match fuel with
  | O => None
  | S k =>
      match l with
      | [TRbrace] => Some []
      | TWord "let" :: TWord x :: TEq :: r =>
          match expression r with
          | Some (e, TSemi :: r') => match statements k r' with Some t => Some (SLet x e :: t) | None => None end
          | _ => None
          end
      | _ =>
          match expression l with
          | Some (EIndex x i, TEq :: r) =>
              match expression r with
              | Some (e, TSemi :: r') => match statements k r' with Some t => Some (SAssign x i e :: t) | None => None end
              | _ => None
              end
          | Some (e, [TRbrace]) => Some [SRet e]
          | _ => None
          end
      end
  end.
Definition block (s : string) : option (list stmt) :=
  match tokens s with
  | TLbrace :: l => statements (List.length l) l
  | _ => None
  end.

(** ** Types *)

(** The names of integer types: the primitive ones and the aliases of core/src/types.rs. *)
Fixpoint assoc {A} (l : list (string * A)) (x : string) : option A :=
  match l with
  | [] => None
  | (y, a) :: r => if String.eqb x y then Some a else assoc r x
  end.
Definition type_width (t : string) : option Z :=
  assoc ([("u8", 8); ("u16", 16); ("u32", 32); ("u64", 64)] ++ aliases) t.

Inductive ty := TInt (w : Z) | TLit (n : Z).
(** Both operands of [&] and [|] have one type, which a literal takes from the other
    operand and must fit; the amount of a constant shift is less than the width. *)
Definition same (a b : ty) : option ty :=
  match a, b with
  | TInt w, TInt v => if w =? v then Some (TInt w) else None
  | TInt w, TLit n => if n <? 2 ^ w then Some (TInt w) else None
  | TLit n, TInt w => if n <? 2 ^ w then Some (TInt w) else None
  | TLit _, TLit _ => None
  end.
Definition shifted (a b : ty) : option ty :=
  match a, b with
  | TInt w, TLit n => if n <? w then Some (TInt w) else None
  | _, _ => None
  end.
(** [G]: the widths of the variables; every buffer is a slice of u8. *)
Fixpoint typ (G : list (string * Z)) (e : expr) : option ty :=
  match e with
  | ENum n => Some (TLit n)
  | EVar x => match assoc G x with Some w => Some (TInt w) | None => None end
  | EIndex _ i => match typ G i with Some (TInt w) => if w =? usize then Some (TInt 8) else None | _ => None end
  | ECast a t => match typ G a, type_width t with Some _, Some w => Some (TInt w) | _, _ => None end
  | EAdd a b => match typ G a, typ G b with Some s, Some t => same s t | _, _ => None end
  | EShl a b => match typ G a, typ G b with Some s, Some t => shifted s t | _, _ => None end
  | EShr a b => match typ G a, typ G b with Some s, Some t => shifted s t | _, _ => None end
  | EAnd a b => match typ G a, typ G b with Some s, Some t => same s t | _, _ => None end
  | EOr a b => match typ G a, typ G b with Some s, Some t => same s t | _, _ => None end
  end.
(** The statements are well typed and the last one returns a value of [w] bits, or,
    without [SRet], all of them are assignments of bytes. *)
Fixpoint typed (G : list (string * Z)) (w : option Z) (l : list stmt) : bool :=
  match l with
  | [] => match w with None => true | Some _ => false end
  | SLet x e :: r => match typ G e with Some (TInt v) => typed ((x, v) :: G) w r | _ => false end
  | SAssign x i e :: r =>
      match typ G (EIndex x i), typ G e with Some (TInt 8), Some (TInt 8) => typed G w r | _, _ => false end
  | SRet e :: r =>
      match typ G e, w, r with Some (TInt v), Some u, [] => v =? u | _, _, _ => false end
  end.

(** ** Evaluation of well-typed expressions over one buffer *)

Definition width_of (G : list (string * Z)) (e : expr) : Z :=
  match typ G e with Some (TInt w) => w | _ => 0 end.
Fixpoint eval (m : mode) (b : buf) (G V : list (string * Z)) (e : expr) : res Z :=
  match e with
  | ENum n => Ok n
  | EVar x => match assoc V x with Some v => Ok v | None => Panic EUnimpl end
  | EIndex _ i => p <- eval m b G V i ;; idx b p
  | ECast a t => v <- eval m b G V a ;; Ok (cast_u (match type_width t with Some w => w | None => 0 end) v)
  | EAdd x y => u <- eval m b G V x ;; v <- eval m b G V y ;; add_u m (width_of G e) u v
  | EShl x y => u <- eval m b G V x ;; v <- eval m b G V y ;; shl_u m (width_of G x) u v
  | EShr x y => u <- eval m b G V x ;; v <- eval m b G V y ;; shr_u m (width_of G x) u v
  | EAnd x y => u <- eval m b G V x ;; v <- eval m b G V y ;; Ok (Z.land u v)
  | EOr x y => u <- eval m b G V x ;; v <- eval m b G V y ;; Ok (Z.lor u v)
  end.
(** The value a block returns. *)
Fixpoint returns (m : mode) (b : buf) (G V : list (string * Z)) (l : list stmt) : res Z :=
  match l with
  | SLet x e :: r => v <- eval m b G V e ;; returns m b ((x, width_of G e) :: G) ((x, v) :: V) r
  | SRet e :: _ => eval m b G V e
  | _ => Panic EUnimpl
  end.
(** The assignments of a block: right-hand side, place, store; the stores before a
    panic remain. *)
Fixpoint assigns (m : mode) (G V : list (string * Z)) (l : list stmt) (b : buf) : buf * res unit :=
  match l with
  | [] => (b, Ok tt)
  | SAssign _ i e :: r =>
      match (v <- eval m b G V e ;; p <- eval m b G V i ;; Ok (p, v)) with
      | Panic e => (b, Panic e)
      | Ok (p, v) =>
          match store b p v with
          | (b', Ok _) => assigns m G V r b'
          | (b', Panic e) => (b', Panic e)
          end
      end
  | _ => (b, Panic EUnimpl)
  end.

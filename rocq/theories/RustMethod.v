(** Reading the methods of an [impl] block.  Written from the Rust reference; what the
    expression parser of RustSyntax.v has no form for is first rewritten to a form it has:
    - [use] declarations, lifetimes, [mut] and type arguments after [::] are dropped (they
      concern names, borrows and types, which rustc checks);
    - the field of a receiver, [self.packet], is read as one place with that name;
    - [&mut self.packet[a..]] is read as a call of [self.packet.from], a reference to the
      bytes of the packet from [a] on;
    - [assert!(c)] is read as a call of [assert];
    - [T { x: a, y: b }] is read as a call of [T{x,y}];
    - [if let p = e { ... }] is read as a [match] whose other arm is empty. *)
From Coq Require Import String Ascii ZArith List Bool.
From Verif Require Import Base DeriveParse RustLex RustSyntax.
Import ListNotations.
Open Scope string_scope.

(** ** Rewriting *)

(** [use a::b;] *)
Fixpoint drop_use (inside : bool) (l : list tt) : list tt :=
  match l with
  | [] => []
  | t :: r =>
      if inside then drop_use (negb (is_semi t)) r
      else match t with
           | Id x => if String.eqb x "use" then drop_use true r else t :: drop_use false r
           | _ => t :: drop_use false r
           end
  end.
(** ['a], [mut] *)
Fixpoint drop_marks (l : list tt) : list tt :=
  match l with
  | Op QBad :: Id _ :: r => drop_marks r
  | W KMut :: r => drop_marks r
  | t :: r => t :: drop_marks r
  | [] => []
  end.
(** [&mut self.packet[a..]] *)
Fixpoint before_range (l : list tt) : option (list tt) :=
  match l with
  | [] => None
  | [Op QRange] => Some []
  | t :: r => match before_range r with Some a => Some (t :: a) | None => None end
  end.
Fixpoint tails (l : list tt) : list tt :=
  match l with
  | Op (QBin OAnd) :: ((W KMut :: Id s :: Op QDot :: Id f :: Brk g :: r) as r1) =>
      if (String.eqb s "self" && String.eqb f "packet")%bool
      then match before_range g with
           | Some (t :: a) => Id "self.packet.from" :: Par (t :: a) :: tails r
           | _ => Op (QBin OAnd) :: tails r1
           end
      else Op (QBin OAnd) :: tails r1
  | t :: r => t :: tails r
  | [] => []
  end.
(** [::<T>] before an argument list *)
Fixpoint drop_targs (inside : bool) (l : list tt) : list tt :=
  match l with
  | [] => []
  | t :: r =>
      if inside then match t with Par _ => t :: drop_targs false r | _ => drop_targs true r end
      else match t, r with
           | Op QPath, Op (QBin OLt) :: _ => drop_targs true r
           | _, _ => t :: drop_targs false r
           end
  end.
Definition receiver (s : string) : bool := (String.eqb s "self" || String.eqb s "_self")%bool.
Definition is_call (l : list tt) : bool := match l with Par _ :: _ => true | _ => false end.
Fixpoint places (l : list tt) : list tt :=
  match l with
  | Id s :: ((Op QDot :: Id f :: r) as r1) =>
      if (receiver s && negb (is_call r))%bool then Id (s ++ "." ++ f) :: places r else Id s :: places r1
  | t :: r => t :: places r
  | [] => []
  end.
Fixpoint asserts (l : list tt) : list tt :=
  match l with
  | Id s :: ((Op QNot :: r) as r1) => if String.eqb s "assert" then Id s :: asserts r else Id s :: asserts r1
  | t :: r => t :: asserts r
  | [] => []
  end.
(** [x: a, y: b]: the names and the values. *)
Fixpoint labelled (l : list (list tt)) : option (list string * list (list tt)) :=
  match l with
  | [] => Some ([], [])
  | (Id x :: Op QColon :: v) :: r =>
      match labelled r with Some (xs, vs) => Some (x :: xs, v :: vs) | None => None end
  | _ :: _ => None
  end.
Fixpoint with_commas (l : list (list tt)) : list tt :=
  match l with [] => [] | v :: r => (v ++ Op QComma :: with_commas r)%list end.
Fixpoint structs (l : list tt) : list tt :=
  match l with
  | Id s :: ((Brc g :: r) as r1) =>
      match g with
      | [] => Id s :: structs r1
      | _ => match labelled (pieces g) with
             | Some (xs, vs) => Id (s ++ "{" ++ String.concat "," xs ++ "}") :: Par (with_commas vs) :: structs r
             | None => Id s :: structs r1
             end
      end
  | t :: r => t :: structs r
  | [] => []
  end.
(** [st]: what has been read of an [if let]: nothing, a pattern, a pattern and an expression. *)
Inductive iflet := INone | IPat (p : list tt) | IExp (p e : list tt).
Fixpoint if_lets (s : iflet) (l : list tt) : list tt :=
  match l with
  | [] => []
  | t :: r =>
      match s with
      | INone => match t, r with
                 | W KIf, W KLet :: _ => if_lets (IPat []) r
                 | _, _ => t :: if_lets INone r
                 end
      | IPat p => match t with
                  | W KLet => if_lets s r
                  | _ => if is_eq t then if_lets (IExp p []) r else if_lets (IPat (p ++ [t])%list) r
                  end
      | IExp p e => match t with
                    | Brc g => (W KMatch :: e ++ Brc (p ++ [Op QArm; Brc g; W KWild; Op QArm; Brc []]) :: if_lets INone r)%list
                    | _ => if_lets (IExp p (e ++ [t])%list) r
                    end
      end
  end.
Definition rewrite_list (l : list tt) : list tt :=
  if_lets INone (structs (asserts (places (drop_targs false (drop_marks (tails (drop_use false l))))))).
Fixpoint tidy (t : tt) : tt :=
  let inside := fix go (l : list tt) : list tt := match l with [] => [] | t :: r => tidy t :: go r end in
  match t with
  | Par l => Par (rewrite_list (inside l))
  | Brk l => Brk (rewrite_list (inside l))
  | Brc l => Brc (rewrite_list (inside l))
  | _ => t
  end.
Definition tidied (l : list ttree) : list tt := rewrite_list (map (fun t => tidy (told t)) l).

(** ** Functions and methods *)

(** A function, and the functions declared at the start of its body. *)
Record meth := Meth { m_fn : fn; m_items : list fn }.

Fixpoint skip_const (l : list tt) : list tt :=
  match l with
  | Id s :: r => if String.eqb s "const" then skip_const r else l
  | _ => l
  end.
Definition is_brc (t : tt) : bool := match t with Brc _ => true | _ => false end.
(** [fn name<..>(params) -> type { body }]: the parts. *)
Definition fn_parts (l : list tt) : option (string * list (string * string) * string * list tt) :=
  match skip_const (skip_marks l) with
  | W KFn :: Id name :: r =>
      match (match r with Op (QBin OLt) :: Op (QBin OGt) :: r' => r' | _ => r end) with
      | Par ps :: r2 =>
          let '(t, b) := upto is_brc (match r2 with Op QTo :: r3 => r3 | _ => r2 end) in
          match param_list (pieces ps), b with
          | Some params, [Brc g] => Some (name, params, ty_text t, g)
          | _, _ => None
          end
      | _ => None
      end
  | _ => None
  end.
Definition read_item (l : list tt) : option fn :=
  match fn_parts l with
  | Some (name, params, t, g) => match pblock depth g with Some e => Some (Fn name params t e) | None => None end
  | None => None
  end.
(** The functions at the start of a body (at most [n]), and the rest. *)
Fixpoint peel (n : nat) (l : list tt) : list (list tt) * list tt :=
  match n with
  | O => ([], l)
  | S k =>
      match skip_marks l with
      | W KFn :: _ =>
          let '(a, b) := upto is_brc (skip_marks l) in
          match b with
          | g :: r => let '(xs, rest) := peel k r in ((a ++ [g])%list :: xs, rest)
          | [] => ([], l)
          end
      | _ => ([], l)
      end
  end.
Fixpoint all_some {A} (l : list (option A)) : option (list A) :=
  match l with
  | [] => Some []
  | x :: r => match x, all_some r with Some a, Some s => Some (a :: s) | _, _ => None end
  end.
Definition read_meth (l : list tt) : option meth :=
  match fn_parts l with
  | Some (name, params, t, g) =>
      let '(xs, rest) := peel 20 g in
      match all_some (map read_item xs), pblock depth rest with
      | Some items, Some e => Some (Meth (Fn name params t e) items)
      | _, _ => None
      end
  | None => None
  end.
(** The functions of a block; [type X = T;] is passed over. *)
Fixpoint fns_from (cur l : list tt) : list (list tt) :=
  match l with
  | [] => []
  | t :: r => if is_brc t then (cur ++ [t])%list :: fns_from [] r
              else if is_semi t then fns_from [] r else fns_from (cur ++ [t])%list r
  end.
(** The bodies of the [impl] blocks among the items. *)
Fixpoint impl_bodies (in_impl : bool) (l : list tt) : list (list tt) :=
  match l with
  | [] => []
  | t :: r =>
      match t with
      | Brc g => if in_impl then g :: impl_bodies false r else impl_bodies false r
      | Id s => impl_bodies (in_impl || String.eqb s "impl")%bool r
      | _ => impl_bodies in_impl r
      end
  end.
(** The methods of the [impl] blocks of a text. *)
Definition read_impls (l : list ttree) : option (list (list meth)) :=
  all_some (map (fun g => all_some (map read_meth (fns_from [] g))) (impl_bodies false (tidied l))).
Definition find_meth (n : string) (l : list meth) : option meth := find (fun m => String.eqb (fn_name (m_fn m)) n) l.

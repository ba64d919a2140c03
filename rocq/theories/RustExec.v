(** What the methods of a packet do: expressions and statements over one buffer, the place
    [self.packet] (RustMethod.v), written from the Rust reference and the documentation of
    the standard library, in the manner of RustSem.v (whose operators, standard functions
    and values are used here).  No loop of this fragment can run forever, so the functions
    are defined by recursion on the syntax. *)
From Coq Require Import String Ascii ZArith List Bool.
From Verif Require Import Base RustLex RustSyntax RustSem.
Import ListNotations.
Open Scope string_scope.
Open Scope Z_scope.

(** ** Expressions *)

Inductive outcome (A : Type) := Val (a : A) | Pnc (e : err) | Bad.
Arguments Val {A} _. Arguments Pnc {A} _. Arguments Bad {A}.
Definition andthen {A B} (o : outcome A) (f : A -> outcome B) : outcome B :=
  match o with Val a => f a | Pnc e => Pnc e | Bad => Bad end.
(** What an operation of RustSem.v gives. *)
Definition result (f : (rv -> out) -> out) : outcome rv :=
  match f Done with Done v => Val v | Pan e => Pnc e | Stuck | Fuel => Bad end.
Definition array_of (vs : list rv) : outcome rv := result (fun k => elements vs (fun t zs => k (VA t zs))).

Section Exec.
Variable m : mode.
Variable consts : string -> option rv.
Variable sigs : string -> option shape.
(** The integer types rustc infers for variables initialised with a plain literal. *)
Variable hints : string -> option ity.

Definition let_type (p : pat) (ty : option string) : option ity :=
  match ty with
  | Some u => int_ty u
  | None => match p with PVar x => hints x | _ => None end
  end.

(** [w]: the integer type the context asks for; [funs]: the functions of the crate. *)
Definition call (funs : string -> list rv -> option answer) (f : string) (vs : list rv) : outcome rv :=
  match sigs f with
  | Some sh => result (called sh (funs f vs))
  | None => result (std_fun f vs)
  end.
Definition call_method (funs : string -> list rv -> option answer) (x : string) (v : rv) (vs : list rv) : outcome rv :=
  match v with
  | VSelf => let f := ("self." ++ x)%string in
             match sigs f with Some sh => result (called sh (funs f vs)) | None => Bad end
  | VC c _ _ => let f := (c ++ "::" ++ x)%string in
                match sigs f with Some sh => result (called sh (funs f (v :: vs))) | None => result (method m x v vs) end
  | VP c _ => let f := (c ++ "::" ++ x)%string in
              match sigs f with Some sh => result (called sh (funs f (v :: vs))) | None => Bad end
  (* [as_slice] and [to_immutable] of the data of a packet (core/src/packet.rs, see
     CorePacket.v): the same bytes *)
  | VA _ _ => if (String.eqb x "as_slice" || String.eqb x "to_immutable")%bool
              then match vs with [] => Val v | _ => Bad end else result (method m x v vs)
  | _ => result (method m x v vs)
  end.

(** [it.map(f).collect()] for an iterator of the crate: [next] is called on what is left
    (it gives the item and what is left then), the closure on each item.  The iterators
    of this crate are over bytes; more rounds than there are bytes are not followed. *)
Fixpoint collected (next : list Z -> outcome rv) (each : rv -> outcome rv) (n : nat) (d : list Z) : outcome (list rv) :=
  match n with
  | O => Bad
  | S k =>
      andthen (next d) (fun o =>
        match o with
        | VO None => Val []
        | VO (Some (VT [item; VP _ r])) => andthen (each item) (fun x => andthen (collected next each k r) (fun xs => Val (x :: xs)))
        | _ => Bad
        end)
  end.

Fixpoint pe (funs : string -> list rv -> option answer) (w : option ity) (e : ex) (s : env) {struct e} : outcome rv :=
  let pes := fix go (w : option ity) (l : list ex) {struct l} : outcome (list rv) :=
    match l with
    | [] => Val []
    | a :: r => andthen (pe funs w a s) (fun v => andthen (go w r) (fun vs => Val (v :: vs)))
    end in
  match e with
  | XInt t z => Val (VI (match int_ty t with Some u => Some u | None => w end) z)
  | XPath p =>
      match lookup p s with
      | Some v => Val (open_ty w v)
      | None => match consts p with
                | Some v => Val v
                | None => if String.eqb p "None" then Val (VO None) else Bad
                end
      end
  | XCall f l => andthen (pes None l) (fun vs => call funs f vs)
  | XMeth a x l =>
      if String.eqb x "copy_from_slice" then Bad
      else if String.eqb x "sum" then Bad
      else if String.eqb x "collect" then
        match a, l with
        | XMeth it f [XClo [y] b], [] =>
            if String.eqb f "map" then
              andthen (pe funs None it s) (fun v =>
                match v with
                | VP c d => andthen (collected (fun d => call funs (c ++ "::next") [VP c d]) (fun i => pe funs None b ((y, i) :: s)) (S (List.length d)) d)
                              (fun l => Val (VL l))
                | _ => Bad
                end)
            else Bad
        | _, _ => Bad
        end
      else andthen (pe funs None a s) (fun v => andthen (pes (type_of v) l) (fun vs => call_method funs x v vs))
  | XProj a x =>
      andthen (pe funs None a s) (fun v =>
        match v with
        | VC _ t l => match proj x l with Some z => Val (VI (Some t) z) | None => Bad end
        | VS l => match lookup x l with Some v => Val v | None => Bad end
        | _ => Bad
        end)
  | XIndex a i =>
      andthen (pe funs None a s) (fun av => andthen (pe funs (Some Usize) i s) (fun iv => result (index av iv)))
  | XRange a b =>
      let side o : outcome (option (option ity * Z)) :=
        match o with
        | None => Val None
        | Some x => andthen (pe funs (Some Usize) x s) (fun v => match v with VI t z => Val (Some (t, z)) | _ => Bad end)
        end in
      andthen (side a) (fun lo => andthen (side b) (fun hi => Val (VR lo hi)))
  | XUn URef a | XUn UDeref a => pe funs w a s
  | XUn UNot a =>
      andthen (pe funs w a s) (fun v =>
        match v with
        | VI (Some t) z => Val (VI (Some t) (not_u (width t) z))
        | VB b => Val (VB (negb b))
        | _ => Bad
        end)
  | XBin OLand a b =>
      andthen (pe funs None a s) (fun v => match v with VB c => if c then pe funs None b s else Val (VB false) | _ => Bad end)
  | XBin OLor a b =>
      andthen (pe funs None a s) (fun v => match v with VB c => if c then Val (VB true) else pe funs None b s | _ => Bad end)
  | XBin o a b =>
      let w' := if is_cmp o then None else w in
      andthen (pe funs w' a s) (fun x =>
      andthen (pe funs (if is_shift o then None else match type_of x with Some t => Some t | None => w' end) b s) (fun y =>
        result (binary m o x y)))
  | XCast a t =>
      andthen (pe funs None a s) (fun v =>
        match v, int_ty t with
        | VI _ z, Some u => Val (VI (Some u) (cast_u (width u) z))
        | _, _ => Bad
        end)
  | XTup l => andthen (pes None l) (fun vs => Val (match vs with [] => VUnit | _ => VT vs end))
  | XArr l => andthen (pes w l) array_of
  | XIf c a b =>
      andthen (pe funs None c s) (fun v =>
        match v with
        | VB c' => if c' then pe funs w a s else match b with Some b' => pe funs w b' s | None => Val VUnit end
        | _ => Bad
        end)
  | XBlock l t =>
      (fix go (l : list st) (s : env) {struct l} : outcome rv :=
         match l with
         | [] => match t with Some a => pe funs w a s | None => Val VUnit end
         | SLet (PVar x) ty a :: r => andthen (pe funs (let_type (PVar x) ty) a s) (fun v => go r ((x, v) :: s))
         | _ :: _ => Bad
         end) l s
  | XMac x => if String.eqb x "unimplemented" then Pnc EUnimpl else Bad
  | _ => Bad
  end.
Fixpoint pes (funs : string -> list rv -> option answer) (w : option ity) (l : list ex) (s : env) : outcome (list rv) :=
  match l with
  | [] => Val []
  | a :: r => andthen (pe funs w a s) (fun v => andthen (pes funs w r s) (fun vs => Val (v :: vs)))
  end.

(** ** Statements *)

(** How a statement ends: with a value, by returning, with a panic (and the variables, so
    that what has been written is known), outside the fragment. *)
Inductive ended := Go (v : rv) (s : env) | Return (v : rv) (s : env) | Crash (e : err) (s : env) | Off.
Definition of_value {A} (o : outcome A) (s : env) (k : A -> ended) : ended :=
  match o with Val a => k a | Pnc e => Crash e s | Bad => Off end.
Definition assigned (x : string) (v : rv) (s : env) : ended :=
  match assign x v s with Some s' => Go VUnit s' | None => Off end.

(** The buffer of the receiver, and the functions and procedures of the crate, which can
    read and change it. *)
Variable buffer : string.
Definition buf_of (s : env) : buf := match lookup buffer s with Some (VA _ b) => b | _ => [] end.
Variable funs : buf -> string -> list rv -> option answer.
Variable acts : string -> option (list rv -> buf -> option (buf * res unit)).
(** The type the method returns. *)
Variable ret : option ity.

Definition val_of (w : option ity) (a : ex) (s : env) : outcome rv := pe (funs (buf_of s)) w a s.
Definition vals_of (w : option ity) (l : list ex) (s : env) : outcome (list rv) := pes (funs (buf_of s)) w l s.

(** A mutation of the buffer. *)
Definition put (b : buf) (s : env) : option env := assign buffer (VA (Some U8) b) s.
Definition mutated (o : option (buf * res unit)) (s : env) : ended :=
  match o with
  | Some (b, Ok _) => match put b s with Some s' => Go VUnit s' | None => Off end
  | Some (b, Panic e) => match put b s with Some s' => Crash e s' | None => Off end
  | None => Off
  end.
Definition act (f : string) (l : list ex) (s : env) : option ended :=
  match acts f with
  | Some p =>
      Some (of_value (vals_of None l s) s (fun vs => mutated (p vs (buf_of s)) s))
  | None => None
  end.

Fixpoint run_each (step : rv -> env -> ended) (l : list rv) (s : env) : ended :=
  match l with
  | [] => Go VUnit s
  | v :: r => match step v s with Go _ s' => run_each step r s' | o => o end
  end.
Definition left_block (outer : env) (o : ended) : ended :=
  match o with Go v s => Go v (leave outer s) | _ => o end.
(** The variables a pattern binds: [None] if it is not of a form handled here, [Some None]
    if the value does not match. *)
Definition matched (p : pat) (v : rv) : option (option env) :=
  match p, v with
  | PWild, _ => Some (Some [])
  | PVar x, _ => Some (Some [(x, v)])
  | PCon c [PVar x], VO o =>
      if String.eqb c "Some" then match o with Some a => Some (Some [(x, a)]) | None => Some None end else None
  | _, _ => None
  end.
Definition push (t : option ity) (n : Z) (l : list Z) (v : rv) : option rv :=
  match v with
  | VI (Some u) z => if agree t (Some u) then Some (VV n (Some u) (l ++ [z])%list) else None
  | _ => None
  end.

Fixpoint exec (w : option ity) (e : ex) (s : env) {struct e} : ended :=
  let plain := of_value (val_of w e s) s (fun v => Go v s) in
  match e with
  | XBlock l t =>
      left_block s
        ((fix go (l : list st) (s : env) {struct l} : ended :=
            match l with
            | [] => match t with Some a => exec w a s | None => Go VUnit s end
            | x :: r =>
                let after := match x with
                  | SLet p ty a =>
                      match exec (let_type p ty) a s with
                      | Go v s1 => match matched p v with Some (Some bs) => Go VUnit (bs ++ s1)%list | _ => Off end
                      | o => o
                      end
                  | SSet o (XPath y) a =>
                      match lookup y s with
                      | Some old =>
                          of_value (val_of (type_of old) a s) s (fun v =>
                            match o with
                            | None => assigned y v s
                            | Some op => of_value (result (binary m op old v)) s (fun v' => assigned y v' s)
                            end)
                      | None => Off
                      end
                  | SSet None (XIndex (XPath y) i) a =>
                      match lookup y s with
                      | Some (VA t b) =>
                          of_value (val_of t a s) s (fun v => of_value (val_of (Some Usize) i s) s (fun iv =>
                            match v, iv with
                            | VI u z, VI q j =>
                                if (agree t u && agree (Some Usize) q)%bool then
                                  match store b j z with
                                  | (b', Ok _) => assigned y (VA t b') s
                                  | (_, Panic e) => Crash e s
                                  end
                                else Off
                            | _, _ => Off
                            end))
                      | _ => Off
                      end
                  | SSet _ _ _ => Off
                  | SExp a => exec None a s
                  | SFor p a b =>
                      of_value (val_of None a s) s (fun v =>
                        match items v with
                        | Some vs =>
                            run_each (fun v s1 => match matched p v with
                                                  | Some (Some bs) => left_block s1 (exec None b (bs ++ s1)%list)
                                                  | _ => Off
                                                  end) vs s
                        | None => Off
                        end)
                  | SWhile _ _ => Off
                  end in
                match after with Go _ s1 => go r s1 | o => o end
            end) l s)
  | XIf c a b =>
      of_value (val_of None c s) s (fun v =>
        match v with
        | VB c' => if c' then exec w a s else match b with Some b' => exec w b' s | None => Go VUnit s end
        | _ => Off
        end)
  | XMatch a arms =>
      of_value (val_of None a s) s (fun v =>
        (fix go (l : list (pat * option ex * ex)) : ended :=
           match l with
           | (p, None, b) :: r =>
               match matched p v with
               | Some (Some bs) => left_block s (exec w b (bs ++ s)%list)
               | Some None => go r
               | None => Off
               end
           | _ => Off
           end) arms)
  | XRet (Some a) => of_value (val_of ret a s) s (fun v => Return v s)
  | XCall f l =>
      if String.eqb f "assert" then
        match l with
        | [a] => of_value (val_of None a s) s (fun v =>
                   match v with VB true => Go VUnit s | VB false => Crash EAssert s | _ => Off end)
        | _ => Off
        end
      else match act f l s with Some o => o | None => plain end
  | XMeth (XIndex (XPath y) r) x [a] =>
      if String.eqb x "copy_from_slice" then
        match lookup y s with
        | Some (VA t d) =>
            of_value (val_of None r s) s (fun iv => of_value (val_of None a s) s (fun bv =>
              match bv with
              | VA _ src =>
                  match copy_into d iv src (fun d' => Done (VA t d')) with
                  | Done v => assigned y v s
                  | Pan e => Crash e s
                  | _ => Off
                  end
              | _ => Off
              end))
        | _ => Off
        end
      else plain
  | XMeth (XPath y) x l =>
      match lookup y s with
      | Some (VV n t vs) =>
          if String.eqb x "push" then
            match l with
            | [a] => of_value (val_of t a s) s (fun v => match push t n vs v with Some v' => assigned y v' s | None => Off end)
            | _ => Off
            end
          else plain
      | Some VSelf => match act ("self." ++ x) l s with Some o => o | None => plain end
      | Some (VC c _ _) => match act (c ++ "::" ++ x) (XPath y :: l) s with Some o => o | None => plain end
      | _ => plain
      end
  | _ => plain
  end.

End Exec.

(** ** Methods *)

(** The parameters with their values (rustc has checked the types). *)
Fixpoint bind_args (ps : list (string * string)) (vs : list rv) : option env :=
  match ps, vs with
  | [], [] => Some []
  | (x, _) :: pr, v :: vr => match bind_args pr vr with Some s => Some ((x, v) :: s) | None => None end
  | _, _ => None
  end.
(** What a call does: the value or the panic, and the bytes of the buffer afterwards. *)
Inductive ran := Returned (v : rv) (b : buf) | Panicked (e : err) (b : buf) | Unknown.
Definition finished (buffer : string) (o : ended) : ran :=
  let at_end s k := match lookup buffer s with Some (VA _ b) => k b | _ => Unknown end in
  match o with
  | Go v s | Return v s => at_end s (Returned v)
  | Crash e s => at_end s (Panicked e)
  | Off => Unknown
  end.

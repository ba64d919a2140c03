(** What the functions read by RustAst.v compute: an interpreter written from the Rust
    reference and the documentation of the standard library, for code with strings,
    vectors of structs, enums and formatting.  References are transparent except those to
    an element of a vector ([iter_mut], [last_mut]); types are checked while running:
    [FStuck] stands for a program rustc would reject or that is outside the fragment. *)
From Coq Require Import String Ascii ZArith NArith List Bool.
From Verif Require Import Base CoreTypes DeriveGen DeriveParse RustLex RustSyntax RustAst.
From Verif Require RustSem EmitText FmtText MacAddr Names.
Import ListNotations.
Open Scope string_scope.
Open Scope Z_scope.

(** ** Values *)

(** The integer types: those of RustSem.v and [i16]. *)
Inductive nt := Un (t : RustSem.ity) | I16.
Definition nt_eqb (a b : nt) : bool :=
  match a, b with Un t, Un u => RustSem.ity_eqb t u | I16, I16 => true | _, _ => false end.
Definition num_ty (s : string) : option nt :=
  if String.eqb s "i16" then Some I16
  else match RustSem.int_ty s with Some t => Some (Un t) | None => None end.
Notation tu8 := (Un RustSem.U8).
Notation tu16 := (Un RustSem.U16).
Notation tu32 := (Un RustSem.U32).
Notation tu64 := (Un RustSem.U64).
Notation tusize := (Un RustSem.Usize).

(** A place inside a value: an element of a vector, its last element, an argument of a variant. *)
Inductive spot := AtIdx (i : nat) | AtLast | AtArg (i : nat).

Inductive wv :=
| XUnit
| XI (t : option nt) (z : Z)               (* [None]: a literal whose type is still open *)
| XB (b : bool)
| XS (s : string)                          (* String, str: the bytes *)
| XC (z : Z)                               (* char *)
| XA (t : option nt) (l : list Z)          (* array, slice or vector of integers *)
| XL (l : list wv)                         (* the same for other values *)
| XT (l : list wv)
| XE (c : string) (l : list wv)            (* a variant or tuple struct with its arguments *)
| XR (c : string) (l : list (string * wv)) (* a struct of type [c] *)
| XG (a b : option (option nt * Z)) (incl : bool)
| XP (c : string) (l : list Z)             (* a packet of type [c] on these bytes *)
| XPtr (x : string) (p : list spot).       (* a reference to a place in the variable [x] *)

Definition env := list (string * wv).
Inductive fin := FDone (v : wv) | FPan (e : err) | FStuck | FFuel.
Definition wlift {A} (x : res A) (k : A -> fin) : fin :=
  match x with Ok a => k a | Panic e => FPan e end.

(** ** What called functions return *)

Inductive shape := HInt (t : nt) | HBool | HStr | HBytes | HList | HPair (t u : nt) | HObj (c : string) (t : nt)
| HObjs (c : string) (t : nt) | HOptInt (t : nt) | HOptBytes | HOptObj (c : string) (t : nt).
Definition as_int (t : nt) (v : wv) : option Z :=
  match v with XI (Some u) z => if nt_eqb t u then Some z else None | _ => None end.
Definition as_bool (v : wv) : option bool := match v with XB b => Some b | _ => None end.
Definition as_str (v : wv) : option string := match v with XS s => Some s | _ => None end.
Definition as_bytes (v : wv) : option (list Z) :=
  match v with XA (Some u) l => if nt_eqb tu8 u then Some l else None | _ => None end.
Definition as_list (v : wv) : option (list wv) := match v with XL l => Some l | _ => None end.
Definition as_pair (t u : nt) (v : wv) : option (Z * Z) :=
  match v with XT [a; b] => match as_int t a, as_int u b with Some x, Some y => Some (x, y) | _, _ => None end | _ => None end.
Definition as_obj (c : string) (t : nt) (v : wv) : option Z :=
  match v with XE d [a] => if String.eqb c d then as_int t a else None | _ => None end.
Fixpoint as_ints (t : nt) (l : list wv) : option (list Z) :=
  match l with
  | [] => Some []
  | v :: r => match as_int t v, as_ints t r with Some x, Some y => Some (x :: y) | _, _ => None end
  end.
Definition as_objs (c : string) (t : nt) (v : wv) : option (list Z) :=
  match v with XE d l => if String.eqb c d then as_ints t l else None | _ => None end.
Definition as_opt {A} (f : wv -> option A) (v : wv) : option (option A) :=
  match v with
  | XE c [] => if String.eqb c "None" then Some None else None
  | XE c [a] => if String.eqb c "Some" then match f a with Some x => Some (Some x) | None => None end else None
  | _ => None
  end.
Definition XNone : wv := XE "None" [].
Definition XSome (v : wv) : wv := XE "Some" [v].
Definition taken {A} (view : wv -> option A) (a : option (res wv)) (k : A -> fin) : fin :=
  match a with
  | Some (Ok v) => match view v with Some x => k x | None => FStuck end
  | Some (Panic e) => FPan e
  | None => FStuck
  end.
Definition opt_out {A} (inj : A -> wv) (o : option A) (k : wv -> fin) : fin :=
  match o with None => k (XE "None" []) | Some x => k (XE "Some" [inj x]) end.
Definition called (h : shape) (a : option (res wv)) (k : wv -> fin) : fin :=
  match h with
  | HInt t => taken (as_int t) a (fun z => k (XI (Some t) z))
  | HBool => taken as_bool a (fun b => k (XB b))
  | HStr => taken as_str a (fun s => k (XS s))
  | HBytes => taken as_bytes a (fun l => k (XA (Some tu8) l))
  | HList => taken as_list a (fun l => k (XL l))
  | HPair t u => taken (as_pair t u) a (fun p => k (XT [XI (Some t) (fst p); XI (Some u) (snd p)]))
  | HObj c t => taken (as_obj c t) a (fun z => k (XE c [XI (Some t) z]))
  | HObjs c t => taken (as_objs c t) a (fun l => k (XE c (map (XI (Some t)) l)))
  | HOptInt t => taken (as_opt (as_int t)) a (fun o => opt_out (XI (Some t)) o k)
  | HOptBytes => taken (as_opt as_bytes) a (fun o => opt_out (XA (Some tu8)) o k)
  | HOptObj c t => taken (as_opt (as_obj c t)) a (fun o => opt_out (fun z => XE c [XI (Some t) z]) o k)
  end.

(** ** Variables and places *)

Fixpoint find_var (x : string) (s : env) : option wv :=
  match s with
  | [] => None
  | (y, v) :: r => if String.eqb x y then Some v else find_var x r
  end.
Fixpoint set_var (x : string) (v : wv) (s : env) : option env :=
  match s with
  | [] => None
  | (y, w) :: r =>
      if String.eqb x y then Some ((y, v) :: r)
      else match set_var x v r with Some r' => Some ((y, w) :: r') | None => None end
  end.
Fixpoint env_drop (k : nat) (s : env) : env := match k, s with S j, _ :: r => env_drop j r | _, _ => s end.
Fixpoint env_size (s : env) : nat := match s with [] => O | _ :: r => S (env_size r) end.
Fixpoint extend (bs s : env) : env := match bs with [] => s | b :: r => b :: extend r s end.
(** Leaving a block forgets the variables it declared. *)
Definition leave (outer s : env) : env := env_drop (env_size s - env_size outer) s.
Definition leave_loop := leave.

Fixpoint set_nth {A} (i : nat) (v : A) (l : list A) : list A :=
  match l, i with
  | [], _ => []
  | _ :: r, O => v :: r
  | a :: r, S j => a :: set_nth j v r
  end.
Definition last_of {A} (l : list A) : option A := nth_error l (List.length l - 1).
Definition set_last {A} (v : A) (l : list A) : list A := set_nth (List.length l - 1) v l.
Fixpoint get_at (p : list spot) (v : wv) : option wv :=
  match p with
  | [] => Some v
  | q :: r =>
      match q, v with
      | AtIdx i, XL l => match nth_error l i with Some a => get_at r a | None => None end
      | AtLast, XL l => match last_of l with Some a => get_at r a | None => None end
      | AtArg i, XE _ l => match nth_error l i with Some a => get_at r a | None => None end
      | _, _ => None
      end
  end.
Fixpoint put_at (p : list spot) (w v : wv) : option wv :=
  match p with
  | [] => Some w
  | q :: r =>
      match q, v with
      | AtIdx i, XL l =>
          match nth_error l i with
          | Some a => match put_at r w a with Some b => Some (XL (set_nth i b l)) | None => None end
          | None => None
          end
      | AtLast, XL l =>
          match last_of l with
          | Some a => match put_at r w a with Some b => Some (XL (set_last b l)) | None => None end
          | None => None
          end
      | AtArg i, XE c l =>
          match nth_error l i with
          | Some a => match put_at r w a with Some b => Some (XE c (set_nth i b l)) | None => None end
          | None => None
          end
      | _, _ => None
      end
  end.
Definition read_ptr (x : string) (p : list spot) (s : env) : option wv :=
  match find_var x s with Some v => get_at p v | None => None end.
Definition write_ptr (x : string) (p : list spot) (w : wv) (s : env) : option env :=
  match find_var x s with
  | Some v => match put_at p w v with Some v' => set_var x v' s | None => None end
  | None => None
  end.
Fixpoint field (x : string) (l : list (string * wv)) : option wv :=
  match l with [] => None | (y, v) :: r => if String.eqb x y then Some v else field x r end.
Fixpoint set_field (x : string) (w : wv) (l : list (string * wv)) : list (string * wv) :=
  match l with
  | [] => []
  | (y, v) :: r => if String.eqb x y then (y, w) :: r else (y, v) :: set_field x w r
  end.

(** ** Operators *)

Definition join (a b : option nt) : option nt :=
  match a, b with
  | Some t, Some u => if nt_eqb t u then Some t else None
  | Some t, None | None, Some t => Some t
  | None, None => None
  end.
Definition agree (a b : option nt) : bool :=
  match a, b with Some t, Some u => nt_eqb t u | _, _ => true end.
Definition wrap_i16 (z : Z) : Z := (z + 32768) mod 65536 - 32768.
Definition sub_i16 (m : mode) (x y : Z) : res Z :=
  match m with
  | Checked => if ((-32768 <=? x - y) && (x - y <=? 32767))%bool then Ok (x - y) else Panic EOverflow
  | Wrapping => Ok (wrap_i16 (x - y))
  end.
Definition number (m : mode) (o : binop) (t : nt) (x y : Z) : option (res Z) :=
  match t with
  | Un u => RustSem.arith m o u x y
  | I16 => match o with OSub => Some (sub_i16 m x y) | _ => None end
  end.
(** Derived [PartialEq] on variants and tuple structs of integers. *)
Fixpoint same_args (x y : list wv) : option bool :=
  match x, y with
  | [], [] => Some true
  | XI _ a :: r, XI _ b :: s => match same_args r s with Some c => Some (RustSem.zeq a b && c)%bool | None => None end
  | _, _ => None
  end.
Definition equal (a b : wv) (k : wv -> fin) : fin :=
  match a, b with
  | XE c x, XE d y =>
      if String.eqb c d then match same_args x y with Some r => k (XB r) | None => FStuck end
      else match x, y with [], [] => k (XB false) | _, _ => FStuck end
  | XA t x, XA u y => if agree t u then k (XB (RustSem.same_list x y)) else FStuck
  | _, _ => FStuck
  end.
Definition binary (m : mode) (o : binop) (a b : wv) (k : wv -> fin) : fin :=
  match a, b with
  | XI t x, XI u y =>
      if RustSem.is_cmp o then if agree t u then k (XB (RustSem.cmp_z o x y)) else FStuck
      else match (if RustSem.is_shift o then t else join t u) with
           | Some w => match number m o w x y with Some r => wlift r (fun z => k (XI (Some w) z)) | None => FStuck end
           | None => FStuck
           end
  | XS x, XS y => match o with OAdd => k (XS (x ++ y)) | _ => FStuck end
  | _, _ => match o with OEq => equal a b k | _ => FStuck end
  end.

(** ** The standard library *)

(** The bytes of a string. *)
Definition codes (s : string) : list Z := map (fun a => Z.of_N (N_of_ascii a)) (list_ascii_of_string s).
Definition char_text (z : Z) : string := String (ascii_of_N (Z.to_N z)) "".
(** [enumerate]. *)
Fixpoint numbered (i : Z) (l : list wv) : list wv :=
  match l with [] => [] | v :: r => XT [XI (Some tusize) i; v] :: numbered (i + 1) r end.
Definition zipped (a b : list wv) : list wv := map (fun p => XT [fst p; snd p]) (combine a b).
Definition pointers (x : string) (n : nat) : list wv := map (fun i => XPtr x [AtIdx i]) (seq 0 n).
Definition slen (s : string) : Z := Z.of_nat (String.length s).
(** [truncate] leaves a string alone that is not longer; at ASCII characters. *)
Definition truncated (n : Z) (s : string) : string := substring 0 (Z.to_nat n) s.
Definition copies (z n : Z) : list Z := repeat z (Z.to_nat n).
Definition list_len {A} (l : list A) : Z := Z.of_nat (List.length l).
Definition result (o : option wv) : wv := match o with Some v => XE "Ok" [v] | None => XE "Err" [XUnit] end.

Definition same_z (x y : Z) : bool := match Z.compare x y with Eq => true | _ => false end.
Definition std_fun (f : string) (l : list wv) (k : wv -> fin) : fin :=
  match l with
  | [] => if String.eqb f "String::new" then k (XS "") else FStuck
  | [v] =>
      if String.eqb f "std::mem::transmute" then k v
      else if String.eqb f "Vec::with_capacity" then k (XL [])
      else FStuck
  | [XS s; XI _ n] =>
      if (String.eqb f "u8::from_str_radix" && same_z n 16)%bool
      then match MacAddr.from_str_radix s with
           | Some z => k (XE "Ok" [XI (Some tu8) z])
           | None => k (XE "Err" [XUnit])
           end
      else FStuck
  | _ => FStuck
  end.
(** Methods of strings, vectors, slices, integers, ranges, [Option] and [Result]. *)
Definition str_method (m : string) (s : string) (l : list wv) (k : wv -> fin) : fin :=
  match l with
  | [] =>
      if (String.eqb m "to_owned" || String.eqb m "to_string")%bool then k (XS s)
      else if String.eqb m "as_bytes" then k (XA (Some tu8) (codes s))
      else if String.eqb m "len" then k (XI (Some tusize) (slen s))
      else FStuck
  | [XC z] => if (String.eqb m "split" && same_z z 58)%bool then k (XL (map XS (MacAddr.split_colon s))) else FStuck
  | [XS p; XS b] => if String.eqb m "replace" then k (XS (EmitText.replace p b s)) else FStuck
  | _ => FStuck
  end.
Definition list_method (m : string) (v : list wv) (l : list wv) (k : wv -> fin) : fin :=
  match l with
  | [] =>
      if String.eqb m "len" then k (XI (Some tusize) (list_len v))
      else if (String.eqb m "iter" || String.eqb m "clone" || String.eqb m "into_iter")%bool then k (XL v)
      else if String.eqb m "enumerate" then k (XL (numbered 0 v))
      else if String.eqb m "rev" then k (XL (rev v))
      else if String.eqb m "first" then match RustSem.head v with None => k XNone | Some a => k (XE "Some" [a]) end
      else FStuck
  | [XL w] => if String.eqb m "zip" then k (XL (zipped v w)) else FStuck
  | _ => FStuck
  end.
Definition bytes_method (m : string) (t : option nt) (b : list Z) (l : list wv) (k : wv -> fin) : fin :=
  match l with
  | [] =>
      if String.eqb m "len" then k (XI (Some tusize) (blen b))
      else if String.eqb m "is_empty" then k (XB (RustSem.is_nil b))
      else if (String.eqb m "iter" || String.eqb m "to_vec" || String.eqb m "clone")%bool then k (XA t b)
      else FStuck
  | _ => FStuck
  end.
Definition std_method (m : string) (v : wv) (l : list wv) (k : wv -> fin) (other : fin) : fin :=
  match v with
  | XS s => str_method m s l k
  | XL x => list_method m x l k
  | XA t b => bytes_method m t b l k
  | XI (Some I16) z => if String.eqb m "abs" then k (XI (Some I16) (Z.abs z)) else other
  | XG (Some (t, lo)) (Some (u, hi)) true =>
      match l with
      | [XI w z] => if (String.eqb m "contains" && agree t w && agree u w)%bool then k (XB ((lo <=? z) && (z <=? hi))%bool) else FStuck
      | _ => FStuck
      end
  | XE c a =>
      if (String.eqb m "unwrap" || String.eqb m "expect")%bool then
        match a with
        | [x] => if (String.eqb c "Some" || String.eqb c "Ok")%bool then k x
                 else if String.eqb c "Err" then FPan EUnwrap else FStuck
        | _ => if String.eqb c "None" then FPan EUnwrap else FStuck
        end
      else other
  | _ => other
  end.

Definition set_z (l : list Z) (i z : Z) : res (list Z) :=
  if ((0 <=? i) && (i <? blen l))%bool then Ok (set_nth (Z.to_nat i) z l) else Panic EIndex.
Definition index (a i : wv) (k : wv -> fin) : fin :=
  match a, i with
  | XA t b, XI u j => if agree (Some tusize) u then wlift (idx b j) (fun z => k (XI t z)) else FStuck
  | XA t b, XG None None _ => k (XA t b)
  | XA t b, XG (Some (_, lo)) None _ => wlift (slice_from b lo) (fun l => k (XA t l))
  | XA t b, XG (Some (_, lo)) (Some (_, hi)) false => wlift (slice b lo hi) (fun l => k (XA t l))
  | XS s, XG None None _ => k (XS s)
  | _, _ => FStuck
  end.

(** ** Formatting *)

(** Names and format strings are put together with this copy of [++]. *)
Fixpoint cat (s t : string) : string := match s with "" => t | String a r => String a (cat r t) end.
(** The pieces of a format string: text, and holes with what follows the colon. *)
Inductive part := PText (s : string) | PHole (s : string).
Fixpoint fmt_parts (n : nat) (cur : string) (s : string) : option (list part) :=
  match n with
  | O => None
  | S k =>
      let flush l := match cur with "" => l | _ => PText cur :: l end in
      match s with
      | "" => Some (flush [])
      | String a r =>
          if Ascii.eqb a "{" then
            match r with
            | String b r1 =>
                if Ascii.eqb b "{" then fmt_parts k (cat cur "{") r1
                else let '(spec, r2) := span (fun x => if Ascii.eqb x "}" then false else true) r in
                     match r2 with
                     | String _ r3 => match fmt_parts k "" r3 with Some l => Some (flush (PHole spec :: l)) | None => None end
                     | "" => None
                     end
            | "" => None
            end
          else if Ascii.eqb a "}" then
            match r with
            | String b r1 => if Ascii.eqb b "}" then fmt_parts k (cat cur "}") r1 else None
            | "" => None
            end
          else fmt_parts k (cat cur (String a "")) r
      end
  end.

(** The type a variant or tuple struct belongs to: its path up to the first colon (paths of
    variants have at most two parts here). *)
Fixpoint cut_colons (s : string) : string :=
  match s with
  | "" => ""
  | String a r => if Ascii.eqb a ":" then "" else String a (cut_colons r)
  end.
Definition owner (c : string) : string := cut_colons c.
Definition int_name (t : RustSem.ity) : string :=
  match t with RustSem.U8 => "u8" | RustSem.U16 => "u16" | RustSem.U32 => "u32" | RustSem.U64 => "u64" | RustSem.Usize => "usize" end.
Definition type_name (v : wv) : option string :=
  match v with
  | XI (Some (Un t)) _ => Some (int_name t)
  | XE c _ => Some (owner c)
  | XR c _ => Some c
  | XP c _ => Some c
  | _ => None
  end.

(** ** Patterns *)

(** References to the arguments of a variant behind a reference. *)
Fixpoint snoc {A} (l : list A) (a : A) : list A := match l with [] => [a] | x :: r => x :: snoc r a end.
Fixpoint arg_ptrs (x : string) (q : list spot) (i : nat) (l : list wv) : list wv :=
  match l with [] => [] | _ :: r => XPtr x (snoc q (AtArg i)) :: arg_ptrs x q (S i) r end.
(** Matching a value against a pattern: [yes] gets the variables it binds. *)
Fixpoint matches (n : nat) (consts : env) (s : env) (p : pt) (v : wv) (yes : env -> fin) (no : fin) : fin :=
  match n with
  | O => FStuck
  | S j =>
      let all :=
        fix go (ps : list pt) (vs : list wv) (bs : env) : fin :=
          match ps, vs with
          | [], [] => yes bs
          | p :: pr, v :: vr => matches j consts s p v (fun b => go pr vr (extend b bs)) no
          | _, _ => FStuck
          end in
      match p with
      | QWild => yes []
      | QVar x =>
          if String.eqb x "true" then match v with XB b => if b then yes [] else no | _ => FStuck end
          else if String.eqb x "false" then match v with XB b => if b then no else yes [] | _ => FStuck end
          else yes [(x, v)]
      | QAlt ps =>
          (fix alt (ps : list pt) : fin :=
             match ps with [] => no | p :: r => matches j consts s p v yes (alt r) end) ps
      | QInt z => match v with XI _ y => if RustSem.zeq z y then yes [] else no | _ => FStuck end
      | QTup ps => match v with XT vs => all ps vs [] | _ => FStuck end
      | QConst x =>
          match v with
          | XE c l =>
              match find_var x consts with
              | Some (XE d [XI _ z]) =>
                  match l with
                  | [XI _ y] => if String.eqb c d then if RustSem.zeq y z then yes [] else no else FStuck
                  | _ => FStuck
                  end
              | Some _ => FStuck
              | None => if String.eqb x c then match l with [] => yes [] | _ => FStuck end else no
              end
          | _ => FStuck
          end
      | QCon x ps =>
          match v with
          | XE c l => if String.eqb x c then all ps l [] else no
          | XPtr y q =>
              match read_ptr y q s with
              | Some (XE c l) =>
                  if String.eqb x c then all ps (arg_ptrs y q O l) [] else no
              | _ => FStuck
              end
          | _ => FStuck
          end
      end
  end.

(** ** Loops *)

Fixpoint for_loop (step : wv -> env -> (env -> fin) -> fin) (l : list wv) (s : env) (k : env -> fin) : fin :=
  match l with
  | [] => k s
  | v :: r => step v s (fun s' => for_loop step r s' k)
  end.
Fixpoint while_loop (cond : env -> (bool -> env -> fin) -> fin) (body : env -> (env -> fin) -> fin)
    (n : nat) (s : env) (k : env -> fin) : fin :=
  match n with
  | O => FFuel
  | S j => cond s (fun b s1 => if b then body s1 (fun s2 => while_loop cond body j s2 k) else k s1)
  end.
(** The values a [for] loop runs through. *)
Definition items (v : wv) : option (list wv) :=
  match v with
  | XA t l => Some (map (XI t) l)
  | XL l => Some l
  | XG (Some (t, lo)) (Some (u, hi)) false =>
      if agree t u then Some (map (XI (join t u)) (RustSem.ints_from lo hi)) else None
  | _ => None
  end.

(** ** Expressions and statements *)

Section Run.
(** The overflow profile; the [cfg] options; the constants; what is taken from outside the
    texts (computed directly); the functions of the texts and the types they return; the
    integer types rustc infers for variables and arguments that are literals; how many
    rounds a [while] loop is followed. *)
Variable m : mode.
Variable cfgs : string -> option bool.
Variable consts : env.
Variable ext : string -> list wv -> option ((wv -> fin) -> fin).
Variable funs : string -> list wv -> option (res wv).
Variable sigs : string -> option shape.
Variable hints : string -> option nt.
Variable rounds : nat.
(** The declared result type, what happens with a returned value, and what evaluates the
    conditions and bodies of loops and the rest of the block after a loop. *)
Variable ret : string.
Variable ret_k : wv -> env -> fin.
Variable inner : option nt -> xp -> env -> (wv -> env -> fin) -> fin.

Definition open_ty (w : option nt) (v : wv) : wv := match v with XI None z => XI w z | XA None l => XA w l | _ => v end.
Definition type_of (v : wv) : option nt := match v with XI t _ => t | _ => None end.
(** A call of a function: of the standard library, from outside, or of a text; a name that
    starts with a capital and is none of these is a constructor. *)
Definition call (f : string) (vs : list wv) (k : wv -> fin) : fin :=
  match ext f vs with
  | Some g => g k
  | None => match sigs f with Some h => called h (funs f vs) k | None => std_fun f vs k end
  end.
Definition last_part (f : string) : string :=
  match cut_colons f with
  | o => if String.eqb o f then f else substring (String.length o + 2) (String.length f - String.length o - 2) f
  end.
Definition is_con (f : string) : bool := upper (last_part f).

(** The text of a value: [{}] of strings, integers, characters and types with a [Display]
    implementation in the texts; [{:?}] of a byte vector; [{:02x}], [{:08x}]. *)
Definition show (spec : string) (v : wv) (k : string -> fin) : fin :=
  if String.eqb spec "" then
    match v with
    | XS s => k s
    | XI (Some (Un _)) z => k (EmitText.dec z)
    | XI (Some I16) z => k (if z <? 0 then "-" ++ EmitText.dec (- z) else EmitText.dec z)
    | XC z => k (char_text z)
    | _ => match type_name v with
           | Some t => taken as_str (funs (cat t "::fmt") [v]) k
           | None => FStuck
           end
    end
  else if String.eqb spec ":?" then
    match v with XA (Some u) l => if nt_eqb tu8 u then k (FmtText.debug_list (map EmitText.dec l)) else FStuck | _ => FStuck end
  else if String.eqb spec ":02x" then
    match v with XI (Some u) z => if nt_eqb tu8 u then k (MacAddr.fmt_02x z) else FStuck | _ => FStuck end
  else if String.eqb spec ":08x" then
    match v with XI (Some u) z => if nt_eqb tu32 u then k (Names.fmt_0nx 8 z) else FStuck | _ => FStuck end
  else FStuck.
Fixpoint filled (l : list part) (vs : list wv) (k : string -> fin) : fin :=
  match l with
  | [] => match vs with [] => k "" | _ => FStuck end
  | PText s :: r => filled r vs (fun t => k (s ++ t))
  | PHole spec :: r => match vs with v :: vr => show spec v (fun t => filled r vr (fun u => k (t ++ u))) | [] => FStuck end
  end.
Definition formatted (f : string) (vs : list wv) (k : string -> fin) : fin :=
  match fmt_parts (S (String.length f)) "" f with Some l => filled l vs k | None => FStuck end.

(** The elements of an array expression. *)
Fixpoint elements (vs : list wv) (k : option nt -> list Z -> fin) : fin :=
  match vs with
  | [] => k None []
  | XI t z :: r => elements r (fun u zs => if agree t u then k (join t u) (z :: zs) else FStuck)
  | _ => FStuck
  end.
Fixpoint pick (l : list wv) (i : nat) : option wv :=
  match l, i with [], _ => None | v :: _, O => Some v | _ :: r, S j => pick r j end.
Definition proj (x : string) (l : list wv) : option wv :=
  match x with String c EmptyString => pick l (Ascii.nat_of_ascii c - 48) | _ => None end.

(** [w]: the integer type the context asks for. *)
Fixpoint ev (n : nat) (w : option nt) (e : xp) (s : env) (k : wv -> env -> fin) {struct n} : fin :=
  match n with
  | O => FFuel
  | S j =>
      match e with
      | YInt t z => k (XI (match num_ty t with Some u => Some u | None => w end) z) s
      | YStr x => k (XS x) s
      | YChar x => match x with String a EmptyString => k (XC (Z.of_N (N_of_ascii a))) s | _ => FStuck end
      | YPath p =>
          match find_var p s with
          | Some v => k (open_ty w v) s
          | None => match find_var p consts with Some v => k v s | None => if is_con p then k (XE p []) s else FStuck end
          end
      | YCall f l =>
          if String.eqb f "fmt::Display::fmt" then
            match l with
            | [a; YPath y] =>
                ev j None a s (fun v s1 =>
                  match type_name v, find_var y s1 with
                  | Some t, Some (XS old) =>
                      taken as_str (funs (cat t "::fmt") [v]) (fun u =>
                        match set_var y (XS (old ++ u)) s1 with Some s2 => k (XE "Ok" [XUnit]) s2 | None => FStuck end)
                  | _, _ => FStuck
                  end)
            | _ => FStuck
            end
          else
          evs j (hints f) l s (fun vs s1 =>
            if String.eqb f "Default::default" then call (cat ret "::default") vs (fun v => k v s1)
            else if is_con f then k (XE f vs) s1
            else call f vs (fun v => k v s1))
      | YMeth a x l =>
          match a, l with
          | YPath y, [b] =>
              if String.eqb x "push" then
                match find_var y s with
                | Some (XL _) =>
                    ev j None b s (fun v s1 =>
                      match find_var y s1 with
                      | Some (XL d) => match set_var y (XL (d ++ [v])%list) s1 with Some s2 => k XUnit s2 | None => FStuck end
                      | _ => FStuck
                      end)
                | _ => FStuck
                end
              else if String.eqb x "truncate" then
                match find_var y s with
                | Some (XS t) =>
                    ev j (Some tusize) b s (fun v s1 =>
                      match v with
                      | XI _ z => match set_var y (XS (truncated z t)) s1 with Some s2 => k XUnit s2 | None => FStuck end
                      | _ => FStuck
                      end)
                | _ => FStuck
                end
              else if String.eqb x "extend_from_slice" then
                ev j None b s (fun v s1 =>
                  match v with
                  | XA t l =>
                      match find_var y s1 with
                      | Some (XL []) => match set_var y (XA t l) s1 with Some s2 => k XUnit s2 | None => FStuck end
                      | Some (XA u d) =>
                          if agree t u then match set_var y (XA u (d ++ l)%list) s1 with Some s2 => k XUnit s2 | None => FStuck end
                          else FStuck
                      | _ => FStuck
                      end
                  | _ => FStuck
                  end)
              else evm j w a x l s k
          | YPath y, [] =>
              if String.eqb x "last_mut" then
                match find_var y s with
                | Some (XL d) => if RustSem.is_nil d then k XNone s else k (XE "Some" [XPtr y [AtLast]]) s
                | _ => FStuck
                end
              else if String.eqb x "iter_mut" then
                match find_var y s with
                | Some (XL d) => k (XL (pointers y (List.length d))) s
                | _ => FStuck
                end
              else evm j w a x l s k
          | _, [YPath f] =>
              if String.eqb x "map" then
                ev j None a s (fun v s1 =>
                  match v with
                  | XE c vs =>
                      if String.eqb c "None" then k XNone s1
                      else if String.eqb c "Some" then call f vs (fun v => k (XE "Some" [v]) s1)
                      else FStuck
                  | _ => FStuck
                  end)
              else evm j w a x l s k
          | _, _ => evm j w a x l s k
          end
      | YProj a x =>
          ev j None a s (fun v s1 =>
            match v with
            | XE _ l => match proj x l with Some z => k z s1 | None => FStuck end
            | XR _ l => match field x l with Some v => k v s1 | None => FStuck end
            | _ => FStuck
            end)
      | YIndex a i => ev j None a s (fun av s1 => ev j (Some tusize) i s1 (fun iv s2 => index av iv (fun v => k v s2)))
      | YRange a b incl =>
          let side (o : option xp) s (f : option (option nt * Z) -> env -> fin) :=
            match o with
            | None => f None s
            | Some x => ev j None x s (fun v s1 => match v with XI t z => f (Some (t, z)) s1 | _ => FStuck end)
            end in
          side a s (fun lo s1 => side b s1 (fun hi s2 => k (XG lo hi incl) s2))
      | YUn UNot a =>
          ev j w a s (fun v s1 =>
            match v with
            | XI (Some (Un t)) z => k (XI (Some (Un t)) (RustSem.not_u (RustSem.width t) z)) s1
            | XB b => k (XB (negb b)) s1
            | _ => FStuck
            end)
      | YUn _ a => ev j w a s k
      | YBin OLand a b =>
          ev j None a s (fun v s1 =>
            match v with XB c => if c then ev j None b s1 k else k (XB false) s1 | _ => FStuck end)
      | YBin OLor a b =>
          ev j None a s (fun v s1 =>
            match v with XB c => if c then k (XB true) s1 else ev j None b s1 k | _ => FStuck end)
      | YBin o a b =>
          let w' := if RustSem.is_cmp o then None else w in
          ev j w' a s (fun x s1 =>
          ev j (if RustSem.is_shift o then None else match type_of x with Some t => Some t | None => w' end) b s1 (fun y s2 =>
            binary m o x y (fun v => k v s2)))
      | YCast a t =>
          ev j None a s (fun v s1 =>
            match v with
            | XI u z =>
                if String.eqb t "char" then if agree (Some tu8) u then k (XC z) s1 else FStuck
                else match num_ty t with
                     | Some (Un x) => k (XI (Some (Un x)) (cast_u (RustSem.width x) z)) s1
                     | Some I16 => k (XI (Some I16) (wrap_i16 z)) s1
                     | None => FStuck
                     end
            | _ => FStuck
            end)
      | YTup l => evs j None l s (fun vs s1 => k (match vs with [] => XUnit | _ => XT vs end) s1)
      | YArr [] => k (XA None []) s
      | YArr l => evs j w l s (fun vs s1 => elements vs (fun t zs => k (XA t zs) s1))
      | YRep a b =>
          ev j w a s (fun v s1 => ev j (Some tusize) b s1 (fun c s2 =>
            match v, c with
            | XI t z, XI _ i => k (XA t (copies z i)) s2
            | _, _ => FStuck
            end))
      | YStruct c l => evf j l s (fun fs s1 => k (XR c fs) s1)
      | YIf c a b =>
          ev j None c s (fun v s1 =>
            match v with
            | XB c' => if c' then ev j w a s1 k
                       else match b with Some b' => ev j w b' s1 k | None => k XUnit s1 end
            | _ => FStuck
            end)
      | YMatch a arms =>
          ev j None a s (fun v s1 =>
            (fix go (arms : list (pt * option xp * xp)) : fin :=
               match arms with
               | [] => FStuck
               | (p, g, b) :: r =>
                   matches 10 consts s1 p v
                     (fun bs =>
                        match g with
                        | None => ev j w b (extend bs s1) (fun v s2 => k v (leave s1 s2))
                        | Some c =>
                            ev j None c (extend bs s1) (fun cv s2 =>
                              match cv with
                              | XB c' => if c' then ev j w b s2 (fun v s3 => k v (leave s1 s3)) else go r
                              | _ => FStuck
                              end)
                        end)
                     (go r)
               end) arms)
      | YBlock l t => evb j w l t s (fun v s1 => k v (leave s s1))
      | YMac x l =>
          if (String.eqb x "write" || String.eqb x "writeln")%bool then
            match l with
            | YPath f :: YStr t :: r =>
                evs j None r s (fun vs s1 =>
                  formatted (if String.eqb x "writeln" then cat t (String "010" EmptyString) else t) vs (fun u =>
                    match find_var f s1 with
                    | Some (XS old) =>
                        match set_var f (XS (old ++ u)) s1 with Some s2 => k (XE "Ok" [XUnit]) s2 | None => FStuck end
                    | _ => FStuck
                    end))
            | _ => FStuck
            end
          else if String.eqb x "format" then
            match l with
            | YStr t :: r => evs j None r s (fun vs s1 => formatted t vs (fun u => k (XS u) s1))
            | _ => FStuck
            end
          else if String.eqb x "assert" then
            match l with
            | c :: _ => ev j None c s (fun v s1 => match v with XB b => if b then k XUnit s1 else FPan EAssert | _ => FStuck end)
            | [] => FStuck
            end
          else if String.eqb x "vec" then
            match l with
            | [] => k (XL []) s
            | _ => evs j w l s (fun vs s1 => elements vs (fun t zs => k (XA t zs) s1))
            end
          else if String.eqb x "unimplemented" then FPan EUnimpl
          else match cfgs x with Some b => k (XB b) s | None => FStuck end
      | YTry a =>
          ev j None a s (fun v s1 =>
            match v with
            | XE c [x] => if (String.eqb c "Some" || String.eqb c "Ok")%bool then k x s1
                          else if String.eqb c "Err" then ret_k v s1 else FStuck
            | XE c [] => if String.eqb c "None" then ret_k v s1 else FStuck
            | _ => FStuck
            end)
      | YRet None => ret_k XUnit s
      | YRet (Some a) => ev j (num_ty ret) a s (fun v s1 => ret_k v s1)
      end
  end
(** A method: of the standard library, or of the type of the receiver. *)
with evm (n : nat) (w : option nt) (a : xp) (x : string) (l : list xp) (s : env) (k : wv -> env -> fin) {struct n} : fin :=
  match n with
  | O => FFuel
  | S j =>
      ev j None a s (fun v s1 => evs j (type_of v) l s1 (fun vs s2 =>
        if String.eqb x "into" then call (cat ret "::from") (v :: vs) (fun v => k v s2)
        else std_method x v vs (fun v => k v s2)
          (match type_name v with
           | Some t =>
               if String.eqb x "to_string" then taken as_str (funs (cat t "::fmt") [v]) (fun u => k (XS u) s2)
               else call (cat t (cat "::" x)) (v :: vs) (fun v => k v s2)
           | None => FStuck
           end)))
  end
with evs (n : nat) (w : option nt) (l : list xp) (s : env) (k : list wv -> env -> fin) {struct n} : fin :=
  match n with
  | O => FFuel
  | S j =>
      match l with
      | [] => k [] s
      | e :: r => ev j w e s (fun v s1 => evs j w r s1 (fun vs s2 => k (v :: vs) s2))
      end
  end
(** The fields of a struct. *)
with evf (n : nat) (l : list (string * xp)) (s : env) (k : list (string * wv) -> env -> fin) {struct n} : fin :=
  match n with
  | O => FFuel
  | S j =>
      match l with
      | [] => k [] s
      | (x, e) :: r => ev j (hints x) e s (fun v s1 => evf j r s1 (fun vs s2 => k ((x, v) :: vs) s2))
      end
  end
with evb (n : nat) (w : option nt) (l : list sx) (t : option xp) (s : env) (k : wv -> env -> fin) {struct n} : fin :=
  match n with
  | O => FFuel
  | S j =>
      match l with
      | [] => match t with Some e => ev j w e s k | None => k XUnit s end
      | ZLet p ty e :: r =>
          let w' := match ty with
                    | Some u => num_ty u
                    | None => match p with QVar x => hints x | _ => None end
                    end in
          ev j w' e s (fun v s1 => matches 10 consts s1 p v (fun bs => evb j w r t (extend bs s1) k) FStuck)
      | ZSet o (YPath x) e :: r =>
          match find_var x s with
          | None => FStuck
          | Some old =>
              let put v s1 := match set_var x v s1 with Some s2 => evb j w r t s2 k | None => FStuck end in
              ev j (type_of old) e s (fun v s1 =>
                match o with None => put v s1 | Some op => binary m op old v (fun v' => put v' s1) end)
          end
      | ZSet o (YUn UDeref (YPath x)) e :: r =>
          match find_var x s with
          | Some (XPtr y q) =>
              match read_ptr y q s with
              | None => FStuck
              | Some old =>
                  let put v s1 := match write_ptr y q v s1 with Some s2 => evb j w r t s2 k | None => FStuck end in
                  ev j (type_of old) e s (fun v s1 =>
                    match o with None => put v s1 | Some op => binary m op old v (fun v' => put v' s1) end)
              end
          | _ => FStuck
          end
      | ZSet None (YProj (YPath x) f) e :: r =>
          match find_var x s with
          | Some (XPtr y q) =>
              ev j None e s (fun v s1 =>
                match read_ptr y q s1 with
                | Some (XR c fs) =>
                    match write_ptr y q (XR c (set_field f v fs)) s1 with Some s2 => evb j w r t s2 k | None => FStuck end
                | _ => FStuck
                end)
          | _ => FStuck
          end
      | ZSet None (YIndex (YPath x) i) e :: r =>
          ev j (Some tusize) i s (fun iv s0 => ev j None e s0 (fun v s1 =>
            match find_var x s1, iv, v with
            | Some (XA u b), XI _ z, XI u' y =>
                if agree u u'
                then wlift (set_z b z y) (fun b' =>
                       match set_var x (XA u b') s1 with Some s2 => evb j w r t s2 k | None => FStuck end)
                else FStuck
            | _, _, _ => FStuck
            end))
      | ZSet _ _ _ :: _ => FStuck
      | ZExp e :: r => ev j None e s (fun _ s1 => evb j w r t s1 k)
      | ZFor p e b :: r =>
          ev j None e s (fun v s1 =>
            match items v with
            | None => FStuck
            | Some vs =>
                for_loop
                  (fun v s2 k' =>
                     matches 10 consts s2 p v (fun bs => inner None b (extend bs s2) (fun _ s3 => k' (leave_loop s2 s3))) FStuck)
                  vs s1 (fun s2 => inner w (YBlock r t) s2 k)
            end)
      | ZWhile c b :: r =>
          while_loop
            (fun s1 k' => inner None c s1 (fun v s2 => match v with XB b => k' b s2 | _ => FStuck end))
            (fun s1 k' => inner None b s1 (fun _ s2 => k' (leave_loop s1 s2)))
            rounds s (fun s1 => inner w (YBlock r t) s1 k)
      end
  end.
End Run.

(** ** Functions *)

(** A parameter takes an argument; a [Formatter] starts with no text. *)
Fixpoint ends_with (x s : string) : bool :=
  match s with "" => String.eqb x "" | String _ r => (String.eqb x s || ends_with x r)%bool end.
Definition is_formatter (t : string) : bool := ends_with "Formatter" t.
Definition give (t : string) (v : wv) : wv :=
  match v with
  | XI None z => XI (num_ty t) z
  | XA None l => XA (Some tu8) l
  | _ => v
  end.
Fixpoint bind_params (ps : list (string * string)) (vs : list wv) : option env :=
  match ps with
  | [] => match vs with [] => Some [] | _ => None end
  | (x, t) :: pr =>
      if is_formatter t then option_map (cons (x, XS "")) (bind_params pr vs)
      else match vs with v :: vr => option_map (cons (x, give t v)) (bind_params pr vr) | [] => None end
  end.
(** What a function gives back: the value, or, when it writes to a formatter, the text. *)
Fixpoint formatter (ps : list (string * string)) : option string :=
  match ps with [] => None | (x, t) :: r => if is_formatter t then Some x else formatter r end.
Definition closing (ps : list (string * string)) (t : string) (v : wv) (s : env) : fin :=
  match formatter ps with
  | None => FDone (give t v)
  | Some x => match v, find_var x s with XE c _, Some (XS u) => if String.eqb c "Ok" then FDone (XS u) else FStuck | _, _ => FStuck end
  end.
Definition run_depth : nat := 60.
(** At most [l] loops, nested or one after the other. *)
Fixpoint level (m : mode) cfgs consts ext funs sigs hints (rounds : nat) (ret : string) ret_k (l : nat)
    (w : option nt) (e : xp) (s : env) (k : wv -> env -> fin) : fin :=
  match l with
  | O => FFuel
  | S l' =>
      ev m cfgs consts ext funs sigs hints rounds ret ret_k
        (level m cfgs consts ext funs sigs hints rounds ret ret_k l') run_depth w e s k
  end.
Definition run_func m cfgs consts ext funs sigs hints rounds (f : func) (args : list wv) : fin :=
  match bind_params (fu_params f) args with
  | None => FStuck
  | Some s =>
      let fin_k := closing (fu_params f) (fu_ret f) in
      level m cfgs consts ext funs sigs hints rounds (fu_ret f) fin_k 5 (num_ty (fu_ret f)) (fu_body f) s fin_k
  end.

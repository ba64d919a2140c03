(** What Rust functions over integers, slices and one-field structs compute: an
    interpreter for RustSyntax.v, written from the Rust reference and the documentation
    of the standard library.  References are transparent (nothing here aliases), types
    are checked while running: [Stuck] stands for a program rustc would reject or that
    is outside the fragment. *)
From Coq Require Import String Ascii ZArith List Bool.
From Verif Require Import Base CoreTypes DeriveGen DeriveParse RustLex RustSyntax.
Import ListNotations.
Open Scope string_scope.
Open Scope Z_scope.

(** ** Values *)

(** The unsigned integer types. *)
Inductive ity := U8 | U16 | U32 | U64 | Usize.
Definition width (t : ity) : Z := match t with U8 => 8 | U16 => 16 | U32 => 32 | U64 => 64 | Usize => usize end.
Definition ity_eqb (a b : ity) : bool :=
  match a, b with U8, U8 | U16, U16 | U32, U32 | U64, U64 | Usize, Usize => true | _, _ => false end.
Definition of_width (w : Z) : option ity :=
  if w =? 8 then Some U8 else if w =? 16 then Some U16 else if w =? 32 then Some U32 else if w =? 64 then Some U64 else None.
(** A type name; the aliases of core/src/types.rs are unfolded. *)
Definition int_ty (s : string) : option ity :=
  if String.eqb s "usize" then Some Usize
  else if String.eqb s "u8" then Some U8 else if String.eqb s "u16" then Some U16
  else if String.eqb s "u32" then Some U32 else if String.eqb s "u64" then Some U64
  else match find (fun p => String.eqb (fst p) s) aliases with Some (_, w) => of_width w | None => None end.

Inductive rv :=
| VUnit
| VI (t : option ity) (z : Z)                 (* [None]: a literal whose type is still open *)
| VB (b : bool)
| VA (t : option ity) (l : list Z)            (* array, slice or vector of integers *)
| VC (c : string) (t : ity) (l : list Z)      (* a struct of type [c] made of integers *)
| VO (o : option rv)                          (* Option, or Result without its error *)
| VT (l : list rv)
| VR (a b : option (option ity * Z))          (* range *)
| VF (x : list string) (e : ex)               (* closure *)
| VV (n : Z) (t : option ity) (l : list Z)    (* a growing vector of integers with its capacity *)
| VP (c : string) (l : list Z)                (* a packet or packet iterator of type [c] on these bytes *)
| VS (l : list (string * rv))                 (* a struct with named fields *)
| VX (x : list val)                           (* a packet struct that is passed on as it is *)
| VL (l : list rv)                            (* a slice or vector of other values *)
| VSelf.                                      (* the receiver of a method *)

(** Operations on integers and slices, named so that they can be kept folded. *)
Definition zeq (x y : Z) : bool := x =? y.
Fixpoint same_list (x y : list Z) : bool :=
  match x, y with
  | [], [] => true
  | a :: r, b :: s => ((a =? b) && same_list r s)%bool
  | _, _ => false
  end.
Definition not_u (w z : Z) : Z := 2 ^ w - 1 - z.
Definition take {A} (k : Z) (l : list A) : list A := firstn (Z.to_nat k) l.
Definition drop {A} (k : Z) (l : list A) : list A := skipn (Z.to_nat k) l.
Definition is_nil {A} (l : list A) : bool := match l with [] => true | _ => false end.
Definition head {A} (l : list A) : option A := match l with [] => None | a :: _ => Some a end.
Definition ints_from (lo hi : Z) : list Z := map (fun i => lo + Z.of_nat i) (seq 0 (Z.to_nat (hi - lo))).
Definition div_u (x y : Z) : res Z := if y =? 0 then Panic EOverflow else Ok (x / y).
Definition rem_u (x y : Z) : res Z := if y =? 0 then Panic EOverflow else Ok (x mod y).
Definition split_u {A} (k : Z) (l : list A) : res (list A * list A) :=
  if k <=? Z.of_nat (List.length l) then Ok (take k l, drop k l) else Panic EIndex.

(** What a function of the crate returns. *)
Inductive answer :=
| AInt (t : ity) (r : res Z)
| ABool (r : res bool)
| ABytes (r : res (list Z))
| AObj (c : string) (t : ity) (r : res (list Z))
| AVal (r : res rv).

Definition env := list (string * rv).
(** How a run ends: with a value, with a panic, outside the fragment, or out of rounds. *)
Inductive out := Done (v : rv) | Pan (e : err) | Stuck | Fuel.

(** The interpreter is written in continuation-passing style: [k] says what happens
    with the value and the variables. *)
Definition lift {A} (x : res A) (k : A -> out) : out :=
  match x with Ok a => k a | Panic e => Pan e end.
Definition answered (a : answer) (k : rv -> out) : out :=
  match a with
  | AInt t r => lift r (fun z => k (VI (Some t) z))
  | ABool r => lift r (fun b => k (VB b))
  | ABytes r => lift r (fun l => k (VA (Some U8) l))
  | AObj c t r => lift r (fun l => k (VC c t l))
  | AVal r => lift r k
  end.

(** The type a function is declared to return, and taking an answer of that type. *)
Inductive shape := SInt (t : ity) | SBool | SBytes | SObj (c : string) (t : ity) | SVal.
Definition take_int (t : ity) (a : option answer) (k : Z -> out) : out :=
  match a with Some (AInt u r) => if ity_eqb t u then lift r k else match r with Panic e => Pan e | _ => Stuck end | _ => Stuck end.
Definition take_bool (a : option answer) (k : bool -> out) : out :=
  match a with Some (ABool r) => lift r k | Some (AInt _ (Panic e)) => Pan e | _ => Stuck end.
Definition take_bytes (a : option answer) (k : list Z -> out) : out :=
  match a with Some (ABytes r) => lift r k | Some (AInt _ (Panic e)) => Pan e | _ => Stuck end.
Definition take_obj (c : string) (t : ity) (a : option answer) (k : list Z -> out) : out :=
  match a with
  | Some (AObj d u r) => if (String.eqb c d && ity_eqb t u)%bool then lift r k else Stuck
  | Some (AInt _ (Panic e)) => Pan e
  | _ => Stuck
  end.
Definition take_val (a : option answer) (k : rv -> out) : out :=
  match a with Some (AVal r) => lift r k | _ => Stuck end.
Definition called (sh : shape) (a : option answer) (k : rv -> out) : out :=
  match sh with
  | SInt t => take_int t a (fun z => k (VI (Some t) z))
  | SBool => take_bool a (fun b => k (VB b))
  | SBytes => take_bytes a (fun l => k (VA (Some U8) l))
  | SObj c t => take_obj c t a (fun l => k (VC c t l))
  | SVal => take_val a k
  end.

Fixpoint lookup (x : string) (s : env) : option rv :=
  match s with
  | [] => None
  | (y, v) :: r => if String.eqb x y then Some v else lookup x r
  end.
Fixpoint assign (x : string) (v : rv) (s : env) : option env :=
  match s with
  | [] => None
  | (y, w) :: r =>
      if (x =? y)%string then Some ((y, v) :: r)
      else match assign x v r with Some r' => Some ((y, w) :: r') | None => None end
  end.
(** Leaving a block forgets the variables it declared. *)
Fixpoint env_drop (k : nat) (s : env) : env :=
  match k, s with S j, _ :: r => env_drop j r | _, _ => s end.
Fixpoint env_size (s : env) : nat := match s with [] => O | _ :: r => S (env_size r) end.
Definition leave (outer s : env) : env := env_drop (env_size s - env_size outer) s.
(** The same for the body of a loop (a name of its own, so that it can be kept folded). *)
Definition leave_loop := leave.

(** ** Operators *)

(** The type of an operation on two integers. *)
Definition join (a b : option ity) : option ity :=
  match a, b with
  | Some t, Some u => if ity_eqb t u then Some t else None
  | Some t, None | None, Some t => Some t
  | None, None => None
  end.
Definition agree (a b : option ity) : bool :=
  match a, b with Some t, Some u => ity_eqb t u | _, _ => true end.
Definition arith (m : mode) (o : binop) (t : ity) (x y : Z) : option (res Z) :=
  let w := width t in
  match o with
  | OAdd => Some (add_u m w x y)
  | OSub => Some (sub_u m w x y)
  | OMul => Some (mul_u m w x y)
  | ODiv => Some (div_u x y)
  | ORem => Some (rem_u x y)
  | OShl => Some (shl_u m w x y)
  | OShr => Some (shr_u m w x y)
  | OAnd => Some (Ok (Z.land x y))
  | OOr => Some (Ok (Z.lor x y))
  | OXor => Some (Ok (Z.lxor x y))
  | _ => None
  end.
Definition is_cmp (o : binop) : bool :=
  match o with OEq | ONe | OLt | OGt | OLe | OGe => true | _ => false end.
Definition cmp_z (o : binop) (x y : Z) : bool :=
  match o with
  | OEq => x =? y | ONe => negb (x =? y)
  | OLt => x <? y | OGt => y <? x | OLe => x <=? y | OGe => y <=? x
  | _ => false
  end.
Definition is_shift (o : binop) : bool := match o with OShl | OShr => true | _ => false end.

Definition binary (m : mode) (o : binop) (a b : rv) (k : rv -> out) : out :=
  match a, b with
  | VI t x, VI u y =>
      if is_cmp o then if agree t u then k (VB (cmp_z o x y)) else Stuck
      else match (if is_shift o then t else join t u) with
           | Some w => match arith m o w x y with Some r => lift r (fun z => k (VI (Some w) z)) | None => Stuck end
           | None => Stuck
           end
  | VC c _ x, VC d _ y =>
      if (c =? d)%string then match o with OEq => k (VB (same_list x y)) | _ => Stuck end else Stuck
  | _, _ => Stuck
  end.

(** ** The standard library *)

Definition bytes_value (l : list Z) : Z := fold_left (fun a v => a * 256 + v) l 0.
Definition std_fun (f : string) (l : list rv) (k : rv -> out) : out :=
  match l with
  | [VA (Some U8) b] =>
      if (f =? "u16::from_be_bytes")%string
      then if zeq (blen b) 2 then k (VI (Some U16) (bytes_value b)) else Stuck
      else if (f =? "u64::from_be_bytes")%string
      then if zeq (blen b) 8 then k (VI (Some U64) (bytes_value b)) else Stuck
      else Stuck
  | [VI (Some Usize) n] =>
      if (f =? "Vec::with_capacity")%string then k (VV n None [])
      else if (f =? "Some")%string then k (VO (Some (VI (Some Usize) n))) else Stuck
  | [v] => if (f =? "Some")%string then k (VO (Some v)) else Stuck
  | [VI t x; VI u y] =>
      if (String.eqb f "min" || String.eqb f "std::cmp::min")%bool
      then match join t u with Some w => k (VI (Some w) (Z.min x y)) | None => Stuck end
      else Stuck
  | _ => Stuck
  end.

Definition method (m : mode) (x : string) (v : rv) (l : list rv) (k : rv -> out) : out :=
  match v, l with
  | VA t b, [] =>
      if String.eqb x "len" then k (VI (Some Usize) (blen b))
      else if String.eqb x "is_empty" then k (VB (is_nil b))
      else if String.eqb x "first" then match head b with None => k (VO None) | Some a => k (VO (Some (VI t a))) end
      else if String.eqb x "iter" then k v
      else if String.eqb x "to_vec" then k v
      else if String.eqb x "try_into" then k (VO (Some v))
      else Stuck
  | VA t b, [VI (Some Usize) n] =>
      if String.eqb x "split_at" then lift (split_u n b) (fun p => k (VT [VA t (fst p); VA t (snd p)])) else Stuck
  | VI (Some t) a, [VI u b] =>
      if String.eqb x "saturating_sub" then if agree (Some t) u then k (VI (Some t) (sat_sub a b)) else Stuck else Stuck
  | VV n _ _, [] => if String.eqb x "capacity" then k (VI (Some Usize) n) else Stuck
  | VL l, [] => if String.eqb x "into_iter" then k v
                else if String.eqb x "len" then k (VI (Some Usize) (Z.of_nat (List.length l))) else Stuck
  | VO o, [] => if String.eqb x "unwrap" then match o with Some a => k a | None => Pan EUnwrap end else Stuck
  | VC c t b, [] =>
      if String.eqb c "Ipv4Addr" then if String.eqb x "octets" then k (VA (Some t) b) else Stuck
      else if String.eqb c "Ipv6Addr" then if String.eqb x "segments" then k (VA (Some t) b) else Stuck
      else Stuck
  | _, _ => Stuck
  end.

Definition index (a i : rv) (k : rv -> out) : out :=
  match a, i with
  | VA t b, VI u j => if agree (Some Usize) u then lift (idx b j) (fun z => k (VI t z)) else Stuck
  | VA t b, VR None None => k (VA t b)
  | VA t b, VR (Some (_, lo)) None => lift (slice_from b lo) (fun l => k (VA t l))
  | VA t b, VR None (Some (_, hi)) => lift (slice b 0 hi) (fun l => k (VA t l))
  | VA t b, VR (Some (_, lo)) (Some (_, hi)) => lift (slice b lo hi) (fun l => k (VA t l))
  | _, _ => Stuck
  end.

(** [dst[range].copy_from_slice(src)]. *)
Definition copy_range (b : list Z) (lo hi : Z) (src : list Z) : res (list Z) :=
  if (0 <=? lo) && (lo <=? hi) && (hi <=? blen b)
  then if hi - lo =? blen src then Ok (splice b (Z.to_nat lo) src) else Panic EAssert
  else Panic EIndex.
Definition copy_into (b : list Z) (i : rv) (src : list Z) (k : list Z -> out) : out :=
  match i with
  | VR None None => lift (copy_range b 0 (blen b) src) k
  | VR (Some (_, lo)) None => lift (copy_range b lo (blen b) src) k
  | VR (Some (_, lo)) (Some (_, hi)) => lift (copy_range b lo hi src) k
  | _ => Stuck
  end.

(** Matching a value against a pattern: [yes] gets the variables it binds. *)
Fixpoint matches (n : nat) (consts : string -> option rv) (p : pat) (v : rv) (yes : env -> out) (no : out) : out :=
  match n with
  | O => Stuck
  | S j =>
      let all :=
        fix go (ps : list pat) (vs : list rv) (bs : env) : out :=
          match ps, vs with
          | [], [] => yes bs
          | p :: pr, v :: vr => matches j consts p v (fun b => go pr vr (b ++ bs)%list) no
          | _, _ => Stuck
          end in
      match p, v with
      | PWild, _ => yes []
      | PVar x, _ => yes [(x, v)]
      | PInt z, VI _ y => if zeq z y then yes [] else no
      | PPath x, VO o =>
          if (x =? "None")%string then match o with None => yes [] | Some _ => no end else Stuck
      | PPath x, VC c _ [y] =>
          match consts x with
          | Some (VC d _ [z]) => if (c =? d)%string then if zeq y z then yes [] else no else Stuck
          | _ => Stuck
          end
      | PCon x ps, VO o =>
          if (x =? "Some")%string then match o with Some w => all ps [w] [] | None => no end else Stuck
      | PCon x ps, VC c t l => if (x =? c)%string then all ps (map (VI (Some t)) l) [] else Stuck
      | PTup ps, VT vs => all ps vs []
      | _, _ => Stuck
      end
  end.

(** ** Loops *)

Fixpoint for_loop (step : rv -> env -> (env -> out) -> out) (l : list rv) (s : env) (k : env -> out) : out :=
  match l with
  | [] => k s
  | v :: r => step v s (fun s' => for_loop step r s' k)
  end.
Fixpoint while_loop (cond : env -> (bool -> env -> out) -> out) (body : env -> (env -> out) -> out)
    (n : nat) (s : env) (k : env -> out) : out :=
  match n with
  | O => Fuel
  | S j => cond s (fun b s1 => if b then body s1 (fun s2 => while_loop cond body j s2 k) else k s1)
  end.
Fixpoint sum_loop (step : rv -> rv -> (rv -> out) -> out) (l : list rv) (acc : rv) (k : rv -> out) : out :=
  match l with
  | [] => k acc
  | v :: r => step v acc (fun acc' => sum_loop step r acc' k)
  end.
(** The values a [for] loop runs through. *)
Definition items (v : rv) : option (list rv) :=
  match v with
  | VA t l => Some (map (VI t) l)
  | VL l => Some l
  | VR (Some (t, lo)) (Some (u, hi)) =>
      if agree t u then Some (map (VI (join t u)) (ints_from lo hi)) else None
  | _ => None
  end.

(** ** Expressions and statements *)

Section Run.
(** The overflow profile, the constants and functions of the crate the code refers to,
    the types these functions return, the integer types rustc infers for the variables that are declared without one, and
    how many rounds a [while] loop is followed. *)
Variable m : mode.
Variable consts : string -> option rv.
Variable funs : string -> list rv -> option answer.
Variable sigs : string -> option shape.
Variable hints : string -> option ity.
Variable rounds : nat.
(** The integer type the function returns, and what evaluates the conditions and bodies
    of loops and the rest of the block after a loop. *)
Variable ret : option ity.
Variable inner : option ity -> ex -> env -> (rv -> env -> out) -> out.

(** The field [x] of a tuple struct. *)
Definition proj (x : string) (l : list Z) : option Z :=
  match x with
  | String c EmptyString => nth_error l (Ascii.nat_of_ascii c - 48)
  | _ => None
  end.
Definition open_ty (w : option ity) (v : rv) : rv :=
  match v with VI None z => VI w z | VA None l => VA w l | _ => v end.
Definition type_of (v : rv) : option ity := match v with VI t _ => t | _ => None end.

(** The elements of an array expression. *)
Fixpoint elements (vs : list rv) (k : option ity -> list Z -> out) : out :=
  match vs with
  | [] => k None []
  | VI t z :: r => elements r (fun u zs => if agree t u then k (join t u) (z :: zs) else Stuck)
  | _ => Stuck
  end.

(** [w]: the integer type the context asks for. *)
Fixpoint ev (n : nat) (w : option ity) (e : ex) (s : env) (k : rv -> env -> out) {struct n} : out :=
  match n with
  | O => Fuel
  | S j =>
      match e with
      | XInt t z => k (VI (match int_ty t with Some u => Some u | None => w end) z) s
      | XPath p =>
          match lookup p s with
          | Some v => k (open_ty w v) s
          | None => match consts p with
                    | Some v => k v s
                    | None => if (p =? "None")%string then k (VO None) s else Stuck
                    end
          end
      | XCall f l =>
          evs j None l s (fun vs s1 =>
            match sigs f with
            | Some sh => called sh (funs f vs) (fun v => k v s1)
            | None => std_fun f vs (fun v => k v s1)
            end)
      | XMeth a x l =>
          if (x =? "copy_from_slice")%string then
            match a, l with
            | XIndex (XPath y) i, [b] =>
                match lookup y s with
                | Some (VA t d) =>
                    ev j None i s (fun iv s1 => ev j None b s1 (fun bv s2 =>
                      match bv with
                      | VA _ src =>
                          copy_into d iv src (fun d' =>
                            match assign y (VA t d') s2 with Some s3 => k VUnit s3 | None => Stuck end)
                      | _ => Stuck
                      end))
                | _ => Stuck
                end
            | _, _ => Stuck
            end
          else if (x =? "sum")%string then
            match a, w with
            | XMeth c f [XClo [y] b], Some _ =>
                if (f =? "map")%string then
                  ev j None c s (fun v s1 =>
                    match items v with
                    | Some vs =>
                        sum_loop (fun v acc k' => inner w b ((y, v) :: s1) (fun x _ => binary m OAdd acc x k'))
                          vs (VI w 0) (fun acc => k acc s1)
                    | None => Stuck
                    end)
                else Stuck
            | _, _ => Stuck
            end
          else
            ev j None a s (fun v s1 => evs j (type_of v) l s1 (fun vs s2 =>
              match v with
              | VSelf =>
                  let f := ("self." ++ x)%string in
                  match sigs f with Some sh => called sh (funs f vs) (fun v => k v s2) | None => Stuck end
              | VC c _ _ =>
                  let f := (c ++ "::" ++ x)%string in
                  match sigs f with
                  | Some sh => called sh (funs f (v :: vs)) (fun v => k v s2)
                  | None => method m x v vs (fun v => k v s2)
                  end
              | VP c _ =>
                  let f := (c ++ "::" ++ x)%string in
                  match sigs f with Some sh => called sh (funs f (v :: vs)) (fun v => k v s2) | None => Stuck end
              | _ => method m x v vs (fun v => k v s2)
              end))
      | XProj a x =>
          ev j None a s (fun v s1 =>
            match v with
            | VC _ t l => match proj x l with Some z => k (VI (Some t) z) s1 | None => Stuck end
            | VS l => match lookup x l with Some v => k v s1 | None => Stuck end
            | _ => Stuck
            end)
      | XIndex a i => ev j None a s (fun av s1 => ev j (Some Usize) i s1 (fun iv s2 => index av iv (fun v => k v s2)))
      | XRange a b =>
          let side (o : option ex) s (f : option (option ity * Z) -> env -> out) :=
            match o with
            | None => f None s
            | Some x => ev j (Some Usize) x s (fun v s1 => match v with VI t z => f (Some (t, z)) s1 | _ => Stuck end)
            end in
          side a s (fun lo s1 => side b s1 (fun hi s2 => k (VR lo hi) s2))
      | XUn URef a | XUn UDeref a => ev j w a s k
      | XUn UNot a =>
          ev j w a s (fun v s1 =>
            match v with
            | VI (Some t) z => k (VI (Some t) (not_u (width t) z)) s1
            | VB b => k (VB (negb b)) s1
            | _ => Stuck
            end)
      | XBin OLand a b =>
          ev j None a s (fun v s1 =>
            match v with VB c => if c then ev j None b s1 k else k (VB false) s1 | _ => Stuck end)
      | XBin OLor a b =>
          ev j None a s (fun v s1 =>
            match v with VB c => if c then k (VB true) s1 else ev j None b s1 k | _ => Stuck end)
      | XBin o a b =>
          let w' := if is_cmp o then None else w in
          ev j w' a s (fun x s1 =>
          ev j (if is_shift o then None else match type_of x with Some t => Some t | None => w' end) b s1 (fun y s2 =>
            binary m o x y (fun v => k v s2)))
      | XCast a t =>
          ev j None a s (fun v s1 =>
            match v, int_ty t with
            | VI _ z, Some u => k (VI (Some u) (cast_u (width u) z)) s1
            | _, _ => Stuck
            end)
      | XTup l => evs j None l s (fun vs s1 => k (match vs with [] => VUnit | _ => VT vs end) s1)
      | XArr l => evs j w l s (fun vs s1 => elements vs (fun t zs => k (VA t zs) s1))
      | XRep a b =>
          ev j w a s (fun v s1 => ev j (Some Usize) b s1 (fun c s2 =>
            match v, c with
            | VI t z, VI _ i => k (VA t (repeat z (Z.to_nat i))) s2
            | _, _ => Stuck
            end))
      | XClo x b => k (VF x b) s
      | XIf c a b =>
          ev j None c s (fun v s1 =>
            match v with
            | VB c' => if c' then ev j w a s1 k
                       else match b with Some b' => ev j w b' s1 k | None => k VUnit s1 end
            | _ => Stuck
            end)
      | XMatch a arms =>
          ev j None a s (fun v s1 =>
            (fix go (arms : list (pat * option ex * ex)) : out :=
               match arms with
               | [] => Stuck
               | (p, g, b) :: r =>
                   matches 10 consts p v
                     (fun bs =>
                        match g with
                        | None => ev j w b (bs ++ s1)%list (fun v s2 => k v (leave s1 s2))
                        | Some c =>
                            ev j None c (bs ++ s1)%list (fun cv s2 =>
                              match cv with
                              | VB c' => if c' then ev j w b s2 (fun v s3 => k v (leave s1 s3)) else go r
                              | _ => Stuck
                              end)
                        end)
                     (go r)
               end) arms)
      | XBlock l t => evb j w l t s (fun v s1 => k v (leave s s1))
      | XMac x => if (x =? "unimplemented")%string then Pan EUnimpl else Stuck
      | XRet None => Done VUnit
      | XRet (Some a) => ev j ret a s (fun v _ => Done v)
      end
  end
with evs (n : nat) (w : option ity) (l : list ex) (s : env) (k : list rv -> env -> out) {struct n} : out :=
  match n with
  | O => Fuel
  | S j =>
      match l with
      | [] => k [] s
      | e :: r => ev j w e s (fun v s1 => evs j w r s1 (fun vs s2 => k (v :: vs) s2))
      end
  end
with evb (n : nat) (w : option ity) (l : list st) (t : option ex) (s : env) (k : rv -> env -> out) {struct n} : out :=
  match n with
  | O => Fuel
  | S j =>
      match l with
      | [] => match t with Some e => ev j w e s k | None => k VUnit s end
      | SLet p ty e :: r =>
          let w' := match ty with
                    | Some u => int_ty u
                    | None => match p with PVar x => hints x | _ => None end
                    end in
          ev j w' e s (fun v s1 => matches 10 consts p v (fun bs => evb j w r t (bs ++ s1)%list k) Stuck)
      | SSet o (XPath x) e :: r =>
          match lookup x s with
          | None => Stuck
          | Some old =>
              let put v s1 := match assign x v s1 with Some s2 => evb j w r t s2 k | None => Stuck end in
              ev j (type_of old) e s (fun v s1 =>
                match o with None => put v s1 | Some op => binary m op old v (fun v' => put v' s1) end)
          end
      | SSet _ _ _ :: _ => Stuck
      | SExp e :: r => ev j None e s (fun _ s1 => evb j w r t s1 k)
      | SFor p e b :: r =>
          ev j None e s (fun v s1 =>
            match items v with
            | None => Stuck
            | Some vs =>
                for_loop
                  (fun v s2 k' =>
                     matches 10 consts p v (fun bs => inner None b (bs ++ s2)%list (fun _ s3 => k' (leave_loop s2 s3))) Stuck)
                  vs s1 (fun s2 => inner w (XBlock r t) s2 k)
            end)
      | SWhile c b :: r =>
          while_loop
            (fun s1 k' => inner None c s1 (fun v s2 => match v with VB b => k' b s2 | _ => Stuck end))
            (fun s1 k' => inner None b s1 (fun _ s2 => k' (leave_loop s1 s2)))
            rounds s (fun s1 => inner w (XBlock r t) s1 k)
      end
  end.

End Run.

(** ** Functions *)

(** A value passed for a parameter of the type a signature names; the type of a literal
    is taken from the signature. *)
Definition strip_ref (t : string) : string := match t with String "&" r => r | _ => t end.
Definition coerce (t : string) (v : rv) : option rv :=
  let t := strip_ref t in
  match v with
  | VI u z =>
      match u, int_ty t with
      | Some a, Some b => if ity_eqb a b then Some v else None
      | None, Some b => Some (VI (Some b) z)
      | Some _, None => if String.eqb t "Self" then Some v else None
      | None, None => None
      end
  | VB _ => if String.eqb t "bool" then Some v else None
  | VA None l => if String.prefix "[u8" t then Some (VA (Some U8) l) else None
  | VA (Some U8) _ => if String.prefix "[u8" t then Some v else None
  | VC c _ _ => if String.eqb c t then Some v else if String.eqb t "Self" then Some v else None
  | VSelf => if String.eqb t "Self" then Some v else None
  | _ => None
  end.
Fixpoint bind_params (ps : list (string * string)) (vs : list rv) : option env :=
  match ps, vs with
  | [], [] => Some []
  | (x, t) :: pr, v :: vr =>
      match coerce t v, bind_params pr vr with
      | Some w, Some s => Some ((x, w) :: s)
      | _, _ => None
      end
  | _, _ => None
  end.
(** Nesting of the texts read here is nowhere near this deep. *)
Definition run_depth : nat := 60.
(** At most [l] loops, nested or one after the other. *)
Fixpoint level (m : mode) (consts : string -> option rv) (funs : string -> list rv -> option answer)
    (sigs : string -> option shape) (hints : string -> option ity) (rounds : nat) (ret : option ity) (l : nat)
    (w : option ity) (e : ex) (s : env) (k : rv -> env -> out) : out :=
  match l with
  | O => Fuel
  | S l' => ev m consts funs sigs hints rounds ret (level m consts funs sigs hints rounds ret l') run_depth w e s k
  end.
Definition run_fn (m : mode) (consts : string -> option rv) (funs : string -> list rv -> option answer)
    (sigs : string -> option shape) (hints : string -> option ity) (rounds : nat) (f : fn) (args : list rv) : out :=
  match bind_params (fn_params f) args with
  | None => Stuck
  | Some s =>
      let t := int_ty (fn_ret f) in
      level m consts funs sigs hints rounds t 5 t (fn_body f) s (fun v _ => Done v)
  end.

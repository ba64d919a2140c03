(** What the derive macro accepts, declaratively. *)
From Coq Require Import String Ascii ZArith List Bool.
From Verif Require Import Base DeriveUtil DeriveParse.
Import ListNotations.
Open Scope Z_scope.

(** A string of decimal digits and its value. *)
Inductive decimal : string -> Z -> Prop :=
| decimal_one : forall c d, String.get d "0123456789" = Some c -> decimal (String c "") (Z.of_nat d)
| decimal_more : forall s v c d, decimal s v -> String.get d "0123456789" = Some c ->
    decimal (s ++ String c "") (10 * v + Z.of_nat d).

(** Suffix of an integer type: byte order, and whether it is given at all. *)
Definition suffix_of (t : string) (e : endian) (given : bool) : Prop :=
  (t = ""%string /\ e = Big /\ given = false) \/ (t = "be"%string /\ e = Big /\ given = true) \/
  (t = "le"%string /\ e = Little /\ given = true) \/ (t = "he"%string /\ e = Host /\ given = true).

(** [s] names an integer type of [n] bits. *)
Definition int_name (s : string) (n : Z) (e : endian) (given : bool) : Prop :=
  exists d t, s = ("u" ++ d ++ t)%string /\ decimal d n /\ n < 2 ^ 64 /\ suffix_of t e given.

Definition starts (p s : string) : Prop := exists r, s = (p ++ r)%string.

(** [strict]: the byte order must be given for more than eight bits. *)
Inductive reads (strict : bool) : string -> rtype -> Prop :=
| reads_int : forall s n e g, int_name s n e g -> strict = false \/ n <= 8 \/ g = true ->
    reads strict s (RPrimitive s n e)
| reads_vec : forall s c t, reads strict s t -> reads strict ("Vec<" ++ s ++ String c "") (RVector t)
| reads_misc : forall s, (~ exists n e g, int_name s n e g) -> ~ starts "Vec<" s -> ~ starts "&" s ->
    reads strict s (RMisc s).

(** [core] is what remains of [s] after taking off some layers of [Vec<_>]. *)
Inductive wraps : string -> string -> Prop :=
| wraps_core : forall s, wraps s s
| wraps_vec : forall s c core, wraps s core -> wraps ("Vec<" ++ s ++ String c "") core.

(** Length expressions: only integer literals; names of other fields become
    getter calls. *)
Fixpoint ints_only (t : ttree) : Prop :=
  match t with
  | TLit is_int _ => is_int = true
  | TGroup _ l => fold_right (fun x P => ints_only x /\ P) True l
  | _ => True
  end.
Fixpoint with_getters (names : list string) (t : ttree) : list ttree :=
  match t with
  | TIdent n =>
      if in_dec string_dec n names then [TIdent "self"; TPunct "."; TIdent ("get_" ++ n); TGroup "()" []] else [t]
  | TGroup d l => [TGroup d (flat_map (with_getters names) l)]
  | _ => [t]
  end.

(** What the attributes of a field say. *)
Definition payload_mark (a : attr) : bool :=
  match a with AttrPath (Some id) => (id =? "payload")%string | _ => false end.
Definition length_given (a : attr) : option (list ttree) :=
  match a with
  | AttrNameValue (Some id) (LitStr (Some e)) => if (id =? "length")%string then Some e else None
  | _ => None
  end.
Definition construct_items (a : attr) : list nested :=
  match a with AttrList (Some id) l => if (id =? "construct_with")%string then l else [] | _ => [] end.
Definition item_reads (i : nested) (t : rtype) : Prop :=
  match i with NMeta s => reads false s t | NLit => False end.

(** The last length attribute counts. *)
Definition length_of (l : list attr) : option (list ttree) :=
  fold_left (fun acc a => match length_given a with Some e => Some e | None => acc end) l None.

(** A single attribute is acceptable. *)
Definition attr_ok (a : attr) : Prop :=
  match a with
  | AttrBad => False
  | AttrPath _ => True
  | AttrNameValue None _ => True
  | AttrNameValue (Some id) l => id = "length"%string /\ exists e, l = LitStr (Some e) /\ Forall ints_only e
  | AttrList None _ => False
  | AttrList (Some id) l => id = "construct_with"%string /\ l <> [] /\ exists ts, Forall2 item_reads l ts
  end.

(** The names of the fields other than [me]. *)
Definition others (all : list sfield) (me : string) : list string :=
  filter (fun n => negb (n =? me)%string) (flat_map (fun f => match sf_name f with Some n => [n] | None => [] end) all).

Definition is_vec (t : rtype) : bool := match t with RVector _ => true | _ => false end.

(** A field is acceptable and is described by [p]. *)
Definition field_ok (all : list sfield) (last : bool) (f : sfield) (p : pfield) : Prop :=
  sf_name f = Some (pf_name p) /\
  Forall attr_ok (sf_attrs f) /\
  pf_payload p = existsb payload_mark (sf_attrs f) /\
  pf_len p = option_map (flat_map (with_getters (others all (pf_name p)))) (length_of (sf_attrs f)) /\
  Forall2 item_reads (flat_map construct_items (sf_attrs f)) (pf_cons p) /\
  reads true (sf_ty f) (pf_ty p) /\
  pf_struct_len p = is_vec (pf_ty p) /\
  (is_vec (pf_ty p) = true -> last = false -> pf_len p <> None) /\
  ((exists n, pf_ty p = RMisc n) -> pf_cons p <> []).

(** A struct is acceptable and is described by [ps]. *)
Definition struct_ok (l : list sfield) (ps : list pfield) : Prop :=
  length ps = length l /\
  (forall i f, nth_error l i = Some f -> exists p, nth_error ps i = Some p /\
     field_ok l (i =? length l - 1)%nat f p) /\
  (length (filter payload_mark (flat_map sf_attrs l)) <= 1)%nat.

(** An integer of [n] bits at bit [pos] can be generated; a macro built without
    overflow checks accepts every position. *)
Definition int_ok (m : mode) (pos n : Z) : Prop :=
  1 <= n <= 64 /\ (m = Checked -> pos mod 8 + n mod 8 <= 8).

(** Code can be generated for the fields from bit [pos] on, ending at [e]. *)
Fixpoint args_ok (m : mode) (pos : Z) (l : list rtype) (e : Z) : Prop :=
  match l with
  | [] => pos = e
  | RPrimitive _ n _ :: r => int_ok m pos n /\ args_ok m (pos + n) r e
  | _ => False
  end.
Definition gen_ok1 (m : mode) (pos : Z) (p : pfield) (e : Z) : Prop :=
  match pf_ty p with
  | RPrimitive _ n _ => int_ok m pos n /\ pos + n = e
  | RVector (RPrimitive _ n _) => n mod 8 = 0 /\ 1 <= n <= 64 /\ pos = e
  | RVector (RVector _) => False
  | RVector (RMisc _) => pos = e
  | RMisc _ => args_ok m pos (pf_cons p) e
  end.
Fixpoint gen_ok (m : mode) (pos : Z) (l : list pfield) (e : Z) : Prop :=
  match l with
  | [] => pos = e
  | p :: r => exists q, gen_ok1 m pos p q /\ gen_ok m q r e
  end.

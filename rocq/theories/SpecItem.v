(** When a packet description of the model is what a struct declaration says. *)
From Coq Require Import String Ascii ZArith List Bool.
From Verif Require Import Base DeriveUtil DeriveOps DeriveGen DeriveParse Protocols Quic FmtText
  RustLex RustSyntax RustItem RustSem CrateText SpecSource.
Import ListNotations.
Open Scope string_scope.
Open Scope Z_scope.

(** ** Length attributes *)

(** derive/src/gen.rs:104-108: [r#field_offset] stands for a reference to the rest of the
    packet, written here as a call of [rest]. *)
Fixpoint with_rest (t : ttree) : list ttree :=
  match t with
  | TIdent x => if String.eqb x "r#field_offset" then [TPunct "&"; TIdent "rest"; TGroup "()" []] else [t]
  | TGroup d l =>
      [TGroup d ((fix go (l : list ttree) : list ttree :=
                    match l with [] => [] | x :: r => (with_rest x ++ go r)%list end) l)]
  | _ => [t]
  end.

(** The integer type that holds the single number of a constructed field. *)
Definition first_ty (l : list rtype) : option ity :=
  match l with RPrimitive n _ _ :: _ => int_ty n | _ => None end.
(** The type of the getter of a field. *)
Definition getter_sig (p : pfield) : option RustSem.shape :=
  match pf_ty p with
  | RPrimitive n _ _ => match int_ty n with Some t => Some (SInt t) | None => None end
  | RVector (RPrimitive n _ _) => if String.eqb n "u8" then Some SBytes else None
  | RMisc n => match first_ty (pf_cons p) with Some t => Some (SObj n t) | None => None end
  | RVector _ => None
  end.
(** What the getter of a field gives, when it gives [v]. *)
Definition getter_answer (p : pfield) (v : res val) : option answer :=
  match getter_sig p with
  | Some (SInt t) => Some (AInt t (x <- v ;; match x with VInt z => Ok z | _ => Panic EUnimpl end))
  | Some SBytes => Some (ABytes (x <- v ;; match x with VBytes l => Ok l | _ => Panic EUnimpl end))
  | Some (SObj n t) => Some (AObj n t (x <- v ;; match x with VTup l => Ok l | _ => Panic EUnimpl end))
  | _ => None
  end.
Definition getter_of (ps : list pfield) (f : string) : option pfield :=
  find (fun p => String.eqb f ("self.get_" ++ pf_name p)) ps.

(** The functions a length attribute can call: the getters, [rest], and those of the
    module, run from their texts. *)
Definition len_sig (mod_ : string) (ps : list pfield) (f : string) : option RustSem.shape :=
  match getter_of ps f with
  | Some p => getter_sig p
  | None => if String.eqb f "rest" then Some SBytes else crate_sig mod_ f
  end.
Definition len_fun (c : cfg) (rounds : nat) (mod_ : string) (ps : list pfield) (e : DeriveGen.env) (r : res buf)
    (f : string) (args : list rv) : option answer :=
  match getter_of ps f with
  | Some p => match args with [] => getter_answer p (e (pf_name p)) | _ => None end
  | None => if String.eqb f "rest" then match args with [] => Some (ABytes r) | _ => None end
            else linked c rounds call_depth mod_ f args
  end.
(** derive/src/parse.rs:111-113: the value of [(tokens) as usize]. *)
Definition run_length (c : cfg) (rounds : nat) (mod_ : string) (ps : list pfield) (tokens : list ttree)
    (e : DeriveGen.env) (r : res buf) : out :=
  match read_expr (flat_map with_rest tokens) with
  | Some x =>
      level (c_mode c) crate_const (len_fun c rounds mod_ ps e r) (len_sig mod_ ps) crate_hint rounds (Some Usize) 5
        None (XCast x "usize") [("self", VSelf)] (fun v _ => Done v)
  | None => Stuck
  end.

(** The values getters can give, and the rest of a packet. *)
Definition val_fits (t : fty) (v : val) : Prop :=
  match t, v with
  | TPrim p, VInt z => 0 <= z < 2 ^ p_size p
  | TMisc l, VTup zs => Forall2 (fun p z => 0 <= z < 2 ^ p_size p) l zs
  | TVecPrim _, VBytes l => buf_ok l
  | TVecPkt _, VPkts _ => True
  | _, _ => False
  end.
Definition env_fits (fs : schema) (e : DeriveGen.env) : Prop :=
  forall f v, In f fs -> e (f_name f) = Ok v -> val_fits (f_ty f) v.
Definition rest_fits (r : res buf) : Prop := forall b, r = Ok b -> buf_ok b.

Definition same_length (c : cfg) (mod_ : string) (ps : list pfield) (fs : schema) (t : option (list ttree)) (le : option lenexpr) : Prop :=
  match t, le with
  | None, None => True
  | Some tokens, Some le => forall e r rounds, env_fits fs e -> rest_fits r ->
      run_length c rounds mod_ ps tokens e r = lift (le e r) (fun z => Done (RustSem.VI (Some Usize) z))
  | _, _ => False
  end.

(** ** Types *)

Definition same_prim (t : rtype) (q : prim) : Prop := exists n, t = RPrimitive n (p_size q) (p_end q).
Definition same_type (c : cfg) (struct field : string) (t : rtype) (cons : list rtype) (u : fty) : Prop :=
  match u with
  | TPrim q => same_prim t q
  | TVecPrim q => exists x, t = RVector x /\ same_prim x q
  | TMisc l => t = RMisc (field_type struct field) /\ Forall2 same_prim cons l
  | TVecPkt k => exists fs, t = RVector (RMisc (field_type struct field)) /\ In (field_type struct field, fs) (all_packets c) /\
                   k = sem_of c fs
  end.

(** ** Structs *)

Definition same_field (c : cfg) (mod_ struct : string) (ps : list pfield) (fs : schema) (p : pfield) (f : field) : Prop :=
  pf_name p = f_name f /\ pf_payload p = f_payload f /\
  same_type c struct (pf_name p) (pf_ty p) (pf_cons p) (f_ty f) /\
  same_length c mod_ ps fs (pf_len p) (f_len f).
Definition header_bits (fs : schema) : Z := fold_right (fun f a => fixed_bits (f_ty f) + a) 0 fs.
(** The declaration is accepted by the macro and says what the description says. *)
Definition declares (c : cfg) (mod_ name text : string) (fs : schema) : Prop :=
  exists sf ps, read_struct text = Some (name, sf) /\ parse_packet sf = Ok (inl ps) /\
    Forall2 (same_field c mod_ name ps fs) ps fs /\
    derive_packet (c_macro c) (c_host_le c) sf = Ok (inl (header_bits fs)).

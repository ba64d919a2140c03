(** What the code emitted for a packet description does when it is run from its text: the
    context the emitted methods are run in, and when a run shows what the model says. *)
From Coq Require Import String Ascii ZArith List Bool.
From Verif Require Import Base DeriveUtil DeriveOps DeriveGen DeriveParse Protocols Quic FmtText
  RustLex RustSyntax RustItem RustSem RustMethod RustExec CrateText SpecSource SpecItem EmitText GenText EmitGen.
Import ListNotations.
Open Scope string_scope.
Open Scope Z_scope.

(** The variables the emitted code initialises with a plain literal are indices. *)
Definition emit_hint (x : string) : option ity := if existsb (String.eqb x) ["co"; "start"] then Some Usize else None.

(** ** The functions declared inside a method (get_arg0, set_arg0, ...) *)

Definition find_item (items : list fn) (f : string) : option fn := find (fun it => String.eqb (fn_name it) f) items.
Definition no_sig (f : string) : option RustSem.shape := None.
Definition no_fun (f : string) (args : list rv) : option answer := None.
Definition no_act (f : string) : option (list rv -> buf -> option (buf * res unit)) := None.
(** They take the packet under the name their first parameter has. *)
Definition item_place (it : fn) : string := match fn_params it with (x, _) :: _ => (x ++ ".packet")%string | [] => "" end.
Definition run_item (m : mode) (it : fn) (args : list rv) (b : buf) : ran :=
  match bind_args (fn_params it) args with
  | Some s =>
      let x := item_place it in
      let t := int_ty (fn_ret it) in
      finished x (exec m crate_const no_sig emit_hint x (fun _ => no_fun) no_act t t (fn_body it) (s ++ [(x, VA (Some U8) b)])%list)
  | None => Unknown
  end.
Definition item_answer (m : mode) (it : fn) (args : list rv) (b : buf) : option answer :=
  match int_ty (fn_ret it), run_item m it args b with
  | Some t, Returned (RustSem.VI (Some u) z) _ => if ity_eqb t u then Some (AInt t (Ok z)) else None
  | Some t, Panicked e _ => Some (AInt t (Panic e))
  | _, _ => None
  end.
Definition item_act (m : mode) (it : fn) (args : list rv) (b : buf) : option (buf * res unit) :=
  match run_item m it args b with
  | Returned _ b' => Some (b', Ok Datatypes.tt)
  | Panicked e b' => Some (b', Panic e)
  | Unknown => None
  end.

(** ** What else the methods refer to *)

(** [T::new] and [to_primitive_values] of a constructed type; the value is given by the
    arguments (see DeriveGen.v). *)
Definition misc_type (suffix : string) (ps : list pfield) (f : string) : option string :=
  match find (fun p => match pf_ty p with RMisc t => String.eqb f (t ++ suffix) | _ => false end) ps with
  | Some p => match pf_ty p with RMisc t => Some t | _ => None end
  | None => None
  end.
Fixpoint ints_of (t : ity) (l : list rv) : option (list Z) :=
  match l with
  | [] => Some []
  | RustSem.VI (Some u) z :: r =>
      if ity_eqb t u then match ints_of t r with Some zs => Some (z :: zs) | None => None end else None
  | _ :: _ => None
  end.
Definition construct (t : string) (args : list rv) : option answer :=
  match args with
  | RustSem.VI (Some u) _ :: _ => match ints_of u args with Some l => Some (AVal (Ok (VC t u l))) | None => None end
  | _ => None
  end.
(** [PacketData::Borrowed(b)] and the like, [T { packet: .. }], [TIterable { buf: .. }]:
    the bytes (core/src/packet.rs; see CorePacket.v). *)
Definition data_kinds : list string :=
  ["PacketData::Borrowed"; "PacketData::Owned"; "MutPacketData::Borrowed"; "MutPacketData::Owned"].
Definition iter_type (ps : list pfield) (f : string) : option string :=
  match find (fun p => match pf_ty p with RVector (RMisc t) => String.eqb f (t ++ "Iterable{buf}") | _ => false end) ps with
  | Some p => match pf_ty p with RVector (RMisc t) => Some (t ++ "Iterable")%string | _ => None end
  | None => None
  end.

(** ** Packets inside a packet (gen.rs:252-288): the methods of the type of the elements *)

(** The type of the elements of a field that is a list of packets, and its description. *)
Definition pkt_type (p : pfield) : option string := match pf_ty p with RVector (RMisc t) => Some t | _ => None end.
Definition schema_of (c : cfg) (t : string) : schema :=
  match find (fun x => String.eqb (fst x) t) (all_packets c) with Some (_, fs) => fs | None => [] end.
(** What a name refers to: the rest of the buffer from an offset on ([&mut self.packet[co..]],
    RustMethod.v), the immutable twin of the type, the packet struct; for a type of elements
    [t], the methods of its packet types and of its iterator; for a field [n], the
    iterator over it and its getter. *)
Inductive inner :=
| IFrom | IImm | IMake
| INew (t : string) | ISize (t : string) | IItem (t : string) | INext (t : string)
| IIter (n t : string) | IGet (n t : string).
Definition inner_field (f : string) (p : pfield) : option inner :=
  match pkt_type p with
  | None => None
  | Some t =>
      if String.eqb f (type_name t true ++ "::new") then Some (INew t)
      else if String.eqb f (type_name t true ++ "::packet_size") then Some (ISize t)
      else if String.eqb f (type_name t false ++ "::from_packet") then Some (IItem t)
      else if String.eqb f (t ++ "Iterable::next") then Some (INext t)
      else if String.eqb f ("self.get_" ++ pf_name p ++ "_iter") then Some (IIter (pf_name p) t)
      else if String.eqb f ("self.get_" ++ pf_name p) then Some (IGet (pf_name p) t)
      else None
  end.
Fixpoint first_of {A B} (f : A -> option B) (l : list A) : option B :=
  match l with [] => None | x :: r => match f x with Some y => Some y | None => first_of f r end end.
Definition struct_lit (base : string) (ps : list pfield) : string := base ++ "{" ++ String.concat "," (map pf_name ps) ++ "}".
Definition inner_of (base : string) (ps : list pfield) (f : string) : option inner :=
  if String.eqb f "self.packet.from" then Some IFrom
  else if String.eqb f (type_name base false ++ "{packet}") then Some IImm
  else if String.eqb f (struct_lit base ps) then Some IMake
  else first_of (inner_field f) ps.
Definition inner_sig (i : inner) : RustSem.shape := match i with ISize _ => SInt Usize | _ => SVal end.
(** A mutable packet over the rest of the buffer is given by where it starts. *)
Definition rest_at (t : string) (co : Z) : rv := VC t Usize [co].
Definition packets_rv (v : val) : res rv := match v with VPkts l => Ok (VL (map VX l)) | _ => Panic EUnimpl end.
(** What [next] of an iterator gives: the item and what the iterator is left with. *)
Definition next_rv (t : string) (o : option (buf * buf)) : rv :=
  VO (match o with Some (item, rest) => Some (VT [VP (type_name t false) item; VP (t ++ "Iterable") rest]) | None => None end).
Definition inner_fun (c : cfg) (base : string) (ps : list pfield) (fs : schema) (b : buf) (i : inner) (args : list rv) : option answer :=
  match i, args with
  | IFrom, [RustSem.VI _ co] => Some (AVal (_ <- slice_from b co ;; Ok (rest_at "&mut [u8]" co)))
  | IImm, [VA _ l] => Some (AVal (Ok (VP (type_name base false) l)))
  | IMake, _ => if Nat.eqb (List.length args) (List.length ps) then Some (AVal (Ok (VS (combine (map pf_name ps) args)))) else None
  | INew t, [VC _ _ [co]] =>
      Some (AVal (Ok (VO (match new (schema_of c t) (skipn (Z.to_nat co) b) with
                          | Some _ => Some (rest_at (type_name t true) co)
                          | None => None
                          end))))
  | ISize t, [VC _ _ [co]] => Some (AInt Usize (packet_size c (schema_of c t) (skipn (Z.to_nat co) b)))
  | IItem t, [VP _ l] => Some (AVal (x <- from_packet c (schema_of c t) l ;; Ok (VX x)))
  | INext t, [VP _ l] => Some (AVal (o <- iter_next (sem_of c (schema_of c t)) l ;; Ok (next_rv t o)))
  | IIter n t, [] => Some (AVal (l <- get_iter c fs n b ;; Ok (VP (t ++ "Iterable") l)))
  | IGet n _, [] => Some (AVal (v <- get c fs n b ;; packets_rv v))
  | _, _ => None
  end.
(** [populate] of an element changes the rest of the buffer. *)
Definition inner_act (ps : list pfield) (f : string) : option string :=
  first_of (fun p => match pkt_type p with
                     | Some t => if String.eqb f (type_name t true ++ "::populate") then Some t else None
                     | None => None
                     end) ps.

Definition extra_sig (base : string) (mutable : bool) (ps : list pfield) (items : list fn) (f : string) : option RustSem.shape :=
  let t := type_name base mutable in
  match find_item items f with
  | Some it => match int_ty (fn_ret it) with Some u => Some (SInt u) | None => None end
  | None =>
      if String.eqb f (t ++ "::minimum_packet_size") then Some (SInt Usize)
      else if String.eqb f (t ++ "{packet}") then Some SVal
      else if existsb (String.eqb f) data_kinds then Some SBytes
      else match misc_type "::new" ps f, misc_type "::to_primitive_values" ps f, iter_type ps f with
           | None, None, None => option_map inner_sig (inner_of base ps f)
           | _, _, _ => Some SVal
           end
  end.
(** What a length attribute can call comes first (no name means two things). *)
Definition emit_sig (mod_ base : string) (mutable : bool) (ps : list pfield) (items : list fn) (f : string) : option RustSem.shape :=
  match len_sig mod_ ps f with
  | Some sh => Some sh
  | None => extra_sig base mutable ps items f
  end.
Definition extra_fun (c : cfg) (base : string) (mutable : bool) (ps : list pfield) (fs : schema) (items : list fn)
    (b : buf) (f : string) (args : list rv) : option answer :=
  let t := type_name base mutable in
  match find_item items f with
  | Some it => item_answer (c_mode c) it args b
  | None =>
      if String.eqb f (t ++ "::minimum_packet_size")
      then match args with [] => Some (AInt Usize (Ok (minimum_packet_size fs))) | _ => None end
      else if String.eqb f (t ++ "{packet}") then match args with [VA _ l] => Some (AVal (Ok (VP t l))) | _ => None end
      else if existsb (String.eqb f) data_kinds then match args with [VA _ l] => Some (ABytes (Ok l)) | _ => None end
      else match misc_type "::new" ps f, misc_type "::to_primitive_values" ps f, iter_type ps f with
           | Some u, _, _ => construct u args
           | None, Some _, _ => match args with [VC _ u l] => Some (AVal (Ok (VC "tuple" u l))) | _ => None end
           | None, None, Some u => match args with [VA _ l] => Some (AVal (Ok (VP u l))) | _ => None end
           | None, None, None => match inner_of base ps f with Some i => inner_fun c base ps fs b i args | None => None end
           end
  end.
(** Getters of the same packet give what the model says (DeriveGen.v). *)
Definition emit_fun (c : cfg) (rounds : nat) (mod_ base : string) (mutable : bool) (ps : list pfield) (fs : schema) (items : list fn)
    (b : buf) (f : string) (args : list rv) : option answer :=
  match len_sig mod_ ps f with
  | Some _ => len_fun c rounds mod_ ps (fun n => get c fs n b) (Panic EUnimpl) f args
  | None => extra_fun c base mutable ps fs items b f args
  end.

(** A value passed to a setter, and a field of a packet struct. *)
Definition plain_val (v : rv) : option val :=
  match v with
  | RustSem.VI _ z => Some (VInt z)
  | VC _ _ l => Some (VTup l)
  | VA _ l => Some (VBytes l)
  | VL l =>
      match (fix go (l : list rv) := match l with
             | [] => Some []
             | VX x :: r => match go r with Some xs => Some (x :: xs) | None => None end
             | _ :: _ => None
             end) l with
      | Some xs => Some (VPkts xs)
      | None => None
      end
  | _ => None
  end.
Definition setter_of (ps : list pfield) (f : string) : option pfield :=
  find (fun p => String.eqb f ("self.set_" ++ pf_name p)) ps.
(** Setters of the same packet do what the model says. *)
Definition emit_act (c : cfg) (ps : list pfield) (fs : schema) (items : list fn) (f : string)
    : option (list rv -> buf -> option (buf * res unit)) :=
  match find_item items f with
  | Some it => match int_ty (fn_ret it) with None => Some (item_act (c_mode c) it) | Some _ => None end
  | None =>
      match setter_of ps f with
      | Some p => Some (fun args b => match args with
                                      | [v] => match plain_val v with Some x => Some (set c fs (pf_name p) x b) | None => None end
                                      | _ => None
                                      end)
      | None => match inner_act ps f with
                | Some t => Some (fun args b => match args with
                                                | [VC _ _ [co]; VX x] => Some (on_tail (Z.to_nat co) (populate c (schema_of c t) x) b)
                                                | _ => None
                                                end)
                | None => None
                end
      end
  end.

(** ** Running a method *)

(** A method called with [args] (the receiver among them, if it takes one) on a packet
    with the bytes [b]. *)
Definition run_meth (c : cfg) (rounds : nat) (mod_ base : string) (mutable : bool) (ps : list pfield) (fs : schema)
    (me : meth) (args : list rv) (b : buf) : ran :=
  match bind_args (fn_params (m_fn me)) args with
  | Some s =>
      let t := int_ty (fn_ret (m_fn me)) in
      finished "self.packet"
        (exec (c_mode c) crate_const (emit_sig mod_ base mutable ps (m_items me)) emit_hint "self.packet"
           (emit_fun c rounds mod_ base mutable ps fs (m_items me)) (emit_act c ps fs (m_items me)) t t
           (fn_body (m_fn me)) (s ++ [("self.packet", VA (Some U8) b)])%list)
  | None => Unknown
  end.

(** The methods of the emitted [impl] blocks. *)
Definition one_impl (l : option (list ttree)) : option (list meth) :=
  match l with
  | Some l => match read_impls l with Some [ms] => Some ms | _ => None end
  | None => None
  end.
Definition impl_of (c : cfg) (mutable : bool) (base : string) (ps : list pfield) : option (list meth) :=
  one_impl (emit_impl (c_macro c) (c_host_le c) mutable base ps).

(** ** Results *)

(** How the value of a field appears. *)
Definition shows (p : pfield) (v : val) (r : rv) : Prop :=
  match pf_ty p, v with
  | RPrimitive n _ _, VInt z => r = RustSem.VI (int_ty n) z
  | RMisc n, VTup l => exists t, first_ty (pf_cons p) = Some t /\ r = VC n t l
  | RVector (RPrimitive n _ _), VBytes l => exists k t, r = VV k t l /\ (t = int_ty n \/ l = [])
  | RVector (RMisc _), VPkts l => r = VL (map VX l)
  | _, _ => False
  end.
(** The value of a field as it is passed: to a setter, or inside a packet struct. *)
Definition field_rv (p : pfield) (v : val) : option rv :=
  match pf_ty p, v with
  | RPrimitive n _ _, VInt z => Some (RustSem.VI (int_ty n) z)
  | RMisc n, VTup l =>
      if Nat.eqb (List.length l) (List.length (pf_cons p))
      then match first_ty (pf_cons p) with Some t => Some (VC n t l) | None => None end else None
  | RVector (RPrimitive n _ _), VBytes l => Some (VA (int_ty n) l)
  | RVector (RMisc _), VPkts l => Some (VL (map VX l))
  | _, _ => None
  end.
Fixpoint struct_fields_rv (ps : list pfield) (vs : list val) : option RustSem.env :=
  match ps, vs with
  | [], [] => Some []
  | p :: pr, v :: vr =>
      match field_rv p v, struct_fields_rv pr vr with Some r, Some s => Some ((pf_name p, r) :: s) | _, _ => None end
  | _, _ => None
  end.
Definition struct_rv (ps : list pfield) (vs : list val) : option rv := option_map VS (struct_fields_rv ps vs).
Definition shows_bytes (l : list Z) (r : rv) : Prop := exists t, r = VA t l /\ (t = Some U8 \/ l = []).
(** A call that leaves the packet alone. *)
Definition reads (o : ran) (b : buf) {A} (x : res A) (ok : A -> rv -> Prop) : Prop :=
  match x with
  | Ok a => exists v, o = Returned v b /\ ok a v
  | Panic e => o = Panicked e b
  end.
(** A call that changes the packet as the model says, whether it returns or panics. *)
Definition writes (o : ran) (r : buf * res unit) : Prop :=
  o = match snd r with Ok _ => Returned VUnit (fst r) | Panic e => Panicked e (fst r) end.
Definition is_pkts (p : pfield) : bool := match pf_ty p with RVector (RMisc _) => true | _ => false end.
Definition is_vec (p : pfield) : bool := match pf_ty p with RVector _ => true | _ => false end.

(** ** Which methods *)

(** The parsed declaration of a struct of the crate. *)
Definition parsed (mod_ name : string) (ps : list pfield) : Prop :=
  exists text sf, In (mod_, name, text) crate_structs /\ read_struct text = Some (name, sf) /\ parse_packet sf = Ok (inl ps).
Definition method_of (c : cfg) (mutable : bool) (base : string) (ps : list pfield) (n : string) : option meth :=
  match impl_of c mutable base ps with Some ms => find_meth n ms | None => None end.
Definition trait_methods (l : option (list ttree)) : list meth :=
  match l with
  | Some l => match read_impls l with Some il => concat il | None => [] end
  | None => []
  end.
(** What [new] and [owned] return, a usize. *)
Definition made (base : string) (mutable : bool) (o : option buf) : rv :=
  VO (match o with Some l => Some (VP (type_name base mutable) l) | None => None end).
Definition shows_usize (z : Z) (r : rv) : Prop := r = RustSem.VI (Some Usize) z.
Definition shows_iter (p : pfield) (l : buf) (r : rv) : Prop :=
  match pf_ty p with RVector (RMisc t) => r = VP (t ++ "Iterable") l | _ => False end.

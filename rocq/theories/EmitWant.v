(** The syntax trees of the emitted methods, built from the parsed struct. *)
From Coq Require Import String Ascii ZArith List Bool.
From Verif Require Import Base DeriveUtil DeriveOps DeriveGen DeriveParse FmtText EmitText
  RustLex RustSyntax RustItem RustSem RustMethod RustExec CrateText SpecSource SpecItem GenText EmitGen SpecEmit EmitEq.
Import ListNotations.
Open Scope string_scope.
Open Scope Z_scope.

(** ** Offsets and lengths *)

Definition co_ast (bit : Z) (offs : list ex) : ex := fold_left (XBin OAdd) offs (XInt "usize" (bit / 8)).
(** [rest()] replaced by the place it stands for. *)
Fixpoint put_rest (co e : ex) {struct e} : ex :=
  let all := fix go (l : list ex) : list ex := match l with [] => [] | x :: r => put_rest co x :: go r end in
  match e with
  | XCall f l => if String.eqb f "rest" then XIndex (XPath "self.packet") (XRange (Some co) None) else XCall f (all l)
  | XMeth a x l => XMeth (put_rest co a) x (all l)
  | XProj a x => XProj (put_rest co a) x
  | XUn o a => XUn o (put_rest co a)
  | XBin o a b => XBin o (put_rest co a) (put_rest co b)
  | XCast a t => XCast (put_rest co a) t
  | XIf c a b => XIf (put_rest co c) (put_rest co a) (match b with Some x => Some (put_rest co x) | None => None end)
  | XBlock [] (Some a) => XBlock [] (Some (put_rest co a))
  | _ => e
  end.
Definition len_tree (tokens : list ttree) : ex := match read_expr (flat_map with_rest tokens) with Some e => e | None => XMac "?" end.
Definition len_ast (co : ex) (tokens : list ttree) : ex := XCast (put_rest co (len_tree tokens)) "usize".
Definition self_len : ex := XMeth (XPath "self.packet") "len" [].

(** A field with the bit offset and the lengths before it. *)
Definition args_size (l : list rtype) : Z := fold_right (fun t a => match t with RPrimitive _ s _ => s + a | _ => a end) 0 l.
Definition bits_of (p : pfield) : Z :=
  match pf_ty p with RPrimitive _ s _ => s | RMisc _ => args_size (pf_cons p) | RVector _ => 0 end.
Record spot := Spot { sp_field : pfield; sp_bit : Z; sp_offs : list ex }.
Definition sp_co (s : spot) : ex := co_ast (sp_bit s) (sp_offs s).
Definition sp_len (s : spot) : option ex := option_map (len_ast (sp_co s)) (pf_len (sp_field s)).
Fixpoint spots (ps : list pfield) (bit : Z) (offs : list ex) : list spot :=
  match ps with
  | [] => []
  | p :: r =>
      let s := Spot p bit offs in
      s :: spots r (bit + bits_of p) (match sp_len s with Some e => (offs ++ [e])%list | None => offs end)
  end.
Definition len_or_self (s : spot) : ex := match sp_len s with Some e => e | None => self_len end.

(** ** Integers *)

Definition byte_ast (base : string) (i : ex) (ty : string) : ex := XCast (XIndex (XPath base) i) ty.
Definition shift_ast (a : ex) (sh : Z) : ex :=
  if sh =? 0 then a else if sh <? 0 then XBin OShl a (XInt "" (- sh)) else XBin OShr a (XInt "" sh).
Definition masked_ast (a : ex) (mask : Z) : ex := if mask =? 255 then a else XBin OAnd a (XInt "" mask).
Definition getop_ast (op : getop) (a : ex) : ex := shift_ast (masked_ast a (g_mask op)) (g_shiftr op - g_shiftl op).
Definition bname (i : Z) : string := "b" ++ dec i.
Definition co_plus (i : Z) : ex := XBin OAdd (XPath "co") (XInt "" i).
Fixpoint lets (base ty : string) (i : Z) (ops : list getop) : list st :=
  match ops with
  | [] => []
  | op :: r => SLet (PVar (bname i)) None (XCast (getop_ast op (byte_ast base (co_plus i) ty)) ty) :: lets base ty (i + 1) r
  end.
Fixpoint ors (a : ex) (i : Z) (n : nat) : ex :=
  match n with O => a | S k => ors (XBin OOr a (XPath (bname i))) (i + 1) k end.
Definition getops_ast (base ty : string) (ops : list getop) : ex :=
  match ops with
  | [op] => XBlock [] (Some (getop_ast op (byte_ast base (XPath "co") ty)))
  | _ => XBlock (lets base ty 0 ops) (Some (ors (XPath "b0") 1 (List.length ops - 1)))
  end.
Definition setop_ast (op : setop) (place : ex) : ex :=
  let v := XCast (shift_ast (masked_ast (XPath "val") (s_vmask op)) (s_shiftr op - s_shiftl op)) "u8" in
  if s_save op =? 0 then v else XCast (XBin OOr (XBin OAnd place (XInt "" (s_save op))) v) "u8".
Fixpoint stores (base : string) (i : Z) (ops : list setop) : list st :=
  match ops with
  | [] => []
  | op :: r => let place := XIndex (XPath base) (co_plus i) in SSet None place (setop_ast op place) :: stores base (i + 1) r
  end.
Definition setops_ast (base : string) (ops : list setop) : ex := XBlock (stores base 0 ops) None.
Definition body_at (co e : ex) : ex := XBlock [SLet (PVar "co") None co] (Some e).

Definition ops_at (bit : Z) (t : rtype) : list getop :=
  match t with
  | RPrimitive _ s e => match ops_of Checked true bit s e with Some l => l | None => [] end
  | _ => []
  end.
Definition ty_of (t : rtype) : string := match t with RPrimitive n _ _ => n | _ => "?" end.

(** ** Methods *)

Definition me (name : string) (params : list (string * string)) (ret : string) (body : ex) (items : list fn) : string * meth :=
  (name, Meth (Fn name params ret body) items).
Definition slf : string * string := ("self", "&Self").
Definition idx_range (a b : string) : ex := XUn URef (XIndex (XPath "self.packet") (XRange (Some (XPath a)) (Some (XPath b)))).
Definition end_ast (len top : ex) : ex := XCall "min" [XBin OAdd (XPath "current_offset") len; top].

Definition want_get (s : spot) (t : rtype) : string * meth :=
  let p := sp_field s in
  me ("get_" ++ pf_name p) [slf] (ty_of t) (body_at (sp_co s) (getops_ast "self.packet" (ty_of t) (ops_at (sp_bit s) t))) [].
Definition want_set (s : spot) (t : rtype) : string * meth :=
  let p := sp_field s in
  me ("set_" ++ pf_name p) [slf; ("val", ty_of t)] ""
    (body_at (sp_co s) (setops_ast "self.packet" (to_mutator (ops_at (sp_bit s) t)))) [].
(** The inner functions of a constructed field. *)
Fixpoint get_items (of_ : string) (offs : list ex) (i bit : Z) (l : list rtype) : list fn :=
  match l with
  | [] => []
  | t :: r =>
      Fn ("get_arg" ++ dec i) [("_self", "&" ++ of_)] (ty_of t)
        (body_at (co_ast bit offs) (getops_ast "_self.packet" (ty_of t) (ops_at bit t)))
      :: get_items of_ offs (i + 1) (bit + args_size [t]) r
  end.
Fixpoint get_args (i : Z) (l : list rtype) : list ex :=
  match l with [] => [] | _ :: r => XCall ("get_arg" ++ dec i) [XPath "self"] :: get_args (i + 1) r end.
Fixpoint set_items (of_ : string) (offs : list ex) (i bit : Z) (l : list rtype) : list fn :=
  match l with
  | [] => []
  | t :: r =>
      Fn ("set_arg" ++ dec i) [("_self", "&" ++ of_); ("val", ty_of t)] ""
        (body_at (co_ast bit offs) (setops_ast "_self.packet" (to_mutator (ops_at bit t))))
      :: set_items of_ offs (i + 1) (bit + args_size [t]) r
  end.
Definition set_arg (i : Z) : ex := XCall ("set_arg" ++ dec i) [XPath "self"; XProj (XPath "vals") (dec i)].
Fixpoint set_args (i : Z) (l : list rtype) : list st * option ex :=
  match l with
  | [] => ([], None)
  | [_] => ([], Some (set_arg i))
  | _ :: r => let '(a, b) := set_args (i + 1) r in (SExp (set_arg i) :: a, b)
  end.
Definition want_misc_get (of_ : string) (s : spot) (ty : string) : string * meth :=
  let p := sp_field s in
  me ("get_" ++ pf_name p) [slf] ty (XBlock [] (Some (XCall (ty ++ "::new") (get_args 0 (pf_cons p)))))
    (get_items of_ (sp_offs s) 0 (sp_bit s) (pf_cons p)).
Definition want_misc_set (of_ : string) (s : spot) (ty : string) : string * meth :=
  let p := sp_field s in
  let '(a, b) := set_args 0 (pf_cons p) in
  me ("set_" ++ pf_name p) [slf; ("val", ty)] ""
    (XBlock (SLet (PVar "vals") None (XMeth (XPath "val") "to_primitive_values" []) :: a) b)
    (set_items of_ (sp_offs s) 0 (sp_bit s) (pf_cons p)).
Definition raw_ast (s : spot) (f : ex -> ex) : ex :=
  XBlock [SLet (PVar "current_offset") None (sp_co s); SLet (PVar "end") None (end_ast (len_or_self s) self_len)]
    (Some (f (idx_range "current_offset" "end"))).
Definition want_raw (s : spot) (suffix : string) : list (string * meth) :=
  if pf_payload (sp_field s) then []
  else [me ("get_" ++ pf_name (sp_field s) ++ suffix) [slf] "&[u8]" (raw_ast s (fun e => e)) []].
Definition want_vec_get (s : spot) (t : rtype) : string * meth :=
  let ty := ty_of t in
  me ("get_" ++ pf_name (sp_field s)) [slf] ("Vec<" ++ ty ++ ">")
    (XBlock
       [SLet (PVar "current_offset") None (sp_co s); SLet (PVar "pkt_len") None self_len;
        SLet (PVar "end") None (end_ast (len_or_self s) (XPath "pkt_len"));
        SLet (PVar "packet") None (idx_range "current_offset" "end");
        SLet (PVar "vec") (Some ("Vec<" ++ ty ++ ">")) (XCall "Vec::with_capacity" [XMeth (XPath "packet") "len" []]);
        SLet (PVar "co") None (XInt "" 0);
        SFor PWild (XRange (Some (XInt "" 0)) (Some (XMeth (XPath "vec") "capacity" [])))
          (XBlock
             [SExp (XMeth (XPath "vec") "push" [getops_ast "packet" ty (ops_at 0 t)]);
              SSet (Some OAdd) (XPath "co") (XInt "usize" (args_size [t] / 8))] None)]
       (Some (XPath "vec"))) [].
Definition want_vec_set (s : spot) (t : rtype) : string * meth :=
  me ("set_" ++ pf_name (sp_field s)) [slf; ("vals", "&[" ++ ty_of t ++ "]")] ""
    (XBlock
       (SLet (PVar "current_offset") None (sp_co s) ::
        (match sp_len s with
         | Some e => [SLet (PVar "len") None e; SExp (XCall "assert" [XBin OLe (XMeth (XPath "vals") "len" []) (XPath "len")])]
         | None => []
         end ++
         [SExp (XMeth (XIndex (XPath "self.packet")
            (XRange (Some (XPath "current_offset")) (Some (XBin OAdd (XPath "current_offset") (XMeth (XPath "vals") "len" [])))))
            "copy_from_slice" [XPath "vals"])])%list) None) [].
Definition want_iter (s : spot) (ty : string) : string * meth :=
  me ("get_" ++ pf_name (sp_field s) ++ "_iter") [slf] (ty ++ "Iterable")
    (raw_ast s (fun e => XCall (ty ++ "Iterable{buf}") [e])) [].
Definition want_pkts_get (s : spot) (ty : string) : string * meth :=
  me ("get_" ++ pf_name (sp_field s)) [slf] ("Vec<" ++ ty ++ ">")
    (XBlock [] (Some (XMeth (XMeth (XMeth (XPath "self") ("get_" ++ pf_name (sp_field s) ++ "_iter") []) "map"
       [XClo ["packet"] (XMeth (XPath "packet") "from_packet" [])]) "collect" []))) [].
Definition want_pkts_set (s : spot) (ty : string) : string * meth :=
  me ("set_" ++ pf_name (sp_field s)) [slf; ("vals", "&[" ++ ty ++ "]")] ""
    (XBlock
       [SLet (PVar "current_offset") None (sp_co s);
        SLet (PVar "end") None (XBin OAdd (XPath "current_offset") (len_or_self s));
        SFor (PVar "val") (XMeth (XPath "vals") "into_iter" [])
          (XBlock
             [SLet (PVar "packet") None
                (XMeth (XCall ("Mutable" ++ ty ++ "Packet::new") [XCall "self.packet.from" [XPath "current_offset"]])
                   "unwrap" []);
              SExp (XMeth (XPath "packet") "populate" [XPath "val"]);
              SSet (Some OAdd) (XPath "current_offset") (XMeth (XPath "packet") "packet_size" []);
              SExp (XCall "assert" [XBin OLe (XPath "current_offset") (XPath "end")])] None)] None) [].

Definition want_field_reads (of_ : string) (s : spot) : list (string * meth) :=
  match pf_ty (sp_field s) with
  | RPrimitive _ _ _ as t => [want_get s t]
  | RMisc ty => [want_misc_get of_ s ty]
  | RVector (RMisc ty) => (want_raw s "_raw" ++ [want_iter s ty; want_pkts_get s ty])%list
  | RVector t => (want_raw s "_raw" ++ [want_vec_get s t])%list
  end.
Definition want_field_writes (of_ : string) (s : spot) : list (string * meth) :=
  match pf_ty (sp_field s) with
  | RPrimitive _ _ _ as t => [want_set s t]
  | RMisc ty => [want_misc_set of_ s ty]
  | RVector (RMisc ty) => (want_raw s "_raw_mut" ++ [want_pkts_set s ty])%list
  | RVector t => (want_raw s "_raw_mut" ++ [want_vec_set s t])%list
  end.

Definition want_new (base : string) (mutable : bool) (name par kind : string) : string * meth :=
  let t := type_name base mutable in
  me name [("packet", par)] ("Option<" ++ t ++ "<?")
    (XBlock [] (Some (XIf (XBin OGe (XMeth (XPath "packet") "len" []) (XCall (t ++ "::minimum_packet_size") []))
      (XBlock [] (Some (XCall "Some" [XCall (t ++ "{packet}")
         [XCall ((if mutable then "MutPacketData::" else "PacketData::") ++ kind) [XPath "packet"]]])))
      (Some (XBlock [] (Some (XPath "None"))))))) [].
Definition total (ps : list pfield) : Z := fold_right (fun p a => bits_of p + a) 0 ps.
Definition min_size (ps : list pfield) : Z := let n := total ps in if n mod 8 =? 0 then n / 8 else n / 8 + 1.
Definition want_min (ps : list pfield) : string * meth :=
  me "minimum_packet_size" [] "usize" (XBlock [] (Some (XInt "usize" (min_size ps)))) [].
Definition struct_lens (ps : list pfield) : list ex :=
  flat_map (fun p => if pf_struct_len p then [XMeth (XProj (XPath "_packet") (pf_name p)) "len" []] else []) ps.
Definition want_struct_size (base : string) (ps : list pfield) : string * meth :=
  me "packet_size" [("_packet", "&" ++ base)] "usize" (XBlock [] (Some (co_ast (total ps) (struct_lens ps)))) [].
Definition all_offs (l : list spot) : list ex := flat_map (fun s => match sp_len s with Some e => [e] | None => [] end) l.
Definition want_size (ps : list pfield) : string * meth :=
  me "packet_size" [slf] "usize" (XBlock [] (Some (co_ast (total ps) (all_offs (spots ps 0 []))))) [].
Definition want_packet (name : string) : string * meth :=
  me name [slf] "&[u8]" (XBlock [] (Some (XUn URef (XIndex (XPath "self.packet") (XRange None None))))) [].
Definition bounds_of (ps : list pfield) : ex * ex :=
  match find (fun s => pf_payload (sp_field s)) (spots ps 0 []) with
  | Some s => (sp_co s, match sp_len s with Some e => XBin OAdd (sp_co s) e | None => self_len end)
  | None => (XInt "" 0, XInt "" 0)
  end.
Definition want_payload (name : string) (ps : list pfield) : string * meth :=
  let '(lower, upper) := bounds_of ps in
  me name [slf] "&[u8]"
    (XBlock
       [SLet (PVar "start") None lower; SLet (PVar "end") None (XCall "std::cmp::min" [upper; self_len]);
        SExp (XIf (XBin OLe self_len (XPath "start")) (XBlock [SExp (XRet (Some (XUn URef (XArr []))))] None) None)]
       (Some (idx_range "start" "end"))) [].
Fixpoint pop_stmts (ps : list pfield) : list st :=
  match ps with
  | [] => []
  | p :: r =>
      let v := XProj (XPath "packet") (pf_name p) in
      SExp (XMeth (XPath "self") ("set_" ++ pf_name p) [match pf_ty p with RVector _ => XUn URef v | _ => v end]) :: pop_stmts r
  end.
Definition want_populate (base : string) (ps : list pfield) : string * meth :=
  me "populate" [slf; ("packet", "&" ++ base)] "" (XBlock (pop_stmts ps) None) [].

Definition want (base : string) (mutable : bool) (ps : list pfield) : list (string * meth) :=
  let of_ := type_name base mutable in
  ([want_new base mutable "new" "&[u8]" "Borrowed"; want_new base mutable "owned" "Vec<u8>" "Owned"; want_min ps; want_struct_size base ps] ++
   (if mutable then [want_populate base ps] else []) ++
   flat_map (want_field_reads of_) (spots ps 0 []) ++
   (if mutable then flat_map (want_field_writes of_) (spots ps 0 []) else []))%list.
Definition has_methods (ms : option (list meth)) (l : list (string * meth)) : bool :=
  match ms with
  | Some ms => forallb (fun x => match find_meth (fst x) ms with Some m => meth_eqb m (snd x) | None => false end) l
  | None => false
  end.
Definition all_methods (l : option (list ttree)) (want : list (string * meth)) : bool :=
  match l with
  | Some l => match read_impls l with Some il => list_eqb meth_eqb (concat il) (map snd want) | None => false end
  | None => false
  end.
Definition emits (base : string) (ps : list pfield) : bool :=
  (forallb (fun mu => has_methods (one_impl (emit_impl Checked true mu base ps)) (want base mu ps)) [false; true] &&
   all_methods (emit_size Checked true base ps) [want_size ps; want_size ps] &&
   all_methods (emit_packet Checked true base ps false false) [want_packet "packet"; want_payload "payload" ps] &&
   all_methods (emit_packet Checked true base ps true false) [want_packet "packet"; want_payload "payload" ps] &&
   all_methods (emit_packet Checked true base ps true true) [want_packet "packet_mut"; want_payload "payload_mut" ps])%bool.
Definition struct_fields (text : string) : list pfield :=
  match read_struct text with Some (_, sf) => match parse_packet sf with Ok (inl ps) => ps | _ => [] end | None => [] end.

(** Model of how derive/src/gen.rs assembles the code it emits: the templates of GenText.v
    with their holes filled, as token trees. *)
From Coq Require Import String Ascii ZArith List Bool.
From Verif Require Import Base DeriveUtil DeriveOps DeriveParse EmitText RustLex GenText.
Import ListNotations.
Open Scope string_scope.
Open Scope Z_scope.

(** ** quote! (crate quote, its documentation) *)

(** What a variable stands for: tokens, or the items of an iterator. *)
Inductive hole := HOne (l : list ttree) | HMany (l : list (list ttree)).
Definition holes := list (string * hole).
Fixpoint find_hole (x : string) (h : holes) : option hole :=
  match h with
  | [] => None
  | (y, v) :: r => if String.eqb x y then Some v else find_hole x r
  end.
(** The iterator a repetition runs over: the first variable in it that is one. *)
Fixpoint repeated (h : holes) (l : list ttree) : option (string * list (list ttree)) :=
  match l with
  | TPunct p :: r =>
      match r with
      | TIdent x :: _ =>
          if String.eqb p "#"
          then match find_hole x h with Some (HMany it) => Some (x, it) | _ => repeated h r end
          else repeated h r
      | _ => repeated h r
      end
  | _ :: r => repeated h r
  | [] => None
  end.
Fixpoint between {A} (sep : list A) (l : list (list A)) : list A :=
  match l with
  | [] => []
  | [x] => x
  | x :: r => (x ++ sep ++ between sep r)%list
  end.
Definition group_of (l : list ttree) : list ttree := match l with [TGroup _ g] => g | _ => [] end.
(** [#x] is replaced by what x stands for, [#( ... )*] and [#( ... ) sep *] repeat the
    tokens in the parentheses (with the separator between), everything else (attributes
    too) is kept.  A variable without a value does not compile; it is left as it is. *)
Fixpoint fill (h : holes) (t : ttree) {struct t} : list ttree :=
  match t with
  | TGroup d l =>
      [TGroup d
        ((fix go (l : list ttree) : list ttree :=
            match l with
            | [] => []
            | t :: r =>
                match t, r with
                | TPunct p, TIdent x :: r' =>
                    match (if String.eqb p "#" then find_hole x h else None) with
                    | Some (HOne v) => (v ++ go r')%list
                    | _ => t :: go r
                    end
                | TPunct p, (TGroup d' g as t') :: (TPunct a :: r' as r1) =>
                    if (String.eqb p "#" && String.eqb d' "()")%bool then
                      let each sep rest :=
                        match repeated h g with
                        | Some (x, it) =>
                            (between sep (map (fun v => group_of (fill ((x, HOne v) :: h) t')) it) ++ rest)%list
                        | None => rest
                        end in
                      if String.eqb a "*" then each [] (go r')
                      else match r' with
                           | TPunct b :: r2 => if String.eqb b "*" then each [TPunct a] (go r2) else t :: go r
                           | _ => t :: go r
                           end
                    else t :: go r
                | _, _ => (fill h t ++ go r)%list
                end
            end) l)]
  | _ => [t]
  end.
Definition trees_of (s : string) : list ttree := match read_trees s with Some l => l | None => [] end.
Definition quote (t : list ttree) (h : holes) : list ttree := group_of (fill h (TGroup "{}" t)).
(** The templates (GenText.v), read. *)
Definition tpl_check_len : list ttree := trees_of gen_check_len.
Definition tpl_converters : list ttree := trees_of gen_converters.
Definition tpl_copy_bytes : list ttree := trees_of gen_copy_bytes.
Definition tpl_copy_loop : list ttree := trees_of gen_copy_loop.
Definition tpl_get : list ttree := trees_of gen_get.
Definition tpl_get_arg : list ttree := trees_of gen_get_arg.
Definition tpl_impl : list ttree := trees_of gen_impl.
Definition tpl_iterable : list ttree := trees_of gen_iterable.
Definition tpl_misc_get : list ttree := trees_of gen_misc_get.
Definition tpl_misc_set : list ttree := trees_of gen_misc_set.
Definition tpl_packet_trait : list ttree := trees_of gen_packet_trait.
Definition tpl_pkts_get : list ttree := trees_of gen_pkts_get.
Definition tpl_pkts_set : list ttree := trees_of gen_pkts_set.
Definition tpl_populate : list ttree := trees_of gen_populate.
Definition tpl_raw : list ttree := trees_of gen_raw.
Definition tpl_raw_mut : list ttree := trees_of gen_raw_mut.
Definition tpl_set : list ttree := trees_of gen_set.
Definition tpl_set_arg : list ttree := trees_of gen_set_arg.
Definition tpl_size_impls : list ttree := trees_of gen_size_impls.
Definition tpl_vec_get : list ttree := trees_of gen_vec_get.
Definition tpl_vec_set : list ttree := trees_of gen_vec_set.

(** [#n] for [n: usize]: a literal with its suffix. *)
Definition usize_lit (n : Z) : list ttree := [TLit true (dec n ++ "usize")].
(** A string literal. *)
Definition str_lit (s : string) : ttree := TLit false (String quote_char (s ++ String quote_char "")).

(** ** Pieces *)

(** derive/src/gen.rs:63-71 *)
Definition offset_tokens (bit : Z) (offset_fns : list (list ttree)) : list ttree :=
  fold_left (fun a b => (a ++ TPunct "+" :: b)%list) offset_fns (usize_lit (bit / 8)).

(** derive/src/gen.rs:105-108: [r#field_offset] is replaced by [&self.packet[(co)..]] in the
    text of the length; here in its tokens. *)
Fixpoint at_offset (co : list ttree) (t : ttree) : list ttree :=
  match t with
  | TIdent x =>
      if String.eqb x "r#field_offset"
      then [TPunct "&"; TIdent "self"; TPunct "."; TIdent "packet"; TGroup "[]" [TGroup "()" co; TPunct ".."]] else [t]
  | TGroup d l =>
      [TGroup d ((fix go (l : list ttree) : list ttree :=
                    match l with [] => [] | x :: r => (at_offset co x ++ go r)%list end) l)]
  | _ => [t]
  end.
(** derive/src/parse.rs:111-113 and gen.rs:104-110: [(expression) as usize]. *)
Definition length_expr (co l : list ttree) : list ttree :=
  [TGroup "()" (flat_map (at_offset co) l); TIdent "as"; TIdent "usize"].
(** derive/src/gen.rs:112 *)
Definition packet_len : list ttree := [TIdent "self"; TPunct "."; TIdent "packet"; TPunct "."; TIdent "len"; TGroup "()" []].

(** derive/src/gen.rs:774-806 and 755-768: [parse_str] of the text, then [quote!] of the
    expression: its tokens. *)
Definition get_ops_tokens (name ty : string) (ops : list getop) : list ttree := trees_of (get_body name ty ops).
Definition set_ops_tokens (name : string) (ops : list setop) : list ttree := trees_of (set_body name ops).

Definition ident (s : string) : hole := HOne [TIdent s].

(** derive/src/util.rs:21-29, [Display for Endianness] *)
Definition endian_text (e : endian) : string :=
  match e with Big => "big-endian" | Little => "little-endian" | Host => "host-endian" end.
(** derive/src/gen.rs:498-507 and 545-554: the doc comments. *)
Definition comment_of (verb end_ name ty : string) : string :=
  match parse_ty ty with
  | Some (_, e, _) => verb ++ name ++ " field. This field is always stored " ++ endian_text e ++ end_
  | None => verb ++ name ++ " field."
  end.
Definition get_comment : string -> string -> string :=
  comment_of "Get the " " within the struct, but this accessor returns host order.".
Definition set_comment : string -> string -> string :=
  comment_of "Set the " " within the struct, but this mutator wants host order.".

(** derive/src/gen.rs:477-521; [inner] is the name of the packet type. *)
Definition gen_accessor (name ty : string) (offset : list ttree) (ops : list getop) (inner : option string) : list ttree :=
  let h body := [("get_name", ident ("get_" ++ name)); ("ty", ident ty); ("offset", HOne offset); ("operations", HOne body)] in
  match inner with
  | Some s => quote tpl_get_arg (("struct_name", ident s) :: h (get_ops_tokens "_self.packet" ty ops))
  | None => quote tpl_get (("comment", HOne [str_lit (get_comment name ty)]) :: h (get_ops_tokens "self.packet" ty ops))
  end.
(** derive/src/gen.rs:525-569 *)
Definition gen_mutator (name ty : string) (offset : list ttree) (ops : list setop) (inner : option string) : list ttree :=
  let h body := [("set_name", ident ("set_" ++ name)); ("ty", ident ty); ("offset", HOne offset); ("operations", HOne body)] in
  match inner with
  | Some s => quote tpl_set_arg (("struct_name", ident s) :: h (set_ops_tokens "_self.packet" ops))
  | None => quote tpl_set (("comment", HOne [str_lit (set_comment name ty)]) :: h (set_ops_tokens "self.packet" ops))
  end.

(** [operations(..).unwrap()] of gen.rs:127, 172, 302. *)
Definition ops_of (m : mode) (host_le : bool) (bit size : Z) (e : endian) : option (list getop) :=
  match operations m host_le (bit mod 8) size e with Ok r => r | Panic _ => None end.

(** ** One field *)

(** The variables of packet_impl (derive/src/gen.rs:84-93). *)
Record emitted := Emitted {
  e_bit : Z;
  e_offs : list (list ttree);       (* offset_fns_packet *)
  e_soffs : list (list ttree);      (* offset_fns_struct *)
  e_acc : list (list ttree);
  e_mut : list (list ttree);
  e_pop : list (list ttree);
  e_lower : list ttree;
  e_upper : list ttree }.
Definition start : emitted := Emitted 0 [] [] [] [] [] [TLit true "0"] [TLit true "0"].

(** derive/src/gen.rs:301-334: the arguments of construct_with: bit offset, inner
    accessors, inner mutators, get_args, set_args. *)
Definition idx_lit (i : Z) : ttree := TLit true (dec i).
Fixpoint misc_args (m : mode) (host_le : bool) (name : string) (offs : list (list ttree)) (i bit : Z) (l : list rtype)
    : option (Z * list (list ttree) * list (list ttree) * list (list ttree) * list (list ttree)) :=
  match l with
  | [] => Some (bit, [], [], [], [])
  | RPrimitive ty size e :: r =>
      match ops_of m host_le bit size e, misc_args m host_le name offs (i + 1) (bit + size) r with
      | Some ops, Some (bit', a, u, g, s) =>
          let co := offset_tokens bit offs in
          Some (bit',
                gen_accessor ("arg" ++ dec i) ty co ops (Some name) :: a,
                gen_mutator ("arg" ++ dec i) ty co (to_mutator ops) (Some name) :: u,
                [TIdent ("get_arg" ++ dec i); TGroup "()" [TIdent "self"]] :: g,
                [TIdent ("set_arg" ++ dec i);
                 TGroup "()" [TIdent "self"; TPunct ","; TIdent "vals"; TPunct "."; idx_lit i]] :: s)
      | _, _ => None
      end
  | _ :: _ => None
  end.

(** derive/src/gen.rs:99-373: one round of the loop over the fields; [name] is the packet
    type.  [None]: the macro reports an error or panics (see DeriveParse.gen_field). *)
Definition emit_field (m : mode) (host_le : bool) (name : string) (p : pfield) (s : emitted) : option emitted :=
  let n := pf_name p in
  let get := ident ("get_" ++ n) in
  let set := ident ("set_" ++ n) in
  let co := offset_tokens (e_bit s) (e_offs s) in
  let len := match pf_len p with Some l => length_expr co l | None => packet_len end in
  let bounds := if pf_payload p
                then (co, match pf_len p with Some _ => (co ++ TPunct "+" :: len)%list | None => packet_len end)
                else (e_lower s, e_upper s) in
  let pop amp := [TIdent "self"; TPunct "."; TIdent ("set_" ++ n);
                  TGroup "()" (amp ++ [TIdent "packet"; TPunct "."; TIdent n])%list; TPunct ";"] in
  let offs := match pf_len p with Some _ => (e_offs s ++ [len])%list | None => e_offs s end in
  (* struct_length, parse.rs:186 *)
  let soffs := if pf_struct_len p
               then (e_soffs s ++ [[TIdent "_packet"; TPunct "."; TIdent n; TPunct "."; TIdent "len"; TGroup "()" []]])%list
               else e_soffs s in
  let done bit acc mut amp :=
    Some (Emitted bit offs soffs (e_acc s ++ acc)%list (e_mut s ++ mut)%list (e_pop s ++ [pop amp])%list (fst bounds) (snd bounds)) in
  let raw := if pf_payload p then [] else
    [quote tpl_raw [("get_field_name_raw", ident ("get_" ++ n ++ "_raw")); ("co", HOne co); ("packet_length", HOne len)]] in
  let raw_mut := if pf_payload p then [] else
    [quote tpl_raw_mut [("get_field_name_raw_mut", ident ("get_" ++ n ++ "_raw_mut")); ("co", HOne co); ("packet_length", HOne len)]] in
  match pf_ty p with
  | RPrimitive ty size e =>
      match ops_of m host_le (e_bit s) size e with
      | Some ops => done (e_bit s + size) [gen_accessor n ty co ops None] [gen_mutator n ty co (to_mutator ops) None] []
      | None => None
      end
  | RVector (RPrimitive ty size _) =>
      if negb (size mod 8 =? 0) then None else
      match ops_of m host_le 0 size Big with
      | Some ops =>
          let h := [("get_name", get); ("set_name", set); ("inner_ty", ident ty); ("co", HOne co); ("packet_length", HOne len);
                    ("size", HOne (usize_lit (size / 8)))] in
          let check := match pf_len p with Some _ => quote tpl_check_len h | None => [] end in
          let copy := if String.eqb ty "u8" then quote tpl_copy_bytes []
                      else quote tpl_copy_loop (("sop", HOne (set_ops_tokens "self.packet" (to_mutator ops))) :: h) in
          done (e_bit s)
            (raw ++ [quote tpl_vec_get (("access_ops", HOne (get_ops_tokens "packet" ty ops)) :: h)])%list
            (raw_mut ++ [quote tpl_vec_set (("check_len", HOne check) :: ("copy_vals", HOne copy) :: h)])%list
            [TPunct "&"]
      | None => None
      end
  | RVector (RVector _) => None
  | RVector (RMisc ty) =>
      let h := [("get_name", get); ("set_name", set); ("get_name_iter", ident ("get_" ++ n ++ "_iter"));
                ("inner_ty", ident ty); ("inner_ty_iterable", ident (ty ++ "Iterable"));
                ("inner_ty_packet_mut", ident ("Mutable" ++ ty ++ "Packet")); ("co", HOne co); ("packet_length", HOne len)] in
      done (e_bit s) (raw ++ [quote tpl_pkts_get h])%list (raw_mut ++ [quote tpl_pkts_set h])%list [TPunct "&"]
  | RMisc ty =>
      match misc_args m host_le name (e_offs s) 0 (e_bit s) (pf_cons p) with
      | Some (bit', a, u, g, t) =>
          let h := [("get_field_name", get); ("set_field_name", set); ("ty", ident ty); ("inner_accessors", HMany a);
                    ("inner_mutators", HMany u); ("get_args", HMany g); ("set_args", HMany t)] in
          done bit' [quote tpl_misc_get h] [quote tpl_misc_set h] []
      | None => None
      end
  end.
Fixpoint emit_fields (m : mode) (host_le : bool) (name : string) (l : list pfield) (s : emitted) : option emitted :=
  match l with
  | [] => Some s
  | p :: r => match emit_field m host_le name p s with Some s' => emit_fields m host_le name r s' | None => None end
  end.

(** ** Whole packets *)

(** derive/src/parse.rs: [packet_name] and [packet_name_mut]. *)
Definition type_name (base : string) (mutable : bool) : string :=
  (if mutable then "Mutable" else "") ++ base ++ "Packet".

(** derive/src/gen.rs:375-473, the [impl] block of the packet type. *)
Definition emit_impl (m : mode) (host_le mutable : bool) (base : string) (ps : list pfield) : option (list ttree) :=
  match emit_fields m host_le (type_name base mutable) ps start with
  | None => None
  | Some s =>
      let byte_size := if e_bit s mod 8 =? 0 then e_bit s / 8 else e_bit s / 8 + 1 in
      let populate := if mutable then quote tpl_populate [("base_name", ident base); ("populate", HMany (e_pop s))] else [] in
      Some (quote tpl_impl
        [("name", ident (type_name base mutable)); ("imm_name", ident (type_name base false)); ("base_name", ident base);
         ("mut_", HOne (if mutable then [TIdent "mut"] else []));
         ("packet_data", ident (if mutable then "MutPacketData" else "PacketData"));
         ("byte_size", HOne (usize_lit byte_size)); ("struct_size", HOne (offset_tokens (e_bit s) (e_soffs s)));
         ("populate", HOne populate); ("accessors", HMany (e_acc s)); ("mutators", HMany (if mutable then e_mut s else []))])
  end.
(** derive/src/gen.rs:471 and 571-592: the two PacketSize implementations. *)
Definition emit_size (m : mode) (host_le : bool) (base : string) (ps : list pfield) : option (list ttree) :=
  match emit_fields m host_le (type_name base false) ps start with
  | Some s => Some (quote tpl_size_impls [("name", ident (type_name base false)); ("name_mut", ident (type_name base true));
                                          ("size", HOne (offset_tokens (e_bit s) (e_offs s)))])
  | None => None
  end.
(** derive/src/gen.rs:594-653: [Packet] or [MutablePacket] for a packet type. *)
Definition emit_packet (m : mode) (host_le : bool) (base : string) (ps : list pfield) (of_mut mutable : bool) : option (list ttree) :=
  match emit_fields m host_le (type_name base false) ps start with
  | Some s => Some (quote tpl_packet_trait
      [("name", ident (type_name base of_mut)); ("lower", HOne (e_lower s)); ("upper", HOne (e_upper s));
       ("mut_", HOne (if mutable then [TIdent "mut"] else []));
       ("packet", ident (if mutable then "packet_mut" else "packet"));
       ("payload", ident (if mutable then "payload_mut" else "payload"));
       ("trait_name", ident (if mutable then "MutablePacket" else "Packet"))])
  | None => None
  end.
(** derive/src/gen.rs:655-685 *)
Definition emit_iterable (base : string) : list ttree :=
  quote tpl_iterable [("iterator", ident (base ++ "Iterable")); ("packet_name", ident (type_name base false))].
(** derive/src/gen.rs:687-720 *)
Definition emit_converters (base : string) (ps : list pfield) : list ttree :=
  quote tpl_converters
    [("name", ident base); ("packet_name", ident (type_name base false)); ("packet_name_mut", ident (type_name base true));
     ("get_fields", HMany (map (fun p => [TIdent (pf_name p); TPunct ":"; TIdent "self"; TPunct "."; TIdent ("get_" ++ pf_name p);
                                          TGroup "()" []]) ps))].

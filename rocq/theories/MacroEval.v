(** Running the functions of the derive crate that assemble the emitted code
    (derive/src/gen.rs and [generate_packet] of derive/src/lib.rs) from their source text.
    The parser is that of RustAst.v; what it does not read is rewritten first.  Written from
    the Rust reference and the documentation of the crates quote, syn and proc-macro2;
    nothing here comes from the repository except where cited. *)
From Coq Require Import String Ascii ZArith List Bool.
From Verif Require Import Base DeriveUtil DeriveOps DeriveParse RustLex RustSyntax RustMethod RustAst RustEval EmitText EmitGen GenCode.
Import ListNotations.
Open Scope string_scope.
Open Scope Z_scope.

(** ** Rewriting *)

Definition tword (x : string) (t : ttree) : bool := match t with TIdent s => String.eqb s x | _ => false end.
Definition braced (t : ttree) : bool := match t with TGroup d _ => String.eqb d "{}" | _ => false end.
Fixpoint tupto (stop : ttree -> bool) (l : list ttree) : list ttree * list ttree :=
  match l with
  | [] => ([], [])
  | t :: r => if stop t then ([], l) else let '(a, b) := tupto stop r in (t :: a, b)
  end.

(** The templates: [quote! { ... }] becomes [quasi!("k")], the tokens inside go to the table. *)
Definition tpls := list (string * list ttree).
Fixpoint lift (n : nat) (l : list ttree) (q : tpls) : list ttree * tpls :=
  match n with
  | O => ([], q)
  | S k =>
      match l with
      | [] => ([], q)
      | TGroup d g :: r =>
          let '(g', q1) := lift k g q in let '(r', q2) := lift k r q1 in (TGroup d g' :: r', q2)
      | t :: r =>
          let other := let '(r', q1) := lift k r q in (t :: r', q1) in
          if tword "quote" t then
            match r with
            | TPunct b :: TGroup _ g :: r1 =>
                if String.eqb b "!" then
                  let key := dec (Z.of_nat (length q)) in
                  let '(r', q1) := lift k r1 (q ++ [(key, g)])%list in
                  (TIdent "quasi" :: TPunct "!" :: TGroup "()" [str_lit key] :: r', q1)
                else other
            | _ => other
            end
          else other
      end
  end.

(** A backslash before the end of a line in a string: the line goes on at the next
    character that is not white space. *)
Fixpoint skip_space (s : string) : string :=
  match s with String a r => if space_char a then skip_space r else s | "" => "" end.
Fixpoint join_lines (n : nat) (s : string) : string :=
  match n with
  | O => s
  | S k =>
      match s with
      | String a (String b r) =>
          if (Ascii.eqb a backslash && Ascii.eqb b newline_char)%bool then join_lines k (skip_space r)
          else String a (join_lines k (String b r))
      | _ => s
      end
  end.

(** [if let p = e {a} else {b}] is [match e { p => {a}, _ => {b} }]; [ref] in patterns (values
    are not moved here), [as _] and the path of [syn::Index] are dropped; the closure [|a, b| e]
    becomes [closure!(a, b, e)], a named argument [x = e] of a format becomes [named!("x", e)]. *)
Fixpoint sugar (n : nat) (l : list ttree) : list ttree :=
  match n with
  | O => []
  | S k =>
      match l with
      | [] => []
      | TGroup d g :: r => TGroup d (sugar k g) :: sugar k r
      | TLit false s :: r => TLit false (join_lines (String.length s) s) :: sugar k r
      | TPunct p :: r =>
          let other := TPunct p :: sugar k r in
          if String.eqb p "," then
            match r with
            | TPunct a :: TIdent x :: TPunct b :: TIdent y :: TPunct c :: r1 =>
                if (String.eqb a "|" && String.eqb b "," && String.eqb c "|")%bool
                then [TPunct p; TIdent "closure"; TPunct "!";
                      TGroup "()" (TIdent x :: TPunct "," :: TIdent y :: TPunct "," :: sugar k r1)]
                else other
            | TIdent x :: TPunct a :: r1 =>
                if String.eqb a "=" then
                  let '(e, r2) := tupto (is_punct ",") r1 in
                  TPunct p :: TIdent "named" :: TPunct "!" :: TGroup "()" (str_lit x :: TPunct "," :: sugar k e) :: sugar k r2
                else other
            | _ => other
            end
          else other
      | TIdent x :: r =>
          let other := TIdent x :: sugar k r in
          if String.eqb x "ref" then sugar k r
          else if String.eqb x "as" then
            match r with t :: r1 => if tword "_" t then sugar k r1 else other | [] => other end
          else if String.eqb x "syn" then
            match r with _ :: t :: r1 => if tword "Index" t then sugar k (t :: r1) else other | _ => other end
          else if String.eqb x "if" then
            match r with
            | t :: r0 =>
                if tword "let" t then
                  let '(p, r1) := tupto (is_punct "=") r0 in
                  let '(e, r2) := tupto braced (tl r1) in
                  match r2 with
                  | a :: r3 =>
                      let '(b, r4) := match r3 with
                                      | w :: b :: r4 => if tword "else" w then (b, r4) else (TGroup "{}" [], r3)
                                      | _ => (TGroup "{}" [], r3)
                                      end in
                      (TIdent "match" :: sugar k e ++
                       TGroup "{}" (sugar k p ++ TPunct "=>" :: sugar k [a] ++ TPunct "," :: TIdent "_" :: TPunct "=>" :: sugar k [b])
                         :: sugar k r4)%list
                  | [] => other
                  end
                else other
            | [] => other
            end
          else other
      | t :: r => t :: sugar k r
      end
  end.

(** The functions of a list of texts and their templates. *)
Fixpoint read_code (l : list string) (q : tpls) : option (list func * tpls) :=
  match l with
  | [] => Some ([], q)
  | s :: r =>
      match read_trees s with
      | Some ts =>
          let n := S (String.length s) in
          let '(ts', q1) := lift n ts q in
          match flat_fns 1 (words "Packet" (sugar n ts')), read_code r q1 with
          | Some fs, Some (fs', q2) => Some ((fs ++ fs')%list, q2)
          | _, _ => None
          end
      | None => None
      end
  end.

(** ** Values *)

(** [GQ]: tokens (TokenStream, Ident, syn::Type, syn::Expr); [GE]: a variant; [GR]: a struct.
    References and boxes are what they refer to; numbers are [usize]. *)
Inductive gv :=
| GUnit | GB (b : bool) | GN (z : Z) | GS (s : string) | GQ (l : list ttree) | GL (l : list gv) | GT (l : list gv)
| GE (c : string) (l : list gv) | GR (l : list (string * gv)) | GO (l : list getop) | GM (l : list setop) | GC (a b : string) (e : xp).
Definition genv := list (string * gv).
Fixpoint gfind {A} (x : string) (s : list (string * A)) : option A :=
  match s with [] => None | (y, v) :: r => if String.eqb x y then Some v else gfind x r end.
Fixpoint gset (x : string) (v : gv) (s : genv) : genv :=
  match s with [] => [] | (y, w) :: r => if String.eqb x y then (y, v) :: r else (y, w) :: gset x v r end.

(** [TokenStream::to_string]: the tokens with spaces between them. *)
Fixpoint tree_text (t : ttree) : string :=
  match t with
  | TIdent s | TPunct s | TLit _ s => s ++ " "
  | TGroup d l =>
      String.substring 0 1 d ++ " " ++
      (fix go (l : list ttree) : string := match l with [] => "" | t :: r => tree_text t ++ go r end) l ++
      String.substring 1 1 d ++ " "
  end.
Definition trees_text (l : list ttree) : string := String.concat "" (map tree_text l).

(** [ToTokens] (crate quote): a [usize] has its suffix, a string is a literal, [syn::Index]
    is a literal without a suffix.  A value that has no tokens does not compile: [?]. *)
Definition gtokens (v : gv) : list ttree :=
  match v with
  | GQ l => l
  | GN z => usize_lit z
  | GS s => [str_lit s]
  | GR l => match gfind "index" l with Some (GN i) => [TLit true (dec i)] | _ => [TPunct "?"] end
  | _ => [TPunct "?"]
  end.
Definition ghole (v : gv) : hole := match v with GL l => HMany (map gtokens l) | _ => HOne (gtokens v) end.
Definition gholes (s : genv) : holes := map (fun '(x, v) => (x, ghole v)) s.

(** derive/src/parse.rs:8-24 and util.rs:12-19 *)
Definition gendian (e : endian) : gv :=
  GE (match e with Big => "Endianness::Big" | Little => "Endianness::Little" | Host => "Endianness::Host" end) [].
Fixpoint gtype (t : rtype) : gv :=
  match t with
  | RPrimitive n z e => GE "Type::Primitive" [GS n; GN z; gendian e]
  | RVector t => GE "Type::Vector" [gtype t]
  | RMisc n => GE "Type::Misc" [GS n]
  end.
Definition endian_of (v : gv) : option endian :=
  match v with
  | GE c [] => if String.eqb c "Endianness::Big" then Some Big else if String.eqb c "Endianness::Little" then Some Little
               else if String.eqb c "Endianness::Host" then Some Host else None
  | _ => None
  end.
Definition gopt {A} (f : A -> gv) (o : option A) : gv := match o with Some a => GE "Some" [f a] | None => GE "None" [] end.
(** derive/src/parse.rs:26-40: a field and a packet; the lengths are texts (parse.rs:111-113,
    186), the span is left out. *)
Definition gfield (p : pfield) : gv :=
  GR [("name", GS (pf_name p)); ("span", GUnit); ("ty", gtype (pf_ty p));
      ("packet_length", gopt (fun l => GS (trees_text [TGroup "()" l; TIdent "as"; TIdent "usize"])) (pf_len p));
      ("struct_length", if pf_struct_len p then GE "Some" [GS ("_packet." ++ pf_name p ++ ".len()")] else GE "None" []);
      ("is_payload", GB (pf_payload p));
      ("construct_with", match pf_cons p with [] => GE "None" [] | l => GE "Some" [GL (map gtype l)] end)].
Definition gpacket (base : string) (ps : list pfield) : gv := GR [("base_name", GS base); ("fields", GL (map gfield ps))].

(** ** Patterns and formats *)

Fixpoint gmatch (p : pt) (v : gv) : option genv :=
  let all := fix go (ps : list pt) (vs : list gv) : option genv :=
    match ps, vs with
    | [], [] => Some []
    | p :: pr, v :: vr => match gmatch p v, go pr vr with Some a, Some b => Some (b ++ a)%list | _, _ => None end
    | _, _ => None
    end in
  match p with
  | QWild => Some []
  | QVar x => Some [(x, v)]
  | QConst c => match v with GE d [] => if String.eqb c d then Some [] else None | _ => None end
  | QCon c ps => match v with GE d vs => if String.eqb c d then all ps vs else None | _ => None end
  | QTup ps => match v with GT vs => all ps vs | _ => None end
  | _ => None
  end.

(** [Display] of the values formatted here; of an [Endianness] by derive/src/util.rs:21-29
    (CrateText2.v, run in C96). *)
Definition gtext (v : gv) : option string :=
  match v with
  | GS s => Some s
  | GN z => Some (dec z)
  | _ => match endian_of v with
         | Some e => Some (endian_text e)
         | None => None
         end
  end.
Fixpoint gfilled (l : list part) (vs : list gv) (named : genv) : option string :=
  match l with
  | [] => match vs with [] => Some "" | _ => None end
  | PText t :: r => option_map (append t) (gfilled r vs named)
  | PHole h :: r =>
      if String.eqb h "" then
        match vs with
        | v :: vr => match gtext v, gfilled r vr named with Some a, Some b => Some (a ++ b) | _, _ => None end
        | [] => None
        end
      else match gfind h named with
           | Some v => match gtext v, gfilled r vs named with Some a, Some b => Some (a ++ b) | _, _ => None end
           | None => None
           end
  end.
(** The arguments of a format: [named!] marks those with a name. *)
Fixpoint split_named (l : list gv) : list gv * genv :=
  match l with
  | [] => ([], [])
  | GE c [GS x; v] :: r => if String.eqb c "named!" then let '(a, b) := split_named r in (a, (x, v) :: b)
                           else let '(a, b) := split_named r in (GE c [GS x; v] :: a, b)
  | v :: r => let '(a, b) := split_named r in (v :: a, b)
  end.
Definition gformat (l : list gv) : option string :=
  match l with
  | GS f :: r =>
      match fmt_parts (S (String.length f)) "" f with
      | Some ps => let '(vs, named) := split_named r in gfilled ps vs named
      | None => None
      end
  | _ => None
  end.

(** ** Evaluation *)

(** Done with a value and the variables, returned from the function, or stuck (not compiled,
    a panic, or not covered). *)
Inductive gout := Done (v : gv) (s : genv) | Back (v : gv) | Stuck.
Definition andthen (o : gout) (k : gv -> genv -> gout) : gout := match o with Done v s => k v s | _ => o end.
(** Leaving a block: its variables go. *)
Definition leave (s : genv) (o : gout) : gout :=
  match o with Done v s' => Done v (skipn (length s' - length s) s') | _ => o end.
Definition gnum (z : Z) (s : genv) : gout := if ((0 <=? z) && (z <? 2 ^ 64))%bool then Done (GN z) s else Stuck.

(** The last part of a path. *)
Fixpoint last_part (cur s : string) : string :=
  match s with
  | "" => cur
  | String a r => if Ascii.eqb a ":" then last_part "" r else last_part (cur ++ String a "") r
  end.

(** ** Pieces of the evaluator; [ev]: of the expressions inside. *)

Section Pieces.
Variable ev : xp -> genv -> gout.

Fixpoint list_of (l : list xp) (s : genv) (ok : list gv -> genv -> gout) : gout :=
  match l with
  | [] => ok [] s
  | x :: r => andthen (ev x s) (fun v s => list_of r s (fun vs s => ok (v :: vs) s))
  end.
(** [items.fold(acc, |x, y| b)] *)
Fixpoint folded (x y : string) (b : xp) (s : genv) (l : list gv) (acc : gv) : gout :=
  match l with
  | [] => Done acc s
  | v :: r => match ev b ((y, v) :: (x, acc) :: s) with Done w _ => folded x y b s r w | _ => Stuck end
  end.
(** The first arm whose pattern matches. *)
Fixpoint arms_of (v : gv) (s : genv) (l : list (pt * option xp * xp)) : gout :=
  match l with
  | [] => Stuck
  | (p, None, b) :: r => match gmatch p v with Some bs => leave s (ev b (bs ++ s)%list) | None => arms_of v s r end
  | _ => Stuck
  end.
(** [for p in items { b }] *)
Fixpoint each (p : pt) (b : xp) (l : list gv) (s : genv) : gout :=
  match l with
  | [] => Done GUnit s
  | v :: r =>
      match gmatch p v with
      | Some bs => andthen (leave s (ev b (bs ++ s)%list)) (fun _ s => each p b r s)
      | None => Stuck
      end
  end.
(** The statements of a block, then its value. *)
Fixpoint block_of (last : option xp) (l : list sx) (s : genv) : gout :=
  match l with
  | [] => match last with Some e => ev e s | None => Done GUnit s end
  | ZLet p _ e :: r =>
      andthen (ev e s) (fun v s => match gmatch p v with Some bs => block_of last r (bs ++ s)%list | None => Stuck end)
  | ZSet None (YPath x) e :: r => andthen (ev e s) (fun v s => block_of last r (gset x v s))
  | ZSet (Some o) (YPath x) e :: r => andthen (ev (YBin o (YPath x) e) s) (fun v s => block_of last r (gset x v s))
  | ZExp e :: r => andthen (ev e s) (fun _ s => block_of last r s)
  | ZFor p e b :: r =>
      andthen (ev e s) (fun v s =>
        match v with GL items => andthen (each p b items s) (fun _ s => block_of last r s) | _ => Stuck end)
  | _ => Stuck
  end.
End Pieces.

Section Run.
(** What [operations] returns ([None]: it panics), the functions and templates, what
    [parse::packet] returns (DeriveParse.v, see C92). *)
Variable plan : Z -> Z -> endian -> option (option (list getop)).
Variable fs : list func.
Variable q : tpls.
Variable parsed : gv.

Definition find_func (n : string) : option func := find (fun f => String.eqb (fu_name f) n) fs.

(** Functions that are not run from their text here: [operations], [to_mutator],
    [gen_get_ops], [gen_set_ops] (run from their text in C96), [parse_ty] (DeriveParse.v),
    [syn::parse_str] (the tokens of a text; that they form an expression or a type is left
    out). *)
Definition outside (f : string) (l : list gv) : option gv :=
  if String.eqb f "Some" then match l with [v] => Some (GE "Some" [v]) | _ => None end
  else if String.eqb f "Ok" then match l with [v] => Some (GE "Ok" [v]) | _ => None end
  else if String.eqb f "Err" then match l with [v] => Some (GE "Err" [v]) | _ => None end
  else if String.eqb f "Error::new" then match l with [_; GS t] => Some (GS t) | _ => None end
  else if String.eqb f "proc_macro2::Span::call_site" then match l with [] => Some GUnit | _ => None end
  else if String.eqb f "Vec::new" then match l with [] => Some (GL []) | _ => None end
  else if String.eqb f "String::new" then match l with [] => Some (GS "") | _ => None end
  else if String.eqb f "parse::packet" then match l with [_; GS _] => Some parsed | _ => None end
  else if String.eqb f "syn::parse_str" then match l with [GS t] => option_map (fun l => GE "Ok" [GQ l]) (read_trees t) | _ => None end
  else if String.eqb f "to_mutator" then match l with [GO o] => Some (GM (to_mutator o)) | _ => None end
  else if String.eqb f "gen_get_ops" then match l with [GS n; GS t; GO o] => Some (GQ (get_ops_tokens n t o)) | _ => None end
  else if String.eqb f "gen_set_ops" then match l with [GS n; GM o] => Some (GQ (set_ops_tokens n o)) | _ => None end
  else if String.eqb f "parse_ty" then
    match l with
    | [GS t] => Some (gopt (fun '(z, e, b) => GT [GN z; gendian e;
                                                  GE (if b : bool then "EndiannessSpecified::Yes" else "EndiannessSpecified::No") []]) (parse_ty t))
    | _ => None
    end
  else None.

Definition operated (l : list gv) (s : genv) : gout :=
  match l with
  | [GN bit; GN size; e] =>
      match endian_of e with
      | Some e => match plan bit size e with Some o => Done (gopt GO o) s | None => Stuck end
      | None => Stuck
      end
  | _ => Stuck
  end.

(** Methods of std and proc-macro2. *)
Fixpoint enumerated (i : Z) (l : list gv) : list gv := match l with [] => [] | v :: r => GT [GN i; v] :: enumerated (i + 1) r end.
Definition std_method (v : gv) (f : string) (l : list gv) : option gv :=
  if String.eqb f "to_string" then match v with GQ t => Some (GS (trees_text t)) | _ => None end
  else if String.eqb f "replace" then match v, l with GS s, [GS a; GS b] => Some (GS (replace a b s)) | _, _ => None end
  else if String.eqb f "is_some" then match v with GE c _ => Some (GB (String.eqb c "Some")) | _ => None end
  else if (String.eqb f "as_ref" || String.eqb f "clone" || String.eqb f "iter")%bool then Some v
  else if (String.eqb f "unwrap" || String.eqb f "expect")%bool then
    match v with GE c [w] => if (String.eqb c "Some" || String.eqb c "Ok")%bool then Some w else None | _ => None end
  else if String.eqb f "enumerate" then match v with GL vs => Some (GL (enumerated 0 vs)) | _ => None end
  else None.

Definition arith (o : binop) (a b : Z) (s : genv) : gout :=
  match o with
  | OAdd => gnum (a + b) s
  | OSub => gnum (a - b) s
  | OMul => gnum (a * b) s
  | ODiv => if b =? 0 then Stuck else gnum (a / b) s
  | ORem => if b =? 0 then Stuck else gnum (a mod b) s
  | OEq => Done (GB (a =? b)) s
  | ONe => Done (GB (negb (a =? b))) s
  | _ => Stuck
  end.
Definition binary (o : binop) (v w : gv) (s : genv) : gout :=
  match v, w with
  | GN x, GN y => arith o x y s
  | GS x, GS y => match o with OEq => Done (GB (String.eqb x y)) s | _ => Stuck end
  | _, _ => Stuck
  end.
Definition macro (f : string) (vs : list gv) (s : genv) : gout :=
  if String.eqb f "vec" then Done (GL vs) s
  else if String.eqb f "named" then Done (GE "named!" vs) s
  else if String.eqb f "format" then match gformat vs with Some t => Done (GS t) s | None => Stuck end
  else if String.eqb f "format_ident" then match gformat vs with Some t => Done (GQ [TIdent t]) s | None => Stuck end
  else Stuck.
Definition tried (v : gv) (s : genv) : gout :=
  match v with
  | GE c [w] => if String.eqb c "Ok" then Done w s else if String.eqb c "Err" then Back v else Stuck
  | _ => Stuck
  end.

Fixpoint gev (n : nat) (e : xp) (s : genv) {struct n} : gout :=
  match n with
  | O => Stuck
  | S k =>
      let call f vs s :=
        match find_func f with
        | Some fn =>
            if Nat.eqb (length vs) (length (fu_params fn)) then
              match gev k (fu_body fn) (combine (map fst (fu_params fn)) vs) with
              | Done v _ | Back v => Done v s
              | Stuck => Stuck
              end
            else Stuck
        | None => Stuck
        end in
      match e with
      | YInt _ z => gnum z s
      | YStr t => Done (GS t) s
      | YPath p =>
          match gfind p s with
          | Some v => Done v s
          | None => if String.eqb p "true" then Done (GB true) s else if String.eqb p "false" then Done (GB false) s
                    else if (upper p || has_path p)%bool then Done (GE p []) s else Stuck
          end
      | YCall f l =>
          list_of (gev k) l s (fun vs s =>
            if String.eqb f "operations" then operated vs s
            else match outside f vs with Some v => Done v s | None => call (last_part "" f) vs s end)
      | YMeth a f l =>
          if String.eqb f "push" then
            match a, l with
            | YPath x, [b] =>
                andthen (gev k b s) (fun v s =>
                  match gfind x s with Some (GL vs) => Done GUnit (gset x (GL (vs ++ [v])%list) s) | _ => Stuck end)
            | _, _ => Stuck
            end
          else if String.eqb f "fold" then
            list_of (gev k) (a :: l) s (fun vs s =>
              match vs with [GL items; init; GC x y b] => folded (gev k) x y b s items init | _ => Stuck end)
          else list_of (gev k) (a :: l) s (fun vs s =>
                 match vs with
                 | v :: r => match std_method v f r with Some w => Done w s | None => call f vs s end
                 | [] => Stuck
                 end)
      | YProj a x => andthen (gev k a s) (fun v s => match v with GR l => match gfind x l with Some w => Done w s | None => Stuck end | _ => Stuck end)
      | YIndex a (YRange None None false) => gev k a s
      | YUn UNot a => andthen (gev k a s) (fun v s => match v with GB b => Done (GB (negb b)) s | _ => Stuck end)
      | YUn _ a => gev k a s
      | YBin o a b => andthen (gev k a s) (fun v s => andthen (gev k b s) (fun w s => binary o v w s))
      | YTup l => list_of (gev k) l s (fun vs s => Done (match vs with [] => GUnit | _ => GT vs end) s)
      | YStruct _ l => list_of (gev k) (map snd l) s (fun vs s => Done (GR (combine (map fst l) vs)) s)
      | YIf c a b =>
          andthen (gev k c s) (fun v s =>
            match v with
            | GB true => gev k a s
            | GB false => match b with Some b => gev k b s | None => Done GUnit s end
            | _ => Stuck
            end)
      | YMatch a arms => andthen (gev k a s) (fun v s => arms_of (gev k) v s arms)
      | YBlock l last => leave s (block_of (gev k) last l s)
      | YMac f l =>
          if String.eqb f "quasi" then
            match l with
            | [YStr key] =>
                match gfind key q with
                | Some t => Done (GQ (group_of (fill (gholes s) (TGroup "{}" t)))) s
                | None => Stuck
                end
            | _ => Stuck
            end
          else if String.eqb f "closure" then
            match l with [YPath a; YPath b; e] => Done (GC a b e) s | _ => Stuck end
          else list_of (gev k) l s (macro f)
      | YTry a => andthen (gev k a s) tried
      | YRet None => Back GUnit
      | YRet (Some a) => andthen (gev k a s) (fun v _ => Back v)
      | _ => Stuck
      end
  end.
End Run.

(** ** The macro *)

(** The functions of derive/src/gen.rs, lib.rs and parse.rs in GenCode.v. *)
Definition code_read : option (list func * tpls) := read_code macro_code [].
(** [generate_packet(s, name)] where [parse::packet] returns [parsed]: the tokens or the
    error message.  [None]: the macro panics or the run is stuck. *)
Definition run_code (code : option (list func * tpls)) (plan : Z -> Z -> endian -> option (option (list getop))) (parsed : gv)
    (name : string) : option (list ttree + string) :=
  match code with
  | Some (fs, q) =>
      match find_func fs "generate_packet" with
      | Some f =>
          match gev plan fs q parsed 100 (fu_body f) [("s", GUnit); ("name", GS name)] with
          | Done (GE c [v]) _ | Back (GE c [v]) =>
              match v with
              | GQ l => if String.eqb c "Ok" then Some (inl l) else None
              | GS t => if String.eqb c "Err" then Some (inr t) else None
              | _ => None
              end
          | _ => None
          end
      | None => None
      end
  | None => None
  end.
(** [operations] of DeriveUtil.v: [m] and [host_le] say how the macro was built. *)
Definition planned (m : mode) (host_le : bool) (bit size : Z) (e : endian) : option (option (list getop)) :=
  match operations m host_le bit size e with Ok o => Some o | Panic _ => None end.
Definition expand (m : mode) (host_le : bool) (base : string) (ps : list pfield) : option (list ttree + string) :=
  run_code code_read (planned m host_le) (GE "Ok" [gpacket base ps]) base.

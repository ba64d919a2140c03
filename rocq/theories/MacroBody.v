(** The bodies of [populate], [packet_size] and [from_packet] of any struct: lemmas behind C103. *)
From Coq Require Import String Ascii ZArith List Bool Lia.
From Verif Require Import Base DeriveUtil DeriveOps DeriveUtilProofs DeriveParse FmtText RustLex RustSyntax RustItem SpecItem RustMethod RustAst RustEval EmitText EmitGen GenCode MacroEval SpecMacro MacroParts MacroCode
  SpecAny MacroRound MacroImpl MacroRest MacroAny MacroTotal MacroFine MacroSig SpecBody.
Import ListNotations.
Open Scope string_scope.
Open Scope Z_scope.

Definition len_call (p : pfield) : list (list ttree) :=
  if pf_struct_len p then [[TIdent "_packet"; TPunct "."; TIdent (pf_name p); TPunct "."; TIdent "len"; TGroup "()" []]] else [].
Lemma field_body : forall m h nm p s s', emit_field m h nm p s = Some s' -> e_pop s' = (e_pop s ++ [set_call p])%list /\ e_soffs s' = (e_soffs s ++ len_call p)%list.
Proof.
  intros m h nm p s s' E. unfold emit_field in E. unfold set_call, len_call.
  destruct (pf_ty p) as [ty z e | [ty z e | t | ty] | ty];
    [destruct (ops_of m h (e_bit s) z e); [| discriminate E]
    | destruct (negb (z mod 8 =? 0)); [discriminate E |]; destruct (ops_of m h 0 z Big); [| discriminate E]
    | discriminate E | | destruct (misc_args m h nm (e_offs s) 0 (e_bit s) (pf_cons p)) as [[[[[b a] u] g] t] |]; [| discriminate E]];
    injection E as <-; cbn [e_pop e_soffs]; (split; [reflexivity |]); destruct (pf_struct_len p); try reflexivity; now rewrite app_nil_r.
Qed.
Lemma fields_body : forall m h nm ps s s', emit_fields m h nm ps s = Some s' -> e_pop s' = (e_pop s ++ map set_call ps)%list /\ e_soffs s' = (e_soffs s ++ flat_map len_call ps)%list.
Proof.
  intros m h nm. induction ps as [| p ps IH]; intros s s' E; cbn [emit_fields map flat_map] in *.
  - injection E as <-. rewrite !app_nil_r. now split.
  - destruct (emit_field m h nm p s) as [s1 |] eqn:E1; [| discriminate E]. destruct (field_body m h nm p s s1 E1) as [P S]. destruct (IH s1 s' E) as [P' S']. rewrite P', S', P, S, <- !app_assoc. now split.
Qed.
Lemma offset_flat : forall bit l, offset_tokens bit l = (usize_lit (bit / 8) ++ flat_map (fun b => TPunct "+" :: b) l)%list.
Proof.
  intros bit l. unfold offset_tokens. generalize (usize_lit (bit / 8)). induction l as [| b l IH]; intros a; cbn [fold_left flat_map]; [now rewrite app_nil_r |]. rewrite IH, <- app_assoc. reflexivity.
Qed.
Lemma lens_flat : forall ps, flat_map (fun b => TPunct "+" :: b) (flat_map len_call ps) = flat_map plus_len ps.
Proof. induction ps as [| p ps IH]; [reflexivity |]. cbn [flat_map]. rewrite flat_map_app, IH. f_equal. unfold len_call, plus_len. destruct (pf_struct_len p); reflexivity. Qed.
Lemma concat_calls : forall A (f : A -> list ttree) l, concat (map f l) = flat_map f l.
Proof. intros. now rewrite flat_map_concat_map. Qed.

Lemma pop_text : forall b l, contains (quote tpl_populate [("base_name", ident b); ("populate", HMany l)])
  (trees_of "pub fn populate" ++ [TGroup "()" (trees_of "&mut self, packet: &" ++ [TIdent b]); TGroup "{}" (flat l ++ [])])%list.
Proof. intros b l. exists (firstn 4 (quote tpl_populate [("base_name", ident b); ("populate", HMany l)])), []. vm_compute. reflexivity. Qed.
Lemma size_text : forall a b c md pd x ss, contains (fixed_part a b c md pd x ss)
  (trees_of "pub fn packet_size" ++ [TGroup "()" (trees_of "_packet: &" ++ [TIdent c])] ++ trees_of "-> usize" ++ [TGroup "{}" (ss ++ [])])%list.
Proof. intros. exists (firstn 74 (fixed_part a b c md pd x ss)), []. vm_compute. reflexivity. Qed.
Lemma min_text : forall a b c md pd x ss, contains (fixed_part a b c md pd [x] ss) (trees_of "pub const fn minimum_packet_size() -> usize" ++ [TGroup "{}" [x]])%list.
Proof. intros. exists (firstn 64 (fixed_part a b c md pd [x] ss)), (skipn 72 (fixed_part a b c md pd [x] ss)). vm_compute. reflexivity. Qed.
Definition flat_comma (l : list (list ttree)) : list ttree := between [] (map (fun v => (v ++ [TPunct ","])%list) l).
Lemma conv_text : forall n a b l, quote tpl_converters [("name", ident n); ("packet_name", ident a); ("packet_name_mut", ident b); ("get_fields", HMany l)] =
  (flat_map (fun name => trees_of "impl<'p> libpacket_core::FromPacket for" ++ [TIdent name] ++ trees_of "<'p>" ++
   [TGroup "{}" (trees_of "type T =" ++ [TIdent n] ++ trees_of "; #[inline] fn from_packet(&self) ->" ++ [TIdent n;
      TGroup "{}" (trees_of "use libpacket_core::Packet;" ++ [TIdent n; TGroup "{}" (flat_comma l ++ [])])])]) [a; b])%list.
Proof. intros. vm_compute. reflexivity. Qed.
Lemma between_nil : forall A (l : list (list A)), between [] l = concat l.
Proof. intros A. induction l as [| a l IH]; [reflexivity |]. cbn [concat]. rewrite <- IH. destruct l; cbn [between app]; [now rewrite app_nil_r | reflexivity]. Qed.

Lemma within : forall a l part b, contains l part -> contains (a ++ l ++ b) part.
Proof. intros a l part b (x & y & ->). exists (a ++ x)%list, (y ++ b)%list. now rewrite <- !app_assoc. Qed.
Lemma within_left : forall l part b, contains l part -> contains (l ++ b) part.
Proof. intros l part b (x & y & ->). exists x, (y ++ b)%list. now rewrite <- !app_assoc. Qed.
Lemma size_body : forall a b c md pd x bits ps, contains (fixed_part a b c md pd x (usize_lit (bits / 8) ++ flat_map plus_len ps))
  (trees_of "pub fn packet_size" ++ [TGroup "()" (trees_of "_packet: &" ++ [TIdent c])] ++ trees_of "-> usize" ++ [TGroup "{}" (usize_lit (bits / 8) ++ flat_map plus_len ps)])%list.
Proof. intros. rewrite <- (app_nil_r (usize_lit (bits / 8) ++ flat_map plus_len ps)) at 2. apply size_text. Qed.
Lemma size_fn : forall base ps, packet_size_fn base ps = (trees_of "pub fn packet_size" ++ [TGroup "()" (trees_of "_packet: &" ++ [TIdent base])] ++ trees_of "-> usize" ++
   [TGroup "{}" (usize_lit (all_bits ps / 8) ++ flat_map plus_len ps)])%list.
Proof. reflexivity. Qed.
Lemma min_body : forall a b c md pd n ss, contains (fixed_part a b c md pd (usize_lit n) ss) (minimum_fn n).
Proof. intros. unfold minimum_fn, usize_lit. apply min_text. Qed.
Lemma pop_body : forall b ps, contains (quote tpl_populate [("base_name", ident b); ("populate", HMany (map set_call ps))]) (populate_fn b ps).
Proof. intros. unfold populate_fn. rewrite <- (concat_calls _ set_call ps), <- flat_concat, <- (app_nil_r (flat (map set_call ps))). apply pop_text. Qed.
Definition up (bits : Z) : Z := if bits mod 8 =? 0 then bits / 8 else bits / 8 + 1.
Lemma up_is : forall b, up b = (b + 7) / 8.
Proof. intros b. unfold up. destruct (Z.eqb_spec (b mod 8) 0); Z.div_mod_to_equations; lia. Qed.
Lemma body_text : forall base mu s, impl_from base mu s = (trees_of "impl<'a>" ++ [TIdent (type_name base mu)] ++ trees_of "<'a>" ++
  [TGroup "{}" (fixed_part (type_name base mu) (type_name base false) base (if mu then [TIdent "mut"] else []) (if mu then "MutPacketData" else "PacketData") (usize_lit (up (e_bit s))) (offset_tokens (e_bit s) (e_soffs s)) ++
     (if mu then quote tpl_populate [("base_name", ident base); ("populate", HMany (e_pop s))] else []) ++ flat (e_acc s) ++ flat (if mu then e_mut s else []) ++ [])])%list.
Proof. intros. unfold impl_from, up. apply impl_text. Qed.
Lemma impl_bodies : forall m h base mu ps s, emit_fields m h (type_name base mu) ps start = Some s ->
  exists body, impl_from base mu s = (trees_of "impl<'a>" ++ [TIdent (type_name base mu)] ++ trees_of "<'a>" ++ [TGroup "{}" body])%list /\
    contains body (packet_size_fn base ps) /\ contains body (minimum_fn (up (all_bits ps))) /\
    (mu = true -> contains body (populate_fn base ps)).
Proof.
  intros m h base mu ps s E. destruct (fields_body m h _ ps start s E) as [P S]. pose proof (bit_is m h _ ps start s E) as Bt. cbn [start e_pop e_soffs e_bit app] in P, S, Bt. rewrite Z.add_0_l in Bt.
  eexists. split; [apply body_text |]. rewrite P, S, Bt, offset_flat, lens_flat. split; [| split].
  - apply within_left. rewrite size_fn. apply size_body.
  - apply within_left. apply min_body.
  - intros ->. apply within. apply pop_body.
Qed.
Lemma conv_is : forall base ps, emit_converters base ps = (from_packet_impl (type_name base false) base ps ++ from_packet_impl (type_name base true) base ps)%list.
Proof.
  intros base ps. unfold emit_converters. rewrite conv_text. cbn [flat_map]. rewrite app_nil_r. unfold from_packet_impl, flat_comma. rewrite between_nil, app_nil_r, map_map, concat_calls. reflexivity.
Qed.
Lemma any_bodies : forall m h base ps, all_bits ps < 2 ^ 64 -> all_fine 0 [] ps -> all_code 0 ps ->
  exists before body mbody mid after,
    expand m h base ps = Some (inl (before ++ (trees_of "impl<'a>" ++ [TIdent (type_name base false)] ++ trees_of "<'a>" ++ [TGroup "{}" body]) ++
      (trees_of "impl<'a>" ++ [TIdent (type_name base true)] ++ trees_of "<'a>" ++ [TGroup "{}" mbody]) ++ mid ++
      (from_packet_impl (type_name base false) base ps ++ from_packet_impl (type_name base true) base ps) ++ after)%list) /\
    (forall b, b = body \/ b = mbody -> contains b (packet_size_fn base ps) /\ contains b (minimum_fn ((all_bits ps + 7) / 8))) /\
    contains mbody (populate_fn base ps).
Proof.
  intros m h base ps B F C. destruct (fields_total m h (type_name base false) ps start C) as [s E]. destruct (fields_total m h (type_name base true) ps start C) as [t T].
  destruct (any_code m h base ps B F C) as (out & W & X). rewrite X. clear X. revert W. unfold want_code, want_parts. rewrite !impl_is, !packet_is, size_is, E, T. cbn [option_map].
  destruct (debug_total base ps false) as [d ->], (debug_total base ps true) as [dm ->]. unfold together.
  destruct (impl_bodies m h base false ps s E) as (body & I & S1 & S2 & _). destruct (impl_bodies m h base true ps t T) as (mbody & IM & M1 & M2 & M3). specialize (M3 eq_refl).
  rewrite up_is in S2, M2. pose proof (conv_is base ps) as CV. rewrite <- CV. clear CV. revert I IM.
  generalize (packet_from base false false s), (packet_from base true false s), (packet_from base true true s), (size_from base s), (emit_iterable base), (emit_converters base ps),
    (want_struct base false), (want_struct base true), (impl_from base false s), (impl_from base true t).
  intros l0 l1 l2 l3 l4 l5 l6 l7 i im I IM W. injection W as <-.
  exists (l6 ++ l7)%list, body, mbody, (l0 ++ l1 ++ l2 ++ l3 ++ l4)%list, (d ++ dm ++ [])%list. rewrite <- I, <- IM.
  split; [now rewrite <- !app_assoc |]. split; [intros b [-> | ->]; now split | exact M3].
Qed.

Lemma any_populate : forall m h base ps, all_bits ps < 2 ^ 64 -> all_fine 0 [] ps -> all_code 0 ps ->
  exists before im after, expand m h base ps = Some (inl (before ++ im ++ after)%list) /\ impl_holds (type_name base true) (populate_fn base ps) im.
Proof.
  intros m h base ps B F C. destruct (any_bodies m h base ps B F C) as (before & body & mbody & mid & after & X & _ & P). rewrite X.
  rewrite (app_assoc before). do 3 eexists. split; [reflexivity |]. exists mbody. split; [reflexivity | exact P].
Qed.
Lemma any_sizes : forall m h base ps, all_bits ps < 2 ^ 64 -> all_fine 0 [] ps -> all_code 0 ps ->
  exists before i im after, expand m h base ps = Some (inl (before ++ i ++ im ++ after)%list) /\
    (impl_holds (type_name base false) (minimum_fn ((all_bits ps + 7) / 8)) i /\ impl_holds (type_name base false) (packet_size_fn base ps) i) /\
    (impl_holds (type_name base true) (minimum_fn ((all_bits ps + 7) / 8)) im /\ impl_holds (type_name base true) (packet_size_fn base ps) im).
Proof.
  intros m h base ps B F C. destruct (any_bodies m h base ps B F C) as (before & body & mbody & mid & after & X & Q & _). rewrite X.
  destruct (Q body (or_introl eq_refl)) as [S M], (Q mbody (or_intror eq_refl)) as [S' M']. do 4 eexists. split; [reflexivity |].
  repeat split; eexists; (split; [reflexivity |]); assumption.
Qed.
Lemma any_from_packet : forall m h base ps, all_bits ps < 2 ^ 64 -> all_fine 0 [] ps -> all_code 0 ps ->
  exists before after, expand m h base ps = Some (inl (before ++ from_packet_impl (type_name base false) base ps ++ from_packet_impl (type_name base true) base ps ++ after)%list).
Proof.
  intros m h base ps B F C. destruct (any_bodies m h base ps B F C) as (before & body & mbody & mid & after & X & _). rewrite X.
  generalize (from_packet_impl (type_name base false) base ps), (from_packet_impl (type_name base true) base ps). intros u v.
  generalize (trees_of "impl<'a>" ++ [TIdent (type_name base false)] ++ trees_of "<'a>" ++ [TGroup "{}" body])%list, (trees_of "impl<'a>" ++ [TIdent (type_name base true)] ++ trees_of "<'a>" ++ [TGroup "{}" mbody])%list. intros w z.
  exists (before ++ w ++ z ++ mid)%list, after. now rewrite <- !app_assoc.
Qed.

Definition half : list pfield :=
  [PField "kind" (RPrimitive "u4" 4 Big) None false false []; PField "body" (RVector (RPrimitive "u8" 8 Big)) None true true []].
Lemma half_fine : all_bits half < 2 ^ 64 /\ all_fine 0 [] half /\ all_code 0 half.
Proof. apply covered_ok. vm_cast_no_check (eq_refl true). Qed.
Lemma short_size : exists text name sf ps, read_struct text = Some (name, sf) /\ parse_packet sf = Ok (inl ps) /\ forall m h, exists before i after,
  expand m h name ps = Some (inl (before ++ i ++ after)%list) /\
  impl_holds (name ++ "Packet") (trees_of "pub const fn minimum_packet_size() -> usize { 1usize }") i /\
  impl_holds (name ++ "Packet") (trees_of "pub fn packet_size(_packet: &Half) -> usize { 0usize + _packet.body.len() }") i.
Proof.
  exists "pub struct Half { pub kind: u4, #[payload] pub body: Vec<u8>, }", "Half". eexists. exists half. split; [vm_compute; reflexivity |]. split; [vm_compute; reflexivity |].
  intros m h. destruct half_fine as (B & F & C). destruct (any_sizes m h "Half" half B F C) as (before & i & im & after & X & (M & S) & _). exists before, i, (im ++ after)%list. split; [exact X |].
  replace (trees_of "pub const fn minimum_packet_size() -> usize { 1usize }") with (minimum_fn ((all_bits half + 7) / 8)) by (vm_compute; reflexivity).
  replace (trees_of "pub fn packet_size(_packet: &Half) -> usize { 0usize + _packet.body.len() }") with (packet_size_fn "Half" half) by (vm_compute; reflexivity).
  split; [exact M | exact S].
Qed.

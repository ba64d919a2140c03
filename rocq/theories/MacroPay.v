(** The payload and the [PacketSize] of any struct: lemmas behind C104. *)
From Coq Require Import String Ascii ZArith List Bool Lia.
From Verif Require Import Base DeriveUtil DeriveOps DeriveUtilProofs DeriveParse FmtText RustLex RustSyntax RustItem SpecItem RustMethod RustAst RustEval EmitText EmitGen GenCode MacroEval SpecMacro MacroParts MacroCode
  SpecAny MacroRound MacroImpl MacroRest MacroAny MacroTotal MacroFine MacroSig SpecBody MacroBody SpecPay.
Import ListNotations.
Open Scope string_scope.
Open Scope Z_scope.

Lemma place_is : forall bit l, offset_tokens bit l = place_of bit l.
Proof. intros. rewrite offset_flat. reflexivity. Qed.
Lemma offs_are : forall m h nm ps s s', emit_fields m h nm ps s = Some s' -> e_offs s' = lens_from (e_bit s) (e_offs s) ps.
Proof.
  intros m h nm. induction ps as [| p ps IH]; intros s s' E; cbn [emit_fields lens_from] in *; [injection E as <-; reflexivity |].
  destruct (emit_field m h nm p s) as [s1 |] eqn:E1; [| discriminate E]. destruct (emit_next m h nm p s s1 E1) as [N O]. rewrite (IH s1 s' E), N, O. unfold more_offs.
  destruct (pf_len p); [now rewrite place_is | reflexivity].
Qed.
Definition bounds_of (s : emitted) (p : pfield) : list ttree * list ttree :=
  let co := offset_tokens (e_bit s) (e_offs s) in
  if pf_payload p then (co, match pf_len p with Some l => (co ++ TPunct "+" :: length_expr co l)%list | None => packet_len end) else (e_lower s, e_upper s).
Lemma field_bounds : forall m h nm p s s', emit_field m h nm p s = Some s' -> (e_lower s', e_upper s') = bounds_of s p.
Proof.
  intros m h nm p s s' E. unfold emit_field in E. unfold bounds_of.
  destruct (pf_ty p) as [ty z e | [ty z e | t | ty] | ty];
    [destruct (ops_of m h (e_bit s) z e); [| discriminate E]
    | destruct (negb (z mod 8 =? 0)); [discriminate E |]; destruct (ops_of m h 0 z Big); [| discriminate E]
    | discriminate E | | destruct (misc_args m h nm (e_offs s) 0 (e_bit s) (pf_cons p)) as [[[[[b a] u] g] t] |]; [| discriminate E]];
    injection E as <-; cbn [e_lower e_upper]; destruct (pf_payload p); destruct (pf_len p); reflexivity.
Qed.
Lemma bounds_stay : forall m h nm ps s s', Forall (fun p => pf_payload p = false) ps -> emit_fields m h nm ps s = Some s' -> (e_lower s', e_upper s') = (e_lower s, e_upper s).
Proof.
  intros m h nm. induction ps as [| p ps IH]; intros s s' F E; cbn [emit_fields] in *; [injection E as <-; reflexivity |].
  inversion F as [| ? ? P R]; subst. destruct (emit_field m h nm p s) as [s1 |] eqn:E1; [| discriminate E]. rewrite (IH s1 s' R E). rewrite (field_bounds m h nm p s s1 E1). unfold bounds_of. now rewrite P.
Qed.
Lemma split_fields : forall m h nm a b s s', emit_fields m h nm (a ++ b)%list s = Some s' -> exists t, emit_fields m h nm a s = Some t /\ emit_fields m h nm b t = Some s'.
Proof.
  intros m h nm. induction a as [| p a IH]; intros b s s' E; cbn [emit_fields app] in *; [exists s; now split |]. destruct (emit_field m h nm p s); [now apply IH | discriminate E].
Qed.
Lemma bounds_are : forall m h nm a p b s, emit_fields m h nm (a ++ p :: b)%list start = Some s -> pf_payload p = true -> Forall (fun p => pf_payload p = false) b ->
  e_lower s = place a /\ e_upper s = payload_end a p.
Proof.
  intros m h nm a p b s E P R. destruct (split_fields m h nm a (p :: b) start s E) as (t & A & B). cbn [emit_fields] in B. destruct (emit_field m h nm p t) as [t1 |] eqn:E1; [| discriminate B].
  pose proof (bounds_stay m h nm b t1 s R B) as S. rewrite (field_bounds m h nm p t t1 E1) in S. unfold bounds_of in S. rewrite P in S.
  rewrite (bit_is m h nm a start t A), (offs_are m h nm a start t A), place_is in S. cbn [start e_bit e_offs] in S. rewrite Z.add_0_l in S. fold (place a) in S. injection S as -> ->.
  split; [reflexivity |]. unfold payload_end. destruct (pf_len p); [reflexivity | vm_compute; reflexivity].
Qed.

Lemma pay_text : forall n lo up, trait_holds "Packet" n (payload_fn lo up)
  (quote tpl_packet_trait [("name", ident n); ("lower", HOne lo); ("upper", HOne up); ("mut_", HOne []); ("packet", ident "packet"); ("payload", ident "payload"); ("trait_name", ident "Packet")]).
Proof.
  intros. match goal with |- trait_holds _ _ _ ?q => exists (match last q (TPunct "") with TGroup _ g => g | _ => [] end) end.
  split; [vm_compute; reflexivity |]. match goal with |- contains ?l ?p => exists (firstn (length l - length p) l), [] end. vm_compute. reflexivity.
Qed.
Lemma pay_mut_text : forall n lo up, trait_holds "MutablePacket" n (payload_mut_fn lo up)
  (quote tpl_packet_trait [("name", ident n); ("lower", HOne lo); ("upper", HOne up); ("mut_", HOne [TIdent "mut"]); ("packet", ident "packet_mut"); ("payload", ident "payload_mut"); ("trait_name", ident "MutablePacket")]).
Proof.
  intros. match goal with |- trait_holds _ _ _ ?q => exists (match last q (TPunct "") with TGroup _ g => g | _ => [] end) end.
  split; [vm_compute; reflexivity |]. match goal with |- contains ?l ?p => exists (firstn (length l - length p) l), [] end. vm_compute. reflexivity.
Qed.
Lemma size_pair : forall a b x, exists i j, quote tpl_size_impls [("name", ident a); ("name_mut", ident b); ("size", HOne x)] = (i ++ j)%list /\
  trait_holds "PacketSize" a (sized_fn (x ++ [])) i /\ trait_holds "PacketSize" b (sized_fn (x ++ [])) j.
Proof.
  intros. pose (q := quote tpl_size_impls [("name", ident a); ("name_mut", ident b); ("size", HOne x)]). exists (firstn (Nat.div2 (length q)) q), (skipn (Nat.div2 (length q)) q). split; [vm_compute; reflexivity |].
  split; (match goal with |- trait_holds _ _ _ ?r => exists (match last r (TPunct "") with TGroup _ g => g | _ => [] end) end;
    split; [vm_compute; reflexivity |]; match goal with |- contains ?l ?p => exists (firstn (length l - length p) l), [] end; vm_compute; reflexivity).
Qed.

Lemma packet_pay : forall base a p b m h nm s, emit_fields m h nm (a ++ p :: b)%list start = Some s -> pf_payload p = true -> Forall (fun p => pf_payload p = false) b ->
  trait_holds "Packet" (type_name base false) (payload_fn (place a) (payload_end a p)) (packet_from base false false s) /\
  trait_holds "Packet" (type_name base true) (payload_fn (place a) (payload_end a p)) (packet_from base true false s) /\
  trait_holds "MutablePacket" (type_name base true) (payload_mut_fn (place a) (payload_end a p)) (packet_from base true true s).
Proof.
  intros base a p b m h nm s E P R. destruct (bounds_are m h nm a p b s E P R) as [L U]. unfold packet_from. rewrite L, U. cbv iota. split; [apply pay_text |]. split; [apply pay_text | apply pay_mut_text].
Qed.
Lemma size_two : forall base m h nm ps s, emit_fields m h nm ps start = Some s ->
  exists i j, size_from base s = (i ++ j)%list /\ trait_holds "PacketSize" (type_name base false) (sized_fn (place ps)) i /\ trait_holds "PacketSize" (type_name base true) (sized_fn (place ps)) j.
Proof.
  intros base m h nm ps s E. unfold size_from. rewrite (bit_is m h nm ps start s E), (offs_are m h nm ps start s E), place_is. cbn [start e_bit e_offs]. rewrite Z.add_0_l. fold (place ps).
  destruct (size_pair (type_name base false) (type_name base true) (place ps)) as (i & j & Q & A & B). rewrite app_nil_r in A, B. exists i, j. now split.
Qed.
Lemma any_sized : forall m h base ps, all_bits ps < 2 ^ 64 -> all_fine 0 [] ps -> all_code 0 ps ->
  exists before i j after, expand m h base ps = Some (inl (before ++ i ++ j ++ after)%list) /\
    trait_holds "PacketSize" (type_name base false) (sized_fn (place ps)) i /\ trait_holds "PacketSize" (type_name base true) (sized_fn (place ps)) j.
Proof.
  intros m h base ps B F C. destruct (fields_total m h (type_name base false) ps start C) as [s E]. destruct (fields_total m h (type_name base true) ps start C) as [t T].
  destruct (any_code m h base ps B F C) as (out & W & X). rewrite X. clear X. revert W. unfold want_code, want_parts. rewrite !impl_is, !packet_is, size_is, E, T. cbn [option_map].
  destruct (debug_total base ps false) as [d ->], (debug_total base ps true) as [dm ->]. unfold together.
  destruct (size_two base m h _ ps s E) as (i & j & Z & I & J). rewrite Z.
  generalize (packet_from base false false s), (packet_from base true false s), (packet_from base true true s), (emit_iterable base), (emit_converters base ps),
    (want_struct base false), (want_struct base true), (impl_from base false s), (impl_from base true t).
  intros l0 l1 l2 l4 l5 l6 l7 u v W. injection W as <-.
  exists (l6 ++ l7 ++ u ++ v ++ l0 ++ l1 ++ l2)%list, i, j, (l4 ++ l5 ++ d ++ dm ++ [])%list. split; [now rewrite <- !app_assoc |]. now split.
Qed.
Lemma any_payload : forall m h base a p b, let ps := (a ++ p :: b)%list in all_bits ps < 2 ^ 64 -> all_fine 0 [] ps -> all_code 0 ps ->
  pf_payload p = true -> Forall (fun q => pf_payload q = false) b ->
  exists before i j k after, expand m h base ps = Some (inl (before ++ i ++ j ++ k ++ after)%list) /\
    trait_holds "Packet" (type_name base false) (payload_fn (place a) (payload_end a p)) i /\
    trait_holds "Packet" (type_name base true) (payload_fn (place a) (payload_end a p)) j /\
    trait_holds "MutablePacket" (type_name base true) (payload_mut_fn (place a) (payload_end a p)) k.
Proof.
  intros m h base a p b ps B F C P R. destruct (fields_total m h (type_name base false) ps start C) as [s E]. destruct (fields_total m h (type_name base true) ps start C) as [t T].
  pose proof (packet_pay base a p b m h _ s E P R) as K.
  destruct (any_code m h base ps B F C) as (out & W & X). rewrite X. clear X. revert W. unfold want_code, want_parts. rewrite !impl_is, !packet_is, size_is, E, T. cbn [option_map].
  destruct (debug_total base ps false) as [d ->], (debug_total base ps true) as [dm ->]. unfold together. revert K.
  generalize (packet_from base false false s), (packet_from base true false s), (packet_from base true true s), (size_from base s), (emit_iterable base), (emit_converters base ps),
    (want_struct base false), (want_struct base true), (impl_from base false s), (impl_from base true t).
  intros i j k l3 l4 l5 l6 l7 u v K W. injection W as <-.
  exists (l6 ++ l7 ++ u ++ v)%list, i, j, k, (l3 ++ l4 ++ l5 ++ d ++ dm ++ [])%list. split; [now rewrite <- !app_assoc | exact K].
Qed.
Lemma lens_app : forall a bits lens p, pf_len p = None -> lens_from bits lens (a ++ [p])%list = lens_from bits lens a.
Proof. induction a as [| q a IH]; intros bits lens p N; cbn [app lens_from]; [now rewrite N | now apply IH]. Qed.
Lemma bits_app : forall a b, all_bits (a ++ b)%list = all_bits a + all_bits b.
Proof. unfold all_bits. induction a as [| q a IH]; intros b; [reflexivity |]. cbn [app map fold_right]. rewrite IH. lia. Qed.
Lemma last_payload : forall a p t, pf_ty p = RVector t -> pf_len p = None -> place (a ++ [p])%list = place a.
Proof. intros a p t T N. unfold place. rewrite (lens_app a 0 [] p N), bits_app. unfold all_bits at 2. cbn [map fold_right]. unfold bits_taken. rewrite T. now rewrite !Z.add_0_r. Qed.
Lemma any_whole : forall m h base a p t, let ps := (a ++ [p])%list in all_bits ps < 2 ^ 64 -> all_fine 0 [] ps -> all_code 0 ps ->
  pf_payload p = true -> pf_ty p = RVector t -> pf_len p = None ->
  exists before i j k u v after size, expand m h base ps = Some (inl (before ++ i ++ j ++ k ++ u ++ v ++ after)%list) /\
    trait_holds "Packet" (type_name base false) (payload_fn size (trees_of "self.packet.len()")) i /\
    trait_holds "Packet" (type_name base true) (payload_fn size (trees_of "self.packet.len()")) j /\
    trait_holds "MutablePacket" (type_name base true) (payload_mut_fn size (trees_of "self.packet.len()")) k /\
    trait_holds "PacketSize" (type_name base false) (sized_fn size) u /\ trait_holds "PacketSize" (type_name base true) (sized_fn size) v.
Proof.
  intros m h base a p y ps B F C P V N. destruct (fields_total m h (type_name base false) ps start C) as [s E]. destruct (fields_total m h (type_name base true) ps start C) as [t T].
  destruct (packet_pay base a p [] m h _ s E P (Forall_nil _)) as (K1 & K2 & K3). unfold payload_end in K1, K2, K3. rewrite N in K1, K2, K3.
  destruct (any_code m h base ps B F C) as (out & W & X). rewrite X. clear X. revert W. unfold want_code, want_parts. rewrite !impl_is, !packet_is, size_is, E, T. cbn [option_map].
  destruct (debug_total base ps false) as [d ->], (debug_total base ps true) as [dm ->]. unfold together.
  destruct (size_two base m h _ ps s E) as (i & j & Z & I & J). rewrite Z. unfold ps in I, J. rewrite (last_payload a p y V N) in I, J. revert K1 K2 K3 I J. generalize (place a). intros size K1 K2 K3 I J. revert K1 K2 K3.
  generalize (packet_from base false false s), (packet_from base true false s), (packet_from base true true s), (emit_iterable base), (emit_converters base ps),
    (want_struct base false), (want_struct base true), (impl_from base false s), (impl_from base true t).
  intros l0 l1 l2 l4 l5 l6 l7 u v K1 K2 K3 W. injection W as <-.
  exists (l6 ++ l7 ++ u ++ v)%list, l0, l1, l2, i, j, (l4 ++ l5 ++ d ++ dm ++ [])%list, size. split; [now rewrite <- !app_assoc |]. now repeat split.
Qed.
Lemma shared_byte : exists text name sf ps, read_struct text = Some (name, sf) /\ parse_packet sf = Ok (inl ps) /\ forall m h, exists before i after,
  expand m h name ps = Some (inl (before ++ i ++ after)%list) /\ all_bits ps = 4 /\
  trait_holds "Packet" (name ++ "Packet") (payload_fn (trees_of "0usize") (trees_of "self.packet.len()")) i.
Proof.
  exists "pub struct Half { pub kind: u4, #[payload] pub body: Vec<u8>, }", "Half". eexists. exists half. split; [vm_compute; reflexivity |]. split; [vm_compute; reflexivity |].
  intros m h. destruct half_fine as (B & F & C). unfold half in B, F, C |- *.
  match type of F with all_fine _ _ [?a; ?p] => destruct (any_payload m h "Half" [a] p [] B F C eq_refl (Forall_nil _)) as (before & i & j & k & after & X & I & _) end.
  exists before, i, (j ++ k ++ after)%list. split; [exact X |]. split; [reflexivity |].
  match type of I with trait_holds _ _ (payload_fn ?u ?v) _ => replace (trees_of "0usize") with u by (vm_compute; reflexivity); replace (trees_of "self.packet.len()") with v by (vm_compute; reflexivity) end. exact I.
Qed.

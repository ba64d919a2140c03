(** The methods of the packet types of any struct: lemmas behind C102. *)
From Coq Require Import String Ascii ZArith List Bool Lia.
From Verif Require Import Base DeriveUtil DeriveOps DeriveUtilProofs DeriveParse FmtText RustLex RustSyntax RustMethod RustAst RustEval EmitText EmitGen GenCode MacroEval SpecMacro MacroParts MacroCode
  SpecAny MacroRound MacroImpl MacroRest MacroAny MacroTotal MacroFine SpecSig SpecEmit SpecItem EmitWant CrateText.
Import ListNotations.
Open Scope string_scope.
Open Scope Z_scope.

Definition ends (l : list ttree) : bool := match last l (TPunct "") with TGroup _ _ => true | _ => false end.
Lemma params_app : forall a b, ends a = true -> params (a ++ b)%list = params a.
Proof.
  induction a as [| t a IH]; intros b E; [discriminate E |]. cbn [app params]. destruct t; try reflexivity.
  all: destruct a as [| u a]; [discriminate E | apply IH; exact E].
Qed.
Lemma declared_app : forall a b, ends a = true -> declared (a ++ b)%list = (declared a ++ declared b)%list.
Proof.
  induction a as [| t a IH]; intros b E; [discriminate E |]. destruct a as [| u a].
  - destruct t; try discriminate E. reflexivity.
  - assert (E' : ends (u :: a) = true) by exact E. change ((t :: u :: a) ++ b)%list with (t :: (u :: a) ++ b)%list.
    cbn [declared]. cbn [declared] in IH. rewrite IH by exact E'. rewrite app_assoc. f_equal. f_equal. cbn [app].
    destruct t; try reflexivity. destruct u; try reflexivity. destruct (String.eqb s "fn"); [| reflexivity].
    destruct a as [| v a]; [discriminate E' |]. rewrite params_app by exact E'. reflexivity.
Qed.
(** A piece of the body: some functions, and then a group. *)
Definition piece (l : list ttree) (ms : list (string * string)) : Prop := ends l = true /\ signatures l = ms.
Lemma sig_app : forall a b ms, piece a ms -> signatures (a ++ b)%list = (ms ++ signatures b)%list.
Proof. intros a b ms [E S]. unfold signatures in *. rewrite declared_app by exact E. rewrite map_app. now rewrite S. Qed.
Lemma sig_concat : forall l mss b, Forall2 piece l mss -> signatures (concat l ++ b)%list = (concat mss ++ signatures b)%list.
Proof.
  intros l mss b F. induction F as [| a ms l mss P _ IH]; [reflexivity |]. cbn [concat]. rewrite <- !app_assoc. rewrite (sig_app _ _ _ P). now rewrite IH.
Qed.

Ltac here := split; vm_compute; reflexivity.
Lemma p_get : forall n ty co ops, piece (gen_accessor n ty co ops None) [("get_" ++ n, "&self")].
Proof. intros n ty co ops. unfold gen_accessor, ident. generalize (get_ops_tokens "self.packet" ty ops), (str_lit (get_comment n ty)). intros. here. Qed.
Lemma p_set : forall n ty co ops, piece (gen_mutator n ty co ops None) [("set_" ++ n, "&mut self")].
Proof. intros n ty co ops. unfold gen_mutator, ident. generalize (set_ops_tokens "self.packet" ops), (str_lit (set_comment n ty)). intros. here. Qed.
Lemma p_raw : forall n co len, piece (quote tpl_raw [("get_field_name_raw", ident n); ("co", HOne co); ("packet_length", HOne len)]) [(n, "&self")].
Proof. intros. here. Qed.
Lemma p_raw_mut : forall n co len, piece (quote tpl_raw_mut [("get_field_name_raw_mut", ident n); ("co", HOne co); ("packet_length", HOne len)]) [(n, "&mut self")].
Proof. intros. here. Qed.
Lemma p_vec_get : forall x g s ty co len z, piece (quote tpl_vec_get [("access_ops", HOne x); ("get_name", ident g); ("set_name", ident s); ("inner_ty", ident ty); ("co", HOne co);
  ("packet_length", HOne len); ("size", HOne z)]) [(g, "&self")].
Proof. intros. here. Qed.
Lemma p_vec_set : forall x y g s ty co len z, piece (quote tpl_vec_set [("check_len", HOne x); ("copy_vals", HOne y); ("get_name", ident g); ("set_name", ident s); ("inner_ty", ident ty); ("co", HOne co);
  ("packet_length", HOne len); ("size", HOne z)]) [(s, "&mut self")].
Proof. intros. here. Qed.
Section Pkts.
Variables (g s it ty ti tm : string) (co len : list ttree).
Let h := [("get_name", ident g); ("set_name", ident s); ("get_name_iter", ident it); ("inner_ty", ident ty); ("inner_ty_iterable", ident ti);
  ("inner_ty_packet_mut", ident tm); ("co", HOne co); ("packet_length", HOne len)].
Lemma p_pkts_get : piece (quote tpl_pkts_get h) [(g, "&self"); (it, "&self")].
Proof. here. Qed.
Lemma p_pkts_set : piece (quote tpl_pkts_set h) [(s, "&mut self")].
Proof. here. Qed.
End Pkts.
Section Misc.
Variables (g s ty : string) (a u x y : list (list ttree)).
Let h := [("get_field_name", ident g); ("set_field_name", ident s); ("ty", ident ty); ("inner_accessors", HMany a); ("inner_mutators", HMany u); ("get_args", HMany x); ("set_args", HMany y)].
Lemma p_misc_get : piece (quote tpl_misc_get h) [(g, "&self")].
Proof. here. Qed.
Lemma p_misc_set : piece (quote tpl_misc_set h) [(s, "&mut self")].
Proof. here. Qed.
End Misc.

Definition covers (l : list (list ttree)) (ms : list (string * string)) : Prop := exists mss, Forall2 piece l mss /\ concat mss = ms.
Lemma cov_nil : covers [] [].
Proof. exists []. split; [constructor | reflexivity]. Qed.
Lemma cov_one : forall a ms, piece a ms -> covers [a] ms.
Proof. intros a ms P. exists [ms]. split; [constructor; [exact P | constructor] | apply app_nil_r]. Qed.
Lemma cov_app : forall a b x y, covers a x -> covers b y -> covers (a ++ b)%list (x ++ y)%list.
Proof. intros a b x y (m1 & F1 & <-) (m2 & F2 & <-). exists (m1 ++ m2)%list. split; [now apply Forall2_app | apply concat_app]. Qed.

Section Sig.
Variables (m : mode) (h : bool) (nm : string).
Lemma field_sig : forall p s s', emit_field m h nm p s = Some s' ->
  exists a u, e_acc s' = (e_acc s ++ a)%list /\ e_mut s' = (e_mut s ++ u)%list /\ covers a (getters p) /\ covers u (setters p).
Proof.
  intros p s s' E. unfold emit_field in E. unfold getters, setters. destruct (pf_ty p) as [ty z e | [ty z e | t | ty] | ty].
  - destruct (ops_of m h (e_bit s) z e) as [ops |]; [| discriminate E]. injection E as <-. cbn [e_acc e_mut]. do 2 eexists. split; [reflexivity |]. split; [reflexivity |].
    split; apply cov_one; [apply p_get | apply p_set].
  - destruct (negb (z mod 8 =? 0)); [discriminate E |]. destruct (ops_of m h 0 z Big) as [ops |]; [| discriminate E]. injection E as <-. cbn [e_acc e_mut].
    do 2 eexists. split; [reflexivity |]. split; [reflexivity |].
    split; (apply cov_app; [destruct (pf_payload p); [apply cov_nil | apply cov_one] | apply cov_one]); [apply p_raw | apply p_vec_get | apply p_raw_mut | apply p_vec_set].
  - discriminate E.
  - injection E as <-. cbn [e_acc e_mut]. do 2 eexists. split; [reflexivity |]. split; [reflexivity |].
    split; (apply cov_app; [destruct (pf_payload p); [apply cov_nil | apply cov_one] | apply cov_one]); [apply p_raw | apply p_pkts_get | apply p_raw_mut | apply p_pkts_set].
  - destruct (misc_args m h nm (e_offs s) 0 (e_bit s) (pf_cons p)) as [[[[[b a] u] g] t] |]; [| discriminate E]. injection E as <-. cbn [e_acc e_mut].
    do 2 eexists. split; [reflexivity |]. split; [reflexivity |]. split; apply cov_one; [apply p_misc_get | apply p_misc_set].
Qed.
Lemma fields_sig : forall ps s s' x y, emit_fields m h nm ps s = Some s' -> covers (e_acc s) x -> covers (e_mut s) y ->
  covers (e_acc s') (x ++ flat_map getters ps)%list /\ covers (e_mut s') (y ++ flat_map setters ps)%list.
Proof.
  induction ps as [| p ps IH]; intros s s' x y E A U; cbn [emit_fields flat_map] in *.
  - injection E as <-. rewrite !app_nil_r. now split.
  - destruct (emit_field m h nm p s) as [s1 |] eqn:E1; [| discriminate E]. destruct (field_sig p s s1 E1) as (a & u & EA & EU & CA & CU).
    rewrite !app_assoc. apply (IH s1 s'); [exact E | rewrite EA; now apply cov_app | rewrite EU; now apply cov_app].
Qed.
End Sig.

Definition fixed_part (a b c : string) (md : list ttree) (pd : string) (x : list ttree) (ss : list ttree) : list ttree :=
  match nth 10 (quote tpl_impl [("name", ident a); ("imm_name", ident b); ("base_name", ident c); ("mut_", HOne md); ("packet_data", ident pd);
     ("byte_size", HOne x); ("struct_size", HOne ss); ("populate", HOne []); ("accessors", HMany []); ("mutators", HMany [])]) (TPunct "") with
  | TGroup _ g => g | _ => [] end.
Definition flat (l : list (list ttree)) : list ttree := between [] (map (fun v => (v ++ [])%list) l).
Lemma flat_concat : forall l, flat l = concat l.
Proof. unfold flat. induction l as [| a l IH]; [reflexivity |]. cbn [map concat]. rewrite <- IH. destruct l; cbn [map between app]; [now rewrite !app_nil_r | now rewrite app_nil_r]. Qed.
Lemma impl_text : forall a b c md pd x ss pop acc mt,
  quote tpl_impl [("name", ident a); ("imm_name", ident b); ("base_name", ident c); ("mut_", HOne md); ("packet_data", ident pd);
     ("byte_size", HOne x); ("struct_size", HOne ss); ("populate", HOne pop); ("accessors", HMany acc); ("mutators", HMany mt)] =
  (trees_of "impl<'a>" ++ [TIdent a] ++ trees_of "<'a>" ++ [TGroup "{}" (fixed_part a b c md pd x ss ++ pop ++ flat acc ++ flat mt ++ [])])%list.
Proof. intros. vm_compute. reflexivity. Qed.
Lemma fixed_sig : forall a b c md pd x ss, (md = [] \/ md = [TIdent "mut"]) -> piece (fixed_part a b c md pd x ss) common_methods.
Proof. intros a b c md pd x ss [-> | ->]; here. Qed.
Lemma pop_sig : forall b l, piece (quote tpl_populate [("base_name", ident b); ("populate", HMany l)]) [("populate", "&mut self")].
Proof. intros. here. Qed.

Lemma impl_sig : forall m h base mu ps s, emit_fields m h (type_name base mu) ps start = Some s ->
  impl_with (type_name base mu) (common_methods ++ (if mu then [("populate", "&mut self")] else []) ++ flat_map getters ps ++ (if mu then flat_map setters ps else []))%list (impl_from base mu s).
Proof.
  intros m h base mu ps s E. destruct (fields_sig m h (type_name base mu) ps start s [] [] E cov_nil cov_nil) as [(ma & FA & CA) (mm & FM & CM)]. cbn [app] in CA, CM.
  unfold impl_from. rewrite impl_text. eexists. split; [reflexivity |]. rewrite !flat_concat.
  rewrite (sig_app _ _ common_methods) by (apply fixed_sig; destruct mu; [now right | now left]). f_equal.
  destruct mu.
  - rewrite (sig_app _ _ _ (pop_sig _ _)). f_equal. rewrite (sig_concat _ _ _ FA), CA. f_equal. rewrite (sig_concat _ _ _ FM), CM. apply app_nil_r.
  - change ([] ++ ?x)%list with x. cbn [concat app]. rewrite (sig_concat _ _ _ FA), CA. reflexivity.
Qed.
Lemma any_methods : forall m h base ps, all_bits ps < 2 ^ 64 -> all_fine 0 [] ps -> all_code 0 ps ->
  exists before i im after, expand m h base ps = Some (inl (before ++ i ++ im ++ after)%list) /\
    impl_with (base ++ "Packet") (common_methods ++ flat_map getters ps)%list i /\
    impl_with ("Mutable" ++ base ++ "Packet") (common_methods ++ ("populate", "&mut self") :: flat_map getters ps ++ flat_map setters ps)%list im.
Proof.
  intros m h base ps B F C. destruct (fields_total m h (type_name base false) ps start C) as [s E]. destruct (fields_total m h (type_name base true) ps start C) as [t T].
  destruct (any_code m h base ps B F C) as (out & W & X). rewrite X. clear X. revert W. unfold want_code, want_parts. rewrite !impl_is, !packet_is, size_is, E, T. cbn [option_map].
  destruct (debug_total base ps false) as [d ->], (debug_total base ps true) as [dm ->]. unfold together.
  pose proof (impl_sig m h base false ps s E) as I. pose proof (impl_sig m h base true ps t T) as IM. cbv iota in I, IM. rewrite app_nil_r in I. cbn [app] in I, IM. revert I IM.
  generalize (packet_from base false false s), (packet_from base true false s), (packet_from base true true s), (size_from base s), (emit_iterable base), (emit_converters base ps),
    (want_struct base false), (want_struct base true), (impl_from base false s), (impl_from base true t).
  intros l0 l1 l2 l3 l4 l5 l6 l7 i im I IM W. injection W as <-.
  exists (l6 ++ l7)%list, i, im, (l0 ++ l1 ++ l2 ++ l3 ++ l4 ++ l5 ++ d ++ dm ++ [])%list.
  split; [now rewrite <- !app_assoc |]. split; [exact I | exact IM].
Qed.

Lemma getters_read : forall ps, Forall (fun d => snd d <> "&mut self") (flat_map getters ps).
Proof.
  induction ps as [| p ps IH]; [constructor |]. cbn [flat_map]. apply Forall_app. split; [| exact IH]. unfold getters.
  destruct (pf_ty p) as [| [] |]; destruct (pf_payload p); repeat constructor; discriminate.
Qed.
Lemma any_read_only : forall m h base ps, all_bits ps < 2 ^ 64 -> all_fine 0 [] ps -> all_code 0 ps ->
  exists before after body, expand m h base ps = Some (inl (before ++ (trees_of "impl<'a>" ++ [TIdent (base ++ "Packet")] ++ trees_of "<'a>" ++ [TGroup "{}" body]) ++ after)%list) /\
    Forall (fun d => receiver (snd d) <> "&mut self") (declared body).
Proof.
  intros m h base ps B F C. destruct (any_methods m h base ps B F C) as (before & i & im & after & X & (body & -> & S) & _). exists before, (im ++ after)%list, body. split; [exact X |].
  assert (G : Forall (fun d => snd d <> "&mut self") (signatures body)).
  { rewrite S. apply Forall_app. split; [repeat constructor; discriminate | apply getters_read]. }
  unfold signatures in G. rewrite Forall_map in G. exact G.
Qed.

Fixpoint distinct (l : list string) : bool := match l with [] => true | x :: r => (negb (existsb (String.eqb x) r) && distinct r)%bool end.
Lemma distinct_ok : forall l, distinct l = true -> NoDup l.
Proof.
  induction l as [| x l IH]; intros H; [constructor |]. cbn [distinct] in H. apply andb_prop in H as [A B]. constructor; [| now apply IH].
  intros I. apply negb_true_iff in A. apply Bool.not_true_iff_false in A. apply A. apply existsb_exists. exists x. split; [exact I | apply String.eqb_refl].
Qed.
Definition names_of (ps : list pfield) : list string := map fst (common_methods ++ ("populate", "&mut self") :: flat_map getters ps ++ flat_map setters ps)%list.
Lemma crate_distinct : forallb (fun '(_, _, t) => distinct (names_of (struct_fields t))) crate_structs = true.
Proof. vm_cast_no_check (eq_refl true). Qed.
Lemma sig_names : forall body ms, signatures body = ms -> map fst (declared body) = map fst ms.
Proof. intros body ms <-. unfold signatures. rewrite map_map. reflexivity. Qed.
Lemma nodup_left : forall (a b c : list string), NoDup (a ++ b ++ c)%list -> NoDup (a ++ b)%list.
Proof. intros a b c N. rewrite app_assoc in N. revert N. generalize (a ++ b)%list. intros l. induction l as [| x l IH]; intros N; [constructor |]. inversion N; subst. constructor; [| now apply IH]. intros I. apply H1. apply in_or_app. now left. Qed.
Lemma parsed_distinct : forall m h mo n ps, SpecEmit.parsed mo n ps ->
  exists before body mbody after, expand m h n ps = Some (inl (before ++ (trees_of "impl<'a>" ++ [TIdent (n ++ "Packet")] ++ trees_of "<'a>" ++ [TGroup "{}" body]) ++
      (trees_of "impl<'a>" ++ [TIdent ("Mutable" ++ n ++ "Packet")] ++ trees_of "<'a>" ++ [TGroup "{}" mbody]) ++ after)%list) /\
    NoDup (map fst (declared body)) /\ NoDup (map fst (declared mbody)).
Proof.
  intros m h mo n ps P. destruct (parsed_meets mo n ps P) as (B & F & C). destruct (any_methods m h n ps B F C) as (before & i & im & after & X & (body & -> & S) & (mbody & -> & T)).
  exists before, body, mbody, after. split; [exact X |]. rewrite (sig_names _ _ S), (sig_names _ _ T).
  destruct P as (t & sf & I & R & P). assert (E : struct_fields t = ps) by (unfold struct_fields; now rewrite R, P). rewrite <- E.
  pose proof (distinct_ok _ (proj1 (forallb_forall _ _) crate_distinct (mo, n, t) I)) as N. unfold names_of in N. split; [| exact N].
  rewrite map_app in *. cbn [map] in N. apply NoDup_remove_1 in N. rewrite map_app in N. exact (nodup_left _ _ _ N).
Qed.
Definition clash : list pfield :=
  [PField "tail_raw" (RPrimitive "u8" 8 Big) None false false []; PField "tail" (RVector (RPrimitive "u8" 8 Big)) None false false [];
   PField "body" (RVector (RPrimitive "u8" 8 Big)) None false true []].
Lemma clash_fine : all_bits clash < 2 ^ 64 /\ all_fine 0 [] clash /\ all_code 0 clash.
Proof. apply covered_ok. vm_cast_no_check (eq_refl true). Qed.
Lemma names_clash : exists ps, NoDup (map pf_name ps) /\ forall m h base, exists before body after,
  expand m h base ps = Some (inl (before ++ (trees_of "impl<'a>" ++ [TIdent (base ++ "Packet")] ++ trees_of "<'a>" ++ [TGroup "{}" body]) ++ after)%list) /\
  ~ NoDup (map fst (declared body)).
Proof.
  exists clash. split; [apply distinct_ok; vm_compute; reflexivity |]. intros m h base. destruct clash_fine as (A & B & C).
  destruct (any_methods m h base clash A B C) as (before & i & im & after & X & (body & -> & S) & _). exists before, body, (im ++ after)%list. split; [exact X |].
  rewrite (sig_names _ _ S). intros N.
  replace (map fst (common_methods ++ flat_map getters clash))%list with (map fst common_methods ++ "get_tail_raw" :: ["get_tail_raw"; "get_tail"; "get_body"])%list in N by (vm_compute; reflexivity).
  apply NoDup_remove_2 in N. apply N. apply in_or_app. right. now left.
Qed.

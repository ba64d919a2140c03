(** Rules for running the text of the derive macro on structs that are not known. *)
From Coq Require Import String Ascii ZArith List Bool Lia.
From Verif Require Import Base DeriveUtil DeriveOps DeriveParse RustLex RustSyntax RustMethod RustAst RustEval EmitText EmitGen GenCode MacroEval MacroCode MacroFill.
Import ListNotations.
Open Scope string_scope.
Open Scope Z_scope.

Lemma str_nil_r : forall s : string, s ++ "" = s.
Proof. induction s as [| a s IH]; [reflexivity |]. cbn [append]. now rewrite IH. Qed.
Lemma gnum_ok : forall z s, 0 <= z < 2 ^ 64 -> gnum z s = Done (GN z) s.
Proof. intros z s [A B]. unfold gnum. apply Z.leb_le in A. apply Z.ltb_lt in B. now rewrite A, B. Qed.
Lemma tok_id : forall l, map gtokens (map GQ l) = l.
Proof. induction l as [| x l IH]; [reflexivity |]. cbn [map gtokens]. now rewrite IH. Qed.

(** Formats with one argument. *)
Lemma fmt_h : forall f v t, fmt_parts (S (String.length f)) "" f = Some [PHole ""] -> gtext v = Some t -> split_named [v] = ([v], []) -> gformat [GS f; v] = Some t.
Proof. intros f v t P T N. unfold gformat. rewrite P, N. cbn [gfilled String.eqb]. rewrite T. now rewrite str_nil_r. Qed.
Lemma fmt_th : forall f a v t, fmt_parts (S (String.length f)) "" f = Some [PText a; PHole ""] -> gtext v = Some t -> split_named [v] = ([v], []) -> gformat [GS f; v] = Some (a ++ t).
Proof. intros f a v t P T N. unfold gformat. rewrite P, N. cbn [gfilled String.eqb]. rewrite T. now rewrite str_nil_r. Qed.
Lemma fmt_ht : forall f a v t, fmt_parts (S (String.length f)) "" f = Some [PHole ""; PText a] -> gtext v = Some t -> split_named [v] = ([v], []) -> gformat [GS f; v] = Some (t ++ a).
Proof. intros f a v t P T N. unfold gformat. rewrite P, N. cbn [gfilled String.eqb option_map]. rewrite T. now rewrite str_nil_r. Qed.
Lemma fmt_tht : forall f a b v t, fmt_parts (S (String.length f)) "" f = Some [PText a; PHole ""; PText b] -> gtext v = Some t -> split_named [v] = ([v], []) -> gformat [GS f; v] = Some (a ++ t ++ b).
Proof. intros f a b v t P T N. unfold gformat. rewrite P, N. cbn [gfilled String.eqb option_map]. rewrite T. now rewrite str_nil_r. Qed.
Lemma fmt_t : forall f a, fmt_parts (S (String.length f)) "" f = Some [PText a] -> gformat [GS f] = Some a.
Proof. intros f a P. unfold gformat. rewrite P. cbn [split_named gfilled option_map]. now rewrite str_nil_r. Qed.

(** The values of the variables of a template. *)
Fixpoint only (xs : list string) (s : genv) : holes :=
  match xs with
  | [] => []
  | x :: r => match gfind x s with Some v => (x, ghole v) :: only r s | None => only r s end
  end.

Lemma find_gholes : forall x s, find_hole x (gholes s) = option_map ghole (gfind x s).
Proof. induction s as [| [y v] s IH]; [reflexivity |]. cbn [gholes map find_hole gfind]. destruct (String.eqb x y); [reflexivity | exact IH]. Qed.
Lemma find_only : forall x xs s, In x xs -> find_hole x (only xs s) = option_map ghole (gfind x s).
Proof.
  intros x xs s. induction xs as [| y xs IH]; intros I; [contradiction |]. cbn [only]. destruct I as [<- | I].
  - destruct (gfind y s) as [v |] eqn:F; [cbn [find_hole]; now rewrite String.eqb_refl |]. destruct (in_dec string_dec y xs) as [J | J]; [now rewrite (IH J) |].
    clear IH. induction xs as [| z xs IX]; [reflexivity |]. cbn [only]. destruct (gfind z s) as [w |]; cbn [find_hole].
    + destruct (String.eqb y z) eqn:E; [apply String.eqb_eq in E; subst; exfalso; apply J; now left |]. apply IX. intros K. apply J. now right.
    + apply IX. intros K. apply J. now right.
  - destruct (gfind y s) as [v |] eqn:F; [| now apply IH]. cbn [find_hole]. destruct (String.eqb x y) eqn:E; [| now apply IH]. apply String.eqb_eq in E. subst. now rewrite F.
Qed.

Section Rules.
Variable plan : Z -> Z -> endian -> option (option (list getop)).
Variable parsed : gv.
Notation G := (gev plan fs_c q_c parsed).

Inductive evs (k : nat) : list xp -> genv -> list gv -> genv -> Prop :=
| evs_nil : forall s, evs k [] s [] s
| evs_cons : forall x r s v s1 vs s2, G k x s = Done v s1 -> evs k r s1 vs s2 -> evs k (x :: r) s (v :: vs) s2.
Lemma evs_list : forall k l s vs s' ok, evs k l s vs s' -> list_of (G k) l s ok = ok vs s'.
Proof.
  intros k l s vs s' ok H. revert ok. induction H as [s | x r s v s1 vs s2 E _ IH]; intros ok; cbn [list_of]; [reflexivity |].
  rewrite E. cbn [andthen]. apply IH.
Qed.

Inductive stmts (k : nat) : list sx -> genv -> genv -> Prop :=
| st_nil : forall s, stmts k [] s s
| st_let : forall p t e r s v s1 bs s2, G k e s = Done v s1 -> gmatch p v = Some bs -> stmts k r (bs ++ s1)%list s2 -> stmts k (ZLet p t e :: r) s s2
| st_set : forall x e r s v s1 s2 s3, G k e s = Done v s1 -> gset x v s1 = s2 -> stmts k r s2 s3 -> stmts k (ZSet None (YPath x) e :: r) s s3
| st_op : forall o x e r s v s1 s2 s3, G k (YBin o (YPath x) e) s = Done v s1 -> gset x v s1 = s2 -> stmts k r s2 s3 -> stmts k (ZSet (Some o) (YPath x) e :: r) s s3
| st_exp : forall e r s v s1 s2, G k e s = Done v s1 -> stmts k r s1 s2 -> stmts k (ZExp e :: r) s s2
| st_for : forall p e b r s items s1 w s2 s3, G k e s = Done (GL items) s1 -> each (G k) p b items s1 = Done w s2 -> stmts k r s2 s3 -> stmts k (ZFor p e b :: r) s s3.
Lemma stmts_block : forall k l s s' last, stmts k l s s' -> block_of (G k) last l s = match last with Some e => G k e s' | None => Done GUnit s' end.
Proof.
  intros k l s s' last H. induction H as [s | p t e r s v s1 bs s2 E M _ IH | x e r s v s1 s2 s3 E M _ IH | o x e r s v s1 s2 s3 E M _ IH | e r s v s1 s2 E _ IH | p e b r s items s1 w s2 s3 E M _ IH];
    cbn [block_of]; [reflexivity | ..]; rewrite E; cbn [andthen].
  - now rewrite M.
  - now rewrite M.
  - now rewrite M.
  - exact IH.
  - rewrite M. exact IH.
Qed.
Lemma stmts_app : forall k a b s s1 s2, stmts k a s s1 -> stmts k b s1 s2 -> stmts k (a ++ b)%list s s2.
Proof. intros k a b s s1 s2 H J. induction H; cbn [app]; try exact J; econstructor; eauto. Qed.

Lemma r_int : forall k t z s, 0 <= z < 2 ^ 64 -> G (S k) (YInt t z) s = Done (GN z) s.
Proof. intros. cbn [gev]. now apply gnum_ok. Qed.
Lemma r_path : forall k p s v, gfind p s = Some v -> G (S k) (YPath p) s = Done v s.
Proof. intros k p s v H. cbn [gev]. now rewrite H. Qed.
Lemma r_out : forall k f l s vs s1 v, evs k l s vs s1 -> String.eqb f "operations" = false -> outside parsed f vs = Some v -> G (S k) (YCall f l) s = Done v s1.
Proof. intros k f l s vs s1 v H N O. cbn [gev]. rewrite (evs_list _ _ _ _ _ _ H), N, O. reflexivity. Qed.
Lemma r_parse : forall k l s t s1 ts, evs k l s [GS t] s1 -> read_trees t = Some ts -> G (S k) (YCall "syn::parse_str" l) s = Done (GE "Ok" [GQ ts]) s1.
Proof. intros k l s t s1 ts H R. eapply r_out; [exact H | reflexivity |]. unfold outside. cbn [String.eqb Ascii.eqb Bool.eqb]. rewrite R. reflexivity. Qed.
Lemma endian_ok : forall e, endian_of (gendian e) = Some e.
Proof. now destruct e. Qed.
Lemma r_ops : forall k l s b z v e s1 ops, evs k l s [GN b; GN z; v] s1 -> endian_of v = Some e -> plan b z e = Some (Some ops) ->
  G (S k) (YCall "operations" l) s = Done (GE "Some" [GO ops]) s1.
Proof. intros k l s b z v e s1 ops H V P. cbn [gev]. rewrite (evs_list _ _ _ _ _ _ H). cbn [String.eqb Ascii.eqb Bool.eqb]. unfold operated. now rewrite V, P. Qed.
Lemma r_call : forall k f l s vs s1 fn env v s2, evs k l s vs s1 -> String.eqb f "operations" = false -> outside parsed f vs = None ->
  find_func fs_c (last_part "" f) = Some fn -> Nat.eqb (length vs) (length (fu_params fn)) = true ->
  combine (map fst (fu_params fn)) vs = env -> G k (fu_body fn) env = Done v s2 -> G (S k) (YCall f l) s = Done v s1.
Proof. intros k f l s vs s1 fn env v s2 H N O F L C B. cbn [gev]. rewrite (evs_list _ _ _ _ _ _ H), N, O, F, L, C, B. reflexivity. Qed.
Lemma r_meth : forall k a f l s v vs s1 w, String.eqb f "push" = false -> String.eqb f "fold" = false -> evs k (a :: l) s (v :: vs) s1 ->
  std_method v f vs = Some w -> G (S k) (YMeth a f l) s = Done w s1.
Proof. intros k a f l s v vs s1 w N M H O. cbn [gev]. rewrite N, M, (evs_list _ _ _ _ _ _ H), O. reflexivity. Qed.
Lemma r_mcall : forall k a f l s v vs s1 fn env w s2, String.eqb f "push" = false -> String.eqb f "fold" = false -> evs k (a :: l) s (v :: vs) s1 ->
  std_method v f vs = None -> find_func fs_c f = Some fn -> Nat.eqb (length (v :: vs)) (length (fu_params fn)) = true ->
  combine (map fst (fu_params fn)) (v :: vs) = env -> G k (fu_body fn) env = Done w s2 -> G (S k) (YMeth a f l) s = Done w s1.
Proof. intros k a f l s v vs s1 fn env w s2 N M H O F L C B. cbn [gev]. rewrite N, M, (evs_list _ _ _ _ _ _ H), O, F, L, C, B. reflexivity. Qed.
Lemma r_push : forall k x b s t s1 l s2, G k b s = Done (GQ t) s1 -> gfind x s1 = Some (GL (map GQ l)) ->
  gset x (GL (map GQ (l ++ [t])%list)) s1 = s2 -> G (S k) (YMeth (YPath x) "push" [b]) s = Done GUnit s2.
Proof.
  intros k x b s t s1 l s2 H F S2. cbn [gev String.eqb Ascii.eqb Bool.eqb]. rewrite H. cbn [andthen]. rewrite F, <- S2, map_app. reflexivity.
Qed.
Lemma r_proj : forall k a x s l s1 w, G k a s = Done (GR l) s1 -> gfind x l = Some w -> G (S k) (YProj a x) s = Done w s1.
Proof. intros k a x s l s1 w H F. cbn [gev]. rewrite H. cbn [andthen]. now rewrite F. Qed.
Lemma r_index : forall k a s v s1, G k a s = Done v s1 -> G (S k) (YIndex a (YRange None None false)) s = Done v s1.
Proof. intros. exact H. Qed.
Lemma r_ref : forall k a s v s1, G k a s = Done v s1 -> G (S k) (YUn URef a) s = Done v s1.
Proof. intros. exact H. Qed.
Lemma r_deref : forall k a s v s1, G k a s = Done v s1 -> G (S k) (YUn UDeref a) s = Done v s1.
Proof. intros. exact H. Qed.
Lemma r_not : forall k a s b s1, G k a s = Done (GB b) s1 -> G (S k) (YUn UNot a) s = Done (GB (negb b)) s1.
Proof. intros k a s b s1 H. cbn [gev]. rewrite H. reflexivity. Qed.
Lemma r_bin : forall k o a b s v s1 w s2 u s3, G k a s = Done v s1 -> G k b s1 = Done w s2 -> binary o v w s2 = Done u s3 -> G (S k) (YBin o a b) s = Done u s3.
Proof. intros k o a b s v s1 w s2 u s3 A B C. cbn [gev]. rewrite A. cbn [andthen]. rewrite B. cbn [andthen]. exact C. Qed.
Lemma b_add : forall x y s, 0 <= x + y < 2 ^ 64 -> binary OAdd (GN x) (GN y) s = Done (GN (x + y)) s.
Proof. intros. now apply gnum_ok. Qed.
Lemma b_div8 : forall x s, 0 <= x < 2 ^ 64 -> binary ODiv (GN x) (GN 8) s = Done (GN (x / 8)) s.
Proof. intros x s H. apply gnum_ok. split; [apply Z.div_pos; lia |]. apply Z.div_lt_upper_bound; lia. Qed.
Lemma b_rem8 : forall x s, 0 <= x < 2 ^ 64 -> binary ORem (GN x) (GN 8) s = Done (GN (x mod 8)) s.
Proof. intros x s H. apply gnum_ok. pose proof (Z.mod_pos_bound x 8). lia. Qed.
Lemma b_ne : forall x y r s, (x =? y) = r -> binary ONe (GN x) (GN y) s = Done (GB (negb r)) s.
Proof. intros x y r s <-. reflexivity. Qed.
Lemma b_eq : forall x y r s, (x =? y) = r -> binary OEq (GN x) (GN y) s = Done (GB r) s.
Proof. intros x y r s <-. reflexivity. Qed.
Lemma b_same : forall x y r s, String.eqb x y = r -> binary OEq (GS x) (GS y) s = Done (GB r) s.
Proof. intros x y r s <-. reflexivity. Qed.
Lemma r_tup : forall k l s v vs s1, evs k l s (v :: vs) s1 -> G (S k) (YTup l) s = Done (GT (v :: vs)) s1.
Proof. intros k l s v vs s1 H. cbn [gev]. now rewrite (evs_list _ _ _ _ _ _ H). Qed.
Lemma r_struct : forall k c l s vs s1 r, evs k (map snd l) s vs s1 -> combine (map fst l) vs = r -> G (S k) (YStruct c l) s = Done (GR r) s1.
Proof. intros k c l s vs s1 r H <-. cbn [gev]. now rewrite (evs_list _ _ _ _ _ _ H). Qed.
Lemma r_if : forall k c a e s b s1 v s2, G k c s = Done (GB b) s1 ->
  (if b then G k a s1 = Done v s2 else match e with Some e => G k e s1 = Done v s2 | None => Done GUnit s1 = Done v s2 end) ->
  G (S k) (YIf c a e) s = Done v s2.
Proof. intros k c a e s b s1 v s2 H J. cbn [gev]. rewrite H. cbn [andthen]. destruct b; [exact J |]. destruct e; exact J. Qed.
Lemma r_match : forall k a arms s v s1 w s2, G k a s = Done v s1 -> arms_of (G k) v s1 arms = Done w s2 -> G (S k) (YMatch a arms) s = Done w s2.
Proof. intros k a arms s v s1 w s2 H J. cbn [gev]. rewrite H. exact J. Qed.
Lemma arm_hit : forall k p b r v s bs w s1 s2, gmatch p v = Some bs -> G k b (bs ++ s)%list = Done w s1 -> skipn (length s1 - length s) s1 = s2 ->
  arms_of (G k) v s ((p, None, b) :: r) = Done w s2.
Proof. intros k p b r v s bs w s1 s2 M B L. cbn [arms_of]. rewrite M, B. cbn [leave]. now rewrite L. Qed.
Lemma arm_miss : forall k p b r v s o, gmatch p v = None -> arms_of (G k) v s r = o -> arms_of (G k) v s ((p, None, b) :: r) = o.
Proof. intros k p b r v s o M B. cbn [arms_of]. now rewrite M. Qed.
Lemma r_block : forall k l e s s1 v s2 s3, stmts k l s s1 -> G k e s1 = Done v s2 -> skipn (length s2 - length s) s2 = s3 -> G (S k) (YBlock l (Some e)) s = Done v s3.
Proof. intros k l e s s1 v s2 s3 H E L. cbn [gev]. rewrite (stmts_block _ _ _ _ _ H), E. cbn [leave]. now rewrite L. Qed.
Lemma r_unit : forall k l s s1 s3, stmts k l s s1 -> skipn (length s1 - length s) s1 = s3 -> G (S k) (YBlock l None) s = Done GUnit s3.
Proof. intros k l s s1 s3 H L. cbn [gev]. rewrite (stmts_block _ _ _ _ _ H). cbn [leave]. now rewrite L. Qed.
Lemma r_quasi : forall k key s t xs h, gfind key q_c = Some t -> names (TGroup "{}" t) = xs -> only xs s = h ->
  G (S k) (YMac "quasi" [YStr key]) s = Done (GQ (quote t h)) s.
Proof.
  intros k key s t xs h F <- <-. cbn [gev String.eqb Ascii.eqb Bool.eqb]. rewrite F. f_equal. f_equal. apply (quote_ext t). intros x I.
  now rewrite find_gholes, find_only.
Qed.
Lemma r_str : forall k t s, G (S k) (YStr t) s = Done (GS t) s.
Proof. reflexivity. Qed.
Lemma r_format : forall k l s vs s1 t, evs k l s vs s1 -> gformat vs = Some t -> G (S k) (YMac "format" l) s = Done (GS t) s1.
Proof. intros k l s vs s1 t H F. cbn [gev String.eqb Ascii.eqb Bool.eqb]. rewrite (evs_list _ _ _ _ _ _ H). unfold macro. cbn [String.eqb Ascii.eqb Bool.eqb]. now rewrite F. Qed.
Lemma r_ident : forall k l s vs s1 t, evs k l s vs s1 -> gformat vs = Some t -> G (S k) (YMac "format_ident" l) s = Done (GQ [TIdent t]) s1.
Proof. intros k l s vs s1 t H F. cbn [gev String.eqb Ascii.eqb Bool.eqb]. rewrite (evs_list _ _ _ _ _ _ H). unfold macro. cbn [String.eqb Ascii.eqb Bool.eqb]. now rewrite F. Qed.
Lemma r_vec : forall k s, G (S k) (YMac "vec" []) s = Done (GL (map GQ [])) s.
Proof. reflexivity. Qed.
Lemma r_newvec : forall k s, G (S k) (YCall "Vec::new" []) s = Done (GL (map GQ [])) s.
Proof. reflexivity. Qed.
Lemma r_named : forall k l s vs s1, evs k l s vs s1 -> G (S k) (YMac "named" l) s = Done (GE "named!" vs) s1.
Proof. intros k l s vs s1 H. cbn [gev String.eqb Ascii.eqb Bool.eqb]. now rewrite (evs_list _ _ _ _ _ _ H). Qed.
Lemma r_try : forall k a s v s1, G k a s = Done (GE "Ok" [v]) s1 -> G (S k) (YTry a) s = Done v s1.
Proof. intros k a s v s1 H. cbn [gev]. rewrite H. reflexivity. Qed.

Lemma r_closure : forall k x y e s, G (S k) (YMac "closure" [YPath x; YPath y; e]) s = Done (GC x y e) s.
Proof. reflexivity. Qed.
Lemma r_fold : forall k a l s items init x y b s1 v s2, evs k (a :: l) s [GL items; init; GC x y b] s1 -> folded (G k) x y b s1 items init = Done v s2 ->
  G (S k) (YMeth a "fold" l) s = Done v s2.
Proof. intros k a l s items init x y b s1 v s2 H F. cbn [gev String.eqb Ascii.eqb Bool.eqb]. rewrite (evs_list _ _ _ _ _ _ H). exact F. Qed.
Lemma r_parse_ty : forall k l s t s1 o, evs k l s [GS t] s1 -> parse_ty t = o -> G (S k) (YCall "parse_ty" l) s =
  Done (gopt (fun '(z, e, b) => GT [GN z; gendian e; GE (if b : bool then "EndiannessSpecified::Yes" else "EndiannessSpecified::No") []]) o) s1.
Proof. intros k l s t s1 o H <-. eapply r_out; [exact H | reflexivity | reflexivity]. Qed.

Lemma each_nil : forall k p b s, each (G k) p b [] s = Done GUnit s.
Proof. reflexivity. Qed.
Lemma each_var : forall k x b v r s w s1 s2 o, G k b ((x, v) :: s) = Done w s1 -> skipn (length s1 - length s) s1 = s2 -> each (G k) (QVar x) b r s2 = o ->
  each (G k) (QVar x) b (v :: r) s = o.
Proof. intros k x b v r s w s1 s2 o B L R. cbn [each gmatch app]. rewrite B. cbn [leave andthen]. now rewrite L. Qed.
Lemma each_tup : forall k x y b i v r s w s1 s2 o, G k b ((y, v) :: (x, i) :: s) = Done w s1 -> skipn (length s1 - length s) s1 = s2 ->
  each (G k) (QTup [QVar x; QVar y]) b r s2 = o -> each (G k) (QTup [QVar x; QVar y]) b (GT [i; v] :: r) s = o.
Proof. intros k x y b i v r s w s1 s2 o B L R. cbn [each gmatch app]. rewrite B. cbn [leave andthen]. now rewrite L. Qed.
End Rules.

(** Running: the rule for the expression at the front. *)
Ltac drop := lazymatch goal with |- ?a = _ => let r := eval lazy beta iota delta [skipn length Nat.sub] in a in exact (@eq_refl _ r) end.
Ltac setvar := lazymatch goal with |- ?a = _ => let r := eval lazy beta iota delta [gset String.eqb Ascii.eqb Bool.eqb] in a in exact (@eq_refl _ r) end.
Ltac params := lazymatch goal with |- ?a = _ =>
  let r := eval lazy beta iota zeta delta [combine map fst snd fu_params f_generate_packet f_packet_struct f_packet_impls f_current_offset f_packet_impl f_gen_accessor f_gen_mutator
     f_packet_size_impls f_packet_trait_impls f_impl_packet_trait_for f_iterables f_converters f_debug_impls f_packet_name f_packet_name_mut] in a in exact (@eq_refl _ r) end.
Ltac pat := lazymatch goal with |- gmatch ?p ?v = _ =>
  let r := eval lazy beta iota zeta delta [gmatch app String.eqb Ascii.eqb Bool.eqb gopt gtype] in (gmatch p v) in exact (@eq_refl _ r) end.
Ltac tname := lazymatch goal with |- names ?t = _ => let xs := eval vm_compute in (names t) in exact (@eq_refl _ xs <: names t = xs) end.
Ltac tpl := lazymatch goal with |- only ?xs ?s = _ =>
  let h := eval lazy beta iota zeta delta [only gfind ghole String.eqb Ascii.eqb Bool.eqb] in (only xs s) in exact (@eq_refl _ h) end.
Ltac fmt := first [eapply fmt_h; [reflexivity | reflexivity | reflexivity] | eapply fmt_th; [reflexivity | reflexivity | reflexivity]
  | eapply fmt_ht; [reflexivity | reflexivity | reflexivity] | eapply fmt_tht; [reflexivity | reflexivity | reflexivity] | eapply fmt_t; reflexivity | reflexivity].
Ltac num := lazymatch goal with
  | |- binary OAdd (GN _) (GN _) _ = _ => apply b_add; try lia
  | |- binary ODiv (GN _) (GN 8) _ = _ => apply b_div8; try lia
  | |- binary ORem (GN _) (GN 8) _ = _ => apply b_rem8; try lia
  | |- binary ONe (GN _) (GN _) _ = _ => eapply b_ne; first [eassumption | reflexivity]
  | |- binary OEq (GN _) (GN _) _ = _ => eapply b_eq; first [eassumption | reflexivity]
  | |- binary OEq (GS _) (GS _) _ = _ => eapply b_same; first [eassumption | reflexivity]
  end.
Ltac look := reflexivity.
Ltac ev := lazymatch goal with
  | |- gev _ _ _ _ (S _) ?e _ = _ =>
      lazymatch e with
      | YInt _ _ => apply r_int; lia
      | YStr _ => apply r_str
      | YPath _ => first [eapply r_path; look | reflexivity]
      | YProj _ _ => eapply r_proj; [ev | look]
      | YIndex _ _ => apply r_index; ev
      | YUn URef _ => apply r_ref; ev
      | YUn UDeref _ => apply r_deref; ev
      | YUn UNot _ => apply r_not; ev
      | YBin _ _ _ => eapply r_bin; [ev | ev | num]
      | YTup _ => eapply r_tup; evl
      | YStruct _ _ => eapply r_struct; [evl | lazymatch goal with |- ?a = _ => let r := eval lazy beta iota zeta delta [combine map fst] in a in exact (@eq_refl _ r) end]
      | YIf _ _ _ => eapply r_if; [ev | branch]
      | YMatch _ _ => eapply r_match; [ev | arms]
      | YBlock _ (Some _) => eapply r_block; [sts | ev | drop]
      | YBlock _ None => eapply r_unit; [sts | drop]
      | YTry _ => apply r_try; ev
      | YMac ?f ?l =>
          lazymatch f with
          | "quasi" => eapply r_quasi; [reflexivity | tname | tpl]
          | "format" => eapply r_format; [evl | fmt]
          | "format_ident" => eapply r_ident; [evl | fmt]
          | "vec" => apply r_vec
          | "named" => eapply r_named; evl
          | "closure" => apply r_closure
          end
      | YMeth _ ?f _ =>
          lazymatch f with
          | "push" => eapply r_push; [ev | look | setvar]
          | "fold" => idtac
          | _ => first [eapply r_meth; [reflexivity | reflexivity | evl | reflexivity]
                       | eapply r_mcall; [reflexivity | reflexivity | evl | reflexivity | reflexivity | reflexivity | params | callee]]
          end
      | YCall ?f _ =>
          lazymatch f with
          | "Vec::new" => apply r_newvec
          | "parse_ty" => eapply r_parse_ty; [evl | eassumption]
          | "operations" => eapply r_ops; [evl | first [apply endian_ok | reflexivity] | eassumption]
          | "syn::parse_str" => eapply r_parse; [evl | eassumption]
          | _ => first [eapply r_out; [evl | reflexivity | reflexivity]
                       | eapply r_call; [evl | reflexivity | reflexivity | reflexivity | reflexivity | params | callee]]
          end
      end
  end
with evl := lazymatch goal with
  | |- evs _ _ _ (map _ _) _ _ _ => cbn [map snd]; evl
  | |- evs _ _ _ [] _ _ _ => apply evs_nil
  | |- evs _ _ _ (_ :: _) _ _ _ => eapply evs_cons; [ev | evl]
  end
with sts := lazymatch goal with
  | |- stmts _ _ _ [] _ _ => apply st_nil
  | |- stmts _ _ _ (ZLet _ _ _ :: _) _ _ => eapply st_let; [ev | pat | cbn [app]; sts]
  | |- stmts _ _ _ (ZSet None _ _ :: _) _ _ => eapply st_set; [ev | setvar | sts]
  | |- stmts _ _ _ (ZSet (Some _) _ _ :: _) _ _ => eapply st_op; [ev | setvar | sts]
  | |- stmts _ _ _ (ZExp _ :: _) _ _ => eapply st_exp; [ev | sts]
  | |- stmts _ _ _ (ZFor _ _ _ :: _) _ _ => eapply st_for; [ev | forloop | sts]
  end
with branch := lazymatch goal with
  | |- if ?b then ?A else ?B => let c := eval lazy in b in change (if c then A else B); cbv iota;
       lazymatch goal with |- Done _ _ = Done _ _ => reflexivity | _ => ev end
  end
with arms := lazymatch goal with
  | |- arms_of _ ?v _ ((?p, None, _) :: _) = _ =>
      let r := eval lazy beta iota zeta delta [gmatch app String.eqb Ascii.eqb Bool.eqb gopt gtype] in (gmatch p v) in
      lazymatch r with
      | Some _ => eapply arm_hit; [pat | cbn [app]; ev | drop]
      | None => apply arm_miss; [reflexivity | arms]
      end
  end
with callee := idtac
with forloop := idtac.

Lemma to_done : forall o v w s s', o = Done v s -> v = w -> s = s' -> o = Done w s'.
Proof. intros o v w s s' -> -> ->. reflexivity. Qed.
(** Comparing what was put together with what is expected. *)
Lemma same_quote : forall t xs h k, names (TGroup "{}" t) = xs -> Forall (fun x => find_hole x h = find_hole x k) xs -> quote t h = quote t k.
Proof. intros t xs h k <- F. apply quote_ext. intros x I. rewrite Forall_forall in F. now apply F. Qed.
Ltac same := lazymatch goal with
  | |- ?x = ?x => reflexivity
  | |- quote ?t _ = quote ?t _ => eapply same_quote; [tname |]; repeat (apply Forall_cons; [cbn [find_hole String.eqb Ascii.eqb Bool.eqb gtokens ident]; unfold ident; cbn [gtokens]; same |]); apply Forall_nil
  | |- Some ?x = Some ?y => apply (f_equal Some); same
  | |- HOne ?x = HOne ?y => apply (f_equal HOne); same
  | |- HMany ?x = HMany ?y => apply (f_equal HMany); rewrite ?tok_id; same
  | |- GQ ?x = GQ ?y => apply (f_equal GQ); same
  | |- GL ?x = GL ?y => apply (f_equal GL); same
  | |- GR ?x = GR ?y => apply (f_equal GR); same
  | |- map GQ ?x = map GQ ?y => apply (f_equal (map GQ)); same
  | |- (?a ++ ?b)%list = (?c ++ ?d)%list => apply (f_equal2 (@app _)); same
  | |- ?a :: ?b = ?c :: ?d => apply (f_equal2 cons); same
  | |- (?a, ?b) = (?c, ?d) => apply (f_equal2 pair); same
  | |- _ => reflexivity
  end.
Ltac tplnames := rewrite ?is_check_len, ?is_converters, ?is_copy_bytes, ?is_copy_loop, ?is_get, ?is_get_arg, ?is_impl, ?is_iterable, ?is_misc_get, ?is_misc_set,
  ?is_packet_trait, ?is_pkts_get, ?is_pkts_set, ?is_populate, ?is_raw, ?is_raw_mut, ?is_set, ?is_set_arg, ?is_size_impls, ?is_vec_get, ?is_vec_set.
Ltac run := eapply to_done; [ev | | ].

(** ** The small functions *)
Section Small.
Variable plan : Z -> Z -> endian -> option (option (list getop)).
Variable parsed : gv.
Notation G := (gev plan fs_c q_c parsed).
Ltac fuel n := repeat (destruct n as [| n]; [exfalso; lia |]).

Lemma run_name : forall n base l, (8 <= n)%nat -> G n (fu_body f_packet_name) [("self", GR (("base_name", GS base) :: l))] = Done (GS (type_name base false)) [("self", GR (("base_name", GS base) :: l))].
Proof. intros n base l H. do 8 (destruct n as [| n]; [exfalso; lia |]). unfold f_packet_name. cbn [fu_body]. run; reflexivity. Qed.
Lemma run_name_mut : forall n base l, (8 <= n)%nat -> G n (fu_body f_packet_name_mut) [("self", GR (("base_name", GS base) :: l))] = Done (GS (type_name base true)) [("self", GR (("base_name", GS base) :: l))].
Proof. intros n base l H. do 8 (destruct n as [| n]; [exfalso; lia |]). unfold f_packet_name_mut. cbn [fu_body]. run; reflexivity. Qed.

Lemma fold_offset : forall k s offs acc, folded (G (S k)) "a" "b" (YMac "quasi" [YStr "4"]) s (map GQ offs) (GQ acc) =
  Done (GQ (fold_left (fun a b => (a ++ TPunct "+" :: b)%list) offs acc)) s.
Proof.
  intros k s. induction offs as [| x l IH]; intros acc; cbn [map folded fold_left]; [reflexivity |].
  match goal with |- match ?g with _ => _ end = _ => assert (E : g = Done (GQ (acc ++ TPunct "+" :: x)%list) (("b", GQ x) :: ("a", GQ acc) :: s)) end.
  { run; [| reflexivity]. f_equal. change ((acc ++ TPunct "+" :: x ++ []) = (acc ++ TPunct "+" :: x))%list. now rewrite app_nil_r. }
  rewrite E. apply IH.
Qed.
Lemma run_offset : forall n bit offs, (8 <= n)%nat -> 0 <= bit < 2 ^ 64 ->
  G n (fu_body f_current_offset) [("bit_offset", GN bit); ("offset_fns", GL (map GQ offs))] =
    Done (GQ (offset_tokens bit offs)) [("bit_offset", GN bit); ("offset_fns", GL (map GQ offs))].
Proof.
  intros n bit offs H B. do 8 (destruct n as [| n]; [exfalso; lia |]). unfold f_current_offset. cbn [fu_body].
  eapply to_done; [eapply r_block; [sts | eapply r_fold; [evl | apply fold_offset] | drop] | reflexivity | reflexivity].
Qed.
Definition ginner (o : option string) : gv := gopt (fun s => GQ [TIdent s]) o.
Lemma run_accessor : forall n name ty offset ops inner, (12 <= n)%nat -> read_trees ty = Some [TIdent ty] ->
  let env := [("name", GS name); ("ty_str", GS ty); ("offset", GQ offset); ("operations", GO ops); ("inner", ginner inner)] in
  G n (fu_body f_gen_accessor) env = Done (GQ (EmitGen.gen_accessor name ty offset ops inner)) env.
Proof.
  intros n name ty offset ops inner H R env. unfold env. clear env. do 12 (destruct n as [| n]; [exfalso; lia |]). unfold f_gen_accessor. cbn [fu_body].
  unfold EmitGen.gen_accessor. destruct inner as [s |]; cbn [ginner gopt]; tplnames.
  - run; same.
  - unfold get_comment, comment_of. destruct (parse_ty ty) as [[[z e] b] |] eqn:P; [destruct e |]; run; same.
Qed.
Lemma run_mutator : forall n name ty offset ops inner, (12 <= n)%nat -> read_trees ty = Some [TIdent ty] ->
  let env := [("name", GS name); ("ty_str", GS ty); ("offset", GQ offset); ("operations", GM ops); ("inner", ginner inner)] in
  G n (fu_body f_gen_mutator) env = Done (GQ (EmitGen.gen_mutator name ty offset ops inner)) env.
Proof.
  intros n name ty offset ops inner H R env. unfold env. clear env. do 12 (destruct n as [| n]; [exfalso; lia |]). unfold f_gen_mutator. cbn [fu_body].
  unfold EmitGen.gen_mutator. destruct inner as [s |]; cbn [ginner gopt]; tplnames.
  - run; same.
  - unfold set_comment, comment_of. destruct (parse_ty ty) as [[[z e] b] |] eqn:P; [destruct e |]; run; same.
Qed.
Lemma run_accessor0 : forall n name ty offset ops, (12 <= n)%nat -> read_trees ty = Some [TIdent ty] ->
  let env := [("name", GS name); ("ty_str", GS ty); ("offset", GQ offset); ("operations", GO ops); ("inner", GE "None" [])] in
  G n (fu_body f_gen_accessor) env = Done (GQ (EmitGen.gen_accessor name ty offset ops None)) env.
Proof. intros n name ty offset ops. exact (run_accessor n name ty offset ops None). Qed.
Lemma run_accessor1 : forall n name ty offset ops i, (12 <= n)%nat -> read_trees ty = Some [TIdent ty] ->
  let env := [("name", GS name); ("ty_str", GS ty); ("offset", GQ offset); ("operations", GO ops); ("inner", GE "Some" [GQ [TIdent i]])] in
  G n (fu_body f_gen_accessor) env = Done (GQ (EmitGen.gen_accessor name ty offset ops (Some i))) env.
Proof. intros n name ty offset ops i. exact (run_accessor n name ty offset ops (Some i)). Qed.
Lemma run_mutator0 : forall n name ty offset ops, (12 <= n)%nat -> read_trees ty = Some [TIdent ty] ->
  let env := [("name", GS name); ("ty_str", GS ty); ("offset", GQ offset); ("operations", GM ops); ("inner", GE "None" [])] in
  G n (fu_body f_gen_mutator) env = Done (GQ (EmitGen.gen_mutator name ty offset ops None)) env.
Proof. intros n name ty offset ops. exact (run_mutator n name ty offset ops None). Qed.
Lemma run_mutator1 : forall n name ty offset ops i, (12 <= n)%nat -> read_trees ty = Some [TIdent ty] ->
  let env := [("name", GS name); ("ty_str", GS ty); ("offset", GQ offset); ("operations", GM ops); ("inner", GE "Some" [GQ [TIdent i]])] in
  G n (fu_body f_gen_mutator) env = Done (GQ (EmitGen.gen_mutator name ty offset ops (Some i))) env.
Proof. intros n name ty offset ops i. exact (run_mutator n name ty offset ops (Some i)). Qed.
End Small.
Ltac callee ::= lazymatch goal with
  | |- gev _ _ _ _ _ (fu_body f_packet_name) _ = _ => apply run_name; lia
  | |- gev _ _ _ _ _ (fu_body f_packet_name_mut) _ = _ => apply run_name_mut; lia
  | |- gev _ _ _ _ _ (fu_body f_current_offset) _ = _ => apply run_offset; [lia | try lia]
  | |- gev _ _ _ _ _ (fu_body f_gen_accessor) _ = _ => first [apply run_accessor0; [lia | eassumption] | apply run_accessor1; [lia | eassumption]]
  | |- gev _ _ _ _ _ (fu_body f_gen_mutator) _ = _ => first [apply run_mutator0; [lia | eassumption] | apply run_mutator1; [lia | eassumption]]
  end.

(** Structs the macro refuses, run from its text: lemmas behind C101. *)
From Coq Require Import String Ascii ZArith List Bool Lia.
From Verif Require Import Base DeriveUtil DeriveOps DeriveParse FmtText RustLex RustSyntax RustMethod RustAst RustEval EmitText EmitGen GenCode MacroEval SpecMacro MacroParts MacroCode MacroFill MacroSym MacroLoop MacroMisc
  SpecAny MacroRound MacroImpl MacroRest MacroAny MacroTotal.
Import ListNotations.
Open Scope string_scope.
Open Scope Z_scope.

Ltac callee ::= lazymatch goal with
  | |- gev _ _ _ _ _ (fu_body f_packet_name) _ = _ => apply run_name; lia
  | |- gev _ _ _ _ _ (fu_body f_packet_name_mut) _ = _ => apply run_name_mut; lia
  | |- gev _ _ _ _ _ (fu_body f_packet_struct) _ = _ => apply settled, run_struct; lia
  end.

Section Rules.
Variable plan : Z -> Z -> endian -> option (option (list getop)).
Variable parsed : gv.
Notation G := (gev plan fs_c q_c parsed).

Lemma k_ret : forall k a s v s1, G k a s = Done v s1 -> G (S k) (YRet (Some a)) s = Back v.
Proof. intros k a s v s1 H. cbn [gev]. now rewrite H. Qed.
Lemma k_try : forall k a s v s1, G k a s = Done (GE "Err" [v]) s1 -> G (S k) (YTry a) s = Back (GE "Err" [v]).
Proof. intros k a s v s1 H. cbn [gev]. rewrite H. reflexivity. Qed.
Lemma k_if : forall k c a e s b s1 v, G k c s = Done (GB b) s1 -> b = true -> G k a s1 = Back v -> G (S k) (YIf c a e) s = Back v.
Proof. intros k c a e s b s1 v H -> J. cbn [gev]. rewrite H. cbn [andthen]. exact J. Qed.
Lemma k_match : forall k a arms s v s1 w, G k a s = Done v s1 -> arms_of (G k) v s1 arms = Back w -> G (S k) (YMatch a arms) s = Back w.
Proof. intros k a arms s v s1 w H J. cbn [gev]. rewrite H. exact J. Qed.
Lemma k_arm : forall k p b r v s bs w, gmatch p v = Some bs -> G k b (bs ++ s)%list = Back w -> arms_of (G k) v s ((p, None, b) :: r) = Back w.
Proof. intros k p b r v s bs w M B. cbn [arms_of]. rewrite M, B. reflexivity. Qed.
Lemma k_block : forall k l e s v, block_of (G k) e l s = Back v -> G (S k) (YBlock l e) s = Back v.
Proof. intros k l e s v H. cbn [gev]. rewrite H. reflexivity. Qed.
Lemma k_last : forall k e s v, G k e s = Back v -> block_of (G k) (Some e) [] s = Back v.
Proof. intros k e s v H. exact H. Qed.
Lemma k_after : forall k a b e s s1 o, stmts plan parsed k a s s1 -> block_of (G k) e b s1 = o -> block_of (G k) e (a ++ b)%list s = o.
Proof.
  intros k a b e s s1 o H B. induction H as [s | p t x r s v s1 bs s2 E M _ IH | y x r s v s1 s2 s3 E M _ IH | y z x r s v s1 s2 s3 E M _ IH | x r s v s1 s2 E _ IH | p x c r s items s1 w s2 s3 E M _ IH];
    cbn [app block_of]; [exact B | ..]; rewrite E; cbn [andthen]; rewrite ?M; auto.
Qed.
Lemma k_exp : forall k x r e s v, G k x s = Back v -> block_of (G k) e (ZExp x :: r) s = Back v.
Proof. intros k x r e s v H. cbn [block_of]. now rewrite H. Qed.
Lemma k_let : forall k p t x r e s v, G k x s = Back v -> block_of (G k) e (ZLet p t x :: r) s = Back v.
Proof. intros k p t x r e s v H. cbn [block_of]. now rewrite H. Qed.
Lemma k_for : forall k p x b r e s items s1 v, G k x s = Done (GL items) s1 -> each (G k) p b items s1 = Back v -> block_of (G k) e (ZFor p x b :: r) s = Back v.
Proof. intros k p x b r e s items s1 v H J. cbn [block_of]. rewrite H. cbn [andthen]. now rewrite J. Qed.
Lemma k_call : forall k f l s vs s1 fn env v, evs plan parsed k l s vs s1 -> String.eqb f "operations" = false -> outside parsed f vs = None ->
  find_func fs_c (last_part "" f) = Some fn -> Nat.eqb (length vs) (length (fu_params fn)) = true ->
  combine (map fst (fu_params fn)) vs = env -> G k (fu_body fn) env = Back v -> G (S k) (YCall f l) s = Done v s1.
Proof. intros k f l s vs s1 fn env v H N O F L C B. cbn [gev]. rewrite (evs_list _ _ _ _ _ _ _ _ H), N, O, F, L, C, B. reflexivity. Qed.
Lemma each_after : forall k p b l r s w s1 o, each (G k) p b l s = Done w s1 -> each (G k) p b r s1 = o -> each (G k) p b (l ++ r)%list s = o.
Proof.
  intros k p b. induction l as [| v l IH]; intros r s w s1 o L R; cbn [each app] in *; [now injection L as _ <- |].
  destruct (gmatch p v) as [bs |]; [| discriminate]. destruct (leave s (G k b (bs ++ s)%list)) as [x y | |]; cbn [andthen] in *; try discriminate. now apply (IH r y w s1).
Qed.
Lemma each_back : forall k x b v r s w, G k b ((x, v) :: s) = Back w -> each (G k) (QVar x) b (v :: r) s = Back w.
Proof. intros k x b v r s w H. cbn [each gmatch app]. now rewrite H. Qed.
Lemma each_back2 : forall k x y b i v r s w, G k b ((y, v) :: (x, i) :: s) = Back w -> each (G k) (QTup [QVar x; QVar y]) b (GT [i; v] :: r) s = Back w.
Proof. intros k x y b i v r s w H. cbn [each gmatch app]. now rewrite H. Qed.
End Rules.

Lemma enumerated_app : forall a b i, enumerated i (a ++ b)%list = (enumerated i a ++ enumerated (i + Z.of_nat (length a)) b)%list.
Proof.
  induction a as [| x a IH]; intros b i; cbn [app enumerated length]; [f_equal; cbn; lia |]. rewrite IH. f_equal. f_equal. f_equal. lia.
Qed.
Ltac kret := apply k_block, k_exp; eapply k_ret; ev.

Section Reject.
Variables (m : mode) (h : bool) (parsed : gv).
Notation G := (gev (planned m h) fs_c q_c parsed).
Variables (pk : gv) (mu : bool) (nm : string).
Notation err := (fun t => GE "Err" [GS t]).

Lemma c_vec : forall n k ty z e plen (slen pay : bool) cons co len b o so ac mt po lo up, (30 <= k)%nat -> 0 <= z < 2 ^ 64 -> (z mod 8 =? 0) = false -> read_trees ty = Some [TIdent ty] ->
  forall r e', block_of (G k) e' (part_c :: r) (env1 n (fieldv n (RVector (RPrimitive ty z e)) plen slen pay cons) co len (env0 pk mu nm (Emitted b o so ac mt po lo up))) =
    Back (err "unimplemented variable length field").
Proof.
  intros n k ty z e plen slen pay cons co len b o so ac mt po lo up K Z M R r e'. do 20 (destruct k as [| k]; [exfalso; lia |]).
  unfold part_c, env1, env0, fieldv. cbn [e_bit e_offs e_soffs e_acc e_mut e_pop e_lower e_upper].
  apply k_exp. eapply k_match; [ev |]. apply arm_miss; [reflexivity |]. eapply k_arm; [pat |]. cbn [app]. apply k_block.
  destruct pay.
  all: (match goal with |- block_of _ ?e (?x :: []) _ = _ => eapply (k_after _ _ _ [x] [] e) end; [sts |]); apply k_last; (eapply k_match; [ev |]); (eapply k_arm; [pat |]); cbn [app]; apply k_block.
  all: match goal with |- block_of _ ?e (?x :: ?r) _ = _ => eapply (k_after _ _ _ [x] r e) end; [sts |].
  all: apply k_exp; eapply k_if; [ev | reflexivity | kret].
Qed.
Lemma c_vecs : forall n k t plen (slen pay : bool) cons co len b o so ac mt po lo up, (30 <= k)%nat ->
  forall r e', block_of (G k) e' (part_c :: r) (env1 n (fieldv n (RVector (RVector t)) plen slen pay cons) co len (env0 pk mu nm (Emitted b o so ac mt po lo up))) =
    Back (err "variable length fields may not contain vectors").
Proof.
  intros n k t plen slen pay cons co len b o so ac mt po lo up K r e'. do 20 (destruct k as [| k]; [exfalso; lia |]).
  unfold part_c, env1, env0, fieldv. cbn [e_bit e_offs e_soffs e_acc e_mut e_pop e_lower e_upper].
  apply k_exp. eapply k_match; [ev |]. apply arm_miss; [reflexivity |]. eapply k_arm; [pat |]. cbn [app]. apply k_block.
  destruct pay.
  all: (match goal with |- block_of _ ?e (?x :: []) _ = _ => eapply (k_after _ _ _ [x] [] e) end; [sts |]); apply k_last; (eapply k_match; [ev |]); (apply arm_miss; [reflexivity |]); (eapply k_arm; [pat |]); cbn [app]; kret.
Qed.
Lemma c_misc : forall n k ty good bad rest plen (slen pay : bool) len b o so ac mt po lo up, (40 <= k)%nat -> 0 <= b -> b + fold_right Z.add 0 (map prim_bits good) < 2 ^ 64 ->
  args_at b good -> Forall usable good -> match bad with RPrimitive _ _ _ => False | _ => True end -> read_trees ty = Some [TIdent ty] ->
  forall r e', block_of (G k) e' (part_c :: r) (env1 n (fieldv n (RMisc ty) plen slen pay (GE "Some" [GL (map gtype (good ++ bad :: rest))])) (offset_tokens b o) len
      (env0 pk mu nm (Emitted b o so ac mt po lo up))) =
    Back (err "arguments to #[construct_with] must be primitives").
Proof.
  intros n k ty good bad rest plen slen pay len b o so ac mt po lo up K B T A U N R r e'.
  destruct (misc_total m h nm good o 0 b A) as [[[[[b' a] u] g] t] M]. pose proof (misc_bits m h nm _ _ _ _ _ _ _ _ _ M) as MB.
  do 6 (destruct k as [| k]; [exfalso; lia |]).
  set (f := fieldv n (RMisc ty) plen slen pay (GE "Some" [GL (map gtype (good ++ bad :: rest))])).
  destruct (misc_loop m h parsed pk mu nm (S (S (S (S k)))) n f len ty (GL (map gtype (good ++ bad :: rest))) so ac mt po lo up o good 0 b b' [] [] [] [] a u g t ltac:(lia) M U B ltac:(lia)) as (co' & W).
  assert (W2 : each (G (S (S (S (S k))))) (QTup [QVar "i"; QVar "arg"]) arg_body (enumerated 0 (map gtype (good ++ bad :: rest)))
    (menv pk mu nm n f len ty (GL (map gtype (good ++ bad :: rest))) so ac mt po lo up o (offset_tokens b o) b [] [] [] []) = Back (err "arguments to #[construct_with] must be primitives")).
  { replace (enumerated 0 (map gtype (good ++ bad :: rest))) with (enumerated 0 (map gtype good) ++ enumerated (0 + Z.of_nat (length (map gtype good))) (map gtype (bad :: rest)))%list
      by (now rewrite map_app, enumerated_app). cbn [map enumerated]. eapply each_after; [exact W |]. apply each_back2.
    do 10 (destruct k as [| k]; [exfalso; lia |]). unfold arg_body. apply k_block, k_last. eapply k_match; [ev |].
    destruct bad as [| |]; [contradiction | |]; (apply arm_miss; [reflexivity |]); (eapply k_arm; [pat |]); cbn [app]; kret. }
  clear W. do 20 (destruct k as [| k]; [exfalso; lia |]).
  unfold menv, f, env1, env0, fieldv in W2. cbn [e_bit e_offs e_soffs e_acc e_mut e_pop e_lower e_upper app map] in W2.
  unfold part_c, env1, env0, fieldv. cbn [e_bit e_offs e_soffs e_acc e_mut e_pop e_lower e_upper].
  apply k_exp. eapply k_match; [ev |]. do 2 (apply arm_miss; [reflexivity |]). eapply k_arm; [pat |]. cbn [app]. apply k_block.
  match goal with |- block_of _ ?e (?a :: ?b :: ?c :: ?d :: ?x :: ?y :: ?r) _ = _ => eapply (k_after _ _ _ [a; b; c; d; x; y] r e) end; [sts |].
  eapply k_for; [ev | exact W2].
Qed.

Lemma bad_round : forall k p s msg, (50 <= k)%nat -> fine (e_bit s) (e_offs s) p -> refused (e_bit s) p msg -> 0 <= e_bit s -> e_bit s + bits_taken p < 2 ^ 64 ->
  G k loop_body (("field", gfield p) :: env0 pk mu nm s) = Back (err msg).
Proof.
  intros k p s msg K (FT & FS & FL) RF B B'. pose proof (width_pos p FT) as WP.
  destruct k as [| k]; [lia |]. rewrite parts, field_is.
  set (len := match pf_len p with Some l => length_expr (offset_tokens (e_bit s) (e_offs s)) l | None => packet_len end).
  assert (LEN : match plen_of p with
                | Some l => read_trees (replace "r#field_offset" ("&self.packet[(" ++ trees_text (offset_tokens (e_bit s) (e_offs s)) ++ ")..]") l) = Some len
                | None => len = packet_len
                end).
  { unfold plen_of, len. unfold fine_len in FL. destruct (pf_len p) as [l |]; cbn [option_map]; [now apply FL | reflexivity]. }
  pose proof (stage_a (planned m h) parsed pk mu nm (pf_name p) k (pf_ty p) (plen_of p) (pf_struct_len p) (pf_payload p) (cons_of p) s len ltac:(lia) ltac:(lia) LEN) as SA.
  destruct s as [b o so ac mt po lo up]. cbn [e_bit e_offs] in *.
  pose proof (stage_b (planned m h) parsed pk mu nm (pf_name p) k (pf_ty p) (plen_of p) (pf_struct_len p) (pf_payload p) (cons_of p) (offset_tokens b o) len b o so ac mt po lo up ltac:(lia)) as SB.
  apply k_block. eapply k_after; [exact SA |]. change (part_b :: part_c :: part_d) with ([part_b] ++ part_c :: part_d)%list. eapply k_after; [exact SB |].
  clear SA SB LEN FL FS. unfold refused, fine_type, bits_taken, cons_of in *.
  destruct (pf_ty p) as [ty z e | [ty z e | t | ty] | ty] eqn:T; try contradiction.
  - destruct RF as [Z8 ->]. destruct FT as [Z1 FT]. apply c_vec; [lia | lia | now apply Z.eqb_neq | exact FT].
  - subst msg. apply c_vecs. lia.
  - destruct RF as [(good & bad & rest & C & A & N) ->]. destruct FT as (FT & _ & FC). rewrite C in *. rewrite map_app, fold_right_app in B'. cbn [map fold_right] in B'.
    apply Forall_app in FC as [FG FR]. inversion FR as [| ? ? _ FR']; subst.
    assert (P : forall l x, Forall fine_prim l -> 0 <= x -> fold_right Z.add 0 (map prim_bits l) <= fold_right Z.add x (map prim_bits l) /\ 0 <= fold_right Z.add x (map prim_bits l)).
    { clear. intros l x F X. induction F as [| y l Y F IH]; cbn [map fold_right]; [lia |]. assert (0 <= prim_bits y) by (destruct y; cbn [fine_prim prim_bits] in *; lia). lia. }
    destruct (P rest 0 FR' (Z.le_refl 0)) as [_ P0].
    destruct (P good (prim_bits bad + fold_right Z.add 0 (map prim_bits rest)) FG) as [P1 _]; [destruct bad; [contradiction | cbn [prim_bits]; lia ..] |].
    destruct (good ++ bad :: rest)%list eqn:L; [destruct good; discriminate L |]. rewrite <- L.
    apply c_misc; [lia | lia | lia | exact A | now apply fine_usable | exact N | exact FT].
Qed.

Lemma fine_split : forall pre l b o, all_fine b o (pre ++ l)%list -> all_fine b o pre.
Proof. induction pre as [| p pre IH]; intros l b o F; [exact I |]. destruct F as [F1 F]. split; [exact F1 | now apply (IH l)]. Qed.
Lemma bad_loop : forall k pre s p post msg, (50 <= k)%nat -> all_fine (e_bit s) (e_offs s) (pre ++ [p])%list -> all_code (e_bit s) pre -> refused (e_bit s + all_bits pre) p msg ->
  0 <= e_bit s -> e_bit s + all_bits (pre ++ [p])%list < 2 ^ 64 ->
  each (G k) (QVar "field") loop_body (map gfield (pre ++ p :: post)) (env0 pk mu nm s) = Back (err msg).
Proof.
  intros k pre. induction pre as [| q pre IH]; intros s p post msg K F C R B T; cbn [app map all_fine all_code] in *.
  - destruct F as [F _]. apply each_back. unfold all_bits in *. cbn [map fold_right] in *. rewrite Z.add_0_r in R, T. now apply bad_round.
  - destruct F as [F1 F]. destruct C as [C1 C]. destruct (field_total m h nm q s C1) as [s1 E]. destruct (emit_next m h nm q s s1 E) as [NB NO]. rewrite <- NB, <- NO in F. rewrite <- NB in C.
    pose proof (width_pos q (proj1 F1)) as WP. unfold all_bits in *. cbn [map fold_right] in *. pose proof (total_pos _ _ _ F) as TP. unfold all_bits in TP.
    eapply each_var with (s2 := env0 pk mu nm s1); [apply (round m h parsed pk mu nm k q s s1); [lia | exact E | exact F1 | exact B | lia] | |].
    + reflexivity.
    + apply IH; [lia | exact F | exact C | | lia | lia]. replace (e_bit s1 + fold_right Z.add 0 (map bits_taken pre)) with (e_bit s + (bits_taken q + fold_right Z.add 0 (map bits_taken pre))) by lia. exact R.
Qed.
End Reject.

Section Whole.
Variables (m : mode) (h : bool) (base : string) (pre : list pfield) (p : pfield) (post : list pfield) (msg : string).
Hypothesis texts : all_fine 0 [] (pre ++ [p])%list.
Hypothesis fit : all_bits (pre ++ [p])%list < 2 ^ 64.
Hypothesis codes : all_code 0 pre.
Hypothesis bad : refused (all_bits pre) p msg.
Notation ps := (pre ++ p :: post)%list.
Notation err := (GE "Err" [GS msg]).

Lemma bad_impl : forall parsed k mu, (70 <= k)%nat ->
  gev (planned m h) fs_c q_c parsed k (fu_body f_packet_impl) [("packet", gpacket base ps); ("mutable", GB mu)] = Back err.
Proof.
  intros parsed k mu K. do 20 (destruct k as [| k]; [exfalso; lia |]).
  match type of K with (_ <= S ?k)%nat => pose proof (bad_loop m h parsed (gpacket base ps) mu (type_name base mu) k pre start p post msg ltac:(lia) texts codes) as W end.
  change (e_bit start) with 0 in W. rewrite !Z.add_0_l in W. specialize (W bad (Z.le_refl 0) fit).
  unfold env0 in W. unfold start in W. cbn [e_bit e_offs e_soffs e_acc e_mut e_pop e_lower e_upper map] in W.
  unfold f_packet_impl. cbn [fu_body]. unfold gpacket in *. unfold loop_body in W. apply k_block.
  destruct mu.
  all: match goal with |- block_of _ ?e (?a :: ?b :: ?c :: ?d :: ?x :: ?y :: ?z :: ?w :: ?r) _ = _ => eapply (k_after _ _ _ [a; b; c; d; x; y; z; w] r e) end; [sts |].
  all: eapply k_for; [ev | exact W].
Qed.
Lemma bad_impls : forall parsed k, (80 <= k)%nat -> gev (planned m h) fs_c q_c parsed k (fu_body f_packet_impls) [("packet", gpacket base ps)] = Back err.
Proof.
  intros parsed k K. do 5 (destruct k as [| k]; [exfalso; lia |]). unfold f_packet_impls. cbn [fu_body]. apply k_block, k_let. eapply k_try.
  eapply k_call; [evl | reflexivity | reflexivity | reflexivity | reflexivity | reflexivity | apply bad_impl; lia].
Qed.
Lemma bad_packet : forall k, (90 <= k)%nat ->
  gev (planned m h) fs_c q_c (GE "Ok" [gpacket base ps]) k (fu_body f_generate_packet) [("s", GUnit); ("name", GS base)] = Back err.
Proof.
  intros k K. do 5 (destruct k as [| k]; [exfalso; lia |]). unfold f_generate_packet. cbn [fu_body]. apply k_block.
  match goal with |- block_of _ ?e (?a :: ?b :: ?r) _ = _ => eapply (k_after _ _ _ [a; b] r e) end; [sts |].
  apply k_let. eapply k_try.
  eapply k_call; [evl | reflexivity | reflexivity | reflexivity | reflexivity | reflexivity | apply bad_impls; lia].
Qed.
Lemma bad_struct : expand m h base ps = Some (inr msg).
Proof.
  unfold expand, run_code. rewrite code_is. change (find_func fs_c "generate_packet") with (Some f_generate_packet). cbv iota. rewrite bad_packet by lia. reflexivity.
Qed.
End Whole.

Lemma bad_parse : forall m h base msg, run_code code_read (planned m h) (GE "Err" [GS msg]) base = Some (inr msg).
Proof.
  intros m h base msg. unfold run_code. rewrite code_is. change (find_func fs_c "generate_packet") with (Some f_generate_packet). cbv iota.
  assert (E : gev (planned m h) fs_c q_c (GE "Err" [GS msg]) 100 (fu_body f_generate_packet) [("s", GUnit); ("name", GS base)] = Back (GE "Err" [GS msg])).
  { unfold f_generate_packet. cbn [fu_body]. apply k_block, k_let. eapply k_try. eapply r_out; [evl | reflexivity | reflexivity]. }
  rewrite E. reflexivity.
Qed.

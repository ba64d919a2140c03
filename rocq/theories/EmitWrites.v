(** What the emitted methods that change a packet do when they are run. *)
From Coq Require Import String Ascii ZArith List Bool Lia.
From Verif Require Import Base BaseFacts DeriveUtil DeriveOps DeriveGen DeriveParse SpecPacket DeriveAccProofs DeriveApiProofs
  Protocols Quic FmtText RustLex RustSyntax RustItem RustSem RustMethod RustExec CrateText
  SpecSource SpecItem ItemProofs ItemLayout EmitText EmitGen SpecEmit EmitEq EmitWant EmitTransfer EmitLayout EmitOps EmitRun EmitStable EmitReads EmitSets.
Import ListNotations.
Open Scope string_scope.
Open Scope Z_scope.

(** The shifts of a setter stay below the width of the type. *)
Definition set_ready (bit : Z) (t : rtype) : bool :=
  match int_ty (ty_of t) with Some u => forallb (setop_safe (width u)) (to_mutator (ops_at bit t)) | None => false end.
Lemma set_ready_ok : forall bit t u, set_ready bit t = true -> int_ty (ty_of t) = Some u -> forallb (setop_safe (width u)) (to_mutator (ops_at bit t)) = true.
Proof. intros bit t u H E. unfold set_ready in H. now rewrite E in H. Qed.
Lemma gen_set_bytes : forall m w ops co i v b, bytes_ok b -> bytes_ok (fst (gen_set_ops m w ops co i v b)).
Proof.
  intros m w ops co. induction ops as [| op ops IH]; intros i v b B; [exact B |]. cbn [gen_set_ops].
  destruct (add_u m usize co i) as [j |]; [| exact B]. cbn [bind]. destruct (idx b j) as [x |] eqn:X; [| exact B]. cbn [bind].
  destruct (eval_setop m w op x v) as [y |] eqn:Y; [| exact B]. cbn [bind]. unfold mseq.
  destruct (store b j y) as [b' r] eqn:S. destruct r as [u | e].
  - apply IH. destruct u. exact (store_bytes b j y b' B (setop_low _ _ _ _ _ _ (idx_byte b B j x X) Y) S).
  - unfold store in S. destruct ((0 <=? j) && (j <? blen b))%bool; [discriminate |]. injection S as <- _. exact B.
Qed.

Section Writes.
Variables (c : cfg) (rounds : nat) (mo base : string) (mu : bool) (ps : list pfield) (fs : schema).
Local Notation pe_at := (pe_at c rounds mo base mu ps fs).
Local Notation means := (means c rounds mo base mu ps fs).
Local Notation spot_ok := (spot_ok c rounds mo base mu ps fs).
Local Notation sig := (emit_sig mo base mu ps).
Local Notation fun_ := (emit_fun c rounds mo base mu ps fs).
Local Notation run := (run c rounds mo base mu ps fs).
Local Notation kind_of := (kind_of mo base mu ps).
Local Notation holds := (holds "self.packet").
Local Notation wrote := (wrote "self.packet").
Local Notation wrote_in := (wrote_in "self.packet").
Local Notation yields := (yields "self.packet").
(** The variables of a method with one more parameter. *)
Definition with_arg (x : string) (v : rv) (b : buf) : RustSem.env := [("self", VSelf); (x, v); ("self.packet", VA (Some U8) b)].
Lemma with_arg_good : forall x v b, String.eqb "self" x = false -> String.eqb "self.packet" x = false -> good b (with_arg x v b).
Proof. intros x v b N1 N2. split; [reflexivity |]. cbn [with_arg RustSem.lookup]. rewrite N2. reflexivity. Qed.
Lemma run_meth_arg : forall m x ty v b, fn_params (m_fn m) = [slf; (x, ty)] ->
  run_meth c rounds mo base mu ps fs m [VSelf; v] b =
  finished "self.packet" (run (m_items m) (int_ty (fn_ret (m_fn m))) (int_ty (fn_ret (m_fn m))) (fn_body (m_fn m)) (with_arg x v b)).
Proof. intros m x ty v b H. unfold run_meth. rewrite H. reflexivity. Qed.
Lemma run_writes : forall m x ty v b r, fn_params (m_fn m) = [slf; (x, ty)] -> String.eqb "self" x = false -> String.eqb "self.packet" x = false ->
  wrote (with_arg x v b) (run (m_items m) (int_ty (fn_ret (m_fn m))) (int_ty (fn_ret (m_fn m))) (fn_body (m_fn m)) (with_arg x v b)) r ->
  writes (run_meth c rounds mo base mu ps fs m [VSelf; v] b) r.
Proof.
  intros m x ty v b r P N1 N2 W. unfold writes. rewrite (run_meth_arg m x ty v b P). apply (wrote_finished "self.packet" b) in W; [exact W |].
  exact (proj2 (with_arg_good x v b N1 N2)).
Qed.

(** ** Integer fields *)

Lemma prim_set_run : forall name b s l n q u z ret w, spot_ok name b s l -> buf_ok b ->
  prim_ready (sp_bit s) (RPrimitive n (p_size q) (p_end q)) = true -> set_ready (sp_bit s) (RPrimitive n (p_size q) (p_end q)) = true -> int_ty n = Some u ->
  wrote (with_arg "val" (RustSem.VI (Some u) z) b)
    (run [] ret w (body_at (sp_co s) (setops_ast "self.packet" (to_mutator (ops_at (sp_bit s) (RPrimitive n (p_size q) (p_end q)))))) (with_arg "val" (RustSem.VI (Some u) z) b))
    (lift_set (l_co c l) (fun co => prim_set c (l_bit l) q z co) b).
Proof.
  intros name b s l n q u z ret w (_ & SB & SO & _) [B _] R SR TY. destruct (prim_ready_ops _ _ _ _ R) as (ops & u' & O & NE & TY' & W & OA).
  rewrite TY in TY'. injection TY' as <-. pose proof (set_ready_ok _ _ _ SR TY) as SF. rewrite OA in *.
  replace (lift_set (l_co c l) (fun co => prim_set c (l_bit l) q z co) b)
    with (lift_set (l_co c l) (fun x => gen_set_ops (c_mode c) (width u) (to_mutator ops) x 0 z) b).
  - apply set_body_run; auto; try reflexivity.
    + apply co_plain.
    + unfold sp_co, l_co. rewrite SB. rewrite <- vi_of.
      exact (means_co c rounds mo base mu ps fs b (l_bit l) _ _ SO [] (Some Usize) _ (with_arg_good "val" _ b eq_refl eq_refl)).
  - unfold lift_set. destruct (l_co c l) as [x |]; [| reflexivity]. unfold prim_set, plan. rewrite <- SB.
    pose proof (O (c_macro c) (c_host_le c)) as P. unfold ops_of in P. rewrite P. now rewrite W.
Qed.

(** ** Constructed fields *)

Definition one_set (bit : Z) (q : prim) (z : Z) : Base.mut := lift_set (current_offset c bit []) (fun co => prim_set c bit q z co).
Lemma item_set : forall b of_ i bit n q u z, bytes_ok b -> prim_ready bit (RPrimitive n (p_size q) (p_end q)) = true ->
  set_ready bit (RPrimitive n (p_size q) (p_end q)) = true -> int_ty n = Some u ->
  item_act (c_mode c)
    (Fn ("set_arg" ++ dec i) [("_self", "&" ++ of_); ("val", n)] "" (body_at (co_ast bit []) (setops_ast "_self.packet" (to_mutator (ops_at bit (RPrimitive n (p_size q) (p_end q)))))))
    [VSelf; RustSem.VI (Some u) z] b = Some (one_set bit q z b) /\ bytes_ok (fst (one_set bit q z b)).
Proof.
  intros b of_ i bit n q u z B R SR TY. destruct (prim_ready_ops _ _ _ _ R) as (ops & u' & O & NE & TY' & W & OA).
  rewrite TY in TY'. injection TY' as <-. pose proof (set_ready_ok _ _ _ SR TY) as SF. rewrite OA in *.
  assert (E : one_set bit q z b = gen_set_ops (c_mode c) (width u) (to_mutator ops) (bit / 8) 0 z b).
  { unfold one_set, lift_set, current_offset. cbn [fold_left]. unfold prim_set, plan. pose proof (O (c_macro c) (c_host_le c)) as P. unfold ops_of in P. rewrite P. now rewrite W. }
  rewrite E. split; [| now apply gen_set_bytes].
  unfold item_act, run_item. cbn [fn_ret fn_params fn_body bind_args item_place append app].
  set (s := [("_self", VSelf); ("val", RustSem.VI (Some u) z); ("_self.packet", VA (Some U8) b)]).
  assert (Y : EmitSets.wrote "_self.packet" s
    (exec (c_mode c) crate_const no_sig emit_hint "_self.packet" (fun _ => no_fun) no_act (int_ty "") (int_ty "")
       (body_at (co_ast bit []) (setops_ast "_self.packet" (to_mutator ops))) s) (lift_set (Ok (bit / 8)) (fun x => gen_set_ops (c_mode c) (width u) (to_mutator ops) x 0 z) b)).
  { apply set_body_run; auto; reflexivity. }
  apply (wrote_finished "_self.packet" b) in Y; [| reflexivity]. cbn [lift_set] in Y. rewrite Y.
  destruct (gen_set_ops (c_mode c) (width u) (to_mutator ops) (bit / 8) 0 z b) as [b' [[] | e]]; reflexivity.
Qed.
(** Every inner function is the one its name refers to, and takes a value of the type of the first. *)
Fixpoint sets_named (items all : list fn) (u : ity) (i bit : Z) (l : list rtype) : bool :=
  match l, items with
  | [], [] => true
  | t :: r, it :: ir =>
      (match find_item all ("set_arg" ++ dec i) with Some x => fn_eqb x it | None => false end &&
       match int_ty (ty_of t) with Some v => ity_eqb u v | None => false end && set_ready bit t &&
       sets_named ir all u (i + 1) (bit + args_size [t]) r)%bool
  | _, _ => false
  end.
Lemma proj_dec : forall i l, 0 <= i < 10 -> proj (dec i) l = nth_error l (Z.to_nat i).
Proof.
  intros i l H. assert (I : In i [0; 1; 2; 3; 4; 5; 6; 7; 8; 9]) by (cbn; lia).
  cbn [In] in I. repeat (destruct I as [<- | I]; [reflexivity |]). destruct I.
Qed.
Lemma set_arg_run : forall w b of_ u all i bit n q zs z s, bytes_ok b -> holds b s -> RustSem.lookup "self" s = Some VSelf ->
  RustSem.lookup "vals" s = Some (VC "tuple" u zs) -> 0 <= i < 10 -> nth_error zs (Z.to_nat i) = Some z ->
  prim_ready bit (RPrimitive n (p_size q) (p_end q)) = true -> set_ready bit (RPrimitive n (p_size q) (p_end q)) = true -> int_ty n = Some u ->
  find_item all ("set_arg" ++ dec i) = Some (Fn ("set_arg" ++ dec i) [("_self", "&" ++ of_); ("val", n)] ""
    (body_at (co_ast bit []) (setops_ast "_self.packet" (to_mutator (ops_at bit (RPrimitive n (p_size q) (p_end q))))))) ->
  wrote s (run all None w (set_arg i) s) (one_set bit q z b).
Proof.
  intros w b of_ u all i bit n q zs z s B H SE VS I NZ R SR TY FI. unfold set_arg.
  apply call_act with (p := item_act (c_mode c) (Fn ("set_arg" ++ dec i) [("_self", "&" ++ of_); ("val", n)] ""
    (body_at (co_ast bit []) (setops_ast "_self.packet" (to_mutator (ops_at bit (RPrimitive n (p_size q) (p_end q)))))))) (b := b) (vs := [VSelf; RustSem.VI (Some u) z]).
  - reflexivity.
  - unfold emit_act. rewrite FI. reflexivity.
  - exact H.
  - cbn [pes]. rewrite (pe_path _ _ _ _ _ _ _ _ _ SE). cbn [open_ty andthen pe]. rewrite VS. cbn [open_ty andthen]. rewrite proj_dec by exact I. rewrite NZ. reflexivity.
  - exact (proj1 (item_set b of_ i bit n q u z B R SR TY)).
Qed.
Local Notation stmts all := (run_stmts (c_mode c) crate_const (sig all) emit_hint "self.packet" (fun_ all) (emit_act c ps fs all) None).
Lemma sets_run : forall w of_ u all l qs, Forall2 same_prim l qs -> forall bit i zs pre b s, bytes_ok b -> holds b s -> RustSem.lookup "self" s = Some VSelf ->
  RustSem.lookup "vals" s = Some (VC "tuple" u (pre ++ zs)) -> Z.of_nat (List.length pre) = i -> i + Z.of_nat (List.length l) <= 10 -> List.length zs = List.length l ->
  args_ready bit l = true -> sets_named (set_items of_ [] i bit l) all u i bit l = true ->
  wrote s (stmts all w (fst (set_args i l)) (snd (set_args i l)) s) (misc_set c qs zs bit [] b).
Proof.
  intros w of_ u all l qs F. induction F as [| t q l qs Q F IH]; intros bit i zs pre b s B H SE VS LP LI LZ R N.
  - destruct zs; [| discriminate]. cbn [set_args fst snd run_stmts misc_set]. unfold EmitSets.wrote, mret. cbn [fst snd]. now rewrite (upd_same _ b s H).
  - destruct zs as [| z zs]; [discriminate |]. cbn [args_ready] in R. apply andb_prop in R. destruct R as [R1 R2]. cbn [set_items sets_named] in N.
    apply andb_prop in N. destruct N as [N N4]. apply andb_prop in N. destruct N as [N N3]. apply andb_prop in N. destruct N as [N1 N2].
    destruct (find_item all ("set_arg" ++ dec i)) as [it |] eqn:FI; [| discriminate]. apply fn_eqb_ok in N1. subst it. destruct Q as [n ->].
    cbn [ty_of] in *. destruct (int_ty n) as [v |] eqn:TY; [| discriminate]. apply ity_eqb_ok in N2. subst v.
    assert (NZ : nth_error (pre ++ z :: zs)%list (Z.to_nat i) = Some z).
    { rewrite nth_error_app2 by lia. replace (Z.to_nat i - List.length pre)%nat with 0%nat by lia. reflexivity. }
    assert (IR : 0 <= i < 10) by (cbn [List.length] in LI; lia).
    cbn [misc_set]. fold (one_set bit q z). replace (bit + args_size [RPrimitive n (p_size q) (p_end q)]) with (bit + p_size q) in * by (cbn; lia).
    pose proof (fun w => set_arg_run w b of_ u all i bit n q _ z s B H SE VS IR NZ R1 N3 TY FI) as S1.
    destruct (item_set b of_ i bit n q u z B R1 N3 TY) as [_ B1].
    replace (mseq (one_set bit q z) (misc_set c qs zs (bit + p_size q) []) b)
      with (match snd (one_set bit q z b) with Ok _ => misc_set c qs zs (bit + p_size q) [] (fst (one_set bit q z b)) | Panic e => (fst (one_set bit q z b), Panic e) end)
      by (unfold mseq; destruct (one_set bit q z b) as [b1 [x | e]]; reflexivity).
    destruct l as [| t2 l].
    + cbn [set_args fst snd run_stmts]. specialize (S1 w). inversion F; subst. destruct zs; [| discriminate]. cbn [misc_set]. unfold mret.
      destruct (one_set bit q z b) as [b1 [[] | e]]; exact S1.
    + change (set_args i (RPrimitive n (p_size q) (p_end q) :: t2 :: l)) with (let '(a, b) := set_args (i + 1) (t2 :: l) in (SExp (set_arg i) :: a, b)).
      specialize (IH (bit + p_size q) (i + 1) zs (pre ++ [z])%list (fst (one_set bit q z b)) (upd "self.packet" (fst (one_set bit q z b)) s) B1 (upd_holds _ b _ s H)).
      rewrite !upd_lookup in IH by reflexivity. rewrite <- app_assoc in IH. rewrite app_length in IH. cbn [List.length app] in IH, LI, LZ.
      specialize (IH SE VS ltac:(lia) ltac:(cbn [List.length]; lia) ltac:(cbn [List.length]; lia) R2 N4).
      destruct (set_args (i + 1) (t2 :: l)) as [a t]. cbn [fst snd] in *.
      apply wrote_seq with (f := misc_set c qs zs (bit + p_size q) []); [exact (S1 None) | intros _; exact IH].
Qed.
Definition misc_set_ready (of_ : string) (s : spot) (ty : string) : bool :=
  let l := pf_cons (sp_field s) in
  let all := set_items of_ (sp_offs s) 0 (sp_bit s) l in
  (match sp_offs s with [] => true | _ => false end &&
   match kind_of all (ty ++ "::to_primitive_values") with KPrims => true | _ => false end && inert ps all (ty ++ "::to_primitive_values") &&
   (Z.of_nat (List.length l) <=? 10) &&
   match first_ty l with Some u => sets_named all all u 0 (sp_bit s) l | None => false end)%bool.
Lemma misc_set_run : forall name b s l ty of_ qs u zs w, spot_ok name b s l -> buf_ok b -> Forall2 same_prim (pf_cons (sp_field s)) qs ->
  args_ready (sp_bit s) (pf_cons (sp_field s)) = true -> misc_set_ready of_ s ty = true -> first_ty (pf_cons (sp_field s)) = Some u ->
  List.length zs = List.length (pf_cons (sp_field s)) ->
  wrote (with_arg "val" (VC ty u zs) b)
    (run (set_items of_ (sp_offs s) 0 (sp_bit s) (pf_cons (sp_field s))) None w (fn_body (m_fn (snd (want_misc_set of_ s ty)))) (with_arg "val" (VC ty u zs) b))
    (misc_set c qs zs (l_bit l) (l_lens l) b).
Proof.
  intros name b s l ty of_ qs u zs w (_ & SB & SO & _) [B _] SP R M FT LZ. unfold misc_set_ready in M. cbn zeta in M.
  apply andb_prop in M. destruct M as [M M4]. apply andb_prop in M. destruct M as [M M3]. apply andb_prop in M. destruct M as [M MI]. apply andb_prop in M. destruct M as [M1 M2]. rewrite FT in M4. apply Z.leb_le in M3.
  destruct (sp_offs s) as [| ? ?]; [| discriminate]. inversion SO as [E1 E2 |]. clear SO. rewrite <- SB.
  set (all := set_items of_ [] 0 (sp_bit s) (pf_cons (sp_field s))) in *.
  destruct (kind_of all (ty ++ "::to_primitive_values")) eqn:K; try discriminate. destruct (kind_is c rounds mo base mu ps fs _ _ _ K) as [KS KF].
  unfold want_misc_set. pose proof (sets_run w of_ u all (pf_cons (sp_field s)) qs SP (sp_bit s) 0 zs [] b (("vals", VC "tuple" u zs) :: with_arg "val" (VC ty u zs) b) B eq_refl eq_refl eq_refl eq_refl M3 LZ R M4) as W.
  destruct (set_args 0 (pf_cons (sp_field s))) as [a t]. cbn [fst snd] in W. cbn [me snd m_fn fn_body]. unfold EmitReads.run. rewrite exec_block. apply in_block.
  apply (in_let _ _ _ _ _ _ _ _ b w "vals" None (XMeth (XPath "val") "to_primitive_values" []) a t _ (VC "tuple" u zs)); [reflexivity | | exact (in_of _ _ _ _ W)].
  cbn [EmitRun.yields exec]. change (RustSem.lookup "val" (with_arg "val" (VC ty u zs) b)) with (Some (VC ty u zs)). cbn iota.
  change (ty ++ "::" ++ "to_primitive_values")%string with (ty ++ "::to_primitive_values")%string. unfold act. rewrite (proj1 (inert_ok c ps fs _ _ MI)).
  rewrite (val_at _ _ _ _ _ _ b) by reflexivity. rewrite pe_meth by reflexivity. rewrite (pe_path _ _ _ _ _ _ "val" _ (VC ty u zs)) by reflexivity.
  cbn [open_ty andthen pes call_method]. change (ty ++ "::" ++ "to_primitive_values")%string with (ty ++ "::to_primitive_values")%string. rewrite KS. unfold result. rewrite KF. reflexivity.
Qed.

(** ** Vectors of bytes *)

Definition copy_stmt : st :=
  SExp (XMeth (XIndex (XPath "self.packet")
            (XRange (Some (XPath "current_offset")) (Some (XBin OAdd (XPath "current_offset") (XMeth (XPath "vals") "len" [])))))
            "copy_from_slice" [XPath "vals"]).
Lemma copy_run : forall w b s x vs, good b s -> RustSem.lookup "current_offset" s = Some (RustSem.VI (Some Usize) x) ->
  RustSem.lookup "vals" s = Some (VA (Some U8) vs) -> wrote s (stmts [] w [copy_stmt] None s) (copy_at (c_mode c) b x vs).
Proof.
  intros w b s x vs G CO VS. unfold copy_stmt. cbn [run_stmts run_st exec]. change (String.eqb "copy_from_slice" "copy_from_slice") with true. cbn iota.
  rewrite (proj2 G). rewrite !(val_at _ _ _ _ _ _ b) by exact (proj2 G).
  assert (HI : pe (c_mode c) crate_const (sig []) emit_hint (fun_ [] b) (Some Usize) (XBin OAdd (XPath "current_offset") (XMeth (XPath "vals") "len" [])) s = of_res Usize (add_u (c_mode c) usize x (blen vs))).
  { rewrite (int_add (c_mode c) crate_const (sig []) emit_hint (fun_ [] b) (XPath "current_offset") (XMeth (XPath "vals") "len" []) s Usize (Ok x) (Ok (blen vs))).
    - reflexivity.
    - intros w'. rewrite (pe_path _ _ _ _ _ _ _ _ _ CO). reflexivity.
    - intros w' _. rewrite pe_meth by reflexivity. rewrite (pe_path _ _ _ _ _ _ _ _ _ VS). reflexivity. }
  assert (RG : pe (c_mode c) crate_const (sig []) emit_hint (fun_ [] b) None (XRange (Some (XPath "current_offset")) (Some (XBin OAdd (XPath "current_offset") (XMeth (XPath "vals") "len" [])))) s =
    match add_u (c_mode c) usize x (blen vs) with Ok hi => Val (VR (Some (Some Usize, x)) (Some (Some Usize, hi))) | Panic e => Pnc e end).
  { etransitivity; [| match goal with |- ?R = _ => exact (eq_refl R) end]. 
    change (pe (c_mode c) crate_const (sig []) emit_hint (fun_ [] b) None (XRange (Some (XPath "current_offset")) (Some (XBin OAdd (XPath "current_offset") (XMeth (XPath "vals") "len" [])))) s)
      with (andthen (andthen (pe (c_mode c) crate_const (sig []) emit_hint (fun_ [] b) (Some Usize) (XPath "current_offset") s) (fun v => match v with RustSem.VI t z => Val (Some (t, z)) | _ => Bad end)) (fun lo =>
            andthen (andthen (pe (c_mode c) crate_const (sig []) emit_hint (fun_ [] b) (Some Usize) (XBin OAdd (XPath "current_offset") (XMeth (XPath "vals") "len" [])) s) (fun v => match v with RustSem.VI t z => Val (Some (t, z)) | _ => Bad end)) (fun hi => Val (VR lo hi)))).
    rewrite HI. rewrite (pe_path _ _ _ _ _ _ _ _ _ CO). destruct (add_u (c_mode c) usize x (blen vs)); reflexivity. }
  rewrite RG. unfold copy_at. destruct (add_u (c_mode c) usize x (blen vs)) as [hi | e]; cbn [of_value].
  2: { exists s. split; [reflexivity | exact (proj2 G)]. }
  rewrite (pe_path _ _ _ _ _ _ _ _ _ VS). cbn [open_ty of_value]. unfold copy_into, copy_range.
  destruct ((0 <=? x) && (x <=? hi) && (hi <=? blen b))%bool eqn:RB.
  - destruct (hi - x =? blen vs) eqn:RL; cbn [lift].
    + unfold assigned. rewrite (upd_assign "self.packet" b _ s (proj2 G)). unfold EmitSets.wrote. cbn [fst snd]. reflexivity.
    + exists s. split; [reflexivity | exact (proj2 G)].
  - cbn [lift]. exists s. split; [reflexivity | exact (proj2 G)].
Qed.
Definition vec_set_model (l : loc) (vs : list Z) (b : buf) : buf * res unit :=
  lift_set (l_co c l) (fun co b =>
        match (match l_len l with
               | Some r => n <- r ;; if blen vs <=? n then Ok Datatypes.tt else Panic EAssert
               | None => Ok Datatypes.tt
               end) with
        | Panic e => (b, Panic e)
        | Ok _ => copy_at (c_mode c) b co vs
        end) b.
Lemma vec_set_run : forall name b s l w vs, spot_ok name b s l -> buf_ok b ->
  wrote (with_arg "vals" (VA (Some U8) vs) b) (run [] None w (fn_body (m_fn (snd (want_vec_set s (RPrimitive "u8" 8 Big))))) (with_arg "vals" (VA (Some U8) vs) b))
    (vec_set_model l vs b).
Proof.
  intros name b s l w vs (_ & SB & SO & SL) B. unfold want_vec_set. cbn [me snd m_fn fn_body]. fold copy_stmt. unfold EmitReads.run. rewrite exec_block. apply in_block.
  set (s0 := with_arg "vals" (VA (Some U8) vs) b). assert (G0 : good b s0) by (apply with_arg_good; reflexivity).
  assert (CO : yields b s0 (run [] None (let_type emit_hint (PVar "current_offset") None) (sp_co s) s0) (vi (l_co c l))).
  { unfold sp_co, l_co. rewrite SB. apply yields_means; [apply co_plain | exact G0 | now apply means_co]. }
  unfold vec_set_model, lift_set. destruct (l_co c l) as [x | e]; cbn [vi] in CO; [| exact (in_crash _ _ _ _ _ _ _ _ b w _ _ _ _ _ _ e CO)].
  apply (in_let _ _ _ _ _ _ _ _ b w "current_offset" None (sp_co s) _ _ s0 (RustSem.VI (Some Usize) x)); [reflexivity | exact CO |].
  set (s1 := ("current_offset", RustSem.VI (Some Usize) x) :: s0). assert (G1 : good b s1) by now apply good_cons.
  unfold same_len in SL. destruct (sp_len s) as [e |] eqn:LE, (l_len l) as [r |]; try contradiction.
  - assert (LN : yields b s1 (run [] None (let_type emit_hint (PVar "len") None) e s1) (vi r)).
    { apply yields_means; [| exact G1 | exact SL]. unfold sp_len in LE. destruct (pf_len (sp_field s)); [| discriminate]. injection LE as <-. reflexivity. }
    cbn [app]. destruct r as [n | x0]; cbn [vi bind] in *; [| exact (in_crash _ _ _ _ _ _ _ _ b w _ _ _ _ _ _ x0 LN)].
    apply (in_let _ _ _ _ _ _ _ _ b w "len" None e _ _ s1 (RustSem.VI (Some Usize) n)); [reflexivity | exact LN |].
    set (s2 := ("len", RustSem.VI (Some Usize) n) :: s1). assert (G2 : good b s2) by now apply good_cons.
    assert (C : pe (c_mode c) crate_const (sig []) emit_hint (fun_ [] b) None (XBin OLe (XMeth (XPath "vals") "len" []) (XPath "len")) s2 = Val (VB (blen vs <=? n))).
    { cbn [pe is_cmp is_shift]. change (String.eqb "len" "copy_from_slice") with false. change (String.eqb "len" "sum") with false. change (String.eqb "len" "collect") with false. cbn iota.
      change (RustSem.lookup "vals" s2) with (Some (VA (Some U8) vs)). cbn [andthen open_ty type_of call_method]. unfold result at 1. cbn [method String.eqb Ascii.eqb Bool.eqb andthen type_of is_shift].
      change (RustSem.lookup "len" s2) with (Some (RustSem.VI (Some Usize) n)). reflexivity. }
    cbn [run_stmts run_st exec]. change (String.eqb "assert" "assert") with true. cbn iota. rewrite (val_at _ _ _ _ _ _ b) by exact (proj2 G2). rewrite C. cbn [of_value].
    destruct (blen vs <=? n); cbn iota.
    + apply in_of. exact (copy_run w b s2 x vs G2 eq_refl eq_refl).
    + exists s2. split; [reflexivity | exact (proj2 G2)].
  - cbn [app]. apply in_of. exact (copy_run w b s1 x vs G1 eq_refl eq_refl).
Qed.
(** ** populate *)

Lemma plain_field : forall p v r, field_rv p v = Some r -> plain_val r = Some v.
Proof.
  intros p v r H. unfold field_rv in H. destruct (pf_ty p) as [n z e | [n z e | |] | n], v as [x | l | l | l]; try discriminate.
  - injection H as <-. reflexivity.
  - injection H as <-. reflexivity.
  - injection H as <-. cbn [plain_val]. match goal with |- match ?g (map VX l) with _ => _ end = _ => assert (E : g (map VX l) = Some l) end.
    { induction l as [| x l IH]; [reflexivity |]. cbn [map]. now rewrite IH. }
    now rewrite E.
  - destruct (Nat.eqb _ _); [| discriminate]. destruct (first_ty (pf_cons p)); [| discriminate]. injection H as <-. reflexivity.
Qed.
Lemma setter_found : forall p, In p ps -> exists p', setter_of ps ("self.set_" ++ pf_name p) = Some p' /\ pf_name p' = pf_name p.
Proof.
  intros p. unfold setter_of. induction ps as [| q l IH]; intros I; [destruct I |]. cbn [find].
  change (String.eqb ("self.set_" ++ pf_name p) ("self.set_" ++ pf_name q)) with (String.eqb (pf_name p) (pf_name q)).
  destruct (String.eqb (pf_name p) (pf_name q)) eqn:E; [exists q; split; [reflexivity |]; apply String.eqb_eq in E; congruence |].
  destruct I as [-> | I]; [rewrite String.eqb_refl in E; discriminate | now apply IH].
Qed.
Lemma find_nth : forall L i l, NoDup (map (fun l => f_name (l_field l)) L) -> nth_error L i = Some l ->
  find (fun k => String.eqb (f_name (l_field k)) (f_name (l_field l))) L = Some l.
Proof.
  induction L as [| k L IH]; intros i l N E; [destruct i; discriminate |]. cbn [map] in N. inversion N as [| ? ? NI ND]; subst. cbn [find].
  destruct i as [| i]; [injection E as ->; now rewrite String.eqb_refl |]. cbn [nth_error] in E.
  destruct (String.eqb (f_name (l_field k)) (f_name (l_field l))) eqn:Q; [| now apply (IH i)].
  exfalso. apply String.eqb_eq in Q. apply NI. rewrite Q. apply in_map_iff. exists l. split; [reflexivity | exact (nth_error_In _ _ E)].
Qed.
Lemma set_nth : forall b i p v, NoDup (map pf_name ps) -> map pf_name ps = map f_name fs -> nth_error ps i = Some p ->
  set c fs (pf_name p) v b = match nth_error (layout c b fs) i with Some l => field_set c l v b | None => (b, Panic EUnimpl) end.
Proof.
  intros b i p v ND NS NE. assert (LF : map l_field (layout c b fs) = fs) by exact (layout_fields c b fs 0 [] []).
  assert (NM : map (fun l => f_name (l_field l)) (layout c b fs) = map pf_name ps) by (rewrite NS, <- (map_map l_field f_name), LF; reflexivity).
  pose proof (map_nth_error pf_name i ps NE) as NP. rewrite <- NM in NP.
  destruct (nth_error (layout c b fs) i) as [l |] eqn:NL.
  - rewrite (map_nth_error (fun l => f_name (l_field l)) i _ NL) in NP. injection NP as <-. unfold set, find_field.
    rewrite (find_nth _ i l); [reflexivity | now rewrite NM | exact NL].
  - exfalso. apply nth_error_None in NL. assert (X : nth_error (map (fun l => f_name (l_field l)) (layout c b fs)) i <> None) by congruence.
    apply nth_error_Some in X. rewrite map_length in X. lia.
Qed.
Lemma pop_run : forall w sf, NoDup (map pf_name ps) -> map pf_name ps = map f_name fs ->
  forall l vs pre b s, ps = (pre ++ l)%list -> List.length vs = List.length l -> holds b s -> RustSem.lookup "self" s = Some VSelf ->
  RustSem.lookup "packet" s = Some (VS sf) ->
  (forall p v, In (p, v) (combine l vs) -> exists r, field_rv p v = Some r /\ RustSem.lookup (pf_name p) sf = Some r) ->
  wrote s (stmts [] w (pop_stmts l) None s) (populate_from c fs (List.length pre) vs b).
Proof.
  intros w sf ND NS. induction l as [| p l IH]; intros vs pre b s E LV H SE PA LK.
  - destruct vs; [| discriminate]. cbn [pop_stmts run_stmts populate_from]. unfold EmitSets.wrote, mret. cbn [fst snd]. now rewrite (upd_same _ b s H).
  - destruct vs as [| v vs]; [discriminate |]. destruct (LK p v (or_introl eq_refl)) as (r & FR & LR).
    assert (IP : In p ps) by (rewrite E; apply in_or_app; right; left; reflexivity).
    assert (NE : nth_error ps (List.length pre) = Some p) by (rewrite E, nth_error_app2, PeanoNat.Nat.sub_diag by lia; reflexivity).
    cbn [pop_stmts populate_from]. cbn zeta.
    set (a := XMeth (XPath "self") ("set_" ++ pf_name p) [match pf_ty p with RVector _ => XUn URef (XProj (XPath "packet") (pf_name p)) | _ => XProj (XPath "packet") (pf_name p) end]).
    set (R := set c fs (pf_name p) v b).
    assert (W : wrote s (run [] None None a s) R).
    { destruct (setter_found p IP) as (p' & SP & NP). unfold a. apply self_act with (b := b) (vs := [r])
        (p := fun args b => match args with [v] => match plain_val v with Some x => Some (set c fs (pf_name p') x b) | None => None end | _ => None end).
      - exact SE.
      - unfold emit_act. cbn [find_item find]. change ("self." ++ "set_" ++ pf_name p)%string with ("self.set_" ++ pf_name p)%string. rewrite SP. reflexivity.
      - exact H.
      - cbn [pes]. assert (P : pe (c_mode c) crate_const (sig []) emit_hint (fun_ [] b) None (XProj (XPath "packet") (pf_name p)) s = Val r).
        { cbn [pe]. rewrite PA. cbn [open_ty andthen]. now rewrite LR. }
        destruct (pf_ty p); [rewrite P | change (pe (c_mode c) crate_const (sig []) emit_hint (fun_ [] b) None (XUn URef (XProj (XPath "packet") (pf_name p))) s) with (pe (c_mode c) crate_const (sig []) emit_hint (fun_ [] b) None (XProj (XPath "packet") (pf_name p)) s); rewrite P | rewrite P]; reflexivity.
      - cbn beta iota. rewrite (plain_field p v r FR), NP. reflexivity. }
    replace (mseq (fun b => match nth_error (layout c b fs) (List.length pre) with Some l => field_set c l v b | None => (b, Panic EUnimpl) end) (populate_from c fs (S (List.length pre)) vs) b)
      with (match snd R with Ok _ => populate_from c fs (S (List.length pre)) vs (fst R) | Panic e => (fst R, Panic e) end).
    2: { unfold mseq. rewrite <- (set_nth b (List.length pre) p v ND NS NE). fold R. destruct R as [b1 [x | e]]; reflexivity. }
    apply (wrote_seq _ _ _ _ _ _ _ _ w a (pop_stmts l) None s R (populate_from c fs (S (List.length pre)) vs) W). intros _.
    specialize (IH vs (pre ++ [p])%list (fst R) (upd "self.packet" (fst R) s)). rewrite app_length in IH. cbn [List.length] in IH. rewrite PeanoNat.Nat.add_1_r in IH.
    apply IH.
    + now rewrite <- app_assoc.
    + cbn in LV. lia.
    + exact (upd_holds _ b _ s H).
    + now rewrite upd_lookup.
    + now rewrite upd_lookup.
    + intros p1 v1 I1. apply LK. now right.
Qed.
End Writes.

(** What the emitted iterator does when it is run. *)
From Coq Require Import String Ascii ZArith List Bool Lia.
From Verif Require Import Base BaseFacts DeriveUtil DeriveOps DeriveGen DeriveParse SpecPacket
  Protocols Quic FmtText RustLex RustSyntax RustItem RustSem RustMethod RustExec CrateText
  SpecSource SpecItem EmitText EmitTextProofs EmitGen SpecEmit SpecEmitIter EmitEq EmitWant EmitTransfer EmitLayout EmitOps EmitRun EmitReads.
Import ListNotations.
Open Scope string_scope.
Open Scope Z_scope.

Definition next_arm : list st :=
  [SLet (PVar "start") None (XCall "min" [XMeth (XPath "ret") "packet_size" []; XMeth (XPath "self.buf") "len" []]);
   SSet None (XPath "self.buf") (XUn URef (XIndex (XPath "self.buf") (XRange (Some (XPath "start")) None)));
   SExp (XRet (Some (XCall "Some" [XPath "ret"])))].
Definition next_match (base : string) : ex :=
  XMatch (XCall (type_name base false ++ "::new") [XPath "self.buf"])
    [(PCon "Some" [PVar "ret"], None, XBlock next_arm None); (PWild, None, XBlock [] None)].
Definition want_next (base : string) : string * meth :=
  me "next" [slf] ("Option<" ++ type_name base false ++ "<?")
    (XBlock
       [SExp (XIf (XBin OGt (XMeth (XPath "self.buf") "len" []) (XInt "" 0)) (XBlock [] (Some (next_match base))) None)]
       (Some (XPath "None"))) [].
Definition want_hint : string * meth :=
  me "size_hint" [slf] "?" (XBlock [] (Some (XTup [XInt "" 0; XPath "None"]))) [].

Lemma exec_match : forall m consts sigs hints buffer funs acts ret w a p1 x b1 b2 s,
  exec m consts sigs hints buffer funs acts ret w (XMatch a [(PCon "Some" [PVar x], None, b1); (p1, None, b2)]) s =
  of_value (val_of m consts sigs hints buffer funs None a s) s (fun v =>
    match matched (PCon "Some" [PVar x]) v with
    | Some (Some bs) => left_block s (exec m consts sigs hints buffer funs acts ret w b1 (bs ++ s)%list)
    | Some None =>
        match matched p1 v with
        | Some (Some bs) => left_block s (exec m consts sigs hints buffer funs acts ret w b2 (bs ++ s)%list)
        | Some None => Off
        | None => Off
        end
    | None => Off
    end).
Proof. reflexivity. Qed.

Lemma offset_nonneg : forall c lens bit n, 0 <= bit -> current_offset c bit lens = Ok n -> 0 <= n.
Proof.
  intros c lens bit n B. unfold current_offset. assert (G : forall r, (forall x, r = Ok x -> 0 <= x) ->
    forall n, fold_left (fun acc l => a <- acc ;; x <- l ;; add_u (c_mode c) usize a x) lens r = Ok n -> 0 <= n).
  { induction lens as [| l lens IH]; intros r R k H; [exact (R k H) |]. cbn [fold_left] in H. apply IH in H; [exact H |].
    intros x X. destruct r as [a |]; [| discriminate]. destruct l as [y |]; [| discriminate]. cbn [bind] in X. unfold add_u, ovf in X.
    destruct ((0 <=? a + y) && (a + y <? 2 ^ usize))%bool eqn:Q; [injection X as <-; lia |].
    destruct (c_mode c); [discriminate |]. injection X as <-. apply Z.mod_pos_bound. reflexivity. }
  intros H. refine (G _ _ n H). intros x X. injection X as <-. apply Z.div_pos; lia.
Qed.

Section Next.
Variables (c : cfg) (base : string) (fs : schema).
Hypothesis T : 0 <= total_bits fs.
Lemma long_name : forall f x, (String.length f < String.length x)%nat -> String.eqb f (base ++ x) = false.
Proof.
  intros f x L. apply String.eqb_neq. intros E. apply (f_equal String.length) in E.
  assert (A : String.length (base ++ x) = (String.length base + String.length x)%nat) by (clear; induction base as [| a s IH]; [reflexivity | cbn; now rewrite IH]).
  rewrite A in E. lia.
Qed.
Local Notation pk := (type_name base false).
Lemma tn_app : forall x, (pk ++ x = base ++ ("Packet" ++ x))%string.
Proof. intros x. exact (app_assoc_s base "Packet" x). Qed.
Lemma next_plain : forall f, (String.length f < 11)%nat -> next_sig base f = None.
Proof.
  intros f L. unfold next_sig. rewrite !tn_app. rewrite (long_name f ("Packet" ++ "::new")), (long_name f ("Packet" ++ "::packet_size")) by (cbn; lia). reflexivity.
Qed.
Lemma next_new : forall t d, next_sig base (pk ++ "::new") = Some SVal /\ next_fun c base fs (pk ++ "::new") [VA t d] = Some (AVal (Ok (made base false (new fs d)))).
Proof. intros t d. unfold next_sig, next_fun. rewrite String.eqb_refl. now split. Qed.
Lemma next_size : forall t d, next_sig base (pk ++ "::packet_size") = Some (SInt Usize) /\ next_fun c base fs (pk ++ "::packet_size") [VP t d] = Some (AInt Usize (packet_size c fs d)).
Proof.
  intros t d. unfold next_sig, next_fun. replace (String.eqb (pk ++ "::packet_size") (pk ++ "::new")) with false; [rewrite String.eqb_refl; now split |].
  symmetry. apply String.eqb_neq. intros E. apply (f_equal String.length) in E. rewrite !tn_app in E.
  assert (A : forall s x, String.length (s ++ x) = (String.length s + String.length x)%nat) by (clear; induction s as [| a s IH]; intros x; [reflexivity | cbn; now rewrite IH]).
  rewrite !A in E. cbn in E. lia.
Qed.

Local Notation exec_n := (exec (c_mode c) crate_const (next_sig base) emit_hint "self.buf" (fun _ => next_fun c base fs) no_act None).
Local Notation pe_n := (pe (c_mode c) crate_const (next_sig base) emit_hint (next_fun c base fs)).
Local Notation val_n := (val_of (c_mode c) crate_const (next_sig base) emit_hint "self.buf" (fun _ => next_fun c base fs)).
Definition nstate (b : buf) : RustSem.env := [("self", VSelf); ("self.buf", VA (Some U8) b)].
Lemma val_n_is : forall w e s, val_n w e s = pe_n w e s.
Proof. reflexivity. Qed.
Definition rstate (b : buf) : RustSem.env := ("ret", VP pk b) :: nstate b.
Lemma start_value : forall w b, pe_n w (XCall "min" [XMeth (XPath "ret") "packet_size" []; XMeth (XPath "self.buf") "len" []]) (rstate b) =
  match packet_size c fs b with Ok sz => Val (RustSem.VI (Some Usize) (Z.min sz (blen b))) | Panic e => Pnc e end.
Proof.
  intros w b. rewrite pe_call. cbn [pes]. rewrite pe_meth by reflexivity. rewrite (pe_path _ _ _ _ _ _ _ _ (VP pk b)) by reflexivity.
  cbn [open_ty andthen pes call_method]. destruct (next_size pk b) as [S F]. change ("::" ++ "packet_size")%string with "::packet_size". rewrite S. unfold result at 1. rewrite F.
  cbn [called take_int]. cbn [ity_eqb]. destruct (packet_size c fs b) as [sz | e]; cbn [lift andthen]; [| reflexivity].
  rewrite pe_meth by reflexivity. rewrite (pe_path _ _ _ _ _ _ _ _ (VA (Some U8) b)) by reflexivity. cbn [open_ty andthen pes call_method String.eqb Ascii.eqb Bool.eqb orb].
  unfold result at 1. cbn [method String.eqb Ascii.eqb Bool.eqb]. cbn [andthen]. unfold call. rewrite next_plain by (cbn; lia). reflexivity.
Qed.
Lemma next_arm_run : forall w b,
  exec_n w (XBlock next_arm None) (rstate b) =
  match packet_size c fs b with
  | Ok sz => Return (VO (Some (VP pk b))) (("start", RustSem.VI (Some Usize) (Z.min sz (blen b))) :: ("ret", VP pk b) ::
               nstate (skipn (Z.to_nat (Z.min sz (blen b))) b))
  | Panic e => Crash e (rstate b)
  end.
Proof.
  intros w b. rewrite exec_block. unfold next_arm. cbn [run_stmts run_st]. rewrite exec_call by reflexivity. rewrite val_n_is, start_value.
  destruct (packet_size c fs b) as [sz | e] eqn:P; [| reflexivity]. cbn [of_value matched app].
  set (k := Z.min sz (blen b)). change (RustSem.lookup "self.buf" (("start", RustSem.VI (Some Usize) k) :: rstate b)) with (Some (VA (Some U8) b)). cbn iota.
  rewrite val_n_is.
  assert (N : 0 <= sz) by exact (offset_nonneg _ _ _ _ T P).
  assert (V : pe_n (type_of (VA (Some U8) b)) (XUn URef (XIndex (XPath "self.buf") (XRange (Some (XPath "start")) None))) (("start", RustSem.VI (Some Usize) k) :: rstate b)
            = Val (VA (Some U8) (skipn (Z.to_nat k) b))).
  { cbn [pe]. change (RustSem.lookup "self.buf" (("start", RustSem.VI (Some Usize) k) :: rstate b)) with (Some (VA (Some U8) b)).
    change (RustSem.lookup "start" (("start", RustSem.VI (Some Usize) k) :: rstate b)) with (Some (RustSem.VI (Some Usize) k)). cbn [open_ty andthen].
    unfold result, index. replace (slice_from b k) with (Ok (skipn (Z.to_nat k) b)); [reflexivity |]. unfold slice_from.
    assert (X := blen_nonneg b). replace ((0 <=? k) && (k <=? blen b))%bool with true; [reflexivity |]. subst k. symmetry. apply andb_true_iff. split; lia. }
  rewrite V. cbn [of_value]. unfold assigned.
  change (assign "self.buf" (VA (Some U8) (skipn (Z.to_nat k) b)) (("start", RustSem.VI (Some Usize) k) :: rstate b)) with
    (Some (("start", RustSem.VI (Some Usize) k) :: ("ret", VP pk b) :: nstate (skipn (Z.to_nat k) b))). cbn iota.
  cbn [exec]. rewrite val_n_is, pe_call. cbn [pes]. rewrite (pe_path _ _ _ _ _ _ _ _ (VP pk b)) by reflexivity. cbn [open_ty andthen]. unfold call.
  rewrite next_plain by (cbn; lia). reflexivity.
Qed.
Theorem next_run : forall b, steps base (run_iter c base fs (snd (want_next base)) b) b (iter_next (sem_of c fs) b).
Proof.
  intros b. unfold steps, run_iter.
  assert (RT : int_ty (fn_ret (m_fn (snd (want_next base)))) = None).
  { unfold want_next, me. cbn [snd m_fn fn_ret]. reflexivity. }
  rewrite RT. change (bind_args (fn_params (m_fn (snd (want_next base)))) [VSelf]) with (Some [("self", VSelf)]). cbn iota.
  change ([("self", VSelf)] ++ [("self.buf", VA (Some U8) b)])%list with (nstate b).
  cbn [want_next me snd m_fn fn_body]. rewrite exec_block. cbn [run_stmts run_st].
  rewrite exec_if, val_n_is.
  assert (V : pe_n None (XBin OGt (XMeth (XPath "self.buf") "len" []) (XInt "" 0)) (nstate b) = Val (VB (0 <? blen b))) by reflexivity.
  rewrite V. cbn [of_value]. unfold iter_next. cbn [sem_of k_min k_size].
  assert (NONE : exec_n None (XPath "None") (nstate b) = Go (VO None) (nstate b)) by reflexivity.
  destruct (0 <? blen b); cbn [andb]; [| rewrite NONE; reflexivity].
  rewrite exec_block. cbn [run_stmts]. unfold next_match. rewrite exec_match, val_n_is. rewrite pe_call. cbn [pes].
  rewrite (pe_path _ _ _ _ _ _ _ _ (VA (Some U8) b)) by reflexivity. cbn [open_ty andthen]. unfold call. destruct (next_new (Some U8) b) as [S F]. rewrite S. unfold result. rewrite F.
  cbn [called take_val lift of_value made]. unfold made, new. destruct (minimum_packet_size fs <=? blen b).
  - cbn [matched String.eqb Ascii.eqb Bool.eqb app]. change (("ret", VP pk b) :: nstate b) with (rstate b). rewrite next_arm_run.
    destruct (packet_size c fs b) as [sz | e]; reflexivity.
  - cbn [matched String.eqb Ascii.eqb Bool.eqb app]. rewrite exec_block. cbn [run_stmts left_block]. rewrite !leave_self. rewrite NONE. reflexivity.
Qed.
Theorem hint_run : forall b, run_iter c base fs (snd want_hint) b = Returned (VT [RustSem.VI None 0; VO None]) b.
Proof. reflexivity. Qed.
End Next.

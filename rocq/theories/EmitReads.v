(** What the emitted methods that only read do when they are run. *)
From Coq Require Import String Ascii ZArith List Bool Lia.
From Verif Require Import Base BaseFacts DeriveUtil DeriveOps DeriveGen DeriveParse SpecPacket DeriveAccProofs DeriveApiProofs
  Protocols Quic FmtText RustLex RustSyntax RustItem RustSem RustMethod RustExec CrateText
  SpecSource SpecItem ItemProofs ItemLayout EmitText EmitGen SpecEmit EmitEq EmitWant EmitTransfer EmitLayout EmitOps EmitRun EmitStable.
Import ListNotations.
Open Scope string_scope.
Open Scope Z_scope.

Definition of_bytes (r : res buf) : outcome rv := match r with Ok l => Val (VA (Some U8) l) | Panic e => Pnc e end.

Lemma exec_call : forall m consts sigs hints buffer funs acts ret w f l s, String.eqb f "assert" = false -> acts f = None ->
  exec m consts sigs hints buffer funs acts ret w (XCall f l) s =
  of_value (val_of m consts sigs hints buffer funs w (XCall f l) s) s (fun v => Go v s).
Proof. intros m consts sigs hints buffer funs acts ret w f l s H A. cbn [exec]. unfold act. now rewrite H, A. Qed.
Lemma exec_if : forall m consts sigs hints buffer funs acts ret w x a b s,
  exec m consts sigs hints buffer funs acts ret w (XIf x a b) s =
  of_value (val_of m consts sigs hints buffer funs None x s) s (fun v =>
    match v with
    | VB c' => if c' then exec m consts sigs hints buffer funs acts ret w a s
               else match b with Some b' => exec m consts sigs hints buffer funs acts ret w b' s | None => Go VUnit s end
    | _ => Off
    end).
Proof. reflexivity. Qed.
Lemma yields_call : forall m consts sigs hints buffer funs acts ret b w f l s r, String.eqb f "assert" = false -> acts f = None ->
  holds buffer b s -> pe m consts sigs hints (funs b) w (XCall f l) s = r -> r <> Bad ->
  yields buffer b s (exec m consts sigs hints buffer funs acts ret w (XCall f l) s) r.
Proof.
  intros m consts sigs hints buffer funs acts ret b w f l s r N A H E B. rewrite exec_call by assumption. rewrite (val_at _ _ _ _ _ _ b) by exact H. rewrite E.
  destruct r as [v | x |]; cbn; [reflexivity | | congruence]. exists s. now split.
Qed.
Lemma finished_yields : forall buffer b s o r, holds buffer b s -> yields buffer b s o r ->
  match r with Val v => finished buffer o = Returned v b | Pnc e => finished buffer o = Panicked e b | Bad => True end.
Proof.
  intros buffer b s o [v | e |] H Y; cbn in Y; [| | exact I].
  - subst o. cbn. unfold holds in H. now rewrite H.
  - destruct Y as (s' & -> & H'). cbn. unfold holds in H'. now rewrite H'.
Qed.
Lemma no_setter : forall ps f, (forall n, String.eqb f ("self.set_" ++ n) = false) -> setter_of ps f = None.
Proof. intros ps f H. unfold setter_of. induction ps as [| p ps IH]; [reflexivity |]. cbn [find]. now rewrite H. Qed.

Section Reads.
Variables (c : cfg) (rounds : nat) (mo base : string) (mu : bool) (ps : list pfield) (fs : schema).
Local Notation pe_at := (pe_at c rounds mo base mu ps fs).
Local Notation means := (means c rounds mo base mu ps fs).
Local Notation spot_ok := (spot_ok c rounds mo base mu ps fs).
Local Notation sig := (emit_sig mo base mu ps).
Local Notation fun_ := (emit_fun c rounds mo base mu ps fs).
Definition run (items : list fn) (ret w : option ity) (e : ex) (s : RustSem.env) : ended :=
  exec (c_mode c) crate_const (sig items) emit_hint "self.packet" (fun_ items) (emit_act c ps fs items) ret w e s.
Definition state (b : buf) : RustSem.env := [("self", VSelf); ("self.packet", VA (Some U8) b)].
Local Notation holds := (holds "self.packet").
Local Notation yields := (yields "self.packet").
Local Notation ends := (ends "self.packet").
Lemma good_holds : forall b s, good b s -> holds b s.
Proof. intros b s [_ H]. exact H. Qed.
Lemma state_good : forall b, good b (state b).
Proof. intros b. split; reflexivity. Qed.
Lemma run_meth_self : forall m b, fn_params (m_fn m) = [slf] ->
  run_meth c rounds mo base mu ps fs m [VSelf] b =
  finished "self.packet" (run (m_items m) (int_ty (fn_ret (m_fn m))) (int_ty (fn_ret (m_fn m))) (fn_body (m_fn m)) (state b)).
Proof. intros m b H. unfold run_meth. rewrite H. reflexivity. Qed.

Lemma co_plain : forall bit offs, plain_ex (co_ast bit offs) = true.
Proof.
  intros bit offs. unfold co_ast. assert (H : plain_ex (XInt "usize" (bit / 8)) = true) by reflexivity. revert H.
  generalize (XInt "usize" (bit / 8)). induction offs as [| e offs IH]; intros a H; [exact H |]. cbn [fold_left]. now apply IH.
Qed.
Lemma vi_of : forall r, vi r = of_res Usize r.
Proof. destruct r; reflexivity. Qed.
Lemma yields_means : forall b items ret w e s r, plain_ex e = true -> good b s -> means b e r -> yields b s (run items ret w e s) (vi r).
Proof.
  intros b items ret w e s r P G M. apply yields_plain; [exact P | exact (good_holds b s G) | exact (M items w s G) |]. destruct r; discriminate.
Qed.
Lemma good_cons : forall b x v s, String.eqb "self" x = false -> String.eqb "self.packet" x = false -> good b s -> good b ((x, v) :: s).
Proof. intros b x v s N1 N2 [H1 H2]. unfold good. cbn [RustSem.lookup]. rewrite N1, N2. now split. Qed.

(** ** Integer fields *)

Lemma prim_run : forall name b s l n q, spot_ok name b s l -> buf_ok b -> pf_ty (sp_field s) = RPrimitive n (p_size q) (p_end q) ->
  prim_ready (sp_bit s) (RPrimitive n (p_size q) (p_end q)) = true ->
  exists u, int_ty n = Some u /\
  forall items ret w, yields b (state b)
    (run items ret w (body_at (sp_co s) (getops_ast "self.packet" n (ops_at (sp_bit s) (RPrimitive n (p_size q) (p_end q))))) (state b))
    (of_res u (co <- l_co c l ;; prim_get c (l_bit l) q b co)).
Proof.
  intros name b s l n q (_ & SB & SO & _) [B _] PT R. destruct (prim_ready_ops _ _ _ _ R) as (ops & u & O & NE & TY & W & OA).
  exists u. split; [exact TY |]. intros items ret w. rewrite OA.
  replace (co <- l_co c l ;; prim_get c (l_bit l) q b co) with (x <- l_co c l ;; gen_get_ops (c_mode c) (width u) ops b x).
  - apply body_at_run with (coR := l_co c l); auto.
    + apply Forall_forall. intros op _. apply fits_any.
    + reflexivity.
    + apply co_plain.
    + unfold sp_co, l_co. rewrite SB. exact (means_co c rounds mo base mu ps fs b (l_bit l) _ _ SO items (Some Usize) _ (state_good b)).
  - destruct (l_co c l) as [x |]; [| reflexivity]. cbn [bind]. unfold prim_get, plan. rewrite <- SB.
    change (operations (c_macro c) (c_host_le c) (sp_bit s mod 8) (p_size q) (p_end q)) with (operations (c_macro c) (c_host_le c) (sp_bit s mod 8) (p_size q) (p_end q)).
    pose proof (O (c_macro c) (c_host_le c)) as P. unfold ops_of in P. rewrite P. now rewrite W.
Qed.

(** ** Byte ranges *)

Definition range_end (x : Z) (len : option (res Z)) (b : buf) : res Z :=
  y <- len_or_all len b ;; e <- add_u (c_mode c) usize x y ;; Ok (Z.min e (blen b)).
Lemma means_self_len : forall b, means b self_len (Ok (blen b)).
Proof.
  intros b items w s [_ H]. unfold EmitLayout.pe_at, self_len. rewrite pe_meth by reflexivity. rewrite (pe_path _ _ _ _ _ _ _ _ _ H). reflexivity.
Qed.
Lemma means_len_or : forall name b s l, spot_ok name b s l -> means b (len_or_self s) (len_or_all (l_len l) b).
Proof.
  intros name b s l (_ & _ & _ & SL). unfold same_len in SL. unfold len_or_self, len_or_all.
  destruct (sp_len s), (l_len l); try contradiction; [exact SL | apply means_self_len].
Qed.
Definition free (f : string) : bool := match sig [] f with None => true | Some _ => false end.
Lemma free_sig : forall f, free f = true -> sig [] f = None.
Proof. intros f H. unfold free in H. destruct (sig [] f); [discriminate | reflexivity]. Qed.
Lemma min_value : forall f b w e1 e2 s r1 r2, free f = true -> (String.eqb f "min" || String.eqb f "std::cmp::min" = true)%bool ->
  pe_at [] b None e1 s = vi r1 -> pe_at [] b None e2 s = vi r2 ->
  pe_at [] b w (XCall f [e1; e2]) s = vi (x <- r1 ;; y <- r2 ;; Ok (Z.min x y)).
Proof.
  intros f b w e1 e2 s r1 r2 F N E1 E2. unfold EmitLayout.pe_at in *. rewrite pe_call. cbn [pes]. rewrite E1. destruct r1 as [x |]; [| reflexivity].
  cbn [vi andthen bind]. rewrite E2. destruct r2 as [y |]; [| reflexivity]. cbn [vi andthen bind]. unfold call. rewrite (free_sig f F).
  unfold result, std_fun. now rewrite N.
Qed.
(** Names that do not change the packet. *)
Lemma acts_none : forall items f, find_item items f = None -> setter_of ps f = None -> inner_act ps f = None -> emit_act c ps fs items f = None.
Proof. intros items f H S A. unfold emit_act. now rewrite H, S, A. Qed.
Lemma no_inner : forall f, (forall t, String.eqb f (type_name t true ++ "::populate") = false) -> inner_act ps f = None.
Proof.
  intros f H. unfold inner_act. induction ps as [| p l IH]; [reflexivity |]. cbn [first_of]. destruct (pkt_type p) as [t |]; [rewrite H |]; exact IH.
Qed.
Lemma min_none : forall items, find_item items "min" = None -> emit_act c ps fs items "min" = None.
Proof. intros items H. apply acts_none; [exact H | now apply no_setter | now apply no_inner]. Qed.

(** The variable [end]. *)
Lemma end_run : forall name b s l top st w x, free "min" = true -> spot_ok name b s l -> good b st ->
  RustSem.lookup "current_offset" st = Some (RustSem.VI (Some Usize) x) -> pe_at [] b None top st = vi (Ok (blen b)) ->
  yields b st (run [] None w (end_ast (len_or_self s) top) st) (vi (range_end x (l_len l) b)).
Proof.
  intros name b s l top st w x F OK G CO T. apply yields_call.
  - reflexivity.
  - now apply min_none.
  - exact (good_holds b st G).
  - change (pe_at [] b w (XCall "min" [XBin OAdd (XPath "current_offset") (len_or_self s); top]) st = vi (range_end x (l_len l) b)).
    rewrite (min_value "min" b w _ _ st (y <- len_or_all (l_len l) b ;; add_u (c_mode c) usize x y) (Ok (blen b)) F eq_refl).
    + unfold range_end. destruct (len_or_all (l_len l) b); reflexivity.
    + unfold EmitLayout.pe_at. rewrite (int_add (c_mode c) crate_const (sig []) emit_hint (fun_ [] b) (XPath "current_offset") (len_or_self s) st Usize (Ok x) (len_or_all (l_len l) b)).
      * rewrite <- vi_of. reflexivity.
      * intros w'. rewrite (pe_path _ _ _ _ _ _ _ _ _ CO). reflexivity.
      * intros w' _. rewrite <- vi_of. exact (means_len_or name b s l OK [] w' st G).
    + exact T.
  - destruct (range_end x (l_len l) b); discriminate.
Qed.
Lemma slice_value : forall b w st lo hi x y, good b st -> RustSem.lookup lo st = Some (RustSem.VI (Some Usize) x) ->
  RustSem.lookup hi st = Some (RustSem.VI (Some Usize) y) -> pe_at [] b w (idx_range lo hi) st = of_bytes (slice b x y).
Proof.
  intros b w st lo hi x y [_ G] LO HI. unfold EmitLayout.pe_at, idx_range. cbn [pe]. rewrite G, LO, HI. cbn [open_ty andthen].
  unfold result, index. destruct (slice b x y); reflexivity.
Qed.
Lemma var_slice_steps : forall (co : res Z) len b (k : buf -> outcome rv),
  andthen (vi co) (fun v => match v with RustSem.VI _ x =>
    andthen (vi (range_end x len b)) (fun u => match u with RustSem.VI _ y => match slice b x y with Ok l => k l | Panic e => Pnc e end | _ => Bad end) | _ => Bad end) =
  match var_slice c co len b with Ok l => k l | Panic e => Pnc e end.
Proof.
  intros co len b k. unfold var_slice, var_range, range_end. destruct co as [x |]; [| reflexivity]. cbn [vi andthen bind].
  destruct (len_or_all len b) as [y |]; [| reflexivity]. cbn [bind]. destruct (add_u (c_mode c) usize x y); reflexivity.
Qed.

(** [get_<field>_raw] and the like: [f] is applied to the range. *)
Lemma raw_run : forall name b s l w (f : ex -> ex) (k : buf -> outcome rv), free "min" = true -> spot_ok name b s l -> buf_ok b ->
  (forall st r e, plain_ex e = true -> good b st -> pe_at [] b None e st = of_bytes r ->
     yields b st (run [] None w (f e) st) (match r with Ok l => k l | Panic e => Pnc e end)) ->
  yields b (state b) (run [] None w (raw_ast s f) (state b)) (match var_slice c (l_co c l) (l_len l) b with Ok l => k l | Panic e => Pnc e end).
Proof.
  intros name b s l w f k F OK B K. rewrite <- var_slice_steps. apply ends_block. apply ends_let.
  - cbn [let_type emit_hint]. destruct OK as (_ & SB & SO & _). unfold sp_co, l_co. rewrite SB.
    apply yields_means; [apply co_plain | apply state_good | now apply means_co].
  - intros v V. destruct (l_co c l) as [x |]; [| discriminate]. injection V as <-.
    assert (G1 : good b (("current_offset", RustSem.VI (Some Usize) x) :: state b)) by (now apply good_cons; [.. | apply state_good]).
    apply ends_let.
    + apply end_run with (name := name); [exact F | exact OK | exact G1 | reflexivity | exact (means_self_len b [] None _ G1)].
    + intros u U. destruct (range_end x (l_len l) b) as [y |]; [| discriminate]. injection U as <-.
      apply ends_tail. apply K; [reflexivity | now apply good_cons |]. apply slice_value; [now apply good_cons | reflexivity | reflexivity].
Qed.

Lemma raw_id : forall b st r e, plain_ex e = true -> forall w, good b st -> pe_at [] b w e st = of_bytes r ->
  yields b st (run [] None w e st) (match r with Ok l => Val (VA (Some U8) l) | Panic e => Pnc e end).
Proof.
  intros b st r e P w G E. change (match r with Ok l => Val (VA (Some U8) l) | Panic e => Pnc e end) with (of_bytes r).
  apply yields_plain; [exact P | exact (good_holds b st G) | exact E |]. destruct r; discriminate.
Qed.

(** ** Vectors of bytes *)

Lemma leave_same : forall s s1, env_size s = env_size s1 -> leave s s1 = s1.
Proof. intros s s1 H. unfold leave. now rewrite H, PeanoNat.Nat.sub_diag. Qed.
Definition loop_body : ex := XBlock
  [SExp (XMeth (XPath "vec") "push" [getops_ast "packet" "u8" [GetOp 255 0 0]]); SSet (Some OAdd) (XPath "co") (XInt "usize" 1)] None.
Definition loop_env (co n : Z) (t : option ity) (l : list Z) (rest : RustSem.env) : RustSem.env :=
  ("co", RustSem.VI (Some Usize) co) :: ("vec", VV n t l) :: rest.
Lemma loop_step : forall b d co n t l rest, bytes_ok d -> (t = None \/ t = Some U8) -> holds b rest ->
  RustSem.lookup "packet" rest = Some (VA (Some U8) d) ->
  left_block (loop_env co n t l rest) (run [] None None loop_body (loop_env co n t l rest)) =
  match (v <- idx d co ;; co' <- add_u (c_mode c) usize co 1 ;; Ok (v, co')) with
  | Ok (v, co') => Go VUnit (loop_env co' n (Some U8) (l ++ [v]) rest)
  | Panic e => match idx d co with
               | Ok v => Crash e (loop_env co n (Some U8) (l ++ [v]) rest)
               | Panic _ => Crash e (loop_env co n t l rest)
               end
  end.
Proof.
  intros b d co n t l rest D T H P. unfold run, loop_body. rewrite exec_block. cbn [run_stmts run_st].
  set (e := getops_ast "packet" "u8" [GetOp 255 0 0]).
  assert (HH : forall t l, holds b (loop_env co n t l rest)) by (intros; exact H).
  assert (V : forall w, val_of (c_mode c) crate_const (sig []) emit_hint "self.packet" (fun_ []) w e (loop_env co n t l rest) = of_res U8 (idx d co)).
  { intros w. rewrite (val_at _ _ _ _ _ _ b) by apply HH. unfold e.
    rewrite (getops_pe (c_mode c) crate_const (sig []) emit_hint "self.packet" "packet" "u8" U8 b d co eq_refl D (fun_ [] b) w (GetOp 255 0 0)).
    - unfold gen_get_ops. destruct (idx d co); reflexivity.
    - split; [exact P |]. split; [reflexivity | apply HH]. }
  cbn [exec]. change (RustSem.lookup "vec" (loop_env co n t l rest)) with (Some (VV n t l)). cbn [String.eqb Ascii.eqb Bool.eqb]. cbn iota.
  rewrite V. destruct (idx d co) as [v | x]; cbn [of_res of_value bind]; [| reflexivity].
  unfold push. replace (agree t (Some U8)) with true by (destruct T as [-> | ->]; reflexivity).
  unfold assigned at 1. change (assign "vec" (VV n (Some U8) (l ++ [v])%list) (loop_env co n t l rest)) with (Some (loop_env co n (Some U8) (l ++ [v])%list rest)).
  cbn iota. change (RustSem.lookup "co" (loop_env co n (Some U8) (l ++ [v])%list rest)) with (Some (RustSem.VI (Some Usize) co)). cbn iota.
  rewrite (val_at _ _ _ _ _ _ b) by apply HH.
  change (pe (c_mode c) crate_const (sig []) emit_hint (fun_ [] b) (type_of (RustSem.VI (Some Usize) co)) (XInt "usize" 1) (loop_env co n (Some U8) (l ++ [v])%list rest))
    with (Val (RustSem.VI (Some Usize) 1)). cbn [of_value]. unfold result, binary. cbn [is_cmp is_shift join ity_eqb arith width].
  destruct (add_u (c_mode c) usize co 1) as [co' | x]; cbn [lift of_value bind]; [| reflexivity].
  unfold assigned. change (assign "co" (RustSem.VI (Some Usize) co') (loop_env co n (Some U8) (l ++ [v])%list rest)) with (Some (loop_env co' n (Some U8) (l ++ [v])%list rest)).
  cbn [left_block]. rewrite !(leave_same (loop_env co n t l rest) (loop_env co' n (Some U8) (l ++ [v])%list rest)) by reflexivity. reflexivity.
Qed.
Lemma vec_get_u8 : forall d k co, vec_get_loop c (Prim 8 Big) d (S k) co =
  (v <- idx d co ;; co' <- add_u (c_mode c) usize co 1 ;; r <- vec_get_loop c (Prim 8 Big) d k co' ;; Ok (v :: r)).
Proof.
  intros d k co. cbn [vec_get_loop]. replace (prim_get c 0 (Prim (p_size (Prim 8 Big)) Big) d co) with (idx d co).
  - reflexivity.
  - unfold prim_get, plan. replace (operations (c_macro c) (c_host_le c) (0 mod 8) (p_size (Prim (p_size (Prim 8 Big)) Big)) (p_end (Prim (p_size (Prim 8 Big)) Big)))
      with (@Ok (option (list getop)) (Some [GetOp 255 0 0])) by (destruct (c_macro c), (c_host_le c); reflexivity).
    unfold gen_get_ops. destruct (idx d co); reflexivity.
Qed.
Definition loop_iter (v : rv) (s1 : RustSem.env) : ended :=
  match matched PWild v with
  | Some (Some bs) => left_block s1 (run [] None None loop_body (bs ++ s1)%list)
  | _ => Off
  end.
Lemma loop_run : forall b d n rest, bytes_ok d -> holds b rest -> RustSem.lookup "packet" rest = Some (VA (Some U8) d) ->
  forall vs co t l, (t = None \/ t = Some U8) ->
  match vec_get_loop c (Prim 8 Big) d (List.length vs) co with
  | Ok r => exists co' t', run_each loop_iter vs (loop_env co n t l rest) = Go VUnit (loop_env co' n t' (l ++ r) rest) /\ (t' = Some U8 \/ (t' = t /\ r = []))
  | Panic e => exists s', run_each loop_iter vs (loop_env co n t l rest) = Crash e s' /\ holds b s'
  end.
Proof.
  intros b d n rest D H P. induction vs as [| x vs IH]; intros co t l T.
  - cbn [List.length vec_get_loop run_each]. exists co, t. rewrite app_nil_r. split; [reflexivity | right; now split].
  - cbn [List.length]. rewrite vec_get_u8. cbn [run_each]. unfold loop_iter at 1 3. cbn [matched app].
    rewrite (loop_step b d co n t l rest D T H P). destruct (idx d co) as [v | e]; cbn [bind].
    + destruct (add_u (c_mode c) usize co 1) as [co' | e]; cbn [bind].
      * specialize (IH co' (Some U8) (l ++ [v])%list (or_intror eq_refl)). destruct (vec_get_loop c (Prim 8 Big) d (List.length vs) co') as [r | e]; cbn [bind].
        -- destruct IH as (co2 & t' & -> & Q). exists co2, t'. rewrite <- app_assoc. split; [reflexivity |]. left. destruct Q as [Q | [Q _]]; exact Q.
        -- exact IH.
      * eexists. split; [reflexivity | exact H].
    + eexists. split; [reflexivity | exact H].
Qed.

Lemma exec_len : forall b w y t l s, good b s -> RustSem.lookup y s = Some (VA t l) ->
  yields b s (run [] None w (XMeth (XPath y) "len" []) s) (Val (RustSem.VI (Some Usize) (blen l))).
Proof.
  intros b w y t l s G L. unfold run. cbn [exec]. rewrite L. rewrite (val_at _ _ _ _ _ _ b) by exact (good_holds b s G).
  rewrite pe_meth by reflexivity. rewrite (pe_path _ _ _ _ _ _ _ _ _ L). destruct t; reflexivity.
Qed.
Lemma no_act_for : forall f, (forall n, String.eqb f ("self.set_" ++ n) = false) -> (forall t, String.eqb f (type_name t true ++ "::populate") = false) ->
  emit_act c ps fs [] f = None.
Proof. intros f H A. apply acts_none; [reflexivity | now apply no_setter | now apply no_inner]. Qed.

Definition vec_tail : list st :=
  [SLet (PVar "vec") (Some "Vec<u8>") (XCall "Vec::with_capacity" [XMeth (XPath "packet") "len" []]);
   SLet (PVar "co") None (XInt "" 0);
   SFor PWild (XRange (Some (XInt "" 0)) (Some (XMeth (XPath "vec") "capacity" []))) loop_body].
Local Notation stmts := (run_stmts (c_mode c) crate_const (sig []) emit_hint "self.packet" (fun_ []) (emit_act c ps fs []) None).
Lemma vec_tail_run : forall b d w s, free "Vec::with_capacity" = true -> bytes_ok d -> good b s -> RustSem.lookup "packet" s = Some (VA (Some U8) d) ->
  match vec_get_loop c (Prim 8 Big) d (List.length d) 0 with
  | Ok l => exists t, ends b s (stmts w vec_tail (Some (XPath "vec")) s) (Val (VV (blen d) t l)) /\ (t = Some U8 \/ l = [])
  | Panic e => ends b s (stmts w vec_tail (Some (XPath "vec")) s) (Pnc e)
  end.
Proof.
  intros b d w s F D G P. unfold vec_tail.
  assert (V : yields b s (run [] None (let_type emit_hint (PVar "vec") (Some "Vec<u8>")) (XCall "Vec::with_capacity" [XMeth (XPath "packet") "len" []]) s) (Val (VV (blen d) None []))).
  { apply yields_call; [reflexivity | now apply no_act_for | exact (good_holds b s G) | | discriminate].
    rewrite pe_call. cbn [pes]. rewrite pe_meth by reflexivity. rewrite (pe_path _ _ _ _ _ _ _ _ _ P). cbn [open_ty andthen pes type_of call_method].
    unfold result at 1. cbn [method String.eqb Ascii.eqb Bool.eqb]. cbn [andthen]. unfold call. now rewrite (free_sig _ F). }
  rewrite (let_step _ _ _ _ _ _ _ _ w "vec" _ _ _ _ s _ V).
  set (s1 := ("vec", VV (blen d) None []) :: s). assert (G1 : good b s1) by now apply good_cons.
  assert (C : run [] None (let_type emit_hint (PVar "co") None) (XInt "" 0) s1 = Go (RustSem.VI (Some Usize) 0) s1).
  { refine (yields_plain _ _ _ _ _ _ _ _ b _ (XInt "" 0) s1 (Val (RustSem.VI (Some Usize) 0)) eq_refl (good_holds b s1 G1) eq_refl _). discriminate. }
  rewrite (let_step _ _ _ _ _ _ _ _ w "co" _ _ _ _ s1 _ C).
  change (("co", RustSem.VI (Some Usize) 0) :: s1) with (loop_env 0 (blen d) None [] s).
  assert (H : holds b (loop_env 0 (blen d) None [] s)) by exact (good_holds b s G).
  cbn [run_stmts run_st]. rewrite (val_at _ _ _ _ _ _ b) by exact H.
  assert (R : pe (c_mode c) crate_const (sig []) emit_hint (fun_ [] b) None (XRange (Some (XInt "" 0)) (Some (XMeth (XPath "vec") "capacity" []))) (loop_env 0 (blen d) None [] s) =
    Val (VR (Some (Some Usize, 0)) (Some (Some Usize, blen d)))) by reflexivity.
  rewrite R. cbn [of_value items agree ity_eqb join].
  change (fun v s1 => match matched PWild v with
                      | Some (Some bs) => left_block s1 (exec (c_mode c) crate_const (sig []) emit_hint "self.packet" (fun_ []) (emit_act c ps fs []) None None loop_body (bs ++ s1)%list)
                      | _ => Off end) with loop_iter.
  pose proof (loop_run b d (blen d) s D (good_holds b s G) P (map (RustSem.VI (Some Usize)) (ints_from 0 (blen d))) 0 None [] (or_introl eq_refl)) as L.
  replace (List.length (map (RustSem.VI (Some Usize)) (ints_from 0 (blen d)))) with (List.length d) in L
    by (rewrite map_length; unfold ints_from; rewrite map_length, seq_length; unfold blen; lia).
  destruct (vec_get_loop c (Prim 8 Big) d (List.length d) 0) as [l | e].
  - destruct L as (co' & t' & -> & Q). exists t'. split; [| destruct Q as [Q | [_ Q]]; auto]. cbn [ends].
    exists [("co", RustSem.VI (Some Usize) co'); ("vec", VV (blen d) t' l)]. cbn [exec]. rewrite (val_at _ _ _ _ _ _ b) by exact (good_holds b s G). reflexivity.
  - destruct L as (s' & -> & H'). exists s'. now split.
Qed.
Lemma vec_run : forall name b s l w, free "min" = true -> free "Vec::with_capacity" = true -> spot_ok name b s l -> buf_ok b ->
  let o := run [] None w (fn_body (m_fn (snd (want_vec_get s (RPrimitive "u8" 8 Big))))) (state b) in
  match (d <- var_slice c (l_co c l) (l_len l) b ;; vec_get_loop c (Prim 8 Big) d (List.length d) 0) with
  | Ok x => exists k t, yields b (state b) o (Val (VV k t x)) /\ (t = Some U8 \/ x = [])
  | Panic e => yields b (state b) o (Pnc e)
  end.
Proof.
  intros name b s l w F1 F2 OK B o. unfold o, var_slice, var_range. clear o.
  change (fn_body (m_fn (snd (want_vec_get s (RPrimitive "u8" 8 Big))))) with
    (XBlock ([SLet (PVar "current_offset") None (sp_co s); SLet (PVar "pkt_len") None self_len;
        SLet (PVar "end") None (end_ast (len_or_self s) (XPath "pkt_len"));
        SLet (PVar "packet") None (idx_range "current_offset" "end")] ++ vec_tail)%list (Some (XPath "vec"))).
  pose proof OK as (_ & SB & SO & _).
  assert (CO : yields b (state b) (run [] None (let_type emit_hint (PVar "current_offset") None) (sp_co s) (state b)) (vi (l_co c l))).
  { unfold sp_co, l_co. rewrite SB. apply yields_means; [apply co_plain | apply state_good | now apply means_co]. }
  destruct (l_co c l) as [x | e]; cbn [bind vi] in *; [| apply ends_block; apply ends_pnc; exact CO].
  set (s1 := ("current_offset", RustSem.VI (Some Usize) x) :: state b).
  assert (G1 : good b s1) by (apply good_cons; [reflexivity | reflexivity | apply state_good]).
  pose proof (exec_len b (let_type emit_hint (PVar "pkt_len") None) "self.packet" _ _ s1 G1 (proj2 G1)) as PL.
  set (s2 := ("pkt_len", RustSem.VI (Some Usize) (blen b)) :: s1).
  assert (G2 : good b s2) by now apply good_cons.
  pose proof (end_run name b s l (XPath "pkt_len") s2 (let_type emit_hint (PVar "end") None) x F1 OK G2 eq_refl eq_refl) as EN.
  unfold range_end in EN. destruct (len_or_all (l_len l) b) as [n | e]; cbn [bind vi] in *.
  2: { apply ends_block. eapply ends_val; [exact CO |]. eapply ends_val; [exact PL |]. eapply ends_pnc. exact EN. }
  destruct (add_u (c_mode c) usize x n) as [y | e]; cbn [bind vi] in *.
  2: { apply ends_block. eapply ends_val; [exact CO |]. eapply ends_val; [exact PL |]. eapply ends_pnc. exact EN. }
  set (s3 := ("end", RustSem.VI (Some Usize) (Z.min y (blen b))) :: s2) in *.
  assert (G3 : good b s3) by now apply good_cons.
  pose proof (raw_id b s3 (slice b x (Z.min y (blen b))) (idx_range "current_offset" "end") eq_refl (let_type emit_hint (PVar "packet") None) G3
    (slice_value b _ s3 "current_offset" "end" x _ G3 eq_refl eq_refl)) as SV.
  destruct (slice b x (Z.min y (blen b))) as [d | e] eqn:SL; cbn [bind] in *.
  2: { apply ends_block. eapply ends_val; [exact CO |]. eapply ends_val; [exact PL |]. eapply ends_val; [exact EN |]. eapply ends_pnc. exact SV. }
  assert (D : bytes_ok d).
  { apply slice_inv in SL. destruct SL as (_ & _ & ->). apply bytes_firstn, bytes_skipn. exact (proj1 B). }
  set (s4 := ("packet", VA (Some U8) d) :: s3).
  assert (G4 : good b s4) by now apply good_cons.
  pose proof (vec_tail_run b d w s4 F2 D G4 eq_refl) as T.
  destruct (vec_get_loop c (Prim 8 Big) d (List.length d) 0) as [r | e].
  - destruct T as (t & T & Q). exists (blen d), t. split; [| exact Q].
    apply ends_block. eapply ends_val; [exact CO |]. eapply ends_val; [exact PL |]. eapply ends_val; [exact EN |]. eapply ends_val; [exact SV |]. exact T.
  - apply ends_block. eapply ends_val; [exact CO |]. eapply ends_val; [exact PL |]. eapply ends_val; [exact EN |]. eapply ends_val; [exact SV |]. exact T.
Qed.

(** ** Names *)

Inductive kind := KLen | KItem (it : fn) | KMin | KWrap | KData | KNew (u : string) | KPrims | KIter (u : string) | KInner (i : inner) | KNone.
Definition kind_of (items : list fn) (f : string) : kind :=
  match len_sig mo ps f with
  | Some _ => KLen
  | None =>
      match find_item items f with
      | Some it => KItem it
      | None =>
          if String.eqb f (type_name base mu ++ "::minimum_packet_size") then KMin
          else if String.eqb f (type_name base mu ++ "{packet}") then KWrap
          else if existsb (String.eqb f) data_kinds then KData
          else match misc_type "::new" ps f, misc_type "::to_primitive_values" ps f, iter_type ps f with
               | Some u, _, _ => KNew u
               | None, Some _, _ => KPrims
               | None, None, Some u => KIter u
               | None, None, None => match inner_of base ps f with Some i => KInner i | None => KNone end
               end
      end
  end.
Definition kind_ok (items : list fn) (f : string) (k : kind) : Prop :=
  match k with
  | KLen => True
  | KItem it => sig items f = match int_ty (fn_ret it) with Some u => Some (SInt u) | None => None end /\ forall b vs, fun_ items b f vs = item_answer (c_mode c) it vs b
  | KMin => sig items f = Some (SInt Usize) /\ forall b, fun_ items b f [] = Some (AInt Usize (Ok (minimum_packet_size fs)))
  | KWrap => sig items f = Some SVal /\ forall b t l, fun_ items b f [VA t l] = Some (AVal (Ok (VP (type_name base mu) l)))
  | KData => sig items f = Some SBytes /\ forall b t l, fun_ items b f [VA t l] = Some (ABytes (Ok l))
  | KNew u => sig items f = Some SVal /\ forall b vs, fun_ items b f vs = construct u vs
  | KPrims => sig items f = Some SVal /\ forall b n u l, fun_ items b f [VC n u l] = Some (AVal (Ok (VC "tuple" u l)))
  | KIter u => sig items f = Some SVal /\ forall b t l, fun_ items b f [VA t l] = Some (AVal (Ok (VP u l)))
  | KInner i => sig items f = Some (inner_sig i) /\ forall b vs, fun_ items b f vs = inner_fun c base ps fs b i vs
  | KNone => sig items f = None
  end.
Lemma kind_spec : forall items f, kind_ok items f (kind_of items f).
Proof.
  intros items f. unfold kind_of, kind_ok, emit_sig, emit_fun, extra_sig, extra_fun.
  destruct (len_sig mo ps f) eqn:L; [exact I |].
  destruct (find_item items f) as [it |] eqn:FI; [split; reflexivity |].
  destruct (String.eqb f (type_name base mu ++ "::minimum_packet_size")) eqn:E1; [split; reflexivity |].
  destruct (String.eqb f (type_name base mu ++ "{packet}")) eqn:E2; [split; reflexivity |].
  destruct (existsb (String.eqb f) data_kinds) eqn:E3; [split; reflexivity |].
  destruct (misc_type "::new" ps f) eqn:E4; [split; reflexivity |].
  destruct (misc_type "::to_primitive_values" ps f) eqn:E5; [split; reflexivity |].
  destruct (iter_type ps f) eqn:E6; [split; reflexivity |]. destruct (inner_of base ps f); [split; reflexivity | reflexivity].
Qed.
Lemma kind_is : forall items f k, kind_of items f = k -> kind_ok items f k.
Proof. intros items f k <-. apply kind_spec. Qed.
Definition inert (items : list fn) (f : string) : bool :=
  match find_item items f, setter_of ps f, inner_act ps f with None, None, None => negb (String.eqb f "assert") | _, _, _ => false end.
Lemma inert_ok : forall items f, inert items f = true -> emit_act c ps fs items f = None /\ String.eqb f "assert" = false.
Proof.
  intros items f H. unfold inert in H. unfold emit_act. destruct (find_item items f); [discriminate |]. destruct (setter_of ps f); [discriminate |]. destruct (inner_act ps f); [discriminate |].
  apply negb_true_iff in H. now split.
Qed.

(** ** Iterators *)

Definition iter_ready (ty : string) : bool :=
  let f := (ty ++ "Iterable{buf}")%string in
  (inert [] f && match kind_of [] f with KIter u => String.eqb u (ty ++ "Iterable") | _ => false end)%bool.
Lemma iter_run : forall name b s l w ty, free "min" = true -> iter_ready ty = true -> spot_ok name b s l -> buf_ok b ->
  yields b (state b) (run [] None w (raw_ast s (fun e => XCall (ty ++ "Iterable{buf}") [e])) (state b))
    (match var_slice c (l_co c l) (l_len l) b with Ok l => Val (VP (ty ++ "Iterable") l) | Panic e => Pnc e end).
Proof.
  intros name b s l w ty F IR OK B. unfold iter_ready in IR. apply andb_prop in IR. destruct IR as [IN K].
  destruct (kind_of [] (ty ++ "Iterable{buf}")) as [| | | | | | | u | |] eqn:KI; try discriminate. apply String.eqb_eq in K. subst u.
  destruct (kind_is _ _ _ KI) as [KS KF]. destruct (inert_ok _ _ IN) as [AC NA].
  apply raw_run with (name := name); auto. intros st r e _ G E. apply yields_call; [exact NA | exact AC | exact (good_holds b st G) | | destruct r; discriminate].
  rewrite pe_call. cbn [pes]. unfold EmitLayout.pe_at in E. rewrite E. destruct r as [d | x]; [| reflexivity]. cbn [of_bytes andthen]. unfold call. rewrite KS.
  unfold result. rewrite KF. reflexivity.
Qed.

(** ** Whole packets *)

Lemma means_packet : forall b n items ret w, yields b (state b) (run items ret w (fn_body (m_fn (snd (want_packet n)))) (state b)) (Val (VA (Some U8) b)).
Proof. intros b n items ret w. apply ends_block, ends_tail. apply yields_plain; [reflexivity | reflexivity | reflexivity | discriminate]. Qed.
Lemma all_lens_ok : forall name b S L, Forall2 (spot_ok name b) S L -> Forall2 (means b) (all_offs S) (all_lens L).
Proof.
  intros name b S L H. induction H as [| s l S L (_ & _ & _ & SL) H IH]; [constructor |]. cbn [all_offs all_lens flat_map]. unfold same_len in SL.
  destruct (sp_len s), (l_len l); try contradiction; [constructor; [exact SL | exact IH] | exact IH].
Qed.
Lemma size_run : forall name b ret w, total ps = total_bits fs -> Forall2 (spot_ok name b) (spots ps 0 []) (layout c b fs) ->
  yields b (state b) (run [] ret w (fn_body (m_fn (snd (want_size ps)))) (state b)) (vi (packet_size c fs b)).
Proof.
  intros name b ret w T H. apply ends_block, ends_tail. unfold packet_size. rewrite <- T. apply yields_means; [apply co_plain | apply state_good |].
  apply means_co. exact (all_lens_ok name b _ _ H).
Qed.
Lemma min_run : forall b s ret w, total ps = total_bits fs -> holds b s ->
  yields b s (run [] ret w (fn_body (m_fn (snd (want_min ps)))) s) (Val (RustSem.VI (Some Usize) (minimum_packet_size fs))).
Proof.
  intros b s ret w T H. apply ends_block, ends_tail. unfold minimum_packet_size. rewrite <- T.
  apply yields_plain; [reflexivity | exact H | reflexivity | discriminate].
Qed.

Definition new_ready (kd : string) : bool :=
  let t := type_name base mu in
  (inert [] "Some" && match kind_of [] "Some" with KNone => true | _ => false end &&
   match kind_of [] (t ++ "{packet}") with KWrap => true | _ => false end &&
   match kind_of [] ((if mu then "MutPacketData::" else "PacketData::") ++ kd) with KData => true | _ => false end)%bool.
Definition min_known : Prop := let f := (type_name base mu ++ "::minimum_packet_size")%string in
  sig [] f = Some (SInt Usize) /\ forall b, fun_ [] b f [] = Some (AInt Usize (Ok (minimum_packet_size fs))).
Lemma new_run : forall b d n par kd ret w, new_ready kd = true -> min_known ->
  let s := [("packet", VA (Some U8) d); ("self.packet", VA (Some U8) b)] in
  yields b s (run [] ret w (fn_body (m_fn (snd (want_new base mu n par kd)))) s) (Val (made base mu (new fs d))).
Proof.
  intros b d n par kd ret w R [MS MF] s. unfold new_ready in R. repeat (apply andb_prop in R; destruct R as [R ?]).
  destruct (inert_ok _ _ R) as [AC NA].
  destruct (kind_of [] "Some") eqn:K0; try discriminate. pose proof (kind_is _ _ _ K0) as SS.
  destruct (kind_of [] (type_name base mu ++ "{packet}")) eqn:K2; try discriminate. destruct (kind_is _ _ _ K2) as [WS WF].
  destruct (kind_of [] ((if mu then "MutPacketData::" else "PacketData::") ++ kd)) eqn:K3; try discriminate. destruct (kind_is _ _ _ K3) as [DS DF].
  assert (HB : holds b s) by reflexivity.
  apply ends_block, ends_tail. rewrite exec_if. rewrite (val_at _ _ _ _ _ _ b) by exact HB.
  set (cond := XBin OGe _ _).
  assert (C : pe (c_mode c) crate_const (sig []) emit_hint (fun_ [] b) None cond s = Val (VB (minimum_packet_size fs <=? blen d))).
  { unfold cond. cbn [pe is_cmp]. change (String.eqb "len" "copy_from_slice") with false. change (String.eqb "len" "sum") with false. change (String.eqb "len" "collect") with false. cbn iota.
    change (RustSem.lookup "packet" s) with (Some (VA (Some U8) d)). cbn [andthen open_ty type_of call_method].
    unfold result at 1. cbn [method String.eqb Ascii.eqb Bool.eqb andthen type_of is_shift]. unfold call. rewrite MS. unfold result at 1. rewrite MF. reflexivity. }
  rewrite C. cbn [of_value]. unfold new, made. destruct (minimum_packet_size fs <=? blen d); cbn iota.
  - apply ends_block, ends_tail. apply yields_call; [exact NA | exact AC | exact HB | | discriminate].
    rewrite pe_call. cbn [pes]. rewrite pe_call. cbn [pes]. rewrite pe_call. cbn [pes]. rewrite (pe_path _ _ _ _ _ _ "packet" s (VA (Some U8) d)) by reflexivity.
    cbn [open_ty andthen]. unfold call, result. rewrite DS, DF. cbn [called take_bytes lift andthen]. rewrite WS, WF. cbn [called take_val lift andthen].
    rewrite SS. reflexivity.
  - apply ends_block, ends_tail. apply yields_plain; [reflexivity | exact HB | reflexivity | discriminate].
Qed.

(** ** Payload *)

Lemma find_payload : forall name b S L, Forall2 (spot_ok name b) S L ->
  match find (fun s => pf_payload (sp_field s)) S, find (fun l => f_payload (l_field l)) L with
  | Some s, Some l => spot_ok name b s l
  | None, None => True
  | _, _ => False
  end.
Proof.
  intros name b S L H. induction H as [| s l S L Q H IH]; [exact I |]. cbn [find]. pose proof Q as ((_ & P & _) & _). rewrite P.
  destruct (f_payload (l_field l)); [exact Q | exact IH].
Qed.
(** A packet without a payload field. *)
Lemma payload_none : forall name b n, free "std::cmp::min" = true -> inert [] "std::cmp::min" = true -> buf_ok b ->
  find (fun s => pf_payload (sp_field s)) (spots ps 0 []) = None ->
  Forall2 (spot_ok name b) (spots ps 0 []) (layout c b fs) ->
  reads (finished "self.packet" (run [] None None (fn_body (m_fn (snd (want_payload n ps)))) (state b))) b (payload c fs b) shows_bytes.
Proof.
  intros name b n F IN B FS H. unfold want_payload, bounds_of. pose proof (find_payload name b _ _ H) as FP. rewrite FS in *.
  unfold payload, payload_window, payload_bounds. destruct (find (fun l => f_payload (l_field l)) (layout c b fs)) as [l |]; [destruct FP |].
  change (fn_body (m_fn (snd (me n [slf] "&[u8]" (XBlock
       [SLet (PVar "start") None (XInt "" 0); SLet (PVar "end") None (XCall "std::cmp::min" [XInt "" 0; self_len]);
        SExp (XIf (XBin OLe self_len (XPath "start")) (XBlock [SExp (XRet (Some (XUn URef (XArr []))))] None) None)]
       (Some (idx_range "start" "end"))) [])))) with (XBlock
       [SLet (PVar "start") None (XInt "" 0); SLet (PVar "end") None (XCall "std::cmp::min" [XInt "" 0; self_len]);
        SExp (XIf (XBin OLe self_len (XPath "start")) (XBlock [SExp (XRet (Some (XUn URef (XArr []))))] None) None)]
       (Some (idx_range "start" "end"))).
  unfold run. rewrite exec_block. cbn [bind].
  rewrite (let_step _ _ _ _ _ _ _ _ _ _ _ _ _ _ (state b) (RustSem.VI (Some Usize) 0)) by reflexivity.
  set (s1 := ("start", RustSem.VI (Some Usize) 0) :: state b).
  assert (G1 : good b s1) by (apply good_cons; [reflexivity | reflexivity | apply state_good]).
  destruct (inert_ok _ _ IN) as [AC NA].
  assert (EN : yields b s1 (run [] None (let_type emit_hint (PVar "end") None) (XCall "std::cmp::min" [XInt "" 0; self_len]) s1) (vi (Ok (Z.min 0 (blen b))))).
  { apply yields_call; [exact NA | exact AC | exact (good_holds b s1 G1) | | discriminate].
    rewrite pe_call. cbn [pes]. change (pe (c_mode c) crate_const (sig []) emit_hint (fun_ [] b) (let_type emit_hint (PVar "end") None) (XInt "" 0) s1) with (Val (RustSem.VI None 0)).
    cbn [andthen]. pose proof (means_self_len b [] None s1 G1) as SLN. unfold EmitLayout.pe_at in SLN.
    change (let_type emit_hint (PVar "end") None) with (@None ity). rewrite SLN. cbn [vi andthen].
    unfold call. unfold free in F. destruct (sig [] "std::cmp::min"); [discriminate |]. reflexivity. }
  cbn [vi EmitRun.yields] in EN. unfold run in EN. rewrite (let_step _ _ _ _ _ _ _ _ _ _ _ _ _ _ _ _ EN).
  set (s2 := ("end", RustSem.VI (Some Usize) (Z.min 0 (blen b))) :: s1).
  assert (G2 : good b s2) by now apply good_cons.
  assert (C : pe (c_mode c) crate_const (sig []) emit_hint (fun_ [] b) None (XBin OLe self_len (XPath "start")) s2 = Val (VB (blen b <=? 0))).
  { cbn [pe is_cmp is_shift]. pose proof (means_self_len b [] None s2 G2) as SLN. unfold EmitLayout.pe_at in SLN. rewrite SLN. reflexivity. }
  cbn [run_stmts run_st]. rewrite exec_if. rewrite (val_at _ _ _ _ _ _ b) by exact (good_holds b s2 G2). rewrite C. cbn [of_value].
  destruct (blen b <=? 0) eqn:LE; cbn iota.
  - rewrite exec_block. cbn [run_stmts run_st exec]. rewrite (val_at _ _ _ _ _ _ b) by exact (good_holds b s2 G2). cbn [bind reads].
    exists (VA None []). split; [| exists None; split; [reflexivity | now right]]. cbn. reflexivity.
  - cbn [exec of_value]. cbn [bind]. pose proof (slice_value b None s2 "start" "end" 0 _ G2 eq_refl eq_refl) as SV. unfold EmitLayout.pe_at in SV.
    pose proof (raw_id b s2 (slice b 0 (Z.min 0 (blen b))) (idx_range "start" "end") eq_refl None G2 SV) as Y.
    destruct (slice b 0 (Z.min 0 (blen b))) as [d | e] eqn:SD; cbn [EmitRun.yields bind] in *.
    + rewrite SD. cbn [reads]. exists (VA (Some U8) d). split; [| exists (Some U8); split; [reflexivity | now left]].
      unfold run in Y. rewrite Y. reflexivity.
    + destruct Y as (s' & Y & HS). unfold run in Y. cbn [reads]. rewrite Y. cbn. unfold EmitRun.holds in HS. now rewrite HS.
Qed.
Lemma payload_run : forall name b n, free "std::cmp::min" = true -> inert [] "std::cmp::min" = true -> buf_ok b ->
  existsb (fun s => pf_payload (sp_field s)) (spots ps 0 []) = true ->
  Forall2 (spot_ok name b) (spots ps 0 []) (layout c b fs) ->
  reads (finished "self.packet" (run [] None None (fn_body (m_fn (snd (want_payload n ps)))) (state b))) b (payload c fs b) shows_bytes.
Proof.
  intros name b n F IN B EX H. unfold want_payload, bounds_of. pose proof (find_payload name b _ _ H) as FP.
  destruct (find (fun s => pf_payload (sp_field s)) (spots ps 0 [])) as [s |] eqn:FS.
  2: { exfalso. apply existsb_exists in EX. destruct EX as (s & IS & PS). apply (find_none _ _ FS) in IS. congruence. }
  unfold payload, payload_window, payload_bounds. destruct (find (fun l => f_payload (l_field l)) (layout c b fs)) as [l |]; [| destruct FP].
  pose proof FP as (_ & SB & SO & SL).
  assert (MC : means b (sp_co s) (l_co c l)) by (unfold sp_co, l_co; rewrite SB; now apply means_co).
  set (up := match sp_len s with Some e => XBin OAdd (sp_co s) e | None => self_len end).
  set (upR := match l_len l with Some n => co <- l_co c l ;; x <- n ;; add_u (c_mode c) usize co x | None => Ok (blen b) end).
  assert (MU : means b up upR).
  { unfold same_len in SL. unfold up, upR. destruct (sp_len s), (l_len l); try contradiction; [now apply means_add | apply means_self_len]. }
  change (fn_body (m_fn (snd (me n [slf] "&[u8]" (XBlock
       [SLet (PVar "start") None (sp_co s); SLet (PVar "end") None (XCall "std::cmp::min" [up; self_len]);
        SExp (XIf (XBin OLe self_len (XPath "start")) (XBlock [SExp (XRet (Some (XUn URef (XArr []))))] None) None)]
       (Some (idx_range "start" "end"))) [])))) with (XBlock
       [SLet (PVar "start") None (sp_co s); SLet (PVar "end") None (XCall "std::cmp::min" [up; self_len]);
        SExp (XIf (XBin OLe self_len (XPath "start")) (XBlock [SExp (XRet (Some (XUn URef (XArr []))))] None) None)]
       (Some (idx_range "start" "end"))).
  clearbody up upR. unfold run. rewrite exec_block.
  pose proof (yields_means b [] None (let_type emit_hint (PVar "start") None) (sp_co s) (state b) _ (co_plain _ _) (state_good b) MC) as CO.
  destruct (l_co c l) as [x | e]; cbn [vi bind EmitRun.yields] in *.
  2: { destruct CO as (s' & CO & HS). rewrite (let_crash _ _ _ _ _ _ _ _ _ _ _ _ _ _ _ _ _ CO). cbn. unfold EmitRun.holds in HS. now rewrite HS. }
  unfold run in CO. rewrite (let_step _ _ _ _ _ _ _ _ _ _ _ _ _ _ _ _ CO).
  set (s1 := ("start", RustSem.VI (Some Usize) x) :: state b).
  assert (G1 : good b s1) by (apply good_cons; [reflexivity | reflexivity | apply state_good]).
  destruct (inert_ok _ _ IN) as [AC NA].
  assert (EN : yields b s1 (run [] None (let_type emit_hint (PVar "end") None) (XCall "std::cmp::min" [up; self_len]) s1) (vi (u <- upR ;; Ok (Z.min u (blen b))))).
  { apply yields_call; [exact NA | exact AC | exact (good_holds b s1 G1) | | destruct upR; discriminate].
    exact (min_value "std::cmp::min" b (let_type emit_hint (PVar "end") None) up self_len s1 upR (Ok (blen b)) F eq_refl (MU [] None s1 G1) (means_self_len b [] None s1 G1)). }
  destruct upR as [u | e]; cbn [vi bind EmitRun.yields] in *.
  2: { destruct EN as (s' & EN & HS). unfold run in EN. rewrite (let_crash _ _ _ _ _ _ _ _ _ _ _ _ _ _ _ _ _ EN). cbn. unfold EmitRun.holds in HS. now rewrite HS. }
  unfold run in EN. rewrite (let_step _ _ _ _ _ _ _ _ _ _ _ _ _ _ _ _ EN).
  set (s2 := ("end", RustSem.VI (Some Usize) (Z.min u (blen b))) :: s1).
  assert (G2 : good b s2) by now apply good_cons.
  assert (C : pe (c_mode c) crate_const (sig []) emit_hint (fun_ [] b) None (XBin OLe self_len (XPath "start")) s2 = Val (VB (blen b <=? x))).
  { cbn [pe is_cmp is_shift]. pose proof (means_self_len b [] None s2 G2) as SLN. unfold EmitLayout.pe_at in SLN. rewrite SLN. reflexivity. }
  cbn [run_stmts run_st]. rewrite exec_if. rewrite (val_at _ _ _ _ _ _ b) by exact (good_holds b s2 G2). rewrite C. cbn [of_value].
  destruct (blen b <=? x) eqn:LE; cbn iota.
  - rewrite exec_block. cbn [run_stmts run_st exec]. rewrite (val_at _ _ _ _ _ _ b) by exact (good_holds b s2 G2). cbn [bind reads].
    exists (VA None []). split; [| exists None; split; [reflexivity | now right]]. cbn. reflexivity.
  - cbn [exec of_value]. cbn [bind]. pose proof (slice_value b None s2 "start" "end" x _ G2 eq_refl eq_refl) as SV. unfold EmitLayout.pe_at in SV.
    pose proof (raw_id b s2 (slice b x (Z.min u (blen b))) (idx_range "start" "end") eq_refl None G2 SV) as Y.
    destruct (slice b x (Z.min u (blen b))) as [d | e] eqn:SD; cbn [EmitRun.yields bind] in *.
    + rewrite SD. cbn [reads]. exists (VA (Some U8) d). split; [| exists (Some U8); split; [reflexivity | now left]].
      unfold run in Y. rewrite Y. reflexivity.
    + destruct Y as (s' & Y & HS). unfold run in Y. cbn [reads]. rewrite Y. cbn. unfold EmitRun.holds in HS. now rewrite HS.
Qed.

(** ** The size of a struct *)

Lemma co_int : forall f bit offs lens s, Forall2 (fun e r => is_int (c_mode c) crate_const (sig []) emit_hint f e s Usize r) offs lens ->
  is_int (c_mode c) crate_const (sig []) emit_hint f (co_ast bit offs) s Usize (current_offset c bit lens).
Proof.
  intros f bit offs lens s H. unfold co_ast, current_offset.
  assert (S : is_int (c_mode c) crate_const (sig []) emit_hint f (XInt "usize" (bit / 8)) s Usize (Ok (bit / 8))) by (intros w; reflexivity).
  revert S. generalize (XInt "usize" (bit / 8)) (Ok (bit / 8)). induction H as [| e z offs lens Q H IH]; intros a r A; [exact A |].
  cbn [fold_left]. apply IH. exact (int_add (c_mode c) crate_const (sig []) emit_hint f a e s Usize r z A (fun w _ => Q w)).
Qed.
Lemma struct_lookup : forall l vs sf p v, struct_fields_rv l vs = Some sf -> NoDup (map pf_name l) -> In (p, v) (combine l vs) ->
  exists r, field_rv p v = Some r /\ RustSem.lookup (pf_name p) sf = Some r.
Proof.
  induction l as [| q l IH]; intros vs sf p v H ND I; [destruct I |]. destruct vs as [| x vs]; [destruct I |]. cbn [struct_fields_rv] in H.
  destruct (field_rv q x) as [r |] eqn:R; [| discriminate]. destruct (struct_fields_rv l vs) as [sf' |] eqn:S; [| discriminate]. injection H as <-.
  cbn [map] in ND. apply NoDup_cons_iff in ND. destruct ND as [N1 N2]. destruct I as [E | I].
  - injection E as <- <-. exists r. split; [exact R |]. cbn [RustSem.lookup]. now rewrite String.eqb_refl.
  - destruct (IH vs sf' p v S N2 I) as (r' & R' & L). exists r'. split; [exact R' |]. cbn [RustSem.lookup].
    destruct (String.eqb (pf_name p) (pf_name q)) eqn:Q; [| exact L]. exfalso. apply String.eqb_eq in Q. apply N1. rewrite <- Q. apply in_map.
    apply in_combine_l in I. exact I.
Qed.
Lemma struct_lens_ok : forall f sf s l vs, Forall (fun p => pf_struct_len p = is_vec p) l -> List.length vs = List.length l ->
  RustSem.lookup "_packet" s = Some (VS sf) ->
  (forall p v, In (p, v) (combine l vs) -> exists r, field_rv p v = Some r /\ RustSem.lookup (pf_name p) sf = Some r) ->
  Forall2 (fun e r => is_int (c_mode c) crate_const (sig []) emit_hint f e s Usize r) (struct_lens l) (flat_map vec_count vs).
Proof.
  intros f sf s. induction l as [| p l IH]; intros vs V LEN LP K; destruct vs as [| v vs]; try discriminate; [constructor |].
  apply Forall_cons_iff in V. destruct V as [V1 V2]. cbn [struct_lens flat_map]. apply Forall2_app.
  - destruct (K p v (or_introl eq_refl)) as (r & R & L). rewrite V1. unfold is_vec. unfold field_rv in R.
    assert (X : forall z, result (method (c_mode c) "len" r []) = Val (RustSem.VI (Some Usize) z) ->
       match r with VSelf | VC _ _ _ | VP _ _ => False | _ => True end ->
       is_int (c_mode c) crate_const (sig []) emit_hint f (XMeth (XProj (XPath "_packet") (pf_name p)) "len" []) s Usize (Ok z)).
    { intros z M NS w. rewrite pe_meth by reflexivity. cbn [pe]. rewrite LP. cbn [open_ty andthen]. rewrite L. cbn [andthen pes].
      destruct r; try (destruct NS); exact M. }
    destruct (pf_ty p) as [n z e | [n z e | t | n] | n]; destruct v; try discriminate; cbn [vec_count].
    + constructor.
    + injection R as <-. constructor; [| constructor]. apply X; [reflexivity | exact I].
    + injection R as <-. constructor; [| constructor]. replace (Z.of_nat (List.length l0)) with (Z.of_nat (List.length (map VX l0))) by (now rewrite map_length).
      apply X; [reflexivity | exact I].
    + constructor.
  - apply IH; [exact V2 | cbn in LEN; lia | exact LP |]. intros q u I. apply K. right. exact I.
Qed.
Lemma struct_fields_length : forall l vs sf, struct_fields_rv l vs = Some sf -> List.length vs = List.length l.
Proof.
  induction l as [| p l IH]; intros [| v vs] sf H; try discriminate; [reflexivity |]. cbn [struct_fields_rv] in H.
  destruct (field_rv p v); [| discriminate]. destruct (struct_fields_rv l vs) eqn:E; [| discriminate]. cbn. now rewrite (IH _ _ E).
Qed.
Lemma struct_size_run : forall b vs sf ret w, total ps = total_bits fs -> Forall (fun p => pf_struct_len p = is_vec p) ps -> NoDup (map pf_name ps) ->
  struct_fields_rv ps vs = Some sf ->
  let s := [("_packet", VS sf); ("self.packet", VA (Some U8) b)] in
  yields b s (run [] ret w (fn_body (m_fn (snd (want_struct_size base ps)))) s) (vi (struct_packet_size c fs vs)).
Proof.
  intros b vs sf ret w T V ND SF s. apply ends_block, ends_tail. unfold struct_packet_size. rewrite <- T. rewrite vi_of.
  apply yields_plain; [apply co_plain | reflexivity | | apply of_res_not].
  apply co_int. apply (struct_lens_ok _ sf); [exact V | exact (struct_fields_length _ _ _ SF) | reflexivity |].
  intros p v I. exact (struct_lookup ps vs sf p v SF ND I).
Qed.

(** ** Constructed fields *)

Lemma ity_refl : forall u, ity_eqb u u = true.
Proof. destruct u; reflexivity. Qed.
Lemma item_get : forall b of_ i bit n q u, buf_ok b -> prim_ready bit (RPrimitive n (p_size q) (p_end q)) = true -> int_ty n = Some u ->
  item_answer (c_mode c)
    (Fn ("get_arg" ++ dec i) [("_self", "&" ++ of_)] n (body_at (co_ast bit []) (getops_ast "_self.packet" n (ops_at bit (RPrimitive n (p_size q) (p_end q))))))
    [VSelf] b = Some (AInt u (co <- current_offset c bit [] ;; prim_get c bit q b co)).
Proof.
  intros b of_ i bit n q u [B _] R TY. destruct (prim_ready_ops _ _ _ _ R) as (ops & u' & O & NE & TY' & W & OA).
  rewrite TY in TY'. injection TY' as <-. rewrite OA. unfold item_answer, run_item. cbn [fn_ret fn_params fn_body bind_args item_place append app]. rewrite TY.
  set (s := [("_self", VSelf); ("_self.packet", VA (Some U8) b)]).
  assert (Y : EmitRun.yields "_self.packet" b s
    (exec (c_mode c) crate_const no_sig emit_hint "_self.packet" (fun _ => no_fun) no_act (Some u) (Some u)
       (body_at (co_ast bit []) (getops_ast "_self.packet" n ops)) s) (of_res u (x <- Ok (bit / 8) ;; gen_get_ops (c_mode c) (width u) ops b x))).
  { apply body_at_run; auto; try reflexivity. apply Forall_forall. intros op _. apply fits_any. }
  apply finished_yields in Y; [| reflexivity]. cbn [bind] in Y.
  replace (co <- current_offset c bit [] ;; prim_get c bit q b co) with (gen_get_ops (c_mode c) (width u) ops b (bit / 8)).
  - destruct (gen_get_ops (c_mode c) (width u) ops b (bit / 8)); cbn [of_res] in Y; rewrite Y; [now rewrite ity_refl | reflexivity].
  - unfold current_offset. cbn [fold_left bind]. unfold prim_get, plan. pose proof (O (c_macro c) (c_host_le c)) as P. unfold ops_of in P. rewrite P. now rewrite W.
Qed.
(** Every inner function is the one its name refers to, and all have the same type. *)
Fixpoint args_named (items all : list fn) (u : ity) (i : Z) (l : list rtype) : bool :=
  match l, items with
  | [], [] => true
  | t :: r, it :: ir =>
      (match kind_of all ("get_arg" ++ dec i) with KItem x => fn_eqb x it | _ => false end &&
       match int_ty (ty_of t) with Some v => ity_eqb u v | None => false end && args_named ir all u (i + 1) r)%bool
  | _, _ => false
  end.
Lemma ity_eqb_ok : forall a b, ity_eqb a b = true -> a = b.
Proof. intros [] []; (discriminate || reflexivity). Qed.
Lemma args_run : forall b of_ u all l qs bit i s, buf_ok b -> RustSem.lookup "self" s = Some VSelf -> Forall2 same_prim l qs -> args_ready bit l = true ->
  args_named (get_items of_ [] i bit l) all u i l = true ->
  pes (c_mode c) crate_const (sig all) emit_hint (fun_ all b) None (get_args i l) s =
  match misc_get c qs bit [] b with Ok zs => Val (map (RustSem.VI (Some u)) zs) | Panic e => Pnc e end.
Proof.
  intros b of_ u all l qs bit i s B SE H. revert bit i. induction H as [| t q l qs Q H IH]; intros bit i R N; [reflexivity |].
  cbn [args_ready] in R. apply andb_prop in R. destruct R as [R1 R2]. cbn [get_items args_named] in N.
  apply andb_prop in N. destruct N as [N N3]. apply andb_prop in N. destruct N as [N1 N2].
  destruct (kind_of all ("get_arg" ++ dec i)) as [| it | | | | | | | |] eqn:K; try discriminate. apply fn_eqb_ok in N1. subst it.
  destruct (kind_is _ _ _ K) as [KS KF]. destruct Q as [n ->]. cbn [ty_of] in *. destruct (int_ty n) as [v |] eqn:TY; [| discriminate]. apply ity_eqb_ok in N2. subst v.
  cbn [get_args pes misc_get]. rewrite pe_call. cbn [pes]. rewrite (pe_path _ _ _ _ _ _ _ _ _ SE). cbn [open_ty andthen]. unfold call. rewrite KS. cbn [fn_ret]. rewrite TY.
  unfold result. rewrite KF. rewrite (item_get b of_ i bit n q u B R1 TY). cbn [called take_int]. rewrite ity_refl.
  destruct (co <- current_offset c bit [];; prim_get c bit q b co) as [z | e] eqn:Z1.
  - cbn [lift andthen]. rewrite (IH (bit + args_size [RPrimitive n (p_size q) (p_end q)]) (i + 1) R2 N3).
    replace (bit + args_size [RPrimitive n (p_size q) (p_end q)]) with (bit + p_size q) by (cbn; lia).
    destruct (current_offset c bit []) as [co |]; [| discriminate]. cbn [bind] in *. rewrite Z1. cbn [bind].
    destruct (misc_get c qs (bit + p_size q) [] b); reflexivity.
  - cbn [lift andthen]. destruct (current_offset c bit []) as [co | x]; cbn [bind] in *; [rewrite Z1; reflexivity | congruence].
Qed.
Lemma ints_of_map : forall u zs, ints_of u (map (RustSem.VI (Some u)) zs) = Some zs.
Proof. induction zs as [| z zs IH]; [reflexivity |]. cbn [map ints_of]. now rewrite ity_refl, IH. Qed.
Definition misc_ready (of_ : string) (s : spot) (ty : string) : bool :=
  let all := get_items of_ (sp_offs s) 0 (sp_bit s) (pf_cons (sp_field s)) in
  let f := (ty ++ "::new")%string in
  (match sp_offs s with [] => true | _ => false end && inert all f &&
   match kind_of all f with KNew u => String.eqb u ty | _ => false end &&
   match pf_cons (sp_field s) with [] => false | _ => true end &&
   match first_ty (pf_cons (sp_field s)) with Some u => args_named all all u 0 (pf_cons (sp_field s)) | None => false end)%bool.
Lemma misc_run : forall name b s l ty of_ qs ret w, spot_ok name b s l -> buf_ok b -> Forall2 same_prim (pf_cons (sp_field s)) qs ->
  args_ready (sp_bit s) (pf_cons (sp_field s)) = true -> misc_ready of_ s ty = true ->
  exists u, first_ty (pf_cons (sp_field s)) = Some u /\
  yields b (state b) (run (get_items of_ (sp_offs s) 0 (sp_bit s) (pf_cons (sp_field s))) ret w (fn_body (m_fn (snd (want_misc_get of_ s ty)))) (state b))
    (match misc_get c qs (l_bit l) (l_lens l) b with Ok zs => Val (VC ty u zs) | Panic e => Pnc e end).
Proof.
  intros name b s l ty of_ qs ret w (_ & SB & SO & _) B SP R M. unfold misc_ready in M.
  apply andb_prop in M. destruct M as [M M5]. apply andb_prop in M. destruct M as [M M4]. apply andb_prop in M. destruct M as [M M3]. apply andb_prop in M. destruct M as [M1 M2].
  destruct (sp_offs s) as [| ? ?]; [| discriminate]. inversion SO as [E1 E2 |]. clear SO. rewrite <- SB.
  destruct (first_ty (pf_cons (sp_field s))) as [u |] eqn:FT; [| discriminate]. exists u. split; [reflexivity |].
  set (all := get_items of_ [] 0 (sp_bit s) (pf_cons (sp_field s))) in *.
  destruct (kind_of all (ty ++ "::new")) as [| | | | | v | | | |] eqn:K; try discriminate. apply String.eqb_eq in M3. subst v.
  destruct (kind_is _ _ _ K) as [KS KF]. destruct (inert_ok _ _ M2) as [AC NA].
  apply ends_block, ends_tail. apply yields_call; [exact NA | exact AC | reflexivity | |].
  - rewrite pe_call. rewrite (args_run b of_ u all (pf_cons (sp_field s)) qs (sp_bit s) 0 (state b) B eq_refl SP R M5).
    destruct (misc_get c qs (sp_bit s) [] b) as [zs | e] eqn:MG; [| reflexivity]. cbn [andthen]. unfold call. rewrite KS. unfold result. rewrite KF.
    destruct zs as [| z zs].
    + exfalso. destruct (pf_cons (sp_field s)); [discriminate |]. inversion SP; subst. cbn [misc_get] in MG.
      destruct (current_offset c (sp_bit s) []); [| discriminate]. cbn [bind] in MG. destruct (prim_get c (sp_bit s) y b a); [| discriminate]. cbn [bind] in MG.
      match type of MG with bind ?x _ = _ => destruct x; discriminate end.
    + cbn [map construct]. change (RustSem.VI (Some u) z :: map (RustSem.VI (Some u)) zs) with (map (RustSem.VI (Some u)) (z :: zs)). rewrite ints_of_map. reflexivity.
  - destruct (misc_get c qs (sp_bit s) [] b); discriminate.
Qed.
End Reads.

(** Running the statements that change the buffer. *)
From Coq Require Import String Ascii ZArith List Bool Lia.
From Verif Require Import Base BaseFacts DeriveUtil DeriveOps DeriveGen DeriveParse FmtText RustLex RustSyntax RustSem RustMethod RustExec
  EmitGen EmitWant EmitTransfer EmitOps EmitRun EmitStable.
Import ListNotations.
Open Scope string_scope.
Open Scope Z_scope.

(** ** The variables after an assignment *)

Section Upd.
Variable buffer : string.
Definition upd (b : buf) (s : env) : env := match assign buffer (VA (Some U8) b) s with Some s' => s' | None => s end.
Local Notation holds := (holds buffer).
Lemma upd_assign : forall b b' s, holds b s -> assign buffer (VA (Some U8) b') s = Some (upd b' s).
Proof.
  intros b b' s H. unfold upd. destruct (assign buffer (VA (Some U8) b') s) eqn:A; [reflexivity |]. exfalso. revert H A. unfold EmitRun.holds.
  induction s as [| [y v] s IH]; cbn [RustSem.lookup assign]; [discriminate |]. destruct (String.eqb buffer y); [discriminate |].
  intros H A. apply IH; [exact H |]. destruct (assign buffer (VA (Some U8) b') s); [discriminate | reflexivity].
Qed.
Lemma upd_cons : forall b x v s, String.eqb buffer x = false -> upd b ((x, v) :: s) = (x, v) :: upd b s.
Proof. intros b x v s N. unfold upd. cbn [assign]. rewrite N. destruct (assign buffer (VA (Some U8) b) s); reflexivity. Qed.
Lemma upd_here : forall b v s, upd b ((buffer, v) :: s) = (buffer, VA (Some U8) b) :: s.
Proof. intros b v s. unfold upd. cbn [assign]. now rewrite String.eqb_refl. Qed.
Lemma upd_holds : forall b b' s, holds b s -> holds b' (upd b' s).
Proof.
  intros b b' s. unfold EmitRun.holds. induction s as [| [y v] s IH]; cbn [RustSem.lookup]; [discriminate |]. destruct (String.eqb buffer y) eqn:E.
  - intros _. apply String.eqb_eq in E. subst y. rewrite upd_here. cbn [RustSem.lookup]. now rewrite String.eqb_refl.
  - intros H. rewrite upd_cons by exact E. cbn [RustSem.lookup]. rewrite E. now apply IH.
Qed.
Lemma upd_same : forall b s, holds b s -> upd b s = s.
Proof.
  intros b s. unfold EmitRun.holds. induction s as [| [y v] s IH]; cbn [RustSem.lookup]; [discriminate |]. destruct (String.eqb buffer y) eqn:E.
  - intros H. injection H as ->. apply String.eqb_eq in E. subst y. now rewrite upd_here.
  - intros H. rewrite upd_cons by exact E. now rewrite IH.
Qed.
Lemma upd_twice : forall b b' s, upd b' (upd b s) = upd b' s.
Proof.
  intros b b' s. induction s as [| [y v] s IH]; [reflexivity |]. destruct (String.eqb buffer y) eqn:E.
  - apply String.eqb_eq in E. subst y. now rewrite !upd_here.
  - rewrite !upd_cons by exact E. now rewrite IH.
Qed.
Lemma upd_lookup : forall b x s, String.eqb x buffer = false -> RustSem.lookup x (upd b s) = RustSem.lookup x s.
Proof.
  intros b x s N. induction s as [| [y v] s IH]; [reflexivity |]. destruct (String.eqb buffer y) eqn:E.
  - apply String.eqb_eq in E. subst y. rewrite upd_here. cbn [RustSem.lookup]. now rewrite N.
  - rewrite upd_cons by exact E. cbn [RustSem.lookup]. now rewrite IH.
Qed.
Lemma upd_size : forall b s, env_size (upd b s) = env_size s.
Proof.
  intros b s. induction s as [| [y v] s IH]; [reflexivity |]. destruct (String.eqb buffer y) eqn:E.
  - apply String.eqb_eq in E. subst y. now rewrite upd_here.
  - rewrite upd_cons by exact E. cbn [env_size]. now rewrite IH.
Qed.
Lemma leave_upd : forall b s, leave s (upd b s) = upd b s.
Proof. intros b s. unfold leave. now rewrite upd_size, PeanoNat.Nat.sub_diag. Qed.
Lemma leave_upd_cons : forall b x v s, String.eqb buffer x = false -> leave s (upd b ((x, v) :: s)) = upd b s.
Proof.
  intros b x v s N. rewrite upd_cons by exact N. unfold leave. cbn [env_size]. rewrite upd_size. replace (S (env_size s) - env_size s)%nat with 1%nat by lia. reflexivity.
Qed.

(** Ends having left the buffer as the model says, the other variables as they were. *)
Definition wrote (s : env) (o : ended) (r : buf * res unit) : Prop :=
  match snd r with
  | Ok _ => o = Go VUnit (upd (fst r) s)
  | Panic e => exists s', o = Crash e s' /\ holds (fst r) s'
  end.
Lemma wrote_block : forall s o r, wrote s o r -> wrote s (left_block s o) r.
Proof.
  intros s o [b' [u | e]] W; cbn [wrote fst snd] in *; unfold wrote in *; cbn [fst snd] in *.
  - subst o. cbn [left_block]. now rewrite leave_upd.
  - destruct W as (s' & -> & H). exists s'. now split.
Qed.
(** The same inside a block, its own variables in front. *)
Definition wrote_in (s : env) (o : ended) (r : buf * res unit) : Prop :=
  match snd r with
  | Ok _ => exists bs, o = Go VUnit (bs ++ upd (fst r) s)%list
  | Panic e => exists s', o = Crash e s' /\ holds (fst r) s'
  end.
Lemma in_of : forall s o r, wrote s o r -> wrote_in s o r.
Proof. intros s o [b' [u | e]] W; unfold wrote, wrote_in in *; cbn [fst snd] in *; [exists []; exact W | exact W]. Qed.
Lemma in_block : forall s o r, wrote_in s o r -> wrote s (left_block s o) r.
Proof.
  intros s o [b' [u | e]] W; unfold wrote, wrote_in in *; cbn [fst snd] in *.
  - destruct W as (bs & ->). cbn [left_block]. unfold leave. rewrite <- (upd_size b' s), !env_size_length, app_length, PeanoNat.Nat.add_sub. now rewrite env_drop_app.
  - destruct W as (s' & -> & H). exists s'. now split.
Qed.
Lemma in_cons : forall x v s o r, String.eqb buffer x = false -> wrote_in ((x, v) :: s) o r -> wrote_in s o r.
Proof.
  intros x v s o [b' [u | e]] N W; unfold wrote_in in *; cbn [fst snd] in *; [| exact W].
  destruct W as (bs & ->). exists (bs ++ [(x, v)])%list. rewrite upd_cons by exact N. now rewrite <- app_assoc.
Qed.
Lemma wrote_finished : forall b s o r, holds b s -> wrote s o r ->
  finished buffer o = match snd r with Ok _ => Returned VUnit (fst r) | Panic e => Panicked e (fst r) end.
Proof.
  intros b s o [b' [u | e]] H W; unfold wrote in W; cbn [fst snd] in *.
  - subst o. cbn. pose proof (upd_holds b b' s H) as U. unfold EmitRun.holds in U. now rewrite U.
  - destruct W as (s' & -> & U). cbn. unfold EmitRun.holds in U. now rewrite U.
Qed.
End Upd.


(** ** The value stored *)

Definition setop_safe (w : Z) (op : setop) : bool := let k := s_shiftr op - s_shiftl op in ((- w <? k) && (k <? w))%bool.
Lemma setop_value : forall m w op x v, setop_safe w op = true -> exists y, eval_setop m w op x v = Ok y.
Proof.
  intros m w op x v S. unfold setop_safe in S. cbn zeta in S. apply andb_prop in S. destruct S as [S1 S2]. apply Z.ltb_lt in S1. apply Z.ltb_lt in S2.
  unfold eval_setop. cbn zeta. set (z := if s_vmask op =? 255 then v else Z.land v (s_vmask op)).
  assert (R : exists r, (if s_shiftr op - s_shiftl op =? 0 then Ok z else if s_shiftr op - s_shiftl op <? 0 then shl_u m w z (- (s_shiftr op - s_shiftl op)) else shr_u m w z (s_shiftr op - s_shiftl op)) = Ok r).
  { destruct (_ =? 0); [eexists; reflexivity |]. destruct (_ <? 0) eqn:L.
    - apply Z.ltb_lt in L. unfold shl_u. rewrite (proj2 (andb_true_iff _ _)) by (split; [apply Z.leb_le; lia | apply Z.ltb_lt; lia]). eexists; reflexivity.
    - apply Z.ltb_ge in L. unfold shr_u. rewrite (proj2 (andb_true_iff _ _)) by (split; [apply Z.leb_le; lia | apply Z.ltb_lt; lia]). eexists; reflexivity. }
  destruct R as (r & ->). cbn [bind]. destruct (s_save op =? 0); eexists; reflexivity.
Qed.
Lemma lor_low : forall x y, 0 <= x < 256 -> 0 <= y < 256 -> 0 <= Z.lor x y < 256.
Proof.
  intros x y X Y. assert (E : Z.lor x y = Z.lor x y mod 2 ^ 8).
  { apply Z.bits_inj'. intros n N. destruct (Z.lt_ge_cases n 8).
    - now rewrite Z.mod_pow2_bits_low.
    - rewrite Z.mod_pow2_bits_high by lia. rewrite Z.lor_spec. rewrite <- (Z.mod_small x (2 ^ 8)), <- (Z.mod_small y (2 ^ 8)) by lia.
      now rewrite !Z.mod_pow2_bits_high by lia. }
  rewrite E. apply Z.mod_pos_bound. lia.
Qed.
Lemma cast_low : forall z, 0 <= cast_u 8 z < 256.
Proof. intros z. unfold cast_u. apply Z.mod_pos_bound. lia. Qed.
Lemma setop_low : forall m w op x v y, 0 <= x < 256 -> eval_setop m w op x v = Ok y -> 0 <= y < 256.
Proof.
  intros m w op x v y X E. unfold eval_setop in E. cbn zeta in E. match type of E with bind ?R _ = _ => destruct R as [r |]; [| discriminate] end. cbn [bind] in E.
  destruct (s_save op =? 0); injection E as <-; [apply cast_low | apply lor_low; [now apply land_low | apply cast_low]].
Qed.
(** Without a saved part the old byte does not matter. *)
Lemma setop_free : forall m w op x x' v, s_save op = 0 -> eval_setop m w op x v = eval_setop m w op x' v.
Proof. intros m w op x x' v S. unfold eval_setop. rewrite S. reflexivity. Qed.

Section Set_.
Variables (m : mode) (consts : string -> option rv) (sigs : string -> option shape) (hints : string -> option ity)
  (buffer : string) (funs : buf -> string -> list rv -> option answer)
  (acts : string -> option (list rv -> buf -> option (buf * res unit))) (ret : option ity).
Local Notation exec := (exec m consts sigs hints buffer funs acts ret).
Local Notation run_stmts := (run_stmts m consts sigs hints buffer funs acts ret).
Local Notation run_st := (run_st m consts sigs hints buffer funs acts ret).
Local Notation val_of := (val_of m consts sigs hints buffer funs).
Local Notation is_int := (is_int m consts sigs hints).
Local Notation holds := (holds buffer).
Local Notation wrote := (wrote buffer).

Lemma co_plus_is : forall f s co i, RustSem.lookup "co" s = Some (VI (Some Usize) co) -> is_int f (co_plus i) s Usize (add_u m usize co i).
Proof.
  intros f s co i H w. unfold co_plus.
  rewrite (int_add m consts sigs hints f (XPath "co") (XInt "" i) s Usize (Ok co) (Ok i)).
  - reflexivity.
  - intros w'. rewrite (pe_path _ _ _ _ _ _ _ _ _ H). reflexivity.
  - intros w' ->. reflexivity.
Qed.
Lemma setop_int : forall f b s op place t v r, RustSem.lookup "val" s = Some (VI (Some t) v) -> bytes_ok b ->
  is_int f place s U8 (j <- r ;; idx b j) -> setop_safe (width t) op = true ->
  is_int f (setop_ast op place) s U8 (if s_save op =? 0 then eval_setop m (width t) op 0 v else j <- r ;; x <- idx b j ;; eval_setop m (width t) op x v).
Proof.
  intros f b s op place t v r V B P S. unfold setop_ast.
  assert (I0 : is_int f (XPath "val") s t (Ok v)) by (intros w; rewrite (pe_path _ _ _ _ _ _ _ _ _ V); reflexivity).
  set (e := XCast (shift_ast (masked_ast (XPath "val") (s_vmask op)) (s_shiftr op - s_shiftl op)) "u8").
  assert (I1 : is_int f e s U8 (eval_setop m (width t) (SetOp 0 (s_vmask op) (s_shiftl op) (s_shiftr op)) 0 v)).
  { intros w. unfold e. rewrite (int_cast m consts sigs hints f _ s t _ "u8" U8 (int_shift m consts sigs hints f _ s t _ (s_shiftr op - s_shiftl op) (int_mask m consts sigs hints f _ s t _ (s_vmask op) I0)) eq_refl w).
    apply (f_equal (of_res U8)). unfold eval_setop. cbn [s_save s_vmask s_shiftl s_shiftr rmap bind Z.eqb]. cbn zeta.
    match goal with |- rmap _ ?x = bind ?y _ => change y with x; destruct x; reflexivity end. }
  destruct (s_save op =? 0) eqn:Q.
  - apply Z.eqb_eq in Q. intros w. rewrite (I1 w). apply (f_equal (of_res U8)). unfold eval_setop. cbn [s_save s_vmask s_shiftl s_shiftr]. rewrite Q. reflexivity.
  - apply (int_recast m consts sigs hints f _ s U8 _ "u8"); [| reflexivity |].
    + intros w.
      etransitivity; [exact (int_or m consts sigs hints f _ e s U8 _ _ (int_and m consts sigs hints f place s U8 _ (s_save op) P) I1 w) |].
      apply (f_equal (of_res U8)). destruct r as [j |]; [| reflexivity]. cbn [bind]. destruct (idx b j) as [x |]; [| reflexivity]. cbn [bind rmap].
      unfold eval_setop. cbn [s_save s_vmask s_shiftl s_shiftr Z.eqb]. cbn zeta. rewrite Q.
      match goal with |- context [bind (bind ?x _) _] => destruct x; reflexivity end.
    + intros z Z1. destruct r as [j |]; [| discriminate]. cbn [bind] in Z1. destruct (idx b j) as [x |] eqn:X; [| discriminate]. cbn [bind] in Z1.
      exact (setop_low _ _ _ _ _ _ (idx_byte b B j x X) Z1).
Qed.
Lemma idx_store : forall b j y, (exists x, idx b j = Ok x /\ exists b', store b j y = (b', Ok Datatypes.tt)) \/ (idx b j = Panic EIndex /\ store b j y = (b, Panic EIndex)).
Proof.
  intros b j y. unfold idx, store. destruct ((0 <=? j) && (j <? blen b))%bool; [left | right; split; reflexivity].
  eexists. split; [reflexivity |]. eexists. reflexivity.
Qed.
Lemma store_bytes : forall b j y b', bytes_ok b -> 0 <= y < 256 -> store b j y = (b', Ok Datatypes.tt) -> bytes_ok b'.
Proof.
  intros b j y b' B Y S. unfold store in S. destruct ((0 <=? j) && (j <? blen b))%bool; [| discriminate]. injection S as <-.
  unfold bytes_ok in *. apply Forall_upd; [exact B | exact Y].
Qed.
Lemma stores_run : forall ops w i b s co t v, holds b s -> bytes_ok b -> String.eqb "co" buffer = false -> String.eqb "val" buffer = false ->
  RustSem.lookup "co" s = Some (VI (Some Usize) co) -> RustSem.lookup "val" s = Some (VI (Some t) v) ->
  forallb (setop_safe (width t)) ops = true ->
  wrote s (run_stmts w (stores buffer i ops) None s) (gen_set_ops m (width t) ops co i v b).
Proof.
  induction ops as [| op ops IH]; intros w i b s co t v H B N1 N2 CO VAL SF.
  - cbn [stores EmitRun.run_stmts gen_set_ops]. unfold EmitSets.wrote, mret. cbn [fst snd]. now rewrite (upd_same buffer b s H).
  - cbn [forallb] in SF. apply andb_prop in SF. destruct SF as [S1 S2]. cbn [stores EmitRun.run_stmts]. cbn zeta. cbn [EmitRun.run_st].
    set (place := XIndex (XPath buffer) (co_plus i)).
    assert (P : is_int (funs b) place s U8 (j <- add_u m usize co i ;; idx b j)).
    { apply (int_place m consts sigs hints (funs b) buffer b s H). exact (co_plus_is (funs b) s co i CO (Some Usize)). }
    rewrite H. rewrite (val_at _ _ _ _ _ _ b) by exact H. rewrite (setop_int (funs b) b s op place t v _ VAL B P S1 (Some U8)).
    rewrite (val_at _ _ _ _ _ _ b) by exact H. rewrite (co_plus_is (funs b) s co i CO (Some Usize)).
    cbn [gen_set_ops]. destruct (setop_value m (width t) op 0 v S1) as (y0 & Y0).
    destruct (add_u m usize co i) as [j | e] eqn:A; cbn [bind of_res of_value].
    2: { destruct (s_save op =? 0); [rewrite Y0 |]; cbn [of_res of_value]; (exists s; split; [reflexivity | exact H]). }
    destruct (idx_store b j 0) as [(x & X & _) | (X & _)].
    + destruct (setop_value m (width t) op x v S1) as (y & Y).
      assert (YV : (if s_save op =? 0 then eval_setop m (width t) op 0 v else x <- idx b j ;; eval_setop m (width t) op x v) = Ok y).
      { destruct (s_save op =? 0) eqn:Q; [apply Z.eqb_eq in Q; rewrite (setop_free _ _ _ 0 x) by exact Q; exact Y | rewrite X; exact Y]. }
      rewrite YV. cbn [of_res of_value agree ity_eqb andb]. rewrite X. cbn [bind]. rewrite Y. cbn [bind]. unfold mseq.
      destruct (idx_store b j y) as [(x' & _ & b' & ST) | (X' & _)]; [| congruence]. rewrite ST. unfold assigned. rewrite (upd_assign buffer b b' s H).
      pose proof (IH w (i + 1) b' (upd buffer b' s) co t v (upd_holds buffer b b' s H) (store_bytes b j y b' B (setop_low _ _ _ _ _ _ (idx_byte b B j x X) Y) ST) N1 N2) as R.
      rewrite !upd_lookup in R by assumption. specialize (R CO VAL S2). unfold EmitSets.wrote in *.
      destruct (gen_set_ops m (width t) ops co (i + 1) v b') as [b2 [u | e]]; cbn [fst snd] in *; [| exact R].
      rewrite R. now rewrite upd_twice.
    + rewrite X. cbn [bind]. unfold EmitSets.wrote. cbn [fst snd].
      destruct (s_save op =? 0).
      * rewrite Y0. cbn [of_res of_value agree ity_eqb andb]. destruct (idx_store b j y0) as [(x' & X' & _) | (_ & ->)]; [congruence |]. exists s. now split.
      * cbn [of_res of_value]. exists s. now split.
Qed.
Lemma setops_run : forall ops w b s co t v, holds b s -> bytes_ok b -> String.eqb "co" buffer = false -> String.eqb "val" buffer = false ->
  RustSem.lookup "co" s = Some (VI (Some Usize) co) -> RustSem.lookup "val" s = Some (VI (Some t) v) ->
  forallb (setop_safe (width t)) ops = true ->
  wrote s (exec w (setops_ast buffer ops) s) (gen_set_ops m (width t) ops co 0 v b).
Proof.
  intros ops w b s co t v H B N1 N2 CO VAL SF. unfold setops_ast. rewrite exec_block. apply wrote_block. now apply stores_run.
Qed.
(** [let x = a; ..] *)
Lemma in_let : forall b w x ty a r t s v R, String.eqb buffer x = false ->
  yields buffer b s (exec (let_type hints (PVar x) ty) a s) (Val v) ->
  wrote_in buffer ((x, v) :: s) (run_stmts w r t ((x, v) :: s)) R -> wrote_in buffer s (run_stmts w (SLet (PVar x) ty a :: r) t s) R.
Proof.
  intros b w x ty a r t s v R N Y W. cbn [yields] in Y. rewrite (let_step _ _ _ _ _ _ _ _ _ _ _ _ _ _ _ _ Y). exact (in_cons _ _ _ _ _ _ N W).
Qed.
Lemma in_crash : forall b w x ty a r t s e, yields buffer b s (exec (let_type hints (PVar x) ty) a s) (Pnc e) ->
  wrote_in buffer s (run_stmts w (SLet (PVar x) ty a :: r) t s) (b, Panic e).
Proof.
  intros b w x ty a r t s e Y. destruct Y as (s' & Y & HS). exists s'. split; [| exact HS]. exact (let_crash _ _ _ _ _ _ _ _ _ _ _ _ _ _ _ _ _ Y).
Qed.
(** A function that changes the buffer. *)
Lemma act_value : forall f p b s l vs r, acts f = Some p -> holds b s -> pes m consts sigs hints (funs b) None l s = Val vs -> p vs b = Some r ->
  exists o, act m consts sigs hints buffer funs acts f l s = Some o /\ wrote s o r.
Proof.
  intros f p b s l vs [b' r] A H E P. unfold act. rewrite A. eexists. split; [reflexivity |]. unfold vals_of. rewrite (holds_buf buffer b s H), E. cbn [of_value].
  rewrite P. unfold mutated, put. rewrite (upd_assign buffer b b' s H). unfold EmitSets.wrote. destruct r as [u | e]; cbn [fst snd]; [reflexivity |].
  eexists. split; [reflexivity | exact (upd_holds buffer b b' s H)].
Qed.
Lemma call_act : forall w f p b s l vs r, String.eqb f "assert" = false -> acts f = Some p -> holds b s ->
  pes m consts sigs hints (funs b) None l s = Val vs -> p vs b = Some r -> wrote s (exec w (XCall f l) s) r.
Proof.
  intros w f p b s l vs r N A H E P. destruct (act_value f p b s l vs r A H E P) as (o & O & W). cbn [RustExec.exec]. now rewrite N, O.
Qed.
Lemma self_act : forall w x p b s l vs r, RustSem.lookup "self" s = Some VSelf -> acts ("self." ++ x)%string = Some p -> holds b s ->
  pes m consts sigs hints (funs b) None l s = Val vs -> p vs b = Some r -> wrote s (exec w (XMeth (XPath "self") x l) s) r.
Proof.
  intros w x p b s l vs r L A H E P. destruct (act_value _ p b s l vs r A H E P) as (o & O & W). cbn [RustExec.exec]. now rewrite L, O.
Qed.
(** [a; rest] *)
Lemma wrote_seq : forall w a l t s r1 (f : buf -> buf * res unit), wrote s (exec None a s) r1 ->
  (snd r1 = Ok Datatypes.tt -> wrote (upd buffer (fst r1) s) (run_stmts w l t (upd buffer (fst r1) s)) (f (fst r1))) ->
  wrote s (run_stmts w (SExp a :: l) t s) (match snd r1 with Ok _ => f (fst r1) | Panic e => (fst r1, Panic e) end).
Proof.
  intros w a l t s [b1 [u | e]] f W K; unfold EmitSets.wrote in W; cbn [fst snd] in *; cbn [EmitRun.run_stmts EmitRun.run_st].
  - rewrite W. destruct u. specialize (K eq_refl). unfold EmitSets.wrote in *. destruct (f b1) as [b2 [u | e]]; cbn [fst snd] in *; [| exact K].
    rewrite K. now rewrite upd_twice.
  - destruct W as (s' & -> & H). exists s'. now split.
Qed.
Lemma set_body_run : forall ops w co coR b s t v, holds b s -> bytes_ok b -> String.eqb "co" buffer = false -> String.eqb "val" buffer = false ->
  String.eqb buffer "co" = false -> hints "co" = Some Usize -> plain_ex co = true ->
  pe m consts sigs hints (funs b) (Some Usize) co s = of_res Usize coR -> RustSem.lookup "val" s = Some (VI (Some t) v) ->
  forallb (setop_safe (width t)) ops = true ->
  wrote s (exec w (body_at co (setops_ast buffer ops)) s) (lift_set coR (fun x => gen_set_ops m (width t) ops x 0 v) b).
Proof.
  intros ops w co coR b s t v H B N1 N2 N3 HC P E VAL SF. unfold body_at. rewrite exec_block.
  assert (Y := yields_plain _ _ _ _ _ _ _ _ b (let_type hints (PVar "co") None) co s (of_res Usize coR) P H (ltac:(cbn [let_type]; rewrite HC; exact E)) (of_res_not _ _) : yields buffer b s (exec (let_type hints (PVar "co") None) co s) (of_res Usize coR)).
  apply in_block. unfold lift_set. destruct coR as [x | e]; cbn [of_res] in Y; [| exact (in_crash b w "co" None co [] _ s e Y)].
  apply (in_let b w "co" None co [] _ s (VI (Some Usize) x)); [exact N3 | exact Y |]. apply in_of. cbn [EmitRun.run_stmts]. apply setops_run; auto.
  unfold EmitRun.holds. cbn [RustSem.lookup]. rewrite N3. exact H.
Qed.
End Set_.

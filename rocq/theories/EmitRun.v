(** Running the statements of emitted methods. *)
From Coq Require Import String Ascii ZArith List Bool Lia.
From Verif Require Import Base BaseFacts DeriveUtil DeriveOps DeriveGen DeriveParse FmtText RustLex RustSyntax RustSem RustMethod RustExec FmtProofs EmitGen EmitWant EmitTransfer EmitOps.
Import ListNotations.
Open Scope string_scope.
Open Scope Z_scope.

Lemma leave_self : forall s, leave s s = s.
Proof. intros s. unfold leave. now rewrite PeanoNat.Nat.sub_diag. Qed.
Lemma env_drop_app : forall bs s, env_drop (length bs) (bs ++ s)%list = s.
Proof. induction bs as [| x bs IH]; intros s; [destruct s; reflexivity | exact (IH s)]. Qed.
Lemma env_size_length : forall s, env_size s = length s.
Proof. induction s; cbn; congruence. Qed.
Lemma leave_app : forall bs s, leave s (bs ++ s)%list = s.
Proof.
  intros bs s. unfold leave. rewrite !env_size_length, app_length, PeanoNat.Nat.add_sub. apply env_drop_app.
Qed.

Section Run.
Variables (m : mode) (consts : string -> option rv) (sigs : string -> option shape) (hints : string -> option ity)
  (buffer : string) (funs : buf -> string -> list rv -> option answer)
  (acts : string -> option (list rv -> buf -> option (buf * res unit))) (ret : option ity).
Local Notation exec := (exec m consts sigs hints buffer funs acts ret).
Local Notation val_of := (val_of m consts sigs hints buffer funs).
Local Notation vals_of := (vals_of m consts sigs hints buffer funs).
Local Notation act := (act m consts sigs hints buffer funs acts).

Definition run_st (x : st) (s : env) : ended :=
  match x with
  | SLet p ty a =>
      match exec (let_type hints p ty) a s with
      | Go v s1 => match matched p v with Some (Some bs) => Go VUnit (bs ++ s1)%list | _ => Off end
      | o => o
      end
  | SSet o (XPath y) a =>
      match RustSem.lookup y s with
      | Some old =>
          of_value (val_of (type_of old) a s) s (fun v =>
            match o with
            | None => assigned y v s
            | Some op => of_value (result (binary m op old v)) s (fun v' => assigned y v' s)
            end)
      | None => Off
      end
  | SSet None (XIndex (XPath y) i) a =>
      match RustSem.lookup y s with
      | Some (VA t b) =>
          of_value (val_of t a s) s (fun v => of_value (val_of (Some Usize) i s) s (fun iv =>
            match v, iv with
            | VI u z, VI q j =>
                if (agree t u && agree (Some Usize) q)%bool then
                  match store b j z with
                  | (b', Ok _) => assigned y (VA t b') s
                  | (_, Panic e) => Crash e s
                  end
                else Off
            | _, _ => Off
            end))
      | _ => Off
      end
  | SSet _ _ _ => Off
  | SExp a => exec None a s
  | SFor p a b =>
      of_value (val_of None a s) s (fun v =>
        match items v with
        | Some vs =>
            run_each (fun v s1 => match matched p v with
                                  | Some (Some bs) => left_block s1 (exec None b (bs ++ s1)%list)
                                  | _ => Off
                                  end) vs s
        | None => Off
        end)
  | SWhile _ _ => Off
  end.
Fixpoint run_stmts (w : option ity) (l : list st) (t : option ex) (s : env) : ended :=
  match l with
  | [] => match t with Some a => exec w a s | None => Go VUnit s end
  | x :: r => match run_st x s with Go _ s1 => run_stmts w r t s1 | o => o end
  end.
Lemma exec_block : forall w l t s, exec w (XBlock l t) s = left_block s (run_stmts w l t s).
Proof.
  intros w l t s. cbn [RustExec.exec]. f_equal. generalize s. induction l as [| x l IH]; intros s1; [reflexivity |].
  cbn [run_stmts]. change (match run_st x s1 with Go _ s2 => run_stmts w l t s2 | o => o end) with
    (match run_st x s1 with Go _ s2 => run_stmts w l t s2 | Return v s2 => Return v s2 | Crash e s2 => Crash e s2 | Off => Off end).
  destruct x as [p ty a | o a e | a | p a b | a b]; cbn [run_st].
  - destruct (exec (let_type hints p ty) a s1); try reflexivity. destruct (matched p v) as [[bs |] |]; [apply IH | reflexivity | reflexivity].
  - match goal with |- match ?x with _ => _ end = match ?y with _ => _ end => change y with x; destruct x; [apply IH | reflexivity ..] end.
  - destruct (exec None a s1); [apply IH | reflexivity ..].
  - match goal with |- match ?x with _ => _ end = match ?y with _ => _ end => change y with x; destruct x; [apply IH | reflexivity ..] end.
  - reflexivity.
Qed.

Definition plain_ex (e : ex) : bool :=
  match e with XInt _ _ | XPath _ | XBin _ _ _ | XCast _ _ | XIndex _ _ | XUn _ _ | XRange _ _ | XArr _ | XProj _ _ => true | _ => false end.
Lemma exec_plain : forall w e s, plain_ex e = true -> exec w e s = of_value (val_of w e s) s (fun v => Go v s).
Proof. intros w e s H. destruct e; try discriminate; reflexivity. Qed.

Definition holds (b : buf) (s : env) : Prop := RustSem.lookup buffer s = Some (VA (Some U8) b).
Lemma holds_buf : forall b s, holds b s -> buf_of buffer s = b.
Proof. intros b s H. unfold buf_of. now rewrite H. Qed.
Lemma val_at : forall b w e s, holds b s -> val_of w e s = pe m consts sigs hints (funs b) w e s.
Proof. intros b w e s H. unfold RustExec.val_of. now rewrite (holds_buf _ _ H). Qed.

(** Ends with the value and the variables as they were, or panics leaving the buffer. *)
Definition yields (b : buf) (s : env) (o : ended) (r : outcome rv) : Prop :=
  match r with
  | Val v => o = Go v s
  | Pnc e => exists s', o = Crash e s' /\ holds b s'
  | Bad => False
  end.
Lemma yields_plain : forall b w e s r, plain_ex e = true -> holds b s -> pe m consts sigs hints (funs b) w e s = r -> r <> Bad ->
  yields b s (exec w e s) r.
Proof.
  intros b w e s r P H E N. rewrite (exec_plain _ _ _ P), (val_at _ _ _ _ H), E. destruct r as [v | x |]; cbn; [reflexivity | | congruence].
  exists s. now split.
Qed.
Lemma of_res_not : forall t r, of_res t r <> Bad.
Proof. intros t [z | e]; discriminate. Qed.

(** ** Blocks *)

Lemma let_step : forall w x ty a r t s v, exec (let_type hints (PVar x) ty) a s = Go v s ->
  run_stmts w (SLet (PVar x) ty a :: r) t s = run_stmts w r t ((x, v) :: s).
Proof. intros w x ty a r t s v H. cbn [run_stmts run_st]. rewrite H. reflexivity. Qed.
Lemma let_crash : forall w x ty a r t s e s', exec (let_type hints (PVar x) ty) a s = Crash e s' ->
  run_stmts w (SLet (PVar x) ty a :: r) t s = Crash e s'.
Proof. intros w x ty a r t s e s' H. cbn [run_stmts run_st]. rewrite H. reflexivity. Qed.

(** A block entered with [s], its own variables in front. *)
Definition ends (b : buf) (s : env) (o : ended) (r : outcome rv) : Prop :=
  match r with
  | Val v => exists bs, o = Go v (bs ++ s)%list
  | Pnc e => exists s', o = Crash e s' /\ holds b s'
  | Bad => False
  end.
Lemma ends_block : forall b w l t s r, ends b s (run_stmts w l t s) r -> yields b s (exec w (XBlock l t) s) r.
Proof.
  intros b w l t s r H. rewrite exec_block. destruct r as [v | e |]; cbn in *.
  - destruct H as (bs & ->). cbn [left_block]. now rewrite leave_app.
  - destruct H as (s' & -> & H). exists s'. now split.
  - exact H.
Qed.
Lemma ends_tail : forall b w a s r, yields b s (exec w a s) r -> ends b s (run_stmts w [] (Some a) s) r.
Proof. intros b w a s [v | e |] H; cbn in *; [exists []; exact H | exact H | exact H]. Qed.
Lemma ends_let : forall b w x ty a r t s ra (rr : rv -> outcome rv),
  yields b s (exec (let_type hints (PVar x) ty) a s) ra ->
  (forall v, ra = Val v -> ends b ((x, v) :: s) (run_stmts w r t ((x, v) :: s)) (rr v)) ->
  ends b s (run_stmts w (SLet (PVar x) ty a :: r) t s) (andthen ra rr).
Proof.
  intros b w x ty a r t s ra rr H K. destruct ra as [v | e |]; cbn [yields andthen ends] in *.
  - rewrite (let_step _ _ _ _ _ _ _ _ H). specialize (K v eq_refl). destruct (rr v) as [u | e |]; cbn [ends] in *.
    + destruct K as (bs & ->). exists (bs ++ [(x, v)])%list. now rewrite <- app_assoc.
    + exact K.
    + exact K.
  - destruct H as (s' & H & B). exists s'. split; [| exact B]. exact (let_crash _ _ _ _ _ _ _ _ _ H).
  - exact H.
Qed.

Lemma ends_val : forall b w x ty a r t s v R, yields b s (exec (let_type hints (PVar x) ty) a s) (Val v) ->
  ends b ((x, v) :: s) (run_stmts w r t ((x, v) :: s)) R -> ends b s (run_stmts w (SLet (PVar x) ty a :: r) t s) R.
Proof. intros b w x ty a r t s v R Y E. refine (ends_let b w x ty a r t s (Val v) (fun _ => R) Y _). intros v' V. injection V as <-. exact E. Qed.
Lemma ends_pnc : forall b w x ty a r t s e, yields b s (exec (let_type hints (PVar x) ty) a s) (Pnc e) ->
  ends b s (run_stmts w (SLet (PVar x) ty a :: r) t s) (Pnc e).
Proof. intros b w x ty a r t s e Y. refine (ends_let b w x ty a r t s (Pnc e) (fun _ => Bad) Y _). discriminate. Qed.

(** ** Integers *)

Section Get.
Variables (base ty : string) (t : ity) (b d : buf) (co : Z).
Hypothesis TY : int_ty ty = Some t.
Hypothesis BYTES : bytes_ok d.
Hypothesis BASE_NAME : forall i, String.eqb base (bname i) = false.
Hypothesis BUF_NAME : forall i, String.eqb buffer (bname i) = false.
Definition ready (s : env) : Prop :=
  RustSem.lookup base s = Some (VA (Some U8) d) /\ RustSem.lookup "co" s = Some (VI (Some Usize) co) /\ holds b s.
Lemma ready_cons : forall i v s, ready s -> ready ((bname i, v) :: s).
Proof.
  intros i v s (H1 & H2 & H3). unfold ready, holds. cbn [RustSem.lookup]. rewrite BASE_NAME, BUF_NAME. split; [exact H1 |]. split; [exact H2 | exact H3].
Qed.
Definition op_val (i : Z) (op : getop) : res Z := j <- add_u m usize co i ;; x <- idx d j ;; eval_getop m (width t) op x.
Lemma int_coplus : forall f s i, ready s -> pe m consts sigs hints f (Some Usize) (co_plus i) s = of_res Usize (add_u m usize co i).
Proof.
  intros f s i (_ & H & _). unfold co_plus.
  rewrite (int_add m consts sigs hints f (XPath "co") (XInt "" i) s Usize (Ok co) (Ok i)).
  - reflexivity.
  - intros w. rewrite (pe_path _ _ _ _ _ _ _ _ _ H). reflexivity.
  - intros w ->. reflexivity.
Qed.
Lemma int_op : forall f s i op, ready s -> is_int m consts sigs hints f (getop_ast op (byte_ast base (co_plus i) ty)) s t (op_val i op).
Proof.
  intros f s i op R. unfold op_val.
  replace (j <- add_u m usize co i ;; x <- idx d j ;; eval_getop m (width t) op x)
    with (x <- (j <- add_u m usize co i ;; idx d j) ;; eval_getop m (width t) op x) by (destruct (add_u m usize co i); reflexivity).
  apply int_getop. apply (int_byte m consts sigs hints f base d s (proj1 R) BYTES); [| exact TY]. now apply int_coplus.
Qed.
Fixpoint op_vals (i : Z) (ops : list getop) : res (list Z) :=
  match ops with [] => Ok [] | op :: r => v <- op_val i op ;; vs <- op_vals (i + 1) r ;; Ok (v :: vs) end.
Lemma get_multi_vals : forall ops i acc, get_multi m (width t) ops d co i acc = (vs <- op_vals i ops ;; Ok (fold_left Z.lor vs acc)).
Proof.
  induction ops as [| op ops IH]; intros i acc; [reflexivity |]. cbn [get_multi op_vals]. unfold op_val.
  destruct (add_u m usize co i) as [j |]; [| reflexivity]. cbn [bind]. destruct (idx d j) as [x |]; [| reflexivity]. cbn [bind].
  destruct (eval_getop m (width t) op x) as [v |]; [| reflexivity]. cbn [bind]. rewrite IH. destruct (op_vals (i + 1) ops); reflexivity.
Qed.
Definition op_fits (op : getop) : Prop := forall x z, 0 <= x < 256 -> eval_getop m (width t) op x = Ok z -> 0 <= z < 2 ^ width t.
Lemma op_in : forall i op, op_fits op -> in_w t (op_val i op).
Proof.
  intros i op F z H. unfold op_val in H. destruct (add_u m usize co i) as [j |]; [| discriminate]. cbn [bind] in H.
  destruct (idx d j) as [x |] eqn:X; [| discriminate]. cbn [bind] in H. exact (F x z (idx_byte d BYTES j x X) H).
Qed.

Fixpoint bound (i : Z) (vs : list Z) (s : env) : env :=
  match vs with [] => s | v :: r => bound (i + 1) r ((bname i, VI (Some t) v) :: s) end.
Lemma lets_run : forall w e ops i s, ready s -> Forall op_fits ops ->
  match op_vals i ops with
  | Ok vs => run_stmts w (lets base ty i ops) e s = run_stmts w [] e (bound i vs s) /\ length vs = length ops
  | Panic x => exists s', run_stmts w (lets base ty i ops) e s = Crash x s' /\ holds b s'
  end.
Proof.
  intros w e ops. induction ops as [| op ops IH]; intros i s R F; [split; reflexivity |].
  apply Forall_cons_iff in F. destruct F as [F1 F2]. cbn [op_vals lets].
  pose proof (int_recast m consts sigs hints (funs b) _ s t _ ty (int_op (funs b) s i op R) TY (op_in i op F1) (let_type hints (PVar (bname i)) None)) as E.
  pose proof (yields_plain b _ (XCast (getop_ast op (byte_ast base (co_plus i) ty)) ty) s _ eq_refl (proj2 (proj2 R)) E (of_res_not _ _)) as Y.
  destruct (op_val i op) as [v | x]; cbn [of_res yields bind] in *.
  - rewrite (let_step _ _ _ _ _ _ _ _ Y). specialize (IH (i + 1) _ (ready_cons i (VI (Some t) v) s R) F2).
    destruct (op_vals (i + 1) ops); cbn [bind bound]; [| exact IH]. destruct IH as [-> L]. split; [reflexivity | cbn; now rewrite L].
  - destruct Y as (s' & Y & B). exists s'. split; [| exact B]. exact (let_crash _ _ _ _ _ _ _ _ _ Y).
Qed.
Lemma bound_app : forall vs i s, exists bs, bound i vs s = (bs ++ s)%list.
Proof.
  induction vs as [| v vs IH]; intros i s; [exists []; reflexivity |]. cbn [bound]. destruct (IH (i + 1) ((bname i, VI (Some t) v) :: s)) as (bs & ->).
  exists (bs ++ [(bname i, VI (Some t) v)])%list. now rewrite <- app_assoc.
Qed.
Lemma bound_ready : forall vs i s, ready s -> ready (bound i vs s).
Proof. induction vs as [| v vs IH]; intros i s R; [exact R |]. apply IH. now apply ready_cons. Qed.
Lemma bname_neq : forall i j, 0 <= i -> 0 <= j -> i <> j -> String.eqb (bname i) (bname j) = false.
Proof.
  intros i j I J N. apply String.eqb_neq. intros E. apply N. unfold bname in E. cbn [append] in E. injection E as E.
  now apply dec_injective.
Qed.
Lemma bound_below : forall vs i j s, 0 <= j < i -> RustSem.lookup (bname j) (bound i vs s) = RustSem.lookup (bname j) s.
Proof.
  induction vs as [| v vs IH]; intros i j s H; [reflexivity |]. cbn [bound]. rewrite IH by lia. cbn [RustSem.lookup].
  now rewrite bname_neq by lia.
Qed.
Lemma bound_at : forall vs i s k, 0 <= i -> (k < length vs)%nat ->
  RustSem.lookup (bname (i + Z.of_nat k)) (bound i vs s) = Some (VI (Some t) (nth k vs 0)).
Proof.
  induction vs as [| v vs IH]; intros i s k I K; [cbn in K; lia |]. cbn [bound]. destruct k as [| k].
  - rewrite Z.add_0_r, bound_below by lia. cbn [RustSem.lookup]. now rewrite String.eqb_refl.
  - replace (i + Z.of_nat (S k)) with (i + 1 + Z.of_nat k) by lia. apply IH; [lia | cbn in K; lia].
Qed.
Lemma ors_int : forall f vs i a acc s, is_int m consts sigs hints f a s t (Ok acc) ->
  (forall k, (k < length vs)%nat -> RustSem.lookup (bname (i + Z.of_nat k)) s = Some (VI (Some t) (nth k vs 0))) ->
  is_int m consts sigs hints f (ors a i (length vs)) s t (Ok (fold_left Z.lor vs acc)).
Proof.
  intros f vs. induction vs as [| v vs IH]; intros i a acc s A L; [exact A |]. cbn [length ors fold_left]. apply IH.
  - refine (int_or m consts sigs hints f a (XPath (bname i)) s t (Ok acc) (Ok v) A _). intros w.
    assert (Q : RustSem.lookup (bname i) s = Some (VI (Some t) v)) by (rewrite <- (Z.add_0_r i); exact (L O (PeanoNat.Nat.lt_0_succ _))).
    rewrite (pe_path _ _ _ _ _ _ _ _ _ Q). reflexivity.
  - intros k K. replace (i + 1 + Z.of_nat k) with (i + Z.of_nat (S k)) by lia. apply (L (S k)). cbn. lia.
Qed.
Lemma ors_plain : forall k a i, plain_ex a = true -> plain_ex (ors a i k) = true.
Proof. induction k as [| k IH]; intros a i H; [exact H |]. cbn [ors]. now apply IH. Qed.
Lemma getop_plain : forall op a, plain_ex a = true -> plain_ex (getop_ast op a) = true.
Proof.
  intros op a H. unfold getop_ast, shift_ast, masked_ast. destruct (_ =? 0); [| destruct (_ <? 0); reflexivity].
  destruct (_ =? 255); [exact H | reflexivity].
Qed.
Lemma int_one : forall f s op, ready s -> is_int m consts sigs hints f (getop_ast op (byte_ast base (XPath "co") ty)) s t (x <- idx d co ;; eval_getop m (width t) op x).
Proof.
  intros f s op R. apply int_getop. apply (int_byte m consts sigs hints f base d s (proj1 R) BYTES (XPath "co") (Ok co)); [| exact TY].
  rewrite (pe_path _ _ _ _ _ _ _ _ _ (proj1 (proj2 R))). reflexivity.
Qed.
Lemma getops_run : forall w ops s, ready s -> Forall op_fits ops -> ops <> [] ->
  yields b s (exec w (getops_ast base ty ops) s) (of_res t (gen_get_ops m (width t) ops d co)).
Proof.
  intros w ops s R F N. destruct ops as [| op [| op2 ops]]; [congruence | |].
  - cbn [getops_ast gen_get_ops]. apply ends_block, ends_tail. apply yields_plain.
    + now apply getop_plain.
    + exact (proj2 (proj2 R)).
    + exact (int_one (funs b) s op R w).
    + apply of_res_not.
  - change (getops_ast base ty (op :: op2 :: ops)) with
      (XBlock (lets base ty 0 (op :: op2 :: ops)) (Some (ors (XPath "b0") 1 (length (op2 :: ops))))).
    change (gen_get_ops m (width t) (op :: op2 :: ops) d co) with (get_multi m (width t) (op :: op2 :: ops) d co 0 0).
    rewrite get_multi_vals. pose proof (lets_run w (Some (ors (XPath "b0") 1 (length (op2 :: ops)))) _ 0 s R F) as L.
    apply ends_block. destruct (op_vals 0 (op :: op2 :: ops)) as [vs | e]; cbn [bind of_res ends]; [| exact L].
    destruct L as [-> L]. cbn [run_stmts]. destruct vs as [| v vs]; [discriminate |]. cbn [fold_left].
    destruct (bound_app (v :: vs) 0 s) as (bs & E). exists bs. rewrite <- E.
    assert (LV : length vs = length (op2 :: ops)) by (cbn in L |- *; lia).
    assert (A : is_int m consts sigs hints (funs b) (ors (XPath "b0") 1 (length vs)) (bound 0 (v :: vs) s) t (Ok (fold_left Z.lor vs v))).
    { apply ors_int.
      - intros w'. change "b0" with (bname (0 + Z.of_nat 0)).
        assert (Q : RustSem.lookup (bname (0 + Z.of_nat 0)) (bound 0 (v :: vs) s) = Some (VI (Some t) v)) by exact (bound_at (v :: vs) 0 s 0 (Z.le_refl 0) (PeanoNat.Nat.lt_0_succ _)).
        rewrite (pe_path _ _ _ _ _ _ _ _ _ Q). reflexivity.
      - intros k K. replace (1 + Z.of_nat k) with (0 + Z.of_nat (S k)) by lia. exact (bound_at (v :: vs) 0 s (S k) (Z.le_refl 0) (proj1 (PeanoNat.Nat.succ_lt_mono _ _) K)). }
    rewrite LV in A. pose proof (yields_plain b w _ _ _ (ors_plain (length (op2 :: ops)) (XPath "b0") 1 eq_refl) (proj2 (proj2 (bound_ready (v :: vs) 0 s R))) (A w) (of_res_not _ _)) as Y.
    cbn [of_res yields] in Y. exact Y.
Qed.
Lemma getops_pe : forall f w op s, ready s -> pe m consts sigs hints f w (getops_ast base ty [op]) s = of_res t (gen_get_ops m (width t) [op] d co).
Proof. intros f w op s R. exact (int_one f s op R w). Qed.
End Get.

(** The offset, then the operations. *)
Lemma body_at_run : forall base ty t b w ops co coR s, int_ty ty = Some t -> bytes_ok b -> base = buffer ->
  (forall i, String.eqb buffer (bname i) = false) -> String.eqb buffer "co" = false -> hints "co" = Some Usize ->
  Forall (op_fits t) ops -> ops <> [] -> holds b s -> plain_ex co = true ->
  pe m consts sigs hints (funs b) (Some Usize) co s = of_res Usize coR ->
  yields b s (exec w (body_at co (getops_ast base ty ops)) s) (of_res t (x <- coR ;; gen_get_ops m (width t) ops b x)).
Proof.
  intros base ty t b w ops co coR s TY B -> BN BC HC F N H P E. apply ends_block.
  replace (of_res t (x <- coR ;; gen_get_ops m (width t) ops b x))
    with (andthen (of_res Usize coR) (fun v => match v with VI _ x => of_res t (gen_get_ops m (width t) ops b x) | _ => Bad end))
    by (destruct coR; reflexivity).
  apply ends_let.
  - cbn [let_type]. rewrite HC. apply yields_plain; [exact P | exact H | exact E | apply of_res_not].
  - intros v V. destruct coR as [x |]; [| discriminate]. injection V as <-. apply ends_tail.
    assert (H' : holds b (("co", VI (Some Usize) x) :: s)) by (unfold holds; cbn [RustSem.lookup]; rewrite BC; exact H).
    apply getops_run with (co := x) (b := b) (d := b); auto. split; [exact H' |]. split; [reflexivity | exact H'].
Qed.
End Run.

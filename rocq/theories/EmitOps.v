(** Running the emitted byte operations. *)
From Coq Require Import String Ascii ZArith List Bool Lia.
From Verif Require Import Base BaseFacts DeriveUtil DeriveOps DeriveGen DeriveParse FmtText RustLex RustSyntax RustSem RustMethod RustExec EmitGen EmitWant EmitTransfer.
Import ListNotations.
Open Scope string_scope.
Open Scope Z_scope.

Definition of_res (t : ity) (r : res Z) : outcome rv := match r with Ok z => Val (VI (Some t) z) | Panic e => Pnc e end.

Section Pure.
Variables (m : mode) (consts : string -> option rv) (sigs : string -> option shape) (hints : string -> option ity)
  (funs : string -> list rv -> option answer).
Local Notation pe := (pe m consts sigs hints funs).

Lemma pe_bin : forall w o a b s, is_cmp o = false -> o <> OLand -> o <> OLor ->
  pe w (XBin o a b) s = andthen (pe w a s) (fun x =>
    andthen (pe (if is_shift o then None else match type_of x with Some t => Some t | None => w end) b s) (fun y => result (binary m o x y))).
Proof. intros w o a b s H N1 N2. destruct o; try discriminate; try congruence; reflexivity. Qed.
Lemma pe_int : forall w z s, pe w (XInt "" z) s = Val (VI w z).
Proof. reflexivity. Qed.
Lemma pe_path : forall w x s v, RustSem.lookup x s = Some v -> pe w (XPath x) s = Val (open_ty w v).
Proof. intros w x s v H. cbn [RustExec.pe]. now rewrite H. Qed.
Lemma pe_index : forall w a i s, pe w (XIndex a i) s =
  andthen (pe None a s) (fun av => andthen (pe (Some Usize) i s) (fun iv => result (index av iv))).
Proof. reflexivity. Qed.
Lemma pe_castt : forall w a n t s, int_ty n = Some t -> pe w (XCast a n) s =
  andthen (pe None a s) (fun v => match v with VI _ z => Val (VI (Some t) (cast_u (width t) z)) | _ => Bad end).
Proof. intros w a n t s H. cbn [RustExec.pe]. rewrite H. destruct (pe None a s) as [v | |]; [destruct v |  |]; reflexivity. Qed.

(** An expression with the same integer value whatever type the context asks for. *)
Definition is_int (e : ex) (s : env) (t : ity) (r : res Z) : Prop := forall w, pe w e s = of_res t r.
Definition in_w (t : ity) (r : res Z) : Prop := forall z, r = Ok z -> 0 <= z < 2 ^ width t.

Lemma width_pos : forall t, 8 <= width t <= 64.
Proof. destruct t; cbn; unfold usize; lia. Qed.

Lemma int_and : forall e s t r k, is_int e s t r -> is_int (XBin OAnd e (XInt "" k)) s t (rmap (fun x => Z.land x k) r).
Proof.
  intros e s t r k H w. rewrite pe_bin by (reflexivity || discriminate). rewrite H. destruct r as [x |]; [| reflexivity].
  cbn [of_res andthen type_of is_shift rmap]. rewrite pe_int. cbn [andthen]. unfold result, binary. cbn [is_cmp is_shift].
  destruct t; reflexivity.
Qed.
Lemma int_shl : forall e s t r k, is_int e s t r -> is_int (XBin OShl e (XInt "" k)) s t (x <- r ;; shl_u m (width t) x k).
Proof.
  intros e s t r k H w. rewrite pe_bin by (reflexivity || discriminate). rewrite H. destruct r as [x |]; [| reflexivity].
  cbn [of_res andthen type_of is_shift bind]. rewrite pe_int. cbn [andthen]. unfold result, binary. cbn [is_cmp is_shift arith].
  destruct (shl_u m (width t) x k); reflexivity.
Qed.
Lemma int_shr : forall e s t r k, is_int e s t r -> is_int (XBin OShr e (XInt "" k)) s t (x <- r ;; shr_u m (width t) x k).
Proof.
  intros e s t r k H w. rewrite pe_bin by (reflexivity || discriminate). rewrite H. destruct r as [x |]; [| reflexivity].
  cbn [of_res andthen type_of is_shift bind]. rewrite pe_int. cbn [andthen]. unfold result, binary. cbn [is_cmp is_shift arith].
  destruct (shr_u m (width t) x k); reflexivity.
Qed.
Lemma int_or : forall e1 e2 s t r1 r2, is_int e1 s t r1 -> is_int e2 s t r2 ->
  is_int (XBin OOr e1 e2) s t (x <- r1 ;; y <- r2 ;; Ok (Z.lor x y)).
Proof.
  intros e1 e2 s t r1 r2 H1 H2 w. rewrite pe_bin by (reflexivity || discriminate). rewrite H1. destruct r1 as [x |]; [| reflexivity].
  cbn [of_res andthen type_of is_shift bind]. rewrite H2. destruct r2 as [y |]; [| reflexivity]. cbn [of_res andthen bind].
  unfold result, binary. cbn [is_cmp is_shift arith join]. destruct t; reflexivity.
Qed.
Lemma int_add : forall e1 e2 s t r1 r2, is_int e1 s t r1 -> (forall w, w = Some t -> pe w e2 s = of_res t r2) ->
  is_int (XBin OAdd e1 e2) s t (x <- r1 ;; y <- r2 ;; add_u m (width t) x y).
Proof.
  intros e1 e2 s t r1 r2 H1 H2 w. rewrite pe_bin by (reflexivity || discriminate). rewrite H1. destruct r1 as [x |]; [| reflexivity].
  cbn [of_res andthen type_of is_shift bind]. rewrite H2 by reflexivity. destruct r2 as [y |]; [| reflexivity]. cbn [of_res andthen bind].
  unfold result, binary. cbn [is_cmp is_shift arith join].
  replace (ity_eqb t t) with true by (destruct t; reflexivity). cbn [arith]. destruct (add_u m (width t) x y); reflexivity.
Qed.
Lemma int_cast : forall e s t r n u, is_int e s t r -> int_ty n = Some u -> is_int (XCast e n) s u (rmap (cast_u (width u)) r).
Proof. intros e s t r n u H I w. rewrite (pe_castt _ _ _ _ _ I), H. destruct r; reflexivity. Qed.
Lemma cast_same : forall t r, in_w t r -> rmap (cast_u (width t)) r = r.
Proof. intros t [z |] H; [| reflexivity]. cbn [rmap]. unfold cast_u. now rewrite Z.mod_small by (apply H; reflexivity). Qed.
Lemma int_recast : forall e s t r n, is_int e s t r -> int_ty n = Some t -> in_w t r -> is_int (XCast e n) s t r.
Proof. intros e s t r n H I W. rewrite <- (cast_same t r W). exact (int_cast e s t r n t H I). Qed.

(** ** One byte *)

Section At.
Variables (base : string) (b : buf) (s : env).
Hypothesis BASE : RustSem.lookup base s = Some (VA (Some U8) b).
Hypothesis BYTES : bytes_ok b.

Lemma int_place : forall i p, pe (Some Usize) i s = of_res Usize p -> is_int (XIndex (XPath base) i) s U8 (j <- p ;; idx b j).
Proof.
  intros i p H w. rewrite pe_index, (pe_path _ _ _ _ BASE). cbn [open_ty andthen]. rewrite H. destruct p as [j |]; [| reflexivity].
  cbn [of_res andthen bind]. unfold result, index. cbn [agree ity_eqb]. destruct (idx b j); reflexivity.
Qed.
Lemma idx_byte : forall j x, idx b j = Ok x -> 0 <= x < 256.
Proof. intros j x H. unfold idx in H. destruct ((0 <=? j) && (j <? blen b)); [| discriminate]. inversion H. exact (byte_nth b _ BYTES). Qed.
Lemma place_in : forall t p, in_w t (j <- p ;; idx b j).
Proof.
  intros t p z H. destruct p as [j |]; [| discriminate]. cbn [bind] in H. apply idx_byte in H.
  pose proof (width_pos t). assert (2 ^ 8 <= 2 ^ width t) by (apply Z.pow_le_mono_r; lia). lia.
Qed.
Lemma int_byte : forall i p n t, pe (Some Usize) i s = of_res Usize p -> int_ty n = Some t ->
  is_int (byte_ast base i n) s t (j <- p ;; idx b j).
Proof.
  intros i p n t H I. unfold byte_ast. rewrite <- (cast_same t _ (place_in t p)). apply (int_cast _ _ U8); [| exact I]. now apply int_place.
Qed.
End At.

Lemma int_mask : forall e s t r k, is_int e s t r -> is_int (masked_ast e k) s t (rmap (fun x => if k =? 255 then x else Z.land x k) r).
Proof.
  intros e s t r k H. unfold masked_ast. destruct (k =? 255).
  - intros w. rewrite H. destruct r; reflexivity.
  - now apply int_and.
Qed.
Lemma int_shift : forall e s t r sh, is_int e s t r ->
  is_int (shift_ast e sh) s t (x <- r ;; if sh =? 0 then Ok x else if sh <? 0 then shl_u m (width t) x (- sh) else shr_u m (width t) x sh).
Proof.
  intros e s t r sh H. unfold shift_ast. destruct (sh =? 0).
  - intros w. rewrite H. destruct r; reflexivity.
  - destruct (sh <? 0); [now apply int_shl | now apply int_shr].
Qed.
Lemma int_getop : forall e s t r op, is_int e s t r -> is_int (getop_ast op e) s t (x <- r ;; eval_getop m (width t) op x).
Proof.
  intros e s t r op H w. unfold getop_ast. rewrite (int_shift _ _ _ _ _ (int_mask _ _ _ _ (g_mask op) H) w). destruct r; reflexivity.
Qed.
End Pure.

(** The two ways expressions are run (RustSem.v: with continuations, RustExec.v: by
    recursion) agree on the expressions of length attributes. *)
From Coq Require Import String Ascii ZArith List Bool Lia.
From Verif Require Import Base DeriveGen DeriveParse RustLex RustSyntax RustSem RustExec EmitWant.
Import ListNotations.
Open Scope string_scope.
Open Scope Z_scope.

Definition all_of (f : ex -> bool) : list ex -> bool := fix go (l : list ex) : bool := match l with [] => true | x :: r => (f x && go r)%bool end.
Fixpoint simple (known : string -> bool) (e : ex) {struct e} : bool :=
  match e with
  | XInt _ _ | XMac _ => true
  | XPath p => String.eqb p "self"
  | XCall f l => if String.eqb f "rest" then match l with [] => true | _ => false end
                 else (known f && all_of (simple known) l)%bool
  | XMeth a x l =>
      (negb (existsb (String.eqb x) ["copy_from_slice"; "sum"; "octets"; "segments"; "collect"; "as_slice"; "to_immutable"]) && simple known a && all_of (simple known) l)%bool
  | XProj a _ | XUn _ a | XCast a _ => simple known a
  | XBin _ a b => (simple known a && simple known b)%bool
  | XIf c a b => (simple known c && simple known a && match b with Some x => simple known x | None => true end)%bool
  | XBlock [] (Some a) => simple known a
  | _ => false
  end.

(** ** The recursive evaluator on lists *)

Lemma pes_local : forall m consts sigs hints funs s l w,
  (fix go (w : option ity) (l : list ex) {struct l} : outcome (list rv) :=
    match l with
    | [] => Val []
    | a :: r => andthen (pe m consts sigs hints funs w a s) (fun v => andthen (go w r) (fun vs => Val (v :: vs)))
    end) w l = pes m consts sigs hints funs w l s.
Proof. induction l as [| a l IH]; intros w; [reflexivity |]. cbn [pes]. now rewrite IH. Qed.

Section Pe.
Variables (m : mode) (consts : string -> option rv) (sigs : string -> option shape) (hints : string -> option ity)
  (funs : string -> list rv -> option answer).
Local Notation pe := (pe m consts sigs hints funs).
Local Notation pes := (pes m consts sigs hints funs).
Lemma pe_call : forall w f l s, pe w (XCall f l) s = andthen (pes None l s) (fun vs => call sigs funs f vs).
Proof. intros. rewrite <- pes_local. reflexivity. Qed.
Lemma pe_meth : forall w a x l s, String.eqb x "copy_from_slice" = false -> String.eqb x "sum" = false -> String.eqb x "collect" = false ->
  pe w (XMeth a x l) s = andthen (pe None a s) (fun v => andthen (pes (type_of v) l s) (fun vs => call_method m sigs funs x v vs)).
Proof.
  intros. cbn [RustExec.pe]. rewrite H, H0, H1. destruct (pe None a s); [| reflexivity | reflexivity]. cbn [andthen].
  now rewrite pes_local.
Qed.
Lemma pe_tup : forall w l s, pe w (XTup l) s = andthen (pes None l s) (fun vs => Val (match vs with [] => VUnit | _ => VT vs end)).
Proof. intros. rewrite <- pes_local. reflexivity. Qed.
Lemma pe_arr : forall w l s, pe w (XArr l) s = andthen (pes w l s) array_of.
Proof. intros. rewrite <- pes_local. reflexivity. Qed.
End Pe.

(** ** Naturality of the operations in their continuation *)

Definition after {A} (o : outcome A) (k : A -> out) : out := match o with Val v => k v | Pnc e => Pan e | Bad => Stuck end.
Definition natural (f : (rv -> out) -> out) : Prop := forall k, f k = after (result f) k.
Lemma natural_lift : forall A (r : res A) (g : A -> rv), natural (fun k => lift r (fun z => k (g z))).
Proof. intros A [a | e] g k; reflexivity. Qed.
Ltac nat := repeat first
  [ reflexivity
  | match goal with |- context [lift ?r _] => destruct r; [cbn [lift] | reflexivity] end
  | match goal with |- (match ?x with _ => _ end) _ = _ => destruct x end
  | match goal with |- context [match ?x with _ => _ end] => destruct x end ].
Lemma natural_binary : forall m o a b, natural (binary m o a b).
Proof.
  intros m o a b k. unfold result, binary. destruct a; try reflexivity; destruct b; try reflexivity.
  - destruct (is_cmp o); [destruct (agree t t0); reflexivity |].
    destruct (if is_shift o then t else join t t0) as [w |]; [| reflexivity].
    destruct (arith m o w z z0) as [[v | e] |]; reflexivity.
  - destruct (String.eqb c c0); [destruct o; reflexivity | reflexivity].
Qed.
Lemma natural_called : forall sh a, natural (called sh a).
Proof.
  intros sh a k. unfold result, called. destruct sh; unfold take_int, take_bool, take_bytes, take_obj, take_val, lift;
    destruct a as [[u r | r | r | d u r | r] |]; try reflexivity; try (destruct r; reflexivity).
  - destruct (ity_eqb t u), r; reflexivity.
  - destruct ((String.eqb c d && ity_eqb t u)%bool), r; reflexivity.
Qed.
Lemma natural_method : forall m x v l, natural (method m x v l).
Proof.
  intros m x v l k. unfold result, method. destruct v; try reflexivity;
    (destruct l as [| v1 [| v2 l]]; try reflexivity);
    repeat match goal with
    | |- context [String.eqb ?a ?b] => destruct (String.eqb a b)
    | |- context [match ?v with VUnit => _ | _ => _ end] => destruct v; try reflexivity
    | |- context [match ?t with Some _ => _ | None => _ end] => destruct t; try reflexivity
    | |- context [match ?t with U8 => _ | _ => _ end] => destruct t; try reflexivity
    | |- context [lift ?r _] => destruct r; cbn [lift]; try reflexivity
    | |- context [agree ?a ?b] => destruct (agree a b); try reflexivity
    end; reflexivity.
Qed.
Lemma natural_index : forall a i, natural (index a i).
Proof.
  intros a i k. unfold result, index. destruct a; try reflexivity; destruct i; try reflexivity.
  - destruct (agree (Some Usize) t0); [destruct (idx l z); reflexivity | reflexivity].
  - destruct a as [[t1 lo] |], b as [[t2 hi] |]; try reflexivity; unfold lift;
    match goal with |- context [match ?x with Ok _ => _ | Panic _ => _ end] => destruct x; reflexivity end.
Qed.

(** ** Transfer *)

Section Transfer.
Variables (m : mode) (consts : string -> option rv) (hints0 hints1 : string -> option ity).
Variables (sigs0 sigs1 : string -> option shape) (funs0 funs1 : string -> list rv -> option answer).
Variables (rounds : nat) (ret : option ity) (inner : option ity -> ex -> env -> (rv -> env -> out) -> out).
Variables (known : string -> bool) (s0 s1 : env) (co : ex) (r : res buf).
Hypothesis KNOWN : forall f, known f = true -> sigs0 f <> None.
Hypothesis SIGS : forall f sh, sigs0 f = Some sh -> sigs1 f = Some sh.
Hypothesis FUNS : forall f vs, sigs0 f <> None -> f <> "rest" -> funs1 f vs = funs0 f vs.
Hypothesis REST : sigs0 "rest" = Some SBytes /\ funs0 "rest" [] = Some (ABytes r).
Hypothesis PLACE : forall w, pe m consts sigs1 hints1 funs1 w (XIndex (XPath "self.packet") (XRange (Some co) None)) s1 =
  match r with Ok l => Val (VA (Some U8) l) | Panic e => Pnc e end.
Hypothesis SELF0 : lookup "self" s0 = Some VSelf.
Hypothesis SELF1 : lookup "self" s1 = Some VSelf.

Definition lax (a b : out) : Prop := a = Fuel \/ a = Stuck \/ a = b.
Lemma lax_refl : forall a, lax a a. Proof. intros. right. right. reflexivity. Qed.
Lemma lax_after : forall A a (o : outcome A) k k', lax a (after o k) -> (forall v, o = Val v -> lax (k v) (k' v)) -> lax a (after o k').
Proof.
  intros A a o k k' [H | [H | H]] K; [now left | right; now left |]. destruct o; cbn [after] in *.
  - destruct (K a0 eq_refl) as [Q | [Q | Q]]; [left | right; left | right; right]; congruence.
  - right. now right.
  - right. now left.
Qed.
Lemma after_andthen : forall A B (o : outcome A) (f : A -> outcome B) k, after (andthen o f) k = after o (fun a => after (f a) k).
Proof. intros A B [] f k; reflexivity. Qed.
Lemma self_dot : forall x, "self." ++ x <> "rest".
Proof. intros x H. discriminate. Qed.
Lemma colon : forall a x, a ++ "::" ++ x <> "rest".
Proof.
  intros a x H. do 5 (destruct a as [| ? a]; [cbn in H; congruence |]; cbn in H; try congruence; injection H as -> H; try discriminate).
Qed.

Local Notation ev := (ev m consts funs0 sigs0 hints0 rounds ret inner).
Local Notation evs := (evs m consts funs0 sigs0 hints0 rounds ret inner).
Local Notation evb := (evb m consts funs0 sigs0 hints0 rounds ret inner).
Local Notation pe1 := (pe m consts sigs1 hints1 funs1).
Local Notation pes1 := (pes m consts sigs1 hints1 funs1).

Lemma put_all : forall l, (fix go (l : list ex) : list ex := match l with [] => [] | x :: r => put_rest co x :: go r end) l = map (put_rest co) l.
Proof. induction l as [| x l IH]; [reflexivity |]. cbn [map]. now rewrite IH. Qed.
Lemma leave_same : forall s : env, leave s s = s.
Proof. intros s. unfold leave. now rewrite Nat.sub_diag. Qed.

Lemma transfer : forall n,
  (forall w e k, simple known e = true -> lax (ev n w e s0 k) (after (pe1 w (put_rest co e) s1) (fun v => k v s0))) /\
  (forall w l k, all_of (simple known) l = true -> lax (evs n w l s0 k) (after (pes1 w (map (put_rest co) l) s1) (fun v => k v s0))) /\
  (forall w a k, simple known a = true -> lax (evb n w [] (Some a) s0 k) (after (pe1 w (put_rest co a) s1) (fun v => k v s0))).
Proof.
  induction n as [| n (IHe & IHs & IHb)]; [repeat split; intros; now left |]. split; [| split].
  - intros w e k S. destruct e; cbn [simple] in S; try discriminate; cbn [RustSem.ev put_rest].
    + apply lax_refl.
    + apply String.eqb_eq in S. subst p. rewrite SELF0. cbn [pe]. rewrite SELF1. apply lax_refl.
    + destruct (String.eqb f "rest") eqn:Q.
      * apply String.eqb_eq in Q. subst f. destruct l; [| discriminate]. rewrite PLACE.
        destruct REST as [S1 F1]. destruct n; [now left |]. cbn [RustSem.evs]. rewrite S1, F1. unfold called, take_bytes.
        destruct r; apply lax_refl.
      * apply andb_prop in S. destruct S as [K S]. rewrite put_all, pe_call, after_andthen.
        eapply lax_after; [apply IHs, S |]. intros vs _. cbn beta. destruct (sigs0 f) as [sh |] eqn:SG; [| now apply KNOWN in K].
        unfold call. rewrite (SIGS _ _ SG), FUNS; [| congruence | intros ->; discriminate]. right. right. apply natural_called.
    + apply andb_prop in S. destruct S as [S SL]. apply andb_prop in S. destruct S as [NX SE].
      cbn [existsb] in NX. apply negb_true_iff in NX. repeat (apply orb_false_iff in NX; destruct NX as [? NX]).
      rewrite H, H0. rewrite put_all, pe_meth, after_andthen by assumption.
      eapply lax_after; [apply IHe, SE |]. intros v _. cbn beta. rewrite after_andthen.
      eapply lax_after; [apply IHs, SL |]. intros vs _. cbn beta. unfold call_method.
      destruct v; try (right; right; apply natural_method); try (rewrite H4, H5; right; right; apply natural_method).
      * destruct (sigs0 (c ++ "::" ++ m0)) as [sh |] eqn:SG.
        -- rewrite (SIGS _ _ SG), FUNS; [| congruence | apply colon]. right. right. apply natural_called.
        -- right. left. unfold method. destruct vs; [| reflexivity]. rewrite H1, H2. destruct (String.eqb c "Ipv4Addr"), (String.eqb c "Ipv6Addr"); reflexivity.
      * destruct (sigs0 (c ++ "::" ++ m0)) as [sh |] eqn:SG; [| right; now left].
        rewrite (SIGS _ _ SG), FUNS; [| congruence | apply colon]. right. right. apply natural_called.
      * destruct (sigs0 ("self." ++ m0)) as [sh |] eqn:SG; [| right; now left].
        rewrite (SIGS _ _ SG), FUNS; [| congruence | apply self_dot]. right. right. apply natural_called.
    + cbn [pe]. rewrite after_andthen. eapply lax_after; [apply IHe, S |]. intros v _. cbn beta.
      destruct v; try (right; now left); [destruct (proj x l) | destruct (lookup x l)]; try (right; now left); apply lax_refl.
    + destruct o; cbn [pe]; try (apply IHe, S). rewrite after_andthen. eapply lax_after; [apply IHe, S |]. intros v _. cbn beta.
      destruct v as [| [t |] z | | | | | | | | | | | | |]; try (right; now left); apply lax_refl.
    + apply andb_prop in S. destruct S as [SA SB]. destruct o; cbn [pe]; rewrite after_andthen;
        (eapply lax_after; [apply IHe, SA |]; intros v _; cbn beta);
        try (rewrite after_andthen; eapply lax_after; [apply IHe, SB |]; intros v2 _; cbn beta; right; right; apply natural_binary);
        (destruct v; try (right; now left); destruct b; try apply lax_refl; apply IHe, SB).
    + cbn [pe]. rewrite after_andthen. eapply lax_after; [apply IHe, S |]. intros v _. cbn beta.
      destruct v; try (right; now left). destruct (int_ty t); [apply lax_refl | right; now left].
    + apply andb_prop in S. destruct S as [S SB]. apply andb_prop in S. destruct S as [SC SA].
      cbn [pe]. rewrite after_andthen. eapply lax_after; [apply IHe, SC |]. intros v _. cbn beta.
      destruct v; try (right; now left). destruct b0; [apply IHe, SA |]. destruct b as [b |]; [apply IHe, SB | apply lax_refl].
    + destruct l; [| discriminate]. destruct e as [a |]; [| discriminate]. cbn [pe].
      eapply lax_after; [apply IHb, S |]. intros v _. cbn beta. rewrite leave_same. apply lax_refl.
    + cbn [pe]. destruct (String.eqb m0 "unimplemented"); apply lax_refl.
  - intros w l k S. destruct l as [| a l]; cbn [RustSem.evs map RustExec.pes]; [apply lax_refl |].
    cbn [all_of] in S. apply andb_prop in S. destruct S as [SA SL]. rewrite after_andthen.
    eapply lax_after; [apply IHe, SA |]. intros v _. cbn beta. rewrite after_andthen.
    eapply lax_after; [apply IHs, SL |]. intros vs _. apply lax_refl.
  - intros w a k S. cbn [RustSem.evb]. apply IHe, S.
Qed.
End Transfer.

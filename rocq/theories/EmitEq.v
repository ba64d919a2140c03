(** Equality of methods is decidable. *)
From Coq Require Import String ZArith List Bool.
From Verif Require Import Base RustLex RustSyntax RustMethod.
Import ListNotations.

Definition opt_eqb {A} (eqb : A -> A -> bool) (a b : option A) : bool :=
  match a, b with Some x, Some y => eqb x y | None, None => true | _, _ => false end.
Fixpoint list_eqb {A} (eqb : A -> A -> bool) (a b : list A) : bool :=
  match a, b with [], [] => true | x :: r, y :: s => (eqb x y && list_eqb eqb r s)%bool | _, _ => false end.
Lemma opt_eqb_ok : forall A (f : A -> A -> bool) a, (forall x, a = Some x -> forall y, f x y = true -> x = y) ->
  forall b, opt_eqb f a b = true -> a = b.
Proof. intros A f [x |] H [y |] E; cbn in E; try discriminate; [f_equal; eauto | reflexivity]. Qed.
Lemma list_eqb_ok : forall A (f : A -> A -> bool) a, Forall (fun x => forall y, f x y = true -> x = y) a ->
  forall b, list_eqb f a b = true -> a = b.
Proof.
  intros A f a H. induction H as [| x a H _ IH]; intros [| y b] E; cbn in E; try discriminate; [reflexivity |].
  apply andb_prop in E. destruct E. f_equal; auto.
Qed.

Definition binop_eqb (a b : binop) : bool :=
  match a, b with
  | OMul, OMul | ODiv, ODiv | ORem, ORem | OAdd, OAdd | OSub, OSub | OShl, OShl | OShr, OShr | OAnd, OAnd
  | OXor, OXor | OOr, OOr | OEq, OEq | ONe, ONe | OLt, OLt | OGt, OGt | OLe, OLe | OGe, OGe | OLand, OLand | OLor, OLor => true
  | _, _ => false
  end.
Lemma binop_eqb_ok : forall a b, binop_eqb a b = true -> a = b.
Proof. intros [] [] H; try reflexivity; discriminate. Qed.
Definition unop_eqb (a b : unop) : bool := match a, b with URef, URef | UDeref, UDeref | UNot, UNot => true | _, _ => false end.
Lemma unop_eqb_ok : forall a b, unop_eqb a b = true -> a = b.
Proof. intros [] [] H; try reflexivity; discriminate. Qed.

Fixpoint pat_eqb (a b : pat) {struct a} : bool :=
  let all := fix go (l s : list pat) {struct l} : bool :=
    match l, s with [], [] => true | x :: r, y :: q => (pat_eqb x y && go r q)%bool | _, _ => false end in
  match a, b with
  | PWild, PWild => true
  | PVar x, PVar y | PPath x, PPath y => String.eqb x y
  | PCon x l, PCon y s => (String.eqb x y && all l s)%bool
  | PTup l, PTup s => all l s
  | PInt x, PInt y => Z.eqb x y
  | _, _ => false
  end.
Fixpoint pat_eqb_ok (a : pat) : forall b, pat_eqb a b = true -> a = b.
Proof.
  assert (ALL : forall l s, (fix go (l s : list pat) {struct l} : bool :=
    match l, s with [], [] => true | x :: r, y :: q => (pat_eqb x y && go r q)%bool | _, _ => false end) l s = true -> l = s).
  { fix IHl 1. intros [| x l] [| y s] H; try discriminate; [reflexivity |]. apply andb_prop in H. destruct H as [A B].
    apply pat_eqb_ok in A. apply IHl in B. now subst. }
  destruct a; intros [] H; cbn in H; try discriminate; try reflexivity.
  - apply String.eqb_eq in H. now subst.
  - apply String.eqb_eq in H. now subst.
  - apply andb_prop in H. destruct H as [A B]. apply String.eqb_eq in A. apply ALL in B. now subst.
  - apply ALL in H. now subst.
  - apply Z.eqb_eq in H. now subst.
Qed.

Fixpoint ex_eqb (a b : ex) {struct a} : bool :=
  let all := fix go (l s : list ex) {struct l} : bool :=
    match l, s with [], [] => true | x :: r, y :: q => (ex_eqb x y && go r q)%bool | _, _ => false end in
  let opt (a b : option ex) := match a, b with Some x, Some y => ex_eqb x y | None, None => true | _, _ => false end in
  match a, b with
  | XInt t x, XInt u y => (String.eqb t u && Z.eqb x y)%bool
  | XPath x, XPath y | XMac x, XMac y => String.eqb x y
  | XCall f l, XCall g s => (String.eqb f g && all l s)%bool
  | XMeth x f l, XMeth y g s => (ex_eqb x y && (String.eqb f g && all l s))%bool
  | XProj x f, XProj y g => (ex_eqb x y && String.eqb f g)%bool
  | XIndex x i, XIndex y j | XRep x i, XRep y j => (ex_eqb x y && ex_eqb i j)%bool
  | XRange x i, XRange y j => (opt x y && opt i j)%bool
  | XUn o x, XUn p y => (unop_eqb o p && ex_eqb x y)%bool
  | XBin o x i, XBin p y j => (binop_eqb o p && (ex_eqb x y && ex_eqb i j))%bool
  | XCast x t, XCast y u => (ex_eqb x y && String.eqb t u)%bool
  | XTup l, XTup s | XArr l, XArr s => all l s
  | XClo x i, XClo y j => (list_eqb String.eqb x y && ex_eqb i j)%bool
  | XIf x i u, XIf y j v => (ex_eqb x y && (ex_eqb i j && opt u v))%bool
  | XMatch x l, XMatch y s =>
      (ex_eqb x y &&
       (fix go (l s : list (pat * option ex * ex)) {struct l} : bool :=
          match l, s with
          | [], [] => true
          | (p, u, i) :: r, (q, v, j) :: t => (pat_eqb p q && (opt u v && (ex_eqb i j && go r t)))%bool
          | _, _ => false
          end) l s)%bool
  | XBlock l t, XBlock s u =>
      ((fix go (l s : list st) {struct l} : bool :=
          match l, s with [], [] => true | x :: r, y :: q => (st_eqb x y && go r q)%bool | _, _ => false end) l s && opt t u)%bool
  | XRet x, XRet y => opt x y
  | _, _ => false
  end
with st_eqb (a b : st) {struct a} : bool :=
  match a, b with
  | SLet p t x, SLet q u y => (pat_eqb p q && (opt_eqb String.eqb t u && ex_eqb x y))%bool
  | SSet o x i, SSet p y j => (opt_eqb binop_eqb o p && (ex_eqb x y && ex_eqb i j))%bool
  | SExp x, SExp y => ex_eqb x y
  | SFor p x i, SFor q y j => (pat_eqb p q && (ex_eqb x y && ex_eqb i j))%bool
  | SWhile x i, SWhile y j => (ex_eqb x y && ex_eqb i j)%bool
  | _, _ => false
  end.

Ltac split_and := repeat match goal with H : (_ && _)%bool = true |- _ => apply andb_prop in H; destruct H end.
Lemma str_opt_ok : forall a b, opt_eqb String.eqb a b = true -> a = b.
Proof. intros a b. apply opt_eqb_ok. intros x _ y H. now apply String.eqb_eq. Qed.
Lemma bin_opt_ok : forall a b, opt_eqb binop_eqb a b = true -> a = b.
Proof. intros a b. apply opt_eqb_ok. intros x _ y H. now apply binop_eqb_ok. Qed.
Lemma strs_ok : forall a b, list_eqb String.eqb a b = true -> a = b.
Proof. intros a b. apply list_eqb_ok. apply Forall_forall. intros x _ y H. now apply String.eqb_eq. Qed.

Fixpoint ex_eqb_ok (a : ex) : forall b, ex_eqb a b = true -> a = b
with st_eqb_ok (a : st) : forall b, st_eqb a b = true -> a = b.
Proof.
  - assert (ALL : forall l s, (fix go (l s : list ex) {struct l} : bool :=
      match l, s with [], [] => true | x :: r, y :: q => (ex_eqb x y && go r q)%bool | _, _ => false end) l s = true -> l = s).
    { fix IHl 1. intros [| x l] [| y s] H; try discriminate; [reflexivity |]. apply andb_prop in H. destruct H as [A B].
      apply ex_eqb_ok in A. apply IHl in B. now subst. }
    assert (OPT : forall a b, match a, b with Some x, Some y => ex_eqb x y | None, None => true | _, _ => false end = true -> a = b).
    { intros [x |] [y |] H; try discriminate; [apply ex_eqb_ok in H; now subst | reflexivity]. }
    assert (ARM : forall l s, (fix go (l s : list (pat * option ex * ex)) {struct l} : bool :=
          match l, s with
          | [], [] => true
          | (p, u, i) :: r, (q, v, j) :: t =>
              (pat_eqb p q && (match u, v with Some x, Some y => ex_eqb x y | None, None => true | _, _ => false end && (ex_eqb i j && go r t)))%bool
          | _, _ => false
          end) l s = true -> l = s).
    { fix IHl 1. intros [| [[p u] i] l] [| [[q v] j] s] H; try discriminate; [reflexivity |]. split_and.
      match goal with H : pat_eqb _ _ = true |- _ => apply pat_eqb_ok in H end.
      match goal with H : ex_eqb _ _ = true |- _ => apply ex_eqb_ok in H end.
      match goal with H : _ l s = true |- _ => apply IHl in H end. subst. do 2 f_equal.
      destruct u as [u |], v as [v |]; try discriminate; [| reflexivity].
      match goal with H : ex_eqb _ _ = true |- _ => apply ex_eqb_ok in H end. now subst. }
    assert (STS : forall l s, (fix go (l s : list st) {struct l} : bool :=
          match l, s with [], [] => true | x :: r, y :: q => (st_eqb x y && go r q)%bool | _, _ => false end) l s = true -> l = s).
    { fix IHl 1. intros [| x l] [| y s] H; try discriminate; [reflexivity |]. apply andb_prop in H. destruct H as [A B].
      apply st_eqb_ok in A. apply IHl in B. now subst. }
    destruct a; intros [] H; cbn [ex_eqb] in H; try discriminate; split_and;
      repeat match goal with
      | H : String.eqb _ _ = true |- _ => apply String.eqb_eq in H
      | H : Z.eqb _ _ = true |- _ => apply Z.eqb_eq in H
      | H : ex_eqb _ _ = true |- _ => apply ex_eqb_ok in H
      | H : binop_eqb _ _ = true |- _ => apply binop_eqb_ok in H
      | H : unop_eqb _ _ = true |- _ => apply unop_eqb_ok in H
      | H : list_eqb _ _ _ = true |- _ => apply strs_ok in H
      | H : _ = true |- _ => first [apply OPT in H | apply ALL in H | apply ARM in H | apply STS in H]
      end; subst; reflexivity.
  - destruct a; intros [] H; cbn [st_eqb] in H; try discriminate; split_and;
      repeat match goal with
      | H : pat_eqb _ _ = true |- _ => apply pat_eqb_ok in H
      | H : ex_eqb _ _ = true |- _ => apply ex_eqb_ok in H
      | H : opt_eqb String.eqb _ _ = true |- _ => apply str_opt_ok in H
      | H : opt_eqb binop_eqb _ _ = true |- _ => apply bin_opt_ok in H
      end; subst; reflexivity.
Qed.

Definition par_eqb (a b : string * string) : bool := (String.eqb (fst a) (fst b) && String.eqb (snd a) (snd b))%bool.
Definition fn_eqb (a b : fn) : bool :=
  (String.eqb (fn_name a) (fn_name b) && (list_eqb par_eqb (fn_params a) (fn_params b) &&
   (String.eqb (fn_ret a) (fn_ret b) && ex_eqb (fn_body a) (fn_body b))))%bool.
Lemma fn_eqb_ok : forall a b, fn_eqb a b = true -> a = b.
Proof.
  intros [n1 p1 r1 b1] [n2 p2 r2 b2] H. unfold fn_eqb in H. cbn [fn_name fn_params fn_ret fn_body] in H. split_and.
  match goal with H : ex_eqb _ _ = true |- _ => apply ex_eqb_ok in H end.
  repeat match goal with H : String.eqb _ _ = true |- _ => apply String.eqb_eq in H end.
  match goal with H : list_eqb _ _ _ = true |- _ => apply list_eqb_ok in H end; [now subst |].
  apply Forall_forall. intros [x y] _ [u v] Q. unfold par_eqb in Q. cbn [fst snd] in Q. split_and.
  repeat match goal with H : String.eqb _ _ = true |- _ => apply String.eqb_eq in H end. now subst.
Qed.
Definition meth_eqb (a b : meth) : bool := (fn_eqb (m_fn a) (m_fn b) && list_eqb fn_eqb (m_items a) (m_items b))%bool.
Lemma meth_eqb_ok : forall a b, meth_eqb a b = true -> a = b.
Proof.
  intros [f1 i1] [f2 i2] H. unfold meth_eqb in H. cbn [m_fn m_items] in H. split_and.
  match goal with H : fn_eqb _ _ = true |- _ => apply fn_eqb_ok in H end.
  match goal with H : list_eqb _ _ _ = true |- _ => apply list_eqb_ok in H end; [now subst |].
  apply Forall_forall. intros x _ y Q. now apply fn_eqb_ok.
Qed.
